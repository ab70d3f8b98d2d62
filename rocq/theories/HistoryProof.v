(** * Normal forms of call histories (C57). *)
From Verif Require Import Base Lemmas Hasher HasherSpec HasherProof Library LibraryProof XLibraryProof LibraryTypes LibraryTypesProof Inputs Process BindTypes Collide HistorySpec.

(** ** Parameters as functions of the last values *)
Section Sets.
  Context {param A : Type} (set : param -> list N -> A -> option A) (acc : param -> list N -> bool).
  Hypothesis Hacc : forall q v p, match set q v p with None => acc q v = false | Some _ => acc q v = true end.
  Hypothesis Hcomm : forall q1 q2 v1 v2 p p1 p2, q1 <> q2 -> set q1 v1 p = Some p1 -> set q2 v2 p = Some p2 -> set q2 v2 p1 = set q1 v1 p2.
  Hypothesis Hover : forall q v1 v2 p p1, v2 <> [] -> set q v1 p = Some p1 -> set q v2 p1 = set q v2 p.
  Hypothesis Hdec : forall q1 q2 : param, q1 = q2 \/ q1 <> q2.
  Definition set1 (p : A) (x : param * list N) : A := match set (fst x) (snd x) p with Some p' => p' | None => p end.
  Definition fine (x : param * list N) : Prop := acc (fst x) (snd x) = true /\ snd x <> [].
  Lemma acc_some q v p : acc q v = true -> exists p', set q v p = Some p'.
  Proof. intros H. specialize (Hacc q v p). destruct (set q v p); [eauto|congruence]. Qed.
  Lemma set1_comm x y p : fst x <> fst y -> fine x -> fine y -> set1 (set1 p x) y = set1 (set1 p y) x.
  Proof.
    destruct x as [q1 v1], y as [q2 v2]. cbn [fst snd]. intros Hq [A1 _] [A2 _]. cbn [fst snd] in *. unfold set1. cbn [fst snd].
    destruct (acc_some q1 v1 p A1) as [p1 E1], (acc_some q2 v2 p A2) as [p2 E2]. rewrite E1, E2.
    pose proof (Hcomm q1 q2 v1 v2 p p1 p2 Hq E1 E2) as E. destruct (acc_some q2 v2 p1 A2) as [p3 E3]. rewrite E3 in E. rewrite <- E, E3. reflexivity.
  Qed.
  Lemma set1_over q v w p : fine (q, v) -> fine (q, w) -> set1 (set1 p (q, v)) (q, w) = set1 p (q, w).
  Proof.
    intros [A1 _] [A2 N2]. cbn [fst snd] in *. unfold set1. cbn [fst snd]. destruct (acc_some q v p A1) as [p1 E1]. rewrite E1.
    rewrite (Hover q v w p p1 N2 E1). destruct (acc_some q w p A2) as [p2 E2]. rewrite E2. reflexivity.
  Qed.
  Lemma move q v l : Forall fine l -> fine (q, v) -> (forall w, ~ In (q, w) l) -> forall p,
    fold_left set1 l (set1 p (q, v)) = set1 (fold_left set1 l p) (q, v).
  Proof.
    intros F Fv. induction F as [|[q' w'] l Fx F IH]; intros Hn p; [reflexivity|]. cbn [fold_left].
    rewrite set1_comm; auto; [|cbn; intros ->; apply (Hn w'); left; reflexivity]. apply IH. intros w Hw. apply (Hn w). right. exact Hw.
  Qed.
  (** Earlier values of [q] do not matter. *)
  Lemma drop q v l : Forall fine l -> fine (q, v) -> exists l', Forall fine l' /\ (forall w, ~ In (q, w) l') /\ (length l' <= length l)%nat /\
    (forall p, set1 (fold_left set1 l p) (q, v) = set1 (fold_left set1 l' p) (q, v)) /\
    forall q' w, q' <> q -> (last_value q' w l <-> last_value q' w l').
  Proof.
    intros F Fv. induction l as [|[q1 v1] l IH] using rev_ind.
    - exists []. split; [constructor|]. split; [intros w []|]. split; [lia|]. split; [reflexivity|]. tauto.
    - apply Forall_app in F. destruct F as [F F1]. inversion F1 as [|? ? F2 _]; subst. destruct (IH F) as (l' & G1 & G2 & G3 & G4 & G5).
      rewrite app_length. cbn [length]. destruct (Hdec q1 q) as [->|Hq].
      + exists l'. split; [exact G1|]. split; [exact G2|]. split; [lia|]. split.
        * intros p. rewrite fold_left_app. cbn [fold_left]. rewrite set1_over by assumption. apply G4.
        * intros q' w Hq'. rewrite <- G5 by exact Hq'. split.
          -- intros (a & b & E & Hb). destruct b as [|y b] using rev_ind; [apply app_inj_tail in E; destruct E as [_ E]; inversion E; congruence|clear IHb].
             change (a ++ (q', w) :: b ++ [y]) with (a ++ ((q', w) :: b) ++ [y]) in E. rewrite app_assoc in E. apply app_inj_tail in E. destruct E as [-> <-].
             exists a, b. split; [reflexivity|]. intros u Hu. apply (Hb u), in_or_app. left. exact Hu.
          -- intros (a & b & -> & Hb). exists a, (b ++ [(q, v1)]). split; [rewrite <- app_assoc; reflexivity|].
             intros u Hu. apply in_app_or in Hu. destruct Hu as [Hu|[Hu|[]]]; [exact (Hb u Hu)|inversion Hu; congruence].
      + exists (l' ++ [(q1, v1)]). split; [apply Forall_app; split; [exact G1|repeat constructor; apply F2]|]. split.
        { intros w Hw. apply in_app_or in Hw. destruct Hw as [Hw|[Hw|[]]]; [exact (G2 w Hw)|inversion Hw; congruence]. }
        split; [rewrite app_length; cbn [length]; lia|]. split.
        * intros p. rewrite !fold_left_app. cbn [fold_left]. rewrite !(set1_comm (q1, v1) (q, v)) by (cbn; auto). rewrite G4. reflexivity.
        * intros q' w Hq'.
          assert (K : forall m, (forall q' w, q' <> q -> (last_value q' w l <-> last_value q' w m)) -> last_value q' w (l ++ [(q1, v1)]) -> last_value q' w (m ++ [(q1, v1)])).
          { intros m Hm (a & b & E & Hb). destruct b as [|y b] using rev_ind.
            - apply app_inj_tail in E. destruct E as [_ E]. exists m, []. rewrite E. split; [reflexivity|]. intros u [].
            - clear IHb. change (a ++ (q', w) :: b ++ [y]) with (a ++ ((q', w) :: b) ++ [y]) in E. rewrite app_assoc in E. apply app_inj_tail in E. destruct E as [-> <-].
              assert (L : last_value q' w (a ++ (q', w) :: b)) by (exists a, b; split; [reflexivity|]; intros u Hu; apply (Hb u), in_or_app; left; exact Hu).
              apply Hm in L; [|exact Hq']. destruct L as (a' & b' & -> & Hb'). exists a', (b' ++ [(q1, v1)]). split; [rewrite <- app_assoc; reflexivity|].
              intros u Hu. apply in_app_or in Hu. destruct Hu as [Hu|[Hu|[]]]; [exact (Hb' u Hu)|]. apply (Hb u), in_or_app. right. left. exact Hu. }
          split; [apply K; exact G5|]. intros (a & b & E & Hb). destruct b as [|y b] using rev_ind.
          -- apply app_inj_tail in E. destruct E as [_ E]. exists l, []. rewrite E. split; [reflexivity|]. intros u [].
          -- clear IHb. change (a ++ (q', w) :: b ++ [y]) with (a ++ ((q', w) :: b) ++ [y]) in E. rewrite app_assoc in E. apply app_inj_tail in E. destruct E as [-> <-].
             assert (L : last_value q' w (a ++ (q', w) :: b)) by (exists a, b; split; [reflexivity|]; intros u Hu; apply (Hb u), in_or_app; left; exact Hu).
             apply G5 in L; [|exact Hq']. destruct L as (a' & b' & -> & Hb'). exists a', (b' ++ [(q1, v1)]). split; [rewrite <- app_assoc; reflexivity|].
             intros u Hu. apply in_app_or in Hu. destruct Hu as [Hu|[Hu|[]]]; [exact (Hb' u Hu)|]. apply (Hb u), in_or_app. right. left. exact Hu.
  Qed.
  Lemma last_none (q : param) v l : (forall w, ~ In (q, w) l) -> ~ last_value q v l.
  Proof. intros H (a & b & -> & _). apply (H v), in_or_app. right. left. reflexivity. Qed.
  Lemma last_other (q : param) v q' w (l : list (param * list N)) b : q' <> q -> (last_value q' w (l ++ b) <-> last_value q' w (l ++ (q, v) :: b)).
  Proof.
    intros Hq. split.
    - intros (a & c & E & Hc). apply app_eq_app in E. destruct E as (m & [[-> E]|[-> E]]).
      + destruct m as [|x m].
        * cbn [app] in E. subst b. rewrite app_nil_r. exists (a ++ [(q, v)]), c. split; [rewrite <- app_assoc; reflexivity|exact Hc].
        * cbn [app] in E. inversion E; subst. exists a, (m ++ (q, v) :: b). split; [rewrite <- app_assoc; reflexivity|].
          intros u Hu. apply in_app_or in Hu. destruct Hu as [Hu|[Hu|Hu]]; [|inversion Hu; congruence|]; apply (Hc u), in_or_app; auto.
      + subst b. exists (l ++ (q, v) :: m), c. split; [rewrite <- app_assoc; reflexivity|exact Hc].
    - intros (a & c & E & Hc). apply app_eq_app in E. destruct E as (m & [[-> E]|[-> E]]).
      + destruct m as [|x m].
        * cbn [app] in E. inversion E; congruence.
        * cbn [app] in E. inversion E; subst. exists a, (m ++ b). split; [rewrite <- app_assoc; reflexivity|].
          intros u Hu. apply (Hc u). apply in_app_or in Hu. apply in_or_app. destruct Hu; [left|right; right]; assumption.
      + destruct m as [|x m].
        * cbn [app] in E. inversion E; congruence.
        * cbn [app] in E. inversion E; subst. exists (l ++ m), c. split; [rewrite <- app_assoc; reflexivity|exact Hc].
  Qed.
  Theorem sets_same n : forall l1 l2, (length l1 <= n)%nat -> Forall fine l1 -> Forall fine l2 -> same_values l1 l2 ->
    forall p, fold_left set1 l1 p = fold_left set1 l2 p.
  Proof.
    induction n as [|n IH]; intros l1 l2 L F1 F2 E p.
    - destruct l1; [|cbn in L; lia]. destruct l2 as [|[q v] l2] using rev_ind; [reflexivity|]. exfalso.
      destruct (proj2 (E q v)) as (a & b & X & _); [exists l2, []; split; [reflexivity|intros w []]|]. destruct a; discriminate X.
    - destruct l1 as [|[q v] l1 _] using rev_ind.
      + destruct l2 as [|[q v] l2] using rev_ind; [reflexivity|]. exfalso.
        destruct (proj2 (E q v)) as (a & b & X & _); [exists l2, []; split; [reflexivity|intros w []]|]. destruct a; discriminate X.
      + rewrite app_length in L. cbn [length] in L. apply Forall_app in F1. destruct F1 as [F1 Fv]. inversion Fv as [|? ? Fq _]; subst.
        destruct (proj1 (E q v)) as (a & b & -> & Hb); [exists l1, []; split; [reflexivity|intros w []]|].
        apply Forall_app in F2. destruct F2 as [Fa F2]. inversion F2 as [|? ? _ Fb]; subst.
        rewrite !fold_left_app. cbn [fold_left]. rewrite move by assumption. rewrite <- fold_left_app.
        destruct (drop q v l1 F1 Fq) as (l1' & A1 & A2 & A3 & A4 & A5).
        destruct (drop q v (a ++ b) (proj2 (Forall_app _ _ _) (conj Fa Fb)) Fq) as (l2' & B1 & B2 & B3 & B4 & B5).
        rewrite A4, B4. f_equal. apply IH; auto; [lia|]. intros q' w. destruct (Hdec q' q) as [->|Hq].
        * split; intros X; exfalso; [exact (last_none q w l1' A2 X)|exact (last_none q w l2' B2 X)].
        * rewrite <- A5, <- B5 by exact Hq.
          rewrite (last_other q v q' w a b Hq). rewrite <- (E q' w). pose proof (last_other q v q' w l1 [] Hq) as X. rewrite app_nil_r in X. exact X.
  Qed.
End Sets.

(** ** Fixed-output types *)
Section History.
  Context {P : hash_provider} (T : htype P) (S : hash_spec (p_param P)) (G : good T S).
  Let s1 := set1 (sp_set S).
  Lemma ast_settings ops : forall l a, fst a = fold_left s1 l (sp_default S) -> fst (ast S a ops) = fold_left s1 (settings_from T l ops) (sp_default S).
  Proof.
    induction ops as [|o r IH]; intros l a E; [exact E|]. rewrite ast_cons. destruct a as [p m]. cbn [fst] in E.
    destruct o as [[f d|[]|q v]|b| |]; cbn [settings_from astep abase fst]; try (apply IH; exact E); [apply IH; reflexivity|].
    pose proof (g_acc _ _ G q v p) as K. destruct (sp_set S q v p) as [p'|] eqn:Es; rewrite K; apply IH; [|exact E].
    cbn [fst]. rewrite fold_left_app. cbn [fold_left]. rewrite <- E. unfold s1, set1. cbn [fst snd]. rewrite Es. reflexivity.
  Qed.
  Lemma settings_ok ops : forall l, hcalls T ops -> Forall (fun x => ht_accepts T (fst x) (snd x) = true /\ is_bytes (snd x)) l ->
    Forall (fun x => ht_accepts T (fst x) (snd x) = true /\ is_bytes (snd x)) (settings_from T l ops).
  Proof.
    induction ops as [|o r IH]; intros l H F; [exact F|]. inversion H as [|? ? Ho Hr]; subst.
    destruct o as [[f d|[]|q v]|b| |]; cbn [settings_from]; try (apply IH; auto; fail).
    apply IH; [exact Hr|]. destruct (ht_accepts T q v) eqn:E; [|exact F]. apply Forall_app. split; [exact F|]. constructor; [split; [exact E|exact Ho]|constructor].
  Qed.
  Lemma ast_direct l m : forall p, Forall (fun x => ht_accepts T (fst x) (snd x) = true /\ is_bytes (snd x)) l ->
    ast S (p, []) (direct l m) = (fold_left s1 l p, m).
  Proof.
    unfold direct. induction l as [|[q v] l IH]; intros p F; [reflexivity|]. inversion F as [|? ? [A _] F']; subst. cbn [map app fst snd] in *. rewrite ast_cons. cbn [astep abase].
    pose proof (g_acc _ _ G q v p) as K. cbn [fold_left]. unfold s1 at 2, set1. cbn [fst snd]. destruct (sp_set S q v p) as [p'|]; [|congruence]. apply IH. exact F'.
  Qed.
  Lemma direct_calls l m : Forall (fun x => ht_accepts T (fst x) (snd x) = true /\ is_bytes (snd x)) l -> is_bytes m -> hcalls T (direct l m).
  Proof.
    intros F M. unfold direct, hcalls. apply Forall_app. split; [|constructor; [exact M|constructor]].
    apply Forall_map. eapply Forall_impl; [|exact F]. intros [q v] [_ B]. exact B.
  Qed.
  Lemma ast_history ops : hcalls T ops -> ast S (afresh S) ops = (fold_left s1 (settings T ops) (sp_default S), since T ops).
  Proof.
    intros H. rewrite (surjective_pairing (ast S (afresh S) ops)). f_equal; [apply ast_settings; reflexivity|apply (ast_since T S G ops (afresh S))].
  Qed.
  Theorem history_direct g g' ops post : ht_mem_ok T g -> ht_mem_ok T g' -> hcalls T ops -> hcalls T post ->
    exists r, after T g ops post = Ok r /\ after T g' (direct (settings T ops) (since T ops)) post = Ok r.
  Proof.
    intros Hg Hg' H1 H2. pose proof (settings_ok ops [] H1 (Forall_nil _)) as F. eexists. split; [apply (after_eq G); auto|].
    rewrite (after_eq G) by (auto; (apply direct_calls; [exact F|apply since_bytes; exact H1])).
    rewrite (ast_history ops H1). unfold afresh. rewrite ast_direct by exact F. reflexivity.
  Qed.
  Theorem history_same g g' ops ops' post : (forall q1 q2 : p_param P, q1 = q2 \/ q1 <> q2) ->
    ht_mem_ok T g -> ht_mem_ok T g' -> hcalls T ops -> hcalls T ops' -> hcalls T post ->
    no_empty (settings T ops) -> no_empty (settings T ops') -> same_values (settings T ops) (settings T ops') -> since T ops = since T ops' ->
    exists r, after T g ops post = Ok r /\ after T g' ops' post = Ok r.
  Proof.
    intros D Hg Hg' H1 H1' H2 N1 N2 V M. eexists. split; [apply (after_eq G); auto|]. rewrite (after_eq G) by auto. do 3 f_equal.
    rewrite !ast_history by assumption. f_equal; [|symmetry; exact M]. symmetry.
    assert (K : forall o, hcalls T o -> no_empty (settings T o) -> Forall (fine (ht_accepts T)) (settings T o)).
    { intros o Ho Hn. pose proof (settings_ok o [] Ho (Forall_nil _)) as F. unfold no_empty in Hn. rewrite Forall_forall in *. intros x Hx. split; [apply F|apply Hn]; exact Hx. }
    eapply (sets_same (sp_set S) (ht_accepts T) (g_acc _ _ G) (g_comm _ _ G) (g_over _ _ G) D); [reflexivity|auto..].
  Qed.
End History.

(** ** Extendable-output types *)
Section XHistory.
  Context {P : xof_provider} (T : xtype P) (S : xof_spec (p_param P)) (G : xgood T S).
  Let s1 := set1 (xs_set S).
  Let ok (l : list (p_param P * list N)) := Forall (fun x => xt_accepts T (fst x) (snd x) = true /\ is_bytes (snd x)) l.
  Lemma xst_settings ops : forall l a, fst (fst a) = fold_left s1 l (xs_default S) -> fst (fst (xst S a ops)) = fold_left s1 (xsettings_from T l ops) (xs_default S).
  Proof.
    induction ops as [|o r IH]; intros l a E; [exact E|]. rewrite xst_cons. destruct a as [[p m] k]. cbn [fst] in E.
    destruct o as [[f d|[]|q v]|b|b|b]; cbn [xsettings_from xstep xsq fst]; try (apply IH; exact E); [apply IH; reflexivity|].
    pose proof (xg_acc _ _ G q v p) as K. destruct (xs_set S q v p) as [p'|] eqn:Es; rewrite K; apply IH; [|exact E].
    cbn [fst]. rewrite fold_left_app. cbn [fold_left]. rewrite <- E. unfold s1, set1. cbn [fst snd]. rewrite Es. reflexivity.
  Qed.
  Lemma xst_squeezed ops : forall a, snd (xst S a ops) = squeezed_from T (snd a) ops.
  Proof.
    induction ops as [|o r IH]; intros a; [reflexivity|]. rewrite xst_cons, IH. destruct a as [[p m] k].
    destruct o as [[f d|[]|q v]|b|b|b]; try reflexivity.
    cbn [xstep squeezed_from]. pose proof (xg_acc _ _ G q v p) as K. destruct (xs_set S q v p); rewrite K; reflexivity.
  Qed.
  Lemma xsettings_ok ops : forall l sq, xcalls_from T sq ops -> ok l -> ok (xsettings_from T l ops).
  Proof.
    induction ops as [|o r IH]; intros l sq H F; [exact F|].
    destruct o as [[f d|[]|q v]|b|b|b]; cbn [xsettings_from]; cbn [xcalls_from] in H.
    - destruct H as (_ & _ & H). eapply IH; eauto.
    - destruct H as (_ & H). eapply IH; eauto. constructor.
    - destruct H as (_ & H). eapply IH; eauto.
    - destruct H as (Hv & H). eapply IH; [exact H|]. destruct (xt_accepts T q v) eqn:E; [|exact F]. apply Forall_app. split; [exact F|]. constructor; [split; [exact E|exact Hv]|constructor].
    - destruct H as (_ & H). eapply IH; eauto.
    - destruct H as (_ & H). eapply IH; eauto.
    - destruct H as (_ & H). eapply IH; eauto.
  Qed.
  Lemma xst_direct l m k : forall p, ok l -> xst S (p, [], 0%nat) (xdirect l m k) = (fold_left s1 l p, m, k).
  Proof.
    unfold xdirect. induction l as [|[q v] l IH]; intros p F; [destruct k; reflexivity|]. inversion F as [|? ? [A _] F']; subst. cbn [map app fst snd] in *. rewrite xst_cons. cbn [xstep].
    pose proof (xg_acc _ _ G q v p) as K. cbn [fold_left]. unfold s1 at 2, set1. cbn [fst snd]. destruct (xs_set S q v p) as [p'|]; [|congruence]. apply IH. exact F'.
  Qed.
  Lemma xdirect_calls l m k : ok l -> is_bytes m -> xcalls T (xdirect l m k) /\ xflag T (xdirect l m k) = negb (k =? 0)%nat.
  Proof.
    intros F M. unfold xdirect, xcalls, xflag. induction l as [|[q v] l IH].
    - destruct k; cbn; repeat split; auto; lia.
    - inversion F as [|? ? [A B] F']; subst. cbn [map app fst snd] in *. cbn [xcalls_from fold_left xflag1]. rewrite A. destruct (IH F') as [I1 I2]. split; [split; [exact B|exact I1]|exact I2].
  Qed.
  Lemma xst_history ops : xst S (xfresh S) ops = (fold_left s1 (xsettings T ops) (xs_default S), xsince T ops, squeezed T ops).
  Proof.
    rewrite (surjective_pairing (xst S (xfresh S) ops)), (surjective_pairing (fst (xst S (xfresh S) ops))). f_equal; [f_equal|].
    - apply xst_settings. reflexivity.
    - apply (xst_since T S G ops (xfresh S)).
    - apply (xst_squeezed ops (xfresh S)).
  Qed.
  Lemma flag_squeezed ops : xcalls T ops -> xflag T ops = negb (squeezed T ops =? 0)%nat.
  Proof.
    intros H. pose proof (sqd_run G ops (xfresh S) H) as F. change (fold_left (xflag1 T) ops (XLibraryProof.sqd (xfresh S))) with (xflag T ops) in F.
    rewrite <- F, xst_history. reflexivity.
  Qed.
  Theorem xhistory_direct g g' ops post : xt_mem_ok T g -> xt_mem_ok T g' -> xcalls T ops -> xcalls_from T (xflag T ops) post ->
    exists r, xafter T g ops post = Ok r /\ xafter T g' (xdirect (xsettings T ops) (xsince T ops) (squeezed T ops)) post = Ok r.
  Proof.
    intros Hg Hg' H1 H2. pose proof (xsettings_ok ops [] false H1 (Forall_nil _)) as F. destruct (xdirect_calls (xsettings T ops) (xsince T ops) (squeezed T ops) F (xsince_bytes T ops H1)) as [C1 C2].
    eexists. split; [apply (xafter_eq G); auto|]. rewrite (xafter_eq G) by (auto; rewrite C2, <- flag_squeezed by exact H1; exact H2).
    rewrite (xst_history ops). unfold xfresh. rewrite xst_direct by exact F. reflexivity.
  Qed.
  Theorem xhistory_same g g' ops ops' post : (forall q1 q2 : p_param P, q1 = q2 \/ q1 <> q2) ->
    xt_mem_ok T g -> xt_mem_ok T g' -> xcalls T ops -> xcalls T ops' -> xcalls_from T (xflag T ops) post ->
    no_empty (xsettings T ops) -> no_empty (xsettings T ops') -> same_values (xsettings T ops) (xsettings T ops') ->
    xsince T ops = xsince T ops' -> squeezed T ops = squeezed T ops' ->
    exists r, xafter T g ops post = Ok r /\ xafter T g' ops' post = Ok r.
  Proof.
    intros D Hg Hg' H1 H1' H2 N1 N2 V M Q. eexists. split; [apply (xafter_eq G); auto|].
    rewrite (xafter_eq G); auto; [|rewrite flag_squeezed, <- Q, <- flag_squeezed by assumption; exact H2]. do 3 f_equal.
    rewrite !xst_history. symmetry. f_equal; [f_equal|]; auto.
    assert (K : forall o, xcalls T o -> no_empty (xsettings T o) -> Forall (fine (xt_accepts T)) (xsettings T o)).
    { intros o Ho Hn. pose proof (xsettings_ok o [] false Ho (Forall_nil _)) as F. unfold no_empty in Hn. unfold ok in F. rewrite Forall_forall in *. intros x Hx. split; [apply F|apply Hn]; exact Hx. }
    eapply (sets_same (xs_set S) (xt_accepts T) (xg_acc _ _ G) (xg_comm _ _ G) (xg_over _ _ G) D); [reflexivity|auto..].
  Qed.
End XHistory.

(** ** The parameters of every type can be compared *)
Ltac dec_param := let q1 := fresh in let q2 := fresh in intros q1 q2; cbn in q1, q2; destruct q1, q2; (left; reflexivity) || (right; discriminate).
Lemma param_dec P (T : htype P) : library T -> forall q1 q2 : p_param P, q1 = q2 \/ q1 <> q2.
Proof. intros H. destruct H; dec_param. Qed.
Lemma xparam_dec P (T : xtype P) : xlibrary T -> forall q1 q2 : p_param P, q1 = q2 \/ q1 <> q2.
Proof. intros H. destruct H; dec_param. Qed.
