(** * Threads that do not conflict run as if alone. *)
From Verif Require Import Base Hasher Library LibraryTypes Objects ObjectsProof Threads.

Lemma nth_upd {A} (l : list A) : forall t v u,
  nth_error (Base.upd t v l) u = if (u =? t)%nat then option_map (fun _ => v) (nth_error l t) else nth_error l u.
Proof.
  induction l as [|x l IH]; intros [|t] v [|u]; cbn [Base.upd nth_error Nat.eqb option_map]; try reflexivity.
  - destruct (u =? t)%nat; reflexivity.
  - apply IH.
Qed.
Lemma len_upd {A} (l : list A) : forall t v, length (Base.upd t v l) = length l.
Proof. induction l as [|x l IH]; intros [|t] v; cbn [Base.upd length]; auto. Qed.

Section Threads.
  Variable kind : Type.
  Variable kind_eq : forall a b : kind, {a = b} + {a <> b}.
  Variable M : kind -> machine.
  Variable const : forall k, m_op (M k) -> bool.
  Notation store := (store kind M).
  Notation call := (call kind M).
  Notation conflict := (conflict kind kind_eq M const).
  Notation same_object := (same_object kind kind_eq M).
  Notation thread_step := (thread_step kind kind_eq M const).
  Notation threads_run := (threads_run kind kind_eq M const).
  Notation serial := (serial kind kind_eq M).
  Notation config := (config kind M).
  Notation set := (Objects.upd kind kind_eq).

  (** The calls a thread still has to finish. *)
  Definition left (th : thread kind M) : list call :=
    match th with Between p => p | Inside c p | Copied c _ p => c :: p end.
  Lemma inside_left th c : inside kind M th = Some c -> In c (left th).
  Proof. destruct th; cbn; intros E; [discriminate E|injection E as ->; auto..]. Qed.

  Lemma same_spec c d : same_object c d = true <-> ck c = ck d /\ ci c = ci d.
  Proof.
    unfold Threads.same_object. destruct (kind_eq (ck c) (ck d)).
    - rewrite Nat.eqb_eq. tauto.
    - split; [intros E; discriminate E|tauto].
  Qed.
  Lemma same_sym c d : same_object c d = same_object d c.
  Proof. apply Bool.eq_true_iff_eq. rewrite !same_spec. intuition auto. Qed.
  Lemma conflict_sym c d : conflict c d = conflict d c.
  Proof. unfold Threads.conflict. rewrite same_sym, (Bool.andb_comm (const (ck c) (co c))). reflexivity. Qed.
  Lemma set_elsewhere (s : store) c v d : same_object d c = false ->
    set s (ck c) (ci c) v (ck d) (ci d) = s (ck d) (ci d).
  Proof.
    intros H. apply (upd_other kind kind_eq (A := fun k => m_st (M k))). destruct (kind_eq (ck c) (ck d)) as [e|n]; [|auto]. right. intros Hi.
    assert (same_object d c = true) by (apply same_spec; split; auto). congruence.
  Qed.
  Lemma set_agree (s s' : store) k i v k' j :
    s k' j = s' k' j -> set s k i v k' j = set s' k i v k' j.
  Proof.
    intros H. destruct (slot_dec kind kind_eq k k' i j) as [[<- <-]|Hn].
    - rewrite !upd_same. reflexivity.
    - rewrite !upd_other by exact Hn. exact H.
  Qed.
  Lemma set_own (s : store) k i k' j : set s k i (s k i) k' j = s k' j.
  Proof.
    destruct (slot_dec kind kind_eq k k' i j) as [[<- <-]|Hn]; [apply (upd_same kind kind_eq (A := fun k => m_st (M k)))|apply (upd_other kind kind_eq (A := fun k => m_st (M k))); exact Hn].
  Qed.

  Lemma serial_snoc p : forall s s' l c v x, serial s p = Ok (s', l) ->
    m_step (M (ck c)) (s' (ck c) (ci c)) (co c) = Ok (v, x) ->
    serial s (p ++ [c]) = Ok (set s' (ck c) (ci c) v, l ++ [x]).
  Proof.
    unfold Threads.serial. induction p as [|d p IH]; intros s s' l c v x H E.
    - injection H as <- <-. cbn [app map events_run event_step bind]. rewrite E. reflexivity.
    - cbn [app map events_run event_step bind] in H |- *.
      destruct (m_step (M (ck d)) (s (ck d) (ci d)) (co d)) as [[w y]| |]; try discriminate H. cbn [bind] in H |- *.
      destruct (events_run kind kind_eq M (set s (ck d) (ci d) w) _) as [[s1 l1]| |] eqn:E1; try discriminate H.
      cbn [bind] in H. injection H as <- <-. rewrite (IH _ _ _ _ _ _ E1 E). reflexivity.
  Qed.
  (** The first call after [p] is defined if the whole is. *)
  Lemma serial_next p : forall s s' l c r s2 l2, serial s p = Ok (s', l) -> serial s (p ++ c :: r) = Ok (s2, l2) ->
    exists v x l3, m_step (M (ck c)) (s' (ck c) (ci c)) (co c) = Ok (v, x) /\ l2 = l ++ x :: l3.
  Proof.
    unfold Threads.serial. induction p as [|d p IH]; intros s s' l c r s2 l2 H E.
    - injection H as <- <-. cbn [app map events_run event_step bind] in E.
      destruct (m_step (M (ck c)) (s (ck c) (ci c)) (co c)) as [[w y]| |]; try discriminate E. cbn [bind] in E.
      destruct (events_run kind kind_eq M _ _) as [[s1 l1]| |]; try discriminate E.
      injection E as _ <-. exists w, y, l1. auto.
    - cbn [app map events_run event_step bind] in H, E.
      destruct (m_step (M (ck d)) (s (ck d) (ci d)) (co d)) as [[w y]| |]; try discriminate H. cbn [bind] in H, E.
      destruct (events_run kind kind_eq M (set s (ck d) (ci d) w) (map _ p)) as [[s1 l1]| |] eqn:E1; try discriminate H.
      cbn [bind] in H. injection H as <- <-.
      destruct (events_run kind kind_eq M (set s (ck d) (ci d) w) (map _ (p ++ c :: r))) as [[s3 l3]| |] eqn:E3; try discriminate E.
      cbn [bind] in E. injection E as _ <-.
      destruct (IH _ _ _ _ _ _ _ E1 E3) as (v & x & l4 & Hx & ->). exists v, x, l4. auto.
  Qed.

  Lemma of_thread_snoc {A} t (l : list (nat * A)) u x :
    of_thread t (l ++ [(u, x)]) = of_thread t l ++ (if (u =? t)%nat then [x] else []).
  Proof.
    unfold of_thread. rewrite filter_app, map_app. f_equal. cbn [filter fst].
    destruct (u =? t)%nat; reflexivity.
  Qed.

  (** What every execution keeps. *)
  Record shape (progs : list (list call)) (cfg : config) : Prop := {
    sh_len : length (threads cfg) = length progs;
    sh_left : forall t th, nth_error (threads cfg) t = Some th ->
      nth_error progs t = Some (map fst (of_thread t (log cfg)) ++ left th);
    sh_apart : forall t u a b c d, t <> u -> nth_error (threads cfg) t = Some a -> nth_error (threads cfg) u = Some b ->
      inside kind M a = Some c -> inside kind M b = Some d -> conflict c d = false;
    sh_copy : forall t th, nth_error (threads cfg) t = Some th ->
      match th with Copied c v _ => v = mem cfg (ck c) (ci c) /\ const (ck c) (co c) = true | _ => True end
  }.
  Lemma shape_initial s progs : shape progs (initial kind M s progs).
  Proof.
    split; cbn [threads initial log mem of_thread filter map app]; [apply map_length|..].
    - intros t th H. rewrite nth_error_map in H. destruct (nth_error progs t); [|discriminate H].
      injection H as <-. reflexivity.
    - intros t u a b c d _ H _ E. rewrite nth_error_map in H. destruct (nth_error progs t); [|discriminate H].
      injection H as <-. discriminate E.
    - intros t th H. rewrite nth_error_map in H. destruct (nth_error progs t); [|discriminate H].
      injection H as <-. exact I.
  Qed.
  Lemma shape_thread progs cfg t p : shape progs cfg -> nth_error progs t = Some p ->
    exists th, nth_error (threads cfg) t = Some th /\ p = map fst (of_thread t (log cfg)) ++ left th.
  Proof.
    intros S Hp. assert (Hl : (t < length (threads cfg))%nat) by (rewrite (sh_len _ _ S); apply nth_error_Some; congruence).
    apply nth_error_Some in Hl. destruct (nth_error (threads cfg) t) as [th|] eqn:Ht; [|contradiction].
    exists th. split; [reflexivity|]. pose proof (sh_left _ _ S _ _ Ht) as Hq. congruence.
  Qed.
  Lemma no_race c (ths : list (thread kind M)) : races kind kind_eq M const c ths = false ->
    forall t th d, nth_error ths t = Some th -> inside kind M th = Some d -> conflict c d = false.
  Proof.
    unfold races. intros H t th d Ht Hd. apply nth_error_In in Ht.
    destruct (conflict c d) eqn:E; [|reflexivity].
    assert (X : existsb (fun th => match inside kind M th with Some d => conflict c d | None => false end) ths = true).
    { apply existsb_exists. exists th. rewrite Hd. auto. }
    rewrite H in X. discriminate X.
  Qed.

  Ltac at_thread H := rewrite nth_upd in H;
    match type of H with context [(?u =? ?t)%nat] => destruct (Nat.eqb_spec u t) as [?|?] end;
    [subst; match goal with Hx : nth_error _ _ = Some _ |- _ => rewrite Hx in H end; cbn [option_map] in H|].

  Lemma shape_step progs cfg t cfg' : shape progs cfg -> thread_step cfg t = Run cfg' -> shape progs cfg'.
  Proof.
    intros S H. unfold Threads.thread_step in H. destruct (nth_error (threads cfg) t) as [[[|c todo]|c todo|c v todo]|] eqn:Ht.
    - injection H as <-. exact S.
    - destruct (races kind kind_eq M const c (threads cfg)) eqn:R; [discriminate H|]. injection H as <-.
      pose proof (no_race _ _ R) as NR. split; cbn [threads log mem]; [rewrite len_upd; exact (sh_len _ _ S)|..].
      + intros u th H. at_thread H; [injection H as <-; exact (sh_left _ _ S _ _ Ht)|exact (sh_left _ _ S _ _ H)].
      + intros u w a b x y Hn Ha Hb Hx Hy. at_thread Ha; at_thread Hb; try contradiction.
        * injection Ha as <-. injection Hx as <-. exact (NR _ _ _ Hb Hy).
        * injection Hb as <-. injection Hy as <-. rewrite conflict_sym. exact (NR _ _ _ Ha Hx).
        * exact (sh_apart _ _ S u w a b x y Hn Ha Hb Hx Hy).
      + intros u th H. at_thread H; [injection H as <-; exact I|exact (sh_copy _ _ S _ _ H)].
    - destruct (const (ck c) (co c)) eqn:Ec.
      + injection H as <-. split; cbn [threads log mem]; [rewrite len_upd; exact (sh_len _ _ S)|..].
        * intros u th H. at_thread H; [injection H as <-; exact (sh_left _ _ S _ _ Ht)|exact (sh_left _ _ S _ _ H)].
        * intros u w a b x y Hn Ha Hb Hx Hy. at_thread Ha; at_thread Hb; try contradiction.
          -- injection Ha as <-. exact (sh_apart _ _ S _ _ _ _ x y Hn Ht Hb Hx Hy).
          -- injection Hb as <-. exact (sh_apart _ _ S _ _ _ _ x y Hn Ha Ht Hx Hy).
          -- exact (sh_apart _ _ S u w a b x y Hn Ha Hb Hx Hy).
        * intros u th H. at_thread H; [injection H as <-; auto|exact (sh_copy _ _ S _ _ H)].
      + destruct (m_step (M (ck c)) (mem cfg (ck c) (ci c)) (co c)) as [[v x]| |]; try discriminate H.
        injection H as <-. split; cbn [threads log mem]; [rewrite len_upd; exact (sh_len _ _ S)|..].
        * intros u th H. rewrite of_thread_snoc, map_app. at_thread H.
          -- injection H as <-. rewrite Nat.eqb_refl, <- app_assoc. exact (sh_left _ _ S _ _ Ht).
          -- rewrite (proj2 (Nat.eqb_neq t u)) by auto. rewrite app_nil_r. exact (sh_left _ _ S _ _ H).
        * intros u w a b y z Hn Ha Hb Hx Hy. at_thread Ha; at_thread Hb; try contradiction.
          -- injection Ha as <-. discriminate Hx.
          -- injection Hb as <-. discriminate Hy.
          -- exact (sh_apart _ _ S u w a b y z Hn Ha Hb Hx Hy).
        * intros u th H. at_thread H; [injection H as <-; exact I|].
          pose proof (sh_copy _ _ S _ _ H) as Hc. destruct th as [|d|d w p]; try exact I.
          destruct Hc as [-> Hd]. split; [|exact Hd]. symmetry. apply set_elsewhere.
          assert (X : conflict d c = false) by (apply (sh_apart _ _ S u t _ _ d c n H Ht); reflexivity).
          unfold Threads.conflict in X. rewrite Ec, Bool.andb_false_r, Bool.andb_true_r in X. exact X.
    - destruct (m_step (M (ck c)) v (co c)) as [[v' x]| |]; try discriminate H.
      injection H as <-. split; cbn [threads log mem]; [rewrite len_upd; exact (sh_len _ _ S)|..].
      + intros u th H. rewrite of_thread_snoc, map_app. at_thread H.
        * injection H as <-. rewrite Nat.eqb_refl, <- app_assoc. exact (sh_left _ _ S _ _ Ht).
        * rewrite (proj2 (Nat.eqb_neq t u)) by auto. rewrite app_nil_r. exact (sh_left _ _ S _ _ H).
      + intros u w a b y z Hn Ha Hb Hx Hy. at_thread Ha; at_thread Hb; try contradiction.
        * injection Ha as <-. discriminate Hx.
        * injection Hb as <-. discriminate Hy.
        * exact (sh_apart _ _ S u w a b y z Hn Ha Hb Hx Hy).
      + intros u th H. at_thread H; [injection H as <-; exact I|exact (sh_copy _ _ S _ _ H)].
    - injection H as <-. exact S.
  Qed.

  (** Const member functions do not change the object. *)
  Hypothesis const_keeps : forall k o s s' x, const k o = true -> m_step (M k) s o = Ok (s', x) -> s' = s.

  (** The calls so far, in the order in which they returned, one after the other. *)
  Definition follows (s : store) (cfg : config) : Prop :=
    exists s', serial s (map (fun e => fst (snd e)) (log cfg)) = Ok (s', map (fun e => snd (snd e)) (log cfg)) /\
    forall k i, s' k i = mem cfg k i.
  Lemma follows_step progs s cfg t cfg' : shape progs cfg -> follows s cfg -> thread_step cfg t = Run cfg' -> follows s cfg'.
  Proof.
    intros S (s' & F & A) H. unfold Threads.thread_step in H.
    destruct (nth_error (threads cfg) t) as [[[|c todo]|c todo|c v todo]|] eqn:Ht.
    - injection H as <-. exists s'; auto.
    - destruct (races kind kind_eq M const c (threads cfg)); [discriminate H|]. injection H as <-. exists s'; auto.
    - destruct (const (ck c) (co c)) eqn:Ec; [injection H as <-; exists s'; auto|].
      destruct (m_step (M (ck c)) (mem cfg (ck c) (ci c)) (co c)) as [[v x]| |] eqn:E; try discriminate H.
      injection H as <-. exists (set s' (ck c) (ci c) v). cbn [log mem]. rewrite !map_app. cbn [map fst snd]. split.
      + apply serial_snoc; [exact F|]. rewrite A. exact E.
      + intros k i. apply set_agree, A.
    - destruct (m_step (M (ck c)) v (co c)) as [[v' x]| |] eqn:E; try discriminate H.
      injection H as <-. destruct (sh_copy _ _ S _ _ Ht) as [-> Hc].
      pose proof (const_keeps _ _ _ _ _ Hc E) as ->.
      exists (set s' (ck c) (ci c) (mem cfg (ck c) (ci c))). cbn [log mem]. rewrite !map_app. cbn [map fst snd]. split.
      + apply serial_snoc; [exact F|]. rewrite A. exact E.
      + intros k i. rewrite <- (A (ck c) (ci c)), set_own. apply A.
    - injection H as <-. exists s'; auto.
  Qed.
  Lemma run_invariant (I : config -> Prop) : (forall cfg t cfg', I cfg -> thread_step cfg t = Run cfg' -> I cfg') ->
    forall sched cfg cfg', I cfg -> threads_run cfg sched = Run cfg' -> I cfg'.
  Proof.
    intros Hs sched. induction sched as [|t r IH]; intros cfg cfg' Hi H; cbn [Threads.threads_run] in H.
    - injection H as <-. exact Hi.
    - destruct (thread_step cfg t) as [c1| |] eqn:E; try discriminate H. eapply IH; [|exact H]. eapply Hs; eauto.
  Qed.
  Theorem serial_order s progs sched cfg : threads_run (initial kind M s progs) sched = Run cfg ->
    (exists s', serial s (map (fun e => fst (snd e)) (log cfg)) = Ok (s', map (fun e => snd (snd e)) (log cfg)) /\
       forall k i, s' k i = mem cfg k i) /\
    (forall t p, nth_error progs t = Some p -> exists rest, p = map fst (of_thread t (log cfg)) ++ rest).
  Proof.
    intros H.
    assert (X : shape progs cfg /\ follows s cfg).
    { refine (run_invariant (fun cfg => shape progs cfg /\ follows s cfg) _ _ _ _ _ H).
      - intros c1 t c2 (S & F) E. split; [exact (shape_step _ _ _ _ S E)|exact (follows_step _ _ _ _ _ S F E)].
      - split; [apply shape_initial|]. exists s. split; [reflexivity|auto]. }
    destruct X as (S & F). split; [exact F|]. intros t p Hp.
    destruct (shape_thread _ _ _ _ S Hp) as (th & _ & ->). eauto.
  Qed.

  (** ** Without conflicts *)
  (** The own calls alone give the same results, and the same objects where they are used. *)
  Definition as_alone (s : store) (progs : list (list call)) (cfg : config) : Prop :=
    forall t p, nth_error progs t = Some p -> exists s',
      serial s (map fst (of_thread t (log cfg))) = Ok (s', map snd (of_thread t (log cfg))) /\
      forall c, In c p -> s' (ck c) (ci c) = mem cfg (ck c) (ci c).
  Lemma alone_step s progs cfg t : synchronized kind kind_eq M const progs ->
    (forall t p, nth_error progs t = Some p -> exists s' l, serial s p = Ok (s', l)) ->
    shape progs cfg -> as_alone s progs cfg -> exists cfg', thread_step cfg t = Run cfg' /\ as_alone s progs cfg'.
  Proof.
    intros Sy D S A. unfold Threads.thread_step.
    destruct (nth_error (threads cfg) t) as [[[|c todo]|c todo|c v todo]|] eqn:Ht.
    - eauto.
    - pose proof (sh_left _ _ S _ _ Ht) as Hp. cbn [left] in Hp.
      destruct (races kind kind_eq M const c (threads cfg)) eqn:R; [|eexists; split; [reflexivity|exact A]].
      exfalso. unfold races in R. apply existsb_exists in R. destruct R as (th & Hin & R).
      destruct (inside kind M th) as [d|] eqn:Hd; [|discriminate R].
      destruct (In_nth_error _ _ Hin) as (u & Hu). pose proof (sh_left _ _ S _ _ Hu) as Hq.
      assert (Hn : t <> u). { intros ->. rewrite Ht in Hu. injection Hu as <-. discriminate Hd. }
      assert (X : conflict c d = false).
      { apply (Sy t u _ _ c d Hn Hp Hq); apply in_or_app; right; [left; reflexivity|apply inside_left; exact Hd]. }
      congruence.
    - pose proof (sh_left _ _ S _ _ Ht) as Hp. cbn [left] in Hp.
      destruct (const (ck c) (co c)) eqn:Ec; [eexists; split; [reflexivity|exact A]|].
      destruct (A _ _ Hp) as (s1 & F & G). destruct (D _ _ Hp) as (s2 & l2 & W).
      destruct (serial_next _ _ _ _ _ _ _ _ F W) as (v & x & _ & E & _).
      rewrite G in E by (apply in_or_app; right; left; reflexivity). rewrite E.
      eexists; split; [reflexivity|]. intros u q Hq. cbn [log mem]. rewrite of_thread_snoc.
      destruct (A _ _ Hq) as (s3 & F3 & G3). destruct (Nat.eqb_spec t u) as [<-|Hn].
      + rewrite Hp in Hq. injection Hq as <-. rewrite F in F3. injection F3 as <-.
        exists (set s1 (ck c) (ci c) v). rewrite !map_app. cbn [map fst snd]. split.
        * apply serial_snoc; [exact F|]. rewrite G by (apply in_or_app; right; left; reflexivity). exact E.
        * intros d Hd. apply set_agree, G, Hd.
      + rewrite app_nil_r. exists s3. split; [exact F3|]. intros d Hd. rewrite (G3 d Hd). symmetry. apply set_elsewhere.
        assert (X : conflict d c = false).
        { apply (Sy u t _ _ d c (not_eq_sym Hn) Hq Hp Hd). apply in_or_app; right; left; reflexivity. }
        unfold Threads.conflict in X. rewrite Ec, Bool.andb_false_r, Bool.andb_true_r in X. exact X.
    - pose proof (sh_left _ _ S _ _ Ht) as Hp. cbn [left] in Hp.
      destruct (sh_copy _ _ S _ _ Ht) as [-> Hc].
      destruct (A _ _ Hp) as (s1 & F & G). destruct (D _ _ Hp) as (s2 & l2 & W).
      destruct (serial_next _ _ _ _ _ _ _ _ F W) as (v & x & _ & E & _).
      pose proof (const_keeps _ _ _ _ _ Hc E) as ->.
      pose proof E as E'. rewrite G in E' by (apply in_or_app; right; left; reflexivity). rewrite E'.
      eexists; split; [reflexivity|]. intros u q Hq. cbn [log mem]. rewrite of_thread_snoc.
      destruct (A _ _ Hq) as (s3 & F3 & G3). destruct (Nat.eqb_spec t u) as [<-|Hn].
      + rewrite Hp in Hq. injection Hq as <-. rewrite F in F3. injection F3 as <-.
        exists (set s1 (ck c) (ci c) (s1 (ck c) (ci c))). rewrite !map_app. cbn [map fst snd]. split.
        * apply serial_snoc; [exact F|exact E].
        * intros d Hd. rewrite set_own. apply G, Hd.
      + rewrite app_nil_r. exists s3. auto.
    - eauto.
  Qed.
  Theorem synchronized_safe s progs sched : synchronized kind kind_eq M const progs ->
    (forall t p, nth_error progs t = Some p -> exists s' l, serial s p = Ok (s', l)) ->
    exists cfg, threads_run (initial kind M s progs) sched = Run cfg /\
    (forall t p, nth_error progs t = Some p -> exists s' l rest, serial s p = Ok (s', l) /\
       l = map snd (of_thread t (log cfg)) ++ rest /\ (finished kind M cfg -> rest = [])).
  Proof.
    intros Sy D.
    assert (X : forall cfg, shape progs cfg -> as_alone s progs cfg ->
      exists cfg', threads_run cfg sched = Run cfg' /\ shape progs cfg' /\ as_alone s progs cfg').
    { induction sched as [|t r IH]; intros cfg S A; cbn [Threads.threads_run]; [eauto|].
      destruct (alone_step s progs cfg t Sy D S A) as (c1 & E & A1). rewrite E.
      apply IH; [exact (shape_step _ _ _ _ S E)|exact A1]. }
    destruct (X (initial kind M s progs) (shape_initial s progs)) as (cfg & R & S & A).
    { intros t p _. exists s. split; [reflexivity|auto]. }
    exists cfg. split; [exact R|]. intros t p Hp. destruct (D _ _ Hp) as (s' & l & E).
    destruct (A _ _ Hp) as (s1 & F & _). destruct (shape_thread _ _ _ _ S Hp) as (th & Ht & Ep).
    exists s', l. rewrite Ep in E. destruct (left th) as [|c rest] eqn:El.
    - rewrite app_nil_r in Ep, E. rewrite F in E. injection E as <- <-. exists [].
      rewrite app_nil_r. rewrite Ep. auto.
    - destruct (serial_next _ _ _ _ _ _ _ _ F E) as (v & x & l3 & _ & ->). exists (x :: l3).
      rewrite Ep. split; [exact E|]. split; [reflexivity|]. intros Fi. exfalso.
      unfold finished in Fi. rewrite Forall_forall in Fi. apply nth_error_In in Ht. apply Fi in Ht. subst th.
      discriminate El.
  Qed.

  (** ** With conflicts *)
  (** Thread [t] alone gets to [th], or something goes wrong before. *)
  Definition reaches (cfg : config) (t : nat) (th : thread kind M) : Prop :=
    exists sched, threads_run cfg sched = DataRace \/ threads_run cfg sched = Undefined \/
    exists cfg', threads_run cfg sched = Run cfg' /\ nth_error (threads cfg') t = Some th /\
      forall u, u <> t -> nth_error (threads cfg') u = nth_error (threads cfg) u.
  Lemma step_others cfg t cfg' : thread_step cfg t = Run cfg' ->
    forall u, u <> t -> nth_error (threads cfg') u = nth_error (threads cfg) u.
  Proof.
    intros H u Hu. unfold Threads.thread_step in H.
    destruct (nth_error (threads cfg) t) as [[[|c todo]|c todo|c v todo]|];
      [| destruct (races kind kind_eq M const c (threads cfg)); [discriminate H|]
       | destruct (const (ck c) (co c)); [|destruct (m_step _ _ _) as [[v x]| |]; try discriminate H]
       | destruct (m_step _ _ _) as [[v' x]| |]; try discriminate H |];
      injection H as <-; cbn [threads]; rewrite ?nth_upd, ?(proj2 (Nat.eqb_neq u t)) by exact Hu; reflexivity.
  Qed.
  Lemma reaches_step cfg t th : (forall cfg', thread_step cfg t = Run cfg' -> reaches cfg' t th) -> reaches cfg t th.
  Proof.
    intros H. destruct (thread_step cfg t) as [c1| |] eqn:E.
    - destruct (H c1 eq_refl) as (sched & R). exists (t :: sched). cbn [Threads.threads_run]. rewrite E.
      destruct R as [R|[R|(c2 & R & Ht & Ho)]]; [auto|auto|]. right; right. exists c2. split; [exact R|]. split; [exact Ht|].
      intros u Hu. rewrite (Ho u Hu). exact (step_others _ _ _ E u Hu).
    - exists [t]. left. cbn [Threads.threads_run]. rewrite E. reflexivity.
    - exists [t]. right; left. cbn [Threads.threads_run]. rewrite E. reflexivity.
  Qed.
  (** It gets to its call after [p]. *)
  Lemma advance p : forall cfg t rest, nth_error (threads cfg) t = Some (Between (p ++ rest)) -> reaches cfg t (Between rest).
  Proof.
    induction p as [|c p IH]; intros cfg t rest Ht.
    - exists []. right; right. exists cfg. auto.
    - assert (C : forall cfg v, nth_error (threads cfg) t = Some (Copied c v (p ++ rest)) -> reaches cfg t (Between rest)).
      { clear cfg Ht. intros cfg v Ht. apply reaches_step. intros c1 E. unfold Threads.thread_step in E. rewrite Ht in E.
        destruct (m_step _ _ _) as [[v' x]| |]; try discriminate E. injection E as <-. apply IH. cbn [threads].
        rewrite nth_upd, Nat.eqb_refl, Ht. reflexivity. }
      assert (B : forall cfg, nth_error (threads cfg) t = Some (Inside c (p ++ rest)) -> reaches cfg t (Between rest)).
      { clear cfg Ht. intros cfg Ht. apply reaches_step. intros c1 E. unfold Threads.thread_step in E. rewrite Ht in E.
        destruct (const (ck c) (co c)).
        - injection E as <-. eapply C. cbn [threads]. rewrite nth_upd, Nat.eqb_refl, Ht. reflexivity.
        - destruct (m_step _ _ _) as [[v x]| |]; try discriminate E. injection E as <-. apply IH. cbn [threads].
          rewrite nth_upd, Nat.eqb_refl, Ht. reflexivity. }
      apply reaches_step. intros c1 E. unfold Threads.thread_step in E. rewrite Ht in E. cbn [app] in E.
      destruct (races kind kind_eq M const c (threads cfg)); [discriminate E|]. injection E as <-. apply B. cbn [threads].
      rewrite nth_upd, Nat.eqb_refl, Ht. reflexivity.
  Qed.
  Lemma threads_run_app a : forall cfg b, threads_run cfg (a ++ b) =
    match threads_run cfg a with Run c => threads_run c b | o => o end.
  Proof.
    induction a as [|t a IH]; intros cfg b; cbn [app Threads.threads_run]; [reflexivity|].
    destruct (thread_step cfg t); [apply IH|reflexivity|reflexivity].
  Qed.
  Theorem conflict_races s progs t u p q c d : t <> u -> nth_error progs t = Some p -> nth_error progs u = Some q ->
    In c p -> In d q -> conflict c d = true ->
    exists sched, threads_run (initial kind M s progs) sched = DataRace \/ threads_run (initial kind M s progs) sched = Undefined.
  Proof.
    intros Hn Hp Hq Hc Hd X. apply in_split in Hc. destruct Hc as (p1 & p2 & ->).
    apply in_split in Hd. destruct Hd as (q1 & q2 & ->).
    assert (T1 : nth_error (threads (initial kind M s progs)) t = Some (Between (p1 ++ c :: p2)))
      by (cbn [threads initial]; rewrite nth_error_map, Hp; reflexivity).
    assert (U1 : nth_error (threads (initial kind M s progs)) u = Some (Between (q1 ++ d :: q2)))
      by (cbn [threads initial]; rewrite nth_error_map, Hq; reflexivity).
    destruct (advance _ _ _ _ T1) as (s1 & [R|[R|(c1 & R1 & T2 & O1)]]); [eauto|eauto|].
    rewrite <- (O1 u (not_eq_sym Hn)) in U1.
    destruct (races kind kind_eq M const c (threads c1)) eqn:Rc.
    { exists (s1 ++ [t]). left. rewrite threads_run_app, R1. cbn [Threads.threads_run]. unfold Threads.thread_step.
      rewrite T2, Rc. reflexivity. }
    assert (E : exists c2, thread_step c1 t = Run c2 /\ nth_error (threads c2) t = Some (Inside c p2)).
    { unfold Threads.thread_step. rewrite T2, Rc. eexists. split; [reflexivity|]. cbn [threads].
      rewrite nth_upd, Nat.eqb_refl, T2. reflexivity. }
    destruct E as (c2 & E2 & T3). rewrite <- (step_others _ _ _ E2 u (not_eq_sym Hn)) in U1.
    destruct (advance _ _ _ _ U1) as (s2 & [R|[R|(c3 & R3 & U2 & O2)]]).
    - exists (s1 ++ t :: s2). left. rewrite threads_run_app, R1. cbn [Threads.threads_run]. rewrite E2. exact R.
    - exists (s1 ++ t :: s2). right. rewrite threads_run_app, R1. cbn [Threads.threads_run]. rewrite E2. exact R.
    - exists (s1 ++ t :: s2 ++ [u]). left. rewrite threads_run_app, R1. cbn [Threads.threads_run]. rewrite E2, threads_run_app, R3.
      cbn [Threads.threads_run]. unfold Threads.thread_step. rewrite U2.
      rewrite <- (O2 t Hn) in T3.
      assert (Rd : races kind kind_eq M const d (threads c3) = true).
      { apply existsb_exists. exists (Inside c p2). split; [exact (nth_error_In _ _ T3)|]. cbn [inside].
        rewrite conflict_sym. exact X. }
      rewrite Rd. reflexivity.
  Qed.
End Threads.
