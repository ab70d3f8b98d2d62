(** * Consequences of implementing an abstract hasher, for fixed-output types. *)
From Verif Require Import Base Lemmas Hasher HasherSpec HasherProof Library.

(** [T] implements an abstract hasher. *)
Record good {P} (T : htype P) (S : hash_spec (p_param P)) : Prop := {
  g_impl : forall g, ht_mem_ok T g -> implements P S (ht_clr T) (ht_new T g);
  g_size : sp_size S = ht_size T;
  g_acc : forall q v p, match sp_set S q v p with None => ht_accepts T q v = false | Some _ => ht_accepts T q v = true end;
  g_comm : forall q1 q2 v1 v2 p p1 p2, q1 <> q2 -> sp_set S q1 v1 p = Some p1 -> sp_set S q2 v2 p = Some p2 ->
    sp_set S q2 v2 p1 = sp_set S q1 v1 p2;
  g_over : forall q v1 v2 p p1, v2 <> [] -> sp_set S q v1 p = Some p1 -> sp_set S q v2 p1 = sp_set S q v2 p
}.

Lemma hash_run_app P ops1 : forall s ops2,
  hash_run P s (ops1 ++ ops2) =
  (' (s, l1) <- hash_run P s ops1 ;; ' (s, l2) <- hash_run P s ops2 ;; Ok (s, l1 ++ l2)).
Proof.
  induction ops1 as [|o r IH]; intros s ops2; cbn [app hash_run bind].
  - destruct (hash_run P s ops2) as [[? ?]| |]; reflexivity.
  - destruct (hash_step P s o) as [[s1 x]| |]; cbn [bind]; [|reflexivity|reflexivity].
    rewrite IH. destruct (hash_run P s1 r) as [[s2 l]| |]; cbn [bind]; [|reflexivity|reflexivity].
    destruct (hash_run P s2 ops2) as [[? ?]| |]; reflexivity.
Qed.
Lemma arun_app {param} (S : hash_spec param) ops1 : forall a ops2,
  arun S a (ops1 ++ ops2) =
  (let (a1, l1) := arun S a ops1 in let (a2, l2) := arun S a1 ops2 in (a2, l1 ++ l2)).
Proof.
  induction ops1 as [|o r IH]; intros a ops2; cbn [app arun].
  - destruct (arun S a ops2). reflexivity.
  - destruct (astep S a o) as [a1 x]. rewrite IH. destruct (arun S a1 r) as [a2 l].
    destruct (arun S a2 ops2). reflexivity.
Qed.
Lemma arun_length {param} (S : hash_spec param) ops : forall a, length (snd (arun S a ops)) = length ops.
Proof.
  induction ops as [|o r IH]; intros a; [reflexivity|]. cbn [arun]. destruct (astep S a o) as [a1 x].
  specialize (IH a1). destruct (arun S a1 r). cbn [snd length] in *. rewrite IH. reflexivity.
Qed.
(** State of the abstract hasher. *)
Definition ast {param} (S : hash_spec param) a ops : astate S := fst (arun S a ops).
Lemma ast_app {param} (S : hash_spec param) a o1 o2 : ast S a (o1 ++ o2) = ast S (ast S a o1) o2.
Proof. unfold ast. rewrite arun_app. destruct (arun S a o1) as [a1 l1]. cbn [fst]. destruct (arun S a1 o2). reflexivity. Qed.
Lemma ast_cons {param} (S : hash_spec param) a o r : ast S a (o :: r) = ast S (fst (astep S a o)) r.
Proof. unfold ast. cbn [arun]. destruct (astep S a o) as [a1 x]. cbn [fst]. destruct (arun S a1 r). reflexivity. Qed.

Section Good.
  Context {P : hash_provider} {T : htype P} {S : hash_spec (p_param P)}.
  Hypothesis G : good T S.
  Let ops_t := list (hash_op (p_param P)).

  Lemma hcalls_ok ops : hcalls T ops -> Forall (hash_op_ok (ht_clr T)) ops.
  Proof. intros H. eapply Forall_impl; [|exact H]. intros [b|?| |]; auto. Qed.
  Lemma hcalls_app a b : hcalls T (a ++ b) <-> hcalls T a /\ hcalls T b.
  Proof. apply Forall_app. Qed.

  (** Everything observable, from the abstract hasher. *)
  Theorem after_eq g pre post : ht_mem_ok T g -> hcalls T pre -> hcalls T post ->
    after T g pre post = Ok (snd (arun S (ast S (afresh S) pre) post)).
  Proof.
    intros Hg H1 H2.
    destruct (g_impl _ _ G g Hg pre (hcalls_ok _ H1)) as (s0 & s1 & E0 & E1).
    destruct (g_impl _ _ G g Hg (pre ++ post) (hcalls_ok _ (proj2 (hcalls_app pre post) (conj H1 H2)))) as (s0' & s2 & E0' & E2).
    rewrite E0 in E0'. injection E0' as <-. unfold after. rewrite E0. cbn [bind]. rewrite E1. cbn [bind].
    rewrite hash_run_app, E1 in E2. cbn [bind] in E2.
    destruct (hash_run P s1 post) as [[s3 l]| |]; try discriminate E2. cbn [bind] in *.
    injection E2 as _ E2. rewrite arun_app in E2. unfold ast.
    destruct (arun S (afresh S) pre) as [a1 l1]. cbn [fst snd] in *.
    destruct (arun S a1 post) as [a2 l2]. cbn [snd] in *.
    apply app_inv_head in E2. rewrite E2. reflexivity.
  Qed.

  (** *** Absorbing *)
  Definition ab (p : form * list N) : hash_op (p_param P) := HBase (Absorb (fst p) (snd p)).
  Definition stream_bytes (l : list (form * list N)) : list N :=
    flat_map (fun p => match fst p with FBadStream => [] | _ => snd p end) l.
  Lemma ast_absorbs l : forall p msg, ast S (p, msg) (map ab l) = (p, msg ++ stream_bytes l).
  Proof.
    induction l as [|[f d] l IH]; intros p msg; [cbn; rewrite app_nil_r; reflexivity|].
    cbn [map]. rewrite ast_cons. cbn [ab fst snd astep abase].
    change (stream_bytes ((f, d) :: l)) with (absorbed f d ++ stream_bytes l).
    rewrite app_assoc, <- IH. reflexivity.
  Qed.

  Theorem absorb_forms g pre l f post : f <> FBadStream ->
    ht_mem_ok T g -> hcalls T pre -> Forall (fun p => is_bytes (snd p)) l -> hcalls T post ->
    exists r, after T g (pre ++ map ab l) post = Ok r /\
      after T g (pre ++ [HBase (Absorb f (stream_bytes l))]) post = Ok r.
  Proof.
    intros Hf Hg Hpre Hl Hpost.
    assert (Hm : hcalls T (map ab l)).
    { unfold hcalls. apply Forall_map. eapply Forall_impl; [|exact Hl]. intros [f' d] H. exact H. }
    assert (Hs : is_bytes (stream_bytes l)).
    { unfold is_bytes, stream_bytes. apply Forall_flat_map. eapply Forall_impl; [|exact Hl].
      intros [[] d] H; cbn in *; auto. }
    eexists. split; [apply after_eq; auto; apply hcalls_app; auto|].
    rewrite after_eq; [|auto|apply hcalls_app; split; [auto|constructor; [exact Hs|constructor]]|auto].
    do 3 f_equal. rewrite !ast_app. destruct (ast S (afresh S) pre) as [p msg].
    rewrite ast_absorbs. unfold ast. cbn [arun astep abase fst]. destruct f; try reflexivity. contradiction.
  Qed.
  Theorem absorb_nothing g pre f post : ht_mem_ok T g -> hcalls T pre -> hcalls T post ->
    exists r, after T g (pre ++ [HBase (Absorb f [])]) post = Ok r /\ after T g pre post = Ok r.
  Proof.
    intros Hg Hpre Hpost. eexists. split; [apply after_eq; auto; apply hcalls_app; split; [auto|]; constructor; [|constructor]; constructor|].
    rewrite after_eq by auto. do 3 f_equal. rewrite ast_app. destruct (ast S (afresh S) pre) as [p msg].
    unfold ast. cbn [arun astep abase fst]. destruct f; cbn [absorbed]; rewrite app_nil_r; reflexivity.
  Qed.

  (** *** Observers *)
  Lemma ast_digests ops : forall a, forallb is_digest ops = true -> ast S a ops = a.
  Proof.
    induction ops as [|o r IH]; intros a H; [reflexivity|]. cbn [forallb] in H. apply andb_true_iff in H.
    destruct H as [Ho Hr]. rewrite ast_cons. rewrite IH by exact Hr. destruct a. destruct o; [discriminate| | |]; reflexivity.
  Qed.
  Lemma hcalls_digests ops : forallb is_digest ops = true -> hcalls T ops.
  Proof.
    intros H. apply Forall_forall. intros o Ho. rewrite forallb_forall in H. specialize (H o Ho).
    destruct o; [discriminate| | |]; exact I.
  Qed.
  Theorem digests_observe g pre obs pre2 post : ht_mem_ok T g -> hcalls T pre -> hcalls T pre2 -> hcalls T post ->
    forallb is_digest obs = true ->
    exists r, after T g (pre ++ obs ++ pre2) post = Ok r /\ after T g (pre ++ pre2) post = Ok r.
  Proof.
    intros Hg H1 H2 H3 Ho. eexists. split; [apply after_eq; auto; rewrite !hcalls_app; auto using hcalls_digests|].
    rewrite after_eq; auto; [|apply hcalls_app; auto]. do 3 f_equal. rewrite !ast_app, (ast_digests obs) by exact Ho. reflexivity.
  Qed.
  Theorem digest_repeat g pre obs d : ht_mem_ok T g -> hcalls T pre -> forallb is_digest obs = true -> is_digest d = true ->
    exists b, after T g (pre ++ obs) [d] = Ok [b] /\ after T g pre [d] = Ok [b].
  Proof.
    intros Hg H1 Ho Hd. assert (Hd' : hcalls T [d]) by (apply hcalls_digests; cbn; rewrite Hd; reflexivity).
    destruct (snd (arun S (ast S (afresh S) pre) [d])) as [|b [|]] eqn:E.
    - apply (f_equal (@length out)) in E. rewrite arun_length in E. discriminate.
    - exists b. rewrite !after_eq; auto; [|apply hcalls_app; auto using hcalls_digests].
      rewrite ast_app, (ast_digests obs) by exact Ho. rewrite E. auto.
    - apply (f_equal (@length out)) in E. rewrite arun_length in E. discriminate.
  Qed.

  (** *** Resets *)

  Lemma ast_setters ops : forall a acc, fst (ast S (afresh S) acc) = fst a ->
    fst (ast S (afresh S) (setters_from acc ops)) = fst (ast S a ops).
  Proof.
    induction ops as [|o r IH]; intros a acc H; [exact H|]. rewrite ast_cons.
    destruct a as [p msg]. cbn [fst] in H.
    destruct o as [[f d|[]|q v]|b| |]; cbn [setters_from]; try (apply IH; cbn; exact H).
    - apply IH. reflexivity.
    - apply IH. rewrite ast_app. destruct (ast S (afresh S) acc) as [p' msg']. cbn [fst] in H. subst p'.
      rewrite ast_cons. cbn [astep abase]. destruct (sp_set S q v p); reflexivity.
  Qed.
  Lemma setters_ok ops : forall acc, hcalls T acc -> hcalls T ops -> hcalls T (setters_from acc ops).
  Proof.
    induction ops as [|o r IH]; intros acc Ha H; [exact Ha|]. inversion H as [|? ? Ho Hr]; subst.
    destruct o as [[f d|[]|q v]|b| |]; cbn [setters_from]; apply IH; auto.
    - constructor.
    - apply hcalls_app. split; [auto|constructor; auto; constructor].
  Qed.

  Lemma setters_only ops : forall acc, snd (ast S (afresh S) acc) = [] -> snd (ast S (afresh S) (setters_from acc ops)) = [].
  Proof.
    induction ops as [|o r IH]; intros acc Ha; [exact Ha|].
    destruct o as [[f d|[]|q v]|b| |]; cbn [setters_from]; apply IH; auto.
    rewrite ast_app, ast_cons. destruct (ast S (afresh S) acc) as [p' msg']. cbn [snd] in Ha. subst msg'.
    cbn [astep abase]. destruct (sp_set S q v p'); reflexivity.
  Qed.

  Theorem reset_fresh g pre post : ht_mem_ok T g -> hcalls T pre -> hcalls T post ->
    exists r, after T g (pre ++ [HBase (Reset false)]) post = Ok r /\ after T g (setters pre) post = Ok r.
  Proof.
    intros Hg H1 H2. eexists. split; [apply after_eq; auto; apply hcalls_app; split; [auto|constructor; [discriminate|constructor]]|].
    assert (Hset : hcalls T (setters pre)) by (apply setters_ok; auto; constructor).
    rewrite after_eq by auto. do 3 f_equal. rewrite ast_app. unfold setters.
    pose proof (ast_setters pre (afresh S) [] eq_refl) as E. pose proof (setters_only pre [] eq_refl) as E2.
    destruct (ast S (afresh S) (setters_from [] pre)) as [p1 m1]. destruct (ast S (afresh S) pre) as [p2 m2].
    cbn [fst snd] in *. subst. reflexivity.
  Qed.
  Theorem reset_true_fresh g pre post : ht_clr T = true -> ht_mem_ok T g -> hcalls T pre -> hcalls T post ->
    exists r, after T g (pre ++ [HBase (Reset true)]) post = Ok r /\ after T g [] post = Ok r.
  Proof.
    intros Hc Hg H1 H2. eexists. split; [apply after_eq; auto; apply hcalls_app; split; [auto|constructor; [exact (fun _ => Hc)|constructor]]|].
    rewrite after_eq by (auto; constructor). do 3 f_equal. rewrite ast_app.
    destruct (ast S (afresh S) pre) as [p2 m2]. reflexivity.
  Qed.

  (** *** Setters *)
  Lemma set_ok q v p : (exists p', sp_set S q v p = Some p' /\ ht_accepts T q v = true) \/
    (sp_set S q v p = None /\ ht_accepts T q v = false).
  Proof. pose proof (g_acc _ _ G q v p). destruct (sp_set S q v p); eauto. Qed.
  Theorem set_throws g pre q v : ht_mem_ok T g -> hcalls T pre -> is_bytes v ->
    after T g pre [HBase (SetParam q v)] = Ok [if ht_accepts T q v then ODone else OThrow].
  Proof.
    intros Hg H1 Hv. assert (Hs : hcalls T [HBase (SetParam q v)]) by (constructor; [exact Hv|constructor]).
    rewrite after_eq by auto. do 2 f_equal.
    destruct (ast S (afresh S) pre) as [p m]. cbn [arun astep abase].
    destruct (set_ok q v p) as [(p' & -> & ->)|(-> & ->)]; reflexivity.
  Qed.
  Theorem rejected_set g pre q v post : ht_mem_ok T g -> hcalls T pre -> is_bytes v -> hcalls T post ->
    ht_accepts T q v = false ->
    exists r, after T g (pre ++ [HBase (SetParam q v)]) post = Ok r /\ after T g pre post = Ok r.
  Proof.
    intros Hg H1 Hv H2 Ha. eexists. split; [apply after_eq; auto; apply hcalls_app; split; [auto|constructor; [exact Hv|constructor]]|].
    rewrite after_eq by auto. do 3 f_equal. rewrite ast_app, ast_cons.
    destruct (ast S (afresh S) pre) as [p m]. cbn [astep abase].
    destruct (set_ok q v p) as [(p' & E & E')|(-> & _)]; [congruence|reflexivity].
  Qed.
  Theorem set_restarts g pre q v post : ht_mem_ok T g -> hcalls T pre -> is_bytes v -> hcalls T post ->
    ht_accepts T q v = true ->
    exists r, after T g (pre ++ [HBase (SetParam q v)]) post = Ok r /\
      after T g (setters pre ++ [HBase (SetParam q v)]) post = Ok r.
  Proof.
    intros Hg H1 Hv H2 Ha.
    assert (Hset : hcalls T (setters pre)) by (apply setters_ok; auto; constructor).
    assert (Hs : hcalls T [HBase (SetParam q v)]) by (constructor; [exact Hv|constructor]).
    eexists. split; [apply after_eq; auto; apply hcalls_app; auto|].
    rewrite after_eq by (auto; apply hcalls_app; auto). do 3 f_equal. rewrite !ast_app. unfold setters.
    pose proof (ast_setters pre (afresh S) [] eq_refl) as E.
    destruct (ast S (afresh S) (setters_from [] pre)) as [p1 m1]. destruct (ast S (afresh S) pre) as [p2 m2].
    cbn [fst] in E. subst p2. rewrite !ast_cons. cbn [astep abase].
    destruct (set_ok q v p1) as [(p' & -> & _)|(E & E')]; [reflexivity|congruence].
  Qed.
  Theorem setters_commute g pre q1 v1 q2 v2 post : ht_mem_ok T g -> hcalls T pre -> hcalls T post ->
    is_bytes v1 -> is_bytes v2 -> q1 <> q2 ->
    ht_accepts T q1 v1 = true -> ht_accepts T q2 v2 = true ->
    exists r, after T g (pre ++ [HBase (SetParam q1 v1); HBase (SetParam q2 v2)]) post = Ok r /\
      after T g (pre ++ [HBase (SetParam q2 v2); HBase (SetParam q1 v1)]) post = Ok r.
  Proof.
    intros Hg H1 H2 Hv1 Hv2 Hq A1 A2.
    assert (Hs : forall q v q' v', is_bytes v -> is_bytes v' -> hcalls T [HBase (SetParam q v); HBase (SetParam q' v')])
      by (intros; constructor; [assumption|constructor; [assumption|constructor]]).
    eexists. split; [apply after_eq; auto; apply hcalls_app; auto|].
    rewrite after_eq by (auto; apply hcalls_app; auto). do 3 f_equal. rewrite !ast_app.
    destruct (ast S (afresh S) pre) as [p m]. rewrite !ast_cons. cbn [astep abase].
    destruct (set_ok q1 v1 p) as [(p1 & E1 & _)|(E & E')]; [|congruence].
    destruct (set_ok q2 v2 p) as [(p2 & E2 & _)|(E & E')]; [|congruence].
    rewrite E1, E2. cbn [fst astep abase]. pose proof (g_comm _ _ G q1 q2 v1 v2 p p1 p2 Hq E1 E2) as E.
    destruct (set_ok q2 v2 p1) as [(p3 & E3 & _)|(E3 & E')]; [|congruence].
    rewrite E3 in E. rewrite <- E, E3. reflexivity.
  Qed.

  Theorem last_set_wins g pre q v1 v2 post : ht_mem_ok T g -> hcalls T pre -> hcalls T post ->
    is_bytes v1 -> is_bytes v2 -> v2 <> [] -> ht_accepts T q v2 = true ->
    exists r, after T g (pre ++ [HBase (SetParam q v1); HBase (SetParam q v2)]) post = Ok r /\
      after T g (pre ++ [HBase (SetParam q v2)]) post = Ok r.
  Proof.
    intros Hg H1 H2 Hv1 Hv2 Hne A2.
    assert (Hs1 : hcalls T [HBase (SetParam q v2)]) by (constructor; [exact Hv2|constructor]).
    assert (Hs2 : hcalls T [HBase (SetParam q v1); HBase (SetParam q v2)]) by (constructor; [exact Hv1|exact Hs1]).
    eexists. split; [apply after_eq; auto; apply hcalls_app; auto|].
    rewrite after_eq by (auto; apply hcalls_app; auto). do 3 f_equal. rewrite !ast_app.
    destruct (ast S (afresh S) pre) as [p m]. rewrite !ast_cons. cbn [astep abase].
    destruct (set_ok q v2 p) as [(p2 & E2 & _)|(E & E')]; [|congruence]. rewrite E2.
    destruct (set_ok q v1 p) as [(p1 & E1 & _)|(E1 & _)]; rewrite E1; cbn [fst astep abase].
    - rewrite (g_over _ _ G q v1 v2 p p1 Hne E1), E2. reflexivity.
    - rewrite E2. reflexivity.
  Qed.

  (** *** Safety *)
  Theorem never_undefined g pre post : ht_mem_ok T g -> hcalls T pre -> hcalls T post ->
    exists r, after T g pre post = Ok r /\ length r = length post.
  Proof. intros. eexists. split; [apply after_eq; auto|apply arun_length]. Qed.
  Theorem memory_irrelevant g g' pre post : ht_mem_ok T g -> ht_mem_ok T g' -> hcalls T pre -> hcalls T post ->
    after T g pre post = after T g' pre post.
  Proof. intros. rewrite !after_eq by auto. reflexivity. Qed.

  (** *** Digest forms *)
  Lemma put_hex_length b : (2 <= length (put_hex 2 b))%nat /\ (length (put_hex 2 b) = 2%nat -> b < 256).
  Proof.
    assert (L : forall f v acc, (length acc <= length (hex_digits f v acc))%nat).
    { induction f; intros v acc; cbn [hex_digits]; [lia|]. destruct (v <? 16); [cbn; lia|].
      eapply Nat.le_trans; [|apply IHf]. cbn. lia. }
    unfold put_hex. rewrite app_length, repeat_length. split; [lia|]. intros E.
    assert (E' : (length (hex_digits 8 b []) <= 2)%nat) by lia. clear E.
    cbn [hex_digits] in E'. destruct (N.ltb_spec b 16); [lia|].
    destruct (N.ltb_spec (b / 16) 16) as [Hb|Hb].
    - rewrite (N.div_mod b 16) by discriminate. pose proof (N.mod_lt b 16 ltac:(discriminate)). lia.
    - exfalso. destruct (b / 16 / 16 <? 16); [cbn in E'; lia|].
      match type of E' with (length (if ?c then ?A else ?B) <= 2)%nat => destruct c end; [cbn in E'; lia|].
      match type of E' with (length (if ?c then ?A else ?B) <= 2)%nat => destruct c end; [cbn in E'; lia|].
      match type of E' with (length (if ?c then ?A else ?B) <= 2)%nat => destruct c end; [cbn in E'; lia|].
      match type of E' with (length (if ?c then ?A else ?B) <= 2)%nat => destruct c end; [cbn in E'; lia|].
      match type of E' with (length (if ?c then ?A else ?B) <= 2)%nat => destruct c end; [cbn in E'; lia|].
      cbn in E'. lia.
  Qed.
  Lemma spec_hex_length l : length (spec_hex l) = (2 * length l)%nat.
  Proof. unfold spec_hex. induction l; cbn [flat_map length app]; lia. Qed.
  Lemma hex_string_bytes l : length (hex_string l) = (2 * length l)%nat -> is_bytes l.
  Proof.
    assert (L : forall l, (2 * length l <= length (hex_string l))%nat).
    { induction l0; [cbn; lia|]. unfold hex_string in *. cbn [flat_map length]. rewrite app_length.
      pose proof (proj1 (put_hex_length a)). lia. }
    induction l as [|b l IH]; intros H; [constructor|].
    unfold hex_string in *. cbn [flat_map length] in H. rewrite app_length in H. pose proof (L l) as L'. unfold hex_string in L'.
    destruct (put_hex_length b) as [B1 B2]. constructor; [apply B2; lia|apply IH; lia].
  Qed.

  (** Length and range of what the digest functions return. *)
  Lemma obs_length_bytes g pre d :
    after T g pre [HDigestIter] = Ok [OBytes d] -> after T g pre [HHexDigest] = Ok [OBytes (spec_hex d)] ->
    (forall buf, after T g pre [HDigestBuf buf] =
      Ok [if (length buf <? ht_size T)%nat then OThrow else OBytes (d ++ skipn (ht_size T) buf)]) ->
    length d = ht_size T /\ is_bytes d.
  Proof.
    intros E1 E2 E3.
    assert (M : exists s, ht_new T g = Ok s /\ exists s1 l1, hash_run P s pre = Ok (s1, l1) /\
       digest_iter P s1 = Ok d /\ hex_string d = spec_hex d /\
       forall buf, digest_buf P s1 buf = Ok (if (length buf <? ht_size T)%nat then OThrow else OBytes (d ++ skipn (ht_size T) buf))).
    { unfold after in E1, E2, E3. destruct (ht_new T g) as [s| |]; try discriminate E1. exists s. split; [reflexivity|].
      cbn [bind] in *. destruct (hash_run P s pre) as [[s1 l1]| |]; try discriminate E1. exists s1, l1. split; [reflexivity|].
      cbn [bind hash_run hash_step] in *. destruct (digest_iter P s1) as [d'| |]; try discriminate E1.
      cbn [bind] in *. injection E1 as ->. injection E2 as E2. split; [reflexivity|]. split; [exact E2|].
      intros buf. specialize (E3 buf). cbn [hash_run hash_step] in E3.
      destruct (digest_buf P s1 buf); try discriminate E3. cbn [bind] in E3. injection E3 as ->. reflexivity. }
    destruct M as (s & _ & s1 & l1 & _ & M1 & M2 & M3).
    split.
    - (* the vector has hash_size()/8 bytes, and the buffer test uses the same size *)
      assert (L : length d = N.to_nat (hp_size P s1 / 8)).
      { unfold digest_iter in M1.
        destruct (zeros (N.to_nat (hp_size P s1 / 8))) as [|z0 z] eqn:Z; [discriminate M1|].
        destruct (hp_final P s1) as [[s2 w]| |]; try discriminate M1. cbn [bind] in M1. rewrite <- Z in M1.
        unfold memcpy in M1. destruct (_ && _)%bool eqn:B in M1; [|discriminate M1].
        apply andb_true_iff in B. destruct B as [B1 B2]. apply Nat.leb_le in B1, B2.
        injection M1 as <-. rewrite overlay_length by (rewrite firstn_length; lia). apply zeros_length. }
      rewrite L.
      pose proof (M3 (zeros (N.to_nat (hp_size P s1 / 8)))) as B1.
      unfold digest_buf in B1 at 1. rewrite zeros_length, N2Nat.id, N.ltb_irrefl in B1.
      destruct (hp_final P s1) as [[s2 w]| |]; try discriminate B1. cbn [bind] in B1.
      destruct (memcpy _ _ _ _); try discriminate B1. cbn [bind] in B1.
      destruct (Nat.ltb_spec (N.to_nat (hp_size P s1 / 8)) (ht_size T)) as [Hlt|Hge]; [discriminate B1|].
      destruct (Nat.eq_dec (N.to_nat (hp_size P s1 / 8)) (ht_size T)) as [Eq|Ne]; [exact Eq|].
      pose proof (M3 (zeros (ht_size T))) as B2. unfold digest_buf in B2 at 1. rewrite zeros_length in B2.
      destruct (N.ltb_spec (N.of_nat (ht_size T)) (hp_size P s1 / 8)); [|lia].
      rewrite Nat.ltb_irrefl in B2. discriminate B2.
    - apply hex_string_bytes. rewrite M2. apply spec_hex_length.
  Qed.

  (** The digest as the iterator overload returns it. *)
  Theorem digest_forms g pre : ht_mem_ok T g -> hcalls T pre ->
    exists d, length d = ht_size T /\ is_bytes d /\
      after T g pre [HDigestIter] = Ok [OBytes d] /\
      after T g pre [HHexDigest] = Ok [OBytes (spec_hex d)] /\
      forall buf, after T g pre [HDigestBuf buf] =
        Ok [if (length buf <? ht_size T)%nat then OThrow else OBytes (d ++ skipn (ht_size T) buf)].
  Proof.
    intros Hg Hpre. set (d := sp_digest S (fst (ast S (afresh S) pre)) (snd (ast S (afresh S) pre))).
    assert (E1 : after T g pre [HDigestIter] = Ok [OBytes d]).
    { rewrite after_eq by (auto; repeat constructor). unfold d. destruct (ast S (afresh S) pre); reflexivity. }
    assert (E2 : after T g pre [HHexDigest] = Ok [OBytes (spec_hex d)]).
    { rewrite after_eq by (auto; repeat constructor). unfold d. destruct (ast S (afresh S) pre); reflexivity. }
    assert (E3 : forall buf, after T g pre [HDigestBuf buf] =
        Ok [if (length buf <? ht_size T)%nat then OThrow else OBytes (d ++ skipn (ht_size T) buf)]).
    { intros buf. rewrite after_eq by (auto; repeat constructor). rewrite <- (g_size _ _ G). unfold d.
      destruct (ast S (afresh S) pre); reflexivity. }
    exists d.
    destruct (obs_length_bytes g pre d E1 E2 E3). auto 6.
  Qed.
End Good.
