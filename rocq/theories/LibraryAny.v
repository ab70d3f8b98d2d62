(** * Every public type in arbitrary histories. *)
From Verif Require Import Base Lemmas Hasher HasherSpec HasherProof Library LibraryTypes LibraryProof XLibraryProof LibraryTypesProof
  AnyCalls AnyProof AnyShake AnyXofs AnyBlake2 Shake K12 Ascon Blake2p Blake2pRefuted.
Local Open Scope nat_scope.

Lemma xlibrary_rob P (T : xtype P) : xlibrary T -> exists X, inhabited (xrob T X).
Proof.
  intros [].
  - eexists. constructor. apply (shake_rob 128 21); [lia|reflexivity].
  - eexists. constructor. apply (shake_rob 256 17); [lia|reflexivity].
  - eexists. constructor. apply (cshake_rob 128 21); [lia|reflexivity].
  - eexists. constructor. apply (cshake_rob 256 17); [lia|reflexivity].
  - eexists. constructor. apply (kmac_rob 128 21); [lia|reflexivity].
  - eexists. constructor. apply (kmac_rob 256 17); [lia|reflexivity].
  - eexists. constructor. apply (k12_rob 128 12 21); try lia; reflexivity.
  - eexists. constructor. apply (k12_rob 256 14 17); try lia; reflexivity.
  - eexists. constructor. apply (k12_rob 256 12 17); try lia; reflexivity.
  - eexists. constructor. apply ascon_xof_rob.
  - eexists. constructor. apply ascon_cxof_rob.
  - eexists. constructor. apply esch_rob; [lia|]. cbv. lia.
  - eexists. constructor. apply esch_rob; [lia|]. cbv. lia.
  - eexists. constructor. apply blake2x_rob. auto.
  - eexists. constructor. apply blake2x_rob. auto.
  - eexists. constructor. apply skein_rob; auto. destruct H as [<-|[<-|[<-|[]]]]; lia.
Qed.

Lemma bits_ok w hs : bits_up_to (8 * w) hs -> (8 <= hs)%N /\ (hs <= 8 * w)%N /\ (hs mod 8 = 0)%N.
Proof.
  intros (H1 & H2 & H3). repeat split; auto. pose proof (N.div_mod' hs 8).
  assert (hs / 8 <> 0)%N by (intros H0; rewrite H0, H3 in H; lia). lia.
Qed.
Lemma library_rob P (T : htype P) : library T -> ht_clr T = true \/ exists X, inhabited (hrob T X).
Proof.
  intros H. destruct (ht_clr T) eqn:E; [auto|right].
  destruct H; try discriminate E; eexists; constructor.
  - apply blake2p_rob; auto. apply bits_ok; auto.
  - apply blake2p_static_rob; auto. apply bits_ok; auto.
  - apply blake2p_rob; auto. apply bits_ok; auto.
  - apply blake2p_static_rob; auto. apply bits_ok; auto.
  - apply blake2p_omp_rob; auto. apply bits_ok; auto.
  - apply blake2p_omp_static_rob; auto. apply bits_ok; auto.
  - apply blake2p_omp_rob; auto. apply bits_ok; auto.
  - apply blake2p_omp_static_rob; auto. apply bits_ok; auto.
Qed.
Lemma hany_hcalls P (T : htype P) ops : ht_clr T = true -> hany ops -> hcalls T ops.
Proof.
  intros Hc. unfold hany, hcalls. apply Forall_impl. intros [[f d|b|q v]|buf| |]; cbn; auto.
Qed.

(** ** Observations regrouped *)
Lemma hash_run_app P a : forall s b,
  hash_run P s (a ++ b) = (' (s, l1) <- hash_run P s a ;; ' (s, l2) <- hash_run P s b ;; Ok (s, l1 ++ l2)).
Proof.
  induction a as [|o r IH]; intros s b; cbn [app hash_run bind].
  - destruct (hash_run P s b) as [[? ?]| |]; reflexivity.
  - destruct (hash_step P s o) as [[s1 x]| |]; cbn [bind]; [|reflexivity|reflexivity].
    rewrite IH. destruct (hash_run P s1 r) as [[s2 l]| |]; cbn [bind]; [|reflexivity|reflexivity].
    destruct (hash_run P s2 b) as [[? ?]| |]; reflexivity.
Qed.
Lemma xof_run_app P a : forall s b,
  xof_run P s (a ++ b) = (' (s, l1) <- xof_run P s a ;; ' (s, l2) <- xof_run P s b ;; Ok (s, l1 ++ l2)).
Proof.
  induction a as [|o r IH]; intros s b; cbn [app xof_run bind].
  - destruct (xof_run P s b) as [[? ?]| |]; reflexivity.
  - destruct (xof_step P s o) as [[s1 x]| |]; cbn [bind]; [|reflexivity|reflexivity].
    rewrite IH. destruct (xof_run P s1 r) as [[s2 l]| |]; cbn [bind]; [|reflexivity|reflexivity].
    destruct (xof_run P s2 b) as [[? ?]| |]; reflexivity.
Qed.
Lemma after_move P (T : htype P) g pre o post : after T g (pre ++ [o]) post = (l <- after T g pre (o :: post) ;; Ok (tl l)).
Proof.
  unfold after. destruct (ht_new T g) as [s| |]; cbn [bind]; [|reflexivity|reflexivity]. rewrite hash_run_app.
  destruct (hash_run P s pre) as [[t l]| |]; cbn [bind hash_run]; [|reflexivity|reflexivity].
  destruct (hash_step P t o) as [[u x]| |]; cbn [bind]; [|reflexivity|reflexivity].
  destruct (hash_run P u post) as [[v m]| |]; reflexivity.
Qed.
Lemma xafter_move P (T : xtype P) g pre o post : xafter T g (pre ++ [o]) post = (l <- xafter T g pre (o :: post) ;; Ok (tl l)).
Proof.
  unfold xafter. destruct (xt_new T g) as [s| |]; cbn [bind]; [|reflexivity|reflexivity]. rewrite xof_run_app.
  destruct (xof_run P s pre) as [[t l]| |]; cbn [bind xof_run]; [|reflexivity|reflexivity].
  destruct (xof_step P t o) as [[u x]| |]; cbn [bind]; [|reflexivity|reflexivity].
  destruct (xof_run P u post) as [[v m]| |]; reflexivity.
Qed.

(** ** Results for fixed-output types *)
Section H.
  Context {P : hash_provider} (T : htype P).
  Hypothesis HT : library T.

  Theorem any_defined g pre post : ht_mem_ok T g -> hany pre -> hany post ->
    exists r, after T g pre post = Ok r /\ length r = length post.
  Proof.
    intros Hg H1 H2. destruct (library_rob P T HT) as [Hc|(X & [R])].
    - destruct (library_good P T HT) as [S G]. apply (never_undefined G); auto using hany_hcalls.
    - apply (hany_defined R); auto.
  Qed.
  Theorem any_memory g g' pre post : ht_mem_ok T g -> ht_mem_ok T g' -> hany pre -> hany post -> after T g pre post = after T g' pre post.
  Proof.
    intros Hg Hg' H1 H2. destruct (library_rob P T HT) as [Hc|(X & [R])].
    - destruct (library_good P T HT) as [S G]. apply (memory_irrelevant G); auto using hany_hcalls.
    - apply (hany_memory R); auto.
  Qed.

  Lemma obs_run obs : forallb is_digest obs = true -> forall s t l, hash_run P s obs = Ok (t, l) -> t = s.
  Proof.
    induction obs as [|o r IH]; intros Ho s t l; cbn [hash_run]; [congruence|].
    cbn [forallb] in Ho. apply andb_prop in Ho as [H1 H2]. destruct (hash_step P s o) as [[u x]| |] eqn:E; cbn [bind]; try discriminate.
    destruct (hash_run P u r) as [[v m]| |] eqn:E2; cbn [bind]; try discriminate. intros [= <- <-].
    rewrite (IH H2 _ _ _ E2). destruct o as [b|buf| |]; cbn in H1; try discriminate H1; cbn [hash_step] in E.
    - destruct (digest_buf P s buf); cbn [bind] in E; congruence.
    - destruct (digest_iter P s); cbn [bind] in E; congruence.
    - destruct (digest_iter P s); cbn [bind] in E; congruence.
  Qed.
  Lemma hany_app (a b : list (hash_op (p_param P))) : hany a -> hany b -> hany (a ++ b).
  Proof. intros. apply Forall_app. auto. Qed.
  Lemma obs_any (obs : list (hash_op (p_param P))) : forallb is_digest obs = true -> hany obs.
  Proof. rewrite forallb_forall. unfold hany. rewrite Forall_forall. intros H [b|buf| |] Hi; cbn; auto. specialize (H _ Hi). discriminate H. Qed.
  Theorem any_observes g pre obs pre2 post : ht_mem_ok T g -> hany pre -> hany pre2 -> hany post -> forallb is_digest obs = true ->
    exists r, after T g (pre ++ obs ++ pre2) post = Ok r /\ after T g (pre ++ pre2) post = Ok r.
  Proof.
    intros Hg H1 H2 H3 Ho.
    destruct (any_defined g (pre ++ obs ++ pre2) post) as (r & E & _); auto using hany_app, obs_any.
    exists r. split; [exact E|]. revert E. unfold after. destruct (ht_new T g) as [s| |]; cbn [bind]; auto.
    rewrite !hash_run_app. destruct (hash_run P s pre) as [[t l]| |]; cbn [bind]; auto. rewrite hash_run_app.
    destruct (hash_run P t obs) as [[u m]| |] eqn:E; cbn [bind]; try discriminate. rewrite (obs_run obs Ho _ _ _ E).
    destruct (hash_run P t pre2) as [[v k]| |]; cbn [bind]; auto.
  Qed.
  Theorem any_repeats g pre obs d : ht_mem_ok T g -> hany pre -> forallb is_digest obs = true -> is_digest d = true ->
    exists b, after T g (pre ++ obs) [d] = Ok [b] /\ after T g pre [d] = Ok [b].
  Proof.
    intros Hg H1 Ho Hd. assert (Hd' : hany [d]) by (apply obs_any; cbn [forallb]; rewrite Hd; reflexivity).
    destruct (any_observes g pre obs [] [d]) as (r & E1 & E2); auto; [constructor|].
    rewrite !app_nil_r in *. destruct (any_defined g pre [d]) as (r' & E3 & L); auto. rewrite E2 in E3. injection E3 as <-.
    destruct r as [|b [|? ?]]; try discriminate L. eauto.
  Qed.

  Theorem any_set_throws g pre q v : ht_mem_ok T g -> hany pre -> is_bytes v ->
    after T g pre [HBase (SetParam q v)] = Ok [if ht_accepts T q v then ODone else OThrow].
  Proof.
    intros Hg H1 Hv. destruct (library_rob P T HT) as [Hc|(X & [R])].
    - destruct (library_good P T HT) as [S G]. apply (set_throws G); auto using hany_hcalls.
    - apply (hany_set_outcome R); auto.
  Qed.
  Theorem any_rejected g pre q v post : ht_mem_ok T g -> hany pre -> is_bytes v -> hany post -> ht_accepts T q v = false ->
    exists r, after T g (pre ++ [HBase (SetParam q v)]) post = Ok r /\ after T g pre post = Ok r.
  Proof.
    intros Hg H1 Hv H2 Ha. destruct (library_rob P T HT) as [Hc|(X & [R])].
    - destruct (library_good P T HT) as [S G]. apply (rejected_set G); auto using hany_hcalls.
    - apply (hany_set_rejected R); auto.
  Qed.
  Theorem any_commute g pre q1 v1 q2 v2 post : ht_mem_ok T g -> hany pre -> hany post -> is_bytes v1 -> is_bytes v2 -> q1 <> q2 ->
    ht_accepts T q1 v1 = true -> ht_accepts T q2 v2 = true ->
    exists r, after T g (pre ++ [HBase (SetParam q1 v1); HBase (SetParam q2 v2)]) post = Ok r /\
      after T g (pre ++ [HBase (SetParam q2 v2); HBase (SetParam q1 v1)]) post = Ok r.
  Proof.
    intros. destruct (library_rob P T HT) as [Hc|(X & [R])].
    - destruct (library_good P T HT) as [S G]. apply (setters_commute G); auto using hany_hcalls.
    - apply (hany_set_commute R); auto.
  Qed.
  Theorem any_last g pre q v1 v2 post : ht_mem_ok T g -> hany pre -> hany post -> is_bytes v1 -> is_bytes v2 -> v2 <> [] -> ht_accepts T q v2 = true ->
    exists r, after T g (pre ++ [HBase (SetParam q v1); HBase (SetParam q v2)]) post = Ok r /\
      after T g (pre ++ [HBase (SetParam q v2)]) post = Ok r.
  Proof.
    intros Hg H1 H2 Hv1 Hv2 Hn Ha. destruct (library_rob P T HT) as [Hc|(X & [R])].
    - destruct (library_good P T HT) as [S G]. apply (last_set_wins G); auto using hany_hcalls.
    - destruct (ht_accepts T q v1) eqn:E1; [apply (hany_set_last R); auto|].
      destruct (any_rejected g pre q v1 (HBase (SetParam q v2) :: post)) as (r & A & B); auto. { constructor; auto. }
      change [HBase (SetParam q v1); HBase (SetParam q v2)] with ([HBase (SetParam q v1)] ++ [HBase (SetParam q v2)]).
      exists (tl r). rewrite app_assoc, !after_move, <- after_move, A, B. auto.
  Qed.
  (** Where reset(true) does not clear everything: the parameter calls are repeated. *)
  Theorem any_reset g pre post : ht_clr T = false -> ht_mem_ok T g -> hany pre -> hany post ->
    exists r, after T g (pre ++ [HBase (Reset false)]) post = Ok r /\ after T g (filter hparam_call pre) post = Ok r.
  Proof.
    intros Hc Hg H1 H2. destruct (library_rob P T HT) as [Hc'|(X & [R])]; [congruence|]. apply (hany_reset R); auto.
  Qed.
  Theorem any_set_restarts g pre q v post : ht_clr T = false -> ht_mem_ok T g -> hany pre -> is_bytes v -> hany post -> ht_accepts T q v = true ->
    exists r, after T g (pre ++ [HBase (SetParam q v)]) post = Ok r /\
      after T g (filter hparam_call pre ++ [HBase (SetParam q v)]) post = Ok r.
  Proof.
    intros Hc Hg H1 Hv H2 Ha. destruct (library_rob P T HT) as [Hc'|(X & [R])]; [congruence|]. apply (hany_set_accepted R); auto.
  Qed.
End H.

(** ** Results for extendable-output types *)
Section X.
  Context {P : xof_provider} (T : xtype P).
  Hypothesis HT : xlibrary T.

  Theorem xany_last g pre q v1 v2 post : xt_mem_ok T g -> xany pre -> xany post -> is_bytes v1 -> is_bytes v2 -> v2 <> [] -> xt_accepts T q v2 = true ->
    exists r, xafter T g (pre ++ [XBase (SetParam q v1); XBase (SetParam q v2)]) post = Ok r /\
      xafter T g (pre ++ [XBase (SetParam q v2)]) post = Ok r.
  Proof.
    intros Hg H1 H2 Hv1 Hv2 Hn Ha. destruct (xlibrary_rob P T HT) as (X & [R]).
    destruct (xt_accepts T q v1) eqn:E1; [apply (xany_set_last R); auto|].
    destruct (xany_set_rejected R g pre q v1 (XBase (SetParam q v2) :: post)) as (r & A & B); auto. { constructor; auto. }
    change [XBase (SetParam q v1); XBase (SetParam q v2)] with ([XBase (SetParam q v1)] ++ [XBase (SetParam q v2)]).
    exists (tl r). rewrite app_assoc, !xafter_move, <- xafter_move, A, B. auto.
  Qed.
  (** hasher.hpp:273 *)
  Theorem xany_empty_iter g pre : xt_mem_ok T g -> xany pre ->
    xafter T g pre [XSqueezeIter 0] = UB EmptyVectorRef /\ xafter T g pre [XHexSqueeze 0] = UB EmptyVectorRef.
  Proof.
    intros Hg H1. destruct (xlibrary_rob P T HT) as (X & [R]). destruct (xany_defined R g pre []) as (r & E & _); auto; [constructor|].
    unfold xafter in *. destruct (xt_new T g) as [s| |]; cbn [bind] in *; try discriminate.
    destruct (xof_run P s pre) as [[t l]| |]; cbn [bind] in *; try discriminate. split; reflexivity.
  Qed.
End X.
(** ascon_cxof: the customization survives reset(true). *)
Definition xset_call {param} (o : xof_op param) : bool := match o with XBase (SetParam _ _) => true | _ => false end.
Theorem ascon_cxof_reset g pre post : xt_mem_ok ascon_cxof_type g -> xany pre -> xany post ->
  exists r, xafter ascon_cxof_type g (pre ++ [XBase (Reset false)]) post = Ok r /\
    xafter ascon_cxof_type g (filter xset_call pre) post = Ok r.
Proof.
  intros Hg H1 H2.
  assert (F : filter xparam_call (filter (@xset_call (p_param ascon_cxof)) pre) = filter xset_call pre).
  { clear. induction pre as [|[[f d|b|q v]|n|n|n] r IH]; cbn [filter xset_call xparam_call param_base]; auto. f_equal. exact IH. }
  rewrite <- F. apply (xany_restart_params ascon_cxof_rob g pre (XBase (Reset false)) (filter xset_call pre) post); auto.
  - exact I.
  - apply incl_Forall with (l1 := pre); auto. apply incl_filter.
  - clear. change (xopar ascon_cxof_rob (XBase (Reset false)) ?x) with x.
    generalize (xr_0 _ _ ascon_cxof_rob). induction pre as [|[[f d|[]|q v]|n|n|n] r IH]; intros x; cbn [filter xset_call]; try apply IH.
    reflexivity.
Qed.
Theorem ascon_cxof_set g pre q v post : xt_mem_ok ascon_cxof_type g -> xany pre -> is_bytes v -> xany post -> xt_accepts ascon_cxof_type q v = true ->
  exists r, xafter ascon_cxof_type g (pre ++ [XBase (SetParam q v)]) post = Ok r /\
    xafter ascon_cxof_type g (filter xset_call pre ++ [XBase (SetParam q v)]) post = Ok r.
Proof.
  intros Hg H1 Hv H2 Ha. apply (xany_same_restart ascon_cxof_rob g pre (XBase (SetParam q v)) (filter xset_call pre) (XBase (SetParam q v)) post Hg H1 Hv); [|exact Hv|exact H2|..].
  - apply incl_Forall with (l1 := pre); auto. apply incl_filter.
  - rewrite acc_restart. exact Ha.
  - rewrite acc_restart. exact Ha.
  - f_equal. clear.
    generalize (xr_0 _ _ ascon_cxof_rob). induction pre as [|[[f d|[]|q v]|n|n|n] r IH]; intros x; cbn [filter xset_call]; try apply IH.
    reflexivity.
Qed.

(** ** blake2bp after reset(true) and reset() *)
Definition reset_differs {P} (T : htype P) : Prop :=
  forall g, ht_mem_ok T g -> exists a b,
    after T g [] [HDigestIter] = Ok [OBytes a] /\
    after T g [HBase (Reset true); HBase (Reset false)] [HDigestIter] = Ok [OBytes b] /\ a <> b.
Lemma differs_reset P (T : htype P) : library T -> ht_clr T = false -> reset_true_differs T -> reset_differs T.
Proof.
  intros HT Hc H g Hg. destruct (H g Hg) as (a & b & A & B & D). exists a, b. repeat split; auto.
  destruct (any_reset T HT g [HBase (Reset true)] [HDigestIter] Hc Hg) as (r & E1 & E2); [repeat constructor..|].
  change (after T g [HBase (Reset true)] [HDigestIter] = Ok r) in E2. rewrite B in E2. rewrite E2. exact E1.
Qed.
