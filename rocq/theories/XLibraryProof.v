(** * Consequences of implementing an abstract hasher, for extendable-output types. *)
From Verif Require Import Base Lemmas Hasher HasherSpec HasherProof SpongeProof Library LibraryProof.

(** [T] implements an abstract XOF. *)
Record xgood {P} (T : xtype P) (S : xof_spec (p_param P)) : Prop := {
  xg_impl : forall g, xt_mem_ok T g -> ximplements P S (xt_clr T) (xt_new T g);
  xg_acc : forall q v p, match xs_set S q v p with None => xt_accepts T q v = false | Some _ => xt_accepts T q v = true end;
  xg_comm : forall q1 q2 v1 v2 p p1 p2, q1 <> q2 -> xs_set S q1 v1 p = Some p1 -> xs_set S q2 v2 p = Some p2 ->
    xs_set S q2 v2 p1 = xs_set S q1 v1 p2;
  xg_over : forall q v1 v2 p p1, v2 <> [] -> xs_set S q v1 p = Some p1 -> xs_set S q v2 p1 = xs_set S q v2 p;
  xg_zero : forall p msg, xs_out S p msg 0 = [];
  xg_prefix : forall p msg n m, length (xs_out S p msg n) = n -> (n <= m)%nat ->
    firstn n (xs_out S p msg m) = xs_out S p msg n
}.

Lemma xof_run_app P ops1 : forall s ops2,
  xof_run P s (ops1 ++ ops2) =
  (' (s, l1) <- xof_run P s ops1 ;; ' (s, l2) <- xof_run P s ops2 ;; Ok (s, l1 ++ l2)).
Proof.
  induction ops1 as [|o r IH]; intros s ops2; cbn [app xof_run bind].
  - destruct (xof_run P s ops2) as [[? ?]| |]; reflexivity.
  - destruct (xof_step P s o) as [[s1 x]| |]; cbn [bind]; [|reflexivity|reflexivity].
    rewrite IH. destruct (xof_run P s1 r) as [[s2 l]| |]; cbn [bind]; [|reflexivity|reflexivity].
    destruct (xof_run P s2 ops2) as [[? ?]| |]; reflexivity.
Qed.
Lemma xrun_app {param} (S : xof_spec param) ops1 : forall a ops2,
  xrun S a (ops1 ++ ops2) =
  (let (a1, l1) := xrun S a ops1 in let (a2, l2) := xrun S a1 ops2 in (a2, l1 ++ l2)).
Proof.
  induction ops1 as [|o r IH]; intros a ops2; cbn [app xrun].
  - destruct (xrun S a ops2). reflexivity.
  - destruct (xstep S a o) as [a1 x]. rewrite IH. destruct (xrun S a1 r) as [a2 l].
    destruct (xrun S a2 ops2). reflexivity.
Qed.
Lemma xrun_length {param} (S : xof_spec param) ops : forall a, length (snd (xrun S a ops)) = length ops.
Proof.
  induction ops as [|o r IH]; intros a; [reflexivity|]. cbn [xrun]. destruct (xstep S a o) as [a1 x].
  specialize (IH a1). destruct (xrun S a1 r). cbn [snd length] in *. rewrite IH. reflexivity.
Qed.
Definition xst {param} (S : xof_spec param) a ops : xstate S := fst (xrun S a ops).
Lemma xst_app {param} (S : xof_spec param) a o1 o2 : xst S a (o1 ++ o2) = xst S (xst S a o1) o2.
Proof. unfold xst. rewrite xrun_app. destruct (xrun S a o1) as [a1 l1]. cbn [fst]. destruct (xrun S a1 o2). reflexivity. Qed.
Lemma xst_cons {param} (S : xof_spec param) a o r : xst S a (o :: r) = xst S (fst (xstep S a o)) r.
Proof. unfold xst. cbn [xrun]. destruct (xstep S a o) as [a1 x]. cbn [fst]. destruct (xrun S a1 r). reflexivity. Qed.

Lemma xcalls_app {P} (T : xtype P) ops1 : forall sq ops2,
  xcalls_from T sq (ops1 ++ ops2) <-> xcalls_from T sq ops1 /\ xcalls_from T (fold_left (xflag1 T) ops1 sq) ops2.
Proof.
  induction ops1 as [|o r IH]; intros sq ops2; cbn [app fold_left]; [cbn; tauto|].
  destruct o as [[f d|b|q v]|n|n|n]; cbn [xcalls_from xflag1]; rewrite IH; tauto.
Qed.

Section XGood.
  Context {P : xof_provider} {T : xtype P} {S : xof_spec (p_param P)}.
  Hypothesis G : xgood T S.

  Lemma xset_ok q v p : (exists p', xs_set S q v p = Some p' /\ xt_accepts T q v = true) \/
    (xs_set S q v p = None /\ xt_accepts T q v = false).
  Proof. pose proof (xg_acc _ _ G q v p). destruct (xs_set S q v p); eauto. Qed.

  Definition sqd (a : xstate S) : bool := squeezed_something S a.
  Lemma sqd_step a o : (match o with XBase _ => True | XSqueezeBuf n | XSqueezeIter n | XHexSqueeze n => (0 < n)%nat end) ->
    sqd (fst (xstep S a o)) = xflag1 T (sqd a) o.
  Proof.
    destruct a as [[p msg] k]. destruct o as [[f d|[]|q v]|n|n|n]; intros H; try reflexivity.
    - cbn [xstep xflag1]. destruct (xset_ok q v p) as [(p' & -> & ->)|(-> & ->)]; reflexivity.
    - cbn. destruct (Nat.eqb_spec (k + n) 0); [lia|reflexivity].
    - cbn. destruct (Nat.eqb_spec (k + n) 0); [lia|reflexivity].
    - cbn. destruct (Nat.eqb_spec (k + n) 0); [lia|reflexivity].
  Qed.
  Lemma xcalls_ok ops : forall a, xcalls_from T (sqd a) ops -> xof_ops_ok S (xt_clr T) a ops.
  Proof.
    induction ops as [|o r IH]; intros a H; [exact I|]. cbn [xof_ops_ok].
    assert (Ho : match o with XBase _ => True | XSqueezeBuf n | XSqueezeIter n | XHexSqueeze n => (0 < n)%nat end).
    { destruct o; try exact I; apply H. }
    split.
    - destruct o as [[f d|b|q v]|n|n|n]; cbn [xcalls_from] in H; try exact Ho.
      + split; [apply H|]. apply H.
      + split; [apply H|exact I].
      + split; [apply H|exact I].
    - apply IH. rewrite sqd_step by exact Ho. destruct o as [[f d|b|q v]|n|n|n]; cbn [xcalls_from xflag1] in *; apply H.
  Qed.
  Lemma sqd_run ops : forall a, xcalls_from T (sqd a) ops -> sqd (xst S a ops) = fold_left (xflag1 T) ops (sqd a).
  Proof.
    induction ops as [|o r IH]; intros a H; [reflexivity|]. rewrite xst_cons. cbn [fold_left].
    assert (Ho : match o with XBase _ => True | XSqueezeBuf n | XSqueezeIter n | XHexSqueeze n => (0 < n)%nat end).
    { destruct o; try exact I; apply H. }
    rewrite <- sqd_step by exact Ho. apply IH. rewrite sqd_step by exact Ho.
    destruct o as [[f d|b|q v]|n|n|n]; cbn [xcalls_from xflag1] in *; apply H.
  Qed.

  Theorem xafter_eq g pre post : xt_mem_ok T g -> xcalls T pre -> xcalls_from T (xflag T pre) post ->
    xafter T g pre post = Ok (snd (xrun S (xst S (xfresh S) pre) post)).
  Proof.
    intros Hg H1 H2. unfold xcalls in H1. unfold xflag in H2.
    assert (H12 : xcalls_from T false (pre ++ post)) by (apply xcalls_app; auto).
    destruct (xg_impl _ _ G g Hg pre (xcalls_ok _ (xfresh S) H1)) as (s0 & s1 & E0 & E1).
    destruct (xg_impl _ _ G g Hg (pre ++ post) (xcalls_ok _ (xfresh S) H12)) as (s0' & s2 & E0' & E2).
    rewrite E0 in E0'. injection E0' as <-. unfold xafter. rewrite E0. cbn [bind]. rewrite E1. cbn [bind].
    rewrite xof_run_app, E1 in E2. cbn [bind] in E2.
    destruct (xof_run P s1 post) as [[s3 l]| |]; try discriminate E2. cbn [bind] in *.
    injection E2 as _ E2. rewrite xrun_app in E2. unfold xst.
    destruct (xrun S (xfresh S) pre) as [a1 l1]. cbn [fst snd] in *.
    destruct (xrun S a1 post) as [a2 l2]. cbn [snd] in *.
    apply app_inv_head in E2. rewrite E2. reflexivity.
  Qed.

  (** *** Absorbing *)
  Definition xab (p : form * list N) : xof_op (p_param P) := XBase (Absorb (fst p) (snd p)).
  Lemma xst_absorbs l : forall p msg k, xst S (p, msg, k) (map xab l) = (p, msg ++ stream_bytes l, k).
  Proof.
    induction l as [|[f d] l IH]; intros p msg k; [cbn; rewrite app_nil_r; reflexivity|].
    cbn [map]. rewrite xst_cons. cbn [xab fst snd xstep].
    change (stream_bytes ((f, d) :: l)) with (absorbed f d ++ stream_bytes l).
    rewrite app_assoc, <- IH. reflexivity.
  Qed.
  Lemma xab_flag l : forall sq, fold_left (xflag1 T) (map xab l) sq = sq.
  Proof. induction l; intros; cbn; auto. Qed.
  Lemma xab_calls l : Forall (fun p => is_bytes (snd p)) l -> xcalls_from T false (map xab l).
  Proof. induction l as [|[f d] l IH]; intros H; [exact I|]. inversion H; subst. cbn. auto. Qed.

  Theorem xabsorb_forms g pre l f post : f <> FBadStream ->
    xt_mem_ok T g -> xcalls T pre -> xflag T pre = false -> Forall (fun p => is_bytes (snd p)) l ->
    xcalls_from T false post ->
    exists r, xafter T g (pre ++ map xab l) post = Ok r /\
      xafter T g (pre ++ [XBase (Absorb f (stream_bytes l))]) post = Ok r.
  Proof.
    intros Hf Hg Hpre Hfl Hl Hpost.
    assert (Hs : is_bytes (stream_bytes l)).
    { unfold is_bytes, stream_bytes. apply Forall_flat_map. eapply Forall_impl; [|exact Hl].
      intros [[] d] H; cbn in *; auto. }
    assert (H1 : xcalls T (pre ++ map xab l)).
    { apply xcalls_app. split; [exact Hpre|]. unfold xflag in Hfl. rewrite Hfl. apply xab_calls; auto. }
    assert (H2 : xcalls T (pre ++ [XBase (Absorb f (stream_bytes l))])).
    { apply xcalls_app. split; [exact Hpre|]. unfold xflag in Hfl. rewrite Hfl. cbn. auto. }
    assert (F1 : xflag T (pre ++ map xab l) = false).
    { unfold xflag in *. rewrite fold_left_app, Hfl. apply xab_flag. }
    assert (F2 : xflag T (pre ++ [XBase (Absorb f (stream_bytes l))]) = false).
    { unfold xflag in *. rewrite fold_left_app, Hfl. reflexivity. }
    eexists. split; [apply xafter_eq; rewrite ?F1; auto|].
    rewrite xafter_eq; rewrite ?F2; auto. do 3 f_equal. rewrite !xst_app.
    destruct (xst S (xfresh S) pre) as [[p msg] k]. rewrite xst_absorbs. unfold xst. cbn [xrun xstep fst].
    destruct f; try reflexivity. contradiction.
  Qed.
  Theorem xabsorb_nothing g pre f post : xt_mem_ok T g -> xcalls T pre -> xflag T pre = false ->
    xcalls_from T false post ->
    exists r, xafter T g (pre ++ [XBase (Absorb f [])]) post = Ok r /\ xafter T g pre post = Ok r.
  Proof.
    intros Hg Hpre Hfl Hpost.
    assert (H2 : xcalls T (pre ++ [XBase (Absorb f [])])).
    { apply xcalls_app. split; [exact Hpre|]. unfold xflag in Hfl. rewrite Hfl. cbn. split; [constructor|auto]. }
    assert (F2 : xflag T (pre ++ [XBase (Absorb f [])]) = false).
    { unfold xflag in *. rewrite fold_left_app, Hfl. reflexivity. }
    eexists. split; [apply xafter_eq; rewrite ?F2; auto|].
    rewrite xafter_eq; rewrite ?Hfl; auto. do 3 f_equal. rewrite xst_app.
    destruct (xst S (xfresh S) pre) as [[p msg] k].
    unfold xst. cbn [xrun xstep fst]. destruct f; cbn [absorbed]; rewrite app_nil_r; reflexivity.
  Qed.

  (** *** Resets *)
  Lemma xst_setters ops : forall a acc, fst (fst (xst S (xfresh S) acc)) = fst (fst a) ->
    fst (fst (xst S (xfresh S) (xsetters_from acc ops))) = fst (fst (xst S a ops)).
  Proof.
    induction ops as [|o r IH]; intros a acc H; [exact H|]. rewrite xst_cons.
    destruct a as [[p msg] k]. cbn [fst] in H.
    destruct o as [[f d|[]|q v]|b|b|b]; cbn [xsetters_from]; try (apply IH; cbn; exact H).
    - apply IH. reflexivity.
    - apply IH. rewrite xst_app. destruct (xst S (xfresh S) acc) as [[p' msg'] k']. cbn [fst] in H. subst p'.
      rewrite xst_cons. cbn [xstep]. destruct (xs_set S q v p); reflexivity.
  Qed.
  Lemma xsetters_calls ops : forall acc sq, xcalls_from T false acc -> fold_left (xflag1 T) acc false = false ->
    xcalls_from T sq ops ->
    xcalls_from T false (xsetters_from acc ops) /\ fold_left (xflag1 T) (xsetters_from acc ops) false = false.
  Proof.
    induction ops as [|o r IH]; intros acc sq Ha Hf H; [auto|].
    destruct o as [[f d|[]|q v]|b|b|b]; cbn [xsetters_from xcalls_from] in *.
    - apply (IH acc sq); auto. apply H.
    - apply (IH [] false); [exact I|reflexivity|apply H].
    - apply (IH acc false); auto. apply H.
    - destruct H as [Hv Hr]. eapply IH; [| |exact Hr].
      + apply xcalls_app. split; [exact Ha|]. cbn. auto.
      + rewrite fold_left_app, Hf. cbn. destruct (xt_accepts T q v); reflexivity.
    - apply (IH acc true); auto. apply H.
    - apply (IH acc true); auto. apply H.
    - apply (IH acc true); auto. apply H.
  Qed.
  Lemma xsetters_only ops : forall acc, snd (fst (xst S (xfresh S) acc)) = [] /\ snd (xst S (xfresh S) acc) = 0%nat ->
    snd (fst (xst S (xfresh S) (xsetters_from acc ops))) = [] /\ snd (xst S (xfresh S) (xsetters_from acc ops)) = 0%nat.
  Proof.
    induction ops as [|o r IH]; intros acc Ha; [exact Ha|].
    destruct o as [[f d|[]|q v]|b|b|b]; cbn [xsetters_from]; apply IH; auto.
    rewrite xst_app, xst_cons. destruct (xst S (xfresh S) acc) as [[p' msg'] k']. cbn [fst snd] in Ha. destruct Ha as [-> ->].
    cbn [xstep]. destruct (xs_set S q v p'); split; reflexivity.
  Qed.

  Theorem xreset_fresh g pre post : xt_mem_ok T g -> xcalls T pre -> xcalls_from T false post ->
    exists r, xafter T g (pre ++ [XBase (Reset false)]) post = Ok r /\ xafter T g (xsetters pre) post = Ok r.
  Proof.
    intros Hg H1 H2.
    assert (H3 : xcalls T (pre ++ [XBase (Reset false)])).
    { apply xcalls_app. split; [exact H1|]. cbn. split; [discriminate|auto]. }
    assert (F : xflag T (pre ++ [XBase (Reset false)]) = false).
    { unfold xflag. rewrite fold_left_app. reflexivity. }
    destruct (xsetters_calls pre [] false I eq_refl H1) as [H4 F4].
    eexists. split; [apply xafter_eq; rewrite ?F; auto|].
    rewrite xafter_eq; [|auto|exact H4|]. 2:{ unfold xflag, xsetters. rewrite F4. exact H2. }
    do 3 f_equal. rewrite xst_app. unfold xsetters.
    pose proof (xst_setters pre (xfresh S) [] eq_refl) as E. pose proof (xsetters_only pre [] (conj eq_refl eq_refl)) as [E2 E3].
    destruct (xst S (xfresh S) (xsetters_from [] pre)) as [[p1 m1] k1]. destruct (xst S (xfresh S) pre) as [[p2 m2] k2].
    cbn [fst snd] in *. subst. reflexivity.
  Qed.
  Theorem xreset_true_fresh g pre post : xt_clr T = true -> xt_mem_ok T g -> xcalls T pre -> xcalls_from T false post ->
    exists r, xafter T g (pre ++ [XBase (Reset true)]) post = Ok r /\ xafter T g [] post = Ok r.
  Proof.
    intros Hc Hg H1 H2.
    assert (H3 : xcalls T (pre ++ [XBase (Reset true)])).
    { apply xcalls_app. split; [exact H1|]. cbn. split; [exact (fun _ => Hc)|auto]. }
    assert (F : xflag T (pre ++ [XBase (Reset true)]) = false).
    { unfold xflag. rewrite fold_left_app. reflexivity. }
    eexists. split; [apply xafter_eq; rewrite ?F; auto|].
    rewrite xafter_eq by (auto; exact I). do 3 f_equal. rewrite xst_app.
    destruct (xst S (xfresh S) pre) as [[p2 m2] k2]. reflexivity.
  Qed.

  (** *** Setters *)
  Theorem xset_throws g pre q v : xt_mem_ok T g -> xcalls T pre -> is_bytes v ->
    xafter T g pre [XBase (SetParam q v)] = Ok [if xt_accepts T q v then ODone else OThrow].
  Proof.
    intros Hg H1 Hv. rewrite xafter_eq; [|auto|auto|cbn; auto]. do 2 f_equal.
    destruct (xst S (xfresh S) pre) as [[p m] k]. cbn [xrun xstep].
    destruct (xset_ok q v p) as [(p' & -> & ->)|(-> & ->)]; reflexivity.
  Qed.
  Theorem xrejected_set g pre q v post : xt_mem_ok T g -> xcalls T pre -> is_bytes v -> xcalls_from T (xflag T pre) post ->
    xt_accepts T q v = false ->
    exists r, xafter T g (pre ++ [XBase (SetParam q v)]) post = Ok r /\ xafter T g pre post = Ok r.
  Proof.
    intros Hg H1 Hv H2 Ha.
    assert (H3 : xcalls T (pre ++ [XBase (SetParam q v)])).
    { apply xcalls_app. split; [exact H1|]. cbn. auto. }
    assert (F : xflag T (pre ++ [XBase (SetParam q v)]) = xflag T pre).
    { unfold xflag. rewrite fold_left_app. cbn. rewrite Ha. reflexivity. }
    eexists. split; [apply xafter_eq; rewrite ?F; auto|].
    rewrite xafter_eq by auto. do 3 f_equal. rewrite xst_app, xst_cons.
    destruct (xst S (xfresh S) pre) as [[p m] k]. cbn [xstep].
    destruct (xset_ok q v p) as [(p' & E & E')|(-> & _)]; [congruence|reflexivity].
  Qed.
  Theorem xset_restarts g pre q v post : xt_mem_ok T g -> xcalls T pre -> is_bytes v -> xcalls_from T false post ->
    xt_accepts T q v = true ->
    exists r, xafter T g (pre ++ [XBase (SetParam q v)]) post = Ok r /\
      xafter T g (xsetters pre ++ [XBase (SetParam q v)]) post = Ok r.
  Proof.
    intros Hg H1 Hv H2 Ha.
    assert (H3 : forall l, xcalls T l -> xcalls T (l ++ [XBase (SetParam q v)])).
    { intros l Hl. apply xcalls_app. split; [exact Hl|]. cbn. auto. }
    assert (F : forall l, xflag T (l ++ [XBase (SetParam q v)]) = false).
    { intros l. unfold xflag. rewrite fold_left_app. cbn. rewrite Ha. reflexivity. }
    destruct (xsetters_calls pre [] false I eq_refl H1) as [H4 F4].
    eexists. split; [apply xafter_eq; rewrite ?F; auto|].
    rewrite xafter_eq; rewrite ?F; auto. do 3 f_equal. rewrite !xst_app. unfold xsetters.
    pose proof (xst_setters pre (xfresh S) [] eq_refl) as E.
    destruct (xst S (xfresh S) (xsetters_from [] pre)) as [[p1 m1] k1]. destruct (xst S (xfresh S) pre) as [[p2 m2] k2].
    cbn [fst] in E. subst p2. rewrite !xst_cons. cbn [xstep].
    destruct (xset_ok q v p1) as [(p' & -> & _)|(E & E')]; [reflexivity|congruence].
  Qed.
  Theorem xsetters_commute g pre q1 v1 q2 v2 post : xt_mem_ok T g -> xcalls T pre -> xcalls_from T false post ->
    is_bytes v1 -> is_bytes v2 -> q1 <> q2 ->
    xt_accepts T q1 v1 = true -> xt_accepts T q2 v2 = true ->
    exists r, xafter T g (pre ++ [XBase (SetParam q1 v1); XBase (SetParam q2 v2)]) post = Ok r /\
      xafter T g (pre ++ [XBase (SetParam q2 v2); XBase (SetParam q1 v1)]) post = Ok r.
  Proof.
    intros Hg H1 H2 Hv1 Hv2 Hq A1 A2.
    assert (H3 : forall l q v q' v', xcalls T l -> is_bytes v -> is_bytes v' ->
      xcalls T (l ++ [XBase (SetParam q v); XBase (SetParam q' v')])).
    { intros. apply xcalls_app. split; [auto|]. cbn. auto. }
    assert (F : forall l q v q' v', xt_accepts T q v = true -> xt_accepts T q' v' = true ->
       xflag T (l ++ [XBase (SetParam q v); XBase (SetParam q' v')]) = false).
    { intros l q v q' v' B1 B2. unfold xflag. rewrite fold_left_app. cbn. rewrite B1, B2. reflexivity. }
    eexists. split; [apply xafter_eq; rewrite ?F; auto|].
    rewrite xafter_eq; rewrite ?F; auto. do 3 f_equal. rewrite !xst_app.
    destruct (xst S (xfresh S) pre) as [[p m] k]. rewrite !xst_cons. cbn [xstep].
    destruct (xset_ok q1 v1 p) as [(p1 & E1 & _)|(E & E')]; [|congruence].
    destruct (xset_ok q2 v2 p) as [(p2 & E2 & _)|(E & E')]; [|congruence].
    rewrite E1, E2. cbn [fst xstep]. pose proof (xg_comm _ _ G q1 q2 v1 v2 p p1 p2 Hq E1 E2) as E.
    destruct (xset_ok q2 v2 p1) as [(p3 & E3 & _)|(E3 & E')]; [|congruence].
    rewrite E3 in E. rewrite <- E, E3. reflexivity.
  Qed.

  Theorem xlast_set_wins g pre q v1 v2 post : xt_mem_ok T g -> xcalls T pre -> xcalls_from T false post ->
    is_bytes v1 -> is_bytes v2 -> v2 <> [] -> xt_accepts T q v2 = true ->
    exists r, xafter T g (pre ++ [XBase (SetParam q v1); XBase (SetParam q v2)]) post = Ok r /\
      xafter T g (pre ++ [XBase (SetParam q v2)]) post = Ok r.
  Proof.
    intros Hg H1 H2 Hv1 Hv2 Hne A2.
    assert (H3 : xcalls T (pre ++ [XBase (SetParam q v1); XBase (SetParam q v2)])).
    { apply xcalls_app. split; [auto|]. cbn. auto. }
    assert (H4 : xcalls T (pre ++ [XBase (SetParam q v2)])).
    { apply xcalls_app. split; [auto|]. cbn. auto. }
    assert (F3 : xflag T (pre ++ [XBase (SetParam q v1); XBase (SetParam q v2)]) = false).
    { unfold xflag. rewrite fold_left_app. cbn. rewrite A2. reflexivity. }
    assert (F4 : xflag T (pre ++ [XBase (SetParam q v2)]) = false).
    { unfold xflag. rewrite fold_left_app. cbn. rewrite A2. reflexivity. }
    eexists. split; [apply xafter_eq; rewrite ?F3; auto|].
    rewrite xafter_eq; rewrite ?F4; auto. do 3 f_equal. rewrite !xst_app.
    destruct (xst S (xfresh S) pre) as [[p m] k]. rewrite !xst_cons. cbn [xstep].
    destruct (xset_ok q v2 p) as [(p2 & E2 & _)|(E & E')]; [|congruence]. rewrite E2.
    destruct (xset_ok q v1 p) as [(p1 & E1 & _)|(E1 & _)]; rewrite E1; cbn [fst xstep].
    - rewrite (xg_over _ _ G q v1 v2 p p1 Hne E1), E2. reflexivity.
    - rewrite E2. reflexivity.
  Qed.

  (** *** Safety *)
  Theorem xnever_undefined g pre post : xt_mem_ok T g -> xcalls T pre -> xcalls_from T (xflag T pre) post ->
    exists r, xafter T g pre post = Ok r /\ length r = length post.
  Proof. intros. eexists. split; [apply xafter_eq; auto|apply xrun_length]. Qed.
  Theorem xmemory_irrelevant g g' pre post : xt_mem_ok T g -> xt_mem_ok T g' -> xcalls T pre ->
    xcalls_from T (xflag T pre) post -> xafter T g pre post = xafter T g' pre post.
  Proof. intros. rewrite !xafter_eq by auto. reflexivity. Qed.

  (** *** Squeezing *)
  Theorem squeeze_forms g pre n : xt_mem_ok T g -> xcalls T pre -> (0 < n)%nat ->
    exists b, length b = n /\ is_bytes b /\
      xafter T g pre [XSqueezeBuf n] = Ok [OBytes b] /\
      xafter T g pre [XSqueezeIter n] = Ok [OBytes b] /\
      xafter T g pre [XHexSqueeze n] = Ok [OBytes (spec_hex b)].
  Proof.
    intros Hg Hpre Hn.
    assert (E : exists b, xafter T g pre [XSqueezeBuf n] = Ok [OBytes b] /\
      xafter T g pre [XSqueezeIter n] = Ok [OBytes b] /\
      xafter T g pre [XHexSqueeze n] = Ok [OBytes (spec_hex b)]).
    { rewrite !xafter_eq by (auto; cbn; auto). destruct (xst S (xfresh S) pre) as [[p m] k].
      eexists. split; [reflexivity|]. split; reflexivity. }
    destruct E as (b & E1 & E2 & E3). exists b.
    assert (M : exists s1 s2, squeeze_buf P s1 n = Ok (s2, b) /\ hex_string b = spec_hex b).
    { unfold xafter in E1, E2, E3. destruct (xt_new T g) as [s| |]; try discriminate E1.
      cbn [bind] in *. destruct (xof_run P s pre) as [[s1 l1]| |]; try discriminate E1. exists s1.
      cbn [bind xof_run xof_step] in *. destruct (squeeze_buf P s1 n) as [[s2 d']| |] eqn:Q; try discriminate E1.
      cbn [bind] in *. injection E1 as ->. exists s2. split; [reflexivity|].
      unfold squeeze_iter in E3. destruct n; [lia|]. rewrite Q in E3. cbn [bind] in E3. injection E3 as E3. exact E3. }
    destruct M as (s1 & s2 & M1 & M2).
    split; [|split; [|auto]].
    - unfold squeeze_buf in M1. destruct (xp_squeeze P s1 n) as [[s3 w]| |]; try discriminate M1. cbn [bind] in M1.
      unfold memcpy in M1. destruct (_ && _)%bool eqn:B in M1; [|discriminate M1].
      apply andb_true_iff in B. destruct B as [B1 B2]. apply Nat.leb_le in B1, B2.
      cbn [bind] in M1. injection M1 as _ <-. rewrite overlay_length by (rewrite firstn_length; lia). apply zeros_length.
    - apply hex_string_bytes. rewrite M2. apply spec_hex_length.
  Qed.

  Lemma xmsg_ok ops : forall a sq, bytes_ok (snd (fst a)) -> xcalls_from T sq ops -> bytes_ok (snd (fst (xst S a ops))).
  Proof.
    induction ops as [|o r IH]; intros [[p m] k] sq H Hc; [assumption|]. rewrite xst_cons.
    destruct o as [[f d|[]|q v]|n|n|n]; cbn [xcalls_from] in Hc; cbn [fst snd] in *;
      try (eapply IH; [|apply Hc]; cbn [xstep fst snd]; solve [assumption|constructor]).
    - eapply IH; [|apply Hc]. cbn [xstep fst snd].
      apply bytes_ok_app; auto. destruct f; cbn [absorbed]; try apply Hc. constructor.
    - cbn [xstep]. destruct (xs_set S q v p) as [p'|] eqn:E; (eapply IH; [|apply Hc]); [constructor|exact H].
  Qed.
  (** The stream of a reachable state has the length asked for. *)
  Lemma reach_len g pre n : xt_mem_ok T g -> xcalls T pre ->
    length (xs_out S (fst (fst (xst S (xfresh S) pre))) (snd (fst (xst S (xfresh S) pre))) n) = n.
  Proof.
    intros Hg Hpre. destruct n as [|n]; [rewrite (xg_zero _ _ G); reflexivity|].
    pose proof (xmsg_ok pre (xfresh S) false (Forall_nil _) Hpre) as Hm.
    destruct (xsetters_calls pre [] false I eq_refl Hpre) as [H4 F4].
    pose proof (xst_setters pre (xfresh S) [] eq_refl) as E. pose proof (xsetters_only pre [] (conj eq_refl eq_refl)) as [E2 E3].
    set (a := xst S (xfresh S) pre) in *. set (msg := snd (fst a)) in *.
    set (pre' := xsetters pre ++ [XBase (Absorb FPtr msg)]).
    assert (Hpre' : xcalls T pre').
    { apply xcalls_app. split; [exact H4|]. unfold xsetters. rewrite F4. cbn. auto. }
    destruct (squeeze_forms g pre' (Datatypes.S n) Hg Hpre' (Nat.lt_0_succ n)) as (b & L & _ & Q & _).
    rewrite xafter_eq in Q; [|auto|auto|cbn; split; [lia|auto]].
    unfold pre' in Q. rewrite xst_app in Q. fold (xsetters pre) in E, E2, E3.
    destruct (xst S (xfresh S) (xsetters pre)) as [[p1 m1] k1]. cbn [fst snd] in *. subst p1 m1 k1.
    unfold xst in Q. cbn [xrun xstep fst snd xsq absorbed app] in Q. injection Q as Q.
    cbn [Nat.add] in Q. rewrite <- Q in L. exact L.
  Qed.

  Definition total (ns : list nat) : nat := fold_right Nat.add 0%nat ns.
  (** Squeezing calls of any form. *)
  Lemma squeeze_pieces_run p m (Hp : forall n k, (n <= k)%nat -> firstn n (xs_out S p m k) = xs_out S p m n)
    ns : forall k,
    out_concat (snd (xrun S (p, m, k) (map XSqueezeBuf ns))) = skipn k (xs_out S p m (k + total ns)).
  Proof.
    induction ns as [|n ns IH]; intros k; cbn [map xrun total fold_right].
    - rewrite Nat.add_0_r, <- (Hp k k (le_n k)), skipn_all2; [reflexivity|]. rewrite firstn_length. lia.
    - cbn [xstep xsq]. specialize (IH (k + n)%nat).
      destruct (xrun S (p, m, (k + n)%nat) (map XSqueezeBuf ns)) as [a l]. cbn [snd] in *.
      unfold out_concat in *. cbn [flat_map]. rewrite IH. fold (total ns).
      rewrite <- (Hp (k + n)%nat (k + n + total ns)%nat) by lia.
      replace (k + (n + total ns))%nat with (k + n + total ns)%nat by lia.
      set (X := xs_out S p m (k + n + total ns)).
      rewrite <- (firstn_skipn n (skipn k X)). f_equal.
      + rewrite firstn_skipn_comm. reflexivity.
      + rewrite skipn_skipn. f_equal. lia.
  Qed.
  Theorem squeeze_pieces g pre ns : xt_mem_ok T g -> xcalls T pre -> ns <> [] -> Forall (fun n => (0 < n)%nat) ns ->
    exists l b, xafter T g pre (map XSqueezeBuf ns) = Ok l /\
      xafter T g pre [XSqueezeBuf (total ns)] = Ok [OBytes b] /\ out_concat l = b.
  Proof.
    intros Hg Hpre Hne Hns. pose proof (fun n => reach_len g pre n Hg Hpre) as Q.
    assert (Hc : forall sq, xcalls_from T sq (map XSqueezeBuf ns)).
    { clear Hne. induction Hns; intros sq; [exact I|]. cbn. auto. }
    rewrite !xafter_eq; auto.
    2:{ cbn. split; [|auto]. destruct ns as [|n ns]; [contradiction|]. inversion Hns; subst. cbn. lia. }
    destruct (xst S (xfresh S) pre) as [[p m] k]. cbn [fst snd] in *.
    eexists. exists (skipn k (xs_out S p m (k + total ns))). split; [reflexivity|]. split; [reflexivity|].
    apply squeeze_pieces_run. intros. apply (xg_prefix _ _ G); auto.
  Qed.
  Theorem squeeze_prefix g pre n m : xt_mem_ok T g -> xcalls T pre -> (0 < n <= m)%nat ->
    exists b c, xafter T g pre [XSqueezeBuf n] = Ok [OBytes b] /\ xafter T g pre [XSqueezeBuf m] = Ok [OBytes (b ++ c)].
  Proof.
    intros Hg Hpre Hn. pose proof (fun n => reach_len g pre n Hg Hpre) as Q.
    rewrite !xafter_eq by (auto; cbn; lia).
    destruct (xst S (xfresh S) pre) as [[p msg] k]. cbn [fst snd] in *.
    exists (skipn k (xs_out S p msg (k + n))), (skipn n (skipn k (xs_out S p msg (k + m)))). split; [reflexivity|].
    cbn [xrun xstep xsq snd]. do 3 f_equal.
    rewrite <- (xg_prefix _ _ G p msg (k + n)%nat (k + m)%nat) by (auto; lia).
    rewrite <- firstn_skipn_comm. symmetry. apply firstn_skipn.
  Qed.
End XGood.
