(** * Properties of arbitrary histories.

    [hany] and [xany] admit every sequence of calls with byte arguments: also absorb()
    after squeeze(), squeezes of length 0 and reset(true) on the types where it does not
    restore the initial state. Only squeeze(0, iterator) and hexsqueeze(0) are left out;
    they are undefined (C08_empty_squeeze_refuted). *)
From Verif Require Import Base Hasher MdState Library LibraryTypes AnyCalls AnyProof LibraryAny AnyRefuted Blake2 Blake2p Blake2pRefuted
  Shake Ascon.

(** ** C02: absorbing after squeezing *)

(** "every hasher state reached by earlier calls" includes objects that were squeezed. *)
Theorem C02_squeezed_refuted : forms_differ ascon_xof_type 1 [1; 2; 3; 4; 5; 6; 7; 8; 9; 10; 11; 12; 13; 14; 15] 16.
Proof. exact ascon_forms_differ. Qed.
Theorem C02_squeezed_empty_refuted : empty_absorb_matters (shake_type 128) 168 16.
Proof. exact shake_empty_matters. Qed.

(** ** C03 *)
Theorem C03_any_history P (T : htype P) : library T -> forall g pre obs pre2 post,
  ht_mem_ok T g -> hany pre -> hany pre2 -> hany post -> forallb is_digest obs = true ->
  exists r, after T g (pre ++ obs ++ pre2) post = Ok r /\ after T g (pre ++ pre2) post = Ok r.
Proof. exact (any_observes T). Qed.
Theorem C03_any_history_repeats P (T : htype P) : library T -> forall g pre obs d,
  ht_mem_ok T g -> hany pre -> forallb is_digest obs = true -> is_digest d = true ->
  exists b, after T g (pre ++ obs) [d] = Ok [b] /\ after T g pre [d] = Ok [b].
Proof. exact (any_repeats T). Qed.
(** Const calls on a shared object, whatever was done with it before. *)
Theorem C40_any_history P (T : htype P) : library T -> forall g pre obs d,
  ht_mem_ok T g -> hany pre -> forallb is_digest obs = true -> is_digest d = true ->
  exists b, after T g (pre ++ obs) [d] = Ok [b] /\ after T g pre [d] = Ok [b].
Proof. exact (any_repeats T). Qed.

(** ** C04, C05 *)

(** The parameters in force are those of the set_* calls since the last reset(true). *)
Theorem C04_any_history_xof P (T : xtype P) : xlibrary T -> xt_clr T = true -> forall g pre post,
  xt_mem_ok T g -> xany pre -> xany post ->
  exists r, xafter T g (pre ++ [XBase (Reset false)]) post = Ok r /\ xafter T g (xsetters pre) post = Ok r.
Proof. intros H Hc g pre post. destruct (xlibrary_rob P T H) as (X & [R]). exact (xany_reset_setters R g pre post Hc). Qed.
(** For ascon_cxof reset(true) does not change the customization (C05_ascon_cxof_refuted),
    so those of all set_* calls. *)
Theorem C04_any_history_ascon_cxof g pre post :
  xt_mem_ok ascon_cxof_type g -> xany pre -> xany post ->
  exists r, xafter ascon_cxof_type g (pre ++ [XBase (Reset false)]) post = Ok r /\
    xafter ascon_cxof_type g (filter xset_call pre) post = Ok r.
Proof. exact (ascon_cxof_reset g pre post). Qed.
(** blake2bp, blake2sp: as a new object that received the same set_* and reset(true)
    calls in the same order. *)
Theorem C04_any_history_blake2p_partial P (T : htype P) : library T -> ht_clr T = false -> forall g pre post,
  ht_mem_ok T g -> hany pre -> hany post ->
  exists r, after T g (pre ++ [HBase (Reset false)]) post = Ok r /\ after T g (filter hparam_call pre) post = Ok r.
Proof. intros H Hc g pre post. exact (any_reset T H g pre post Hc). Qed.
(** The full statement, comparing with a new object, is false after reset(true). *)
Theorem C04_blake2bp_refuted : reset_differs (blake2p_type 64 512).
Proof. apply differs_reset; [constructor; repeat split; reflexivity || discriminate|reflexivity|exact blake2bp_reset_true]. Qed.
Theorem C04_blake2sp_refuted : reset_differs (blake2p_type 32 256).
Proof. apply differs_reset; [constructor; repeat split; reflexivity || discriminate|reflexivity|exact blake2sp_reset_true]. Qed.

Theorem C05_any_history_xof_partial P (T : xtype P) : xlibrary T -> xt_clr T = true -> forall g pre post,
  xt_mem_ok T g -> xany pre -> xany post ->
  exists r, xafter T g (pre ++ [XBase (Reset true)]) post = Ok r /\ xafter T g [] post = Ok r.
Proof. intros H Hc g pre post. destruct (xlibrary_rob P T H) as (X & [R]). exact (xany_reset_true R g pre post Hc). Qed.

(** ** C08, C09 *)
Theorem C08_any_history P (T : htype P) : library T -> forall g pre post,
  ht_mem_ok T g -> hany pre -> hany post -> exists r, after T g pre post = Ok r /\ length r = length post.
Proof. exact (any_defined T). Qed.
Theorem C08_any_history_xof P (T : xtype P) : xlibrary T -> forall g pre post,
  xt_mem_ok T g -> xany pre -> xany post -> exists r, xafter T g pre post = Ok r /\ length r = length post.
Proof. intros H. destruct (xlibrary_rob P T H) as (X & [R]). exact (xany_defined R). Qed.
(** squeeze(0, iterator) and hexsqueeze(0) on every type, in every history. *)
Theorem C08_empty_squeeze_refuted P (T : xtype P) : xlibrary T -> forall g pre, xt_mem_ok T g -> xany pre ->
  xafter T g pre [XSqueezeIter 0] = UB EmptyVectorRef /\ xafter T g pre [XHexSqueeze 0] = UB EmptyVectorRef.
Proof. exact (xany_empty_iter T). Qed.

Theorem C09_any_history P (T : htype P) : library T -> forall g g' pre post,
  ht_mem_ok T g -> ht_mem_ok T g' -> hany pre -> hany post -> after T g pre post = after T g' pre post.
Proof. exact (any_memory T). Qed.
Theorem C09_any_history_xof P (T : xtype P) : xlibrary T -> forall g g' pre post,
  xt_mem_ok T g -> xt_mem_ok T g' -> xany pre -> xany post -> xafter T g pre post = xafter T g' pre post.
Proof. intros H. destruct (xlibrary_rob P T H) as (X & [R]). exact (xany_memory R). Qed.

(** ** C38, C39 *)
Theorem C38_any_history P (T : htype P) : library T -> forall g pre q v,
  ht_mem_ok T g -> hany pre -> is_bytes v ->
  after T g pre [HBase (SetParam q v)] = Ok [if ht_accepts T q v then ODone else OThrow] /\
  (ht_accepts T q v = false -> forall post, hany post ->
   exists r, after T g (pre ++ [HBase (SetParam q v)]) post = Ok r /\ after T g pre post = Ok r).
Proof.
  intros H g pre q v Hg Hp Hv. split; [exact (any_set_throws T H g pre q v Hg Hp Hv)|].
  intros Ha post Hq. exact (any_rejected T H g pre q v post Hg Hp Hv Hq Ha).
Qed.
Theorem C38_any_history_xof P (T : xtype P) : xlibrary T -> forall g pre q v,
  xt_mem_ok T g -> xany pre -> is_bytes v ->
  xafter T g pre [XBase (SetParam q v)] = Ok [if xt_accepts T q v then ODone else OThrow] /\
  (xt_accepts T q v = false -> forall post, xany post ->
   exists r, xafter T g (pre ++ [XBase (SetParam q v)]) post = Ok r /\ xafter T g pre post = Ok r).
Proof.
  intros H g pre q v Hg Hp Hv. destruct (xlibrary_rob P T H) as (X & [R]). split; [exact (xany_set_outcome R g pre q v Hg Hp Hv)|].
  intros Ha post Hq. exact (xany_set_rejected R g pre q v post Hg Hp Hv Hq Ha).
Qed.

(** A successful set_* call discards everything but the parameters set since the last reset(true). *)
Theorem C39_any_history_xof P (T : xtype P) : xlibrary T -> xt_clr T = true -> forall g pre q v post,
  xt_mem_ok T g -> xany pre -> is_bytes v -> xany post -> xt_accepts T q v = true ->
  exists r, xafter T g (pre ++ [XBase (SetParam q v)]) post = Ok r /\
    xafter T g (xsetters pre ++ [XBase (SetParam q v)]) post = Ok r.
Proof. intros H Hc g pre q v post. destruct (xlibrary_rob P T H) as (X & [R]). exact (xany_set_setters R g pre q v post Hc). Qed.
Theorem C39_any_history_ascon_cxof g pre q v post :
  xt_mem_ok ascon_cxof_type g -> xany pre -> is_bytes v -> xany post -> xt_accepts ascon_cxof_type q v = true ->
  exists r, xafter ascon_cxof_type g (pre ++ [XBase (SetParam q v)]) post = Ok r /\
    xafter ascon_cxof_type g (filter xset_call pre ++ [XBase (SetParam q v)]) post = Ok r.
Proof. exact (ascon_cxof_set g pre q v post). Qed.
(** blake2bp, blake2sp: and the reset(true) calls ... *)
Theorem C39_any_history_blake2p_partial P (T : htype P) : library T -> ht_clr T = false -> forall g pre q v post,
  ht_mem_ok T g -> hany pre -> is_bytes v -> hany post -> ht_accepts T q v = true ->
  exists r, after T g (pre ++ [HBase (SetParam q v)]) post = Ok r /\
    after T g (filter hparam_call pre ++ [HBase (SetParam q v)]) post = Ok r.
Proof. intros H Hc g pre q v post. exact (any_set_restarts T H g pre q v post Hc). Qed.
(** ... which have an effect: with them the object does not behave as a new one with that key. *)
Theorem C39_blake2bp_refuted : set_differs (blake2p_type 64 512) B2Key [1].
Proof. exact blake2bp_set. Qed.
Theorem C39_blake2sp_refuted : set_differs (blake2p_type 32 256) B2Key [1].
Proof. exact blake2sp_set. Qed.
Theorem C39_any_history_commute P (T : htype P) : library T -> forall g pre q1 v1 q2 v2 post,
  ht_mem_ok T g -> hany pre -> hany post -> is_bytes v1 -> is_bytes v2 -> q1 <> q2 ->
  ht_accepts T q1 v1 = true -> ht_accepts T q2 v2 = true ->
  exists r, after T g (pre ++ [HBase (SetParam q1 v1); HBase (SetParam q2 v2)]) post = Ok r /\
    after T g (pre ++ [HBase (SetParam q2 v2); HBase (SetParam q1 v1)]) post = Ok r.
Proof. exact (any_commute T). Qed.
Theorem C39_any_history_commute_xof P (T : xtype P) : xlibrary T -> forall g pre q1 v1 q2 v2 post,
  xt_mem_ok T g -> xany pre -> is_bytes v1 -> is_bytes v2 -> xany post -> q1 <> q2 ->
  xt_accepts T q1 v1 = true -> xt_accepts T q2 v2 = true ->
  exists r, xafter T g (pre ++ [XBase (SetParam q1 v1); XBase (SetParam q2 v2)]) post = Ok r /\
    xafter T g (pre ++ [XBase (SetParam q2 v2); XBase (SetParam q1 v1)]) post = Ok r.
Proof. intros H. destruct (xlibrary_rob P T H) as (X & [R]). exact (xany_set_commute R). Qed.
Theorem C39_any_history_last P (T : htype P) : library T -> forall g pre q v1 v2 post,
  ht_mem_ok T g -> hany pre -> hany post -> is_bytes v1 -> is_bytes v2 -> v2 <> [] -> ht_accepts T q v2 = true ->
  exists r, after T g (pre ++ [HBase (SetParam q v1); HBase (SetParam q v2)]) post = Ok r /\
    after T g (pre ++ [HBase (SetParam q v2)]) post = Ok r.
Proof. exact (any_last T). Qed.
Theorem C39_any_history_last_xof P (T : xtype P) : xlibrary T -> forall g pre q v1 v2 post,
  xt_mem_ok T g -> xany pre -> xany post -> is_bytes v1 -> is_bytes v2 -> v2 <> [] -> xt_accepts T q v2 = true ->
  exists r, xafter T g (pre ++ [XBase (SetParam q v1); XBase (SetParam q v2)]) post = Ok r /\
    xafter T g (pre ++ [XBase (SetParam q v2)]) post = Ok r.
Proof. exact (xany_last T). Qed.

(** The hypotheses hold of histories outside those of PropertiesApi. *)
Example any_example : xany (param := Empty_set) [XSqueezeBuf 0; XSqueezeIter 5; XBase (Absorb FStr [1; 255]); XHexSqueeze 3] /\
  ~ xcalls ascon_xof_type [XSqueezeBuf 0] /\ ~ xcalls ascon_xof_type [XSqueezeIter 5; XBase (Absorb FStr [1])].
Proof. split; [repeat constructor|]. split; intros H; [destruct H as [H _]; inversion H|destruct H as (_ & _ & H & _); discriminate H]. Qed.
Example any_example2 : hany (param := b2_param) [HBase (Reset true); HDigestIter; HBase (SetParam B2Key [1; 2])] /\
  ~ hcalls (blake2p_type 64 512) [HBase (Reset true)] /\ library (blake2p_type 64 512) /\ ht_clr (blake2p_type 64 512) = false.
Proof.
  split; [repeat constructor|]. split; [|split; [constructor; repeat split; reflexivity || discriminate|reflexivity]].
  intros H. apply Forall_inv in H. specialize (H eq_refl). discriminate H.
Qed.
Example any_example3 : xt_mem_ok ascon_xof_type (mkst [1; 2; 3; 4; 5] (repeat 7 64) 9 9) /\ xt_clr ascon_xof_type = true.
Proof. split; reflexivity. Qed.

Definition any_all := (C02_squeezed_refuted, C02_squeezed_empty_refuted, C03_any_history, C03_any_history_repeats, C40_any_history,
  C04_any_history_xof, C04_any_history_ascon_cxof, C04_any_history_blake2p_partial, C04_blake2bp_refuted, C04_blake2sp_refuted,
  C05_any_history_xof_partial, C08_any_history, C08_any_history_xof, C08_empty_squeeze_refuted, C09_any_history, C09_any_history_xof,
  C38_any_history, C38_any_history_xof, C39_any_history_xof, C39_any_history_ascon_cxof,
  C39_any_history_blake2p_partial, C39_blake2bp_refuted, C39_blake2sp_refuted, C39_any_history_commute,
  C39_any_history_commute_xof, C39_any_history_last, C39_any_history_last_xof).
Print Assumptions any_all.
