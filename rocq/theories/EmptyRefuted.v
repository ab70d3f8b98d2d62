(** * Empty squeezes and empty salts: counterexamples. *)
From Verif Require Import Base Hasher MdState Library LibraryTypes Shake Kmac K12 Ascon Esch Blake2 Blake2p Skein VecUtil.

(** A call sequence on one memory on which the two sides differ. *)
Lemma empty_squeeze_differs {P} (T : xtype P) g pre post :
  xt_mem_ok T g -> xcalls T pre -> xcalls_from T true post ->
  out_bytes (xafter T g (pre ++ [XSqueezeBuf 0]) post) 0 <> out_bytes (xafter T g pre post) 0 ->
  ~ empty_squeeze_harmless T.
Proof. intros H1 H2 H3 D H. apply D. rewrite (H g pre post H1 H2 H3). reflexivity. Qed.

Definition ab123 {param} : list (xof_op param) := [XBase (Absorb FPtr [1; 2; 3])].
Lemma ab123_ok {P} (T : xtype P) : xcalls T ab123.
Proof. unfold xcalls, ab123. cbn. repeat constructor. Qed.
Lemma squeeze8_ok {P} (T : xtype P) : xcalls_from T true [XSqueezeBuf 8].
Proof. cbn. split; [lia|exact I]. Qed.

Definition zero_mem (h m : nat) : st := mkst (zeros h) (zeros m) 0 0.
Definition zero_shake : shake_mem := (zero_mem 25 168, false, 0).
Definition zero_kmac : kmac_mem := (zero_shake, false).
Definition zero_k12 : k12_mem := mkk12m zero_shake zero_shake (zeros (N.to_nat 8192)) 0 0 0 false.

Ltac refute g := match goal with |- ~ empty_squeeze_harmless ?T =>
  apply (empty_squeeze_differs T g ab123 [XSqueezeBuf 8]);
  [repeat split; reflexivity|exact (ab123_ok T)|exact (squeeze8_ok T)|vm_compute; discriminate] end.

(** Already an empty first squeeze changes the output. *)
Theorem shake128_empty_squeeze : ~ empty_squeeze_harmless (shake_type 128). Proof. refute zero_shake. Qed.
Theorem shake256_empty_squeeze : ~ empty_squeeze_harmless (shake_type 256). Proof. refute zero_shake. Qed.
Theorem cshake128_empty_squeeze : ~ empty_squeeze_harmless (cshake_type 128). Proof. refute zero_shake. Qed.
Theorem cshake256_empty_squeeze : ~ empty_squeeze_harmless (cshake_type 256). Proof. refute zero_shake. Qed.
Theorem kmac128_empty_squeeze : ~ empty_squeeze_harmless (kmacxof_type 128). Proof. refute zero_kmac. Qed.
Theorem kmac256_empty_squeeze : ~ empty_squeeze_harmless (kmacxof_type 256). Proof. refute zero_kmac. Qed.
Theorem k12_empty_squeeze : ~ empty_squeeze_harmless (k12_type 128 12). Proof. refute zero_k12. Qed.
Theorem m14_empty_squeeze : ~ empty_squeeze_harmless (k12_type 256 14). Proof. refute zero_k12. Qed.
Theorem kt256_empty_squeeze : ~ empty_squeeze_harmless (k12_type 256 12). Proof. refute zero_k12. Qed.
Theorem esch256_empty_squeeze : ~ empty_squeeze_harmless (esch_xof_type 384 12). Proof. refute (zero_mem 12 128). Qed.
Theorem esch384_empty_squeeze : ~ empty_squeeze_harmless (esch_xof_type 512 16). Proof. refute (zero_mem 16 128). Qed.
Theorem blake2xb_empty_squeeze : ~ empty_squeeze_harmless (blake2x_xof_type 64). Proof. refute (zero_mem 8 128, 0). Qed.
Theorem blake2xs_empty_squeeze : ~ empty_squeeze_harmless (blake2x_xof_type 32). Proof. refute (zero_mem 8 64, 0). Qed.

Definition zero_skein (nw : nat) : skein_mem := (zero_mem (2 + nw) (8 * nw), zeros nw, false).
Theorem skein256_empty_squeeze : ~ empty_squeeze_harmless (skein_xof_type 4). Proof. refute (zero_skein 4). Qed.
Theorem skein512_empty_squeeze : ~ empty_squeeze_harmless (skein_xof_type 8). Proof. refute (zero_skein 8). Qed.
Theorem skein1024_empty_squeeze : ~ empty_squeeze_harmless (skein_xof_type 16). Proof. refute (zero_skein 16). Qed.

(** For Ascon one in the middle. *)
Definition ab123_sq {param} : list (xof_op param) := ab123 ++ [XSqueezeBuf 8].
Lemma ab123_sq_ok {P} (T : xtype P) : xcalls T ab123_sq.
Proof. unfold xcalls, ab123_sq, ab123. cbn. repeat split; try lia. repeat constructor. Qed.
Ltac refute2 g := match goal with |- ~ empty_squeeze_harmless ?T =>
  apply (empty_squeeze_differs T g ab123_sq [XSqueezeBuf 8]);
  [repeat split; reflexivity|exact (ab123_sq_ok T)|exact (squeeze8_ok T)|vm_compute; discriminate] end.
Theorem ascon_xof_empty_squeeze : ~ empty_squeeze_harmless ascon_xof_type. Proof. refute2 (zero_mem 5 64). Qed.
Theorem ascon_cxof_empty_squeeze : ~ empty_squeeze_harmless ascon_cxof_type. Proof. refute2 (zero_mem 5 64). Qed.

(** ** Empty salt and personalization *)
Definition is_salt (q : b2_param) : bool := match q with B2Salt => true | _ => false end.
Definition is_pers (q : b2_param) : bool := match q with B2Pers => true | _ => false end.

(** The previous value stays in force. *)
Lemma empty_is_none_differs {P} (T : htype P) q is_q v g : is_q q = true ->
  ht_mem_ok T g -> is_bytes v ->
  out_bytes (after T g [HBase (SetParam q v); HBase (SetParam q [])] [HDigestIter]) 0
    <> out_bytes (after T g [] [HDigestIter]) 0 ->
  ~ empty_is_none T q is_q.
Proof.
  intros Hq Hg Hv D H.
  destruct (H g [HBase (SetParam q v)] [HDigestIter] Hg) as (r & E1 & E2).
  - constructor; [exact Hv|constructor].
  - constructor; [exact I|constructor].
  - cbn [setters setters_from app filter] in E2. unfold sets_other in E2. rewrite Hq in E2. cbn [negb] in E2.
    apply D. cbn [app] in E1. rewrite E1, E2. reflexivity.
Qed.
Lemma xempty_is_none_differs {P} (T : xtype P) q is_q v g : is_q q = true ->
  xt_mem_ok T g -> is_bytes v ->
  out_bytes (xafter T g [XBase (SetParam q v); XBase (SetParam q [])] [XSqueezeBuf 8]) 0
    <> out_bytes (xafter T g [] [XSqueezeBuf 8]) 0 ->
  ~ xempty_is_none T q is_q.
Proof.
  intros Hq Hg Hv D H.
  destruct (H g [XBase (SetParam q v)] [XSqueezeBuf 8] Hg) as (r & E1 & E2).
  - split; [exact Hv|exact I].
  - cbn. split; [lia|exact I].
  - cbn [xsetters xsetters_from app filter] in E2. unfold sets_other in E2. rewrite Hq in E2. cbn [negb] in E2.
    apply D. cbn [app] in E1. rewrite E1, E2. reflexivity.
Qed.
Ltac refute_none g n := match goal with |- ~ empty_is_none ?T ?q ?i =>
  apply (empty_is_none_differs T q i (repeat 1 n) g) end; [reflexivity|reflexivity|repeat constructor|vm_compute; discriminate].
Ltac xrefute_none g n := match goal with |- ~ xempty_is_none ?T ?q ?i =>
  apply (xempty_is_none_differs T q i (repeat 1 n) g) end; [reflexivity|reflexivity|repeat constructor|vm_compute; discriminate].
Theorem blake2b_empty_salt : ~ empty_is_none (blake2_type 64 BHash 256) B2Salt is_salt.
Proof. refute_none (zero_mem 8 128, 0) 16%nat. Qed.
Theorem blake2b_empty_pers : ~ empty_is_none (blake2_type 64 BHash 256) B2Pers is_pers.
Proof. refute_none (zero_mem 8 128, 0) 16%nat. Qed.
Theorem blake2s_empty_salt : ~ empty_is_none (blake2_type 32 BHash 256) B2Salt is_salt.
Proof. refute_none (zero_mem 8 64, 0) 8%nat. Qed.
Theorem blake2s_empty_pers : ~ empty_is_none (blake2_type 32 BHash 256) B2Pers is_pers.
Proof. refute_none (zero_mem 8 64, 0) 8%nat. Qed.
Theorem blake2xb_empty_salt : ~ empty_is_none (blake2_type 64 BXhash 256) B2Salt is_salt.
Proof. refute_none (zero_mem 8 128, 0) 16%nat. Qed.
Theorem blake2xs_empty_salt : ~ empty_is_none (blake2_type 32 BXhash 256) B2Salt is_salt.
Proof. refute_none (zero_mem 8 64, 0) 8%nat. Qed.
Theorem blake2xb_xof_empty_salt : ~ xempty_is_none (blake2x_xof_type 64) B2Salt is_salt.
Proof. xrefute_none (zero_mem 8 128, 0) 16%nat. Qed.
Theorem blake2xs_xof_empty_salt : ~ xempty_is_none (blake2x_xof_type 32) B2Salt is_salt.
Proof. xrefute_none (zero_mem 8 64, 0) 8%nat. Qed.
Definition b2p_zero (w : N) : b2p_mem :=
  let n := N.to_nat (2 * w) in
  mkb2pm (zero_mem 8 n, 0) (repeat (zero_mem 8 n, 0) (if (w =? 64)%N then 4 else 8)%nat) (repeat 0 512) 0 0.
Lemma b2p_zero_ok w : w = 64 \/ w = 32 -> b2p_mem_ok w (b2p_zero w).
Proof. intros [-> | ->]; repeat split; repeat constructor. Qed.
Ltac prefute_none w n := match goal with |- ~ empty_is_none ?T ?q ?i =>
  apply (empty_is_none_differs T q i (repeat 1 n) (b2p_zero w)) end;
  [reflexivity|exact (b2p_zero_ok w ltac:(auto))|repeat constructor|vm_compute; discriminate].
Theorem blake2bp_empty_salt : ~ empty_is_none (blake2p_type 64 512) B2Salt is_salt.
Proof. prefute_none 64 16%nat. Qed.
Theorem blake2bp_empty_pers : ~ empty_is_none (blake2p_type 64 512) B2Pers is_pers.
Proof. prefute_none 64 16%nat. Qed.
Theorem blake2sp_empty_salt : ~ empty_is_none (blake2p_type 32 256) B2Salt is_salt.
Proof. prefute_none 32 8%nat. Qed.
Theorem blake2sp_empty_pers : ~ empty_is_none (blake2p_type 32 256) B2Pers is_pers.
Proof. prefute_none 32 8%nat. Qed.
