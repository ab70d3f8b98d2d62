(** * C20, C21 and C28 without conditions: what cSHAKE, KMAC and Streebog compute in every
    history of calls, for every parameter value and every message.

    The functions are those of CodedSpec.v. They agree with the standards under the
    conditions of the [_partial] theorems. *)
From Verif Require Import Base Hasher HasherSpec HasherProof HasherWhen MdState Keccak KeccakSpec Sha3Spec Shake ShakeProof
  Kmac KmacProof Streebog StreebogSpec CodedSpec CodedProof.

Theorem C20_cshake128_exact g sq sfx : length (sm g) = 168%nat ->
  ximplements (cshake 128 24) (cshake_coded_spec 16) true (fresh_of (shake_ctor g sq sfx) (shake_init 128 24)).
Proof. exact (cshake_coded_ok 128 21 16 ltac:(split; apply Nat.leb_le; reflexivity) eq_refl eq_refl g sq sfx). Qed.
Theorem C20_cshake256_exact g sq sfx : length (sm g) = 168%nat ->
  ximplements (cshake 256 24) (cshake_coded_spec 32) true (fresh_of (shake_ctor g sq sfx) (shake_init 256 24)).
Proof. exact (cshake_coded_ok 256 17 32 ltac:(split; apply Nat.leb_le; reflexivity) eq_refl eq_refl g sq sfx). Qed.
(** The output is that of the standard for the same message, or for the message preceded by
    a block of zeros. *)
Theorem C20_fits s fn cust msg n : (s < 100)%nat -> hdr_fits s fn cust ->
  cshake_coded s fn cust msg n = cshake_xof s fn cust msg n.
Proof. exact (cshake_coded_fits s fn cust msg n). Qed.
Theorem C20_spills s fn cust msg n : (s < 100)%nat -> ~ hdr_fits s fn cust ->
  cshake_coded s fn cust msg n = cshake_xof s fn cust (zeros (200 - 2 * s) ++ msg) n.
Proof. exact (cshake_coded_spills s fn cust msg n). Qed.

Theorem C21_kmac128_exact hs g sq1 sfx sq :
  hs < 2 ^ 64 -> 0 < hs -> hs mod 8 = 0 -> length (sm g) = 168%nat ->
  implements (kmac 128) (kmac_coded_spec 16 hs) true
    (fresh_of (kmac_ctor 128 hs sq (new_shake g sq1 sfx)) (kmac_init 128)) /\
  implements (kmac 128) (kmac_coded_spec 16 hs) true
    (fresh_of (kmac_ctor_static 128 hs sq (new_shake g sq1 sfx)) (kmac_init 128)).
Proof. exact (kmac_coded_ok 128 21 16 ltac:(split; apply Nat.leb_le; reflexivity) eq_refl eq_refl eq_refl hs g sq1 sfx sq). Qed.
Theorem C21_kmac256_exact hs g sq1 sfx sq :
  hs < 2 ^ 64 -> 0 < hs -> hs mod 8 = 0 -> length (sm g) = 168%nat ->
  implements (kmac 256) (kmac_coded_spec 32 hs) true
    (fresh_of (kmac_ctor 256 hs sq (new_shake g sq1 sfx)) (kmac_init 256)) /\
  implements (kmac 256) (kmac_coded_spec 32 hs) true
    (fresh_of (kmac_ctor_static 256 hs sq (new_shake g sq1 sfx)) (kmac_init 256)).
Proof. exact (kmac_coded_ok 256 17 32 ltac:(split; apply Nat.leb_le; reflexivity) eq_refl eq_refl eq_refl hs g sq1 sfx sq). Qed.
Theorem C21_kmac128_xof_exact g sq1 sfx sq : length (sm g) = 168%nat ->
  ximplements (kmacxof 128) (kmacxof_coded_spec 16) true
    (fresh_of (kmac_ctor_static 128 0 sq (new_shake g sq1 sfx)) (kmac_init 128)).
Proof. exact (kmacxof_coded_ok 128 21 16 ltac:(split; apply Nat.leb_le; reflexivity) eq_refl eq_refl eq_refl g sq1 sfx sq). Qed.
Theorem C21_kmac256_xof_exact g sq1 sfx sq : length (sm g) = 168%nat ->
  ximplements (kmacxof 256) (kmacxof_coded_spec 32) true
    (fresh_of (kmac_ctor_static 256 0 sq (new_shake g sq1 sfx)) (kmac_init 256)).
Proof. exact (kmacxof_coded_ok 256 17 32 ltac:(split; apply Nat.leb_le; reflexivity) eq_refl eq_refl eq_refl g sq1 sfx sq). Qed.

Theorem C28_streebog_exact hs g : hs = 256 \/ hs = 512 -> length (sm g) = 64%nat ->
  implements streebog (streebog_coded_spec hs) true (fresh_of (sb_ctor hs g) sb_init) /\
  implements streebog (streebog_coded_spec hs) true (fresh_of (sb_ctor_static hs g) sb_init).
Proof. exact (fun H => streebog_coded_ok hs H g). Qed.

(** Both cases of the cSHAKE header occur; the customization of 160 bytes fills the block. *)
Example coded_example : hdr_fits 16 [97] [98] /\ ~ hdr_fits 16 [97] (repeat 98 160) /\
  length (bytepad (encode_string [97] ++ encode_string (repeat 98 160)) 168) = 168%nat /\
  length (bytepad_always (encode_string [97] ++ encode_string (repeat 98 160)) 168) = 336%nat.
Proof.
  split; [intros _; vm_compute; discriminate|].
  split; [|split; vm_compute; reflexivity]. intros H. apply H; [discriminate|vm_compute; reflexivity].
Qed.
(** Adding 1 to 2^128 - 1: the carry out of the second digit is lost. *)
Example coded_sum_example : coded_sum (2 ^ 128 - 1) 1 = 0 /\ coded_sum (2 ^ 64 - 1) 1 = 2 ^ 64 /\
  coded_count (2 ^ 64 - 8) 16 = 8.
Proof. vm_compute. auto. Qed.
Example coded_mem : length (sm (mkst [] (repeat 165 168) 3 4)) = 168%nat /\ 256 < 2 ^ 64 /\ 0 < 256 /\ 256 mod 8 = 0.
Proof. repeat split. Qed.

Definition coded_all := (C20_cshake128_exact, C20_cshake256_exact, C20_fits, C20_spills, C21_kmac128_exact, C21_kmac256_exact,
  C21_kmac128_xof_exact, C21_kmac256_xof_exact, C28_streebog_exact).
Print Assumptions coded_all.
