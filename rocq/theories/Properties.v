(** * Conformance of the hash functions to their standards (C14 - C37).

    [implements P S clr fresh] (HasherProof.v): for every history of API calls
    (absorb in every form, digest in every form, reset, set_*; reset(true) if [clr])
    on a newly constructed hasher, no call has undefined behaviour and the outputs are
    those of the abstract hasher over the function [sp_digest S]. The object memory
    [g] before construction is arbitrary. *)
From Verif Require Import Base Hasher HasherSpec HasherProof MdState
  Md5 Md5Spec Md5Proof Sha1 Sha1Spec Sha1Proof Sha2 Sha2Spec Sha2Proof Sm3 Sm3Spec Sm3Proof
  Whirlpool WhirlpoolSpec WhirlpoolProof
  HasherWhen Sha3 Shake Kmac KeccakSpec Sha3Spec Sha3Proof ShakeProof KmacProof SpongeRefuted
  K12 K12Spec K12Proof Ascon AsconSpec AsconProof Esch EschSpec EschProof AsconRefuted.

Theorem C14_md5_conforms g :
  length (sm g) = 64%nat -> implements md5 md5_spec true (md5_init g).
Proof. exact (md5_implements g). Qed.
Print Assumptions C14_md5_conforms.

Theorem C15_sha1_conforms g :
  length (sm g) = 64%nat -> implements sha1 sha1_spec true (sha1_init g).
Proof. exact (sha1_implements g). Qed.
Print Assumptions C15_sha1_conforms.

Theorem C16_sha224_conforms g : length (sm g) = 64%nat ->
  implements sha256_family sha224_spec true (fresh_of (sha2_ctor_fixed 224 g) sha256_init).
Proof. exact (sha224_implements g). Qed.
Print Assumptions C16_sha224_conforms.

Theorem C16_sha256_conforms g : length (sm g) = 64%nat ->
  implements sha256_family sha256_spec true (fresh_of (sha2_ctor_fixed 256 g) sha256_init).
Proof. exact (sha256_implements g). Qed.
Print Assumptions C16_sha256_conforms.

Theorem C17_sha384_conforms g : length (sm g) = 128%nat ->
  implements sha512_family sha384_spec true (fresh_of (sha2_ctor_fixed 384 g) sha512_init).
Proof. exact (sha384_implements g). Qed.
Print Assumptions C17_sha384_conforms.

Theorem C17_sha512_conforms g : length (sm g) = 128%nat ->
  implements sha512_family sha512_spec true (fresh_of (sha512_ctor 512 g) sha512_init).
Proof. exact (sha512_implements g). Qed.
Print Assumptions C17_sha512_conforms.

Theorem C17_sha512_384_conforms g : length (sm g) = 128%nat ->
  implements sha512_family sha384_spec true (fresh_of (sha512_ctor 384 g) sha512_init).
Proof. exact (sha512_384_implements g). Qed.
Print Assumptions C17_sha512_384_conforms.

(** Every other multiple of 8 below 512. *)
Theorem C17_sha512t_conforms t g :
  0 < t -> t < 512 -> t mod 8 = 0 -> t <> 384 -> length (sm g) = 128%nat ->
  implements sha512_family (sha512t_spec t) true (fresh_of (sha512_ctor t g) sha512_init).
Proof. exact (sha512t_implements t g). Qed.
Print Assumptions C17_sha512t_conforms.
(* the hypotheses are met by SHA-512/256 *)
Example C17_sha512t_example : 0 < 256 /\ 256 < 512 /\ 256 mod 8 = 0 /\ 256 <> 384.
Proof. repeat split; discriminate. Qed.

(** SM3 on a machine whose shifter masks the count. *)
Theorem C27_sm3_conforms_partial g : length (sm g) = 64%nat ->
  implements (sm3 Masked) sm3_spec true (sm3_init g).
Proof. exact (sm3_implements g). Qed.
Print Assumptions C27_sm3_conforms_partial.

(** As C++, every SM3 digest involves a shift by 32 (sm3_provider.hpp:137). *)
Theorem C27_sm3_defined_refuted g msg : length (sm g) = 64%nat -> bytes_ok msg ->
  (s <- sm3_init g ;; s <- absorb (sm3 Strict) FPtr s msg ;; digest_iter (sm3 Strict) s)
  = UB BadShift.
Proof. exact (sm3_strict_undefined g msg). Qed.
Print Assumptions C27_sm3_defined_refuted.

Theorem C29_whirlpool_conforms g : length (sm g) = 64%nat ->
  implements whirlpool whirlpool_spec true (wp_init g).
Proof. exact (whirlpool_implements g). Qed.
Print Assumptions C29_whirlpool_conforms.

(** *** The Keccak family *)

Theorem C18_sha3_conforms hs g : sha3_size hs -> length (sm g) = 144%nat ->
  implements sha3 (sha3_spec (N.to_nat (hs / 8))) true (fresh_of (sha3_ctor hs g) sha3_init).
Proof. exact (sha3_implements hs g). Qed.
Print Assumptions C18_sha3_conforms.
Theorem C18_sha3_static_conforms hs g : sha3_size hs -> length (sm g) = 144%nat ->
  implements sha3 (sha3_spec (N.to_nat (hs / 8))) true (fresh_of (sha3_ctor_static hs g) sha3_init).
Proof. exact (sha3_static_implements hs g). Qed.
Print Assumptions C18_sha3_static_conforms.
Example C18_example : sha3_size 256.
Proof. right; left; reflexivity. Qed.

Theorem C19_shake128_conforms g sq sfx : length (sm g) = 168%nat ->
  ximplements (shake 128 24) (shake_spec 16) true (fresh_of (shake_ctor g sq sfx) (shake_init 128 24)).
Proof. exact (shake128_implements g sq sfx). Qed.
Print Assumptions C19_shake128_conforms.
Theorem C19_shake256_conforms g sq sfx : length (sm g) = 168%nat ->
  ximplements (shake 256 24) (shake_spec 32) true (fresh_of (shake_ctor g sq sfx) (shake_init 256 24)).
Proof. exact (shake256_implements g sq sfx). Qed.
Print Assumptions C19_shake256_conforms.

(** Full statement: [ximplements (cshake B 24) (cshake_spec ..) ..]. It is false
    ([C20_cshake128_refuted]); proved when the unpadded header is not a multiple of the
    rate. *)
Theorem C20_cshake128_conforms_partial g sq sfx : length (sm g) = 168%nat ->
  ximplements_when (cshake 128 24) (cshake_spec 16) (fun p => hdr_fits 16 (fst p) (snd p)) true
    (fresh_of (shake_ctor g sq sfx) (shake_init 128 24)).
Proof. exact (cshake128_implements g sq sfx). Qed.
Print Assumptions C20_cshake128_conforms_partial.
Theorem C20_cshake256_conforms_partial g sq sfx : length (sm g) = 168%nat ->
  ximplements_when (cshake 256 24) (cshake_spec 32) (fun p => hdr_fits 32 (fst p) (snd p)) true
    (fresh_of (shake_ctor g sq sfx) (shake_init 256 24)).
Proof. exact (cshake256_implements g sq sfx). Qed.
Print Assumptions C20_cshake256_conforms_partial.
(* name "abc", customization of 5 bytes *)
Example C20_example : hdr_fits 16 [97; 98; 99] [1; 2; 3; 4; 5] /\ hdr_fits 32 [] [].
Proof. split; intros H; [vm_compute; discriminate|contradiction]. Qed.
Theorem C20_cshake128_refuted g sq sfx : length (sm g) = 168%nat ->
  ~ ximplements (cshake 128 24) (cshake_spec 16) true (fresh_of (shake_ctor g sq sfx) (shake_init 128 24)).
Proof. exact (cshake128_refuted g sq sfx). Qed.
Print Assumptions C20_cshake128_refuted.
Theorem C20_cshake256_refuted g sq sfx : length (sm g) = 168%nat ->
  ~ ximplements (cshake 256 24) (cshake_spec 32) true (fresh_of (shake_ctor g sq sfx) (shake_init 256 24)).
Proof. exact (cshake256_refuted g sq sfx). Qed.
Print Assumptions C20_cshake256_refuted.

(** KMAC inherits the defect of the cSHAKE header. *)
Theorem C21_kmac128_conforms_partial hs g sq1 sfx sq :
  hs < 2 ^ 64 -> 0 < hs -> hs mod 8 = 0 -> length (sm g) = 168%nat ->
  implements_when (kmac 128) (kmac_spec 16 hs) (fun p _ => hdr_fits 16 KMAC_name (snd p)) true
    (fresh_of (kmac_ctor 128 hs sq (new_shake g sq1 sfx)) (kmac_init 128)).
Proof. exact (kmac128_implements hs g sq1 sfx sq). Qed.
Print Assumptions C21_kmac128_conforms_partial.
Theorem C21_kmac128_static_conforms_partial hs g sq1 sfx sq :
  hs < 2 ^ 64 -> 0 < hs -> hs mod 8 = 0 -> length (sm g) = 168%nat ->
  implements_when (kmac 128) (kmac_spec 16 hs) (fun p _ => hdr_fits 16 KMAC_name (snd p)) true
    (fresh_of (kmac_ctor_static 128 hs sq (new_shake g sq1 sfx)) (kmac_init 128)).
Proof. exact (kmac128_static_implements hs g sq1 sfx sq). Qed.
Print Assumptions C21_kmac128_static_conforms_partial.
Theorem C21_kmac128_xof_conforms_partial g sq1 sfx sq : length (sm g) = 168%nat ->
  ximplements_when (kmacxof 128) (kmacxof_spec 16) (fun p => hdr_fits 16 KMAC_name (snd p)) true
    (fresh_of (kmac_ctor_static 128 0 sq (new_shake g sq1 sfx)) (kmac_init 128)).
Proof. exact (kmac128_xof_implements g sq1 sfx sq). Qed.
Print Assumptions C21_kmac128_xof_conforms_partial.
Theorem C21_kmac128_refuted g sq1 sfx sq : length (sm g) = 168%nat ->
  ~ implements (kmac 128) (kmac_spec 16 256) true
      (fresh_of (kmac_ctor 128 256 sq (new_shake g sq1 sfx)) (kmac_init 128)).
Proof. exact (kmac128_refuted g sq1 sfx sq). Qed.
Print Assumptions C21_kmac128_refuted.
Theorem C21_kmac128_xof_refuted g sq1 sfx sq : length (sm g) = 168%nat ->
  ~ ximplements (kmacxof 128) (kmacxof_spec 16) true
      (fresh_of (kmac_ctor_static 128 0 sq (new_shake g sq1 sfx)) (kmac_init 128)).
Proof. exact (kmac128_xof_refuted g sq1 sfx sq). Qed.
Print Assumptions C21_kmac128_xof_refuted.
Theorem C21_kmac256_conforms_partial hs g sq1 sfx sq :
  hs < 2 ^ 64 -> 0 < hs -> hs mod 8 = 0 -> length (sm g) = 168%nat ->
  implements_when (kmac 256) (kmac_spec 32 hs) (fun p _ => hdr_fits 32 KMAC_name (snd p)) true
    (fresh_of (kmac_ctor 256 hs sq (new_shake g sq1 sfx)) (kmac_init 256)).
Proof. exact (kmac256_implements hs g sq1 sfx sq). Qed.
Print Assumptions C21_kmac256_conforms_partial.
Theorem C21_kmac256_static_conforms_partial hs g sq1 sfx sq :
  hs < 2 ^ 64 -> 0 < hs -> hs mod 8 = 0 -> length (sm g) = 168%nat ->
  implements_when (kmac 256) (kmac_spec 32 hs) (fun p _ => hdr_fits 32 KMAC_name (snd p)) true
    (fresh_of (kmac_ctor_static 256 hs sq (new_shake g sq1 sfx)) (kmac_init 256)).
Proof. exact (kmac256_static_implements hs g sq1 sfx sq). Qed.
Print Assumptions C21_kmac256_static_conforms_partial.
Theorem C21_kmac256_xof_conforms_partial g sq1 sfx sq : length (sm g) = 168%nat ->
  ximplements_when (kmacxof 256) (kmacxof_spec 32) (fun p => hdr_fits 32 KMAC_name (snd p)) true
    (fresh_of (kmac_ctor_static 256 0 sq (new_shake g sq1 sfx)) (kmac_init 256)).
Proof. exact (kmac256_xof_implements g sq1 sfx sq). Qed.
Print Assumptions C21_kmac256_xof_conforms_partial.
Theorem C21_kmac256_refuted g sq1 sfx sq : length (sm g) = 168%nat ->
  ~ implements (kmac 256) (kmac_spec 32 512) true
      (fresh_of (kmac_ctor 256 512 sq (new_shake g sq1 sfx)) (kmac_init 256)).
Proof. exact (kmac256_refuted g sq1 sfx sq). Qed.
Print Assumptions C21_kmac256_refuted.
Theorem C21_kmac256_xof_refuted g sq1 sfx sq : length (sm g) = 168%nat ->
  ~ ximplements (kmacxof 256) (kmacxof_spec 32) true
      (fresh_of (kmac_ctor_static 256 0 sq (new_shake g sq1 sfx)) (kmac_init 256)).
Proof. exact (kmac256_xof_refuted g sq1 sfx sq). Qed.
Print Assumptions C21_kmac256_xof_refuted.
(* customizations of 0 and 21 bytes *)
Example C21_example : hdr_fits 16 KMAC_name [] /\ hdr_fits 32 KMAC_name (repeat 65 21).
Proof. split; intros H; vm_compute; discriminate. Qed.

Theorem C22_k12_conforms g1 sq1 sfx1 g2 sq2 sfx2 m pos total chunk sq :
  length (sm g1) = 168%nat -> length (sm g2) = 168%nat -> length m = N.to_nat 8192 ->
  ximplements (k12 128 12) (kt_spec k12_param 12 16) true
    (fresh_of (k12_ctor (new_shake g1 sq1 sfx1) (new_shake g2 sq2 sfx2) m pos total chunk sq) (k12_init 128 12)).
Proof. exact (k12_implements g1 sq1 sfx1 g2 sq2 sfx2 m pos total chunk sq). Qed.
Print Assumptions C22_k12_conforms.

Theorem C22_m14_conforms g1 sq1 sfx1 g2 sq2 sfx2 m pos total chunk sq :
  length (sm g1) = 168%nat -> length (sm g2) = 168%nat -> length m = N.to_nat 8192 ->
  ximplements (k12 256 14) (kt_spec k12_param 14 32) true
    (fresh_of (k12_ctor (new_shake g1 sq1 sfx1) (new_shake g2 sq2 sfx2) m pos total chunk sq) (k12_init 256 14)).
Proof. exact (m14_implements g1 sq1 sfx1 g2 sq2 sfx2 m pos total chunk sq). Qed.
Print Assumptions C22_m14_conforms.

Theorem C22_kt256_conforms g1 sq1 sfx1 g2 sq2 sfx2 m pos total chunk sq :
  length (sm g1) = 168%nat -> length (sm g2) = 168%nat -> length m = N.to_nat 8192 ->
  ximplements (k12 256 12) (kt_spec k12_param 12 32) true
    (fresh_of (k12_ctor (new_shake g1 sq1 sfx1) (new_shake g2 sq2 sfx2) m pos total chunk sq) (k12_init 256 12)).
Proof. exact (kt256_implements g1 sq1 sfx1 g2 sq2 sfx2 m pos total chunk sq). Qed.
Print Assumptions C22_kt256_conforms.

Theorem C36_ascon_hash_conforms g : length (sm g) = 64%nat ->
  implements ascon_hash ascon_hash_spec true (fresh_of (ascon_ctor g) (ascon_init AHash)).
Proof. exact (ascon_hash_implements g). Qed.
Print Assumptions C36_ascon_hash_conforms.
Theorem C36_ascon_xof_conforms g : length (sm g) = 64%nat ->
  ximplements ascon_xof ascon_xof_spec true (fresh_of (ascon_ctor g) (ascon_init AXof)).
Proof. exact (ascon_xof_implements g). Qed.
Print Assumptions C36_ascon_xof_conforms.
(** All histories without reset(true); for those see C05_ascon_cxof_refuted. *)
Theorem C36_ascon_cxof_conforms g : length (sm g) = 64%nat ->
  ximplements ascon_cxof ascon_cxof_spec false (fresh_of (ascon_ctor g) (ascon_init ACxof)).
Proof. exact (ascon_cxof_implements g). Qed.
Print Assumptions C36_ascon_cxof_conforms.
Theorem C05_ascon_cxof_refuted g : length (sm g) = 64%nat ->
  ~ ximplements ascon_cxof ascon_cxof_spec true (fresh_of (ascon_ctor g) (ascon_init ACxof)).
Proof. exact (ascon_cxof_reset_keeps_customization g). Qed.
Print Assumptions C05_ascon_cxof_refuted.
Example C36_example : length (sm (mkst [7; 8] (repeat 165 64) 3 4)) = 64%nat.
Proof. reflexivity. Qed.

Theorem C37_esch256_conforms g : esch_mem 16 g ->
  implements esch (esch_spec 3) true (fresh_of (esch_ctor 256 g) esch_init) /\
  implements esch (esch_spec 3) true (fresh_of (esch_ctor_static 256 g) esch_init).
Proof. exact (esch_implements 3 16 g (or_introl eq_refl) ltac:(lia)). Qed.
Print Assumptions C37_esch256_conforms.
Theorem C37_esch384_conforms g : esch_mem 16 g ->
  implements esch (esch_spec 4) true (fresh_of (esch_ctor 384 g) esch_init) /\
  implements esch (esch_spec 4) true (fresh_of (esch_ctor_static 384 g) esch_init).
Proof. exact (esch_implements 4 16 g (or_intror eq_refl) ltac:(lia)). Qed.
Print Assumptions C37_esch384_conforms.
Theorem C37_esch256_xof_conforms g : esch_mem 12 g ->
  ximplements esch_xof (esch_xof_spec 3) true (fresh_of (esch_ctor_xof 384 g) esch_init).
Proof. exact (esch_xof_implements 3 g (or_introl eq_refl)). Qed.
Print Assumptions C37_esch256_xof_conforms.
Theorem C37_esch384_xof_conforms g : esch_mem 16 g ->
  ximplements esch_xof (esch_xof_spec 4) true (fresh_of (esch_ctor_xof 512 g) esch_init).
Proof. exact (esch_xof_implements 4 g (or_intror eq_refl)). Qed.
Print Assumptions C37_esch384_xof_conforms.
Example C37_example : esch_mem 16 (mkst (repeat 7 16) (repeat 165 128) 3 4).
Proof. split; reflexivity. Qed.
