(** * C73: providers of others. *)
From Coq Require Import Lia.
From Verif Require Import Base Hasher HasherSpec HasherProof MdState Md5 Md5Spec Blake BlakeSpec BlakeProof Sha3Spec Shake ShakeProof Library LibraryTypes Custom CustomProof CustomLib.

(** A hasher over any provider that meets [hash_contract] returns, in every history of calls, what
    the abstract hasher of HasherSpec.v returns for the function of the provider. *)
Theorem C73_hash (P : hash_provider) (S : hash_spec (p_param P)) usable : hash_contract P S usable ->
  forall p s s0 ops, usable p s -> p_init P s = Ok s0 -> Forall (hash_op_ok true) ops ->
  exists s1, hash_run P s0 ops = Ok (s1, snd (arun S (p, []) ops)).
Proof. intros H p s s0 ops. exact (custom_hash H p s s0 ops). Qed.
(** The same for extendable output, in the histories of the documentation: no empty squeeze, no
    absorb between a squeeze and the next reset or setter. *)
Theorem C73_xof (P : xof_provider) (S : xof_spec (p_param P)) usable : xof_contract P S usable ->
  forall p s s0 ops, usable p s -> p_init P s = Ok s0 -> xof_ops_ok S true (p, [], 0%nat) ops ->
  exists s1, xof_run P s0 ops = Ok (s1, snd (xrun S (p, [], 0%nat) ops)).
Proof. intros H p s s0 ops. exact (custom_xof H p s s0 ops). Qed.

(** ** Whatever the provider does *)

(** digest() and hexdigest() do not change the object, even if final() does. *)
Theorem C73_digest_const (P : hash_provider) s o s' x : match o with HBase _ => False | _ => True end ->
  hash_step P s o = Ok (s', x) -> s' = s.
Proof. exact (digest_keeps P s o s' x). Qed.
(** hexdigest() and hexsqueeze() encode what digest() and squeeze() return. *)
Theorem C73_hexdigest (P : hash_provider) s b : bytes_ok b ->
  hash_step P s HDigestIter = Ok (s, OBytes b) -> hash_step P s HHexDigest = Ok (s, OBytes (spec_hex b)).
Proof. exact (hex_of_digest P s b). Qed.
Theorem C73_hexsqueeze (P : xof_provider) s n t b : bytes_ok b ->
  xof_step P s (XSqueezeIter n) = Ok (t, OBytes b) -> xof_step P s (XHexSqueeze n) = Ok (t, OBytes (spec_hex b)).
Proof. exact (hex_of_squeeze P s n t b). Qed.
(** The condition that the digest has at least one byte is needed. *)
Theorem C73_size_needed (P : hash_provider) s : hp_size P s < 8 ->
  hash_step P s HDigestIter = UB EmptyVectorRef /\ hash_step P s HHexDigest = UB EmptyVectorRef.
Proof. exact (no_size P s). Qed.

(** ** Examples *)

(** Providers of the library: MD5, BLAKE with its setter of the salt, SHAKE128; a new object is usable. *)
Example C73_md5 : exists usable, hash_contract md5 md5_spec usable /\
  forall g, ht_mem_ok md5_type g -> exists s, ht_new md5_type g = Ok s /\ usable tt s.
Proof. exact md5_contract. Qed.
Example C73_blake hs : In hs [224; 256; 384; 512] -> exists usable, hash_contract blake (blake_spec hs) usable /\
  forall g, length (sm g) = 128%nat -> exists s, bl_ctor hs g = Ok s /\ usable (sp_default (blake_spec hs)) s.
Proof. intros H. apply blake_contract. unfold bl_size. cbn in H. tauto || (destruct H as [H|[H|[H|[H|[]]]]]; subst; auto). Qed.
Example C73_shake : exists usable, xof_contract (shake 128 24) (shake_spec 16) usable /\
  forall g, xt_mem_ok (shake_type 128) g -> exists s, xt_new (shake_type 128) g = Ok s /\ usable tt s.
Proof. exact shake128_contract. Qed.

(** A check sum of someone else, and its extendable output. *)
Example C73_sum : hash_contract sum_provider sum_spec (fun p s => fst s = p).
Proof. exact sum_contract. Qed.
Example C73_count : xof_contract count_provider count_spec (fun _ _ => True).
Proof. exact count_contract. Qed.
Example C73_sum_run : hash_run sum_provider (7, 7)
  [HBase (Absorb FIter [1; 2]); HBase (SetParam tt []); HDigestIter; HBase (SetParam tt [5]); HBase (Absorb FPtr [200; 100]); HHexDigest] =
  Ok ((5, 305), [ODone; OThrow; OBytes [10]; ODone; ODone; OBytes [51; 49]]).
Proof. vm_compute. reflexivity. Qed.
Example C73_needed :
  hash_run last_provider [] [HBase (Absorb FPtr [1; 2]); HDigestIter; HBase (Absorb FIter [1; 2]); HDigestIter] =
  Ok ([2], [ODone; OBytes [3]; ODone; OBytes [2]]).
Proof. vm_compute. reflexivity. Qed.
Example C73_count_run : xof_run count_provider (0, 0%nat)
  [XBase (Absorb FIter [250; 2]); XSqueezeIter 3; XHexSqueeze 2; XBase (Reset true); XSqueezeIter 2] =
  Ok ((0, 2%nat), [ODone; OBytes [252; 253; 254]; OBytes [102; 102; 48; 48]; ODone; OBytes [0; 1]]).
Proof. vm_compute. reflexivity. Qed.
(** digest() leaves an object of the check sum alone although final() does not. *)
Example C73_digest_const_case : hash_step sum_provider (7, 9) HDigestIter = Ok ((7, 9), OBytes [9]) /\
  hp_final sum_provider (7, 9) = Ok ((0, 0), [9]).
Proof. split; reflexivity. Qed.

(** A provider with hash_size() = 0, and one with 7 bits. *)
Example C73_size_case : forall bits, bits = 0 \/ bits = 7 ->
  hash_run {| hp := last_provider; hp_final := fun s => Ok (s, []); hp_size := fun _ => bits |} [] [HBase (Absorb FPtr [1]); HDigestIter] =
  UB EmptyVectorRef.
Proof. intros bits [->| ->]; vm_compute; reflexivity. Qed.

Definition custom_all := (@C73_hash, @C73_xof, @C73_digest_const, @C73_hexdigest, @C73_hexsqueeze, @C73_size_needed, C73_md5, C73_blake, C73_shake, C73_sum, C73_count).
Print Assumptions custom_all.
