(** * C64: length extension.

    [forged] and its instances (ExtendSpec.v) compute from the digest, the number of bytes
    absorbed and the bytes appended; the message is not among their arguments. *)
From Coq Require Import String.
From Verif Require Import Base Hasher Library LibraryTypes Inputs ExtendSpec ExtendProof.
From Verif Require Import VecUtil PropertiesCollide.
Local Open Scope list_scope.

(** C64: the types whose digest is the whole chaining value, after any calls. *)
Theorem C64_md5 : extends md5_type 64 (le_bytes 8) md5_forged.
Proof. exact md5_extends. Qed.
Theorem C64_sha1 : extends sha1_type 64 (be_bytes 8) sha1_forged.
Proof. exact sha1_extends. Qed.
Theorem C64_sha256 : extends sha256_type 64 (be_bytes 8) sha256_forged.
Proof. exact sha256_extends. Qed.
Theorem C64_sha512 T : T = sha512_type 512 \/ T = sha512_static_type 512 -> extends T 128 (be_bytes 16) sha512_forged.
Proof. exact (sha512_extends T). Qed.
Theorem C64_sm3 : extends sm3_type 64 (be_bytes 8) sm3_forged.
Proof. exact sm3_extends. Qed.
Theorem C64_whirlpool : extends whirlpool_type 64 (be_bytes 32) whirlpool_forged.
Proof. exact whirlpool_extends. Qed.

(** C64: for these, two objects that absorbed equally many bytes and returned the same
    digest return the same digest again after both absorb the padding and any [x]. *)
Theorem C64_equal_digests {P} (T : htype P) bs enc f : extends T bs enc f ->
  forall g1 g2 ops1 ops2 d x, ht_mem_ok T g1 -> ht_mem_ok T g2 -> hcalls T ops1 -> hcalls T ops2 -> is_bytes x ->
  length (since T ops1) = length (since T ops2) ->
  after T g1 ops1 [HDigestIter] = Ok [OBytes d] -> after T g2 ops2 [HDigestIter] = Ok [OBytes d] ->
  let more := [HBase (Absorb FPtr (tail_of bs enc (length (since T ops1)))); HBase (Absorb FPtr x)] in
  after T g1 (ops1 ++ more) [HDigestIter] = after T g2 (ops2 ++ more) [HDigestIter].
Proof. exact (extends_collide T bs enc f). Qed.

(** The example of the HashPump documentation: an unknown key of 14 bytes, the message
    count=10&lat=37.351&user_id=1&long=-119.827&waffle=eggo, its SHA-1, and what follows
    from these for the message with &waffle=liege appended. *)
Definition hashpump := Eval vm_compute in
  sha1_forged (14 + String.length "count=10&lat=37.351&user_id=1&long=-119.827&waffle=eggo")
    (unhex "6d5f807e23db210bc254a28be2d6759a0f5f5d99") (str "&waffle=liege").
Example C64_hashpump_example : hashpump = unhex "0e41270260895979317fff3898ab85668953aaa2".
Proof. reflexivity. Qed.

(** The two messages of an MD5 collision still collide after their padding and "x". *)
Definition wang_more : list (hash_op (p_param Md5.md5)) :=
  [HBase (Absorb FPtr (tail_of 64 (le_bytes 8) 128)); HBase (Absorb FPtr (str "x"))].
Example C64_wang_example :
  after md5_type md5_memory ([HBase (Absorb FPtr wang1)] ++ wang_more) [HDigestIter] =
  after md5_type md5_memory (wang_calls ++ wang_more) [HDigestIter].
Proof.
  apply (C64_equal_digests _ _ _ _ C64_md5 md5_memory md5_memory [HBase (Absorb FPtr wang1)] wang_calls
    [121; 5; 64; 37; 37; 95; 177; 162; 110; 75; 196; 34; 174; 245; 78; 180] (str "x")); try reflexivity; try (vm_compute; reflexivity).
  - repeat constructor.
  - unfold hcalls, wang_calls. repeat (apply Forall_cons || apply Forall_nil); cbn; try reflexivity; try exact I; repeat constructor.
  - repeat constructor.
Qed.

Definition C64_all := (@C64_md5, @C64_sha1, @C64_sha256, @C64_sha512, @C64_sm3, @C64_whirlpool, @C64_equal_digests).
Print Assumptions C64_all.
