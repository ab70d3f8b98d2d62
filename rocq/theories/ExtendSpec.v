(** * C64: length extension. What a reader of the digest can compute (specification).

    [forged] is independent of the models: it computes from the digest [d] of some message of [n] bytes, and not
    the message itself. *)
From Verif Require Import Base SpecCommon Hasher Library Inputs Md5Spec Sha1Spec Sha2Spec Sm3Spec WhirlpoolSpec.

(** What the padding appends to a message of [n] bytes: 0x80, zero bytes, the length in
    bits, as eight bytes, 16 bytes or 32 bytes. *)
Definition tail_of (bs : nat) (enc : N -> list N) (n : nat) : list N :=
  [128] ++ zeros (md_zeros bs (length (enc 0)) n) ++ enc ((8 * N.of_nat n) mod 2 ^ 64).

(** The digest of the message, its padding and [x]: [load] reads the chaining value from
    the digest, [store] writes it. *)
Definition forged {A} (bs : nat) (enc : N -> list N) (step : A -> list N -> A) (load : list N -> A)
  (store : A -> list N) (n : nat) (d x : list N) : list N :=
  let total := (n + length (tail_of bs enc n) + length x)%nat in
  store (fold_left step (blocks bs (x ++ tail_of bs enc total)) (load d)).

Definition load4 (w : list N) : N * N * N * N := (nth 0 w 0, nth 1 w 0, nth 2 w 0, nth 3 w 0).
Definition load5 (w : list N) : N * N * N * N * N := (load4 w, nth 4 w 0).
Definition load8 (w : list N) : N * N * N * N * N * N * N * N := (load4 w, nth 4 w 0, nth 5 w 0, nth 6 w 0, nth 7 w 0).

Definition md5_forged : nat -> list N -> list N -> list N :=
  forged 64 (le_bytes 8) rfc_md5_compress (fun d => load4 (le_words 4 4 d))
    (fun '(a, b, c, d) => le_bytes 4 a ++ le_bytes 4 b ++ le_bytes 4 c ++ le_bytes 4 d).
Definition sha1_forged : nat -> list N -> list N -> list N :=
  forged 64 (be_bytes 8) fips_sha1_compress (fun d => load5 (be_words 4 5 d))
    (fun '(a, b, c, d, e) => flat_map (be_bytes 4) [a; b; c; d; e]).
Definition sha256_forged : nat -> list N -> list N -> list N :=
  forged 64 (be_bytes 8) (fips_sha2_compress params256) (fun d => load8 (be_words 4 8 d)) (regs_bytes params256).
Definition sha512_forged : nat -> list N -> list N -> list N :=
  forged 128 (be_bytes 16) (fips_sha2_compress params512) (fun d => load8 (be_words 8 8 d)) (regs_bytes params512).
Definition sm3_forged : nat -> list N -> list N -> list N :=
  forged 64 (be_bytes 8) gb_compress (be_words 4 8) (flat_map (be_bytes 4)).
Definition whirlpool_forged : nat -> list N -> list N -> list N :=
  forged 64 (be_bytes 32) wp_compress (fun d => d) (fun h => h).

(** After any calls: if digest() returned [d], then after absorbing the padding of the
    message absorbed so far and [x] it returns [f] of the length so far, [d] and [x]. *)
Definition extends {P} (T : htype P) (bs : nat) (enc : N -> list N) (f : nat -> list N -> list N -> list N) : Prop :=
  forall g ops d x, ht_mem_ok T g -> hcalls T ops -> is_bytes x -> after T g ops [HDigestIter] = Ok [OBytes d] ->
  let n := length (since T ops) in
  after T g (ops ++ [HBase (Absorb FPtr (tail_of bs enc n)); HBase (Absorb FPtr x)]) [HDigestIter] = Ok [OBytes (f n d x)].
