(** * C63: size_t does not overflow in absorb_bytes. *)
From Verif Require Import Base Align Wrap WrapProof.
From Coq Require Import Lia.

(** C63: with the wrapping arithmetic of size_t, absorb_bytes makes the same calls of
    transform, copies as many bytes at the end and leaves the same [pos] as with natural
    numbers (whose link to the model of absorb_bytes is C61_model). *)
Theorem C63_absorb : forall bs extra pos len, (0 < bs)%nat -> (extra <= 1)%nat -> (pos < bs + extra)%nat ->
  N.of_nat bs + 1 < 2 ^ 64 -> N.of_nat pos + N.of_nat len < 2 ^ 64 ->
  absorb64 (N.of_nat bs) (N.of_nat (bs + extra)) (N.of_nat pos) (N.of_nat len) =
  (map src_of (fst (absorb_srcs bs (bs + extra) pos len)),
   N.of_nat (snd (absorb_srcs bs (bs + extra) pos len)
     - (if (negb (pos =? 0) && (bs + extra <=? pos + len))%nat then 0 else pos)),
   N.of_nat (snd (absorb_srcs bs (bs + extra) pos len))).
Proof. exact absorb64_ok. Qed.

(** C63: no shorter data is affected: if [pos + len] wraps, the buffered bytes are left out. *)
Theorem C63_absorb_wraps : forall bs extra pos len, (0 < bs)%nat -> (extra <= 1)%nat -> (pos < bs + extra)%nat ->
  N.of_nat bs + 1 < 2 ^ 32 -> N.of_nat len < 2 ^ 64 -> 2 ^ 64 <= N.of_nat pos + N.of_nat len ->
  fst (fst (absorb64 (N.of_nat bs) (N.of_nat (bs + extra)) (N.of_nat pos) (N.of_nat len))) <>
  map src_of (fst (absorb_srcs bs (bs + extra) pos len)).
Proof. exact absorb64_wrong. Qed.

(** The largest object that C++ allows is safe, whatever the provider. *)
Example largest_object : forall pos, (pos <= N.to_nat 8192)%nat -> N.of_nat pos + (2 ^ 63 - 1) < 2 ^ 64.
Proof. intros. lia. Qed.
Example absorb64_md5 : absorb64 64 64 3 130 = ([(Buf64, 1); (Data64 61, 1)], 5, 5).
Proof. reflexivity. Qed.
(** [len + bs - bschk] wraps in between without harm. *)
Example absorb64_long : absorb64 64 64 0 (2 ^ 64 - 1) = ([(Data64 0, 2 ^ 58 - 1)], 63, 63).
Proof. reflexivity. Qed.
Example absorb64_too_long : absorb64 64 64 1 (2 ^ 64 - 1) = ([(Data64 0, 2 ^ 58 - 1)], 63, 64).
Proof. reflexivity. Qed.

Definition C63_all := (@C63_absorb, @C63_absorb_wraps).
Print Assumptions C63_all.
