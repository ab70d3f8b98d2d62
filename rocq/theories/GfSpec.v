(** * Arithmetic in GF(2^8) and substitution boxes, for the specifications. *)
From Verif Require Import Base.

(** Multiplication by x modulo the polynomial [poly] (with its x^8 term). *)
Definition xtime (poly a : N) : N :=
  let b := 2 * a in if b <? 256 then b else N.lxor b poly.

(** Multiplication by schoolbook double-and-add, [n] bits of [b]. *)
Fixpoint gf_mul_n (n : nat) (poly a b : N) : N :=
  match n with
  | O => 0
  | S n' => N.lxor (if N.odd b then a else 0) (gf_mul_n n' poly (xtime poly a) (b / 2))
  end.
Definition gf_mul (poly a b : N) : N := gf_mul_n 8 poly a b.

(** Sum over j = 0 .. n-1 in characteristic two. *)
Fixpoint xor_sum (f : nat -> N) (n : nat) : N :=
  match n with
  | O => 0
  | S n' => N.lxor (xor_sum f n') (f n')
  end.

(** The inverse is x^254 = x^2 x^4 x^8 x^16 x^32 x^64 x^128 (0 for 0). *)
Definition gf_inv (poly a : N) : N :=
  snd (Nat.iter 7 (fun p => let s := gf_mul poly (fst p) (fst p) in (s, gf_mul poly (snd p) s)) (a, 1)).

(** FIPS 197, 5.1.1: the AES S-box, inversion in GF(2^8) followed by the affine map
    b_i + b_(i+4) + b_(i+5) + b_(i+6) + b_(i+7) + c_i, c = 0x63. *)
Definition aes_affine (b : N) : N :=
  let bit i := N.b2n (N.testbit b (i mod 8)) in
  fold_right (fun i acc => 2 * acc +
      N.lxor (N.lxor (N.lxor (N.lxor (N.lxor (bit i) (bit (i + 4))) (bit (i + 5)))
        (bit (i + 6))) (bit (i + 7))) (N.b2n (N.testbit 0x63 i)))
    0 [0; 1; 2; 3; 4; 5; 6; 7].
Definition aes_sbox (x : N) : N := aes_affine (gf_inv 0x11b x).
