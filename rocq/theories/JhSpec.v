(** * JH, from "The Hash Function JH" (Wu, 16 January 2011; SHA-3 finalist version). *)
From Verif Require Import Base SpecCommon HasherSpec.

(** Bits are numbered from the most significant bit of the first byte. *)
Definition jhs_bit (A : list N) (j : nat) : bool :=
  N.testbit (nth (j / 8) A 0) (N.of_nat (7 - j mod 8)).
Definition jhs_nibble (b0 b1 b2 b3 : bool) : N :=
  8 * N.b2n b0 + 4 * N.b2n b1 + 2 * N.b2n b2 + N.b2n b3.
Definition jhs_nibble_bit (k : nat) (x : N) : bool := N.testbit x (N.of_nat (3 - k)).

(** Section 2.1: the S-boxes. *)
Definition jhs_S (c : bool) (x : N) : N :=
  nth (N.to_nat x)
    (if c then [3; 12; 6; 13; 5; 7; 1; 9; 15; 2; 0; 4; 11; 10; 14; 8]
     else [9; 0; 4; 11; 13; 12; 3; 15; 1; 10; 2; 6; 7; 5; 8; 14]) 0.
(** Section 2.2: L over GF(2^4) modulo x^4 + x + 1, as (C, D) = L(A, B). *)
Definition jhs_double (a : N) : N := if a <? 8 then 2 * a else N.lxor (2 * a) 0x13.
Definition jhs_L (a b : N) : N * N :=
  let d := N.lxor b (jhs_double a) in (N.lxor a (jhs_double d), d).
(** Section 2.3: the permutations pi, P' and phi on 2^d elements. *)
Definition jhs_pi (n : nat) (a : list N) : list N :=
  map (fun i => nth (match (i mod 4)%nat with 2 => i + 1 | 3 => i - 1 | _ => i end)%nat a 0) (seq 0 n).
Definition jhs_P' (n : nat) (a : list N) : list N :=
  map (fun i => nth (if i <? n / 2 then 2 * i else 2 * (i - n / 2) + 1)%nat a 0) (seq 0 n).
Definition jhs_phi (n : nat) (a : list N) : list N :=
  map (fun i => nth (if i <? n / 2 then i else if Nat.even i then i + 1 else i - 1)%nat a 0) (seq 0 n).
Definition jhs_P (n : nat) (a : list N) : list N := jhs_phi n (jhs_P' n (jhs_pi n a)).
(** Section 2.4: the round function R_d; [c] selects the S-box of every element. *)
Definition jhs_R (n : nat) (c : nat -> bool) (a : list N) : list N :=
  let v := map (fun i => jhs_S (c i) (nth i a 0)) (seq 0 n) in
  let w := map (fun i => if Nat.even i then fst (jhs_L (nth i v 0) (nth (i + 1) v 0))
                         else snd (jhs_L (nth (i - 1) v 0) (nth i v 0))) (seq 0 n) in
  jhs_P n w.
(** Section 2.5: grouping the 1024 bits into 256 elements and back. *)
Definition jhs_group (A : list N) : list N :=
  map (fun p => let j := (p / 2 + 128 * (p mod 2))%nat in
         jhs_nibble (jhs_bit A j) (jhs_bit A (j + 256)) (jhs_bit A (j + 512)) (jhs_bit A (j + 768)))
    (seq 0 256).
Definition jhs_degroup_bit (Q : list N) (j : nat) : bool :=
  jhs_nibble_bit (j / 256) (nth (2 * (j mod 128) + (j / 128) mod 2) Q 0).
Definition jhs_degroup (Q : list N) : list N :=
  map (fun b => fold_right (fun t acc => N.b2n (jhs_degroup_bit Q (8 * b + t)) * 2 ^ N.of_nat (7 - t) + acc)
                  0 (seq 0 8)) (seq 0 128).
(** Section 2.7: the round constants are 256 bits each, kept as 64 elements of four bits:
    the fractional part of the square root of two, then R_6 with zero constants. *)
Definition jhs_C0 : list N :=
  let root := N.sqrt (2 * 2 ^ 512) in
  map (fun i => (root / 2 ^ (252 - 4 * N.of_nat i)) mod 16) (seq 0 64).
Fixpoint jhs_consts (r : nat) : list N :=
  match r with O => jhs_C0 | S r' => jhs_R 64 (fun _ => false) (jhs_consts r') end.
Definition jhs_cbit (C : list N) (i : nat) : bool := jhs_nibble_bit (i mod 4) (nth (i / 4) C 0).
(** Section 2.6: E_8 with 42 rounds. *)
Definition jhs_E8 (A : list N) : list N :=
  jhs_degroup (fold_left (fun Q r => jhs_R 256 (jhs_cbit (jhs_consts r)) Q) (seq 0 42) (jhs_group A)).
(** Section 3: the compression function. *)
Definition jhs_F8 (H M : list N) : list N :=
  let A := map2 N.lxor H (M ++ zeros 64) in
  map2 N.lxor (jhs_E8 A) (zeros 64 ++ M).

(** Section 4: the padding is bit 1, 383 + (-l mod 512) zeros and the length l as a
    128-bit big-endian number (the code counts modulo 2^64). *)
Definition jhs_pad (msg : list N) : list N :=
  msg ++ [128] ++ zeros (47 + (64 - length msg mod 64) mod 64) ++ be_bytes 16 (bitlen msg mod 2 ^ 64).
(** The initial value: the digest size in the first two bytes, then one call of F_8. *)
Definition jhs_iv (n : N) : list N := jhs_F8 (be_bytes 2 n ++ zeros 126) (zeros 64).
Definition jhs_hash (n : N) (msg : list N) : list N :=
  skipn (128 - N.to_nat (n / 8)) (md_hash jhs_F8 (jhs_iv n) 64 (jhs_pad msg)).

Definition jh_spec (n : N) : hash_spec Empty_set :=
  {| sp_params := unit; sp_default := tt; sp_set := no_params_set; sp_size := N.to_nat (n / 8);
     sp_digest := fun _ msg => jhs_hash n msg |}.
