(** * Byte matrices with eight rows, for the AES-like permutations of Groestl and Kupyna.

    A matrix with [C] columns is the list of its bytes column by column: the entry in
    row [r] and column [c] is element 8c+r. *)
From Verif Require Import Base GfSpec.

Definition colmat (C : nat) (f : nat -> nat -> N) : list N :=
  map (fun n => f (n mod 8)%nat (n / 8)%nat) (seq 0 (8 * C)).
Definition cell (A : list N) (r c : nat) : N := nth (8 * c + r) A 0.

(** Substitution with an S-box for every row. *)
Definition col_sub (C : nat) (S : nat -> N -> N) (A : list N) : list N :=
  colmat C (fun r c => S r (cell A r c)).
(** Row [r] is rotated to the left by [sigma r] positions. *)
Definition col_shift (C : nat) (sigma : nat -> nat) (A : list N) : list N :=
  colmat C (fun r c => cell A r ((c + sigma r) mod C)).
(** Multiplication from the left by the circulant matrix circ(v): row [r] of that matrix
    is [v] rotated to the right by [r]. *)
Definition col_mix (C : nat) (poly : N) (v : list N) (A : list N) : list N :=
  colmat C (fun r c => xor_sum (fun j => gf_mul poly (nth ((j + 8 - r) mod 8) v 0) (cell A j c)) 8).
(** Entrywise addition in characteristic two. *)
Definition col_xor (A B : list N) : list N := map2 N.lxor A B.
