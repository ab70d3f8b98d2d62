(** * Model of the Keccak functions in algorithm/detail/sha3_provider.hpp:20-118. *)
From Verif Require Import Base Absorb ConstSha3.

(** sha3_provider.hpp:27-100: one round on the 25 lanes. *)
Definition kc_round (A : list N) (round : nat) : list N :=
  let a i := nthN i A in
  let C0 := N.lxor (N.lxor (N.lxor (N.lxor (a 0%nat) (a 5%nat)) (a 10%nat)) (a 15%nat)) (a 20%nat) in
  let C1 := N.lxor (N.lxor (N.lxor (N.lxor (a 1%nat) (a 6%nat)) (a 11%nat)) (a 16%nat)) (a 21%nat) in
  let C2 := N.lxor (N.lxor (N.lxor (N.lxor (a 2%nat) (a 7%nat)) (a 12%nat)) (a 17%nat)) (a 22%nat) in
  let C3 := N.lxor (N.lxor (N.lxor (N.lxor (a 3%nat) (a 8%nat)) (a 13%nat)) (a 18%nat)) (a 23%nat) in
  let C4 := N.lxor (N.lxor (N.lxor (N.lxor (a 4%nat) (a 9%nat)) (a 14%nat)) (a 19%nat)) (a 24%nat) in
  let D0 := N.lxor C4 (rotl 64 C1 1) in
  let D1 := N.lxor C0 (rotl 64 C2 1) in
  let D2 := N.lxor C1 (rotl 64 C3 1) in
  let D3 := N.lxor C2 (rotl 64 C4 1) in
  let D4 := N.lxor C3 (rotl 64 C0 1) in
  let B00 := N.lxor (a 0%nat) D0 in
  let B10 := rotl 64 (N.lxor (a 1%nat) D1) 1 in
  let B20 := rotl 64 (N.lxor (a 2%nat) D2) 62 in
  let B5 := rotl 64 (N.lxor (a 3%nat) D3) 28 in
  let B15 := rotl 64 (N.lxor (a 4%nat) D4) 27 in
  let B16 := rotl 64 (N.lxor (a 5%nat) D0) 36 in
  let B1 := rotl 64 (N.lxor (a 6%nat) D1) 44 in
  let B11 := rotl 64 (N.lxor (a 7%nat) D2) 6 in
  let B21 := rotl 64 (N.lxor (a 8%nat) D3) 55 in
  let B6 := rotl 64 (N.lxor (a 9%nat) D4) 20 in
  let B7 := rotl 64 (N.lxor (a 10%nat) D0) 3 in
  let B17 := rotl 64 (N.lxor (a 11%nat) D1) 10 in
  let B2 := rotl 64 (N.lxor (a 12%nat) D2) 43 in
  let B12 := rotl 64 (N.lxor (a 13%nat) D3) 25 in
  let B22 := rotl 64 (N.lxor (a 14%nat) D4) 39 in
  let B23 := rotl 64 (N.lxor (a 15%nat) D0) 41 in
  let B8 := rotl 64 (N.lxor (a 16%nat) D1) 45 in
  let B18 := rotl 64 (N.lxor (a 17%nat) D2) 15 in
  let B3 := rotl 64 (N.lxor (a 18%nat) D3) 21 in
  let B13 := rotl 64 (N.lxor (a 19%nat) D4) 8 in
  let B14 := rotl 64 (N.lxor (a 20%nat) D0) 18 in
  let B24 := rotl 64 (N.lxor (a 21%nat) D1) 2 in
  let B9 := rotl 64 (N.lxor (a 22%nat) D2) 61 in
  let B19 := rotl 64 (N.lxor (a 23%nat) D3) 56 in
  let B4 := rotl 64 (N.lxor (a 24%nat) D4) 14 in
  let chi x y z := N.lxor x (N.land (notw 64 y) z) in
  [N.lxor (chi B00 B1 B2) (nthN round sha3_RC);
   chi B1 B2 B3; chi B2 B3 B4; chi B3 B4 B00; chi B4 B00 B1;
   chi B5 B6 B7; chi B6 B7 B8; chi B7 B8 B9; chi B8 B9 B5; chi B9 B5 B6;
   chi B10 B11 B12; chi B11 B12 B13; chi B12 B13 B14; chi B13 B14 B10; chi B14 B10 B11;
   chi B15 B16 B17; chi B16 B17 B18; chi B17 B18 B19; chi B18 B19 B15; chi B19 B15 B16;
   chi B20 B21 B22; chi B21 B22 B23; chi B22 B23 B24; chi B23 B24 B20; chi B24 B20 B21].

(** sha3_provider.hpp:22-102: transform<R>(A), rounds 24-R .. 23. *)
Definition kc_perm (R : nat) (A : list N) : list N := fold_left kc_round (seq (24 - R) R) A.

(** sha3_provider.hpp:104-116: loop body of transform<R>(data, num_blks, A, rate), with
    r64 = rate / 64; A has 25 elements. *)
Definition kc_block (R r64 : nat) (A : list N) (_ : N) (data : list N) : res (list N) :=
  if (r64 <=? 25)%nat then
    Ok (kc_perm R (map2 N.lxor (firstn r64 A) (le_words 8 r64 data) ++ skipn r64 A))
  else UB OutOfBounds.
