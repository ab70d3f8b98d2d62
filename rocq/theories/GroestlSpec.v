(** * Groestl, from "Groestl - a SHA-3 candidate" (final round submission, March 2011). *)
From Verif Require Import Base SpecCommon GfSpec ColumnSpec HasherSpec.

(** Section 3.2: digests of at most 256 bits use 512-bit permutations (8 columns, 10
    rounds), longer ones use 1024-bit permutations (16 columns, 14 rounds). *)
Definition grs_C (n : N) : nat := if n <=? 256 then 8 else 16.
Definition grs_r (C : nat) : nat := if (C =? 8)%nat then 10 else 14.

(** Section 3.4.1: AddRoundConstant. *)
Definition grs_constP (C i : nat) : list N :=
  colmat C (fun r c => if (r =? 0)%nat then N.lxor (16 * N.of_nat c) (N.of_nat i) else 0).
Definition grs_constQ (C i : nat) : list N :=
  colmat C (fun r c =>
    if (r =? 7)%nat then N.lxor (N.lxor 0xff (16 * N.of_nat c)) (N.of_nat i) else 0xff).
(** Section 3.4.3: ShiftBytes and ShiftBytesWide. *)
Definition grs_sigmaP (C r : nat) : nat :=
  nth r (if (C =? 8)%nat then [0; 1; 2; 3; 4; 5; 6; 7] else [0; 1; 2; 3; 4; 5; 6; 11])%nat 0%nat.
Definition grs_sigmaQ (C r : nat) : nat :=
  nth r (if (C =? 8)%nat then [1; 3; 5; 7; 0; 2; 4; 6] else [1; 3; 5; 11; 0; 2; 4; 6])%nat 0%nat.
(** Sections 3.4.2 and 3.4.4: SubBytes is the AES S-box, MixBytes multiplies by
    circ(02,02,03,04,05,03,05,07) modulo x^8+x^4+x^3+x+1. *)
Definition grs_round (C : nat) (const : list N) (sigma : nat -> nat) (A : list N) : list N :=
  col_mix C 0x11b [2; 2; 3; 4; 5; 3; 5; 7]
    (col_shift C sigma (col_sub C (fun _ => aes_sbox) (col_xor A const))).
Definition grs_P (C : nat) (A : list N) : list N :=
  fold_left (fun A i => grs_round C (grs_constP C i) (grs_sigmaP C) A) (seq 0 (grs_r C)) A.
Definition grs_Q (C : nat) (A : list N) : list N :=
  fold_left (fun A i => grs_round C (grs_constQ C i) (grs_sigmaQ C) A) (seq 0 (grs_r C)) A.

(** Section 3.2: f(h,m) = P(h+m) + Q(m) + h; the output transformation keeps the last n
    bits of P(x) + x. *)
Definition grs_f (C : nat) (h m : list N) : list N :=
  col_xor (col_xor (grs_P C (col_xor h m)) (grs_Q C m)) h.
Definition grs_omega (C : nat) (n : N) (x : list N) : list N :=
  skipn (8 * C - N.to_nat (n / 8)) (col_xor (grs_P C x) x).

(** Section 3.5: the initial value is the l-bit representation of n. *)
Definition grs_iv (C : nat) (n : N) : list N := be_bytes (8 * C) n.

(** Section 3.6: bit 1, zeros, and the number of blocks of the padded message as a 64-bit
    number. The code counts bits modulo 2^64, so its number of blocks is taken modulo
    2^61 / bs; messages shorter than 2^61 - 2 bs bytes have a smaller number. *)
Definition grs_count (bs : nat) (msg : list N) : N :=
  N.of_nat ((length msg + 1 + md_zeros bs 8 (length msg) + 8) / bs).
Definition grs_pad (bs : nat) (msg : list N) : list N :=
  md_pad bs (be_bytes 8 (grs_count bs msg mod (2 ^ 61 / N.of_nat bs))) msg.

Definition grs_hash (n : N) (msg : list N) : list N :=
  let C := grs_C n in
  grs_omega C n (md_hash (grs_f C) (grs_iv C n) (8 * C) (grs_pad (8 * C) msg)).

Definition groestl_spec (n : N) : hash_spec Empty_set :=
  {| sp_params := unit; sp_default := tt; sp_set := no_params_set; sp_size := N.to_nat (n / 8);
     sp_digest := fun _ msg => grs_hash n msg |}.
