(** * Whirlpool, from ISO/IEC 10118-3 / the NESSIE submission (final version).

    The state is the 8x8 matrix of bytes written row by row: entry (i,j) is element
    8i+j of a list of 64 bytes. *)
From Verif Require Import Base SpecCommon GfSpec HasherSpec.

Definition mat (f : nat -> nat -> N) : list N :=
  map (fun n => f (n / 8)%nat (n mod 8)%nat) (seq 0 64).
Definition entry (A : list N) (i j : nat) : N := nth (8 * i + j) A 0.

(** The S-box is built from the 4-bit boxes E, E^-1 and R. *)
Definition wp_E : list N := [1; 11; 9; 12; 13; 6; 15; 3; 14; 8; 7; 4; 10; 2; 5; 0].
Definition wp_R : list N := [7; 12; 11; 13; 14; 4; 9; 15; 6; 3; 8; 10; 2; 5; 1; 0].
Definition wp_e (x : N) : N := nth (N.to_nat x) wp_E 0.
Definition wp_r (x : N) : N := nth (N.to_nat x) wp_R 0.
(** Inverse by search. *)
Definition wp_einv (y : N) : N :=
  fold_right (fun i acc => if nth i wp_E 0 =? y then N.of_nat i else acc) 0 (seq 0 16).
Definition wp_S (x : N) : N :=
  let a := wp_e (x / 16) in
  let b := wp_einv (x mod 16) in
  let r := wp_r (N.lxor a b) in
  16 * wp_e (N.lxor a r) + wp_einv (N.lxor b r).

(** Circulant matrix cir(1,1,4,1,8,5,2,9) over GF(2^8) modulo x^8+x^4+x^3+x^2+1. *)
Definition wp_C (j k : nat) : N := nth ((k + 8 - j) mod 8)%nat [1; 1; 4; 1; 8; 5; 2; 9] 0.

(** gamma: substitution; pi: column j is rotated downwards by j;
    theta: right multiplication by C; sigma: key addition. *)
Definition wp_gamma (A : list N) : list N := map wp_S A.
Definition wp_pi (A : list N) : list N := mat (fun i j => entry A ((i + 8 - j) mod 8)%nat j).
Definition wp_theta (A : list N) : list N :=
  mat (fun i k => xor_sum (fun j => gf_mul 0x11d (entry A i j) (wp_C j k)) 8).
Definition wp_sigma (K A : list N) : list N := map2 N.lxor A K.
Definition wp_rho (K A : list N) : list N := wp_sigma K (wp_theta (wp_pi (wp_gamma A))).

(** Round constant r = 1..10: the first row holds S[8(r-1)+j]. *)
Definition wp_c (r : nat) : list N :=
  mat (fun i j => if (i =? 0)%nat then wp_S (N.of_nat (8 * (r - 1) + j)) else 0).

(** W[K] = rho[K10] o ... o rho[K1] o sigma[K0], K_r = rho[c_r](K_(r-1)). *)
Definition wp_W (K A : list N) : list N :=
  snd (fold_left (fun ks r => let K' := wp_rho (wp_c r) (fst ks) in (K', wp_rho K' (snd ks)))
    (seq 1 10) (K, wp_sigma K A)).

(** Miyaguchi-Preneel. *)
Definition wp_compress (H m : list N) : list N :=
  map2 N.lxor (map2 N.lxor (wp_W H m) H) m.

(** Padding with a 256-bit length field (the length is taken modulo 2^64). *)
Definition wp_hash (msg : list N) : list N :=
  md_hash wp_compress (repeat 0 64) 64 (md_pad 64 (be_bytes 32 (bitlen msg mod 2 ^ 64)) msg).

Definition whirlpool_spec : hash_spec Empty_set :=
  {| sp_params := unit; sp_default := tt; sp_set := no_params_set; sp_size := 64;
     sp_digest := fun _ msg => wp_hash msg |}.
