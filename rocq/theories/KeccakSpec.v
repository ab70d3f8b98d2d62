(** * FIPS 202: the Keccak permutation, sponge, padding, SHA-3 and SHAKE.

    Written from FIPS 202 at lane level (section 3.1.1: lane (x, y) is 64 bits), bit
    strings for the padding. Independent of the model. *)
From Verif Require Import Base SpecCommon.

(** ** Step mappings (section 3.2) *)

Definition lane (A : list N) (x y : nat) : N := nth (5 * y + x) A 0.
Definition of_lanes (f : nat -> nat -> N) : list N :=
  map (fun i => f (i mod 5) (i / 5))%nat (seq 0 25).

(** 3.2.1 *)
Definition theta (A : list N) : list N :=
  let C x := N.lxor (N.lxor (N.lxor (N.lxor (lane A x 0) (lane A x 1)) (lane A x 2)) (lane A x 3))
               (lane A x 4) in
  let D x := N.lxor (C ((x + 4) mod 5)%nat) (ROTL 64 1 (C ((x + 1) mod 5)%nat)) in
  of_lanes (fun x y => N.lxor (lane A x y) (D x)).

(** 3.2.2: the walk (x, y) := (y, 2x + 3y) with offsets (t+1)(t+2)/2. *)
Fixpoint rho_walk (k t x y : nat) : list (nat * nat * nat) :=
  match k with
  | O => []
  | S k' => (x, y, ((t + 1) * (t + 2) / 2) mod 64)%nat :: rho_walk k' (t + 1) y ((2 * x + 3 * y) mod 5)
  end.
Fixpoint rho_find (l : list (nat * nat * nat)) (x y : nat) : option nat :=
  match l with
  | [] => None
  | (x', y', o) :: r => if ((x =? x') && (y =? y'))%nat then Some o else rho_find r x y
  end.
Definition rho (A : list N) : list N :=
  of_lanes (fun x y => match rho_find (rho_walk 24 0 1 0) x y with
                       | Some o => ROTL 64 (N.of_nat o) (lane A x y)
                       | None => lane A x y
                       end).

(** 3.2.3 *)
Definition pi (A : list N) : list N := of_lanes (fun x y => lane A ((x + 3 * y) mod 5)%nat x).

(** 3.2.4 *)
Definition chi (A : list N) : list N :=
  of_lanes (fun x y => N.lxor (lane A x y)
    (N.land (NOT 64 (lane A ((x + 1) mod 5)%nat y)) (lane A ((x + 2) mod 5)%nat y))).

(** 3.2.5: algorithm 5, the round constant bits. [R] is the 8-bit register. *)
Definition rc_step (R : list bool) : list bool :=
  match R with
  | [r0; r1; r2; r3; r4; r5; r6; r7] =>
    (* R = 0 || R, so the bit shifted out is r7 *)
    [r7; r0; r1; r2; xorb r3 r7; xorb r4 r7; xorb r5 r7; r6]
  | _ => R
  end.
Definition rc (t : nat) : bool :=
  nth 0 (Nat.iter (t mod 255) rc_step [true; false; false; false; false; false; false; false]) false.
Definition RC (ir : nat) : N :=
  fold_left N.lor (map (fun j => if rc (j + 7 * ir) then 2 ^ (2 ^ N.of_nat j - 1) else 0) (seq 0 7)) 0.
Definition iota (A : list N) (ir : nat) : list N :=
  of_lanes (fun x y => if ((x =? 0) && (y =? 0))%nat then N.lxor (lane A 0 0) (RC ir) else lane A x y).

(** 3.3: KECCAK-p[1600, nr] *)
Definition Rnd (A : list N) (ir : nat) : list N := iota (chi (pi (rho (theta A)))) ir.
Definition keccak_p (nr : nat) (A : list N) : list N := fold_left Rnd (seq (24 - nr) nr) A.

(** ** Sponge (section 4), rate of [r] bytes *)

(** Section 3.1.2: the state as lanes from a byte string. *)
Definition absorb_block (nr r : nat) (S : list N) (blk : list N) : list N :=
  keccak_p nr (map2 N.lxor S (le_words 8 25 (blk ++ zeros (200 - r)))).

(** Algorithm 8 on an already padded string; the first [n] bytes of output. *)
Definition sponge (nr r : nat) (P : list N) (n : nat) : list N :=
  squeeze_stream (keccak_p nr) (words_bytes 8) r n (fold_left (absorb_block nr r) (blocks r P) (zeros 25)).

(** ** Bits (appendix B.1: bit i of a byte has weight 2^i) *)
Definition bits_of_byte (b : N) : list bool := map (fun i => N.testbit b (N.of_nat i)) (seq 0 8).
Definition bits_of_bytes (l : list N) : list bool := flat_map bits_of_byte l.
Fixpoint value_of_bits (l : list bool) : N :=
  match l with [] => 0 | b :: r => (if b then 1 else 0) + 2 * value_of_bits r end.
Fixpoint bytes_of_bits_n (n : nat) (l : list bool) : list N :=
  match n with
  | O => []
  | S n' => value_of_bits (firstn 8 l) :: bytes_of_bits_n n' (skipn 8 l)
  end.
Definition bytes_of_bits (l : list bool) : list N := bytes_of_bits_n (length l / 8) l.

(** Section 5.1: pad10*1(x, m), j = (-m - 2) mod x. *)
Definition pad101 (x m : nat) : list bool :=
  true :: repeat false ((x - (m + 2) mod x) mod x) ++ [true].

(** Section 5.2: KECCAK[c](M || suffix bits, d); the capacity is 1600 - 8 r bits. *)
Definition keccak_c (r : nat) (suffix : list bool) (msg : list N) (n : nat) : list N :=
  let M := bits_of_bytes msg ++ suffix in
  sponge 24 r (bytes_of_bits (M ++ pad101 (8 * r) (length M))) n.

(** Section 6.1: SHA3-d(M) = KECCAK[2d](M || 01, d), [d] in bytes. *)
Definition sha3_hash (d : nat) (msg : list N) : list N := keccak_c (200 - 2 * d) [false; true] msg d.

(** Section 6.2: SHAKE-s(M, n) = KECCAK[2s](M || 1111, n), [s] in bytes. *)
Definition shake_xof (s : nat) (msg : list N) (n : nat) : list N :=
  keccak_c (200 - 2 * s) [true; true; true; true] msg n.
