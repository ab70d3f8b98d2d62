(** * SHA-2, from FIPS 180-4 sections 4-6. *)
From Verif Require Import Base SpecCommon HasherSpec.

(** ** Constants from primes *)

Definition is_prime (n : N) : bool :=
  (2 <=? n) && forallb (fun d => negb (n mod N.of_nat d =? 0)) (seq 2 (N.to_nat n - 2)).
(** The primes below 420; there are at least 80 of them. *)
Definition primes : list N :=
  Eval vm_compute in filter is_prime (map N.of_nat (seq 0 420)).
Lemma primes_def : primes = filter is_prime (map N.of_nat (seq 0 420)).
Proof. vm_compute. reflexivity. Qed.

(** Integer cube root by bisection on the bits. *)
Fixpoint cbrt_bits (bit : nat) (acc n : N) : N :=
  match bit with
  | O => acc
  | S b => let c := acc + 2 ^ N.of_nat b in
           cbrt_bits b (if c * c * c <=? n then c else acc) n
  end.
Definition cbrt (n : N) : N := cbrt_bits 80 0 n.

(** The first [w] bits of the fractional part of the square / cube root of [p]. *)
Definition frac_sqrt (w p : N) : N := N.sqrt (p * 2 ^ (2 * w)) mod 2 ^ w.
Definition frac_cbrt (w p : N) : N := cbrt (p * 2 ^ (3 * w)) mod 2 ^ w.

(** ** Parameters of the two word sizes *)

Record sha2_params := {
  p_w : N;              (* word size in bits *)
  p_k : nat;            (* bytes per word *)
  p_rounds : nat;
  p_K : list N;
  p_S0 : N * N * N;     (* rotations of the big sigmas *)
  p_S1 : N * N * N;
  p_s0 : N * N * N;     (* rotations and shift of the small sigmas *)
  p_s1 : N * N * N
}.

Definition params256 : sha2_params :=
  {| p_w := 32; p_k := 4; p_rounds := 64; p_K := map (frac_cbrt 32) (firstn 64 primes);
     p_S0 := (2, 13, 22); p_S1 := (6, 11, 25); p_s0 := (7, 18, 3); p_s1 := (17, 19, 10) |}.
Definition params512 : sha2_params :=
  {| p_w := 64; p_k := 8; p_rounds := 80; p_K := map (frac_cbrt 64) (firstn 80 primes);
     p_S0 := (28, 34, 39); p_S1 := (14, 18, 41); p_s0 := (1, 8, 7); p_s1 := (19, 61, 6) |}.

Section Sha2.
  Variable P : sha2_params.
  Let w := p_w P.
  Local Infix "[+]" := (plus_mod w) (at level 50, left associativity).

  Definition fips2_Ch (x y z : N) : N := N.lxor (N.land x y) (N.land (NOT w x) z).
  Definition fips2_Maj (x y z : N) : N :=
    N.lxor (N.lxor (N.land x y) (N.land x z)) (N.land y z).
  Definition Big (r : N * N * N) (x : N) : N :=
    let '(i, j, k) := r in N.lxor (N.lxor (ROTR w i x) (ROTR w j x)) (ROTR w k x).
  Definition Small (r : N * N * N) (x : N) : N :=
    let '(i, j, k) := r in N.lxor (N.lxor (ROTR w i x) (ROTR w j x)) (SHR k x).

  (** Message schedule: W_t for t = 16 .. *)
  Fixpoint fips_sched2 (n : nat) (W : list N) : list N :=
    match n with
    | O => W
    | S n' =>
      let t := length W in
      let Wt := Small (p_s1 P) (nth (t - 2)%nat W 0) [+] nth (t - 7)%nat W 0
                [+] Small (p_s0 P) (nth (t - 15)%nat W 0) [+] nth (t - 16)%nat W 0 in
      fips_sched2 n' (W ++ [Wt])
    end.

  Definition regs8 := (N * N * N * N * N * N * N * N)%type.

  Definition fips_round2 (W : list N) (r : regs8) (t : nat) : regs8 :=
    let '(a, b, c, d, e, f, g, h) := r in
    let T1 := h [+] Big (p_S1 P) e [+] fips2_Ch e f g [+] nth t (p_K P) 0 [+] nth t W 0 in
    let T2 := Big (p_S0 P) a [+] fips2_Maj a b c in
    (T1 [+] T2, a, b, c, d [+] T1, e, f, g).

  Definition fips_sha2_compress (r : regs8) (block : list N) : regs8 :=
    let W := fips_sched2 (p_rounds P - 16) (be_words (p_k P) 16 block) in
    let '(a, b, c, d, e, f, g, h) := r in
    let '(a', b', c', d', e', f', g', h') := fold_left (fips_round2 W) (seq 0 (p_rounds P)) r in
    (a [+] a', b [+] b', c [+] c', d [+] d', e [+] e', f [+] f', g [+] g', h [+] h').

  (** Padding (section 5.1): block of 16 words, length field of two words. The length
      is taken modulo 2^64: for messages below 2^64 bits this is the standard. *)
  Definition fips_sha2_regs (iv : regs8) (msg : list N) : regs8 :=
    let padded := md_pad (16 * p_k P) (be_bytes (2 * p_k P) (bitlen msg mod 2 ^ 64)) msg in
    md_hash fips_sha2_compress iv (16 * p_k P) padded.

  Definition regs_bytes (r : regs8) : list N :=
    let '(a, b, c, d, e, f, g, h) := r in flat_map (be_bytes (p_k P)) [a; b; c; d; e; f; g; h].

  (** Leftmost [n] bytes of the final hash value. *)
  Definition fips_sha2 (iv : regs8) (n : nat) (msg : list N) : list N :=
    firstn n (regs_bytes (fips_sha2_regs iv msg)).
End Sha2.

(** ** Initial values (section 5.3) *)

Definition regs_of (l : list N) : regs8 :=
  (nth 0 l 0, nth 1 l 0, nth 2 l 0, nth 3 l 0, nth 4 l 0, nth 5 l 0, nth 6 l 0, nth 7 l 0).

(** Square roots of the first eight primes. *)
Definition iv_256 : regs8 := regs_of (map (frac_sqrt 32) (firstn 8 primes)).
Definition iv_512 : regs8 := regs_of (map (frac_sqrt 64) (firstn 8 primes)).
(** Square roots of the ninth to sixteenth primes; SHA-224 takes the second 32 bits. *)
Definition iv_384 : regs8 := regs_of (map (frac_sqrt 64) (firstn 8 (skipn 8 primes))).
Definition iv_224 : regs8 :=
  regs_of (map (fun p => frac_sqrt 64 p mod 2 ^ 32) (firstn 8 (skipn 8 primes))).

(** Decimal digits of t without leading zeros (t < 1000). *)
Definition decimal (t : N) : list N :=
  (if 100 <=? t then [48 + t / 100] else []) ++
  (if 10 <=? t then [48 + t / 10 mod 10] else []) ++ [48 + t mod 10].

(** Section 5.3.6: the SHA-512/t IV generation function. "SHA-512/t" in ASCII. *)
Definition xor_regs (r : regs8) (v : N) : regs8 :=
  let '(a, b, c, d, e, f, g, h) := r in
  (N.lxor a v, N.lxor b v, N.lxor c v, N.lxor d v, N.lxor e v, N.lxor f v, N.lxor g v, N.lxor h v).
Definition iv_512t (t : N) : regs8 :=
  fips_sha2_regs params512 (xor_regs iv_512 0xa5a5a5a5a5a5a5a5)
    ([83; 72; 65; 45; 53; 49; 50; 47] ++ decimal t).

Definition sha224_spec : hash_spec Empty_set :=
  {| sp_params := unit; sp_default := tt; sp_set := no_params_set; sp_size := 28;
     sp_digest := fun _ msg => fips_sha2 params256 iv_224 28 msg |}.
Definition sha256_spec : hash_spec Empty_set :=
  {| sp_params := unit; sp_default := tt; sp_set := no_params_set; sp_size := 32;
     sp_digest := fun _ msg => fips_sha2 params256 iv_256 32 msg |}.
Definition sha384_spec : hash_spec Empty_set :=
  {| sp_params := unit; sp_default := tt; sp_set := no_params_set; sp_size := 48;
     sp_digest := fun _ msg => fips_sha2 params512 iv_384 48 msg |}.
Definition sha512_spec : hash_spec Empty_set :=
  {| sp_params := unit; sp_default := tt; sp_set := no_params_set; sp_size := 64;
     sp_digest := fun _ msg => fips_sha2 params512 iv_512 64 msg |}.
(** SHA-512/t for 8 | t, t < 512, t <> 384. *)
Definition sha512t_spec (t : N) : hash_spec Empty_set :=
  {| sp_params := unit; sp_default := tt; sp_set := no_params_set; sp_size := N.to_nat (t / 8);
     sp_digest := fun _ msg => fips_sha2 params512 (iv_512t t) (N.to_nat (t / 8)) msg |}.
