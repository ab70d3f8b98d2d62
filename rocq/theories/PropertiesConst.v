(** * Theorems about the constants: every table entry and initial value that has a published
    generating rule is the value produced by that rule.

    The real-number statements use [frac_word x w i v]: [v] is word number [i] (from zero) of
    the fractional part of [x] cut into words of [w] bits,
      exists q : Z, q <= x * 2^(w (i+1)) < q + 1  and  v = q mod 2^w;
    and [nth_prime i p]: [p] is prime and exactly [i] primes are smaller. *)
From Coq Require Import ZArith NArith List Reals.
From Verif Require Import Base MdState RealConst ConstReal ConstRoots ConstRules
  ConstMd5 ConstSha1 ConstSha2 ConstSha3 ConstBlake ConstBlake2 ConstEsch ConstAscon ConstWhirlpool
  Md5 Sha1 Sha2 Sha2Spec Sha2Proof Blake Ascon AsconSpec KeccakSpec WhirlpoolSpec SkeinSpec AesSpec SpecCommon.
Import ListNotations.

(** MD5: floor(2^32 |sin(i+1)|), radians. *)
Theorem C50_md5_constants i : (i < 64)%nat ->
  (IZR (Z.of_N (nth i md5_K 0%N)) <= 2 ^ 32 * Rabs (sin (INR (i + 1))) < IZR (Z.of_N (nth i md5_K 0%N)) + 1)%R.
Proof. exact (md5_K_is_sine i). Qed.
(** MD5 and SHA-1: the initial value is the counting sequence of nibbles. *)
Theorem C50_md5_iv s : exists s', md5_init s = Ok s' /\
  words_bytes 4 (sh s') = [0x01; 0x23; 0x45; 0x67; 0x89; 0xab; 0xcd; 0xef; 0xfe; 0xdc; 0xba; 0x98; 0x76; 0x54; 0x32; 0x10]%N.
Proof. exact (md5_iv_rule s). Qed.
Theorem C50_sha1_iv s : exists s', sha1_init s = Ok s' /\
  words_bytes 4 (sh s') = [0x01; 0x23; 0x45; 0x67; 0x89; 0xab; 0xcd; 0xef; 0xfe; 0xdc; 0xba; 0x98; 0x76; 0x54; 0x32; 0x10; 0xf0; 0xe1; 0xd2; 0xc3]%N.
Proof. exact (sha1_iv_rule s). Qed.
(** SHA-1: floor(2^30 sqrt n), n = 2, 3, 5, 10. *)
Theorem C50_sha1_constants i : (i < 4)%nat ->
  (IZR (Z.of_N (nth i sha1_K 0%N)) <= sqrt (IZR (nth i [2; 3; 5; 10]%Z 0%Z)) * 2 ^ 30 < IZR (Z.of_N (nth i sha1_K 0%N)) + 1)%R.
Proof. exact (sha1_K_roots i). Qed.
(** SHA-2: cube roots of the first 64 / 80 primes. *)
Theorem C50_sha256_constants i p : (i < 64)%nat -> nth_prime i p ->
  frac_word (Rpower (IZR p) (/ 3)) 32 0 (nth i sha256_K 0%N).
Proof. exact (sha256_K_roots i p). Qed.
Theorem C50_sha512_constants i p : (i < 80)%nat -> nth_prime i p ->
  frac_word (Rpower (IZR p) (/ 3)) 64 0 (nth i sha512_K 0%N).
Proof. exact (sha512_K_roots i p). Qed.
(** SHA-2: square roots of primes 1-8 and 9-16; SHA-224 takes the second 32 bits. *)
Theorem C50_sha256_iv s i p : s2_hs s = 256%N -> (i < 8)%nat -> nth_prime i p ->
  exists s', sha256_init s = Ok s' /\ frac_word (sqrt (IZR p)) 32 0 (nth i (sh (s2 s')) 0%N).
Proof. exact (sha256_iv_roots s i p). Qed.
Theorem C50_sha224_iv s i p : s2_hs s = 224%N -> (i < 8)%nat -> nth_prime (8 + i) p ->
  exists s', sha256_init s = Ok s' /\ frac_word (sqrt (IZR p)) 32 1 (nth i (sh (s2 s')) 0%N).
Proof. exact (sha224_iv_roots s i p). Qed.
Theorem C50_sha512_iv s i p : s2_hs s = 512%N -> (i < 8)%nat -> nth_prime i p ->
  exists s', sha512_init s = Ok s' /\ frac_word (sqrt (IZR p)) 64 0 (nth i (sh (s2 s')) 0%N).
Proof. exact (sha512_iv_roots s i p). Qed.
Theorem C50_sha384_iv s i p : s2_hs s = 384%N -> (i < 8)%nat -> nth_prime (8 + i) p ->
  exists s', sha512_init s = Ok s' /\ frac_word (sqrt (IZR p)) 64 0 (nth i (sh (s2 s')) 0%N).
Proof. exact (sha384_iv_roots s i p). Qed.
(** SHA-512/t: the IV generation function of FIPS 180-4, for every t, stored or computed. *)
Theorem C50_sha512t_iv hs s : s2_hs s = hs -> (0 < hs <= 512 /\ hs mod 8 = 0 /\ hs <> 384 /\ hs <> 512)%N -> length (sm (s2 s)) = 128%nat ->
  exists s', sha512_init s = Ok s' /\ sh (s2 s') = tuple8 (iv_512t hs).
Proof. exact (sha512t_iv_rule hs s). Qed.
(** The premises are met: 2, 19 and 53 are primes number 0, 7 and 15; 409 is number 79. *)
Example C50_primes : nth_prime 0 2 /\ nth_prime 7 19 /\ nth_prime 15 53 /\ nth_prime 79 409.
Proof.
  exact (conj (primes_nth 0 (proj1 (Nat.ltb_lt 0 81) eq_refl)) (conj (primes_nth 7 (proj1 (Nat.ltb_lt 7 81) eq_refl))
    (conj (primes_nth 15 (proj1 (Nat.ltb_lt 15 81) eq_refl)) (primes_nth 79 (proj1 (Nat.ltb_lt 79 81) eq_refl))))).
Qed.
Example C50_sizes : s2_hs (mk2 (mkst [] (repeat 165%N 128) 3 4) 264) = 264%N /\
  (0 < 264 <= 512 /\ 264 mod 8 = 0 /\ 264 <> 384 /\ 264 <> 512)%N /\ length (sm (s2 (mk2 (mkst [] (repeat 165%N 128) 3 4) 264))) = 128%nat.
Proof. vm_compute. repeat split; discriminate. Qed.

(** BLAKE: the digits of pi, and the SHA-2 initial values. *)
Theorem C50_blake_constants i : (i < 16)%nat ->
  frac_word PI 32 i (nth i blake_c 0%N) /\ frac_word PI 64 i (nth i blake_c512 0%N).
Proof. exact (fun H => conj (blake_c_is_pi i H) (blake_c512_is_pi i H)). Qed.
Theorem C50_blake_iv s i : (i < 8)%nat -> (length (sh (bls s)) = 12)%nat ->
  (blhs s = 512%N -> forall p, nth_prime i p ->
     exists s', bl_init s = Ok s' /\ frac_word (sqrt (IZR p)) 64 0 (nth i (sh (bls s')) 0%N)) /\
  (blhs s = 384%N -> forall p, nth_prime (8 + i) p ->
     exists s', bl_init s = Ok s' /\ frac_word (sqrt (IZR p)) 64 0 (nth i (sh (bls s')) 0%N)) /\
  (blhs s = 256%N -> forall p, nth_prime i p ->
     exists s', bl_init s = Ok s' /\ frac_word (sqrt (IZR p)) 32 0 (nth i (sh (bls s')) 0%N)) /\
  (blhs s = 224%N -> forall p, nth_prime (8 + i) p ->
     exists s', bl_init s = Ok s' /\ frac_word (sqrt (IZR p)) 32 1 (nth i (sh (bls s')) 0%N)).
Proof. exact (blake_iv_roots s i). Qed.
Theorem C50_blake2_iv i p : (i < 8)%nat -> nth_prime i p ->
  frac_word (sqrt (IZR p)) 64 0 (nth i blake2b_IV 0%N) /\ frac_word (sqrt (IZR p)) 32 0 (nth i blake2s_IV 0%N).
Proof. exact (blake2_iv_roots i p). Qed.

(** SPARKLE: words 0, 2, 5, 8, 13, 14, 25, 28 of the fractional part of e. *)
Theorem C50_esch_constants i : (i < 8)%nat ->
  frac_word (exp 1) 32 (nth i [0; 2; 5; 8; 13; 14; 25; 28] 0)%nat (nth i esch_C 0%N).
Proof. exact (esch_c_is_e i). Qed.
(** The predicate is not vacuous: it determines the word. *)
Theorem C50_frac_word_unique x w i v v' : frac_word x w i v -> frac_word x w i v' -> v = v'.
Proof. exact (frac_word_unique x w i v v'). Qed.

Open Scope N_scope.
(** Threefish: C240 is the low half of AES-256 of the number 240 under the zero key. *)
Theorem C50_skein_constant : tf_C240 = be_word (skipn 8 (aes256 (repeat 0 32) (be_bytes 16 240))).
Proof. exact skein_C240_rule. Qed.
(** Keccak: LFSR. *)
Theorem C50_keccak_constants i : (i < 24)%nat -> nth i sha3_RC 0 = RC i.
Proof. exact (keccak_RC_rule i). Qed.
(** Ascon: counting nibbles, and permuted initial states. *)
Theorem C50_ascon_constants i : (i < 12)%nat -> nth i ascon_RC 0 = 16 * (15 - N.of_nat i) + N.of_nat i.
Proof. exact (ascon_RC_rule i). Qed.
Theorem C50_ascon_iv ty : ascon_iv ty = ascon_p 12 [ascon_iv_word ty; 0; 0; 0; 0].
Proof. exact (ascon_iv_rule ty). Qed.
(** Whirlpool: consecutive S-box entries. *)
Theorem C50_whirlpool_constants r : (r < 10)%nat ->
  words_bytes 8 [nth r whirlpool_RC 0] = map (fun j => wp_S (N.of_nat (8 * r + j))) (seq 0 8).
Proof. exact (whirlpool_RC_rule r). Qed.

Definition const_theorems := (C50_md5_constants, C50_md5_iv, C50_sha1_iv, C50_sha1_constants, C50_sha256_constants,
  C50_sha512_constants, C50_sha256_iv, C50_sha224_iv, C50_sha512_iv, C50_sha384_iv, C50_sha512t_iv,
  C50_blake_constants, C50_blake_iv, C50_blake2_iv, C50_esch_constants, C50_frac_word_unique, C50_skein_constant,
  C50_keccak_constants, C50_ascon_constants, C50_ascon_iv, C50_whirlpool_constants).
Print Assumptions const_theorems.
