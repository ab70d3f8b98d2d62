(** * SHA-1, from FIPS 180-4 section 6.1. *)
From Verif Require Import Base SpecCommon HasherSpec.

Local Infix "[+]" := (plus_mod 32) (at level 50, left associativity).

(** Section 4.1.1. *)
Definition fips_Ch (x y z : N) : N := N.lxor (N.land x y) (N.land (NOT 32 x) z).
Definition fips_Parity (x y z : N) : N := N.lxor (N.lxor x y) z.
Definition fips_Maj (x y z : N) : N := N.lxor (N.lxor (N.land x y) (N.land x z)) (N.land y z).
Definition fips_f (t : nat) : N -> N -> N -> N :=
  if (t <? 20)%nat then fips_Ch else if (t <? 40)%nat then fips_Parity
  else if (t <? 60)%nat then fips_Maj else fips_Parity.

(** Section 4.2.1; the values are floor(2^30 * sqrt(2, 3, 5, 10)). *)
Definition fips_K1 (t : nat) : N :=
  N.sqrt (nth (t / 20)%nat [2; 3; 5; 10] 0 * 2 ^ 60).

(** Section 6.1.2: message schedule. *)
Fixpoint fips_sched1 (n : nat) (W : list N) : list N :=
  match n with
  | O => W
  | S n' =>
    let t := length W in
    let x := N.lxor (N.lxor (N.lxor (nth (t - 3)%nat W 0) (nth (t - 8)%nat W 0))
                            (nth (t - 14)%nat W 0)) (nth (t - 16)%nat W 0) in
    fips_sched1 n' (W ++ [ROTL 32 1 x])
  end.

Definition regs5 := (N * N * N * N * N)%type.

Definition fips_round1 (W : list N) (r : regs5) (t : nat) : regs5 :=
  let '(a, b, c, d, e) := r in
  (ROTL 32 5 a [+] fips_f t b c d [+] e [+] fips_K1 t [+] nth t W 0, a, ROTL 32 30 b, c, d).

Definition fips_sha1_compress (r : regs5) (block : list N) : regs5 :=
  let W := fips_sched1 64 (be_words 4 16 block) in
  let '(a, b, c, d, e) := r in
  let '(a', b', c', d', e') := fold_left (fips_round1 W) (seq 0 80) r in
  (a [+] a', b [+] b', c [+] c', d [+] d', e [+] e').

(** Section 5.3.1. *)
Definition fips_sha1_iv : regs5 := (0x67452301, 0xefcdab89, 0x98badcfe, 0x10325476, 0xc3d2e1f0).

(** Section 5.1.1: 64-bit big-endian bit length. The standard covers messages shorter
    than 2^64 bits; the length is taken modulo 2^64 beyond that. *)
Definition fips_sha1 (msg : list N) : list N :=
  let padded := md_pad 64 (be_bytes 8 (bitlen msg mod 2 ^ 64)) msg in
  let '(a, b, c, d, e) := md_hash fips_sha1_compress fips_sha1_iv 64 padded in
  flat_map (be_bytes 4) [a; b; c; d; e].

Definition sha1_spec : hash_spec Empty_set :=
  {| sp_params := unit; sp_default := tt; sp_set := no_params_set; sp_size := 20;
     sp_digest := fun _ msg => fips_sha1 msg |}.
