(** * Streebog, from GOST R 34.11-2012 (RFC 6986).

    Vectors of 512 bits are lists of 64 bytes, least significant byte first; the
    standard writes them most significant byte first. *)
From Verif Require Import Base SpecCommon GfSpec HasherSpec.

(** Section 6.2: the substitution. *)
Definition sbs_pi : list N :=
  [0xfc; 0xee; 0xdd; 0x11; 0xcf; 0x6e; 0x31; 0x16; 0xfb; 0xc4; 0xfa; 0xda; 0x23; 0xc5; 0x04; 0x4d;
   0xe9; 0x77; 0xf0; 0xdb; 0x93; 0x2e; 0x99; 0xba; 0x17; 0x36; 0xf1; 0xbb; 0x14; 0xcd; 0x5f; 0xc1;
   0xf9; 0x18; 0x65; 0x5a; 0xe2; 0x5c; 0xef; 0x21; 0x81; 0x1c; 0x3c; 0x42; 0x8b; 0x01; 0x8e; 0x4f;
   0x05; 0x84; 0x02; 0xae; 0xe3; 0x6a; 0x8f; 0xa0; 0x06; 0x0b; 0xed; 0x98; 0x7f; 0xd4; 0xd3; 0x1f;
   0xeb; 0x34; 0x2c; 0x51; 0xea; 0xc8; 0x48; 0xab; 0xf2; 0x2a; 0x68; 0xa2; 0xfd; 0x3a; 0xce; 0xcc;
   0xb5; 0x70; 0x0e; 0x56; 0x08; 0x0c; 0x76; 0x12; 0xbf; 0x72; 0x13; 0x47; 0x9c; 0xb7; 0x5d; 0x87;
   0x15; 0xa1; 0x96; 0x29; 0x10; 0x7b; 0x9a; 0xc7; 0xf3; 0x91; 0x78; 0x6f; 0x9d; 0x9e; 0xb2; 0xb1;
   0x32; 0x75; 0x19; 0x3d; 0xff; 0x35; 0x8a; 0x7e; 0x6d; 0x54; 0xc6; 0x80; 0xc3; 0xbd; 0x0d; 0x57;
   0xdf; 0xf5; 0x24; 0xa9; 0x3e; 0xa8; 0x43; 0xc9; 0xd7; 0x79; 0xd6; 0xf6; 0x7c; 0x22; 0xb9; 0x03;
   0xe0; 0x0f; 0xec; 0xde; 0x7a; 0x94; 0xb0; 0xbc; 0xdc; 0xe8; 0x28; 0x50; 0x4e; 0x33; 0x0a; 0x4a;
   0xa7; 0x97; 0x60; 0x73; 0x1e; 0x00; 0x62; 0x44; 0x1a; 0xb8; 0x38; 0x82; 0x64; 0x9f; 0x26; 0x41;
   0xad; 0x45; 0x46; 0x92; 0x27; 0x5e; 0x55; 0x2f; 0x8c; 0xa3; 0xa5; 0x7d; 0x69; 0xd5; 0x95; 0x3b;
   0x07; 0x58; 0xb3; 0x40; 0x86; 0xac; 0x1d; 0xf7; 0x30; 0x37; 0x6b; 0xe4; 0x88; 0xd9; 0xe7; 0x89;
   0xe1; 0x1b; 0x83; 0x49; 0x4c; 0x3f; 0xf8; 0xfe; 0x8d; 0x53; 0xaa; 0x90; 0xca; 0xd8; 0x85; 0x61;
   0x20; 0x71; 0x67; 0xa4; 0x2d; 0x2b; 0x09; 0x5b; 0xcb; 0x9b; 0x25; 0xd0; 0xbe; 0xe5; 0x6c; 0x52;
   0x59; 0xa6; 0x74; 0xd2; 0xe6; 0xf4; 0xb4; 0xc0; 0xd1; 0x66; 0xaf; 0xc2; 0x39; 0x4b; 0x63; 0xb6].
(** Section 6.4: the rows of the matrix of the linear transformation l. *)
Definition sbs_A : list N :=
  [0x8e20faa72ba0b470; 0x47107ddd9b505a38; 0xad08b0e0c3282d1c; 0xd8045870ef14980e;
   0x6c022c38f90a4c07; 0x3601161cf205268d; 0x1b8e0b0e798c13c8; 0x83478b07b2468764;
   0xa011d380818e8f40; 0x5086e740ce47c920; 0x2843fd2067adea10; 0x14aff010bdd87508;
   0x0ad97808d06cb404; 0x05e23c0468365a02; 0x8c711e02341b2d01; 0x46b60f011a83988e;
   0x90dab52a387ae76f; 0x486dd4151c3dfdb9; 0x24b86a840e90f0d2; 0x125c354207487869;
   0x092e94218d243cba; 0x8a174a9ec8121e5d; 0x4585254f64090fa0; 0xaccc9ca9328a8950;
   0x9d4df05d5f661451; 0xc0a878a0a1330aa6; 0x60543c50de970553; 0x302a1e286fc58ca7;
   0x18150f14b9ec46dd; 0x0c84890ad27623e0; 0x0642ca05693b9f70; 0x0321658cba93c138;
   0x86275df09ce8aaa8; 0x439da0784e745554; 0xafc0503c273aa42a; 0xd960281e9d1d5215;
   0xe230140fc0802984; 0x71180a8960409a42; 0xb60c05ca30204d21; 0x5b068c651810a89e;
   0x456c34887a3805b9; 0xac361a443d1c8cd2; 0x561b0d22900e4669; 0x2b838811480723ba;
   0x9bcf4486248d9f5d; 0xc3e9224312c8c1a0; 0xeffa11af0964ee50; 0xf97d86d98a327728;
   0xe4fa2054a80b329c; 0x727d102a548b194e; 0x39b008152acb8227; 0x9258048415eb419d;
   0x492c024284fbaec0; 0xaa16012142f35760; 0x550b8e9e21f7a530; 0xa48b474f9ef5dc18;
   0x70a6a56e2440598e; 0x3853dc371220a247; 0x1ca76e95091051ad; 0x0edd37c48a08a6d8;
   0x07e095624504536c; 0x8d70c431ac02a736; 0xc83862965601dd1b; 0x641c314b2b8ee083].
(** Section 6.5: the iteration constants. *)
Definition sbs_C : list N :=
  [0xb1085bda1ecadae9ebcb2f81c0657c1f2f6a76432e45d016714eb88d7585c4fc4b7ce09192676901a2422a08a460d31505767436cc744d23dd806559f2a64507;
   0x6fa3b58aa99d2f1a4fe39d460f70b5d7f3feea720a232b9861d55e0f16b501319ab5176b12d699585cb561c2db0aa7ca55dda21bd7cbcd56e679047021b19bb7;
   0xf574dcac2bce2fc70a39fc286a3d843506f15e5f529c1f8bf2ea7514b1297b7bd3e20fe490359eb1c1c93a376062db09c2b6f443867adb31991e96f50aba0ab2;
   0xef1fdfb3e81566d2f948e1a05d71e4dd488e857e335c3c7d9d721cad685e353fa9d72c82ed03d675d8b71333935203be3453eaa193e837f1220cbebc84e3d12e;
   0x4bea6bacad4747999a3f410c6ca923637f151c1f1686104a359e35d7800fffbdbfcd1747253af5a3dfff00b723271a167a56a27ea9ea63f5601758fd7c6cfe57;
   0xae4faeae1d3ad3d96fa4c33b7a3039c02d66c4f95142a46c187f9ab49af08ec6cffaa6b71c9ab7b40af21f66c2bec6b6bf71c57236904f35fa68407a46647d6e;
   0xf4c70e16eeaac5ec51ac86febf240954399ec6c7e6bf87c9d3473e33197a93c90992abc52d822c3706476983284a05043517454ca23c4af38886564d3a14d493;
   0x9b1f5b424d93c9a703e7aa020c6e41414eb7f8719c36de1e89b4443b4ddbc49af4892bcb929b069069d18d2bd1a5c42f36acc2355951a8d9a47f0dd4bf02e71e;
   0x378f5a541631229b944c9ad8ec165fde3a7d3a1b258942243cd955b7e00d0984800a440bdbb2ceb17b2b8a9aa6079c540e38dc92cb1f2a607261445183235adb;
   0xabbedea680056f52382ae548b2e4f3f38941e71cff8a78db1fffe18a1b3361039fe76702af69334b7a1e6c303b7652f43698fad1153bb6c374b4c7fb98459ced;
   0x7bcd9ed0efc889fb3002c6cd635afe94d8fa6bbbebab076120018021148466798a1d71efea48b9caefbacd1d7d476e98dea2594ac06fd85d6bcaa4cd81f32d1b;
   0x378ee767f11631bad21380b00449b17acda43c32bcdf1d77f82012d430219f9b5d80ef9d1891cc86e71da4aa88e12852faf417d5d9b21b9948bc924af11bd720].

(** Section 7: X[k], S, P and L. *)
Definition sbs_X (k a : list N) : list N := map2 N.lxor k a.
Definition sbs_S (a : list N) : list N := map (fun x => nth (N.to_nat x) sbs_pi 0) a.
(** Section 6.3: the permutation tau transposes the 8x8 matrix of bytes. *)
Definition sbs_P (a : list N) : list N := map (fun i => nth (8 * (i mod 8) + i / 8) a 0) (seq 0 64).
(** Section 6.4: bit i of the 64-bit vector (i = 0 the least significant one) selects
    row 63-i. *)
Definition sbs_l (b : list N) : N :=
  xor_sum (fun i => if N.testbit (nth (i / 8) b 0) (N.of_nat (i mod 8)) then nth (63 - i) sbs_A 0 else 0) 64.
Definition sbs_L (a : list N) : list N :=
  flat_map (fun c => le_bytes 8 (sbs_l (firstn 8 (skipn (8 * c) a)))) (seq 0 8).
Definition sbs_LPS (a : list N) : list N := sbs_L (sbs_P (sbs_S a)).

(** Section 8: E(K, m) = X[K13] LPSX[K12] ... LPSX[K1](m) and the compression function. *)
Definition sbs_E (K m : list N) : list N :=
  let '(K, m) := fold_left (fun Km c =>
      let '(K, m) := Km in (sbs_LPS (sbs_X K (le_bytes 64 c)), sbs_LPS (sbs_X K m))) sbs_C (K, m) in
  sbs_X K m.
Definition sbs_g (Nn : N) (h m : list N) : list N :=
  sbs_X (sbs_X (sbs_E (sbs_LPS (sbs_X h (le_bytes 64 Nn))) m) h) m.

(** Section 5.1: initial value. *)
Definition sbs_iv (n : N) : list N := repeat (if n =? 512 then 0 else 1) 64.

(** Section 9: the hash, for given additions of the counter and of the checksum. *)
Definition sbs_full (msg : list N) : list (list N) := blocks_n (length msg / 64) 64 msg.
Definition sbs_rest (msg : list N) : list N := skipn (length msg / 64 * 64) msg.
Definition sbs_last (rest : list N) : list N := rest ++ [1] ++ zeros (63 - length rest).
Section Hash.
  Variables addN addS : N -> N -> N.
  Definition sbs_stage2 (st : list N * N * N) (m : list N) : list N * N * N :=
    let '(h, Nn, Sg) := st in (sbs_g Nn h m, addN Nn 512, addS Sg (le_word m)).
  Definition sbs_stage3 (st : list N * N * N) (rest : list N) : list N :=
    let '(h, Nn, Sg) := st in
    let m := sbs_last rest in
    let h := sbs_g Nn h m in
    let Nn := addN Nn (8 * N.of_nat (length rest)) in
    let Sg := addS Sg (le_word m) in
    sbs_g 0 (sbs_g 0 h (le_bytes 64 Nn)) (le_bytes 64 Sg).
  Definition sbs_hash_with (n : N) (msg : list N) : list N :=
    skipn (64 - N.to_nat (n / 8))
      (sbs_stage3 (fold_left sbs_stage2 (sbs_full msg) (sbs_iv n, 0, 0)) (sbs_rest msg)).
End Hash.
(** In the standard both are additions modulo 2^512. *)
Definition add512 (x y : N) : N := (x + y) mod 2 ^ 512.
Definition sbs_hash (n : N) (msg : list N) : list N := sbs_hash_with add512 add512 n msg.

Definition streebog_spec (n : N) : hash_spec Empty_set :=
  {| sp_params := unit; sp_default := tt; sp_set := no_params_set; sp_size := N.to_nat (n / 8);
     sp_digest := fun _ msg => sbs_hash n msg |}.

(** ** The checksum additions which the code gets right.

    In [carry_kept s m] no 64-bit word (other than the last) whose digits add up to
    2^64 - 1 receives a carry from the words below it. *)
Definition carry_kept (s m : N) : Prop :=
  forall i, i < 7 ->
    (s / 2 ^ (64 * i)) mod 2 ^ 64 + (m / 2 ^ (64 * i)) mod 2 ^ 64 = 2 ^ 64 - 1 ->
    s mod 2 ^ (64 * i) + m mod 2 ^ (64 * i) < 2 ^ (64 * i).
(** ... for all the additions made while hashing. *)
Fixpoint carries_kept (s : N) (ms : list (list N)) : Prop :=
  match ms with
  | [] => True
  | m :: r => carry_kept s (le_word m) /\ carries_kept (add512 s (le_word m)) r
  end.
Definition no_lost_carry (msg : list N) : Prop :=
  carries_kept 0 (sbs_full msg ++ [sbs_last (sbs_rest msg)]).
