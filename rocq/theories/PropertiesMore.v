(** * Theorems about Groestl, Kupyna, Streebog, JH, LSH, Skein and ECHO, and about the lookup tables. *)
From Verif Require Import Base Hasher HasherSpec HasherProof HasherWhen MdState SpecCommon GfSpec ColumnSpec
  ConstWhirlpool WhirlpoolSpec WhirlpoolProof
  TTable ConstGroestl Groestl GroestlSpec GroestlProof ConstJh Jh JhSpec JhProof ConstLsh Lsh LshSpec LshProof ConstKupyna Kupyna KupynaSpec KupynaProof
  ConstStreebog Streebog StreebogSpec StreebogProof StreebogRefuted
  Skein SkeinSpec SkeinSim VectorsSkein ConstEcho Echo EchoSpec EchoProof EchoSim VectorsEcho.

(** ECHO, every size, salt and history. The length field is the bit count modulo 2^64 (exact
    below 2^61 bytes). *)
Theorem C33_echo_conforms hs g : (0 < hs /\ hs <= 512) /\ hs mod 8 = 0 ->
  implements echo (echo_spec hs) true (fresh_of (ec_ctor hs g) ec_init) /\
  implements echo (echo_spec hs) true (fresh_of (ec_ctor_static hs g) ec_init).
Proof. exact (fun Hh => echo_implements hs Hh g). Qed.
Theorem C33_echo_length hs msg : N.of_nat (length msg) < 2 ^ 61 ->
  echo_pad hs msg = md_pad (echo_bs hs) (le_bytes 2 hs ++ le_bytes 16 (8 * N.of_nat (length msg))) msg.
Proof. exact (echo_pad_exact hs msg). Qed.
Example C33_example : ((0 < 384 /\ 384 <= 512) /\ 384 mod 8 = 0) /\
  sp_set (echo_spec 384) EcSalt (map N.of_nat (seq 0 16)) (zeros 16) = Some (map N.of_nat (seq 0 16)) /\
  sp_set (echo_spec 384) EcSalt [1; 2] (zeros 16) = None.
Proof. repeat split; discriminate. Qed.

(** Skein, [nw] = 4, 8, 16 state words, every parameter set, every digest size. The position
    field of the tweak is the number of bytes modulo 2^64. *)
Theorem C35_skein_conforms nw hs g hb sq : nw = 4%nat \/ nw = 8%nat \/ nw = 16%nat ->
  0 < hs < 2 ^ 64 /\ hs mod 8 = 0 -> length (sh g) = (2 + nw)%nat /\ length (sm g) = (8 * nw)%nat ->
  implements (skein nw) (skein_spec nw hs) true (fresh_of (sk_ctor hs g hb sq) (sk_init nw false)) /\
  implements (skein nw) (skein_spec nw hs) true (fresh_of (sk_ctor_static hs g hb sq) (sk_init nw false)).
Proof. exact (fun Hn Hh => skein_implements nw Hn hs g hb sq (proj1 Hh) (proj2 Hh)). Qed.
Theorem C35_skein_xof_conforms nw g hb sq : nw = 4%nat \/ nw = 8%nat \/ nw = 16%nat ->
  length (sh g) = (2 + nw)%nat /\ length (sm g) = (8 * nw)%nat ->
  ximplements (skein_xof nw) (skein_xof_spec nw) true
    (fresh_of (sk_ctor (64 * N.of_nat nw) g hb sq) (sk_init nw true)).
Proof. exact (skein_xof_conforms nw g hb sq). Qed.
Example C35_example : (8 = 4 \/ 8 = 8 \/ 8 = 16)%nat /\ (0 < 2056 < 2 ^ 64 /\ 2056 mod 8 = 0) /\
  length (sh (mkst (repeat 7 10) (repeat 165 64) 3 4)) = (2 + 8)%nat /\
  length (sm (mkst (repeat 7 10) (repeat 165 64) 3 4)) = (8 * 8)%nat.
Proof. vm_compute. repeat split; try discriminate; auto. Qed.

(** JH. The length field is the number of bits modulo 2^64. *)
Theorem C32_jh_conforms hs g : 0 < hs <= 512 /\ hs mod 8 = 0 -> length (sm g) = 64%nat ->
  implements jh (jh_spec hs) true (fresh_of (jh_ctor hs g) jh_init) /\
  implements jh (jh_spec hs) true (fresh_of (jh_ctor_static hs g) jh_init).
Proof. exact (fun H => jh_implements hs (proj2 (proj1 H)) (proj1 (proj1 H)) (proj2 H) g). Qed.

Example C32_example : (0 < 384 <= 512 /\ 384 mod 8 = 0) /\ length (sm (mkst [] (repeat 165 64) 3 4)) = 64%nat.
Proof. vm_compute. repeat split; discriminate || reflexivity. Qed.

(** The bit-sliced round constants are the bits of the constants generated by R_6 from the
    square root of two. *)
Theorem C50_jh_constants r i par : (r < 42)%nat -> (i < 128)%nat -> (par < 2)%nat ->
  jhs_cbit (jhs_consts r) (2 * sig (r mod 7) i + par) =
  N.testbit (nthN (r * 4 + (2 * par + i / 64)) jh_C) (pos i).
Proof. exact (jh_const_ok r i par). Qed.
Example C50_jh_example : (41 < 42 /\ 100 < 128 /\ 1 < 2)%nat.
Proof. lia. Qed.

(** LSH on a machine whose shifter masks the count. *)
Theorem C34_lsh_conforms_partial w hs g : w = 32 \/ w = 64 -> 0 < hs <= 8 * w /\ hs mod 8 = 0 ->
  length (sm g) = N.to_nat (4 * w) ->
  implements (lsh Masked w) (lsh_spec w hs) true (fresh_of (lsh_ctor w hs g) (lsh_init Masked w)) /\
  implements (lsh Masked w) (lsh_spec w hs) true (fresh_of (lsh_ctor_static hs g) (lsh_init Masked w)).
Proof. exact (lsh_conforms w hs g). Qed.

(** As C++, the constructor of every LSH object shifts by the width (lsh_provider.hpp:176). *)
Theorem C34_lsh_defined_refuted w hs g : w = 32 \/ w = 64 -> 0 < hs <= 8 * w /\ hs mod 8 = 0 ->
  fresh_of (lsh_ctor w hs g) (lsh_init Strict w) = UB BadShift /\
  fresh_of (lsh_ctor_static hs g) (lsh_init Strict w) = UB BadShift.
Proof. exact (lsh_strict_undefined w hs g). Qed.
Example C34_example : (32 = 32 \/ 32 = 64) /\ (0 < 224 <= 8 * 32 /\ 224 mod 8 = 0) /\
  length (sm (mkst [] (repeat 165 128) 3 4)) = N.to_nat (4 * 32).
Proof. vm_compute. repeat split; try discriminate; auto. Qed.

(** The step constants follow their recurrence, for every step. *)
Theorem C50_lsh_constants :
  lsh_SC256 = map (lss_SC 32) (seq 0 26) /\ lsh_SC512 = map (lss_SC 64) (seq 0 28).
Proof. exact lsh_constants. Qed.

(** Groestl. The specification takes the number of blocks modulo 2^61 / bs. *)
Theorem C30_groestl_conforms hs g : 0 < hs <= 512 /\ hs mod 8 = 0 -> length (sm g) = 128%nat ->
  implements groestl (groestl_spec hs) true (fresh_of (gr_ctor hs g) gr_init) /\
  implements groestl (groestl_spec hs) true (fresh_of (gr_ctor_static hs g) gr_init).
Proof. exact (fun H => groestl_implements hs H g). Qed.
(** Below 2^61 - 256 bytes the padding carries the number of blocks itself. *)
Theorem C30_groestl_padding hs msg : N.of_nat (length msg) + 256 <= 2 ^ 61 ->
  grs_pad (8 * grs_C hs) msg = md_pad (8 * grs_C hs) (be_bytes 8 (grs_count (8 * grs_C hs) msg)) msg.
Proof. exact (grs_pad_exact hs msg). Qed.
Example C30_example : (0 < 224 <= 512 /\ 224 mod 8 = 0) /\ length (sm (mkst [] (repeat 165 128) 3 4)) = 128%nat /\
  N.of_nat (length (repeat 7 200)) + 256 <= 2 ^ 61 /\ grs_count 64 (repeat 7 200) = 4.
Proof. repeat split; discriminate. Qed.

(** Kupyna. The bit length is taken modulo 2^64. *)
Theorem C31_kupyna_conforms hs g : hs = 256 \/ hs = 512 -> length (sm g) = 128%nat ->
  implements kupyna (kupyna_spec hs) true (fresh_of (ku_ctor hs g) ku_init) /\
  implements kupyna (kupyna_spec hs) true (fresh_of (ku_ctor_static hs g) ku_init).
Proof. exact (fun H => kupyna_implements hs H g). Qed.
Example C31_example : (512 = 256 \/ 512 = 512) /\ length (sm (mkst [] (repeat 165 128) 3 4)) = 128%nat.
Proof. split; [auto|reflexivity]. Qed.

(** Streebog. The checksum addition of the code drops a carry in some cases (a word whose
    digits add up to 2^64 - 1 and which receives a carry), so the full statement is false. *)
Theorem C28_streebog_refuted hs g : hs = 256 \/ hs = 512 -> length (sm g) = 64%nat ->
  ~ implements streebog (streebog_spec hs) true (fresh_of (sb_ctor hs g) sb_init).
Proof. exact (streebog_refuted hs g). Qed.
(** All other messages shorter than 2^61 bytes get the digest of the standard. Missing:
    the messages for which [no_lost_carry] fails. *)
Theorem C28_streebog_partial hs g : hs = 256 \/ hs = 512 -> length (sm g) = 64%nat ->
  implements_when streebog (streebog_spec hs) (fun _ msg => bitlen msg < 2 ^ 64 /\ no_lost_carry msg) true
    (fresh_of (sb_ctor hs g) sb_init) /\
  implements_when streebog (streebog_spec hs) (fun _ msg => bitlen msg < 2 ^ 64 /\ no_lost_carry msg) true
    (fresh_of (sb_ctor_static hs g) sb_init).
Proof. exact (fun H => streebog_implements hs H g). Qed.
(** The condition is exact: one addition is right if and only if no carry is lost in it. *)
Theorem C28_streebog_checksum s m : s < 2 ^ 512 -> m < 2 ^ 512 ->
  le_word (words_bytes 8 (sb_addm false (le_words 8 8 (le_bytes 64 m)) (le_words 8 8 (le_bytes 64 s))))
    = (s + m) mod 2 ^ 512 <-> carry_kept s m.
Proof. exact (sb_addm_number s m). Qed.
Example C28_example : (512 = 256 \/ 512 = 512) /\ length (sm (mkst [] (repeat 165 64) 3 4)) = 64%nat /\
  bitlen (repeat 200 100) < 2 ^ 64 /\ no_lost_carry (repeat 200 100) /\
  ~ carry_kept (2 ^ 512 - 1) 1.
Proof.
  split; [auto|]. split; [reflexivity|]. split; [reflexivity|]. split.
  - apply no_lost_carry_dec. vm_compute. reflexivity.
  - intros H. specialize (H 1 eq_refl eq_refl). vm_compute in H. discriminate H.
Qed.

(** ** Lookup tables: byte [k] of entry [x] of table [j]. *)
Theorem C49_whirlpool_tables j k x : (j < 8)%nat -> (k < 8)%nat -> x < 256 ->
  byte_at (tbl (nth j whirlpool_T []) x) (N.of_nat (8 * k)) = gf_mul 0x11d (wp_S x) (wp_C j k).
Proof. exact (wp_T_eq j k x). Qed.
Theorem C49_groestl_tables j k x : (j < 8)%nat -> (k < 8)%nat -> x < 256 ->
  byte_at (tbl (nth j groestl_T []) x) (N.of_nat (8 * k)) =
  gf_mul 0x11b (nth ((j + 8 - k) mod 8) [2; 2; 3; 4; 5; 3; 5; 7] 0) (aes_sbox x).
Proof. exact (gr_T_eq j k x). Qed.
Theorem C49_kupyna_tables j k x : (j < 8)%nat -> (k < 8)%nat -> x < 256 ->
  byte_at (tbl (nth j kupyna_T []) x) (N.of_nat (8 * k)) =
  gf_mul 0x11d (nth ((j + 8 - k) mod 8) [1; 1; 5; 1; 8; 6; 7; 4] 0) (kus_sbox j x).
Proof. exact (ku_T_eq j k x). Qed.
(** Entry [x] of table [j] of Streebog: the rows of A selected by the bits of pi(x). *)
Theorem C49_streebog_tables j x : (j < 8)%nat -> x < 256 ->
  tbl (nth j streebog_T []) x =
  xor_sum (fun k => if N.testbit (nth (N.to_nat x) sbs_pi 0) (N.of_nat k)
                    then nth (63 - (8 * j + k)) sbs_A 0 else 0) 8.
Proof. exact (sb_T_eq j x). Qed.
Theorem C49_echo_tables j k x : (j < 4)%nat -> (k < 4)%nat -> x < 256 ->
  byte_at (tbl (nth j echo_T []) x) (N.of_nat (8 * k)) = gf_mul 0x11b (aes_mds k j) (aes_sbox x).
Proof. exact (ec_T_eq j k x). Qed.
Example C49_example : aes_sbox 0x53 = 0xed /\ gf_mul 0x11b 0x57 0x83 = 0xc1 /\ kus_sbox 5 0 = 0xce.
Proof. repeat split; reflexivity. Qed.

Definition more_theorems :=
  (@C33_echo_conforms,
   @C33_echo_length,
   @C35_skein_conforms,
   @C35_skein_xof_conforms,
   @C32_jh_conforms,
   @C50_jh_constants,
   @C34_lsh_conforms_partial,
   @C34_lsh_defined_refuted,
   @C50_lsh_constants,
   @C30_groestl_conforms,
   @C30_groestl_padding,
   @C31_kupyna_conforms,
   @C28_streebog_refuted,
   @C28_streebog_partial,
   @C28_streebog_checksum,
   @C49_whirlpool_tables,
   @C49_groestl_tables,
   @C49_kupyna_tables,
   @C49_streebog_tables,
   @C49_echo_tables).
Print Assumptions more_theorems.
