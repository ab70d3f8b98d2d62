(** * C60: which addresses and branches depend on the data. *)
From Verif Require Import Base Oblivious ObliviousSpec ObliviousThm.
From Verif Require Import Md5 Sha1 Sha2 Sm3 Keccak Ascon Esch Blake Blake2 Jh Skein Lsh.
From Verif Require Import TTable Whirlpool Groestl Kupyna Streebog Echo.

(** C60: each block function is one straight-line program, the same for all chaining values
    and messages; the program reads no table at an index that depends on the data. The
    program is the function itself on symbolic words, which allow no other operation than
    to build expressions. *)
(** C60, MD5. *)
Theorem C60_md5 :
  (forall t, straight_line (fun H data => Ok (md5_block H t data)) (le_words 4 16)
  (fun nH nM => Ok (gmd5_block salg (vars 0 nH) (vars nH nM)))) /\
  (no_lookups (fun nH nM => Ok (gmd5_block salg (vars 0 nH) (vars nH nM)))).
Proof. exact (conj md5_sl md5_nl). Qed.

(** C60, SHA-1. *)
Theorem C60_sha1 :
  (forall t, straight_line (fun H data => Ok (sha1_block H t data)) (le_words 4 16)
  (fun nH nM => Ok (gsha1_block salg (vars 0 nH) (vars nH nM)))) /\
  (no_lookups (fun nH nM => Ok (gsha1_block salg (vars 0 nH) (vars nH nM)))).
Proof. exact (conj sha1_sl sha1_nl). Qed.

(** C60, SHA-2 (both word sizes). *)
Theorem C60_sha2 :
  (forall T t, straight_line (fun H data => Ok (sha2_block T H t data)) (le_words (wbytes T) 16)
  (fun nH nM => Ok (gsha2_block salg T (vars 0 nH) (vars nH nM)))) /\
  (forall T, no_lookups (fun nH nM => Ok (gsha2_block salg T (vars 0 nH) (vars nH nM)))).
Proof. exact (conj sha2_sl sha2_nl). Qed.

(** C60, SM3, for both meanings of out-of-range shifts. *)
Theorem C60_sm3 :
  (forall sem t, straight_line (fun H data => sm3_block sem H t data) (le_words 4 16)
  (fun nH nM => gsm3_block salg sem (vars 0 nH) (vars nH nM))) /\
  (forall sem, no_lookups (fun nH nM => gsm3_block salg sem (vars 0 nH) (vars nH nM))).
Proof. exact (conj sm3_sl sm3_nl). Qed.

(** C60, SHA-3, SHAKE, cSHAKE, KMAC and KangarooTwelve. *)
Theorem C60_keccak :
  (forall R r64 t, straight_line (fun H data => kc_block R r64 H t data) (le_words 8 r64)
  (fun nH nM => gkc_block salg R r64 (vars 0 nH) (vars nH nM))) /\
  (forall R r64, no_lookups (fun nH nM => gkc_block salg R r64 (vars 0 nH) (vars nH nM))).
Proof. exact (conj keccak_sl keccak_nl). Qed.

(** C60, Ascon. *)
Theorem C60_ascon :
  (forall t, straight_line (fun H data => Ok (ascon_block H t data)) (fun d => [le_word d])
  (fun nH nM => Ok (gascon_block salg (vars 0 nH) (vars nH nM)))) /\
  (no_lookups (fun nH nM => Ok (gascon_block salg (vars 0 nH) (vars nH nM)))).
Proof. exact (conj ascon_sl ascon_nl). Qed.

(** C60, Esch. *)
Theorem C60_esch :
  (forall hs last t, straight_line (fun H data => Ok (esch_block hs last H t data)) (le_words 4 4)
  (fun nH nM => Ok (gesch_block salg hs last (vars 0 nH) (vars nH nM)))) /\
  (forall hs last, no_lookups (fun nH nM => Ok (gesch_block salg hs last (vars 0 nH) (vars nH nM)))).
Proof. exact (conj esch_sl esch_nl). Qed.

(** C60, BLAKE. *)
Theorem C60_blake :
  (forall w padding tb, straight_line (fun H data => Ok (bl_block w padding tb H data)) (le_words (bl_wb w) 16)
  (fun nH nM => Ok (gbl_block salg w padding tb (vars 0 nH) (vars nH nM)))) /\
  (forall w padding tb, no_lookups (fun nH nM => Ok (gbl_block salg w padding tb (vars 0 nH) (vars nH nM)))).
Proof. exact (conj blake_sl blake_nl). Qed.

(** C60, BLAKE2. *)
Theorem C60_blake2 :
  (forall w tb last lastn, straight_line (fun H data => Ok (b2_block w tb last lastn H data)) (le_words (b2_wb w) 16)
  (fun nH nM => Ok (gb2_block salg w tb last lastn (vars 0 nH) (vars nH nM)))) /\
  (forall w tb last lastn, no_lookups (fun nH nM => Ok (gb2_block salg w tb last lastn (vars 0 nH) (vars nH nM)))).
Proof. exact (conj blake2_sl blake2_nl). Qed.

(** C60, JH. *)
Theorem C60_jh :
  (forall t, straight_line (fun H data => Ok (jh_step H t data)) (le_words 8 8)
  (fun nH nM => Ok (gjh_step salg (vars 0 nH) (vars nH nM)))) /\
  (no_lookups (fun nH nM => Ok (gjh_step salg (vars 0 nH) (vars nH nM)))).
Proof. exact (conj jh_sl jh_nl). Qed.

(** C60, Skein. *)
Theorem C60_skein :
  (forall nw reallen, straight_line (fun H data => Ok (sk_block nw reallen H data)) (le_words 8 nw)
  (fun nH nM => Ok (gsk_block salg nw reallen (vars 0 nH) (vars nH nM)))) /\
  (forall nw reallen, no_lookups (fun nH nM => Ok (gsk_block salg nw reallen (vars 0 nH) (vars nH nM)))).
Proof. exact (conj skein_sl skein_nl). Qed.

(** C60, LSH, for both meanings of out-of-range shifts. *)
Theorem C60_lsh :
  (forall sem w t, straight_line (fun H data => lsh_block sem w H t data) (le_words (lsh_wb w) 32)
  (fun nH nM => glsh_block salg sem w (vars 0 nH) (vars nH nM))) /\
  (forall sem w, no_lookups (fun nH nM => glsh_block salg sem w (vars 0 nH) (vars nH nM))).
Proof. exact (conj lsh_sl lsh_nl). Qed.

(** C60, Whirlpool: the same, but with lookups. *)
Theorem C60_whirlpool : forall t, straight_line (fun H data => Ok (wp_block H t data)) (le_words 8 8)
  (fun nH nM => Ok (gwp_block salg ELook (vars 0 nH) (vars nH nM))).
Proof. exact whirlpool_sl. Qed.

(** C60, Grøstl: the same, but with lookups. *)
Theorem C60_groestl : forall hs t, straight_line (fun H data => Ok (gr_step hs H t data)) (le_words 8 (cl_R hs))
  (fun nH nM => Ok (ggr_step salg ELook hs (vars 0 nH) (vars nH nM))).
Proof. exact groestl_sl. Qed.

(** C60, Kupyna: the same, but with lookups. *)
Theorem C60_kupyna : forall hs t, straight_line (fun H data => Ok (ku_step hs H t data)) (le_words 8 (cl_R hs))
  (fun nH nM => Ok (gku_step salg ELook hs (vars 0 nH) (vars nH nM))).
Proof. exact kupyna_sl. Qed.

(** C60, Streebog, the compression function gN: the same, but with lookups. *)
Theorem C60_streebog : forall t, straight_line (fun H data => Ok (sb_gN H (le_words 8 8 data) t)) (le_words 8 8)
  (fun nH nM => Ok (gsb_gN salg ELook t (vars 0 nH) (vars nH nM))).
Proof. exact streebog_sl. Qed.

(** C60, ECHO: the same, but with lookups; [H] is the salt followed by the chaining value. *)
Theorem C60_echo : forall hs counter, straight_line
  (fun H data => Ok (ec_block hs (firstn 2 H) counter (skipn 2 H) data)) (le_words 8 (ec_bs hs / 8))
  (fun nH nM => Ok (gec_block salg ELook hs counter (vars 0 nH) (vars nH nM))).
Proof. exact echo_sl. Qed.

(** C60, Whirlpool: the indices of the eight lookups of a column are bytes of the state. *)
Theorem C60_whirlpool_column : forall ll, length ll = 8%nat ->
  wp_G 8 ll = eval ll (gwp_G salg ELook 8 (vars 0 8)) /\
  indices ll (gwp_G salg ELook 8 (vars 0 8))
  = map (fun j => byte_at (nth ((8 - j) mod 8) ll 0) (N.of_nat (8 * j))) (seq 0 8).
Proof. exact wp_G_indices. Qed.

(** C60, Whirlpool: two chaining values with different indices. *)
Theorem C60_whirlpool_indices : exists H H' M, length H = 8%nat /\ length H' = 8%nat /\ length M = 8%nat /\
  run_indices (H ++ M) (Ok (gwp_block salg ELook (vars 0 8) (vars 8 8)))
  <> run_indices (H' ++ M) (Ok (gwp_block salg ELook (vars 0 8) (vars 8 8))).
Proof. exact wp_indices. Qed.

(** C60, Grøstl: two message blocks with different indices. *)
Theorem C60_groestl_indices : exists H M M', length H = 16%nat /\ length M = 8%nat /\ length M' = 8%nat /\
  run_indices (H ++ M) (Ok (ggr_step salg ELook 256 (vars 0 16) (vars 16 8)))
  <> run_indices (H ++ M') (Ok (ggr_step salg ELook 256 (vars 0 16) (vars 16 8))).
Proof. exact gr_indices. Qed.

(** C60, Kupyna: two message blocks with different indices. *)
Theorem C60_kupyna_indices : exists H M M', length H = 16%nat /\ length M = 8%nat /\ length M' = 8%nat /\
  run_indices (H ++ M) (Ok (gku_step salg ELook 256 (vars 0 16) (vars 16 8)))
  <> run_indices (H ++ M') (Ok (gku_step salg ELook 256 (vars 0 16) (vars 16 8))).
Proof. exact ku_indices. Qed.

(** C60, Streebog: two chaining values with different indices, and two message blocks with
    different branches in the addition addm. *)
Theorem C60_streebog_indices : (exists H H' M, length H = 8%nat /\ length H' = 8%nat /\ length M = 8%nat /\
  run_indices (H ++ M) (Ok (gsb_gN salg ELook 0 (vars 0 8) (vars 8 8)))
  <> run_indices (H' ++ M) (Ok (gsb_gN salg ELook 0 (vars 0 8) (vars 8 8)))) /\
  (exists m m' h, length m = 8%nat /\ length m' = 8%nat /\ length h = 8%nat /\
    sb_addm_branches m h <> sb_addm_branches m' h).
Proof. exact (conj sb_indices sb_branches). Qed.

(** C60, ECHO: two message blocks with different indices. *)
Theorem C60_echo_indices : exists H M M', length H = 10%nat /\ length M = 24%nat /\ length M' = 24%nat /\
  run_indices (H ++ M) (Ok (gec_block salg ELook 256 0 (vars 0 10) (vars 10 24)))
  <> run_indices (H ++ M') (Ok (gec_block salg ELook 256 0 (vars 0 10) (vars 10 24))).
Proof. exact ec_indices. Qed.

(** One step of MD5 as a program, and its value for some words. *)
Example C60_ex_md5_step : groundf salg 0 (EVar 0) (EVar 1) (EVar 2) (EVar 3) [EVar 4]
  = EAdd 32 (EVar 1) (let x := EAdd 32 (EAdd 32 (EAdd 32 (EVar 0)
      (EXor (EVar 3) (EAnd (EVar 1) (EXor (EVar 2) (EVar 3))))) (ECst 0xd76aa478)) (EVar 4) in
      EOr (EShl 32 x 7) (EShr x 25)).
Proof. reflexivity. Qed.
Example C60_ex_md5_value :
  eval [0x67452301; 0xefcdab89; 0x98badcfe; 0x10325476; 0x80636261]
    (groundf salg 0 (EVar 0) (EVar 1) (EVar 2) (EVar 3) [EVar 4])
  = roundf 0 0x67452301 0xefcdab89 0x98badcfe 0x10325476 [0x80636261].
Proof. vm_compute. reflexivity. Qed.
(** The outcome of SM3 is fixed as well: undefined behaviour for all data by the standard,
    none with the shifts of x86. *)
Example C60_ex_sm3 : forall H t data, length H = 8%nat -> sm3_block Strict H t data = UB BadShift /\
  is_ok (sm3_block Masked H t data) = true.
Proof.
  intros H t data L. pose proof (proj1 C60_sm3 Strict t H data) as S. pose proof (proj1 C60_sm3 Masked t H data) as K.
  cbv zeta beta in S, K. rewrite L in S, K. replace (length (le_words 4 16 data)) with 16%nat in S, K by reflexivity.
  rewrite S, K. split; lazy; reflexivity.
Qed.

Definition C60_all := (@C60_md5, @C60_sha1, @C60_sha2, @C60_sm3, @C60_keccak, @C60_ascon, @C60_esch, @C60_blake, @C60_blake2,
  @C60_jh, @C60_skein, @C60_lsh, @C60_whirlpool, @C60_groestl, @C60_kupyna, @C60_streebog, @C60_echo,
  @C60_whirlpool_column, @C60_whirlpool_indices, @C60_groestl_indices, @C60_kupyna_indices, @C60_streebog_indices, @C60_echo_indices).
Print Assumptions C60_all.
