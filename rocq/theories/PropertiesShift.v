(** * C45: shift counts are in range.

    A checked word is an outcome [res N] (Checked.v): a shift by at least the width of the
    word yields [UB BadShift], an access outside an array [UB OutOfBounds], and every
    operation hands on the undefined behaviour of its operands; [kl l] is [map Ok l]. The functions [k…] repeat
    the functions of the model that contain shifts with these operations. Each theorem says
    that for an array of the type's length (std::array, so always), every message block and
    every counter the checked computation yields exactly the words of the model, all of them
    defined. Together the theorems cover every shift and rotation in /repo/algorithm/detail and
    /repo/detail/functions.hpp; SM3 and LSH contain the two undefined ones. *)
From Verif Require Import Base Absorb Hasher HasherProof MdState Md5 Sha1 Sha2 Blake Blake2 Keccak Ascon Esch
  Jh Skein Whirlpool TTable Groestl Kupyna Streebog Echo Sm3 Lsh Shake Sm3Proof LshProof
  Checked CkMd CkBlake CkPerm CkArx CkTables CkMisc.

Theorem C45_md5_shifts H t data : length H = 4%nat ->
  kmd5_block (kl H) data = kl (md5_block H t data).
Proof. exact (kmd5_block_ok H t data). Qed.
Theorem C45_sha1_shifts H t data : length H = 5%nat ->
  ksha1_block (kl H) data = kl (sha1_block H t data).
Proof. exact (ksha1_block_ok H t data). Qed.
Theorem C45_sha2_shifts T H t data : length H = 8%nat ->
  ksha2_block T (kl H) data = kl (sha2_block T H t data).
Proof. exact (ksha2_block_ok T H t data). Qed.
Theorem C45_blake_shifts w padding tb H data : w = 32 \/ w = 64 -> length H = 12%nat ->
  kbl_block w padding tb (kl H) data = kl (bl_block w padding tb H data).
Proof. exact (kbl_block_ok w padding tb H data). Qed.
Theorem C45_blake2_shifts w tb last lastn H data : w = 32 \/ w = 64 -> length H = 8%nat ->
  kb2_block w tb last lastn (kl H) data = kl (b2_block w tb last lastn H data).
Proof. exact (kb2_block_ok w tb last lastn H data). Qed.
(** The parameter block of init and of the output nodes of BLAKE2X. *)
Theorem C45_blake2_init_shifts w ty hs s p klen fo nd no : w = 32 \/ w = 64 ->
  length s = 2%nat -> length p = 2%nat ->
  kb2_init_H w ty hs (kl s) (kl p) klen fo nd no = kl (b2_init_H w ty hs s p klen fo nd no).
Proof. exact (kb2_init_H_ok w ty hs s p klen fo nd no). Qed.
Theorem C45_blake2x_shifts w left xo rhs : w = 32 \/ w = 64 ->
  kb2_initX w left xo rhs = kl (b2_initX w left xo rhs).
Proof. exact (kb2_initX_ok w left xo rhs). Qed.
Theorem C45_keccak_shifts R A : (R <= 24)%nat -> length A = 25%nat ->
  kkc_perm R (kl A) = kl (kc_perm R A).
Proof. intros H1 H2. exact (proj1 (kkc_perm_ok R A H1 H2)). Qed.
Theorem C45_ascon_shifts H t data : length H = 5%nat ->
  kascon_block (kl H) data = kl (ascon_block H t data).
Proof. exact (kascon_block_ok H t data). Qed.
Theorem C45_esch_shifts hs lastBlock H t data : length H = (2 * esch_rounds hs)%nat ->
  kesch_block hs lastBlock (kl H) data = kl (esch_block hs lastBlock H t data).
Proof. exact (kesch_block_ok hs lastBlock H t data). Qed.
Theorem C45_jh_shifts H t data : length H = 16%nat ->
  kjh_step (kl H) data = kl (jh_step H t data).
Proof. exact (kjh_step_ok H t data). Qed.
Theorem C45_skein_shifts nw reallen h data : (nw = 4 \/ nw = 8 \/ nw = 16)%nat -> length h = (nw + 2)%nat ->
  ksk_block nw reallen (kl h) data = kl (sk_block nw reallen h data).
Proof. intros Hnw. exact (ksk_block_ok nw Hnw reallen h data). Qed.
Theorem C45_skein_tweak_shifts code : ksk_tw1 code = Ok (sk_tw1 code) /\ ksk_lastbit = Ok sk_lastbit /\
  ksk_outtw = Ok (shlw 64 255 56) /\ ksk_first = Ok (notw 64 (shlw 64 64 56)).
Proof. exact (ksk_tweaks_ok code). Qed.
Theorem C45_whirlpool_shifts h t data : length h = 8%nat ->
  kwp_block (kl h) data = kl (wp_block h t data).
Proof. exact (kwp_block_ok h t data). Qed.
Theorem C45_groestl_shifts hs h t data : length h = 16%nat ->
  kgr_step hs (kl h) data = kl (gr_step hs h t data) /\
  kcl_output kgr_roundP (cl_R hs) (kl h) = kl (cl_output gr_roundP (cl_R hs) h).
Proof. intros H. split; [exact (kgr_step_ok hs h t data H) | exact (kgr_output_ok hs h H)]. Qed.
Theorem C45_kupyna_shifts hs h t data : length h = 16%nat ->
  kku_step hs (kl h) data = kl (ku_step hs h t data) /\
  kcl_output kku_roundP (cl_R hs) (kl h) = kl (cl_output ku_roundP (cl_R hs) h).
Proof. intros H. split; [exact (kku_step_ok hs h t data H) | exact (kku_output_ok hs h H)]. Qed.
Theorem C45_streebog_shifts h m Nn : length h = 8%nat -> length m = 8%nat ->
  ksb_gN (kl h) (kl m) Nn = kl (sb_gN h m Nn).
Proof. exact (ksb_gN_ok h m Nn). Qed.
Theorem C45_echo_shifts hs salt counter V m : length salt = 2%nat -> length V = ec_nv hs ->
  kec_block hs (kl salt) counter (kl V) m = kl (ec_block hs salt counter V m).
Proof. exact (kec_block_ok hs salt counter V m). Qed.
(** left_encode and right_encode of SHAKE, KMAC, KangarooTwelve: every size_t. *)
Theorem C45_encode_shifts x k12 : x < 2 ^ 64 ->
  kleft_encode x = kl (left_encode x) /\ kright_encode x k12 = kl (right_encode x k12).
Proof. intros H. split; [exact (kleft_encode_ok x H) | exact (kright_encode_ok x k12 H)]. Qed.
(** The byte swaps used by the finalizations. *)
Theorem C45_byteswap_shifts x : kbyteswap16 (Ok x) = Ok (byteswap16 x) /\
  kbyteswap32 (Ok x) = Ok (byteswap32 x) /\ kbyteswap64 (Ok x) = Ok (byteswap64 x).
Proof. split; [apply kbyteswap16_ok | split; [apply kbyteswap32_ok | apply kbyteswap64_ok]]. Qed.

(** The length hypotheses are those of the initial values, for example. *)
Example C45_md5_example : length [1732584193; 4023233417; 2562383102; 271733878] = 4%nat.
Proof. reflexivity. Qed.
Example C45_skein_example : (8 = 4 \/ 8 = 8 \/ 8 = 16)%nat /\ length (repeat 7 10) = (8 + 2)%nat.
Proof. auto. Qed.
Example C45_esch_example : length (repeat 1 12) = (2 * esch_rounds 256)%nat.
Proof. reflexivity. Qed.
Example C45_echo_example : length [1; 2] = 2%nat /\ length (repeat 0 8) = ec_nv 256.
Proof. split; reflexivity. Qed.
(** A shift by the width is caught. *)
Example C45_checker_rejects : krotl 32 (Ok 5) (Ok 32) = UB BadShift /\ krotl 64 (Ok 5) (Ok 0) = UB BadShift /\
  kxor (Ok 1) (kshl 32 (Ok 1) (Ok 33)) = UB BadShift /\ kget 4 (kl [1; 2; 3; 4]) = UB OutOfBounds.
Proof. repeat split; reflexivity. Qed.

(** SM3: the rotation of the round constant (sm3_provider.hpp:137, 153) is undefined in
    round 0 and the rounds 32 to 63, hence in every digest; all other shifts are in range. *)
Theorem C45_sm3_refuted g msg : length (sm g) = 64%nat -> bytes_ok msg ->
  (s <- sm3_init g ;; s <- absorb (sm3 Strict) FPtr s msg ;; digest_iter (sm3 Strict) s)
  = UB BadShift.
Proof. exact (sm3_strict_undefined g msg). Qed.
Theorem C45_sm3_rounds_refuted C t : rotl_c Strict 32 C t = UB BadShift <-> (t = 0 \/ 32 <= t).
Proof. exact (sm3_rot_defined C t). Qed.
Theorem C45_sm3_partial H t data : length H = 8%nat ->
  exists H', sm3_block Masked H t data = Ok H' /\ ksm3_block Masked (kl H) data = kl H'.
Proof. exact (ksm3_block_ok H t data). Qed.

(** LSH: the rotation by gamma (lsh_provider.hpp:176) is undefined for word 0, and for word 7
    if the words have 32 bits, hence in every constructor; all other shifts are in range. *)
Theorem C45_lsh_refuted w hs g : w = 32 \/ w = 64 -> 0 < hs <= 8 * w /\ hs mod 8 = 0 ->
  fresh_of (lsh_ctor w hs g) (lsh_init Strict w) = UB BadShift /\
  fresh_of (lsh_ctor_static hs g) (lsh_init Strict w) = UB BadShift.
Proof. exact (lsh_strict_undefined w hs g). Qed.
Theorem C45_lsh_gamma_refuted w l : w = 32 \/ w = 64 -> (l < 8)%nat ->
  lsh_gamma w l < w /\ (lsh_gamma w l = 0 <-> l = 0%nat \/ (l = 7%nat /\ w = 32)).
Proof. intros Hw Hl. split; [exact (lsh_gamma_range w l Hw Hl) | exact (lsh_gamma_zero w l Hw Hl)]. Qed.
Theorem C45_lsh_partial w S t data : w = 32 \/ w = 64 -> (32 <= length S)%nat ->
  exists S', lsh_block Masked w S t data = Ok S' /\ klsh_block Masked w (kl S) data = kl S'.
Proof. exact (klsh_block_ok w S t data). Qed.

Definition shift_theorems := (C45_md5_shifts, C45_sha1_shifts, C45_sha2_shifts, C45_blake_shifts,
  C45_blake2_shifts, C45_blake2_init_shifts, C45_blake2x_shifts, C45_keccak_shifts, C45_ascon_shifts,
  C45_esch_shifts, C45_jh_shifts, C45_skein_shifts, C45_skein_tweak_shifts, C45_whirlpool_shifts,
  C45_groestl_shifts, C45_kupyna_shifts, C45_streebog_shifts, C45_echo_shifts, C45_encode_shifts,
  C45_byteswap_shifts, C45_sm3_refuted, C45_sm3_rounds_refuted, C45_sm3_partial, C45_lsh_refuted,
  C45_lsh_gamma_refuted, C45_lsh_partial).
Print Assumptions shift_theorems.
