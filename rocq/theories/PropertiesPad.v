(** * C42, C43, C44, C47: what the compression functions and permutations get to see. *)
From Verif Require Import Base Lemmas SpecCommon Hasher HasherSpec HasherProof Library LibraryProof XLibraryProof LibraryTypes
  LibraryTypesProof Md5Spec Sha1Spec Sha2 Sha2Spec Sha2Proof Sm3Spec WhirlpoolSpec Blake2Spec Blake2 Blake2Sim BlakeSpec BlakeProof
  Blake2pSpec Blake2pSim EchoSpec EchoSim GroestlSpec KupynaSpec JhSpec StreebogSpec StreebogProof LshSpec LshProof SkeinSpec SkeinSim
  KeccakSpec Sha3Spec Shake Kmac K12 ShakeProof KmacProof AsconSpec EschSpec K12Spec K12Proof Inputs PadInj PadInjSponge Process ProcessTypes.

(** [both_process] (ProcessTypes.v): the run-time size and the static size variant. *)

(** ** C47: message lengths and counters *)

(** Merkle-Damgaard types: after any calls the digest is the chaining value after the
    blocks of the absorbed message, padded with its length in bits modulo 2^64 ... *)
Theorem C47_md5 : processes md5_type md5_spec
  (fun _ => md_inputs 64 (le_bytes 8)) (fun _ => rfc_md5_compress) (fun _ => rfc_md5_iv)
  (fun _ '(a, b, c, d) => le_bytes 4 a ++ le_bytes 4 b ++ le_bytes 4 c ++ le_bytes 4 d).
Proof. apply good_processes; [exact good_md5|reflexivity]. Qed.
Theorem C47_sha1 : processes sha1_type sha1_spec
  (fun _ => md_inputs 64 (be_bytes 8)) (fun _ => fips_sha1_compress) (fun _ => fips_sha1_iv)
  (fun _ '(a, b, c, d, e) => flat_map (be_bytes 4) [a; b; c; d; e]).
Proof. apply good_processes; [exact good_sha1|reflexivity]. Qed.
Theorem C47_sha2 :
  processes sha224_type sha224_spec (fun _ => md_inputs 64 (be_bytes 8)) (fun _ => fips_sha2_compress params256)
    (fun _ => iv_224) (fun _ r => firstn 28 (regs_bytes params256 r)) /\
  processes sha256_type sha256_spec (fun _ => md_inputs 64 (be_bytes 8)) (fun _ => fips_sha2_compress params256)
    (fun _ => iv_256) (fun _ r => firstn 32 (regs_bytes params256 r)) /\
  processes sha384_type sha384_spec (fun _ => md_inputs 128 (be_bytes 16)) (fun _ => fips_sha2_compress params512)
    (fun _ => iv_384) (fun _ r => firstn 48 (regs_bytes params512 r)) /\
  forall hs, bits_up_to 512 hs -> both_process (sha512_type hs) (sha512_static_type hs) (sha2_spec W64 hs)
    (fun _ => md_inputs 128 (be_bytes 16)) (fun _ => fips_sha2_compress params512) (fun _ => iv_of W64 hs)
    (fun _ r => firstn (N.to_nat (hs / 8)) (regs_bytes params512 r)).
Proof.
  split; [apply good_processes; [exact good_sha224|reflexivity]|].
  split; [apply good_processes; [exact good_sha256|reflexivity]|].
  split; [apply good_processes; [exact good_sha384|reflexivity]|].
  intros hs H. apply both_from; [exact (conj (good_sha512 hs H) (good_sha512_static hs H))|reflexivity].
Qed.
Theorem C47_sm3 : processes sm3_type sm3_spec
  (fun _ => md_inputs 64 (be_bytes 8)) (fun _ => gb_compress) (fun _ => gb_iv) (fun _ => flat_map (be_bytes 4)).
Proof. apply good_processes; [exact good_sm3|reflexivity]. Qed.
Theorem C47_whirlpool : processes whirlpool_type whirlpool_spec
  (fun _ => md_inputs 64 (be_bytes 32)) (fun _ => wp_compress) (fun _ => repeat 0 64) (fun _ h => h).
Proof. apply good_processes; [exact good_whirlpool|reflexivity]. Qed.
Theorem C47_kupyna hs : In hs [256; 512] -> both_process (kupyna_type hs) (kupyna_static_type hs) (kupyna_spec hs)
  (fun _ => md_inputs (8 * kus_C hs) (le_bytes 12)) (fun _ => kus_f (kus_C hs)) (fun _ => kus_iv (kus_C hs))
  (fun _ => kus_last (kus_C hs) hs).
Proof. intros H. apply both_from; [exact (good_kupyna hs H)|reflexivity]. Qed.
Theorem C47_jh hs : bits_up_to 512 hs -> both_process (jh_type hs) (jh_static_type hs) (jh_spec hs)
  (fun _ => jh_inputs) (fun _ => jhs_F8) (fun _ => jhs_iv hs) (fun _ => skipn (128 - N.to_nat (hs / 8))).
Proof. intros H. apply both_from; [exact (good_jh hs H)|reflexivity]. Qed.
(** ... which is the exact length below 2^61 bytes. *)
Theorem C47_exact m : N.of_nat (length m) < 2 ^ 61 -> bitlen m mod 2 ^ 64 = 8 * N.of_nat (length m).
Proof. exact (bits64 m). Qed.

(** Groestl puts the number of blocks into the last block; it is exact while the padded
    message is shorter than 2^61 bytes. *)
Theorem C47_groestl hs : bits_up_to 512 hs -> both_process (groestl_type hs) (groestl_static_type hs) (groestl_spec hs)
  (fun _ => groestl_inputs hs) (fun _ => grs_f (grs_C hs)) (fun _ => grs_iv (grs_C hs) hs) (fun _ => grs_omega (grs_C hs) hs).
Proof. intros H. apply both_from; [exact (good_groestl hs H)|reflexivity]. Qed.
Theorem C47_groestl_exact bs m : (0 < bs)%nat -> N.of_nat (length (grs_pad bs m)) < 2 ^ 61 ->
  2 ^ 61 mod N.of_nat bs = 0 ->
  grs_count bs m mod (2 ^ 61 / N.of_nat bs) = N.of_nat (length (grs_pad bs m) / bs).
Proof. exact (groestl_count_exact bs m). Qed.

(** BLAKE and ECHO also give every compression the number of message bits hashed so far. *)
Theorem C47_blake hs : In hs [224; 256; 384; 512] -> both_process (blake_type hs) (blake_static_type hs) (blake_spec hs)
  (fun _ => blake_inputs hs)
  (fun salt h x => compressb (blake_w hs) h (be_words (wb (blake_w hs)) 4 salt) (be_words (wb (blake_w hs)) 16 (fst x)) (snd x))
  (fun _ => blake_IV hs) (fun _ h => firstn (N.to_nat (hs / 8)) (flat_map (be_bytes (wb (blake_w hs))) h)).
Proof. intros H. apply both_from; [exact (good_blake hs H)|exact (blake_fold hs)]. Qed.
Theorem C47_echo hs : bits_up_to 512 hs -> both_process (echo_type hs) (echo_static_type hs) (echo_spec hs)
  (fun _ => echo_inputs hs) (fun salt V x => echo_compress hs salt V (fst x) (snd x))
  (fun _ => repeat (le_bytes 16 hs) (echo_words hs)) (fun _ V => firstn (N.to_nat (hs / 8)) (concat V)).
Proof. intros H. apply both_from; [exact (good_echo hs H)|exact (echo_fold hs)]. Qed.
Theorem C47_counters_exact hs (m : list N) i : N.of_nat (length m) < 2 ^ 61 ->
  ctrb (blake_w hs) (length m) i =
    (if (i * bb (blake_w hs) <? length m)%nat then 8 * N.of_nat (Nat.min (length m) ((i + 1) * bb (blake_w hs))) else 0) /\
  echo_ctr hs (length m) i =
    (if (i * echo_bs hs <? length m)%nat then 8 * N.of_nat (Nat.min (length m) ((i + 1) * echo_bs hs)) else 0).
Proof. exact (counters_exact hs m i). Qed.

(** BLAKE2: the number of bytes, with a key block in front if there is a key. *)
Definition wordsize (w : N) : Prop := w = 64 \/ w = 32.
Theorem C47_blake2 w hs : wordsize w -> bits_up_to (8 * w) hs ->
  both_process (blake2_type w BHash hs) (blake2_static_type w BHash hs) (blake2_spec w hs)
    (fun p m => blake2_inputs w (key_pad w (pk p) ++ m)) (fun _ => b2_step w false)
    (fun p => init_h w (seq_tree (hs / 8) (pk p) 0) (ps p) (pp p))
    (fun _ h => firstn (N.to_nat (hs / 8)) (words_bytes (wb w) h)).
Proof. intros Hw H. apply both_from; [exact (good_blake2 w hs Hw H)|exact (blake2_hash_fold w hs)]. Qed.
Theorem C47_blake2x w hs : wordsize w -> bits_up_to (8 * w * (w / 8) * 4 - 16) hs ->
  both_process (blake2_type w BXhash hs) (blake2_static_type w BXhash hs) (blake2x_spec w hs)
    (fun p m => blake2_inputs w (key_pad w (pk p) ++ m)) (fun _ => b2_step w false)
    (fun p => init_h w (seq_tree (N.of_nat (hb w)) (pk p) (xfield w 0 (N.of_nat (N.to_nat (hs / 8))))) (ps p) (pp p))
    (fun p h => x_hash_out w (N.to_nat (hs / 8)) p (words_bytes (wb w) h)).
Proof. intros Hw H. apply both_from; [exact (good_blake2x w hs Hw H)|exact (blake2x_hash_fold w hs)]. Qed.
Theorem C47_blake2x_xof w : wordsize w -> xprocesses (blake2x_xof_type w) (blake2x_xof_spec w)
    (fun p m => blake2_inputs w (key_pad w (pk p) ++ m)) (fun _ => b2_step w false)
    (fun p => init_h w (seq_tree (N.of_nat (hb w)) (pk p) (xfield w 0 (x_unknown w))) (ps p) (pp p))
    (fun p h n => x_stream_out w p (words_bytes (wb w) h) n).
Proof. intros Hw. apply xgood_processes; [exact (xgood_blake2x w Hw)|exact (blake2x_stream_fold w)]. Qed.
Theorem C47_blake2p w hs : wordsize w -> bits_up_to (8 * w) hs ->
  both_process (blake2p_type w hs) (blake2p_static_type w hs) (blake2p_spec w hs)
    (fun p m => blake2p_inputs w (pk p) m) (leaf_step w (hs / 8)) (fun _ => [])
    (fun p l => firstn (N.to_nat (hs / 8))
       (blake2_tree w true (par_tree w (hs / 8) (length (pk p)) 0 1) (ps p) (pp p) (concat l))).
Proof. intros Hw H. apply both_from; [exact (good_blake2p w hs Hw H)|exact (blake2p_fold w (hs / 8))]. Qed.
Theorem C47_blake2p_omp w hs sch : wordsize w -> bits_up_to (8 * w) hs -> any_schedule w sch ->
  both_process (blake2p_omp_type w hs sch) (blake2p_omp_static_type w hs sch) (blake2p_spec w hs)
    (fun p m => blake2p_inputs w (pk p) m) (leaf_step w (hs / 8)) (fun _ => [])
    (fun p l => firstn (N.to_nat (hs / 8))
       (blake2_tree w true (par_tree w (hs / 8) (length (pk p)) 0 1) (ps p) (pp p) (concat l))).
Proof. intros Hw H Hs. apply both_from; [exact (good_blake2p_omp w hs sch Hw H Hs)|exact (blake2p_fold w (hs / 8))]. Qed.
Theorem C47_blake2_exact w d : N.of_nat (length d) < 2 ^ 61 ->
  last (blake2_inputs w d) ([], 0, false) =
    (nth_block (bb w) (d ++ zeros (blocks_of w d * bb w - length d)) (blocks_of w d - 1), N.of_nat (length d), true).
Proof. exact (blake2_last_exact w d). Qed.

(** Skein: the position in the tweak is exact below 2^64 bytes. *)
Theorem C47_skein nw hs : In nw [4; 8; 16]%nat -> bits_up_to (2 ^ 64 - 1) hs ->
  both_process (skein_type nw hs) (skein_static_type nw hs) (skein_spec nw hs)
    (fun _ => skein_inputs nw T_msg) (fun _ H x => ubi_block nw H (snd x) (fst x)) (skein_start nw hs)
    (fun _ G => skein_output nw G (N.to_nat (hs / 8))).
Proof. intros Hn H. apply both_from; [exact (good_skein nw hs Hn H)|exact (skein_fold nw hs (N.to_nat (hs / 8)))]. Qed.
Theorem C47_skein_xof nw : In nw [4; 8; 16]%nat -> xprocesses (skein_xof_type nw) (skein_xof_spec nw)
    (fun _ => skein_inputs nw T_msg) (fun _ H x => ubi_block nw H (snd x) (fst x)) (skein_start nw (2 ^ 64 - 1))
    (fun _ G n => skein_output nw G n).
Proof. intros Hn. apply xgood_processes; [exact (xgood_skein nw Hn)|exact (fun p m n => skein_fold nw (2 ^ 64 - 1) n p m)]. Qed.

(** Streebog: the counter is a 64-bit number and the checksum loses carries (see C36); the
    length is exact below 2^61 bytes. *)
Theorem C47_streebog hs : In hs [256; 512] -> both_process (streebog_type hs) (streebog_static_type hs) (sb_code_spec hs)
  (fun _ => streebog_inputs add64 sb_sum) (fun _ h x => sbs_g (fst x) h (snd x)) (fun _ => sbs_iv hs)
  (fun _ => skipn (64 - N.to_nat (hs / 8))).
Proof. intros H. apply both_from; [exact (good_streebog hs H)|exact (fun _ => streebog_fold add64 sb_sum hs)]. Qed.
Theorem C47_streebog_exact m : N.of_nat (length m) < 2 ^ 61 ->
  nth (length (sbs_full m) + 1) (streebog_inputs add64 sb_sum m) (0, []) = (0, le_bytes 64 (8 * N.of_nat (length m))).
Proof. exact (streebog_length_exact sb_sum m). Qed.

(** LSH and the sponges have no length; their inputs are linked to the code for C43. *)
Theorem C43_lsh_inputs w hs : wide w -> bits_up_to (8 * w) hs -> both_process (lsh_type w hs) (lsh_static_type w hs) (lsh_spec w hs)
  (fun _ => lsh_inputs w) (fun _ => lss_CF w) (fun _ => lss_iv w hs)
  (fun _ cv => firstn (N.to_nat (hs / 8)) (words_bytes (N.to_nat (w / 8))
     (map (fun l => N.lxor (nth l cv 0) (nth (l + 8) cv 0)) (seq 0 8)))).
Proof. intros Hw H. apply both_from; [exact (good_lsh w hs Hw H)|reflexivity]. Qed.
(** [keccak_out nr r n]: [n] bytes of output of a Keccak sponge with rate [r]. *)
Theorem C43_sha3_inputs hs : In hs [224; 256; 384; 512] ->
  let r := (200 - 2 * N.to_nat (hs / 8))%nat in
  both_process (sha3_type hs) (sha3_static_type hs) (sha3_spec (N.to_nat (hs / 8)))
    (fun _ => keccak_inputs r [false; true]) (fun _ => absorb_block 24 r) (fun _ => zeros 25)
    (fun _ => keccak_out 24 r (N.to_nat (hs / 8))).
Proof. intros H. apply both_from; [exact (conj (good_sha3 hs H) (good_sha3_static hs H))|reflexivity]. Qed.
Theorem C43_shake_inputs :
  xprocesses (shake_type 128) (shake_spec 16) (fun _ => keccak_inputs 168 [true; true; true; true])
    (fun _ => absorb_block 24 168) (fun _ => zeros 25) (fun _ A n => keccak_out 24 168 n A) /\
  xprocesses (shake_type 256) (shake_spec 32) (fun _ => keccak_inputs 136 [true; true; true; true])
    (fun _ => absorb_block 24 136) (fun _ => zeros 25) (fun _ A n => keccak_out 24 136 n A).
Proof.
  split; apply xgood_processes; try reflexivity.
  - apply (xgood_shake 128 21 16); [lia|reflexivity|reflexivity].
  - apply (xgood_shake 256 17 32); [lia|reflexivity|reflexivity].
Qed.
Theorem C42_cshake_inputs :
  xprocesses (cshake_type 128) (cshake_spec 16) (cshake_inputs code_bytepad 16)
    (fun _ => absorb_block 24 168) (fun _ => zeros 25) (fun _ A n => keccak_out 24 168 n A) /\
  xprocesses (cshake_type 256) (cshake_spec 32) (cshake_inputs code_bytepad 32)
    (fun _ => absorb_block 24 136) (fun _ => zeros 25) (fun _ A n => keccak_out 24 136 n A).
Proof. exact cshake_processes. Qed.
(** KMAC: the name, customization, key, message and output length [hs] (0 for the XOF). *)
Theorem C44_kmac_inputs hs : bits_up_to (2 ^ 64 - 1) hs ->
  both_process (kmac_type 128 hs) (kmac_static_type 128 hs) (kmac_spec 16 hs) (kmac_inputs code_bytepad 16 hs)
    (fun _ => absorb_block 24 168) (fun _ => zeros 25) (fun _ => keccak_out 24 168 (N.to_nat (hs / 8))) /\
  both_process (kmac_type 256 hs) (kmac_static_type 256 hs) (kmac_spec 32 hs) (kmac_inputs code_bytepad 32 hs)
    (fun _ => absorb_block 24 136) (fun _ => zeros 25) (fun _ => keccak_out 24 136 (N.to_nat (hs / 8))).
Proof. exact (kmac_processes hs). Qed.
Theorem C44_kmacxof_inputs :
  xprocesses (kmacxof_type 128) (kmacxof_spec 16) (kmac_inputs code_bytepad 16 0)
    (fun _ => absorb_block 24 168) (fun _ => zeros 25) (fun _ A n => keccak_out 24 168 n A) /\
  xprocesses (kmacxof_type 256) (kmacxof_spec 32) (kmac_inputs code_bytepad 32 0)
    (fun _ => absorb_block 24 136) (fun _ => zeros 25) (fun _ A n => keccak_out 24 136 n A).
Proof. exact kmacxof_processes. Qed.
(** K12, M14, KT256: the last TurboSHAKE call gives the output. *)
Theorem C42_k12_inputs B nr sec : In (B, nr, sec) [(128, 12, 16); (256, 14, 32); (256, 12, 32)]%nat ->
  xprocesses (k12_type (N.of_nat B) nr) (kt_spec k12_param nr sec) (kt_inputs nr sec (N.to_nat 8192))
    (fun _ => kt_step nr (200 - 2 * sec)) (fun _ => zeros 25) (fun _ A n => keccak_out nr (200 - 2 * sec) n A).
Proof. exact (k12_processes B nr sec). Qed.
Theorem C43_ascon_inputs :
  processes ascon_hash_type ascon_hash_spec (fun _ => ascon_inputs) (fun _ => ascon_absorb) (fun _ => ascon_start Ascon.AHash)
    (fun _ => squeeze_stream (ascon_p 12) (words_bytes 8) 8 32) /\
  xprocesses ascon_xof_type ascon_xof_spec (fun _ => ascon_inputs) (fun _ => ascon_absorb) (fun _ => ascon_start Ascon.AXof)
    (fun _ A n => squeeze_stream (ascon_p 12) (words_bytes 8) 8 n A) /\
  xprocesses ascon_cxof_type ascon_cxof_spec ascon_cxof_inputs (fun _ => ascon_absorb) (fun _ => ascon_start Ascon.ACxof)
    (fun _ A n => squeeze_stream (ascon_p 12) (words_bytes 8) 8 n A).
Proof.
  split; [apply good_processes; [exact good_ascon_hash|reflexivity]|].
  split; [apply xgood_processes; [exact xgood_ascon_xof|reflexivity]|].
  apply xgood_processes; [exact xgood_ascon_cxof|reflexivity].
Qed.
Theorem C43_esch_inputs h hs : (h = 3%nat /\ hs = 256) \/ (h = 4%nat /\ hs = 384) ->
  both_process (esch_type hs) (esch_static_type hs) (esch_spec h) (fun _ => esch_inputs false) (fun _ => esch_step h)
    (fun _ => repeat (0, 0) (2 * h)) (fun _ => squeeze_stream (sparkle_p (slim h)) branches_bytes 16 (16 * h - 16)) /\
  xprocesses (esch_xof_type (N.of_nat (128 * h)) (4 * h)) (esch_xof_spec h) (fun _ => esch_inputs true) (fun _ => esch_step h)
    (fun _ => repeat (0, 0) (2 * h)) (fun _ B n => squeeze_stream (sparkle_p (slim h)) branches_bytes 16 n B).
Proof. exact (esch_processes h hs). Qed.

(** ** C43: different messages give different inputs *)
Theorem C43_md bs enc : (0 < bs)%nat -> (forall x y, length (enc x) = length (enc y)) -> separates (md_inputs bs enc).
Proof. exact (md_inputs_inj bs enc). Qed.
Theorem C43_kupyna n : separates (md_inputs (8 * kus_C n) (le_bytes 12)).
Proof. apply md_inputs_inj; [unfold kus_C; destruct (_ <=? _); cbn; lia|exact (le_enc 12)]. Qed.
Theorem C43_groestl n : separates (groestl_inputs n).
Proof. exact (groestl_inputs_inj n). Qed.
Theorem C43_jh : separates jh_inputs.
Proof. exact jh_inputs_inj. Qed.
Theorem C43_lsh w : 0 < w -> separates (lsh_inputs w).
Proof. exact (lsh_inputs_inj w). Qed.
Theorem C43_echo n : separates (echo_inputs n).
Proof. exact (echo_inputs_inj n). Qed.
Theorem C43_blake n : separates_short (blake_inputs n).
Proof. exact (blake_inputs_inj n). Qed.
Theorem C43_blake2 w key : wordsize w -> separates (fun m => blake2_inputs w (key_pad w key ++ m)).
Proof. exact (blake2_key_inj w key). Qed.
Theorem C43_blake2p w key : wordsize w -> separates (blake2p_inputs w key).
Proof. intros Hw m1 m2 _ _. exact (blake2p_inputs_inj w key m1 m2 Hw). Qed.
Theorem C43_skein nw ty : (0 < nw)%nat -> ty < 2 ^ 6 -> separates_short (skein_inputs nw ty).
Proof. exact (skein_inputs_short nw ty). Qed.
Theorem C43_streebog addN addS : separates (streebog_inputs addN addS).
Proof. exact (streebog_inputs_inj addN addS). Qed.
Theorem C43_keccak r suffix : (0 < r)%nat -> In suffix [[false; true]; [true; true; true; true]; [false; false]] ->
  separates (keccak_inputs r suffix).
Proof. exact (keccak_separates r suffix). Qed.
Theorem C43_ascon : separates ascon_inputs.
Proof. exact ascon_inputs_inj. Qed.
Theorem C43_esch xof : separates (esch_inputs xof).
Proof. exact (esch_inputs_inj xof). Qed.

(** ** C42: parameters and messages together *)
Theorem C42_cshake sec fn1 cust1 m1 fn2 cust2 m2 : (sec < 100)%nat ->
  short fn1 -> short cust1 -> is_bytes m1 -> short fn2 -> short cust2 -> is_bytes m2 ->
  cshake_inputs code_bytepad sec (fn1, cust1) m1 = cshake_inputs code_bytepad sec (fn2, cust2) m2 ->
  fn1 = fn2 /\ cust1 = cust2 /\ m1 = m2.
Proof. exact (cshake_inputs_code sec fn1 cust1 m1 fn2 cust2 m2). Qed.
Theorem C42_kmac sec L1 key1 cust1 m1 L2 key2 cust2 m2 : (sec < 100)%nat -> L1 < 2 ^ 64 -> L2 < 2 ^ 64 ->
  short key1 -> short cust1 -> is_bytes m1 -> short key2 -> short cust2 -> is_bytes m2 ->
  kmac_inputs code_bytepad sec L1 (key1, cust1) m1 = kmac_inputs code_bytepad sec L2 (key2, cust2) m2 ->
  L1 = L2 /\ key1 = key2 /\ cust1 = cust2 /\ m1 = m2.
Proof. exact (kmac_inputs_code sec L1 key1 cust1 m1 L2 key2 cust2 m2). Qed.
Theorem C42_k12 nr sec c1 c2 m1 m2 : (sec < 100)%nat -> short c1 -> short c2 ->
  kt_inputs nr sec (N.to_nat 8192) c1 m1 = kt_inputs nr sec (N.to_nat 8192) c2 m2 -> c1 = c2 /\ m1 = m2.
Proof. exact (kt_inputs_code nr sec c1 c2 m1 m2). Qed.
Theorem C42_ascon_cxof Z1 Z2 m1 m2 : short Z1 -> short Z2 ->
  ascon_cxof_inputs Z1 m1 = ascon_cxof_inputs Z2 m2 -> Z1 = Z2 /\ m1 = m2.
Proof. exact (ascon_cxof_inputs_inj Z1 Z2 m1 m2). Qed.
(** The strings of SP 800-185 can be decoded from the front. *)
Theorem C42_encode_string s t a b : short s -> short t -> encode_string s ++ a = encode_string t ++ b -> s = t /\ a = b.
Proof. exact (encode_string_prefix s t a b). Qed.

(** ** C44: output lengths *)
(** KMAC with different output lengths feeds the sponge with different inputs, for any
    keys, customizations and messages. *)
Theorem C44_kmac_length sec hs1 hs2 p1 p2 m1 m2 : (sec < 100)%nat -> hs1 < 2 ^ 64 -> hs2 < 2 ^ 64 -> hs1 <> hs2 ->
  short (fst p1) -> short (snd p1) -> is_bytes m1 -> short (fst p2) -> short (snd p2) -> is_bytes m2 ->
  kmac_inputs code_bytepad sec hs1 p1 m1 <> kmac_inputs code_bytepad sec hs2 p2 m2.
Proof. exact (kmac_inputs_length sec hs1 hs2 p1 p2 m1 m2). Qed.

(** ** Examples *)
Example C47_since_example : since md5_type
  [HBase (Absorb FPtr [1]); HBase (Reset false); HBase (Absorb FPtr [97; 98]); HDigestIter; HBase (Absorb FPtr [99])] = [97; 98; 99].
Proof. reflexivity. Qed.
Example C47_input_example : md_inputs 64 (be_bytes 8) [97; 98; 99] = [[97; 98; 99; 128] ++ zeros 59 ++ [24]].
Proof. vm_compute. reflexivity. Qed.
Example C43_md_example : md_inputs 64 (be_bytes 8) [97] <> md_inputs 64 (be_bytes 8) [97; 0].
Proof. intros E. apply C43_md in E; [discriminate|lia|apply be_enc|repeat constructor|repeat constructor]. Qed.
Example C43_blake2_example : blake2_inputs 32 [1] <> blake2_inputs 32 [1; 0] /\
  map (fun x => fst (fst x)) (blake2_inputs 32 [1]) = map (fun x => fst (fst x)) (blake2_inputs 32 [1; 0]).
Proof. split; vm_compute; [discriminate|reflexivity]. Qed.
Example C42_short_example : short KMAC_name /\ short [].
Proof. split; apply short_dec; reflexivity. Qed.
(** Without the length prefixes these two would be the same. *)
Example C42_cshake_example : cshake_inputs code_bytepad 16 ([1; 2], [3]) [4] <> cshake_inputs code_bytepad 16 ([1], [2; 3]) [4].
Proof.
  intros E. assert (M : short [4]) by (apply short_dec; reflexivity).
  apply C42_cshake in E; try (apply short_dec; reflexivity); try (apply M); [|lia].
  destruct E as [E _]. discriminate E.
Qed.
Example C44_kmac_example : kmac_inputs code_bytepad 16 128 ([9], []) [7] <> kmac_inputs code_bytepad 16 256 ([9], []) [7].
Proof.
  assert (M : short [7]) by (apply short_dec; reflexivity).
  apply C44_kmac_length; try (apply short_dec; reflexivity); try (apply M); (lia || reflexivity || discriminate).
Qed.
Example C47_groestl_example : N.of_nat (length (grs_pad 64 [1; 2; 3])) < 2 ^ 61 /\ 2 ^ 61 mod N.of_nat 64 = 0 /\
  grs_count 64 [1; 2; 3] = 1.
Proof. vm_compute. auto. Qed.
Example C43_groestl_sizes_example : bits_up_to 512 256 /\ bits_up_to (2 ^ 64 - 1) 1024 /\ wordsize 64 /\ wide 32.
Proof. unfold bits_up_to, wordsize, wide. repeat split; auto; lia. Qed.
Definition pad_theorems := (@C47_md5, @C47_sha1, @C47_sha2, @C47_sm3, @C47_whirlpool, @C47_kupyna, @C47_jh, 
@C47_exact, @C47_groestl, @C47_groestl_exact, @C47_blake, @C47_echo, @C47_counters_exact, @C47_blake2, @C47_blake2x, 
@C47_blake2x_xof, @C47_blake2p, @C47_blake2p_omp, @C47_blake2_exact, @C47_skein, @C47_skein_xof, @C47_streebog, @C47_streebog_exact, 
@C43_lsh_inputs, @C43_sha3_inputs, @C43_shake_inputs, @C42_cshake_inputs, @C44_kmac_inputs, @C44_kmacxof_inputs, 
@C42_k12_inputs, @C43_ascon_inputs, @C43_esch_inputs, @C43_md, @C43_kupyna, @C43_groestl, @C43_jh, @C43_lsh, 
@C43_echo, @C43_blake, @C43_blake2, @C43_blake2p, @C43_skein, @C43_streebog, @C43_keccak, @C43_ascon, @C43_esch, 
@C42_cshake, @C42_kmac, @C42_k12, @C42_ascon_cxof, @C42_encode_string, @C44_kmac_length).
Print Assumptions pad_theorems.
