(** * C56: where collisions come from. *)
From Verif Require Import Base Lemmas WordLemmas TableLemmas SpecCommon Hasher HasherSpec HasherProof Library LibraryProof XLibraryProof LibraryTypes
  LibraryTypesProof Md5Spec Sha1Spec Sha2 Sha2Spec Sha2Proof Sm3Spec WhirlpoolSpec StreebogSpec StreebogProof Blake2 Blake2Spec Blake2pSpec Blake2Sim Blake2pSim BlakeSpec BlakeProof EchoSpec
  EchoSim GroestlSpec KupynaSpec JhSpec LshSpec LshProof SkeinSpec SkeinSim KeccakSpec Sha3Spec K12Spec AsconSpec EschSpec Inputs PadInj PadInjSponge Process ProcessTypes
  Bind BindTypes Inj InjArx InjCols InjCode CollideSpec Collide CollideSponge CollideSponge2 CollideWords CollideTypes PropertiesPad Sha3 Shake Kmac K12 ShakeProof KmacProof K12Proof MdState Md5 CollideTypes2.

(** Two objects of the same type with the same parameters, after any calls, give the same
    digest for different messages. Then the collision is already one of the compression
    function or permutation (CollideSpec.v): padding, lengths, counters, buffering and the order
    of the calls add no collisions of their own. *)

(** ** The digest is the whole chaining value: a collision of the compression function *)
Theorem C56_md5 : equal_digests md5_type md5_spec (below (2 ^ 61)) (fun _ => md_inputs 64 (le_bytes 8)) (fun _ => in_step rfc_md5_compress rfc_md5_iv).
Proof. exact md5_collide. Qed.
Theorem C56_sha1 : equal_digests sha1_type sha1_spec (below (2 ^ 61)) (fun _ => md_inputs 64 (be_bytes 8)) (fun _ => in_step fips_sha1_compress fips_sha1_iv).
Proof. exact sha1_collide. Qed.
Theorem C56_sha256 : equal_digests sha256_type sha256_spec (below (2 ^ 61)) (fun _ => md_inputs 64 (be_bytes 8)) (fun _ => in_step (fips_sha2_compress params256) iv_256).
Proof. exact sha256_collide. Qed.
Theorem C56_sha512 T : T = sha512_type 512 \/ T = sha512_static_type 512 ->
  equal_digests T (sha2_spec W64 512) (below (2 ^ 61)) (fun _ => md_inputs 128 (be_bytes 16)) (fun _ => in_step (fips_sha2_compress params512) (iv_of W64 512)).
Proof. exact (sha512_collide T). Qed.
Theorem C56_sm3 : equal_digests sm3_type sm3_spec (below (2 ^ 61)) (fun _ => md_inputs 64 (be_bytes 8)) (fun _ => in_step gb_compress gb_iv).
Proof. exact sm3_collide. Qed.
Theorem C56_whirlpool : equal_digests whirlpool_type whirlpool_spec (below (2 ^ 61)) (fun _ => md_inputs 64 (be_bytes 32)) (fun _ => in_step wp_compress (repeat 0 64)).
Proof. exact whirlpool_collide. Qed.
Theorem C56_streebog512 T : T = streebog_type 512 \/ T = streebog_static_type 512 -> equal_digests T (sb_code_spec 512) (below (2 ^ 61)) (fun _ => streebog_inputs add64 sb_sum)
  (fun _ => in_step (fun h x => sbs_g (fst x) h (snd x)) (sbs_iv 512)).
Proof. exact (streebog_collide T). Qed.
Theorem C56_blake hs : In hs [256; 512] -> both_equal (blake_type hs) (blake_static_type hs) (blake_spec hs) (below (2 ^ 61)) (fun _ => blake_inputs hs)
  (fun salt => in_step (blake_step hs salt) (blake_IV hs)).
Proof. exact (blake_collide hs). Qed.
Theorem C56_blake2 w : w = 64 \/ w = 32 ->
  both_equal (blake2_type w BHash (8 * w)) (blake2_static_type w BHash (8 * w)) (blake2_spec w (8 * w)) (below (2 ^ 61 - 128)) (fun p m => blake2_inputs w (key_pad w (pk p) ++ m))
    (fun p => in_step (b2_step w false) (init_h w (seq_tree w (pk p) 0) (ps p) (pp p))).
Proof. exact (blake2_collide w). Qed.

(** ** The digest is part or a function of the chaining value: a collision of the compression function or of the final step *)
Theorem C56_sha2_short :
  equal_digests sha224_type sha224_spec (below (2 ^ 61)) (fun _ => md_inputs 64 (be_bytes 8))
    (fun _ => in_step_or_out (fips_sha2_compress params256) iv_224 (fun r => firstn 28 (regs_bytes params256 r))) /\
  equal_digests sha384_type sha384_spec (below (2 ^ 61)) (fun _ => md_inputs 128 (be_bytes 16))
    (fun _ => in_step_or_out (fips_sha2_compress params512) iv_384 (fun r => firstn 48 (regs_bytes params512 r))) /\
  forall hs, bits_up_to 512 hs -> both_equal (sha512_type hs) (sha512_static_type hs) (sha2_spec W64 hs) (below (2 ^ 61)) (fun _ => md_inputs 128 (be_bytes 16))
    (fun _ => in_step_or_out (fips_sha2_compress params512) (iv_of W64 hs) (fun r => firstn (N.to_nat (hs / 8)) (regs_bytes params512 r))).
Proof. exact sha2_any. Qed.
Theorem C56_blake_short hs : In hs [224; 256; 384; 512] -> both_equal (blake_type hs) (blake_static_type hs) (blake_spec hs) (below (2 ^ 61)) (fun _ => blake_inputs hs)
  (fun salt => in_step_or_out (blake_step hs salt) (blake_IV hs) (fun h => firstn (N.to_nat (hs / 8)) (flat_map (be_bytes (wb (blake_w hs))) h))).
Proof. exact (blake_any hs). Qed.
Theorem C56_blake2_short w hs : w = 64 \/ w = 32 -> bits_up_to (8 * w) hs ->
  both_equal (blake2_type w BHash hs) (blake2_static_type w BHash hs) (blake2_spec w hs) (below (2 ^ 61 - 128)) (fun p m => blake2_inputs w (key_pad w (pk p) ++ m))
    (fun p => in_step_or_out (b2_step w false) (init_h w (seq_tree (hs / 8) (pk p) 0) (ps p) (pp p)) (fun h => firstn (N.to_nat (hs / 8)) (words_bytes (wb w) h))).
Proof. exact (blake2_any w hs). Qed.
Theorem C56_blake2x w hs : w = 64 \/ w = 32 -> bits_up_to (8 * w * (w / 8) * 4 - 16) hs ->
  both_equal (blake2_type w BXhash hs) (blake2_static_type w BXhash hs) (blake2x_spec w hs) (below (2 ^ 61 - 128)) (fun p m => blake2_inputs w (key_pad w (pk p) ++ m))
    (fun p => in_step_or_out (b2_step w false) (init_h w (seq_tree (N.of_nat (hb w)) (pk p) (xfield w 0 (N.of_nat (N.to_nat (hs / 8))))) (ps p) (pp p))
      (fun h => x_hash_out w (N.to_nat (hs / 8)) p (words_bytes (wb w) h))).
Proof. exact (blake2x_collide w hs). Qed.
Theorem C56_blake2x_xof w : w = 64 \/ w = 32 ->
  equal_streams (blake2x_xof_type w) (blake2x_xof_spec w) (below (2 ^ 61 - 128)) (fun p m => blake2_inputs w (key_pad w (pk p) ++ m))
    (fun n p => in_step_or_out (b2_step w false) (init_h w (seq_tree (N.of_nat (hb w)) (pk p) (xfield w 0 (x_unknown w))) (ps p) (pp p))
      (fun h => x_stream_out w p (words_bytes (wb w) h) n)).
Proof. exact (blake2x_xof_collide w). Qed.
Theorem C56_kupyna hs : In hs [256; 512] -> both_equal (kupyna_type hs) (kupyna_static_type hs) (kupyna_spec hs) (below (2 ^ 61))
  (fun _ => md_inputs (8 * kus_C hs) (le_bytes 12)) (fun _ => in_step_or_out (kus_f (kus_C hs)) (kus_iv (kus_C hs)) (kus_last (kus_C hs) hs)).
Proof. exact (kupyna_any hs). Qed.
Theorem C56_jh hs : bits_up_to 512 hs -> both_equal (jh_type hs) (jh_static_type hs) (jh_spec hs) (below (2 ^ 61))
  (fun _ => jh_inputs) (fun _ => in_step_or_out jhs_F8 (jhs_iv hs) (skipn (128 - N.to_nat (hs / 8)))).
Proof. exact (jh_any hs). Qed.
Theorem C56_groestl hs : bits_up_to 512 hs -> both_equal (groestl_type hs) (groestl_static_type hs) (groestl_spec hs) (below (2 ^ 61 - 256))
  (fun _ => groestl_inputs hs) (fun _ => in_step_or_out (grs_f (grs_C hs)) (grs_iv (grs_C hs) hs) (grs_omega (grs_C hs) hs)).
Proof. exact (groestl_any hs). Qed.
Theorem C56_echo hs : bits_up_to 512 hs -> both_equal (echo_type hs) (echo_static_type hs) (echo_spec hs) (below (2 ^ 61))
  (fun _ => echo_inputs hs) (fun salt => in_step_or_out (fun V x => echo_compress hs salt V (fst x) (snd x)) (repeat (le_bytes 16 hs) (echo_words hs))
    (fun V => firstn (N.to_nat (hs / 8)) (concat V))).
Proof. exact (echo_any hs). Qed.
Theorem C56_streebog hs : In hs [256; 512] -> both_equal (streebog_type hs) (streebog_static_type hs) (sb_code_spec hs) (below (2 ^ 61))
  (fun _ => streebog_inputs add64 sb_sum) (fun _ => in_step_or_out (fun h x => sbs_g (fst x) h (snd x)) (sbs_iv hs) (skipn (64 - N.to_nat (hs / 8)))).
Proof. exact (streebog_any hs). Qed.
Theorem C56_skein nw hs : In nw [4; 8; 16]%nat -> bits_up_to (2 ^ 64 - 1) hs -> both_equal (skein_type nw hs) (skein_static_type nw hs) (skein_spec nw hs) (below (2 ^ 64))
  (fun _ => skein_inputs nw T_msg) (fun p => in_step_or_out (fun H x => ubi_block nw H (snd x) (fst x)) (skein_start nw hs p) (fun G => skein_output nw G (N.to_nat (hs / 8)))).
Proof. exact (skein_any nw hs). Qed.
Theorem C56_skein_xof nw : In nw [4; 8; 16]%nat -> equal_streams (skein_xof_type nw) (skein_xof_spec nw) (below (2 ^ 64))
  (fun _ => skein_inputs nw T_msg) (fun n p => in_step_or_out (fun H x => ubi_block nw H (snd x) (fst x)) (skein_start nw (2 ^ 64 - 1) p) (fun G => skein_output nw G n)).
Proof. exact (skein_xof_any nw). Qed.
(** LSH has no length in its padding: the chain may also come back to the initial value. *)
Theorem C56_lsh w hs : wide w -> bits_up_to (8 * w) hs -> both_equal (lsh_type w hs) (lsh_static_type w hs) (lsh_spec w hs) any_length
  (fun _ => lsh_inputs w) (fun _ => in_step_returns_or_out (lss_CF w) (lss_iv w hs)
     (fun cv => firstn (N.to_nat (hs / 8)) (words_bytes (N.to_nat (w / 8)) (map (fun l => N.lxor (nth l cv 0) (nth (l + 8) cv 0)) (seq 0 8))))).
Proof. exact (lsh_collide w hs). Qed.

(** ** Trees *)
Theorem C56_blake2p w hs : w = 64 \/ w = 32 -> bits_up_to (8 * w) hs ->
  both_equal (blake2p_type w hs) (blake2p_static_type w hs) (blake2p_spec w hs) (below (2 ^ 61 - 128)) (fun p m => blake2p_inputs w (pk p) m) (fun p => tree_collide w (hs / 8) p).
Proof. exact (blake2p_collide w hs). Qed.
Theorem C56_blake2p_omp w hs sch : w = 64 \/ w = 32 -> bits_up_to (8 * w) hs -> any_schedule w sch ->
  both_equal (blake2p_omp_type w hs sch) (blake2p_omp_static_type w hs sch) (blake2p_spec w hs) (below (2 ^ 61 - 128)) (fun p m => blake2p_inputs w (pk p) m) (fun p => tree_collide w (hs / 8) p).
Proof. exact (blake2p_omp_collide w hs sch). Qed.

(** ** Sponges: a collision of the inner part of the state or of the output *)
Theorem C56_sha3 hs : In hs [224; 256; 384; 512] -> let r := (200 - 2 * N.to_nat (hs / 8))%nat in
  both_equal (sha3_type hs) (sha3_static_type hs) (sha3_spec (N.to_nat (hs / 8))) any_length (fun _ => keccak_inputs r [false; true])
    (fun _ => inner_or_out (absorb_block 24 r) (zeros 25) (keccak_inner r) (keccak_out 24 r (N.to_nat (hs / 8)))).
Proof. exact (sha3_any hs). Qed.
Theorem C56_shake :
  equal_streams (shake_type 128) (shake_spec 16) any_length (fun _ => keccak_inputs 168 [true; true; true; true])
    (fun n _ => inner_or_out (absorb_block 24 168) (zeros 25) (keccak_inner 168) (keccak_out 24 168 n)) /\
  equal_streams (shake_type 256) (shake_spec 32) any_length (fun _ => keccak_inputs 136 [true; true; true; true])
    (fun n _ => inner_or_out (absorb_block 24 136) (zeros 25) (keccak_inner 136) (keccak_out 24 136 n)).
Proof. exact shake_any. Qed.
Theorem C56_cshake :
  equal_streams (cshake_type 128) (cshake_spec 16) any_length (cshake_inputs code_bytepad 16)
    (fun n _ => inner_or_out (absorb_block 24 168) (zeros 25) (keccak_inner 168) (keccak_out 24 168 n)) /\
  equal_streams (cshake_type 256) (cshake_spec 32) any_length (cshake_inputs code_bytepad 32)
    (fun n _ => inner_or_out (absorb_block 24 136) (zeros 25) (keccak_inner 136) (keccak_out 24 136 n)).
Proof. exact cshake_any. Qed.
Theorem C56_kmac hs : bits_up_to (2 ^ 64 - 1) hs ->
  both_equal (kmac_type 128 hs) (kmac_static_type 128 hs) (kmac_spec 16 hs) any_length (kmac_inputs code_bytepad 16 hs)
    (fun _ => inner_or_out (absorb_block 24 168) (zeros 25) (keccak_inner 168) (keccak_out 24 168 (N.to_nat (hs / 8)))) /\
  both_equal (kmac_type 256 hs) (kmac_static_type 256 hs) (kmac_spec 32 hs) any_length (kmac_inputs code_bytepad 32 hs)
    (fun _ => inner_or_out (absorb_block 24 136) (zeros 25) (keccak_inner 136) (keccak_out 24 136 (N.to_nat (hs / 8)))).
Proof. exact (kmac_any hs). Qed.
Theorem C56_kmacxof :
  equal_streams (kmacxof_type 128) (kmacxof_spec 16) any_length (kmac_inputs code_bytepad 16 0)
    (fun n _ => inner_or_out (absorb_block 24 168) (zeros 25) (keccak_inner 168) (keccak_out 24 168 n)) /\
  equal_streams (kmacxof_type 256) (kmacxof_spec 32) any_length (kmac_inputs code_bytepad 32 0)
    (fun n _ => inner_or_out (absorb_block 24 136) (zeros 25) (keccak_inner 136) (keccak_out 24 136 n)).
Proof. exact kmacxof_any. Qed.
Theorem C56_k12 B nr sec : In (B, nr, sec) [(128, 12, 16); (256, 14, 32); (256, 12, 32)]%nat ->
  equal_streams (k12_type (N.of_nat B) nr) (kt_spec k12_param nr sec) any_length (kt_inputs nr sec (N.to_nat 8192))
    (fun n _ => turbo_collide nr (200 - 2 * sec) n (2 * sec)).
Proof. exact (k12_any B nr sec). Qed.
Theorem C56_ascon :
  equal_digests ascon_hash_type ascon_hash_spec any_length (fun _ => ascon_inputs)
    (fun _ => inner_or_out ascon_absorb (ascon_start Ascon.AHash) ascon_inner (squeeze_stream (ascon_p 12) (words_bytes 8) 8 32)) /\
  equal_streams ascon_xof_type ascon_xof_spec any_length (fun _ => ascon_inputs)
    (fun n _ => inner_or_out ascon_absorb (ascon_start Ascon.AXof) ascon_inner (squeeze_stream (ascon_p 12) (words_bytes 8) 8 n)) /\
  equal_streams ascon_cxof_type ascon_cxof_spec any_length ascon_cxof_inputs
    (fun n _ => inner_or_out ascon_absorb (ascon_start Ascon.ACxof) ascon_inner (squeeze_stream (ascon_p 12) (words_bytes 8) 8 n)).
Proof. exact ascon_any. Qed.
Theorem C56_esch h hs : (h = 3%nat /\ hs = 256) \/ (h = 4%nat /\ hs = 384) ->
  both_equal (esch_type hs) (esch_static_type hs) (esch_spec h) any_length (fun _ => esch_inputs false) (fun _ => esch_inner_or_out h (16 * h - 16)) /\
  equal_streams (esch_xof_type (N.of_nat (128 * h)) (4 * h)) (esch_xof_spec h) any_length (fun _ => esch_inputs true) (fun n _ => esch_inner_or_out h n).
Proof. exact (esch_any h hs). Qed.

(** ** Messages of any length *)

(** Without a bound on the lengths the only further possibility is that the chain comes back
    to its initial value, for the functions whose padded inputs are always different (C43). *)
Theorem C56_long_md :
  equal_digests md5_type md5_spec any_length (fun _ => md_inputs 64 (le_bytes 8))
    (fun _ => in_step_returns_or_out rfc_md5_compress rfc_md5_iv (fun '(a, b, c, d) => le_bytes 4 a ++ le_bytes 4 b ++ le_bytes 4 c ++ le_bytes 4 d)) /\
  equal_digests sha1_type sha1_spec any_length (fun _ => md_inputs 64 (be_bytes 8))
    (fun _ => in_step_returns_or_out fips_sha1_compress fips_sha1_iv (fun '(a, b, c, d, e) => flat_map (be_bytes 4) [a; b; c; d; e])) /\
  equal_digests sha256_type sha256_spec any_length (fun _ => md_inputs 64 (be_bytes 8))
    (fun _ => in_step_returns_or_out (fips_sha2_compress params256) iv_256 (fun r => firstn 32 (regs_bytes params256 r))) /\
  (forall hs, bits_up_to 512 hs -> both_equal (sha512_type hs) (sha512_static_type hs) (sha2_spec W64 hs) any_length (fun _ => md_inputs 128 (be_bytes 16))
    (fun _ => in_step_returns_or_out (fips_sha2_compress params512) (iv_of W64 hs) (fun r => firstn (N.to_nat (hs / 8)) (regs_bytes params512 r)))) /\
  equal_digests sm3_type sm3_spec any_length (fun _ => md_inputs 64 (be_bytes 8)) (fun _ => in_step_returns_or_out gb_compress gb_iv (flat_map (be_bytes 4))) /\
  equal_digests whirlpool_type whirlpool_spec any_length (fun _ => md_inputs 64 (be_bytes 32)) (fun _ => in_step_returns_or_out wp_compress (repeat 0 64) (fun h => h)).
Proof. exact md_long. Qed.
Theorem C56_long_jh hs : bits_up_to 512 hs -> both_equal (jh_type hs) (jh_static_type hs) (jh_spec hs) any_length
  (fun _ => jh_inputs) (fun _ => in_step_returns_or_out jhs_F8 (jhs_iv hs) (skipn (128 - N.to_nat (hs / 8)))).
Proof. exact (jh_long hs). Qed.
Theorem C56_long_groestl hs : bits_up_to 512 hs -> both_equal (groestl_type hs) (groestl_static_type hs) (groestl_spec hs) any_length
  (fun _ => groestl_inputs hs) (fun _ => in_step_returns_or_out (grs_f (grs_C hs)) (grs_iv (grs_C hs) hs) (grs_omega (grs_C hs) hs)).
Proof. exact (groestl_long hs). Qed.
Theorem C56_long_streebog hs : In hs [256; 512] -> both_equal (streebog_type hs) (streebog_static_type hs) (sb_code_spec hs) any_length
  (fun _ => streebog_inputs add64 sb_sum) (fun _ => in_step_returns_or_out (fun h x => sbs_g (fst x) h (snd x)) (sbs_iv hs) (skipn (64 - N.to_nat (hs / 8)))).
Proof. exact (streebog_long hs). Qed.
Theorem C56_long_blake2 w hs : wordsize w -> bits_up_to (8 * w) hs ->
  both_equal (blake2_type w BHash hs) (blake2_static_type w BHash hs) (blake2_spec w hs) any_length (fun p m => blake2_inputs w (key_pad w (pk p) ++ m))
    (fun p => in_step_returns_or_out (b2_step w false) (init_h w (seq_tree (hs / 8) (pk p) 0) (ps p) (pp p)) (fun h => firstn (N.to_nat (hs / 8)) (words_bytes (wb w) h))).
Proof. exact (blake2_long w hs). Qed.

(** ** Examples *)

(** The MD5 collision of Wang, Feng, Lai and Yu, run through the model after different calls:
    the hypotheses hold and two calls of the compression function collide. *)
Definition wang1 : list N :=
  [209; 49; 221; 2; 197; 230; 238; 196; 105; 61; 154; 6; 152; 175; 249; 92; 47; 202; 181; 135; 18; 70; 126; 171; 64; 4; 88; 62; 184; 251; 127; 137;
   85; 173; 52; 6; 9; 244; 179; 2; 131; 228; 136; 131; 37; 113; 65; 90; 8; 81; 37; 232; 247; 205; 201; 159; 217; 29; 189; 242; 128; 55; 60; 91;
   216; 130; 62; 49; 86; 52; 143; 91; 174; 109; 172; 212; 54; 201; 25; 198; 221; 83; 226; 180; 135; 218; 3; 253; 2; 57; 99; 6; 210; 72; 205; 160;
   233; 159; 51; 66; 15; 87; 126; 232; 206; 84; 182; 112; 128; 168; 13; 30; 198; 152; 33; 188; 182; 168; 131; 147; 150; 249; 101; 43; 111; 247; 42; 112].
Definition wang2 : list N :=
  [209; 49; 221; 2; 197; 230; 238; 196; 105; 61; 154; 6; 152; 175; 249; 92; 47; 202; 181; 7; 18; 70; 126; 171; 64; 4; 88; 62; 184; 251; 127; 137;
   85; 173; 52; 6; 9; 244; 179; 2; 131; 228; 136; 131; 37; 241; 65; 90; 8; 81; 37; 232; 247; 205; 201; 159; 217; 29; 189; 114; 128; 55; 60; 91;
   216; 130; 62; 49; 86; 52; 143; 91; 174; 109; 172; 212; 54; 201; 25; 198; 221; 83; 226; 52; 135; 218; 3; 253; 2; 57; 99; 6; 210; 72; 205; 160;
   233; 159; 51; 66; 15; 87; 126; 232; 206; 84; 182; 112; 128; 40; 13; 30; 198; 152; 33; 188; 182; 168; 131; 147; 150; 249; 101; 171; 111; 247; 42; 112].
Definition md5_memory : st := mkst [1; 2] (repeat 7 64) 5 6.
Definition wang_calls : list (hash_op (p_param Md5.md5)) :=
  [HBase (Absorb FStr [1; 2; 3]); HHexDigest; HBase (Reset true); HBase (Absorb FPtr (firstn 50 wang2)); HBase (Absorb FIter (skipn 50 wang2))].
Example C56_md5_example : in_step rfc_md5_compress rfc_md5_iv (md_inputs 64 (le_bytes 8) wang1) (md_inputs 64 (le_bytes 8) wang2).
Proof.
  pose proof (C56_md5 md5_memory md5_memory [HBase (Absorb FPtr wang1)] wang_calls
    [121; 5; 64; 37; 37; 95; 177; 162; 110; 75; 196; 34; 174; 245; 78; 180]) as H.
  apply H; clear H; try reflexivity; try (vm_compute; reflexivity).
  - repeat constructor.
  - unfold hcalls, wang_calls. repeat (apply Forall_cons || apply Forall_nil); cbn; try reflexivity; try exact I; repeat constructor.
  - vm_compute. discriminate.
Qed.
(** One byte of output makes collisions easy to find: BLAKE2b with 8 bits, with a key, ... *)
Definition b2_memory : b2_mem := (mkst [] (repeat 9 128) 3 4, 77).
Definition b2_calls (b : N) : list (hash_op (p_param (blake2 64 BHash))) := [HBase (SetParam B2Key [1; 2; 3]); HBase (Absorb FPtr [b])].
Example C56_blake2_example :
  let p := mkb2p [1; 2; 3] (zeros 16) (zeros 16) in let ins m := blake2_inputs 64 (key_pad 64 [1; 2; 3] ++ m) in
  in_step_or_out (b2_step 64 false) (init_h 64 (seq_tree 1 (pk p) 0) (ps p) (pp p)) (fun h => firstn 1 (words_bytes (wb 64) h)) (ins [1]) (ins [12]).
Proof.
  assert (B : bits_up_to (8 * 64) 8) by (repeat split; discriminate).
  pose proof (proj1 (C56_blake2_short 64 8 (or_introl eq_refl) B) b2_memory b2_memory (b2_calls 1) (b2_calls 12) [111]) as H.
  apply H; clear H; try reflexivity; try (vm_compute; reflexivity).
  - unfold hcalls, b2_calls. repeat (apply Forall_cons || apply Forall_nil); cbn; repeat constructor.
  - unfold hcalls, b2_calls. repeat (apply Forall_cons || apply Forall_nil); cbn; repeat constructor.
  - vm_compute. discriminate.
Qed.
(** ... and one byte of SHAKE128. *)
Definition shake_memory : shake_mem := (mkst [] (repeat 7 168) 5 6, true, 9).
Example C56_shake_example :
  inner_or_out (absorb_block 24 168) (zeros 25) (keccak_inner 168) (keccak_out 24 168 1)
    (keccak_inputs 168 [true; true; true; true] [25]) (keccak_inputs 168 [true; true; true; true] [31]).
Proof.
  pose proof (proj1 C56_shake shake_memory shake_memory [XBase (Absorb FPtr [25])] [XBase (Absorb FStr [31])] 1%nat [88]) as H.
  apply H; clear H; try reflexivity; try (vm_compute; reflexivity); try exact I; try lia.
  - cbn. repeat constructor.
  - cbn. repeat constructor.
  - vm_compute. discriminate.
Qed.

Definition collide_theorems := (@C56_md5, @C56_sha1, @C56_sha256, @C56_sha512, @C56_sm3, @C56_whirlpool, @C56_streebog512, @C56_blake, @C56_blake2, @C56_sha2_short, @C56_blake_short, @C56_blake2_short, @C56_blake2x, @C56_blake2x_xof, @C56_kupyna, @C56_jh, @C56_groestl, @C56_echo, @C56_streebog, @C56_skein, @C56_skein_xof, @C56_lsh, @C56_blake2p, @C56_blake2p_omp, @C56_sha3, @C56_shake, @C56_cshake, @C56_kmac, @C56_kmacxof, @C56_k12, @C56_ascon, @C56_esch, @C56_long_md, @C56_long_jh, @C56_long_groestl, @C56_long_streebog, @C56_long_blake2).
Print Assumptions collide_theorems.
