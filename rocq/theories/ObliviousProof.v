(** * The functions of Oblivious.v at machine words are the models; parametricity. *)
From Verif Require Import Base Lemmas Absorb Hasher MdState Oblivious.
From Verif Require Import Md5 Sha1 Sha2 Sm3 Keccak Ascon Esch Blake Blake2 Jh Skein Lsh.
From Verif Require Import TTable Whirlpool Groestl Kupyna Streebog Echo.

Local Transparent sparkle jh_step esch_block wp_block.

(** ** Machine words *)
Ltac words := change (axor nalg) with N.lxor; change (aand nalg) with N.land; change (aor nalg) with N.lor;
  change (anot nalg) with notw; change (aadd nalg) with addw; change (ashl nalg) with shlw;
  change (ashr nalg) with shrw; change (cst nalg) with (fun n : N => n);
  change (amul nalg) with (fun w x n : N => trunc w (x * n)); cbv beta.

Lemma gget_N : gget nalg = nthN.
Proof. unfold gget, nthN. words. reflexivity. Qed.
Lemma gtbl_N : gtbl nalg = tbl.
Proof. unfold gtbl, tbl. words. reflexivity. Qed.
Lemma grotr_N : grotr nalg = rotr.
Proof. unfold grotr, rotr. words. reflexivity. Qed.
Lemma grotl_N : grotl nalg = rotl.
Proof. unfold grotl, rotl. words. reflexivity. Qed.
Lemma gshl_c_N : gshl_c nalg = shl_c.
Proof. unfold gshl_c, shl_c. words. reflexivity. Qed.
Lemma gshr_c_N : gshr_c nalg = shr_c.
Proof. unfold gshr_c, shr_c. words. reflexivity. Qed.
Lemma grotl_c_N : grotl_c nalg = rotl_c.
Proof. unfold grotl_c, rotl_c. rewrite ?gshl_c_N. rewrite ?gshr_c_N. words. reflexivity. Qed.
Lemma gswap32_N : gswap32 nalg = byteswap32.
Proof. unfold gswap32, byteswap32. words. reflexivity. Qed.
Lemma gswap64_N : gswap64 nalg = byteswap64.
Proof. unfold gswap64, byteswap64. words. reflexivity. Qed.
Lemma groundf_N : groundf nalg = roundf.
Proof. unfold groundf, roundf. rewrite ?gget_N. rewrite ?grotl_N. words. reflexivity. Qed.
Lemma groundg_N : groundg nalg = roundg.
Proof. unfold groundg, roundg. rewrite ?gget_N. rewrite ?grotl_N. words. reflexivity. Qed.
Lemma groundh_N : groundh nalg = roundh.
Proof. unfold groundh, roundh. rewrite ?gget_N. rewrite ?grotl_N. words. reflexivity. Qed.
Lemma groundi_N : groundi nalg = roundi.
Proof. unfold groundi, roundi. rewrite ?gget_N. rewrite ?grotl_N. words. reflexivity. Qed.
Lemma gfour_N : gfour = four.
Proof. reflexivity. Qed.
Lemma gmd5_block_N : forall H t data, gmd5_block nalg H (le_words 4 16 data) = md5_block H t data.
Proof. intros. unfold gmd5_block, md5_block. cbv zeta. rewrite ?gget_N. rewrite ?groundf_N. rewrite ?groundg_N. rewrite ?groundh_N. rewrite ?groundi_N. rewrite ?gfour_N. words. reflexivity. Qed.
Lemma gsha1_Ch_N : gsha1_Ch nalg = sha1_Ch.
Proof. unfold gsha1_Ch, sha1_Ch. words. reflexivity. Qed.
Lemma gsha1_Parity_N : gsha1_Parity nalg = sha1_Parity.
Proof. unfold gsha1_Parity, sha1_Parity. words. reflexivity. Qed.
Lemma gsha1_Maj_N : gsha1_Maj nalg = sha1_Maj.
Proof. unfold gsha1_Maj, sha1_Maj. words. reflexivity. Qed.
Lemma gsha1_expand_N : gsha1_expand nalg = sha1_expand.
Proof. unfold gsha1_expand, sha1_expand. rewrite ?gget_N. rewrite ?grotl_N. words. reflexivity. Qed.
Lemma gsha1_iter_N : gsha1_iter nalg = sha1_iter.
Proof. unfold gsha1_iter, sha1_iter. rewrite ?gget_N. rewrite ?grotl_N. rewrite ?gsha1_Parity_N. rewrite ?gsha1_Maj_N. words. reflexivity. Qed.
Lemma gsha1_block_N : forall H t data, gsha1_block nalg H (le_words 4 16 data) = sha1_block H t data.
Proof. intros. unfold gsha1_block, sha1_block. cbv zeta. rewrite ?gget_N. rewrite ?gswap32_N. rewrite ?gsha1_Ch_N. rewrite ?gsha1_expand_N. rewrite ?gsha1_iter_N. words. reflexivity. Qed.
Lemma gsha2_byteswap_N : gsha2_byteswap nalg = sha2_byteswap.
Proof. unfold gsha2_byteswap, sha2_byteswap. rewrite ?gswap32_N. rewrite ?gswap64_N. words. reflexivity. Qed.
Lemma gsha2_Ch_N : gsha2_Ch nalg = sha2_Ch.
Proof. unfold gsha2_Ch, sha2_Ch. words. reflexivity. Qed.
Lemma gsha2_Maj_N : gsha2_Maj nalg = sha2_Maj.
Proof. unfold gsha2_Maj, sha2_Maj. words. reflexivity. Qed.
Lemma ggetK_N : ggetK nalg = getK.
Proof. unfold ggetK, getK. words. reflexivity. Qed.
Lemma gsum0_N : gsum0 nalg = sum0.
Proof. unfold gsum0, sum0. rewrite ?grotr_N. words. reflexivity. Qed.
Lemma gsum1_N : gsum1 nalg = sum1.
Proof. unfold gsum1, sum1. rewrite ?grotr_N. words. reflexivity. Qed.
Lemma gsigma0_N : gsigma0 nalg = sigma0.
Proof. unfold gsigma0, sigma0. rewrite ?grotr_N. words. reflexivity. Qed.
Lemma gsigma1_N : gsigma1 nalg = sigma1.
Proof. unfold gsigma1, sigma1. rewrite ?grotr_N. words. reflexivity. Qed.
Lemma gsha2_expand_N : gsha2_expand nalg = sha2_expand.
Proof. unfold gsha2_expand, sha2_expand. rewrite ?gget_N. rewrite ?gsigma0_N. rewrite ?gsigma1_N. words. reflexivity. Qed.
Lemma gsha2_iter_N : gsha2_iter nalg = sha2_iter.
Proof. unfold gsha2_iter, sha2_iter. rewrite ?gget_N. rewrite ?gsha2_Ch_N. rewrite ?gsha2_Maj_N. rewrite ?ggetK_N. rewrite ?gsum0_N. rewrite ?gsum1_N. words. reflexivity. Qed.
Lemma gsha2_block_N : forall T H t data, gsha2_block nalg T H (le_words (wbytes T) 16 data) = sha2_block T H t data.
Proof. intros. unfold gsha2_block, sha2_block. cbv zeta. rewrite ?gget_N. rewrite ?gsha2_byteswap_N. rewrite ?gsha2_expand_N. rewrite ?gsha2_iter_N. words. reflexivity. Qed.
Lemma gsm3_xorf_N : gsm3_xorf nalg = sm3_xorf.
Proof. unfold gsm3_xorf, sm3_xorf. words. reflexivity. Qed.
Lemma gsm3_ff1_N : gsm3_ff1 nalg = sm3_ff1.
Proof. unfold gsm3_ff1, sm3_ff1. words. reflexivity. Qed.
Lemma gsm3_gg1_N : gsm3_gg1 nalg = sm3_gg1.
Proof. unfold gsm3_gg1, sm3_gg1. words. reflexivity. Qed.
Lemma gsm3_p0_N : gsm3_p0 nalg = sm3_p0.
Proof. unfold gsm3_p0, sm3_p0. rewrite ?grotl_N. words. reflexivity. Qed.
Lemma gsm3_p1_N : gsm3_p1 nalg = sm3_p1.
Proof. unfold gsm3_p1, sm3_p1. rewrite ?grotl_N. words. reflexivity. Qed.
Lemma gsm3_expand_N : gsm3_expand nalg = sm3_expand.
Proof. unfold gsm3_expand, sm3_expand. rewrite ?gget_N. rewrite ?grotl_N. rewrite ?gsm3_p1_N. words. reflexivity. Qed.
Lemma gsm3_iter_N : gsm3_iter nalg = sm3_iter.
Proof. unfold gsm3_iter, sm3_iter. rewrite ?gget_N. rewrite ?grotl_N. rewrite ?gsm3_p0_N. words. reflexivity. Qed.
Lemma gsm3_block_N : forall sem H t data, gsm3_block nalg sem H (le_words 4 16 data) = sm3_block sem H t data.
Proof. intros. unfold gsm3_block, sm3_block. cbv zeta. rewrite ?gget_N. rewrite ?gswap32_N. rewrite ?gsm3_xorf_N. rewrite ?gsm3_ff1_N. rewrite ?gsm3_gg1_N. rewrite ?gsm3_expand_N. rewrite ?gsm3_iter_N. words. reflexivity. Qed.
Lemma gkc_round_N : gkc_round nalg = kc_round.
Proof. unfold gkc_round, kc_round. rewrite ?gget_N. rewrite ?grotl_N. words. reflexivity. Qed.
Lemma gkc_perm_N : gkc_perm nalg = kc_perm.
Proof. unfold gkc_perm, kc_perm. rewrite ?gkc_round_N. words. reflexivity. Qed.
Lemma gkc_block_N : forall R r64 H t data, gkc_block nalg R r64 H (le_words 8 r64 data) = kc_block R r64 H t data.
Proof. intros. unfold gkc_block, kc_block. cbv zeta. rewrite ?gkc_perm_N. words. reflexivity. Qed.
Lemma gascon_sub_N : gascon_sub nalg = ascon_sub.
Proof. unfold gascon_sub, ascon_sub. rewrite ?gget_N. words. reflexivity. Qed.
Lemma gascon_lin_N : gascon_lin nalg = ascon_lin.
Proof. unfold gascon_lin, ascon_lin. rewrite ?gget_N. rewrite ?grotr_N. words. reflexivity. Qed.
Lemma gascon_perm_N : gascon_perm nalg = ascon_perm.
Proof. unfold gascon_perm, ascon_perm. rewrite ?gascon_sub_N. rewrite ?gascon_lin_N. words. reflexivity. Qed.
Lemma gascon_block_N : forall H t data, gascon_block nalg H [le_word data] = ascon_block H t data.
Proof. intros. unfold gascon_block, ascon_block. cbv zeta. rewrite ?gget_N. rewrite ?gascon_perm_N. words. reflexivity. Qed.
Lemma gesch_alz_N : gesch_alz nalg = esch_alz.
Proof. unfold gesch_alz, esch_alz. rewrite ?grotr_N. words. reflexivity. Qed.
Lemma gesch_ell_N : gesch_ell nalg = esch_ell.
Proof. unfold gesch_ell, esch_ell. rewrite ?grotr_N. words. reflexivity. Qed.
Lemma gxor_at_N : gxor_at nalg = xor_at.
Proof. unfold gxor_at, xor_at. rewrite ?gget_N. words. reflexivity. Qed.
Lemma gesch_step_N : gesch_step nalg = esch_step.
Proof. unfold gesch_step, esch_step. rewrite ?gget_N. rewrite ?gesch_alz_N. rewrite ?gesch_ell_N. rewrite ?gxor_at_N. words. reflexivity. Qed.
Lemma gsparkle_N : gsparkle nalg = sparkle.
Proof. unfold gsparkle, sparkle. rewrite ?gesch_step_N. words. reflexivity. Qed.
Lemma gesch_block_N : forall hs last H t data, gesch_block nalg hs last H (le_words 4 4 data) = esch_block hs last H t data.
Proof. intros. unfold gesch_block, esch_block. cbv zeta. rewrite ?gget_N. rewrite ?gesch_ell_N. rewrite ?gxor_at_N. rewrite ?gsparkle_N. words. reflexivity. Qed.
Lemma gbl_C_N : gbl_C nalg = bl_C.
Proof. unfold gbl_C, bl_C. words. reflexivity. Qed.
Lemma gbl_swap_N : gbl_swap nalg = bl_swap.
Proof. unfold gbl_swap, bl_swap. rewrite ?gswap32_N. rewrite ?gswap64_N. words. reflexivity. Qed.
Lemma gbl_G_N : gbl_G nalg = bl_G.
Proof. unfold gbl_G, bl_G. rewrite ?gget_N. rewrite ?gtbl_N. rewrite ?grotr_N. rewrite ?gbl_C_N. words. reflexivity. Qed.
Lemma gbl_round_N : gbl_round nalg = bl_round.
Proof. unfold gbl_round, bl_round. rewrite ?gbl_G_N. words. reflexivity. Qed.
Lemma gbl_block_N : forall w padding tb H data,
  gbl_block nalg w padding tb H (le_words (bl_wb w) 16 data) = bl_block w padding tb H data.
Proof. intros. unfold gbl_block, bl_block. cbv zeta. rewrite ?gget_N. rewrite ?gbl_C_N. rewrite ?gbl_swap_N. rewrite ?gbl_round_N. words. reflexivity. Qed.
Lemma gb2_G_N : gb2_G nalg = b2_G.
Proof. unfold gb2_G, b2_G. rewrite ?gget_N. rewrite ?gtbl_N. rewrite ?grotr_N. words. reflexivity. Qed.
Lemma gb2_round_N : gb2_round nalg = b2_round.
Proof. unfold gb2_round, b2_round. rewrite ?gb2_G_N. words. reflexivity. Qed.
Lemma gb2_block_N : forall w tb last lastn H data,
  gb2_block nalg w tb last lastn H (le_words (b2_wb w) 16 data) = b2_block w tb last lastn H data.
Proof. intros. unfold gb2_block, b2_block. cbv zeta. rewrite ?gget_N. rewrite ?gb2_round_N. words. reflexivity. Qed.
Lemma gjh_bitswap1_N : gjh_bitswap1 nalg = jh_bitswap1.
Proof. unfold gjh_bitswap1, jh_bitswap1. words. reflexivity. Qed.
Lemma gjh_bitswap_N : gjh_bitswap nalg = jh_bitswap.
Proof. unfold gjh_bitswap, jh_bitswap. rewrite ?gget_N. rewrite ?gjh_bitswap1_N. words. reflexivity. Qed.
Lemma gjh_sbitsli_N : gjh_sbitsli nalg = jh_sbitsli.
Proof. unfold gjh_sbitsli, jh_sbitsli. words. reflexivity. Qed.
Lemma gjh_lbitsli_N : gjh_lbitsli nalg = jh_lbitsli.
Proof. unfold gjh_lbitsli, jh_lbitsli. rewrite ?gget_N. words. reflexivity. Qed.
Lemma gjh_slayer_N : gjh_slayer nalg = jh_slayer.
Proof. unfold gjh_slayer, jh_slayer. rewrite ?gget_N. rewrite ?gjh_sbitsli_N. words. reflexivity. Qed.
Lemma gjh_round_N : gjh_round nalg = jh_round.
Proof. unfold gjh_round, jh_round. rewrite ?gjh_bitswap_N. rewrite ?gjh_lbitsli_N. rewrite ?gjh_slayer_N. words. reflexivity. Qed.
Lemma gjh_swap_N : gjh_swap nalg = jh_swap.
Proof. unfold gjh_swap, jh_swap. rewrite ?gget_N. words. reflexivity. Qed.
Lemma gjh_rounds7_N : gjh_rounds7 nalg = jh_rounds7.
Proof. unfold gjh_rounds7, jh_rounds7. rewrite ?gjh_round_N. rewrite ?gjh_swap_N. words. reflexivity. Qed.
Lemma gjh_step_N : forall H t data, gjh_step nalg H (le_words 8 8 data) = jh_step H t data.
Proof. intros. unfold gjh_step, jh_step. cbv zeta. rewrite ?gjh_rounds7_N. words. reflexivity. Qed.
Lemma gsk_mix_N : gsk_mix nalg = sk_mix.
Proof. unfold gsk_mix, sk_mix. rewrite ?gget_N. rewrite ?grotl_N. words. reflexivity. Qed.
Lemma gsk_GT_N : gsk_GT nalg = sk_GT.
Proof. unfold gsk_GT, sk_GT. rewrite ?gsk_mix_N. words. reflexivity. Qed.
Lemma gsk_KSt_N : gsk_KSt nalg = sk_KSt.
Proof. unfold gsk_KSt, sk_KSt. rewrite ?gget_N. words. reflexivity. Qed.
Lemma gsk_G8_N : gsk_G8 nalg = sk_G8.
Proof. unfold gsk_G8, sk_G8. rewrite ?gsk_GT_N. rewrite ?gsk_KSt_N. words. reflexivity. Qed.
Lemma gsk_block_N : forall nw reallen h data, gsk_block nalg nw reallen h (le_words 8 nw data) = sk_block nw reallen h data.
Proof. intros. unfold gsk_block, sk_block. cbv zeta. rewrite ?gget_N. rewrite ?gsk_G8_N. words. reflexivity. Qed.
Lemma glsh_expand1_N : glsh_expand1 nalg = lsh_expand1.
Proof. unfold glsh_expand1, lsh_expand1. rewrite ?gget_N. words. reflexivity. Qed.
Lemma glsh_expand_rows_N : glsh_expand_rows nalg = lsh_expand_rows.
Proof. unfold glsh_expand_rows, lsh_expand_rows. rewrite ?glsh_expand1_N. words. reflexivity. Qed.
Lemma glsh_msgexpand_N : forall w data, glsh_msgexpand nalg w (le_words (lsh_wb w) 32 data) = lsh_msgexpand w data.
Proof. intros. unfold glsh_msgexpand, lsh_msgexpand. cbv zeta. rewrite ?glsh_expand_rows_N. words. reflexivity. Qed.
Lemma glsh_addmix_N : glsh_addmix nalg = lsh_addmix.
Proof. unfold glsh_addmix, lsh_addmix. rewrite ?gget_N. rewrite ?grotl_c_N. words. reflexivity. Qed.
Lemma glsh_step1_N : glsh_step1 nalg = lsh_step1.
Proof. unfold glsh_step1, lsh_step1. rewrite ?gget_N. rewrite ?glsh_addmix_N. words. reflexivity. Qed.
Lemma glsh_block_N : forall sem w S t data, glsh_block nalg sem w S (le_words (lsh_wb w) 32 data) = lsh_block sem w S t data.
Proof. intros. unfold glsh_block, lsh_block. cbv zeta. rewrite ?gget_N. rewrite ?glsh_msgexpand_N. rewrite ?glsh_step1_N. words. reflexivity. Qed.

(** *** Lookup tables *)
Lemma gbyte_at_N : gbyte_at nalg = byte_at.
Proof. reflexivity. Qed.
Lemma gwp_G_N : gwp_G nalg tbl = wp_G.
Proof. unfold gwp_G, wp_G, gcol. rewrite ?gbyte_at_N, ?gget_N. words. reflexivity. Qed.
Lemma gwp_round_N : gwp_round nalg tbl = wp_round.
Proof. unfold gwp_round, wp_round. rewrite ?gwp_G_N, ?gget_N. words. reflexivity. Qed.
Lemma gwp_block_N : forall h t data, gwp_block nalg tbl h (le_words 8 8 data) = wp_block h t data.
Proof. intros. unfold gwp_block, wp_block. cbv zeta. rewrite ?gwp_round_N. words. reflexivity. Qed.
Lemma gttable_N : gttable nalg tbl = ttable.
Proof. unfold gttable, ttable, gcol, ttable_col. rewrite ?gbyte_at_N, ?gget_N. words. reflexivity. Qed.
Lemma ggr_roundP_N : ggr_roundP nalg tbl = gr_roundP.
Proof. unfold ggr_roundP, gr_roundP. rewrite ?gttable_N. words. reflexivity. Qed.
Lemma ggr_roundQ_N : ggr_roundQ nalg tbl = gr_roundQ.
Proof. unfold ggr_roundQ, gr_roundQ. rewrite ?gttable_N. words. reflexivity. Qed.
Lemma gku_G_N : gku_G nalg tbl = ku_G.
Proof. unfold gku_G, ku_G. rewrite ?gttable_N. reflexivity. Qed.
Lemma gku_roundP_N : gku_roundP nalg tbl = ku_roundP.
Proof. unfold gku_roundP, ku_roundP. rewrite ?gku_G_N. words. reflexivity. Qed.
Lemma gku_roundQ_N : gku_roundQ nalg tbl = ku_roundQ.
Proof. unfold gku_roundQ, ku_roundQ. rewrite ?gku_G_N. words. reflexivity. Qed.
Lemma gcl_transform_N : gcl_transform nalg = cl_transform.
Proof. unfold gcl_transform, cl_transform. words. reflexivity. Qed.
Lemma gcl_output_N : gcl_output nalg = cl_output.
Proof. unfold gcl_output, cl_output. words. reflexivity. Qed.
Lemma ggr_step_N : forall hs h t data, ggr_step nalg tbl hs h (le_words 8 (cl_R hs) data) = gr_step hs h t data.
Proof. intros. unfold ggr_step, gr_step. rewrite gcl_transform_N, ggr_roundP_N, ggr_roundQ_N. reflexivity. Qed.
Lemma gku_step_N : forall hs h t data, gku_step nalg tbl hs h (le_words 8 (cl_R hs) data) = ku_step hs h t data.
Proof. intros. unfold gku_step, ku_step. rewrite gcl_transform_N, gku_roundP_N, gku_roundQ_N. reflexivity. Qed.

Lemma nth_le_bytes : forall k x i, (i < k)%nat -> nthN i (le_bytes k x) = byte_at x (N.of_nat (8 * i)).
Proof.
  unfold nthN. induction k; intros x i Hi; [lia|]. destruct i; cbn [le_bytes nth]; [reflexivity|].
  rewrite IHk by lia. unfold byte_at. rewrite N.shiftr_shiftr. do 2 f_equal. lia.
Qed.
Lemma nth_words_bytes : forall l j i, (i < 8)%nat ->
  nthN (8 * j + i) (words_bytes 8 l) = byte_at (nthN j l) (N.of_nat (8 * i)).
Proof.
  induction l as [|x l IH]; intros j i Hi.
  - unfold words_bytes, nthN. cbn [flat_map]. destruct (8 * j + i)%nat, j; cbn [nth]; unfold byte_at; rewrite N.shiftr_0_l; reflexivity.
  - unfold words_bytes. cbn [flat_map]. fold (words_bytes 8 l). unfold nthN at 1. destruct j.
    + replace (8 * 0 + i)%nat with i by lia. rewrite app_nth1 by (rewrite le_bytes_length; exact Hi).
      apply (nth_le_bytes 8). exact Hi.
    + rewrite app_nth2 by (rewrite le_bytes_length; lia). rewrite le_bytes_length.
      replace (8 * S j + i - 8)%nat with (8 * j + i)%nat by lia. apply (IH j i Hi).
Qed.
Lemma gsb_lps_block_N : forall b, gsb_lps_block nalg tbl b = sb_lps_block b.
Proof.
  intros b. unfold gsb_lps_block, sb_lps_block. cbv zeta. apply map_ext_in. intros I HI. apply in_seq in HI.
  unfold sb_lps. rewrite gbyte_at_N, gget_N. words. rewrite !nth_words_bytes by lia. reflexivity.
Qed.
Lemma map_id_N : forall l : list N, map (fun n => n) l = l.
Proof. induction l; cbn [map]; congruence. Qed.
Lemma gsb_e_N : forall K m, gsb_e nalg tbl K m = sb_e K m.
Proof.
  intros K m. unfold gsb_e, sb_e, sb_xor. f_equal. words. generalize (map2 N.lxor K m, K).
  generalize (seq 0 12). induction l as [|i l IH]; intros [K' t']; [reflexivity|].
  cbn [fold_left]. rewrite !gsb_lps_block_N, map_id_N. apply IH.
Qed.
Lemma gsb_gN_N : forall Nn h m, gsb_gN nalg tbl Nn h m = sb_gN h m Nn.
Proof. intros. unfold gsb_gN, sb_gN, sb_xor. cbv zeta. rewrite gsb_lps_block_N, gsb_e_N. reflexivity. Qed.
Lemma gec_sub1_N : forall salt c a b, gec_sub1 nalg tbl salt c a b = ec_sub1 salt c a b.
Proof. intros. unfold gec_sub1, ec_sub1, gec_T, ec_T. rewrite gbyte_at_N, gget_N. words. reflexivity. Qed.
Lemma gec_sub1_N' : gec_sub1 nalg tbl = ec_sub1.
Proof. unfold gec_sub1, ec_sub1, gec_T, ec_T. rewrite gbyte_at_N, gget_N. words. reflexivity. Qed.
Lemma gec_sub_words_N : gec_sub_words nalg tbl = ec_sub_words.
Proof. unfold gec_sub_words, ec_sub_words. rewrite gec_sub1_N', gget_N. reflexivity. Qed.
Lemma gec_swap_N : gec_swap nalg = ec_swap.
Proof. unfold gec_swap, ec_swap. rewrite gget_N. reflexivity. Qed.
Lemma gec_shift_rows_N : gec_shift_rows nalg = ec_shift_rows.
Proof. unfold gec_shift_rows, ec_shift_rows. rewrite gec_swap_N. reflexivity. Qed.
Lemma gec_dbl_N : gec_dbl nalg = ec_dbl.
Proof. unfold gec_dbl, ec_dbl. words. reflexivity. Qed.
Lemma gec_mix_column_N : gec_mix_column nalg = ec_mix_column.
Proof. unfold gec_mix_column, ec_mix_column. rewrite gec_dbl_N, gget_N. words. reflexivity. Qed.
Lemma gec_mix_columns_N : gec_mix_columns nalg = ec_mix_columns.
Proof. unfold gec_mix_columns, ec_mix_columns. rewrite gec_mix_column_N. reflexivity. Qed.
Lemma gec_round_N : gec_round nalg tbl = ec_round.
Proof. unfold gec_round, ec_round. rewrite gec_sub_words_N, gec_mix_columns_N, gec_shift_rows_N. reflexivity. Qed.
Lemma gec_block_N : forall hs c sV data,
  gec_block nalg tbl hs c sV (le_words 8 (ec_bs hs / 8) data) = ec_block hs (firstn 2 sV) c (skipn 2 sV) data.
Proof.
  intros. unfold gec_block, ec_block, gec_final256, gec_final512, ec_final256, ec_final512. cbv zeta.
  rewrite gec_round_N, gget_N. words. reflexivity.
Qed.
