(** * cSHAKE, KMAC and Streebog for all inputs. *)
From Coq Require Import Lia.
From Verif Require Import Base Lemmas Hasher HasherSpec HasherProof HasherWhen KeccakSpec Sha3Spec Keccak Shake
  ShakeProof Kmac KmacProof Streebog StreebogSpec StreebogProof MdState Validate CodedSpec
  Absorb WordLemmas AbsorbProof SpecCommon MdProof BufProof TableLemmas GfSpec ConstStreebog.

(** Specifications with equal outputs are interchangeable. *)
Lemma implements_ext P S f g clr fresh : (forall p msg, bytes_ok msg -> f p msg = g p msg) ->
  implements P (with_digest S f) clr fresh -> implements P (with_digest S g) clr fresh.
Proof.
  intros E H ops Hops.
  apply (implements_restrict P (with_digest S g) (fun _ _ => True) clr fresh f (fun p msg Hm _ => E p msg Hm) H ops Hops).
  generalize (afresh (with_digest S g)). clear Hops. induction ops as [|o r IH]; intros a; cbn; [exact I|].
  split; [destruct o; exact I|apply IH].
Qed.
Lemma ximplements_ext P S f g clr fresh : (forall p msg n, f p msg n = g p msg n) ->
  ximplements P (with_out S f) clr fresh -> ximplements P (with_out S g) clr fresh.
Proof.
  intros E H ops Hops.
  apply (ximplements_restrict P (with_out S g) (fun _ => True) clr fresh f (fun p msg n _ => E p msg n) H ops Hops).
  generalize (xfresh (with_out S g)). clear Hops. induction ops as [|o r IH]; intros a; cbn; [exact I|].
  split; [destruct o; exact I|apply IH].
Qed.

Section Cshake.
  Variables (B : N) (r64 sec : nat).
  Hypothesis Hr64 : (1 <= r64 <= 21)%nat.
  Hypothesis Hrate : shake_rate B = N.of_nat (64 * r64).
  Hypothesis Hsec : (8 * r64 = 200 - 2 * sec)%nat.
  Hypothesis Hpad : (if B =? 128 then 168%nat else 136%nat) = (8 * r64)%nat.

  Lemma coded_eq fn cust msg n : cshake_code r64 sec (fn, cust) msg n = cshake_coded sec fn cust msg n.
  Proof.
    unfold cshake_code, cshake_coded, bytepad_always, hdr, hdr_z. cbn [fst snd]. rewrite !Hsec.
    destruct fn; [destruct cust; reflexivity|]. reflexivity.
  Qed.

  Lemma cshake_coded_ok g sq sfx : length (sm g) = 168%nat ->
    ximplements (cshake B 24) (cshake_coded_spec sec) true (fresh_of (shake_ctor g sq sfx) (shake_init B 24)).
  Proof.
    intros Hg. apply (ximplements_ext (cshake B 24) (cshake_spec sec) (cshake_code r64 sec)).
    - intros [fn cust] msg n. apply coded_eq.
    - apply (cshake_code_implements B r64 sec); auto.
  Qed.

  Lemma kmacxof_coded_ok g sq1 sfx sq : length (sm g) = 168%nat ->
    ximplements (kmacxof B) (kmacxof_coded_spec sec) true
      (fresh_of (kmac_ctor_static B 0 sq (new_shake g sq1 sfx)) (kmac_init B)).
  Proof.
    intros Hg. apply (ximplements_ext (kmacxof B) (kmacxof_spec sec) (kmac_code r64 sec 0)).
    - intros p msg n. apply coded_eq.
    - apply (kmacxof_code_implements B r64 sec); auto.
  Qed.
  Lemma kmac_coded_ok hs g sq1 sfx sq : hs < 2 ^ 64 -> 0 < hs -> hs mod 8 = 0 -> length (sm g) = 168%nat ->
    implements (kmac B) (kmac_coded_spec sec hs) true
      (fresh_of (kmac_ctor B hs sq (new_shake g sq1 sfx)) (kmac_init B)) /\
    implements (kmac B) (kmac_coded_spec sec hs) true
      (fresh_of (kmac_ctor_static B hs sq (new_shake g sq1 sfx)) (kmac_init B)).
  Proof.
    intros H1 H2 H3 Hg. split; apply (implements_ext (kmac B) (kmac_spec sec hs) (kmac_digest r64 sec hs)).
    - intros p msg _. apply coded_eq.
    - apply (kmac_code_implements B r64 sec); auto.
    - intros p msg _. apply coded_eq.
    - apply (kmac_static_code_implements B r64 sec); auto.
  Qed.
End Cshake.

(** ** Streebog *)
Definition bitc (c : bool) : N := if c then 1 else 0.
Lemma sb_addm_cons c m0 m h0 h : m0 < 2 ^ 64 -> h0 < 2 ^ 64 ->
  sb_addm c (m0 :: m) (h0 :: h)
  = (h0 + m0 + bitc c) mod 2 ^ 64 :: sb_addm (2 ^ 64 <=? h0 + m0) m h.
Proof.
  intros Hm Hh. cbn [sb_addm]. unfold addw, bitc. rewrite !trunc_mod.
  rewrite N.add_mod_idemp_l by discriminate. f_equal. f_equal.
  change (2 ^ 64) with 0x10000000000000000 in *.
  destruct (N.leb_spec 0x10000000000000000 (h0 + m0)) as [L|L].
  - replace ((h0 + m0) mod 0x10000000000000000) with (h0 + m0 - 0x10000000000000000)
      by (apply N.mod_unique with 1; lia).
    apply Bool.orb_true_iff. left. apply N.ltb_lt. lia.
  - rewrite N.mod_small by exact L. apply Bool.orb_false_iff.
    split; apply N.ltb_ge; lia.
Qed.
Lemma bitc_div x : x < 2 * 2 ^ 64 -> bitc (2 ^ 64 <=? x) = x / 2 ^ 64.
Proof.
  intros H. change (2 ^ 64) with 0x10000000000000000 in *.
  destruct (N.leb_spec 0x10000000000000000 x); cbn [bitc];
    [apply N.div_unique with (x - 0x10000000000000000)|symmetry; apply N.div_small]; lia.
Qed.

Lemma dig_first w v : w < 2 ^ 64 -> dig (w + 2 ^ 64 * v) 0 = w.
Proof.
  intros H. unfold dig. rewrite N.mul_0_r, N.pow_0_r, N.div_1_r, N.mul_comm, N.mod_add by discriminate.
  apply N.mod_small. exact H.
Qed.
Lemma dig_next w v i : w < 2 ^ 64 -> 0 < i -> dig (w + 2 ^ 64 * v) i = dig v (i - 1).
Proof.
  intros H Hi. unfold dig. replace (64 * i) with (64 + 64 * (i - 1)) by lia.
  rewrite N.pow_add_r, <- N.div_div by (apply N.pow_nonzero; discriminate).
  rewrite (N.mul_comm (2 ^ 64)), N.div_add by discriminate. rewrite (N.div_small w) by exact H. reflexivity.
Qed.
Lemma dig_wval l : words_ok 64 l -> forall i, dig (wval l) (N.of_nat i) = nth i l 0.
Proof.
  induction 1 as [|w l Hw Hl IH]; intros [|i].
  - reflexivity.
  - unfold dig. cbn [wval]. rewrite N.div_0_l by (apply N.pow_nonzero; discriminate). reflexivity.
  - exact (dig_first w (wval l) Hw).
  - cbn [wval nth]. rewrite dig_next by (auto; lia). rewrite <- IH. f_equal. lia.
Qed.

(** The digits which the code computes. *)
Lemma sb_addm_nth m : forall c h i, words_ok 64 m -> words_ok 64 h -> length h = length m -> (i < length m)%nat ->
  nth i (sb_addm c m h) 0
  = (nth i h 0 + nth i m 0 + match i with O => bitc c | S j => (nth j h 0 + nth j m 0) / 2 ^ 64 end) mod 2 ^ 64.
Proof.
  induction m as [|m0 m IH]; intros c [|h0 h] i Hm Hh L Hi; try discriminate L; [cbn in Hi; lia|].
  inversion_clear Hm as [|? ? M1 M2]. inversion_clear Hh as [|? ? G1 G2].
  rewrite sb_addm_cons by assumption. destruct i as [|i]; [reflexivity|].
  cbn [nth length] in *. rewrite IH by (auto; lia). destruct i; [|reflexivity].
  rewrite bitc_div; [reflexivity|]. change (2 ^ 64) with 0x10000000000000000 in *. lia.
Qed.

Lemma wval8 l : length l = 8%nat ->
  wval l = fold_right (fun i r => nth (N.to_nat i) l 0 * 2 ^ (64 * i) + r) 0 [0; 1; 2; 3; 4; 5; 6; 7].
Proof.
  intros L. do 8 (destruct l as [|? l]; [discriminate L|]). destruct l; [|discriminate L].
  cbn [fold_right wval]. rewrite ?N2Nat.id.
  change (N.to_nat 0) with 0%nat. change (N.to_nat 1) with 1%nat. change (N.to_nat 2) with 2%nat.
  change (N.to_nat 3) with 3%nat. change (N.to_nat 4) with 4%nat. change (N.to_nat 5) with 5%nat.
  change (N.to_nat 6) with 6%nat. change (N.to_nat 7) with 7%nat. cbn [nth].
  change (64 * 0) with 0. change (64 * 1) with 64. change (64 * 2) with (64 + 64).
  change (64 * 3) with (64 + (64 + 64)). change (64 * 4) with (64 + (64 + (64 + 64))).
  change (64 * 5) with (64 + (64 + (64 + (64 + 64)))). change (64 * 6) with (64 + (64 + (64 + (64 + (64 + 64))))).
  change (64 * 7) with (64 + (64 + (64 + (64 + (64 + (64 + 64)))))).
  rewrite !N.pow_add_r, N.pow_0_r. set (W := 2 ^ 64). ring.
Qed.

Lemma sb_sum_coded s m : s < 2 ^ 512 -> m < 2 ^ 512 -> sb_sum s m = coded_sum s m.
Proof.
  intros Hs Hm. unfold sb_sum, coded_sum.
  set (ws := le_words 8 8 (le_bytes 64 s)). set (wm := le_words 8 8 (le_bytes 64 m)).
  assert (Ls : length ws = 8%nat) by apply le_words_length.
  assert (Lm : length wm = 8%nat) by apply le_words_length.
  assert (Os : words_ok 64 ws) by exact (le_words_lt 8 8 _ (le_bytes_ok 64 s)).
  assert (Om : words_ok 64 wm) by exact (le_words_lt 8 8 _ (le_bytes_ok 64 m)).
  assert (Vs : wval ws = s) by (apply wval_words; exact Hs).
  assert (Vm : wval wm = m) by (apply wval_words; exact Hm).
  clearbody ws wm. subst s m.
  rewrite wval8 by (rewrite sb_addm_length; congruence).
  assert (E : forall i, (i < 8)%nat ->
    nth i (sb_addm false wm ws) 0
    = (dig (wval ws) (N.of_nat i) + dig (wval wm) (N.of_nat i) + coded_carry (wval ws) (wval wm) (N.of_nat i)) mod 2 ^ 64).
  { intros i Hi. rewrite sb_addm_nth by (auto; congruence || lia). rewrite !dig_wval by assumption. do 2 f_equal.
    unfold coded_carry. destruct i as [|i]; [reflexivity|].
    replace (N.of_nat (S i) - 1) with (N.of_nat i) by lia. rewrite !dig_wval by assumption.
    destruct (N.eqb_spec (N.of_nat (S i)) 0); [lia|reflexivity]. }
  cbn [fold_right].
  rewrite (E (N.to_nat 0)), (E (N.to_nat 1)), (E (N.to_nat 2)), (E (N.to_nat 3)), (E (N.to_nat 4)),
    (E (N.to_nat 5)), (E (N.to_nat 6)), (E (N.to_nat 7)) by (apply Nat.ltb_lt; reflexivity).
  rewrite !N2Nat.id. reflexivity.
Qed.
Lemma coded_sum_lt s m : s < 2 ^ 512 -> m < 2 ^ 512 -> coded_sum s m < 2 ^ 512.
Proof.
  intros Hs Hm. rewrite <- sb_sum_coded by assumption. unfold sb_sum.
  match goal with |- wval ?l < _ => pose proof (sb_s_lt l) as H; assert (L : length l = 8%nat) end.
  { rewrite sb_addm_length; rewrite ?le_words_length; reflexivity. }
  rewrite L in H. apply H. apply sb_addm_ok.
Qed.

Lemma stage2_coded ms : forall h t s, Forall (block_ok 64) ms -> s < 2 ^ 512 ->
  fold_left (sbs_stage2 add64 sb_sum) ms (h, t, s) = fold_left (sbs_stage2 coded_count coded_sum) ms (h, t, s) /\
  snd (fold_left (sbs_stage2 coded_count coded_sum) ms (h, t, s)) < 2 ^ 512.
Proof.
  induction ms as [|m ms IH]; intros h t s Hms Hs; [split; [reflexivity|exact Hs]|].
  inversion_clear Hms as [|? ? [Lm Om] Hms']. cbn [fold_left]. unfold sbs_stage2 at 2 4 6.
  assert (Hm : le_word m < 2 ^ 512) by (pose proof (le_word_lt m Om) as X; rewrite Lm in X; exact X).
  rewrite sb_sum_coded by assumption. apply IH; [exact Hms'|apply coded_sum_lt; assumption].
Qed.

Section Streebog.
  Variable hs : N.
  Lemma sb_code_coded msg : bytes_ok msg -> sb_code hs msg = sbs_hash_with coded_count coded_sum hs msg.
  Proof.
    intros Hb. unfold sb_code, sbs_hash_with. f_equal.
    assert (D : (length msg = 64 * (length msg / 64) + length msg mod 64)%nat) by (apply Nat.div_mod; lia).
    assert (M : (length msg mod 64 < 64)%nat) by (apply Nat.mod_upper_bound; lia).
    assert (Of : Forall (block_ok 64) (sbs_full msg)).
    { unfold sbs_full. pose proof (blocks_n_app (length msg / 64) 0 64 (firstn (length msg / 64 * 64) msg)
        (skipn (length msg / 64 * 64) msg) ltac:(rewrite firstn_length; lia)) as E.
      rewrite firstn_skipn, Nat.add_0_r in E. rewrite E. cbn [blocks_n]. rewrite app_nil_r.
      apply blocks_n_ok; [rewrite firstn_length; lia|apply Forall_firstn; exact Hb]. }
    assert (Lr : length (sbs_rest msg) = (length msg mod 64)%nat)
      by (unfold sbs_rest; rewrite skipn_length; lia).
    destruct (stage2_coded (sbs_full msg) (sbs_iv hs) 0 0 Of ltac:(reflexivity)) as [E1 E2].
    rewrite E1. revert E2.
    destruct (fold_left (sbs_stage2 coded_count coded_sum) (sbs_full msg) (sbs_iv hs, 0, 0)) as [[h t] s].
    cbn [snd]. intros Hs. unfold sbs_stage3. cbv zeta.
    assert (Hm : le_word (sbs_last (sbs_rest msg)) < 2 ^ 512).
    { assert (O : bytes_ok (sbs_last (sbs_rest msg))).
      { unfold sbs_last. apply bytes_ok_app; [apply Forall_skipn; exact Hb|].
        apply bytes_ok_app; [repeat constructor|apply bytes_ok_zeros]. }
      pose proof (le_word_lt _ O) as X.
      replace (length (sbs_last (sbs_rest msg))) with 64%nat in X; [exact X|].
      unfold sbs_last. rewrite !app_length, zeros_length. cbn [length]. lia. }
    rewrite sb_sum_coded by assumption. reflexivity.
  Qed.

  Hypothesis Hh : hs = 256 \/ hs = 512.
  Lemma streebog_coded_ok g : length (sm g) = 64%nat ->
    implements streebog (streebog_coded_spec hs) true (fresh_of (sb_ctor hs g) sb_init) /\
    implements streebog (streebog_coded_spec hs) true (fresh_of (sb_ctor_static hs g) sb_init).
  Proof.
    intros Hg. destruct (streebog_code_implements hs Hh g Hg) as [I1 I2].
    split; apply (implements_ext streebog (streebog_spec hs) (fun _ msg => sb_code hs msg));
      auto; intros p msg; apply sb_code_coded.
  Qed.
End Streebog.

(** ** The excess block of the cSHAKE header *)
Lemma bytepad_cases X w : (0 < w)%nat ->
  bytepad_always X w = bytepad X w ++ zeros (if (length (left_enc (N.of_nat w) ++ X) mod w =? 0)%nat then w else 0).
Proof.
  intros Hw. unfold bytepad_always, bytepad. cbv zeta. set (z := left_enc (N.of_nat w) ++ X).
  rewrite <- app_assoc. unfold zeros. rewrite <- repeat_app. f_equal. f_equal.
  pose proof (Nat.mod_upper_bound (length z) w ltac:(lia)) as M. revert M. generalize (length z mod w)%nat as x.
  intros x M. destruct (Nat.eqb_spec x 0) as [->|E].
  - rewrite Nat.sub_0_r, Nat.mod_same by lia. reflexivity.
  - rewrite (Nat.mod_small (w - x)) by lia. lia.
Qed.
Lemma coded_cases s fn cust msg n : fn ++ cust <> [] ->
  cshake_coded s fn cust msg n = keccak_c (200 - 2 * s) [false; false]
    (bytepad_always (encode_string fn ++ encode_string cust) (200 - 2 * s) ++ msg) n /\
  cshake_xof s fn cust msg n = keccak_c (200 - 2 * s) [false; false] (cshake_header s fn cust ++ msg) n.
Proof.
  intros H. unfold cshake_coded, cshake_xof.
  destruct fn; [destruct cust; [contradiction|]|]; split; reflexivity.
Qed.
Lemma cshake_coded_fits s fn cust msg n : (s < 100)%nat -> hdr_fits s fn cust ->
  cshake_coded s fn cust msg n = cshake_xof s fn cust msg n.
Proof.
  intros Hs H. destruct (list_eq_dec N.eq_dec (fn ++ cust) []) as [E|E].
  - destruct fn; [|discriminate E]. cbn [app] in E. subst cust. reflexivity.
  - destruct (coded_cases s fn cust msg n E) as [-> ->]. specialize (H E).
    rewrite bytepad_cases by lia. apply Nat.eqb_neq in H. rewrite H, app_nil_r. reflexivity.
Qed.
Lemma cshake_coded_spills s fn cust msg n : (s < 100)%nat -> ~ hdr_fits s fn cust ->
  cshake_coded s fn cust msg n = cshake_xof s fn cust (zeros (200 - 2 * s) ++ msg) n.
Proof.
  intros Hs H. destruct (list_eq_dec N.eq_dec (fn ++ cust) []) as [E|E].
  - contradiction H. intros F. contradiction.
  - rewrite (proj1 (coded_cases s fn cust msg n E)), (proj2 (coded_cases s fn cust (zeros (200 - 2 * s) ++ msg) n E)).
    rewrite bytepad_cases by lia.
    destruct (Nat.eqb_spec (length (left_enc (N.of_nat (200 - 2 * s)) ++ encode_string fn ++ encode_string cust) mod (200 - 2 * s)) 0)
      as [Z|Z]; [|contradiction H; intros _; exact Z].
    rewrite <- app_assoc. reflexivity.
Qed.
