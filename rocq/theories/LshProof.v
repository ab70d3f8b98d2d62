(** * LSH: with masked shifts the provider implements KS X 3262; with the C++ meaning of
    shifts no object can be constructed. *)
From Verif Require Import Base Absorb Hasher HasherSpec Lemmas WordLemmas AbsorbProof HasherProof
  MdState SpecCommon MdProof BufProof TableLemmas Validate ConstLsh Lsh LshSpec.

Definition wide (w : N) : Prop := w = 32 \/ w = 64.

(** ** Rotations. *)
Lemma ROTL_lt w n x : x < 2 ^ w -> ROTL w n x < 2 ^ w.
Proof.
  intros H. unfold ROTL. apply lor_lt; [apply N.mod_lt, N.pow_nonzero; discriminate|].
  apply N.le_lt_trans with x; [|exact H]. apply N.div_le_upper_bound; [apply N.pow_nonzero; discriminate|].
  rewrite <- (N.mul_1_l x) at 1. apply N.mul_le_mono_r.
  pose proof (N.pow_nonzero 2 (w - n) ltac:(discriminate)). lia.
Qed.

Lemma rotl_c_masked w x n : wide w -> n < w -> x < 2 ^ w -> rotl_c Masked w x n = Ok (ROTL w n x).
Proof.
  intros Hw Hn Hx. unfold rotl_c, shl_c. replace (n <? w) with true by (symmetry; apply N.ltb_lt; exact Hn).
  cbn [bind]. assert (Es : subw 32 w n = w - n).
  { unfold subw. rewrite !trunc_mod. destruct Hw as [E|E]; rewrite E in *; clear - Hn.
    - rewrite (N.mod_small n) by lia. 
      change (N.ones 32 + 1) with (2 ^ 32).
      replace (32 + (2 ^ 32 - n)) with ((32 - n) + 1 * 2 ^ 32) by lia.
      rewrite N.mod_add by discriminate. apply N.mod_small. lia.
    - rewrite (N.mod_small n) by lia. 
      change (N.ones 32 + 1) with (2 ^ 32).
      replace (64 + (2 ^ 32 - n)) with ((64 - n) + 1 * 2 ^ 32) by lia.
      rewrite N.mod_add by discriminate. apply N.mod_small. lia. }
  rewrite Es. unfold shr_c. destruct (N.ltb_spec (w - n) w) as [G|G].
  - cbn [bind]. f_equal. rewrite <- rotl_ROTL. reflexivity.
  - assert (n = 0) by lia. subst n. rewrite N.sub_0_r, N.mod_same by lia. cbn [bind]. f_equal.
    unfold ROTL. rewrite shlw_mul, N.sub_0_r. rewrite (N.div_small x) by exact Hx.
    change (2 ^ 0) with 1. rewrite N.mul_1_r, N.mod_small by exact Hx. rewrite shrw_SHR. unfold SHR.
    change (2 ^ 0) with 1. rewrite N.div_1_r, N.lor_0_r. apply N.lor_diag.
Qed.

(** ** The block function without the UB wrapper. *)
Definition lshp_mix (w : N) (cv me : list N) (i l : nat) (alpha beta : N) : N * N :=
  let x := N.lxor (nthN l cv) (nthN l me) in
  let y := N.lxor (nthN (l + 8) cv) (nthN (l + 8) me) in
  let x := N.lxor (ROTL w alpha (plus_mod w x y)) (lsh_sc w i l) in
  let y := ROTL w beta (plus_mod w x y) in
  (plus_mod w x y, ROTL w (lsh_gamma w l) y).
Definition lshp_t (w : N) (me : list (list N)) (cv : list N) (i : nat) (alpha beta : N) : list N :=
  let ps := map (fun l => lshp_mix w cv (nth i me []) i l alpha beta) (seq 0 8) in
  map fst ps ++ map snd ps.
Definition lshp_step (w : N) (me : list (list N)) (cv : list N) (i : nat) (alpha beta : N) : list N :=
  map (fun j => nthN j (lshp_t w me cv i alpha beta)) [6; 4; 5; 7; 12; 15; 14; 13; 2; 0; 1; 3; 8; 11; 10; 9]%nat.
Definition lshp_two (w : N) (me : list (list N)) (ct : list N * list N) (k : nat) : list N * list N :=
  let cv := lshp_step w me (fst ct) (2 * k) (lsh_ab w 0) (lsh_ab w 1) in
  (lshp_step w me cv (2 * k + 1) (lsh_ab w 2) (lsh_ab w 3), lshp_t w me cv (2 * k + 1) (lsh_ab w 2) (lsh_ab w 3)).
Definition lsh_pure (w : N) (S : list N) (_ : N) (data : list N) : list N :=
  let me := lsh_msgexpand w data in
  let ct := fold_left (lshp_two w me) (seq 0 (lsh_NS w / 2)) (firstn 16 S, firstn 16 (skipn 16 S)) in
  map (fun i => N.lxor (nthN i (fst ct)) (nthN i (nth (lsh_NS w) me []))) (seq 0 16) ++ snd ct ++ concat me.

Lemma lsh_counts w : wide w -> (forall l, (l < 4)%nat -> lsh_ab w l < w) /\ (forall l, (l < 8)%nat -> lsh_gamma w l < w).
Proof.
  intros [E|E]; rewrite E; split; intros l Hl;
    do 8 (destruct l as [|l]; [first [reflexivity|lia]|]); lia.
Qed.

Lemma fold_app_map {A B} (f : A -> B) l : forall acc,
  fold_left (fun acc x => acc ++ [f x]) l acc = acc ++ map f l.
Proof.
  induction l as [|x l IH]; intros acc; cbn [fold_left map]; [rewrite app_nil_r; reflexivity|].
  rewrite IH, <- app_assoc. reflexivity.
Qed.

Lemma lsh_step1_pure w me cv i alpha beta : wide w -> alpha < w -> beta < w ->
  lsh_step1 Masked w me cv i alpha beta = Ok (lshp_step w me cv i alpha beta, lshp_t w me cv i alpha beta).
Proof.
  intros Hw Ha Hb. unfold lsh_step1.
  rewrite (fold_res_ok _ (fun acc l => acc ++ [lshp_mix w cv (nth i me []) i l alpha beta])).
  - cbn [bind]. rewrite fold_app_map. reflexivity.
  - intros acc l Hl. apply in_seq in Hl. unfold lsh_addmix. cbv zeta.
    rewrite !addw_plus. rewrite rotl_c_masked by (auto; apply plus_mod_lt). cbn [bind].
    rewrite !addw_plus. rewrite rotl_c_masked by (auto; apply plus_mod_lt). cbn [bind].
    rewrite rotl_c_masked; [|exact Hw|apply lsh_counts; [exact Hw|lia]|apply ROTL_lt, plus_mod_lt].
    cbn [bind]. rewrite addw_plus. reflexivity.
Qed.

Lemma lsh_block_pure w S t b : wide w -> lsh_block Masked w S t b = Ok (lsh_pure w S t b).
Proof.
  intros Hw. unfold lsh_block, lsh_pure. cbv zeta.
  destruct (lsh_counts w Hw) as [Hab _].
  rewrite (fold_res_ok _ (lshp_two w (lsh_msgexpand w b))).
  - cbn [bind]. destruct (fold_left _ _ _) as [cv t']. reflexivity.
  - intros [cv t'] k _. cbn [fst]. rewrite lsh_step1_pure by (auto; apply Hab; lia). cbn [bind].
    rewrite lsh_step1_pure by (auto; apply Hab; lia). reflexivity.
Qed.

(** ** The compression function. *)
Lemma le_words_split k a b : forall d, le_words k (a + b) d = le_words k a d ++ le_words k b (skipn (a * k) d).
Proof.
  induction a as [|a IH]; intros d; [reflexivity|]. cbn [Nat.add le_words app Nat.mul]. f_equal.
  rewrite IH, skipn_skipn. replace (a * k + k)%nat with (k + a * k)%nat by lia. reflexivity.
Qed.

Lemma lsh_expand1_ok w a b :
  lsh_expand1 w a b = map (fun l => plus_mod w (nth l a 0) (nth (lss_tau l) b 0)) (seq 0 16).
Proof. unfold lsh_expand1. cbn [map seq fst snd]. rewrite !addw_plus. reflexivity. Qed.

Lemma lsh_rows_ok w block n : forall j i, (i < n)%nat ->
  nth i (lsh_expand_rows w n (snd (lss_MM w block j)) (fst (lss_MM w block j))) [] = lss_M w block (j + 2 + i).
Proof.
  induction n as [|n IH]; intros j i Hi; [lia|]. cbn [lsh_expand_rows]. cbv zeta. rewrite lsh_expand1_ok.
  assert (E : lss_MM w block (S j) = (snd (lss_MM w block j),
     map (fun l => plus_mod w (nth l (snd (lss_MM w block j)) 0) (nth (lss_tau l) (fst (lss_MM w block j)) 0)) (seq 0 16))).
  { cbn [lss_MM]. destruct (lss_MM w block j). reflexivity. }
  destruct i as [|i]; cbn [nth].
  - replace (j + 2 + 0)%nat with (S (S j)) by lia. unfold lss_M. cbn [lss_MM].
    cbn [lss_MM] in E. rewrite E. reflexivity.
  - specialize (IH (S j) i ltac:(lia)). rewrite E in IH. cbn [fst snd] in IH. rewrite IH. f_equal. lia.
Qed.

Lemma lsh_msgexpand_ok w b i : wide w -> (i <= lsh_NS w)%nat ->
  nth i (lsh_msgexpand w b) [] = lss_M w b i.
Proof.
  intros Hw Hi. unfold lsh_msgexpand. cbv zeta.
  assert (Ew : le_words (lsh_wb w) 32 b =
    le_words (N.to_nat (w / 8)) 16 b ++ le_words (N.to_nat (w / 8)) 16 (skipn (N.to_nat (2 * w)) b)).
  { replace (N.to_nat (2 * w)) with (16 * N.to_nat (w / 8))%nat by (destruct Hw as [E|E]; rewrite E; reflexivity).
    apply (le_words_split (lsh_wb w) 16 16). }
  rewrite Ew. rewrite firstn_app_exact, skipn_app_exact by (rewrite le_words_length; reflexivity).
  destruct i as [|[|i]]; cbn [nth]; [reflexivity|reflexivity|].
  exact (lsh_rows_ok w b (lsh_NS w - 1) 0 i ltac:(lia)).
Qed.

Lemma lsh_sc_ok w i l : wide w -> (i < lsh_NS w)%nat -> lsh_sc w i l = nth l (lss_SC w i) 0.
Proof.
  intros Hw Hi. unfold lsh_sc, nthN. f_equal.
  assert (E : (if w =? 32 then lsh_SC256 else lsh_SC512) = map (lss_SC w) (seq 0 (lsh_NS w)))
    by (destruct Hw as [E|E]; rewrite E; vm_compute; reflexivity).
  rewrite E. rewrite (nth_indep _ [] (lss_SC w 0)) by (rewrite map_length, seq_length; exact Hi).
  rewrite map_nth, seq_nth by exact Hi. reflexivity.
Qed.

Lemma lss_M_length w b j : length (lss_M w b j) = 16%nat.
Proof.
  unfold lss_M. assert (G : length (fst (lss_MM w b j)) = 16%nat /\ length (snd (lss_MM w b j)) = 16%nat); [|tauto].
  induction j; cbn [lss_MM]; [split; apply le_words_length|].
  destruct (lss_MM w b j) as [x y]. cbn [fst snd] in *. split; [tauto|reflexivity].
Qed.

Lemma lshp_step_ok w b cv i : wide w -> (i < lsh_NS w)%nat -> length cv = 16%nat ->
  lshp_step w (lsh_msgexpand w b) cv i (lss_alpha w i) (lss_beta w i) = lss_step w b cv i.
Proof.
  intros Hw Hi Hc. unfold lshp_step, lss_step, lshp_t. rewrite lsh_msgexpand_ok by (auto; lia).
  pose proof (lss_M_length w b i) as HM. revert HM. generalize (lss_M w b i). intros M HM. cbv zeta.
  assert (E : forall l, (l < 8)%nat -> lshp_mix w cv M i l (lss_alpha w i) (lss_beta w i) =
    lss_mix w i l (nth l (map2 N.lxor cv M) 0) (nth (l + 8) (map2 N.lxor cv M) 0)).
  { intros l Hl. rewrite !map2_nth by lia. unfold lshp_mix, lss_mix. cbv zeta.
    rewrite lsh_sc_ok by auto. reflexivity. }
  assert (T : map fst (map (fun l => lshp_mix w cv M i l (lss_alpha w i) (lss_beta w i)) (seq 0 8)) ++
    map snd (map (fun l => lshp_mix w cv M i l (lss_alpha w i) (lss_beta w i)) (seq 0 8)) =
    map (fun l => if (l <? 8)%nat
      then fst (lss_mix w i l (nth l (map2 N.lxor cv M) 0) (nth (l + 8) (map2 N.lxor cv M) 0))
      else snd (lss_mix w i (l - 8) (nth (l - 8) (map2 N.lxor cv M) 0) (nth (l - 8 + 8) (map2 N.lxor cv M) 0))) (seq 0 16)).
  { cbn [seq map Nat.ltb Nat.leb Nat.sub Nat.add app]. rewrite !E by lia. cbn [Nat.add]. reflexivity. }
  rewrite T. match goal with |- map (fun j => nthN j ?X) _ = _ => generalize X end. intros X. reflexivity.
Qed.

Lemma lshp_step_length w me cv i a b : length (lshp_step w me cv i a b) = 16%nat.
Proof. reflexivity. Qed.

Lemma lsh_ab_ok w k : wide w ->
  lsh_ab w 0 = lss_alpha w (2 * k) /\ lsh_ab w 1 = lss_beta w (2 * k) /\
  lsh_ab w 2 = lss_alpha w (2 * k + 1) /\ lsh_ab w 3 = lss_beta w (2 * k + 1).
Proof.
  intros Hw. unfold lss_alpha, lss_beta.
  replace (Nat.even (2 * k)) with true by (symmetry; apply Nat.even_spec; exists k; lia).
  replace (Nat.even (2 * k + 1)) with false
    by (symmetry; rewrite Nat.add_1_r, Nat.even_succ, <- Nat.negb_even;
        replace (Nat.even (2 * k)) with true; [reflexivity|symmetry; apply Nat.even_spec; exists k; lia]).
  destruct Hw as [E|E]; rewrite E; repeat split; reflexivity.
Qed.

Lemma lshp_rounds_ok w b n : forall m ct, wide w -> (2 * (m + n) <= lsh_NS w)%nat -> length (fst ct) = 16%nat ->
  fst (fold_left (lshp_two w (lsh_msgexpand w b)) (seq m n) ct) =
  fold_left (lss_step w b) (seq (2 * m) (2 * n)) (fst ct) /\
  length (fst (fold_left (lshp_two w (lsh_msgexpand w b)) (seq m n) ct)) = 16%nat.
Proof.
  induction n as [|n IH]; intros m ct Hw Hn Hc; [split; [reflexivity|exact Hc]|].
  cbn [seq fold_left]. replace (2 * S n)%nat with (S (S (2 * n))) by lia. cbn [seq fold_left].
  destruct (IH (S m) (lshp_two w (lsh_msgexpand w b) ct m) Hw ltac:(lia) (lshp_step_length _ _ _ _ _ _)) as [E L].
  split; [|exact L]. rewrite E. replace (S (S (2 * m))) with (2 * S m)%nat by lia. f_equal.
  unfold lshp_two. cbn [fst]. destruct (lsh_ab_ok w m Hw) as (-> & -> & -> & ->).
  rewrite (lshp_step_ok w b (fst ct)) by (auto; lia).
  replace (S (2 * m)) with (2 * m + 1)%nat by lia.
  apply lshp_step_ok; [exact Hw|lia|]. rewrite <- (lshp_step_ok w b (fst ct)) by (auto; lia).
  apply lshp_step_length.
Qed.

Lemma lsh_NS_even w : wide w -> (2 * (lsh_NS w / 2) = lsh_NS w)%nat /\ lsh_NS w = lss_steps w.
Proof. intros [E|E]; rewrite E; split; reflexivity. Qed.

Lemma lsh_pure_ok w S t b : wide w -> (16 <= length S)%nat ->
  firstn 16 (lsh_pure w S t b) = lss_CF w (firstn 16 S) b /\ (16 <= length (lsh_pure w S t b))%nat.
Proof.
  intros Hw HS. unfold lsh_pure, lss_CF. cbv zeta.
  destruct (lsh_NS_even w Hw) as [E2 ES].
  destruct (lshp_rounds_ok w b (lsh_NS w / 2) 0 (firstn 16 S, firstn 16 (skipn 16 S)) Hw
    ltac:(rewrite Nat.add_0_l, E2; lia) ltac:(cbn [fst]; rewrite firstn_length; lia)) as [F L].
  rewrite E2 in F. cbn [fst] in F. change (2 * 0)%nat with 0%nat in F. rewrite ES in F at 2. rewrite <- F.
  set (ct := fold_left (lshp_two w (lsh_msgexpand w b)) _ _) in *. clearbody ct.
  rewrite lsh_msgexpand_ok by (auto; lia). rewrite <- ES.
  pose proof (lss_M_length w b (lsh_NS w)) as LM. revert LM. generalize (lss_M w b (lsh_NS w)). intros M LM.
  split; [|rewrite app_length, map_length, seq_length; lia].
  rewrite firstn_app_exact by reflexivity.
  apply (nth_ext _ _ 0 0); [rewrite map_length, seq_length, map2_length; lia|].
  intros i Hi. rewrite map_length, seq_length in Hi. rewrite nth_map_seq by exact Hi.
  rewrite map2_nth by lia. reflexivity.
Qed.

Global Opaque lsh_pure lss_CF.

Lemma lsh_loop_ok w n : forall S t data, wide w -> (16 <= length S)%nat ->
  let S' := block_loop (lsh_pure w) (lss_bs w) S t data n in
  (16 <= length S')%nat /\ firstn 16 S' = fold_left (lss_CF w) (blocks_n n (lss_bs w) data) (firstn 16 S).
Proof.
  induction n as [|n IH]; intros S t data Hw HS; cbv zeta; [split; [exact HS|reflexivity]|].
  cbn [blocks_n fold_left block_loop].
  destruct (lsh_pure_ok w S t (firstn (lss_bs w) data) Hw HS) as [E L]. rewrite <- E. apply IH; [exact Hw|exact L].
Qed.

Lemma nth_firstn_lt {A} (d : A) n : forall l i, (i < n)%nat -> nth i (firstn n l) d = nth i l d.
Proof.
  induction n; intros l i Hi; [lia|]. destruct l; [reflexivity|]. cbn [firstn]. destruct i; [reflexivity|].
  cbn [nth]. apply IHn. lia.
Qed.

(** ** The provider. *)
Section Lsh.
  Variable w hs : N.
  Hypothesis Hw : wide w.
  Hypothesis Hmax : hs <= 8 * w.
  Hypothesis Hpos : 0 < hs.
  Hypothesis H8 : hs mod 8 = 0.
  Let bs : nat := lss_bs w.

  Lemma lsh_bs_ok : lsh_bs w = bs /\ lsh_N w = 8 * w /\ (0 < bs)%nat /\ (64 <= 8 * lsh_wb w * 2)%nat /\
    lsh_wb w = N.to_nat (w / 8) /\ (8 * lsh_wb w = N.to_nat w)%nat.
  Proof. unfold bs. destruct Hw as [E|E]; rewrite E; vm_compute; repeat split; lia. Qed.

  Lemma lsh_transform1_ok S X t : length X = bs ->
    md_transform1_res (lsh_block Masked w) (lsh_bs w) S X t = Ok (lsh_pure w S t X).
  Proof.
    intros HX. destruct lsh_bs_ok as [-> _]. rewrite (md_transform1_res_ok _ (lsh_pure w)) by (intros; apply lsh_block_pure, Hw).
    unfold md_transform1. rewrite load_all by auto. cbn [bind block_loop]. rewrite firstn_all2 by lia. reflexivity.
  Qed.

  Definition lsh_Rel (s : lsh_st) (_ : unit) (msg : list N) : Prop :=
    lshs s = hs /\ exists iv, (16 <= length iv)%nat /\ firstn 16 iv = lss_iv w hs /\
      buf_inv (lsh_pure w) bs bs false iv (lss s) msg.

  Lemma lsh_init_ok s : lshs s = hs -> length (sm (lss s)) = bs ->
    exists s', lsh_init Masked w s = Ok s' /\ lsh_Rel s' tt [].
  Proof.
    intros Es Hm. unfold lsh_init. cbv zeta. destruct lsh_bs_ok as (Eb & EN & Pb & _).
    rewrite lsh_transform1_ok by (rewrite zeros_length; exact Eb). cbn [bind].
    eexists. split; [reflexivity|]. split; [exact Es|]. cbn [lss].
    set (S0 := (lsh_N w / 8 :: trunc w (lshs s) :: zeros 14) ++ skipn 16 (sh (lss s))).
    assert (L0 : (16 <= length S0)%nat).
    { unfold S0. rewrite app_length. cbn [length]. rewrite zeros_length. lia. }
    destruct (lsh_pure_ok w S0 0 (zeros (lsh_bs w)) Hw L0) as [E L].
    exists (firstn 16 (lsh_pure w S0 0 (zeros (lsh_bs w))) ++
      zeros (length (lsh_pure w S0 0 (zeros (lsh_bs w))) - 16)).
    split; [rewrite app_length, firstn_length; lia|]. split.
    - rewrite firstn_app_exact by (rewrite firstn_length; lia). rewrite E. unfold lss_iv. fold bs. rewrite Eb.
      f_equal. unfold S0. rewrite firstn_app_exact by (cbn [length]; rewrite zeros_length; reflexivity).
      rewrite Es. f_equal; [rewrite EN; symmetry; apply N.div_unique_exact; [discriminate|reflexivity]|].
      f_equal. rewrite trunc_mod. apply N.mod_small.
      apply N.le_lt_trans with (8 * w); [exact Hmax|]. destruct Hw as [Ew|Ew]; rewrite Ew; reflexivity.
    - apply buf_inv_start; [exact Pb|lia|exact Hm].
  Qed.

  Lemma lsh_pad_split B T n : length B = (n * bs)%nat -> (length T < bs)%nat ->
    blocks bs (lss_pad w (B ++ T)) = blocks_n n bs B ++ [T ++ [128] ++ zeros (bs - 1 - length T)].
  Proof.
    intros HB HT. unfold lss_pad. fold bs.
    assert (EM : (length (B ++ T) mod bs = length T)%nat).
    { rewrite app_length, HB, Nat.add_comm, Nat.mod_add by lia. apply Nat.mod_small. exact HT. }
    rewrite EM, <- app_assoc. unfold blocks. set (P := T ++ _).
    assert (LP : length P = bs) by (unfold P; rewrite !app_length, zeros_length; cbn [length]; lia).
    rewrite app_length, HB, LP. rewrite Nat.div_add_l, Nat.div_same by lia.
    rewrite blocks_n_app by exact HB. f_equal. cbn [blocks_n]. rewrite firstn_all2 by lia. reflexivity.
  Qed.

  Lemma lsh_final_ok s msg : lsh_Rel s tt msg ->
    exists s', lsh_final Masked w s = Ok (s', lss_hash w hs msg) /\
      length (lss_hash w hs msg) = N.to_nat (hs / 8) /\ bytes_ok (lss_hash w hs msg).
  Proof.
    intros (Es & iv & Liv & Eiv & (B & T & J & n & -> & HB & HT & Hc & Ht & Hm & Hl & Hp)).
    destruct lsh_bs_ok as (Eb & EN & Pb & _ & Ewb & Ew8).
    unfold okrem, bschk in HT. assert (HT' : (length T < bs)%nat) by lia.
    assert (HJ : (length T + length J = bs)%nat) by (rewrite <- Hl, Hm, app_length; reflexivity).
    destruct (lsh_loop_ok w n iv 0 B Hw Liv) as [L1 F]. fold bs in L1, F. rewrite Eiv in F.
    unfold lss_hash, md_hash. cbv zeta. fold bs. rewrite lsh_pad_split with (n := n) by auto.
    rewrite fold_left_app, <- F. clear F. cbn [fold_left].
    set (S1 := block_loop (lsh_pure w) bs iv 0 B n) in *.
    unfold lsh_final. cbv zeta. rewrite Hp, Hm, Hc, Eb.
    rewrite store_app by lia. cbn [bind].
    set (X := T ++ [128] ++ zeros (bs - 1 - length T)).
    assert (LX : length X = bs) by (unfold X; rewrite !app_length, zeros_length; cbn [length]; lia).
    assert (E1 : (if negb (length T + 1 =? bs)%nat then
              k <- size_sub bs (length T + 1) ;; memset (T ++ [128] ++ skipn 1 J) (length T + 1) 0 k
            else Ok (T ++ [128] ++ skipn 1 J)) = Ok X).
    { unfold X. destruct (Nat.eqb_spec (length T + 1) bs) as [G|G]; cbn [negb].
      - replace (bs - 1 - length T)%nat with 0%nat by lia. rewrite skipn_all2 by lia. reflexivity.
      - rewrite size_sub_ok by lia. cbn [bind]. rewrite (app_assoc T).
        rewrite memset_app by (rewrite ?app_length, ?skipn_length; cbn [length]; lia).
        rewrite skipn_skipn, skipn_all2 by lia. rewrite app_nil_r, <- !app_assoc. unfold zeros.
        replace (bs - (length T + 1))%nat with (bs - 1 - length T)%nat by lia. reflexivity. }
    rewrite E1. cbn [bind]. clear E1. pose proof lsh_transform1_ok as TR. rewrite Eb in TR. rewrite TR by exact LX. clear TR. cbn [bind].
    match goal with |- context [lsh_pure w S1 ?t X] => set (t0 := t) end.
    destruct (lsh_pure_ok w S1 t0 X Hw L1) as [E L]. rewrite <- E.
    set (S2 := lsh_pure w S1 t0 X) in *. clearbody S2.
    assert (Eh : map (fun i => N.lxor (nthN i S2) (nthN (i + 8) S2)) (seq 0 8) =
      map (fun l => N.lxor (nth l (firstn 16 S2) 0) (nth (l + 8) (firstn 16 S2) 0)) (seq 0 8)).
    { apply map_ext_in. intros l Hl'. apply in_seq in Hl'. unfold nthN.
      rewrite !nth_firstn_lt by lia. reflexivity. }
    rewrite Eh, <- Ewb. set (H := map _ (seq 0 8)).
    assert (LH : length (words_bytes (lsh_wb w) H) = N.to_nat w)
      by (rewrite words_bytes_length; unfold H; rewrite map_length, seq_length; lia).
    assert (Hhs : (N.to_nat (hs / 8) <= N.to_nat w)%nat).
    { assert (hs / 8 <= w) by (apply N.div_le_upper_bound; lia). lia. }
    rewrite Es. pose proof (words_bytes_ok (lsh_wb w) H) as OH.
    revert LH OH. generalize (words_bytes (lsh_wb w) H). intros D LD OD.
    rewrite load_ok by lia. cbn [bind skipn].
    eexists. split; [reflexivity|]. split; [rewrite firstn_length; lia|apply Forall_firstn; exact OD].
  Qed.

  Lemma lsh_sim : sim (lsh Masked w) (lsh_spec w hs) lsh_Rel true.
  Proof.
    destruct lsh_bs_ok as (Eb & EN & Pb & _).
    assert (bs_cap : (bs <= bs)%nat) by lia.
    constructor.
    - intros s [] msg (Es & iv & _ & _ & A). apply lsh_init_ok; [exact Es|exact (buf_inv_sm _ _ _ _ _ _ _ A)].
    - intros s p msg d Hd (Es & iv & L & E0 & A).
      destruct (buf_update_ok (lsh_pure w) bs bs false Pb bs_cap iv (lss s) msg d A) as (x & E & A').
      exists (mklsh x hs). split; [|split; [reflexivity|exists iv; split; [exact L|split; [exact E0|exact A']]]].
      change (bschk bs false) with bs in E. unfold lsh; cbn [hp p_update]. unfold lsh_update. rewrite Es, Eb.
      rewrite (md_update_res_ok _ (lsh_pure w)) by (intros; apply lsh_block_pure, Hw).
      rewrite E. reflexivity.
    - intros _ s [] msg (Es & iv & _ & _ & A).
      destruct (lsh_init_ok (mklsh (mkst (zero_memory (sh (lss s))) (zero_memory (sm (lss s))) (spos (lss s)) (stotal (lss s))) (lshs s)))
        as (s' & E & R'); [exact Es|cbn [lss sm]; unfold zero_memory; rewrite zeros_length; exact (buf_inv_sm _ _ _ _ _ _ _ A)|].
      do 2 eexists. split; [reflexivity|]. split; [exact E|exact R'].
    - intros q. destruct q.
    - intros s [] msg A. destruct (lsh_final_ok s msg A) as (s' & E & _). eauto.
    - intros s p msg (Es & _). cbn [lsh hp_size lsh_spec sp_size]. rewrite Es. lia.
    - intros s [] msg A. destruct (lsh_final_ok s msg A) as (s' & _ & E & _). exact E.
    - intros s [] msg A. destruct (lsh_final_ok s msg A) as (s' & _ & _ & E). exact E.
    - cbn. assert (1 <= hs / 8); [|lia]. apply N.div_le_lower_bound; [discriminate|].
      pose proof (N.div_mod hs 8 ltac:(discriminate)). lia.
  Qed.

  Theorem lsh_implements g : length (sm g) = lsh_bs w ->
    implements (lsh Masked w) (lsh_spec w hs) true (fresh_of (lsh_ctor w hs g) (lsh_init Masked w)) /\
    implements (lsh Masked w) (lsh_spec w hs) true (fresh_of (lsh_ctor_static hs g) (lsh_init Masked w)).
  Proof.
    intros Hg. destruct lsh_bs_ok as (Eb & EN & _).
    assert (E : lsh_ctor w hs g = lsh_ctor_static hs g).
    { unfold lsh_ctor, lsh_ctor_static, validate_max.
      replace (hs =? 0) with false by (symmetry; apply N.eqb_neq; lia).
      rewrite H8, EN. replace (8 * w <? hs) with false by (symmetry; apply N.ltb_ge; lia). reflexivity. }
    rewrite E.
    assert (I : implements (lsh Masked w) (lsh_spec w hs) true (fresh_of (lsh_ctor_static hs g) (lsh_init Masked w))).
    { unfold fresh_of, lsh_ctor_static. cbn [bind].
      destruct (lsh_init_ok (mklsh g hs)) as (s' & E' & R'); [reflexivity|cbn [lss]; rewrite Hg; exact Eb|].
      rewrite E'. apply (sim_implements _ _ _ _ lsh_sim). exact R'. }
    split; exact I.
  Qed.
End Lsh.

(** With the C++ meaning of shifts the constructor already shifts by the width. *)
Lemma lsh_block_strict w S t b : wide w -> lsh_block Strict w S t b = UB BadShift.
Proof. intros [E|E]; rewrite E; reflexivity. Qed.

Theorem lsh_strict_undefined w hs g : wide w -> 0 < hs <= 8 * w /\ hs mod 8 = 0 ->
  fresh_of (lsh_ctor w hs g) (lsh_init Strict w) = UB BadShift /\
  fresh_of (lsh_ctor_static hs g) (lsh_init Strict w) = UB BadShift.
Proof.
  intros Hw [[Hp Hm] H8].
  assert (G : forall s, lsh_init Strict w s = UB BadShift).
  { intros s. unfold lsh_init, md_transform1_res. cbv zeta. rewrite load_ok by (rewrite zeros_length; lia).
    cbn [bind block_loop_res]. rewrite lsh_block_strict by exact Hw. reflexivity. }
  unfold fresh_of, lsh_ctor, lsh_ctor_static, validate_max.
  assert (EN : lsh_N w = 8 * w) by (destruct Hw as [E|E]; rewrite E; reflexivity).
  replace (hs =? 0) with false by (symmetry; apply N.eqb_neq; lia).
  rewrite H8, EN. replace (8 * w <? hs) with false by (symmetry; apply N.ltb_ge; lia).
  cbn [bind negb N.eqb]. rewrite !G. split; reflexivity.
Qed.

Theorem lsh_conforms w hs g : wide w -> 0 < hs <= 8 * w /\ hs mod 8 = 0 -> length (sm g) = N.to_nat (4 * w) ->
  implements (lsh Masked w) (lsh_spec w hs) true (fresh_of (lsh_ctor w hs g) (lsh_init Masked w)) /\
  implements (lsh Masked w) (lsh_spec w hs) true (fresh_of (lsh_ctor_static hs g) (lsh_init Masked w)).
Proof.
  intros Hw [[H0 H1] H8] Hg. apply (lsh_implements w hs Hw H1 H0 H8 g).
  rewrite Hg. destruct Hw as [E|E]; rewrite E; reflexivity.
Qed.
Lemma lsh_constants :
  lsh_SC256 = map (lss_SC 32) (seq 0 26) /\ lsh_SC512 = map (lss_SC 64) (seq 0 28).
Proof. split; vm_compute; reflexivity. Qed.
