(** * BLAKE conformance. *)
From Verif Require Import Base Absorb Lemmas WordLemmas TableLemmas AbsorbProof Hasher HasherSpec HasherProof
  MdState MdProof BufProof SpecCommon ConstBlake Blake Blake2Spec Blake2Proof BlakeSpec Sha2Proof Validate.
Local Open Scope nat_scope.

(** ** The compression function *)
Lemma bl_sigma_eq r k : k < 16 -> N.to_nat (nthN k (nth (r mod 10) blake_S [])) = nth k (nth (r mod 10) SIGMA []) 0.
Proof.
  intros Hk.
  assert (E : forallb (fun r => forallb (fun k =>
      N.to_nat (nthN k (nth r blake_S [])) =? nth k (nth r SIGMA []) 0) (seq 0 16)) (seq 0 10) = true)
    by (vm_compute; reflexivity).
  rewrite forallb_forall in E. specialize (E (r mod 10) ltac:(apply in_seq; pose proof (Nat.mod_upper_bound r 10); lia)).
  rewrite forallb_forall in E. specialize (E k ltac:(apply in_seq; lia)).
  apply Nat.eqb_eq in E. exact E.
Qed.
Lemma bl_C_eq w x : bl_C w x = PI w (N.to_nat x).
Proof. unfold bl_C, PI, tbl, nthN. destruct (w =? 64)%N; reflexivity. Qed.
Lemma bl_rots_eq w : bl_rots w = (BR1 w, BR2 w, BR3 w, BR4 w).
Proof. unfold bl_rots, BR1, BR2, BR3, BR4. destruct (w =? 64)%N; reflexivity. Qed.

Lemma bl_G_eq w r i q M v : i < 8 -> In q quads ->
  (let '(ia, ib, ic, id) := q in bl_G w r i ia ib ic id M (l16 v)) =
  l16 (Gb w v q (N.lxor (nth (nth (2 * i) (nth (r mod 10) SIGMA []) 0) M 0%N) (PI w (nth (2 * i + 1) (nth (r mod 10) SIGMA []) 0)))
                (N.lxor (nth (nth (2 * i + 1) (nth (r mod 10) SIGMA []) 0) M 0%N) (PI w (nth (2 * i) (nth (r mod 10) SIGMA []) 0)))).
Proof.
  intros Hi Hq. destruct q as [[[ia ib] ic] id].
  unfold bl_G. rewrite bl_rots_eq. unfold tbl. rewrite !bl_C_eq, !bl_sigma_eq by lia.
  match goal with |- context [Gb w v _ ?x ?y] =>
    transitivity (pat_list (plus_mod w) N.lxor (ROTR w (BR1 w)) (ROTR w (BR2 w)) (ROTR w (BR3 w)) (ROTR w (BR4 w))
                   (ia, ib, ic, id) x y (l16 v)) end.
  - unfold pat_list. rewrite !addw_plus, !rotr_ROTR. reflexivity.
  - exact (pat_eq _ _ _ _ _ _ _ _ _ v Hq).
Qed.

Lemma bl_round_eq w M v r : bl_round w M (l16 v) r = l16 (roundb w M v r).
Proof.
  unfold bl_round, roundb. cbn [seq fold_left]. cbv zeta.
  pose proof (fun i q v => bl_G_eq w r i q M v) as E.
  rewrite (E 0 (0, 4, 8, 12)) by (unfold quads; cbn [In]; (lia || tauto)).
  rewrite (E 1 (1, 5, 9, 13)) by (unfold quads; cbn [In]; (lia || tauto)).
  rewrite (E 2 (2, 6, 10, 14)) by (unfold quads; cbn [In]; (lia || tauto)).
  rewrite (E 3 (3, 7, 11, 15)) by (unfold quads; cbn [In]; (lia || tauto)).
  rewrite (E 4 (0, 5, 10, 15)) by (unfold quads; cbn [In]; (lia || tauto)).
  rewrite (E 5 (1, 6, 11, 12)) by (unfold quads; cbn [In]; (lia || tauto)).
  rewrite (E 6 (2, 7, 8, 13)) by (unfold quads; cbn [In]; (lia || tauto)).
  rewrite (E 7 (3, 4, 9, 14)) by (unfold quads; cbn [In]; (lia || tauto)).
  reflexivity.
Qed.
Lemma bl_rounds_eq w M l v : fold_left (bl_round w M) l (l16 v) = l16 (fold_left (roundb w M) l v).
Proof. apply (fold_left_hom_in l16 (roundb w M) (bl_round w M)). intros a r _. apply bl_round_eq. Qed.

Section Blake.
  Variable w : N.
  Hypothesis Hw : w = 64%N \/ w = 32%N.

  Lemma bl_wb_eq : bl_wb w = wb w. Proof. destruct Hw; subst; reflexivity. Qed.
  Lemma bl_bs_eq : bl_bs w = bb w. Proof. destruct Hw; subst; reflexivity. Qed.
  Lemma bl_bb_pos : 0 < bb w. Proof. destruct Hw; subst; vm_compute; lia. Qed.

  Lemma compressb_length h s m t : length (compressb w h s m t) = 8.
  Proof. reflexivity. Qed.

  Lemma swap_words n d : bytes_ok d -> n * wb w <= length d ->
    map (bl_swap w) (le_words (wb w) n d) = be_words (wb w) n d.
  Proof.
    intros Hd Hn. destruct Hw; subst w; unfold bl_swap; cbn [N.eqb Pos.eqb].
    - apply be_words_swap64; auto.
    - apply be_words_swap32; auto.
  Qed.

  Lemma bl_block_eq padding tb h s data : length h = 8 -> length s = 4 -> (tb < 2 ^ 64)%N ->
    bytes_ok data -> length data = bb w ->
    bl_block w padding tb (h ++ s) data
    = compressb w h s (be_words (wb w) 16 data) (if padding then 0 else tb)%N ++ s.
  Proof.
    intros Hh Hs Ht Hd Hl. unfold bl_block, compressb. rewrite bl_wb_eq. cbv zeta.
    rewrite swap_words by (auto; rewrite Hl; unfold bb; lia).
    set (M := be_words (wb w) 16 data).
    rewrite (firstn_app_exact h s) by auto. rewrite (skipn_app_exact h s) by auto. f_equal.
    set (t := (if padding then 0 else tb)%N).
    assert (E0 : (if padding then 0 else trunc w tb)%N = (t mod 2 ^ w)%N).
    { unfold t. destruct padding; [|apply trunc_mod]. symmetry. apply N.mod_0_l. destruct Hw; subst w; discriminate. }
    assert (E1 : (if padding then 0 else if w =? 64 then 0 else trunc w (N.shiftr tb 32))%N = (t / 2 ^ w)%N).
    { unfold t. destruct padding; [destruct Hw; subst w; reflexivity|]. destruct Hw; subst w; cbn [N.eqb Pos.eqb].
      - symmetry. apply N.div_small. exact Ht.
      - rewrite N.shiftr_div_pow2. apply trunc_small. apply N.div_lt_upper_bound; [discriminate|]. exact Ht. }
    rewrite E0, E1. clear E0 E1. generalize (t mod 2 ^ w)%N (t / 2 ^ w)%N. intros x y. clear t.
    match goal with |- context [fold_left (roundb w M) _ ?v] => set (v0 := v) end.
    do 8 (destruct h as [|? h]; [discriminate Hh|]). destruct h; [|discriminate Hh].
    do 4 (destruct s as [|? s]; [discriminate Hs|]). destruct s; [|discriminate Hs].
    match goal with |- map (fun i => N.lxor (N.lxor _ (nthN i (fold_left _ _ ?v))) _) _ = _ => set (vl := v) end.
    assert (E : vl = l16 v0).
    { unfold vl, v0, l16. rewrite !bl_C_eq. reflexivity. }
    rewrite E, bl_rounds_eq. clear E vl.
    generalize (fold_left (roundb w M) (seq 0 (if (w =? 64)%N then 16 else 14)) v0). intros V.
    apply map_ext_in. intros i Hi. apply in_seq in Hi. rewrite !l16_nth by lia.
    do 8 (destruct i as [|i]; [reflexivity|]). lia.
  Qed.

  (** ** The loop over the blocks *)
  Definition cblocks (s data : list N) (len : nat) (n : nat) (iv : list N) : list N :=
    fold_left (fun h i => compressb w h s (word_be w data i) (ctrb w len i)) (seq 0 n) iv.
  Lemma cblocks_length s data len n iv : length iv = 8 -> length (cblocks s data len n iv) = 8.
  Proof.
    intros H. unfold cblocks. generalize (seq 0 n). intros l. revert iv H.
    induction l; intros; [auto|]. cbn [fold_left]. apply IHl. apply compressb_length.
  Qed.
  Lemma cblocks_app s B T len n iv : length B = n * bb w -> cblocks s (B ++ T) len n iv = cblocks s B len n iv.
  Proof.
    intros HB. unfold cblocks. apply fold_left_ext_in. intros h i Hi. apply in_seq in Hi.
    unfold word_be. f_equal. f_equal.
    assert ((i + 1) * bb w <= n * bb w) by (apply Nat.mul_le_mono_r; lia).
    rewrite skipn_app, firstn_app.
    replace (bb w - length (skipn (i * bb w) B)) with 0 by (rewrite skipn_length; lia).
    cbn [firstn]. apply app_nil_r.
  Qed.
  Lemma cblocks_S s data len n iv :
    cblocks s data len (S n) iv = compressb w (cblocks s data len n iv) s (word_be w data n) (ctrb w len n).
  Proof. unfold cblocks. rewrite seq_S, fold_left_app. reflexivity. Qed.

  Lemma bl_loop iv s B n len : length iv = 8 -> length s = 4 -> bytes_ok B -> length B = n * bb w -> n * bb w <= len ->
    block_loop (bl_step w) (bb w) (iv ++ s) 0 B n = cblocks s B len n iv ++ s.
  Proof.
    intros Hi Hs Hb HB Hle. rewrite block_loop_seq by reflexivity. unfold cblocks.
    assert (G : forall l h, (forall i, In i l -> i < n) -> length h = 8 ->
      fold_left (fun c i => bl_step w c (trunc 64 (0 + N.of_nat (i * bb w * 8))) (firstn (bb w) (skipn (i * bb w) B))) l (h ++ s)
      = fold_left (fun h i => compressb w h s (word_be w B i) (ctrb w len i)) l h ++ s).
    { induction l as [|i l IH]; intros h Hl Hh; [reflexivity|]. cbn [fold_left].
      assert (Hin : i < n) by (apply Hl; left; reflexivity).
      assert (Hm : (i + 1) * bb w <= n * bb w) by (apply Nat.mul_le_mono_r; lia).
      pose proof bl_bb_pos as Hp.
      unfold bl_step at 2. rewrite bl_bs_eq, N.add_0_l, trunc_add_l.
      rewrite bl_block_eq; auto using trunc_lt.
      - unfold word_be at 2, ctrb at 2. destruct (Nat.ltb_spec (i * bb w) len) as [_|F]; [|lia].
        rewrite Nat.min_r by lia. rewrite trunc_mod.
        replace (N.of_nat (i * bb w * 8) + N.of_nat (bb w * 8))%N with (8 * N.of_nat ((i + 1) * bb w))%N by lia.
        apply IH; [intros; apply Hl; right; auto|apply compressb_length].
      - apply Forall_firstn, Forall_skipn. exact Hb.
      - rewrite firstn_length, skipn_length. lia. }
    apply G; auto. intros i Hin. apply in_seq in Hin. lia.
  Qed.

  Lemma bl_transform_exact H total data n : (total < 2 ^ 64)%N ->
    bl_transform_code w H total data n = block_loop (bl_step w) (bb w) H total data n.
  Proof.
    intros Ht. rewrite block_loop_seq by auto. unfold bl_transform_code. rewrite bl_bs_eq.
    apply fold_left_ext. intros h i. unfold bl_step. rewrite bl_bs_eq, trunc_add_l. f_equal. f_equal. lia.
  Qed.
End Blake.

(** ** Padding *)
Lemma le_bytes_top k : le_bytes (S k) (128 * 256 ^ N.of_nat k) = zeros k ++ [128%N].
Proof.
  induction k; [reflexivity|].
  change (le_bytes (S (S k)) ?x) with (N.land x 255 :: le_bytes (S k) (N.shiftr x 8)).
  rewrite Nat2N.inj_succ, N.pow_succ_r'.
  replace (128 * (256 * 256 ^ N.of_nat k))%N with (128 * 256 ^ N.of_nat k * 2 ^ 8)%N by (change (2 ^ 8)%N with 256%N; lia).
  rewrite N.shiftr_div_pow2, N.div_mul by discriminate. rewrite IHk.
  change 255%N with (N.ones 8). rewrite N.land_ones, N.mod_mul by discriminate. reflexivity.
Qed.
Lemma pad_number k last : (last < 256)%N ->
  be_bytes (S (S k)) (2 ^ (8 * N.of_nat (S (S k)) - 1) + last) = [128%N] ++ zeros k ++ [last].
Proof.
  intros Hl. unfold be_bytes.
  replace (2 ^ (8 * N.of_nat (S (S k)) - 1) + last)%N with (last + 128 * 256 ^ N.of_nat k * 2 ^ 8)%N.
  2:{ replace (8 * N.of_nat (S (S k)) - 1)%N with (7 + 8 * N.of_nat k + 8)%N by lia.
      rewrite !N.pow_add_r, (N.pow_mul_r 2 8). change (2 ^ 7)%N with 128%N. change (2 ^ 8)%N with 256%N. lia. }
  change (le_bytes (S (S k)) ?x) with (N.land x 255 :: le_bytes (S k) (N.shiftr x 8)).
  rewrite N.shiftr_div_pow2, N.div_add by discriminate. rewrite (N.div_small last) by exact Hl. rewrite N.add_0_l, le_bytes_top.
  change 255%N with (N.ones 8). rewrite N.land_ones, N.mod_add, N.mod_small by (discriminate || exact Hl).
  cbn [rev]. rewrite rev_app_distr. unfold zeros. cbn [rev app].
  f_equal. f_equal. clear. induction k; [reflexivity|]. cbn [repeat rev]. rewrite IHk. symmetry. apply repeat_cons.
Qed.
Lemma pad_number1 last : (last < 128)%N -> be_bytes 1 (2 ^ (8 * N.of_nat 1 - 1) + last) = [(128 + last)%N].
Proof.
  intros. unfold be_bytes. cbn [le_bytes rev app]. change (2 ^ (8 * N.of_nat 1 - 1))%N with 128%N.
  change 255%N with (N.ones 8). rewrite N.land_ones. f_equal. apply N.mod_small. change (2 ^ 8)%N with 256%N. lia.
Qed.

Section Final.
  Variable w : N.
  Hypothesis Hw : w = 64%N \/ w = 32%N.
  Let lf := 2 * wb w.
  Let me := bb w - lf - 1.
  Lemma bl_dims : (bb w = 128 /\ lf = 16 /\ wb w = 8 \/ bb w = 64 /\ lf = 8 /\ wb w = 4).
  Proof. unfold lf. clear - Hw. destruct Hw; subst w; [left|right]; repeat split. Qed.

  Lemma bl_lenf x : (x < 2 ^ 64)%N -> be_bytes lf x = zeros (lf - 8) ++ be_bytes 8 x.
  Proof.
    intros Hx. destruct bl_dims as [(_ & -> & _)|(_ & -> & _)]; [apply be_bytes_16; exact Hx|reflexivity].
  Qed.

  Variables (iv s : list N) (last : N).
  Hypothesis Hiv : length iv = 8.
  Hypothesis Hs : length s = 4.
  Hypothesis Hlast : (last < 2)%N.

  (** The message splits into the full blocks [B] and the rest [T]. *)
  Variables (B T : list N) (n : nat).
  Hypothesis HB : length B = n * bb w.
  Hypothesis HT : length T < bb w.
  Let len := length (B ++ T).
  Let tot := trunc 64 (bitlen (B ++ T)).

  Lemma pad_one : length T <= me ->
    exists A, length A = me + 1 /\ padb w last (B ++ T) = B ++ (A ++ zeros (lf - 8) ++ be_bytes 8 tot) /\
      A = T ++ (if length T =? me then [(128 + last)%N] else [128%N] ++ zeros (me - length T - 1) ++ [last]).
  Proof.
    intros H. exists (T ++ (if length T =? me then [(128 + last)%N] else [128%N] ++ zeros (me - length T - 1) ++ [last])).
    pose proof bl_dims as D. split; [|split; [|reflexivity]].
    - rewrite app_length. destruct (Nat.eqb_spec (length T) me) as [E|E]; [cbn [length]; lia|].
      rewrite !app_length, zeros_length. cbn [length]. unfold me in *. lia.
    - unfold padb. fold lf. rewrite <- trunc_mod. fold tot. rewrite bl_lenf by apply trunc_lt.
      assert (EZ : md_zeros (bb w) lf (length (B ++ T)) = me - length T).
      { rewrite app_length, HB, md_zeros_small by (unfold me in *; lia). unfold me. lia. }
      rewrite EZ. clear EZ.
      rewrite <- !app_assoc. do 2 f_equal. f_equal.
      destruct (Nat.eqb_spec (length T) me) as [E|E].
      + rewrite E, Nat.sub_diag. apply pad_number1. lia.
      + set (k := me - length T - 1). replace (me - length T) with (S k) by (unfold k; lia). apply pad_number. lia.
  Qed.
  Lemma pad_two : me < length T ->
    padb w last (B ++ T) = B ++ (T ++ [128%N] ++ zeros (bb w - length T - 1)) ++
                           ((zeros me ++ [last]) ++ zeros (lf - 8) ++ be_bytes 8 tot).
  Proof.
    intros H. pose proof bl_dims as D. unfold padb. fold lf. rewrite <- trunc_mod. fold tot. rewrite bl_lenf by apply trunc_lt.
    assert (EZ : md_zeros (bb w) lf (length (B ++ T)) = S ((bb w - length T - 1) + me)).
    { rewrite app_length, HB, md_zeros_big by (unfold me in *; lia). unfold me. lia. }
    rewrite EZ. clear EZ. rewrite pad_number by lia. unfold zeros. rewrite repeat_app, <- !app_assoc. reflexivity.
  Qed.

  Lemma word_be_n X Y : length X = bb w -> word_be w (B ++ X ++ Y) n = be_words (wb w) 16 X.
  Proof.
    intros HX. unfold word_be. rewrite skipn_app_exact by auto. rewrite firstn_app_exact by auto. reflexivity.
  Qed.
  Lemma word_be_Sn X Y : length X = bb w -> length Y = bb w -> word_be w (B ++ X ++ Y) (S n) = be_words (wb w) 16 Y.
  Proof.
    intros HX HY. unfold word_be. rewrite app_assoc, skipn_app_exact by (rewrite app_length; lia).
    rewrite firstn_all2 by lia. reflexivity.
  Qed.

  Lemma ctrb_n : ctrb w len n = if length T =? 0 then 0%N else tot.
  Proof.
    unfold ctrb, tot, len, bitlen. rewrite app_length, HB.
    destruct (Nat.eqb_spec (length T) 0); destruct (Nat.ltb_spec (n * bb w) (n * bb w + length T)); try lia.
    rewrite Nat.min_l by lia. rewrite trunc_mod. reflexivity.
  Qed.
  Lemma ctrb_Sn : ctrb w len (S n) = 0%N.
  Proof.
    unfold ctrb, len. rewrite app_length, HB. destruct (Nat.ltb_spec (S n * bb w) (n * bb w + length T)); [lia|reflexivity].
  Qed.

  Lemma core_one A : padb w last (B ++ T) = B ++ A -> length A = bb w ->
    blake_core w iv s last (B ++ T) =
    compressb w (cblocks w s B len n iv) s (be_words (wb w) 16 A) (if length T =? 0 then 0%N else tot).
  Proof.
    intros E HA. unfold blake_core. rewrite E. fold len.
    replace (length (B ++ A) / bb w) with (S n).
    2:{ rewrite app_length, HB, HA. replace (n * bb w + bb w) with ((S n) * bb w) by lia. symmetry. apply Nat.div_mul.
        pose proof (bl_bb_pos w Hw). lia. }
    change (fold_left _ (seq 0 (S n)) iv) with (cblocks w s (B ++ A) len (S n) iv).
    rewrite cblocks_S, cblocks_app by auto. rewrite ctrb_n. f_equal.
    rewrite <- (app_nil_r A) at 1. apply word_be_n. auto.
  Qed.
  Lemma core_two X Y : padb w last (B ++ T) = B ++ X ++ Y -> length X = bb w -> length Y = bb w -> length T <> 0 ->
    blake_core w iv s last (B ++ T) =
    compressb w (compressb w (cblocks w s B len n iv) s (be_words (wb w) 16 X) tot) s (be_words (wb w) 16 Y) 0.
  Proof.
    intros E HX HY HT0. unfold blake_core. rewrite E. fold len.
    replace (length (B ++ X ++ Y) / bb w) with (S (S n)).
    2:{ rewrite !app_length, HB, HX, HY. replace (n * bb w + (bb w + bb w)) with ((S (S n)) * bb w) by lia. symmetry. apply Nat.div_mul.
        pose proof (bl_bb_pos w Hw). lia. }
    change (fold_left _ (seq 0 (S (S n))) iv) with (cblocks w s (B ++ X ++ Y) len (S (S n)) iv).
    rewrite !cblocks_S, cblocks_app by auto. rewrite ctrb_n, ctrb_Sn.
    rewrite word_be_n, word_be_Sn by auto.
    destruct (Nat.eqb_spec (length T) 0); [contradiction|reflexivity].
  Qed.
End Final.

(** ** The provider *)
Definition bl_size (hs : N) : Prop := (hs = 224 \/ hs = 256 \/ hs = 384 \/ hs = 512)%N.
Definition bl_last (hs : N) : N := if (hs =? 256)%N || (hs =? 512)%N then 1 else 0.
Lemma bl_size_w hs : bl_size hs -> blake_w hs = 64%N \/ blake_w hs = 32%N.
Proof. intros [->|[->|[->| ->]]]; [right|right|left|left]; reflexivity. Qed.

(** Lines 246-264 of final, up to the last call of transform. *)
Definition bl_pad (w : N) (me : nat) (last : N) (x : st) (total : N) : res (list N * list N * nat * bool) :=
  m <- store (sm x) (spos x) (if (spos x =? me)%nat then 0x80 + last else 0x80)%N ;;
  let pos := spos x + 1 in
  ' (H, m, pos, padding) <-
    (if me <? spos x then
       m <- (if negb (bl_bs w =? pos) then k <- size_sub (bl_bs w) pos ;; memset m pos 0 k else Ok m) ;;
       H <- bl_transform1 w false (sh x) m total ;;
       Ok (H, m, 0, true)
     else Ok (sh x, m, pos, (spos x =? 0))) ;;
  m <- (if pos <=? me then
          k <- size_sub me pos ;;
          m <- memset m pos 0 k ;;
          store m me last
        else Ok m) ;;
  m <- (if bl_bs w =? 128 then memset m (128 - 16) 0 8 else Ok m) ;;
  m <- memcpy m (bl_bs w - 8) (le_bytes 8 (byteswap64 total)) 8 ;;
  Ok (H, m, pos, padding).
Lemma bl_final_split hs x : bl_size hs ->
  bl_final (mkbl x hs) =
  (let total := trunc 64 (stotal x + N.of_nat (8 * spos x)) in
   ' (H, m, pos, padding) <- bl_pad (blake_w hs) (bb (blake_w hs) - 2 * wb (blake_w hs) - 1) (bl_last hs) x total ;;
   H <- bl_transform1 (blake_w hs) padding H m total ;;
   let H := map (bl_swap (blake_w hs)) (firstn 8 H) ++ skipn 8 H in
   h <- load (words_bytes (bl_wb (blake_w hs)) H) 0 (N.to_nat (hs / 8)) ;;
   Ok (mkbl (mkst H m pos total) hs, h)).
Proof.
  intros Hs. unfold bl_final, bl_pad. cbn [bls blhs]. change (bl_w hs) with (blake_w hs). cbv zeta.
  assert (E : ((if (256 <? hs)%N then 111 else 55) = bb (blake_w hs) - 2 * wb (blake_w hs) - 1) /\
              (if (if true then negb (hs =? 512)%N && negb (hs =? 256)%N else true) then 0 else 1)%N = bl_last hs /\
              forall b : bool, (if b && negb (negb (hs =? 512) && negb (hs =? 256)) then 0x81 else 0x80)%N
                               = (if b then 0x80 + bl_last hs else 0x80)%N).
  { destruct Hs as [->|[->|[->| ->]]]; (split; [reflexivity|]; split; [reflexivity|]; intros []; reflexivity). }
  destruct E as (E1 & E2 & E3). rewrite E1, E3, E2.
  generalize (bb (blake_w hs) - 2 * wb (blake_w hs) - 1) (bl_last hs) (trunc 64 (stotal x + N.of_nat (8 * spos x))). intros me last tot.
  clear E1 E2 E3. generalize (blake_w hs). intros w.
  destruct (store _ _ _); [|reflexivity..]. cbn [bind]. rewrite !bind_assoc.
  apply bind_ext. intros [[[H m'] pos] padding]. rewrite !bind_assoc. apply bind_ext. intros m1.
  rewrite !bind_assoc. apply bind_ext. intros m2. rewrite !bind_assoc. apply bind_ext. intros m3. reflexivity.
Qed.

Lemma bytes_ok_be k x : bytes_ok (be_bytes k x).
Proof. apply be_bytes_ok. Qed.

Section Pad.
  Variable w : N.
  Hypothesis Hw : w = 64%N \/ w = 32%N.
  Let lf := 2 * wb w.
  Let me := bb w - lf - 1.

  (** The last writes to the block, after its first [me + 1] bytes. *)
  Lemma bl_write_len A J total : length A = me + 1 -> length J = 128 - (me + 1) ->
    (m <- (if bl_bs w =? 128 then memset (A ++ J) (128 - 16) 0 8 else Ok (A ++ J)) ;;
     memcpy m (bl_bs w - 8) (le_bytes 8 (byteswap64 total)) 8)
    = Ok ((A ++ zeros (lf - 8) ++ be_bytes 8 total) ++ skipn lf J).
  Proof.
    intros HA HJ. rewrite (bl_bs_eq w Hw), le_bytes_byteswap64. fold (be_bytes 8 total).
    assert (L8 : length (be_bytes 8 total) = 8) by apply be_bytes_length.
    destruct (bl_dims w Hw) as [(D1 & D2 & _)|(D1 & D2 & _)]; fold lf in D2; rewrite D1; unfold me in *; rewrite D1, D2 in *.
    - cbn [Nat.eqb]. rewrite memset_app by lia. cbn [bind].
      rewrite app_assoc, memcpy_app; [|rewrite app_length, repeat_length; lia|lia|rewrite skipn_length; lia].
      rewrite firstn_all2 by lia. rewrite skipn_skipn. rewrite <- !app_assoc. reflexivity.
    - cbn [Nat.eqb bind]. rewrite memcpy_app by lia. rewrite firstn_all2 by lia. rewrite <- !app_assoc. reflexivity.
  Qed.

  Variables (iv s : list N) (last : N).
  Hypothesis Hiv : length iv = 8.
  Hypothesis Hs : length s = 4.
  Hypothesis Hlast : (last < 2)%N.

  Lemma bl_transform1_ok padding h X J total : length h = 8 -> (total < 2 ^ 64)%N -> bytes_ok X -> length X = bb w ->
    bl_transform1 w padding (h ++ s) (X ++ J) total
    = Ok (compressb w h s (be_words (wb w) 16 X) (if padding then 0 else total)%N ++ s).
  Proof.
    intros Hh Ht HX HL. unfold bl_transform1. rewrite (bl_bs_eq w Hw), load_app by auto. cbn [bind].
    rewrite bl_block_eq by auto. reflexivity.
  Qed.

  Lemma bl_pad_ok x msg total : bytes_ok msg -> total = trunc 64 (bitlen msg) ->
    buf_inv (bl_step w) (bb w) 128 false (iv ++ s) x msg ->
    exists h X J pos padding,
      bl_pad w me last x total = Ok (h ++ s, X ++ J, pos, padding) /\ length h = 8 /\
      length X = bb w /\ bytes_ok X /\ length (X ++ J) = 128 /\
      compressb w h s (be_words (wb w) 16 X) (if padding then 0 else total)%N = blake_core w iv s last msg.
  Proof.
    intros Hb Htot (B & T & J & n & -> & HB & HT & Hc & Ht & Hm & Hl & Hp).
    unfold okrem in HT. apply Forall_app in Hb. destruct Hb as [HbB HbT].
    assert (Hlen : n * bb w <= length (B ++ T)) by (rewrite app_length; lia).
    rewrite (bl_loop w Hw iv s B n (length (B ++ T))) in Hc by auto.
    pose proof (cblocks_length w s B (length (B ++ T)) n iv Hiv) as Lc.
    pose proof (bl_dims w Hw) as D. fold lf in D.
    assert (HJ : length T + length J = 128) by (rewrite <- Hl, Hm, app_length; reflexivity).
    assert (Hbl : bb w <= 128) by (destruct D as [(D & _)|(D & _)]; rewrite D; lia).
    assert (Htl : (total < 2 ^ 64)%N) by (rewrite Htot; apply trunc_lt).
    assert (Hbl2 : bytes_ok [last]) by (constructor; [eapply N.lt_trans; [exact Hlast|reflexivity]|constructor]).
    unfold bl_pad. rewrite Hp, Hm, Hc. set (h := cblocks w s B (length (B ++ T)) n iv) in *.
    rewrite store_app by lia. cbn [bind].
    destruct (Nat.ltb_spec me (length T)) as [Hbig|Hsmall].
    - destruct (Nat.eqb_spec (length T) me) as [F|_]; [lia|]. rewrite (bl_bs_eq w Hw).
      set (X := T ++ [128%N] ++ zeros (bb w - length T - 1)).
      assert (HX : length X = bb w) by (unfold X; rewrite !app_length, zeros_length; cbn [length]; lia).
      assert (HXb : bytes_ok X) by (unfold X; repeat apply bytes_ok_app; auto using bytes_ok_zeros; repeat constructor).
      assert (E1 : (if negb (bb w =? length T + 1) then
                k <- size_sub (bb w) (length T + 1) ;; memset (T ++ [128%N] ++ skipn 1 J) (length T + 1) 0 k
              else Ok (T ++ [128%N] ++ skipn 1 J)) = Ok (X ++ skipn (bb w - length T) J)).
      { destruct (Nat.eqb_spec (bb w) (length T + 1)) as [F|F]; cbn [negb].
        - unfold X. replace (bb w - length T - 1) with 0 by lia. replace (bb w - length T) with 1 by lia.
          rewrite app_nil_r, <- app_assoc. reflexivity.
        - rewrite size_sub_ok by lia. cbn [bind]. rewrite (app_assoc T).
          rewrite memset_app by (rewrite ?app_length, ?skipn_length; cbn [length]; lia).
          rewrite skipn_skipn. unfold X. rewrite <- !app_assoc. unfold zeros.
          replace (bb w - (length T + 1)) with (bb w - length T - 1) by lia.
          replace (bb w - length T - 1 + 1) with (bb w - length T) by lia. reflexivity. }
      change 0x80%N with 128%N. rewrite E1. cbn [bind]. rewrite bl_transform1_ok by auto. cbn [bind].
      destruct (Nat.leb_spec 0 me) as [_|F]; [|lia].
      rewrite size_sub_ok by lia. cbn [bind]. rewrite Nat.sub_0_r.
      set (J1 := X ++ skipn (bb w - length T) J).
      assert (HJ1 : length J1 = 128) by (unfold J1; rewrite app_length, skipn_length, HX; lia).
      assert (Hme : me + 1 + lf = bb w) by (unfold me; lia).
      pose proof (memset_app [] J1 0%N 0 me eq_refl ltac:(lia)) as E2. cbn [app] in E2. rewrite E2. cbn [bind].
      rewrite store_app by (rewrite ?repeat_length, ?skipn_length; lia). cbn [bind].
      rewrite skipn_skipn, app_assoc.
      pose proof (bl_write_len (repeat 0%N me ++ [last]) (skipn (1 + me) J1) total) as W.
      rewrite (bl_bs_eq w Hw) in W.
      match type of W with ?P -> ?Q -> ?a = _ => assert (W' : a = Ok (((repeat 0%N me ++ [last]) ++ zeros (lf - 8) ++ be_bytes 8 total) ++ skipn lf (skipn (1 + me) J1))) end.
      { apply W; [rewrite app_length, repeat_length; reflexivity|rewrite skipn_length; lia]. }
      clear W.
      match type of W' with bind ?a _ = _ => destruct a as [m2| |]; try discriminate W' end. cbn [bind] in W' |- *.
      rewrite W'. cbn [bind].
      set (Y := (repeat 0%N me ++ [last]) ++ zeros (lf - 8) ++ be_bytes 8 total).
      assert (HY : length Y = bb w).
      { unfold Y. rewrite !app_length, repeat_length, zeros_length, be_bytes_length. cbn [length]. lia. }
      eexists _, Y, _, _, _. split; [reflexivity|]. split; [apply compressb_length|]. split; [exact HY|]. split.
      { unfold Y. apply bytes_ok_app; [apply bytes_ok_app; [apply (bytes_ok_zeros me)|exact Hbl2]|].
        apply bytes_ok_app; [apply bytes_ok_zeros|apply bytes_ok_be]. }
      split; [rewrite app_length, !skipn_length; lia|].
      rewrite (core_two w Hw iv s last Hiv Hs Hlast B T n HB HT X Y); auto; [| |unfold me in *; lia].
      + rewrite <- Htot. reflexivity.
      + rewrite (pad_two w Hw iv s last Hiv Hs Hlast B T n HB HT) by (fold lf; exact Hbig). rewrite <- Htot. reflexivity.
    - destruct (pad_one w Hw iv s last Hiv Hs Hlast B T n HB HT) as (A & HA & EP & EA); [exact Hsmall|].
      fold lf in HA, EP. fold me in HA. rewrite <- Htot in EP.
      cbn [bind].
      assert (E : (if length T + 1 <=? me then
                     k <- size_sub me (length T + 1) ;;
                     m <- memset (T ++ [if length T =? me then (128 + last)%N else 128%N] ++ skipn 1 J) (length T + 1) 0 k ;;
                     store m me last
                   else Ok (T ++ [if length T =? me then (128 + last)%N else 128%N] ++ skipn 1 J))
                  = Ok (A ++ skipn (me + 1 - length T) J)).
      { fold lf in EA. fold me in EA. destruct (Nat.leb_spec (length T + 1) me) as [F|F].
        - destruct (Nat.eqb_spec (length T) me) as [G|G]; [lia|].
          rewrite size_sub_ok by lia. cbn [bind]. rewrite (app_assoc T).
          rewrite memset_app by (rewrite ?app_length, ?skipn_length; cbn [length]; lia). cbn [bind].
          rewrite (app_assoc (T ++ [128%N])).
          rewrite store_app; [|rewrite !app_length, repeat_length; cbn [length]; lia|rewrite !skipn_length; lia].
          rewrite !skipn_skipn. f_equal. rewrite EA. rewrite <- !app_assoc. unfold zeros.
          replace (me - (length T + 1)) with (me - length T - 1) by lia.
          replace (1 + (me - length T - 1) + 1) with (me + 1 - length T) by lia. reflexivity.
        - destruct (Nat.eqb_spec (length T) me) as [G|G]; [|lia].
          rewrite EA. replace (me + 1 - length T) with 1 by lia. rewrite <- app_assoc. reflexivity. }
      change 0x80%N with 128%N. rewrite E. cbn [bind].
      pose proof (bl_write_len A (skipn (me + 1 - length T) J) total HA ltac:(rewrite skipn_length; lia)) as W.
      match type of W with bind ?a _ = _ => destruct a as [m2| |]; try discriminate W end. cbn [bind] in W |- *.
      rewrite W. cbn [bind].
      set (Y := A ++ zeros (lf - 8) ++ be_bytes 8 total) in *.
      assert (HY : length Y = bb w).
      { unfold Y. rewrite !app_length, zeros_length, be_bytes_length. unfold me in *. lia. }
      eexists _, Y, _, _, _. split; [reflexivity|]. split; [exact Lc|]. split; [exact HY|]. split.
      { unfold Y. apply bytes_ok_app; [|apply bytes_ok_app; [apply bytes_ok_zeros|apply bytes_ok_be]]. rewrite EA.
        apply bytes_ok_app; [auto|]. destruct (_ =? _).
        - constructor; [|constructor]. eapply N.lt_trans; [apply N.add_lt_mono_l; exact Hlast|reflexivity].
        - apply bytes_ok_app; [repeat constructor|]. apply bytes_ok_app; auto using bytes_ok_zeros. }
      split; [rewrite app_length, !skipn_length; unfold me in *; lia|].
      rewrite (core_one w Hw iv s last Hiv Hs Hlast B T n HB HT Y EP HY). rewrite <- Htot. reflexivity.
  Qed.
End Pad.

(** ** Simulation *)
Definition blake_set (n : N) (q : bl_param) (v : list N) (p : list N) : option (list N) :=
  if length v =? 0 then Some (zeros (4 * wb (blake_w n)))
  else if length v =? 4 * wb (blake_w n) then Some v else None.
Definition blake_spec (n : N) : hash_spec bl_param :=
  {| sp_params := list N; sp_default := zeros (4 * wb (blake_w n)); sp_set := blake_set n;
     sp_size := N.to_nat (n / 8); sp_digest := fun salt msg => blake_hash n salt msg |}.

Section Sim.
  Variable hs : N.
  Hypothesis Hh : bl_size hs.
  Let w := blake_w hs.
  Let Hw : w = 64%N \/ w = 32%N := bl_size_w hs Hh.

  Definition bl_R (s : bl_st) (salt : list N) (msg : list N) : Prop :=
    blhs s = hs /\ length salt = 4 * wb w /\ bytes_ok msg /\
    buf_inv (bl_step w) (bb w) 128 false (blake_IV hs ++ be_words (wb w) 4 salt) (bls s) msg.

  Lemma bb_128 : bb w <= 128.
  Proof. destruct Hw as [E|E]; rewrite E; vm_compute; lia. Qed.

  Lemma bl_init_ok s salt : blhs s = hs -> length salt = 4 * wb w -> length (sm (bls s)) = 128 ->
    skipn 8 (sh (bls s)) = be_words (wb w) 4 salt ->
    exists s', bl_init s = Ok s' /\ bl_R s' salt [].
  Proof.
    intros E1 E2 E3 E4. unfold bl_init. rewrite E1, E4.
    assert (EI : bl_iv hs = Some (blake_IV hs)) by (destruct Hh as [XX|[XX|[XX|XX]]]; rewrite XX; reflexivity).
    rewrite EI. eexists. split; [reflexivity|]. split; [reflexivity|]. split; [exact E2|]. split; [constructor|].
    cbn [bls]. apply buf_inv_start; [exact (bl_bb_pos w Hw)|exact bb_128|exact E3].
  Qed.

  Lemma blake_IV_length : length (blake_IV hs) = 8.
  Proof. destruct Hh as [XX|[XX|[XX|XX]]]; rewrite XX; reflexivity. Qed.

  (** The salt words stay where they are. *)
  Lemma bl_R_salt s salt msg : bl_R s salt msg -> skipn 8 (sh (bls s)) = be_words (wb w) 4 salt.
  Proof.
    intros (_ & _ & Hb & (B & T & J & n & -> & HB & HT & Hc & _)). apply Forall_app in Hb.
    rewrite (bl_loop w Hw (blake_IV hs) (be_words (wb w) 4 salt) B n (length B)) in Hc;
      auto using blake_IV_length, be_words_length; [|tauto|lia].
    rewrite Hc. apply skipn_app_exact. symmetry. apply cblocks_length. apply blake_IV_length.
  Qed.
  Lemma bl_R_sm s salt msg : bl_R s salt msg -> length (sm (bls s)) = 128.
  Proof. intros (_ & _ & _ & A). exact (buf_inv_sm _ _ _ _ _ _ _ A). Qed.

  Lemma bl_update_ok s salt msg d : bytes_ok d -> bl_R s salt msg ->
    exists s', bl_update s d = Ok s' /\ bl_R s' salt (msg ++ d).
  Proof.
    intros Hd (E1 & E2 & Hb & A). unfold bl_update. rewrite E1. change (bl_w hs) with w. cbv zeta. rewrite (bl_bs_eq w Hw).
    destruct (buf_update_ok (bl_step w) (bb w) 128 false (bl_bb_pos w Hw) bb_128 _ (bls s) msg d A) as (x & E & A').
    change (bschk (bb w) false) with (bb w) in E. rewrite E. cbn [bind].
    eexists. split; [reflexivity|]. split; [reflexivity|]. split; [exact E2|]. split; [apply bytes_ok_app; auto|exact A'].
  Qed.

  Lemma zero_salt : be_words (wb w) 4 (zeros (4 * wb w)) = zeros 4.
  Proof. destruct Hw as [E|E]; rewrite E; reflexivity. Qed.

  Lemma bl_set_ok q v s salt msg : bytes_ok v -> bl_R s salt msg ->
    match blake_set hs q v salt with
    | Some p' => exists s1 s2, bl_set q v s = Done s1 /\ bl_init s1 = Ok s2 /\ bl_R s2 p' []
    | None => bl_set q v s = Raised s
    end.
  Proof.
    intros Hv HR. pose proof HR as (E1 & E2 & Hb & A). pose proof (bl_R_salt _ _ _ HR) as Hsalt.
    pose proof (bl_R_sm _ _ _ HR) as Hm.
    assert (L8 : length (firstn 8 (sh (bls s))) = 8).
    { rewrite firstn_length. assert (length (skipn 8 (sh (bls s))) = 4) by (rewrite Hsalt; apply be_words_length).
      rewrite skipn_length in H. lia. }
    assert (G : forall p x, length p = 4 * wb w -> x = be_words (wb w) 4 p ->
      exists s2, bl_init (mkbl (mkst (firstn 8 (sh (bls s)) ++ x) (sm (bls s)) (spos (bls s)) (stotal (bls s))) hs) = Ok s2 /\ bl_R s2 p []).
    { intros p x Hp ->. apply bl_init_ok; auto. cbn [bls sh]. apply skipn_app_exact. auto. }
    unfold bl_set, blake_set. fold w. rewrite E1. change (bl_w hs) with w. cbv zeta. rewrite (bl_wb_eq w Hw).
    assert (C : forall n : nat, ((256 <? hs)%N && negb (n =? 32) || (hs <=? 256)%N && negb (n =? 16)) = negb (n =? 4 * wb w)).
    { intros n. unfold w. destruct Hh as [XX|[XX|[XX|XX]]]; rewrite XX; cbn [N.ltb N.leb N.compare Pos.compare Pos.compare_cont andb orb];
      rewrite ?orb_false_r; reflexivity. }
    rewrite C. destruct (Nat.eqb_spec (length v) 0) as [Z|Z]; cbn [negb andb].
    - destruct (G (zeros (4 * wb w)) (zeros 4) (zeros_length _) (eq_sym zero_salt)) as (s2 & F & R2). eauto.
    - destruct (Nat.eqb_spec (length v) (4 * wb w)) as [L|L]; cbn [negb]; [|reflexivity].
      destruct (G v (map (bl_swap w) (le_words (wb w) 4 v)) L) as (s2 & F & R2); [apply (swap_words w Hw); auto; lia|]. eauto.
  Qed.

  Lemma bl_final_ok s salt msg : bl_R s salt msg -> exists s', bl_final s = Ok (s', blake_hash hs salt msg).
  Proof.
    intros (E1 & E2 & Hb & A). destruct s as [x h0]. cbn [blhs bls] in *. subst h0.
    rewrite bl_final_split by exact Hh. fold w. cbv zeta.
    assert (Ht : trunc 64 (stotal x + N.of_nat (8 * spos x)) = trunc 64 (bitlen msg)).
    { destruct A as (B & T & J & n & -> & HB & HT & Hc & Ht & Hm & Hl & Hp).
      rewrite Ht, Hp, trunc_add_l. f_equal. unfold bitlen. rewrite app_length, HB. lia. }
    rewrite Ht.
    destruct (bl_pad_ok w Hw (blake_IV hs) (be_words (wb w) 4 salt) (bl_last hs) blake_IV_length (be_words_length _ _ _)
      ltac:(unfold bl_last; destruct (_ || _); reflexivity) x msg _ Hb eq_refl A) as (h & X & J & pos & padding & E & Lh & LX & HX & LJ & EC).
    rewrite E. cbn [bind].
    rewrite (bl_transform1_ok w Hw (be_words (wb w) 4 salt) (be_words_length _ _ _)) by (auto; apply trunc_lt).
    rewrite EC. cbn [bind].
    assert (LC : length (blake_core w (blake_IV hs) (be_words (wb w) 4 salt) (bl_last hs) msg) = 8)
      by (rewrite <- EC; apply compressb_length).
    unfold blake_hash. fold w. cbv zeta. fold (bl_last hs). revert LC.
    generalize (blake_core w (blake_IV hs) (be_words (wb w) 4 salt) (bl_last hs) msg). intros r LC.
    rewrite (firstn_app_exact r) by auto. rewrite (skipn_app_exact r) by auto. rewrite (bl_wb_eq w Hw).
    assert (EW : words_bytes (wb w) (map (bl_swap w) r) = flat_map (be_bytes (wb w)) r).
    { destruct Hw as [Ew|Ew]; rewrite Ew; unfold bl_swap; cbn [N.eqb Pos.eqb];
        [apply words_bytes_swap64|apply words_bytes_swap32]. }
    assert (Ea : words_bytes (wb w) (map (bl_swap w) r ++ be_words (wb w) 4 salt) =
      flat_map (be_bytes (wb w)) r ++ words_bytes (wb w) (be_words (wb w) 4 salt)).
    { rewrite <- EW. unfold words_bytes. apply flat_map_app. }
    rewrite Ea.
    assert (LR : N.to_nat (hs / 8) <= length (flat_map (be_bytes (wb w)) r)).
    { rewrite <- EW, words_bytes_length, map_length, LC. unfold w. destruct Hh as [XX|[XX|[XX|XX]]]; rewrite XX; vm_compute; lia. }
    rewrite load_ok by (rewrite app_length; lia). cbn [bind skipn].
    rewrite firstn_app. replace (N.to_nat (hs / 8) - length (flat_map (be_bytes (wb w)) r)) with 0 by lia.
    cbn [firstn]. rewrite app_nil_r. eexists. reflexivity.
  Qed.

  Lemma bl_hash_length salt msg : length (blake_hash hs salt msg) = N.to_nat (hs / 8).
  Proof.
    unfold blake_hash. fold w. cbv zeta. rewrite firstn_length. apply Nat.min_l.
    assert (L : forall p : list N, length p <> 0 -> True) by auto. clear L.
    match goal with |- _ <= length (flat_map _ ?r) => assert (LC : length r = 8) end.
    { unfold blake_core. generalize (seq 0 (length (padb w (if (hs =? 256)%N || (hs =? 512)%N then 1%N else 0%N) msg) / bb w)).
      intros l. pose proof blake_IV_length as LI. revert LI. generalize (blake_IV hs).
      induction l; intros iv LI; [exact LI|]. cbn [fold_left]. apply IHl. apply compressb_length. }
    revert LC. match goal with |- length ?r = 8 -> _ => generalize r end. intros r LC.
    do 8 (destruct r as [|? r]; [discriminate LC|]). destruct r; [|discriminate LC].
    cbn [flat_map]. rewrite !app_length, !be_bytes_length.
    unfold w. destruct Hh as [XX|[XX|[XX|XX]]]; rewrite XX; vm_compute; lia.
  Qed.

  Theorem blake_sim : sim blake (blake_spec hs) bl_R true.
  Proof.
    constructor.
    - intros s p msg HR. apply bl_init_ok; [apply HR|apply HR|exact (bl_R_sm _ _ _ HR)|exact (bl_R_salt _ _ _ HR)].
    - intros s p msg d. apply bl_update_ok.
    - intros _ s p msg HR. eexists. pose proof HR as (E1 & E2 & _).
      assert (L8 : skipn 8 (zeros (length (sh (bls s)))) = zeros 4).
      { pose proof (bl_R_salt _ _ _ HR) as H. apply (f_equal (@length N)) in H. rewrite skipn_length, be_words_length in H.
        replace (length (sh (bls s))) with 12 by lia. reflexivity. }
      destruct (bl_init_ok (mkbl (mkst (zero_memory (sh (bls s))) (zero_memory (sm (bls s))) (spos (bls s)) (stotal (bls s))) (blhs s))
        (zeros (4 * wb w))) as (s2 & F & R2).
      + exact E1.
      + apply zeros_length.
      + cbn [bls sm]. unfold zero_memory. rewrite zeros_length. exact (bl_R_sm _ _ _ HR).
      + cbn [bls sh]. unfold zero_memory. rewrite L8. symmetry. apply zero_salt.
      + exists s2. split; [reflexivity|]. split; [exact F|exact R2].
    - intros q v s p msg Hv HR. pose proof (bl_set_ok q v s p msg Hv HR) as E.
      cbn [sp_set blake_spec]. destruct (blake_set hs q v p); [exact E|]. exists s. split; [exact E|exact HR].
    - intros s p msg. apply bl_final_ok.
    - intros s p msg (E1 & _). cbn. rewrite E1. rewrite N2Nat.id. reflexivity.
    - intros s p msg _. apply bl_hash_length.
    - intros s p msg _. cbn [sp_digest blake_spec]. unfold blake_hash. cbv zeta. apply Forall_firstn.
      apply Forall_forall. intros y Hy. apply in_flat_map in Hy. destruct Hy as (z & _ & Hz).
      pose proof (bytes_ok_be (wb (blake_w hs)) z) as B. unfold bytes_ok in B. rewrite Forall_forall in B. apply B. exact Hz.
    - cbn. destruct Hh as [XX|[XX|[XX|XX]]]; rewrite XX; vm_compute; lia.
  Qed.

  Theorem blake_implements g : length (sm g) = 128 ->
    implements blake (blake_spec hs) true (fresh_of (bl_ctor hs g) bl_init) /\
    implements blake (blake_spec hs) true (fresh_of (bl_ctor_static hs g) bl_init).
  Proof.
    intros Hg.
    assert (E : bl_ctor hs g = bl_ctor_static hs g) by (destruct Hh as [XX|[XX|[XX|XX]]]; rewrite XX; reflexivity).
    rewrite E.
    assert (I : implements blake (blake_spec hs) true (fresh_of (bl_ctor_static hs g) bl_init)).
    { unfold fresh_of, bl_ctor_static. cbn [bind].
      destruct (bl_init_ok (mkbl (mkst (zeros 12) (sm g) (spos g) (stotal g)) hs) (zeros (4 * wb w))) as (s2 & F & R2); auto.
      - apply zeros_length.
      - symmetry. apply zero_salt.
      - rewrite F. apply (sim_implements _ _ _ _ blake_sim). exact R2. }
    split; exact I.
  Qed.
End Sim.
