(** * BLAKE2 conformance. *)
From Verif Require Import Base Absorb Lemmas WordLemmas TableLemmas AbsorbProof Hasher HasherSpec HasherProof
  MdState MdProof BufProof SpecCommon SqueezeProof SpongeProof ConstBlake2 Blake2 Blake2Spec Validate.
Local Open Scope nat_scope.

(** ** The compression function *)
Lemma b2_rots_eq w : b2_rots w = (R1 w, R2 w, R3 w, R4 w).
Proof. unfold b2_rots, R1, R2, R3, R4. destruct (w =? 64)%N; reflexivity. Qed.

Lemma b2_IV_eq w : b2_IV w = IV2 w.
Proof. unfold b2_IV, IV2. destruct (w =? 64)%N; reflexivity. Qed.

Lemma sigma_eq r k : r < 12 -> k < 16 ->
  N.to_nat (nthN k (nth r blake2_S [])) = nth k (nth (r mod 10) SIGMA []) 0.
Proof.
  intros Hr Hk.
  assert (E : forallb (fun r => forallb (fun k =>
      N.to_nat (nthN k (nth r blake2_S [])) =? nth k (nth (r mod 10) SIGMA []) 0) (seq 0 16)) (seq 0 12) = true)
    by (vm_compute; reflexivity).
  rewrite forallb_forall in E. specialize (E r ltac:(apply in_seq; lia)).
  rewrite forallb_forall in E. specialize (E k ltac:(apply in_seq; lia)).
  apply Nat.eqb_eq in E. exact E.
Qed.

Definition l16 (v : vec) : list N := map v (seq 0 16).

Definition b2_G' (w : N) (q : nat * nat * nat * nat) (x y : N) (v : list N) : list N :=
  let '(ia, ib, ic, id) := q in
  let a := nthN ia v in
  let b := nthN ib v in
  let c := nthN ic v in
  let d := nthN id v in
  let a := addw w (addw w a b) x in
  let d := rotr w (N.lxor d a) (R1 w) in
  let c := addw w c d in
  let b := rotr w (N.lxor b c) (R2 w) in
  let a := addw w (addw w a b) y in
  let d := rotr w (N.lxor d a) (R3 w) in
  let c := addw w c d in
  let b := rotr w (N.lxor b c) (R4 w) in
  upd id d (upd ic c (upd ib b (upd ia a v))).

Lemma b2_G_split w r i ia ib ic id M v : r < 12 -> i < 8 ->
  b2_G w r i ia ib ic id M v =
  b2_G' w (ia, ib, ic, id) (nth (nth (2 * i) (nth (r mod 10) SIGMA []) 0) M 0%N)
    (nth (nth (2 * i + 1) (nth (r mod 10) SIGMA []) 0) M 0%N) v.
Proof.
  intros Hr Hi. unfold b2_G. rewrite b2_rots_eq. unfold tbl.
  rewrite !sigma_eq by lia. reflexivity.
Qed.

(** The mixing pattern over abstract word operations. *)
Section Pattern.
  Variables (p xo : N -> N -> N) (f1 f2 f3 f4 : N -> N).
  Definition pat_list (q : nat * nat * nat * nat) (x y : N) (v : list N) : list N :=
    let '(ia, ib, ic, id) := q in
    let a := nthN ia v in
    let b := nthN ib v in
    let c := nthN ic v in
    let d := nthN id v in
    let a := p (p a b) x in
    let d := f1 (xo d a) in
    let c := p c d in
    let b := f2 (xo b c) in
    let a := p (p a b) y in
    let d := f3 (xo d a) in
    let c := p c d in
    let b := f4 (xo b c) in
    upd id d (upd ic c (upd ib b (upd ia a v))).
  Definition pat_vec (v : vec) (q : nat * nat * nat * nat) (x y : N) : vec :=
    let '(a, b, c, d) := q in
    let v := put v a (p (p (v a) (v b)) x) in
    let v := put v d (f1 (xo (v d) (v a))) in
    let v := put v c (p (v c) (v d)) in
    let v := put v b (f2 (xo (v b) (v c))) in
    let v := put v a (p (p (v a) (v b)) y) in
    let v := put v d (f3 (xo (v d) (v a))) in
    let v := put v c (p (v c) (v d)) in
    put v b (f4 (xo (v b) (v c))).
  Lemma pat_eq q x y v : In q quads -> pat_list q x y (l16 v) = l16 (pat_vec v q x y).
  Proof.
    intros Hq. unfold quads in Hq. cbn [In] in Hq.
    repeat destruct Hq as [<-|Hq]; [..|destruct Hq]; reflexivity.
  Qed.
End Pattern.

Lemma b2_G_eq w q x y v : In q quads -> b2_G' w q x y (l16 v) = l16 (G2 w v q x y).
Proof.
  intros Hq.
  transitivity (pat_list (plus_mod w) N.lxor (ROTR w (R1 w)) (ROTR w (R2 w)) (ROTR w (R3 w)) (ROTR w (R4 w)) q x y (l16 v));
    [|exact (pat_eq _ _ _ _ _ _ q x y v Hq)].
  destruct q as [[[ia ib] ic] id]. unfold b2_G', pat_list. rewrite !addw_plus, !rotr_ROTR. reflexivity.
Qed.

Lemma b2_round_eq w M v r : r < 12 -> b2_round w M (l16 v) r = l16 (round2 w M v r).
Proof.
  intros Hr. unfold b2_round, round2. cbn [seq fold_left].
  rewrite !b2_G_split by lia. cbv zeta.
  do 8 (rewrite b2_G_eq by (unfold quads; cbn [In]; tauto)). reflexivity.
Qed.

Lemma fold_left_hom_in {A B X} (g : A -> B) (f : A -> X -> A) (f' : B -> X -> B) l :
  (forall a x, In x l -> f' (g a) x = g (f a x)) ->
  forall a, fold_left f' l (g a) = g (fold_left f l a).
Proof.
  induction l as [|x l IH]; intros H a; [reflexivity|].
  cbn [fold_left]. rewrite H by (left; auto). apply IH. intros. apply H. right. auto.
Qed.

Lemma b2_rounds_eq w M n v : n <= 12 ->
  fold_left (b2_round w M) (seq 0 n) (l16 v) = l16 (fold_left (round2 w M) (seq 0 n) v).
Proof.
  intros Hn. apply (fold_left_hom_in l16 (round2 w M) (b2_round w M)).
  intros a r Hr. apply in_seq in Hr. apply b2_round_eq. lia.
Qed.

Lemma l16_nth v i : i < 16 -> nthN i (l16 v) = v i.
Proof. intros. unfold nthN, l16. apply nth_map_seq. auto. Qed.

Section Blake2.
  Variable w : N.
  Hypothesis Hw : w = 64%N \/ w = 32%N.

  Lemma wb_eq : b2_wb w = wb w. Proof. destruct Hw; subst; reflexivity. Qed.
  Lemma bs_eq : b2_bs w = bb w. Proof. destruct Hw; subst; reflexivity. Qed.
  Lemma hb_eq : b2_hb w = hb w. Proof. destruct Hw; subst; reflexivity. Qed.
  Lemma sb_eq : b2_sb w = 2 * wb w. Proof. destruct Hw; subst; reflexivity. Qed.
  Lemma bb_pos : 0 < bb w. Proof. destruct Hw; subst; vm_compute; lia. Qed.
  Lemma hb_pos : 0 < hb w. Proof. destruct Hw; subst; vm_compute; lia. Qed.
  Lemma hb_bb : hb w < bb w. Proof. destruct Hw; subst; vm_compute; lia. Qed.
  Lemma hb_w : N.of_nat (hb w) = w. Proof. destruct Hw; subst; reflexivity. Qed.
  Lemma bb_w : N.of_nat (bb w) = (2 * w)%N. Proof. destruct Hw; subst; reflexivity. Qed.

  Lemma F2_length h m t f fn : length (F2 w h m t f fn) = 8.
  Proof. reflexivity. Qed.

  Lemma b2_block_eq tb last lastn H data : length H = 8 -> (tb < 2 ^ 64)%N ->
    b2_block w tb last lastn H data = F2 w H (le_words (wb w) 16 data) tb last lastn.
  Proof.
    intros HH Ht. unfold b2_block, F2. rewrite wb_eq, b2_IV_eq. cbv zeta.
    set (M := le_words (wb w) 16 data).
    match goal with |- context [fold_left (round2 w M) _ ?v] => set (v0 := v) end.
    assert (E : H ++ [nthN 0 (IV2 w); nthN 1 (IV2 w); nthN 2 (IV2 w); nthN 3 (IV2 w);
       N.lxor (trunc w tb) (nthN 4 (IV2 w));
       N.lxor (if (w =? 64)%N then 0 else trunc w (N.shiftr tb 32)) (nthN 5 (IV2 w));
       N.lxor (if last then N.ones w else 0) (nthN 6 (IV2 w));
       N.lxor (if last && lastn then N.ones w else 0) (nthN 7 (IV2 w))] = l16 v0).
    { assert (E0 : trunc w tb = (tb mod 2 ^ w)%N) by apply trunc_mod.
      assert (E1 : (if (w =? 64)%N then 0 else trunc w (N.shiftr tb 32))%N = (tb / 2 ^ w)%N).
      { destruct Hw; subst w; cbn [N.eqb Pos.eqb].
        - symmetry. apply N.div_small. exact Ht.
        - rewrite N.shiftr_div_pow2. apply trunc_small.
          apply N.div_lt_upper_bound; [discriminate|]. exact Ht. }
      rewrite E0, E1. unfold v0. clear v0. generalize (tb mod 2 ^ w)%N (tb / 2 ^ w)%N. intros x y.
      do 8 (destruct H as [|? H]; [discriminate HH|]). destruct H; [|discriminate HH].
      unfold NOT, N.lnot, l16. generalize (IV2 w) (N.ones w). intros iv o.
      rewrite (N.lxor_comm x), (N.lxor_comm y).
      destruct last, lastn; cbn [andb]; rewrite ?N.lxor_0_l, ?(N.lxor_comm o); reflexivity. }
    rewrite E, b2_rounds_eq by (destruct (w =? 64)%N; lia).
    apply map_ext_in. intros i Hi. apply in_seq in Hi. rewrite !l16_nth by lia. reflexivity.
  Qed.

  (** ** The loop over the blocks *)
  Definition iv_ok (h0 : list N) : Prop := length h0 = 8.

  (** The blocks of a decomposition of the data. *)
  Definition F2_blocks (h0 data : list N) (n : nat) : list N :=
    fold_left (fun h i => F2 w h (block_of w data i) (ctr2 (i * bb w) + N.of_nat (bb w)) false false)
      (seq 0 n) h0.

  Lemma ctr2_lt n : (ctr2 n < 2 ^ 61)%N.
  Proof. apply N.mod_lt. discriminate. Qed.

  Lemma trunc_ctr n : (trunc 64 (N.of_nat (n * 8)) / 8 = ctr2 n)%N.
  Proof.
    unfold ctr2. rewrite trunc_mod.
    replace (N.of_nat (n * 8)) with (N.of_nat n * 8)%N by lia.
    change (2 ^ 64)%N with (2 ^ 61 * 8)%N. rewrite N.mul_mod_distr_r by discriminate.
    apply N.div_mul. discriminate.
  Qed.

  Lemma b2_step_eq H t data : length H = 8 -> (t < 2 ^ 64)%N ->
    b2_step w H t data = F2 w H (le_words (wb w) 16 data) (t / 8 + N.of_nat (bb w)) false false.
  Proof.
    intros. unfold b2_step. rewrite bs_eq. apply b2_block_eq; auto.
    assert (t / 8 < 2 ^ 61)%N by (apply N.div_lt_upper_bound; [discriminate|exact H1]).
    rewrite bb_w. destruct Hw; subst w; change (2 ^ 64)%N with (8 * 2 ^ 61)%N; lia.
  Qed.

  Lemma block_loop_F2 h0 data n : length h0 = 8 ->
    block_loop (b2_step w) (bb w) h0 0 data n = F2_blocks h0 data n.
  Proof.
    intros Hh. rewrite block_loop_seq by reflexivity. unfold F2_blocks.
    assert (G : forall l h, length h = 8 ->
      fold_left (fun c i => b2_step w c (trunc 64 (0 + N.of_nat (i * bb w * 8))) (firstn (bb w) (skipn (i * bb w) data))) l h
      = fold_left (fun h i => F2 w h (block_of w data i) (ctr2 (i * bb w) + N.of_nat (bb w)) false false) l h).
    { induction l as [|i l IH]; intros h Hl; [reflexivity|]. cbn [fold_left].
      rewrite b2_step_eq by (auto using trunc_lt). rewrite N.add_0_l, trunc_ctr.
      unfold block_of at 2. apply IH. apply F2_length. }
    apply G. exact Hh.
  Qed.

  Lemma F2_blocks_length h0 data n : length h0 = 8 -> length (F2_blocks h0 data n) = 8.
  Proof.
    intros H. unfold F2_blocks. generalize (seq 0 n). intros l. revert h0 H.
    induction l; intros; [auto|]. cbn [fold_left]. apply IHl. apply F2_length.
  Qed.

  Lemma F2_blocks_app h0 B T n : length B = n * bb w ->
    F2_blocks h0 (B ++ T) n = F2_blocks h0 B n.
  Proof.
    intros HB. unfold F2_blocks. apply fold_left_ext_in. intros h i Hi. apply in_seq in Hi.
    unfold block_of. f_equal. f_equal.
    assert ((i + 1) * bb w <= n * bb w) by (apply Nat.mul_le_mono_r; lia).
    rewrite skipn_app, firstn_app.
    replace (bb w - length (skipn (i * bb w) B)) with 0 by (rewrite skipn_length; lia).
    cbn [firstn]. apply app_nil_r.
  Qed.

  Lemma blocks_of_split n B T : length B = n * bb w -> okrem (bb w) true n (length T) ->
    blocks_of w (B ++ T) = S n.
  Proof.
    intros HB Hr. unfold okrem in Hr. unfold blocks_of. rewrite app_length, HB.
    pose proof bb_pos. destruct (Nat.eq_dec (length T) 0) as [E|E].
    - rewrite E. assert (n = 0) by tauto. subst n. cbn [Nat.mul Nat.add].
      rewrite Nat.div_small by lia. reflexivity.
    - replace (n * bb w + length T + bb w - 1) with ((length T - 1) + (n + 1) * bb w) by lia.
      rewrite Nat.div_add by lia. rewrite Nat.div_small by lia. lia.
  Qed.

  (** ** Absorbed state and padding *)
  Definition b2_abs (h0 : list N) (c : st) (D : list N) : Prop :=
    buf_inv (b2_step w) (bb w) (bb w) true h0 c D.

  Lemma core_split fn h0 n B T : length B = n * bb w -> okrem (bb w) true n (length T) ->
    blake2_core w fn h0 (B ++ T)
    = F2 w (F2_blocks h0 B n) (le_words (wb w) 16 (T ++ zeros (bb w - length T)))
        (ctr2 (length (B ++ T))) true fn.
  Proof.
    intros HB Hr. unfold blake2_core. rewrite (blocks_of_split n B T HB Hr). cbv zeta.
    replace (S n - 1) with n by lia.
    rewrite <- app_assoc.
    change (fold_left _ (seq 0 n) h0) with
      (F2_blocks h0 (B ++ T ++ zeros (S n * bb w - length (B ++ T))) n).
    rewrite F2_blocks_app by auto. f_equal. unfold block_of. f_equal.
    rewrite skipn_app_exact by auto. unfold okrem in Hr.
    rewrite app_length, HB. replace (S n * bb w - (n * bb w + length T)) with (bb w - length T) by lia.
    apply firstn_all2. rewrite app_length, zeros_length. lia.
  Qed.

  Lemma b2_pad_ok h0 s D : length h0 = 8 ->
    (exists t0, b2_abs h0 (mkst (sh (b2c s)) (sm (b2c s)) (spos (b2c s)) t0) D /\ stotal (b2c s) = trunc 64 (t0 + N.of_nat (spos (b2c s) * 8))) ->
    exists m T, b2_pad w s = Ok (mkst (blake2_core w (b2_lastn s) h0 D) m (spos (b2c s)) T) /\ length m = bb w.
  Proof.
    intros Hh (t0 & (B & T & J & n & -> & HB & Hr & Hc & Ht & Hm & Hl & Hp) & Ht').
    cbn [sh sm spos stotal] in *. unfold b2_pad. rewrite bs_eq.
    pose proof Hr as Hr'. unfold okrem in Hr'.
    rewrite size_sub_ok by lia. cbn [bind].
    assert (HJ : length J = bb w - length T).
    { rewrite Hm, app_length in Hl. lia. }
    assert (E : (if bb w - spos (b2c s) =? 0 then Ok (sm (b2c s))
                 else memset (sm (b2c s)) (spos (b2c s)) 0 (bb w - spos (b2c s)))
                = Ok (T ++ zeros (bb w - length T))).
    { rewrite Hp, Hm. destruct (Nat.eqb_spec (bb w - length T) 0) as [E|E].
      - rewrite E in *. destruct J; [reflexivity|discriminate].
      - rewrite memset_app by lia. rewrite skipn_all2 by lia. rewrite app_nil_r. reflexivity. }
    rewrite E. cbn [bind]. unfold md_transform1.
    rewrite load_all by (rewrite app_length, zeros_length; lia). cbn [bind].
    exists (T ++ zeros (bb w - length T)), (stotal (b2c s)). split; [|rewrite app_length, zeros_length; lia].
    f_equal. f_equal. cbn [block_loop]. rewrite firstn_all2 by (rewrite app_length, zeros_length; lia).
    rewrite (core_split _ h0 n) by auto. rewrite Hc, block_loop_F2 by auto.
    unfold b2_last. rewrite b2_block_eq.
    - f_equal. rewrite Ht', Ht, trunc_add_l, <- N.add_assoc, N.add_0_l, <- Nat2N.inj_add.
      rewrite <- trunc_ctr. do 3 f_equal. rewrite app_length. lia.
    - apply F2_blocks_length. auto.
    - apply N.le_lt_trans with (stotal (b2c s)); [apply N.div_le_upper_bound; lia|].
      rewrite Ht'. apply trunc_lt.
  Qed.

  (** The simplification in [b2_step] is invisible below 2^61 bytes. *)
  Lemma b2_transform_exact H total data n : (total + N.of_nat (n * bb w * 8) < 2 ^ 64)%N ->
    b2_transform_code w H total data n = block_loop (b2_step w) (bb w) H total data n.
  Proof.
    intros Hn. rewrite block_loop_seq by lia. unfold b2_transform_code. rewrite bs_eq.
    apply fold_left_ext_in. intros h i Hi. apply in_seq in Hi.
    assert (Hi2 : (i + 1) * bb w <= n * bb w) by (apply Nat.mul_le_mono_r; lia).
    unfold b2_step. rewrite bs_eq. f_equal.
    rewrite (trunc_small 64 (total + _)) by lia.
    replace (N.of_nat (i * bb w * 8)) with (N.of_nat (i * bb w) * 8)%N by lia.
    rewrite N.div_add by discriminate.
    assert (total / 8 <= total)%N by (apply N.div_le_upper_bound; lia).
    rewrite trunc_small by lia. lia.
  Qed.
End Blake2.

(** ** Initial chaining values *)
Lemma le_words_app k n : forall m x y, length x = n * k ->
  le_words k (n + m) (x ++ y) = le_words k n x ++ le_words k m y.
Proof.
  induction n; intros m x y Hx.
  - destruct x; [reflexivity|discriminate].
  - cbn [Nat.add le_words app]. assert (length x = k + n * k) by (rewrite Hx; reflexivity).
    rewrite firstn_app, skipn_app. replace (k - length x) with 0 by lia. cbn [firstn skipn].
    rewrite app_nil_r. f_equal. apply IHn. rewrite skipn_length. lia.
Qed.


Lemma le_bytes_add a : forall b x, le_bytes (a + b) x = le_bytes a x ++ le_bytes b (x / 256 ^ N.of_nat a).
Proof.
  induction a; intros b x; cbn [Nat.add le_bytes app].
  - cbn [N.of_nat]. rewrite N.pow_0_r, N.div_1_r. reflexivity.
  - f_equal. rewrite IHa, shiftr8_div. f_equal. f_equal.
    rewrite Nat2N.inj_succ, N.pow_succ_r', N.div_div; [reflexivity|discriminate|].
    apply N.pow_nonzero. discriminate.
Qed.

(** Words of the parameter block. *)
Definition tree_w0 (t : tree) : N := (t_len t + 256 * t_key t + 2 ^ 16 * t_fanout t + 2 ^ 24 * t_depth t)%N.

Lemma param_words_64 t salt pers : length salt = 16 -> length pers = 16 ->
  le_words 8 8 (param_block 64 t salt pers)
  = [(tree_w0 t + 2 ^ 32 * (t_leaf t mod 2 ^ 32))%N; (t_noff t mod 2 ^ 64)%N; (t_ndepth t + 256 * t_inner t)%N; 0%N]
    ++ le_words 8 2 salt ++ le_words 8 2 pers.
Proof.
  intros H1 H2. unfold param_block. cbn [N.eqb Pos.eqb].
  set (a := [t_len t; t_key t; t_fanout t; t_depth t] ++ le_bytes 4 (t_leaf t)).
  set (b := le_bytes 8 (t_noff t)). set (c := [t_ndepth t; t_inner t] ++ zeros 14).
  replace ([t_len t; t_key t; t_fanout t; t_depth t] ++ le_bytes 4 (t_leaf t) ++ (b ++ c) ++ salt ++ pers)
    with (a ++ b ++ c ++ salt ++ pers) by (unfold a; rewrite <- !app_assoc; reflexivity).
  rewrite (le_words_app 8 1 7) by (unfold a; rewrite app_length, le_bytes_length; reflexivity).
  rewrite (le_words_app 8 1 6) by (apply le_bytes_length).
  rewrite (le_words_app 8 2 4) by reflexivity.
  rewrite (le_words_app 8 2 2) by (rewrite H1; reflexivity).
  change ([(tree_w0 t + 2 ^ 32 * (t_leaf t mod 2 ^ 32))%N; (t_noff t mod 2 ^ 64)%N; (t_ndepth t + 256 * t_inner t)%N; 0%N]
    ++ le_words 8 2 salt ++ le_words 8 2 pers)
    with ([(tree_w0 t + 2 ^ 32 * (t_leaf t mod 2 ^ 32))%N] ++ [(t_noff t mod 2 ^ 64)%N]
      ++ [(t_ndepth t + 256 * t_inner t)%N; 0%N] ++ le_words 8 2 salt ++ le_words 8 2 pers).
  f_equal; [|f_equal; [|f_equal]].
  - cbn [le_words]. f_equal. unfold a. rewrite firstn_all2 by (rewrite app_length, le_bytes_length; reflexivity).
    rewrite le_word_app, le_word_bytes. unfold tree_w0. cbn [length].
    change (256 ^ N.of_nat 4)%N with (2 ^ 32)%N. generalize (2 ^ 32 * (t_leaf t mod 2 ^ 32))%N. intros z.
    cbn [le_word]. change (2 ^ 16)%N with 65536%N. change (2 ^ 24)%N with 16777216%N. lia.
  - cbn [le_words]. f_equal. unfold b. rewrite firstn_all2 by (rewrite le_bytes_length; reflexivity).
    rewrite le_word_bytes. reflexivity.
  - unfold c. cbn [zeros repeat app le_words firstn skipn le_word]. f_equal. lia.
Qed.

Lemma param_words_32 t salt pers : length salt = 8 -> length pers = 8 ->
  le_words 4 8 (param_block 32 t salt pers)
  = [tree_w0 t; (t_leaf t mod 2 ^ 32)%N; (t_noff t mod 2 ^ 32)%N;
     (t_noff t / 2 ^ 32 mod 2 ^ 16 + 2 ^ 16 * t_ndepth t + 2 ^ 24 * t_inner t)%N]
    ++ le_words 4 2 salt ++ le_words 4 2 pers.
Proof.
  intros H1 H2. unfold param_block. cbn [N.eqb Pos.eqb].
  change 6 with (4 + 2). rewrite le_bytes_add. change (256 ^ N.of_nat 4)%N with (2 ^ 32)%N.
  set (a := [t_len t; t_key t; t_fanout t; t_depth t]). set (b := le_bytes 4 (t_leaf t)).
  set (c := le_bytes 4 (t_noff t)).
  rewrite <- !app_assoc. set (d := le_bytes 2 (t_noff t / 2 ^ 32)).
  replace (d ++ [t_ndepth t; t_inner t] ++ salt ++ pers) with ((d ++ [t_ndepth t; t_inner t]) ++ salt ++ pers)
    by (rewrite <- app_assoc; reflexivity).
  rewrite (le_words_app 4 1 7) by reflexivity.
  rewrite (le_words_app 4 1 6) by (apply le_bytes_length).
  rewrite (le_words_app 4 1 5) by (apply le_bytes_length).
  rewrite (le_words_app 4 1 4) by (unfold d; rewrite app_length, le_bytes_length; reflexivity).
  rewrite (le_words_app 4 2 2) by (rewrite H1; reflexivity).
  cbn [le_words app]. f_equal; [|f_equal; [|f_equal; [|f_equal]]].
  - unfold a, tree_w0. cbn [firstn le_word]. lia.
  - unfold b. rewrite firstn_all2 by (rewrite le_bytes_length; reflexivity). apply le_word_bytes.
  - unfold c. rewrite firstn_all2 by (rewrite le_bytes_length; reflexivity). apply le_word_bytes.
  - rewrite firstn_all2 by (unfold d; rewrite app_length, le_bytes_length; reflexivity).
    rewrite le_word_app. unfold d. rewrite le_word_bytes, le_bytes_length. cbn [le_word].
    change (256 ^ N.of_nat 2)%N with (2 ^ 16)%N. lia.
Qed.

Lemma b2_xor_sum a x y z : N.lxor x y = z -> N.lxor (N.lxor a x) y = N.lxor a z.
Proof. intros <-. apply N.lxor_assoc. Qed.

Lemma sweep65 (f : N -> N -> bool) :
  forallb (fun i => forallb (fun j => f (N.of_nat i) (N.of_nat j)) (seq 0 65)) (seq 0 65) = true ->
  forall x y, (x <= 64)%N -> (y <= 64)%N -> f x y = true.
Proof.
  intros H x y Hx Hy. rewrite forallb_forall in H.
  specialize (H (N.to_nat x) ltac:(apply in_seq; lia)). rewrite forallb_forall in H.
  specialize (H (N.to_nat y) ltac:(apply in_seq; lia)). rewrite !N2Nat.id in H. exact H.
Qed.

Lemma seq_w0 nn kk : (nn <= 64)%N -> (kk <= 64)%N ->
  N.lxor (N.lxor 0x01010000 nn) (kk * 256) = (nn + 256 * kk + 2 ^ 16 * 1 + 2 ^ 24 * 1)%N.
Proof.
  intros H1 H2. apply N.eqb_eq.
  exact (sweep65 (fun nn kk => N.lxor (N.lxor 0x01010000 nn) (kk * 256) =? nn + 256 * kk + 2 ^ 16 * 1 + 2 ^ 24 * 1)%N
    ltac:(vm_compute; reflexivity) nn kk H1 H2).
Qed.

Lemma key_word w k : w = 64%N \/ w = 32%N -> k <= 64 ->
  trunc w (shlw 64 (N.of_nat k) 8) = (N.of_nat k * 256)%N.
Proof.
  intros Hw Hk. rewrite shlw_mul.
  assert (N.of_nat k * 2 ^ 8 <= 64 * 256)%N by (change (2 ^ 8)%N with 256%N; lia).
  rewrite N.mod_small by (eapply N.le_lt_trans; [exact H|reflexivity]).
  apply trunc_small. destruct Hw; subst w; (eapply N.le_lt_trans; [exact H|reflexivity]).
Qed.

Lemma xfield_sum i L : (i < 2 ^ 32)%N -> N.lxor i (L * 2 ^ 32) = (i + L * 2 ^ 32)%N.
Proof.
  intros Hi. symmetry. apply N.add_nocarry_lxor.
  apply N.bits_inj. intros n. rewrite N.land_spec, N.bits_0, <- N.shiftl_mul_pow2.
  destruct (N.lt_ge_cases n 32).
  - rewrite N.shiftl_spec_low by auto. apply andb_false_r.
  - rewrite (testbit_high 32 i n) by auto. reflexivity.
Qed.

Lemma two_words k x : length (le_words k 2 x) = 2. Proof. apply le_words_length. Qed.

Lemma init_h_64 t salt pers : length salt = 16 -> length pers = 16 ->
  init_h 64 t salt pers = map2 N.lxor (IV2 64)
   ([(tree_w0 t + 2 ^ 32 * (t_leaf t mod 2 ^ 32))%N; (t_noff t mod 2 ^ 64)%N; (t_ndepth t + 256 * t_inner t)%N; 0%N]
    ++ le_words 8 2 salt ++ le_words 8 2 pers).
Proof. intros. unfold init_h. rewrite <- param_words_64 by auto. reflexivity. Qed.

Lemma init_h_32 t salt pers : length salt = 8 -> length pers = 8 ->
  init_h 32 t salt pers = map2 N.lxor (IV2 32)
   ([tree_w0 t; (t_leaf t mod 2 ^ 32)%N; (t_noff t mod 2 ^ 32)%N;
     (t_noff t / 2 ^ 32 mod 2 ^ 16 + 2 ^ 16 * t_ndepth t + 2 ^ 24 * t_inner t)%N]
    ++ le_words 4 2 salt ++ le_words 4 2 pers).
Proof. intros. unfold init_h. rewrite <- param_words_32 by auto. reflexivity. Qed.

(** Fields of the BLAKE2s node offset and XOF length. *)
Lemma xfield32 i L : (L < 2 ^ 16)%N ->
  (xfield 32 i L mod 2 ^ 32 = i mod 2 ^ 32)%N /\ (xfield 32 i L / 2 ^ 32 mod 2 ^ 16 = L)%N.
Proof.
  intros HL. unfold xfield. cbn [N.eqb Pos.eqb].
  pose proof (N.mod_lt i (2 ^ 32) ltac:(discriminate)) as Hi.
  rewrite xfield_sum by exact Hi. split.
  - rewrite N.mod_add by discriminate. apply N.mod_mod. discriminate.
  - rewrite N.div_add by discriminate. rewrite N.div_small by exact Hi. rewrite N.add_0_l.
    apply N.mod_small. exact HL.
Qed.

Lemma xfield64 i L : (L < 2 ^ 32)%N ->
  (xfield 64 i L mod 2 ^ 64)%N = N.lxor (trunc 64 i) (L * 2 ^ 32).
Proof.
  intros HL. unfold xfield. cbn [N.eqb Pos.eqb]. rewrite <- trunc_mod.
  apply N.bits_inj. intros n. rewrite trunc_spec, !N.lxor_spec, trunc_spec.
  destruct (N.ltb_spec n 64) as [Hn|Hn]; rewrite ?andb_true_r, ?andb_false_r; [reflexivity|].
  rewrite xorb_false_l. symmetry. apply (testbit_high 64); auto.
  change (2 ^ 64)%N with (2 ^ 32 * 2 ^ 32)%N. apply N.mul_lt_mono_pos_r; [reflexivity|exact HL].
Qed.

(** ** init *)
Section Init.
  Variable w : N.
  Hypothesis Hw : w = 64%N \/ w = 32%N.
  Variables (salt pers : list N) (klen : nat).
  Hypothesis Hs : length salt = 2 * wb w.
  Hypothesis Hp : length pers = 2 * wb w.
  Hypothesis Hk : klen <= hb w.

  (** What init puts into the chaining value for output length byte [nn] and XOF length
      [L] (zero if there is none). *)
  Lemma seq_init nn L : (nn <= w)%N -> (L < if w =? 64 then 2 ^ 32 else 2 ^ 16)%N ->
    b2_xor_sp (le_words (wb w) 2 salt) (le_words (wb w) 2 pers)
      (b2_xor 0 (trunc w (shlw 64 (N.of_nat klen) 8))
        ((if w =? 64 then b2_xor 1 (shlw 64 L 32) else b2_xor 3 L)%N
          (b2_xor 0 nn (b2_initH w 0))))
    = init_h w (mktree nn (N.of_nat klen) 1 1 0 (xfield w 0 L) 0 0) salt pers.
  Proof.
    intros Hn HL.
    assert (Hk64 : klen <= 64) by (destruct Hw; subst w; cbv in Hk; lia).
    assert (Hn64 : (nn <= 64)%N) by (destruct Hw; subst w; lia).
    rewrite key_word by auto.
    pose proof (two_words (wb w) salt) as Es. pose proof (two_words (wb w) pers) as Ep.
    pose proof (seq_w0 nn (N.of_nat klen) Hn64 ltac:(lia)) as E0.
    destruct Hw; subst w; cbn [N.eqb Pos.eqb] in HL |- *.
    - rewrite init_h_64 by auto. change (wb 64) with 8 in *.
      destruct (le_words 8 2 salt) as [|s0 [|s1 [|? ?]]]; try discriminate Es.
      destruct (le_words 8 2 pers) as [|p0 [|p1 [|? ?]]]; try discriminate Ep.
      unfold tree_w0. cbn [t_len t_key t_fanout t_depth t_leaf t_noff t_ndepth t_inner].
      rewrite xfield64 by exact HL. rewrite shlw_mul.
      rewrite N.mod_small by (change (2 ^ 64)%N with (2 ^ 32 * 2 ^ 32)%N; apply N.mul_lt_mono_pos_r; [reflexivity|exact HL]).
      rewrite <- E0. change (trunc 64 0) with 0%N. rewrite N.lxor_0_l.
      change (0 mod 2 ^ 32)%N with 0%N. rewrite N.mul_0_r, N.add_0_r.
      unfold b2_initH. rewrite b2_IV_eq. cbn [N.eqb].
      unfold b2_xor_sp, b2_xor, IV2, nthN. cbn [N.eqb Pos.eqb upd nth map2 app].
      rewrite <- !N.lxor_assoc, !N.lxor_0_r. reflexivity.
    - rewrite init_h_32 by auto. change (wb 32) with 4 in *.
      destruct (le_words 4 2 salt) as [|s0 [|s1 [|? ?]]]; try discriminate Es.
      destruct (le_words 4 2 pers) as [|p0 [|p1 [|? ?]]]; try discriminate Ep.
      unfold tree_w0. cbn [t_len t_key t_fanout t_depth t_leaf t_noff t_ndepth t_inner].
      destruct (xfield32 0 L HL) as [X1 X2]. rewrite X1, X2.
      rewrite <- E0. change (0 mod 2 ^ 32)%N with 0%N. rewrite !N.mul_0_r, !N.add_0_r.
      unfold b2_initH. rewrite b2_IV_eq. cbn [N.eqb].
      unfold b2_xor_sp, b2_xor, IV2, nthN. cbn [N.eqb Pos.eqb upd nth map2 app].
      rewrite <- !N.lxor_assoc, !N.lxor_0_r. reflexivity.
  Qed.

  Lemma init_hash hs : (hs / 8 <= w)%N ->
    b2_init_H w BHash hs (le_words (wb w) 2 salt) (le_words (wb w) 2 pers) klen 0 0 0
    = init_h w (mktree (hs / 8) (N.of_nat klen) 1 1 0 0 0 0) salt pers.
  Proof.
    intros Hn. pose proof (seq_init (hs / 8) 0 Hn) as E.
    assert (E0 : xfield w 0 0 = 0%N) by (destruct Hw; subst w; reflexivity).
    rewrite E0 in E. rewrite <- E by (destruct Hw; subst w; reflexivity).
    unfold b2_init_H. cbn [N.eqb].
    rewrite (trunc_small w (hs / 8)) by (destruct Hw; subst w; (eapply N.le_lt_trans; [exact Hn|reflexivity])).
    f_equal. f_equal.
    destruct Hw; subst w; cbn [N.eqb Pos.eqb]; unfold b2_initH; rewrite b2_IV_eq; cbn [N.eqb];
      unfold b2_xor, IV2, nthN; cbn [N.eqb Pos.eqb upd nth]; [change (shlw 64 0 32) with 0%N|];
      rewrite N.lxor_0_r; reflexivity.
  Qed.

  Lemma init_x ty hs L : ty <> BHash ->
    L = match ty with BXof => x_unknown w | _ => (hs / 8)%N end -> (hs / 8 < 2 ^ 16)%N ->
    b2_init_H w ty hs (le_words (wb w) 2 salt) (le_words (wb w) 2 pers) klen 0 0 0
    = init_h w (mktree (N.of_nat (hb w)) (N.of_nat klen) 1 1 0 (xfield w 0 L) 0 0) salt pers.
  Proof.
    intros Hty HL Hh. rewrite (hb_w w Hw).
    assert (HLb : (L < if w =? 64 then 2 ^ 32 else 2 ^ 16)%N).
    { subst L. destruct ty; [congruence|..]; destruct Hw; subst w; cbn [N.eqb Pos.eqb]; try reflexivity; auto.
      eapply N.lt_trans; [exact Hh|reflexivity]. }
    rewrite <- (seq_init w L (N.le_refl w) HLb).
    unfold b2_init_H. cbn [N.eqb].
    assert (ER : match ty with BXof => N.shiftr (N.ones w) (w / 2) | _ => trunc w (hs / 8) end = L).
    { subst L. destruct ty; [congruence|..].
      - apply trunc_small. destruct Hw; subst w; (eapply N.lt_trans; [exact Hh|reflexivity]).
      - destruct Hw; subst w; reflexivity. }
    rewrite <- ER. f_equal. f_equal. destruct ty; [congruence|..]; destruct (w =? 64)%N; reflexivity.
  Qed.
End Init.

(** initX with salt and personalization is the chaining value of an output node. *)
Lemma node_init w (Hw : w = 64%N \/ w = 32%N) salt pers left i rhs L j :
  length salt = 2 * wb w -> length pers = 2 * wb w ->
  j = (if (rhs =? N.ones w)%N then hb w else Nat.min left (hb w)) ->
  L = (if w =? 64 then rhs mod 2 ^ 32 else rhs mod 2 ^ 16)%N ->
  b2_xor_sp (le_words (wb w) 2 salt) (le_words (wb w) 2 pers) (b2_initX w left (trunc 64 i) rhs)
  = init_h w (mktree (N.of_nat j) 0 0 0 (N.of_nat (hb w)) (xfield w i L) 0 (N.of_nat (hb w))) salt pers.
Proof.
  intros Hs Hp Hj HL.
  assert (Hj2 : j <= hb w) by (rewrite Hj; destruct (rhs =? N.ones w)%N; lia).
  assert (Elen : (if (rhs =? N.ones w)%N then N.of_nat (b2_hb w) else N.of_nat (Nat.min left (b2_hb w))) = N.of_nat j).
  { rewrite Hj. rewrite (hb_eq w Hw). destruct (rhs =? N.ones w)%N; reflexivity. }
  unfold b2_initX. rewrite Elen, b2_IV_eq. rewrite (hb_w w Hw).
  assert (Hj3 : (N.of_nat j <= 64)%N) by (destruct Hw; subst w; change (hb 64) with 64 in *; change (hb 32) with 32 in *; lia).
  clear Elen Hj Hj2.
  pose proof (two_words (wb w) salt) as Es. pose proof (two_words (wb w) pers) as Ep.
  destruct Hw; subst w; cbn [N.eqb Pos.eqb] in HL |- *.
  - assert (HLb : (L < 2 ^ 32)%N) by (subst L; apply N.mod_lt; discriminate).
    assert (Esh : shlw 64 rhs 32 = (L * 2 ^ 32)%N).
    { rewrite shlw_mul. change (2 ^ 64)%N with (2 ^ 32 * 2 ^ 32)%N.
      rewrite N.mul_mod_distr_r by discriminate. subst L. reflexivity. }
    rewrite init_h_64 by auto. change (wb 64) with 8 in *.
    destruct (le_words 8 2 salt) as [|s0 [|s1 [|? ?]]]; try discriminate Es.
    destruct (le_words 8 2 pers) as [|p0 [|p1 [|? ?]]]; try discriminate Ep.
    unfold tree_w0. cbn [t_len t_key t_fanout t_depth t_leaf t_noff t_ndepth t_inner].
    rewrite xfield64 by exact HLb. rewrite Esh.
    assert (E0 : (N.of_nat j + 256 * 0 + 2 ^ 16 * 0 + 2 ^ 24 * 0 + 2 ^ 32 * (64 mod 2 ^ 32))%N
                 = N.lxor (N.of_nat j) 0x4000000000).
    { symmetry. apply N.eqb_eq.
      exact (sweep65 (fun x _ => N.lxor x 0x4000000000 =? x + 256 * 0 + 2 ^ 16 * 0 + 2 ^ 24 * 0 + 2 ^ 32 * (64 mod 2 ^ 32))%N
        ltac:(vm_compute; reflexivity) _ 0%N Hj3 ltac:(discriminate)). }
    rewrite E0. change (0 + 256 * 64)%N with 0x4000%N.
    unfold b2_xor_sp, b2_xor, IV2, nthN. cbn [N.eqb Pos.eqb upd nth map2 app].
    rewrite <- !N.lxor_assoc, !N.lxor_0_r. reflexivity.
  - assert (HLb : (L < 2 ^ 16)%N) by (subst L; apply N.mod_lt; discriminate).
    assert (Esh : trunc 16 rhs = L) by (subst L; apply trunc_mod).
    rewrite init_h_32 by auto. change (wb 32) with 4 in *.
    destruct (le_words 4 2 salt) as [|s0 [|s1 [|? ?]]]; try discriminate Es.
    destruct (le_words 4 2 pers) as [|p0 [|p1 [|? ?]]]; try discriminate Ep.
    unfold tree_w0. cbn [t_len t_key t_fanout t_depth t_leaf t_noff t_ndepth t_inner].
    destruct (xfield32 i L HLb) as [X1 X2]. rewrite X1, X2, Esh.
    assert (Et : trunc 32 (trunc 64 i) = (i mod 2 ^ 32)%N).
    { rewrite <- trunc_mod. apply N.bits_inj. intros n. rewrite !trunc_spec.
      destruct (N.ltb_spec n 32), (N.ltb_spec n 64); rewrite ?andb_true_r, ?andb_false_r; auto; lia. }
    rewrite Et.
    assert (E3 : (L + 2 ^ 16 * 0 + 2 ^ 24 * 32)%N = N.lxor 0x20000000 L).
    { rewrite N.mul_0_r, N.add_0_r. change (2 ^ 24 * 32)%N with 0x20000000%N.
      rewrite N.lxor_comm. apply N.add_nocarry_lxor. apply N.bits_inj. intros n. rewrite N.land_spec, N.bits_0.
      destruct (N.lt_ge_cases n 16).
      - change 0x20000000%N with (N.shiftl 1 29). rewrite N.shiftl_spec_low by lia. apply andb_false_r.
      - rewrite (testbit_high 16 L n) by auto. reflexivity. }
    rewrite E3. rewrite !N.mul_0_r, !N.add_0_r.
    change (32 mod 2 ^ 32)%N with 32%N.
    unfold b2_xor_sp, b2_xor, IV2, nthN. cbn [N.eqb Pos.eqb upd nth map2 app].
    rewrite <- !N.lxor_assoc. reflexivity.
Qed.
