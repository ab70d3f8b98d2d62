(** * BLAKE2bp and BLAKE2sp: every history of calls and every schedule. *)
From Verif Require Import Base Absorb Lemmas WordLemmas TableLemmas AbsorbProof AbsorbRel Hasher HasherSpec HasherProof
  MdState MdProof BufProof SpecCommon SqueezeProof SpongeProof Blake2 Blake2Spec Blake2Proof Blake2Sim
  Blake2p Blake2pSpec Blake2pProof Validate.
Local Open Scope nat_scope.

Definition blake2p_spec (w hs : N) : hash_spec b2_param :=
  {| sp_params := b2_params; sp_default := b2_default w; sp_set := b2_spec_set w;
     sp_size := N.to_nat (hs / 8);
     sp_digest := fun p msg => blake2p_hash w (hs / 8) (pk p) (ps p) (pp p) msg |}.

(** ** Schedules *)
Lemma fold_res_app {A B} (f : A -> B -> res A) l1 l2 : forall a,
  fold_res f (l1 ++ l2) a = (a <- fold_res f l1 a ;; fold_res f l2 a).
Proof.
  induction l1 as [|b l1 IH]; intros a; [reflexivity|].
  cbn [app fold_res]. destruct (f a b); cbn [bind]; auto.
Qed.

Lemma each_nth {A B} (f : nat -> A -> res B) l : forall i l', each f i l = Ok l' ->
  length l' = length l /\
  forall j x, nth_error l j = Some x -> exists y, f (i + j) x = Ok y /\ nth_error l' j = Some y.
Proof.
  induction l as [|x l IH]; intros i l'; cbn [each].
  - intros [= <-]. split; [reflexivity|]. intros [|j] y; discriminate.
  - destruct (f i x) as [y| |] eqn:Ef; try discriminate. cbn [bind].
    destruct (each f (S i) l) as [r| |] eqn:Er; try discriminate. cbn [bind]. intros [= <-].
    destruct (IH (S i) r Er) as [HL HN]. split; [cbn [length]; auto|].
    intros [|j] z; cbn [nth_error].
    + intros [= <-]. rewrite Nat.add_0_r. eauto.
    + intros Hz. destruct (HN j z Hz) as (y' & E1 & E2). replace (i + S j) with (S i + j) by lia. eauto.
Qed.

Lemma nth_error_upd {A} (l : list A) i x j :
  nth_error (upd i x l) j = if (i =? j) then option_map (fun _ => x) (nth_error l i) else nth_error l j.
Proof.
  revert i j. induction l as [|a l IH]; intros i j.
  - destruct i, j; cbn; try reflexivity. destruct (i =? j); reflexivity.
  - destruct i, j; cbn [upd nth_error Nat.eqb option_map]; try reflexivity. apply IH.
Qed.
Lemma upd_len {A} (l : list A) i x : length (upd i x l) = length l.
Proof. revert i. induction l; intros [|i]; cbn; auto. Qed.

Lemma nth_error_eq {A} (l l' : list A) : length l = length l' ->
  (forall j, j < length l -> nth_error l j = nth_error l' j) -> l = l'.
Proof.
  revert l'. induction l as [|a l IH]; intros [|b l'] HL H; try discriminate; [reflexivity|].
  f_equal.
  - specialize (H 0 ltac:(cbn; lia)). cbn in H. congruence.
  - apply IH; [cbn in HL; lia|]. intros j Hj. exact (H (S j) ltac:(cbn; lia)).
Qed.

Lemma run_steps w data sched : forall leaf r,
  Forall (fun x => fst x < length leaf) sched -> length r = length leaf ->
  (forall j x, nth_error leaf j = Some x -> exists y,
     fold_res (fun l blk => b2p_feed w data j blk l) (map snd (filter (fun z => fst z =? j) sched)) x = Ok y /\
     nth_error r j = Some y) ->
  b2p_run w data sched leaf = Ok r.
Proof.
  induction sched as [|[i blk] sched IH]; intros leaf r HF HL H.
  - cbn. f_equal. apply nth_error_eq; [auto|]. intros j Hj.
    destruct (nth_error leaf j) as [x|] eqn:E; [|apply nth_error_None in E; lia].
    destruct (H j x E) as (y & Ey & Er). cbn in Ey. congruence.
  - inversion HF as [|? ? Hi HF']. subst. cbn [fst] in Hi. unfold b2p_run. cbn [fold_res].
    destruct (nth_error leaf i) as [x|] eqn:E; [|apply nth_error_None in E; lia].
    destruct (H i x E) as (y & Ey & Er). cbn [filter fst] in Ey. rewrite Nat.eqb_refl in Ey.
    cbn [map snd fold_res] in Ey.
    destruct (b2p_feed w data i blk x) as [x'| |] eqn:Ef; try discriminate. cbn [bind] in *.
    change (fold_res _ sched (upd i x' leaf)) with (b2p_run w data sched (upd i x' leaf)).
    apply IH.
    + rewrite upd_len. exact HF'.
    + rewrite upd_len. exact HL.
    + intros j z Hz. rewrite nth_error_upd in Hz. destruct (Nat.eqb_spec i j) as [->|N].
      * rewrite E in Hz. injection Hz as <-. eauto.
      * destruct (H j z Hz) as (y' & E1 & E2). cbn [filter fst] in E1.
        destruct (Nat.eqb_spec i j); [contradiction|]. eauto.
Qed.

(** Whenever the sequential loop succeeds, every schedule gives the same leaves. *)
Theorem schedule_ok w data n sched leaf r : fair (length leaf) n sched ->
  b2p_transform w data n leaf = Ok r -> b2p_run w data sched leaf = Ok r.
Proof.
  intros [HF HS] E. destruct (each_nth _ _ _ _ E) as [HL HN]. apply run_steps; auto.
  intros j x Hx. destruct (HN j x Hx) as (y & Ey & Hy). exists y. split; [|exact Hy].
  rewrite HS by (apply nth_error_Some; congruence). exact Ey.
Qed.

Lemma firstn_add {A} n m (l : list A) : firstn (n + m) l = firstn n l ++ firstn m (skipn n l).
Proof. revert l. induction n; intros [|x l]; cbn; rewrite ?firstn_nil; auto. rewrite IHn. reflexivity. Qed.

Section Sim.
  Variable w : N.
  Hypothesis Hw : w = 64%N \/ w = 32%N.
  Variable hs : N.
  Hypothesis Hhs : (hs / 8 <= w)%N.
  Let A (H : BHash = BHash) : (hs / 8 <= w)%N := Hhs.
  Let A' (H : BHash <> BHash) : (hs / 8 < 2 ^ 16)%N := match H eq_refl with end.

  Lemma P_deg : bp_P w = degree w.
  Proof. destruct Hw; subst w; reflexivity. Qed.
  Lemma deg_bb : degree w * bb w = 512.
  Proof. destruct Hw; subst w; reflexivity. Qed.
  Lemma deg_8 : 0 < degree w <= 8.
  Proof. destruct Hw; subst w; cbn; lia. Qed.

  (** ** One node *)
  Definition node_iv (nd no : N) (p : b2_params) : list N :=
    init_h w (par_tree w (hs / 8) (length (pk p)) no nd) (ps p) (pp p).
  Definition pre (nd : N) (p : b2_params) : list N := if (nd =? 0)%N then key_pad w (pk p) else [].
  Definition nd_par (nd no : N) (s : b2_st) (p : b2_params) : Prop :=
    par_ok w p /\ b2k s = pk p /\ b2s s = le_words (wb w) 2 (ps p) /\ b2p s = le_words (wb w) 2 (pp p) /\
    b2hs s = hs /\ b2fo s = N.of_nat (degree w) /\ b2nd s = nd /\ b2no s = no.
  Definition nd_R (nd no : N) (s : b2_st) (p : b2_params) (D : list N) : Prop :=
    nd_par nd no s p /\ b2_abs w (node_iv nd no p) (b2c s) (pre nd p ++ D).
  Definition nd_ok (nd no : N) : Prop := (nd = 0%N \/ nd = 1%N) /\ (no < 8)%N.

  Lemma nd_init_ok nd no s p : nd_ok nd no -> nd_par nd no s p -> length (sm (b2c s)) = bb w ->
    exists s', b2_init w BHash s = Ok s' /\ nd_R nd no s' p [].
  Proof.
    intros [Hnd Hno] ((Pk & Ps & Pp) & Hk & Hs & Hp & Hh & Hf & Hd & Ho) Hm. unfold b2_init. cbn [b2fo b2nd].
    rewrite Hk, Hs, Hp, Hh, Hf, Hd, Ho.
    rewrite <- P_deg, (init_par w Hw (ps p) (pp p) (length (pk p)) hs nd no Ps Pp Pk Hhs Hnd Hno).
    fold (node_iv nd no p).
    assert (E0 : (N.of_nat (bp_P w) =? 0)%N = false) by (destruct Hw; subst w; reflexivity).
    rewrite E0. cbn [orb]. rewrite P_deg.
    destruct Hnd; subst nd; cbn [N.eqb Pos.eqb].
    - match goal with |- context [b2_absorb_key w ?x] =>
        destruct (b2_key_ok w Hw BHash hs A A' (node_iv 0 no p) x) as (c & E & B) end.
      + cbn [b2k]. exact Pk.
      + cbn [b2c]. apply buf_inv_start; auto. apply (bb_pos w Hw).
      + rewrite E. eexists. split; [reflexivity|]. unfold nd_R, nd_par, pre.
        cbn [b2c b2s b2p b2k b2hs b2xo b2sq b2fo b2nd b2no N.eqb] in *. rewrite app_nil_r.
        split; [unfold par_ok; auto 12|exact B].
    - eexists. split; [reflexivity|]. unfold nd_R, nd_par, pre.
      cbn [b2c b2s b2p b2k b2hs b2xo b2sq b2fo b2nd b2no N.eqb Pos.eqb app].
      split; [unfold par_ok; auto 12|]. apply buf_inv_start; auto. apply (bb_pos w Hw).
  Qed.

  Lemma nd_update_ok nd no s p D d : nd_R nd no s p D ->
    exists s', b2_update w s d = Ok s' /\ nd_R nd no s' p (D ++ d).
  Proof.
    intros (Hp & B). destruct (b2_update_abs w Hw _ s _ d B) as (c & E & B').
    rewrite E. eexists. split; [reflexivity|].
    unfold nd_R, nd_par in *. cbn [b2c b2s b2p b2k b2hs b2xo b2sq b2fo b2nd b2no].
    split; [exact Hp|]. rewrite app_assoc. exact B'.
  Qed.

  Lemma node_iv_length nd no p : par_ok w p -> length (node_iv nd no p) = 8.
  Proof. intros (_ & Hs & Hp). apply (init_h_length w Hw BHash hs A); auto. Qed.

  (** The last-node flag. *)
  Definition lastf (nd no : N) : bool := (no =? N.of_nat (degree w - 1))%N || negb (nd =? 0)%N.
  Definition node_hash (nd no : N) (p : b2_params) (D : list N) : list N :=
    blake2_tree w (lastf nd no) (par_tree w (hs / 8) (length (pk p)) no nd) (ps p) (pp p) (pre nd p ++ D).

  Lemma nd_final_ok nd no s p D over : nd_R nd no s p D -> (over <= 8 * w)%N ->
    exists s', b2_final_over w BHash over s =
      Ok (s', firstn (N.to_nat ((if (over =? 0)%N then hs else over) / 8)) (node_hash nd no p D)).
  Proof.
    intros (Hp & B) Hov. unfold b2_final_over.
    match goal with |- context [b2_pad w ?x] => assert (EL : b2_lastn x = lastf nd no) end.
    { unfold b2_lastn, lastf. cbn [b2fo b2nd b2no]. destruct Hp as (_ & _ & _ & _ & _ & Hf & Hd & Ho).
      rewrite Hf, Hd, Ho. clear - Hw. destruct Hw as [-> | ->]; reflexivity. }
    match goal with |- context [b2_pad w ?x] =>
      destruct (b2_pad_ok w Hw (node_iv nd no p) x (pre nd p ++ D)) as (m & T & E & Hm) end.
    - apply node_iv_length. apply Hp.
    - cbn [b2c sh sm spos stotal]. exists (stotal (b2c s)). split; [|reflexivity]. destruct (b2c s). exact B.
    - cbv zeta. rewrite E. cbn [bind sh b2hs]. rewrite EL, (wb_eq w Hw).
      rewrite load_ok.
      + cbn [bind skipn]. destruct Hp as (_ & _ & _ & _ & Hh & _). rewrite Hh.
        eexists. reflexivity.
      + cbn [Nat.add]. rewrite (words_hb w Hw BHash hs A A') by apply core_length.
        destruct Hp as (_ & _ & _ & _ & Hh & _). rewrite Hh.
        assert (Hb : N.of_nat (hb w) = w) by apply (hb_w w Hw).
        assert ((if (over =? 0) then hs else over) / 8 <= w)%N; [|lia].
        destruct (over =? 0)%N; [exact Hhs|]. apply N.div_le_upper_bound; [discriminate|exact Hov].
  Qed.

  Lemma node_hash_length nd no p D : length (node_hash nd no p D) = hb w.
  Proof. unfold node_hash, blake2_tree. apply (words_hb w Hw BHash hs A A'). apply core_length. Qed.
  Lemma node_hash_bytes nd no p D : bytes_ok (node_hash nd no p D).
  Proof. unfold node_hash, blake2_tree. apply words_bytes_ok. Qed.

  (** Setters. *)
  Lemma nd_set_ok nd no q v s p : nd_par nd no s p ->
    match b2_spec_set w q v p with
    | Some p' => exists s1, b2_set w q v s = Done s1 /\ nd_par nd no s1 p' /\ b2c s1 = b2c s
    | None => b2_set w q v s = Raised s
    end.
  Proof.
    intros ((Pk & Ps & Pp) & Hk & Hs & Hpp & Hh & Hf & Hd & Ho).
    unfold b2_spec_set, b2_set. destruct q.
    - rewrite (hb_eq w Hw). destruct (Nat.leb_spec (length v) (hb w)) as [L|L].
      + destruct (Nat.ltb_spec (hb w) (length v)); [lia|].
        eexists. split; [reflexivity|]. unfold nd_par, par_ok. cbn [pk ps pp b2c b2k b2s b2p b2hs b2fo b2nd b2no].
        auto 12.
      + destruct (Nat.ltb_spec (hb w) (length v)); [reflexivity|lia].
    - rewrite (sb_eq w Hw). unfold set_field.
      destruct (Nat.eqb_spec (length v) 0) as [Z|Z]; cbn [negb andb option_map].
      + destruct v; [|discriminate].
        eexists. split; [reflexivity|]. unfold nd_par, par_ok. cbn [pk ps pp b2c b2k b2s b2p b2hs b2fo b2nd b2no].
        auto 12.
      + destruct (Nat.eqb_spec (length v) (2 * wb w)) as [L|L]; cbn [negb option_map]; [|reflexivity].
        destruct v as [|v0 vr]; [exfalso; apply Z; reflexivity|].
        eexists. split; [reflexivity|]. unfold nd_par, par_ok. cbn [pk ps pp b2c b2k b2s b2p b2hs b2fo b2nd b2no].
        rewrite (wb_eq w Hw). auto 12.
    - rewrite (sb_eq w Hw). unfold set_field.
      destruct (Nat.eqb_spec (length v) 0) as [Z|Z]; cbn [negb andb option_map].
      + destruct v; [|discriminate].
        eexists. split; [reflexivity|]. unfold nd_par, par_ok. cbn [pk ps pp b2c b2k b2s b2p b2hs b2fo b2nd b2no].
        auto 12.
      + destruct (Nat.eqb_spec (length v) (2 * wb w)) as [L|L]; cbn [negb option_map]; [|reflexivity].
        destruct v as [|v0 vr]; [exfalso; apply Z; reflexivity|].
        eexists. split; [reflexivity|]. unfold nd_par, par_ok. cbn [pk ps pp b2c b2k b2s b2p b2hs b2fo b2nd b2no].
        rewrite (wb_eq w Hw). auto 12.
  Qed.

  Lemma nd_set_none nd no q v s p : nd_par nd no s p -> b2_spec_set w q v p = None -> b2_set w q v s = Raised s.
  Proof. intros H E. pose proof (nd_set_ok nd no q v s p H) as X. rewrite E in X. exact X. Qed.

  Lemma set_all_ok q v p p' : b2_spec_set w q v p = Some p' -> forall l i,
    Each (fun i x => nd_par 0 (N.of_nat i) x p /\ length (sm (b2c x)) = bb w) i l ->
    exists l', b2_set_all w q v l = Done l' /\ length l' = length l /\
      Each (fun i x => nd_par 0 (N.of_nat i) x p' /\ length (sm (b2c x)) = bb w) i l'.
  Proof.
    intros E. induction l as [|x l IH]; intros i HE.
    - exists []. repeat split.
    - destruct HE as [[H1 H2] H3]. pose proof (nd_set_ok 0 (N.of_nat i) q v x p H1) as X. rewrite E in X.
      destruct X as (x' & Ex & Hx & Hc). destruct (IH (S i) H3) as (l' & El & HL & HQ).
      exists (x' :: l'). cbn [b2_set_all]. rewrite Ex, El. cbn [length Each]. rewrite Hc. auto.
  Qed.

  (** ** Dealing out the message *)
  Lemma leaf_part_app i n B T : length B = n * 512 ->
    leaf_part w i (B ++ T) = leaf_part w i B ++ leaf_part w i T.
  Proof.
    intros HB. rewrite <- deg_bb in HB.
    exact (pick_blocks (bb w) (degree w) (bb_pos w Hw) (proj1 deg_8) i n B T HB).
  Qed.
  Lemma leaf_part_one i T : i < degree w -> length T <= 512 ->
    leaf_part w i T = firstn (bb w) (skipn (i * bb w) T).
  Proof.
    intros Hi HT. rewrite <- deg_bb in HT.
    exact (pick_one (bb w) (degree w) (bb_pos w Hw) (proj1 deg_8) i T Hi HT).
  Qed.
  Lemma idx_512 i : i < degree w -> i * bb w + bb w <= 512.
  Proof. intros. rewrite <- deg_bb. replace (i * bb w + bb w) with ((i + 1) * bb w) by lia. apply Nat.mul_le_mono_r. lia. Qed.

  Lemma leaf_loop_ok p i B k data n : i < degree w -> length B = k * 512 -> length data = n * 512 ->
    forall m x, m <= n -> nd_R 0 (N.of_nat i) x p (leaf_part w i B) ->
    exists x', fold_res (fun l blk => b2p_feed w data i blk l) (seq 0 m) x = Ok x' /\
      nd_R 0 (N.of_nat i) x' p (leaf_part w i (B ++ firstn (m * 512) data)).
  Proof.
    intros Hi HB Hd. pose proof (idx_512 i Hi) as H512.
    induction m as [|m IH]; intros x Hm HR.
    - exists x. split; [reflexivity|]. cbn [Nat.mul firstn]. rewrite app_nil_r. exact HR.
    - destruct (IH x ltac:(lia) HR) as (x1 & E1 & R1).
      assert (Hm' : m * 512 + 512 <= n * 512) by lia.
      set (T := firstn 512 (skipn (m * 512) data)).
      assert (HT : length T = 512) by (unfold T; rewrite firstn_length, skipn_length; lia).
      destruct (nd_update_ok _ _ x1 p _ (leaf_part w i T) R1) as (x2 & E2 & R2).
      exists x2. split.
      + rewrite seq_S, fold_res_app, E1. cbn [bind Nat.add fold_res]. unfold b2p_feed. rewrite (bs_eq w Hw).
        rewrite load_ok by lia. cbn [bind].
        replace (firstn (bb w) (skipn (m * 512 + i * bb w) data)) with (leaf_part w i T).
        * rewrite E2. reflexivity.
        * rewrite leaf_part_one by lia. unfold T. rewrite skipn_firstn_comm, firstn_firstn.
          rewrite Nat.min_l by lia. rewrite skipn_skipn. do 2 f_equal. lia.
      + replace (B ++ firstn (S m * 512) data) with ((B ++ firstn (m * 512) data) ++ T).
        * rewrite (leaf_part_app i (k + m)) by (rewrite app_length, firstn_length; lia). exact R2.
        * rewrite <- app_assoc. f_equal. unfold T.
          replace (S m * 512) with (m * 512 + 512) by lia. symmetry. apply firstn_add.
  Qed.

  (** ** The object *)
  Definition leaves_in (p : b2_params) (B : list N) (l : list b2_st) : Prop :=
    length l = degree w /\ Each (fun i x => nd_R 0 (N.of_nat i) x p (leaf_part w i B)) 0 l.
  Definition bp_R (s : b2p_st) (p : b2_params) (msg : list N) : Prop :=
    nd_R 1 0 (bpmain s) p [] /\ bphs s = hs /\
    rel_state (leaves_in p) 512 512 false 0 msg (bpleaf s) (bpm s) (bppos s) (bptotal s).
  (** What is left of it in any state: parameters and buffer sizes. *)
  Definition bp_par (s : b2p_st) (p : b2_params) : Prop :=
    (nd_par 1 0 (bpmain s) p /\ length (sm (b2c (bpmain s))) = bb w) /\ bphs s = hs /\ length (bpm s) = 512 /\
    length (bpleaf s) = degree w /\
    Each (fun i x => nd_par 0 (N.of_nat i) x p /\ length (sm (b2c x)) = bb w) 0 (bpleaf s).

  Lemma nd_R_par nd no s p D : nd_R nd no s p D -> nd_par nd no s p /\ length (sm (b2c s)) = bb w.
  Proof. intros (Hp & B). split; [exact Hp|exact (buf_inv_sm _ _ _ _ _ _ _ B)]. Qed.

  Lemma bp_R_par s p msg : bp_R s p msg -> bp_par s p.
  Proof.
    intros (Hm & Hh & (B & T & J & n & _ & _ & _ & (HL & HE) & _ & _ & Hc & _)).
    split; [exact (nd_R_par _ _ _ _ _ Hm)|]. split; [exact Hh|]. split; [exact Hc|]. split; [exact HL|].
    eapply Each_imp; [|exact HE]. intros j x. apply nd_R_par.
  Qed.

  Lemma bp_init_ok s p : bp_par s p -> exists s', b2p_init w s = Ok s' /\ bp_R s' p [].
  Proof.
    intros ((Hm1 & Hm2) & Hh & Hb & HL & HE). unfold b2p_init.
    destruct (nd_init_ok 1 0 (bpmain s) p) as (m' & Em & Rm); auto.
    { split; [right; reflexivity|reflexivity]. }
    rewrite Em. cbn [bind]. pose proof deg_8 as D8.
    assert (HI : forall j x, j < degree w -> nd_par 0 (N.of_nat j) x p /\ length (sm (b2c x)) = bb w ->
      exists y, b2_init w BHash x = Ok y /\ nd_R 0 (N.of_nat j) y p []).
    { intros j x Hj (H1 & H2). apply nd_init_ok; auto. split; [left; reflexivity|lia]. }
    destruct (each_ok _ _ _ (degree w) (bpleaf s) 0 ltac:(lia) HI HE) as (l' & El & HQ & HL').
    change (each (fun _ : nat => b2_init w BHash) 0 (bpleaf s) = Ok l') in El. rewrite El. cbn [bind]. eexists. split; [reflexivity|]. unfold bp_R. cbn [bpmain bphs bpleaf bpm bppos bptotal].
    split; [exact Rm|]. split; [exact Hh|]. apply rel_start; auto; [lia|reflexivity|].
    split; [lia|exact HQ].
  Qed.

  Variable tf : b2p_tf.
  Hypothesis tf_seq : forall leaf t d n r, length leaf = degree w ->
    b2p_transform w d n leaf = Ok r -> tf leaf t d n = Ok r.

  Lemma bp_tf_ok p B k c (m : list N) data n :
    length m = 512 -> length B = k * 512 -> length data = n * 512 -> leaves_in p B c ->
    exists c' m', (leaf <- tf c (ctr 0 B) data n ;; Ok (leaf, m)) = Ok (c', m') /\ length m' = 512 /\
      leaves_in p (B ++ data) c'.
  Proof.
    intros Hm HB Hd (HL & HE).
    assert (HI : forall j x, j < degree w -> nd_R 0 (N.of_nat j) x p (leaf_part w j B) ->
      exists y, b2p_leaf w data n j x = Ok y /\ nd_R 0 (N.of_nat j) y p (leaf_part w j (B ++ data))).
    { intros j x Hj HR. destruct (leaf_loop_ok p j B k data n Hj HB Hd n x (le_n _) HR) as (x' & E & R').
      exists x'. split; [exact E|]. rewrite firstn_all2 in R' by lia. exact R'. }
    destruct (each_ok _ _ _ (degree w) c 0 ltac:(lia) HI HE) as (l' & El & HQ & HL').
    exists l', m. rewrite (tf_seq c (ctr 0 B) data n l' HL El). cbn [bind].
    split; [reflexivity|]. split; [exact Hm|]. split; [lia|exact HQ].
  Qed.

  Lemma bp_update_ok s p msg d : bp_R s p msg -> exists s', b2p_update tf s d = Ok s' /\ bp_R s' p (msg ++ d).
  Proof.
    intros (Hm & Hh & HR). unfold b2p_update, bp_bs.
    destruct (absorb_rel_ok (leaves_in p) (fun leaf m t d n => leaf <- tf leaf t d n ;; Ok (leaf, m)) 512 512 false 0
      ltac:(lia) (le_n _) eq_refl (fun B k c m data n H1 H2 H3 H4 => bp_tf_ok p B k c m data n H1 H2 H3 H4)
      msg d (bpleaf s) (bpm s) (bppos s) (bptotal s) HR) as (c' & m' & pos' & t' & E & R').
    change (bschk 512 false) with 512 in E. rewrite E. cbn [bind].
    eexists. split; [reflexivity|]. split; [exact Hm|]. split; [exact Hh|exact R'].
  Qed.

  (** Feeding the rest of the message to the leaves and collecting their hashes. *)
  Lemma leaf_hash_node p msg i : i < degree w ->
    leaf_hash w (hs / 8) (pk p) (ps p) (pp p) msg i = node_hash 0 (N.of_nat i) p (leaf_part w i msg).
  Proof.
    intros Hi. unfold leaf_hash, node_hash, pre, lastf. cbn [N.eqb negb]. rewrite orb_false_r.
    replace (N.of_nat i =? N.of_nat (degree w - 1))%N with (i =? degree w - 1); [reflexivity|].
    destruct (Nat.eqb_spec i (degree w - 1)) as [E|E].
    - rewrite E. symmetry. apply N.eqb_refl.
    - symmetry. apply N.eqb_neq. lia.
  Qed.

  Lemma root_hash_node p msg :
    firstn (N.to_nat (hs / 8)) (node_hash 1 0 p
      ([] ++ flat_map (leaf_hash w (hs / 8) (pk p) (ps p) (pp p) msg) (seq 0 (degree w))))
    = blake2p_hash w (hs / 8) (pk p) (ps p) (pp p) msg.
  Proof.
    unfold node_hash, blake2p_hash. cbn [app].
    replace (lastf 1 0) with true by (unfold lastf; cbn [N.eqb negb]; rewrite orb_true_r; reflexivity).
    reflexivity.
  Qed.

  Lemma bp_leaves_ok p B k T : length B = k * 512 -> length T < 512 -> forall l i main D,
    i + length l = degree w ->
    nd_R 1 0 main p D -> Each (fun i x => nd_R 0 (N.of_nat i) x p (leaf_part w i B)) i l ->
    exists main' l', b2p_leaves w (T ++ zeros (512 - length T)) (length T) main i l = Ok (main', l') /\
      nd_R 1 0 main' p (D ++ flat_map (leaf_hash w (hs / 8) (pk p) (ps p) (pp p) (B ++ T)) (seq i (length l))).
  Proof.
    intros HB HT. induction l as [|x l IH]; intros i main D Hi Rm HE.
    - exists main, []. split; [reflexivity|]. cbn [length seq flat_map]. rewrite app_nil_r. exact Rm.
    - destruct HE as [Rx HE]. cbn [length] in Hi. assert (Hlt : i < degree w) by lia.
      pose proof (idx_512 i Hlt) as H512. pose proof (bb_pos w Hw) as Hbp.
      cbn [b2p_leaves]. rewrite (bs_eq w Hw).
      match goal with |- context [bind ?e _] => assert (X : exists x', e = Ok x' /\ nd_R 0 (N.of_nat i) x' p (leaf_part w i (B ++ T))) end.
      { rewrite (leaf_part_app i k) by exact HB. rewrite (leaf_part_one i T) by lia.
        destruct (Nat.ltb_spec (i * bb w) (length T)) as [L|L].
        - cbv zeta.
          set (len := if length T <? i * bb w + bb w then length T - i * bb w else bb w).
          assert (Hlen : len <= bb w /\ i * bb w + len <= length T /\ (len < bb w -> len = length T - i * bb w)).
          { unfold len. destruct (Nat.ltb_spec (length T) (i * bb w + bb w)); lia. }
          rewrite load_ok by (rewrite app_length; lia). cbn [bind].
          replace (firstn len (skipn (i * bb w) (T ++ zeros (512 - length T)))) with (firstn (bb w) (skipn (i * bb w) T)).
          + apply nd_update_ok. exact Rx.
          + rewrite skipn_app, firstn_app, skipn_length.
            replace (len - (length T - i * bb w)) with 0 by lia. cbn [firstn]. rewrite app_nil_r.
            destruct (Nat.eq_dec len (bb w)) as [->|N]; [reflexivity|].
            rewrite !firstn_all2 by (rewrite skipn_length; lia). reflexivity.
        - exists x. split; [reflexivity|]. rewrite skipn_all2 by lia. rewrite firstn_nil, app_nil_r. exact Rx. }
      destruct X as (x1 & E1 & R1). rewrite E1. cbn [bind].
      destruct (nd_final_ok 0 (N.of_nat i) x1 p _ (8 * w) R1 (N.le_refl _)) as (x2 & E2).
      rewrite E2. cbn [bind].
      assert (E8 : ((if (8 * w =? 0)%N then hs else 8 * w) / 8 = w)%N) by (clear - Hw; destruct Hw; subst w; reflexivity).
      rewrite E8. rewrite firstn_all2 by (rewrite node_hash_length; pose proof (hb_w w Hw); lia).
      destruct (nd_update_ok 1 0 main p D (node_hash 0 (N.of_nat i) p (leaf_part w i (B ++ T))) Rm) as (m1 & Em & Rm1).
      rewrite Em. cbn [bind].
      destruct (IH (S i) m1 _ ltac:(lia) Rm1 HE) as (m2 & l' & E & R').
      rewrite E. cbn [bind]. exists m2, (x2 :: l'). split; [reflexivity|].
      cbn [length seq flat_map]. rewrite leaf_hash_node by exact Hlt. rewrite app_assoc. exact R'.
  Qed.

  Lemma bp_final_ok s p msg : bp_R s p msg ->
    exists s', b2p_final w s = Ok (s', blake2p_hash w (hs / 8) (pk p) (ps p) (pp p) msg).
  Proof.
    intros (Hm & Hh & (B & T & J & n & -> & HB & Hr & (HL & HE) & _ & Em & Hc & Hpos)).
    unfold okrem in Hr. unfold b2p_final, b2p_finalize. cbn [bpmain bpleaf bpm bppos bphs bptotal].
    assert (E : (if negb (512 =? bppos s) then n <- size_sub 512 (bppos s) ;; memset (bpm s) (bppos s) 0 n
                 else Ok (bpm s)) = Ok (T ++ zeros (512 - length T))).
    { rewrite Hpos, Em. destruct (Nat.eqb_spec 512 (length T)); [lia|]. cbn [negb].
      rewrite size_sub_ok by lia. cbn [bind]. rewrite Em, app_length in Hc.
      rewrite memset_app by lia. rewrite skipn_all2 by lia. rewrite app_nil_r. reflexivity. }
    rewrite E. cbn [bind]. rewrite Hpos.
    destruct (bp_leaves_ok p B n T HB ltac:(lia) (bpleaf s) 0 (bpmain s) [] ltac:(lia) Hm HE) as (m1 & l1 & E1 & R1).
    rewrite E1. cbn [bind bpmain bpleaf bpm bppos bptotal bphs].
    unfold b2_final. destruct (nd_final_ok 1 0 m1 p _ 0 R1 ltac:(lia)) as (m2 & E2).
    rewrite E2. cbn [bind]. rewrite HL.
    change (if (0 =? 0)%N then hs else 0%N) with hs.
    rewrite (root_hash_node p (B ++ T)). eexists. reflexivity.
  Qed.
End Sim.

(** ** Simulation *)
Section Types.
  Variable w : N.
  Hypothesis Hw : w = 64%N \/ w = 32%N.

  Lemma blake2p_hash_length nn key salt pers msg : (nn <= w)%N ->
    length (blake2p_hash w nn key salt pers msg) = N.to_nat nn.
  Proof.
    intros H. unfold blake2p_hash, blake2_tree. rewrite firstn_length, words_bytes_length, core_length.
    pose proof (hb_w w Hw). unfold hb in *. lia.
  Qed.
  Lemma blake2p_hash_bytes nn key salt pers msg : bytes_ok (blake2p_hash w nn key salt pers msg).
  Proof. unfold blake2p_hash, blake2_tree. apply Forall_firstn, words_bytes_ok. Qed.

  Lemma blake2p_sim hs tf : (0 < hs / 8)%N -> (hs / 8 <= w)%N ->
    (forall leaf t d n r, length leaf = degree w -> b2p_transform w d n leaf = Ok r -> tf leaf t d n = Ok r) ->
    sim (blake2p_with w tf) (blake2p_spec w hs) (bp_R w hs) false.
  Proof.
    intros H0 H1 Htf.
    constructor; unfold blake2p_with; cbn [hp hp_final hp_size].
    - intros s p msg R. exact (bp_init_ok w Hw hs H1 s p (bp_R_par w hs s p msg R)).
    - intros s p msg d _ R. exact (bp_update_ok w Hw hs H1 tf Htf s p msg d R).
    - discriminate.
    - intros q v s p msg _ R.
      change (sp_set (blake2p_spec w hs) q v p) with (b2_spec_set w q v p).
      cbn [p_set p_init pst]. destruct (bp_R_par w hs s p msg R) as ((Hm1 & Hm2) & Hh & Hb & HL & HE).
      pose proof (nd_set_ok w Hw hs H1 1 0 q v (bpmain s) p Hm1) as X.
      destruct (b2_spec_set w q v p) as [p'|] eqn:Ep.
      + destruct X as (m1 & Em & Hm & Hc).
        destruct (set_all_ok w Hw hs H1 q v p p' Ep (bpleaf s) 0 HE) as (l1 & El & HL1 & HE1).
        destruct (bp_init_ok w Hw hs H1 (mkb2pst m1 l1 (bpm s) (bppos s) (bptotal s) (bphs s)) p') as (s2 & Es & R2).
        { unfold bp_par. cbn [bpmain bphs bpm bpleaf]. rewrite Hc.
          split; [auto|]. split; [auto|]. split; [auto|]. split; [congruence|exact HE1]. }
        exists (mkb2pst m1 l1 (bpm s) (bppos s) (bptotal s) (bphs s)), s2.
        split; [|split; [exact Es|exact R2]]. unfold b2p_set. rewrite Em, El. reflexivity.
      + exists s. split; [|exact R]. unfold b2p_set. rewrite X. destruct s. reflexivity.
    - intros s p msg R. exact (bp_final_ok w Hw hs H1 s p msg R).
    - intros s p msg (_ & Hh & _). rewrite Hh. cbn [sp_size blake2p_spec]. rewrite N2Nat.id. reflexivity.
    - intros s p msg _. exact (blake2p_hash_length (hs / 8) (pk p) (ps p) (pp p) msg H1).
    - intros s p msg _. exact (blake2p_hash_bytes (hs / 8) (pk p) (ps p) (pp p) msg).
    - cbn [sp_size blake2p_spec]. lia.
  Qed.

  (** Uninitialised memory of the right size. *)
  Definition b2p_mem_sized (g : b2p_mem) : Prop :=
    length (sm (fst (gpmain g))) = bb w /\ length (gpleaf g) = degree w /\
    Forall (fun x => length (sm (fst x)) = bb w) (gpleaf g) /\ length (gpm g) = 512.

  Lemma new_par : par_ok w (b2_default w).
  Proof. unfold par_ok, b2_default. cbn [pk ps pp length]. rewrite zeros_length. repeat split. apply Nat.le_0_l. Qed.
  Lemma new_words : le_words (wb w) 2 (zeros (2 * wb w)) = [0; 0]%N.
  Proof. destruct Hw; subst w; reflexivity. Qed.

  Lemma new_deg : bp_P w = degree w.
  Proof. reflexivity. Qed.

  Lemma ctor_each hs (F : st * N -> res b2_st) l : (forall x, F x = b2_ctor_static w hs (fst x) (snd x)) ->
    Forall (fun x => length (sm (fst x)) = bb w) l -> forall i,
    exists l', each (fun p x => l <- F x ;; Ok (b2_tree_params (N.of_nat (bp_P w)) 0 (N.of_nat p) l)) i l = Ok l' /\
      length l' = length l /\
      Each (fun i x => nd_par w hs 0 (N.of_nat i) x (b2_default w) /\ length (sm (b2c x)) = bb w) i l'.
  Proof.
    intros HF H. induction H as [|x l Hx H IH]; intros i.
    - exists []. repeat split.
    - destruct (IH (S i)) as (l' & E & HL & HE). cbn [each]. rewrite HF. unfold b2_ctor_static. cbn [bind].
      rewrite E. cbn [bind]. eexists. split; [reflexivity|]. cbn [length Each]. rewrite HL.
      split; [reflexivity|]. split; [|exact HE]. unfold b2_tree_params, nd_par.
      cbn [b2c b2k b2s b2p b2hs b2fo b2nd b2no]. split; [|exact Hx]. rewrite new_deg.
      split; [exact new_par|]. unfold b2_default. cbn [pk ps pp]. rewrite new_words. auto 12.
  Qed.

  Lemma b2p_static_ok hs g : b2p_mem_sized g -> exists s, b2p_ctor_static w hs g = Ok s /\ bp_par w hs s (b2_default w).
  Proof.
    intros (Hm & HL & HF & Hb). unfold b2p_ctor_static.
    destruct (ctor_each hs (fun x => b2_ctor_static w hs (fst x) (snd x)) (gpleaf g) (fun x => eq_refl) HF 0)
      as (l' & E & HL' & HE).
    change (b2_ctor_static w hs (fst (gpmain g)) (snd (gpmain g))) with
      (Ok (mkb2 (fst (gpmain g)) [0; 0]%N [0; 0]%N [] hs (snd (gpmain g)) false 0 0 0)). cbn [bind].
    rewrite E. cbn [bind]. eexists. split; [reflexivity|]. unfold bp_par. cbn [bpmain bphs bpm bpleaf].
    split; [|repeat split; try congruence; exact HE]. unfold b2_tree_params, nd_par.
    cbn [b2c b2k b2s b2p b2hs b2fo b2nd b2no]. split; [|exact Hm]. rewrite new_deg.
    split; [exact new_par|]. unfold b2_default. cbn [pk ps pp]. rewrite new_words. auto 12.
  Qed.

  Lemma b2p_ctor_eq hs g : (0 < hs <= 8 * w)%N -> (hs mod 8 = 0)%N -> b2p_ctor w hs g = b2p_ctor_static w hs g.
  Proof.
    intros H0 H8.
    assert (EV : validate_max hs (8 * w) = Ok tt).
    { unfold validate_max. rewrite H8. destruct (N.eqb_spec hs 0); [lia|].
      destruct (N.ltb_spec (8 * w) hs); [lia|]. reflexivity. }
    assert (E : forall x y, b2_ctor w BHash hs x y = b2_ctor_static w hs x y).
    { intros. unfold b2_ctor. rewrite EV. reflexivity. }
    unfold b2p_ctor, b2p_ctor_static. rewrite E, EV. cbn [bind].
    assert (EE : forall l i,
      each (fun p x => l <- b2_ctor w BHash hs (fst x) (snd x) ;; Ok (b2_tree_params (N.of_nat (bp_P w)) 0 (N.of_nat p) l)) i l
      = each (fun p x => l <- b2_ctor_static w hs (fst x) (snd x) ;; Ok (b2_tree_params (N.of_nat (bp_P w)) 0 (N.of_nat p) l)) i l).
    { induction l as [|x l IH]; intros i; [reflexivity|]. cbn [each]. rewrite E, IH. reflexivity. }
    rewrite EE. reflexivity.
  Qed.

  Lemma blake2p_with_implements hs g tf : (0 < hs <= 8 * w)%N -> (hs mod 8 = 0)%N -> b2p_mem_sized g ->
    (forall leaf t d n r, length leaf = degree w -> b2p_transform w d n leaf = Ok r -> tf leaf t d n = Ok r) ->
    implements (blake2p_with w tf) (blake2p_spec w hs) false (fresh_of (b2p_ctor w hs g) (b2p_init w)) /\
    implements (blake2p_with w tf) (blake2p_spec w hs) false (fresh_of (b2p_ctor_static w hs g) (b2p_init w)).
  Proof.
    intros H0 H8 Hg Htf. assert (0 < hs / 8 <= w)%N by (pose proof (N.div_mod' hs 8); lia).
    rewrite (b2p_ctor_eq hs g H0 H8).
    destruct (b2p_static_ok hs g Hg) as (s & E & HP).
    destruct (bp_init_ok w Hw hs ltac:(lia) s _ HP) as (s' & E' & R).
    unfold fresh_of. rewrite E. cbn [bind]. rewrite E'.
    split; exact (sim_implements _ _ _ false (blake2p_sim hs tf ltac:(lia) ltac:(lia) Htf) s' R).
  Qed.

  (** Built without OpenMP. *)
  Theorem blake2p_implements hs g : (0 < hs <= 8 * w)%N -> (hs mod 8 = 0)%N -> b2p_mem_sized g ->
    implements (blake2p w) (blake2p_spec w hs) false (fresh_of (b2p_ctor w hs g) (b2p_init w)) /\
    implements (blake2p w) (blake2p_spec w hs) false (fresh_of (b2p_ctor_static w hs g) (b2p_init w)).
  Proof.
    intros H0 H8 Hg. apply blake2p_with_implements; auto.
  Qed.

  (** Built with OpenMP: any schedule for every call of transform. *)
  Theorem blake2p_omp_implements hs g sch : (0 < hs <= 8 * w)%N -> (hs mod 8 = 0)%N -> b2p_mem_sized g ->
    (forall leaf t d n, fair (degree w) n (sch leaf t d n)) ->
    implements (blake2p_omp w sch) (blake2p_spec w hs) false (fresh_of (b2p_ctor w hs g) (b2p_init w)) /\
    implements (blake2p_omp w sch) (blake2p_spec w hs) false (fresh_of (b2p_ctor_static w hs g) (b2p_init w)).
  Proof.
    intros H0 H8 Hg Hs. apply blake2p_with_implements; auto.
    intros leaf t d n r HL E. apply schedule_ok with (n := n); [|exact E]. rewrite HL. apply Hs.
  Qed.
End Types.

(** A fair schedule that is far from sequential: block by block, leaves backwards. *)
Definition backwards (P n : nat) : list (nat * nat) :=
  flat_map (fun blk => map (fun i => (P - 1 - i, blk)) (seq 0 P)) (seq 0 n).
Example backwards_fair : fair 4 3 (backwards 4 3) /\ fair 8 2 (backwards 8 2) /\ backwards 4 3 <> list_prod (seq 0 4) (seq 0 3).
Proof.
  repeat split; try (vm_compute; discriminate); try (repeat constructor).
  - intros i Hi. do 4 (destruct i as [|i]; [reflexivity|]). lia.
  - intros i Hi. do 8 (destruct i as [|i]; [reflexivity|]). lia.
Qed.
