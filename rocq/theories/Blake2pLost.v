(** * BLAKE2bp and BLAKE2sp after reset(true): simulation, and every history of calls. *)
From Verif Require Import Base Absorb Lemmas WordLemmas TableLemmas AbsorbProof AbsorbRel Hasher HasherSpec HasherProof
  MdState MdProof BufProof SpecCommon SqueezeProof SpongeProof Blake2 Blake2Spec Blake2Proof Blake2Sim
  Blake2p Blake2pSpec Blake2pProof Blake2pSim Blake2pLostSpec Validate.
Local Open Scope nat_scope.

Definition blake2p_lost_spec (w hs : N) : hash_spec b2_param :=
  {| sp_params := b2_params; sp_default := b2_default w; sp_set := b2_spec_set w;
     sp_size := N.to_nat (hs / 8);
     sp_digest := fun p msg => blake2p_lost w (hs / 8) (pk p) (ps p) (pp p) msg |}.

Section Lost.
  Variable w : N.
  Hypothesis Hw : w = 64%N \/ w = 32%N.
  Variable hs : N.
  Hypothesis Hhs : (hs / 8 <= w)%N.
  Let A (H : BHash = BHash) : (hs / 8 <= w)%N := Hhs.
  Let A' (H : BHash <> BHash) : (hs / 8 < 2 ^ 16)%N := match H eq_refl with end.

  Let lp := b2_par w hs.
  Let lR := b2_R w BHash hs.
  Definition nodeh (p : b2_params) (D : list N) : list N := seq_node w (hs / 8) (pk p) (ps p) (pp p) D.
  Definition leafh (p : b2_params) (msg : list N) (i : nat) : list N := nodeh p (leaf_part w i msg).

  Lemma l_init_ok s p : lp s p -> length (sm (b2c s)) = bb w -> exists s', b2_init w BHash s = Ok s' /\ lR s' p [].
  Proof. exact (b2_init_ok w Hw BHash hs A A' s p). Qed.
  Lemma l_update_ok s p D d : lR s p D -> exists s', b2_update w s d = Ok s' /\ lR s' p (D ++ d).
  Proof. exact (b2_update_ok w Hw BHash hs s p D d). Qed.
  Lemma nodeh_length p D : length (nodeh p D) = hb w.
  Proof. unfold nodeh, seq_node, blake2_tree. apply (words_hb w Hw BHash hs A A'). apply core_length. Qed.

  Lemma l_final_ok s p D over : lR s p D -> (over <= 8 * w)%N ->
    exists s', b2_final_over w BHash over s =
      Ok (s', firstn (N.to_nat ((if (over =? 0)%N then hs else over) / 8)) (nodeh p D)).
  Proof.
    intros (Hp & _ & B) Hov. unfold b2_final_over.
    match goal with |- context [b2_pad w ?x] => assert (EL : b2_lastn x = false) end.
    { apply (lastn_0 w hs _ p). exact Hp. }
    match goal with |- context [b2_pad w ?x] =>
      destruct (b2_pad_ok w Hw (root_iv w BHash hs p) x (data_of w p D)) as (m & T & E & Hm) end.
    - apply (root_iv_length w Hw BHash hs A A'). apply Hp.
    - cbn [b2c sh sm spos stotal]. exists (stotal (b2c s)). split; [|reflexivity]. destruct (b2c s). exact B.
    - cbv zeta. rewrite E. cbn [bind sh b2hs]. rewrite EL, (wb_eq w Hw).
      rewrite load_ok.
      + cbn [bind skipn]. destruct Hp as (_ & _ & _ & _ & Hh & _). rewrite Hh.
        eexists. reflexivity.
      + cbn [Nat.add]. rewrite (words_hb w Hw BHash hs A A') by apply core_length.
        destruct Hp as (_ & _ & _ & _ & Hh & _). rewrite Hh.
        assert (Hb : N.of_nat (hb w) = w) by apply (hb_w w Hw).
        assert ((if (over =? 0) then hs else over) / 8 <= w)%N; [|lia].
        destruct (over =? 0)%N; [exact Hhs|]. apply N.div_le_upper_bound; [discriminate|exact Hov].
  Qed.

  (** Setters. *)
  Lemma l_set_ok q v s p : lp s p ->
    match b2_spec_set w q v p with
    | Some p' => exists s1, b2_set w q v s = Done s1 /\ lp s1 p' /\ b2c s1 = b2c s
    | None => b2_set w q v s = Raised s
    end.
  Proof.
    intros ((Pk & Ps & Pp) & Hk & Hs & Hpp & Hh & Hf & Hd & Ho).
    unfold b2_spec_set, b2_set. destruct q.
    - rewrite (hb_eq w Hw). destruct (Nat.leb_spec (length v) (hb w)) as [L|L].
      + destruct (Nat.ltb_spec (hb w) (length v)); [lia|].
        eexists. split; [reflexivity|]. unfold lp, b2_par, par_ok. cbn [pk ps pp b2c b2k b2s b2p b2hs b2fo b2nd b2no].
        auto 12.
      + destruct (Nat.ltb_spec (hb w) (length v)); [reflexivity|lia].
    - rewrite (sb_eq w Hw). unfold set_field.
      destruct (Nat.eqb_spec (length v) 0) as [Z|Z]; cbn [negb andb option_map].
      + destruct v; [|discriminate].
        eexists. split; [reflexivity|]. unfold lp, b2_par, par_ok. cbn [pk ps pp b2c b2k b2s b2p b2hs b2fo b2nd b2no].
        auto 12.
      + destruct (Nat.eqb_spec (length v) (2 * wb w)) as [L|L]; cbn [negb option_map]; [|reflexivity].
        destruct v as [|v0 vr]; [exfalso; apply Z; reflexivity|].
        eexists. split; [reflexivity|]. unfold lp, b2_par, par_ok. cbn [pk ps pp b2c b2k b2s b2p b2hs b2fo b2nd b2no].
        rewrite (wb_eq w Hw). auto 12.
    - rewrite (sb_eq w Hw). unfold set_field.
      destruct (Nat.eqb_spec (length v) 0) as [Z|Z]; cbn [negb andb option_map].
      + destruct v; [|discriminate].
        eexists. split; [reflexivity|]. unfold lp, b2_par, par_ok. cbn [pk ps pp b2c b2k b2s b2p b2hs b2fo b2nd b2no].
        auto 12.
      + destruct (Nat.eqb_spec (length v) (2 * wb w)) as [L|L]; cbn [negb option_map]; [|reflexivity].
        destruct v as [|v0 vr]; [exfalso; apply Z; reflexivity|].
        eexists. split; [reflexivity|]. unfold lp, b2_par, par_ok. cbn [pk ps pp b2c b2k b2s b2p b2hs b2fo b2nd b2no].
        rewrite (wb_eq w Hw). auto 12.
  Qed.

  Lemma l_set_none q v s p : lp s p -> b2_spec_set w q v p = None -> b2_set w q v s = Raised s.
  Proof. intros H E. pose proof (l_set_ok q v s p H) as X. rewrite E in X. exact X. Qed.

  Lemma set_all_ok q v p p' : b2_spec_set w q v p = Some p' -> forall l i,
    Each (fun i x => lp x p /\ length (sm (b2c x)) = bb w) i l ->
    exists l', b2_set_all w q v l = Done l' /\ length l' = length l /\
      Each (fun i x => lp x p' /\ length (sm (b2c x)) = bb w) i l'.
  Proof.
    intros E. induction l as [|x l IH]; intros i HE.
    - exists []. repeat split.
    - destruct HE as [[H1 H2] H3]. pose proof (l_set_ok q v x p H1) as X. rewrite E in X.
      destruct X as (x' & Ex & Hx & Hc). destruct (IH (S i) H3) as (l' & El & HL & HQ).
      exists (x' :: l'). cbn [b2_set_all]. rewrite Ex, El. cbn [length Each]. rewrite Hc. auto.
  Qed.

  (** ** Dealing out the message *)
  Let leaf_part_app := leaf_part_app w Hw hs Hhs.
  Let leaf_part_one := leaf_part_one w Hw hs Hhs.
  Let idx_512 := idx_512 w Hw hs Hhs.
  Let deg_8 := deg_8 w Hw hs Hhs.

  Lemma leaf_loop_ok p i B k data n : i < degree w -> length B = k * 512 -> length data = n * 512 ->
    forall m x, m <= n -> lR x p (leaf_part w i B) ->
    exists x', fold_res (fun l blk => b2p_feed w data i blk l) (seq 0 m) x = Ok x' /\
      lR x' p (leaf_part w i (B ++ firstn (m * 512) data)).
  Proof.
    intros Hi HB Hd. pose proof (idx_512 i Hi) as H512.
    induction m as [|m IH]; intros x Hm HR.
    - exists x. split; [reflexivity|]. cbn [Nat.mul firstn]. rewrite app_nil_r. exact HR.
    - destruct (IH x ltac:(lia) HR) as (x1 & E1 & R1).
      assert (Hm' : m * 512 + 512 <= n * 512) by lia.
      set (T := firstn 512 (skipn (m * 512) data)).
      assert (HT : length T = 512) by (unfold T; rewrite firstn_length, skipn_length; lia).
      destruct (l_update_ok x1 p _ (leaf_part w i T) R1) as (x2 & E2 & R2).
      exists x2. split.
      + rewrite seq_S, fold_res_app, E1. cbn [bind Nat.add fold_res]. unfold b2p_feed. rewrite (bs_eq w Hw).
        rewrite load_ok by lia. cbn [bind].
        replace (firstn (bb w) (skipn (m * 512 + i * bb w) data)) with (leaf_part w i T).
        * rewrite E2. reflexivity.
        * rewrite leaf_part_one by lia. unfold T. rewrite skipn_firstn_comm, firstn_firstn.
          rewrite Nat.min_l by lia. rewrite skipn_skipn. do 2 f_equal. lia.
      + replace (B ++ firstn (S m * 512) data) with ((B ++ firstn (m * 512) data) ++ T).
        * rewrite (leaf_part_app i (k + m)) by (rewrite app_length, firstn_length; lia). exact R2.
        * rewrite <- app_assoc. f_equal. unfold T.
          replace (S m * 512) with (m * 512 + 512) by lia. symmetry. apply firstn_add.
  Qed.

  (** ** The object *)
  Definition lleaves (p : b2_params) (B : list N) (l : list b2_st) : Prop :=
    length l = degree w /\ Each (fun i x => lR x p (leaf_part w i B)) 0 l.
  Definition lost_R (s : b2p_st) (p : b2_params) (msg : list N) : Prop :=
    lR (bpmain s) p [] /\ bphs s = hs /\
    rel_state (lleaves p) 512 512 false 0 msg (bpleaf s) (bpm s) (bppos s) (bptotal s).
  (** What is left of it in any state: parameters and buffer sizes. *)
  Definition lost_par (s : b2p_st) (p : b2_params) : Prop :=
    (lp (bpmain s) p /\ length (sm (b2c (bpmain s))) = bb w) /\ bphs s = hs /\ length (bpm s) = 512 /\
    length (bpleaf s) = degree w /\
    Each (fun i x => lp x p /\ length (sm (b2c x)) = bb w) 0 (bpleaf s).

  Lemma l_R_par s p D : lR s p D -> lp s p /\ length (sm (b2c s)) = bb w.
  Proof. intros R. split; [exact (proj1 R)|exact (b2_R_sm w BHash hs s p D R)]. Qed.

  Lemma lost_R_par s p msg : lost_R s p msg -> lost_par s p.
  Proof.
    intros (Hm & Hh & (B & T & J & n & _ & _ & _ & (HL & HE) & _ & _ & Hc & _)).
    split; [exact (l_R_par _ _ _ Hm)|]. split; [exact Hh|]. split; [exact Hc|]. split; [exact HL|].
    eapply Each_imp; [|exact HE]. intros j x. apply l_R_par.
  Qed.

  Lemma lost_init_ok s p : lost_par s p -> exists s', b2p_init w s = Ok s' /\ lost_R s' p [].
  Proof.
    intros ((Hm1 & Hm2) & Hh & Hb & HL & HE). unfold b2p_init.
    destruct (l_init_ok (bpmain s) p) as (m' & Em & Rm); auto.
    rewrite Em. cbn [bind]. pose proof deg_8 as D8.
    assert (HI : forall j x, j < degree w -> lp x p /\ length (sm (b2c x)) = bb w ->
      exists y, b2_init w BHash x = Ok y /\ lR y p []).
    { intros j x Hj (H1 & H2). apply l_init_ok; auto. }
    destruct (each_ok _ _ _ (degree w) (bpleaf s) 0 ltac:(lia) HI HE) as (l' & El & HQ & HL').
    change (each (fun _ : nat => b2_init w BHash) 0 (bpleaf s) = Ok l') in El. rewrite El. cbn [bind]. eexists. split; [reflexivity|]. unfold lost_R. cbn [bpmain bphs bpleaf bpm bppos bptotal].
    split; [exact Rm|]. split; [exact Hh|]. apply rel_start; auto; [lia|reflexivity|].
    split; [lia|exact HQ].
  Qed.

  Variable tf : b2p_tf.
  Hypothesis tf_seq : forall leaf t d n r, length leaf = degree w ->
    b2p_transform w d n leaf = Ok r -> tf leaf t d n = Ok r.

  Lemma lost_tf_ok p B k c (m : list N) data n :
    length m = 512 -> length B = k * 512 -> length data = n * 512 -> lleaves p B c ->
    exists c' m', (leaf <- tf c (ctr 0 B) data n ;; Ok (leaf, m)) = Ok (c', m') /\ length m' = 512 /\
      lleaves p (B ++ data) c'.
  Proof.
    intros Hm HB Hd (HL & HE).
    assert (HI : forall j x, j < degree w -> lR x p (leaf_part w j B) ->
      exists y, b2p_leaf w data n j x = Ok y /\ lR y p (leaf_part w j (B ++ data))).
    { intros j x Hj HR. destruct (leaf_loop_ok p j B k data n Hj HB Hd n x (le_n _) HR) as (x' & E & R').
      exists x'. split; [exact E|]. rewrite firstn_all2 in R' by lia. exact R'. }
    destruct (each_ok _ _ _ (degree w) c 0 ltac:(lia) HI HE) as (l' & El & HQ & HL').
    exists l', m. rewrite (tf_seq c (ctr 0 B) data n l' HL El). cbn [bind].
    split; [reflexivity|]. split; [exact Hm|]. split; [lia|exact HQ].
  Qed.

  Lemma lost_update_ok s p msg d : lost_R s p msg -> exists s', b2p_update tf s d = Ok s' /\ lost_R s' p (msg ++ d).
  Proof.
    intros (Hm & Hh & HR). unfold b2p_update, bp_bs.
    destruct (absorb_rel_ok (lleaves p) (fun leaf m t d n => leaf <- tf leaf t d n ;; Ok (leaf, m)) 512 512 false 0
      ltac:(lia) (le_n _) eq_refl (fun B k c m data n H1 H2 H3 H4 => lost_tf_ok p B k c m data n H1 H2 H3 H4)
      msg d (bpleaf s) (bpm s) (bppos s) (bptotal s) HR) as (c' & m' & pos' & t' & E & R').
    change (bschk 512 false) with 512 in E. rewrite E. cbn [bind].
    eexists. split; [reflexivity|]. split; [exact Hm|]. split; [exact Hh|exact R'].
  Qed.

  (** Feeding the rest of the message to the leaves and collecting their hashes. *)
  Lemma root_lost p msg :
    firstn (N.to_nat (hs / 8)) (nodeh p ([] ++ flat_map (leafh p msg) (seq 0 (degree w))))
    = blake2p_lost w (hs / 8) (pk p) (ps p) (pp p) msg.
  Proof. reflexivity. Qed.

  Lemma lost_leaves_ok p B k T : length B = k * 512 -> length T < 512 -> forall l i main D,
    i + length l = degree w ->
    lR main p D -> Each (fun i x => lR x p (leaf_part w i B)) i l ->
    exists main' l', b2p_leaves w (T ++ zeros (512 - length T)) (length T) main i l = Ok (main', l') /\
      lR main' p (D ++ flat_map (leafh p (B ++ T)) (seq i (length l))).
  Proof.
    intros HB HT. induction l as [|x l IH]; intros i main D Hi Rm HE.
    - exists main, []. split; [reflexivity|]. cbn [length seq flat_map]. rewrite app_nil_r. exact Rm.
    - destruct HE as [Rx HE]. cbn [length] in Hi. assert (Hlt : i < degree w) by lia.
      pose proof (idx_512 i Hlt) as H512. pose proof (bb_pos w Hw) as Hbp.
      cbn [b2p_leaves]. rewrite (bs_eq w Hw).
      match goal with |- context [bind ?e _] => assert (X : exists x', e = Ok x' /\ lR x' p (leaf_part w i (B ++ T))) end.
      { rewrite (leaf_part_app i k) by exact HB. rewrite (leaf_part_one i T) by lia.
        destruct (Nat.ltb_spec (i * bb w) (length T)) as [L|L].
        - cbv zeta.
          set (len := if length T <? i * bb w + bb w then length T - i * bb w else bb w).
          assert (Hlen : len <= bb w /\ i * bb w + len <= length T /\ (len < bb w -> len = length T - i * bb w)).
          { unfold len. destruct (Nat.ltb_spec (length T) (i * bb w + bb w)); lia. }
          rewrite load_ok by (rewrite app_length; lia). cbn [bind].
          replace (firstn len (skipn (i * bb w) (T ++ zeros (512 - length T)))) with (firstn (bb w) (skipn (i * bb w) T)).
          + apply l_update_ok. exact Rx.
          + rewrite skipn_app, firstn_app, skipn_length.
            replace (len - (length T - i * bb w)) with 0 by lia. cbn [firstn]. rewrite app_nil_r.
            destruct (Nat.eq_dec len (bb w)) as [->|N]; [reflexivity|].
            rewrite !firstn_all2 by (rewrite skipn_length; lia). reflexivity.
        - exists x. split; [reflexivity|]. rewrite skipn_all2 by lia. rewrite firstn_nil, app_nil_r. exact Rx. }
      destruct X as (x1 & E1 & R1). rewrite E1. cbn [bind].
      destruct (l_final_ok x1 p _ (8 * w) R1 (N.le_refl _)) as (x2 & E2).
      rewrite E2. cbn [bind].
      assert (E8 : ((if (8 * w =? 0)%N then hs else 8 * w) / 8 = w)%N) by (clear - Hw; destruct Hw; subst w; reflexivity).
      rewrite E8. rewrite firstn_all2 by (rewrite nodeh_length; pose proof (hb_w w Hw); lia).
      destruct (l_update_ok main p D (nodeh p (leaf_part w i (B ++ T))) Rm) as (m1 & Em & Rm1).
      rewrite Em. cbn [bind].
      destruct (IH (S i) m1 _ ltac:(lia) Rm1 HE) as (m2 & l' & E & R').
      rewrite E. cbn [bind]. exists m2, (x2 :: l'). split; [reflexivity|].
      cbn [length seq flat_map]. rewrite app_assoc. exact R'.
  Qed.

  Lemma lost_final_ok s p msg : lost_R s p msg ->
    exists s', b2p_final w s = Ok (s', blake2p_lost w (hs / 8) (pk p) (ps p) (pp p) msg).
  Proof.
    intros (Hm & Hh & (B & T & J & n & -> & HB & Hr & (HL & HE) & _ & Em & Hc & Hpos)).
    unfold okrem in Hr. unfold b2p_final, b2p_finalize. cbn [bpmain bpleaf bpm bppos bphs bptotal].
    assert (E : (if negb (512 =? bppos s) then n <- size_sub 512 (bppos s) ;; memset (bpm s) (bppos s) 0 n
                 else Ok (bpm s)) = Ok (T ++ zeros (512 - length T))).
    { rewrite Hpos, Em. destruct (Nat.eqb_spec 512 (length T)); [lia|]. cbn [negb].
      rewrite size_sub_ok by lia. cbn [bind]. rewrite Em, app_length in Hc.
      rewrite memset_app by lia. rewrite skipn_all2 by lia. rewrite app_nil_r. reflexivity. }
    rewrite E. cbn [bind]. rewrite Hpos.
    destruct (lost_leaves_ok p B n T HB ltac:(lia) (bpleaf s) 0 (bpmain s) [] ltac:(lia) Hm HE) as (m1 & l1 & E1 & R1).
    rewrite E1. cbn [bind bpmain bpleaf bpm bppos bptotal bphs].
    unfold b2_final. destruct (l_final_ok m1 p _ 0 R1 ltac:(lia)) as (m2 & E2).
    rewrite E2. cbn [bind]. rewrite HL.
    change (if (0 =? 0)%N then hs else 0%N) with hs.
    rewrite (root_lost p (B ++ T)). eexists. reflexivity.
  Qed.

  (** ** reset(true)

      Whatever a state of the right sizes was used for, clear leaves all nodes with the
      tree parameters of an ordinary hash. *)
  Definition sized_node (x : b2_st) : Prop := b2hs x = hs /\ length (sm (b2c x)) = bb w.
  Definition sized (s : b2p_st) : Prop :=
    sized_node (bpmain s) /\ bphs s = hs /\ length (bpm s) = 512 /\ length (bpleaf s) = degree w /\
    Each (fun _ => sized_node) 0 (bpleaf s).

  Lemma clear_node x : sized_node x -> exists y, b2_clear x = Ok y /\ lp y (b2_default w) /\ length (sm (b2c y)) = bb w.
  Proof.
    intros (Hh & Hm). unfold b2_clear, b2_wipe. eexists. split; [reflexivity|]. cbn [b2c sm]. unfold zero_memory. rewrite zeros_length.
    split; [|exact Hm]. split; [exact (new_par w)|]. unfold b2_default. cbn [pk ps pp b2k b2s b2p b2hs b2fo b2nd b2no].
    rewrite (new_words w Hw). auto 12.
  Qed.

  Lemma clear_sized s : sized s -> exists s1 s2, b2p_clear s = Ok s1 /\ b2p_init w s1 = Ok s2 /\ lost_R s2 (b2_default w) [].
  Proof.
    intros (Hm & Hh & Hb & HL & HE). unfold b2p_clear.
    destruct (clear_node _ Hm) as (m' & Em & Pm & Lm). rewrite Em. cbn [bind].
    assert (HI : forall j x, j < degree w -> sized_node x ->
      exists y, b2_clear x = Ok y /\ (lp y (b2_default w) /\ length (sm (b2c y)) = bb w)).
    { intros j x _. apply clear_node. }
    destruct (each_ok _ _ _ (degree w) (bpleaf s) 0 ltac:(lia) HI HE) as (l' & El & HQ & HL').
    change (each (fun _ : nat => b2_clear) 0 (bpleaf s) = Ok l') in El. rewrite El. cbn [bind].
    match goal with |- context [Ok ?x = Ok _] => destruct (lost_init_ok x (b2_default w)) as (s2 & E & R) end.
    { unfold lost_par. cbn [bpmain bphs bpm bpleaf]. unfold zero_memory. rewrite zeros_length.
      split; [auto|]. split; [auto|]. split; [auto|]. split; [congruence|exact HQ]. }
    eexists _, s2. split; [reflexivity|]. split; [exact E|exact R].
  Qed.

  Lemma lost_sized s p : lost_par s p -> sized s.
  Proof.
    intros ((Hm & Lm) & Hh & Hb & HL & HE). split; [split; [apply Hm|exact Lm]|].
    split; [exact Hh|]. split; [exact Hb|]. split; [exact HL|].
    eapply Each_imp; [|exact HE]. intros j x (Hx & Lx). split; [apply Hx|exact Lx].
  Qed.
  Lemma tree_sized s p : bp_par w hs s p -> sized s.
  Proof.
    intros ((Hm & Lm) & Hh & Hb & HL & HE). split; [split; [apply Hm|exact Lm]|].
    split; [exact Hh|]. split; [exact Hb|]. split; [exact HL|].
    eapply Each_imp; [|exact HE]. intros j x (Hx & Lx). split; [apply Hx|exact Lx].
  Qed.
End Lost.

Section Types.
  Variable w : N.
  Hypothesis Hw : w = 64%N \/ w = 32%N.

  Lemma blake2p_lost_length nn key salt pers msg : (nn <= w)%N ->
    length (blake2p_lost w nn key salt pers msg) = N.to_nat nn.
  Proof. intros H. exact (blake2_hash_length w Hw nn key salt pers _ H). Qed.
  Lemma blake2p_lost_bytes nn key salt pers msg : bytes_ok (blake2p_lost w nn key salt pers msg).
  Proof. exact (blake2_hash_bytes w nn key salt pers _). Qed.

  Lemma lost_sim hs tf : (0 < hs / 8)%N -> (hs / 8 <= w)%N ->
    (forall leaf t d n r, length leaf = degree w -> b2p_transform w d n leaf = Ok r -> tf leaf t d n = Ok r) ->
    sim (blake2p_with w tf) (blake2p_lost_spec w hs) (lost_R w hs) true.
  Proof.
    intros H0 H1 Htf.
    constructor; unfold blake2p_with; cbn [hp hp_final hp_size].
    - intros s p msg R. exact (lost_init_ok w Hw hs H1 s p (lost_R_par w hs s p msg R)).
    - intros s p msg d _ R. exact (lost_update_ok w Hw hs H1 tf Htf s p msg d R).
    - intros _ s p msg R. exact (clear_sized w Hw hs H1 s (lost_sized w hs s p (lost_R_par w hs s p msg R))).
    - intros q v s p msg _ R.
      change (sp_set (blake2p_lost_spec w hs) q v p) with (b2_spec_set w q v p).
      cbn [p_set p_init pst]. destruct (lost_R_par w hs s p msg R) as ((Hm1 & Hm2) & Hh & Hb & HL & HE).
      pose proof (l_set_ok w Hw hs H1 q v (bpmain s) p Hm1) as X.
      destruct (b2_spec_set w q v p) as [p'|] eqn:Ep.
      + destruct X as (m1 & Em & Hm & Hc).
        destruct (set_all_ok w Hw hs H1 q v p p' Ep (bpleaf s) 0 HE) as (l1 & El & HL1 & HE1).
        destruct (lost_init_ok w Hw hs H1 (mkb2pst m1 l1 (bpm s) (bppos s) (bptotal s) (bphs s)) p') as (s2 & Es & R2).
        { unfold lost_par. cbn [bpmain bphs bpm bpleaf]. rewrite Hc.
          split; [auto|]. split; [auto|]. split; [auto|]. split; [congruence|exact HE1]. }
        exists (mkb2pst m1 l1 (bpm s) (bppos s) (bptotal s) (bphs s)), s2.
        split; [|split; [exact Es|exact R2]]. unfold b2p_set. rewrite Em, El. reflexivity.
      + exists s. split; [|exact R]. unfold b2p_set. rewrite X. destruct s. reflexivity.
    - intros s p msg R. exact (lost_final_ok w Hw hs H1 s p msg R).
    - intros s p msg (_ & Hh & _). rewrite Hh. cbn [sp_size blake2p_lost_spec]. rewrite N2Nat.id. reflexivity.
    - intros s p msg _. exact (blake2p_lost_length (hs / 8) (pk p) (ps p) (pp p) msg H1).
    - intros s p msg _. exact (blake2p_lost_bytes (hs / 8) (pk p) (ps p) (pp p) msg).
    - cbn [sp_size blake2p_lost_spec]. lia.
  Qed.
End Types.
