(** * BLAKE2 and BLAKE2X: every history of calls. *)
From Verif Require Import Base Absorb Lemmas WordLemmas TableLemmas AbsorbProof Hasher HasherSpec HasherProof
  MdState MdProof BufProof SpecCommon SqueezeProof SpongeProof Blake2 Blake2Spec Blake2Proof Validate.
Local Open Scope nat_scope.

(** ** Specifications of the types *)
Definition b2_spec_set (w : N) (q : b2_param) (v : list N) (p : b2_params) : option b2_params :=
  match q with
  | B2Key => if length v <=? hb w then Some (mkb2p v (ps p) (pp p)) else None
  | B2Salt => option_map (fun x => mkb2p (pk p) x (pp p)) (set_field w v (ps p))
  | B2Pers => option_map (fun x => mkb2p (pk p) (ps p) x) (set_field w v (pp p))
  end.
Definition blake2_spec (w hs : N) : hash_spec b2_param :=
  {| sp_params := b2_params; sp_default := b2_default w; sp_set := b2_spec_set w;
     sp_size := N.to_nat (hs / 8);
     sp_digest := fun p msg => blake2_hash w (hs / 8) (pk p) (ps p) (pp p) msg |}.
Definition blake2x_spec (w hs : N) : hash_spec b2_param :=
  {| sp_params := b2_params; sp_default := b2_default w; sp_set := b2_spec_set w;
     sp_size := N.to_nat (hs / 8);
     sp_digest := fun p msg => blake2x_hash w (N.to_nat (hs / 8)) (pk p) (ps p) (pp p) msg |}.
Definition blake2x_xof_spec (w : N) : xof_spec b2_param :=
  {| xs_params := b2_params; xs_default := b2_default w; xs_set := b2_spec_set w;
     xs_out := fun p msg n => blake2x_stream w (pk p) (ps p) (pp p) msg n |}.

Lemma ones_unknown w : w = 64%N \/ w = 32%N ->
  x_unknown w = (if w =? 64 then N.ones w mod 2 ^ 32 else N.ones w mod 2 ^ 16)%N.
Proof. intros [-> | ->]; reflexivity. Qed.
Lemma small_rhs w n : w = 64%N \/ w = 32%N -> (N.of_nat n < 2 ^ 16)%N ->
  (trunc w (N.of_nat n) =? N.ones w)%N = false /\
  N.of_nat n = (if w =? 64 then trunc w (N.of_nat n) mod 2 ^ 32 else trunc w (N.of_nat n) mod 2 ^ 16)%N.
Proof.
  intros [-> | ->] H; rewrite trunc_small by (eapply N.lt_trans; [exact H|reflexivity]); split;
  [apply N.eqb_neq; intros E; rewrite E in H; discriminate H| |apply N.eqb_neq; intros E; rewrite E in H; discriminate H|];
  cbn [N.eqb Pos.eqb]; symmetry; apply N.mod_small; eapply N.lt_le_trans; try exact H; discriminate.
Qed.

Section Sim.
  Variable w : N.
  Hypothesis Hw : w = 64%N \/ w = 32%N.
  Variables (ty : b2_type) (hs : N).

  (** Root tree node of the type. *)
  Definition root_L : N := match ty with BXof => x_unknown w | _ => (hs / 8)%N end.
  Definition root_iv (p : b2_params) : list N :=
    match ty with
    | BHash => init_h w (seq_tree (hs / 8) (pk p) 0) (ps p) (pp p)
    | _ => init_h w (seq_tree (N.of_nat (hb w)) (pk p) (xfield w 0 root_L)) (ps p) (pp p)
    end.
  Definition data_of (p : b2_params) (msg : list N) : list N := key_pad w (pk p) ++ msg.

  Definition par_ok (p : b2_params) : Prop :=
    length (pk p) <= hb w /\ length (ps p) = 2 * wb w /\ length (pp p) = 2 * wb w.
  Definition b2_par (s : b2_st) (p : b2_params) : Prop :=
    par_ok p /\ b2k s = pk p /\ b2s s = le_words (wb w) 2 (ps p) /\ b2p s = le_words (wb w) 2 (pp p) /\
    b2hs s = hs /\ b2fo s = 0%N /\ b2nd s = 0%N /\ b2no s = 0%N.

  (** Absorbing state. *)
  Definition b2_R (s : b2_st) (p : b2_params) (msg : list N) : Prop :=
    b2_par s p /\ b2sq s = false /\ b2_abs w (root_iv p) (b2c s) (data_of p msg).

  Hypothesis Hhash : ty = BHash -> (hs / 8 <= w)%N.
  Hypothesis Hx : ty <> BHash -> (hs / 8 < 2 ^ 16)%N.

  Lemma init_H_eq p : par_ok p ->
    b2_init_H w ty hs (le_words (wb w) 2 (ps p)) (le_words (wb w) 2 (pp p)) (length (pk p)) 0 0 0 = root_iv p.
  Proof.
    intros (Hk & Hs & Hp). unfold root_iv, seq_tree.
    assert (D : ty = BHash \/ ty <> BHash) by (destruct ty; [left; reflexivity|right; discriminate..]).
    destruct D as [D|D].
    - pose proof (Hhash D) as B. rewrite D. apply init_hash; auto.
    - pose proof (Hx D) as B.
      rewrite (init_x w Hw (ps p) (pp p) (length (pk p)) Hs Hp Hk ty hs root_L D eq_refl B).
      destruct ty; [congruence|reflexivity..].
  Qed.

  Lemma root_iv_length p : par_ok p -> length (root_iv p) = 8.
  Proof.
    intros H. rewrite <- init_H_eq by auto. unfold b2_init_H, b2_xor_sp, b2_xor, b2_initH, b2_IV.
    cbn [N.eqb]. destruct ty, (w =? 64)%N; reflexivity.
  Qed.

  Lemma b2_update_abs h0 s D d : b2_abs w h0 (b2c s) D ->
    exists c, b2_update w s d = Ok (mkb2 c (b2s s) (b2p s) (b2k s) (b2hs s) (b2xo s) (b2sq s) (b2fo s) (b2nd s) (b2no s))
      /\ b2_abs w h0 c (D ++ d).
  Proof.
    intros H. unfold b2_update. rewrite (bs_eq w Hw).
    change (bb w + 1) with (bschk (bb w) true).
    destruct (buf_update_ok (b2_step w) (bb w) (bb w) true (bb_pos w Hw) (le_n _) h0 (b2c s) D d H) as (c & E & A).
    rewrite E. cbn [bind]. eauto.
  Qed.

  Lemma b2_key_ok h0 s : length (b2k s) <= hb w -> b2_abs w h0 (b2c s) [] ->
    exists c, b2_absorb_key w s = Ok (mkb2 c (b2s s) (b2p s) (b2k s) (b2hs s) (b2xo s) (b2sq s) (b2fo s) (b2nd s) (b2no s))
      /\ b2_abs w h0 c (key_pad w (b2k s)).
  Proof.
    intros Hk H. pose proof (hb_bb w Hw) as Hb. unfold b2_absorb_key.
    destruct (b2k s) as [|k0 kr] eqn:Ek.
    - exists (b2c s). split; [|exact H]. destruct s. cbn in Ek. subst. reflexivity.
    - set (k := k0 :: kr) in *. rewrite (bs_eq w Hw).
      assert (E : memcpy (zeros (bb w)) 0 k (length k) = Ok (k ++ zeros (bb w - length k))).
      { rewrite memcpy_ok by (rewrite ?zeros_length; lia). unfold overlay.
        rewrite firstn_all. cbn [firstn app Nat.add]. unfold zeros.
        replace (bb w) with (length k + (bb w - length k)) at 1 by lia.
        rewrite repeat_app, skipn_app_exact by (rewrite repeat_length; reflexivity). reflexivity. }
      rewrite E. cbn [bind]. rewrite size_sub_ok by lia. cbn [bind].
      rewrite memset_app; [|reflexivity|rewrite zeros_length; lia]. cbn [bind].
      rewrite skipn_all2 by (rewrite zeros_length; lia). rewrite app_nil_r.
      destruct (b2_update_abs h0 s [] (k ++ repeat 0%N (bb w - length k)) H) as (c & Eu & A).
      exists c. rewrite Eu, Ek. split; [reflexivity|exact A].
  Qed.

  Lemma b2_init_ok s p : b2_par s p -> length (sm (b2c s)) = bb w ->
    exists s', b2_init w ty s = Ok s' /\ b2_R s' p [].
  Proof.
    intros (Hp & Hk & Hs & Hpp & Hh & Hf & Hd & Ho) Hm. unfold b2_init.
    cbn [b2fo b2nd]. rewrite Hf. cbn [N.eqb orb].
    rewrite Hk, Hs, Hpp, Hh, Hd, Ho, init_H_eq by auto.
    match goal with |- context [b2_absorb_key w ?x] =>
      destruct (b2_key_ok (root_iv p) x) as (c & E & A) end.
    - cbn [b2k]. apply Hp.
    - cbn [b2c]. apply buf_inv_start; auto. apply (bb_pos w Hw).
    - rewrite E. eexists. split; [reflexivity|]. unfold b2_R, b2_par, data_of.
      cbn [b2c b2s b2p b2k b2hs b2xo b2sq b2fo b2nd b2no] in *. rewrite app_nil_r.
      split; [auto 12|]. split; [reflexivity|exact A].
  Qed.

  Lemma b2_R_sm s p msg : b2_R s p msg -> length (sm (b2c s)) = bb w.
  Proof. intros (_ & _ & A). exact (buf_inv_sm _ _ _ _ _ _ _ A). Qed.

  Lemma b2_update_ok s p msg d : b2_R s p msg ->
    exists s', b2_update w s d = Ok s' /\ b2_R s' p (msg ++ d).
  Proof.
    intros (Hp & Hq & A). destruct (b2_update_abs _ s _ d A) as (c & E & A').
    rewrite E. eexists. split; [reflexivity|].
    unfold b2_R, b2_par, data_of in *. cbn [b2c b2s b2p b2k b2hs b2xo b2sq b2fo b2nd b2no].
    split; [exact Hp|]. split; [exact Hq|]. rewrite app_assoc. exact A'.
  Qed.

  Lemma zero_words : le_words (wb w) 2 (zeros (2 * wb w)) = [0; 0]%N.
  Proof. destruct Hw; subst w; reflexivity. Qed.

  Lemma default_ok : par_ok (b2_default w).
  Proof. unfold par_ok, b2_default. cbn [pk ps pp length]. rewrite zeros_length. repeat split; lia. Qed.

  (** A newly constructed or cleared object. *)
  Lemma b2_new_ok c xo sq : length (sm c) = bb w ->
    exists s', b2_init w ty (mkb2 c [0; 0]%N [0; 0]%N [] hs xo sq 0 0 0) = Ok s' /\ b2_R s' (b2_default w) [].
  Proof.
    intros Hm. apply b2_init_ok; [|exact Hm]. unfold b2_par. cbn [b2k b2s b2p b2hs b2fo b2nd b2no].
    split; [apply default_ok|]. unfold b2_default. cbn [pk ps pp]. rewrite zero_words. auto 10.
  Qed.

  Lemma b2_set_ok q v s p : b2_par s p -> length (sm (b2c s)) = bb w ->
    match b2_spec_set w q v p with
    | Some p' => exists s1 s2, b2_set w q v s = Done s1 /\ b2_init w ty s1 = Ok s2 /\ b2_R s2 p' []
    | None => b2_set w q v s = Raised s
    end.
  Proof.
    intros Hpar Hm. pose proof Hpar as ((Pk & Ps & Pp) & Hk & Hs & Hpp & Hh & Hf & Hd & Ho).
    unfold b2_spec_set, b2_set. destruct q.
    - rewrite (hb_eq w Hw). destruct (Nat.leb_spec (length v) (hb w)) as [L|L].
      + destruct (Nat.ltb_spec (hb w) (length v)); [lia|].
        eexists. match goal with |- context [Done ?x = Done _] =>
          destruct (b2_init_ok x (mkb2p v (ps p) (pp p))) as (s2 & E & R2) end.
        { unfold b2_par, par_ok. cbn [pk ps pp b2k b2s b2p b2hs b2fo b2nd b2no]. auto 12. }
        { exact Hm. }
        exists s2. auto.
      + destruct (Nat.ltb_spec (hb w) (length v)); [reflexivity|lia].
    - rewrite (sb_eq w Hw). unfold set_field.
      destruct (Nat.eqb_spec (length v) 0) as [Z|Z]; cbn [negb andb option_map].
      + destruct v; [|discriminate].
        eexists. match goal with |- context [Done ?x = Done _] =>
          destruct (b2_init_ok x (mkb2p (pk p) (ps p) (pp p))) as (s2 & E & R2) end.
        { unfold b2_par, par_ok. cbn [pk ps pp b2k b2s b2p b2hs b2fo b2nd b2no]. auto 12. }
        { exact Hm. }
        exists s2. auto.
      + destruct (Nat.eqb_spec (length v) (2 * wb w)) as [L|L]; cbn [negb option_map]; [|reflexivity].
        destruct v as [|v0 vr]; [exfalso; apply Z; reflexivity|].
        eexists. match goal with |- context [Done ?x = Done _] =>
          destruct (b2_init_ok x (mkb2p (pk p) (v0 :: vr) (pp p))) as (s2 & E & R2) end.
        { unfold b2_par, par_ok. cbn [pk ps pp b2k b2s b2p b2hs b2fo b2nd b2no]. rewrite (wb_eq w Hw). auto 12. }
        { exact Hm. }
        exists s2. auto.
    - rewrite (sb_eq w Hw). unfold set_field.
      destruct (Nat.eqb_spec (length v) 0) as [Z|Z]; cbn [negb andb option_map].
      + destruct v; [|discriminate].
        eexists. match goal with |- context [Done ?x = Done _] =>
          destruct (b2_init_ok x (mkb2p (pk p) (ps p) (pp p))) as (s2 & E & R2) end.
        { unfold b2_par, par_ok. cbn [pk ps pp b2k b2s b2p b2hs b2fo b2nd b2no]. auto 12. }
        { exact Hm. }
        exists s2. auto.
      + destruct (Nat.eqb_spec (length v) (2 * wb w)) as [L|L]; cbn [negb option_map]; [|reflexivity].
        destruct v as [|v0 vr]; [exfalso; apply Z; reflexivity|].
        eexists. match goal with |- context [Done ?x = Done _] =>
          destruct (b2_init_ok x (mkb2p (pk p) (ps p) (v0 :: vr))) as (s2 & E & R2) end.
        { unfold b2_par, par_ok. cbn [pk ps pp b2k b2s b2p b2hs b2fo b2nd b2no]. rewrite (wb_eq w Hw). auto 12. }
        { exact Hm. }
        exists s2. auto.
  Qed.

  Lemma b2_clear_ok s p : b2_par s p -> length (sm (b2c s)) = bb w ->
    exists s1 s2, b2_clear s = Ok s1 /\ b2_init w ty s1 = Ok s2 /\ b2_R s2 (b2_default w) [].
  Proof.
    intros Hpar Hm. destruct Hpar as (_ & _ & _ & _ & Hh & _). unfold b2_clear, b2_wipe. cbn [b2c b2s b2p b2k b2hs b2xo b2sq]. rewrite Hh.
    eexists. match goal with |- context [Ok (mkb2 ?c _ _ _ _ ?xo ?sq _ _ _) = Ok _] =>
      destruct (b2_new_ok c xo sq) as (s2 & E & R2) end.
    - cbn [sm]. unfold zero_memory. rewrite zeros_length. exact Hm.
    - exists s2. auto.
  Qed.

  Lemma lastn_0 s p : b2_par s p -> b2_lastn s = false.
  Proof. intros (_ & _ & _ & _ & _ & Hf & _). unfold b2_lastn. rewrite Hf. reflexivity. Qed.

  (** Padding and the last block. *)
  Definition core (p : b2_params) (msg : list N) : list N := blake2_core w false (root_iv p) (data_of p msg).

  Lemma b2_pad_R s p msg q : b2_R s p msg ->
    exists m T, b2_pad w (mkb2 (mkst (sh (b2c s)) (sm (b2c s)) (spos (b2c s))
        (trunc 64 (stotal (b2c s) + N.of_nat (spos (b2c s) * 8))))
        (b2s s) (b2p s) (b2k s) (b2hs s) (b2xo s) q (b2fo s) (b2nd s) (b2no s))
      = Ok (mkst (core p msg) m (spos (b2c s)) T) /\ length m = bb w.
  Proof.
    intros (Hp & Hq & A).
    match goal with |- context [b2_pad w ?x] => destruct (b2_pad_ok w Hw (root_iv p) x (data_of p msg)) as (m & T & E & Hm) end.
    - apply root_iv_length. apply Hp.
    - cbn [b2c sh sm spos stotal]. exists (stotal (b2c s)). split; [|reflexivity]. destruct (b2c s). exact A.
    - exists m, T. split; [|exact Hm]. rewrite E. f_equal. f_equal. unfold core. f_equal.
      exact (lastn_0 s p Hp).
  Qed.

  (** ** Output nodes *)
  Definition root_bytes (p : b2_params) (msg : list N) : list N := words_bytes (wb w) (core p msg).
  Definition node (L : N) (p : b2_params) (i j : nat) (h0 : list N) : list N :=
    blake2_core w false (init_h w
      (mktree (N.of_nat j) 0 0 0 (N.of_nat (hb w)) (xfield w (N.of_nat i) L) 0 (N.of_nat (hb w))) (ps p) (pp p)) h0.

  Lemma core_length fn h0 D : length (blake2_core w fn h0 D) = 8.
  Proof. reflexivity. Qed.
  Opaque blake2_core.
  Lemma words_hb (l : list N) : length l = 8 -> length (words_bytes (wb w) l) = hb w.
  Proof. intros. rewrite words_bytes_length, H. unfold hb. lia. Qed.
  Lemma root_bytes_length p msg : length (root_bytes p msg) = hb w.
  Proof. unfold root_bytes, core. rewrite words_bytes_length, core_length. unfold hb. lia. Qed.

  Lemma init_h_length t salt pers : length salt = 2 * wb w -> length pers = 2 * wb w ->
    length (init_h w t salt pers) = 8.
  Proof.
    intros. unfold init_h. rewrite map2_length, le_words_length. destruct Hw; subst w; reflexivity.
  Qed.

  (** One block of at most [hb w] bytes. *)
  Lemma core_node h0 D : length h0 = 8 -> length D = hb w ->
    md_transform1 (b2_last w false) (bb w) h0 (D ++ zeros (bb w - hb w)) (8 * w) = Ok (blake2_core w false h0 D).
  Proof.
    intros Hh HD. pose proof (hb_bb w Hw) as Hb. unfold md_transform1.
    rewrite load_all by (rewrite app_length, zeros_length; lia). cbn [bind block_loop].
    rewrite firstn_all2 by (rewrite app_length, zeros_length; lia).
    f_equal. unfold b2_last. rewrite (b2_block_eq w Hw) by
      (auto; destruct Hw; subst w; reflexivity).
    pose proof (core_split w Hw false h0 0 [] D) as E. cbn [app] in E. rewrite E; [|reflexivity|].
    - rewrite HD. unfold F2_blocks. cbn [seq fold_left]. f_equal.
      unfold ctr2. rewrite (hb_w w Hw). destruct Hw; subst w; reflexivity.
    - unfold okrem. pose proof (hb_pos w Hw). lia.
  Qed.

  (** The buffer holds the root hash. *)
  Definition holds (m h0 : list N) : Prop := length m = bb w /\ firstn (hb w) m = h0.

  Lemma holds_memset m h0 : holds m h0 -> length h0 = hb w ->
    memset m (b2_hb w) 0 (length m - b2_hb w) = Ok (h0 ++ zeros (bb w - hb w)).
  Proof.
    intros (Hm & Hf) Hh. rewrite (hb_eq w Hw), Hm. pose proof (hb_bb w Hw).
    rewrite <- (firstn_skipn (hb w) m), Hf.
    rewrite memset_app; [|auto|rewrite skipn_length; lia].
    rewrite skipn_all2 by (rewrite skipn_length; lia). rewrite app_nil_r. reflexivity.
  Qed.
  Lemma holds_next h0 : length h0 = hb w -> holds (h0 ++ zeros (bb w - hb w)) h0.
  Proof.
    intros. pose proof (hb_bb w Hw). split; [rewrite app_length, zeros_length; lia|].
    apply firstn_app_exact. auto.
  Qed.

  (** One iteration of the output loop, producing node [i] of length byte [j]. *)
  Lemma b2_loop_step p h0 fuel c i n processed out j rhs L :
    par_ok p -> length h0 = hb w -> holds (sm c) h0 -> processed < n ->
    rhs = match ty with BXof => N.ones w | _ => trunc w (N.of_nat n) end ->
    j = (if (rhs =? N.ones w)%N then hb w else Nat.min (n - processed) (hb w)) ->
    L = (if w =? 64 then rhs mod 2 ^ 32 else rhs mod 2 ^ 16)%N ->
    b2_loop w ty false (le_words (wb w) 2 (ps p)) (le_words (wb w) 2 (pp p)) (S fuel) c
      (trunc 64 (N.of_nat i)) n processed out =
    let pos := Nat.min (n - processed) (hb w) in
    let H := node L p i j h0 in
    b2_loop w ty false (le_words (wb w) 2 (ps p)) (le_words (wb w) 2 (pp p)) fuel
      (mkst H (h0 ++ zeros (bb w - hb w)) pos (8 * w)) (trunc 64 (N.of_nat (S i))) n (processed + pos)
      (out ++ firstn pos (words_bytes (wb w) H)).
  Proof.
    intros (Pk & Ps & Pp) Hh Hm Hlt Hr Hj HL. cbn [b2_loop].
    destruct (Nat.ltb_spec processed n); [|lia]. cbv zeta.
    rewrite <- Hr. rewrite (node_init w Hw (ps p) (pp p) (n - processed) (N.of_nat i) rhs L j Ps Pp Hj HL).
    rewrite (holds_memset _ h0) by auto. cbn [bind].
    rewrite (bs_eq w Hw), core_node by (auto using init_h_length). cbn [bind].
    rewrite (hb_eq w Hw), (wb_eq w Hw). fold (node L p i j h0).
    rewrite load_ok by (rewrite words_hb by apply core_length; lia). cbn [bind skipn].
    f_equal. rewrite trunc_add_l. f_equal. lia.
  Qed.

  (** ** The extendable-output form *)
  Definition emit (p : b2_params) (h0 : list N) (i : nat) : list N :=
    x_node w (x_unknown w) (ps p) (pp p) i (hb w) h0.

  Lemma node_bytes L p i j h0 : j <= hb w ->
    x_node w L (ps p) (pp p) i j h0 = firstn j (words_bytes (wb w) (node L p i j h0)).
  Proof. reflexivity. Qed.

  Lemma emit_eq p h0 i : emit p h0 i = words_bytes (wb w) (node (x_unknown w) p i (hb w) h0).
  Proof.
    unfold emit. rewrite node_bytes by auto. apply firstn_all2. rewrite words_hb by apply core_length. auto.
  Qed.
  Lemma emit_length p h0 i : length (emit p h0 i) = hb w.
  Proof. rewrite emit_eq. apply words_hb, core_length. Qed.

  Lemma iter_S a : Nat.iter a S 0 = a.
  Proof. induction a as [|a IH]; [reflexivity|]. change (Nat.iter (S a) S 0) with (S (Nat.iter a S 0)). rewrite IH. reflexivity. Qed.

  Definition strm (p : b2_params) (h0 : list N) : nat -> nat -> list N := seg S (emit p h0) (hb w) 0.

  Lemma strm_block p h0 a b n : b + n <= hb w ->
    firstn n (skipn b (words_bytes (wb w) (node (x_unknown w) p a (hb w) h0))) = strm p h0 (a * hb w + b) n.
  Proof.
    intros H. unfold strm. rewrite <- emit_eq.
    rewrite <- (seg_block S (emit p h0) (hb w) (fun _ => True) (hb_pos w Hw)
      (fun c _ => eq_ind_r (fun x => hb w <= x) (le_n _) (emit_length p h0 c)) (fun _ _ => I) 0 a b n I H).
    rewrite iter_S. reflexivity.
  Qed.

  (** [k > 0] bytes of the stream have been produced. *)
  Definition sqd (p : b2_params) (h0 : list N) (k : nat) (c : st) (xo : N) : Prop :=
    exists a, k = a * hb w + spos c /\ 0 < spos c <= hb w /\
      sh c = node (x_unknown w) p a (hb w) h0 /\ xo = trunc 64 (N.of_nat (S a)).

  Lemma b2_loop_done s p' lastn fuel c xo n out :
    b2_loop w ty lastn s p' fuel c xo n n out = Ok (c, xo, out).
  Proof. destruct fuel; cbn [b2_loop]; rewrite Nat.ltb_irrefl; reflexivity. Qed.

  Lemma b2_xloop p h0 : ty = BXof -> par_ok p -> length h0 = hb w -> forall fuel c i n processed out,
    holds (sm c) h0 -> processed < n -> n - processed <= fuel ->
    exists c' xo', b2_loop w ty false (le_words (wb w) 2 (ps p)) (le_words (wb w) 2 (pp p)) fuel c
        (trunc 64 (N.of_nat i)) n processed out
      = Ok (c', xo', out ++ strm p h0 (i * hb w) (n - processed)) /\
      holds (sm c') h0 /\ sqd p h0 (i * hb w + (n - processed)) c' xo'.
  Proof.
    intros Hty Hp Hh. induction fuel; intros c i n processed out Hm Hlt Hf; [lia|].
    rewrite (b2_loop_step p h0 fuel c i n processed out (hb w) (N.ones w) (x_unknown w));
      auto; [|rewrite Hty; reflexivity|rewrite N.eqb_refl; reflexivity|apply ones_unknown; exact Hw].
    cbv zeta. set (q := Nat.min (n - processed) (hb w)).
    pose proof (hb_pos w Hw) as Hb.
    assert (Eo : firstn q (words_bytes (wb w) (node (x_unknown w) p i (hb w) h0)) = strm p h0 (i * hb w) q).
    { rewrite <- (Nat.add_0_r (i * hb w)). rewrite <- strm_block by lia. reflexivity. }
    rewrite Eo.
    destruct (Nat.eq_dec (processed + q) n) as [E|E].
    - rewrite E, b2_loop_done. do 2 eexists. replace (n - processed) with q by lia.
      split; [reflexivity|]. split; [apply holds_next; auto|].
      exists i. cbn [spos sh]. repeat split; try lia.
    - assert (q = hb w) by lia.
      match goal with |- context [b2_loop _ _ _ _ _ fuel ?c1 _ n ?pr ?o] =>
        destruct (IHfuel c1 (S i) n pr o) as (c' & xo' & E' & H1 & H2) end.
      { apply holds_next; auto. } { lia. } { lia. }
      exists c', xo'. rewrite E'. split; [|split; [exact H1|]].
      + f_equal. f_equal. rewrite <- app_assoc. f_equal. unfold strm.
        replace (n - processed) with (q + (n - (processed + q))) by lia.
        rewrite seg_app. f_equal. f_equal. lia.
      + replace (i * hb w + (n - processed)) with (S i * hb w + (n - (processed + q))) by lia. exact H2.
  Qed.

  (** State of an XOF after [k] squeezed bytes. *)
  Definition b2_XR (s : b2_st) (p : b2_params) (msg : list N) (k : nat) : Prop :=
    if k =? 0 then b2_R s p msg
    else b2_par s p /\ b2sq s = true /\ holds (sm (b2c s)) (root_bytes p msg) /\
         sqd p (root_bytes p msg) k (b2c s) (b2xo s).

  Lemma b2_squeeze_ok s p msg k n : ty = BXof -> 0 < n -> b2_XR s p msg k ->
    exists s', b2_squeeze w ty s n = Ok (s', strm p (root_bytes p msg) k n) /\ b2_XR s' p msg (k + n).
  Proof.
    intros Hty Hn H. unfold b2_XR in *. destruct (Nat.eqb_spec (k + n) 0); [lia|].
    pose proof (hb_pos w Hw) as Hb. pose proof (hb_bb w Hw) as Hbb.
    destruct (Nat.eqb_spec k 0) as [K|K].
    - subst k. pose proof H as (Hp & Hq & _). unfold b2_squeeze. rewrite Hq, (lastn_0 s p Hp).
      destruct (b2_pad_R s p msg true H) as (m & T & E & Hm).
      rewrite Hty. 
      replace (b2_pad w _) with (Ok (mkst (core p msg) m (spos (b2c s)) T)).
      cbn [bind sm sh]. rewrite (wb_eq w Hw), (hb_eq w Hw). fold (root_bytes p msg).
      rewrite <- (root_bytes_length p msg).
      rewrite memcpy_ok by (rewrite ?root_bytes_length; lia). cbn [bind].
      rewrite root_bytes_length. rewrite <- Hty.
      destruct Hp as (Po & Pk & Ps & Pp & P5).
      rewrite Ps, Pp.
      change 0%N with (trunc 64 (N.of_nat 0)).
      match goal with |- context [b2_loop _ _ _ _ _ _ ?c1 _ n 0 []] =>
        destruct (b2_xloop p (root_bytes p msg) Hty Po (root_bytes_length p msg) n c1 0 n 0 []) as (c' & xo' & E' & H1 & H2) end.
      { cbn [sm]. split.
        - rewrite overlay_length; rewrite ?firstn_length, ?root_bytes_length; lia.
        - unfold overlay. cbn [firstn app]. rewrite (firstn_all2 (n := hb w) (root_bytes p msg)) by (rewrite root_bytes_length; lia).
          apply firstn_app_exact. rewrite root_bytes_length. reflexivity. }
      { lia. } { lia. }
      rewrite E'. cbn [bind app Nat.add Nat.mul] in *. rewrite Nat.sub_0_r in *.
      eexists. split; [reflexivity|]. unfold b2_par. cbn [b2c b2s b2p b2k b2hs b2xo b2sq b2fo b2nd b2no].
      split; [auto 12|]. split; [reflexivity|]. split; [exact H1|exact H2].
    - destruct H as (Hp & Hq & Hm & (a & Hk & Hpos & Hsh & Hxo)). unfold b2_squeeze.
      rewrite Hq, (lastn_0 s p Hp), (hb_eq w Hw), (wb_eq w Hw).
      pose proof Hp as (Po & Pk & Ps & Pp & P5).
      destruct (Nat.ltb_spec (spos (b2c s)) (hb w)) as [L|L].
      + set (q := Nat.min n (hb w - spos (b2c s))).
        rewrite Hsh. rewrite load_ok by (rewrite words_hb by apply core_length; lia). cbn [bind].
        rewrite strm_block by lia. rewrite <- Hk.
        destruct (Nat.eq_dec q n) as [E|E].
        * rewrite E, b2_loop_done. cbn [bind]. eexists. split; [reflexivity|].
          unfold b2_par. cbn [b2c b2s b2p b2k b2hs b2xo b2sq b2fo b2nd b2no].
          split; [auto 12|]. split; [reflexivity|]. split; [exact Hm|].
          exists a. cbn [spos sh]. repeat split; auto; lia.
        * rewrite Ps, Pp, Hxo.
          match goal with |- context [b2_loop _ _ _ _ _ _ ?c1 _ n q ?o] =>
            destruct (b2_xloop p (root_bytes p msg) Hty Po (root_bytes_length p msg) n c1 (S a) n q o) as (c' & xo' & E' & H1 & H2) end.
          { exact Hm. } { lia. } { lia. }
          rewrite E'. cbn [bind]. eexists. split.
          -- f_equal. f_equal. unfold strm. replace (S a * hb w) with (k + q) by lia.
             rewrite <- seg_app. f_equal. lia.
          -- unfold b2_par. cbn [b2c b2s b2p b2k b2hs b2xo b2sq b2fo b2nd b2no].
             split; [auto 12|]. split; [reflexivity|]. split; [exact H1|].
             replace (k + n) with (S a * hb w + (n - q)) by lia. exact H2.
      + cbn [bind]. rewrite Ps, Pp, Hxo.
        destruct (b2_xloop p (root_bytes p msg) Hty Po (root_bytes_length p msg) n (b2c s) (S a) n 0 []) as (c' & xo' & E' & H1 & H2).
        { exact Hm. } { lia. } { lia. }
        rewrite E'. cbn [bind app]. rewrite Nat.sub_0_r in *. eexists. split.
        -- f_equal. f_equal. f_equal. lia.
        -- unfold b2_par. cbn [b2c b2s b2p b2k b2hs b2xo b2sq b2fo b2nd b2no].
           split; [auto 12|]. split; [reflexivity|]. split; [exact H1|].
           replace (k + n) with (S a * hb w + n) by lia. exact H2.
  Qed.

  (** ** Output of a length fixed in advance *)
  Definition xh_nodes (n : nat) (p : b2_params) (h0 : list N) (i : nat) : list N :=
    x_node w (N.of_nat n) (ps p) (pp p) i (Nat.min (hb w) (n - i * hb w)) h0.

  Lemma b2_hloop p h0 n : ty = BXhash -> par_ok p -> length h0 = hb w -> (N.of_nat n < 2 ^ 16)%N ->
    forall fuel c i out, holds (sm c) h0 -> i * hb w < n -> n - i * hb w <= fuel ->
    exists c' xo', b2_loop w ty false (le_words (wb w) 2 (ps p)) (le_words (wb w) 2 (pp p)) fuel c
        (trunc 64 (N.of_nat i)) n (i * hb w) out
      = Ok (c', xo', out ++ flat_map (xh_nodes n p h0) (seq i ((n + hb w - 1) / hb w - i))) /\
        length (sm c') = bb w.
  Proof.
    intros Hty Hp Hh Hn. pose proof (hb_pos w Hw) as Hb.
    destruct (small_rhs w n Hw Hn) as (Hr1 & Hr2).
    induction fuel; intros c i out Hm Hlt Hf; [lia|].
    rewrite (b2_loop_step p h0 fuel c i n (i * hb w) out (Nat.min (n - i * hb w) (hb w))
      (trunc w (N.of_nat n)) (N.of_nat n)); auto; [|rewrite Hty; reflexivity|rewrite Hr1; reflexivity].
    cbv zeta. set (q := Nat.min (n - i * hb w) (hb w)).
    assert (Eo : firstn q (words_bytes (wb w) (node (N.of_nat n) p i q h0)) = xh_nodes n p h0 i).
    { unfold xh_nodes. rewrite (Nat.min_comm (hb w)). fold q. rewrite node_bytes by lia. reflexivity. }
    rewrite Eo.
    assert (Ecnt : i < (n + hb w - 1) / hb w).
    { apply Nat.div_le_lower_bound; lia. }
    destruct (Nat.lt_ge_cases (S i * hb w) n) as [L|L].
    - assert (q = hb w) by lia. replace (i * hb w + q) with (S i * hb w) by lia.
      match goal with |- context [b2_loop _ _ _ _ _ fuel ?c1 _ n _ ?o] =>
        destruct (IHfuel c1 (S i) o) as (c' & xo' & E' & H1) end.
      { apply holds_next; auto. } { lia. } { lia. }
      exists c', xo'. rewrite E'. split; [|exact H1]. f_equal. f_equal.
      rewrite <- app_assoc. f_equal.
      replace ((n + hb w - 1) / hb w - i) with (S ((n + hb w - 1) / hb w - S i)) by lia. reflexivity.
    - assert (i * hb w + q = n) as -> by lia. rewrite b2_loop_done. do 2 eexists.
      assert ((n + hb w - 1) / hb w < S (S i)).
      { apply Nat.div_lt_upper_bound; lia. }
      replace ((n + hb w - 1) / hb w - i) with 1 by lia. cbn [seq flat_map]. rewrite app_nil_r.
      split; [reflexivity|]. cbn [sm]. apply holds_next. auto.
  Qed.

  Lemma x_hash_nodes n p msg : ty = BXhash -> N.of_nat n = (hs / 8)%N ->
    blake2x_hash w n (pk p) (ps p) (pp p) msg =
    flat_map (xh_nodes n p (root_bytes p msg)) (seq 0 ((n + hb w - 1) / hb w)).
  Proof.
    intros Hty Hn. unfold blake2x_hash. cbv zeta.
    assert (E : x_root w (N.of_nat n) (pk p) (ps p) (pp p) msg = root_bytes p msg).
    { unfold root_bytes, core, root_iv, x_root, blake2_tree, root_L, data_of. rewrite Hty, Hn. reflexivity. }
    rewrite E. reflexivity.
  Qed.

  Lemma b2_final_x s p msg : ty = BXhash -> 0 < N.to_nat (hs / 8) -> b2_R s p msg ->
    exists s', b2_final w ty s = Ok (s', blake2x_hash w (N.to_nat (hs / 8)) (pk p) (ps p) (pp p) msg) /\
      b2_par s' p /\ length (sm (b2c s')) = bb w.
  Proof.
    intros Hty Hn R. pose proof R as (Hp & Hq & _). unfold b2_final, b2_final_over. cbn [N.eqb].
    pose proof Hp as (Po & Pk & Ps & Pp & Ph & P5). rewrite Ph.
    rewrite Hty. cbn [b2hs]. set (n := N.to_nat (hs / 8)) in *.
    assert (Hn16 : (N.of_nat n < 2 ^ 16)%N).
    { unfold n. rewrite N2Nat.id. apply Hx. rewrite Hty. discriminate. }
    pose proof (hb_pos w Hw) as Hb. pose proof (hb_bb w Hw) as Hbb.
    unfold b2_squeeze. cbn [b2sq b2c b2s b2p b2k b2hs b2xo b2fo b2nd b2no stotal sh sm spos]. rewrite Hq.
    replace (b2_lastn _) with false by (unfold b2_lastn; cbn [b2fo]; destruct P5 as (-> & _); reflexivity).
    destruct (b2_pad_R s p msg true R) as (m & T & E & Hm).
    replace (b2_pad w _) with (Ok (mkst (core p msg) m (spos (b2c s)) T)).
    cbn [bind sm sh]. rewrite (wb_eq w Hw), (hb_eq w Hw). fold (root_bytes p msg).
    rewrite <- (root_bytes_length p msg).
    rewrite memcpy_ok by (rewrite ?root_bytes_length; lia). cbn [bind].
    rewrite root_bytes_length. rewrite Ps, Pp.
    change 0%N with (trunc 64 (N.of_nat 0)).
    match goal with |- context [b2_loop _ _ _ _ _ _ ?c1 _ n 0 []] =>
      destruct (b2_hloop p (root_bytes p msg) n Hty Po (root_bytes_length p msg) Hn16 n c1 0 []) as (c' & xo' & E' & H1) end.
    { cbn [sm]. split.
      - rewrite overlay_length; rewrite ?firstn_length, ?root_bytes_length; lia.
      - unfold overlay. cbn [firstn app]. rewrite (firstn_all2 (n := hb w) (root_bytes p msg)) by (rewrite root_bytes_length; lia).
        apply firstn_app_exact. rewrite root_bytes_length. reflexivity. }
    { lia. } { lia. }
    change (0 * hb w) with 0 in E'. rewrite Hty in E'. rewrite E'. cbn [bind app]. rewrite Nat.sub_0_r.
    eexists. split.
    - rewrite (x_hash_nodes n p msg Hty) by (unfold n; apply N2Nat.id). reflexivity.
    - unfold b2_par. cbn [b2c b2s b2p b2k b2hs b2xo b2sq b2fo b2nd b2no]. auto 12.
  Qed.

  Lemma b2_final_h s p msg : ty = BHash -> b2_R s p msg ->
    exists s', b2_final w ty s = Ok (s', blake2_hash w (hs / 8) (pk p) (ps p) (pp p) msg).
  Proof.
    intros Hty R. pose proof R as (Hp & Hq & _). unfold b2_final, b2_final_over. cbn [N.eqb].
    pose proof Hp as (Po & Pk & Ps & Pp & Ph & P5).
    destruct (b2_pad_R s p msg (b2sq s) R) as (m & T & E & Hm).
    rewrite Hty. rewrite E. cbn [bind sh]. rewrite (wb_eq w Hw).
    assert (EL : N.to_nat (hs / 8) <= hb w).
    { pose proof (Hhash Hty). pose proof (hb_w w Hw). lia. }
    fold (root_bytes p msg). cbn [b2hs]. rewrite Ph. rewrite load_ok by (rewrite root_bytes_length; lia).
    cbn [bind skipn]. eexists.
    assert (Eo : firstn (N.to_nat (hs / 8)) (root_bytes p msg) = blake2_hash w (hs / 8) (pk p) (ps p) (pp p) msg).
    { unfold root_bytes, core, root_iv, blake2_hash, blake2_tree, data_of. rewrite Hty. reflexivity. }
    rewrite Eo. reflexivity.
  Qed.
End Sim.

(** ** Simulations *)
Section Types.
  Variable w : N.
  Hypothesis Hw : w = 64%N \/ w = 32%N.

  Lemma core_len fn h0 D : length (blake2_core w fn h0 D) = 8.
  Proof. exact (core_length w fn h0 D). Qed.

  Lemma blake2_hash_length nn key salt pers msg : (nn <= w)%N ->
    length (blake2_hash w nn key salt pers msg) = N.to_nat nn.
  Proof.
    intros H. unfold blake2_hash, blake2_tree. rewrite firstn_length, words_bytes_length, core_len.
    pose proof (hb_w w Hw). unfold hb in *. lia.
  Qed.
  Lemma blake2_hash_bytes nn key salt pers msg : bytes_ok (blake2_hash w nn key salt pers msg).
  Proof. unfold blake2_hash, blake2_tree. apply Forall_firstn, words_bytes_ok. Qed.

  Lemma x_node_length L salt pers i j h0 : j <= hb w -> length (x_node w L salt pers i j h0) = j.
  Proof.
    intros H. unfold x_node, blake2_tree. rewrite firstn_length, words_bytes_length, core_len. unfold hb in *. lia.
  Qed.
  Lemma x_node_bytes L salt pers i j h0 : bytes_ok (x_node w L salt pers i j h0).
  Proof. unfold x_node, blake2_tree. apply Forall_firstn, words_bytes_ok. Qed.

  Lemma nodes_length b n (f : nat -> list N) : 0 < b -> (forall i, length (f i) = Nat.min b (n - i * b)) ->
    forall k i, length (flat_map f (seq i k)) = Nat.min (k * b) (n - i * b).
  Proof.
    intros Hb Hf. induction k; intros i; [reflexivity|].
    cbn [seq flat_map]. rewrite app_length, Hf, IHk. lia.
  Qed.
  Lemma blake2x_hash_length n key salt pers msg : length (blake2x_hash w n key salt pers msg) = n.
  Proof.
    pose proof (hb_pos w Hw) as Hb. unfold blake2x_hash. cbv zeta. rewrite (nodes_length (hb w) n); auto.
    - pose proof (Nat.div_mod (n + hb w - 1) (hb w) ltac:(lia)).
      pose proof (Nat.mod_upper_bound (n + hb w - 1) (hb w) ltac:(lia)). lia.
    - intros i. apply x_node_length. lia.
  Qed.
  Lemma blake2x_hash_bytes n key salt pers msg : bytes_ok (blake2x_hash w n key salt pers msg).
  Proof.
    unfold blake2x_hash. cbv zeta. unfold bytes_ok. apply Forall_flat_map, Forall_forall. intros i _.
    apply x_node_bytes.
  Qed.

  Lemma blake2_sim hs : (0 < hs / 8)%N -> (hs / 8 <= w)%N -> sim (blake2 w BHash) (blake2_spec w hs) (b2_R w BHash hs) true.
  Proof.
    intros H0 H1.
    assert (A : BHash = BHash -> (hs / 8 <= w)%N) by auto.
    assert (B : BHash <> BHash -> (hs / 8 < 2 ^ 16)%N) by congruence.
    constructor; unfold blake2; cbn [hp hp_final hp_size].
    - intros s p msg R. exact (b2_init_ok w Hw BHash hs A B s p (proj1 R) (b2_R_sm w BHash hs s p msg R)).
    - intros s p msg d _ R. exact (b2_update_ok w Hw BHash hs s p msg d R).
    - intros _ s p msg R. exact (b2_clear_ok w Hw BHash hs A B s p (proj1 R) (b2_R_sm w BHash hs s p msg R)).
    - intros q v s p msg _ R.
      pose proof (b2_set_ok w Hw BHash hs A B q v s p (proj1 R) (b2_R_sm w BHash hs s p msg R)) as E.
      change (sp_set (blake2_spec w hs) q v p) with (b2_spec_set w q v p).
      destruct (b2_spec_set w q v p); [exact E|exists s; auto].
    - intros s p msg R. exact (b2_final_h w Hw BHash hs A B s p msg eq_refl R).
    - intros s p msg ((_ & _ & _ & _ & Hh & _) & _). rewrite Hh. cbn [sp_size blake2_spec]. rewrite N2Nat.id. reflexivity.
    - intros s p msg _. exact (blake2_hash_length (hs / 8) (pk p) (ps p) (pp p) msg H1).
    - intros s p msg _. exact (blake2_hash_bytes (hs / 8) (pk p) (ps p) (pp p) msg).
    - cbn [sp_size blake2_spec]. lia.
  Qed.

  Lemma blake2x_sim hs : (0 < hs / 8)%N -> (hs / 8 < 2 ^ 16)%N ->
    sim (blake2 w BXhash) (blake2x_spec w hs) (b2_R w BXhash hs) true.
  Proof.
    intros H0 H1.
    assert (A : BXhash = BHash -> (hs / 8 <= w)%N) by discriminate.
    assert (B : BXhash <> BHash -> (hs / 8 < 2 ^ 16)%N) by auto.
    constructor; unfold blake2; cbn [hp hp_final hp_size].
    - intros s p msg R. exact (b2_init_ok w Hw BXhash hs A B s p (proj1 R) (b2_R_sm w BXhash hs s p msg R)).
    - intros s p msg d _ R. exact (b2_update_ok w Hw BXhash hs s p msg d R).
    - intros _ s p msg R. exact (b2_clear_ok w Hw BXhash hs A B s p (proj1 R) (b2_R_sm w BXhash hs s p msg R)).
    - intros q v s p msg _ R.
      pose proof (b2_set_ok w Hw BXhash hs A B q v s p (proj1 R) (b2_R_sm w BXhash hs s p msg R)) as E.
      change (sp_set (blake2x_spec w hs) q v p) with (b2_spec_set w q v p).
      destruct (b2_spec_set w q v p); [exact E|exists s; auto].
    - intros s p msg R. destruct (b2_final_x w Hw BXhash hs A B s p msg eq_refl ltac:(lia) R) as (s' & E & _).
      exists s'. exact E.
    - intros s p msg ((_ & _ & _ & _ & Hh & _) & _). rewrite Hh. cbn [sp_size blake2x_spec]. rewrite N2Nat.id. reflexivity.
    - intros s p msg _. exact (blake2x_hash_length (N.to_nat (hs / 8)) (pk p) (ps p) (pp p) msg).
    - intros s p msg _. exact (blake2x_hash_bytes (N.to_nat (hs / 8)) (pk p) (ps p) (pp p) msg).
    - cbn [sp_size blake2x_spec]. lia.
  Qed.

  (** The output stream. *)
  Lemma stream_strm hs p msg n :
    blake2x_stream w (pk p) (ps p) (pp p) msg n = strm w p (root_bytes w BXof hs p msg) 0 n.
  Proof.
    unfold blake2x_stream. cbv zeta.
    assert (E : x_root w (x_unknown w) (pk p) (ps p) (pp p) msg = root_bytes w BXof hs p msg) by reflexivity.
    rewrite E. unfold strm, emit.
    apply (squeeze_stream_seg S _ (hb w) (fun _ => True) (hb_pos w Hw)); auto.
    intros c _. rewrite x_node_length; lia.
  Qed.

  Lemma b2_XR_par hs s p msg k : b2_XR w BXof hs s p msg k ->
    b2_par w hs s p /\ length (sm (b2c s)) = bb w.
  Proof.
    unfold b2_XR. destruct (Nat.eqb_spec k 0).
    - intros R. split; [exact (proj1 R)|exact (b2_R_sm w BXof hs s p msg R)].
    - intros (Hp & _ & (Hm & _) & _). auto.
  Qed.

  Lemma blake2x_xof_sim hs : (hs / 8 < 2 ^ 16)%N -> xsim (blake2x_xof w) (blake2x_xof_spec w) (b2_XR w BXof hs) true.
  Proof.
    intros H1.
    assert (A : BXof = BHash -> (hs / 8 <= w)%N) by discriminate.
    assert (B : BXof <> BHash -> (hs / 8 < 2 ^ 16)%N) by auto.
    constructor; unfold blake2x_xof; cbn [xp xp_squeeze].
    - intros s p msg k R. destruct (b2_XR_par _ _ _ _ _ R) as (Hp & Hm).
      exact (b2_init_ok w Hw BXof hs A B s p Hp Hm).
    - intros s p msg d _ R. exact (b2_update_ok w Hw BXof hs s p msg d R).
    - intros _ s p msg k R. destruct (b2_XR_par _ _ _ _ _ R) as (Hp & Hm).
      exact (b2_clear_ok w Hw BXof hs A B s p Hp Hm).
    - intros q v s p msg k _ R. destruct (b2_XR_par _ _ _ _ _ R) as (Hp & Hm).
      pose proof (b2_set_ok w Hw BXof hs A B q v s p Hp Hm) as E.
      change (xs_set (blake2x_xof_spec w) q v p) with (b2_spec_set w q v p).
      destruct (b2_spec_set w q v p); [exact E|exists s; auto].
    - intros s p msg k n Hn R.
      destruct (b2_squeeze_ok w Hw BXof hs A B s p msg k n eq_refl Hn R) as (s' & E & R').
      exists s'. split; [|exact R']. cbn [xs_out blake2x_xof_spec]. rewrite (stream_strm hs). unfold strm in *.
      rewrite seg_skip. exact E.
    - intros s p msg k n _. cbn [xs_out blake2x_xof_spec]. rewrite (stream_strm hs). apply seg_length.
    - intros s p msg k n _. cbn [xs_out blake2x_xof_spec]. rewrite (stream_strm hs). apply seg_bytes.
      intros c. apply x_node_bytes.
  Qed.

  (** Constructors of the types; [g], [xo] are uninitialised memory. *)
  Theorem blake2_implements hs g xo : (0 < hs <= 8 * w)%N -> (hs mod 8 = 0)%N -> length (sm g) = bb w ->
    implements (blake2 w BHash) (blake2_spec w hs) true (fresh_of (b2_ctor w BHash hs g xo) (b2_init w BHash)) /\
    implements (blake2 w BHash) (blake2_spec w hs) true (fresh_of (b2_ctor_static w hs g xo) (b2_init w BHash)).
  Proof.
    intros H0 H8 Hg.
    assert (0 < hs / 8 <= w)%N by (pose proof (N.div_mod' hs 8); lia).
    assert (E : b2_ctor w BHash hs g xo = b2_ctor_static w hs g xo).
    { unfold b2_ctor, validate_max. rewrite H8. destruct (N.eqb_spec hs 0); [lia|].
      destruct (N.ltb_spec (8 * w) hs); [lia|]. reflexivity. }
    rewrite E.
    destruct (b2_new_ok w Hw BHash hs ltac:(lia) ltac:(congruence) g xo false Hg) as (s & Es & R).
    unfold fresh_of, b2_ctor_static. cbn [bind]. rewrite Es.
    split; exact (sim_implements _ _ _ true (blake2_sim hs ltac:(lia) ltac:(lia)) s R).
  Qed.

  Theorem blake2x_implements hs g xo : (0 < hs <= 8 * w * (w / 8) * 4 - 16)%N -> (hs mod 8 = 0)%N ->
    length (sm g) = bb w ->
    implements (blake2 w BXhash) (blake2x_spec w hs) true (fresh_of (b2_ctor w BXhash hs g xo) (b2_init w BXhash)) /\
    implements (blake2 w BXhash) (blake2x_spec w hs) true (fresh_of (b2_ctor_static w hs g xo) (b2_init w BXhash)).
  Proof.
    intros H0 H8 Hg.
    assert (B : (8 * w * (w / 8) * 4 - 16 <= 16368)%N) by (destruct Hw; subst w; discriminate).
    assert (0 < hs / 8 < 2 ^ 16)%N by (pose proof (N.div_mod' hs 8); lia).
    assert (E : b2_ctor w BXhash hs g xo = b2_ctor_static w hs g xo).
    { unfold b2_ctor, validate_max. rewrite H8. destruct (N.eqb_spec hs 0); [lia|].
      destruct (N.ltb_spec (8 * w * (w / 8) * 4 - 16) hs); [lia|]. reflexivity. }
    rewrite E.
    destruct (b2_new_ok w Hw BXhash hs ltac:(discriminate) ltac:(lia) g xo false Hg) as (s & Es & R).
    unfold fresh_of, b2_ctor_static. cbn [bind]. rewrite Es.
    split; exact (sim_implements _ _ _ true (blake2x_sim hs ltac:(lia) ltac:(lia)) s R).
  Qed.

  Theorem blake2x_xof_implements g xo : length (sm g) = bb w ->
    ximplements (blake2x_xof w) (blake2x_xof_spec w) true
      (fresh_of (b2_ctor w BXof (8 * w) g xo) (b2_init w BXof)).
  Proof.
    intros Hg.
    assert (B : (8 * w / 8 < 2 ^ 16)%N) by (destruct Hw; subst w; reflexivity).
    destruct (b2_new_ok w Hw BXof (8 * w) ltac:(discriminate) (fun _ => B) g xo false Hg) as (s & Es & R).
    unfold fresh_of, b2_ctor. cbn [bind]. rewrite Es.
    exact (xsim_implements _ _ _ true (blake2x_xof_sim (8 * w) B) s R).
  Qed.
End Types.
