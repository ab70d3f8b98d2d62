(** * BLAKE2X XOF objects and BLAKE2bp, BLAKE2sp objects in arbitrary histories. *)
From Verif Require Import Base Lemmas WordLemmas TableLemmas Absorb AbsorbProof MdState Hasher Validate Blake2 Blake2p Blake2pSim
  Library LibraryTypes AnyCalls AnyProof AnyBuf AnyXofs.
Local Open Scope nat_scope.

Lemma b2_xor_len i v H : length (b2_xor i v H) = length H.
Proof. apply len_upd. Qed.
Lemma b2_block_len w tb l n H d : length (b2_block w tb l n H d) = 8.
Proof. unfold b2_block. cbv zeta. rewrite map_length, seq_length. reflexivity. Qed.
Lemma b2_IV_len w : length (b2_IV w) = 8.
Proof. unfold b2_IV. destruct (w =? 64)%N; reflexivity. Qed.
Lemma b2_xor_sp_len s p H : length (b2_xor_sp s p H) = length H.
Proof. unfold b2_xor_sp. rewrite !b2_xor_len. reflexivity. Qed.
Lemma b2_initX_len w l x r : length (b2_initX w l x r) = 8.
Proof.
  unfold b2_initX. cbv zeta. destruct (w =? 64)%N; rewrite !b2_xor_len; apply b2_IV_len.
Qed.
Lemma b2_init_H_len w ty hs s p k fo nd no : length (b2_init_H w ty hs s p k fo nd no) = 8.
Proof.
  assert (HI : length (b2_initH w fo) = 8).
  { unfold b2_initH. cbv zeta. destruct (fo =? 0)%N; rewrite ?b2_xor_len; apply b2_IV_len. }
  unfold b2_init_H. cbv zeta.
  destruct ty, (w =? 64)%N, (fo =? 0)%N; rewrite ?b2_xor_len, ?b2_xor_sp_len, ?b2_xor_len; exact HI.
Qed.

Lemma st_ext k k' : sh k = sh k' -> sm k = sm k' -> spos k = spos k' -> stotal k = stotal k' -> k = k'.
Proof. destruct k as [a b c d], k' as [a' b' c' d']. cbn. congruence. Qed.

Section B2.
  Variable w : N.
  Hypothesis Hw : w = 64%N \/ w = 32%N.
  Notation bs := (b2_bs w).
  Notation hb := (b2_hb w).

  Lemma b2_sizes : bs = 2 * hb /\ 8 * b2_wb w = hb /\ 0 < hb /\ w = N.of_nat hb /\ 0 < b2_wb w /\ bp_P w * bs = 512.
  Proof. destruct Hw; subst w; cbn; lia. Qed.

  Definition I8 (h : list N) : Prop := length h = 8.
  Definition bsp (s : b2_st) : list N * list N * list N := (b2s s, b2p s, b2k s).
  Definition btr (s : b2_st) : N * N * N := (b2fo s, b2nd s, b2no s).
  Definition bW (hs : N) (s : b2_st) : Prop := length (sm (b2c s)) = bs /\ length (b2k s) <= hb /\ b2hs s = hs.
  Definition bE (hs : N) (s s' : b2_st) : Prop :=
    bsp s = bsp s' /\ btr s = btr s' /\ b2xo s = b2xo s' /\ b2sq s = b2sq s' /\ bW hs s /\ bW hs s' /\
    kE bs bs I8 (b2sq s) (b2c s) (b2c s').

  Lemma bE_par hs s s' : bE hs s s' -> bW hs s /\ bW hs s' /\ bsp s = bsp s' /\ btr s = btr s'.
  Proof. intros (A & B & C & D & F & G & _). auto. Qed.

  Lemma b2_update_E hs s s' d : bE hs s s' ->
    exists t t', b2_update w s d = Ok t /\ b2_update w s' d = Ok t' /\ bE hs t t' /\ bsp t = bsp s /\ btr t = btr s.
  Proof.
    intros (A & B & C & D & (W1 & W2 & W3) & (W1' & W2' & W3') & K). destruct b2_sizes as (Z1 & Z2 & Z3 & _).
    unfold b2_update. rewrite !md_update_as_res.
    destruct (update_E I8 (fun c t b => Ok (b2_step w c t b)) bs bs true ltac:(lia) (le_n _))
      with (full := b2sq s) (k := b2c s) (k' := b2c s') (d := d) as (u & u' & U & U' & KU & _); auto.
    { intros c t b _ _. eexists. split; [reflexivity|]. apply b2_block_len. }
    unfold bschk in U, U'. rewrite U, U'. cbn [bind]. do 2 eexists. split; [reflexivity|]. split; [reflexivity|].
    unfold bE, bW, bsp, btr in *. cbn [b2c b2s b2p b2k b2hs b2xo b2sq b2fo b2nd b2no].
    pose proof KU as (_ & _ & _ & _ & M1 & M2 & _ & _). auto 20.
  Qed.
  Lemma b2_init_E ty hs s s' : bW hs s -> bW hs s' -> bsp s = bsp s' -> btr s = btr s' ->
    exists t t', b2_init w ty s = Ok t /\ b2_init w ty s' = Ok t' /\ bE hs t t' /\ bsp t = bsp s /\ btr t = btr s.
  Proof.
    intros (W1 & W2 & W3) (W1' & W2' & W3') A B. injection A as A1 A2 A3. injection B as B1 B2 B3.
    destruct b2_sizes as (Z1 & Z2 & Z3 & _).
    unfold b2_init. cbv zeta. rewrite <- A1, <- A2, <- A3, <- B1, <- B2, <- B3, W3, W3'.
    set (H := b2_init_H w ty hs (b2s s) (b2p s) (length (b2k s)) (b2fo s) (b2nd s) (b2no s)).
    set (t := mkb2 (mkst H (sm (b2c s)) 0 0) (b2s s) (b2p s) (b2k s) hs 0 false (b2fo s) (b2nd s) (b2no s)).
    set (t' := mkb2 (mkst H (sm (b2c s')) 0 0) (b2s s) (b2p s) (b2k s) hs 0 false (b2fo s) (b2nd s) (b2no s)).
    assert (HT : bE hs t t').
    { unfold bE, bW, kE, t, t'. cbn [b2c b2s b2p b2k b2hs b2xo b2sq b2fo b2nd b2no sh sm spos stotal bsp btr firstn].
      assert (I8 H) by apply b2_init_H_len. split; [reflexivity|]. split; [reflexivity|]. repeat split; auto; lia. }
    change (b2fo t) with (b2fo s). change (b2nd t) with (b2nd s). change (b2fo t') with (b2fo s). change (b2nd t') with (b2nd s).
    destruct ((b2fo s =? 0)%N || (b2nd s =? 0)%N).
    - unfold b2_absorb_key. change (b2k t) with (b2k s). change (b2k t') with (b2k s). destruct (b2k s) as [|x l] eqn:EK.
      + exists t, t'. split; [reflexivity|]. split; [reflexivity|]. split; [exact HT|]. unfold bsp, t. cbn [b2s b2p b2k]. rewrite EK. auto.
      + rewrite memcpy_ok by (rewrite ?zeros_length; lia). cbn [bind]. rewrite size_sub_ok by lia. cbn [bind].
        rewrite memset_ok; [|rewrite overlay_length; rewrite ?firstn_length, ?zeros_length; lia]. cbn [bind].
        match goal with |- context [b2_update w t ?k] => destruct (b2_update_E hs t t' k HT) as (u & u' & -> & -> & HU & P1 & P2) end.
        exists u, u'. rewrite P1, P2. unfold bsp, t. cbn [b2s b2p b2k]. rewrite EK. auto.
    - exists t, t'. auto.
  Qed.
  Lemma b2_clear_W hs s : bW hs s -> exists t, b2_clear s = Ok t /\ bW hs t /\ bsp t = ([0%N; 0%N], [0%N; 0%N], []) /\ btr t = (0%N, 0%N, 0%N).
  Proof.
    intros (W1 & W2 & W3). eexists. split; [reflexivity|]. unfold bW, b2_wipe. cbn [b2c b2s b2p b2k b2hs b2xo b2sq b2fo b2nd b2no sm].
    unfold zero_memory. rewrite zeros_length. cbn [length]. repeat split; auto; lia.
  Qed.

  Definition b2_setp (q : b2_param) (v : list N) (x : list N * list N * list N) : option (list N * list N * list N) :=
    let '(s, p, k) := x in
    match q with
    | B2Key => if hb <? length v then None else Some (s, p, v)
    | B2Salt => if negb (length v =? 0) && negb (length v =? b2_sb w) then None
                else Some (match v with [] => s | _ => le_words (b2_wb w) 2 v end, p, k)
    | B2Pers => if negb (length v =? 0) && negb (length v =? b2_sb w) then None
                else Some (s, match v with [] => p | _ => le_words (b2_wb w) 2 v end, k)
    end.
  Lemma b2_set_E hs q v s : bW hs s ->
    match b2_setp q v (bsp s) with
    | Some x => exists t, b2_set w q v s = Done t /\ bW hs t /\ bsp t = x /\ btr t = btr s
    | None => b2_set w q v s = Raised s
    end.
  Proof.
    intros (W1 & W2 & W3). unfold b2_setp, bsp, b2_set, bW.
    destruct q.
    - destruct (Nat.ltb_spec hb (length v)); [reflexivity|]. eexists. split; [reflexivity|].
      cbn [b2c b2s b2p b2k b2hs]. repeat split; auto.
    - destruct (negb (length v =? 0) && negb (length v =? b2_sb w)); [reflexivity|]. eexists. split; [reflexivity|].
      cbn [b2c b2s b2p b2k b2hs]. repeat split; auto.
    - destruct (negb (length v =? 0) && negb (length v =? b2_sb w)); [reflexivity|]. eexists. split; [reflexivity|].
      cbn [b2c b2s b2p b2k b2hs]. repeat split; auto.
  Qed.
  Lemma b2_setp_acc q v x : (if b2_setp q v x then true else false) = b2_accepts w q v.
  Proof.
    destruct b2_sizes as (Z1 & Z2 & Z3 & Z4 & _). assert (Z5 : (w / 4)%N = N.of_nat (b2_sb w)) by (destruct Hw; subst w; reflexivity).
    destruct x as [[s p] k]. unfold b2_accepts, b2_setp. cbv zeta. rewrite Z5.
    assert (HE : forall a b : nat, (N.of_nat a =? N.of_nat b)%N = (a =? b)).
    { intros a b. destruct (Nat.eqb_spec a b) as [->|H]; [apply N.eqb_refl|]. apply N.eqb_neq. lia. }
    destruct q.
    - rewrite Z4 at 2. destruct (Nat.ltb_spec hb (length v)); symmetry; [apply N.leb_gt|apply N.leb_le]; lia.
    - change 0%N with (N.of_nat 0). rewrite !HE. destruct (length v =? 0), (length v =? b2_sb w); reflexivity.
    - change 0%N with (N.of_nat 0). rewrite !HE. destruct (length v =? 0), (length v =? b2_sb w); reflexivity.
  Qed.
  Lemma b2_setp_comm q1 q2 v1 v2 x x1 x2 : q1 <> q2 -> b2_setp q1 v1 x = Some x1 -> b2_setp q2 v2 x = Some x2 ->
    b2_setp q2 v2 x1 = b2_setp q1 v1 x2.
  Proof.
    destruct x as [[s p] k]. unfold b2_setp. intros HN H1 H2.
    destruct q1, q2; try congruence;
      repeat match goal with H : (if ?b then None else Some _) = Some _ |- _ => destruct b; [discriminate|]; injection H as <- end; reflexivity.
  Qed.
  Lemma b2_setp_over q v1 v2 x x1 : v2 <> [] -> b2_setp q v1 x = Some x1 -> b2_setp q v2 x1 = b2_setp q v2 x.
  Proof.
    destruct x as [[s p] k]. unfold b2_setp. intros HN H1.
    destruct q; destruct v2; try congruence;
      repeat match goal with H : (if ?b then None else Some _) = Some _ |- _ => destruct b; [discriminate|]; injection H as <- end; reflexivity.
  Qed.

  (** Padding makes the buffers equal. *)
  Lemma b2_pad_E full s s' : kE bs bs I8 full (b2c s) (b2c s') -> b2_lastn s = b2_lastn s' ->
    exists u, b2_pad w s = Ok u /\ b2_pad w s' = Ok u /\ length (sh u) = 8 /\ length (sm u) = bs /\ spos u <= bs.
  Proof.
    intros (E1 & HI & E2 & E3 & L1 & L2 & HP & HA) HL. unfold b2_pad. rewrite <- E2, <- E3, <- E1, <- HL.
    rewrite size_sub_ok by lia. cbn [bind].
    assert (HA' : firstn (spos (b2c s)) (sm (b2c s)) = firstn (spos (b2c s)) (sm (b2c s'))).
    { apply (firstn_le _ (if full then bs else spos (b2c s))); auto. destruct full; lia. }
    assert (HM : exists m, (if bs - spos (b2c s) =? 0 then Ok (sm (b2c s)) else memset (sm (b2c s)) (spos (b2c s)) 0 (bs - spos (b2c s))) = Ok m /\
      (if bs - spos (b2c s) =? 0 then Ok (sm (b2c s')) else memset (sm (b2c s')) (spos (b2c s)) 0 (bs - spos (b2c s))) = Ok m /\ length m = bs).
    { destruct (Nat.eqb_spec (bs - spos (b2c s)) 0).
      - assert (spos (b2c s) = bs) by lia. rewrite !firstn_all2 in HA' by lia. rewrite HA'. eauto.
      - destruct (memset_agree (spos (b2c s)) (sm (b2c s)) (sm (b2c s')) (spos (b2c s)) 0 (bs - spos (b2c s))) as (m & m' & -> & -> & A1 & A2 & A3); try lia; auto.
        replace (Nat.max (spos (b2c s)) (spos (b2c s) + (bs - spos (b2c s)))) with bs in A3 by lia.
        rewrite !firstn_all2 in A3 by lia. subst m'. exists m. repeat split; auto. lia. }
    destruct HM as (m & -> & -> & Lm). cbn [bind]. unfold md_transform1. rewrite load_ok by lia. cbn [bind].
    eexists. split; [reflexivity|]. split; [reflexivity|]. cbn [sh sm spos block_loop]. split; [apply b2_block_len|]. auto.
  Qed.
  Lemma b2_out_len h : length h = 8 -> length (words_bytes (b2_wb w) h) = hb.
  Proof. intros H. rewrite words_bytes_length, H. destruct b2_sizes as (_ & Z & _). lia. Qed.

  Lemma b2_loop_ok ty lastn s p fuel : forall c xo hs processed out, length (sh c) = 8 -> length (sm c) = bs -> spos c <= bs ->
    processed <= hs -> hs - processed <= fuel -> length out = processed ->
    exists c' xo' o, b2_loop w ty lastn s p fuel c xo hs processed out = Ok (c', xo', o) /\ length (sh c') = 8 /\ length (sm c') = bs /\
      spos c' <= bs /\ length o = hs.
  Proof.
    destruct b2_sizes as (Z1 & Z2 & Z3 & _).
    induction fuel as [|f IH]; intros c xo hs processed out L1 L2 L3 Hpr Hf Ho; cbn [b2_loop].
    - destruct (Nat.ltb_spec processed hs); [lia|]. do 3 eexists. split; [reflexivity|]. repeat split; auto. lia.
    - destruct (Nat.ltb_spec processed hs).
      + cbv zeta. rewrite memset_ok by lia. cbn [bind]. unfold md_transform1.
        set (m := overlay (sm c) hb (repeat 0%N (length (sm c) - hb))).
        assert (LM : length m = bs) by (unfold m; rewrite overlay_length; rewrite ?repeat_length; lia).
        rewrite load_ok by lia. cbn [bind block_loop].
        match goal with |- context [b2_last w lastn ?a ?b ?c] => set (H2 := b2_last w lastn a b c) end.
        assert (LH : length H2 = 8) by apply b2_block_len.
        pose proof (b2_out_len H2 LH) as LB.
        rewrite load_ok by lia. cbn [bind skipn].
        apply IH; auto; cbn [sh sm spos]; try lia. rewrite app_length, firstn_length. lia.
      + do 3 eexists. split; [reflexivity|]. repeat split; auto. lia.
  Qed.

  Lemma b2_squeeze_E hs s s' n : bE hs s s' ->
    exists t t' o, b2_squeeze w BXof s n = Ok (t, o) /\ b2_squeeze w BXof s' n = Ok (t', o) /\ length o = n /\ bE hs t t' /\
      bsp t = bsp s /\ btr t = btr s.
  Proof.
    intros (A & B & C & D & (W1 & W2 & W3) & (W1' & W2' & W3') & K). destruct b2_sizes as (Z1 & Z2 & Z3 & _).
    assert (HLN : b2_lastn s = b2_lastn s') by (unfold b2_lastn; injection B as -> -> ->; reflexivity).
    unfold b2_squeeze. rewrite <- HLN. injection A as A1 A2 A3. injection B as B1 B2 B3.
    rewrite <- A1, <- A2, <- A3, <- B1, <- B2, <- B3, <- C, <- D, W3, W3'.
    match goal with |- exists t t' w, bind ?x _ = _ /\ bind ?y _ = _ /\ _ =>
      assert (H1 : exists c xo processed out, x = Ok (c, xo, processed, out) /\ y = Ok (c, xo, processed, out) /\ length (sh c) = 8 /\
        length (sm c) = bs /\ spos c <= bs /\ processed <= n /\ length out = processed) end.
    { destruct (b2sq s) eqn:Q.
      - destruct K as (E1 & HI & E2 & E3 & L1 & L2 & HP & HA). rewrite !firstn_all2 in HA by lia. cbv zeta.
        rewrite <- E1, <- E2, <- E3, <- HA.
        destruct (Nat.ltb_spec (spos (b2c s)) hb).
        + rewrite load_ok by (rewrite (b2_out_len _ HI); lia). cbn [bind].
          do 4 eexists. split; [reflexivity|]. split; [reflexivity|]. cbn [sh sm spos]. repeat split; auto; try lia.
          rewrite firstn_length, skipn_length, (b2_out_len _ HI). lia.
        + do 4 eexists. split; [reflexivity|]. split; [|repeat split; auto; lia].
          replace (b2c s') with (b2c s); [reflexivity|]. apply st_ext; auto.
      - cbv zeta. match goal with |- context [b2_pad w ?a] => lazymatch a with context [sm (b2c s)] => set (p := a) end end.
        match goal with |- context [b2_pad w (mkb2 ?a ?b ?c ?d ?e ?f ?g ?h ?i ?j)] => lazymatch a with context [sm (b2c s')] => set (p' := mkb2 a b c d e f g h i j) end end.
        destruct (b2_pad_E false p p') as (u & -> & -> & U1 & U2 & U3).
        { destruct K as (E1 & HI & E2 & E3 & L1 & L2 & HP & HA). unfold p, p', kE. cbn [b2c sh sm spos stotal].
          repeat split; auto. rewrite E2, E3. reflexivity. }
        { reflexivity. }
        cbn [bind]. rewrite memcpy_ok by (rewrite ?(b2_out_len _ U1); lia). cbn [bind].
        do 4 eexists. split; [reflexivity|]. split; [reflexivity|]. cbn [sh sm spos length].
        rewrite overlay_length by (rewrite firstn_length, (b2_out_len _ U1); lia). repeat split; auto; lia. }
    destruct H1 as (c & xo & processed & out & -> & -> & C1 & C2 & C3 & Hpr & Lo). cbn [bind].
    destruct (b2_loop_ok BXof (b2_lastn s) (b2s s) (b2p s) n c xo n processed out C1 C2 C3 Hpr ltac:(lia) Lo)
      as (c' & xo' & o & -> & D1 & D2 & D3 & Lo'). cbn [bind].
    do 3 eexists. split; [reflexivity|]. split; [reflexivity|]. split; [exact Lo'|].
    unfold bE, bW, bsp, btr, kE, I8. cbn [b2c b2s b2p b2k b2hs b2xo b2sq b2fo b2nd b2no].
    rewrite A3 in W2. repeat split; auto; congruence.
  Qed.

  Lemma b2_final_E hs over s s' : bE hs s s' -> N.to_nat ((if (over =? 0)%N then hs else over) / 8) <= hb ->
    exists t t' o, b2_final_over w BHash over s = Ok (t, o) /\ b2_final_over w BHash over s' = Ok (t', o) /\
      length o = N.to_nat ((if (over =? 0)%N then hs else over) / 8).
  Proof.
    intros (A & B & C & D & (W1 & W2 & W3) & (W1' & W2' & W3') & K) HO. unfold b2_final_over. cbv zeta. cbn [b2hs]. rewrite W3, W3'.
    match goal with |- context [b2_pad w ?a] => lazymatch a with context [sm (b2c s)] => set (p := a) end end.
    match goal with |- context [b2_pad w (mkb2 ?a ?b ?c ?d ?e ?f ?g ?h ?i ?j)] => lazymatch a with context [sm (b2c s')] => set (p' := mkb2 a b c d e f g h i j) end end.
    destruct (b2_pad_E (b2sq s) p p') as (u & -> & -> & U1 & U2 & U3).
    { destruct K as (E1 & HI & E2 & E3 & L1 & L2 & HP & HA). unfold p, p', kE. cbn [b2c sh sm spos stotal].
      repeat split; auto. rewrite E2, E3. reflexivity. }
    { unfold b2_lastn, p, p'. cbn [b2fo b2no b2nd]. injection B as -> -> ->. reflexivity. }
    cbn [bind]. rewrite load_ok by (rewrite (b2_out_len _ U1); lia). cbn [bind skipn].
    do 3 eexists. split; [reflexivity|]. split; [reflexivity|]. rewrite firstn_length, (b2_out_len _ U1). lia.
  Qed.

  Definition blake2x_rob : xrob (blake2x_xof_type w) (list N * list N * list N).
  Proof.
    refine (Build_xrob (blake2x_xof w) (blake2x_xof_type w) _ bsp (fun s => bW (8 * w) s /\ btr s = (0, 0, 0)%N)
      (fun s s' => bE (8 * w) s s' /\ btr s = (0, 0, 0)%N)
      b2_setp (fun _ => ([0; 0], [0; 0], [])%N) ([0; 0], [0; 0], [])%N _ _ _ _ _ _ _).
    - constructor; cbn [blake2x_xof xp b2_base pst p_init p_update p_clear p_param p_set].
      + intros s s' [H1 H2]. destruct (bE_par _ _ _ H1) as (X1 & X2 & X3 & X4). repeat split; auto; congruence || apply X1 || apply X2.
      + intros s s' [X1 T1] [X2 T2] HP. destruct (b2_init_E BXof (8 * w) s s' X1 X2 HP ltac:(congruence)) as (t & t' & A & B & C & D & F).
        exists t, t'. split; [exact A|]. split; [exact B|]. split; [|exact D]. split; [exact C|congruence].
      + intros s [X1 T1]. destruct (b2_clear_W _ s X1) as (t & A & B & C & D). exists t. auto.
      + intros q v s _ [X1 T1]. pose proof (b2_set_E (8 * w) q v s X1) as H. destruct (b2_setp q v (bsp s)); [|exact H].
        destruct H as (t & A & B & C & D). exists t. split; [exact A|]. split; [split; [exact B|congruence]|exact C].
      + intros s s' d _ [H1 H2]. destruct (b2_update_E _ s s' d H1) as (t & t' & A & B & C & D & F).
        exists t, t'. split; [exact A|]. split; [exact B|]. split; [|exact D]. split; [exact C|congruence].
    - intros s s' n [H1 H2]. destruct (b2_squeeze_E _ s s' n H1) as (t & t' & o & A & B & L & C & D & F).
      exists t, t', o. split; [exact A|]. split; [exact B|]. split; [exact L|]. split; [|exact D]. split; [exact C|congruence].
    - intros [g xo] Hg. eexists. split; [reflexivity|]. change (N.of_nat (length (sm g)) = 2 * w)%N in Hg. destruct b2_sizes as (Z1 & Z2 & Z3 & Z4 & _).
      unfold bW, bsp, btr. cbn [b2c b2s b2p b2k b2hs b2xo b2sq b2fo b2nd b2no fst snd length]. repeat split; auto; lia.
    - apply b2_setp_acc.
    - apply b2_setp_comm.
    - apply b2_setp_over.
    - reflexivity.
  Defined.

  (** ** BLAKE2bp and BLAKE2sp *)
  Lemma each_E {A B} (f : nat -> A -> res B) (R : A -> A -> Prop) (Q : B -> B -> Prop) (Z : A -> B -> Prop) l l' : Forall2 R l l' ->
    forall i, (forall k x y, i <= k < i + length l -> R x y -> exists u v, f k x = Ok u /\ f k y = Ok v /\ Q u v /\ Z x u) ->
    exists r r', each f i l = Ok r /\ each f i l' = Ok r' /\ Forall2 Q r r' /\ Forall2 Z l r.
  Proof.
    induction 1 as [|x y l l' Hxy HF IH]; intros i Hf; cbn [each].
    - exists [], []. repeat split; constructor.
    - destruct (Hf i x y) as (u & v & -> & -> & HQ & HZ); [cbn [length]; lia|exact Hxy|]. cbn [bind].
      destruct (IH (S i)) as (r & r' & -> & -> & HR & HRZ). { intros k a b Hk. apply Hf. cbn [length]. lia. }
      cbn [bind]. exists (u :: r), (v :: r'). repeat split; constructor; auto.
  Qed.
  Definition samepar (x u : b2_st) : Prop := bsp u = bsp x /\ btr u = btr x.
  Lemma samepar_all l r : Forall2 samepar l r ->
    length r = length l /\ map btr r = map btr l /\ forall a, Forall (fun x => bsp x = a) l -> Forall (fun x => bsp x = a) r.
  Proof.
    induction 1 as [|x u l r [H1 H2] HF (I1 & I2 & I3)]; [repeat split; auto|]. cbn [map length]. rewrite H2, I1, I2.
    repeat split; auto. intros a HA. inversion HA; subst. constructor; auto.
  Qed.
  Lemma pair_up hs a l : forall l', Forall (bW hs) l -> Forall (bW hs) l' -> Forall (fun x => bsp x = a) l -> Forall (fun x => bsp x = a) l' ->
    map btr l = map btr l' -> Forall2 (fun x y => bW hs x /\ bW hs y /\ bsp x = bsp y /\ btr x = btr y) l l'.
  Proof.
    induction l as [|x l IH]; intros [|y l'] H1 H2 H3 H4 H; try discriminate; [constructor|]. pose proof (f_equal (hd (btr x)) H : btr x = btr y) as Hx.
    pose proof (f_equal (@tl _) H : map btr l = map btr l') as Hl. clear H.
    apply Forall_cons_iff in H1 as [A1 B1]. apply Forall_cons_iff in H2 as [A2 B2]. apply Forall_cons_iff in H3 as [A3 B3].
    apply Forall_cons_iff in H4 as [A4 B4]. constructor; [split; [auto|]; split; [auto|]; split; congruence|]. apply IH; auto.
  Qed.
  Lemma bE_all hs l l' : Forall2 (bE hs) l l' ->
    Forall (bW hs) l /\ Forall (bW hs) l' /\ map btr l = map btr l' /\ length l = length l' /\
    forall a, Forall (fun x => bsp x = a) l -> Forall (fun x => bsp x = a) l'.
  Proof.
    induction 1 as [|x y l l' H HF (I1 & I2 & I3 & I4 & I5)]; [repeat split; auto|].
    destruct (bE_par _ _ _ H) as (W1 & W2 & P1 & P2). cbn [map length]. rewrite P2, I3, I4. repeat split; auto.
    intros a HA. inversion HA; subst. constructor; auto.
  Qed.

  Section Tree.
    Variables (hs : N) (tf : b2p_tf).
    Hypothesis Htf : forall leaf t d n r, length leaf = bp_P w -> b2p_transform w d n leaf = Ok r -> tf leaf t d n = Ok r.
    Hypothesis Hhs : (8 <= hs)%N /\ (hs <= 8 * w)%N.

    Definition tsp (s : b2p_st) := bsp (bpmain s).
    Definition ttr (s : b2p_st) : list (N * N * N) := btr (bpmain s) :: map btr (bpleaf s).
    Definition tpar (s : b2p_st) := (tsp s, ttr s).
    Definition tW (s : b2p_st) : Prop :=
      bW hs (bpmain s) /\ Forall (bW hs) (bpleaf s) /\ Forall (fun x => bsp x = tsp s) (bpleaf s) /\
      length (bpleaf s) = bp_P w /\ length (bpm s) = 512 /\ bphs s = hs.
    Definition tE (s s' : b2p_st) : Prop :=
      tW s /\ tW s' /\ bE hs (bpmain s) (bpmain s') /\ Forall2 (bE hs) (bpleaf s) (bpleaf s') /\
      bppos s = bppos s' /\ bptotal s = bptotal s' /\ bppos s <= 512 /\ firstn (bppos s) (bpm s) = firstn (bppos s) (bpm s').

    Lemma tE_par s s' : tE s s' -> tW s /\ tW s' /\ tpar s = tpar s'.
    Proof.
      intros (W1 & W2 & EM & EL & _). split; [exact W1|]. split; [exact W2|].
      destruct (bE_par _ _ _ EM) as (_ & _ & P1 & P2). destruct (bE_all _ _ _ EL) as (_ & _ & P3 & _).
      unfold tpar, tsp, ttr. congruence.
    Qed.
    Lemma t_init_E s s' : tW s -> tW s' -> tpar s = tpar s' ->
      exists t t', b2p_init w s = Ok t /\ b2p_init w s' = Ok t' /\ tE t t' /\ tpar t = tpar s.
    Proof.
      intros (M & L & SP & LL & LM & HS) (M' & L' & SP' & LL' & LM' & HS') HP.
      pose proof (f_equal fst HP : bsp (bpmain s) = bsp (bpmain s')) as P1. pose proof (f_equal snd HP : ttr s = ttr s') as HQ.
      pose proof (f_equal (hd (btr (bpmain s))) HQ : btr (bpmain s) = btr (bpmain s')) as P2.
      pose proof (f_equal (@tl _) HQ : map btr (bpleaf s) = map btr (bpleaf s')) as P3.
      unfold b2p_init.
      destruct (b2_init_E BHash hs (bpmain s) (bpmain s') M M' P1 P2) as (m & m' & -> & -> & EM & Q1 & Q2). cbn [bind].
      destruct (each_E (fun _ => b2_init w BHash) _ (bE hs) samepar (bpleaf s) (bpleaf s')
        (pair_up hs (tsp s) (bpleaf s) (bpleaf s') L L' SP ltac:(unfold tsp; rewrite P1; exact SP') P3) 0) as (r & r' & -> & -> & ER & EZ).
      { intros _ x y _ (X1 & X2 & X3 & X4). destruct (b2_init_E BHash hs x y X1 X2 X3 X4) as (t & t' & A & B & C & D & F).
        exists t, t'. unfold samepar. auto. }
      cbn [bind]. destruct (samepar_all _ _ EZ) as (R1 & R2 & R3). destruct (bE_all _ _ _ ER) as (B1 & B2 & B3 & B4 & B5).
      destruct (bE_par _ _ _ EM) as (M1 & M2 & M3 & M4).
      do 2 eexists. split; [reflexivity|]. split; [reflexivity|]. split.
      - unfold tE, tW, tsp. cbn [bpmain bpleaf bpm bppos bptotal bphs firstn].
        assert (S1 : Forall (fun x => bsp x = bsp m) r) by (rewrite Q1; apply R3; exact SP).
        assert (S2 : Forall (fun x => bsp x = bsp m') r') by (rewrite <- M3; apply B5; exact S1).
        rewrite <- B4, R1. repeat split; auto; try lia; try apply M1; try apply M2; try apply EM.
      - unfold tpar, tsp, ttr. cbn [bpmain bpleaf]. rewrite Q1, Q2, R2. reflexivity.
    Qed.
    Lemma t_clear_W s : tW s -> exists t, b2p_clear s = Ok t /\ tW t /\
      tpar t = (([0; 0], [0; 0], [])%N, map (fun _ => (0, 0, 0)%N) (ttr s)).
    Proof.
      intros (M & L & SP & LL & LM & HS). unfold b2p_clear.
      destruct (b2_clear_W _ _ M) as (m & -> & M1 & M2 & M3). cbn [bind].
      assert (HE : forall l i, Forall (bW hs) l -> exists r, each (fun _ => b2_clear) i l = Ok r /\ Forall (bW hs) r /\
        Forall (fun x => bsp x = ([0; 0], [0; 0], [])%N) r /\ map btr r = map (fun _ => (0, 0, 0)%N) (map btr l) /\ length r = length l).
      { clear - Hw. induction l as [|x l IH]; intros i HF; cbn [each]; [exists []; repeat split; constructor|]. inversion HF as [|? ? HX HF']; subst.
        destruct (b2_clear_W _ _ HX) as (u & -> & U1 & U2 & U3). cbn [bind]. destruct (IH (S i) HF') as (r & -> & R1 & R2 & R3 & R4). cbn [bind].
        exists (u :: r). cbn [map length]. rewrite U3, R3, R4. repeat split; auto. }
      destruct (HE (bpleaf s) 0 L) as (r & -> & R1 & R2 & R3 & R4). cbn [bind]. eexists. split; [reflexivity|].
      unfold tW, tpar, tsp, ttr. cbn [bpmain bpleaf bpm bphs map]. unfold zero_memory. rewrite zeros_length, M2, M3, R3, R4.
      repeat split; auto; apply M1.
    Qed.

    Definition t_setp (q : b2_param) (v : list N) (x : (list N * list N * list N) * list (N * N * N)) :=
      match b2_setp q v (fst x) with Some y => Some (y, snd x) | None => None end.
    Lemma t_set_E q v s : tW s ->
      match t_setp q v (tpar s) with
      | Some x => exists t, b2p_set w q v s = Done t /\ tW t /\ tpar t = x
      | None => b2p_set w q v s = Raised s
      end.
    Proof.
      intros (M & L & SP & LL & LM & HS). unfold t_setp, tpar, b2p_set. cbn [fst snd].
      pose proof (b2_set_E hs q v (bpmain s) M) as H. fold (tsp s) in H. destruct (b2_setp q v (tsp s)) as [y|] eqn:EY.
      - destruct H as (m & -> & M1 & M2 & M3).
        assert (HE : forall l, Forall (bW hs) l -> Forall (fun x => bsp x = tsp s) l -> exists r, b2_set_all w q v l = Done r /\ Forall (bW hs) r /\
          Forall (fun x => bsp x = y) r /\ map btr r = map btr l /\ length r = length l).
        { clear - EY Hw. induction l as [|x l IH]; intros HF HS; cbn [b2_set_all]; [exists []; repeat split; constructor|].
          inversion HF as [|? ? HX HF']; inversion HS as [|? ? HX2 HS']; subst.
          pose proof (b2_set_E hs q v x HX) as H. rewrite HX2, EY in H. destruct H as (u & -> & U1 & U2 & U3).
          destruct (IH HF' HS') as (r & -> & R1 & R2 & R3 & R4). exists (u :: r). cbn [map length]. rewrite U3, R3, R4. repeat split; auto. }
        destruct (HE (bpleaf s) L SP) as (r & -> & R1 & R2 & R3 & R4). eexists. split; [reflexivity|].
        unfold tW, tsp, ttr. cbn [bpmain bpleaf bpm bphs map]. rewrite M2, M3, R3, R4. repeat split; auto; apply M1.
      - rewrite H. destruct s. reflexivity.
    Qed.

    Lemma t_feed_E data i blk n x y : bE hs x y -> length data = n * 512 -> i < bp_P w -> blk < n ->
      exists u v, b2p_feed w data i blk x = Ok u /\ b2p_feed w data i blk y = Ok v /\ bE hs u v /\ samepar x u.
    Proof.
      intros HE HD Hi Hb. unfold b2p_feed. destruct b2_sizes as (_ & _ & _ & _ & _ & Z).
      rewrite load_ok by nia. cbn [bind].
      match goal with |- context [b2_update w x ?d] => destruct (b2_update_E hs x y d HE) as (u & v & A & B & C & D & F) end.
      exists u, v. unfold samepar. auto.
    Qed.
    Lemma t_leaf_E data n i l : length data = n * 512 -> i < bp_P w -> (forall b, In b l -> b < n) -> forall x y, bE hs x y ->
      exists u v, fold_res (fun leaf blk => b2p_feed w data i blk leaf) l x = Ok u /\
        fold_res (fun leaf blk => b2p_feed w data i blk leaf) l y = Ok v /\ bE hs u v /\ samepar x u.
    Proof.
      intros HD Hi. induction l as [|b l IH]; intros Hl x y HE; cbn [fold_res].
      - exists x, y. unfold samepar. auto.
      - destruct (t_feed_E data i b n x y HE HD Hi (Hl b (or_introl eq_refl))) as (u & v & -> & -> & HU & [P1 P2]). cbn [bind].
        destruct (IH (fun c Hc => Hl c (or_intror Hc)) u v HU) as (a & c & A & B & C & [D F]).
        exists a, c. unfold samepar. repeat split; auto; congruence || apply C.
    Qed.
    Lemma t_tf_E l l' t data n : Forall2 (bE hs) l l' -> length l = bp_P w -> length data = n * 512 ->
      exists r r', tf l t data n = Ok r /\ tf l' t data n = Ok r' /\ Forall2 (bE hs) r r' /\ Forall2 samepar l r.
    Proof.
      intros HF HL HD.
      destruct (each_E (b2p_leaf w data n) (bE hs) (bE hs) samepar l l' HF 0) as (r & r' & A & B & C & D).
      { intros k x y Hk HE. apply (t_leaf_E data n k (seq 0 n)); auto; [lia|]. intros b Hb. apply in_seq in Hb. lia. }
      exists r, r'. destruct (bE_all _ _ _ HF) as (_ & _ & _ & L4 & _).
      repeat split; auto; apply Htf; auto. congruence.
    Qed.
    Lemma t_update_E s s' d : tE s s' ->
      exists t t', b2p_update tf s d = Ok t /\ b2p_update tf s' d = Ok t' /\ tE t t' /\ tpar t = tpar s.
    Proof.
      intros ((M & L & SP & LL & LM & HS) & (M' & L' & SP' & LL' & LM' & HS') & EM & EL & EP & ET & HP & HA).
      unfold b2p_update. rewrite <- EP, <- ET.
      destruct (absorb_E (fun l l' => Forall2 (bE hs) l l' /\ Forall2 samepar (bpleaf s) l)
        (fun leaf m t d n => leaf <- tf leaf t d n ;; Ok (leaf, m)) bp_bs 512 false ltac:(unfold bp_bs; lia) ltac:(unfold bp_bs; lia))
        with (a := bppos s) (data := d) (c := bpleaf s) (c' := bpleaf s') (m := bpm s) (m' := bpm s') (pos := bppos s) (t := bptotal s)
        as (c & c' & q & q' & pos & t & A & A' & (HF & HZ) & Lq & Lq' & Hpos & HA'); auto.
      { intros c c' m m' t data n [HF HZ] Hm Hm' Hd. destruct (samepar_all _ _ HZ) as (Z1 & _).
        destruct (t_tf_E c c' t data n HF) as (r & r' & -> & -> & HR & HRZ); [congruence|exact Hd|]. cbn [bind].
        exists r, r'. repeat split; auto. clear - HZ HRZ. revert r HRZ. induction HZ as [|x u l c [H1 H2] HZ IH]; intros r HR; inversion HR as [|? v ? r0 [X1 X2] HR0]; subst; constructor.
        - split; congruence.
        - apply IH; auto. }
      { split; auto. clear. induction (bpleaf s); constructor; auto. split; reflexivity. }
      unfold bschk in A, A'. rewrite A, A'. cbn [bind].
      destruct (samepar_all _ _ HZ) as (R1 & R2 & R3). destruct (bE_all _ _ _ HF) as (B1 & B2 & B3 & B4 & B5).
      do 2 eexists. split; [reflexivity|]. split; [reflexivity|]. destruct (bE_par _ _ _ EM) as (M1 & M2 & M3 & M4).
      assert (S1 : Forall (fun x => bsp x = bsp (bpmain s)) c) by (apply R3; exact SP).
      assert (S2 : Forall (fun x => bsp x = bsp (bpmain s')) c') by (rewrite <- M3; apply B5; exact S1).
      split.
      - unfold tE, tW, tsp. cbn [bpmain bpleaf bpm bppos bptotal bphs].
        assert (firstn pos q = firstn pos q') by (apply (firstn_le _ (Nat.max (bppos s) pos)); auto; lia).
        unfold bschk, bp_bs in Hpos.
        rewrite <- B4, R1. repeat split; auto; try lia; try apply M; try apply M'; try apply EM.
      - unfold tpar, tsp, ttr. cbn [bpmain bpleaf]. rewrite R2. reflexivity.
    Qed.
    Lemma t_leaves_E m pos l l' : Forall2 (bE hs) l l' -> length m = 512 -> pos <= 512 -> forall i x y, i + length l = bp_P w -> bE hs x y ->
      exists u v r r', b2p_leaves w m pos x i l = Ok (u, r) /\ b2p_leaves w m pos y i l' = Ok (v, r') /\ bE hs u v.
    Proof.
      intros HF Hm Hp. destruct b2_sizes as (Z1 & Z2 & Z3 & Z4 & Z5 & Z).
      induction HF as [|a b l l' Hab HF IH]; intros i x y Hi HE; cbn [b2p_leaves].
      - exists x, y, [], []. auto.
      - cbn [length] in Hi.
        set (len := if pos <? i * bs + bs then pos - i * bs else bs).
        assert (HL : exists a1 b1, (if i * bs <? pos then d <- load m (i * bs) len ;; b2_update w a d else Ok a) = Ok a1 /\
          (if i * bs <? pos then d <- load m (i * bs) len ;; b2_update w b d else Ok b) = Ok b1 /\ bE hs a1 b1).
        { destruct (Nat.ltb_spec (i * bs) pos); [|exists a, b; auto].
          rewrite load_ok; [|unfold len; destruct (Nat.ltb_spec pos (i * bs + bs)); nia]. cbn [bind].
          match goal with |- context [b2_update w a ?d] => destruct (b2_update_E hs a b d Hab) as (u & v & A & B & C & D & F) end.
          exists u, v. auto. }
        destruct HL as (a1 & b1 & EA & EB & HE1). cbv zeta. fold len. rewrite EA, EB. cbn [bind].
        assert (HOV : N.to_nat ((if (8 * w =? 0)%N then hs else 8 * w) / 8) = hb).
        { destruct (N.eqb_spec (8 * w) 0); [lia|]. replace (8 * w)%N with (w * 8)%N by lia. rewrite N.div_mul by lia. lia. }
        destruct (b2_final_E hs (8 * w) a1 b1 HE1 ltac:(rewrite HOV; lia)) as (a2 & b2 & o & -> & -> & _). cbn [bind].
        destruct (b2_update_E hs x y o HE) as (x1 & y1 & -> & -> & HX & _). cbn [bind].
        destruct (IH (S i) x1 y1 ltac:(lia) HX) as (u & v & r & r' & -> & -> & HU). cbn [bind].
        exists u, v, (a2 :: r), (b2 :: r'). auto.
    Qed.
    Lemma t_final_E s s' : tE s s' -> exists t t' o, b2p_final w s = Ok (t, o) /\ b2p_final w s' = Ok (t', o) /\ length o = N.to_nat (hs / 8).
    Proof.
      intros ((M & L & SP & LL & LM & HS) & (M' & L' & SP' & LL' & LM' & HS') & EM & EL & EP & ET & HP & HA).
      destruct b2_sizes as (Z1 & Z2 & Z3 & Z4 & Z5 & Z).
      unfold b2p_final, b2p_finalize. cbv zeta. cbn [bpmain bpleaf bpm bppos bptotal bphs]. rewrite <- EP, <- ET.
      assert (HM : exists m, (if negb (512 =? bppos s) then n <- size_sub 512 (bppos s) ;; memset (bpm s) (bppos s) 0 n else Ok (bpm s)) = Ok m /\
        (if negb (512 =? bppos s) then n <- size_sub 512 (bppos s) ;; memset (bpm s') (bppos s) 0 n else Ok (bpm s')) = Ok m /\ length m = 512).
      { destruct (Nat.eqb_spec 512 (bppos s)) as [E|NE]; cbn [negb].
        - rewrite !firstn_all2 in HA by lia. rewrite HA. eauto.
        - rewrite size_sub_ok by lia. cbn [bind].
          destruct (memset_agree (bppos s) (bpm s) (bpm s') (bppos s) 0 (512 - bppos s)) as (m & m' & -> & -> & A1 & A2 & A3); try lia; auto.
          replace (Nat.max (bppos s) (bppos s + (512 - bppos s))) with 512 in A3 by lia.
          rewrite !firstn_all2 in A3 by lia. subst m'. exists m. repeat split; auto. lia. }
      destruct HM as (m & -> & -> & Lm). cbn [bind].
      destruct (t_leaves_E m (bppos s) (bpleaf s) (bpleaf s') EL Lm HP 0 (bpmain s) (bpmain s') LL EM) as (u & v & r & r' & -> & -> & HU).
      cbn [bind bpmain bpleaf bpm bppos bptotal bphs]. unfold b2_final.
      assert (HO : N.to_nat (hs / 8) <= hb).
      { assert (hs / 8 <= w)%N; [|lia]. apply N.div_le_upper_bound; lia. }
      destruct (b2_final_E hs 0 u v HU HO) as (a & b & o & -> & -> & LO). cbn [bind]. do 3 eexists. split; [reflexivity|]. split; [reflexivity|].
      exact LO.
    Qed.
  End Tree.

  (** The four kinds of object; [T] is one of their types. *)
  Section TreeRob.
    Variables (hs : N) (tf : b2p_tf) (new : b2p_mem -> res b2p_st).
    Hypothesis Htf : forall leaf t d n r, length leaf = bp_P w -> b2p_transform w d n leaf = Ok r -> tf leaf t d n = Ok r.
    Hypothesis Hhs : (8 <= hs)%N /\ (hs <= 8 * w)%N.
    Definition tree_type := Build_htype (blake2p_with w tf) b2p_mem (b2p_mem_ok w) new (N.to_nat (hs / 8)) (b2_accepts w) false.
    Definition tree0 : (list N * list N * list N) * list (N * N * N) :=
      (([0; 0], [0; 0], [])%N, (N.of_nat (bp_P w), 1, 0)%N :: map (fun p => (N.of_nat (bp_P w), 0, N.of_nat p)%N) (seq 0 (bp_P w))).
    Hypothesis Hnew : forall g, b2p_mem_ok w g -> exists c, new g = b2p_init w c /\ tW hs c /\ tpar c = tree0.

    Definition tree_rob : hrob tree_type ((list N * list N * list N) * list (N * N * N)).
    Proof.
      refine (Build_hrob (blake2p_with w tf) tree_type _ tpar (tW hs) (tE hs) t_setp
        (fun x => (([0; 0], [0; 0], [])%N, map (fun _ => (0, 0, 0)%N) (snd x))) tree0 _ _ _ _ _ _ _).
      - constructor; cbn [blake2p_with hp pst p_init p_update p_clear p_param p_set].
        + intros s s'. apply tE_par; assumption.
        + intros s s'. apply t_init_E; assumption.
        + intros s. apply t_clear_W; assumption.
        + intros q v s _. apply t_set_E; assumption.
        + intros s s' d _. apply (t_update_E hs tf); assumption.
      - intros s s' HE. destruct (t_final_E hs Hhs s s' HE) as (t & t' & o & A & B & C). exists t, t', o.
        cbn [blake2p_with hp_final hp_size]. destruct HE as ((_ & _ & _ & _ & _ & HS) & (_ & _ & _ & _ & _ & HS') & _).
        rewrite HS, HS'. split; [exact A|]. split; [exact B|]. split; [rewrite C; apply N2Nat.id|]. split; [|reflexivity].
        intros ->. cbn [length] in C. assert (1 <= hs / 8)%N by (apply N.div_le_lower_bound; lia). lia.
      - exact Hnew.
      - intros q v [x l]. unfold t_setp. cbn [fst snd]. rewrite <- (b2_setp_acc q v x : _ = ht_accepts tree_type q v). destruct (b2_setp q v x); reflexivity.
      - intros q1 q2 v1 v2 [x l] x1 x2 HN H1 H2. unfold t_setp in *. cbn [fst snd] in *.
        destruct (b2_setp q1 v1 x) as [y1|] eqn:E1; [|discriminate]. destruct (b2_setp q2 v2 x) as [y2|] eqn:E2; [|discriminate].
        injection H1 as <-. injection H2 as <-. cbn [fst snd]. rewrite (b2_setp_comm q1 q2 v1 v2 x y1 y2 HN E1 E2). reflexivity.
      - intros q v1 v2 [x l] x1 HN H1. unfold t_setp in *. cbn [fst snd] in *.
        destruct (b2_setp q v1 x) as [y1|] eqn:E1; [|discriminate]. injection H1 as <-. cbn [fst snd].
        rewrite (b2_setp_over q v1 v2 x y1 HN E1). reflexivity.
      - discriminate.
    Defined.
  End TreeRob.

  Lemma each_ctor (hs : N) (f : st * N -> res b2_st) : (forall x, f x = Ok (mkb2 (fst x) [0; 0]%N [0; 0]%N [] hs (snd x) false 0 0 0)) ->
    forall l i, Forall (b2_mem_ok w) l ->
    exists r, each (fun p x => l <- f x ;; Ok (b2_tree_params (N.of_nat (bp_P w)) 0 (N.of_nat p) l)) i l = Ok r /\
      Forall (bW hs) r /\ Forall (fun x => bsp x = ([0; 0], [0; 0], [])%N) r /\ length r = length l /\
      map btr r = map (fun p => (N.of_nat (bp_P w), 0, N.of_nat p)%N) (seq i (length l)).
  Proof.
    intros Hf. destruct b2_sizes as (Z1 & Z2 & Z3 & Z4 & _).
    induction l as [|x l IH]; intros i HF; cbn [each]; [exists []; repeat split; constructor|]. apply Forall_cons_iff in HF as [HX HF].
    rewrite Hf. cbn [bind]. destruct (IH (S i) HF) as (r & -> & R1 & R2 & R3 & R4). cbn [bind]. eexists. split; [reflexivity|].
    unfold b2_mem_ok in HX. cbn [map length seq]. rewrite R3, R4. repeat split; try constructor; auto.
    unfold bW. cbn [b2_tree_params b2c b2k b2hs length]. repeat split; lia.
  Qed.
  Lemma bp_P_eq : bp_P w = if (w =? 64)%N then 4 else 8.
  Proof. reflexivity. Qed.

  Lemma tree_new hs (f : st * N -> res b2_st) g : (forall x, f x = Ok (mkb2 (fst x) [0; 0]%N [0; 0]%N [] hs (snd x) false 0 0 0)) -> b2p_mem_ok w g ->
    exists c, (main <- f (gpmain g) ;;
       let main := b2_tree_params (N.of_nat (bp_P w)) 1 0 main in
       leaf <- each (fun p x => l <- f x ;; Ok (b2_tree_params (N.of_nat (bp_P w)) 0 (N.of_nat p) l)) 0 (gpleaf g) ;;
       Ok (mkb2pst main leaf (gpm g) (gppos g) (gptotal g) hs)) = Ok c /\ tW hs c /\ tpar c = tree0.
  Proof.
    intros Hf (G1 & G2 & G3 & G4). destruct b2_sizes as (Z1 & Z2 & Z3 & Z4 & _).
    rewrite Hf. cbn [bind]. destruct (each_ctor hs f Hf (gpleaf g) 0 G3) as (r & -> & R1 & R2 & R3 & R4). cbn [bind].
    eexists. split; [reflexivity|]. unfold b2_mem_ok in G1. unfold tW, tpar, tree0, tsp, ttr. cbn [bpmain bpleaf bpm bphs].
    unfold b2_mem in *. rewrite R4, R3, G2, <- bp_P_eq. repeat split; auto; cbn [b2_tree_params b2c b2k length]; try lia.
  Qed.

  Variable hs : N.
  Hypothesis Hok : (8 <= hs)%N /\ (hs <= 8 * w)%N /\ (hs mod 8 = 0)%N.
  Lemma tree_bnd : (8 <= hs)%N /\ (hs <= 8 * w)%N.
  Proof. tauto. Qed.
  Lemma tree_val : validate_max hs (8 * w) = Ok tt.
  Proof.
    unfold validate_max. destruct (N.eqb_spec hs 0); [lia|]. destruct Hok as (_ & H & ->). cbn [N.eqb negb].
    destruct (N.ltb_spec (8 * w) hs); [lia|reflexivity].
  Qed.
  Lemma tree_ctor_new g : b2p_mem_ok w g -> exists c, fresh_of (b2p_ctor w hs g) (b2p_init w) = b2p_init w c /\ tW hs c /\ tpar c = tree0.
  Proof.
    intros Hg. destruct (tree_new hs (fun x => b2_ctor w BHash hs (fst x) (snd x)) g) as (c & A & B & C); auto.
    { intros x. unfold b2_ctor. rewrite tree_val. reflexivity. }
    exists c. split; [|auto]. unfold fresh_of, b2p_ctor. cbv zeta in *.
    assert (HB : forall (X : Type) (r : res X) (k : b2_st -> res b2p_st), (main <- b2_ctor w BHash hs (fst (gpmain g)) (snd (gpmain g)) ;; _ <- validate_max hs (8 * w) ;; k main) =
      (main <- b2_ctor w BHash hs (fst (gpmain g)) (snd (gpmain g)) ;; k main)) by (intros; rewrite tree_val; reflexivity).
    rewrite (HB unit (Ok tt)), A. reflexivity.
  Qed.
  Lemma tree_static_new g : b2p_mem_ok w g -> exists c, fresh_of (b2p_ctor_static w hs g) (b2p_init w) = b2p_init w c /\ tW hs c /\ tpar c = tree0.
  Proof.
    intros Hg. destruct (tree_new hs (fun x => b2_ctor_static w hs (fst x) (snd x)) g) as (c & A & B & C); auto.
    exists c. split; [|auto]. unfold fresh_of, b2p_ctor_static. cbv zeta in *. rewrite A. reflexivity.
  Qed.
  Notation tX := ((list N * list N * list N) * list (N * N * N))%type.
  Definition blake2p_rob : hrob (blake2p_type w hs) tX :=
    tree_rob hs _ _ (fun _ _ _ _ _ _ H => H) tree_bnd tree_ctor_new.
  Definition blake2p_static_rob : hrob (blake2p_static_type w hs) tX :=
    tree_rob hs _ _ (fun _ _ _ _ _ _ H => H) tree_bnd tree_static_new.
  Section Omp.
    Variable sch : b2p_schedule.
    Hypothesis Hsch : any_schedule w sch.
    Lemma omp_tf leaf t d n r : length leaf = bp_P w -> b2p_transform w d n leaf = Ok r -> b2p_run w d (sch leaf t d n) leaf = Ok r.
    Proof. intros HL HT. apply (schedule_ok w d n); [|exact HT]. rewrite HL, bp_P_eq. apply Hsch. Qed.
    Definition blake2p_omp_rob : hrob (blake2p_omp_type w hs sch) tX := tree_rob hs _ _ omp_tf tree_bnd tree_ctor_new.
    Definition blake2p_omp_static_rob : hrob (blake2p_omp_static_type w hs sch) tX := tree_rob hs _ _ omp_tf tree_bnd tree_static_new.
  End Omp.
End B2.
