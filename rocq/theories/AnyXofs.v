(** * Ascon, Esch and Skein XOF objects in arbitrary histories. *)
From Verif Require Import Base Lemmas WordLemmas TableLemmas Absorb AbsorbProof MdState Hasher Squeeze Ascon Esch Skein
  Library LibraryTypes AnyCalls AnyProof AnyBuf.
Local Open Scope nat_scope.

Lemma len_upd {A} (l : list A) : forall i v, length (upd i v l) = length l.
Proof. induction l as [|a l IH]; intros [|i] v; cbn [upd length]; auto. Qed.
Lemma fold_len {A} (f : list N -> A -> list N) (Hf : forall H x, length (f H x) = length H) l :
  forall H, length (fold_left f l H) = length H.
Proof. induction l as [|x l IH]; intros H; [reflexivity|]. cbn [fold_left]. rewrite IH. apply Hf. Qed.

Lemma store_len m i v n : length m = n -> i < n -> exists m', store m i v = Ok m' /\ length m' = n.
Proof.
  intros L H. rewrite store_ok by lia. eexists. split; [reflexivity|]. rewrite overlay_length; cbn [length]; lia.
Qed.

(** An object that owns all its memory: the fields of [k] are in range. *)
Definition kok (bs cap nh : nat) (k : st) : Prop :=
  length (sh k) = nh /\ length (sm k) = cap /\ spos k <= bs.
Lemma kok_E bs cap nh k : kok bs cap nh k -> kE bs cap (fun h => length h = nh) false k k.
Proof. intros (H1 & H2 & H3). unfold kE. auto 10. Qed.
Lemma update_kok step bs cap nh lazy k d : 0 < bs -> bs <= cap ->
  (forall c t b, length c = nh -> length b = bs -> length (step c t b) = nh) -> kok bs cap nh k ->
  exists u, md_update step bs (bschk bs lazy) k d = Ok u /\ kok bs cap nh u /\ spos u < bschk bs lazy.
Proof.
  intros Hb Hc Hs Hk. rewrite md_update_as_res.
  destruct (update_E (fun h => length h = nh) (fun c t b => Ok (step c t b)) bs cap lazy Hb Hc) with (full := false) (k := k) (k' := k) (d := d)
    as (u & u' & A & A' & (E1 & HI & E2 & E3 & L1 & L2 & HP & HA) & Hp).
  - intros c t b H1 H2. eauto.
  - apply kok_E. exact Hk.
  - exists u. unfold kok. auto.
Qed.

(** ** Ascon *)
Lemma ascon_block_len c t b : length (ascon_block c t b) = 5.
Proof.
  unfold ascon_block, ascon_perm. change (seq 0 12) with (seq 0 11 ++ [11]). rewrite fold_left_app. reflexivity.
Qed.
Definition asok (s : ascon_st) : Prop := kok 8 64 5 (ak s) /\ (asq s = false -> spos (ak s) < 8).

Lemma ascon_update_ok s d : asok s -> exists t, ascon_update s d = Ok t /\ asok t /\ aZ t = aZ s.
Proof.
  intros [Hk Hp]. unfold ascon_update.
  destruct (update_kok ascon_block 8 64 5 false (ak s) d) as (u & A & Hu & Hlt); try lia; auto.
  unfold bschk in *. rewrite A. cbn [bind]. eexists. split; [reflexivity|]. split; [|reflexivity]. split; [exact Hu|auto].
Qed.
Lemma ascon_init_ok ty s : length (sm (ak s)) = 64 ->
  exists t, ascon_init ty s = Ok t /\ asok t /\ aZ t = aZ s /\
    forall s', length (sm (ak s')) = 64 -> aZ s' = aZ s -> ascon_init ty s' = Ok t.
Proof.
  intros Hm.
  assert (HD : forall s', length (sm (ak s')) = 64 -> aZ s' = aZ s -> ascon_init ty s' = ascon_init ty s).
  { intros s' H1 H2. unfold ascon_init, zero_memory. rewrite H1, H2, Hm. reflexivity. }
  assert (HG : exists t, ascon_init ty s = Ok t /\ asok t /\ aZ t = aZ s).
  { assert (H0 : asok (mkas (mkst (ascon_iv ty) (zero_memory (sm (ak s))) 0 0) (aZ s) false)).
    { unfold asok, kok. cbn [ak sh sm spos asq]. unfold zero_memory. rewrite zeros_length, Hm.
      repeat split; try lia. destruct ty; reflexivity. }
    unfold ascon_init. cbv zeta. destruct ty; [eauto 8|eauto 8|]. set (s0 := mkas _ _ _) in *.
    match goal with |- context [ascon_update s0 ?z] => destruct (ascon_update_ok s0 z H0) as (a & -> & Ha & Za) end. cbn [bind].
    assert (H1 : exists b, match aZ a with [] => Ok a | _ => ascon_update a (aZ a) end = Ok b /\ asok b /\ aZ b = aZ a).
    { destruct (aZ a) eqn:E; [exists a; auto|]. rewrite <- E. apply ascon_update_ok. exact Ha. }
    destruct H1 as (b & -> & Hb & Zb). cbn [bind].
    pose proof (Nat.mod_upper_bound (length (aZ b)) 8 ltac:(lia)).
    rewrite load_ok by (rewrite le_bytes_length; lia). cbn [bind].
    match goal with |- context [ascon_update b ?z] => destruct (ascon_update_ok b z Hb) as (c & -> & Hc & Zc) end.
    exists c. rewrite Zc, Zb, Za. auto. }
  destruct HG as (t & A & C & D). exists t. split; [exact A|]. split; [exact C|]. split; [exact D|].
  intros s' H1 H2. rewrite <- A. apply HD; auto.
Qed.
Lemma ascon_emit c : length c = 5 -> 8 <= length (words_bytes 8 c).
Proof. intros H. rewrite words_bytes_length, H. lia. Qed.
Lemma ascon_squeeze_ok s n : asok s -> exists t w, ascon_squeeze s n = Ok (t, w) /\ length w = n /\ asok t /\ aZ t = aZ s.
Proof.
  intros [(L1 & L2 & L3) Hp]. unfold ascon_squeeze. destruct (asq s) eqn:Q.
  - destruct (sq_more_total (fun H => ascon_block H 0 (firstn 8 (sm (ak s)))) (words_bytes 8) 8 (fun c => length c = 5) ltac:(lia) ascon_emit
      (fun c _ => ascon_block_len c _ _) (sh (ak s)) (spos (ak s)) n L1 L3) as (c & pos & w & -> & Hc & Hpos & Hw). cbn [bind].
    do 2 eexists. split; [reflexivity|]. split; [exact Hw|]. split; [|reflexivity].
    split; [|discriminate]. unfold kok. cbn [ak sh sm spos]. auto.
  - specialize (Hp eq_refl). unfold ascon_pad.
    rewrite store_ok by lia. cbn [bind].
    assert (H1 : exists m, (if 8 =? spos (ak s) + 1 then Ok (overlay (sm (ak s)) (spos (ak s)) [1%N]) else n0 <- size_sub 8 (spos (ak s) + 1);; memset (overlay (sm (ak s)) (spos (ak s)) [1%N]) (spos (ak s) + 1) 0 n0) = Ok m /\ length m = 64).
    { assert (LO : length (overlay (sm (ak s)) (spos (ak s)) [1%N]) = 64) by (rewrite overlay_length; cbn [length]; lia).
      destruct (8 =? spos (ak s) + 1); [eauto|]. rewrite size_sub_ok by lia. cbn [bind].
      rewrite memset_ok by lia. eexists. split; [reflexivity|]. rewrite overlay_length; rewrite ?repeat_length; lia. }
    destruct H1 as (m & -> & Lm). cbn [bind]. unfold md_transform1. rewrite load_ok by lia. cbn [bind].
    rewrite memset_ok by lia. cbn [bind sh sm spos stotal].
    match goal with |- context [sq_first ?nx _ _ ?c0 ?p n] =>
      destruct (sq_first_total nx (words_bytes 8) 8 (fun c => length c = 5) ltac:(lia) ascon_emit
        (fun c _ => ascon_block_len c _ _) c0 p n) as (c2 & pos & w & -> & Hc & Hpos & Hw) end.
    { apply ascon_block_len. } { lia. }
    cbn [bind]. do 2 eexists. split; [reflexivity|]. split; [exact Hw|]. split; [|reflexivity].
    split; [|discriminate]. unfold kok. cbn [ak sh sm spos]. repeat split; auto.
    rewrite overlay_length; rewrite ?repeat_length; lia.
Qed.

(** States that own all memory: indistinguishable means equal. *)
Definition eqE {S} (ok : S -> Prop) (s s' : S) : Prop := s = s' /\ ok s.

Definition ascon_xof_rob : xrob ascon_xof_type unit.
Proof.
  refine (Build_xrob ascon_xof ascon_xof_type unit (fun _ => tt) (fun s => length (sm (ak s)) = 64 /\ aZ s = []) (eqE (fun s => asok s /\ aZ s = []))
    (fun q => match q with end) (fun _ => tt) tt _ _ _ _ _ _ _).
  - constructor; cbn [ascon_xof xp pst p_init p_update p_clear p_param p_set].
    + intros s s' [<- [((L1 & L2 & L3) & _) Z]]. auto.
    + intros s s' [W1 Z1] [W2 Z2] _. destruct (ascon_init_ok AXof s W1) as (t & A & C & D & F).
      exists t, t. rewrite A, (F s' W2) by congruence. repeat split; auto; try apply C; congruence.
    + intros s [H Z]. eexists. split; [reflexivity|]. cbn [ak sm aZ]. unfold zero_memory. rewrite zeros_length. auto.
    + intros [].
    + intros s s' d _ [<- [H Z]]. destruct (ascon_update_ok s d H) as (t & A & C & D). exists t, t. repeat split; auto; try apply C; congruence.
  - intros s s' n [<- [H Z]]. destruct (ascon_squeeze_ok s n H) as (t & w & A & L & C & D). exists t, t, w. repeat split; auto; try apply C; congruence.
  - intros g Hg. eexists. split; [reflexivity|]. split; [split; [exact Hg|reflexivity]|reflexivity].
  - intros [].
  - intros [].
  - intros [].
  - reflexivity.
Defined.
Definition ascon_cxof_rob : xrob ascon_cxof_type (list N).
Proof.
  refine (Build_xrob ascon_cxof ascon_cxof_type _ aZ (fun s => length (sm (ak s)) = 64) (eqE asok)
    (fun _ v _ => Some v) (fun x => x) [] _ _ _ _ _ _ _).
  - constructor; cbn [ascon_cxof xp pst p_init p_update p_clear p_param p_set].
    + intros s s' [<- ((L1 & L2 & L3) & _)]. auto.
    + intros s s' W1 W2 Z. destruct (ascon_init_ok ACxof s W1) as (t & A & C & D & F).
      exists t, t. rewrite A, (F s' W2) by congruence. repeat split; auto; try apply C.
    + intros s H. eexists. split; [reflexivity|]. cbn [ak sm aZ]. unfold zero_memory. rewrite zeros_length. auto.
    + intros q v s _ H. eexists. split; [reflexivity|]. auto.
    + intros s s' d _ [<- H]. destruct (ascon_update_ok s d H) as (t & A & C & D). exists t, t. repeat split; auto; try apply C.
  - intros s s' n [<- H]. destruct (ascon_squeeze_ok s n H) as (t & w & A & L & C & D). exists t, t, w. repeat split; auto; try apply C.
  - intros g Hg. eexists. split; [reflexivity|]. split; [exact Hg|reflexivity].
  - reflexivity.
  - intros [] []; congruence.
  - reflexivity.
  - discriminate.
Defined.

(** ** Esch *)
Lemma xor_at_len i v H : length (xor_at i v H) = length H.
Proof. apply len_upd. Qed.
Lemma esch_step_len rounds H s : length (esch_step rounds H s) = length H.
Proof.
  unfold esch_step. cbv zeta. rewrite !len_upd.
  repeat (rewrite fold_len; [|intros; cbv zeta; rewrite ?len_upd, ?xor_at_len; reflexivity]).
  rewrite !xor_at_len. reflexivity.
Qed.
Lemma sparkle_len rounds ns H : length (sparkle rounds ns H) = length H.
Proof. apply fold_len. intros. apply esch_step_len. Qed.
Lemma esch_block_len hs l H t b : length (esch_block hs l H t b) = length H.
Proof.
  unfold esch_block. cbv zeta. rewrite sparkle_len.
  destruct (256 <? hs)%N; rewrite ?xor_at_len, ?len_upd; reflexivity.
Qed.

Section EschRob.
  Variables (sz : N) (w : nat).
  Hypothesis Hw : 12 <= w.
  Hypothesis Hi : N.to_nat ((sz - 128 + 128) / 64 - 1) < w.

  Definition esok (s : esch_st) : Prop := kok 16 128 w (ek s) /\ ehs s = (sz - 128)%N.

  Lemma esch_loop_ok hs fuel : forall H total hss processed pos out, length H = w -> pos <= 16 -> processed <= hss -> hss - processed <= fuel ->
    length out = processed ->
    exists H' t' p' o, esch_loop hs fuel H total hss processed pos out = Ok (H', t', p', o) /\ length H' = w /\ p' <= 16 /\ length o = hss.
  Proof.
    induction fuel as [|f IH]; intros H total hss processed pos out L Hp Hpr Hf Ho; cbn [esch_loop].
    - destruct (Nat.ltb_spec processed hss); [lia|]. do 4 eexists. split; [reflexivity|]. repeat split; auto. lia.
    - destruct (Nat.ltb_spec processed hss).
      + set (H2 := if (total =? 0)%N then _ else H).
        assert (L2 : length H2 = w) by (unfold H2; destruct (total =? 0)%N; rewrite ?sparkle_len; auto).
        rewrite load_ok by (rewrite words_bytes_length, L2; lia). cbn [bind].
        apply IH; auto; try lia. rewrite app_length, firstn_length, skipn_length, words_bytes_length, L2. lia.
      + do 4 eexists. split; [reflexivity|]. repeat split; auto. lia.
  Qed.
  Lemma esch_squeeze_ok xof s n : esok s -> exists t o, esch_squeeze xof s n = Ok (t, o) /\ length o = n /\ esok t.
  Proof.
    intros ((L1 & L2 & L3) & HS). unfold esch_squeeze. cbv zeta.
    match goal with |- context [bind ?x _] =>
      assert (H1 : exists H m pos total processed out, x = Ok (H, m, pos, total, processed, out) /\ length H = w /\ length m = 128 /\
        pos <= 16 /\ processed <= n /\ length out = processed) end.
    { destruct (esq s).
      - destruct (Nat.ltb_spec (spos (ek s)) 16).
        + rewrite load_ok by (rewrite words_bytes_length, L1; lia). cbn [bind]. do 6 eexists. split; [reflexivity|].
          repeat split; auto; try lia. rewrite firstn_length, skipn_length, words_bytes_length, L1. lia.
        + do 6 eexists. split; [reflexivity|]. repeat split; auto; lia.
      - unfold esch_pad. rewrite HS, L1. destruct (Nat.ltb_spec (N.to_nat ((sz - 128 + 128) / 64 - 1)) w); [|lia].
        destruct (Nat.ltb_spec (spos (ek s)) 16).
        + rewrite memset_ok by lia. cbn [bind].
          assert (LO : length (overlay (sm (ek s)) (spos (ek s)) (repeat 0%N (16 - spos (ek s)))) = 128) by (rewrite overlay_length; rewrite ?repeat_length; lia).
          rewrite store_ok by lia. cbn [bind]. unfold md_transform1.
          assert (LO2 : length (overlay (overlay (sm (ek s)) (spos (ek s)) (repeat 0%N (16 - spos (ek s)))) (spos (ek s)) [128%N]) = 128) by (rewrite overlay_length; cbn [length]; lia).
          rewrite load_ok by lia. cbn [bind]. do 6 eexists. split; [reflexivity|]. cbn [sh sm spos].
          repeat split; auto; try lia. cbn [block_loop]. rewrite esch_block_len, xor_at_len. exact L1.
        + cbn [bind]. unfold md_transform1. rewrite load_ok by lia. cbn [bind]. do 6 eexists. split; [reflexivity|]. cbn [sh sm spos].
          repeat split; auto; try lia. cbn [block_loop]. rewrite esch_block_len, xor_at_len. exact L1. }
    destruct H1 as (H & m & pos & total & processed & out & -> & LH & Lm & Hp & Hpr & Lo). cbn [bind].
    destruct (esch_loop_ok (ehs s) n H total n processed pos out LH Hp Hpr ltac:(lia) Lo) as (H' & t' & p' & o & -> & LH' & Hp' & Lo'). cbn [bind].
    do 2 eexists. split; [reflexivity|]. split; [exact Lo'|]. split; [|exact HS]. unfold kok. cbn [ek sh sm spos]. auto.
  Qed.
  Lemma esch_update_ok s d : esok s -> exists t, esch_update s d = Ok t /\ esok t.
  Proof.
    intros [Hk HS]. unfold esch_update.
    destruct (update_kok (esch_block (ehs s) false) 16 128 w true (ek s) d) as (u & A & Hu & Hlt); try lia; auto.
    { intros. rewrite esch_block_len. auto. }
    unfold bschk in *. cbn [Nat.add] in A. rewrite A. cbn [bind]. eexists. split; [reflexivity|]. split; auto.
  Qed.
  Definition esch_rob : xrob (esch_xof_type sz w) unit.
  Proof.
    refine (Build_xrob esch_xof (esch_xof_type sz w) unit (fun _ => tt) (fun s => length (sm (ek s)) = 128 /\ length (sh (ek s)) = w /\ ehs s = (sz - 128)%N) (eqE esok)
      (fun q => match q with end) (fun _ => tt) tt _ _ _ _ _ _ _).
    - constructor; cbn [esch_xof xp pst p_init p_update p_clear p_param p_set].
      + intros s s' [<- ((L1 & L2 & L3) & HS)]. auto 8.
      + intros s s' (L1 & L2 & L3) (L1' & L2' & L3') _. unfold esch_init, zero_memory. rewrite L1, L2, L3, L1', L2', L3'.
        do 2 eexists. split; [reflexivity|]. split; [reflexivity|]. split; [|reflexivity]. split; [reflexivity|].
        split; [|reflexivity]. unfold kok. cbn [ek sh sm spos]. rewrite !zeros_length. repeat split; lia.
      + intros s (L1 & L2 & L3). eexists. split; [reflexivity|]. cbn [ek sm sh ehs]. unfold zero_memory. rewrite !zeros_length. auto.
      + intros [].
      + intros s s' d _ [<- H]. destruct (esch_update_ok s d H) as (t & A & C). exists t, t. repeat split; auto; apply C.
    - intros s s' n [<- H]. destruct (esch_squeeze_ok true s n H) as (t & o & A & L & C). exists t, t, o. repeat split; auto; apply C.
    - intros g [Hg1 Hg2]. eexists. split; [reflexivity|]. split; [|reflexivity]. cbn [ek sm sh ehs]. auto.
    - intros [].
    - intros [].
    - intros [].
    - reflexivity.
  Defined.
End EschRob.

(** ** Skein *)
Section SkeinRob.
  Variable nw : nat.
  Hypothesis Hnw : 4 <= nw.
  Let bs := 8 * nw.

  Lemma sk_block_len r h d : length (skipn 2 h) = nw -> length (sk_block nw r h d) = 2 + nw.
  Proof.
    intros H. unfold sk_block. cbv zeta. rewrite app_length, map2_length, le_words_length. cbn [length].
    set (G := fold_left _ _ _). assert (LG : length G = nw); [|lia].
    unfold G. unfold sk_rounds. rewrite fold_left_app.
    assert (HK : forall keys tw G r, length (sk_G8 nw keys tw G r) = nw).
    { intros. unfold sk_G8. unfold sk_KSt at 1. rewrite map_length, seq_length. reflexivity. }
    destruct (nw =? 16); cbn [fold_left]; apply HK.
  Qed.
  Lemma skH c : length (sh c) = 2 + nw -> length (sk_H c) = nw.
  Proof. intros H. unfold sk_H. rewrite skipn_length. lia. Qed.

  Definition skok (c : st) : Prop := kok bs bs (2 + nw) c.
  Lemma sk_step_len r c t b : length c = 2 + nw -> length (sk_step nw r c t b) = 2 + nw.
  Proof. intros H. apply sk_block_len. rewrite skipn_length. lia. Qed.

  (** Two objects whose buffers agree on the used part. *)
  Definition skE (c c' : st) : Prop := kE bs bs (fun h => length h = 2 + nw) false c c'.
  Lemma sk_upd_E c c' d : skE c c' -> exists u u', sk_upd nw c d = Ok u /\ sk_upd nw c' d = Ok u' /\ skE u u'.
  Proof.
    intros H. unfold sk_upd. rewrite !md_update_as_res.
    destruct (update_E (fun h => length h = 2 + nw) (fun c t b => Ok (sk_step nw (N.of_nat (8 * nw)) c t b)) bs bs true ltac:(unfold bs; lia) (le_n _))
      with (full := false) (k := c) (k' := c') (d := d) as (u & u' & A & A' & C & _); auto.
    { intros c0 t b H1 H2. eexists. split; [reflexivity|]. apply sk_step_len; auto. }
    unfold bschk, bs in *. exists u, u'. auto.
  Qed.
  Lemma sk_finish_E c c' : skE c c' ->
    exists u, sk_finish nw c = Ok u /\ sk_finish nw c' = Ok u /\ skok u.
  Proof.
    intros (E1 & HI & E2 & E3 & L1 & L2 & HP & HA). unfold sk_finish. fold bs.
    assert (H1 : exists m, (if spos c <? bs then memset (sm c) (spos c) 0 (bs - spos c) else Ok (sm c)) = Ok m /\
      (if spos c' <? bs then memset (sm c') (spos c') 0 (bs - spos c') else Ok (sm c')) = Ok m /\ length m = bs).
    { rewrite <- E2. destruct (Nat.ltb_spec (spos c) bs).
      - destruct (memset_agree (spos c) (sm c) (sm c') (spos c) 0 (bs - spos c)) as (m & m' & -> & -> & A1 & A2 & A3); try lia; auto.
        replace (Nat.max (spos c) (spos c + (bs - spos c))) with bs in A3 by lia.
        rewrite !firstn_all2 in A3 by lia. subst m'. exists m. repeat split; auto. lia.
      - exists (sm c). assert (spos c = bs) by lia. rewrite !firstn_all2 in HA by lia. rewrite HA. repeat split; auto. }
    destruct H1 as (m & -> & -> & Lm). cbn [bind]. unfold md_transform1. rewrite load_ok by lia. cbn [bind].
    unfold sk_H. rewrite <- E1, <- E2, <- E3. eexists. split; [reflexivity|]. split; [reflexivity|].
    unfold skok, kok. cbn [sh sm spos block_loop]. rewrite sk_step_len; [auto|].
    cbn [app length]. rewrite skipn_length. lia.
  Qed.

  (** tweak[1] and the buffer may differ. *)
  Definition skw (c c' : st) : Prop :=
    nthN 0 (sh c) = nthN 0 (sh c') /\ sk_H c = sk_H c' /\ length (sk_H c) = nw /\ length (sm c) = bs /\ length (sm c') = bs /\
    spos c = 0 /\ spos c' = 0 /\ stotal c = stotal c'.
  Lemma sk_inject_E p code c c' : skw c c' ->
    exists u u', sk_inject nw p code c = Ok u /\ sk_inject nw p code c' = Ok u' /\ skw u u' /\ (skok c -> c = c' -> skok u /\ u = u').
  Proof.
    intros (E1 & E2 & L & L1 & L2 & P1 & P2 & E3). unfold sk_inject. destruct p as [|b p].
    - exists c, c'. repeat split; auto; apply H.
    - cbv zeta. set (d := b :: p). rewrite E1, E2, P1, P2, E3. rewrite E2 in L.
      match goal with |- context [sk_upd nw ?x d] => set (a := x) end.
      match goal with |- context [sk_upd nw (mkst ?q ?m ?r ?t) d] => lazymatch m with sm c' => set (a' := mkst q m r t) end end.
      assert (HE : skE a a').
      { unfold skE, kE, a, a'. cbn [sh sm spos stotal]. repeat split; auto; try lia. cbn [app length]. lia. }
      destruct (sk_upd_E a a' d HE) as (u & u' & -> & -> & HU). cbn [bind].
      destruct (sk_finish_E u u' HU) as (v & -> & -> & (V1 & V2 & V3)). cbn [bind].
      do 2 eexists. split; [reflexivity|]. split; [reflexivity|].
      pose proof (skH v V1) as LV.
      split.
      + unfold skw. cbn [sh sm spos stotal]. change (sk_H {| sh := [0%N; sk_tw1 48] ++ sk_H v; sm := sm v; spos := 0; stotal := 0 |}) with (sk_H v).
        auto 10.
      + intros _ _. split; [|reflexivity]. unfold skok, kok. cbn [sh sm spos app length]. repeat split; auto; lia.
  Qed.
  Lemma skok_w c : skok c -> spos c = 0 -> skw c c.
  Proof. intros (L1 & L2 & L3) H. unfold skw. rewrite (skH c L1). auto 10. Qed.

  Definition skW (s : sk_st) : Prop := length (sh (skc s)) = 2 + nw /\ length (sm (skc s)) = bs.
  Definition sk_par (s : sk_st) : list N * list N * list N := (skp s, skn s, skk s).
  Definition skEE (s s' : sk_st) : Prop :=
    skc s = skc s' /\ skok (skc s) /\ sksq s = sksq s' /\ sk_par s = sk_par s' /\
    (sksq s = true -> skhb s = skhb s' /\ length (skhb s) = nw).

  Lemma sk_init_E s s' : skW s -> skW s' -> sk_par s = sk_par s' ->
    exists t t', sk_init nw true s = Ok t /\ sk_init nw true s' = Ok t' /\ skEE t t' /\ sk_par t = sk_par s.
  Proof.
    intros [L1 L2] [L1' L2'] HP. injection HP as P1 P2 P3. unfold sk_init. cbv zeta. rewrite <- P1, <- P2, <- P3.
    match goal with |- context [sk_inject nw (skk s) 0 ?x] => lazymatch x with context [sm (skc s)] => set (a := x) end end.
    match goal with |- context [sk_inject nw (skk s) 0 (mkst ?q ?m ?r ?t)] => lazymatch m with sm (skc s') => set (a' := mkst q m r t) end end.
    assert (Ha : skw a a').
    { assert (Ea : sk_H a = zeros nw) by (unfold a, zero_memory; rewrite (skH _ L1); reflexivity).
      assert (Ea' : sk_H a' = zeros nw) by (unfold a', zero_memory; rewrite (skH _ L1'); reflexivity).
      unfold skw. rewrite Ea, Ea', zeros_length. unfold a, a'. cbn [sh sm spos stotal].
      repeat split; auto; lia. }
    destruct (sk_inject_E (skk s) 0 a a' Ha) as (c & c' & -> & -> & (E1 & E2 & L & M1 & M2 & _) & _). cbn [bind].
    unfold zero_memory. rewrite M1, M2, E1, E2.
    assert (HM : exists m, (m <- store (zeros bs) 0 83;; m <- store m 1 72;; m <- store m 2 65;; m <- store m 3 51;; m <- store m 4 1;; memcpy m 8 (le_bytes 8 (2 ^ 64 - 1)) 8) = Ok m /\ length m = bs).
    { assert (Hbs : 32 <= bs) by (unfold bs; lia).
      pose proof (zeros_length bs) as L0. revert L0. generalize (zeros bs). intros m0 L0.
      destruct (store_len m0 0 83 bs) as (m1 & -> & K1); try lia. cbn [bind].
      destruct (store_len m1 1 72 bs) as (m2 & -> & K2); try lia. cbn [bind].
      destruct (store_len m2 2 65 bs) as (m3 & -> & K3); try lia. cbn [bind].
      destruct (store_len m3 3 51 bs) as (m4 & -> & K4); try lia. cbn [bind].
      destruct (store_len m4 4 1 bs) as (m5 & -> & K5); try lia. cbn [bind].
      rewrite memcpy_ok by (rewrite ?le_bytes_length; lia). eexists. split; [reflexivity|].
      rewrite overlay_length; rewrite ?firstn_length, ?le_bytes_length; lia. }
    destruct HM as (m & HM & Lm).
    assert (HMM : forall X (f : list N -> res X), (m <- store (zeros bs) 0 83;; m <- store m 1 72;; m <- store m 2 65;; m <- store m 3 51;; m <- store m 4 1;; m <- memcpy m 8 (le_bytes 8 (2 ^ 64 - 1)) 8;; f m) = f m).
    { intros X f. revert HM. repeat (match goal with |- context [store ?x ?y ?z] => destruct (store x y z); cbn [bind]; [|discriminate|discriminate] end).
      intros ->. reflexivity. }
    rewrite !HMM. unfold md_transform1. rewrite load_ok by lia. cbn [bind].
    match goal with |- context [sk_inject nw (skp s) 8 ?x] => set (d := x) end.
    assert (Hd : skok d).
    { unfold skok, kok, d. cbn [sh sm spos app length]. repeat split; try lia. rewrite skipn_length. cbn [block_loop].
      rewrite sk_step_len; [lia|]. cbn [app length]. rewrite <- E2. lia. }
    destruct (sk_inject_E (skp s) 8 d d (skok_w d Hd eq_refl)) as (e & e' & A & A' & We & Ke). rewrite A. cbn [bind].
    destruct (Ke Hd eq_refl) as [Oe <-].
    destruct (sk_inject_E (skn s) 20 e e We) as (f & f' & B & B' & Wf & Kf). rewrite B. cbn [bind].
    destruct (Kf Oe eq_refl) as [Of <-].
    do 2 eexists. split; [reflexivity|]. split; [reflexivity|]. split; [|reflexivity].
    unfold skEE, sk_par. cbn [skc skhb sksq skp skn skk]. repeat split; try apply Of; try congruence; discriminate.
  Qed.
  Lemma sk_update_E s s' d : skEE s s' ->
    exists t t', sk_update nw s d = Ok t /\ sk_update nw s' d = Ok t' /\ skEE t t' /\ sk_par t = sk_par s.
  Proof.
    intros (E1 & HO & E2 & E3 & E4). unfold sk_update. rewrite <- E1.
    destruct (sk_upd_E (skc s) (skc s) d (kok_E _ _ _ _ HO)) as (u & u' & A & A' & HE). rewrite A. cbn [bind].
    do 2 eexists. split; [reflexivity|]. split; [reflexivity|]. split; [|reflexivity].
    unfold skEE, sk_par in *. cbn [skc skhb sksq skp skn skk]. destruct HE as (_ & HI & _ & _ & M1 & _ & M2 & _).
    repeat split; auto; apply E4; auto.
  Qed.
  Lemma sk_loop_ok hbk fuel : forall c hs processed out, length hbk = nw -> skok c -> processed <= hs -> hs - processed <= fuel -> length out = processed ->
    exists c' o, sk_loop nw hbk fuel c hs processed out = Ok (c', o) /\ skok c' /\ length o = hs.
  Proof.
    induction fuel as [|f IH]; intros c hs processed out Lh Hc Hpr Hf Ho; cbn [sk_loop].
    - destruct (Nat.ltb_spec processed hs); [lia|]. do 2 eexists. split; [reflexivity|]. split; auto. lia.
    - destruct (Nat.ltb_spec processed hs).
      + destruct Hc as (L1 & L2 & L3). assert (32 <= bs) by (unfold bs; lia).
        rewrite memcpy_ok by (rewrite ?le_bytes_length; lia). cbn [bind]. unfold md_transform1.
        assert (LO : length (overlay (sm c) 0 (firstn 8 (le_bytes 8 (stotal c)))) = bs).
        { rewrite overlay_length; rewrite ?firstn_length, ?le_bytes_length; lia. }
        fold bs. rewrite load_ok by lia. cbn [bind block_loop].
        match goal with |- context [skipn 2 (sk_step nw 8 ?x ?y ?z)] => assert (LS : length (sk_step nw 8 x y z) = 2 + nw) end.
        { apply sk_step_len. cbn [app length]. lia. }
        rewrite load_ok by (rewrite words_bytes_length, skipn_length, LS; unfold bs; lia). cbn [bind].
        apply IH; auto; try lia.
        * unfold skok, kok. cbn [sh sm spos]. repeat split; auto. lia.
        * rewrite app_length, firstn_length, skipn_length, words_bytes_length, skipn_length, LS. unfold bs. lia.
      + do 2 eexists. split; [reflexivity|]. split; auto. lia.
  Qed.
  Lemma sk_squeeze_E s s' n : skEE s s' ->
    exists t t' w, sk_squeeze nw s n = Ok (t, w) /\ sk_squeeze nw s' n = Ok (t', w) /\ length w = n /\ skEE t t' /\ sk_par t = sk_par s.
  Proof.
    intros (E1 & HO & E2 & E3 & E4). unfold sk_squeeze. rewrite <- E1, <- E2.
    match goal with |- exists t t' w, bind ?x _ = _ /\ bind ?y _ = _ /\ _ =>
      assert (H1 : exists c hbk processed out, x = Ok (c, hbk, processed, out) /\ y = Ok (c, hbk, processed, out) /\ skok c /\ length hbk = nw /\
        processed <= n /\ length out = processed) end.
    { pose proof HO as (L1 & L2 & L3). destruct (sksq s).
      - destruct (E4 eq_refl) as [<- Lb]. fold bs. destruct (Nat.ltb_spec (spos (skc s)) bs).
        + rewrite load_ok by (rewrite words_bytes_length, (skH _ L1); unfold bs in *; lia). cbn [bind].
          do 4 eexists. split; [reflexivity|]. split; [reflexivity|]. unfold skok, kok. cbn [sh sm spos]. repeat split; auto; try lia.
          rewrite firstn_length, skipn_length, words_bytes_length, (skH _ L1). unfold bs in *; lia.
        + do 4 eexists. split; [reflexivity|]. split; [reflexivity|]. split; [exact HO|]. repeat split; auto; lia.
      - destruct (sk_finish_E (skc s) (skc s) (kok_E _ _ _ _ HO)) as (u & -> & _ & (U1 & U2 & U3)). cbn [bind]. fold bs.
        rewrite memset_ok by lia. cbn [bind]. do 4 eexists. split; [reflexivity|]. split; [reflexivity|].
        rewrite (skH _ U1). unfold skok, kok. cbn [sh sm spos length]. rewrite overlay_length by (rewrite repeat_length; lia). repeat split; auto; lia. }
    destruct H1 as (c & hbk & processed & out & -> & -> & Hc & Lh & Hpr & Lo). cbn [bind].
    destruct (sk_loop_ok hbk n c n processed out Lh Hc Hpr ltac:(lia) Lo) as (c' & o & -> & Hc' & Lo'). cbn [bind].
    do 3 eexists. split; [reflexivity|]. split; [reflexivity|]. split; [exact Lo'|]. split; [|reflexivity].
    unfold skEE, sk_par in *. cbn [skc skhb sksq skp skn skk]. repeat split; auto; apply Hc'.
  Qed.

  Definition sk_setp (q : sk_param) (v : list N) (x : list N * list N * list N) : option (list N * list N * list N) :=
    let '(p, n, k) := x in Some match q with SkPers => (v, n, k) | SkNonce => (p, v, k) | SkKey => (p, n, v) end.
  Hypothesis Hin : In nw [4; 8; 16].
  Definition skein_rob : xrob (skein_xof_type nw) (list N * list N * list N).
  Proof.
    refine (Build_xrob (skein_xof nw) (skein_xof_type nw) _ sk_par skW skEE sk_setp (fun _ => ([], [], [])) ([], [], []) _ _ _ _ _ _ _).
    - constructor; cbn [skein_xof xp sk_base pst p_init p_update p_clear p_param p_set].
      + intros s s' (E1 & (L1 & L2 & L3) & E2 & E3 & E4). unfold skW. rewrite <- E1. auto.
      + intros s s' W1 W2 H. apply sk_init_E; auto.
      + intros s [L1 L2]. eexists. split; [reflexivity|]. split; [|reflexivity]. unfold skW, sk_wipe, zero_memory. cbn [skc sh sm].
        rewrite !zeros_length. auto.
      + intros [] v s _ H; unfold sk_setp, sk_par; eexists; (split; [reflexivity|]); split; auto.
      + intros s s' d _ H. apply sk_update_E. exact H.
    - intros s s' n H. apply sk_squeeze_E. exact H.
    - intros g [G1 G2]. cbn [xt_new skein_xof_type]. unfold fresh_of, sk_ctor.
      replace (Validate.validate_max (64 * N.of_nat nw) (2 ^ 64 - 1)) with (Ok tt)
        by (destruct Hin as [<-|[<-|[<-|[]]]]; reflexivity).
      cbn [bind]. eexists. split; [reflexivity|]. split; [|reflexivity]. split; assumption.
    - intros q v [[p n] k]. reflexivity.
    - intros [] [] v1 v2 [[p n] k] x1 x2 H E1 E2; try congruence; injection E1 as <-; injection E2 as <-; reflexivity.
    - intros [] v1 v2 [[p n] k] x1 _ E1; injection E1 as <-; reflexivity.
    - reflexivity.
  Defined.
End SkeinRob.
