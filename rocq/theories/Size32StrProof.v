(** * Proofs about string lengths with a size_t of [W] bits (C67). *)
From Verif Require Import Base Absorb Hasher MdState Keccak Squeeze Sha3 Shake Kmac Ascon Validate Library LibraryTypes Size32Str.

(** ** Providers that agree as long as an invariant holds *)
Section Agree.
  Variables (P : provider) (init : pst P -> res (pst P)) (set : p_param P -> list N -> pst P -> setres (pst P)).
  Variables (I : pst P -> Prop) (ok : list N -> Prop).
  Hypothesis Hinit : forall s, I s -> init s = p_init P s.
  Hypothesis Iinit : forall s t, I s -> p_init P s = Ok t -> I t.
  Hypothesis Iupd : forall s d t, I s -> p_update P s d = Ok t -> I t.
  Hypothesis Iclr : forall s t, I s -> p_clear P s = Ok t -> I t.
  Hypothesis Hset : forall p v s, ok v -> set p v s = p_set P p v s.
  Hypothesis Iset : forall p v s, ok v -> I s -> match p_set P p v s with Done t | Raised t => I t | SetUB _ => True end.
  Let P' := retool P init set.

  Definition ok_op (o : base_op (p_param P)) : Prop := match o with SetParam _ v => ok v | _ => True end.

  Lemma Istream : forall f s d t, I s -> absorb_stream P f s d = Ok t -> I t.
  Proof.
    induction f as [|f IH]; intros s d t HI; cbn [absorb_stream].
    - destruct (_ <=? _); [intros E; injection E as <-; exact HI|].
      destruct (_ =? _)%nat; [intros E; injection E as <-; exact HI|]. exact (Iupd _ _ _ HI).
    - destruct (_ <=? _).
      + destruct (p_update P s _) as [s1| |] eqn:E; cbn [bind]; try discriminate.
        exact (IH _ _ _ (Iupd _ _ _ HI E)).
      + destruct (_ =? _)%nat; [intros E; injection E as <-; exact HI|]. exact (Iupd _ _ _ HI).
  Qed.
  Lemma Iiter : forall d s t, I s -> absorb_iter P s d = Ok t -> I t.
  Proof.
    induction d as [|b r IH]; intros s t HI; cbn [absorb_iter]; [intros E; injection E as <-; exact HI|].
    destruct (p_update P s [b]) as [s1| |] eqn:E; cbn [bind]; try discriminate. exact (IH _ _ (Iupd _ _ _ HI E)).
  Qed.
  Lemma Iabsorb f s d t : I s -> absorb P f s d = Ok t -> I t.
  Proof.
    intros HI. destruct f; cbn [absorb].
    - exact (Iupd _ _ _ HI).
    - unfold absorb_str. destruct d; [intros E; injection E as <-; exact HI|exact (Iupd _ _ _ HI)].
    - exact (Istream _ _ _ _ HI).
    - intros E; injection E as <-; exact HI.
    - exact (Iiter _ _ _ HI).
  Qed.
  Lemma stream_same : forall f s d, absorb_stream P' f s d = absorb_stream P f s d.
  Proof. reflexivity. Qed.

  Lemma base_agree s o : I s -> ok_op o -> base_step P' s o = base_step P s o.
  Proof.
    intros HI Ho. destruct o as [f d|b|p v]; cbn [base_step].
    - reflexivity.
    - unfold reset. cbn [p_clear p_init P' retool].
      destruct b; cbn [bind]; [|rewrite (Hinit _ HI); reflexivity].
      destruct (p_clear P s) as [t| |] eqn:E; cbn [bind]; [|reflexivity|reflexivity].
      rewrite (Hinit _ (Iclr _ _ HI E)). reflexivity.
    - unfold set_param. cbn [p_set p_init P' retool]. rewrite (Hset _ _ _ Ho).
      generalize (Iset p v s Ho HI). destruct (p_set P p v s) as [t|t|u]; intros Ht; try reflexivity.
      rewrite (Hinit _ Ht). reflexivity.
  Qed.
  Lemma base_inv s o t x : I s -> ok_op o -> base_step P s o = Ok (t, x) -> I t.
  Proof.
    intros HI Ho. destruct o as [f d|b|p v]; cbn [base_step].
    - destruct (absorb P f s d) as [a| |] eqn:E; cbn [bind]; try discriminate.
      intros H; injection H as <- _. exact (Iabsorb _ _ _ _ HI E).
    - unfold reset. destruct b; cbn [bind].
      + destruct (p_clear P s) as [c| |] eqn:E; cbn [bind]; try discriminate.
        destruct (p_init P c) as [a| |] eqn:E2; cbn [bind]; try discriminate.
        intros H; injection H as <- _. exact (Iinit _ _ (Iclr _ _ HI E) E2).
      + destruct (p_init P s) as [a| |] eqn:E2; cbn [bind]; try discriminate.
        intros H; injection H as <- _. exact (Iinit _ _ HI E2).
    - unfold set_param. generalize (Iset p v s Ho HI). destruct (p_set P p v s) as [a|a|u]; intros Ha; cbn [bind]; try discriminate.
      + destruct (p_init P a) as [b| |] eqn:E2; cbn [bind]; try discriminate.
        intros H; injection H as <- _. exact (Iinit _ _ Ha E2).
      + intros H; injection H as <- _. exact Ha.
  Qed.
End Agree.

Section AgreeHash.
  Variables (P : hash_provider) (init : pst P -> res (pst P)) (set : p_param P -> list N -> pst P -> setres (pst P)).
  Variable fin : pst P -> res (pst P * list N).
  Variables (I : pst P -> Prop) (ok : list N -> Prop).
  Hypothesis Hinit : forall s, I s -> init s = p_init P s.
  Hypothesis Iinit : forall s t, I s -> p_init P s = Ok t -> I t.
  Hypothesis Iupd : forall s d t, I s -> p_update P s d = Ok t -> I t.
  Hypothesis Iclr : forall s t, I s -> p_clear P s = Ok t -> I t.
  Hypothesis Hset : forall p v s, ok v -> set p v s = p_set P p v s.
  Hypothesis Iset : forall p v s, ok v -> I s -> match p_set P p v s with Done t | Raised t => I t | SetUB _ => True end.
  Hypothesis Hfin : forall s, I s -> fin s = hp_final P s.
  Definition P1 : hash_provider := {| hp := retool P init set; hp_final := fin; hp_size := hp_size P |}.

  Lemma hash_agree : forall ops s, I s ->
    Forall (fun o => match o with HBase b => ok_op P ok b | _ => True end) ops ->
    hash_run P1 s ops = hash_run P s ops.
  Proof.
    induction ops as [|o r IH]; intros s HI Ho; [reflexivity|]. inversion Ho as [|? ? H1 H2]; subst.
    assert (E : hash_step P1 s o = hash_step P s o /\ forall t x, hash_step P s o = Ok (t, x) -> I t).
    { destruct o as [b|buf| |]; cbn [hash_step].
      - split; [exact (base_agree P init set I ok Hinit Iclr Hset Iset s b HI H1)|].
        intros t x. exact (base_inv P I ok Iinit Iupd Iclr Iset s b t x HI H1).
      - split.
        + unfold digest_buf. cbn [hp_size hp_final P1]. rewrite (Hfin s HI). reflexivity.
        + intros t x. destruct (digest_buf P s buf); cbn [bind]; try discriminate. intros H; injection H as <- _; exact HI.
      - split.
        + unfold digest_iter. cbn [hp_size hp_final P1]. rewrite (Hfin s HI). reflexivity.
        + intros t x. destruct (digest_iter P s); cbn [bind]; try discriminate. intros H; injection H as <- _; exact HI.
      - split.
        + unfold digest_iter. cbn [hp_size hp_final P1]. rewrite (Hfin s HI). reflexivity.
        + intros t x. destruct (digest_iter P s); cbn [bind]; try discriminate. intros H; injection H as <- _; exact HI. }
    destruct E as [E EI]. cbn [hash_run]. rewrite E.
    destruct (hash_step P s o) as [[t x]| |]; cbn [bind]; [|reflexivity|reflexivity].
    rewrite (IH t (EI t x eq_refl) H2). reflexivity.
  Qed.
  Lemma hash_run_inv : forall ops s t xs, I s ->
    Forall (fun o => match o with HBase b => ok_op P ok b | _ => True end) ops ->
    hash_run P s ops = Ok (t, xs) -> I t.
  Proof.
    induction ops as [|o r IH]; intros s t xs HI Ho; cbn [hash_run].
    { intros H; injection H as <- _; exact HI. }
    inversion Ho as [|? ? H1 H2]; subst.
    destruct (hash_step P s o) as [[s1 x]| |] eqn:E; cbn [bind]; try discriminate.
    assert (HI1 : I s1).
    { destruct o as [b|buf| |]; cbn [hash_step] in E.
      - exact (base_inv P I ok Iinit Iupd Iclr Iset s b s1 x HI H1 E).
      - destruct (digest_buf P s buf); cbn [bind] in E; try discriminate. injection E as <- _; exact HI.
      - destruct (digest_iter P s); cbn [bind] in E; try discriminate. injection E as <- _; exact HI.
      - destruct (digest_iter P s); cbn [bind] in E; try discriminate. injection E as <- _; exact HI. }
    destruct (hash_run P s1 r) as [[s2 ys]| |] eqn:E2; cbn [bind]; try discriminate.
    intros H; injection H as <- _. exact (IH _ _ _ HI1 H2 E2).
  Qed.
End AgreeHash.

Section AgreeXof.
  Variables (P : xof_provider) (init : pst P -> res (pst P)) (set : p_param P -> list N -> pst P -> setres (pst P)).
  Variable sq : pst P -> nat -> res (pst P * list N).
  Variables (I : pst P -> Prop) (ok : list N -> Prop).
  Hypothesis Hinit : forall s, I s -> init s = p_init P s.
  Hypothesis Iinit : forall s t, I s -> p_init P s = Ok t -> I t.
  Hypothesis Iupd : forall s d t, I s -> p_update P s d = Ok t -> I t.
  Hypothesis Iclr : forall s t, I s -> p_clear P s = Ok t -> I t.
  Hypothesis Hset : forall p v s, ok v -> set p v s = p_set P p v s.
  Hypothesis Iset : forall p v s, ok v -> I s -> match p_set P p v s with Done t | Raised t => I t | SetUB _ => True end.
  Hypothesis Hsq : forall s n, I s -> sq s n = xp_squeeze P s n.
  Hypothesis Isq : forall s n t x, I s -> xp_squeeze P s n = Ok (t, x) -> I t.
  Definition X1 : xof_provider := {| xp := retool P init set; xp_squeeze := sq |}.

  Lemma sqbuf_agree s n : I s -> squeeze_buf X1 s n = squeeze_buf P s n.
  Proof. intros HI. unfold squeeze_buf. cbn [xp_squeeze X1]. rewrite (Hsq s n HI). reflexivity. Qed.
  Lemma sqbuf_inv s n t x : I s -> squeeze_buf P s n = Ok (t, x) -> I t.
  Proof.
    intros HI. unfold squeeze_buf. destruct (xp_squeeze P s n) as [[a w]| |] eqn:E; cbn [bind]; try discriminate.
    destruct (memcpy _ _ _ _); cbn [bind]; try discriminate. intros H; injection H as <- _. exact (Isq _ _ _ _ HI E).
  Qed.
  Lemma sqiter_agree s n : I s -> squeeze_iter X1 s n = squeeze_iter P s n.
  Proof. intros HI. destruct n; [reflexivity|]. exact (sqbuf_agree s _ HI). Qed.
  Lemma sqiter_inv s n t x : I s -> squeeze_iter P s n = Ok (t, x) -> I t.
  Proof. intros HI. destruct n; [discriminate|]. exact (sqbuf_inv s _ t x HI). Qed.

  Definition ok_xop (o : xof_op (p_param P)) : Prop := match o with XBase b => ok_op P ok b | _ => True end.
  Lemma xstep_agree s o : I s -> ok_xop o -> xof_step X1 s o = xof_step P s o.
  Proof.
    intros HI Ho. destruct o as [b|n|n|n]; cbn [xof_step].
    - exact (base_agree P init set I ok Hinit Iclr Hset Iset s b HI Ho).
    - rewrite (sqbuf_agree s n HI). reflexivity.
    - rewrite (sqiter_agree s n HI). reflexivity.
    - rewrite (sqiter_agree s n HI). reflexivity.
  Qed.
  Lemma xstep_inv s o t x : I s -> ok_xop o -> xof_step P s o = Ok (t, x) -> I t.
  Proof.
    intros HI Ho. destruct o as [b|n|n|n]; cbn [xof_step].
    - exact (base_inv P I ok Iinit Iupd Iclr Iset s b t x HI Ho).
    - destruct (squeeze_buf P s n) as [[a w]| |] eqn:E; cbn [bind]; try discriminate.
      intros H; injection H as <- _. exact (sqbuf_inv _ _ _ _ HI E).
    - destruct (squeeze_iter P s n) as [[a w]| |] eqn:E; cbn [bind]; try discriminate.
      intros H; injection H as <- _. exact (sqiter_inv _ _ _ _ HI E).
    - destruct (squeeze_iter P s n) as [[a w]| |] eqn:E; cbn [bind]; try discriminate.
      intros H; injection H as <- _. exact (sqiter_inv _ _ _ _ HI E).
  Qed.
  Lemma xof_agree : forall ops s, I s -> Forall ok_xop ops ->
    xof_run X1 s ops = xof_run P s ops /\ forall t xs, xof_run P s ops = Ok (t, xs) -> I t.
  Proof.
    induction ops as [|o r IH]; intros s HI Ho; cbn [xof_run].
    { split; [reflexivity|]. intros t xs H; injection H as <- _; exact HI. }
    inversion Ho as [|? ? H1 H2]; subst. rewrite (xstep_agree s o HI H1).
    destruct (xof_step P s o) as [[s1 x]| |] eqn:E; cbn [bind]; try (split; [reflexivity|discriminate]).
    destruct (IH s1 (xstep_inv s o s1 x HI H1 E) H2) as [A B]. rewrite A. split; [reflexivity|].
    intros t xs. destruct (xof_run P s1 r) as [[s2 ys]| |]; cbn [bind]; try discriminate.
    intros H; injection H as <- _. exact (B _ _ eq_refl).
  Qed.
End AgreeXof.

Lemma three_agree {S : Type} (J : S -> Prop) (n n' : res S) (f f' h h' : S -> res (S * list out)) :
  n' = n -> (forall s, n = Ok s -> J s) ->
  (forall s, J s -> f' s = f s /\ forall t xs, f s = Ok (t, xs) -> J t) ->
  (forall s, J s -> h' s = h s /\ forall t xs, h s = Ok (t, xs) -> J t) ->
  (s <- n' ;; ' (s, _) <- f' s ;; ' (_, l) <- h' s ;; Ok l) = (s <- n ;; ' (s, _) <- f s ;; ' (_, l) <- h s ;; Ok l).
Proof.
  intros -> Hn Hf Hh. destruct n as [s| |]; cbn [bind]; [|reflexivity|reflexivity].
  destruct (Hf s (Hn s eq_refl)) as [A B]. rewrite A.
  destruct (f s) as [[s1 xs]| |]; cbn [bind]; [|reflexivity|reflexivity].
  rewrite (proj1 (Hh s1 (B _ _ eq_refl))). reflexivity.
Qed.

(** ** The types *)
Section Types.
  Variable W : N.
  Hypothesis HW : 16 <= W <= 64.

  Lemma trunc_short x : x < 2 ^ W -> trunc W x = trunc 64 x.
  Proof.
    intros H. unfold trunc.
    assert (2 ^ W <= 2 ^ 64) by (apply N.pow_le_mono_r; lia).
    rewrite !N.land_ones, !N.mod_small; lia.
  Qed.
  Lemma trunc_len v : short_str W v -> trunc W (N.of_nat (length v) * 8) = trunc 64 (N.of_nat (length v) * 8).
  Proof. intros H. apply trunc_short. unfold short_str in H. lia. Qed.
  Lemma pow16 : 2 ^ 16 <= 2 ^ W.
  Proof. apply N.pow_le_mono_r; lia. Qed.
  Lemma short_small v : N.of_nat (length v) < 8192 -> short_str W v.
  Proof. intros H. unfold short_str. pose proof pow16. change (2 ^ 16) with 65536 in *. lia. Qed.
  Lemma short_nil : short_str W [].
  Proof. apply short_small. reflexivity. Qed.

  (** cSHAKE *)
  Definition shI (s : shake_st) : Prop := short_str W (hN s) /\ short_str W (hS s).
  Lemma upd_names B R s d t : shake_update B R s d = Ok t -> hN t = hN s /\ hS t = hS s.
  Proof.
    unfold shake_update. destruct (md_update_res _ _ _ _ _); cbn [bind]; try discriminate.
    intros H; injection H as <-. split; reflexivity.
  Qed.
  Lemma upds_names B R s d t : shake_update_str B R s d = Ok t -> hN t = hN s /\ hS t = hS s.
  Proof. destruct d; cbn [shake_update_str]; [intros H; injection H as <-; split; reflexivity|apply upd_names]. Qed.

  Lemma shake_init_short B R s : shI s -> shake_init_sz W B R s = shake_init B R s.
  Proof.
    intros [HN HS]. unfold shake_init_sz, shake_init. cbn [hN hS].
    assert (G : forall s0 : shake_st, hN s0 = hN s -> hS s0 = hS s ->
      (let e1 := left_encode (N.of_nat (N.to_nat (shake_rate B / 8))) in
       let total := length e1 in
       s <- shake_update B R s0 e1 ;;
       let e2 := left_encode (trunc W (N.of_nat (length (hN s)) * 8)) in
       let total := (total + length e2)%nat in
       s <- shake_update B R s e2 ;;
       s <- shake_update_str B R s (hN s) ;;
       let e3 := left_encode (trunc W (N.of_nat (length (hS s)) * 8)) in
       s <- shake_update B R s e3 ;;
       let total := (total + length e3)%nat in
       s <- shake_update_str B R s (hS s) ;;
       let total := (total + (length (hS s) + length (hN s)))%nat in
       let len := (N.to_nat (shake_rate B / 8) - total mod N.to_nat (shake_rate B / 8))%nat in
       shake_update B R s (zeros len)) =
      (let e1 := left_encode (N.of_nat (N.to_nat (shake_rate B / 8))) in
       let total := length e1 in
       s <- shake_update B R s0 e1 ;;
       let e2 := left_encode (trunc 64 (N.of_nat (length (hN s)) * 8)) in
       let total := (total + length e2)%nat in
       s <- shake_update B R s e2 ;;
       s <- shake_update_str B R s (hN s) ;;
       let e3 := left_encode (trunc 64 (N.of_nat (length (hS s)) * 8)) in
       s <- shake_update B R s e3 ;;
       let total := (total + length e3)%nat in
       s <- shake_update_str B R s (hS s) ;;
       let total := (total + (length (hS s) + length (hN s)))%nat in
       let len := (N.to_nat (shake_rate B / 8) - total mod N.to_nat (shake_rate B / 8))%nat in
       shake_update B R s (zeros len))).
    { intros s0 EN ES. cbv zeta.
      destruct (shake_update B R s0 _) as [s1| |] eqn:E1; cbn [bind]; [|reflexivity|reflexivity].
      destruct (upd_names _ _ _ _ _ E1) as [N1 S1].
      rewrite N1, EN, (trunc_len _ HN).
      destruct (shake_update B R s1 _) as [s2| |] eqn:E2; cbn [bind]; [|reflexivity|reflexivity].
      destruct (upd_names _ _ _ _ _ E2) as [N2 S2].
      destruct (shake_update_str B R s2 _) as [s3| |] eqn:E3; cbn [bind]; [|reflexivity|reflexivity].
      destruct (upds_names _ _ _ _ _ E3) as [N3 S3].
      rewrite S3, S2, S1, ES, (trunc_len _ HS). reflexivity. }
    destruct (hN s) eqn:EN; [destruct (hS s) eqn:ES; [reflexivity|]|]; apply G; cbn [hN hS]; congruence.
  Qed.
  Lemma shake_init_names B R s t : shake_init B R s = Ok t -> hN t = hN s /\ hS t = hS s.
  Proof.
    unfold shake_init. cbn [hN hS].
    assert (G : forall (s0 : shake_st) d1 d2 (f : shake_st -> list N) d4 d5 (h : shake_st -> list N) (l : shake_st -> list N),
      hN s0 = hN s -> hS s0 = hS s ->
      (s1 <- shake_update B R s0 d1 ;; s2 <- shake_update B R s1 (d2 s1) ;; s3 <- shake_update_str B R s2 (f s2) ;;
       s4 <- shake_update B R s3 (d4 s1 s3) ;; s5 <- shake_update_str B R s4 (h s4) ;; shake_update B R s5 (d5 s1 s3 s5)) = Ok t ->
      hN t = hN s /\ hS t = hS s).
    { intros s0 d1 d2 f d4 d5 h _ EN ES.
      destruct (shake_update B R s0 _) as [s1| |] eqn:E1; cbn [bind]; try discriminate.
      destruct (shake_update B R s1 _) as [s2| |] eqn:E2; cbn [bind]; try discriminate.
      destruct (shake_update_str B R s2 _) as [s3| |] eqn:E3; cbn [bind]; try discriminate.
      destruct (shake_update B R s3 _) as [s4| |] eqn:E4; cbn [bind]; try discriminate.
      destruct (shake_update_str B R s4 _) as [s5| |] eqn:E5; cbn [bind]; try discriminate.
      intros E6.
      destruct (upd_names _ _ _ _ _ E1), (upd_names _ _ _ _ _ E2), (upds_names _ _ _ _ _ E3), (upd_names _ _ _ _ _ E4),
        (upds_names _ _ _ _ _ E5), (upd_names _ _ _ _ _ E6). split; congruence. }
    destruct (hN s) eqn:EN; [destruct (hS s) eqn:ES|].
    - intros H; injection H as <-. cbn. split; congruence.
    - intros H. cbv zeta in H.
      refine (G (mksh (mkst (zeros 25) (sm (hk s)) 0 0) [] (_ :: _) false 0) _ (fun s => _) hN (fun s1 s => _) (fun s1 s3 s => _) hS hS eq_refl eq_refl H).
    - intros H. cbv zeta in H.
      refine (G (mksh (mkst (zeros 25) (sm (hk s)) 0 0) (_ :: _) (hS s) false 0) _ (fun s => _) hN (fun s1 s => _) (fun s1 s3 s => _) hS hS eq_refl eq_refl H).
  Qed.

  Lemma shake_sq_names B R s n t x : shake_squeeze B R s n = Ok (t, x) -> hN t = hN s /\ hS t = hS s.
  Proof.
    unfold shake_squeeze. destruct (hsq s).
    - destruct (sq_more _ _ _ _ _ _) as [[[a b] c]| |]; cbn [bind]; try discriminate.
      intros H; injection H as <- _. split; reflexivity.
    - cbv zeta. destruct (kc_pad_block _ _ _ _) as [k| |]; cbn [bind]; try discriminate.
      destruct (sq_first _ _ _ _ _ _) as [[[a b] c]| |]; cbn [bind]; try discriminate.
      intros H; injection H as <- _. split; reflexivity.
  Qed.
  Lemma shI_eq s t : hN t = hN s /\ hS t = hS s -> shI s -> shI t.
  Proof. intros [A B] [C D]. unfold shI. rewrite A, B. split; assumption. Qed.
  Lemma shI_clear s t : shake_clear s = Ok t -> shI t.
  Proof. intros H; injection H as <-. split; exact short_nil. Qed.

  Lemma cshake_runs B (ops : list (xof_op cshake_param)) (s : shake_st) : shI s -> Forall (xshort_set W) ops ->
    xof_run (cshake_sz W B) s ops = xof_run (cshake B 24) s ops /\
    forall (t : shake_st) xs, xof_run (cshake B 24) s ops = Ok (t, xs) -> shI t.
  Proof.
    intros HI Ho.
    refine (xof_agree (cshake B 24) (shake_init_sz W B 24) cshake_set (shake_squeeze B 24) shI (short_str W)
      _ _ _ _ _ _ _ _ ops s HI _).
    - exact (shake_init_short B 24).
    - intros a b Ha E. exact (shI_eq a b (shake_init_names _ _ _ _ E) Ha).
    - intros a d b Ha E. exact (shI_eq a b (upd_names _ _ _ _ _ E) Ha).
    - intros a b _ E. exact (shI_clear a b E).
    - reflexivity.
    - intros p v a Hv [H1 H2]. destruct p; split; assumption.
    - reflexivity.
    - intros a n b x Ha E. exact (shI_eq a b (shake_sq_names _ _ _ _ _ _ E) Ha).
    - refine (Forall_impl _ _ Ho). intros [[| |]| | |] Hx; exact Hx.
  Qed.
  Lemma cshake_short B (g : shake_mem) (pre post : list (xof_op cshake_param)) : Forall (xshort_set W) pre -> Forall (xshort_set W) post ->
    xafter (cshake_type_sz W B) g pre post = xafter (cshake_type B) g pre post.
  Proof.
    intros H1 H2. unfold xafter.
    assert (I0 : shI (mksh (fst (fst g)) [] [] (snd (fst g)) (snd g))) by (split; exact short_nil).
    refine (three_agree shI (xt_new (cshake_type B) g) (xt_new (cshake_type_sz W B) g) (fun s : shake_st => xof_run (cshake B 24) s pre)
      (fun s : shake_st => xof_run (cshake_sz W B) s pre) (fun s : shake_st => xof_run (cshake B 24) s post) (fun s : shake_st => xof_run (cshake_sz W B) s post) _ _ _ _).
    - exact (shake_init_short B 24 _ I0).
    - intros s E. exact (shI_eq _ _ (shake_init_names B 24 (mksh (fst (fst g)) [] [] (snd (fst g)) (snd g)) s E) I0).
    - intros s HI. exact (cshake_runs B pre s HI H1).
    - intros s HI. exact (cshake_runs B post s HI H2).
  Qed.

  (** KMAC: K holds the encoding already; hs is a size_t. *)
  Definition kmI (s : kmac_st) : Prop := short_str W (hS (kmsh s)) /\ kmhs s < 2 ^ W.
  Lemma bytepad_short B v : short_str W v -> kmac_bytepad_sz W B v = kmac_bytepad B v.
  Proof. intros H. unfold kmac_bytepad_sz, kmac_bytepad. rewrite (trunc_len v H). reflexivity. Qed.
  Lemma kmac_init_short B s : kmI s -> kmac_init_sz W B s = kmac_init B s.
  Proof.
    intros [HS _]. unfold kmac_init_sz, kmac_init. cbv zeta. rewrite shake_init_short; [reflexivity|].
    split; cbn [hN hS]; [|exact HS]. apply short_small. reflexivity.
  Qed.
  Lemma kmac_upd_keeps B s d t : kmac_update B s d = Ok t -> hS (kmsh t) = hS (kmsh s) /\ kmhs t = kmhs s.
  Proof.
    unfold kmac_update. destruct (shake_update B 24 (kmsh s) d) as [x| |] eqn:E; cbn [bind]; try discriminate.
    intros H; injection H as <-. cbn. split; [exact (proj2 (upd_names _ _ _ _ _ E))|reflexivity].
  Qed.
  Lemma kmac_init_keeps B s t : kmac_init B s = Ok t -> hS (kmsh t) = hS (kmsh s) /\ kmhs t = kmhs s.
  Proof.
    unfold kmac_init. cbv zeta. destruct (shake_init B 24 _) as [x| |] eqn:E; cbn [bind]; try discriminate.
    intros H. destruct (kmac_upd_keeps _ _ _ _ H) as [A C]. cbn in A, C.
    split; [rewrite A; exact (proj2 (shake_init_names _ _ _ _ E))|exact C].
  Qed.
  Lemma kmI_eq s t : hS (kmsh t) = hS (kmsh s) /\ kmhs t = kmhs s -> kmI s -> kmI t.
  Proof. intros [A B] [C D]. unfold kmI. rewrite A, B. split; assumption. Qed.
  Lemma kmac_sq_keeps B X s n t x : kmac_squeeze B X s n = Ok (t, x) -> hS (kmsh t) = hS (kmsh s) /\ kmhs t = kmhs s.
  Proof.
    unfold kmac_squeeze. intros H.
    match type of H with (y <- ?e ;; _) = _ => destruct e as [s1| |] eqn:E end; cbn [bind] in H; try discriminate.
    assert (K : hS (kmsh s1) = hS (kmsh s) /\ kmhs s1 = kmhs s).
    { destruct (kmsq s); [injection E as <-; split; reflexivity|].
      destruct (kmac_update B s _) as [s2| |] eqn:E2; cbn [bind] in E; try discriminate. injection E as <-.
      exact (kmac_upd_keeps _ _ _ _ E2). }
    destruct (shake_squeeze B 24 (kmsh s1) n) as [[sh o]| |] eqn:E3; cbn [bind] in H; try discriminate.
    injection H as <- _. cbn. destruct K as [K1 K2]. split; [|exact K2].
    rewrite <- K1. exact (proj2 (shake_sq_names _ _ _ _ _ _ E3)).
  Qed.
  Lemma kmac_final_short B s : kmI s -> kmac_final_sz W B s = kmac_final B false s.
  Proof.
    intros [_ H]. unfold kmac_final_sz, kmac_final, kmac_squeeze_sz, kmac_squeeze.
    rewrite (trunc_short (N.of_nat (N.to_nat (kmhs s / 8)) * 8)); [reflexivity|].
    rewrite N2Nat.id. pose proof (N.mul_div_le (kmhs s) 8). lia.
  Qed.
  Lemma kmac_xsq_short B s n : kmac_squeeze_sz W B true s n = kmac_squeeze B true s n.
  Proof. reflexivity. Qed.
  Lemma kmac_set_short B p v s : short_str W v -> kmac_set_sz W B p v s = kmac_set B p v s.
  Proof. intros H. destruct p; cbn [kmac_set_sz kmac_set]; [rewrite (bytepad_short B v H)|]; reflexivity. Qed.
  Lemma kmI_clear B s t : kmI s -> kmac_clear B s = Ok t -> kmI t.
  Proof. intros [_ H] E. injection E as <-. split; [exact short_nil|exact H]. Qed.
  Lemma kmI_set B p v s : short_str W v -> kmI s ->
    match kmac_set B p v s with Done t | Raised t => kmI t | SetUB _ => True end.
  Proof. intros Hv [H1 H2]. destruct p; split; assumption. Qed.

  Lemma kmac_runs B (ops : list (hash_op kmac_param)) (s : kmac_st) : kmI s -> Forall (hshort_set W) ops ->
    hash_run (kmac_sz W B) s ops = hash_run (kmac B) s ops /\
    forall (t : kmac_st) xs, hash_run (kmac B) s ops = Ok (t, xs) -> kmI t.
  Proof.
    intros HI Ho.
    assert (Ho' : Forall (fun o => match o with HBase b => ok_op (kmac B) (short_str W) b | _ => True end) ops).
    { refine (Forall_impl _ _ Ho). intros [[| |]| | |] Hx; exact Hx. }
    split.
    - refine (hash_agree (kmac B) (kmac_init_sz W B) (kmac_set_sz W B) (kmac_final_sz W B) kmI (short_str W)
        _ _ _ _ _ _ _ ops s HI Ho').
      + exact (kmac_init_short B).
      + intros a b Ha E. exact (kmI_eq a b (kmac_init_keeps _ _ _ E) Ha).
      + intros a d b Ha E. exact (kmI_eq a b (kmac_upd_keeps _ _ _ _ E) Ha).
      + exact (kmI_clear B).
      + exact (kmac_set_short B).
      + exact (kmI_set B).
      + exact (kmac_final_short B).
    - intros t xs. refine (hash_run_inv (kmac B) kmI (short_str W) _ _ _ _ ops s t xs HI Ho').
      + intros a b Ha E. exact (kmI_eq a b (kmac_init_keeps _ _ _ E) Ha).
      + intros a d b Ha E. exact (kmI_eq a b (kmac_upd_keeps _ _ _ _ E) Ha).
      + exact (kmI_clear B).
      + exact (kmI_set B).
  Qed.
  Lemma kmac_new_short B hs (g : kmac_mem) : hs < 2 ^ W ->
    (ht_new (kmac_type_sz W B hs) g = ht_new (kmac_type B hs) g /\ forall s, ht_new (kmac_type B hs) g = Ok s -> kmI s) /\
    (ht_new (kmac_static_type_sz W B hs) g = ht_new (kmac_static_type B hs) g /\
     forall s, ht_new (kmac_static_type B hs) g = Ok s -> kmI s).
  Proof.
    intros Hh. cbn [ht_new kmac_type_sz kmac_type kmac_static_type_sz kmac_static_type]. unfold fresh_of, kmac_ctor, kmac_ctor_static.
    assert (I0 : kmI (mkkm (kmac_bytepad B []) hs (snd g) (inner_shake (fst g)))).
    { split; [exact short_nil|exact Hh]. }
    split.
    - destruct (validate_max hs (N.ones 64)); cbn [bind]; try (split; [reflexivity|discriminate]).
      split; [exact (kmac_init_short B _ I0)|]. intros s E. exact (kmI_eq _ _ (kmac_init_keeps _ _ _ E) I0).
    - cbn [bind]. split; [exact (kmac_init_short B _ I0)|]. intros s E. exact (kmI_eq _ _ (kmac_init_keeps _ _ _ E) I0).
  Qed.
  Lemma kmac_short B hs (g : kmac_mem) (pre post : list (hash_op kmac_param)) : hs < 2 ^ W -> Forall (hshort_set W) pre -> Forall (hshort_set W) post ->
    after (kmac_type_sz W B hs) g pre post = after (kmac_type B hs) g pre post /\
    after (kmac_static_type_sz W B hs) g pre post = after (kmac_static_type B hs) g pre post.
  Proof.
    intros Hh H1 H2. destruct (kmac_new_short B hs g Hh) as [[N1 I1] [N2 I2]]. unfold after. split.
    - exact (three_agree kmI (ht_new (kmac_type B hs) g) (ht_new (kmac_type_sz W B hs) g) (fun s : kmac_st => hash_run (kmac B) s pre)
        (fun s : kmac_st => hash_run (kmac_sz W B) s pre) (fun s : kmac_st => hash_run (kmac B) s post) (fun s : kmac_st => hash_run (kmac_sz W B) s post)
        N1 I1 (fun s HI => kmac_runs B pre s HI H1) (fun s HI => kmac_runs B post s HI H2)).
    - exact (three_agree kmI (ht_new (kmac_static_type B hs) g) (ht_new (kmac_static_type_sz W B hs) g) (fun s : kmac_st => hash_run (kmac B) s pre)
        (fun s : kmac_st => hash_run (kmac_sz W B) s pre) (fun s : kmac_st => hash_run (kmac B) s post) (fun s : kmac_st => hash_run (kmac_sz W B) s post)
        N2 I2 (fun s HI => kmac_runs B pre s HI H1) (fun s HI => kmac_runs B post s HI H2)).
  Qed.
  Lemma kmacxof_runs B (ops : list (xof_op kmac_param)) (s : kmac_st) : kmI s -> Forall (xshort_set W) ops ->
    xof_run (kmacxof_sz W B) s ops = xof_run (kmacxof B) s ops /\
    forall (t : kmac_st) xs, xof_run (kmacxof B) s ops = Ok (t, xs) -> kmI t.
  Proof.
    intros HI Ho.
    refine (xof_agree (kmacxof B) (kmac_init_sz W B) (kmac_set_sz W B) (kmac_squeeze_sz W B true) kmI (short_str W)
      _ _ _ _ _ _ _ _ ops s HI _).
    - exact (kmac_init_short B).
    - intros a b Ha E. exact (kmI_eq a b (kmac_init_keeps _ _ _ E) Ha).
    - intros a d b Ha E. exact (kmI_eq a b (kmac_upd_keeps _ _ _ _ E) Ha).
    - exact (kmI_clear B).
    - exact (kmac_set_short B).
    - exact (kmI_set B).
    - intros a n _. exact (kmac_xsq_short B a n).
    - intros a n b x Ha E. exact (kmI_eq a b (kmac_sq_keeps B true a n b x E) Ha).
    - refine (Forall_impl _ _ Ho). intros [[| |]| | |] Hx; exact Hx.
  Qed.
  Lemma kmacxof_short B (g : kmac_mem) (pre post : list (xof_op kmac_param)) : Forall (xshort_set W) pre -> Forall (xshort_set W) post ->
    xafter (kmacxof_type_sz W B) g pre post = xafter (kmacxof_type B) g pre post.
  Proof.
    intros H1 H2. unfold xafter.
    assert (I0 : kmI (mkkm (kmac_bytepad B []) 0 (snd g) (inner_shake (fst g)))).
    { split; [exact short_nil|]. cbn [kmhs]. pose proof pow16. change (2 ^ 16) with 65536 in *. lia. }
    refine (three_agree kmI (xt_new (kmacxof_type B) g) (xt_new (kmacxof_type_sz W B) g) (fun s : kmac_st => xof_run (kmacxof B) s pre)
      (fun s : kmac_st => xof_run (kmacxof_sz W B) s pre) (fun s : kmac_st => xof_run (kmacxof B) s post) (fun s : kmac_st => xof_run (kmacxof_sz W B) s post) _ _ _ _).
    - exact (kmac_init_short B _ I0).
    - intros s E. exact (kmI_eq _ _ (kmac_init_keeps B (mkkm (kmac_bytepad B []) 0 (snd g) (inner_shake (fst g))) s E) I0).
    - intros s HI. exact (kmacxof_runs B pre s HI H1).
    - intros s HI. exact (kmacxof_runs B post s HI H2).
  Qed.

  (** Ascon-CXOF *)
  Definition asI (s : ascon_st) : Prop := short_str W (aZ s).
  Lemma as_upd_Z s d t : ascon_update s d = Ok t -> aZ t = aZ s.
  Proof.
    unfold ascon_update. intros H.
    match type of H with (y <- ?e ;; _) = _ => destruct e as [x| |] end; cbn [bind] in H; try discriminate.
    injection H as <-. reflexivity.
  Qed.
  Lemma as_init_short s : asI s -> ascon_cxof_init_sz W s = ascon_init ACxof s.
  Proof.
    intros H. unfold ascon_cxof_init_sz, ascon_init. cbn [aZ]. rewrite (trunc_len _ H). reflexivity.
  Qed.
  Lemma as_init_Z s t : ascon_init ACxof s = Ok t -> aZ t = aZ s.
  Proof.
    unfold ascon_init. cbv zeta. intros H.
    match type of H with (y <- ?e ;; _) = _ => destruct e as [s1| |] eqn:E1 end; cbn [bind] in H; try discriminate.
    match type of H with (y <- ?e ;; _) = _ => destruct e as [s2| |] eqn:E2 end; cbn [bind] in H; try discriminate.
    match type of H with (y <- ?e ;; _) = _ => destruct e as [s3| |] eqn:E3 end; cbn [bind] in H; try discriminate.
    rewrite (as_upd_Z _ _ _ H). apply as_upd_Z in E1. cbn [aZ] in E1. rewrite <- E1.
    destruct (aZ s1) eqn:Z; [injection E2 as <-; exact Z|]. rewrite <- Z. exact (as_upd_Z _ _ _ E2).
  Qed.
  Lemma as_sq_Z s n t x : ascon_squeeze s n = Ok (t, x) -> aZ t = aZ s.
  Proof.
    unfold ascon_squeeze. cbv zeta. destruct (asq s).
    - destruct (sq_more _ _ _ _ _ _) as [[[a b] c]| |]; cbn [bind]; try discriminate.
      intros H; injection H as <- _. reflexivity.
    - destruct (ascon_pad _) as [k| |]; cbn [bind]; try discriminate.
      destruct (sq_first _ _ _ _ _ _) as [[[a b] c]| |]; cbn [bind]; try discriminate.
      intros H; injection H as <- _. reflexivity.
  Qed.
  Lemma asI_eq s t : aZ t = aZ s -> asI s -> asI t.
  Proof. unfold asI. intros ->. exact (fun H => H). Qed.
  Lemma ascon_runs (ops : list (xof_op ascon_param)) (s : ascon_st) : asI s -> Forall (xshort_set W) ops ->
    xof_run (ascon_cxof_sz W) s ops = xof_run ascon_cxof s ops /\
    forall (t : ascon_st) xs, xof_run ascon_cxof s ops = Ok (t, xs) -> asI t.
  Proof.
    intros HI Ho.
    refine (xof_agree ascon_cxof (ascon_cxof_init_sz W) ascon_set ascon_squeeze asI (short_str W)
      _ _ _ _ _ _ _ _ ops s HI _).
    - exact as_init_short.
    - intros a b Ha E. exact (asI_eq a b (as_init_Z _ _ E) Ha).
    - intros a d b Ha E. exact (asI_eq a b (as_upd_Z _ _ _ E) Ha).
    - intros a b Ha E. injection E as <-. exact Ha.
    - reflexivity.
    - intros p v a Hv _. exact Hv.
    - reflexivity.
    - intros a n b x Ha E. exact (asI_eq a b (as_sq_Z a n b x E) Ha).
    - refine (Forall_impl _ _ Ho). intros [[| |]| | |] Hx; exact Hx.
  Qed.
  Lemma ascon_short (g : st) (pre post : list (xof_op ascon_param)) : Forall (xshort_set W) pre -> Forall (xshort_set W) post ->
    xafter (ascon_cxof_type_sz W) g pre post = xafter ascon_cxof_type g pre post.
  Proof.
    intros H1 H2. unfold xafter.
    assert (I0 : asI (mkas g [] false)) by exact short_nil.
    refine (three_agree asI (xt_new ascon_cxof_type g) (xt_new (ascon_cxof_type_sz W) g) (fun s : ascon_st => xof_run ascon_cxof s pre)
      (fun s : ascon_st => xof_run (ascon_cxof_sz W) s pre) (fun s : ascon_st => xof_run ascon_cxof s post) (fun s : ascon_st => xof_run (ascon_cxof_sz W) s post) _ _ _ _).
    - exact (as_init_short _ I0).
    - intros s E. exact (asI_eq _ _ (as_init_Z (mkas g [] false) s E) I0).
    - intros s HI. exact (ascon_runs pre s HI H1).
    - intros s HI. exact (ascon_runs post s HI H2).
  Qed.
End Types.

Lemma bytepad_512MB B v : N.of_nat (length v) = 2 ^ 29 ->
  exists pad, kmac_bytepad_sz 32 B v = left_encode (if B =? 128 then 168 else 136) ++ left_encode 0 ++ v ++ zeros pad.
Proof.
  intros H. unfold kmac_bytepad_sz. rewrite H. change (trunc 32 (2 ^ 29 * 8)) with 0.
  assert (E : N.of_nat (if B =? 128 then 168%nat else 136%nat) = if B =? 128 then 168 else 136) by (destruct (B =? 128); reflexivity).
  rewrite E. cbv zeta.
  match goal with |- exists pad, (if ?b then ?x ++ zeros ?d else _) = _ => destruct b; [exists d|exists 0%nat] end.
  - rewrite <- !app_assoc. reflexivity.
  - change (zeros 0) with (@nil N). rewrite app_nil_r, <- !app_assoc. reflexivity.
Qed.

Lemma bytepad_width_refuted :
  ~ forall W B v, 16 <= W <= 64 -> kmac_bytepad_sz W B v = kmac_bytepad B v.
Proof.
  intros H. assert (HW : 16 <= 16 <= 64) by lia.
  specialize (H 16 128 (repeat 0x61 (N.to_nat 8192)) HW).
  apply (f_equal (firstn 5)) in H. revert H. vm_compute. discriminate.
Qed.
