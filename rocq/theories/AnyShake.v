(** * SHAKE, cSHAKE, KMAC XOF and KangarooTwelve objects in arbitrary histories. *)
From Verif Require Import Base Lemmas WordLemmas Absorb AbsorbProof MdState Hasher Keccak KeccakProof Squeeze Sha3 Shake Kmac K12
  Library LibraryTypes AnyCalls AnyProof AnyBuf ShakeProof.
Local Open Scope nat_scope.

Lemma bytes_nil : is_bytes [].
Proof. constructor. Qed.

Section ShakeE.
  Variables (B : N) (R r64 : nat).
  Hypothesis HR : R <= 24.
  Hypothesis Hr64 : 1 <= r64 <= 21.
  Hypothesis Hrate : shake_rate B = N.of_nat (64 * r64).
  Let r := 8 * r64.

  Lemma kc_block_total c t b : len25 c -> length b = r -> exists c', kc_block R r64 c t b = Ok c' /\ len25 c'.
  Proof.
    intros Hc Hb. unfold kc_block. destruct (Nat.leb_spec r64 25); [|lia]. eexists. split; [reflexivity|].
    apply (kc_f_length R r64 c b); auto.
  Qed.

  Definition shW (s : shake_st) : Prop := length (sm (hk s)) = 168.
  Definition shE (s s' : shake_st) : Prop :=
    hN s = hN s' /\ hS s = hS s' /\ hsq s = hsq s' /\ hsfx s = hsfx s' /\ kE r 168 len25 (hsq s) (hk s) (hk s') /\
    (hsq s = false -> spos (hk s) < r).
  Definition keeps (s t : shake_st) : Prop := hN t = hN s /\ hS t = hS s.

  Lemma shE_W s s' : shE s s' -> shW s /\ shW s'.
  Proof. intros (_ & _ & _ & _ & (_ & _ & _ & _ & L1 & L2 & _) & _). split; assumption. Qed.

  Lemma shake_update_E s s' d : shE s s' ->
    exists t t', shake_update B R s d = Ok t /\ shake_update B R s' d = Ok t' /\ shE t t' /\ keeps s t /\ hsq t = hsq s /\ hsfx t = hsfx s.
  Proof.
    intros (E1 & E2 & E3 & E4 & HK & HP). unfold shake_update. rewrite (sh_r B r64 Hrate), (sh_r64 B r64 Hrate).
    destruct (update_E len25 (kc_block R r64) r 168 false ltac:(unfold r; lia) ltac:(unfold r; lia) kc_block_total
                (hsq s) (hk s) (hk s') d HK) as (u & u' & A1 & A2 & A3 & A4).
    fold r. unfold bschk in *. rewrite A1, A2. cbn [bind]. do 2 eexists. split; [reflexivity|]. split; [reflexivity|].
    unfold shE, keeps. cbn [hN hS hsq hsfx hk]. repeat split; auto; apply A3.
  Qed.
  Lemma shake_str_E s s' d : shE s s' ->
    exists t t', shake_update_str B R s d = Ok t /\ shake_update_str B R s' d = Ok t' /\ shE t t' /\ keeps s t /\ hsq t = hsq s /\ hsfx t = hsfx s.
  Proof. intros H. destruct d; cbn [shake_update_str]; [|apply shake_update_E; auto]. exists s, s'. unfold keeps. auto 8. Qed.

  Lemma shake_init_E s s' : shW s -> shW s' -> hN s = hN s' -> hS s = hS s' ->
    exists t t', shake_init B R s = Ok t /\ shake_init B R s' = Ok t' /\ shE t t' /\ keeps s t /\ hsq t = false.
  Proof.
    intros W1 W2 E1 E2. unfold shake_init. cbv zeta. cbn [hN hS]. rewrite <- E1, <- E2.
    set (fn := hN s). set (cust := hS s).
    set (a := mksh (mkst (zeros 25) (sm (hk s)) 0 0) fn cust false 0).
    set (a' := mksh (mkst (zeros 25) (sm (hk s')) 0 0) fn cust false 0).
    assert (H0 : shE a a').
    { unfold shE, kE, a, a', len25. cbn. unfold shW in *. repeat split; auto; unfold r; lia. }
    assert (K0 : keeps s a) by (split; reflexivity).
    assert (Hmatch : forall X (x y : X), (match fn, cust with [], [] => x | _, _ => y end)
       = match fn ++ cust with [] => x | _ => y end).
    { intros. destruct fn, cust; reflexivity. }
    unfold a, a'. cbn [hN hS]. fold a a'. rewrite !Hmatch. destruct (fn ++ cust) as [|z zs]; [eauto 8|].
    destruct (shake_update_E a a' (left_encode (N.of_nat (N.to_nat (shake_rate B / 8)))) H0) as (b & b' & -> & -> & H1 & K1 & Q1 & _). cbn [bind].
    assert (Eb : hN b' = hN b /\ hS b' = hS b) by (destruct H1 as (X & Y & _); auto). destruct Eb as [Eb1 Eb2]. rewrite Eb1.
    destruct (shake_update_E b b' (left_encode (trunc 64 (N.of_nat (length (hN b)) * 8))) H1) as (c & c' & -> & -> & H2 & K2 & Q2 & _). cbn [bind].
    assert (Ec : hN c' = hN c /\ hS c' = hS c) by (destruct H2 as (X & Y & _); auto). destruct Ec as [Ec1 Ec2]. rewrite Ec1.
    destruct (shake_str_E c c' (hN c) H2) as (d & d' & -> & -> & H3 & K3 & Q3 & _). cbn [bind].
    assert (Ed : hN d' = hN d /\ hS d' = hS d) by (destruct H3 as (X & Y & _); auto). destruct Ed as [Ed1 Ed2]. rewrite Ed2.
    destruct (shake_update_E d d' (left_encode (trunc 64 (N.of_nat (length (hS d)) * 8))) H3) as (e & e' & -> & -> & H4 & K4 & Q4 & _). cbn [bind].
    assert (Ee : hN e' = hN e /\ hS e' = hS e) by (destruct H4 as (X & Y & _); auto). destruct Ee as [Ee1 Ee2]. rewrite Ee2.
    destruct (shake_str_E e e' (hS e) H4) as (f & f' & -> & -> & H5 & K5 & Q5 & _). cbn [bind].
    assert (Ef : hN f' = hN f /\ hS f' = hS f) by (destruct H5 as (X & Y & _); auto). destruct Ef as [Ef1 Ef2]. rewrite Ef1, Ef2.
    match goal with |- context [shake_update B R f ?z] => destruct (shake_update_E f f' z H5) as (g & g' & -> & -> & H6 & K6 & Q6 & _) end.
    exists g, g'. split; [reflexivity|]. split; [reflexivity|]. split; [exact H6|].
    split; [unfold keeps, fn, cust in *; intuition congruence|]. rewrite Q6, Q5, Q4, Q3, Q2, Q1. reflexivity.
  Qed.

  Lemma pad_E sfx k k' : kE r 168 len25 false k k' -> spos k < r ->
    exists u u', kc_pad_block R (shake_rate B) sfx k = Ok u /\ kc_pad_block R (shake_rate B) sfx k' = Ok u' /\ kE r 168 len25 true u u'.
  Proof.
    intros (E1 & HI & E2 & E3 & L1 & L2 & HP & HA) Hlt. unfold kc_pad_block. rewrite (sh_r B r64 Hrate), (sh_r64 B r64 Hrate).
    fold r. assert (Hr : r <= 168) by (unfold r; lia). rewrite <- E1, <- E2, <- E3.
    destruct (store_agree (spos k) (sm k) (sm k') (spos k) sfx) as (m1 & m1' & -> & -> & A1 & A2 & A3); try lia; auto. cbn [bind].
    rewrite Nat.max_r in A3 by lia.
    assert (H2 : exists m2 m2', (if r =? spos k + 1 then Ok m1 else k0 <- size_sub r (spos k + 1);; memset m1 (spos k + 1) 0 k0) = Ok m2 /\
       (if r =? spos k + 1 then Ok m1' else k0 <- size_sub r (spos k + 1);; memset m1' (spos k + 1) 0 k0) = Ok m2' /\
       length m2 = 168 /\ length m2' = 168 /\ firstn r m2 = firstn r m2').
    { destruct (Nat.eqb_spec r (spos k + 1)) as [Er|Er].
      - exists m1, m1'. rewrite <- Er in A3. repeat split; auto; lia.
      - rewrite size_sub_ok by lia. cbn [bind].
        destruct (memset_agree (spos k + 1) m1 m1' (spos k + 1) 0 (r - (spos k + 1))) as (m2 & m2' & -> & -> & B1 & B2 & B3); try lia; auto.
        replace (Nat.max (spos k + 1) (spos k + 1 + (r - (spos k + 1)))) with r in B3 by lia.
        exists m2, m2'. repeat split; auto; lia. }
    destruct H2 as (m2 & m2' & -> & -> & M1 & M2 & M3). cbn [bind].
    destruct (load_agree r m2 m2' (r - 1) 1) as (w & -> & -> & _); try lia; auto. cbn [bind].
    destruct (store_agree r m2 m2' (r - 1) (N.lor (nthN 0 w) 128)) as (m3 & m3' & -> & -> & C1 & C2 & C3); try lia; auto. cbn [bind].
    rewrite Nat.max_l in C3 by lia.
    unfold md_transform1_res.
    destruct (load_agree r m3 m3' 0 r) as (b & -> & -> & Lb); try lia; auto. cbn [bind].
    destruct (block_loop_res_ok len25 (kc_block R r64) r 1 kc_block_total (sh k) (stotal k) b HI) as (x & -> & Hx); [lia|].
    cbn [bind]. do 2 eexists. split; [reflexivity|]. split; [reflexivity|]. unfold kE. cbn [sh sm spos stotal].
    repeat split; auto; lia.
  Qed.

  Lemma shake_squeeze_E s s' n : shE s s' ->
    exists t t' w, shake_squeeze B R s n = Ok (t, w) /\ shake_squeeze B R s' n = Ok (t', w) /\ length w = n /\ shE t t' /\ keeps s t.
  Proof.
    intros (E1 & E2 & E3 & E4 & HK & HP). unfold shake_squeeze. rewrite <- E1, <- E2, <- E3, <- E4.
    rewrite (sh_r B r64 Hrate). fold r.
    destruct (hsq s) eqn:Q.
    - destruct HK as (F1 & HI & F2 & F3 & L1 & L2 & F4 & F5). rewrite <- F1, <- F2, <- F3.
      destruct (sq_more_total (kc_perm R) (words_bytes 8) r len25 ltac:(unfold r; lia) (emit25 B R r64 HR Hr64 Hrate) (kc_perm_length R) (sh (hk s)) (spos (hk s)) n HI F4)
        as (c & pos & w & -> & Hc & Hpos & Hw). cbn [bind].
      do 3 eexists. split; [reflexivity|]. split; [reflexivity|]. split; [exact Hw|].
      unfold shE, keeps, kE. cbn [hN hS hsq hsfx hk sh sm spos stotal]. repeat split; auto. discriminate.
    - specialize (HP eq_refl).
      destruct (pad_E (if (hsfx s =? 0)%N then match hN s, hS s with [], [] => 0x1f%N | _, _ => 0x04%N end else hsfx s) (hk s) (hk s') HK HP)
        as (u & u' & -> & -> & F1 & HI & F2 & F3 & L1 & L2 & F4 & F5). cbn [bind]. rewrite <- F1, <- F2, <- F3.
      destruct (sq_first_total (kc_perm R) (words_bytes 8) r len25 ltac:(unfold r; lia) (emit25 B R r64 HR Hr64 Hrate) (kc_perm_length R) (sh u) (spos u) n HI F4)
        as (c & pos & w & -> & Hc & Hpos & Hw). cbn [bind].
      do 3 eexists. split; [reflexivity|]. split; [reflexivity|]. split; [exact Hw|].
      unfold shE, keeps, kE. cbn [hN hS hsq hsfx hk sh sm spos stotal]. repeat split; auto. discriminate.
  Qed.

  Lemma shake_clear_W s : shW s -> exists t, shake_clear s = Ok t /\ shW t /\ hN t = [] /\ hS t = [].
  Proof.
    intros H. eexists. split; [reflexivity|]. unfold shW in *. cbn. unfold zero_memory. rewrite zeros_length. auto.
  Qed.

  Lemma shake_set_suffix_E x s s' : shE s s' -> shE (shake_set_suffix x s) (shake_set_suffix x s').
  Proof. intros (E1 & E2 & E3 & E4 & HK & HP). unfold shE, shake_set_suffix. cbn [hN hS hsq hsfx hk]. auto 8. Qed.

  (** *** SHAKE and cSHAKE *)
  Definition sh_par (s : shake_st) : list N * list N := (hN s, hS s).
  Lemma shake_laws_gen prm set setp (Hset : forall q v s, shW s -> match setp q v (sh_par s) with
      | Some x => exists t, set q v s = Done t /\ shW t /\ sh_par t = x | None => set q v s = Raised s end) :
    blaws {| pst := shake_st; p_init := shake_init B R; p_update := shake_update B R; p_clear := shake_clear; p_param := prm; p_set := set |}
      sh_par shW shE setp (fun _ => ([], [])).
  Proof.
    constructor; cbn [pst p_init p_update p_clear p_param p_set].
    - intros s s' H. destruct (shE_W s s' H). repeat split; auto. destruct H as (X1 & X2 & _). unfold sh_par. congruence.
    - intros s s' W1 W2 H. injection H as H1 H2. destruct (shake_init_E s s' W1 W2 H1 H2) as (t & t' & A & A' & C & [K1 K2] & _).
      exists t, t'. unfold sh_par. rewrite K1, K2. auto.
    - intros s H. destruct (shake_clear_W s H) as (t & A & C & D & F). exists t. unfold sh_par. rewrite D, F. auto.
    - intros q v s _ H. apply Hset. exact H.
    - intros s s' d _ H. destruct (shake_update_E s s' d H) as (t & t' & A & A' & C & [K1 K2] & _).
      exists t, t'. unfold sh_par. rewrite K1, K2. auto.
  Qed.
End ShakeE.

Section ShakeRob.
  Variables (B : N) (r64 : nat).
  Hypothesis Hr64 : 1 <= r64 <= 21.
  Hypothesis Hrate : shake_rate B = N.of_nat (64 * r64).

  Definition shake_rob : xrob (shake_type B) (list N * list N).
  Proof.
    refine (Build_xrob (shake B 24) (shake_type B) _ sh_par shW (shE r64) (fun q => match q with end) (fun _ => ([], [])) ([], []) _ _ _ _ _ _ _).
    - apply (shake_laws_gen B 24 r64 (le_n 24) Hr64 Hrate Empty_set). intros [].
    - intros s s' n H. destruct (shake_squeeze_E B 24 r64 (le_n 24) Hr64 Hrate s s' n H) as (t & t' & w & A & A' & L & C & [K1 K2]).
      exists t, t', w. unfold sh_par. rewrite K1, K2. auto.
    - intros g Hg. eexists. split; [reflexivity|]. split; [exact Hg|reflexivity].
    - intros [].
    - intros [].
    - intros [].
    - reflexivity.
  Defined.
  Definition cshake_setp (q : cshake_param) (v : list N) (x : list N * list N) : option (list N * list N) :=
    Some match q with CsName => (v, snd x) | CsCustomization => (fst x, v) end.
  Definition cshake_rob : xrob (cshake_type B) (list N * list N).
  Proof.
    refine (Build_xrob (cshake B 24) (cshake_type B) _ sh_par shW (shE r64) cshake_setp (fun _ => ([], [])) ([], []) _ _ _ _ _ _ _).
    - apply (shake_laws_gen B 24 r64 (le_n 24) Hr64 Hrate cshake_param). intros [] v s H; eexists; (split; [reflexivity|]); split; auto.
    - intros s s' n H. destruct (shake_squeeze_E B 24 r64 (le_n 24) Hr64 Hrate s s' n H) as (t & t' & w & A & A' & L & C & [K1 K2]).
      exists t, t', w. unfold sh_par. rewrite K1, K2. auto.
    - intros g Hg. eexists. split; [reflexivity|]. split; [exact Hg|reflexivity].
    - reflexivity.
    - intros [] [] v1 v2 x x1 x2 H E1 E2; try congruence; injection E1 as <-; injection E2 as <-; reflexivity.
    - intros [] v1 v2 x x1 _ E1; injection E1 as <-; reflexivity.
    - reflexivity.
  Defined.

  (** *** KMAC *)
  Definition km_par (s : kmac_st) : list N * list N := (kmK s, hS (kmsh s)).
  Definition kmW (s : kmac_st) : Prop := shW (kmsh s).
  Definition kmE (s s' : kmac_st) : Prop := kmK s = kmK s' /\ kmsq s = kmsq s' /\ shE r64 (kmsh s) (kmsh s').
  Definition kmac_setp (q : kmac_param) (v : list N) (x : list N * list N) : option (list N * list N) :=
    Some match q with KmKey => (kmac_bytepad B v, snd x) | KmCustomization => (fst x, v) end.

  Lemma kmac_update_E s s' d : kmE s s' ->
    exists t t', kmac_update B s d = Ok t /\ kmac_update B s' d = Ok t' /\ kmE t t' /\ km_par t = km_par s.
  Proof.
    intros (E1 & E2 & HE). unfold kmac_update.
    destruct (shake_update_E B 24 r64 (le_n 24) Hr64 Hrate _ _ d HE) as (t & t' & -> & -> & C & [K1 K2] & _). cbn [bind].
    do 2 eexists. split; [reflexivity|]. split; [reflexivity|]. unfold kmE, km_par. cbn [kmK kmsq kmsh]. rewrite K2. auto.
  Qed.
  Lemma kmac_laws : blaws (kmac_base B) km_par kmW kmE kmac_setp (fun _ => (kmac_bytepad B [], [])).
  Proof.
    constructor; cbn [kmac_base pst p_init p_update p_clear p_param p_set].
    - intros s s' (E1 & E2 & HE). destruct (shE_W _ _ _ HE). unfold kmW. repeat split; auto.
      destruct HE as (_ & E3 & _). unfold km_par. congruence.
    - intros s s' W1 W2 H. injection H as H1 H2. unfold kmac_init.
      match goal with |- context [shake_init B 24 ?a] => set (x := a) end.
      match goal with |- context [shake_init B 24 (mksh (hk (kmsh s')) ?b ?c ?d ?e)] => set (y := mksh (hk (kmsh s')) b c d e) end.
      destruct (shake_init_E B 24 r64 (le_n 24) Hr64 Hrate x y) as (t & t' & -> & -> & C & [K1 K2] & _); auto.
      cbn [bind]. rewrite <- H1.
      destruct (kmac_update_E (mkkm (kmK s) (kmhs s) false t) (mkkm (kmK s) (kmhs s') false t') (kmK s)) as (u & u' & A & A' & D & F).
      { split; [reflexivity|]. split; [reflexivity|]. exact C. }
      exists u, u'. repeat split; auto; try apply D. rewrite F. unfold km_par. cbn [kmK kmsh]. rewrite K2. reflexivity.
    - intros s H. unfold kmac_clear. destruct (shake_clear_W _ H) as (t & -> & C & D & F). cbn [bind].
      eexists. split; [reflexivity|]. split; [exact C|]. unfold km_par. cbn [kmK kmsh]. rewrite F. reflexivity.
    - intros [] v s _ H; eexists; (split; [reflexivity|]); split; auto.
    - intros s s' d _ H. destruct (kmac_update_E s s' d H) as (t & t' & A & A' & D & F). eauto 8.
  Qed.
  Lemma kmac_squeeze_E xof s s' n : kmE s s' ->
    exists t t' w, kmac_squeeze B xof s n = Ok (t, w) /\ kmac_squeeze B xof s' n = Ok (t', w) /\ length w = n /\ kmE t t' /\ km_par t = km_par s.
  Proof.
    intros H. pose proof H as (E1 & E2 & HE). unfold kmac_squeeze. rewrite <- E2.
    assert (H1 : exists u u', (if kmsq s then Ok s else s0 <- kmac_update B s (right_encode (if xof then 0%N else trunc 64 (N.of_nat n * 8)) false);; Ok (mkkm (kmK s0) (kmhs s0) true (kmsh s0))) = Ok u /\
      (if kmsq s then Ok s' else s0 <- kmac_update B s' (right_encode (if xof then 0%N else trunc 64 (N.of_nat n * 8)) false);; Ok (mkkm (kmK s0) (kmhs s0) true (kmsh s0))) = Ok u' /\
      kmE u u' /\ km_par u = km_par s).
    { destruct (kmsq s); [eauto 8|]. match goal with |- context [kmac_update B s ?d] => destruct (kmac_update_E s s' d H) as (t & t' & -> & -> & (C1 & C2 & C3) & D) end.
      cbn [bind]. do 2 eexists. split; [reflexivity|]. split; [reflexivity|]. split; [|exact D]. unfold kmE. cbn [kmK kmsq kmsh]. auto. }
    destruct H1 as (u & u' & -> & -> & (C1 & C2 & C3) & D). cbn [bind].
    destruct (shake_squeeze_E B 24 r64 (le_n 24) Hr64 Hrate _ _ n C3) as (t & t' & w & -> & -> & L & C & [K1 K2]). cbn [bind].
    do 3 eexists. split; [reflexivity|]. split; [reflexivity|]. split; [exact L|]. split; [unfold kmE; cbn [kmK kmsq kmsh]; auto|].
    rewrite <- D. unfold km_par. cbn [kmK kmsh]. rewrite K2. reflexivity.
  Qed.
  Definition kmac_rob : xrob (kmacxof_type B) (list N * list N).
  Proof.
    refine (Build_xrob (kmacxof B) (kmacxof_type B) _ km_par kmW kmE kmac_setp (fun _ => (kmac_bytepad B [], [])) (kmac_bytepad B [], []) _ _ _ _ _ _ _).
    - apply kmac_laws.
    - intros s s' n H. apply kmac_squeeze_E. exact H.
    - intros g Hg. eexists. split; [reflexivity|]. split; [exact Hg|reflexivity].
    - reflexivity.
    - intros [] [] v1 v2 x x1 x2 H E1 E2; try congruence; injection E1 as <-; injection E2 as <-; reflexivity.
    - intros [] v1 v2 x x1 _ E1; injection E1 as <-; reflexivity.
    - reflexivity.
  Defined.
End ShakeRob.

(** ** KangarooTwelve *)
Section K12Rob.
  Variables (B : N) (R r64 : nat).
  Hypothesis HR : R <= 24.
  Hypothesis Hr64 : 1 <= r64 <= 21.
  Hypothesis Hrate : shake_rate B = N.of_nat (64 * r64).

  Definition nostr (s : shake_st) : Prop := hN s = [] /\ hS s = [].
  Lemma nostr_keeps s t : nostr s -> keeps s t -> nostr t.
  Proof. unfold nostr, keeps. intuition congruence. Qed.
  Definition cE (chunk : N) (c c' : shake_st) : Prop :=
    nostr c /\ nostr c' /\ if (chunk =? 0)%N then shW c /\ shW c' else shE r64 c c'.
  Definition coreE (c c' : shake_st * shake_st * N) : Prop :=
    let '(main, child, chunk) := c in let '(main', child', chunk') := c' in
    chunk = chunk' /\ nostr main /\ nostr main' /\ shE r64 main main' /\ cE chunk child child'.
  Lemma cE_W n c c' : cE n c c' -> shW c /\ shW c'.
  Proof. intros (_ & _ & H). destruct (n =? 0)%N; [exact H|apply (shE_W r64); exact H]. Qed.
  Lemma nostr_E s s' : shE r64 s s' -> nostr s -> nostr s'.
  Proof. intros (E1 & E2 & _). unfold nostr. intuition congruence. Qed.

  Lemma k12_chunk_E c c' t d : coreE c c' ->
    exists x x', k12_chunk B R c t d = Ok x /\ k12_chunk B R c' t d = Ok x' /\ coreE x x'.
  Proof.
    destruct c as [[main child] chunk], c' as [[main' child'] chunk']. intros (<- & N1 & N2 & HM & HC).
    pose proof HC as (N3 & N4 & HC').
    assert (Hstep : exists m m' c c',
      (if (chunk =? 0)%N then main <- shake_update B R main d ;; main <- shake_update B R main [3; 0; 0; 0; 0; 0; 0; 0]%N ;; Ok (main, child)
       else child <- shake_update B R child d ;; ' (child, buf) <- shake_squeeze B R child (N.to_nat (B / 4)) ;; main <- shake_update B R main buf ;; Ok (main, child)) = Ok (m, c) /\
      (if (chunk =? 0)%N then main <- shake_update B R main' d ;; main <- shake_update B R main [3; 0; 0; 0; 0; 0; 0; 0]%N ;; Ok (main, child')
       else child <- shake_update B R child' d ;; ' (child, buf) <- shake_squeeze B R child (N.to_nat (B / 4)) ;; main <- shake_update B R main' buf ;; Ok (main, child)) = Ok (m', c') /\
      shE r64 m m' /\ nostr m /\ shW c /\ shW c' /\ nostr c /\ nostr c').
    { destruct (chunk =? 0)%N.
      - destruct (shake_update_E B R r64 HR Hr64 Hrate _ _ d HM) as (a & a' & -> & -> & A & K & _). cbn [bind].
        destruct (shake_update_E B R r64 HR Hr64 Hrate _ _ [3; 0; 0; 0; 0; 0; 0; 0]%N A) as (b & b' & -> & -> & A1 & K1 & _). cbn [bind].
        exists b, b', child, child'. destruct HC'. repeat split; auto; try apply A1; try apply N3; try apply N4;
          apply (nostr_keeps a b); auto; apply (nostr_keeps main a); auto.
      - destruct (shake_update_E B R r64 HR Hr64 Hrate _ _ d HC') as (a & a' & -> & -> & A & K & _). cbn [bind].
        destruct (shake_squeeze_E B R r64 HR Hr64 Hrate _ _ (N.to_nat (B / 4)) A) as (b & b' & w & -> & -> & _ & A1 & K1). cbn [bind].
        destruct (shake_update_E B R r64 HR Hr64 Hrate _ _ w HM) as (m & m' & -> & -> & A2 & K2 & _). cbn [bind].
        assert (Nb : nostr b) by (apply (nostr_keeps a b); auto; apply (nostr_keeps child a); auto).
        pose proof (nostr_E _ _ A1 Nb) as Nb'. destruct (shE_W _ _ _ A1).
        exists m, m', b, b'. repeat split; auto; try apply A2; try apply Nb; try apply Nb'; apply (nostr_keeps main m); auto. }
    destruct Hstep as (m & m' & c & c' & E1 & E2 & HE & Nm & Wc & Wc' & Nc & Nc').
    cbn [k12_chunk]. rewrite E1, E2. cbn [bind].
    destruct (shake_init_E B R r64 HR Hr64 Hrate c c' Wc Wc') as (i & i' & -> & -> & HI & KI & _).
    { destruct Nc, Nc'; congruence. } { destruct Nc, Nc'; congruence. }
    cbn [bind]. do 2 eexists. split; [reflexivity|]. split; [reflexivity|]. unfold coreE, cE.
    pose proof (nostr_keeps _ _ Nc KI) as Ni. pose proof (nostr_E _ _ HI Ni) as Ni'.
    split; [reflexivity|]. split; [exact Nm|]. split; [apply (nostr_E m m'); auto|]. split; [exact HE|].
    split; [exact Ni|]. split; [exact Ni'|]. destruct (N.eqb_spec (chunk + 1) 0); [lia|]. apply shake_set_suffix_E. exact HI.
  Qed.
  Lemma k12_chunks_E n : forall c c' t d, coreE c c' ->
    exists x x', block_loop_res (k12_chunk B R) k12_bs c t d n = Ok x /\ block_loop_res (k12_chunk B R) k12_bs c' t d n = Ok x' /\ coreE x x'.
  Proof.
    induction n as [|n IH]; intros c c' t d H; cbn [block_loop_res]; [eauto|].
    destruct (k12_chunk_E c c' t (firstn k12_bs d) H) as (x & x' & -> & -> & H1). cbn [bind]. apply IH. exact H1.
  Qed.

  Definition k12E (s s' : k12_st) : Prop :=
    coreE (kmain s, kchild s, kchunk s) (kmain s', kchild s', kchunk s') /\ kS s = kS s' /\ kpos s = kpos s' /\ ktotal s = ktotal s' /\
    ksq s = ksq s' /\ length (km s) = k12_bs /\ length (km s') = k12_bs /\ kpos s <= k12_bs /\ firstn (kpos s) (km s) = firstn (kpos s) (km s').
  Definition k12W (s : k12_st) : Prop :=
    shW (kmain s) /\ shW (kchild s) /\ length (km s) = k12_bs /\ nostr (kmain s) /\ nostr (kchild s).

  Lemma k12_bs_pos : 0 < k12_bs.
  Proof. unfold k12_bs, chunk_size. lia. Qed.

  Lemma k12_update_E s s' d : k12E s s' ->
    exists t t', k12_update B R s d = Ok t /\ k12_update B R s' d = Ok t' /\ k12E t t' /\ kS t = kS s /\ ksq t = ksq s.
  Proof.
    intros (HC & E1 & E2 & E3 & E4 & L1 & L2 & HP & HA). unfold k12_update. rewrite <- E2, <- E3.
    destruct (absorb_E coreE (fun c m t d n => c <- block_loop_res (k12_chunk B R) k12_bs c t d n ;; Ok (c, m)) k12_bs k12_bs true k12_bs_pos (le_n _))
      with (a := kpos s) (data := d) (c := (kmain s, kchild s, kchunk s)) (c' := (kmain s', kchild s', kchunk s')) (m := km s) (m' := km s') (pos := kpos s) (t := ktotal s)
      as (c & c' & q & q' & pos & t & A & A' & Hc & Lq & Lq' & Hpos & HA'); auto.
    - intros c c' m m' t data n Hc Hm Hm' Hd.
      destruct (k12_chunks_E n c c' t data Hc) as (x & x' & -> & -> & Hx). cbn [bind]. eauto 6.
    - unfold bschk in A, A', Hpos. rewrite A, A'. cbn [bind].
      destruct c as [[m c] k], c' as [[m' c'] k']. do 2 eexists. split; [reflexivity|]. split; [reflexivity|].
      unfold k12E. cbn [kmain kchild kchunk kS kpos ktotal ksq km]. repeat split; auto; try apply Hc; try lia.
      apply (firstn_le _ (Nat.max (kpos s) pos)); auto. lia.
  Qed.

  Lemma k12_finish_E s s' : k12E s s' ->
    exists t t', k12_finish B R s = Ok t /\ k12_finish B R s' = Ok t' /\ k12E t t' /\ kS t = kS s.
  Proof.
    intros H. pose proof H as (_ & ES & _). unfold k12_finish. rewrite <- ES.
    assert (H1 : exists a a', match kS s with [] => Ok s | _ => k12_update B R s (kS s) end = Ok a /\
       match kS s with [] => Ok s' | _ => k12_update B R s' (kS s) end = Ok a' /\ k12E a a' /\ kS a = kS s).
    { assert (HU := k12_update_E s s' (kS s) H). destruct (kS s) eqn:E.
      - exists s, s'. auto.
      - destruct HU as (a & a' & A & A' & C & D & _). exists a, a'. auto. }
    destruct H1 as (a & a' & -> & -> & HE & Sa). cbn [bind].
    match goal with |- context [k12_update B R a ?d] => destruct (k12_update_E a a' d HE) as (b & b' & -> & -> & Hb & Sb & _) end.
    cbn [bind]. pose proof Hb as ((Ek & N1 & N2 & HM & HC) & E1 & E2 & E3 & E4 & L1 & L2 & HP & HA).
    rewrite <- E1, <- E2, <- E3, <- Ek.
    match goal with |- exists t t', (' (_, _) <- ?lhs ;; _) = _ /\ (' (_, _) <- ?rhs ;; _) = _ /\ _ =>
      assert (HG : exists m m' c c', lhs = Ok (m, c) /\ rhs = Ok (m', c') /\ shE r64 m m' /\ nostr m /\ cE (kchunk b) c c') end.
    { destruct (negb (kpos b =? 0)).
      - destruct (load_agree (kpos b) (km b) (km b') 0 (kpos b)) as (w & -> & -> & _); try lia; auto. cbn [bind].
        destruct (kchunk b =? 0)%N eqn:K0.
        + destruct (shake_update_E B R r64 HR Hr64 Hrate _ _ w HM) as (m & m' & -> & -> & A & K & _). cbn [bind].
          exists (shake_set_suffix 7 m), (shake_set_suffix 7 m'), (kchild b), (kchild b').
          split; [reflexivity|]. split; [reflexivity|]. split; [apply shake_set_suffix_E; auto|].
          split; [exact (nostr_keeps _ _ N1 K)|exact HC].
        + pose proof HC as (N3 & N4 & HC'). rewrite K0 in HC'.
          destruct (shake_update_E B R r64 HR Hr64 Hrate _ _ w HC') as (c1 & c1' & -> & -> & A1 & K1 & _). cbn [bind].
          destruct (shake_squeeze_E B R r64 HR Hr64 Hrate _ _ (N.to_nat (B / 4)) A1) as (c2 & c2' & v & -> & -> & _ & A2 & K2). cbn [bind].
          destruct (shake_update_E B R r64 HR Hr64 Hrate _ _ v HM) as (m1 & m1' & -> & -> & A3 & K3 & _). cbn [bind].
          pose proof (shake_set_suffix_E r64 6 _ _ A3) as A4.
          match goal with |- context [shake_update B R (shake_set_suffix 6 m1) ?z] =>
            destruct (shake_update_E B R r64 HR Hr64 Hrate _ _ z A4) as (m2 & m2' & -> & -> & A5 & K5 & _) end. cbn [bind].
          destruct (shake_update_E B R r64 HR Hr64 Hrate _ _ [0xFF; 0xFF]%N A5) as (m3 & m3' & -> & -> & A6 & K6 & _). cbn [bind].
          assert (Nc2 : nostr c2) by (apply (nostr_keeps c1); auto; apply (nostr_keeps (kchild b)); auto).
          exists m3, m3', c2, c2'. split; [reflexivity|]. split; [reflexivity|]. split; [exact A6|]. split.
          * apply (nostr_keeps m2); auto. apply (nostr_keeps (shake_set_suffix 6 m1)); auto.
            pose proof (nostr_keeps _ _ N1 K3) as [Q1 Q2]. split; assumption.
          * split; [exact Nc2|]. split; [apply (nostr_E c2); auto|]. rewrite K0. exact A2.
      - exists (shake_set_suffix 7 (kmain b)), (shake_set_suffix 7 (kmain b')), (kchild b), (kchild b').
        split; [reflexivity|]. split; [reflexivity|]. split; [apply shake_set_suffix_E; auto|]. split; [|exact HC]. exact N1. }
    destruct HG as (m & m' & c & c' & -> & -> & A & Nm & AC). cbn [bind].
    do 2 eexists. split; [reflexivity|]. split; [reflexivity|]. split; [|cbn [kS]; congruence].
    unfold k12E, coreE. cbn [kmain kchild kchunk kS kpos ktotal ksq km].
    split; [|repeat split; auto; lia]. split; [reflexivity|]. split; [exact Nm|]. split; [apply (nostr_E m); auto|]. split; [exact A|exact AC].
  Qed.

  Lemma k12_squeeze_E s s' n : k12E s s' ->
    exists t t' w, k12_squeeze B R s n = Ok (t, w) /\ k12_squeeze B R s' n = Ok (t', w) /\ length w = n /\ k12E t t' /\ kS t = kS s.
  Proof.
    intros H. pose proof H as (_ & _ & _ & _ & EQ & _). unfold k12_squeeze. rewrite <- EQ.
    assert (H1 : exists a a', (if ksq s then Ok s else k12_finish B R s) = Ok a /\ (if ksq s then Ok s' else k12_finish B R s') = Ok a' /\
      k12E a a' /\ kS a = kS s).
    { destruct (ksq s); [eauto 8|]. apply k12_finish_E. exact H. }
    destruct H1 as (a & a' & -> & -> & ((Ek & N1 & N2 & HM & HC) & E1 & E2 & E3 & E4 & L1 & L2 & HP & HA) & Sa). cbn [bind].
    destruct (shake_squeeze_E B R r64 HR Hr64 Hrate _ _ n HM) as (m & m' & w & -> & -> & Lw & A & K). cbn [bind].
    do 3 eexists. split; [reflexivity|]. split; [reflexivity|]. split; [exact Lw|]. split; [|exact Sa].
    unfold k12E, coreE. cbn [kmain kchild kchunk kS kpos ktotal ksq km].
    pose proof (nostr_keeps _ _ N1 K) as Nm.
    split; [|repeat split; auto; lia]. split; [exact Ek|]. split; [exact Nm|]. split; [apply (nostr_E m); auto|]. split; [exact A|exact HC].
  Qed.

  Definition k12_rob : xrob (k12_type B R) (list N).
  Proof.
    refine (Build_xrob (k12 B R) (k12_type B R) _ kS k12W k12E (fun _ v _ => Some v) (fun _ => []) [] _ _ _ _ _ _ _).
    - constructor; cbn [k12 xp pst p_init p_update p_clear p_param p_set].
      + intros s s' ((Ek & N1 & N2 & HM & HC) & E1 & E2 & E3 & E4 & L1 & L2 & HP & HA).
        destruct (shE_W _ _ _ HM). destruct (cE_W _ _ _ HC). destruct HC as (N3 & N4 & _). unfold k12W. auto 12.
      + intros s s' (W1 & W2 & L & N1 & N2) (W1' & W2' & L' & N1' & N2') H. unfold k12_init.
        destruct (shake_init_E B R r64 HR Hr64 Hrate (kmain s) (kmain s') W1 W1') as (m & m' & -> & -> & HM & K & _).
        { destruct N1, N1'; congruence. } { destruct N1, N1'; congruence. }
        cbn [bind]. do 2 eexists. split; [reflexivity|]. split; [reflexivity|]. split; [|reflexivity].
        pose proof (nostr_keeps _ _ N1 K) as Nm.
        unfold k12E, coreE, cE. cbn [kmain kchild kchunk kS kpos ktotal ksq km N.eqb].
        split; [|repeat split; auto; lia]. split; [reflexivity|]. split; [exact Nm|]. split; [apply (nostr_E m); auto|].
        split; [exact HM|]. split; [exact N2|]. split; [exact N2'|]. auto.
      + intros s (W1 & W2 & L & N1 & N2). unfold k12_clear.
        destruct (shake_clear_W _ W1) as (m & -> & C & D & F). destruct (shake_clear_W _ W2) as (c & -> & C' & D' & F'). cbn [bind].
        eexists. split; [reflexivity|]. split; [|reflexivity]. unfold k12W, nostr. cbn [kmain kchild km k12_wipe].
        unfold zero_memory. rewrite zeros_length. auto 8.
      + intros q v s _ (W1 & W2 & L & N1 & N2). eexists. split; [reflexivity|]. split; [|reflexivity]. unfold k12W. auto.
      + intros s s' d _ H. destruct (k12_update_E s s' d H) as (t & t' & A & A' & C & D & _). eauto 8.
    - intros s s' n H. apply k12_squeeze_E. exact H.
    - intros g (G1 & G2 & G3). eexists. split; [reflexivity|]. split; [|reflexivity].
      unfold k12W, nostr, inner_shake, shW. cbn [kmain kchild km hk hN hS]. repeat split; auto.
    - reflexivity.
    - intros [] []; congruence.
    - reflexivity.
    - reflexivity.
  Defined.
End K12Rob.
