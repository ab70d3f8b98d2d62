(** * The counters as written give the same results as the models (C59): proofs. *)
From Verif Require Import Base Lemmas Absorb Hasher HasherSpec MdState Library Keccak Squeeze Sha3 Shake K12 Blake Blake2 Blake2p LibraryTypes LibraryProof XLibraryProof BlakeProof Blake2Proof Exact ExactSpec.

Section Same.
  Context {St Par : Type}.
  Variables (init1 init2 : St -> res St) (upd1 upd2 : St -> list N -> res St) (clear : St -> res St)
    (set : Par -> list N -> St -> setres St) (acc : Par -> list N -> bool).
  Definition mkp init upd : provider :=
    {| pst := St; p_init := init; p_update := upd; p_clear := clear; p_param := Par; p_set := set |}.
  Notation P1 := (mkp init1 upd1).
  Notation P2 := (mkp init2 upd2).
  Variables (Inv : St -> N -> Prop) (V B : N).
  (** Everything [set] and [clear] need. *)
  Variable Rep : St -> Prop.
  Hypothesis Inv_rep : forall s a, Inv s a -> Rep s.
  Hypothesis init_eq : forall s, Rep s -> init1 s = init2 s.
  Hypothesis init_inv : forall s s', Rep s -> init2 s = Ok s' -> Inv s' 0.
  Hypothesis clear_rep : forall s s', Rep s -> clear s = Ok s' -> Rep s'.
  Hypothesis upd_eq : forall s a d, Inv s a -> a + N.of_nat (length d) < B -> upd1 s d = upd2 s d.
  Hypothesis upd_inv : forall s a d s', Inv s a -> a + N.of_nat (length d) < B -> upd2 s d = Ok s' -> Inv s' (a + N.of_nat (length d)).
  Hypothesis set_done : forall q v s s', Rep s -> N.of_nat (length v) < V -> set q v s = Done s' -> acc q v = true /\ Rep s'.
  Hypothesis set_raised : forall q v s s', Rep s -> set q v s = Raised s' -> acc q v = false /\ s' = s.

  Lemma iter_same d : forall s a, Inv s a -> a + N.of_nat (length d) < B ->
    absorb_iter P1 s d = absorb_iter P2 s d /\ forall s', absorb_iter P2 s d = Ok s' -> Inv s' (a + N.of_nat (length d)).
  Proof.
    induction d as [|b d IH]; intros s a H L; cbn [absorb_iter p_update mkp].
    - split; [reflexivity|]. intros s' E. injection E as <-. rewrite N.add_0_r. exact H.
    - cbn [length] in L. assert (L1 : a + N.of_nat (length [b]) < B) by (cbn [length]; lia).
      rewrite (upd_eq s a [b] H L1).
      destruct (upd2 s [b]) as [s1| |] eqn:E1; cbn [bind]; [|split; [reflexivity|discriminate]..].
      destruct (IH s1 (a + N.of_nat (length [b])) (upd_inv s a [b] s1 H L1 E1)) as [E2 I2]; [cbn [length]; lia|].
      split; [exact E2|]. intros s' E. specialize (I2 s' E).
      replace (a + N.of_nat (length (b :: d))) with (a + N.of_nat (length [b]) + N.of_nat (length d)) by (cbn [length]; lia). exact I2.
  Qed.
  Lemma stream_same fuel : forall s a d, Inv s a -> a + N.of_nat (length d) < B -> (length d <= fuel)%nat ->
    absorb_stream P1 fuel s d = absorb_stream P2 fuel s d /\ forall s', absorb_stream P2 fuel s d = Ok s' -> Inv s' (a + N.of_nat (length d)).
  Proof.
    induction fuel as [|fuel IH]; intros s a d H L Hf; cbn [absorb_stream p_update mkp].
    - assert (E : d = []) by (destruct d; [reflexivity|cbn in Hf; lia]). subst d. cbn. split; [reflexivity|].
      intros s' E. injection E as <-. rewrite N.add_0_r. exact H.
    - destruct (N.leb_spec tmp_buffer_size (N.of_nat (length d))) as [Hd|Hd].
      + set (b := firstn (N.to_nat tmp_buffer_size) d). set (r := skipn (N.to_nat tmp_buffer_size) d).
        assert (Lb : length b = N.to_nat tmp_buffer_size) by (unfold b; rewrite firstn_length; lia).
        assert (Lr : length r = (length d - N.to_nat tmp_buffer_size)%nat) by (unfold r; apply skipn_length).
        assert (T : 0 < tmp_buffer_size) by reflexivity.
        assert (L1 : a + N.of_nat (length b) < B) by lia.
        rewrite (upd_eq s a b H L1).
        destruct (upd2 s b) as [s1| |] eqn:E1; cbn [bind]; [|split; [reflexivity|discriminate]..].
        destruct (IH s1 (a + N.of_nat (length b)) r (upd_inv s a b s1 H L1 E1)) as [E2 I2]; [lia|lia|].
        split; [exact E2|]. intros s' E. specialize (I2 s' E).
        replace (a + N.of_nat (length d)) with (a + N.of_nat (length b) + N.of_nat (length r)) by lia. exact I2.
      + destruct (Nat.eqb_spec (length d) 0) as [Z|Z].
        * split; [reflexivity|]. intros s' E. injection E as <-. rewrite Z, N.add_0_r. exact H.
        * split; [apply (upd_eq s a d H L)|]. intros s' E. apply (upd_inv s a d s' H L E).
  Qed.
  Lemma absorb_same f s a d : Inv s a -> a + N.of_nat (length (absorbed f d)) < B ->
    absorb P1 f s d = absorb P2 f s d /\ forall s', absorb P2 f s d = Ok s' -> Inv s' (a + N.of_nat (length (absorbed f d))).
  Proof.
    intros H. destruct f; cbn [absorb absorbed]; intros L.
    - split; [apply (upd_eq s a d H L)|]. intros s' E. apply (upd_inv s a d s' H L E).
    - unfold absorb_str. destruct d as [|x d].
      + split; [reflexivity|]. intros s' E. injection E as <-. rewrite N.add_0_r. exact H.
      + split; [apply (upd_eq s a (x :: d) H L)|]. intros s' E. apply (upd_inv s a (x :: d) s' H L E).
    - apply stream_same; auto.
    - split; [reflexivity|]. intros s' E. injection E as <-. rewrite N.add_0_r. exact H.
    - apply iter_same; auto.
  Qed.
  Lemma reset_same b s a : Inv s a -> reset P1 b s = reset P2 b s /\ forall s', reset P2 b s = Ok s' -> Inv s' 0.
  Proof.
    intros H. apply Inv_rep in H. unfold reset. cbn [p_clear p_init mkp].
    assert (G : forall s1, Rep s1 -> init1 s1 = init2 s1 /\ forall s', init2 s1 = Ok s' -> Inv s' 0).
    { intros s1 R. split; [auto|]. intros s' E. apply (init_inv s1 s' R E). }
    destruct b; cbn [bind].
    - destruct (clear s) as [s1| |] eqn:E; cbn [bind]; [apply G, (clear_rep s s1 H E)|split; [reflexivity|discriminate]..].
    - apply G, H.
  Qed.
  Lemma set_same q v s a : Inv s a -> N.of_nat (length v) < V ->
    set_param P1 q v s = set_param P2 q v s /\ forall s' t, set_param P2 q v s = Ok (s', t) -> Inv s' (if acc q v then 0 else a) /\ t = negb (acc q v).
  Proof.
    intros H L. unfold set_param. cbn [p_set p_init mkp]. pose proof (Inv_rep s a H) as R.
    destruct (set q v s) as [s1|s1|u] eqn:E.
    - destruct (set_done q v s s1 R L E) as [A R1]. rewrite (init_eq s1 R1). split; [reflexivity|].
      intros s' t E2. destruct (init2 s1) as [s2| |] eqn:E1; cbn [bind] in E2; try discriminate. injection E2 as <- <-. rewrite A.
      split; [apply (init_inv s1 s2 R1 E1)|reflexivity].
    - destruct (set_raised q v s s1 R E) as [A ->]. split; [reflexivity|]. intros s' t E2. injection E2 as <- <-. rewrite A. split; [exact H|reflexivity].
    - split; [reflexivity|discriminate].
  Qed.
  (** Fixed output. *)
  Section Hash.
    Variables (final1 final2 : St -> res (St * list N)) (size : St -> N).
    Hypothesis Bpos : 0 < B.
    Hypothesis final_eq : forall s a, Inv s a -> a < B -> final1 s = final2 s.
    Definition mkh init upd final : hash_provider := {| hp := mkp init upd; hp_final := final; hp_size := size |}.
    Notation H1 := (mkh init1 upd1 final1).
    Notation H2 := (mkh init2 upd2 final2).
    Lemma hash_run_same ops : forall s a, Inv s a -> a < B -> short_from acc V B a ops -> hash_run H1 s ops = hash_run H2 s ops.
    Proof.
      assert (G : forall (x1 x2 : res (St * out)) (a : N) r, (forall s a, Inv s a -> a < B -> short_from acc V B a r -> hash_run H1 s r = hash_run H2 s r) ->
        x1 = x2 -> (forall s o, x2 = Ok (s, o) -> Inv s a) -> a < B -> short_from acc V B a r ->
        (' (s, x) <- x1 ;; ' (s, xs) <- hash_run H1 s r ;; Ok (s, x :: xs)) = (' (s, x) <- x2 ;; ' (s, xs) <- hash_run H2 s r ;; Ok (s, x :: xs))).
      { intros x1 x2 a r IH -> HI Ha Hs. destruct x2 as [[s o]| |]; [|reflexivity..]. cbn [bind]. rewrite (IH s a (HI s o eq_refl) Ha Hs). reflexivity. }
      induction ops as [|o ops IH]; intros s a H Ha Hs; cbn [hash_run]; [reflexivity|].
      assert (D : digest_iter H1 s = digest_iter H2 s) by (unfold digest_iter; cbn [hp_size hp_final mkh hp]; rewrite (final_eq s a H Ha); reflexivity).
      destruct o as [[f d|b|q v]|buf| |]; cbn [short_from] in Hs.
      - destruct Hs as [L Hs]. destruct (absorb_same f s a d H L) as [E I].
        apply (G _ _ (a + N.of_nat (length (absorbed f d)))); auto.
        + change (base_step H1 s (Absorb f d) = base_step H2 s (Absorb f d)). cbn [base_step]. change (hp H1) with P1. change (hp H2) with P2. rewrite E. reflexivity.
        + intros s1 o1 E1. change (base_step H2 s (Absorb f d) = Ok (s1, o1)) in E1. cbn [base_step] in E1. change (hp H2) with P2 in E1.
          destruct (absorb P2 f s d) as [s2| |] eqn:E2; try discriminate E1. cbn [bind] in E1. injection E1 as <- <-. apply I. reflexivity.
      - destruct (reset_same b s a H) as [E I].
        apply (G _ _ 0); auto.
        + change (base_step H1 s (Reset b) = base_step H2 s (Reset b)). cbn [base_step]. change (hp H1) with P1. change (hp H2) with P2. rewrite E. reflexivity.
        + intros s1 o1 E1. change (base_step H2 s (Reset b) = Ok (s1, o1)) in E1. cbn [base_step] in E1. change (hp H2) with P2 in E1.
          destruct (reset P2 b s) as [s2| |] eqn:E2; try discriminate E1. cbn [bind] in E1. injection E1 as <- <-. apply I. reflexivity.
      - destruct Hs as [L Hs]. destruct (set_same q v s a H L) as [E I].
        apply (G _ _ (if acc q v then 0 else a)); auto.
        + change (base_step H1 s (SetParam q v) = base_step H2 s (SetParam q v)). cbn [base_step]. change (hp H1) with P1. change (hp H2) with P2. rewrite E. reflexivity.
        + intros s1 o1 E1. change (base_step H2 s (SetParam q v) = Ok (s1, o1)) in E1. cbn [base_step] in E1. change (hp H2) with P2 in E1.
          destruct (set_param P2 q v s) as [[s2 t]| |] eqn:E2; try discriminate E1. cbn [bind] in E1. injection E1 as <- <-. apply (I s2 t). reflexivity.
        + destruct (acc q v); auto.
      - apply (G _ _ a); auto.
        + cbn [hash_step]. unfold digest_buf. cbn [hp_size hp_final mkh hp]. rewrite (final_eq s a H Ha). reflexivity.
        + intros s1 o1 E1. cbn [hash_step] in E1. destruct (digest_buf H2 s buf); try discriminate E1. cbn [bind] in E1. injection E1 as <- <-. exact H.
      - apply (G _ _ a); auto.
        + cbn [hash_step]. rewrite D. reflexivity.
        + intros s1 o1 E1. cbn [hash_step] in E1. destruct (digest_iter H2 s); try discriminate E1. cbn [bind] in E1. injection E1 as <- <-. exact H.
      - apply (G _ _ a); auto.
        + cbn [hash_step]. rewrite D. reflexivity.
        + intros s1 o1 E1. cbn [hash_step] in E1. destruct (digest_iter H2 s); try discriminate E1. cbn [bind] in E1. injection E1 as <- <-. exact H.
    Qed.
  End Hash.

  (** Extendable output; [Sq]: after squeezing. *)
  Section Xof.
    Variables (sq1 sq2 : St -> nat -> res (St * list N)) (Sq : St -> Prop).
    Hypothesis Bpos : 0 < B.
    Hypothesis Sq_rep : forall s, Sq s -> Rep s.
    Hypothesis sq_first_eq : forall s a n, Inv s a -> a < B -> sq1 s n = sq2 s n.
    Hypothesis sq_first_inv : forall s a n s' o, Inv s a -> a < B -> sq2 s n = Ok (s', o) -> Sq s'.
    Hypothesis sq_eq : forall s n, Sq s -> sq1 s n = sq2 s n.
    Hypothesis sq_inv : forall s n s' o, Sq s -> sq2 s n = Ok (s', o) -> Sq s'.
    Definition mkx init upd sq : xof_provider := {| xp := mkp init upd; xp_squeeze := sq |}.
    Notation X1 := (mkx init1 upd1 sq1).
    Notation X2 := (mkx init2 upd2 sq2).
    Definition XInv s a (sq : bool) : Prop := if sq then Sq s else Inv s a.
    Lemma xof_run_same ops : forall s a sq, XInv s a sq -> a < B -> xshort_from acc V B a sq ops -> xof_run X1 s ops = xof_run X2 s ops.
    Proof.
      assert (G : forall (x1 x2 : res (St * out)) (a : N) sq r, (forall s a sq, XInv s a sq -> a < B -> xshort_from acc V B a sq r -> xof_run X1 s r = xof_run X2 s r) ->
        x1 = x2 -> (forall s o, x2 = Ok (s, o) -> XInv s a sq) -> a < B -> xshort_from acc V B a sq r ->
        (' (s, x) <- x1 ;; ' (s, xs) <- xof_run X1 s r ;; Ok (s, x :: xs)) = (' (s, x) <- x2 ;; ' (s, xs) <- xof_run X2 s r ;; Ok (s, x :: xs))).
      { intros x1 x2 a sq r IH -> HI Ha Hs. destruct x2 as [[s o]| |]; [|reflexivity..]. cbn [bind]. rewrite (IH s a sq (HI s o eq_refl) Ha Hs). reflexivity. }
      induction ops as [|o ops IH]; intros s a sq H Ha Hs; cbn [xof_run]; [reflexivity|].
      assert (R : Rep s) by (destruct sq; [apply Sq_rep|apply (Inv_rep s a)]; exact H).
      assert (E : forall n, sq1 s n = sq2 s n) by (intros n; destruct sq; [apply sq_eq; exact H|apply (sq_first_eq s a); assumption]).
      assert (I : forall n s' o, sq2 s n = Ok (s', o) -> XInv s' a true)
        by (intros n s' o1 E1; destruct sq; [apply (sq_inv s n s' o1 H E1)|apply (sq_first_inv s a n s' o1 H Ha E1)]).
      assert (E2 : forall n, squeeze_buf X1 s n = squeeze_buf X2 s n) by (intros n; unfold squeeze_buf; cbn [xp_squeeze mkx]; rewrite E; reflexivity).
      assert (I2 : forall n s' o, squeeze_buf X2 s n = Ok (s', o) -> XInv s' a true).
      { intros n s' o1 E1. unfold squeeze_buf in E1. cbn [xp_squeeze mkx] in E1. destruct (sq2 s n) as [[s2 w]| |] eqn:E3; try discriminate E1. cbn [bind] in E1.
        destruct (memcpy (zeros n) 0 w (length w)); try discriminate E1. cbn [bind] in E1. injection E1 as <- <-. apply (I n s2 w). exact E3. }
      assert (E4 : forall n, squeeze_iter X1 s n = squeeze_iter X2 s n) by (intros [|n]; [reflexivity|apply E2]).
      assert (I4 : forall n s' o, squeeze_iter X2 s n = Ok (s', o) -> XInv s' a true) by (intros [|n] s' o1 E1; [discriminate E1|apply (I2 (S n) s' o1 E1)]).
      destruct o as [[f d|b|q v]|n|n|n]; cbn [xshort_from] in Hs.
      - destruct Hs as (-> & L & Hs). destruct (absorb_same f s a d H L) as [Ea Ia].
        apply (G _ _ (a + N.of_nat (length (absorbed f d))) false); auto.
        + change (base_step X1 s (Absorb f d) = base_step X2 s (Absorb f d)). cbn [base_step]. change (xp X1) with P1. change (xp X2) with P2. rewrite Ea. reflexivity.
        + intros s1 o1 E1. change (base_step X2 s (Absorb f d) = Ok (s1, o1)) in E1. cbn [base_step] in E1. change (xp X2) with P2 in E1.
          destruct (absorb P2 f s d) as [s2| |] eqn:E3; try discriminate E1. cbn [bind] in E1. injection E1 as <- <-. apply Ia. reflexivity.
      - assert (Er : reset P1 b s = reset P2 b s /\ forall s', reset P2 b s = Ok s' -> Inv s' 0).
        { unfold reset. cbn [p_clear p_init mkp].
          assert (K : forall s1, Rep s1 -> init1 s1 = init2 s1 /\ forall s', init2 s1 = Ok s' -> Inv s' 0).
          { intros s1 R1. split; [auto|]. intros s' E1. apply (init_inv s1 s' R1 E1). }
          destruct b; cbn [bind]; [|apply K, R].
          destruct (clear s) as [s1| |] eqn:Ec; cbn [bind]; [apply K, (clear_rep s s1 R Ec)|split; [reflexivity|discriminate]..]. }
        destruct Er as [Er Ir].
        apply (G _ _ 0 false); auto.
        + change (base_step X1 s (Reset b) = base_step X2 s (Reset b)). cbn [base_step]. change (xp X1) with P1. change (xp X2) with P2. rewrite Er. reflexivity.
        + intros s1 o1 E1. change (base_step X2 s (Reset b) = Ok (s1, o1)) in E1. cbn [base_step] in E1. change (xp X2) with P2 in E1.
          destruct (reset P2 b s) as [s2| |] eqn:E3; try discriminate E1. cbn [bind] in E1. injection E1 as <- <-. apply Ir. reflexivity.
      - destruct Hs as [L Hs].
        assert (Es : set_param P1 q v s = set_param P2 q v s /\ forall s' t, set_param P2 q v s = Ok (s', t) -> XInv s' (if acc q v then 0 else a) (if acc q v then false else sq)).
        { unfold set_param. cbn [p_set p_init mkp]. destruct (set q v s) as [s1|s1|u] eqn:Eq.
          - destruct (set_done q v s s1 R L Eq) as [A R1]. rewrite (init_eq s1 R1), A. split; [reflexivity|].
            intros s' t E1. destruct (init2 s1) as [s2| |] eqn:E3; cbn [bind] in E1; try discriminate. injection E1 as <- <-. apply (init_inv s1 s2 R1 E3).
          - destruct (set_raised q v s s1 R Eq) as [A ->]. rewrite A. split; [reflexivity|]. intros s' t E1. injection E1 as <- <-. exact H.
          - split; [reflexivity|discriminate]. }
        destruct Es as [Es Is].
        apply (G _ _ (if acc q v then 0 else a) (if acc q v then false else sq)); auto.
        + change (base_step X1 s (SetParam q v) = base_step X2 s (SetParam q v)). cbn [base_step]. change (xp X1) with P1. change (xp X2) with P2. rewrite Es. reflexivity.
        + intros s1 o1 E1. change (base_step X2 s (SetParam q v) = Ok (s1, o1)) in E1. cbn [base_step] in E1. change (xp X2) with P2 in E1.
          destruct (set_param P2 q v s) as [[s2 t]| |] eqn:E3; try discriminate E1. cbn [bind] in E1. injection E1 as <- <-. apply (Is s2 t). reflexivity.
        + destruct (acc q v); auto.
      - apply (G _ _ a true); auto.
        + cbn [xof_step]. rewrite E2. reflexivity.
        + intros s1 o1 E1. cbn [xof_step] in E1. destruct (squeeze_buf X2 s n) as [[s2 w]| |] eqn:E3; try discriminate E1. cbn [bind] in E1. injection E1 as <- <-. apply (I2 n s2 w E3).
      - apply (G _ _ a true); auto.
        + cbn [xof_step]. rewrite E4. reflexivity.
        + intros s1 o1 E1. cbn [xof_step] in E1. destruct (squeeze_iter X2 s n) as [[s2 w]| |] eqn:E3; try discriminate E1. cbn [bind] in E1. injection E1 as <- <-. apply (I4 n s2 w E3).
      - apply (G _ _ a true); auto.
        + cbn [xof_step]. rewrite E4. reflexivity.
        + intros s1 o1 E1. cbn [xof_step] in E1. destruct (squeeze_iter X2 s n) as [[s2 w]| |] eqn:E3; try discriminate E1. cbn [bind] in E1. injection E1 as <- <-. apply (I4 n s2 w E3).
    Qed.
  End Xof.
End Same.

(** ** absorb_bytes

    [Ic c t x]: the state of transform after [x] bytes of whole blocks, [t] is total. *)
Lemma absorb_bytes_same {C} (Ic : C -> N -> N -> Prop) (L : N) (tf1 tf2 : C -> list N -> N -> list N -> nat -> res (C * list N)) bs bschk data :
  (0 < bs)%nat -> (bs <= bschk)%nat ->
  (forall c m t x d n, Ic c t x -> x + N.of_nat (n * bs) <= L -> (n <= 1)%nat \/ (bschk <= length data)%nat ->
     tf1 c m t d n = tf2 c m t d n /\
     forall c' m', tf2 c m t d n = Ok (c', m') -> Ic c' (trunc 64 (t + N.of_nat (n * bs * 8))) (x + N.of_nat (n * bs))) ->
  forall c m pos total x, Ic c total x -> x + N.of_nat (pos + length data) <= L ->
  absorb_bytes tf1 bs bschk data c m pos total = absorb_bytes tf2 bs bschk data c m pos total /\
  forall c' m' pos' total', absorb_bytes tf2 bs bschk data c m pos total = Ok (c', m', pos', total') ->
    exists x', Ic c' total' x' /\ x' + N.of_nat pos' = x + N.of_nat (pos + length data).
Proof.
  intros Hb Hk Htf c m pos total x HI Hs. unfold absorb_bytes.
  assert (K : forall c m d pos total x, Ic c total x -> x + N.of_nat (pos + length d) <= L -> (length d <= length data)%nat ->
    let rest tf := (' (c, m, d, total) <-
      (if (bschk <=? length d)%nat then
         let blocks := ((length d + bs - bschk) / bs)%nat in
         let bytes := (blocks * bs)%nat in
         blk <- load d 0 bytes ;;
         ' (c, m) <- tf c m total blk blocks ;;
         Ok (c, m, skipn bytes d, trunc 64 (total + N.of_nat (bytes * 8)))
       else Ok (c, m, d, total)) ;;
      m <- memcpy m pos d (length d) ;;
      Ok (c, m, (pos + length d)%nat, total)) in
    rest tf1 = rest tf2 /\ forall c' m' pos' total', rest tf2 = Ok (c', m', pos', total') ->
      exists x', Ic c' total' x' /\ x' + N.of_nat pos' = x + N.of_nat (pos + length d)).
  { clear c m pos total x HI Hs. intros c m d pos total x HI Hs Hl rest. unfold rest. clear rest.
    destruct (Nat.leb_spec bschk (length d)) as [Hd|Hd].
    - set (q := ((length d + bs - bschk) / bs)%nat).
      assert (Hq : (q * bs <= length d)%nat).
      { pose proof (Nat.mul_div_le (length d + bs - bschk) bs ltac:(lia)) as X. fold q in X. lia. }
      destruct (load d 0 (q * bs)) as [blk| |]; [|split; [reflexivity|discriminate]..]. cbn [bind].
      destruct (Htf c m total x blk q HI) as [E I]; [lia|lia|]. rewrite E.
      destruct (tf2 c m total blk q) as [[c1 m1]| |]; [|split; [reflexivity|discriminate]..]. cbn [bind].
      split; [reflexivity|]. intros c' m' pos' total'. destruct (memcpy m1 pos _ _); [|discriminate..]. cbn [bind]. intros E1. injection E1 as <- <- <- <-.
      exists (x + N.of_nat (q * bs)). split; [apply (I c1 m1); reflexivity|]. rewrite skipn_length. lia.
    - cbn [bind]. split; [reflexivity|]. intros c' m' pos' total'. destruct (memcpy m pos _ _); [|discriminate..]. cbn [bind]. intros E. injection E as <- <- <- <-.
      exists x. split; [exact HI|reflexivity]. }
  destruct (negb (pos =? 0)%nat && (bschk <=? pos + length data)%nat) eqn:Ec.
  - apply andb_true_iff in Ec. destruct Ec as [_ Ec]. apply Nat.leb_le in Ec.
    destruct (size_sub bs pos) as [k| |] eqn:Ek; [|split; [reflexivity|discriminate]..]. cbn [bind].
    assert (Hkk : (k + pos = bs)%nat).
    { revert Ek. unfold size_sub. destruct (pos <=? bs)%nat eqn:Ep; [|discriminate]. intros E. injection E as <-. apply Nat.leb_le in Ep. lia. }
    destruct (memcpy m pos data k) as [m1| |]; [|split; [reflexivity|discriminate]..]. cbn [bind].
    destruct (load m1 0 bs) as [blk| |]; [|split; [reflexivity|discriminate]..]. cbn [bind].
    destruct (Htf c m1 total x blk 1%nat HI) as [E I]; [lia|lia|]. rewrite E.
    destruct (tf2 c m1 total blk 1%nat) as [[c1 m2]| |]; [|split; [reflexivity|discriminate]..]. cbn [bind].
    specialize (I c1 m2 eq_refl). rewrite Nat.mul_1_l in I.
    destruct (K c1 m2 (skipn k data) 0%nat _ _ I) as [K1 K2]; [rewrite skipn_length; lia..|].
    split; [exact K1|]. intros c' m' pos' total' E1. destruct (K2 c' m' pos' total' E1) as (x' & I' & Hx').
    exists x'. split; [exact I'|]. rewrite skipn_length in Hx'. lia.
  - cbn [bind]. apply (K c m data pos total x HI Hs). lia.
Qed.
(** Two runs that agree on [pre] and on [pre ++ post] agree after [pre]. *)
Lemma after_same {St O} (r1 r2 : St -> list O -> res (St * list out)) (n1 n2 : res St) pre post :
  (forall s a b, r1 s (a ++ b) = (' (s, l1) <- r1 s a ;; ' (s, l2) <- r1 s b ;; Ok (s, l1 ++ l2))) ->
  (forall s a b, r2 s (a ++ b) = (' (s, l1) <- r2 s a ;; ' (s, l2) <- r2 s b ;; Ok (s, l1 ++ l2))) ->
  n1 = n2 -> (forall s, n2 = Ok s -> r1 s pre = r2 s pre /\ r1 s (pre ++ post) = r2 s (pre ++ post)) ->
  (s <- n1 ;; ' (s, _) <- r1 s pre ;; ' (_, l) <- r1 s post ;; Ok l) = (s <- n2 ;; ' (s, _) <- r2 s pre ;; ' (_, l) <- r2 s post ;; Ok l).
Proof.
  intros A1 A2 -> H. destruct n2 as [s| |]; [|reflexivity..]. cbn [bind]. destruct (H s eq_refl) as [E1 E2]. clear H.
  rewrite A1, A2, E1 in E2. rewrite E1. clear E1. destruct (r2 s pre) as [[s1 l1]| |]; [|reflexivity..]. cbn [bind] in *.
  destruct (r1 s1 post) as [[sa la]| |], (r2 s1 post) as [[sb lb]| |]; cbn [bind] in *; try discriminate E2; try reflexivity.
  - injection E2 as _ E2. apply app_inv_head in E2. rewrite E2. reflexivity.
  - injection E2 as ->. reflexivity.
Qed.
Lemma short_app {param} (acc : param -> list N -> bool) V B l1 l2 : forall a, short_from acc V B a (l1 ++ l2) -> short_from acc V B a l1.
Proof.
  induction l1 as [|o l1 IH]; intros a H; [exact I|]. destruct o as [[f d|b|q v]|buf| |]; cbn [app short_from] in *.
  1,3: destruct H as [H1 H2]; split; [exact H1|apply IH, H2].
  all: apply IH, H.
Qed.
Lemma xshort_app {param} (acc : param -> list N -> bool) V B l1 l2 : forall a sq, xshort_from acc V B a sq (l1 ++ l2) -> xshort_from acc V B a sq l1.
Proof.
  induction l1 as [|o l1 IH]; intros a sq H; [exact I|]. destruct o as [[f d|b|q v]|n|n|n]; cbn [app xshort_from] in *.
  - destruct H as (H1 & H2 & H3). split; [exact H1|]. split; [exact H2|apply IH, H3].
  - apply IH, H.
  - destruct H as [H1 H2]; split; [exact H1|apply IH, H2].
  - apply IH, H.
  - apply IH, H.
  - apply IH, H.
Qed.

(** ** BLAKE *)
Lemma short_large {param} (acc : param -> list N -> bool) ops : forall a, exists M, forall V B, M <= V -> M <= B -> short_from acc V B a ops.
Proof.
  induction ops as [|o ops IH]; intros a; [exists 0; intros; exact I|].
  destruct o as [[f d|b|q v]|buf| |].
  - destruct (IH (a + N.of_nat (length (absorbed f d)))) as [M HM]. exists (M + (a + N.of_nat (length (absorbed f d)) + 1)).
    intros V B HV HB. cbn [short_from]. split; [lia|apply HM; lia].
  - destruct (IH 0) as [M HM]. exists M. intros V B HV HB. cbn [short_from]. apply HM; assumption.
  - destruct (IH (if acc q v then 0 else a)) as [M HM]. exists (M + (N.of_nat (length v) + 1)).
    intros V B HV HB. cbn [short_from]. split; [lia|apply HM; lia].
  - destruct (IH a) as [M HM]. exists M. intros V B HV HB. cbn [short_from]. apply HM; assumption.
  - destruct (IH a) as [M HM]. exists M. intros V B HV HB. cbn [short_from]. apply HM; assumption.
  - destruct (IH a) as [M HM]. exists M. intros V B HV HB. cbn [short_from]. apply HM; assumption.
Qed.
Lemma bl_w_cases hs : bl_w hs = 64 \/ bl_w hs = 32.
Proof. unfold bl_w. destruct (_ : bool); auto. Qed.
Lemma blx_update_eq s d : stotal (bls s) < 2 ^ 64 ->
  blx_update s d = bl_update s d /\ forall s', bl_update s d = Ok s' -> stotal (bls s') < 2 ^ 64.
Proof.
  intros Ht. unfold blx_update, bl_update, md_update. set (w := bl_w (blhs s)).
  assert (Hw : w = 64 \/ w = 32) by apply bl_w_cases. cbv zeta.
  destruct (absorb_bytes_same (fun _ t _ => t < 2 ^ 64) (N.of_nat (spos (bls s) + length d))
    (fun h m t d n => Ok (bl_transform_code w h t d n, m)) (fun h m t d n => Ok (block_loop (bl_step w) (bl_bs w) h t d n, m))
    (bl_bs w) (bl_bs w) d) with (c := sh (bls s)) (m := sm (bls s)) (pos := spos (bls s)) (total := stotal (bls s)) (x := 0) as [E I]; [destruct Hw as [-> | ->]; cbn; lia|lia| |exact Ht|lia|].
  - intros c m t x d0 n H _ _. split; [|intros; apply trunc_lt].
    rewrite (bl_transform_exact w Hw c t d0 n H), (bl_bs_eq w Hw). reflexivity.
  - rewrite E. clear E. revert I.
    generalize (absorb_bytes (fun h m t d n => Ok (block_loop (bl_step w) (bl_bs w) h t d n, m)) (bl_bs w) (bl_bs w) d (sh (bls s)) (sm (bls s)) (spos (bls s)) (stotal (bls s))).
    intros [[[[h m] p] t]| |] I; [|split; [reflexivity|discriminate]..]. cbn [bind].
    split; [reflexivity|]. intros s' X. injection X as <-. cbn. destruct (I h m p t eq_refl) as (x' & H & _). exact H.
Qed.
Lemma blake_accepts_set hs q v s s' : blhs s = hs -> bl_set q v s = Done s' -> blake_accepts hs q v = true /\ blhs s' = hs.
Proof.
  intros Hh. unfold bl_set, blake_accepts. rewrite Hh. destruct (Nat.eqb_spec (length v) 0) as [Z|Z]; cbn [negb andb orb].
  - intros E. injection E as <-. auto.
  - rewrite N.ltb_antisym. destruct (hs <=? 256); cbn [negb andb orb].
    + destruct (length v =? 16)%nat; cbn [negb]; intros E; [injection E as <-; auto|discriminate].
    + destruct (length v =? 32)%nat; cbn [negb orb]; intros E; [injection E as <-; auto|discriminate].
Qed.
Lemma blake_rejects_set hs q v s s' : blhs s = hs -> bl_set q v s = Raised s' -> blake_accepts hs q v = false /\ s' = s.
Proof.
  intros Hh. unfold bl_set, blake_accepts. rewrite Hh. destruct (Nat.eqb_spec (length v) 0) as [Z|Z]; cbn [negb andb orb]; [discriminate|].
  rewrite N.ltb_antisym. destruct (hs <=? 256); cbn [negb andb orb].
  + destruct (length v =? 16)%nat; cbn [negb]; intros E; [discriminate|injection E as <-; auto].
  + destruct (length v =? 32)%nat; cbn [negb orb]; intros E; [discriminate|injection E as <-; auto].
Qed.
Lemma blake_run_same hs s ops : blhs s = hs -> stotal (bls s) < 2 ^ 64 -> hash_run blakex s ops = hash_run blake s ops.
Proof.
  intros Hh Ht. destruct (short_large (blake_accepts hs) ops 0) as [M HM].
  apply (hash_run_same bl_init bl_init blx_update bl_update bl_clear bl_set (blake_accepts hs)
    (fun s _ => blhs s = hs /\ stotal (bls s) < 2 ^ 64) (M + 1) (M + 1) (fun s => blhs s = hs)) with (a := 0); auto; try lia.
  - intros x s' H E. unfold bl_init in E. injection E as <-. cbn [blhs bls stotal]. split; [exact H|reflexivity].
  - intros x s' H E. unfold bl_clear in E. injection E as <-. exact H.
  - intros x a d [_ H] _. apply blx_update_eq, H.
  - intros x a d s' [H1 H2] _ E. split; [|apply (blx_update_eq x d H2), E].
    unfold bl_update in E. destruct (md_update _ _ _ _ _); try discriminate E. cbn [bind] in E. injection E as <-. exact H1.
  - intros q v x s' H _ E. apply (blake_accepts_set hs q v x s' H E).
  - intros q v x s' H E. apply (blake_rejects_set hs q v x s' H E).
  - apply HM; lia.
Qed.
Lemma bl_new_total r s : fresh_of r bl_init = Ok s -> stotal (bls s) < 2 ^ 64.
Proof. unfold fresh_of. destruct r; try discriminate. cbn [bind]. unfold bl_init. intros E. injection E as <-. reflexivity. Qed.
Theorem blake_exact hs g pre post : after (blakex_type hs) g pre post = after (blake_type hs) g pre post.
Proof.
  apply (after_same (hash_run blakex) (hash_run blake)); [exact (fun s a b => hash_run_app blakex a s b)|exact (fun s a b => hash_run_app blake a s b)|reflexivity|].
  intros s E. apply bl_new_total in E. split; apply (blake_run_same _ s _ eq_refl E).
Qed.
Theorem blake_static_exact hs g pre post : after (blakex_static_type hs) g pre post = after (blake_static_type hs) g pre post.
Proof.
  apply (after_same (hash_run blakex) (hash_run blake)); [exact (fun s a b => hash_run_app blakex a s b)|exact (fun s a b => hash_run_app blake a s b)|reflexivity|].
  intros s E. apply bl_new_total in E. split; apply (blake_run_same _ s _ eq_refl E).
Qed.

(** ** BLAKE2 *)
Section B2.
  Variable w : N.
  Hypothesis Hw : w = 64 \/ w = 32.
  Lemma b2_bs_pos : (0 < b2_bs w)%nat. Proof. destruct Hw as [-> | ->]; cbn; lia. Qed.
  (** One block: no bound on total. *)
  Lemma b2_transform_one H t d n : (n <= 1)%nat -> t < 2 ^ 64 -> b2_transform_code w H t d n = block_loop (b2_step w) (b2_bs w) H t d n.
  Proof.
    intros Hn Ht. destruct n as [|[|n]]; [reflexivity| |lia].
    unfold b2_transform_code. cbn [seq fold_left block_loop]. unfold b2_step. rewrite Nat.mul_0_l. cbn [skipn].
    rewrite trunc_small; [rewrite Nat.mul_1_l; reflexivity|].
    assert (t / 8 < 2 ^ 61) by (apply N.div_lt_upper_bound; [discriminate|exact Ht]).
    assert (N.of_nat ((0 + 1) * b2_bs w) <= 128) by (destruct Hw as [-> | ->]; cbn; lia). lia.
  Qed.
  Lemma b2_update_frame s d s' : b2_update w s d = Ok s' ->
    b2s s' = b2s s /\ b2p s' = b2p s /\ b2k s' = b2k s /\ b2hs s' = b2hs s /\ b2xo s' = b2xo s /\ b2sq s' = b2sq s /\ b2fo s' = b2fo s /\ b2nd s' = b2nd s /\ b2no s' = b2no s.
  Proof. unfold b2_update. destruct (md_update _ _ _ _ _); try discriminate. cbn [bind]. intros E. injection E as <-. repeat split. Qed.
  Lemma b2x_update_gen (Ic : N -> N -> Prop) L s d x :
    (forall c t x d0 n, Ic t x -> x + N.of_nat (n * b2_bs w) <= L -> (n <= 1)%nat \/ (b2_bs w + 1 <= length d)%nat ->
       b2_transform_code w c t d0 n = block_loop (b2_step w) (b2_bs w) c t d0 n /\
       Ic (trunc 64 (t + N.of_nat (n * b2_bs w * 8))) (x + N.of_nat (n * b2_bs w))) ->
    Ic (stotal (b2c s)) x -> x + N.of_nat (spos (b2c s) + length d) <= L ->
    b2x_update w s d = b2_update w s d /\
    forall s', b2_update w s d = Ok s' -> exists x', Ic (stotal (b2c s')) x' /\ x' + N.of_nat (spos (b2c s')) = x + N.of_nat (spos (b2c s) + length d).
  Proof.
    intros Htf HI HL. unfold b2x_update, b2_update, md_update.
    destruct (absorb_bytes_same (fun _ => Ic) L
      (fun h m t d n => Ok (b2_transform_code w h t d n, m)) (fun h m t d n => Ok (block_loop (b2_step w) (b2_bs w) h t d n, m))
      (b2_bs w) (b2_bs w + 1) d b2_bs_pos) with (c := sh (b2c s)) (m := sm (b2c s)) (pos := spos (b2c s)) (total := stotal (b2c s)) (x := x) as [E I]; [lia| |exact HI|exact HL|].
    - intros c m t y d0 n H1 H2 H3. destruct (Htf c t y d0 n H1 H2 H3) as [A B]. rewrite A. split; [reflexivity|]. intros c' m' _. exact B.
    - rewrite E. clear E. revert I.
      generalize (absorb_bytes (fun h m t d n => Ok (block_loop (b2_step w) (b2_bs w) h t d n, m)) (b2_bs w) (b2_bs w + 1) d (sh (b2c s)) (sm (b2c s)) (spos (b2c s)) (stotal (b2c s))).
      intros [[[[h m] p] t]| |] I; [|split; [reflexivity|discriminate]..]. cbn [bind].
      split; [reflexivity|]. intros s' X. injection X as <-. cbn [b2c stotal spos]. apply (I h m p t eq_refl).
  Qed.
  (** At most one block of data. *)
  Lemma b2x_update_block s d : (length d <= b2_bs w)%nat -> stotal (b2c s) < 2 ^ 64 ->
    b2x_update w s d = b2_update w s d /\ forall s', b2_update w s d = Ok s' -> stotal (b2c s') < 2 ^ 64.
  Proof.
    intros Hd Ht.
    destruct (b2x_update_gen (fun t _ => t < 2 ^ 64) (N.of_nat (spos (b2c s) + length d)) s d 0) as [E I]; [|exact Ht|lia|].
    - intros c t x d0 n H1 _ H3. split; [apply b2_transform_one; [lia|exact H1]|apply trunc_lt].
    - split; [exact E|]. intros s' X. destruct (I s' X) as (x' & H & _). exact H.
  Qed.
  Lemma b2x_update_bytes s d x : stotal (b2c s) = 8 * x -> x + N.of_nat (spos (b2c s) + length d) < 2 ^ 61 ->
    b2x_update w s d = b2_update w s d /\
    forall s', b2_update w s d = Ok s' -> exists x', stotal (b2c s') = 8 * x' /\ x' + N.of_nat (spos (b2c s')) = x + N.of_nat (spos (b2c s) + length d).
  Proof.
    intros Ht HL. apply (b2x_update_gen (fun t x => t = 8 * x) (2 ^ 61 - 1)); [|exact Ht|lia].
    intros c t y d0 n -> H2 _. split.
    - rewrite (bs_eq w Hw) in *. apply (b2_transform_exact w Hw). lia.
    - rewrite trunc_small; lia.
  Qed.
  Lemma overlay_length (d : list N) p x : (p + length x <= length d)%nat -> length (overlay d p x) = length d.
  Proof. intros H. unfold overlay. rewrite !app_length, firstn_length, skipn_length. lia. Qed.
  Lemma memcpy_length d p x n r : memcpy d p x n = Ok r -> length r = length d.
  Proof.
    unfold memcpy. destruct (_ && _) eqn:E; [|discriminate]. apply andb_true_iff in E. destruct E as [E1 E2].
    apply Nat.leb_le in E1, E2. intros X. injection X as <-. apply overlay_length. rewrite firstn_length. lia.
  Qed.
  Lemma memset_length d p v n r : memset d p v n = Ok r -> length r = length d.
  Proof.
    unfold memset. destruct (Nat.leb_spec (p + n) (length d)) as [E|E]; [|discriminate]. intros X. injection X as <-. apply overlay_length. rewrite repeat_length. exact E.
  Qed.
  Lemma b2_zeros : length (zeros (b2_bs w)) = b2_bs w. Proof. apply repeat_length. Qed.
  Lemma b2_absorb_key_same s : stotal (b2c s) = 0 -> spos (b2c s) = 0%nat ->
    b2x_absorb_key w s = b2_absorb_key w s /\
    forall s', b2_absorb_key w s = Ok s' -> exists x, stotal (b2c s') = 8 * x /\ x + N.of_nat (spos (b2c s')) <= N.of_nat (b2_bs w).
  Proof.
    intros Ht Hp. unfold b2x_absorb_key, b2_absorb_key. destruct (b2k s) as [|k0 k].
    { split; [reflexivity|]. intros s' E. injection E as <-. exists 0. rewrite Ht, Hp. split; [reflexivity|lia]. }
    destruct (memcpy (zeros (b2_bs w)) 0 (k0 :: k) (length (k0 :: k))) as [key1| |] eqn:E1; [|split; [reflexivity|discriminate]..]. cbn [bind].
    destruct (size_sub (b2_bs w) (length (k0 :: k))) as [n| |]; [|split; [reflexivity|discriminate]..]. cbn [bind].
    destruct (memset key1 (length (k0 :: k)) 0 n) as [key2| |] eqn:E2; [|split; [reflexivity|discriminate]..]. cbn [bind].
    apply memcpy_length in E1. apply memset_length in E2. rewrite b2_zeros in E1.
    assert (Hb : (b2_bs w <= 128)%nat) by (destruct Hw as [-> | ->]; cbn; lia).
    destruct (b2x_update_bytes s key2 0) as [E I]; [exact Ht|lia|].
    split; [exact E|]. intros s' X. destruct (I s' X) as (x & H1 & H2). exists x. split; [exact H1|lia].
  Qed.
  Lemma b2_init_same ty s : b2x_init w ty s = b2_init w ty s /\
    forall s', b2_init w ty s = Ok s' -> exists x, stotal (b2c s') = 8 * x /\ x + N.of_nat (spos (b2c s')) <= N.of_nat (b2_bs w).
  Proof.
    unfold b2x_init, b2_init. cbv zeta. destruct (_ || _).
    - apply b2_absorb_key_same; reflexivity.
    - split; [reflexivity|]. intros s' E. injection E as <-. exists 0. split; [reflexivity|]. cbn [b2c spos]. lia.
  Qed.
  Lemma b2_set_done q v s s' : b2_set w q v s = Done s' -> b2_accepts w q v = true.
  Proof.
    unfold b2_set, b2_accepts. destruct q.
    - destruct (Nat.ltb_spec (b2_hb w) (length v)) as [H|H]; [discriminate|]. intros _. apply N.leb_le.
      revert H. destruct Hw as [-> | ->]; cbn; lia.
    - destruct (Nat.eqb_spec (length v) 0) as [H|H]; [rewrite H; reflexivity|]. destruct (Nat.eqb_spec (length v) (b2_sb w)) as [H1|H1]; [|discriminate].
      intros _. apply orb_true_iff. right. apply N.eqb_eq. rewrite H1. destruct Hw as [-> | ->]; reflexivity.
    - destruct (Nat.eqb_spec (length v) 0) as [H|H]; [rewrite H; reflexivity|]. destruct (Nat.eqb_spec (length v) (b2_sb w)) as [H1|H1]; [|discriminate].
      intros _. apply orb_true_iff. right. apply N.eqb_eq. rewrite H1. destruct Hw as [-> | ->]; reflexivity.
  Qed.
  Lemma b2_set_raised q v s s' : b2_set w q v s = Raised s' -> b2_accepts w q v = false /\ s' = s.
  Proof.
    unfold b2_set, b2_accepts. destruct q.
    - destruct (Nat.ltb_spec (b2_hb w) (length v)) as [H|H]; [|discriminate]. intros E. injection E as <-. split; [|reflexivity]. apply N.leb_gt.
      revert H. destruct Hw as [-> | ->]; cbn; lia.
    - destruct (Nat.eqb_spec (length v) 0) as [H|H]; [discriminate|]. destruct (Nat.eqb_spec (length v) (b2_sb w)) as [H1|H1]; [discriminate|].
      intros E. injection E as <-. split; [|reflexivity]. apply orb_false_iff. split; apply N.eqb_neq; [lia|]. revert H1. destruct Hw as [-> | ->]; cbn; lia.
    - destruct (Nat.eqb_spec (length v) 0) as [H|H]; [discriminate|]. destruct (Nat.eqb_spec (length v) (b2_sb w)) as [H1|H1]; [discriminate|].
      intros E. injection E as <-. split; [|reflexivity]. apply orb_false_iff. split; apply N.eqb_neq; [lia|]. revert H1. destruct Hw as [-> | ->]; cbn; lia.
  Qed.
  Definition b2_inv (s : b2_st) (a : N) : Prop := exists x, stotal (b2c s) = 8 * x /\ x + N.of_nat (spos (b2c s)) <= a + N.of_nat (b2_bs w).
  Lemma b2_upd_same s a d : b2_inv s a -> a + N.of_nat (length d) < b2_bound ->
    b2x_update w s d = b2_update w s d /\ forall s', b2_update w s d = Ok s' -> b2_inv s' (a + N.of_nat (length d)).
  Proof.
    intros (x & H1 & H2) L. unfold b2_bound in L.
    assert (Hb : (b2_bs w <= 128)%nat) by (destruct Hw as [-> | ->]; cbn; lia).
    destruct (b2x_update_bytes s d x H1) as [E I]; [lia|]. split; [exact E|].
    intros s' X. destruct (I s' X) as (x' & H3 & H4). exists x'. split; [exact H3|lia].
  Qed.
  Lemma b2_run_same ty ops s : b2_inv s 0 -> short_from (b2_accepts w) (2 ^ 63) b2_bound 0 ops ->
    hash_run (blake2x w ty) s ops = hash_run (blake2 w ty) s ops.
  Proof.
    intros H Hs.
    apply (hash_run_same (b2x_init w ty) (b2_init w ty) (b2x_update w) (b2_update w) b2_clear (b2_set w) (b2_accepts w)
      b2_inv (2 ^ 63) b2_bound (fun _ => True)) with (a := 0); auto; try reflexivity.
    - intros x _. apply b2_init_same.
    - intros x s' _ E. apply (b2_init_same ty x), E.
    - intros x a d Hx L. apply (b2_upd_same x a d Hx L).
    - intros x a d s' Hx L E. apply (b2_upd_same x a d Hx L), E.
    - intros q v x s' _ _ E. split; [apply (b2_set_done q v x s' E)|exact I].
    - intros q v x s' _ E. apply (b2_set_raised q v x s' E).
  Qed.
  Lemma b2_xrun_same ops s : b2_inv s 0 -> xshort_from (b2_accepts w) (2 ^ 63) b2_bound 0 false ops ->
    xof_run (blake2xx_xof w) s ops = xof_run (blake2x_xof w) s ops.
  Proof.
    intros H Hs.
    apply (xof_run_same (b2x_init w BXof) (b2_init w BXof) (b2x_update w) (b2_update w) b2_clear (b2_set w) (b2_accepts w)
      b2_inv (2 ^ 63) b2_bound (fun _ => True)) with (a := 0) (sq := false) (Sq := fun _ => True); auto; try reflexivity.
    - intros x _. apply b2_init_same.
    - intros x s' _ E. apply (b2_init_same BXof x), E.
    - intros x a d Hx L. apply (b2_upd_same x a d Hx L).
    - intros x a d s' Hx L E. apply (b2_upd_same x a d Hx L), E.
    - intros q v x s' _ _ E. split; [apply (b2_set_done q v x s' E)|exact I].
    - intros q v x s' _ E. apply (b2_set_raised q v x s' E).
  Qed.
  Lemma b2_fresh_same ty r : fresh_of r (b2x_init w ty) = fresh_of r (b2_init w ty).
  Proof. unfold fresh_of. destruct r; [|reflexivity..]. cbn [bind]. apply b2_init_same. Qed.
  Lemma b2_fresh_inv ty r s : fresh_of r (b2_init w ty) = Ok s -> b2_inv s 0.
  Proof. unfold fresh_of. destruct r; try discriminate. cbn [bind]. intros E. apply (b2_init_same ty a), E. Qed.
  Theorem blake2_exact ty hs g pre post : short (blake2_type w ty hs) b2_bound (pre ++ post) ->
    after (blake2x_type w ty hs) g pre post = after (blake2_type w ty hs) g pre post.
  Proof.
    intros Hs. apply (after_same (hash_run (blake2x w ty)) (hash_run (blake2 w ty)));
      [exact (fun s a b => hash_run_app (blake2x w ty) a s b)|exact (fun s a b => hash_run_app (blake2 w ty) a s b)|apply b2_fresh_same|].
    intros s E. apply b2_fresh_inv in E. split; apply b2_run_same; auto. apply (short_app _ _ _ pre post), Hs.
  Qed.
  Theorem blake2_static_exact ty hs g pre post : short (blake2_static_type w ty hs) b2_bound (pre ++ post) ->
    after (blake2x_static_type w ty hs) g pre post = after (blake2_static_type w ty hs) g pre post.
  Proof.
    intros Hs. apply (after_same (hash_run (blake2x w ty)) (hash_run (blake2 w ty)));
      [exact (fun s a b => hash_run_app (blake2x w ty) a s b)|exact (fun s a b => hash_run_app (blake2 w ty) a s b)|apply b2_fresh_same|].
    intros s E. apply b2_fresh_inv in E. split; apply b2_run_same; auto. apply (short_app _ _ _ pre post), Hs.
  Qed.
  Theorem blake2x_xof_exact g pre post : xshort (blake2x_xof_type w) b2_bound (pre ++ post) ->
    xafter (blake2xx_xof_type w) g pre post = xafter (blake2x_xof_type w) g pre post.
  Proof.
    intros Hs. apply (after_same (xof_run (blake2xx_xof w)) (xof_run (blake2x_xof w)));
      [exact (fun s a b => xof_run_app (blake2xx_xof w) a s b)|exact (fun s a b => xof_run_app (blake2x_xof w) a s b)|apply b2_fresh_same|].
    intros s E. apply b2_fresh_inv in E. split; apply b2_xrun_same; auto. apply (xshort_app _ _ _ pre post), Hs.
  Qed.

  (** ** BLAKE2bp, BLAKE2sp: every call of a leaf gets at most one block, so no bound. *)
  Definition leaf_ok (l : b2_st) : Prop := stotal (b2c l) < 2 ^ 64.
  Definition b2p_inv (s : b2p_st) : Prop := leaf_ok (bpmain s) /\ Forall leaf_ok (bpleaf s).
  Lemma b2_init_ok ty s s' : b2_init w ty s = Ok s' -> leaf_ok s'.
  Proof.
    intros E. destruct (b2_init_same ty s) as [_ H]. destruct (H s' E) as (x & H1 & H2). unfold leaf_ok. rewrite H1.
    assert (Hb : (b2_bs w <= 128)%nat) by (destruct Hw as [-> | ->]; cbn; lia). lia.
  Qed.
  (** A loop over the leaves. *)
  Lemma each_same {A C} (I : A -> Prop) (J : C -> Prop) (f1 f2 : nat -> A -> res C) : (forall i x, I x -> f1 i x = f2 i x /\ forall y, f2 i x = Ok y -> J y) ->
    forall l i, Forall I l -> each f1 i l = each f2 i l /\ forall r, each f2 i l = Ok r -> Forall J r.
  Proof.
    intros H l. induction l as [|x l IH]; intros i HI; cbn [each].
    - split; [reflexivity|]. intros r E. injection E as <-. constructor.
    - inversion HI; subst. destruct (H i x ltac:(assumption)) as [E1 E2]. rewrite E1. destruct (f2 i x) as [y| |]; [|split; [reflexivity|discriminate]..]. cbn [bind].
      destruct (IH (S i) ltac:(assumption)) as [E3 E4]. rewrite E3. destruct (each f2 (S i) l) as [r| |]; [|split; [reflexivity|discriminate]..]. cbn [bind].
      split; [reflexivity|]. intros r0 E. injection E as <-. constructor; [apply E2|apply E4]; reflexivity.
  Qed.
  Lemma fold_same {A X} (I : A -> Prop) (f1 f2 : A -> X -> res A) : (forall a x, I a -> f1 a x = f2 a x /\ forall y, f2 a x = Ok y -> I y) ->
    forall l a, I a -> fold_res f1 l a = fold_res f2 l a /\ forall r, fold_res f2 l a = Ok r -> I r.
  Proof.
    intros H l. induction l as [|x l IH]; intros a HI; cbn [fold_res].
    - split; [reflexivity|]. intros r E. injection E as <-. exact HI.
    - destruct (H a x HI) as [E1 E2]. rewrite E1. destruct (f2 a x) as [y| |]; [|split; [reflexivity|discriminate]..]. cbn [bind]. apply IH, E2. reflexivity.
  Qed.
  Lemma b2p_init_same s : b2px_init w s = b2p_init w s /\ forall s', b2p_init w s = Ok s' -> b2p_inv s'.
  Proof.
    unfold b2px_init, b2p_init. destruct (b2_init_same BHash (bpmain s)) as [E _]. rewrite E.
    destruct (b2_init w BHash (bpmain s)) as [main| |] eqn:Em; [|split; [reflexivity|discriminate]..]. cbn [bind].
    destruct (each_same (fun _ => True) leaf_ok (fun _ => b2x_init w BHash) (fun _ => b2_init w BHash)) with (l := bpleaf s) (i := 0%nat) as [E1 E2].
    - intros i x _. split; [apply b2_init_same|]. intros y. apply b2_init_ok.
    - apply Forall_forall. intros; exact I.
    - rewrite E1. destruct (each (fun _ => b2_init w BHash) 0 (bpleaf s)) as [r| |]; [|split; [reflexivity|discriminate]..]. cbn [bind].
      split; [reflexivity|]. intros s' X. injection X as <-. split; [apply (b2_init_ok _ _ _ Em)|apply E2; reflexivity].
  Qed.
  Lemma load_length d p n r : load d p n = Ok r -> length r = n.
  Proof. unfold load. destruct (Nat.leb_spec (p + n) (length d)) as [H|H]; [|discriminate]. intros E. injection E as <-. rewrite firstn_length, skipn_length. lia. Qed.
  Lemma b2p_feed_same d i blk l : leaf_ok l -> b2px_feed w d i blk l = b2p_feed w d i blk l /\ forall l', b2p_feed w d i blk l = Ok l' -> leaf_ok l'.
  Proof.
    intros H. unfold b2px_feed, b2p_feed. destruct (load d (blk * 512 + i * b2_bs w) (b2_bs w)) as [x| |] eqn:E; [|split; [reflexivity|discriminate]..]. cbn [bind].
    apply load_length in E. apply b2x_update_block; [lia|exact H].
  Qed.
  Lemma b2p_transform_same d n leaf : Forall leaf_ok leaf ->
    b2px_transform w d n leaf = b2p_transform w d n leaf /\ forall l, b2p_transform w d n leaf = Ok l -> Forall leaf_ok l.
  Proof.
    apply each_same. intros i x. apply fold_same. intros a y. apply b2p_feed_same.
  Qed.
  Lemma Forall_upd {A} (Q : A -> Prop) l : forall i x, Forall Q l -> Q x -> Forall Q (upd i x l).
  Proof.
    induction l as [|y l IH]; intros [|i] x H Hx; cbn; auto; inversion H; subst; constructor; auto.
  Qed.
  Lemma b2p_run_same d sch leaf : Forall leaf_ok leaf ->
    b2px_run w d sch leaf = b2p_run w d sch leaf /\ forall l, b2p_run w d sch leaf = Ok l -> Forall leaf_ok l.
  Proof.
    apply fold_same. intros a [i blk] H. destruct (nth_error a i) as [l|] eqn:E; [|split; [reflexivity|discriminate]].
    assert (Hl : leaf_ok l) by (apply (proj1 (Forall_forall _ _) H), (nth_error_In _ _ E)).
    destruct (b2p_feed_same d i blk l Hl) as [E1 E2]. rewrite E1. destruct (b2p_feed w d i blk l) as [l'| |]; [|split; [reflexivity|discriminate]..]. cbn [bind].
    split; [reflexivity|]. intros r X. injection X as <-. apply Forall_upd; [exact H|]. apply E2. reflexivity.
  Qed.
  Section Tf.
    Variables tf1 tf2 : b2p_tf.
    Hypothesis Htf : forall leaf t d n, Forall leaf_ok leaf -> tf1 leaf t d n = tf2 leaf t d n /\ forall l, tf2 leaf t d n = Ok l -> Forall leaf_ok l.
    Lemma b2p_update_same s d : b2p_inv s -> b2p_update tf1 s d = b2p_update tf2 s d /\ forall s', b2p_update tf2 s d = Ok s' -> b2p_inv s'.
    Proof.
      intros [Hm Hl]. unfold b2p_update.
      destruct (absorb_bytes_same (fun leaf _ _ => Forall leaf_ok leaf) (N.of_nat (bppos s + length d))
        (fun leaf m t d n => leaf <- tf1 leaf t d n ;; Ok (leaf, m)) (fun leaf m t d n => leaf <- tf2 leaf t d n ;; Ok (leaf, m))
        bp_bs bp_bs d) with (c := bpleaf s) (m := bpm s) (pos := bppos s) (total := bptotal s) (x := 0) as [E I]; [unfold bp_bs; lia|lia| |exact Hl|lia|].
      - intros c m t x d0 n H _ _. destruct (Htf c t d0 n H) as [E1 E2]. rewrite E1.
        destruct (tf2 c t d0 n) as [l| |]; [|split; [reflexivity|discriminate]..]. cbn [bind]. split; [reflexivity|].
        intros c' m' X. injection X as <- <-. apply E2. reflexivity.
      - rewrite E. clear E. revert I.
        generalize (absorb_bytes (fun leaf m t d n => leaf <- tf2 leaf t d n ;; Ok (leaf, m)) bp_bs bp_bs d (bpleaf s) (bpm s) (bppos s) (bptotal s)).
        intros [[[[h m] p] t]| |] I; [|split; [reflexivity|discriminate]..]. cbn [bind].
        split; [reflexivity|]. intros s' X. injection X as <-. destruct (I h m p t eq_refl) as (x' & H & _). split; [exact Hm|exact H].
    Qed.
    Lemma b2_final_length l l' buf : b2_final_over w BHash (8 * w) l = Ok (l', buf) -> (length buf <= b2_bs w)%nat.
    Proof.
      unfold b2_final_over. cbv zeta. match goal with |- context [b2_pad w ?x] => destruct (b2_pad w x) as [c| |]; try discriminate end. cbn [bind].
      match goal with |- context [load ?a ?b ?n] => destruct (load a b n) as [o| |] eqn:E; try discriminate end. cbn [bind]. intros X. injection X as <- <-.
      apply load_length in E. rewrite E. destruct Hw as [-> | ->]; cbn; lia.
    Qed.
    Lemma b2p_leaves_same m pos leaf : forall i main, leaf_ok main -> Forall leaf_ok leaf -> b2px_leaves w m pos main i leaf = b2p_leaves w m pos main i leaf.
    Proof.
      induction leaf as [|l r IH]; intros i main Hm Hl; [reflexivity|]. inversion Hl as [|x y H1 H2]; subst. cbn [b2px_leaves b2p_leaves].
      assert (E0 : (if (i * b2_bs w <? pos)%nat then
            let prev := (i * b2_bs w)%nat in
            let next := (prev + b2_bs w)%nat in
            let len := (if pos <? next then pos - prev else b2_bs w)%nat in
            d <- load m (i * b2_bs w) len ;;
            b2x_update w l d
          else Ok l) = (if (i * b2_bs w <? pos)%nat then
            let prev := (i * b2_bs w)%nat in
            let next := (prev + b2_bs w)%nat in
            let len := (if pos <? next then pos - prev else b2_bs w)%nat in
            d <- load m (i * b2_bs w) len ;;
            b2_update w l d
          else Ok l)).
      { destruct (i * b2_bs w <? pos)%nat; [|reflexivity]. cbv zeta.
        match goal with |- context [load m ?a ?n] => destruct (load m a n) as [d| |] eqn:E; [|reflexivity..] end. cbn [bind].
        apply load_length in E. apply b2x_update_block; [|exact H1]. rewrite E. destruct (Nat.ltb_spec pos (i * b2_bs w + b2_bs w)); lia. }
      cbv zeta in E0 |- *. rewrite E0. clear E0. match goal with |- bind ?x _ = _ => destruct x as [l1| |]; [|reflexivity..] end. cbn [bind].
      destruct (b2_final_over w BHash (8 * w) l1) as [[l2 buf]| |] eqn:E; [|reflexivity..]. cbn [bind]. apply b2_final_length in E.
      destruct (b2x_update_block main buf E Hm) as [E1 E2]. rewrite E1. destruct (b2_update w main buf) as [main1| |]; [|reflexivity..]. cbn [bind].
      rewrite (IH (S i) main1 (E2 main1 eq_refl) H2). reflexivity.
    Qed.
    Lemma b2p_final_same s : b2p_inv s -> b2px_final w s = b2p_final w s.
    Proof.
      intros [Hm Hl]. unfold b2px_final, b2p_final, b2px_finalize, b2p_finalize. cbn [bppos bpm bpmain bpleaf bptotal bphs].
      destruct (if negb (512 =? bppos s)%nat then _ else _) as [m| |]; [|reflexivity..]. cbn [bind].
      rewrite (b2p_leaves_same m (bppos s) (bpleaf s) 0 (bpmain s) Hm Hl). reflexivity.
    Qed.
    Lemma b2_set_all_done q v l r : b2_accepts w q v = true -> b2_set_all w q v l <> Raised r.
    Proof.
      intros A. revert r. induction l as [|x l IH]; intros r; cbn [b2_set_all]; [discriminate|].
      destruct (b2_set w q v x) as [y|y|u] eqn:E; [|apply b2_set_raised in E; destruct E; congruence|discriminate].
      destruct (b2_set_all w q v l) as [z|z|u] eqn:E1; [discriminate|exfalso; exact (IH z eq_refl)|discriminate].
    Qed.
    Lemma b2p_set_done q v s s' : b2p_set w q v s = Done s' -> b2_accepts w q v = true.
    Proof. unfold b2p_set. destruct (b2_set w q v (bpmain s)) as [m|m|u] eqn:E; try discriminate. intros _. apply (b2_set_done _ _ _ _ E). Qed.
    Lemma b2p_set_raised q v s s' : b2p_set w q v s = Raised s' -> b2_accepts w q v = false /\ s' = s.
    Proof.
      unfold b2p_set. destruct (b2_set w q v (bpmain s)) as [m|m|u] eqn:E; try discriminate.
      - apply b2_set_done in E. pose proof (fun r => b2_set_all_done q v (bpleaf s) r E) as X. destruct (b2_set_all w q v (bpleaf s)) as [l|l|u]; [discriminate|destruct (X l eq_refl)|discriminate].
      - apply b2_set_raised in E. destruct E as [A ->]. intros X. injection X as <-. split; [exact A|destruct s; reflexivity].
    Qed.
    Lemma b2p_hash_same s ops : b2p_inv s -> hash_run (blake2px_with w tf1) s ops = hash_run (blake2p_with w tf2) s ops.
    Proof.
      intros H. destruct (short_large (b2_accepts w) ops 0) as [M HM].
      apply (hash_run_same (b2px_init w) (b2p_init w) (b2p_update tf1) (b2p_update tf2) b2p_clear (b2p_set w) (b2_accepts w)
        (fun s _ => b2p_inv s) (M + 1) (M + 1) (fun _ => True)) with (a := 0); auto; try lia.
      - intros x _. apply b2p_init_same.
      - intros x s' _. apply b2p_init_same.
      - intros x a d Hx _. apply b2p_update_same, Hx.
      - intros x a d s' Hx _. apply b2p_update_same, Hx.
      - intros q v x s' _ _ E. split; [apply (b2p_set_done q v x s' E)|exact I].
      - intros q v x s' _ E. apply (b2p_set_raised q v x s' E).
      - intros x _ Hx _. apply b2p_final_same, Hx.
      - apply HM; lia.
    Qed.
    Lemma b2p_after_same r pre post :
      (s <- fresh_of r (b2px_init w) ;; ' (s, _) <- hash_run (blake2px_with w tf1) s pre ;; ' (_, l) <- hash_run (blake2px_with w tf1) s post ;; Ok l) =
      (s <- fresh_of r (b2p_init w) ;; ' (s, _) <- hash_run (blake2p_with w tf2) s pre ;; ' (_, l) <- hash_run (blake2p_with w tf2) s post ;; Ok l).
    Proof.
      apply (after_same (hash_run (blake2px_with w tf1)) (hash_run (blake2p_with w tf2)));
        [exact (fun s a b => hash_run_app (blake2px_with w tf1) a s b)|exact (fun s a b => hash_run_app (blake2p_with w tf2) a s b)| |].
      - unfold fresh_of. destruct r; [|reflexivity..]. cbn [bind]. apply b2p_init_same.
      - intros s E. assert (H : b2p_inv s). { unfold fresh_of in E. destruct r; try discriminate E. cbn [bind] in E. apply (b2p_init_same a), E. }
        split; apply (b2p_hash_same s _ H).
    Qed.
  End Tf.
  Theorem blake2p_exact hs g pre post : after (blake2px_type w hs) g pre post = after (blake2p_type w hs) g pre post.
  Proof. apply b2p_after_same. intros leaf t d n. apply b2p_transform_same. Qed.
  Theorem blake2p_static_exact hs g pre post : after (blake2px_static_type w hs) g pre post = after (blake2p_static_type w hs) g pre post.
  Proof. apply b2p_after_same. intros leaf t d n. apply b2p_transform_same. Qed.
  Theorem blake2p_omp_exact hs sch g pre post : after (blake2px_omp_type w hs sch) g pre post = after (blake2p_omp_type w hs sch) g pre post.
  Proof. apply b2p_after_same. intros leaf t d n. apply b2p_run_same. Qed.
  Theorem blake2p_omp_static_exact hs sch g pre post : after (blake2px_omp_static_type w hs sch) g pre post = after (blake2p_omp_static_type w hs sch) g pre post.
  Proof. apply b2p_after_same. intros leaf t d n. apply b2p_run_same. Qed.
End B2.

(** ** KangarooTwelve, MarsupilamiFourteen *)
Section K12.
  Variables (B : N) (R : nat).
  Definition k12_max : N := 2 ^ 77 - 8192.
  Definition k12_ic (c : shake_st * shake_st * N) (_ x : N) : Prop := snd c * 8192 = x.
  Lemma k12_chunk_same c t x d : k12_ic c t x -> x + 8192 <= k12_max ->
    k12x_chunk B R c t d = k12_chunk B R c t d /\ forall c', k12_chunk B R c t d = Ok c' -> snd c' * 8192 = x + 8192.
  Proof.
    intros H L. unfold k12_ic, k12_max in *. destruct c as [[main child] chunk]. cbn [snd] in H.
    assert (G : forall c', k12_chunk B R (main, child, chunk) t d = Ok c' -> snd c' = chunk + 1).
    { intros c'. unfold k12_chunk. match goal with |- bind ?x _ = _ -> _ => destruct x as [[m1 c1]| |]; try discriminate end. cbn [bind].
      destruct (shake_init B R c1); try discriminate. cbn [bind]. intros E. injection E as <-. reflexivity. }
    split.
    - unfold k12x_chunk. destruct (k12_chunk B R (main, child, chunk) t d) as [[[m1 c1] ch]| |] eqn:E; [|reflexivity..]. cbn [bind].
      specialize (G _ eq_refl). cbn [snd] in G. rewrite trunc_small by lia. reflexivity.
    - intros c' E. rewrite (G c' E). lia.
  Qed.
  Lemma k12_loop_same n : forall c t x d, k12_ic c t x -> x + N.of_nat (n * k12_bs) <= k12_max ->
    block_loop_res (k12x_chunk B R) k12_bs c t d n = block_loop_res (k12_chunk B R) k12_bs c t d n /\
    forall c', block_loop_res (k12_chunk B R) k12_bs c t d n = Ok c' -> snd c' * 8192 = x + N.of_nat (n * k12_bs).
  Proof.
    assert (Hb : N.of_nat k12_bs = 8192) by apply N2Nat.id.
    induction n as [|n IH]; intros c t x d H L; cbn [block_loop_res].
    - split; [reflexivity|]. intros c' E. injection E as <-. rewrite H, N.add_0_r. reflexivity.
    - destruct (k12_chunk_same c t x (firstn k12_bs d) H) as [E1 E2]; [lia|]. rewrite E1.
      destruct (k12_chunk B R c t (firstn k12_bs d)) as [c1| |]; [|split; [reflexivity|discriminate]..]. cbn [bind].
      destruct (IH c1 (trunc 64 (t + N.of_nat (k12_bs * 8))) (x + 8192) (skipn k12_bs d)) as [E3 E4]; [apply E2; reflexivity|lia|].
      split; [exact E3|]. intros c' E. rewrite (E4 c' E). lia.
  Qed.
  Definition k12_rep (s : k12_st) : Prop := N.of_nat (length (kS s)) < 2 ^ 63.
  Definition k12_inv (s : k12_st) (a : N) : Prop := kchunk s * 8192 + N.of_nat (kpos s) = a /\ k12_rep s.
  Lemma k12_upd_same s a d : k12_inv s a -> a + N.of_nat (length d) <= k12_max ->
    k12x_update B R s d = k12_update B R s d /\ forall s', k12_update B R s d = Ok s' -> k12_inv s' (a + N.of_nat (length d)) /\ kS s' = kS s.
  Proof.
    intros [H1 H2] L. unfold k12x_update, k12_update.
    assert (Hb : N.of_nat k12_bs = 8192) by apply N2Nat.id.
    destruct (absorb_bytes_same k12_ic k12_max
      (fun c m t d n => c <- block_loop_res (k12x_chunk B R) k12_bs c t d n ;; Ok (c, m))
      (fun c m t d n => c <- block_loop_res (k12_chunk B R) k12_bs c t d n ;; Ok (c, m))
      k12_bs (k12_bs + 1) d) with (c := (kmain s, kchild s, kchunk s)) (m := km s) (pos := kpos s) (total := ktotal s) (x := kchunk s * 8192) as [E I]; [lia|lia| |reflexivity|lia|].
    - intros c m t x d0 n Hc Hn _. destruct (k12_loop_same n c t x d0 Hc Hn) as [E1 E2]. rewrite E1.
      destruct (block_loop_res (k12_chunk B R) k12_bs c t d0 n) as [c1| |]; [|split; [reflexivity|discriminate]..]. cbn [bind].
      split; [reflexivity|]. intros c' m' X. injection X as <- <-. apply E2. reflexivity.
    - rewrite E. clear E. revert I.
      generalize (absorb_bytes (fun c m t d n => c <- block_loop_res (k12_chunk B R) k12_bs c t d n ;; Ok (c, m)) k12_bs (k12_bs + 1) d (kmain s, kchild s, kchunk s) (km s) (kpos s) (ktotal s)).
      intros [[[[[[m1 c1] ch] m] p] t]| |] I; [|split; [reflexivity|discriminate]..]. cbn [bind].
      split; [reflexivity|]. intros s' X. injection X as <-. destruct (I (m1, c1, ch) m p t eq_refl) as (x & X1 & X2). unfold k12_ic in X1. cbn [snd] in X1.
      split; [|reflexivity]. split; [cbn [kchunk kpos]; lia|exact H2].
  Qed.
  Lemma enc_loop_length n : forall i x acc, length (enc_loop n i x acc) = (n + length acc)%nat.
  Proof. induction n as [|n IH]; intros; cbn [enc_loop]; [reflexivity|]. rewrite IH. cbn [length]. lia. Qed.
  Lemma count_bytes_fuel f : forall x n, (count_bytes f x n <= f + n)%nat.
  Proof. induction f as [|f IH]; intros x n; cbn [count_bytes]; [lia|]. destruct (_ =? 0); [lia|]. specialize (IH (N.shiftr x 8) (S n)). lia. Qed.
  Lemma right_encode_length x b : (length (right_encode x b) <= 10)%nat.
  Proof.
    unfold right_encode. cbv zeta. rewrite app_length, enc_loop_length. cbn [length].
    pose proof (count_bytes_fuel 8 x (if b && (x =? 0) then 0%nat else 1%nat)) as H.
    assert ((if b && (x =? 0)%N then 0%nat else 1%nat) <= 1)%nat by (destruct (_ && _); lia). lia.
  Qed.
  Lemma k12_finish_same s a : k12_inv s a -> a < k12_bound ->
    k12x_finish B R s = k12_finish B R s /\ forall s', k12_finish B R s = Ok s' -> ksq s' = true /\ k12_rep s'.
  Proof.
    intros H L. unfold k12x_finish, k12_finish. cbv zeta.
    assert (HS : N.of_nat (length (kS s)) < 2 ^ 63) by apply H.
    set (buf := right_encode (trunc 64 (N.of_nat (length (kS s)))) true).
    assert (Lb : (length buf <= 10)%nat) by apply right_encode_length.
    assert (G : (match kS s with [] => Ok s | _ => k12x_update B R s (kS s) end) = (match kS s with [] => Ok s | _ => k12_update B R s (kS s) end) /\
      forall s', (match kS s with [] => Ok s | _ => k12_update B R s (kS s) end) = Ok s' -> k12_inv s' (a + N.of_nat (length (kS s)))).
    { destruct (kS s) as [|z zs] eqn:Es.
      - split; [reflexivity|]. intros s' E. injection E as <-. rewrite N.add_0_r. exact H.
      - rewrite <- Es in *. destruct (k12_upd_same s a (kS s) H) as [E1 E2]; [unfold k12_max, k12_bound in *; lia|]. split; [exact E1|]. intros s' E. apply (E2 s' E). }
    destruct G as [G1 G2]. rewrite G1.
    match goal with |- context [bind ?x _] => destruct x as [s1| |]; [|split; [reflexivity|discriminate]..] end. cbn [bind].
    specialize (G2 s1 eq_refl).
    destruct (k12_upd_same s1 _ buf G2) as [E1 E2]; [unfold k12_max, k12_bound in *; lia|]. rewrite E1.
    destruct (k12_update B R s1 buf) as [s2| |]; [|split; [reflexivity|discriminate]..]. cbn [bind].
    destruct (E2 s2 eq_refl) as [[H3 H4] _]. rewrite (trunc_small 64 (kchunk s2)) by (unfold k12_bound in L; lia).
    split; [reflexivity|]. intros s'. match goal with |- bind ?x _ = _ -> _ => destruct x as [[m1 c1]| |]; try discriminate end. cbn [bind].
    intros E. injection E as <-. split; [reflexivity|exact H4].
  Qed.
  Definition k12_sq (s : k12_st) : Prop := ksq s = true /\ k12_rep s.
  Lemma k12_run_same (ops : list (xof_op k12_param)) (s : k12_st) : k12_inv s 0 -> xshort_from always (2 ^ 63) k12_bound 0 false ops -> (xof_run (k12x B R) s ops : res (k12_st * list out)) = xof_run (k12 B R) s ops.
  Proof.
    intros H Hs.
    apply (xof_run_same (k12_init B R) (k12_init B R) (k12x_update B R) (k12_update B R) k12_clear k12_set always
      k12_inv (2 ^ 63) k12_bound k12_rep) with (a := 0) (sq := false) (Sq := k12_sq); auto; try reflexivity.
    - intros x a Hx. apply Hx.
    - intros x s' Hx E. unfold k12_init in E. destruct (shake_init B R (kmain x)); try discriminate E. cbn [bind] in E. injection E as <-. split; [reflexivity|exact Hx].
    - intros x s' Hx E. unfold k12_clear in E. destruct (shake_clear (kmain x)); try discriminate E. cbn [bind] in E. destruct (shake_clear (kchild x)); try discriminate E. cbn [bind] in E.
      injection E as <-. reflexivity.
    - intros x a d Hx L. apply (k12_upd_same x a d Hx). unfold k12_max, k12_bound in *; lia.
    - intros x a d s' Hx L E. apply (k12_upd_same x a d Hx); [unfold k12_max, k12_bound in *; lia|exact E].
    - intros q v x s' _ Hv E. unfold k12_set in E. injection E as <-. split; [reflexivity|exact Hv].
    - discriminate.
    - intros x Hx. apply Hx.
    - intros x a n Hx L. unfold k12x_squeeze, k12_squeeze. destruct (ksq x); [reflexivity|].
      destruct (k12_finish_same x a Hx L) as [E _]. rewrite E. reflexivity.
    - intros x a n s' o Hx L. unfold k12_squeeze. destruct (ksq x) eqn:Eq.
      + cbn [bind]. destruct (shake_squeeze B R (kmain x) n) as [[m1 o1]| |]; try discriminate. cbn [bind]. intros E. injection E as <- <-. split; [exact Eq|apply Hx].
      + destruct (k12_finish_same x a Hx L) as [_ E]. destruct (k12_finish B R x) as [y| |]; try discriminate. cbn [bind]. destruct (E y eq_refl) as [E1 E2].
        destruct (shake_squeeze B R (kmain y) n) as [[m1 o1]| |]; try discriminate. cbn [bind]. intros X. injection X as <- <-. split; [exact E1|exact E2].
    - intros x n [Hx _]. unfold k12x_squeeze, k12_squeeze. rewrite Hx. reflexivity.
    - intros x n s' o [Hx Hr]. unfold k12_squeeze. rewrite Hx. cbn [bind]. destruct (shake_squeeze B R (kmain x) n) as [[m1 o1]| |]; try discriminate. cbn [bind]. intros X. injection X as <- <-. split; [exact Hx|exact Hr].
  Qed.
  Theorem k12_exact (g : k12_mem) (pre post : list (xof_op k12_param)) : xshort (k12_type B R) k12_bound (pre ++ post) -> xafter (k12x_type B R) g pre post = xafter (k12_type B R) g pre post.
  Proof.
    intros Hs. unfold xafter.
    change (xt_new (k12x_type B R) g) with (xt_new (k12_type B R) g). set (n := xt_new (k12_type B R) g : res k12_st).
    refine (@after_same k12_st (xof_op k12_param) (xof_run (k12x B R)) (xof_run (k12 B R)) n n pre post (fun s a b => xof_run_app (k12x B R) a s b) (fun s a b => xof_run_app (k12 B R) a s b) eq_refl _).
    unfold n. clear n.
    intros s E. assert (H : k12_inv s 0).
    { cbn in E. injection E as <-. repeat split. }
    split; apply k12_run_same; auto. apply (xshort_app _ _ _ pre post), Hs.
  Qed.
End K12.
