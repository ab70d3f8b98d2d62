(** * Proofs about the calls of transform. *)
From Coq Require Import Lia.
From Verif Require Import Base Lemmas Absorb AbsorbProof MdState Blocks.
Local Open Scope nat_scope.

(** One call of absorb_bytes: at most two calls of transform, of at least one whole block each;
    buffer, position and counter do not depend on the transform. *)
Lemma absorb_calls {C} (f : C -> call -> res C) bs bschk data m pos total m' pos' total' : forall l l',
  0 < bs -> bs <= bschk -> (total < 2 ^ 64)%N ->
  absorb_bytes recorder bs bschk data l m pos total = Ok (l', m', pos', total') ->
  exists new, l' = l ++ new /\ length new <= 2 /\ Forall (fun '(t, d, n) => 0 < n /\ length d = n * bs /\ (t < 2 ^ 64)%N) new /\ (total' < 2 ^ 64)%N /\
    forall c, absorb_bytes (quiet f) bs bschk data c m pos total = (c' <- fold_res f new c ;; Ok (c', m', pos', total')).
Proof.
  intros l l' Hb Hk Ht. pose proof trunc_lt as TL. unfold absorb_bytes, recorder, quiet.
  assert (LL : forall src p n w, load src p n = Ok w -> length w = n).
  { intros src p n w. unfold load. destruct (Nat.leb_spec (p + n) (length src)); [|discriminate]. intros E. injection E as <-.
    rewrite firstn_length, skipn_length. lia. }
  destruct (negb (pos =? 0) && (bschk <=? pos + length data)) eqn:E1.
  - destruct (size_sub bs pos) as [k| |]; cbn [bind]; try discriminate.
    destruct (memcpy m pos data k) as [m1| |]; cbn [bind]; try discriminate.
    destruct (load m1 0 bs) as [b1| |] eqn:L1; cbn [bind]; try discriminate.
    destruct (bschk <=? length (skipn k data)) eqn:E2.
    + destruct (load (skipn k data) 0 _) as [b2| |] eqn:L2; cbn [bind]; try discriminate.
      destruct (memcpy m1 0 _ _) as [m2| |] eqn:M2; cbn [bind]; try discriminate. intros E. injection E as <- <- <- <-.
      eexists. split; [rewrite <- app_assoc; reflexivity|]. split; [cbn; lia|]. split.
      * constructor; [split; [lia|split; [rewrite (LL _ _ _ _ L1); lia|auto]]|]. constructor; [|constructor]. split; [|split; [exact (LL _ _ _ _ L2)|auto]].
        apply Nat.leb_le in E2. apply Nat.div_str_pos. lia.
      * split; [auto|]. intros c. cbn [app fold_res]. destruct (f c _) as [c1| |]; cbn [bind]; auto. rewrite E2, L2. cbn [bind].
        destruct (f c1 _) as [c2| |]; cbn [bind]; auto. rewrite M2. reflexivity.
    + cbn [bind]. destruct (memcpy m1 0 _ _) as [m2| |] eqn:M2; cbn [bind]; try discriminate. intros E. injection E as <- <- <- <-.
      eexists. split; [reflexivity|]. split; [cbn; lia|]. split.
      * constructor; [split; [lia|split; [rewrite (LL _ _ _ _ L1); lia|auto]]|constructor].
      * split; [auto|]. intros c. cbn [fold_res]. destruct (f c _) as [c1| |]; cbn [bind]; auto. rewrite E2. cbn [bind]. rewrite M2. reflexivity.
  - cbn [bind]. destruct (bschk <=? length data) eqn:E2.
    + destruct (load data 0 _) as [b2| |] eqn:L2; cbn [bind]; try discriminate.
      destruct (memcpy m pos _ _) as [m2| |] eqn:M2; cbn [bind]; try discriminate. intros E. injection E as <- <- <- <-.
      eexists. split; [reflexivity|]. split; [cbn; lia|]. split.
      * constructor; [|constructor]. split; [|split; [exact (LL _ _ _ _ L2)|auto]]. apply Nat.leb_le in E2. apply Nat.div_str_pos. lia.
      * split; [auto|]. intros c. cbn [fold_res]. destruct (f c _) as [c1| |]; cbn [bind]; auto. rewrite M2. reflexivity.
    + cbn [bind]. destruct (memcpy m pos _ _) as [m2| |] eqn:M2; cbn [bind]; try discriminate. intros E. injection E as <- <- <- <-.
      exists []. rewrite app_nil_r. repeat split; auto.
Qed.
Lemma fold_res_app {A B} (f : A -> B -> res A) l1 : forall l2 a, fold_res f (l1 ++ l2) a = (a <- fold_res f l1 a ;; fold_res f l2 a).
Proof.
  induction l1 as [|x l1 IH]; intros l2 a; cbn [fold_res app bind]; [reflexivity|]. destruct (f a x); cbn [bind]; auto.
Qed.
Lemma absorbs_calls {C} (f : C -> call -> res C) bs bschk pieces : 0 < bs -> bs <= bschk ->
  forall l m pos total l' m' pos' total', (total < 2 ^ 64)%N ->
  absorbs recorder bs bschk pieces l m pos total = Ok (l', m', pos', total') ->
  exists new, l' = l ++ new /\ length new <= 2 * length pieces /\ Forall (fun '(t, d, n) => 0 < n /\ length d = n * bs /\ (t < 2 ^ 64)%N) new /\
    forall c, absorbs (quiet f) bs bschk pieces c m pos total = (c' <- fold_res f new c ;; Ok (c', m', pos', total')).
Proof.
  intros Hb Hk. induction pieces as [|d r IH]; intros l m pos total l' m' pos' total' Ht; cbn [absorbs].
  - intros E. injection E as <- <- <- <-. exists []. rewrite app_nil_r. repeat split; auto.
  - destruct (absorb_bytes recorder bs bschk d l m pos total) as [[[[l1 m1] p1] t1]| |] eqn:E1; cbn [bind]; try discriminate.
    intros E2. destruct (absorb_calls f bs bschk d m pos total m1 p1 t1 l l1 Hb Hk Ht E1) as (n1 & -> & B1 & W1 & T1 & Q1).
    destruct (IH _ _ _ _ _ _ _ _ T1 E2) as (n2 & -> & B2 & W2 & Q2). exists (n1 ++ n2).
    split; [rewrite app_assoc; reflexivity|]. split; [rewrite app_length; cbn [length]; lia|]. split; [apply Forall_app; auto|].
    intros c. rewrite Q1, fold_res_app. destruct (fold_res f n1 c) as [c1| |]; cbn [bind]; auto.
Qed.

(** Conversely, if a transform that always returns lets absorb_bytes return, so does the recorder. *)
Lemma absorb_recorded {C} (g : C -> call -> C) bs bschk data m pos total c r : forall l,
  absorb_bytes (quiet (fun c k => Ok (g c k))) bs bschk data c m pos total = Ok r ->
  exists l', absorb_bytes recorder bs bschk data l m pos total = Ok (l', snd (fst (fst r)), snd (fst r), snd r).
Proof.
  intros l. unfold absorb_bytes, recorder, quiet. cbn [bind].
  destruct (negb (pos =? 0) && (bschk <=? pos + length data)).
  - destruct (size_sub bs pos) as [k| |]; cbn [bind]; try discriminate.
    destruct (memcpy m pos data k) as [m1| |]; cbn [bind]; try discriminate.
    destruct (load m1 0 bs) as [b1| |]; cbn [bind]; try discriminate.
    destruct (bschk <=? length (skipn k data)).
    + destruct (load (skipn k data) 0 _) as [b2| |]; cbn [bind]; try discriminate.
      destruct (memcpy m1 0 _ _) as [m2| |]; cbn [bind]; try discriminate. intros E. injection E as <-. eexists. reflexivity.
    + cbn [bind]. destruct (memcpy m1 0 _ _) as [m2| |]; cbn [bind]; try discriminate. intros E. injection E as <-. eexists. reflexivity.
  - cbn [bind]. destruct (bschk <=? length data).
    + destruct (load data 0 _) as [b2| |]; cbn [bind]; try discriminate.
      destruct (memcpy m pos _ _) as [m2| |]; cbn [bind]; try discriminate. intros E. injection E as <-. eexists. reflexivity.
    + cbn [bind]. destruct (memcpy m pos _ _) as [m2| |]; cbn [bind]; try discriminate. intros E. injection E as <-. eexists. reflexivity.
Qed.
Lemma absorbs_recorded {C} (g : C -> call -> C) bs bschk pieces : forall c l m pos total r,
  absorbs (quiet (fun c k => Ok (g c k))) bs bschk pieces c m pos total = Ok r ->
  exists l', absorbs recorder bs bschk pieces l m pos total = Ok (l', snd (fst (fst r)), snd (fst r), snd r).
Proof.
  induction pieces as [|d t IH]; intros c l m pos total r; cbn [absorbs].
  - intros E. injection E as <-. eexists. reflexivity.
  - destruct (absorb_bytes (quiet _) bs bschk d c m pos total) as [[[[c1 m1] p1] t1]| |] eqn:E1; cbn [bind]; try discriminate.
    intros E. destruct (absorb_recorded g bs bschk d m pos total c _ l E1) as (l1 & ->). cbn [bind fst snd].
    exact (IH c1 l1 m1 p1 t1 r E).
Qed.

Section Counted.
  Variable bs : nat.
  Definition note (c : list (N * list N)) (t : N) (b : list N) := c ++ [(t, b)].
  Lemma note_loop c t d n : (t < 2 ^ 64)%N -> block_loop note bs c t d n = c ++ counted bs t d n.
  Proof.
    intros Ht. rewrite block_loop_seq by exact Ht. unfold counted. generalize (seq 0 n). intros l. revert c.
    induction l as [|i l IH]; intros c; cbn [fold_left map]; [rewrite app_nil_r; reflexivity|].
    rewrite IH. unfold note. rewrite <- app_assoc. cbn [app]. do 3 f_equal. rewrite trunc_mod. do 2 f_equal. lia.
  Qed.
  Lemma counted_app t d x n : length d = n * bs -> counted bs t (d ++ x) n = counted bs t d n.
  Proof.
    intros L. unfold counted. apply map_ext_in. intros i Hi. apply in_seq in Hi. f_equal.
    assert (i * bs + bs <= n * bs) by (replace (i * bs + bs) with ((i + 1) * bs) by lia; apply Nat.mul_le_mono_r; lia).
    rewrite skipn_app, firstn_app. rewrite skipn_length.
    replace (bs - (length d - i * bs)) with 0 by lia. cbn [firstn]. apply app_nil_r.
  Qed.
End Counted.

Section All.
  Variables (bs cap : nat) (lazy : bool).
  Hypothesis bs_pos : 0 < bs.
  Hypothesis bs_cap : bs <= cap.
  Let chk := if lazy then bs + 1 else bs.
  Let noter1 (c : list (N * list N)) (k : call) : list (N * list N) := block_loop note bs c (fst (fst k)) (snd (fst k)) (snd k).
  Let noter (c : list (N * list N)) (k : call) : res (list (N * list N)) := Ok (noter1 c k).

  Lemma absorbs_state pieces : forall c msg m pos total, absorbed_state (note) bs cap lazy [] 0 msg c m pos total ->
    exists c' m' pos' total', absorbs (quiet noter) bs chk pieces c m pos total = Ok (c', m', pos', total') /\
      absorbed_state note bs cap lazy [] 0 (msg ++ concat pieces) c' m' pos' total'.
  Proof.
    induction pieces as [|d r IH]; intros c msg m pos total A; cbn [absorbs concat].
    - rewrite app_nil_r. eauto 8.
    - destruct (absorb_bytes_ok note (quiet noter) bs cap lazy bs_pos bs_cap) with (c0 := @nil (N * list N)) (t0 := 0%N) (msg := msg)
        (data := d) (c := c) (m := m) (pos := pos) (total := total) as (c1 & m1 & p1 & t1 & E & A1); auto.
      + intros c1 m1 t1 d1 n1 Hm _ _. exists m1. split; [reflexivity|exact Hm].
      + reflexivity.
      + change (bschk bs lazy) with chk in E. rewrite E. cbn [bind]. rewrite app_assoc. exact (IH c1 _ m1 p1 t1 A1).
  Qed.

  Lemma fold_noter l : forall c, Forall (fun '(t, d, n) => (t < 2 ^ 64)%N) l -> fold_res noter l c = Ok (c ++ covered bs l).
  Proof.
    induction l as [|[[t d] n] l IH]; intros c W; cbn [fold_res].
    - cbn. rewrite app_nil_r. reflexivity.
    - inversion W as [|? ? Wt Wl]; subst. unfold noter at 1, noter1. cbn [bind fst snd]. rewrite note_loop by exact Wt.
      rewrite IH by exact Wl. unfold covered. cbn [flat_map]. rewrite app_assoc. reflexivity.
  Qed.
  Lemma rem_count n r : okrem bs lazy n r -> full_blocks lazy bs (n * bs + r) = n.
  Proof.
    unfold okrem, full_blocks. destruct lazy; intros Q.
    - destruct (Nat.eq_dec r 0) as [->|Z].
      + rewrite (proj2 Q eq_refl). cbn [Nat.mul Nat.add Nat.sub]. apply Nat.div_0_l. lia.
      + symmetry. apply (Nat.div_unique _ bs n (r - 1)); lia.
    - symmetry. apply (Nat.div_unique _ bs n r); lia.
  Qed.
  Lemma absorbs_blocks pieces m : length m = cap -> exists calls m' pos',
    absorbs recorder bs chk pieces [] m 0 0%N =
      Ok (calls, m', pos', ((8 * N.of_nat (full_blocks lazy bs (length (concat pieces)) * bs)) mod 2 ^ 64)%N) /\
    covered bs calls = counted bs 0 (concat pieces) (full_blocks lazy bs (length (concat pieces))) /\
    firstn pos' m' = skipn (full_blocks lazy bs (length (concat pieces)) * bs) (concat pieces) /\
    pos' = length (concat pieces) - full_blocks lazy bs (length (concat pieces)) * bs /\ pos' <= bs.
  Proof.
    intros Hm. assert (A0 : absorbed_state note bs cap lazy [] 0 [] [] m 0 0).
    { apply absorbed_start; first [reflexivity|assumption]. }
    destruct (absorbs_state pieces [] [] m 0 0%N A0) as (c' & m' & p' & t' & E & A). cbn [app] in A.
    destruct (absorbs_recorded noter1 bs chk pieces [] [] m 0 0%N _ E) as (calls & Er). cbn [fst snd] in Er.
    destruct A as (B & T & J & n & Em & LB & Q & Ec & Et & Em' & _ & Ep).
    assert (Ln : full_blocks lazy bs (length (concat pieces)) = n).
    { rewrite Em, app_length, LB. apply rem_count. exact Q. }
    exists calls, m', p'. rewrite Ln. split; [|split; [|split; [|split]]].
    - rewrite Er. do 2 f_equal. rewrite Et, trunc_mod. f_equal. lia.
    - destruct (absorbs_calls noter bs chk pieces bs_pos ltac:(unfold chk; destruct lazy; lia) [] m 0 0%N _ _ _ _ (eq_refl : (0 < 2 ^ 64)%N) Er) as (new & En & _ & W0 & F).
      cbn [app] in En. subst new.
      assert (W : Forall (fun '(t, d, n) => (t < 2 ^ 64)%N) calls).
      { eapply Forall_impl; [|exact W0]. intros [[t d] k] (_ & _ & X). exact X. }
      rewrite F, fold_noter in E by exact W. cbn [bind app] in E. injection E as Ec'.
      rewrite Ec', Ec, note_loop by reflexivity. cbn [app]. rewrite Em. symmetry. apply counted_app. exact LB.
    - rewrite Em', Ep, Em. rewrite firstn_app, Nat.sub_diag, firstn_all, app_nil_r. rewrite <- LB, skipn_app, skipn_all, Nat.sub_diag. reflexivity.
    - rewrite Ep, Em, app_length, LB. lia.
    - rewrite Ep. unfold okrem in Q. destruct lazy; lia.
  Qed.
  Section Chain.
    Variable step : list N -> N -> list N -> list N.
    Lemma md_updates_state h0 pieces : forall s msg, absorbed_state step bs cap lazy h0 0 msg (sh s) (sm s) (spos s) (stotal s) ->
      exists s', md_updates step bs chk s pieces = Ok s' /\
        absorbed_state step bs cap lazy h0 0 (msg ++ concat pieces) (sh s') (sm s') (spos s') (stotal s').
    Proof.
      induction pieces as [|d r IH]; intros s msg A; cbn [md_updates concat].
      - rewrite app_nil_r. eauto.
      - unfold md_update.
        destruct (absorb_bytes_ok step (fun h m t d n => Ok (block_loop step bs h t d n, m)) bs cap lazy bs_pos bs_cap)
          with (c0 := h0) (t0 := 0%N) (msg := msg) (data := d) (c := sh s) (m := sm s) (pos := spos s) (total := stotal s)
          as (c1 & m1 & p1 & t1 & E & A1); auto.
        + intros c1 m1 t1 d1 n1 Hm _ _. exists m1. split; [reflexivity|exact Hm].
        + reflexivity.
        + change (bschk bs lazy) with chk in E. rewrite E. cbn [bind]. rewrite app_assoc. exact (IH (mkst c1 m1 p1 t1) _ A1).
    Qed.
    Lemma md_updates_chain h m pieces : length m = cap ->
      let msg := concat pieces in
      let n := full_blocks lazy bs (length msg) in
      exists s', md_updates step bs chk (mkst h m 0 0%N) pieces = Ok s' /\
        sh s' = fold_left (fun h '(t, b) => step h t b) (counted bs 0 msg n) h /\
        firstn (spos s') (sm s') = skipn (n * bs) msg /\ spos s' = length msg - n * bs /\
        stotal s' = ((8 * N.of_nat (n * bs)) mod 2 ^ 64)%N.
    Proof.
      intros Hm msg n. assert (A0 : absorbed_state step bs cap lazy h 0 [] h m 0 0).
      { apply absorbed_start; first [reflexivity|assumption]. }
      destruct (md_updates_state h pieces (mkst h m 0 0%N) [] A0) as (s' & E & A). cbn [app] in A. fold msg in A.
      destruct A as (B & T & J & k & Em & LB & Q & Ec & Et & Em' & _ & Ep).
      assert (Ln : n = k).
      { unfold n. rewrite Em, app_length, LB. apply rem_count. exact Q. }
      exists s'. rewrite Ln. split; [exact E|]. split; [|split; [|split]].
      - rewrite Ec, block_loop_seq, Em, counted_app by first [reflexivity|exact LB]. unfold counted.
        generalize (seq 0 k). intros l. generalize h. induction l as [|i l IH]; intros g; cbn [fold_left map]; [reflexivity|].
        rewrite IH. f_equal. f_equal. rewrite trunc_mod. f_equal. lia.
      - rewrite Em', Ep, Em. rewrite firstn_app, Nat.sub_diag, firstn_all, app_nil_r. rewrite <- LB, skipn_app, skipn_all, Nat.sub_diag. reflexivity.
      - rewrite Ep, Em, app_length, LB. lia.
      - rewrite Et, trunc_mod. f_equal. lia.
    Qed.
  End Chain.
  Lemma absorbs_cut p1 p2 m1 m2 : length m1 = cap -> length m2 = cap -> concat p1 = concat p2 ->
    exists c1 c2 x1 x2 pos total, absorbs recorder bs chk p1 [] m1 0 0%N = Ok (c1, x1, pos, total) /\
      absorbs recorder bs chk p2 [] m2 0 0%N = Ok (c2, x2, pos, total) /\
      covered bs c1 = covered bs c2 /\ firstn pos x1 = firstn pos x2.
  Proof.
    intros H1 H2 E. destruct (absorbs_blocks p1 m1 H1) as (c1 & x1 & q1 & A1 & B1 & D1 & F1 & _).
    destruct (absorbs_blocks p2 m2 H2) as (c2 & x2 & q2 & A2 & B2 & D2 & F2 & _). rewrite E in *.
    subst q1 q2. do 6 eexists. split; [exact A1|]. split; [exact A2|]. split; congruence.
  Qed.
End All.
