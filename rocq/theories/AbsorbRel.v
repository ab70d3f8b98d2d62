(** * The buffering invariant of absorb_bytes, for a core described by a relation.

    [I B c] says that the core [c] has processed the blocks [B]. *)
From Verif Require Import Base Absorb Lemmas AbsorbProof.
Local Open Scope nat_scope.

Section AbsorbRel.
  Context {C : Type}.
  Variable I : list N -> C -> Prop.
  Variable tf : C -> list N -> N -> list N -> nat -> res (C * list N).
  Variables (bs cap : nat) (lazy : bool) (t0 : N).
  Hypothesis bs_pos : 0 < bs.
  Hypothesis bs_cap : bs <= cap.
  Hypothesis t0_lt : (t0 < 2 ^ 64)%N.

  Definition ctr (B : list N) : N := trunc 64 (t0 + N.of_nat (length B * 8)).

  Hypothesis tf_ok : forall B k c m data n,
    length m = cap -> length B = k * bs -> length data = n * bs -> I B c ->
    exists c' m', tf c m (ctr B) data n = Ok (c', m') /\ length m' = cap /\ I (B ++ data) c'.

  Definition rel_state (msg : list N) (c : C) (m : list N) (pos : nat) (total : N) : Prop :=
    exists B T J n,
      msg = B ++ T /\ length B = n * bs /\ okrem bs lazy n (length T) /\
      I B c /\ total = ctr B /\ m = T ++ J /\ length m = cap /\ pos = length T.

  Lemma rel_start c m : length m = cap -> I [] c -> rel_state [] c m 0 t0.
  Proof.
    intros. exists [], [], m, 0. cbn. repeat split; auto.
    - unfold okrem. destruct lazy; cbn; lia.
    - unfold ctr. cbn [length Nat.mul N.of_nat]. rewrite N.add_0_r, trunc_small; auto.
  Qed.

  Lemma ctr_app B d : ctr (B ++ d) = trunc 64 (ctr B + N.of_nat (length d * 8)).
  Proof. unfold ctr. rewrite trunc_add_l, app_length. f_equal. lia. Qed.

  Definition rstage2 (data : list N) (c : C) (m : list N) (pos : nat) (total : N) :=
    (' (c, m, data, total) <-
      (if bschk bs lazy <=? length data then
         let blocks := (length data + bs - bschk bs lazy) / bs in
         let bytes := blocks * bs in
         blk <- load data 0 bytes ;;
         ' (c, m) <- tf c m total blk blocks ;;
         Ok (c, m, skipn bytes data, trunc 64 (total + N.of_nat (bytes * 8)))
       else Ok (c, m, data, total)) ;;
    m <- memcpy m pos data (length data) ;;
    Ok (c, m, pos + length data, total)).

  Lemma rstage2_ok B n c m data :
    length B = n * bs -> I B c -> length m = cap ->
    (lazy = true -> data = [] -> n = 0) ->
    exists c' m' pos' total',
      rstage2 data c m 0 (ctr B) = Ok (c', m', pos', total') /\
      rel_state (B ++ data) c' m' pos' total'.
  Proof.
    intros HB Hc Hm Hlz. unfold rstage2.
    destruct (Nat.leb_spec (bschk bs lazy) (length data)) as [Hge|Hlt].
    - set (q := (length data + bs - bschk bs lazy) / bs).
      assert (Hq : q * bs <= length data /\ length data - q * bs < bschk bs lazy /\
                   (lazy = true -> q * bs < length data)).
      { pose proof (Nat.div_mod (length data + bs - bschk bs lazy) bs ltac:(lia)) as E.
        pose proof (Nat.mod_upper_bound (length data + bs - bschk bs lazy) bs ltac:(lia)) as U.
        fold q in E. unfold bschk in *. destruct lazy; nia. }
      destruct Hq as (Hq1 & Hq2 & Hq3).
      rewrite load_ok by lia. cbn [bind skipn].
      destruct (tf_ok B n c m (firstn (q * bs) data) q) as (c' & m' & -> & Hm' & Hi'); auto.
      { rewrite firstn_length; lia. }
      cbn [bind].
      assert (Hrest : length (skipn (q * bs) data) <= cap).
      { rewrite skipn_length. unfold bschk in Hq2. destruct lazy; lia. }
      rewrite <- (app_nil_l m'). rewrite memcpy_app; [|reflexivity|lia|lia].
      cbn [bind app Nat.add]. rewrite firstn_all.
      do 4 eexists. split; [reflexivity|].
      exists (B ++ firstn (q * bs) data), (skipn (q * bs) data),
        (skipn (length (skipn (q * bs) data)) m'), (n + q).
      repeat split.
      + rewrite <- app_assoc, firstn_skipn. reflexivity.
      + rewrite app_length, firstn_length. lia.
      + unfold okrem. rewrite skipn_length. unfold bschk in *. destruct lazy; [|lia].
        specialize (Hq3 eq_refl). lia.
      + exact Hi'.
      + rewrite ctr_app, firstn_length. do 3 f_equal. lia.
      + rewrite app_length, !skipn_length. rewrite skipn_length in Hrest. lia.
    - cbn [bind].
      assert (Hd : length data <= cap) by (unfold bschk in Hlt; destruct lazy; lia).
      rewrite <- (app_nil_l m). rewrite memcpy_app; [|reflexivity|lia|lia].
      cbn [bind app Nat.add]. rewrite firstn_all.
      do 4 eexists. split; [reflexivity|].
      exists B, data, (skipn (length data) m), n.
      repeat split; auto.
      + unfold okrem, bschk in *. destruct lazy; [|lia]. split; [lia|].
        intros H0. apply Hlz; auto. destruct data; [auto|discriminate].
      + rewrite app_length, skipn_length. lia.
  Qed.

  Theorem absorb_rel_ok msg data c m pos total :
    rel_state msg c m pos total ->
    exists c' m' pos' total',
      absorb_bytes tf bs (bschk bs lazy) data c m pos total = Ok (c', m', pos', total') /\
      rel_state (msg ++ data) c' m' pos' total'.
  Proof.
    intros (B & T & J & n & -> & HB & Hrem & Hc & Htot & Hm & Hcap & Hpos).
    unfold absorb_bytes.
    destruct (Nat.eqb_spec pos 0) as [P0|P0]; cbn [negb andb].
    - cbn [bind]. subst pos. destruct T; [|discriminate]. cbn [length].
      rewrite app_nil_r. subst total. apply (rstage2_ok B n c m data); auto.
      intros L _. unfold okrem in Hrem. rewrite L in Hrem. apply Hrem. reflexivity.
    - destruct (Nat.leb_spec (bschk bs lazy) (pos + length data)) as [Hge|Hlt].
      + assert (Hpb : pos <= bs) by (subst pos; unfold okrem in Hrem; destruct lazy; lia).
        assert (Hk : bs - pos <= length data) by (unfold bschk in Hge; destruct lazy; lia).
        assert (HJ : length T + length J = cap) by (rewrite <- Hcap, Hm, app_length; lia).
        rewrite size_sub_ok by auto. cbn [bind].
        rewrite Hm. rewrite memcpy_app; [|auto|auto|lia]. cbn [bind].
        rewrite app_assoc.
        rewrite load_app by (rewrite app_length, firstn_length; lia).
        cbn [bind]. subst total.
        destruct (tf_ok B n c ((T ++ firstn (bs - pos) data) ++ skipn (bs - pos) J)
                    (T ++ firstn (bs - pos) data) 1) as (c1 & m' & -> & Hm' & Hi'); auto.
        { rewrite !app_length, firstn_length, skipn_length. lia. }
        { rewrite app_length, firstn_length. lia. }
        cbn [bind].
        assert (EC : trunc 64 (ctr B + N.of_nat (bs * 8)) = ctr (B ++ T ++ firstn (bs - pos) data)).
        { rewrite ctr_app, app_length, firstn_length. do 3 f_equal. lia. }
        rewrite EC.
        destruct (rstage2_ok (B ++ T ++ firstn (bs - pos) data) (n + 1) c1 m'
                    (skipn (bs - pos) data)) as (c' & m2 & p' & t' & E & A); auto.
        { rewrite !app_length, firstn_length. lia. }
        { intros L H0. exfalso.
          assert (length (skipn (bs - pos) data) = 0) by (rewrite H0; reflexivity).
          rewrite skipn_length in *. unfold bschk in Hge. rewrite L in Hge. lia. }
        exists c', m2, p', t'. split; [exact E|].
        rewrite <- !app_assoc, firstn_skipn in A. rewrite <- app_assoc. exact A.
      + cbn [bind].
        destruct (Nat.leb_spec (bschk bs lazy) (length data)); [lia|]. cbn [bind].
        assert (HJ : length T + length J = cap) by (rewrite <- Hcap, Hm, app_length; lia).
        assert (Hfit : pos + length data <= cap) by (unfold bschk in *; destruct lazy; lia).
        rewrite Hm. rewrite memcpy_app; [|auto|lia|lia]. cbn [bind]. rewrite firstn_all.
        do 4 eexists. split; [reflexivity|].
        exists B, (T ++ data), (skipn (length data) J), n.
        repeat split; auto.
        * rewrite app_assoc. reflexivity.
        * unfold okrem, bschk in *. rewrite app_length. destruct lazy; lia.
        * rewrite !app_assoc. reflexivity.
        * rewrite !app_length, skipn_length. lia.
        * rewrite app_length. lia.
  Qed.
End AbsorbRel.

(** A loop over blocks preserves a relation that single blocks preserve. *)
Lemma block_loop_res_rel {C} (I : list N -> C -> Prop) stepr bs t0 n :
  (forall B k c b, length B = k * bs -> length b = bs -> I B c ->
     exists c', stepr c (ctr t0 B) b = Ok c' /\ I (B ++ b) c') ->
  forall B k c data, length B = k * bs -> length data = n * bs -> I B c ->
  exists c', block_loop_res stepr bs c (ctr t0 B) data n = Ok c' /\ I (B ++ data) c'.
Proof.
  intros Hs. induction n; intros B k c data HB Hd Hi; cbn [block_loop_res].
  - destruct data; [|discriminate]. rewrite app_nil_r. eauto.
  - assert (Hl : length (firstn bs data) = bs) by (rewrite firstn_length; lia).
    destruct (Hs B k c (firstn bs data) HB Hl Hi) as (c1 & -> & H1). cbn [bind].
    assert (EC : trunc 64 (ctr t0 B + N.of_nat (bs * 8)) = ctr t0 (B ++ firstn bs data)).
    { unfold ctr. rewrite trunc_add_l, app_length, Hl. f_equal. lia. }
    rewrite EC.
    destruct (IHn (B ++ firstn bs data) (k + 1) c1 (skipn bs data)) as (c' & E & H').
    + rewrite app_length, Hl. lia.
    + rewrite skipn_length. lia.
    + exact H1.
    + exists c'. split; [exact E|]. rewrite <- app_assoc, firstn_skipn in H'. exact H'.
Qed.
