(** * The buffering invariant of absorb_bytes. *)
From Verif Require Import Base Absorb Lemmas.

Local Open Scope nat_scope.

Lemma block_loop_app {C} (step : C -> N -> list N -> C) bs c t a b n k :
  length a = n * bs -> (t < 2 ^ 64)%N ->
  block_loop step bs c t (a ++ b) (n + k)
  = block_loop step bs (block_loop step bs c t a n)
      (trunc 64 (t + N.of_nat (n * bs * 8))) b k.
Proof.
  revert c t a. induction n; intros c t a Ha Ht.
  - destruct a; [|cbn in Ha; lia]. cbn. rewrite N.add_0_r, trunc_small by auto. reflexivity.
  - cbn [Nat.add block_loop].
    assert (length a = bs + n * bs) by (rewrite Ha; lia).
    rewrite (firstn_app bs a), (skipn_app bs a).
    replace (bs - length a) with 0 by lia. cbn [firstn skipn]. rewrite app_nil_r.
    rewrite IHn; [|rewrite skipn_length; lia|apply trunc_lt].
    f_equal. rewrite trunc_add_l. f_equal. lia.
Qed.

Lemma block_loop_prefix {C} (step : C -> N -> list N -> C) bs c t a b n :
  length a = n * bs -> block_loop step bs c t (a ++ b) n = block_loop step bs c t a n.
Proof.
  revert c t a. induction n; intros c t a Ha; [reflexivity|].
  cbn [block_loop]. assert (length a = bs + n * bs) by (rewrite Ha; lia).
  rewrite (firstn_app bs a), (skipn_app bs a).
  replace (bs - length a) with 0 by lia. cbn [firstn skipn]. rewrite app_nil_r.
  apply IHn. rewrite skipn_length. lia.
Qed.

Section Absorb.
  Context {C : Type}.
  Variable step : C -> N -> list N -> C.
  Variable tf : C -> list N -> N -> list N -> nat -> res (C * list N).
  Variables (bs cap : nat) (lazy : bool).
  Hypothesis bs_pos : 0 < bs.
  Hypothesis bs_cap : bs <= cap.

  Definition bschk : nat := if lazy then bs + 1 else bs.

  Hypothesis tf_ok : forall c m t data n,
    length m = cap -> length data = n * bs -> (t < 2 ^ 64)%N ->
    exists m', tf c m t data n = Ok (block_loop step bs c t data n, m') /\ length m' = cap.

  (** Number of buffered bytes allowed after [n] processed blocks. *)
  Definition okrem (n r : nat) : Prop :=
    if lazy then r <= bs /\ (r = 0 -> n = 0) else r < bs.

  (** State after absorbing [msg] starting from core [c0] and counter [t0]. *)
  Definition absorbed_state (c0 : C) (t0 : N) (msg : list N)
    (c : C) (m : list N) (pos : nat) (total : N) : Prop :=
    exists blocks tail junk n,
      msg = blocks ++ tail /\ length blocks = n * bs /\ okrem n (length tail) /\
      c = block_loop step bs c0 t0 blocks n /\
      total = trunc 64 (t0 + N.of_nat (n * bs * 8)) /\
      m = tail ++ junk /\ length m = cap /\ pos = length tail.

  Lemma absorbed_start c0 t0 m :
    (t0 < 2 ^ 64)%N -> length m = cap -> absorbed_state c0 t0 [] c0 m 0 t0.
  Proof.
    intros. exists [], [], m, 0. cbn. repeat split; auto.
    - unfold okrem. destruct lazy; cbn; lia.
    - rewrite N.add_0_r, trunc_small; auto.
  Qed.

  (** Second and third parts of absorb_bytes, entered with an empty buffer. *)
  Definition stage2 (data : list N) (c : C) (m : list N) (pos : nat) (total : N) :=
    (' (c, m, data, total) <-
      (if bschk <=? length data then
         let blocks := (length data + bs - bschk) / bs in
         let bytes := blocks * bs in
         blk <- load data 0 bytes ;;
         ' (c, m) <- tf c m total blk blocks ;;
         Ok (c, m, skipn bytes data, trunc 64 (total + N.of_nat (bytes * 8)))
       else Ok (c, m, data, total)) ;;
    m <- memcpy m pos data (length data) ;;
    Ok (c, m, pos + length data, total)).

  Lemma stage2_ok c0 t0 B n c m data total :
    (t0 < 2 ^ 64)%N ->
    length B = n * bs -> c = block_loop step bs c0 t0 B n ->
    total = trunc 64 (t0 + N.of_nat (n * bs * 8)) -> length m = cap ->
    (lazy = true -> data = [] -> n = 0) ->
    exists c' m' pos' total',
      stage2 data c m 0 total = Ok (c', m', pos', total') /\
      absorbed_state c0 t0 (B ++ data) c' m' pos' total'.
  Proof.
    intros Ht0 HB Hc Htot Hm Hlz. unfold stage2.
    destruct (Nat.leb_spec bschk (length data)) as [Hge|Hlt].
    - set (q := (length data + bs - bschk) / bs).
      assert (Hq : q * bs <= length data /\ length data - q * bs < bschk /\
                   (lazy = true -> q * bs < length data)).
      { pose proof (Nat.div_mod (length data + bs - bschk) bs ltac:(lia)) as E.
        pose proof (Nat.mod_upper_bound (length data + bs - bschk) bs ltac:(lia)) as U.
        fold q in E. unfold bschk in *. destruct lazy; nia. }
      destruct Hq as (Hq1 & Hq2 & Hq3).
      rewrite load_ok by lia. cbn [bind skipn].
      destruct (tf_ok c m total (firstn (q * bs) data) q) as (m' & -> & Hm').
      { auto. } { rewrite firstn_length; lia. } { subst total; apply trunc_lt. }
      cbn [bind].
      assert (Hrest : length (skipn (q * bs) data) <= cap).
      { rewrite skipn_length. unfold bschk in Hq2. destruct lazy; lia. }
      rewrite <- (app_nil_l m'). rewrite memcpy_app; [|reflexivity|lia|lia].
      cbn [bind app Nat.add]. rewrite firstn_all.
      do 4 eexists. split; [reflexivity|].
      exists (B ++ firstn (q * bs) data), (skipn (q * bs) data),
        (skipn (length (skipn (q * bs) data)) m'), (n + q).
      repeat split.
      + rewrite <- app_assoc, firstn_skipn. reflexivity.
      + rewrite app_length, firstn_length. lia.
      + unfold okrem. rewrite skipn_length. unfold bschk in *. destruct lazy; [|lia].
        specialize (Hq3 eq_refl). lia.
      + rewrite block_loop_app by auto. subst c total. reflexivity.
      + subst total. rewrite trunc_add_l. f_equal. lia.
      + rewrite app_length, !skipn_length. rewrite skipn_length in Hrest. lia.
    - cbn [bind].
      assert (Hd : length data <= cap) by (unfold bschk in Hlt; destruct lazy; lia).
      rewrite <- (app_nil_l m). rewrite memcpy_app; [|reflexivity|lia|lia].
      cbn [bind app Nat.add]. rewrite firstn_all.
      do 4 eexists. split; [reflexivity|].
      exists B, data, (skipn (length data) m), n.
      repeat split; auto.
      + unfold okrem, bschk in *. destruct lazy; [|lia]. split; [lia|].
        intros H0. apply Hlz; auto. destruct data; [auto|discriminate].
      + rewrite app_length, skipn_length. lia.
  Qed.

  Theorem absorb_bytes_ok c0 t0 msg data c m pos total :
    (t0 < 2 ^ 64)%N ->
    absorbed_state c0 t0 msg c m pos total ->
    exists c' m' pos' total',
      absorb_bytes tf bs bschk data c m pos total = Ok (c', m', pos', total') /\
      absorbed_state c0 t0 (msg ++ data) c' m' pos' total'.
  Proof.
    intros Ht0 (B & T & J & n & -> & HB & Hrem & Hc & Htot & Hm & Hcap & Hpos).
    unfold absorb_bytes.
    destruct (Nat.eqb_spec pos 0) as [P0|P0]; cbn [negb andb].
    - (* empty buffer *)
      cbn [bind]. subst pos. destruct T; [|discriminate]. cbn [length].
      rewrite app_nil_r. apply (stage2_ok c0 t0 B n c m data total); auto.
      intros L _. unfold okrem in Hrem. rewrite L in Hrem. apply Hrem. reflexivity.
    - destruct (Nat.leb_spec bschk (pos + length data)) as [Hge|Hlt].
      + (* complete the buffered block *)
        assert (Hpb : pos <= bs) by (subst pos; unfold okrem in Hrem; destruct lazy; lia).
        assert (Hk : bs - pos <= length data) by (unfold bschk in Hge; destruct lazy; lia).
        assert (HJ : length T + length J = cap) by (rewrite <- Hcap, Hm, app_length; lia).
        rewrite size_sub_ok by auto. cbn [bind].
        rewrite Hm. rewrite memcpy_app; [|auto|auto|lia]. cbn [bind].
        rewrite app_assoc.
        rewrite load_app by (rewrite app_length, firstn_length; lia).
        cbn [bind].
        destruct (tf_ok c ((T ++ firstn (bs - pos) data) ++ skipn (bs - pos) J) total
                    (T ++ firstn (bs - pos) data) 1) as (m' & -> & Hm').
        { rewrite !app_length, firstn_length, skipn_length. lia. }
        { rewrite app_length, firstn_length. lia. }
        { subst total; apply trunc_lt. }
        cbn [bind].
        destruct (stage2_ok c0 t0 (B ++ T ++ firstn (bs - pos) data) (n + 1)
                    (block_loop step bs c total (T ++ firstn (bs - pos) data) 1) m'
                    (skipn (bs - pos) data) (trunc 64 (total + N.of_nat (bs * 8))))
          as (c' & m2 & p' & t' & E & A); auto.
        { rewrite !app_length, firstn_length. lia. }
        { rewrite block_loop_app by auto. subst c total. reflexivity. }
        { subst total. rewrite trunc_add_l. f_equal. lia. }
        { intros L H0. exfalso.
          assert (length (skipn (bs - pos) data) = 0) by (rewrite H0; reflexivity).
          rewrite skipn_length in *. unfold bschk in Hge. rewrite L in Hge. lia. }
        exists c', m2, p', t'. split; [exact E|].
        rewrite <- !app_assoc, firstn_skipn in A. rewrite <- app_assoc. exact A.
      + (* everything fits into the buffer *)
        cbn [bind].
        destruct (Nat.leb_spec bschk (length data)); [lia|]. cbn [bind].
        assert (HJ : length T + length J = cap) by (rewrite <- Hcap, Hm, app_length; lia).
        assert (Hfit : pos + length data <= cap) by (unfold bschk in *; destruct lazy; lia).
        rewrite Hm. rewrite memcpy_app; [|auto|lia|lia]. cbn [bind]. rewrite firstn_all.
        do 4 eexists. split; [reflexivity|].
        exists B, (T ++ data), (skipn (length data) J), n.
        repeat split; auto.
        * rewrite app_assoc. reflexivity.
        * unfold okrem, bschk in *. rewrite app_length. destruct lazy; lia.
        * rewrite !app_assoc. reflexivity.
        * rewrite !app_length, skipn_length. lia.
        * rewrite app_length. lia.
  Qed.

  (** The block/tail decomposition is determined by the message. *)
  Lemma okrem_unique n r n' r' :
    okrem n r -> okrem n' r' -> n * bs + r = n' * bs + r' -> n = n' /\ r = r'.
  Proof.
    unfold okrem. intros. destruct lazy.
    - destruct (Nat.eq_dec n n') as [->|D]; [lia|]. exfalso.
      destruct (Nat.lt_ge_cases n n').
      + assert ((n + 1) * bs <= n' * bs) by (apply Nat.mul_le_mono_r; lia).
        assert (r' = 0) by lia. intuition lia.
      + assert ((n' + 1) * bs <= n * bs) by (apply Nat.mul_le_mono_r; lia).
        assert (r = 0) by lia. intuition lia.
    - destruct (Nat.eq_dec n n') as [->|D]; [lia|]. exfalso.
      destruct (Nat.lt_ge_cases n n').
      + assert ((n + 1) * bs <= n' * bs) by (apply Nat.mul_le_mono_r; lia). lia.
      + assert ((n' + 1) * bs <= n * bs) by (apply Nat.mul_le_mono_r; lia). lia.
  Qed.
End Absorb.

(** The loop as a fold over the block numbers. *)
Lemma block_loop_seq {C} (step : C -> N -> list N -> C) bs n : forall c t data, (t < 2 ^ 64)%N ->
  block_loop step bs c t data n =
  fold_left (fun c i => step c (trunc 64 (t + N.of_nat (i * bs * 8))) (firstn bs (skipn (i * bs) data)))
    (seq 0 n) c.
Proof.
  induction n; intros c t data Ht; [reflexivity|].
  cbn [block_loop seq fold_left Nat.mul]. rewrite N.add_0_r, (trunc_small 64 t) by auto. cbn [skipn].
  rewrite IHn by apply trunc_lt. rewrite <- seq_shift.
  generalize (step c t (firstn bs data)). generalize (seq 0 n). intros l. induction l; intros c'; [reflexivity|].
  cbn [fold_left map]. rewrite IHl. f_equal. f_equal.
  - rewrite trunc_add_l. f_equal. lia.
  - f_equal. rewrite skipn_skipn. f_equal. lia.
Qed.
