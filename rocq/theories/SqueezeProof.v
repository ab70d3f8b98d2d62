(** * The squeezing loop produces consecutive pieces of one stream. *)
From Verif Require Import Base Lemmas Squeeze SpecCommon.
Local Open Scope nat_scope.

Section Squeeze.
  Context {C : Type}.
  Variable next : C -> C.
  Variable emit : C -> list N.
  Variable r : nat.
  Variable Inv : C -> Prop.
  Hypothesis r_pos : 0 < r.
  Hypothesis emit_len : forall c, Inv c -> r <= length (emit c).
  Hypothesis inv_next : forall c, Inv c -> Inv (next c).

  (** Byte [i] of the stream starting at [c]. *)
  Definition stream_byte (c : C) (i : nat) : N := nth (i mod r) (emit (Nat.iter (i / r) next c)) 0%N.
  Definition seg (c : C) (a n : nat) : list N := map (stream_byte c) (seq a n).

  Lemma seg_length c a n : length (seg c a n) = n.
  Proof. unfold seg. rewrite map_length, seq_length. reflexivity. Qed.

  Lemma seg_app c a n k : seg c a (n + k) = seg c a n ++ seg c (a + n) k.
  Proof. unfold seg. rewrite seq_app, map_app. reflexivity. Qed.

  Lemma inv_iter c a : Inv c -> Inv (Nat.iter a next c).
  Proof. intros. induction a; cbn; auto. Qed.

  Lemma skipn_nth (l : list N) : forall p, p < length l -> skipn p l = nth p l 0%N :: skipn (S p) l.
  Proof.
    induction l; intros [|p] Hp; cbn [length] in Hp; try lia; [reflexivity|].
    cbn [skipn nth]. rewrite IHl by lia. reflexivity.
  Qed.

  Lemma nth_firstn_skipn (l : list N) p n : p + n <= length l ->
    firstn n (skipn p l) = map (fun i => nth i l 0%N) (seq p n).
  Proof.
    revert p. induction n; intros p Hp; [reflexivity|].
    rewrite skipn_nth by lia. cbn [seq map firstn]. rewrite IHn by lia. reflexivity.
  Qed.

  Lemma seg_block c a b n : Inv c -> b + n <= r ->
    firstn n (skipn b (emit (Nat.iter a next c))) = seg c (a * r + b) n.
  Proof.
    intros Hc Hb. pose proof (emit_len _ (inv_iter c a Hc)).
    rewrite nth_firstn_skipn by lia. unfold seg.
    replace (seq (a * r + b) n) with (map (fun i => a * r + i) (seq b n)).
    - rewrite map_map. apply map_ext_in. intros i Hi. apply in_seq in Hi. unfold stream_byte.
      rewrite Nat.add_comm, Nat.mod_add, Nat.div_add by lia.
      rewrite Nat.mod_small, Nat.div_small by lia. reflexivity.
    - generalize (a * r). intros k. revert b Hb. induction n; intros; [reflexivity|].
      cbn [seq map]. rewrite IHn by lia. rewrite Nat.add_succ_r. reflexivity.
  Qed.

  (** [c], [pos] is the state after [k > 0] bytes of the stream of [c0]. *)
  Definition sq_inv (c0 : C) (k : nat) (c : C) (pos : nat) : Prop :=
    exists a, k = a * r + pos /\ 0 < pos <= r /\ c = Nat.iter a next c0.

  Lemma sq_loop_ok fuel : forall c0 a c hs processed pos out,
    Inv c0 -> processed < hs -> hs - processed <= fuel ->
    (if processed =? 0 then c else next c) = Nat.iter a next c0 ->
    exists c' pos', sq_loop next emit r fuel c hs processed pos out
        = Ok (c', pos', out ++ seg c0 (a * r) (hs - processed)) /\
      sq_inv c0 (a * r + (hs - processed)) c' pos'.
  Proof.
    induction fuel; intros c0 a c hs processed pos out Hi Hlt Hf Hc; [lia|].
    cbn [sq_loop]. destruct (Nat.ltb_spec processed hs); [|lia].
    rewrite Hc. set (p := Nat.min (hs - processed) r).
    pose proof (emit_len _ (inv_iter c0 a Hi)).
    rewrite load_ok by lia. cbn [bind].
    rewrite seg_block by (auto; lia). rewrite Nat.add_0_r.
    destruct (Nat.eq_dec (processed + p) hs) as [E|E].
    - exists (Nat.iter a next c0), p. rewrite E.
      replace (hs - processed) with p by lia. split.
      + destruct fuel; cbn [sq_loop]; rewrite Nat.ltb_irrefl; reflexivity.
      + exists a. repeat split; lia.
    - assert (p = r) by lia.
      destruct (IHfuel c0 (S a) (Nat.iter a next c0) hs (processed + p) p (out ++ seg c0 (a * r) p))
        as (c' & pos' & E' & I); auto; try lia.
      { destruct (Nat.eqb_spec (processed + p) 0); [lia|reflexivity]. }
      exists c', pos'. split.
      + rewrite E'. f_equal. f_equal. rewrite <- app_assoc. f_equal.
        replace (hs - processed) with (p + (hs - (processed + p))) by lia.
        rewrite seg_app. f_equal. f_equal. lia.
      + replace (a * r + (hs - processed)) with (S a * r + (hs - (processed + p))) by lia. exact I.
  Qed.

  Lemma sq_first_ok c0 pos n : Inv c0 -> 0 < n ->
    exists c' pos', sq_first next emit r c0 pos n = Ok (c', pos', seg c0 0 n) /\ sq_inv c0 n c' pos'.
  Proof.
    intros Hi Hn. unfold sq_first.
    destruct (sq_loop_ok n c0 0 c0 n 0 pos [] Hi) as (c' & p' & E & I); try lia; [reflexivity|].
    rewrite Nat.sub_0_r in *. eauto.
  Qed.

  Lemma sq_more_ok c0 k c pos n : Inv c0 -> 0 < n -> sq_inv c0 k c pos ->
    exists c' pos', sq_more next emit r c pos n = Ok (c', pos', seg c0 k n) /\ sq_inv c0 (k + n) c' pos'.
  Proof.
    intros Hi Hn (a & Hk & Hp & Hc). unfold sq_more.
    destruct (Nat.ltb_spec pos r) as [L|L].
    - set (t := Nat.min n (r - pos)).
      pose proof (emit_len _ (inv_iter c0 a Hi)).
      rewrite load_ok by (subst c; lia). cbn [bind]. rewrite Hc.
      rewrite seg_block by (auto; lia). rewrite <- Hk.
      destruct (Nat.eq_dec t n) as [E|E].
      + rewrite E. exists (Nat.iter a next c0), (pos + n). split.
        * destruct n; cbn [sq_loop]; rewrite Nat.ltb_irrefl; reflexivity.
        * exists a. repeat split; lia.
      + destruct (sq_loop_ok n c0 (S a) (Nat.iter a next c0) n t (pos + t) (seg c0 k t) Hi)
          as (c' & p' & E' & I); try lia.
        { destruct (Nat.eqb_spec t 0); [lia|reflexivity]. }
        exists c', p'. split.
        * rewrite E'. f_equal. f_equal. replace (S a * r) with (k + t) by lia.
          rewrite <- seg_app. f_equal. lia.
        * replace (k + n) with (S a * r + (n - t)) by lia. exact I.
    - destruct (Nat.eqb_spec pos r); [|lia].
      destruct (sq_loop_ok n c0 (S a) (next c) n 0 pos [] Hi) as (c' & p' & E & I); try lia.
      { cbn. rewrite Hc. reflexivity. }
      rewrite Nat.sub_0_r in *. exists c', p'. replace k with (S a * r) by lia. auto.
  Qed.

  (** The specification's stream. *)
  Lemma squeeze_blocks_seg c0 k : Inv c0 -> forall a,
    squeeze_blocks next emit r k (Nat.iter a next c0) = seg c0 (a * r) (k * r).
  Proof.
    intros Hi. induction k; intros a; [reflexivity|].
    cbn [squeeze_blocks]. change (next (Nat.iter a next c0)) with (Nat.iter (S a) next c0).
    rewrite IHk. cbn [Nat.mul]. rewrite (seg_app c0 (a * r)).
    f_equal; [|f_equal; lia].
    rewrite <- (Nat.add_0_r (a * r)). rewrite <- (seg_block c0 a 0 r) by (auto; lia). reflexivity.
  Qed.

  Lemma squeeze_stream_seg c0 n : Inv c0 -> squeeze_stream next emit r n c0 = seg c0 0 n.
  Proof.
    intros Hi. unfold squeeze_stream.
    pose proof (squeeze_blocks_seg c0 (n / r + 1) Hi 0) as E. cbn [Nat.iter nat_rect Nat.mul] in E.
    rewrite E.
    pose proof (Nat.div_mod n r ltac:(lia)). pose proof (Nat.mod_upper_bound n r ltac:(lia)).
    replace ((n / r + 1) * r) with (n + ((n / r + 1) * r - n)) by lia.
    rewrite seg_app. apply firstn_app_exact. rewrite seg_length. reflexivity.
  Qed.

  Lemma seg_skip c0 k n : skipn k (seg c0 0 (k + n)) = seg c0 k n.
  Proof. rewrite seg_app. apply skipn_app_exact. rewrite seg_length. reflexivity. Qed.

  Hypothesis emit_bytes : forall c, bytes_ok (emit c).
  Lemma seg_bytes c0 a n : bytes_ok (seg c0 a n).
  Proof.
    unfold seg, bytes_ok. apply Forall_map, Forall_forall. intros i _. unfold stream_byte.
    pose proof (emit_bytes (Nat.iter (i / r) next c0)) as H. unfold bytes_ok in H. rewrite Forall_forall in H.
    destruct (Nat.lt_ge_cases (i mod r) (length (emit (Nat.iter (i / r) next c0)))).
    - apply H, nth_In. auto.
    - rewrite nth_overflow by auto. reflexivity.
  Qed.
End Squeeze.
