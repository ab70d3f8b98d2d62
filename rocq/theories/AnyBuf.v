(** * Buffers that agree on their used part: memory operations and absorb_bytes. *)
From Verif Require Import Base Lemmas Absorb AbsorbProof MdState Squeeze.
Local Open Scope nat_scope.

Lemma firstn_le {A} a b (m m' : list A) : a <= b -> firstn b m = firstn b m' -> firstn a m = firstn a m'.
Proof. intros H E. rewrite <- (Nat.min_l a b H), <- !firstn_firstn, E. reflexivity. Qed.

Lemma overlay_length m p src : p + length src <= length m -> length (overlay m p src) = length m.
Proof. intros. unfold overlay. rewrite !app_length, firstn_length, skipn_length. lia. Qed.

Lemma overlay_agree a m m' p src : length m = length m' -> firstn a m = firstn a m' -> p <= a -> a <= length m ->
  p + length src <= length m ->
  firstn (Nat.max a (p + length src)) (overlay m p src) = firstn (Nat.max a (p + length src)) (overlay m' p src).
Proof.
  intros HL HA Hp Ha Hs. unfold overlay. rewrite !firstn_app, !firstn_length.
  rewrite (Nat.min_l p (length m)), (Nat.min_l p (length m')) by lia.
  assert (E1 : firstn p m = firstn p m') by (apply (firstn_le p a); auto). rewrite E1. f_equal. f_equal.
  destruct (Nat.le_gt_cases a (p + length src)).
  - replace (Nat.max a (p + length src) - p - length src) with 0 by lia. reflexivity.
  - rewrite !firstn_skipn_comm. f_equal.
    replace (p + length src + (Nat.max a (p + length src) - p - length src)) with a by lia. exact HA.
Qed.

(** Operations on two agreeing buffers. *)
Lemma memcpy_agree a m m' p src n : length m = length m' -> firstn a m = firstn a m' -> p <= a -> a <= length m ->
  p + n <= length m -> n <= length src ->
  exists q q', memcpy m p src n = Ok q /\ memcpy m' p src n = Ok q' /\ length q = length m /\ length q' = length m /\
    firstn (Nat.max a (p + n)) q = firstn (Nat.max a (p + n)) q'.
Proof.
  intros HL HA Hp Ha Hn Hs. rewrite !memcpy_ok by lia. do 2 eexists. split; [reflexivity|]. split; [reflexivity|].
  assert (E : length (firstn n src) = n) by (rewrite firstn_length; lia).
  rewrite !overlay_length by lia. repeat split; auto.
  pose proof (overlay_agree a m m' p (firstn n src) HL HA Hp Ha) as O. rewrite E in O. apply O. lia.
Qed.
Lemma memset_agree a m m' p v n : length m = length m' -> firstn a m = firstn a m' -> p <= a -> a <= length m ->
  p + n <= length m ->
  exists q q', memset m p v n = Ok q /\ memset m' p v n = Ok q' /\ length q = length m /\ length q' = length m /\
    firstn (Nat.max a (p + n)) q = firstn (Nat.max a (p + n)) q'.
Proof.
  intros HL HA Hp Ha Hn. rewrite !memset_ok by lia. do 2 eexists. split; [reflexivity|]. split; [reflexivity|].
  rewrite !overlay_length by (rewrite repeat_length; lia). repeat split; auto.
  pose proof (overlay_agree a m m' p (repeat v n) HL HA Hp Ha) as O. rewrite repeat_length in O. apply O. lia.
Qed.
Lemma store_agree a m m' p v : length m = length m' -> firstn a m = firstn a m' -> p <= a -> a <= length m ->
  p < length m ->
  exists q q', store m p v = Ok q /\ store m' p v = Ok q' /\ length q = length m /\ length q' = length m /\
    firstn (Nat.max a (p + 1)) q = firstn (Nat.max a (p + 1)) q'.
Proof.
  intros HL HA Hp Ha Hn. rewrite !store_ok by lia. do 2 eexists. split; [reflexivity|]. split; [reflexivity|].
  rewrite !overlay_length by (cbn; lia). repeat split; auto.
  apply (overlay_agree a m m' p [v] HL HA Hp Ha). cbn. lia.
Qed.
Lemma load_agree a m m' p n : length m = length m' -> firstn a m = firstn a m' -> p + n <= a -> a <= length m ->
  exists w, load m p n = Ok w /\ load m' p n = Ok w /\ length w = n.
Proof.
  intros HL HA Hp Ha. rewrite !load_ok by lia. eexists. split; [reflexivity|]. rewrite !firstn_skipn_comm.
  split; [|rewrite skipn_length, firstn_length; lia].
  do 2 f_equal. apply (firstn_le _ a); auto.
Qed.

(** ** absorb_bytes *)
Section AbsorbE.
  Context {C : Type}.
  Variable EC : C -> C -> Prop.
  Variable tf : C -> list N -> N -> list N -> nat -> res (C * list N).
  Variables (bs cap : nat) (lazy : bool).
  Hypothesis bs_pos : 0 < bs.
  Hypothesis bs_cap : bs <= cap.
  Hypothesis tf_E : forall c c' m m' t data n, EC c c' -> length m = cap -> length m' = cap -> length data = n * bs ->
    exists d d', tf c m t data n = Ok (d, m) /\ tf c' m' t data n = Ok (d', m') /\ EC d d'.

  Definition sameabs (a : nat) (x y : res (C * list N * nat * N)) : Prop :=
    exists d d' q q' pos t, x = Ok (d, q, pos, t) /\ y = Ok (d', q', pos, t) /\ EC d d' /\
      length q = cap /\ length q' = cap /\ pos < bschk bs lazy /\ firstn (Nat.max a pos) q = firstn (Nat.max a pos) q'.

  Lemma sameabs_le a b x y : a <= b -> sameabs b x y -> sameabs a x y.
  Proof.
    intros H (d & d' & q & q' & pos & t & A1 & A2 & A3 & A4 & A5 & A6 & A7). exists d, d', q, q', pos, t.
    repeat split; auto. apply (firstn_le _ (Nat.max b pos)); auto. lia.
  Qed.

  Definition tail2 (data : list N) (c : C) (m : list N) (pos : nat) (total : N) :=
    (' (c, m, data, total) <-
      (if bschk bs lazy <=? length data then
         let blocks := (length data + bs - bschk bs lazy) / bs in
         let bytes := blocks * bs in
         blk <- load data 0 bytes ;;
         ' (c, m) <- tf c m total blk blocks ;;
         Ok (c, m, skipn bytes data, trunc 64 (total + N.of_nat (bytes * 8)))
       else Ok (c, m, data, total)) ;;
    m <- memcpy m pos data (length data) ;;
    Ok (c, m, pos + length data, total)).

  Lemma tail2_E a data c c' m m' t : EC c c' -> length m = cap -> length m' = cap -> a <= cap ->
    firstn a m = firstn a m' -> sameabs a (tail2 data c m 0 t) (tail2 data c' m' 0 t).
  Proof.
    intros HC Hm Hm' Ha HA. unfold tail2. destruct (Nat.leb_spec (bschk bs lazy) (length data)) as [Hge|Hlt].
    - set (q := (length data + bs - bschk bs lazy) / bs).
      assert (Hq : q * bs <= length data /\ length data - q * bs < bschk bs lazy).
      { pose proof (Nat.div_mod (length data + bs - bschk bs lazy) bs ltac:(lia)) as E.
        pose proof (Nat.mod_upper_bound (length data + bs - bschk bs lazy) bs ltac:(lia)) as U.
        fold q in E. unfold bschk in *. destruct lazy; nia. }
      destruct Hq as (Hq1 & Hq2).
      rewrite load_ok by lia. cbn [bind skipn].
      destruct (tf_E c c' m m' t (firstn (q * bs) data) q HC Hm Hm') as (d & d' & -> & -> & HD).
      { rewrite firstn_length; lia. }
      cbn [bind].
      assert (Hr : length (skipn (q * bs) data) <= cap /\ length (skipn (q * bs) data) < bschk bs lazy).
      { rewrite skipn_length. unfold bschk in *. destruct lazy; lia. }
      destruct (memcpy_agree a m m' 0 (skipn (q * bs) data) (length (skipn (q * bs) data))) as (p & p' & -> & -> & L1 & L2 & HA'); try lia; auto.
      cbn [bind Nat.add]. do 6 eexists. repeat split; eauto; try lia.
    - cbn [bind].
      assert (Hd : length data <= cap) by (unfold bschk in Hlt; destruct lazy; lia).
      destruct (memcpy_agree a m m' 0 data (length data)) as (p & p' & -> & -> & L1 & L2 & HA'); try lia; auto.
      cbn [bind Nat.add]. do 6 eexists. repeat split; eauto; try lia.
  Qed.

  Theorem absorb_E a data c c' m m' pos t : EC c c' -> length m = cap -> length m' = cap -> pos <= a -> a <= bs ->
    firstn a m = firstn a m' ->
    sameabs a (absorb_bytes tf bs (bschk bs lazy) data c m pos t) (absorb_bytes tf bs (bschk bs lazy) data c' m' pos t).
  Proof.
    intros HC Hm Hm' Hp Ha HA. unfold absorb_bytes.
    destruct (Nat.eqb_spec pos 0) as [P0|P0]; cbn [negb andb].
    - cbn [bind]. subst pos. apply tail2_E; auto. lia.
    - destruct (Nat.leb_spec (bschk bs lazy) (pos + length data)) as [Hge|Hlt].
      + assert (Hk : bs - pos <= length data) by (unfold bschk in Hge; destruct lazy; lia).
        rewrite size_sub_ok by lia. cbn [bind].
        destruct (memcpy_agree a m m' pos data (bs - pos)) as (q & q' & -> & -> & L1 & L2 & HA'); try lia; auto. cbn [bind].
        replace (Nat.max a (pos + (bs - pos))) with bs in HA' by lia.
        destruct (load_agree bs q q' 0 bs) as (w & -> & -> & Lw); try lia; auto. cbn [bind].
        destruct (tf_E c c' q q' t w 1 HC) as (d & d' & -> & -> & HD); try lia.
        cbn [bind]. apply (sameabs_le a bs); [lia|]. apply tail2_E; auto; lia.
      + cbn [bind]. destruct (Nat.leb_spec (bschk bs lazy) (length data)); [lia|]. cbn [bind].
        assert (Hf : pos + length data <= cap) by (unfold bschk in *; destruct lazy; lia).
        destruct (memcpy_agree a m m' pos data (length data)) as (p & p' & -> & -> & L1 & L2 & HA'); try lia; auto.
        cbn [bind]. do 6 eexists. repeat split; eauto; try lia.
  Qed.
End AbsorbE.

(** ** Block-buffering objects *)

(** [k] and [k'] differ at most in the unused part of the buffer; [a] bytes of it are used. *)
Definition kE (bs cap : nat) (I : list N -> Prop) (full : bool) (k k' : st) : Prop :=
  sh k = sh k' /\ I (sh k) /\ spos k = spos k' /\ stotal k = stotal k' /\ length (sm k) = cap /\ length (sm k') = cap /\
  spos k <= bs /\ firstn (if full then bs else spos k) (sm k) = firstn (if full then bs else spos k) (sm k').

Lemma block_loop_res_ok {C} (I : C -> Prop) (step : C -> N -> list N -> res C) bs n :
  (forall c t b, I c -> length b = bs -> exists c', step c t b = Ok c' /\ I c') ->
  forall c t d, I c -> length d = n * bs -> exists c', block_loop_res step bs c t d n = Ok c' /\ I c'.
Proof.
  intros Hs. induction n as [|n IH]; intros c t d Hc Hd; cbn [block_loop_res]; [eauto|].
  destruct (Hs c t (firstn bs d) Hc) as (c1 & -> & H1); [rewrite firstn_length; lia|]. cbn [bind].
  apply IH; auto. rewrite skipn_length. lia.
Qed.

Section UpdateE.
  Variable I : list N -> Prop.
  Variable step : list N -> N -> list N -> res (list N).
  Variables (bs cap : nat) (lazy : bool).
  Hypothesis bs_pos : 0 < bs.
  Hypothesis bs_cap : bs <= cap.
  Hypothesis step_ok : forall c t b, I c -> length b = bs -> exists c', step c t b = Ok c' /\ I c'.

  Theorem update_E full k k' d : kE bs cap I full k k' ->
    exists u u', md_update_res step bs (bschk bs lazy) k d = Ok u /\ md_update_res step bs (bschk bs lazy) k' d = Ok u' /\
      kE bs cap I full u u' /\ spos u < bschk bs lazy.
  Proof.
    intros (E1 & HI & E2 & E3 & L1 & L2 & HP & HA). unfold md_update_res. rewrite <- E1, <- E2, <- E3.
    destruct (absorb_E (fun c c' => c = c' /\ I c) (fun h m t d n => h <- block_loop_res step bs h t d n ;; Ok (h, m)) bs cap lazy bs_pos bs_cap)
      with (a := if full then bs else spos k) (data := d) (c := sh k) (c' := sh k) (m := sm k) (m' := sm k') (pos := spos k) (t := stotal k)
      as (c & c' & q & q' & pos & t & -> & -> & (<- & Hc) & Lq & Lq' & Hpos & HA'); auto.
    - intros c c' m m' t data n [<- Hc] Hm Hm' Hd.
      destruct (block_loop_res_ok I step bs n step_ok c t data Hc Hd) as (x & -> & Hx). cbn [bind]. eauto 6.
    - destruct full; lia.
    - destruct full; lia.
    - cbn [bind]. do 2 eexists. split; [reflexivity|]. split; [reflexivity|]. unfold kE. cbn [sh sm spos stotal].
      repeat split; auto.
      + unfold bschk in Hpos. destruct lazy; lia.
      + apply (firstn_le _ (Nat.max (if full then bs else spos k) pos)); auto. destruct full; lia.
  Qed.
End UpdateE.

Lemma md_update_as_res step bs bschk s d :
  md_update step bs bschk s d = md_update_res (fun c t b => Ok (step c t b)) bs bschk s d.
Proof.
  assert (E : forall n h t d, block_loop_res (fun c t b => Ok (step c t b)) bs h t d n = Ok (block_loop step bs h t d n)).
  { induction n as [|n IH]; intros; cbn [block_loop block_loop_res bind]; auto. }
  unfold md_update, md_update_res. f_equal. unfold absorb_bytes.
  destruct (negb (spos s =? 0) && (bschk <=? spos s + length d)); cbn [bind].
  - destruct (size_sub bs (spos s)); cbn [bind]; auto. destruct (memcpy (sm s) (spos s) d a); cbn [bind]; auto.
    destruct (load a0 0 bs); cbn [bind]; auto. rewrite E. cbn [bind].
    destruct (bschk <=? length (skipn a d)); cbn [bind]; auto.
    destruct (load _ _ _); cbn [bind]; auto. rewrite E. reflexivity.
  - destruct (bschk <=? length d); cbn [bind]; auto.
    destruct (load _ _ _); cbn [bind]; auto. rewrite E. reflexivity.
Qed.

(** ** The squeezing loop *)
Section SqueezeE.
  Context {C : Type}.
  Variable next : C -> C.
  Variable emit : C -> list N.
  Variable r : nat.
  Variable I : C -> Prop.
  Hypothesis r_pos : 0 < r.
  Hypothesis emit_len : forall c, I c -> r <= length (emit c).
  Hypothesis next_I : forall c, I c -> I (next c).

  Lemma sq_loop_total fuel : forall c hs processed pos out, I c -> pos <= r -> processed <= hs -> hs - processed <= fuel -> length out = processed ->
    exists c' pos' w, sq_loop next emit r fuel c hs processed pos out = Ok (c', pos', w) /\ I c' /\ pos' <= r /\ length w = hs.
  Proof.
    induction fuel as [|f IH]; intros c hs processed pos out Hc Hp Hpr Hf Ho; cbn [sq_loop].
    - destruct (Nat.ltb_spec processed hs); [lia|]. exists c, pos, out. repeat split; auto. lia.
    - destruct (Nat.ltb_spec processed hs).
      + set (c2 := if processed =? 0 then c else next c).
        assert (H2 : I c2) by (unfold c2; destruct (processed =? 0); auto).
        pose proof (emit_len c2 H2). rewrite load_ok by lia. cbn [bind skipn].
        apply IH; auto; try lia. rewrite app_length, firstn_length. lia.
      + exists c, pos, out. repeat split; auto. lia.
  Qed.
  Lemma sq_more_total c pos hs : I c -> pos <= r ->
    exists c' pos' w, sq_more next emit r c pos hs = Ok (c', pos', w) /\ I c' /\ pos' <= r /\ length w = hs.
  Proof.
    intros Hc Hp. unfold sq_more. pose proof (emit_len c Hc). destruct (Nat.ltb_spec pos r).
    - rewrite load_ok by lia. cbn [bind]. apply sq_loop_total; auto; try lia. rewrite firstn_length, skipn_length. lia.
    - destruct (Nat.eqb_spec pos r); apply sq_loop_total; auto; try lia.
  Qed.
  Lemma sq_first_total c pos hs : I c -> pos <= r ->
    exists c' pos' w, sq_first next emit r c pos hs = Ok (c', pos', w) /\ I c' /\ pos' <= r /\ length w = hs.
  Proof. intros. unfold sq_first. apply sq_loop_total; auto; lia. Qed.
End SqueezeE.
