(** * Proofs about the addresses of Align.v. *)
From Verif Require Import Base Absorb Lemmas Align AlignSpec.
From Coq Require Import ZArith Lia.
Local Open Scope nat_scope.

Section One.
Variables (bs extra : nat).
Hypothesis Hbs : 0 < bs.
Hypothesis Hex : extra <= 1.

Lemma srcs_pos : forall pos len, pos < bs + extra ->
  snd (absorb_srcs bs (bs + extra) pos len) < bs + extra /\
  exists k, snd (absorb_srcs bs (bs + extra) pos len) + bs * k = pos + len.
Proof.
  intros pos len Hp. unfold absorb_srcs.
  destruct (negb (pos =? 0) && (bs + extra <=? pos + len)) eqn:E1.
  - apply andb_prop in E1. destruct E1 as [E1 E2]. apply Nat.leb_le in E2.
    set (len' := len - (bs - pos)). assert (Hl : pos + len = len' + bs) by (unfold len'; lia).
    destruct (bs + extra <=? len') eqn:E3; cbn [snd].
    + apply Nat.leb_le in E3. pose proof (Nat.div_mod (len' + bs - (bs + extra)) bs ltac:(lia)) as D.
      pose proof (Nat.mod_upper_bound (len' + bs - (bs + extra)) bs ltac:(lia)).
      set (q := (len' + bs - (bs + extra)) / bs) in *. rewrite (Nat.mul_comm q bs).
      split; [lia|]. exists (q + 1). lia.
    + apply Nat.leb_gt in E3. split; [lia|]. exists 1. lia.
  - destruct (bs + extra <=? len) eqn:E3; cbn [snd].
    + apply Nat.leb_le in E3. destruct (pos =? 0) eqn:E0; cbn in E1.
      * apply Nat.eqb_eq in E0. subst pos.
        pose proof (Nat.div_mod (len + bs - (bs + extra)) bs ltac:(lia)) as D.
        pose proof (Nat.mod_upper_bound (len + bs - (bs + extra)) bs ltac:(lia)).
        set (q := (len + bs - (bs + extra)) / bs) in *. rewrite (Nat.mul_comm q bs).
        split; [lia|]. exists q. lia.
      * apply Nat.leb_gt in E1. lia.
    + apply Nat.leb_gt in E3. destruct (pos =? 0) eqn:E0; cbn in E1.
      * apply Nat.eqb_eq in E0. split; [lia|]. exists 0. lia.
      * apply Nat.leb_gt in E1. split; [lia|]. exists 0. lia.
Qed.

(** The data is read directly iff it contains a whole block, and then from the start of one. *)
Lemma srcs_direct : forall pos len, pos < bs + extra ->
  whole_block bs extra pos len ->
  exists off n, In (Data off, n) (fst (absorb_srcs bs (bs + extra) pos len)) /\ 0 < n.
Proof.
  intros pos len Hp (k & K1 & K2). unfold absorb_srcs.
  assert (Hk : pos = 0 \/ 1 <= k) by nia.
  destruct (negb (pos =? 0) && (bs + extra <=? pos + len)) eqn:E1.
  - apply andb_prop in E1. destruct E1 as [E1 E2]. apply Nat.leb_le in E2.
    apply negb_true_iff, Nat.eqb_neq in E1.
    assert (2 * bs + extra <= pos + len) by nia.
    replace (bs + extra <=? len - (bs - pos)) with true by (symmetry; apply Nat.leb_le; lia).
    eexists _, _. split; [right; left; reflexivity|]. apply Nat.div_str_pos. lia.
  - destruct (pos =? 0) eqn:E0; cbn in E1.
    + apply Nat.eqb_eq in E0. subst pos. replace (bs + extra <=? len) with true by (symmetry; apply Nat.leb_le; nia).
      eexists _, _. split; [left; reflexivity|]. apply Nat.div_str_pos. nia.
    + apply Nat.leb_gt in E1. apply Nat.eqb_neq in E0. nia.
Qed.
Lemma srcs_data : forall pos len off n, pos < bs + extra ->
  In (Data off, n) (fst (absorb_srcs bs (bs + extra) pos len)) ->
  whole_block bs extra pos len /\ (pos + off = 0 \/ pos + off = bs) /\ off + n * bs <= len.
Proof.
  intros pos len off n Hp. unfold absorb_srcs.
  destruct (negb (pos =? 0) && (bs + extra <=? pos + len)) eqn:E1.
  - apply andb_prop in E1. destruct E1 as [E1 E2]. apply Nat.leb_le in E2.
    destruct (bs + extra <=? len - (bs - pos)) eqn:E3; cbn [fst app]; [|intros [H|[]]; discriminate].
    intros [H|[H|[]]]; [discriminate|]. injection H as <- <-. apply Nat.leb_le in E3.
    split; [exists 1; lia|split; [lia|]].
    pose proof (Nat.mul_div_le (len - (bs - pos) + bs - (bs + extra)) bs ltac:(lia)). nia.
  - destruct (bs + extra <=? len) eqn:E3; cbn [fst app]; [|intros []].
    intros [H|[]]. injection H as <- <-. apply Nat.leb_le in E3.
    destruct (pos =? 0) eqn:E0; cbn in E1; [|apply Nat.leb_gt in E1; lia].
    apply Nat.eqb_eq in E0. subst pos. split; [exists 0; lia|split; [lia|]].
    pose proof (Nat.mul_div_le (len + bs - (bs + extra)) bs ltac:(lia)). nia.
Qed.

(** Which block is whole does not depend on the blocks before. *)
Lemma whole_shift : forall pos start len k, pos + bs * k = start ->
  (whole_block bs extra pos len <-> whole_block bs extra start len).
Proof.
  intros pos start len k E. split; intros (j & J1 & J2).
  - exists (j + k). nia.
  - exists (j - k). assert (k <= j) by nia. replace (bs * (j - k)) with (bs * j - bs * k) by (rewrite Nat.mul_sub_distr_l; lia).
    replace (bs * (j - k + 1)) with (bs * (j + 1) - bs * k) by (replace (j - k + 1) with (j + 1 - k) by lia; rewrite Nat.mul_sub_distr_l; lia).
    nia.
Qed.
End One.

Lemma word_reads_aligned : forall w bs p n, 0 < w -> 0 < bs -> Nat.divide w bs ->
  (Forall (aligned w) (word_reads w bs (p, n)) <-> (n = 0 \/ aligned w p)).
Proof.
  intros w bs p n Hw Hb Hd. unfold word_reads. cbn [fst snd]. rewrite Forall_forall. split.
  - intros H. destruct n as [|n]; [left; reflexivity|]. right.
    specialize (H p). apply H. apply in_flat_map. exists 0. split; [apply in_seq; lia|].
    apply in_map_iff. exists 0. split; [lia|]. apply in_seq.
    assert (0 < bs / w) by (apply Nat.div_str_pos; split; [assumption|apply Nat.divide_pos_le; assumption]). lia.
  - intros H x Hx. apply in_flat_map in Hx. destruct Hx as (blk & Hb1 & Hx). apply in_map_iff in Hx.
    destruct Hx as (i & <- & _). apply in_seq in Hb1. destruct H as [->|H]; [lia|].
    unfold aligned in *. repeat apply Nat.divide_add_r; [assumption| |].
    + apply Nat.divide_mul_r. assumption.
    + exists i. lia.
Qed.

Lemma mod_shift : forall w bs a off start, 0 < w -> Nat.divide w bs ->
  (exists k, start + off = bs * k) -> (aligned w (a + off) <-> a mod w = start mod w).
Proof.
  intros w bs a off start Hw (c & ->) (k & E). unfold aligned.
  rewrite <- Nat.mod_divide by lia.
  pose proof (Nat.div_mod a w ltac:(lia)) as Da. pose proof (Nat.div_mod start w ltac:(lia)) as Ds.
  pose proof (Nat.mod_upper_bound a w ltac:(lia)) as Ma. pose proof (Nat.mod_upper_bound start w ltac:(lia)) as Ms.
  set (ra := a mod w) in *. set (rs := start mod w) in *.
  set (qa := a / w) in *. set (qs := start / w) in *.
  split; intros H.
  - apply Nat.mod_divide in H; [|lia]. destruct H as (j & H).
    assert (exists z : Z, (Z.of_nat ra - Z.of_nat rs = Z.of_nat w * z)%Z).
    { exists (Z.of_nat j - Z.of_nat qa + Z.of_nat qs - Z.of_nat c * Z.of_nat k)%Z. nia. }
    destruct H0 as (z & Hz). assert (z = 0%Z) by nia. subst z. lia.
  - apply Nat.mod_divide; [lia|]. rewrite <- H in Ds.
    exists (qa + c * k - qs). assert (qs <= c * k + qa) by nia.
    rewrite Nat.mul_sub_distr_r. nia.
Qed.

Lemma in_step_cons : forall w bs extra pos a len r,
  in_step w bs extra pos ((a, len) :: r) <->
  ((whole_block bs extra pos len -> a mod w = pos mod w) /\ in_step w bs extra (pos + len) r).
Proof.
  intros. unfold in_step. split.
  - intros H. split.
    + intros Hw. specialize (H [] a len r eq_refl). cbn in H. rewrite Nat.add_0_r in H. auto.
    + intros pre b l post E Hw. specialize (H ((a, len) :: pre) b l post). rewrite E in H.
      cbn in H. unfold total_len in *. rewrite Nat.add_assoc in H. apply H; auto.
  - intros [H1 H2] pre b l post E Hw. destruct pre as [|[a' l'] pre]; cbn in E.
    + injection E as -> -> ->. unfold total_len in *. cbn in *. rewrite Nat.add_0_r in *. auto.
    + injection E as -> -> ->. specialize (H2 pre b l post eq_refl). unfold total_len in *. cbn in *.
      rewrite Nat.add_assoc in *. auto.
Qed.

(** The words are read from aligned addresses iff [in_step]; any transform whose reads are
    aligned iff its pointer is. *)
Lemma pointers_aligned : forall (rd : nat * nat -> list nat) w bs extra am,
  0 < w -> 0 < bs -> extra <= 1 -> Nat.divide w bs -> aligned w am ->
  (forall p n, Forall (aligned w) (rd (p, n)) <-> (n = 0 \/ aligned w p)) ->
  forall calls pos start, pos < bs + extra -> (exists k, pos + bs * k = start) ->
  (Forall (aligned w) (flat_map rd (pointers bs (bs + extra) am pos calls)) <->
   in_step w bs extra start calls).
Proof.
  intros rd w bs extra am Hw Hb He Hd Ha Hrd. induction calls as [|[a len] r IH]; intros pos start Hp (k & Hk).
  - cbn. split; [|constructor]. intros _ pre a len post E. destruct pre; discriminate.
  - rewrite in_step_cons. cbn [pointers].
    pose proof (srcs_pos bs extra Hb He pos len Hp) as [P1 (j & P2)].
    pose proof (srcs_direct bs extra Hb He pos len Hp) as D1.
    pose proof (srcs_data bs extra Hb He pos len) as D2.
    destruct (absorb_srcs bs (bs + extra) pos len) as [l pos'] eqn:E. cbn [fst snd] in *.
    rewrite flat_map_app, Forall_app.
    rewrite (IH pos' (start + len)) by (try assumption; exists (j + k); rewrite Nat.mul_add_distr_l; lia).
    enough (Forall (aligned w) (flat_map rd (map (fun sn => (address am a (fst sn), snd sn)) l)) <->
      (whole_block bs extra start len -> a mod w = start mod w)) by tauto.
    rewrite Forall_forall. split.
    + intros H Hwb. apply (whole_shift bs extra Hb He pos start len k Hk) in Hwb.
      destruct (D1 Hwb) as (off & n & Hin & Hn). specialize (D2 off n Hp Hin). destruct D2 as (_ & D2 & _).
      apply (mod_shift w bs a off start Hw Hd).
      { destruct D2 as [D2|D2]; [exists k|exists (k + 1)]; rewrite ?Nat.mul_add_distr_l; lia. }
      assert (F : Forall (aligned w) (rd (a + off, n))).
      { apply Forall_forall. intros x Hx. apply H. apply in_flat_map. exists (a + off, n). split; [|assumption].
        apply in_map_iff. exists (Data off, n). split; [reflexivity|assumption]. }
      apply Hrd in F. destruct F; [lia|assumption].
    + intros H x Hx. apply in_flat_map in Hx. destruct Hx as (pn & Hin & Hx). apply in_map_iff in Hin.
      destruct Hin as ([s n] & <- & Hin). cbn [fst snd] in Hx.
      assert (F : Forall (aligned w) (rd (address am a s, n))).
      { apply Hrd. right. destruct s as [|off]; cbn [address]; [assumption|].
        specialize (D2 off n Hp Hin). destruct D2 as (Hwb & D2 & _).
        apply (mod_shift w bs a off start Hw Hd).
        { destruct D2 as [D2|D2]; [exists k|exists (k + 1)]; rewrite ?Nat.mul_add_distr_l; lia. }
        apply H. apply (whole_shift bs extra Hb He pos start len k Hk). assumption. }
      rewrite Forall_forall in F. auto.
Qed.

Lemma reads_aligned : forall w bs extra am pos calls,
  0 < w -> 0 < bs -> extra <= 1 -> Nat.divide w bs -> aligned w am -> pos < bs + extra ->
  (Forall (aligned w) (reads w bs (bs + extra) am pos calls) <-> in_step w bs extra pos calls).
Proof.
  intros. unfold reads. apply pointers_aligned; try assumption.
  - intros. apply word_reads_aligned; assumption.
  - exists 0. lia.
Qed.

(** K12 and its relatives. *)
Lemma k12_reads_aligned : forall cs rate abuf am pos calls,
  Nat.divide 8 cs -> 0 < rate -> rate <= cs -> Nat.divide 8 rate -> aligned 8 am -> (forall i, aligned 8 (abuf i)) -> pos <= cs ->
  (Forall (aligned 8) (k12_reads cs rate abuf am pos calls) <-> in_step 8 cs 1 pos calls).
Proof.
  intros cs rate abuf am pos calls (q & ->) H0 Hr Hd Ha Hab Hp. unfold k12_reads.
  apply pointers_aligned; try assumption; try lia; [exists q; reflexivity| |exists 0; lia].
  intros p n. unfold k12_word_reads. cbn [fst snd]. rewrite Forall_forall.
  assert (A : forall blk, Forall (aligned 8) (reads 8 rate rate (abuf blk) 0 [(p + blk * (q * 8), q * 8)]) <-> aligned 8 p).
  { intros blk. replace rate with (rate + 0) at 2 by lia.
    rewrite reads_aligned by (try assumption; try lia; apply Hab). rewrite in_step_cons. split.
    - intros [H _]. assert (E : (p + blk * (q * 8)) mod 8 = 0 mod 8).
      { apply H. exists 0. lia. }
      replace (blk * (q * 8)) with (blk * q * 8) in E by lia. rewrite Nat.mod_add in E by lia.
      apply Nat.mod_divide; [lia|]. exact E.
    - intros (c & ->). split.
      + intros _. replace (c * 8 + blk * (q * 8)) with ((c + blk * q) * 8) by lia. rewrite Nat.mod_mul by lia. reflexivity.
      + intros [|]; discriminate. }
  split.
  - intros H. destruct n as [|n]; [left; reflexivity|right]. apply (A 0). apply Forall_forall. intros x Hx. apply H.
    apply in_flat_map. exists 0. split; [apply in_seq; lia|exact Hx].
  - intros H x Hx. apply in_flat_map in Hx. destruct Hx as (blk & Hb & Hx). apply in_seq in Hb.
    destruct H as [->|H]; [lia|]. apply (A blk) in H. rewrite Forall_forall in H. auto.
Qed.

(** Calls with at most a block of data each, kept back while it may be the last one, are
    always copied first. *)
Lemma small_calls : forall bs am calls pos, 0 < bs -> pos <= bs -> Forall (fun c => snd c <= bs) calls ->
  Forall (fun pn => pn = (am, 1)) (pointers bs (bs + 1) am pos calls).
Proof.
  induction calls as [|[a len] r IH]; intros pos Hb Hp H; [constructor|]. inversion_clear H. cbn [snd] in H0.
  cbn [pointers].
  pose proof (srcs_pos bs 1 Hb ltac:(lia) pos len ltac:(lia)) as [P1 _].
  pose proof (srcs_data bs 1 Hb ltac:(lia) pos len) as D2.
  assert (B : forall n, In (Buf, n) (fst (absorb_srcs bs (bs + 1) pos len)) -> n = 1).
  { intros n. unfold absorb_srcs. destruct (negb (pos =? 0) && _); destruct (bs + 1 <=? _); cbn;
      intros HH; repeat (destruct HH as [HH|HH]; [injection HH as ?; try discriminate; auto|]); try contradiction; try discriminate. }
  destruct (absorb_srcs bs (bs + 1) pos len) as [l pos']. cbn [fst snd] in *.
  apply Forall_app. split; [|apply IH; try assumption; lia].
  apply Forall_forall. intros pn Hin. apply in_map_iff in Hin. destruct Hin as ([s n] & <- & Hin). cbn [fst snd].
  destruct s as [|off]; [apply B in Hin; subst; reflexivity|].
  apply D2 in Hin; [|lia]. destruct Hin as ((k & K1 & K2) & _). nia.
Qed.

(** Words and lengths that are multiples of the word size. *)
Lemma multiples_in_step : forall w bs extra, 0 < w -> forall calls last pos,
  Nat.divide w pos ->
  Forall (fun c => Nat.divide w (fst c) /\ Nat.divide w (snd c)) calls -> Nat.divide w (fst last) ->
  in_step w bs extra pos (calls ++ [last]).
Proof.
  intros w bs extra Hw. induction calls as [|[a len] r IH]; intros [b l] pos Hp H Hl.
  - cbn. apply in_step_cons. cbn in Hl. split; [|intros [|]; discriminate]. intros _.
    apply Nat.mod_divide in Hp; [|lia]. apply Nat.mod_divide in Hl; [|lia]. congruence.
  - inversion_clear H. cbn [fst snd] in H0. cbn [app]. apply in_step_cons. split.
    + intros _. destruct H0 as [H0 _]. apply Nat.mod_divide in Hp; [|lia]. apply Nat.mod_divide in H0; [|lia]. congruence.
    + apply IH; try assumption. apply Nat.divide_add_r; tauto.
Qed.

(** ** The pointers are those of the model. *)
(** A transform that writes down its arguments. *)
Definition logger (c : list (list N * nat)) (m : list N) (_ : N) (d : list N) (n : nat)
  : res (list (list N * nat) * list N) := Ok (c ++ [(d, n)], m).
(** The bytes at a source. *)
Definition content (bs : nat) (buffered data : list N) (sn : src * nat) : list N * nat :=
  match sn with
  | (Buf, n) => (buffered ++ firstn (bs - length buffered) data, n)
  | (Data off, n) => (firstn (n * bs) (skipn off data), n)
  end.
Lemma absorb_logged : forall bs extra data c m pos total, 0 < bs -> extra <= 1 ->
  pos < bs + extra -> bs <= length m ->
  exists m' total', absorb_bytes logger bs (bs + extra) data c m pos total =
    Ok (c ++ map (content bs (firstn pos m) data) (fst (absorb_srcs bs (bs + extra) pos (length data))),
        m', snd (absorb_srcs bs (bs + extra) pos (length data)), total').
Proof.
  intros bs extra data c m pos total Hb He Hp Hm. unfold absorb_bytes, absorb_srcs.
  assert (Hfl : length (firstn pos m) = pos) by (rewrite firstn_length; lia).
  destruct (negb (pos =? 0) && (bs + extra <=? pos + length data)) eqn:E1.
  - apply andb_prop in E1. destruct E1 as [E1 E2]. apply Nat.leb_le in E2.
    unfold size_sub. replace (pos <=? bs) with true by (symmetry; apply Nat.leb_le; lia). cbn [bind].
    unfold memcpy at 1. replace ((pos + (bs - pos) <=? length m) && (bs - pos <=? length data)) with true
      by (symmetry; apply andb_true_intro; split; apply Nat.leb_le; lia). cbn [bind].
    unfold load at 1.
    assert (Hov : length (overlay m pos (firstn (bs - pos) data)) = length m).
    { unfold overlay. rewrite !app_length, skipn_length, !firstn_length. lia. }
    replace (0 + bs <=? length (overlay m pos (firstn (bs - pos) data))) with true
      by (symmetry; apply Nat.leb_le; lia). cbn [bind logger].
    assert (Hblk : firstn bs (skipn 0 (overlay m pos (firstn (bs - pos) data))) = firstn pos m ++ firstn (bs - pos) data).
    { cbn [skipn]. unfold overlay. rewrite app_assoc. rewrite firstn_app.
      replace (length (firstn pos m ++ firstn (bs - pos) data)) with bs by (rewrite app_length, !firstn_length; lia).
      rewrite Nat.sub_diag. cbn [firstn]. rewrite app_nil_r. apply firstn_all2. rewrite app_length, !firstn_length. lia. }
    rewrite Hblk. rewrite skipn_length.
    destruct (bs + extra <=? length data - (bs - pos)) eqn:E3.
    + apply Nat.leb_le in E3. set (q := (length data - (bs - pos) + bs - (bs + extra)) / bs).
      assert (Hq : q * bs <= length data - (bs - pos)).
      { pose proof (Nat.mul_div_le (length data - (bs - pos) + bs - (bs + extra)) bs ltac:(lia)). unfold q. nia. }
      assert (Hr : length data - (bs - pos) - q * bs < bs + extra).
      { pose proof (Nat.div_mod (length data - (bs - pos) + bs - (bs + extra)) bs ltac:(lia)).
        pose proof (Nat.mod_upper_bound (length data - (bs - pos) + bs - (bs + extra)) bs ltac:(lia)). unfold q. nia. }
      unfold load. rewrite skipn_length. replace (0 + q * bs <=? length data - (bs - pos)) with true by (symmetry; apply Nat.leb_le; lia).
      cbn [bind logger]. unfold memcpy. rewrite !skipn_length, Hov.
      replace ((0 + (length data - (bs - pos) - q * bs) <=? length m) && (length data - (bs - pos) - q * bs <=? length data - (bs - pos) - q * bs)) with true
        by (symmetry; apply andb_true_intro; split; apply Nat.leb_le; lia).
      cbn [bind fst snd app map content]. rewrite Hfl. rewrite <- app_assoc. cbn [app skipn]. eexists _, _. reflexivity.
    + apply Nat.leb_gt in E3. cbn [bind]. unfold memcpy. rewrite !skipn_length, Hov.
      replace ((0 + (length data - (bs - pos)) <=? length m) && (length data - (bs - pos) <=? length data - (bs - pos))) with true
        by (symmetry; apply andb_true_intro; split; apply Nat.leb_le; lia).
      cbn [bind fst snd app map content]. rewrite Hfl. eexists _, _. reflexivity.
  - cbn [bind]. destruct (bs + extra <=? length data) eqn:E3.
    + apply Nat.leb_le in E3. destruct (pos =? 0) eqn:E0; cbn in E1; [|apply Nat.leb_gt in E1; lia].
      apply Nat.eqb_eq in E0. subst pos. set (q := (length data + bs - (bs + extra)) / bs).
      assert (Hq : q * bs <= length data).
      { pose proof (Nat.mul_div_le (length data + bs - (bs + extra)) bs ltac:(lia)). unfold q. nia. }
      assert (Hr : length data - q * bs < bs + extra).
      { pose proof (Nat.div_mod (length data + bs - (bs + extra)) bs ltac:(lia)).
        pose proof (Nat.mod_upper_bound (length data + bs - (bs + extra)) bs ltac:(lia)). unfold q. nia. }
      unfold load. replace (0 + q * bs <=? length data) with true by (symmetry; apply Nat.leb_le; lia).
      cbn [bind logger]. unfold memcpy. rewrite !skipn_length.
      replace ((0 + (length data - q * bs) <=? length m) && (length data - q * bs <=? length data - q * bs)) with true
        by (symmetry; apply andb_true_intro; split; apply Nat.leb_le; lia).
      cbn [bind fst snd app map content]. eexists _, _. reflexivity.
    + apply Nat.leb_gt in E3. cbn [bind]. unfold memcpy.
      assert (pos + length data <= bs).
      { destruct (pos =? 0) eqn:E0; cbn in E1; [apply Nat.eqb_eq in E0; lia|apply Nat.leb_gt in E1; lia]. }
      replace ((pos + length data <=? length m) && (length data <=? length data)) with true
        by (symmetry; apply andb_true_intro; split; apply Nat.leb_le; lia).
      cbn [bind fst snd app map]. rewrite app_nil_r. eexists _, _. reflexivity.
Qed.

(** ** The providers. *)
Lemma readers_ok : forall bs extra w, In (bs, extra, w) readers ->
  1 < w /\ 0 < bs /\ extra <= 1 /\ Nat.divide w bs.
Proof.
  intros bs extra w H. unfold readers in H. cbn [In] in H.
  repeat (destruct H as [H|H]; [injection H as <- <- <-; (repeat split; [lia|lia|lia|]);
    match goal with |- Nat.divide ?a ?b => exists (b / a); reflexivity end|]). contradiction.
Qed.
Lemma provider_aligned : forall bs extra w am pos calls, In (bs, extra, w) readers ->
  aligned w am -> pos < bs + extra ->
  (Forall (aligned w) (reads w bs (bs + extra) am pos calls) <-> in_step w bs extra pos calls).
Proof. intros bs extra w am pos calls H. apply readers_ok in H. intros. apply reads_aligned; try tauto; lia. Qed.
Lemma provider_misaligned : forall bs extra w am a b, In (bs, extra, w) readers ->
  aligned w am -> aligned w a -> aligned w b ->
  ~ Forall (aligned w) (reads w bs (bs + extra) am 0 [(a, 1); (b, 2 * bs)]).
Proof.
  intros bs extra w am a b H Hm Ha Hb. pose proof (readers_ok bs extra w H) as (H1 & H2 & H3 & H4).
  rewrite provider_aligned by (try assumption; lia). rewrite !in_step_cons. intros (_ & K & _).
  assert (E : b mod w = (0 + 1) mod w).
  { apply K. exists 1. lia. }
  apply Nat.mod_divide in Hb; [|lia]. rewrite Hb in E. rewrite Nat.mod_small in E; lia.
Qed.
Lemma provider_multiples : forall bs extra w am calls last, In (bs, extra, w) readers -> aligned w am ->
  Forall (fun c => aligned w (fst c) /\ Nat.divide w (snd c)) calls -> aligned w (fst last) ->
  Forall (aligned w) (reads w bs (bs + extra) am 0 (calls ++ [last])).
Proof.
  intros bs extra w am calls last H Hm Hc Hl. pose proof (readers_ok bs extra w H) as (H1 & H2 & H3 & H4).
  apply provider_aligned; try assumption; [lia|]. apply multiples_in_step; try assumption; [lia|].
  exists 0. reflexivity.
Qed.
