(** * The arithmetic of size_t agrees with natural numbers. *)
From Verif Require Import Base Align Wrap Lemmas.
From Coq Require Import NArith ZArith Lia.
Local Open Scope N_scope.

Definition src_of (sn : src * nat) : src64 * N :=
  match sn with (Buf, n) => (Buf64, N.of_nat n) | (Data off, n) => (Data64 (N.of_nat off), N.of_nat n) end.

Lemma add64_small a b : a + b < 2 ^ 64 -> add64 a b = a + b.
Proof. intros. unfold add64. apply trunc_small. assumption. Qed.
Lemma mul64_small a b : a * b < 2 ^ 64 -> mul64 a b = a * b.
Proof. intros. unfold mul64. apply trunc_small. assumption. Qed.
Lemma sub64_small a b : b <= a -> a < 2 ^ 64 -> sub64 a b = a - b.
Proof.
  intros H1 H2. unfold sub64. rewrite trunc_mod. replace (a + (2 ^ 64 - b)) with (a - b + 1 * 2 ^ 64) by lia.
  rewrite N.mod_add by lia. apply N.mod_small. lia.
Qed.

(** [len + bs - bschk] may wrap in between. *)
Lemma sub_add64 a b c : c <= a + b -> a + b - c < 2 ^ 64 -> c <= 2 ^ 64 -> sub64 (add64 a b) c = a + b - c.
Proof.
  intros H1 H2 H3. unfold sub64, add64. rewrite trunc_add_l, trunc_mod.
  replace (a + b + (2 ^ 64 - c)) with (a + b - c + 1 * 2 ^ 64) by lia. rewrite N.mod_add by lia. apply N.mod_small. lia.
Qed.

Lemma absorb64_ok : forall bs extra pos len, (0 < bs)%nat -> (extra <= 1)%nat -> (pos < bs + extra)%nat ->
  N.of_nat bs + 1 < 2 ^ 64 -> N.of_nat pos + N.of_nat len < 2 ^ 64 ->
  absorb64 (N.of_nat bs) (N.of_nat (bs + extra)) (N.of_nat pos) (N.of_nat len) =
  (map src_of (fst (absorb_srcs bs (bs + extra) pos len)),
   N.of_nat (snd (absorb_srcs bs (bs + extra) pos len)
     - (if (negb (pos =? 0) && (bs + extra <=? pos + len))%nat then 0 else pos)),
   N.of_nat (snd (absorb_srcs bs (bs + extra) pos len))).
Proof.
  intros bs extra pos len Hb He Hp Hs Hl. unfold absorb64, absorb_srcs.
  rewrite add64_small by lia. rewrite <- Nat2N.inj_add.
  replace (N.of_nat pos =? 0) with (pos =? 0)%nat
    by (destruct (Nat.eqb_spec pos 0), (N.eqb_spec (N.of_nat pos) 0); auto; lia).
  assert (leb : forall a b, (N.of_nat a <=? N.of_nat b) = (a <=? b)%nat).
  { intros. destruct (Nat.leb_spec a b), (N.leb_spec (N.of_nat a) (N.of_nat b)); auto; lia. }
  rewrite leb.
  assert (step : forall l, (l <= len)%nat -> (bs + extra <= l)%nat ->
    sub64 (add64 (N.of_nat l) (N.of_nat bs)) (N.of_nat (bs + extra)) / N.of_nat bs = N.of_nat ((l + bs - (bs + extra)) / bs) /\
    sub64 (N.of_nat l) (mul64 (N.of_nat ((l + bs - (bs + extra)) / bs)) (N.of_nat bs)) = N.of_nat (l - (l + bs - (bs + extra)) / bs * bs)).
  { intros l H1 H2. rewrite sub_add64 by lia.
    rewrite <- Nat2N.inj_add, <- Nat2N.inj_sub, <- Nat2N.inj_div.
    pose proof (Nat.mul_div_le (l + bs - (bs + extra)) bs ltac:(lia)).
    rewrite mul64_small by (rewrite <- Nat2N.inj_mul; lia). rewrite <- Nat2N.inj_mul, sub64_small by lia. split; lia. }
  destruct (negb (pos =? 0)%nat && (bs + extra <=? pos + len)%nat) eqn:E1.
  - apply andb_prop in E1. destruct E1 as [E1 E2]. apply Nat.leb_le in E2.
    rewrite !(sub64_small (N.of_nat bs)) by lia. rewrite <- Nat2N.inj_sub.
    rewrite sub64_small by lia. rewrite <- Nat2N.inj_sub, leb.
    destruct (bs + extra <=? len - (bs - pos))%nat eqn:E3.
    + apply Nat.leb_le in E3. destruct (step (len - (bs - pos))%nat ltac:(lia) E3) as [S1 S2]. rewrite S1, S2.
      cbn [fst snd app map src_of]. rewrite Nat.sub_0_r. rewrite add64_small by lia. reflexivity.
    + cbn [fst snd app map src_of]. rewrite Nat.sub_0_r. rewrite add64_small by lia. reflexivity.
  - rewrite leb. destruct (bs + extra <=? len)%nat eqn:E3.
    + apply Nat.leb_le in E3. destruct (step len ltac:(lia) E3) as [S1 S2]. rewrite S1, S2.
      assert (pos = 0%nat).
      { destruct (Nat.eqb_spec pos 0); [assumption|]. cbn in E1. apply Nat.leb_gt in E1. lia. }
      subst pos. cbn [fst snd app map src_of]. rewrite Nat.sub_0_r. rewrite add64_small by lia. reflexivity.
    + cbn [fst snd app map]. replace (pos + len - pos)%nat with len by lia.
      rewrite add64_small by lia. rewrite <- Nat2N.inj_add. reflexivity.
Qed.

(** If [pos + len] wraps the buffered bytes are forgotten. *)
Lemma absorb64_wrong : forall bs extra pos len, (0 < bs)%nat -> (extra <= 1)%nat -> (pos < bs + extra)%nat ->
  N.of_nat bs + 1 < 2 ^ 32 -> N.of_nat len < 2 ^ 64 -> 2 ^ 64 <= N.of_nat pos + N.of_nat len ->
  fst (fst (absorb64 (N.of_nat bs) (N.of_nat (bs + extra)) (N.of_nat pos) (N.of_nat len))) <>
  map src_of (fst (absorb_srcs bs (bs + extra) pos len)).
Proof.
  intros bs extra pos len Hb He Hp Hs Hl Hw. unfold absorb64, absorb_srcs.
  assert (E : add64 (N.of_nat pos) (N.of_nat len) = N.of_nat pos + N.of_nat len - 2 ^ 64).
  { unfold add64. rewrite trunc_mod. replace (N.of_nat pos + N.of_nat len) with (N.of_nat pos + N.of_nat len - 2 ^ 64 + 1 * 2 ^ 64) at 1 by lia.
    rewrite N.mod_add by lia. apply N.mod_small. lia. }
  rewrite E. replace (N.of_nat (bs + extra) <=? N.of_nat pos + N.of_nat len - 2 ^ 64) with false by (symmetry; apply N.leb_gt; lia).
  rewrite andb_false_r. replace (negb (pos =? 0)%nat) with true by (symmetry; apply negb_true_iff, Nat.eqb_neq; lia).
  replace (bs + extra <=? pos + len)%nat with true by (symmetry; apply Nat.leb_le; lia). cbn [andb].
  destruct (N.of_nat (bs + extra) <=? N.of_nat len), (bs + extra <=? len - (bs - pos))%nat; cbn; discriminate.
Qed.
