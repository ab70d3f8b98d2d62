(** * Injectivity on words and lists of words (C54). *)
From Verif Require Import Base Lemmas WordLemmas SpecCommon.
From Coq Require Import ZArith Lia.

Definition inj_on {A B} (Q : A -> Prop) (f : A -> B) : Prop := forall a b, Q a -> Q b -> f a = f b -> a = b.
Lemma inj_comp {A B C} (Q : A -> Prop) (R : B -> Prop) (f : A -> B) (g : B -> C) :
  inj_on Q f -> (forall a, Q a -> R (f a)) -> inj_on R g -> inj_on Q (fun a => g (f a)).
Proof. intros F K G a b Ha Hb E. apply F; auto. Qed.
Lemma inj_fold {A I} (Q : A -> Prop) (f : A -> I -> A) (P : I -> Prop) :
  (forall i, P i -> inj_on Q (fun a => f a i)) -> (forall i a, P i -> Q a -> Q (f a i)) ->
  forall l, Forall P l -> inj_on Q (fun a => fold_left f l a) /\ forall a, Q a -> Q (fold_left f l a).
Proof.
  intros F K l Hl. induction Hl as [|i l Hi _ [IH1 IH2]]; [split; [intros a b _ _ E; exact E|auto]|].
  split; [|intros a Ha; cbn [fold_left]; auto].
  intros a b Ha Hb E. cbn [fold_left] in E. apply IH1 in E; auto. exact (F i Hi a b Ha Hb E).
Qed.

(** ** Words *)
Definition word (w : N) (x : N) : Prop := x < 2 ^ w.
Lemma word_mod w x : word w (x mod 2 ^ w).
Proof. apply N.mod_upper_bound. apply N.pow_nonzero. discriminate. Qed.
Lemma add_inj_l w c : inj_on (word w) (fun x => (c + x) mod 2 ^ w).
Proof.
  intros a b Ha Hb E. unfold word in *. assert (P : 2 ^ w <> 0) by (apply N.pow_nonzero; discriminate).
  pose proof (N.div_mod (c + a) (2 ^ w) P) as A. pose proof (N.div_mod (c + b) (2 ^ w) P) as B. cbv beta in E. rewrite E in A.
  generalize dependent (2 ^ w). intros M. intros. generalize dependent ((c + b) mod M). intros r _ A B.
  assert ((c + a) / M = (c + b) / M \/ (c + a) / M < (c + b) / M \/ (c + b) / M < (c + a) / M) as [D|[D|D]] by lia; nia.
Qed.
Lemma add_inj_r w c : inj_on (word w) (fun x => (x + c) mod 2 ^ w).
Proof. intros a b Ha Hb E. cbv beta in E. rewrite (N.add_comm a), (N.add_comm b) in E. exact (add_inj_l w c a b Ha Hb E). Qed.
Lemma xor_inj_l c : inj_on (fun _ => True) (N.lxor c).
Proof. intros a b _ _ E. apply (f_equal (N.lxor c)) in E. rewrite <- !N.lxor_assoc, N.lxor_nilpotent, !N.lxor_0_l in E. exact E. Qed.
Lemma xor_inj_r c : inj_on (fun _ => True) (fun x => N.lxor x c).
Proof. intros a b _ _ E. cbv beta in E. rewrite (N.lxor_comm a), (N.lxor_comm b) in E. exact (xor_inj_l c a b I I E). Qed.
Lemma xor_word w a b : word w a -> word w b -> word w (N.lxor a b).
Proof. unfold word. apply lxor_lt. Qed.

(** Bits of a word with the index taken modulo the width. *)
Definition cb (w : Z) (x : N) (z : Z) : bool := N.testbit x (Z.to_N (z mod w)).
Lemma cb_period w x z k : (0 < w)%Z -> cb w x (z + k * w) = cb w x z.
Proof. intros. unfold cb. rewrite Z_mod_plus_full. reflexivity. Qed.
Lemma cb_xor w a b z : cb w (N.lxor a b) z = xorb (cb w a z) (cb w b z).
Proof. unfold cb. apply N.lxor_spec. Qed.
Lemma cb_ext w a b : (0 < w)%Z -> word (Z.to_N w) a -> word (Z.to_N w) b -> (forall z, cb w a z = cb w b z) -> a = b.
Proof.
  intros Hw Ha Hb H. apply N.bits_inj. intros i. destruct (N.lt_ge_cases i (Z.to_N w)) as [L|L].
  - specialize (H (Z.of_N i)). unfold cb in H. rewrite Z.mod_small in H by lia. rewrite N2Z.id in H. exact H.
  - rewrite !(testbit_high (Z.to_N w)) by assumption. reflexivity.
Qed.
Lemma cb_ROTL w n x z : (0 < w)%Z -> n < Z.to_N w -> word (Z.to_N w) x -> cb w (ROTL (Z.to_N w) n x) z = cb w x (z - Z.of_N n).
Proof.
  intros Hw Hn Hx. destruct (N.eq_dec n 0) as [->|H0].
  { unfold ROTL. rewrite N.pow_0_r, N.mul_1_r, N.sub_0_r, N.mod_small, N.div_small, N.lor_0_r by exact Hx. f_equal. lia. }
  unfold cb. rewrite <- rotl_ROTL. pose proof (Z.mod_pos_bound z w Hw) as B.
  rewrite rotl_spec by (try lia; exact Hx). replace (_ <? _) with true by (symmetry; apply N.ltb_lt; lia). cbn [andb]. f_equal.
  pose proof (Z.div_mod z w ltac:(lia)) as D. assert (K : forall a q, (0 <= a < w)%Z -> ((a + q * w) mod w = a)%Z)
    by (intros a q Ha; rewrite Z_mod_plus_full; apply Z.mod_small; exact Ha).
  generalize dependent (z mod w)%Z. intros m B D. generalize dependent (z / w)%Z. intros q D.
  destruct (N.leb_spec n (Z.to_N m)) as [L|L].
  - replace (z - Z.of_N n)%Z with ((m - Z.of_N n) + q * w)%Z by lia. rewrite K by lia. lia.
  - replace (z - Z.of_N n)%Z with ((m - Z.of_N n + w) + (q - 1) * w)%Z by lia. rewrite K by lia. lia.
Qed.
Lemma ROTL_inj w n : 0 < w -> n < w -> inj_on (word w) (ROTL w n).
Proof.
  intros Hw Hn a b Ha Hb E. assert (W : Z.to_N (Z.of_N w) = w) by apply N2Z.id.
  apply (cb_ext (Z.of_N w)); [lia|rewrite W; auto..|]. intros z.
  replace z with ((z + Z.of_N n) - Z.of_N n)%Z by lia.
  rewrite <- !(cb_ROTL (Z.of_N w)) by (rewrite ?W; auto; lia). rewrite W, E. reflexivity.
Qed.
Lemma ROTL_word w n x : word w x -> n < w -> word w (ROTL w n x).
Proof.
  intros Hx Hn. unfold word, ROTL. apply lor_lt; [apply word_mod|]. unfold word in Hx.
  eapply N.le_lt_trans; [|exact Hx]. apply N.div_le_upper_bound; [apply N.pow_nonzero; discriminate|].
  pose proof (N.pow_nonzero 2 (w - n) ltac:(discriminate)). nia.
Qed.
Lemma ROTR_ROTL w n x : 0 < n -> n < w -> ROTR w n x = ROTL w (w - n) x.
Proof. intros H0 H1. unfold ROTR, ROTL. rewrite N.lor_comm. f_equal. f_equal. f_equal. lia. Qed.
Lemma ROTR_inj w n : 0 < n -> n < w -> inj_on (word w) (ROTR w n).
Proof. intros H0 H1 a b Ha Hb E. rewrite !ROTR_ROTL in E by auto. apply ROTL_inj in E; auto; lia. Qed.
Lemma ROTR_word w n x : 0 < n -> n < w -> word w x -> word w (ROTR w n x).
Proof. intros H0 H1 Hx. rewrite ROTR_ROTL by auto. apply ROTL_word; [exact Hx|lia]. Qed.

(** ** Circulant maps 1 + z^i + z^j: squaring doubles the exponents. *)
Section Circulant.
  Variable c : Z -> bool.
  Variable n : Z.
  Hypothesis period : forall z, c (z + n)%Z = c z.
  Lemma period_mult k z : c (z + k * n)%Z = c z.
  Proof.
    assert (P : forall m, c (z + Z.of_nat m * n)%Z = c z).
    { induction m as [|m IH]; [f_equal; lia|]. rewrite <- IH. rewrite <- (period (z + Z.of_nat m * n)). f_equal. lia. }
    destruct (Z.le_gt_cases 0 k) as [H|H].
    - rewrite <- (Z2Nat.id k H). apply P.
    - assert (Q : forall m y, c (y - Z.of_nat m * n)%Z = c y).
      { induction m as [|m IH]; intros y; [f_equal; lia|]. rewrite <- (IH y). rewrite <- (period (y - Z.of_nat (S m) * n)). f_equal. lia. }
      replace (z + k * n)%Z with (z - Z.of_nat (Z.to_nat (- k)) * n)%Z by lia. apply Q.
  Qed.
  Lemma circ_double i j : (forall z, xorb (xorb (c z) (c (z + i))) (c (z + j)) = false)%Z ->
    (forall z, xorb (xorb (c z) (c (z + 2 * i))) (c (z + 2 * j)) = false)%Z.
  Proof.
    intros H z. pose proof (H z) as H0. pose proof (H (z + i)%Z) as H1. pose proof (H (z + j)%Z) as H2.
    replace (z + i + i)%Z with (z + 2 * i)%Z in H1 by lia. replace (z + j + j)%Z with (z + 2 * j)%Z in H2 by lia.
    replace (z + j + i)%Z with (z + i + j)%Z in H2 by lia.
    destruct (c z), (c (z + i)%Z), (c (z + j)%Z), (c (z + 2 * i)%Z), (c (z + 2 * j)%Z), (c (z + i + j)%Z); cbn in *; congruence.
  Qed.
  Lemma circ_kernel i j : n = 64%Z -> (forall z, xorb (xorb (c z) (c (z + i))) (c (z + j)) = false)%Z -> forall z, c z = false.
  Proof.
    intros Hn H z. do 6 (pose proof (circ_double _ _ H) as H'; clear H; rename H' into H). specialize (H z).
    replace (z + 2 * (2 * (2 * (2 * (2 * (2 * i))))))%Z with (z + i * n)%Z in H by lia.
    replace (z + 2 * (2 * (2 * (2 * (2 * (2 * j))))))%Z with (z + j * n)%Z in H by lia.
    rewrite !period_mult in H. destruct (c z); [discriminate H|reflexivity].
  Qed.
End Circulant.
