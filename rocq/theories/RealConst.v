(** * Bounds of pi, e and the sines of integers, for the constants that are their digits. *)
From Coq Require Import ZArith List Lia Reals Lra Rtrigo_alt Ratan.
Import ListNotations.
Open Scope R_scope.

(** ** Alternating sums in fixed point *)
Fixpoint zsum (t : nat -> Z) (n : nat) : Z :=
  match n with O => t 0%nat | S m => (zsum t m + if Nat.even n then t n else - t n)%Z end.

Lemma pow_neg1 i : (-1) ^ i = if Nat.even i then 1 else -1.
Proof. induction i as [|i IH]; [reflexivity|]. rewrite Nat.even_succ, <- Nat.negb_even. simpl pow. rewrite IH. destruct (Nat.even i); simpl; lra. Qed.

Lemma zsum_ok (U : nat -> R) (t : nat -> Z) (B E : R) n :
  (forall i, IZR (t i) <= U i * B <= IZR (t i) + E) ->
  Rabs (sum_f_R0 (fun i => (-1) ^ i * U i) n * B - IZR (zsum t n)) <= E * INR (S n).
Proof.
  intros Ht.
  assert (T : forall i, Rabs ((-1) ^ i * U i * B - IZR (if Nat.even i then t i else - t i)%Z) <= E).
  { intros i. rewrite pow_neg1. pose proof (Ht i) as [A1 A2].
    destruct (Nat.even i); [|rewrite opp_IZR]; unfold Rabs; destruct Rcase_abs; lra. }
  induction n as [|n IH].
  - simpl sum_f_R0. cbn [zsum]. change (INR 1) with 1. rewrite Rmult_1_r. apply (T 0%nat).
  - simpl sum_f_R0. cbn [zsum]. rewrite plus_IZR, S_INR.
    specialize (T (S n)).
    match goal with |- Rabs ((?s + ?t) * ?b - (?p + ?q)) <= _ =>
      replace ((s + t) * b - (p + q)) with ((s * b - p) + (t * b - q)) by ring end.
    eapply Rle_trans; [apply Rabs_triang|]. rewrite Rmult_plus_distr_l, Rmult_1_r. apply Rplus_le_compat; assumption.
Qed.

(** Division with rounding down. *)
Lemma zdiv_ok a d : (0 < d)%Z -> IZR (a / d) <= IZR a / IZR d <= IZR (a / d) + 1.
Proof.
  intros Hd. pose proof (Z.div_mod a d ltac:(lia)) as E. pose proof (Z.mod_pos_bound a d Hd) as M.
  assert (HD : 0 < IZR d) by (apply IZR_lt; exact Hd).
  set (q := (a / d)%Z) in *. set (r := (a mod d)%Z) in *.
  rewrite E, plus_IZR, mult_IZR.
  assert (0 <= IZR r) by (apply IZR_le; lia). assert (IZR r <= IZR d) by (apply IZR_le; lia).
  replace ((IZR d * IZR q + IZR r) / IZR d) with (IZR q + IZR r / IZR d) by (field; lra).
  assert (0 <= IZR r / IZR d) by (apply Rmult_le_pos; [lra|left; apply Rinv_0_lt_compat; lra]).
  assert (IZR r / IZR d <= 1).
  { apply Rmult_le_reg_r with (IZR d); [lra|]. unfold Rdiv. rewrite Rmult_assoc, Rinv_l by lra. lra. }
  lra.
Qed.
(** Dividing an approximation [p] of [x] from below. *)
Lemma zdiv_approx (x : R) p d E : (0 < d)%Z -> IZR p <= x <= IZR p + E -> IZR (p / d) <= x / IZR d <= IZR (p / d) + 1 + E / IZR d.
Proof.
  intros Hd [A1 A2]. destruct (zdiv_ok p d Hd) as [B1 B2].
  assert (HD : 0 < / IZR d) by (apply Rinv_0_lt_compat, IZR_lt; exact Hd).
  unfold Rdiv in *. split.
  - eapply Rle_trans; [exact B1|]. apply Rmult_le_compat_r; lra.
  - eapply Rle_trans; [apply Rmult_le_compat_r; [lra|exact A2]|]. rewrite Rmult_plus_distr_r. lra.
Qed.

(** Interval from the error. *)
Lemma abs_int x y e : Rabs (x - y) <= e -> y - e <= x <= y + e.
Proof. unfold Rabs. destruct Rcase_abs; lra. Qed.

Fixpoint zfact (n : nat) : Z := match n with O => 1%Z | S m => (Z.of_nat (S m) * zfact m)%Z end.
Lemma zfact_pos n : (0 < zfact n)%Z.
Proof. induction n; cbn [zfact]; lia. Qed.
Lemma zfact_fact n : IZR (zfact n) = INR (fact n).
Proof.
  induction n; [reflexivity|]. cbn [zfact]. change (fact (S n)) with (S n * fact n)%nat.
  rewrite mult_IZR, mult_INR, IHn, (INR_IZR_INZ (S n)). reflexivity.
Qed.

(** ** e *)
Definition einv_terms (n : nat) : Z := zfact n.
Lemma einv_series n :
  sum_f_R0 (fun i => (-1) ^ i * (1 / IZR (zfact i))) (S (2 * n)) <= exp (-1) <=
  sum_f_R0 (fun i => (-1) ^ i * (1 / IZR (zfact i))) (2 * n).
Proof.
  assert (E : forall N, sum_f_R0 (fun i => (-1) ^ i * (1 / IZR (zfact i))) N = sum_f_R0 (tg_alt (fun i => / INR (fact i))) N).
  { intros N. apply sum_eq. intros i _. unfold tg_alt. rewrite zfact_fact. unfold Rdiv. ring. }
  rewrite !E. apply alternated_series_ineq.
  - intros i. apply Rinv_le_contravar; [apply INR_fact_lt_0|]. apply le_INR. apply fact_le. lia.
  - intros eps Heps. destruct (cv_speed_pow_fact 1 eps Heps) as [x H]. exists x. intros k Hk. specialize (H k Hk).
    replace (/ INR (fact k)) with (1 ^ k / INR (fact k)); [exact H|]. rewrite pow1. unfold Rdiv. ring.
  - unfold exp. destruct (exist_exp (-1)) as [l Hl]. simpl. unfold exp_in, infinite_sum in Hl.
    intros eps Heps. destruct (Hl eps Heps) as [N HN]. exists N. intros k Hk. specialize (HN k Hk).
    replace (sum_f_R0 (tg_alt (fun i => / INR (fact i))) k) with (sum_f_R0 (fun i => / INR (fact i) * (-1) ^ i) k); [exact HN|].
    apply sum_eq. intros i _. unfold tg_alt. ring.
Qed.

(** ** The sine and cosine of one *)
Lemma sin1_series n :
  sum_f_R0 (fun i => (-1) ^ i * (1 / IZR (zfact (2 * i + 1)))) (2 * n + 1) <= sin 1 <=
  sum_f_R0 (fun i => (-1) ^ i * (1 / IZR (zfact (2 * i + 1)))) (2 * (n + 1)).
Proof.
  assert (E : forall N, sum_f_R0 (fun i => (-1) ^ i * (1 / IZR (zfact (2 * i + 1)))) N = sin_approx 1 N).
  { intros N. unfold sin_approx. apply sum_eq. intros i _. unfold sin_term. rewrite zfact_fact, pow1. reflexivity. }
  rewrite !E. apply pre_sin_bound; lra.
Qed.
Lemma cos1_series n :
  sum_f_R0 (fun i => (-1) ^ i * (1 / IZR (zfact (2 * i)))) (2 * n + 1) <= cos 1 <=
  sum_f_R0 (fun i => (-1) ^ i * (1 / IZR (zfact (2 * i)))) (2 * (n + 1)).
Proof.
  assert (E : forall N, sum_f_R0 (fun i => (-1) ^ i * (1 / IZR (zfact (2 * i)))) N = cos_approx 1 N).
  { intros N. unfold cos_approx. apply sum_eq. intros i _. unfold cos_term. rewrite zfact_fact, pow1. reflexivity. }
  rewrite !E. apply pre_cos_bound; lra.
Qed.

(** ** pi, by pi/4 = 2 arctan(1/3) + arctan(1/7) *)
Definition atan_den (k : Z) (i : nat) : Z := (Z.of_nat (2 * i + 1) * k ^ Z.of_nat (2 * i + 1))%Z.
Lemma atan_den_pos k i : (0 < k)%Z -> (0 < atan_den k i)%Z.
Proof. intros H. unfold atan_den. apply Z.mul_pos_pos; [lia|]. apply Z.pow_pos_nonneg; lia. Qed.
Lemma atan_den_ok k i : (0 < k)%Z -> Ratan_seq (/ IZR k) i = 1 / IZR (atan_den k i).
Proof.
  intros H. unfold Ratan_seq, atan_den. assert (K : 0 < IZR k) by (apply IZR_lt; exact H).
  rewrite mult_IZR, <- pow_IZR, <- INR_IZR_INZ, pow_inv by lra.
  assert (0 < IZR k ^ (2 * i + 1)) by (apply pow_lt; lra).
  assert (0 < INR (2 * i + 1)) by (apply lt_0_INR; lia). field. lra.
Qed.
Lemma pi_series n :
  let S3 := sum_f_R0 (fun i => (-1) ^ i * (2 / IZR (atan_den 3 i))) in
  let S7 := sum_f_R0 (fun i => (-1) ^ i * (1 / IZR (atan_den 7 i))) in
  S3 (S (2 * n)) + S7 (S (2 * n)) <= PI / 4 <= S3 (2 * n)%nat + S7 (2 * n)%nat.
Proof.
  cbv zeta.
  assert (E : forall N, sum_f_R0 (fun i => (-1) ^ i * (2 / IZR (atan_den 3 i))) N +
    sum_f_R0 (fun i => (-1) ^ i * (1 / IZR (atan_den 7 i))) N = sum_f_R0 (tg_alt PI_2_3_7_tg) N).
  { intros N. rewrite <- sum_plus. apply sum_eq. intros i _. unfold tg_alt, PI_2_3_7_tg.
    rewrite (atan_den_ok 3), (atan_den_ok 7) by lia. unfold Rdiv. ring. }
  rewrite !E. apply PI_2_3_7_ineq.
Qed.

(** ** Terms by successive division *)
(** [chain a d i] is [a / d 1 / d 2 ... / d i], each division rounded down. *)
Fixpoint chain (a : Z) (d : nat -> Z) (i : nat) : Z :=
  match i with O => a | S j => (chain a d j / d i)%Z end.
Fixpoint prods (d : nat -> Z) (i : nat) : Z := match i with O => 1%Z | S j => (prods d j * d i)%Z end.
Lemma prods_pos d i : (forall j, (0 < d j)%Z) -> (0 < prods d i)%Z.
Proof. intros H. induction i; cbn [prods]; [lia|]. specialize (H (S i)). nia. Qed.
Lemma chain_ok a d i : (forall j, (1 < j)%nat -> (2 <= d j)%Z) -> (forall j, (0 < d j)%Z) ->
  IZR (chain a d i) <= IZR a / IZR (prods d i) <= IZR (chain a d i) + (match i with O => 0 | _ => 2 end).
Proof.
  intros H2 H. induction i as [|i IH].
  - cbn [chain prods]. unfold Rdiv. rewrite Rinv_1, Rmult_1_r. lra.
  - cbn [chain prods]. pose proof (H (S i)) as Hd.
    pose proof (prods_pos d i H) as Hp.
    assert (P1 : 0 < IZR (prods d i)) by (apply IZR_lt; exact Hp).
    assert (P2 : 0 < IZR (d (S i))) by (apply IZR_lt; exact Hd).
    destruct (zdiv_approx _ _ (d (S i)) _ Hd IH) as [B1 B2].
    rewrite mult_IZR. replace (IZR a / (IZR (prods d i) * IZR (d (S i)))) with (IZR a / IZR (prods d i) / IZR (d (S i))) by (field; lra).
    split; [exact B1|]. eapply Rle_trans; [exact B2|]. destruct i as [|i].
    + replace (0 / IZR (d 1%nat)) with 0 by (unfold Rdiv; ring). lra.
    + assert (P3 : 2 <= IZR (d (S (S i)))) by (apply IZR_le, H2; lia).
      assert (2 / IZR (d (S (S i))) <= 1).
      { apply Rmult_le_reg_r with (IZR (d (S (S i)))); [lra|]. unfold Rdiv. rewrite Rmult_assoc, Rinv_l by lra. lra. }
      lra.
Qed.
(** The loop that computes the alternating sum of [chain a d i / q i], [q] a divisor. *)
Fixpoint chain_sum (n : nat) (d q : nat -> Z) (i : nat) (p acc : Z) : Z :=
  let t := (p / q i)%Z in
  let acc := (if Nat.even i then acc + t else acc - t)%Z in
  match n with
  | O => acc
  | S m => chain_sum m d q (S i) (p / d (S i)) acc
  end.
Lemma chain_sum_S n a d q i : chain_sum n d q (S i) (chain a d (S i)) (zsum (fun j => chain a d j / q j)%Z i) =
  zsum (fun j => chain a d j / q j)%Z (S i + n).
Proof.
  revert i. induction n as [|n IH]; intros i.
  - rewrite Nat.add_0_r. cbn [chain_sum]. change (zsum (fun j => (chain a d j / q j)%Z) (S i)) with
      (zsum (fun j => (chain a d j / q j)%Z) i + if Nat.even (S i) then chain a d (S i) / q (S i) else - (chain a d (S i) / q (S i)))%Z.
    destruct (Nat.even (S i)); lia.
  - cbn [chain_sum]. replace (S i + S n)%nat with (S (S i) + n)%nat by lia. rewrite <- IH.
    change (chain a d (S (S i))) with (chain a d (S i) / d (S (S i)))%Z. f_equal.
    change (zsum (fun j => (chain a d j / q j)%Z) (S i)) with
      (zsum (fun j => (chain a d j / q j)%Z) i + if Nat.even (S i) then chain a d (S i) / q (S i) else - (chain a d (S i) / q (S i)))%Z.
    destruct (Nat.even (S i)); lia.
Qed.
Lemma chain_sum_ok n a d q : chain_sum (S n) d q 0 a 0 = zsum (fun j => chain a d j / q j)%Z (S n).
Proof. change (S n) with (1 + n)%nat at 2. rewrite <- (chain_sum_S n a d q 0). reflexivity. Qed.

(** Enclosure of an alternating sum of the terms [a / (prods d i * q i)]. *)
Lemma chain_sum_int (U : nat -> R) (B : R) a d q n :
  (forall j, (1 < j)%nat -> (2 <= d j)%Z) -> (forall j, (0 < d j)%Z) -> (forall j, (0 < q j)%Z) ->
  (forall i, U i * B = IZR a / IZR (prods d i) / IZR (q i)) ->
  let z := chain_sum (S n) d q 0 a 0 in
  IZR z - 3 * INR (S (S n)) <= sum_f_R0 (fun i => (-1) ^ i * U i) (S n) * B <= IZR z + 3 * INR (S (S n)).
Proof.
  intros H2 H Hq HU. cbv zeta. rewrite chain_sum_ok. apply abs_int.
  apply (zsum_ok U (fun j => chain a d j / q j)%Z B 3). intros i. rewrite HU.
  assert (C : IZR (chain a d i) <= IZR a / IZR (prods d i) <= IZR (chain a d i) + 2) by (destruct (chain_ok a d i H2 H); destruct i; lra).
  pose proof (zdiv_approx _ _ (q i) 2 (Hq i) C) as [A1 A2].
  split; [exact A1|]. eapply Rle_trans; [exact A2|].
  assert (1 <= IZR (q i)) by (apply IZR_le; specialize (Hq i); lia).
  assert (2 / IZR (q i) <= 2).
  { apply Rmult_le_reg_r with (IZR (q i)); [lra|]. unfold Rdiv. rewrite Rmult_assoc, Rinv_l by lra. lra. }
  lra.
Qed.

Lemma chain_sum_hi (U : nat -> R) B a d q n :
  (forall j, (1 < j)%nat -> (2 <= d j)%Z) -> (forall j, (0 < d j)%Z) -> (forall j, (0 < q j)%Z) ->
  (forall i, U i * IZR B = IZR a / IZR (prods d i) / IZR (q i)) ->
  sum_f_R0 (fun i => (-1) ^ i * U i) (S n) * IZR B <= IZR (chain_sum (S n) d q 0 a 0 + 3 * Z.of_nat (S (S n))).
Proof. intros. rewrite plus_IZR, mult_IZR, <- INR_IZR_INZ. eapply (chain_sum_int U (IZR B) a d q n); assumption. Qed.
Lemma chain_sum_lo (U : nat -> R) B a d q n :
  (forall j, (1 < j)%nat -> (2 <= d j)%Z) -> (forall j, (0 < d j)%Z) -> (forall j, (0 < q j)%Z) ->
  (forall i, U i * IZR B = IZR a / IZR (prods d i) / IZR (q i)) ->
  IZR (chain_sum (S n) d q 0 a 0 - 3 * Z.of_nat (S (S n))) <= sum_f_R0 (fun i => (-1) ^ i * U i) (S n) * IZR B.
Proof. intros. rewrite minus_IZR, mult_IZR, <- INR_IZR_INZ. eapply (chain_sum_int U (IZR B) a d q n); assumption. Qed.

(** ** The digits of a number enclosed in fixed point *)
Lemma digits_of (x : R) (lo hi B M q : Z) k : (0 < M)%Z -> (B = M * 2 ^ Z.of_nat k)%Z ->
  IZR lo <= x * IZR B <= IZR hi -> (q * M <= lo)%Z -> (hi < (q + 1) * M)%Z ->
  IZR q <= x * 2 ^ k < IZR q + 1.
Proof.
  intros HM -> [H1 H2] L1 L2. apply IZR_le in L1. apply IZR_lt in L2. apply IZR_lt in HM.
  rewrite mult_IZR in *. rewrite plus_IZR in *. rewrite <- pow_IZR in *.
  split; [apply Rmult_le_reg_l with (IZR M)|apply Rmult_lt_reg_l with (IZR M)]; lra.
Qed.

(** ** pi enclosed *)
Definition pi_terms : nat := 358. (* S (S _) of them at least, even *)
Definition pi_scale : Z := (21 * 2 ^ 1100)%Z.
Definition dconst (c : Z) (i : nat) : Z := c.
Definition qodd (i : nat) : Z := Z.of_nat (2 * i + 1).
Definition pi_sum (n : nat) (e : Z) : Z :=
  (4 * ((chain_sum n (dconst 9) qodd 0 (14 * 2 ^ 1100) 0 + e) + (chain_sum n (dconst 49) qodd 0 (3 * 2 ^ 1100) 0 + e)))%Z.

Lemma prods_const c i : prods (dconst c) i = (c ^ Z.of_nat i)%Z.
Proof. induction i; [reflexivity|]. rewrite Nat2Z.inj_succ, Z.pow_succ_r by lia. cbn [prods]. unfold dconst at 2. rewrite IHi. ring. Qed.

Lemma atan_term c k m i : (0 < k)%Z -> (0 <= m)%Z ->
  IZR c / IZR (atan_den k i) * IZR (k * m) = IZR (c * m) / IZR (prods (dconst (k * k)) i) / IZR (qodd i).
Proof.
  intros H Hm. rewrite prods_const. unfold atan_den, qodd.
  rewrite !mult_IZR, <- !pow_IZR, mult_IZR.
  replace (2 * i + 1)%nat with (S (i + i)) at 2 by lia. cbn [pow]. rewrite pow_add, Rpow_mult_distr.
  assert (K : 0 < IZR k) by (apply IZR_lt; exact H).
  assert (0 < IZR k ^ i) by (apply pow_lt; lra).
  assert (0 < IZR (Z.of_nat (2 * i + 1))) by (apply IZR_lt; lia). field. lra.
Qed.

Lemma pi_combine (p s a b c d : R) (za zb zc zd : Z) : 0 < s ->
  a + b <= p / 4 -> p / 4 <= c + d ->
  IZR za <= a * s -> IZR zb <= b * s -> c * s <= IZR zc -> d * s <= IZR zd ->
  IZR (4 * (za + zb)) <= p * s <= IZR (4 * (zc + zd)).
Proof.
  intros Hs H1 H2 A B C D. rewrite !mult_IZR, !plus_IZR.
  apply (Rmult_le_compat_r s) in H1; [|lra]. apply (Rmult_le_compat_r s) in H2; [|lra]. split; lra.
Qed.
Lemma pi_enclosed : IZR (pi_sum (S (S (S pi_terms))) (-1086)) <= PI * IZR pi_scale <= IZR (pi_sum (S (S pi_terms)) 1083).
Proof.
  pose proof (pi_series 180) as [HL HU]. change (S (2 * 180)) with 361%nat in HL. change (2 * 180)%nat with 360%nat in HU.
  unfold pi_terms, pi_sum.
  assert (P : 0 < IZR pi_scale) by (apply IZR_lt; reflexivity).
  assert (D9 : forall j, (1 < j)%nat -> (2 <= dconst 9 j)%Z) by (intros; unfold dconst; lia).
  assert (D49 : forall j, (1 < j)%nat -> (2 <= dconst 49 j)%Z) by (intros; unfold dconst; lia).
  assert (D9' : forall j, (0 < dconst 9 j)%Z) by (intros; unfold dconst; lia).
  assert (D49' : forall j, (0 < dconst 49 j)%Z) by (intros; unfold dconst; lia).
  assert (Q : forall j, (0 < qodd j)%Z) by (intros; unfold qodd; lia).
  assert (U3 : forall i, 2 / IZR (atan_den 3 i) * IZR pi_scale = IZR (14 * 2 ^ 1100) / IZR (prods (dconst 9) i) / IZR (qodd i)).
  { intros i. change pi_scale with (3 * (7 * 2 ^ 1100))%Z. rewrite (atan_term 2 3) by lia. reflexivity. }
  assert (U7 : forall i, 1 / IZR (atan_den 7 i) * IZR pi_scale = IZR (3 * 2 ^ 1100) / IZR (prods (dconst 49) i) / IZR (qodd i)).
  { intros i. change pi_scale with (7 * (3 * 2 ^ 1100))%Z. rewrite (atan_term 1 7) by lia. reflexivity. }
  assert (E1 : (-1086 = - (3 * Z.of_nat (S (S 360))))%Z) by reflexivity.
  assert (E2 : (1083 = 3 * Z.of_nat (S (S 359)))%Z) by reflexivity.
  refine (pi_combine _ _ _ _ _ _ _ _ _ _ P HL HU _ _ _ _); rewrite ?E1, ?E2, ?Z.add_opp_r;
    apply chain_sum_lo || apply chain_sum_hi; assumption.
Qed.

(** ** e enclosed *)
Definition einv_scale : Z := (2 ^ 1000)%Z.
Definition dnat (i : nat) : Z := Z.max 1 (Z.of_nat i).
Definition qone (i : nat) : Z := 1%Z.
Lemma prods_nat i : prods dnat i = zfact i.
Proof. induction i; [reflexivity|]. cbn [prods zfact]. rewrite IHi. unfold dnat. rewrite Z.max_r by lia. ring. Qed.
Definition einv_lo : Z := (chain_sum 201 dnat qone 0 einv_scale 0 - 606)%Z.
Definition einv_hi : Z := (chain_sum 200 dnat qone 0 einv_scale 0 + 603)%Z.
Lemma einv_enclosed : IZR einv_lo <= exp (-1) * IZR einv_scale <= IZR einv_hi.
Proof.
  pose proof (einv_series 100) as [HL HU]. change (S (2 * 100)) with 201%nat in HL. change (2 * 100)%nat with 200%nat in HU.
  assert (P : 0 < IZR einv_scale) by (apply IZR_lt; reflexivity).
  assert (D : forall j, (1 < j)%nat -> (2 <= dnat j)%Z) by (intros; unfold dnat; lia).
  assert (D' : forall j, (0 < dnat j)%Z) by (intros; unfold dnat; lia).
  assert (Q : forall j, (0 < qone j)%Z) by (intros; unfold qone; lia).
  assert (U : forall i, 1 / IZR (zfact i) * IZR einv_scale = IZR einv_scale / IZR (prods dnat i) / IZR (qone i)).
  { intros i. rewrite prods_nat. unfold qone. assert (0 < IZR (zfact i)) by (apply IZR_lt, zfact_pos). field. lra. }
  apply (Rmult_le_compat_r (IZR einv_scale)) in HL; [|lra]. apply (Rmult_le_compat_r (IZR einv_scale)) in HU; [|lra].
  split; [eapply Rle_trans; [|exact HL]|eapply Rle_trans; [exact HU|]].
  - unfold einv_lo. change 606%Z with (3 * Z.of_nat (S (S 200)))%Z. apply chain_sum_lo; assumption.
  - unfold einv_hi. change 603%Z with (3 * Z.of_nat (S (S 199)))%Z. apply chain_sum_hi; assumption.
Qed.

Lemma inverse_of (y : R) (lo hi B q T : Z) : (0 < B)%Z -> (0 < lo)%Z -> IZR lo <= y * IZR B <= IZR hi ->
  (q * hi <= T * B)%Z -> (T * B <= (q + 1) * lo)%Z -> (0 <= q)%Z ->
  IZR q <= / y * IZR T <= IZR (q + 1).
Proof.
  intros HB Hlo [H1 H2] L1 L2 Hq. apply IZR_le in L1. apply IZR_le in L2. rewrite !mult_IZR in *.
  apply IZR_lt in HB. apply IZR_lt in Hlo. apply IZR_le in Hq.
  assert (Hy : 0 < y). { apply Rmult_lt_reg_r with (IZR B); [exact HB|]. lra. }
  assert (Hq1 : 0 <= IZR (q + 1)) by (rewrite plus_IZR; lra).
  split; (apply Rmult_le_reg_l with (y * IZR B); [apply Rmult_lt_0_compat; assumption|]).
  - replace (y * IZR B * (/ y * IZR T)) with (IZR T * IZR B) by (field; lra).
    eapply Rle_trans; [apply Rmult_le_compat_r; [exact Hq|exact H2]|]. lra.
  - replace (y * IZR B * (/ y * IZR T)) with (IZR T * IZR B) by (field; lra).
    eapply Rle_trans; [exact L2|]. rewrite Rmult_comm. apply Rmult_le_compat_r; assumption.
Qed.
Definition e_scale : Z := (2 ^ 960)%Z.
Definition e_lo : Z := (e_scale * einv_scale / einv_hi)%Z.
Definition inv_check (lo hi q t : Z) : bool :=
  ((0 <? lo)%Z && (q * hi <=? t)%Z && (t <=? (q + 1) * lo)%Z && (0 <=? q)%Z)%bool.
Lemma inv_check_ok lo hi q t : inv_check lo hi q t = true ->
  (0 < lo)%Z /\ (q * hi <= t)%Z /\ (t <= (q + 1) * lo)%Z /\ (0 <= q)%Z.
Proof. unfold inv_check. rewrite !Bool.andb_true_iff, Z.ltb_lt, !Z.leb_le. tauto. Qed.
Lemma e_check_ok : inv_check einv_lo einv_hi e_lo (e_scale * einv_scale) = true.
Proof. vm_compute. reflexivity. Qed.
Lemma e_enclosed : IZR e_lo <= exp 1 * IZR e_scale <= IZR (e_lo + 1).
Proof.
  destruct (inv_check_ok _ _ _ _ e_check_ok) as [C1 [C2 [C3 C4]]].
  replace (exp 1) with (/ exp (-1)).
  - exact (inverse_of _ einv_lo einv_hi einv_scale e_lo e_scale eq_refl C1 einv_enclosed C2 C3 C4).
  - change (-1) with (- (1)). rewrite exp_Ropp, Rinv_inv. reflexivity.
Qed.

(** ** The sines and cosines of the integers *)
Definition sc_scale : Z := (2 ^ 128)%Z.
Definition dsin (i : nat) : Z := Z.max 1 (Z.of_nat (2 * i) * Z.of_nat (2 * i + 1)).
Definition dcos (i : nat) : Z := Z.max 1 (Z.of_nat (2 * i - 1) * Z.of_nat (2 * i)).
Lemma prods_sin i : prods dsin i = zfact (2 * i + 1).
Proof.
  induction i; [reflexivity|]. cbn [prods]. rewrite IHi. unfold dsin.
  replace (2 * S i + 1)%nat with (S (S (2 * i + 1))) by lia. cbn [zfact]. rewrite Z.max_r by nia.
  replace (2 * S i)%nat with (S (2 * i + 1)) by lia. ring.
Qed.
Lemma prods_cos i : prods dcos i = zfact (2 * i).
Proof.
  induction i; [reflexivity|]. cbn [prods]. rewrite IHi. unfold dcos.
  replace (2 * S i - 1)%nat with (S (2 * i)) by lia.
  replace (2 * S i)%nat with (S (S (2 * i))) by lia. cbn [zfact]. rewrite Z.max_r by nia. ring.
Qed.
Definition sin1_z : Z := chain_sum 22 dsin qone 0 sc_scale 0.
Definition cos1_z : Z := chain_sum 22 dcos qone 0 sc_scale 0.
Definition sc_err : Z := 80%Z.

Lemma one_series (x : R) (den : nat -> Z) (d : nat -> Z) :
  (forall j, (1 < j)%nat -> (2 <= d j)%Z) -> (forall j, (0 < d j)%Z) -> (forall i, prods d i = den i) -> (forall i, (0 < den i)%Z) ->
  sum_f_R0 (fun i => (-1) ^ i * (1 / IZR (den i))) 21 <= x <= sum_f_R0 (fun i => (-1) ^ i * (1 / IZR (den i))) 22 ->
  (Z.abs (chain_sum 22 d qone 0 sc_scale 0 - chain_sum 21 d qone 0 sc_scale 0) <= 2)%Z ->
  Rabs (x * IZR sc_scale - IZR (chain_sum 22 d qone 0 sc_scale 0)) <= IZR sc_err.
Proof.
  intros D D' HP Hden [HL HU] Hc.
  assert (P : 0 < IZR sc_scale) by (apply IZR_lt; reflexivity).
  assert (Q : forall j, (0 < qone j)%Z) by (intros; unfold qone; lia).
  assert (U : forall i, 1 / IZR (den i) * IZR sc_scale = IZR sc_scale / IZR (prods d i) / IZR (qone i)).
  { intros i. rewrite HP. unfold qone. assert (0 < IZR (den i)) by (apply IZR_lt, Hden). field. lra. }
  apply (Rmult_le_compat_r (IZR sc_scale)) in HL; [|lra]. apply (Rmult_le_compat_r (IZR sc_scale)) in HU; [|lra].
  pose proof (chain_sum_lo _ _ _ _ _ 20 D D' Q U) as A1. pose proof (chain_sum_hi _ _ _ _ _ 21 D D' Q U) as A2.
  change (3 * Z.of_nat (S (S 20)))%Z with 66%Z in A1. change (3 * Z.of_nat (S (S 21)))%Z with 69%Z in A2.
  revert Hc A1 A2 HL HU. generalize (chain_sum 22 d qone 0 sc_scale 0) (chain_sum 21 d qone 0 sc_scale 0).
  generalize (IZR sc_scale). intros b z z' Hc A1 A2 HL HU. rewrite minus_IZR in A1. rewrite plus_IZR in A2.
  assert (IZR z <= IZR z' + 2) by (rewrite <- plus_IZR; apply IZR_le; lia).
  assert (IZR z' <= IZR z + 2) by (rewrite <- plus_IZR; apply IZR_le; lia).
  unfold sc_err. apply Rabs_le. split; lra.
Qed.
Lemma sin1_z_ok : Rabs (sin 1 * IZR sc_scale - IZR sin1_z) <= IZR sc_err.
Proof.
  apply (one_series (sin 1) (fun i => zfact (2 * i + 1)) dsin).
  - intros j Hj. unfold dsin. nia.
  - intros j. unfold dsin. lia.
  - apply prods_sin.
  - intros. apply zfact_pos.
  - pose proof (sin1_series 10) as H. exact H.
  - vm_compute. discriminate.
Qed.
Lemma cos1_z_ok : Rabs (cos 1 * IZR sc_scale - IZR cos1_z) <= IZR sc_err.
Proof.
  apply (one_series (cos 1) (fun i => zfact (2 * i)) dcos).
  - intros j Hj. unfold dcos. nia.
  - intros j. unfold dcos. lia.
  - apply prods_cos.
  - intros. apply zfact_pos.
  - pose proof (cos1_series 10) as H. exact H.
  - vm_compute. discriminate.
Qed.

(** Approximate [(sin k, cos k)] by [(s, c)] with error [e]. *)
Definition sc_ok (k : nat) (p : Z * Z * Z) : Prop :=
  let '(s, c, e) := p in
  Rabs (sin (INR k) * IZR sc_scale - IZR s) <= IZR e /\ Rabs (cos (INR k) * IZR sc_scale - IZR c) <= IZR e.
Definition sc_next (s1 c1 : Z) (p : Z * Z * Z) : Z * Z * Z :=
  let '(s, c, e) := p in
  ((s * c1 + c * s1) / sc_scale, (c * c1 - s * s1) / sc_scale, 2 * (e + sc_err + 1) + 1)%Z.

Lemma prod_err (x y b e f : R) (s c : R) : 0 < b -> 0 <= e -> 0 <= f -> e * f <= b ->
  Rabs x <= 1 -> Rabs y <= 1 -> Rabs (x * b - s) <= e -> Rabs (y * b - c) <= f ->
  Rabs (x * y * b - s * c / b) <= e + f + 1.
Proof.
  intros Hb He Hf Hef Hx Hy Hs Hc.
  replace (x * y * b - s * c / b) with ((x * b - s) * y + x * (y * b - c) + - ((x * b - s) * (y * b - c) * / b)) by (field; lra).
  eapply Rle_trans; [apply Rabs_triang|]. apply Rplus_le_compat; [eapply Rle_trans; [apply Rabs_triang|apply Rplus_le_compat]|].
  - rewrite Rabs_mult. replace e with (e * 1) by ring. apply Rmult_le_compat; auto using Rabs_pos.
  - rewrite Rabs_mult. replace f with (1 * f) by ring. apply Rmult_le_compat; auto using Rabs_pos.
  - rewrite Rabs_Ropp, !Rabs_mult. rewrite (Rabs_pos_eq (/ b)) by (left; apply Rinv_0_lt_compat; exact Hb).
    apply Rmult_le_reg_r with b; [exact Hb|]. rewrite Rmult_assoc, Rinv_l, Rmult_1_r, Rmult_1_l by lra.
    eapply Rle_trans; [|exact Hef]. apply Rmult_le_compat; auto using Rabs_pos.
Qed.
Lemma floor_err (x : R) (z d : Z) (E : R) : (0 < d)%Z -> Rabs (x - IZR z / IZR d) <= E -> Rabs (x - IZR (z / d)) <= E + 1.
Proof.
  intros Hd H. destruct (zdiv_ok z d Hd) as [A B].
  apply Rabs_le. unfold Rabs in H. destruct Rcase_abs in H; split; lra.
Qed.
Lemma abs_sin_1 x : Rabs (sin x) <= 1.
Proof. destruct (SIN_bound x). apply Rabs_le. split; assumption. Qed.
Lemma abs_cos_1 x : Rabs (cos x) <= 1.
Proof. destruct (COS_bound x). apply Rabs_le. split; assumption. Qed.

Lemma sc_next_ok k p : (0 <= snd p)%Z -> (snd p * sc_err <= sc_scale)%Z ->
  sc_ok k p -> sc_ok (S k) (sc_next sin1_z cos1_z p).
Proof.
  destruct p as [[s c] e]. cbn [snd sc_ok sc_next]. intros He Hee [Hs Hc].
  apply IZR_le in He. apply IZR_le in Hee. rewrite mult_IZR in Hee.
  pose proof sin1_z_ok as S1. pose proof cos1_z_ok as C1.
  assert (P : (0 < sc_scale)%Z) by reflexivity. pose proof (IZR_lt _ _ P) as PR.
  assert (F : 0 <= IZR sc_err) by (apply IZR_le; discriminate).
  revert Hee Hs Hc S1 C1 P PR F. generalize sc_scale sc_err sin1_z cos1_z.
  intros b f s1 c1 Hee Hs Hc S1 C1 P PR F.
  rewrite S_INR, sin_plus, cos_plus.
  pose proof (abs_sin_1 (INR k)) as BS. pose proof (abs_cos_1 (INR k)) as BC.
  pose proof (abs_sin_1 1) as BS1. pose proof (abs_cos_1 1) as BC1.
  pose proof (prod_err _ _ _ _ _ _ _ PR He F Hee BS BC1 Hs C1) as Q1.
  pose proof (prod_err _ _ _ _ _ _ _ PR He F Hee BC BS1 Hc S1) as Q2.
  pose proof (prod_err _ _ _ _ _ _ _ PR He F Hee BC BC1 Hc C1) as Q3.
  pose proof (prod_err _ _ _ _ _ _ _ PR He F Hee BS BS1 Hs S1) as Q4.
  rewrite plus_IZR, mult_IZR, !plus_IZR. split; (apply floor_err; [exact P|]).
  - rewrite plus_IZR, !mult_IZR. unfold Rdiv in *. rewrite !Rmult_plus_distr_r.
    apply Rabs_le. unfold Rabs in Q1, Q2. destruct Rcase_abs in Q1; destruct Rcase_abs in Q2; split; lra.
  - rewrite minus_IZR, !mult_IZR. unfold Rdiv in *. rewrite !Rmult_minus_distr_r.
    apply Rabs_le. unfold Rabs in Q3, Q4. destruct Rcase_abs in Q3; destruct Rcase_abs in Q4; split; lra.
Qed.

Definition sc_start : Z * Z * Z := (sin1_z, cos1_z, sc_err).
Lemma sc_start_ok : sc_ok 1 sc_start.
Proof. unfold sc_start, sc_ok. change (INR 1) with 1. exact (conj sin1_z_ok cos1_z_ok). Qed.

(** [k <= 2^32 |sin i| < k + 1] checked on the approximation. *)
Definition sin_check (p : Z * Z * Z) (k : N) : bool :=
  let '(s, c, e) := p in
  ((0 <=? e)%Z && (e * sc_err <=? sc_scale)%Z &&
   (Z.of_N k * 2 ^ 96 + e <=? Z.abs s)%Z && (Z.abs s + e <? (Z.of_N k + 1) * 2 ^ 96)%Z)%bool.
Lemma sin_check_ok i p k : sin_check p k = true -> sc_ok i p ->
  IZR (Z.of_N k) <= 2 ^ 32 * Rabs (sin (INR i)) < IZR (Z.of_N k) + 1.
Proof.
  destruct p as [[s c] e]. unfold sin_check, sc_ok. rewrite !Bool.andb_true_iff, Z.ltb_lt, !Z.leb_le.
  intros [[[_ _] H1] H2] [Hs _]. apply IZR_le in H1. apply IZR_lt in H2.
  rewrite plus_IZR in H1, H2. rewrite mult_IZR in H1, H2. rewrite plus_IZR in H2. rewrite abs_IZR in H1, H2.
  change sc_scale with (2 ^ Z.of_nat 32 * 2 ^ Z.of_nat 96)%Z in Hs. rewrite mult_IZR, <- !pow_IZR in Hs.
  change (2 ^ 96)%Z with (2 ^ Z.of_nat 96)%Z in H1, H2. rewrite <- pow_IZR in H1, H2.
  assert (B : 0 < 2 ^ 96) by (apply pow_lt; lra). revert H1 H2 Hs B. generalize (2 ^ 96). intros b H1 H2 Hs B.
  pose proof (Rabs_triang_inv2 (sin (INR i) * (2 ^ 32 * b)) (IZR s)) as T.
  assert (G : Rabs (sin (INR i) * (2 ^ 32 * b)) = Rabs (sin (INR i)) * 2 ^ 32 * b).
  { rewrite !Rabs_mult, (Rabs_pos_eq b) by lra. rewrite (Rabs_pos_eq (2 ^ 32)) by (apply pow_le; lra). ring. }
  rewrite G in T. assert (T' := Rle_trans _ _ _ T Hs). clear T G Hs.
  rewrite (Rmult_comm (2 ^ 32)). revert T'. generalize (Rabs (IZR s)) (Rabs (sin (INR i)) * 2 ^ 32) (IZR e) (IZR (Z.of_N k)) H1 H2.
  intros a x f n L1 L2 T.
  split; [apply Rmult_le_reg_r with b|apply Rmult_lt_reg_r with b]; try exact B;
   unfold Rabs in T; destruct Rcase_abs in T; lra.
Qed.

(** A list of table entries, for the arguments [i], [i + 1], ... *)
Fixpoint sin_checks (s1 c1 : Z) (p : Z * Z * Z) (l : list N) : bool :=
  match l with
  | [] => true
  | k :: t => (sin_check p k && sin_checks s1 c1 (sc_next s1 c1 p) t)%bool
  end.
Lemma sin_checks_ok l : forall i p, sin_checks sin1_z cos1_z p l = true -> sc_ok i p -> forall j, (j < length l)%nat ->
  IZR (Z.of_N (nth j l 0%N)) <= 2 ^ 32 * Rabs (sin (INR (i + j))) < IZR (Z.of_N (nth j l 0%N)) + 1.
Proof.
  induction l as [|k l IH]; intros i p H Hp j Hj; cbn [length] in Hj; [lia|].
  cbn [sin_checks] in H. apply Bool.andb_true_iff in H. destruct H as [H1 H2]. destruct j as [|j].
  - rewrite Nat.add_0_r. cbn [nth]. apply (sin_check_ok i p); assumption.
  - cbn [nth]. replace (i + S j)%nat with (S i + j)%nat by lia. apply (IH (S i) (sc_next sin1_z cos1_z p)).
    + exact H2.
    + apply sc_next_ok; [| |exact Hp]; destruct p as [[s c] e]; unfold sin_check in H1; rewrite !Bool.andb_true_iff in H1;
        destruct H1 as [[[A B] _] _]; apply Z.leb_le; assumption.
    + lia.
Qed.

(** ** The words of the binary expansion of a number *)
(** Word number [i] (from zero) of the fractional part of [x] cut into words of [w] bits. *)
Definition frac_word (x : R) (w i : nat) (v : N) : Prop :=
  exists q : Z, IZR q <= x * 2 ^ (w * (i + 1)) < IZR q + 1 /\ Z.of_N v = (q mod 2 ^ Z.of_nat w)%Z.

Definition word_check (lo hi : Z) (P w i : nat) (v : N) : bool :=
  ((w * (i + 1) <=? P)%nat &&
   let q := Z.shiftr lo (Z.of_nat (P - w * (i + 1))) in
   (q =? Z.shiftr hi (Z.of_nat (P - w * (i + 1))))%Z && (Z.of_N v =? Z.land q (Z.ones (Z.of_nat w)))%Z)%bool.
Lemma word_check_ok x lo hi P w i v : IZR lo <= x * IZR (2 ^ Z.of_nat P) <= IZR hi ->
  word_check lo hi P w i v = true -> frac_word x w i v.
Proof.
  intros H C. unfold word_check in C. cbv zeta in C. rewrite !Bool.andb_true_iff in C. destruct C as [C0 [C1 C2]].
  apply Nat.leb_le in C0. apply Z.eqb_eq in C1, C2.
  exists (Z.shiftr lo (Z.of_nat (P - w * (i + 1)))). split.
  - set (m := (P - w * (i + 1))%nat) in *.
    apply (digits_of x lo hi (2 ^ Z.of_nat P) (2 ^ Z.of_nat m)).
    + apply Z.pow_pos_nonneg; lia.
    + rewrite <- Z.pow_add_r by lia. f_equal. lia.
    + exact H.
    + rewrite Z.shiftr_div_pow2 by lia. pose proof (Z.mul_div_le lo (2 ^ Z.of_nat m) ltac:(apply Z.pow_pos_nonneg; lia)). lia.
    + rewrite C1, Z.shiftr_div_pow2 by lia. pose proof (Z.mul_succ_div_gt hi (2 ^ Z.of_nat m) ltac:(apply Z.pow_pos_nonneg; lia)). lia.
  - rewrite C2, Z.land_ones by lia. reflexivity.
Qed.

Lemma frac_word_unique x w i v v' : frac_word x w i v -> frac_word x w i v' -> v = v'.
Proof.
  intros [q [[A1 A2] E]] [q' [[B1 B2] E']].
  assert (q < q' + 1)%Z by (apply lt_IZR; rewrite plus_IZR; lra).
  assert (q' < q + 1)%Z by (apply lt_IZR; rewrite plus_IZR; lra).
  assert (q = q') by lia. subst. apply N2Z.inj. congruence.
Qed.
