(** * Keccak-p and Ascon-p are injective. *)
From Verif Require Import Base Lemmas WordLemmas SpecCommon KeccakSpec Ascon AsconSpec Inj.
From Coq Require Import ZArith Lia Bool Btauto.

(** ** States and lanes *)
Definition kstate (A : list N) : Prop := length A = 25%nat /\ Forall (word 64) A.
Lemma of_lanes_length f : length (of_lanes f) = 25%nat.
Proof. reflexivity. Qed.
Lemma lane_of f x y : (x < 5)%nat -> (y < 5)%nat -> lane (of_lanes f) x y = f x y.
Proof.
  intros Hx Hy. unfold lane, of_lanes.
  rewrite (nth_indep _ 0 (f (0 mod 5) (0 / 5))%nat) by (rewrite map_length, seq_length; lia).
  rewrite (map_nth (fun i => f (i mod 5) (i / 5))%nat), seq_nth by lia. cbn [Nat.add].
  replace (5 * y + x)%nat with (x + y * 5)%nat by lia.
  rewrite Nat.mod_add, Nat.mod_small, Nat.div_add, Nat.div_small by lia. reflexivity.
Qed.
Lemma lanes_ext A B : length A = 25%nat -> length B = 25%nat ->
  (forall x y, (x < 5)%nat -> (y < 5)%nat -> lane A x y = lane B x y) -> A = B.
Proof.
  intros LA LB H. apply (nth_ext A B 0 0); [lia|]. intros i Hi. rewrite LA in Hi.
  specialize (H (i mod 5) (i / 5))%nat. unfold lane in H.
  pose proof (Nat.div_mod i 5 ltac:(lia)) as D. rewrite <- D in H.
  apply H; [apply Nat.mod_upper_bound; lia|]. pose proof (Nat.mod_upper_bound i 5 ltac:(lia)). lia.
Qed.
Lemma lane_word A x y : kstate A -> (x < 5)%nat -> (y < 5)%nat -> word 64 (lane A x y).
Proof. intros [L H] Hx Hy. unfold lane. rewrite Forall_forall in H. apply H, nth_In. lia. Qed.
Lemma of_lanes_state f : (forall x y, (x < 5)%nat -> (y < 5)%nat -> word 64 (f x y)) -> kstate (of_lanes f).
Proof.
  intros H. split; [reflexivity|]. unfold of_lanes. apply Forall_forall. intros v Hv. apply in_map_iff in Hv.
  destruct Hv as (i & <- & Hi). apply in_seq in Hi. apply H; [apply Nat.mod_upper_bound; lia|].
  pose proof (Nat.div_mod i 5 ltac:(lia)). pose proof (Nat.mod_upper_bound i 5 ltac:(lia)). lia.
Qed.

(** ** theta *)

(** (1 + x + x^4 z)^192 = 1: a parity plane in the kernel is zero. *)
Section ThetaKernel.
  Variable p : Z -> Z -> bool.
  Hypothesis px : forall x z, p (x + 5)%Z z = p x z.
  Hypothesis pz : forall x z, p x (z + 64)%Z = p x z.
  Lemma theta_double s t : (forall x z, xorb (xorb (p x z) (p (x - s) z)) (p (x + s) (z - t)) = false)%Z ->
    (forall x z, xorb (xorb (p x z) (p (x - 2 * s) z)) (p (x + 2 * s) (z - 2 * t)) = false)%Z.
  Proof.
    intros H x z. pose proof (H x z) as H0. pose proof (H (x - s)%Z z) as H1. pose proof (H (x + s)%Z (z - t)%Z) as H2.
    replace (x - s - s)%Z with (x - 2 * s)%Z in H1 by lia. replace (x - s + s)%Z with x in H1 by lia.
    replace (x + s - s)%Z with x in H2 by lia. replace (x + s + s)%Z with (x + 2 * s)%Z in H2 by lia.
    replace (z - t - t)%Z with (z - 2 * t)%Z in H2 by lia.
    destruct (p x z), (p (x - s)%Z z), (p (x + s)%Z (z - t)%Z), (p (x - 2 * s)%Z z), (p x (z - t)%Z), (p (x + 2 * s)%Z (z - 2 * t)%Z);
      cbn in *; congruence.
  Qed.
  Lemma theta_kernel : (forall x z, xorb (xorb (p x z) (p (x - 1) z)) (p (x + 1) (z - 1)) = false)%Z -> forall x z, p x z = false.
  Proof.
    intros H. do 6 (pose proof (theta_double _ _ H) as H'; clear H; rename H' into H).
    assert (X : forall k x z, p (x + k * 5)%Z z = p x z) by (intros k x z; exact (period_mult (fun x => p x z) 5 (fun x => px x z) k x)).
    assert (Z : forall x z, p x (z - 64)%Z = p x z) by (intros x z; rewrite <- (pz x (z - 64)); f_equal; lia).
    assert (K : forall x z, xorb (xorb (p x z) (p (x + 1)%Z z)) (p (x + 4)%Z z) = false).
    { intros x z. specialize (H x z). 
      replace (x - 2 * (2 * (2 * (2 * (2 * (2 * 1))))))%Z with (x + 1 + (-13) * 5)%Z in H by lia.
      replace (x + 2 * (2 * (2 * (2 * (2 * (2 * 1))))))%Z with (x + 4 + 12 * 5)%Z in H by lia.
      replace (z - 2 * (2 * (2 * (2 * (2 * (2 * 1))))))%Z with (z - 64)%Z in H by lia. rewrite !X, Z in H. exact H. }
    intros x z. pose proof (K x z) as K0. pose proof (K (x + 1)%Z z) as K1. pose proof (K (x + 2)%Z z) as K2.
    pose proof (K (x + 3)%Z z) as K3. pose proof (K (x + 4)%Z z) as K4.
    replace (x + 1 + 1)%Z with (x + 2)%Z in K1 by lia. replace (x + 1 + 4)%Z with (x + 1 * 5)%Z in K1 by lia.
    replace (x + 2 + 1)%Z with (x + 3)%Z in K2 by lia. replace (x + 2 + 4)%Z with (x + 1 + 1 * 5)%Z in K2 by lia.
    replace (x + 3 + 1)%Z with (x + 4)%Z in K3 by lia. replace (x + 3 + 4)%Z with (x + 2 + 1 * 5)%Z in K3 by lia.
    replace (x + 4 + 1)%Z with (x + 1 * 5)%Z in K4 by lia. replace (x + 4 + 4)%Z with (x + 3 + 1 * 5)%Z in K4 by lia.
    rewrite !X in K1, K2, K3, K4.
    destruct (p x z), (p (x + 1)%Z z), (p (x + 2)%Z z), (p (x + 3)%Z z), (p (x + 4)%Z z); cbn in *; congruence.
  Qed.
End ThetaKernel.

Definition xi (x : Z) : nat := Z.to_nat (x mod 5).
Lemma xi_lt x : (xi x < 5)%nat.
Proof. unfold xi. pose proof (Z.mod_pos_bound x 5 ltac:(lia)). lia. Qed.
Lemma xi_add x k : (0 <= k)%Z -> xi (x + k) = ((xi x + Z.to_nat k) mod 5)%nat.
Proof.
  intros Hk. unfold xi. pose proof (Z.mod_pos_bound x 5 ltac:(lia)). pose proof (Z.mod_pos_bound (x + k) 5 ltac:(lia)).
  apply Nat2Z.inj. rewrite Nat2Z.inj_mod, Nat2Z.inj_add, !Z2Nat.id by lia. rewrite Zplus_mod_idemp_l. reflexivity.
Qed.
Lemma xorb_move a b u v : xorb a u = xorb b v -> xorb a b = xorb u v.
Proof. destruct a, b, u, v; cbn; congruence. Qed.
Lemma theta_inj : inj_on kstate theta.
Proof.
  intros A B HA HB E.
  pose (d := fun x y z => xorb (cb 64 (lane A (xi x) y) z) (cb 64 (lane B (xi x) y) z)).
  pose (p := fun x z => xorb (xorb (xorb (xorb (d x 0%nat z) (d x 1%nat z)) (d x 2%nat z)) (d x 3%nat z)) (d x 4%nat z)).
  assert (Ed : forall x y z, (y < 5)%nat -> d x y z = xorb (p (x - 1)%Z z) (p (x + 1)%Z (z - 1)%Z)).
  { intros x y z Hy. pose proof (f_equal (fun S => lane S (xi x) y) E) as F. cbv beta in F. unfold theta in F. cbv zeta in F.
    rewrite !lane_of in F by auto using xi_lt. apply (f_equal (fun v => cb 64 v z)) in F. rewrite !cb_xor in F.
    assert (W : forall S x y, kstate S -> (y < 5)%nat -> word 64 (lane S (x mod 5)%nat y))
      by (intros S x' y' HS Hy'; apply lane_word; auto; apply Nat.mod_upper_bound; lia).
    assert (W5 : forall S x, kstate S -> word 64 (N.lxor (N.lxor (N.lxor (N.lxor (lane S (x mod 5) 0) (lane S (x mod 5) 1)) (lane S (x mod 5) 2)) (lane S (x mod 5) 3)) (lane S (x mod 5) 4))%nat)
      by (intros S x' HS; repeat apply xor_word; apply W; auto; lia).
    change (ROTL 64 1) with (ROTL (Z.to_N 64) 1) in F. rewrite !(cb_ROTL 64 1) in F by (lia || reflexivity || (apply W5; assumption)).
    rewrite !cb_xor in F.
    replace ((xi x + 4) mod 5)%nat with (xi (x - 1)) in F.
    2:{ transitivity (xi (x + 4)); [replace (x - 1)%Z with ((x + 4) + (-1) * 5)%Z by lia; unfold xi; rewrite Z_mod_plus_full; reflexivity|apply (xi_add x 4); lia]. }
    replace ((xi x + 1) mod 5)%nat with (xi (x + 1)) in F by (rewrite xi_add by lia; reflexivity).
    change (Z.of_N 1) with 1%Z in F. unfold p, d.
    apply xorb_move in F. rewrite F. btauto. }
  assert (P0 : forall x z, p x z = false).
  { apply theta_kernel.
    - intros x z. unfold p, d. replace (xi (x + 5)) with (xi x); [reflexivity|]. unfold xi. rewrite <- (Z_mod_plus_full x 1 5). f_equal.
    - intros x z. unfold p, d. rewrite <- !(cb_period 64 _ z 1) by lia. reflexivity.
    - intros x z. unfold p at 1. rewrite !Ed by lia. 
      destruct (p (x - 1)%Z z), (p (x + 1)%Z (z - 1)%Z); reflexivity. }
  apply lanes_ext; [apply HA|apply HB|]. intros x y Hx Hy.
  apply (cb_ext 64); [lia|apply lane_word; auto..|]. intros z.
  pose proof (Ed (Z.of_nat x) y z Hy) as D. rewrite !P0 in D. unfold d in D.
  replace (xi (Z.of_nat x)) with x in D by (unfold xi; rewrite Z.mod_small by lia; rewrite Nat2Z.id; reflexivity).
  destruct (cb 64 (lane A x y) z), (cb 64 (lane B x y) z); cbn in D; congruence.
Qed.
Lemma theta_state A : kstate A -> kstate (theta A).
Proof.
  intros H. unfold theta. cbv zeta. apply of_lanes_state. intros x y Hx Hy.
  assert (W : forall x y, (y < 5)%nat -> word 64 (lane A (x mod 5)%nat y))
    by (intros x' y' Hy'; apply lane_word; auto; apply Nat.mod_upper_bound; lia).
  repeat apply xor_word; try (apply W; lia); try (apply lane_word; assumption).
  apply ROTL_word; [|reflexivity]. repeat apply xor_word; apply W; lia.
Qed.

(** ** rho, pi, chi, iota *)
Lemma rho_off x y o : (x < 5)%nat -> (y < 5)%nat -> rho_find (rho_walk 24 0 1 0) x y = Some o -> N.of_nat o < 64.
Proof.
  intros Hx Hy E. assert (K : forallb (fun x => forallb (fun y => match rho_find (rho_walk 24 0 1 0) x y with Some o => N.of_nat o <? 64 | None => true end)
    (seq 0 5)) (seq 0 5) = true) by (vm_compute; reflexivity).
  rewrite forallb_forall in K. specialize (K x ltac:(apply in_seq; lia)). rewrite forallb_forall in K.
  specialize (K y ltac:(apply in_seq; lia)). rewrite E in K. apply N.ltb_lt in K. exact K.
Qed.
Lemma rho_inj : inj_on kstate rho.
Proof.
  intros A B HA HB E. apply lanes_ext; [apply HA|apply HB|]. intros x y Hx Hy.
  apply (f_equal (fun S => lane S x y)) in E. unfold rho in E. rewrite !lane_of in E by auto.
  destruct (rho_find (rho_walk 24 0 1 0) x y) as [o|] eqn:F; [|exact E].
  exact (ROTL_inj 64 (N.of_nat o) eq_refl (rho_off x y o Hx Hy F) _ _ (lane_word A x y HA Hx Hy) (lane_word B x y HB Hx Hy) E).
Qed.
Lemma rho_state A : kstate A -> kstate (rho A).
Proof.
  intros H. apply of_lanes_state. intros x y Hx Hy. destruct (rho_find (rho_walk 24 0 1 0) x y) as [o|] eqn:F; [|apply lane_word; assumption].
  apply ROTL_word; [apply lane_word; assumption|exact (rho_off x y o Hx Hy F)].
Qed.
Lemma pi_inj : inj_on kstate pi.
Proof.
  intros A B HA HB E. apply lanes_ext; [apply HA|apply HB|]. intros x y Hx Hy.
  apply (f_equal (fun S => lane S y ((x + 5 - y) * 2 mod 5))%nat) in E. unfold pi in E.
  rewrite !lane_of in E by (auto; apply Nat.mod_upper_bound; lia).
  replace ((y + 3 * ((x + 5 - y) * 2 mod 5)) mod 5)%nat with x in E; [exact E|].
  destruct x as [|[|[|[|[|x]]]]]; try lia; destruct y as [|[|[|[|[|y]]]]]; try lia; reflexivity.
Qed.
Lemma pi_state A : kstate A -> kstate (pi A).
Proof. intros H. apply of_lanes_state. intros x y Hx Hy. apply lane_word; auto. apply Nat.mod_upper_bound. lia. Qed.
Lemma NOT_word x : word 64 x -> word 64 (NOT 64 x).
Proof.
  intros H. unfold word, NOT. apply lt_pow2_bits. intros i Hi. rewrite N.lnot_spec_high by lia.
  apply (testbit_high 64); [exact H|lia].
Qed.
Lemma chi_bits a0 a1 a2 a3 a4 b0 b1 b2 b3 b4 :
  xorb a0 (negb a1 && a2) = xorb b0 (negb b1 && b2) -> xorb a1 (negb a2 && a3) = xorb b1 (negb b2 && b3) ->
  xorb a2 (negb a3 && a4) = xorb b2 (negb b3 && b4) -> xorb a3 (negb a4 && a0) = xorb b3 (negb b4 && b0) ->
  xorb a4 (negb a0 && a1) = xorb b4 (negb b0 && b1) -> a0 = b0.
Proof. destruct a0, a1, a2, a3, a4, b0, b1, b2, b3, b4; cbn; congruence. Qed.
Lemma chi_inj : inj_on kstate chi.
Proof.
  intros A B HA HB E. apply lanes_ext; [apply HA|apply HB|]. intros x y Hx Hy.
  assert (F : forall k z, (z < 64) -> let u := ((x + k) mod 5)%nat in
    xorb (N.testbit (lane A u y) z) (negb (N.testbit (lane A ((u + 1) mod 5)%nat y) z) && N.testbit (lane A ((u + 2) mod 5)%nat y) z) =
    xorb (N.testbit (lane B u y) z) (negb (N.testbit (lane B ((u + 1) mod 5)%nat y) z) && N.testbit (lane B ((u + 2) mod 5)%nat y) z)).
  { intros k z Hz u. assert (Hu : (u < 5)%nat) by (apply Nat.mod_upper_bound; lia).
    apply (f_equal (fun S => N.testbit (lane S u y) z)) in E. unfold chi in E. rewrite !lane_of in E by auto.
    unfold NOT in E. rewrite !N.lxor_spec, !N.land_spec, !N.lnot_spec_low in E by exact Hz. exact E. }
  apply N.bits_inj. intros z. destruct (N.lt_ge_cases z 64) as [Hz|Hz].
  2:{ rewrite !(testbit_high 64) by (auto; apply lane_word; auto). reflexivity. }
  pose proof (F 0%nat z Hz) as F0. pose proof (F 1%nat z Hz) as F1. pose proof (F 2%nat z Hz) as F2.
  pose proof (F 3%nat z Hz) as F3. pose proof (F 4%nat z Hz) as F4. cbv zeta in F0, F1, F2, F3, F4. clear E F HA HB.
  assert (M : forall k j, (((x + k) mod 5 + j) mod 5 = (x + (k + j)) mod 5)%nat)
    by (intros k j; rewrite Nat.add_mod_idemp_l by lia; f_equal; lia).
  rewrite !M in F0, F1, F2, F3, F4. cbn [Nat.add] in F0, F1, F2, F3, F4.
  replace ((x + 5) mod 5)%nat with ((x + 0) mod 5)%nat in * by (rewrite Nat.add_0_r, <- (Nat.mod_add x 1 5) by lia; f_equal; lia).
  replace ((x + 6) mod 5)%nat with ((x + 1) mod 5)%nat in * by (rewrite <- (Nat.mod_add (x + 1) 1 5) by lia; f_equal; lia).
  replace x with ((x + 0) mod 5)%nat by (rewrite Nat.add_0_r; apply Nat.mod_small; exact Hx).
  revert F0 F1 F2 F3 F4. apply chi_bits.
Qed.
Lemma chi_state A : kstate A -> kstate (chi A).
Proof.
  intros H. apply of_lanes_state. intros x y Hx Hy. apply xor_word; [apply lane_word; assumption|].
  unfold word. apply land_lt. apply NOT_word. apply lane_word; auto. apply Nat.mod_upper_bound. lia.
Qed.
Lemma iota_inj ir : inj_on kstate (fun A => iota A ir).
Proof.
  intros A B HA HB E. apply lanes_ext; [apply HA|apply HB|]. intros x y Hx Hy. cbv beta in E.
  apply (f_equal (fun S => lane S x y)) in E. unfold iota in E. rewrite !lane_of in E by auto.
  destruct (Nat.eqb_spec x 0), (Nat.eqb_spec y 0); cbn [andb] in E; try exact E. subst. exact (xor_inj_r _ _ _ I I E).
Qed.
Lemma RC_word ir : word 64 (RC ir).
Proof.
  unfold RC. assert (K : forall l a, (forall j, In j l -> (j < 7)%nat) -> word 64 a ->
    word 64 (fold_left N.lor (map (fun j => if rc (j + 7 * ir) then 2 ^ (2 ^ N.of_nat j - 1) else 0) l) a)).
  { induction l as [|j l IH]; intros a Hl Ha; [exact Ha|]. cbn [map fold_left]. apply IH; [intros; apply Hl; right; auto|].
    apply lor_lt; [exact Ha|]. specialize (Hl j (or_introl eq_refl)). destruct (rc (j + 7 * ir)); [|reflexivity].
    destruct j as [|[|[|[|[|[|[|j]]]]]]]; try lia; vm_compute; reflexivity. }
  apply K; [intros j Hj; apply in_seq in Hj; lia|reflexivity].
Qed.
Lemma iota_state ir A : kstate A -> kstate (iota A ir).
Proof.
  intros H. apply of_lanes_state. intros x y Hx Hy. destruct (_ && _)%bool; [|apply lane_word; assumption].
  apply xor_word; [apply lane_word; auto; lia|apply RC_word].
Qed.
Lemma Rnd_inj ir : inj_on kstate (fun A => Rnd A ir) /\ forall A, kstate A -> kstate (Rnd A ir).
Proof.
  unfold Rnd. split.
  - apply (inj_comp kstate kstate (fun A => chi (pi (rho (theta A)))) (fun A => iota A ir)); auto 12 using iota_inj, chi_state, pi_state, rho_state, theta_state.
    apply (inj_comp kstate kstate (fun A => pi (rho (theta A))) chi); auto 12 using chi_inj, pi_state, rho_state, theta_state.
    apply (inj_comp kstate kstate (fun A => rho (theta A)) pi); auto 12 using pi_inj, rho_state, theta_state.
    apply (inj_comp kstate kstate theta rho); auto 12 using theta_inj, rho_inj, theta_state.
  - auto 12 using iota_state, chi_state, pi_state, rho_state, theta_state.
Qed.
Lemma keccak_p_inj nr : inj_on kstate (keccak_p nr) /\ forall A, kstate A -> kstate (keccak_p nr A).
Proof.
  unfold keccak_p. apply (inj_fold kstate Rnd (fun _ => True)).
  - intros i _. apply Rnd_inj.
  - intros i A _. apply Rnd_inj.
  - apply Forall_forall. auto.
Qed.
