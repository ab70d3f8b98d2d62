(** * Ascon-p is injective. *)
From Verif Require Import Base Lemmas WordLemmas SpecCommon Ascon AsconSpec AsconProof Inj.
From Coq Require Import ZArith Lia Bool Btauto.

Definition b2N (b : bool) : N := if b then 1 else 0.
Definition col5 (a b c d e : bool) : N := 2 * (2 * (2 * (2 * (2 * 0 + b2N a) + b2N b) + b2N c) + b2N d) + b2N e.
Definition sbox_bit (i : N) (a b c d e : bool) : bool := N.testbit (nth (N.to_nat (col5 a b c d e)) ascon_sbox 0) i.
Lemma sbox_bits_inj a b c d e a' b' c' d' e' :
  sbox_bit 4 a b c d e = sbox_bit 4 a' b' c' d' e' -> sbox_bit 3 a b c d e = sbox_bit 3 a' b' c' d' e' ->
  sbox_bit 2 a b c d e = sbox_bit 2 a' b' c' d' e' -> sbox_bit 1 a b c d e = sbox_bit 1 a' b' c' d' e' ->
  sbox_bit 0 a b c d e = sbox_bit 0 a' b' c' d' e' -> a = a' /\ b = b' /\ c = c' /\ d = d' /\ e = e'.
Proof. destruct a, b, c, d, e, a', b', c', d', e'; vm_compute; intros; try discriminate; repeat split. Qed.
Lemma sub_layer_eq a b c d e : sub_layer [a; b; c; d; e] =
  map (fun i => bits_word 64 (fun j => let t x := N.testbit x (N.of_nat j) in sbox_bit i (t a) (t b) (t c) (t d) (t e))) [4; 3; 2; 1; 0].
Proof. reflexivity. Qed.
Lemma sub_layer_inj : inj_on as_ok sub_layer.
Proof.
  intros A B HA HB E. destruct (as_ok_inv A HA) as (a & b & c & d & e & -> & Ha & Hb & Hc & Hd & He).
  destruct (as_ok_inv B HB) as (a' & b' & c' & d' & e' & -> & Ha' & Hb' & Hc' & Hd' & He'). clear HA HB.
  rewrite !sub_layer_eq in E. cbn [map] in E.
  assert (In5 : forall (v0 v1 v2 v3 v4 u0 u1 u2 u3 u4 : N), [v0; v1; v2; v3; v4] = [u0; u1; u2; u3; u4] ->
    v0 = u0 /\ v1 = u1 /\ v2 = u2 /\ v3 = u3 /\ v4 = u4) by (intros; repeat split; congruence).
  apply In5 in E. destruct E as (E4 & E3 & E2 & E1 & E0).
  assert (K : forall j, (j < 64)%nat -> N.testbit a (N.of_nat j) = N.testbit a' (N.of_nat j) /\ N.testbit b (N.of_nat j) = N.testbit b' (N.of_nat j) /\
    N.testbit c (N.of_nat j) = N.testbit c' (N.of_nat j) /\ N.testbit d (N.of_nat j) = N.testbit d' (N.of_nat j) /\ N.testbit e (N.of_nat j) = N.testbit e' (N.of_nat j)).
  { intros j Hj. assert (T : forall f g, bits_word 64 f = bits_word 64 g -> f j = g j).
    { intros f g F. apply (f_equal (fun v => N.testbit v (N.of_nat j))) in F. rewrite !bits_word_spec in F.
      apply Nat.ltb_lt in Hj. rewrite Hj in F. exact F. }
    apply T in E4. apply T in E3. apply T in E2. apply T in E1. apply T in E0. exact (sbox_bits_inj _ _ _ _ _ _ _ _ _ _ E4 E3 E2 E1 E0). }
  assert (X : forall u v, u < 2 ^ 64 -> v < 2 ^ 64 -> (forall j, (j < 64)%nat -> N.testbit u (N.of_nat j) = N.testbit v (N.of_nat j)) -> u = v).
  { intros u v Hu Hv Q. apply N.bits_inj. intros i. destruct (N.lt_ge_cases i 64) as [L|L].
    - specialize (Q (N.to_nat i) ltac:(lia)). rewrite N2Nat.id in Q. exact Q.
    - rewrite !(testbit_high 64) by assumption. reflexivity. }
  f_equal; [|f_equal; [|f_equal; [|f_equal; [|f_equal]]]]; apply X; auto; intros j Hj; destruct (K j Hj) as (K0 & K1 & K2 & K3 & K4); assumption.
Qed.
Lemma sub_layer_ok A : as_ok A -> as_ok (sub_layer A).
Proof.
  intros H. split; [reflexivity|]. unfold sub_layer. apply Forall_forall. intros v Hv. apply in_map_iff in Hv. destruct Hv as (i & <- & _).
  apply lt_pow2_bits. intros j Hj. rewrite <- (N2Nat.id j), bits_word_spec. 
  replace (N.to_nat j <? 64)%nat with false by (symmetry; apply Nat.ltb_ge; lia). reflexivity.
Qed.
Lemma lin_word_inj i j : 0 < i < 64 -> 0 < j < 64 -> inj_on (word 64) (fun x => N.lxor (N.lxor x (ROTR 64 i x)) (ROTR 64 j x)).
Proof.
  intros Hi Hj a b Ha Hb E. cbv beta in E. apply (cb_ext 64); [lia|exact Ha|exact Hb|]. intros z.
  pose (c := fun z => xorb (cb 64 a z) (cb 64 b z)).
  assert (C : forall z, c z = false).
  { apply (circ_kernel c 64) with (i := Z.of_N i) (j := Z.of_N j); [|reflexivity|].
    - intros y. unfold c. rewrite <- !(cb_period 64 _ y 1) by lia. reflexivity.
    - intros y. apply (f_equal (fun v => cb 64 v y)) in E. rewrite !cb_xor, !ROTR_ROTL in E by lia.
      change (ROTL 64) with (ROTL (Z.to_N 64)) in E. rewrite !cb_ROTL in E by (try lia; assumption).
      replace (y - Z.of_N (64 - i))%Z with (y + Z.of_N i + (-1) * 64)%Z in E by lia.
      replace (y - Z.of_N (64 - j))%Z with (y + Z.of_N j + (-1) * 64)%Z in E by lia.
      rewrite !cb_period in E by lia. unfold c.
      repeat match goal with |- context [cb 64 ?v ?t] => destruct (cb 64 v t) end; cbn in *; congruence. }
  specialize (C z). unfold c in C. destruct (cb 64 a z), (cb 64 b z); cbn in C; congruence.
Qed.
Lemma lin_layer_inj : inj_on as_ok lin_layer.
Proof.
  intros A B HA HB E. destruct (as_ok_inv A HA) as (a & b & c & d & e & -> & Ha & Hb & Hc & Hd & He).
  destruct (as_ok_inv B HB) as (a' & b' & c' & d' & e' & -> & Ha' & Hb' & Hc' & Hd' & He'). clear HA HB.
  unfold lin_layer in E. cbn [map2 lin_rot fst snd] in E.
  assert (In5 : forall (v0 v1 v2 v3 v4 u0 u1 u2 u3 u4 : N), [v0; v1; v2; v3; v4] = [u0; u1; u2; u3; u4] ->
    v0 = u0 /\ v1 = u1 /\ v2 = u2 /\ v3 = u3 /\ v4 = u4) by (intros; repeat split; congruence).
  apply In5 in E. destruct E as (E0 & E1 & E2 & E3 & E4).
  apply lin_word_inj in E0; [|lia|lia|assumption..]. apply lin_word_inj in E1; [|lia|lia|assumption..].
  apply lin_word_inj in E2; [|lia|lia|assumption..]. apply lin_word_inj in E3; [|lia|lia|assumption..].
  apply lin_word_inj in E4; [|lia|lia|assumption..]. congruence.
Qed.
Lemma add_const_inj k : inj_on as_ok (add_const k).
Proof.
  intros A B HA HB E. destruct (as_ok_inv A HA) as (a & b & c & d & e & -> & _).
  destruct (as_ok_inv B HB) as (a' & b' & c' & d' & e' & -> & _). unfold add_const in E. cbn [seq map Nat.eqb nth] in E.
  injection E as E0 E1 E2 E3 E4. apply xor_inj_r in E2; auto. congruence.
Qed.
Lemma add_const_ok k A : k < 2 ^ 64 -> as_ok A -> as_ok (add_const k A).
Proof.
  intros Hk HA. destruct (as_ok_inv A HA) as (a & b & c & d & e & -> & Ha & Hb & Hc & Hd & He). split; [reflexivity|].
  unfold add_const. cbn [seq map Nat.eqb nth]. repeat constructor; auto. apply lxor_lt; auto.
Qed.
Lemma ascon_const_lt i : nth i ascon_consts 0 < 2 ^ 64.
Proof.
  assert (H : Forall (fun x => (x < 2 ^ 64)%N) ascon_consts) by (repeat constructor).
  destruct (Nat.lt_ge_cases i (length ascon_consts)).
  - apply (proj1 (Forall_forall _ _) H). apply nth_In. auto.
  - rewrite nth_overflow by auto. reflexivity.
Qed.
Lemma ascon_p_inj rnd : inj_on as_ok (ascon_p rnd) /\ forall A, as_ok A -> as_ok (ascon_p rnd A).
Proof.
  unfold ascon_p. refine (inj_fold as_ok (fun S i => lin_layer (sub_layer (add_const (nth (16 - rnd + i) ascon_consts 0) S))) (fun _ => True) _ _ _ _).
  - intros i _. apply (inj_comp as_ok as_ok (fun S => sub_layer (add_const (nth (16 - rnd + i) ascon_consts 0) S)) lin_layer).
    + apply (inj_comp as_ok as_ok (add_const (nth (16 - rnd + i) ascon_consts 0)) sub_layer); auto using add_const_inj, sub_layer_inj, add_const_ok, ascon_const_lt.
    + auto using sub_layer_ok, add_const_ok, ascon_const_lt.
    + exact lin_layer_inj.
  - intros i A _ HA. rewrite <- ascon_lin_eq by auto using sub_layer_ok, add_const_ok, ascon_const_lt.
    apply ascon_lin_ok. auto using sub_layer_ok, add_const_ok, ascon_const_lt.
  - apply Forall_forall. auto.
Qed.
