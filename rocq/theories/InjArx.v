(** * The step functions of the add-rotate-xor designs are injective (C54). *)
From Verif Require Import Base Lemmas WordLemmas SpecCommon Md5Spec Sha1Spec Sha2Spec Sm3Spec Inj.
From Coq Require Import ZArith Lia.

Lemma pm_word w x y : word w (plus_mod w x y).
Proof. apply word_mod. Qed.
Lemma pm_inj_l w x y y' : word w y -> word w y' -> plus_mod w x y = plus_mod w x y' -> y = y'.
Proof. intros. eapply add_inj_l; eauto. Qed.
Lemma pm_inj_r w x x' y : word w x -> word w x' -> plus_mod w x y = plus_mod w x' y -> x = x'.
Proof. intros. eapply add_inj_r; eauto. Qed.
Lemma pm_mod_r w x y : plus_mod w x (y mod 2 ^ w) = plus_mod w x y.
Proof. unfold plus_mod. apply N.add_mod_idemp_r. apply N.pow_nonzero. discriminate. Qed.
Lemma rotl_inj' w n x y : 0 < w -> n < w -> word w x -> word w y -> ROTL w n x = ROTL w n y -> x = y.
Proof. intros. eapply ROTL_inj; eauto. Qed.
Lemma rotr_inj' w n x y : 0 < n -> n < w -> word w x -> word w y -> ROTR w n x = ROTR w n y -> x = y.
Proof. intros. eapply ROTR_inj; eauto. Qed.
Lemma lxor_inj_l a x y : N.lxor a x = N.lxor a y -> x = y.
Proof. intros E. exact (xor_inj_l a x y I I E). Qed.
Lemma lxor_inj_r a x y : N.lxor x a = N.lxor y a -> x = y.
Proof. intros E. exact (xor_inj_r a x y I I E). Qed.

Ltac wd := solve [assumption | apply pm_word | apply ROTL_word; [wd|lia] | apply ROTR_word; [lia|lia|wd] | apply xor_word; wd | lia].
(** Undo one operation on both sides. *)
Ltac peel :=
  match goal with
  | H : ?x = ?x |- _ => clear H
  | H : ?x = ?y |- _ => (is_var y; subst y) || (is_var x; subst x)
  | H : plus_mod _ ?x _ = plus_mod _ ?x _ |- _ => apply pm_inj_l in H; [|wd|wd]
  | H : plus_mod _ _ ?y = plus_mod _ _ ?y |- _ => apply pm_inj_r in H; [|wd|wd]
  | H : ROTL _ _ _ = ROTL _ _ _ |- _ => apply rotl_inj' in H; [|lia|lia|wd|wd]
  | H : ROTR _ _ _ = ROTR _ _ _ |- _ => apply rotr_inj' in H; [|lia|lia|wd|wd]
  | H : N.lxor ?x _ = N.lxor ?x _ |- _ => apply lxor_inj_l in H
  | H : N.lxor _ ?y = N.lxor _ ?y |- _ => apply lxor_inj_r in H
  end.

(** x xor (x <<< i) xor (x <<< j) determines the 32-bit word x. *)
Lemma circ32 i j : i < 32 -> j < 32 -> inj_on (word 32) (fun x => N.lxor (N.lxor x (ROTL 32 i x)) (ROTL 32 j x)).
Proof.
  intros Hi Hj a b Ha Hb E. cbv beta in E. apply (cb_ext 32); [lia|exact Ha|exact Hb|]. intros z.
  pose (c := fun z => xorb (cb 32 a z) (cb 32 b z)).
  assert (C : forall z, c z = false).
  { apply (circ_kernel c 64) with (i := (- Z.of_N i)%Z) (j := (- Z.of_N j)%Z); [|reflexivity|].
    - intros y. unfold c. rewrite <- !(cb_period 32 _ y 2) by lia. reflexivity.
    - intros y. apply (f_equal (fun v => cb 32 v y)) in E. rewrite !cb_xor in E.
      change (ROTL 32) with (ROTL (Z.to_N 32)) in E. rewrite !cb_ROTL in E by (try lia; assumption).
      rewrite <- !Z.add_opp_r in E. unfold c.
      repeat match goal with |- context [cb 32 ?v ?t] => destruct (cb 32 v t) end; cbn in *; congruence. }
  specialize (C z). unfold c in C. destruct (cb 32 a z), (cb 32 b z); cbn in C; congruence.
Qed.

(** ** Registers *)
Definition wreg4 (w : N) (r : N * N * N * N) : Prop := let '(a, b, c, d) := r in word w a /\ word w b /\ word w c /\ word w d.
Definition wreg5 (w : N) (r : N * N * N * N * N) : Prop := let '(q, e) := r in wreg4 w q /\ word w e.
Definition wreg8 (w : N) (r : N * N * N * N * N * N * N * N) : Prop :=
  let '(q, e, f, g, h) := r in wreg4 w q /\ word w e /\ word w f /\ word w g /\ word w h.

(** ** MD5 *)
Lemma rfc_s_lt i : rfc_s i < 32.
Proof.
  unfold rfc_s. assert (B : (i mod 4 < 4)%nat) by (apply Nat.mod_upper_bound; lia).
  destruct (i / 16)%nat as [|[|[|[|k]]]]; destruct (i mod 4)%nat as [|[|[|[|j]]]]; try lia; cbn; try lia; destruct k; cbn; lia.
Qed.
Lemma md5_op_inj X i : inj_on (wreg4 32) (fun r => rfc_op X r i).
Proof.
  intros [[[a b] c] d] [[[a' b'] c'] d'] (Ha & Hb & Hc & Hd) (Ha' & Hb' & Hc' & Hd') E. cbn [rfc_op] in E.
  pose proof (rfc_s_lt i). assert (In : forall (x y z t x' y' z' t' : N), (x, y, z, t) = (x', y', z', t') -> x = x' /\ y = y' /\ z = z' /\ t = t')
    by (intros; repeat split; congruence).
  apply In in E. destruct E as (-> & E & -> & ->). repeat peel. reflexivity.
Qed.
Lemma md5_op_word X i r : wreg4 32 r -> wreg4 32 (rfc_op X r i).
Proof. destruct r as [[[a b] c] d]. intros (Ha & Hb & Hc & Hd). cbn [rfc_op wreg4]. repeat split; wd. Qed.
Lemma md5_ops_inj X l : inj_on (wreg4 32) (fun r => fold_left (rfc_op X) l r) /\ forall r, wreg4 32 r -> wreg4 32 (fold_left (rfc_op X) l r).
Proof.
  apply (inj_fold (wreg4 32) (rfc_op X) (fun _ => True)); auto using md5_op_inj, md5_op_word. apply Forall_forall. auto.
Qed.

(** ** SHA-1 *)
Lemma sha1_round_inj W t : inj_on (wreg5 32) (fun r => fips_round1 W r t).
Proof.
  intros [[[[a b] c] d] e] [[[[a' b'] c'] d'] e'] ((Ha & Hb & Hc & Hd) & He) ((Ha' & Hb' & Hc' & Hd') & He') E. cbn [fips_round1] in E.
  assert (In : forall (x y z t u x' y' z' t' u' : N), (x, y, z, t, u) = (x', y', z', t', u') -> x = x' /\ y = y' /\ z = z' /\ t = t' /\ u = u')
    by (intros; repeat split; congruence).
  apply In in E. destruct E as (E & -> & E' & -> & ->). repeat peel. reflexivity.
Qed.
Lemma sha1_round_word W t r : wreg5 32 r -> wreg5 32 (fips_round1 W r t).
Proof. destruct r as [[[[a b] c] d] e]. intros ((Ha & Hb & Hc & Hd) & He). cbn [fips_round1 wreg4 wreg5]. repeat split; wd. Qed.
Lemma sha1_rounds_inj W l : inj_on (wreg5 32) (fun r => fold_left (fips_round1 W) l r) /\ forall r, wreg5 32 r -> wreg5 32 (fold_left (fips_round1 W) l r).
Proof.
  apply (inj_fold (wreg5 32) (fips_round1 W) (fun _ => True)); auto using sha1_round_inj, sha1_round_word. apply Forall_forall. auto.
Qed.

(** ** SHA-2 *)
Lemma in8 (x0 x1 x2 x3 x4 x5 x6 x7 y0 y1 y2 y3 y4 y5 y6 y7 : N) : (x0, x1, x2, x3, x4, x5, x6, x7) = (y0, y1, y2, y3, y4, y5, y6, y7) ->
  x0 = y0 /\ x1 = y1 /\ x2 = y2 /\ x3 = y3 /\ x4 = y4 /\ x5 = y5 /\ x6 = y6 /\ x7 = y7.
Proof. intros. repeat split; congruence. Qed.
Lemma sha2_round_inj P W t : inj_on (wreg8 (p_w P)) (fun r => fips_round2 P W r t).
Proof.
  intros [[[[[[[a b] c] d] e] f] g] h] [[[[[[[a' b'] c'] d'] e'] f'] g'] h'] ((Ha & Hb & Hc & Hd) & He & Hf & Hg & Hh) ((Ha' & Hb' & Hc' & Hd') & He' & Hf' & Hg' & Hh') E.
  cbn [fips_round2] in E. cbv zeta in E. apply in8 in E. destruct E as (E & -> & -> & -> & E' & -> & -> & ->).
  repeat peel. reflexivity.
Qed.
Lemma sha2_round_word P W t r : wreg8 (p_w P) r -> wreg8 (p_w P) (fips_round2 P W r t).
Proof.
  destruct r as [[[[[[[a b] c] d] e] f] g] h]. intros ((Ha & Hb & Hc & Hd) & He & Hf & Hg & Hh).
  cbn [fips_round2 wreg4 wreg8]. cbv zeta. repeat split; wd.
Qed.
Lemma sha2_rounds_inj P W l : inj_on (wreg8 (p_w P)) (fun r => fold_left (fips_round2 P W) l r) /\
  forall r, wreg8 (p_w P) r -> wreg8 (p_w P) (fold_left (fips_round2 P W) l r).
Proof.
  apply (inj_fold (wreg8 (p_w P)) (fips_round2 P W) (fun _ => True)); auto using sha2_round_inj, sha2_round_word. apply Forall_forall. auto.
Qed.

(** ** SM3 *)
Lemma sm3_round_inj W j : inj_on (wreg8 32) (fun r => gb_round W r j).
Proof.
  intros [[[[[[[a b] c] d] e] f] g] h] [[[[[[[a' b'] c'] d'] e'] f'] g'] h'] ((Ha & Hb & Hc & Hd) & He & Hf & Hg & Hh) ((Ha' & Hb' & Hc' & Hd') & He' & Hf' & Hg' & Hh') E.
  cbn [gb_round] in E. cbv zeta in E. apply in8 in E. destruct E as (E & -> & EB & -> & E' & -> & EF & ->).
  unfold gb_P0 in E'. apply circ32 in E'; [|lia|lia|wd|wd]. repeat peel. reflexivity.
Qed.
Lemma sm3_round_word W j r : wreg8 32 r -> wreg8 32 (gb_round W r j).
Proof.
  destruct r as [[[[[[[a b] c] d] e] f] g] h]. intros ((Ha & Hb & Hc & Hd) & He & Hf & Hg & Hh).
  cbn [gb_round wreg4 wreg8]. cbv zeta. unfold gb_P0. repeat split; wd.
Qed.
Lemma sm3_rounds_inj W l : inj_on (wreg8 32) (fun r => fold_left (gb_round W) l r) /\ forall r, wreg8 32 r -> wreg8 32 (fold_left (gb_round W) l r).
Proof.
  apply (inj_fold (wreg8 32) (gb_round W) (fun _ => True)); auto using sm3_round_inj, sm3_round_word. apply Forall_forall. auto.
Qed.
