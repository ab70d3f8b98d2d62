(** * Element types (C66). *)
From Coq Require Import ZArith Lia.
From Verif Require Import Base Hasher Library Elements.
Local Open Scope N_scope.

(** The byte of an element, without C++: its value modulo 256. *)
Definition low_byte (v : Z) : N := Z.to_N (v mod 256).
(** The types that the documentation names, hasher.hpp:201, 220, 238, 312. *)
Definition documented (E : ety) : Prop := E = TChar \/ E = TSChar \/ E = TUChar.

Lemma to_uchar cs v : Z.to_N (convert cs TUChar v) = low_byte v.
Proof. reflexivity. Qed.
Lemma low_byte_lt v : low_byte v < 256.
Proof. unfold low_byte. pose proof (Z.mod_pos_bound v 256 ltac:(lia)). lia. Qed.
Lemma low_bytes_ok vs : is_bytes (map low_byte vs).
Proof. apply Forall_forall. intros b H. apply in_map_iff in H. destruct H as (v & <- & _). apply low_byte_lt. Qed.

Lemma absorb_of_low cs f E vs d : absorb_of cs f E vs = Some d -> d = map low_byte vs.
Proof.
  unfold absorb_of. destruct f; [destruct (is_byte E)| | | |destruct (converts E TUChar)]; try discriminate;
    try (destruct (is_byte E); [|discriminate]); intros H; injection H as <-; reflexivity.
Qed.
Lemma set_of_low cs E vs d : set_of cs E vs = Some d -> d = map low_byte vs.
Proof. unfold set_of. destruct (is_byte E); [|discriminate]. intros H. injection H as <-. reflexivity. Qed.
Lemma absorb_of_documented cs f E vs : documented E -> absorb_of cs f E vs = Some (map low_byte vs).
Proof. intros [->|[->| ->]]; destruct f; reflexivity. Qed.
Lemma absorb_of_ints cs n s vs : absorb_of cs FIter (TInt n s) vs = Some (map low_byte vs).
Proof. reflexivity. Qed.

(** At least eight bits wide. *)
Definition wide (E : ety) : Prop := match E with TInt n _ => (8 <= n)%positive | _ => True end.
Lemma shape_wide cs E : wide E -> (8 <= Zpos (fst (shape cs E)))%Z.
Proof. destruct E; cbn; intros; lia. Qed.
Lemma convert_low cs E v : wide E -> (convert cs E v mod 256 = v mod 256)%Z.
Proof.
  intros W. pose proof (shape_wide cs E W) as L. unfold convert. destruct (shape cs E) as [n s]. cbn [fst] in L.
  assert (D : (2 ^ Z.pos n = 256 * 2 ^ (Z.pos n - 8))%Z).
  { change 256%Z with (2 ^ 8)%Z. rewrite <- Z.pow_add_r by lia. f_equal. lia. }
  assert (M : ((v mod 2 ^ Z.pos n) mod 256 = v mod 256)%Z).
  { rewrite D.
    assert (K : (0 < 2 ^ (Z.pos n - 8))%Z) by (apply Z.pow_pos_nonneg; lia).
    generalize dependent (2 ^ (Z.pos n - 8))%Z. intros k _ K.
    rewrite Z.rem_mul_r by lia. rewrite (Z.mul_comm 256 ((v / 256) mod k)), Z.mod_add by lia. apply Z.mod_mod. lia. }
  destruct (s && _)%bool; [|exact M].
  rewrite D at 2. replace (v mod 2 ^ Z.pos n - 256 * 2 ^ (Z.pos n - 8))%Z
    with (v mod 2 ^ Z.pos n + (- 2 ^ (Z.pos n - 8)) * 256)%Z by lia.
  rewrite Z.mod_add by lia. exact M.
Qed.
Lemma stored_low cs E b : wide E -> b < 256 -> low_byte (stored cs E b) = b.
Proof.
  intros W H. unfold low_byte, stored. rewrite convert_low by assumption. rewrite Z.mod_small by lia. apply N2Z.id.
Qed.
Lemma stored_all cs E out : wide E -> is_bytes out -> map low_byte (map (stored cs E) out) = out.
Proof.
  intros W H. rewrite map_map. induction H as [|b out Hb _ IH]; [reflexivity|]. cbn [map].
  rewrite IH, stored_low by assumption. reflexivity.
Qed.
Lemma in_type_stored cs E b : wide E -> in_type cs E (stored cs E b).
Proof.
  intros W. unfold in_type, stored, convert. destruct (shape cs E) as [n s].
  assert (P : (0 < 2 ^ Z.pos n)%Z) by (apply Z.pow_pos_nonneg; lia).
  set (m := (Z.of_N b mod 2 ^ Z.pos n)%Z).
  assert (B : (0 <= m < 2 ^ Z.pos n)%Z) by (apply Z.mod_pos_bound; lia).
  destruct (s && (2 ^ (Z.pos n - 1) <=? m)%Z)%bool eqn:S.
  - replace ((m - 2 ^ Z.pos n) mod 2 ^ Z.pos n)%Z with m; [rewrite S; reflexivity|].
    replace (m - 2 ^ Z.pos n)%Z with (m + (-1) * 2 ^ Z.pos n)%Z by lia. rewrite Z.mod_add by lia.
    symmetry. apply Z.mod_small. exact B.
  - rewrite (Z.mod_small m) by exact B. rewrite S. reflexivity.
Qed.

Lemma is_byte_wide E : is_byte E = true -> wide E.
Proof. destruct E; try exact (fun _ => I). discriminate. Qed.
Lemma squeeze_buffer cs E out : is_byte E = true -> is_bytes out ->
  exists vs, squeeze_buf_to cs E out = Some vs /\ map low_byte vs = out /\ Forall (in_type cs E) vs.
Proof.
  intros B H. apply is_byte_wide in B as W. unfold squeeze_buf_to. rewrite B.
  eexists. split; [reflexivity|]. split; [apply stored_all; assumption|].
  apply Forall_forall. intros v I. apply in_map_iff in I. destruct I as (b & <- & _). apply in_type_stored, W.
Qed.
Lemma output_iterator cs E out : E <> TStdByte -> wide E -> is_bytes out ->
  exists vs, copied_to cs E out = Some vs /\ map low_byte vs = out /\ Forall (in_type cs E) vs.
Proof.
  intros B W H. unfold copied_to. replace (converts TUChar E) with true by (destruct E; congruence || reflexivity).
  eexists. split; [reflexivity|]. split; [apply (stored_all cs E out); assumption|].
  apply Forall_forall. intros v I. apply in_map_iff in I. destruct I as (b & <- & _). apply (in_type_stored cs E b), W.
Qed.
Lemma round_trip cs f E out vs : documented E -> is_bytes out ->
  squeeze_buf_to cs E out = Some vs \/ copied_to cs E out = Some vs -> absorb_of cs f E vs = Some out.
Proof.
  intros D H A. rewrite absorb_of_documented by assumption. f_equal.
  assert (W : wide E) by (destruct D as [->|[->| ->]]; exact I).
  assert (N1 : E <> TStdByte) by (destruct D as [->|[->| ->]]; discriminate).
  assert (B : is_byte E = true) by (destruct D as [->|[->| ->]]; reflexivity).
  destruct (squeeze_buffer cs E out B H) as (v1 & S1 & S2 & _).
  destruct (output_iterator cs E out N1 W H) as (v2 & C1 & C2 & _).
  destruct A as [A|A]; congruence.
Qed.
Lemma digest_buffer cs E out : is_bytes out ->
  (forall vs, digest_buf_to cs E out = Some vs <-> E = TUChar /\ vs = map Z.of_N out).
Proof.
  intros H vs. assert (M : map (stored cs TUChar) out = map Z.of_N out).
  { induction H as [|b out Hb _ IH]; [reflexivity|]. cbn [map]. rewrite IH. f_equal.
    unfold stored, convert. cbn [shape andb]. apply Z.mod_small. change (2 ^ 8)%Z with 256%Z. lia. }
  unfold digest_buf_to. destruct E; cbn; try (split; [discriminate|intros [E _]; discriminate E]).
  rewrite M. split; [intros E; injection E as <-; auto|intros [_ ->]; reflexivity].
Qed.
