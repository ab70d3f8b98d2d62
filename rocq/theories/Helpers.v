(** * Byte order and rotation helpers (C46). *)
From Verif Require Import Base Lemmas WordLemmas Sha2Proof Jh.

(** Bit [i] of a [k]-byte word moves to the mirrored byte. Specification; no code of /repo. *)
Definition mirror (k i : N) : N := 8 * (k - 1 - i / 8) + i mod 8.

Lemma forall_below (P : N -> Prop) n : Forall P (map N.of_nat (seq 0 n)) -> forall i, i < N.of_nat n -> P i.
Proof.
  intros H i Hi. rewrite Forall_forall in H. apply H. apply in_map_iff. exists (N.to_nat i).
  split; [lia|]. apply in_seq. lia.
Qed.

Lemma shl_bit x n i : N.testbit (N.shiftl x n) i = N.testbit x (i - n) && (n <=? i).
Proof.
  destruct (N.leb_spec n i).
  - rewrite N.shiftl_spec_high' by lia. rewrite andb_true_r. reflexivity.
  - rewrite N.shiftl_spec_low by lia. rewrite andb_false_r. reflexivity.
Qed.

Ltac swap_bit :=
  rewrite ?trunc_spec, ?N.lor_spec, ?shl_bit, ?N.shiftr_spec', ?shlw_spec, ?N.land_spec;
  cbn -[N.testbit];
  repeat match goal with
  | |- context [N.testbit (Npos ?c) ?k] =>
      let v := eval vm_compute in (N.testbit (Npos c) k) in change (N.testbit (Npos c) k) with v
  end;
  rewrite ?andb_false_r, ?andb_true_r, ?orb_false_r, ?orb_false_l; reflexivity.

Lemma byteswap16_bits v i : i < 16 -> N.testbit (byteswap16 v) i = N.testbit v (mirror 2 i).
Proof.
  revert i. apply (forall_below _ 16). unfold byteswap16, mirror. cbn [seq map N.of_nat Pos.of_succ_nat Pos.succ].
  repeat apply Forall_cons; try apply Forall_nil; swap_bit.
Qed.
Lemma byteswap32_bits v i : i < 32 -> N.testbit (byteswap32 v) i = N.testbit v (mirror 4 i).
Proof.
  revert i. apply (forall_below _ 32). unfold byteswap32, mirror. cbn [seq map N.of_nat Pos.of_succ_nat Pos.succ].
  repeat apply Forall_cons; try apply Forall_nil; swap_bit.
Qed.
Lemma byteswap64_bits v i : i < 64 -> N.testbit (byteswap64 v) i = N.testbit v (mirror 8 i).
Proof.
  revert i. apply (forall_below _ 64). unfold byteswap64, mirror. cbn [seq map N.of_nat Pos.of_succ_nat Pos.succ].
  repeat apply Forall_cons; try apply Forall_nil; swap_bit.
Qed.
Lemma byteswap16_lt v : byteswap16 v < 2 ^ 16.
Proof.
  apply trunc_lt.
Qed.
Lemma mirror_mirror k i : i < 8 * k -> mirror k i < 8 * k /\ mirror k (mirror k i) = i.
Proof.
  intros Hi. unfold mirror.
  assert (Hd : i / 8 < k) by (apply N.div_lt_upper_bound; lia).
  pose proof (N.mod_lt i 8 ltac:(discriminate)) as Hm. pose proof (N.div_mod i 8 ltac:(discriminate)) as E.
  set (q := i / 8) in *. set (r := i mod 8) in *.
  assert (E1 : (8 * (k - 1 - q) + r) / 8 = k - 1 - q) by (symmetry; apply (N.div_unique _ 8 _ r); lia).
  assert (E2 : (8 * (k - 1 - q) + r) mod 8 = r) by (symmetry; apply (N.mod_unique _ 8 (k - 1 - q) r); lia).
  rewrite E1, E2. split; lia.
Qed.
Lemma byteswap16_invol v : v < 2 ^ 16 -> byteswap16 (byteswap16 v) = v.
Proof.
  intros Hv. apply N.bits_inj. intros i. destruct (N.ltb_spec i 16) as [Hi|Hi].
  - destruct (mirror_mirror 2 i Hi) as [M1 M2]. rewrite !byteswap16_bits by auto. f_equal. exact M2.
  - rewrite !(testbit_high 16) by (auto using byteswap16_lt). reflexivity.
Qed.

(** Rotations, bit by bit. *)
Lemma rotl_bits w x n i : 0 < n -> n < w -> x < 2 ^ w -> i < w ->
  N.testbit (rotl w x n) i = N.testbit x ((i + (w - n)) mod w).
Proof.
  intros H0 Hn Hx Hi. rewrite rotl_spec by auto. apply N.ltb_lt in Hi as E. rewrite E. cbn [andb]. f_equal.
  destruct (N.leb_spec n i).
  - apply (N.mod_unique _ w 1); lia.
  - rewrite N.mod_small; lia.
Qed.
Lemma rotr_bits w x n i : 0 < n -> n < w -> x < 2 ^ w -> i < w ->
  N.testbit (rotr w x n) i = N.testbit x ((i + n) mod w).
Proof.
  intros H0 Hn Hx Hi. rewrite rotr_rotl, rotl_bits by lia. f_equal. f_equal. lia.
Qed.
Lemma rotr_lt' w x n : 0 < n -> n < w -> x < 2 ^ w -> rotr w x n < 2 ^ w.
Proof. intros. rewrite rotr_rotl by auto. apply rotl_lt; lia. Qed.
Lemma rot_inverse w x n : 0 < n -> n < w -> x < 2 ^ w ->
  rotr w (rotl w x n) n = x /\ rotl w (rotr w x n) n = x.
Proof.
  intros H0 Hn Hx. pose proof (rotl_lt w x n H0 Hn Hx) as L1. pose proof (rotr_lt' w x n H0 Hn Hx) as L2.
  assert (M : forall i a, i < w -> a <= w -> ((i + (w - a)) mod w + a) mod w = i).
  { intros i a Hi Ha. rewrite N.add_mod_idemp_l by lia. replace (i + (w - a) + a) with (i + 1 * w) by lia.
    rewrite N.mod_add by lia. apply N.mod_small. exact Hi. }
  assert (T : forall i, i mod w < w) by (intros; apply N.mod_lt; lia).
  split; apply N.bits_inj; intros i; (destruct (N.ltb_spec i w) as [Hi|Hi];
    [|rewrite !(testbit_high w) by (auto using rotl_lt, rotr_lt'); reflexivity]).
  - rewrite rotr_bits, rotl_bits by auto. f_equal.
    rewrite N.add_mod_idemp_l by lia. replace (i + n + (w - n)) with (i + 1 * w) by lia.
    rewrite N.mod_add by lia. apply N.mod_small. exact Hi.
  - rewrite rotl_bits, rotr_bits by auto. f_equal. apply M; lia.
Qed.
Lemma byteswap_invol : (forall v, v < 2 ^ 16 -> byteswap16 (byteswap16 v) = v) /\
  (forall v, v < 2 ^ 32 -> byteswap32 (byteswap32 v) = v) /\
  (forall v, v < 2 ^ 64 -> byteswap64 (byteswap64 v) = v).
Proof.
  split; [exact byteswap16_invol|]. split; [|exact byteswap64_invol].
  intros v Hv. apply N.bits_inj. intros i. destruct (N.ltb_spec i 32) as [Hi|Hi].
  - destruct (mirror_mirror 4 i Hi) as [M1 M2]. rewrite !byteswap32_bits by auto. f_equal. exact M2.
  - rewrite !(testbit_high 32) by (auto using byteswap32_lt). reflexivity.
Qed.
