(** * left_encode and right_encode. *)
From Verif Require Import Base Lemmas WordLemmas SpecCommon Shake Sha3Spec.

Lemma num_bytes_small x : x < 256 -> num_bytes x = 1%nat.
Proof.
  intros H. unfold num_bytes. destruct (N.eqb_spec x 0); [reflexivity|].
  rewrite N.div_small; [reflexivity|]. apply N.log2_lt_pow2; [lia|]. exact H.
Qed.

Lemma num_bytes_rec x : 256 <= x -> num_bytes x = S (num_bytes (N.shiftr x 8)).
Proof.
  intros H. unfold num_bytes.
  assert (L : 8 <= N.log2 x) by (apply N.log2_le_pow2; [lia|exact H]).
  destruct (N.eqb_spec x 0); [lia|].
  destruct (N.eqb_spec (N.shiftr x 8) 0) as [E|E].
  - rewrite shiftr8_div in E. apply N.div_small_iff in E; lia.
  - rewrite N.log2_shiftr.
    replace (N.log2 x) with (N.log2 x - 8 + 1 * 8) at 1 by lia.
    rewrite N.div_add by lia. lia.
Qed.

Lemma count_bytes_eq f : forall x n, x < 256 ^ N.of_nat (S f) ->
  count_bytes (S f) x n = (n + num_bytes x - 1)%nat.
Proof.
  induction f; intros x n Hx; cbn [count_bytes].
  - change (256 ^ N.of_nat 1) with 256 in Hx. rewrite num_bytes_small by auto.
    rewrite shiftr8_div, N.div_small by auto. cbn [N.eqb]. lia.
  - destruct (N.eqb_spec (N.shiftr x 8) 0) as [E|E].
    + rewrite num_bytes_small; [lia|]. rewrite shiftr8_div in E. apply N.div_small_iff in E; lia.
    + assert (256 <= x).
      { rewrite shiftr8_div in E. destruct (N.lt_ge_cases x 256); auto. rewrite N.div_small in E; lia. }
      change (count_bytes (S f) (N.shiftr x 8) (S n) = (n + num_bytes x - 1)%nat).
      rewrite IHf.
      * rewrite (num_bytes_rec x) by auto. lia.
      * rewrite shiftr8_div. apply N.div_lt_upper_bound; [lia|].
        replace (N.of_nat (S (S f))) with (N.succ (N.of_nat (S f))) in Hx by lia.
        rewrite N.pow_succ_r' in Hx. exact Hx.
Qed.

Lemma enc_loop_eq n : forall i x acc, enc_loop n i x acc = rev (le_bytes n (N.shiftr x (8 * i))) ++ acc.
Proof.
  induction n; intros i x acc; [reflexivity|].
  cbn [enc_loop le_bytes rev]. rewrite IHn, N.shiftr_shiftr, <- app_assoc.
  replace (8 * (i + 1)) with (8 * i + 8) by lia. reflexivity.
Qed.

Lemma enc_loop_be n x : enc_loop n 0 x [] = be_bytes n x.
Proof. rewrite enc_loop_eq, app_nil_r. cbn [N.mul]. rewrite N.shiftr_0_r. reflexivity. Qed.

Lemma left_encode_eq x : x < 2 ^ 64 -> left_encode x = left_enc x.
Proof.
  intros H. unfold left_encode, left_enc. rewrite enc_loop_be.
  rewrite (count_bytes_eq 7) by exact H. replace (1 + num_bytes x - 1)%nat with (num_bytes x) by lia.
  reflexivity.
Qed.

Lemma right_encode_eq x : x < 2 ^ 64 -> right_encode x false = right_enc x.
Proof.
  intros H. unfold right_encode, right_enc. cbn [andb]. rewrite enc_loop_be.
  rewrite (count_bytes_eq 7) by exact H. replace (1 + num_bytes x - 1)%nat with (num_bytes x) by lia.
  reflexivity.
Qed.

Lemma left_enc_ok x : x < 2 ^ 64 -> bytes_ok (left_enc x).
Proof.
  intros H. constructor; [|apply be_bytes_ok].
  unfold num_bytes. destruct (N.eqb_spec x 0); [reflexivity|].
  assert (N.log2 x < 64) by (apply N.log2_lt_pow2; [lia|exact H]).
  assert (N.log2 x / 8 < 8) by (apply N.div_lt_upper_bound; lia). lia.
Qed.

Lemma encode_string_ok s : bytes_ok s -> bytes_ok (encode_string s).
Proof. intros. apply bytes_ok_app; [apply left_enc_ok, N.mod_lt; discriminate|auto]. Qed.
