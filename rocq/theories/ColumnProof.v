(** * The lookup-table rounds compute substitution, rotation and matrix multiplication. *)
From Verif Require Import Base Absorb Lemmas AbsorbProof MdState SpecCommon MdProof TableLemmas GfSpec
  ColumnSpec TTable.

Lemma colmat_length C f : length (colmat C f) = (8 * C)%nat.
Proof. unfold colmat. rewrite map_length, seq_length. reflexivity. Qed.
Lemma colmat_nth C f n : (n < 8 * C)%nat -> nth n (colmat C f) 0 = f (n mod 8)%nat (n / 8)%nat.
Proof. intros. unfold colmat. apply (nth_map_seq (fun n => f (n mod 8)%nat (n / 8)%nat)). auto. Qed.
Lemma colmat_cell C f r c : (r < 8)%nat -> (c < C)%nat -> cell (colmat C f) r c = f r c.
Proof.
  intros. unfold cell. rewrite colmat_nth by lia. f_equal.
  - rewrite Nat.add_comm, Nat.mul_comm, Nat.mod_add, Nat.mod_small by lia. reflexivity.
  - rewrite Nat.mul_comm, Nat.div_add_l, Nat.div_small by lia. lia.
Qed.

(** A matrix given by its columns as words. *)
Lemma colmat_words C f g : length g = C ->
  (forall r c, (r < 8)%nat -> (c < C)%nat -> byte_at (nth c g 0) (N.of_nat (8 * r)) = f r c) ->
  words_bytes 8 g = colmat C f.
Proof.
  intros Hl H. apply (nth_ext _ _ 0 0).
  - rewrite words_bytes_length, colmat_length, Hl. lia.
  - intros n Hn. rewrite words_bytes_length, Hl in Hn.
    assert (Hc : (n / 8 < C)%nat) by (apply Nat.div_lt_upper_bound; lia).
    assert (Hr : (n mod 8 < 8)%nat) by (apply Nat.mod_upper_bound; lia).
    rewrite colmat_nth by lia. rewrite (divmod8 n) at 1. rewrite nth_words_bytes by auto. auto.
Qed.

Section Table.
  Variables (T : list (list N)) (C : nat) (sigma sigma' : nat -> nat) (S : nat -> N -> N)
    (poly : N) (v : list N).
  Hypothesis HC : (0 < C)%nat.
  Hypothesis Hsigma : forall j, (j < 8)%nat -> sigma j = sigma' j.
  Hypothesis HT : forall j k x, (j < 8)%nat -> (k < 8)%nat -> x < 256 ->
    byte_at (tbl (nth j T []) x) (N.of_nat (8 * k)) = gf_mul poly (nth ((j + 8 - k) mod 8) v 0) (S j x).

  Lemma ttable_eq x : length x = C ->
    words_bytes 8 (ttable T C sigma x) =
    col_mix C poly v (col_shift C sigma' (col_sub C S (words_bytes 8 x))).
  Proof.
    intros Hx. unfold col_mix. apply colmat_words.
    - unfold ttable. rewrite map_length, seq_length. reflexivity.
    - intros r c Hr Hc. unfold ttable. rewrite nth_map_seq by auto. unfold ttable_col. cbv zeta.
      rewrite !byte_at_lxor.
      assert (E : forall j, (j < 8)%nat ->
        byte_at (tbl (nth j T []) (byte_at (nthN ((c + sigma j) mod C) x) (N.of_nat (8 * j)))) (N.of_nat (8 * r)) =
        gf_mul poly (nth ((j + 8 - r) mod 8) v 0)
          (cell (col_shift C sigma' (col_sub C S (words_bytes 8 x))) j c)).
      { intros j Hj. rewrite HT by auto using byte_at_lt. f_equal.
        unfold col_shift, col_sub.
        assert (Hm : ((c + sigma' j) mod C < C)%nat) by (apply Nat.mod_upper_bound; lia).
        rewrite !colmat_cell by auto. f_equal. unfold cell. rewrite nth_words_bytes by auto.
        rewrite Hsigma by auto. reflexivity. }
      rewrite !E by lia. cbn [xor_sum]. rewrite N.lxor_0_l. reflexivity.
  Qed.
  Lemma ttable_length x : length (ttable T C sigma x) = C.
  Proof. unfold ttable. rewrite map_length, seq_length. reflexivity. Qed.
End Table.

(** Two rounds per iteration. *)
Lemma fold_pairs {A} (F : A -> nat -> A) k : forall a,
  fold_left (fun a i => F (F a (2 * i)%nat) (2 * i + 1)%nat) (seq 0 k) a = fold_left F (seq 0 (2 * k)) a.
Proof.
  induction k; intros a; [reflexivity|].
  rewrite seq_S, fold_left_app, IHk. cbn [fold_left Nat.add].
  replace (2 * S k)%nat with (S (S (2 * k))) by lia. rewrite !seq_S, !fold_left_app.
  cbn [fold_left Nat.add]. rewrite Nat.add_1_r. reflexivity.
Qed.

Section Transform.
  Variables roundP roundQ : nat -> list N -> N -> list N.
  Variables (R : nat) (SP SQ : nat -> list N -> list N).
  Hypothesis HP : forall x i, length x = R -> (i < 16)%nat ->
    words_bytes 8 (roundP R x (N.of_nat i)) = SP i (words_bytes 8 x) /\ length (roundP R x (N.of_nat i)) = R.
  Hypothesis HQ : forall x i, length x = R -> (i < 16)%nat ->
    words_bytes 8 (roundQ R x (N.of_nat i)) = SQ i (words_bytes 8 x) /\ length (roundQ R x (N.of_nat i)) = R.

  Definition perm (S : nat -> list N -> list N) (x : list N) : list N :=
    fold_left (fun A i => S i A) (seq 0 (cl_rounds R)) x.

  Lemma cl_rounds_even : (cl_rounds R = 2 * (cl_rounds R / 2) /\ cl_rounds R <= 16)%nat.
  Proof. unfold cl_rounds. destruct (R =? 16)%nat; split; try reflexivity; lia. Qed.

  Lemma perm_hom rnd S : (forall x i, length x = R -> (i < 16)%nat ->
      words_bytes 8 (rnd R x (N.of_nat i)) = S i (words_bytes 8 x) /\ length (rnd R x (N.of_nat i)) = R) ->
    forall x, length x = R ->
    words_bytes 8 (fold_left (fun A i => rnd R A (N.of_nat i)) (seq 0 (cl_rounds R)) x) =
      perm S (words_bytes 8 x) /\
    length (fold_left (fun A i => rnd R A (N.of_nat i)) (seq 0 (cl_rounds R)) x) = R.
  Proof.
    intros H x Hx. unfold perm.
    apply (fold_left_hom (words_bytes 8) (fun A i => rnd R A (N.of_nat i)) (fun A i => S i A)
             (fun x => length x = R) (fun i => (i < 16)%nat)); auto.
    apply Forall_forall. intros i Hi. apply in_seq in Hi. pose proof cl_rounds_even. lia.
  Qed.

  Lemma fold_PQ k : forall p q,
    fold_left (fun a i =>
        let '(AP, AQ) := a in
        let r := N.of_nat (2 * i) in
        (roundP R (roundP R AP r) (r + 1), roundQ R (roundQ R AQ r) (r + 1))) (seq 0 k) (p, q) =
    (fold_left (fun A i => roundP R A (N.of_nat i)) (seq 0 (2 * k)) p,
     fold_left (fun A i => roundQ R A (N.of_nat i)) (seq 0 (2 * k)) q).
  Proof.
    assert (E : forall i, N.of_nat (2 * i) + 1 = N.of_nat (2 * i + 1)) by (intros; lia).
    intros p q. rewrite <- !fold_pairs. generalize (seq 0 k). intros l. revert p q.
    induction l as [|i l IH]; intros p q; cbn [fold_left]; [reflexivity|].
    cbv zeta. rewrite IH, E. reflexivity.
  Qed.

  Lemma cl_transform_ok h m : (R <= length h)%nat -> length m = R ->
    exists a, cl_transform roundP roundQ R h m = a ++ skipn R h /\ length a = R /\
      words_bytes 8 a =
        col_xor (col_xor (perm SP (col_xor (words_bytes 8 (firstn R h)) (words_bytes 8 m)))
                         (perm SQ (words_bytes 8 m))) (words_bytes 8 (firstn R h)).
  Proof.
    intros Hh Hm. assert (Lf : length (firstn R h) = R) by (rewrite firstn_length; lia).
    unfold cl_transform. cbv zeta. rewrite fold_PQ.
    destruct cl_rounds_even as [<- _].
    assert (Lx : length (map2 N.lxor (firstn R h) m) = R) by (rewrite map2_length, Lf, Hm; lia).
    destruct (perm_hom roundP SP HP _ Lx) as [E1 L1].
    destruct (perm_hom roundQ SQ HQ _ Hm) as [E2 L2].
    eexists. split; [reflexivity|]. split.
    - rewrite !map2_length, L1, L2, Lf. lia.
    - rewrite words_bytes_lxor by (rewrite map2_length, L1, L2, Lf; lia).
      rewrite words_bytes_lxor by congruence. rewrite E1, E2. rewrite words_bytes_lxor by congruence.
      reflexivity.
  Qed.

  Lemma cl_output_ok h : (R <= length h)%nat ->
    exists a, cl_output roundP R h = a ++ skipn R h /\ length a = R /\
      words_bytes 8 a = col_xor (perm SP (words_bytes 8 (firstn R h))) (words_bytes 8 (firstn R h)).
  Proof.
    intros Hh. assert (Lf : length (firstn R h) = R) by (rewrite firstn_length; lia).
    unfold cl_output. cbv zeta.
    assert (E : fold_left (fun t i => roundP R (roundP R t (N.of_nat (2 * i))) (N.of_nat (2 * i) + 1))
       (seq 0 (cl_rounds R / 2)) (firstn R h) =
       fold_left (fun A i => roundP R A (N.of_nat i)) (seq 0 (cl_rounds R)) (firstn R h)).
    { destruct cl_rounds_even as [-> _]. rewrite Nat.mul_comm, Nat.div_mul, Nat.mul_comm by lia.
      rewrite <- fold_pairs. apply fold_left_ext. intros a i. f_equal. lia. }
    rewrite E. destruct (perm_hom roundP SP HP _ Lf) as [E1 L1].
    eexists. split; [reflexivity|]. split; [rewrite map2_length, L1, Lf; lia|].
    rewrite words_bytes_lxor by congruence. rewrite E1. apply map2_comm. apply N.lxor_comm.
  Qed.
End Transform.

(** The blocks of a padded message, split at the start of the incomplete block. *)
Lemma md_pad_blocks bs lenf B T n : (0 < bs)%nat -> length B = (n * bs)%nat -> (length T < bs)%nat ->
  (length lenf < bs)%nat ->
  blocks bs (md_pad bs lenf (B ++ T)) = blocks_n n bs B ++
    (if (length T + 1 + length lenf <=? bs)%nat
     then [T ++ [128] ++ zeros (bs - length lenf - 1 - length T) ++ lenf]
     else [T ++ [128] ++ zeros (bs - 1 - length T); zeros (bs - length lenf) ++ lenf]).
Proof.
  intros Hb HB HT Hl. unfold md_pad. rewrite app_length, HB, <- app_assoc.
  destruct (Nat.leb_spec (length T + 1 + length lenf) bs) as [H|H].
  - rewrite md_zeros_small by lia.
    rewrite (blocks_app n 1) by (rewrite ?app_length, ?zeros_length; cbn [length]; lia).
    f_equal. cbn [blocks_n]. f_equal. rewrite firstn_all2; [reflexivity|].
    rewrite ?app_length, ?zeros_length; cbn [length]; lia.
  - rewrite md_zeros_big by lia.
    rewrite (blocks_app n 2) by (rewrite ?app_length, ?zeros_length; cbn [length]; lia).
    f_equal.
    replace (2 * bs - length lenf - 1 - length T)%nat with ((bs - 1 - length T) + (bs - length lenf))%nat by lia.
    unfold zeros. rewrite repeat_app.
    replace (T ++ [128] ++ (repeat 0 (bs - 1 - length T) ++ repeat 0 (bs - length lenf)) ++ lenf)
      with ((T ++ [128] ++ repeat 0 (bs - 1 - length T)) ++ (repeat 0 (bs - length lenf) ++ lenf))
      by (rewrite <- !app_assoc; reflexivity).
    cbn [blocks_n].
    rewrite firstn_app_exact by (rewrite !app_length, repeat_length; cbn [length]; lia).
    rewrite skipn_app_exact by (rewrite !app_length, repeat_length; cbn [length]; lia).
    do 2 f_equal. rewrite firstn_all2; [reflexivity|]. rewrite app_length, repeat_length; lia.
Qed.
