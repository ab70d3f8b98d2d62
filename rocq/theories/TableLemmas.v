(** * Bytes of words, for lookup-table based round functions. *)
From Verif Require Import Base Lemmas.

Lemma byte_at_0 n : byte_at 0 n = 0.
Proof. unfold byte_at. rewrite N.shiftr_0_l. reflexivity. Qed.

Lemma byte_at_lxor x y n : byte_at (N.lxor x y) n = N.lxor (byte_at x n) (byte_at y n).
Proof.
  unfold byte_at. rewrite N.shiftr_lxor. apply N.bits_inj. intros i.
  rewrite N.lxor_spec, !N.land_spec, N.lxor_spec.
  destruct (N.testbit 255 i); rewrite ?andb_true_r, ?andb_false_r; reflexivity.
Qed.

Lemma byte_at_lt x n : byte_at x n < 256.
Proof. unfold byte_at. rewrite land255_mod. apply N.mod_lt. discriminate. Qed.

Lemma nth_le_bytes k : forall x j, (j < k)%nat ->
  nth j (le_bytes k x) 0 = byte_at x (N.of_nat (8 * j)).
Proof.
  induction k; intros x j Hj; [lia|]. cbn [le_bytes]. destruct j.
  - cbn [nth]. unfold byte_at. rewrite Nat.mul_0_r. cbn [N.of_nat]. rewrite N.shiftr_0_r. reflexivity.
  - cbn [nth]. rewrite IHk by lia. unfold byte_at. rewrite N.shiftr_shiftr.
    do 2 f_equal. lia.
Qed.

Lemma nth_words_bytes k ws : forall i j, (j < k)%nat ->
  nth (k * i + j) (words_bytes k ws) 0 = byte_at (nth i ws 0) (N.of_nat (8 * j)).
Proof.
  unfold words_bytes. induction ws as [|w ws IH]; intros i j Hj; cbn [flat_map].
  - destruct i; cbn [nth]; rewrite byte_at_0;
      destruct (k * _ + j)%nat; reflexivity.
  - destruct i.
    + rewrite Nat.mul_0_r, Nat.add_0_l, app_nth1 by (rewrite le_bytes_length; auto).
      cbn [nth]. apply nth_le_bytes; auto.
    + rewrite app_nth2 by (rewrite le_bytes_length; lia). rewrite le_bytes_length.
      cbn [nth]. rewrite <- IH by auto. f_equal. lia.
Qed.

Lemma le_bytes_lxor k : forall x y,
  le_bytes k (N.lxor x y) = map2 N.lxor (le_bytes k x) (le_bytes k y).
Proof.
  induction k; intros; cbn [le_bytes map2]; [reflexivity|].
  rewrite N.shiftr_lxor, IHk. f_equal.
  pose proof (byte_at_lxor x y 0) as E. unfold byte_at in E. rewrite !N.shiftr_0_r in E. exact E.
Qed.

Lemma map2_app {A B C} (f : A -> B -> C) a : forall a' b b', length a = length a' ->
  map2 f (a ++ b) (a' ++ b') = map2 f a a' ++ map2 f b b'.
Proof.
  induction a as [|x a IHa]; intros [|y a'] c c' H; try discriminate; cbn [app map2]; [reflexivity|].
  f_equal. apply IHa. cbn in H. lia.
Qed.

Lemma map2_length {A B C} (f : A -> B -> C) a : forall b, length (map2 f a b) = Nat.min (length a) (length b).
Proof. induction a; destruct b; cbn [map2 length Nat.min]; auto. Qed.

Lemma map2_zeros a : forall k, length a = k -> map2 N.lxor a (zeros k) = a.
Proof.
  induction a as [|x a IH]; intros k <-; [reflexivity|]. cbn [length]. unfold zeros. cbn [repeat map2].
  rewrite N.lxor_0_r. f_equal. apply IH. reflexivity.
Qed.

Lemma words_bytes_lxor k a : forall b, length a = length b ->
  words_bytes k (map2 N.lxor a b) = map2 N.lxor (words_bytes k a) (words_bytes k b).
Proof.
  unfold words_bytes. induction a; destruct b; intros H; try discriminate; [reflexivity|].
  cbn [map2 flat_map]. rewrite map2_app by (rewrite !le_bytes_length; reflexivity).
  rewrite le_bytes_lxor. f_equal. apply IHa. cbn in H. lia.
Qed.

Lemma map2_comm (f : N -> N -> N) (Hf : forall x y, f x y = f y x) a : forall b, map2 f a b = map2 f b a.
Proof. induction a; destruct b; cbn [map2]; [reflexivity..|]. rewrite Hf, IHa. reflexivity. Qed.

Lemma map2_assoc (f : N -> N -> N) (Hf : forall x y z, f (f x y) z = f x (f y z)) a :
  forall b c, map2 f (map2 f a b) c = map2 f a (map2 f b c).
Proof. induction a; destruct b, c; cbn [map2]; [reflexivity..|]. rewrite Hf, IHa. reflexivity. Qed.

Lemma map2_nth (f : N -> N -> N) a : forall b i, (i < length a)%nat -> (i < length b)%nat ->
  nth i (map2 f a b) 0 = f (nth i a 0) (nth i b 0).
Proof.
  induction a; destruct b; intros i Ha Hb; cbn [length] in *; try lia.
  destruct i; cbn [map2 nth]; [reflexivity|]. apply IHa; lia.
Qed.

Lemma words_bytes_le_words k n : forall d, bytes_ok d -> length d = (n * k)%nat ->
  words_bytes k (le_words k n d) = d.
Proof.
  unfold words_bytes. induction n; intros d Hd Hl; cbn [le_words flat_map].
  - destruct d; [reflexivity|discriminate].
  - rewrite IHn.
    + replace k with (length (firstn k d)) at 1 by (rewrite firstn_length; nia).
      rewrite le_bytes_word by (apply Forall_firstn; auto). apply firstn_skipn.
    + apply Forall_skipn. auto.
    + rewrite skipn_length. nia.
Qed.

Lemma nth_bytes_lt l i : bytes_ok l -> nth i l 0 < 256.
Proof.
  intros H. destruct (Nat.lt_ge_cases i (length l)).
  - revert H. unfold bytes_ok. rewrite Forall_forall. intros F. apply F, nth_In. auto.
  - rewrite nth_overflow by auto. reflexivity.
Qed.

Lemma map_nth_lt {A} (f : A -> N) (l : list A) i d : (i < length l)%nat ->
  nth i (map f l) 0 = f (nth i l d).
Proof.
  intros. rewrite (nth_indep _ 0 (f d)) by (rewrite map_length; auto). apply map_nth.
Qed.

(** Folding through a homomorphism, with an invariant of the concrete state. *)
Lemma fold_left_hom {A B X} (g : A -> B) (f : A -> X -> A) (f' : B -> X -> B)
  (I : A -> Prop) (Q : X -> Prop) l : forall a,
  (forall a x, I a -> Q x -> g (f a x) = f' (g a) x /\ I (f a x)) -> Forall Q l -> I a ->
  g (fold_left f l a) = fold_left f' l (g a) /\ I (fold_left f l a).
Proof.
  induction l as [|x l IH]; intros a H HQ Ha; cbn [fold_left]; [auto|].
  inversion HQ; subst. destruct (H a x Ha) as [E Ia]; auto. rewrite <- E. apply IH; auto.
Qed.

Lemma divmod8 n : n = (8 * (n / 8) + n mod 8)%nat.
Proof. apply Nat.div_mod. lia. Qed.

(** A sweep over all bytes and small indices. *)
Lemma sweep3 (f : nat -> nat -> N -> bool) a b :
  forallb (fun j => forallb (fun k => forallb (f j k) (map N.of_nat (seq 0 256))) (seq 0 b)) (seq 0 a) = true ->
  forall j k x, (j < a)%nat -> (k < b)%nat -> x < 256 -> f j k x = true.
Proof.
  intros H j k x Hj Hk Hx. rewrite forallb_forall in H.
  specialize (H j ltac:(apply in_seq; lia)). rewrite forallb_forall in H.
  specialize (H k ltac:(apply in_seq; lia)). revert x Hx. apply forallb_bytes. exact H.
Qed.

(** More bytes than needed. *)
Lemma le_bytes_ext n : forall k y, y < 256 ^ N.of_nat n -> le_bytes (n + k) y = le_bytes n y ++ zeros k.
Proof.
  induction n; intros k y Hy.
  - cbn [Nat.add le_bytes app]. change (256 ^ N.of_nat 0) with 1 in Hy.
    replace y with 0 by lia. clear. induction k; cbn [le_bytes]; [reflexivity|].
    change (N.shiftr 0 8) with 0. rewrite IHk. reflexivity.
  - cbn [Nat.add le_bytes app]. f_equal. apply IHn. rewrite shiftr8_div.
    apply N.div_lt_upper_bound; [discriminate|].
    rewrite Nat2N.inj_succ, N.pow_succ_r' in Hy. lia.
Qed.

(** Concatenation of little-endian numbers. *)
Lemma le_word_app a : forall b, le_word (a ++ b) = (le_word a + 256 ^ N.of_nat (length a) * le_word b)%N.
Proof.
  induction a as [|x a IH]; intros b; cbn [app le_word length].
  - cbn [N.of_nat]. rewrite N.pow_0_r. lia.
  - rewrite IH, Nat2N.inj_succ, N.pow_succ_r'. lia.
Qed.
