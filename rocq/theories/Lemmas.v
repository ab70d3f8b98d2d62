(** * Lemmas about the primitives of Base. *)
From Verif Require Import Base.

(** ** Lists *)

Lemma zeros_length n : length (zeros n) = n.
Proof. apply repeat_length. Qed.

Lemma firstn_app_exact {A} (a b : list A) n : n = length a -> firstn n (a ++ b) = a.
Proof. intros ->. rewrite firstn_app, Nat.sub_diag, firstn_all. cbn. apply app_nil_r. Qed.

Lemma skipn_app_exact {A} (a b : list A) n : n = length a -> skipn n (a ++ b) = b.
Proof. intros ->. rewrite skipn_app, Nat.sub_diag, skipn_all. reflexivity. Qed.

Lemma firstn_skipn_len {A} (l : list A) n k :
  (n + k <= length l)%nat -> length (firstn k (skipn n l)) = k.
Proof. intros. rewrite firstn_length, skipn_length. lia. Qed.

Lemma overlay_length dst pos src :
  (pos + length src <= length dst)%nat -> length (overlay dst pos src) = length dst.
Proof.
  intros. unfold overlay. rewrite !app_length, firstn_length, skipn_length. lia.
Qed.

Lemma overlay_app a j src p :
  p = length a -> (length src <= length j)%nat ->
  overlay (a ++ j) p src = a ++ src ++ skipn (length src) j.
Proof.
  intros -> H. unfold overlay. rewrite firstn_app_exact by reflexivity.
  rewrite skipn_app. replace (length a + length src - length a)%nat with (length src) by lia.
  rewrite skipn_all2 by lia. reflexivity.
Qed.

Lemma memcpy_ok dst pos src n :
  (pos + n <= length dst)%nat -> (n <= length src)%nat ->
  memcpy dst pos src n = Ok (overlay dst pos (firstn n src)).
Proof.
  intros. unfold memcpy.
  rewrite (proj2 (Nat.leb_le _ _)) by lia. rewrite (proj2 (Nat.leb_le _ _)) by lia. reflexivity.
Qed.

Lemma memset_ok dst pos v n :
  (pos + n <= length dst)%nat -> memset dst pos v n = Ok (overlay dst pos (repeat v n)).
Proof. intros. unfold memset. rewrite (proj2 (Nat.leb_le _ _)) by lia. reflexivity. Qed.

Lemma store_ok dst pos v :
  (pos < length dst)%nat -> store dst pos v = Ok (overlay dst pos [v]).
Proof. intros. unfold store. rewrite (proj2 (Nat.ltb_lt _ _)) by lia. reflexivity. Qed.

Lemma load_ok src pos n :
  (pos + n <= length src)%nat -> load src pos n = Ok (firstn n (skipn pos src)).
Proof. intros. unfold load. rewrite (proj2 (Nat.leb_le _ _)) by lia. reflexivity. Qed.

Lemma size_sub_ok a b : (b <= a)%nat -> size_sub a b = Ok (a - b)%nat.
Proof. intros. unfold size_sub. rewrite (proj2 (Nat.leb_le _ _)) by lia. reflexivity. Qed.

(** Versions with the buffer split into its used part [a] and the rest [j]. *)
Lemma memcpy_app a j src p n :
  p = length a -> (n <= length src)%nat -> (n <= length j)%nat ->
  memcpy (a ++ j) p src n = Ok (a ++ firstn n src ++ skipn n j).
Proof.
  intros. rewrite memcpy_ok by (rewrite ?app_length; lia).
  f_equal. rewrite overlay_app by (rewrite ?firstn_length; lia).
  rewrite firstn_length, Nat.min_l by lia. reflexivity.
Qed.

Lemma memset_app a j v p n :
  p = length a -> (n <= length j)%nat ->
  memset (a ++ j) p v n = Ok (a ++ repeat v n ++ skipn n j).
Proof.
  intros. rewrite memset_ok by (rewrite ?app_length; lia).
  f_equal. rewrite overlay_app by (rewrite ?repeat_length; lia).
  rewrite repeat_length. reflexivity.
Qed.

Lemma store_app a j v p :
  p = length a -> (1 <= length j)%nat ->
  store (a ++ j) p v = Ok (a ++ [v] ++ skipn 1 j).
Proof.
  intros. rewrite store_ok by (rewrite ?app_length; lia).
  f_equal. apply overlay_app; cbn; lia.
Qed.

Lemma load_app a j n : n = length a -> load (a ++ j) 0 n = Ok a.
Proof.
  intros. rewrite load_ok by (rewrite app_length; lia). cbn [skipn].
  rewrite firstn_app_exact by lia. reflexivity.
Qed.

Lemma load_all a n : n = length a -> load a 0 n = Ok a.
Proof. intros. rewrite <- (app_nil_r a) at 1. apply load_app. auto. Qed.

(** ** Words *)

Lemma trunc_mod w x : trunc w x = x mod 2 ^ w.
Proof. apply N.land_ones. Qed.

Lemma trunc_lt w x : trunc w x < 2 ^ w.
Proof. rewrite trunc_mod. apply N.mod_lt, N.pow_nonzero. discriminate. Qed.

Lemma trunc_small w x : x < 2 ^ w -> trunc w x = x.
Proof. intros. rewrite trunc_mod. apply N.mod_small. auto. Qed.

Lemma trunc_trunc w x : trunc w (trunc w x) = trunc w x.
Proof. apply trunc_small, trunc_lt. Qed.

Lemma trunc_add_l w x y : trunc w (trunc w x + y) = trunc w (x + y).
Proof. rewrite !trunc_mod. apply N.add_mod_idemp_l, N.pow_nonzero. discriminate. Qed.

Lemma trunc_add_r w x y : trunc w (x + trunc w y) = trunc w (x + y).
Proof. rewrite !trunc_mod. apply N.add_mod_idemp_r, N.pow_nonzero. discriminate. Qed.

Lemma addw_mod w x y : addw w x y = (x + y) mod 2 ^ w.
Proof. apply trunc_mod. Qed.

Lemma addw_lt w x y : addw w x y < 2 ^ w.
Proof. apply trunc_lt. Qed.

Lemma addw_comm w x y : addw w x y = addw w y x.
Proof. unfold addw. rewrite N.add_comm. reflexivity. Qed.

Lemma addw_assoc w x y z : addw w (addw w x y) z = addw w x (addw w y z).
Proof. unfold addw. rewrite trunc_add_l, trunc_add_r, N.add_assoc. reflexivity. Qed.

(** Testbit characterizations. *)
Lemma trunc_spec w x i : N.testbit (trunc w x) i = N.testbit x i && (i <? w).
Proof.
  unfold trunc. rewrite N.land_spec.
  destruct (N.ltb_spec i w).
  - rewrite N.ones_spec_low by lia. reflexivity.
  - rewrite N.ones_spec_high by lia. reflexivity.
Qed.

Lemma shlw_spec w x n i :
  N.testbit (shlw w x n) i = N.testbit x (i - n) && (n <=? i) && (i <? w).
Proof.
  unfold shlw. rewrite trunc_spec. destruct (N.leb_spec n i).
  - rewrite N.shiftl_spec_high' by lia. rewrite andb_true_r. reflexivity.
  - rewrite N.shiftl_spec_low by lia. rewrite andb_false_r. reflexivity.
Qed.

Lemma shrw_spec x n i : N.testbit (shrw x n) i = N.testbit x (i + n).
Proof. apply N.shiftr_spec'. Qed.

Lemma testbit_high w x i : x < 2 ^ w -> w <= i -> N.testbit x i = false.
Proof.
  intros Hx Hi. destruct (N.eq_dec x 0) as [->|Hx0]. { apply N.bits_0. }
  apply N.bits_above_log2. assert (N.log2 x < w); [|lia].
  apply N.log2_lt_pow2; lia.
Qed.

Lemma lt_pow2_bits w x : (forall i, w <= i -> N.testbit x i = false) -> x < 2 ^ w.
Proof.
  intros H. destruct (N.eq_dec x 0) as [->|Hx0].
  - apply N.neq_0_lt_0, N.pow_nonzero. discriminate.
  - destruct (N.ltb_spec x (2 ^ w)); [auto|].
    exfalso. specialize (H (N.log2 x)).
    rewrite N.bit_log2 in H by auto. discriminate H.
    apply N.log2_le_pow2; lia.
Qed.

Lemma rotl_spec w x n i :
  0 < n -> n < w -> x < 2 ^ w ->
  N.testbit (rotl w x n) i = (i <? w) && N.testbit x (if n <=? i then i - n else i + w - n).
Proof.
  intros. unfold rotl. rewrite N.lor_spec, shlw_spec, shrw_spec.
  destruct (N.leb_spec n i); destruct (N.ltb_spec i w); cbn [andb].
  - rewrite (testbit_high w x (i + (w - n))) by lia. rewrite !andb_true_r, orb_false_r. reflexivity.
  - rewrite (testbit_high w x (i + (w - n))) by lia. rewrite !andb_true_r, andb_false_r. reflexivity.
  - rewrite andb_false_r. cbn. f_equal. lia.
  - lia.
Qed.

Lemma rotr_rotl w x n : 0 < n -> n < w -> rotr w x n = rotl w x (w - n).
Proof.
  intros. unfold rotr, rotl. replace (w - (w - n)) with n by lia. apply N.lor_comm.
Qed.

Lemma rotl_lt w x n : 0 < n -> n < w -> x < 2 ^ w -> rotl w x n < 2 ^ w.
Proof.
  intros. apply lt_pow2_bits. intros i Hi. rewrite rotl_spec by auto.
  destruct (N.ltb_spec i w); [lia|reflexivity].
Qed.

Lemma lxor_lt w x y : x < 2 ^ w -> y < 2 ^ w -> N.lxor x y < 2 ^ w.
Proof.
  intros. apply lt_pow2_bits. intros. rewrite N.lxor_spec, !(testbit_high w) by auto. reflexivity.
Qed.

Lemma land_lt w x y : x < 2 ^ w -> N.land x y < 2 ^ w.
Proof.
  intros. apply lt_pow2_bits. intros. rewrite N.land_spec, (testbit_high w x) by auto. reflexivity.
Qed.

Lemma lor_lt w x y : x < 2 ^ w -> y < 2 ^ w -> N.lor x y < 2 ^ w.
Proof.
  intros. apply lt_pow2_bits. intros. rewrite N.lor_spec, !(testbit_high w) by auto. reflexivity.
Qed.

Lemma notw_spec w x i : N.testbit (notw w x) i = xorb (N.testbit x i) (i <? w).
Proof.
  unfold notw. rewrite N.lxor_spec. f_equal. destruct (N.ltb_spec i w).
  - apply N.ones_spec_low; auto.
  - apply N.ones_spec_high; auto.
Qed.

(** ** Byte representation *)

Lemma le_bytes_length k x : length (le_bytes k x) = k.
Proof. revert x. induction k; intros; cbn; [reflexivity|]. rewrite IHk. reflexivity. Qed.

Lemma be_bytes_length k x : length (be_bytes k x) = k.
Proof. unfold be_bytes. rewrite rev_length. apply le_bytes_length. Qed.

Lemma le_words_length k n d : length (le_words k n d) = n.
Proof. revert d. induction n; intros; cbn; [reflexivity|]. rewrite IHn. reflexivity. Qed.

Lemma be_words_length k n d : length (be_words k n d) = n.
Proof. revert d. induction n; intros; cbn; [reflexivity|]. rewrite IHn. reflexivity. Qed.

Lemma words_bytes_length k ws : length (words_bytes k ws) = (k * length ws)%nat.
Proof.
  unfold words_bytes. induction ws; cbn; [lia|].
  rewrite app_length, IHws, le_bytes_length. lia.
Qed.

Lemma words_bytes_app k a b : words_bytes k (a ++ b) = words_bytes k a ++ words_bytes k b.
Proof. apply flat_map_app. Qed.

Lemma land255_mod x : N.land x 255 = x mod 256.
Proof. change 255 with (N.ones 8). apply N.land_ones. Qed.

Lemma shiftr8_div x : N.shiftr x 8 = x / 256.
Proof. apply N.shiftr_div_pow2. Qed.

Lemma le_bytes_ok k x : bytes_ok (le_bytes k x).
Proof.
  revert x. induction k; intros; cbn; constructor.
  - rewrite land255_mod. apply N.mod_lt. discriminate.
  - apply IHk.
Qed.

Lemma be_bytes_ok k x : bytes_ok (be_bytes k x).
Proof. apply Forall_rev, le_bytes_ok. Qed.

Lemma le_word_bytes k x : le_word (le_bytes k x) = x mod 256 ^ N.of_nat k.
Proof.
  revert x. induction k; intros.
  - cbn. rewrite N.mod_1_r. reflexivity.
  - cbn [le_bytes le_word]. rewrite IHk, land255_mod, shiftr8_div.
    rewrite Nat2N.inj_succ, N.pow_succ_r by lia.
    rewrite N.mod_mul_r by (try discriminate; apply N.pow_nonzero; discriminate). reflexivity.
Qed.

Lemma le_word_lt bs : bytes_ok bs -> le_word bs < 256 ^ N.of_nat (length bs).
Proof.
  induction 1; cbn [le_word length].
  - reflexivity.
  - rewrite Nat2N.inj_succ, N.pow_succ_r by lia. nia.
Qed.

Lemma le_bytes_word bs : bytes_ok bs -> le_bytes (length bs) (le_word bs) = bs.
Proof.
  induction 1; cbn [length le_bytes le_word]; [reflexivity|].
  rewrite land255_mod, shiftr8_div. f_equal.
  - rewrite N.mul_comm, N.mod_add by discriminate. apply N.mod_small; auto.
  - rewrite N.mul_comm, N.div_add by discriminate. rewrite (N.div_small x) by auto. apply IHForall.
Qed.

Lemma le_bytes_inj k x y :
  x < 256 ^ N.of_nat k -> y < 256 ^ N.of_nat k -> le_bytes k x = le_bytes k y -> x = y.
Proof.
  intros Hx Hy H. apply (f_equal le_word) in H. rewrite !le_word_bytes in H.
  rewrite !N.mod_small in H by auto. auto.
Qed.

(** ** Byte strings *)

Lemma Forall_firstn {A} (Q : A -> Prop) n l : Forall Q l -> Forall Q (firstn n l).
Proof. intros H. rewrite <- (firstn_skipn n l) in H. apply Forall_app in H. tauto. Qed.

Lemma Forall_skipn {A} (Q : A -> Prop) n l : Forall Q l -> Forall Q (skipn n l).
Proof. intros H. rewrite <- (firstn_skipn n l) in H. apply Forall_app in H. tauto. Qed.

Lemma bytes_ok_app a b : bytes_ok a -> bytes_ok b -> bytes_ok (a ++ b).
Proof. intros. apply Forall_app. auto. Qed.

Lemma bytes_ok_zeros n : bytes_ok (zeros n).
Proof. unfold zeros. induction n; cbn; constructor; auto. reflexivity. Qed.

Lemma words_bytes_ok k ws : bytes_ok (words_bytes k ws).
Proof.
  unfold words_bytes. induction ws; cbn; [constructor|].
  apply bytes_ok_app; auto. apply le_bytes_ok.
Qed.

#[global] Hint Resolve Forall_firstn Forall_skipn bytes_ok_app bytes_ok_zeros words_bytes_ok
  le_bytes_ok be_bytes_ok : bytes.

(** ** Boolean equality of byte strings *)
Fixpoint list_eqb (a b : list N) : bool :=
  match a, b with
  | [], [] => true
  | x :: r, y :: q => (x =? y) && list_eqb r q
  | _, _ => false
  end.
Lemma list_eqb_eq a : forall b, list_eqb a b = true -> a = b.
Proof.
  induction a; destruct b; cbn [list_eqb]; intros H; try discriminate; [reflexivity|].
  apply andb_true_iff in H. destruct H as [H1 H2]. apply N.eqb_eq in H1. subst. f_equal. auto.
Qed.

(** Finite sweeps. *)
Lemma forallb_bytes (f : N -> bool) :
  forallb f (map N.of_nat (seq 0 256)) = true -> forall b, b < 256 -> f b = true.
Proof.
  intros H b Hb. rewrite forallb_forall in H. apply H.
  apply in_map_iff. exists (N.to_nat b). split; [lia|]. apply in_seq. lia.
Qed.

Lemma nth_map_seq (f : nat -> N) n t : (t < n)%nat -> nth t (map f (seq 0 n)) 0 = f t.
Proof.
  intros. rewrite (nth_indep _ 0 (f 0%nat)) by (rewrite map_length, seq_length; auto).
  rewrite map_nth, seq_nth by auto. reflexivity.
Qed.

Lemma skipn_skipn {A} a : forall b (l : list A), skipn a (skipn b l) = skipn (a + b)%nat l.
Proof.
  intros b. revert a. induction b; intros a l.
  - rewrite Nat.add_0_r. reflexivity.
  - rewrite Nat.add_succ_r. destruct l; cbn [skipn]; [apply skipn_nil|apply IHb].
Qed.
