(** * Linear maps over GF(2) and matrices over GF(2^8) with their inverses (C54). *)
From Verif Require Import Base Lemmas WordLemmas TableLemmas SpecCommon GfSpec ColumnSpec ColumnProof Inj InjArx.
From Coq Require Import ZArith Lia.

Definition linear (f : N -> N) : Prop := forall a b, f (N.lxor a b) = N.lxor (f a) (f b).
Lemma linear_0 f : linear f -> f 0 = 0.
Proof. intros L. specialize (L 0 0). rewrite N.lxor_nilpotent in L. rewrite N.lxor_nilpotent in L. exact L. Qed.
Lemma linear_comp f g : linear f -> linear g -> linear (fun x => g (f x)).
Proof. intros F G a b. rewrite F. apply G. Qed.
Lemma linear_xor f g : linear f -> linear g -> linear (fun x => N.lxor (f x) (g x)).
Proof.
  intros F G a b. rewrite F, G. rewrite !N.lxor_assoc. f_equal. rewrite <- !N.lxor_assoc. f_equal. apply N.lxor_comm.
Qed.
Lemma linear_sum (f : nat -> N -> N) n : (forall j, linear (f j)) -> linear (fun x => xor_sum (fun j => f j x) n).
Proof. intros F. induction n; cbn [xor_sum]; [intros a b; reflexivity|]. apply linear_xor; auto. Qed.
(** Two linear maps which agree on the powers of two below 2^n agree on all n-bit numbers. *)
Lemma linear_ext f g n : linear f -> linear g -> (forall t, (t < n)%nat -> f (2 ^ N.of_nat t) = g (2 ^ N.of_nat t)) ->
  forall x, x < 2 ^ N.of_nat n -> f x = g x.
Proof.
  intros F G. induction n as [|n IH]; intros H x Hx.
  - replace x with 0 by (cbn in Hx; lia). rewrite !linear_0 by assumption. reflexivity.
  - destruct (N.testbit x (N.of_nat n)) eqn:T.
    + replace x with (N.lxor (N.lxor x (2 ^ N.of_nat n)) (2 ^ N.of_nat n)) by (rewrite N.lxor_assoc, N.lxor_nilpotent, N.lxor_0_r; reflexivity).
      rewrite F, G, H by lia. f_equal. apply IH; [intros; apply H; lia|].
      apply lt_pow2_bits. intros i Hi. rewrite N.lxor_spec, N.pow2_bits_eqb. destruct (N.eqb_spec (N.of_nat n) i) as [<-|D].
      * rewrite T. reflexivity.
      * rewrite (testbit_high (N.of_nat (S n)) x) by (auto; lia). reflexivity.
    + apply IH; [intros; apply H; lia|]. apply lt_pow2_bits. intros i Hi. destruct (N.eq_dec i (N.of_nat n)) as [->|D]; [exact T|].
      apply (testbit_high (N.of_nat (S n))); [exact Hx|lia].
Qed.

(** ** Sums *)
Lemma xs_ext f g n : (forall i, (i < n)%nat -> f i = g i) -> xor_sum f n = xor_sum g n.
Proof. intros H. induction n; [reflexivity|]. cbn [xor_sum]. rewrite IHn, H by auto. reflexivity. Qed.
Lemma xs_zero n : xor_sum (fun _ => 0) n = 0.
Proof. induction n; [reflexivity|]. cbn [xor_sum]. rewrite IHn. reflexivity. Qed.
Lemma xs_xor f g n : xor_sum (fun i => N.lxor (f i) (g i)) n = N.lxor (xor_sum f n) (xor_sum g n).
Proof.
  induction n; [reflexivity|]. cbn [xor_sum]. rewrite IHn, !N.lxor_assoc. f_equal. rewrite <- !N.lxor_assoc. f_equal. apply N.lxor_comm.
Qed.
Lemma xs_swap f n m : xor_sum (fun i => xor_sum (fun j => f i j) m) n = xor_sum (fun j => xor_sum (fun i => f i j) n) m.
Proof.
  induction n; cbn [xor_sum]; [symmetry; apply xs_zero|]. rewrite IHn. symmetry. apply xs_xor.
Qed.
Lemma xs_linear h f n : linear h -> h (xor_sum f n) = xor_sum (fun i => h (f i)) n.
Proof. intros L. induction n; cbn [xor_sum]; [apply linear_0; exact L|]. rewrite L, IHn. reflexivity. Qed.
Lemma xs_delta f n i : (i < n)%nat -> xor_sum (fun k => if (i =? k)%nat then f k else 0) n = f i.
Proof.
  induction n; intros H; [lia|]. cbn [xor_sum]. destruct (Nat.eqb_spec i n) as [->|D].
  - rewrite (xs_ext _ (fun _ => 0)). + rewrite xs_zero, N.lxor_0_l. reflexivity.
    + intros k Hk. destruct (Nat.eqb_spec n k); [lia|reflexivity].
  - rewrite IHn by lia. apply N.lxor_0_r.
Qed.
Lemma xs_lt f n : (forall i, (i < n)%nat -> f i < 256) -> xor_sum f n < 256.
Proof. intros H. induction n; cbn [xor_sum]; [reflexivity|]. apply (lxor_lt 8); [apply IHn; auto|apply H; lia]. Qed.

(** ** Multiplication *)
Lemma gf_mul_n_linear n : forall poly a, linear (gf_mul_n n poly a).
Proof.
  induction n; intros poly a x y; [reflexivity|]. cbn [gf_mul_n].
  assert (D : N.lxor x y / 2 = N.lxor (x / 2) (y / 2)) by (rewrite <- !N.div2_div, !N.div2_spec, N.shiftr_lxor; reflexivity).
  assert (O : N.odd (N.lxor x y) = xorb (N.odd x) (N.odd y)) by (rewrite <- !N.bit0_odd; apply N.lxor_spec).
  rewrite D, O, IHn. generalize (gf_mul_n n poly (xtime poly a) (x / 2)) (gf_mul_n n poly (xtime poly a) (y / 2)). intros u v.
  destruct (N.odd x), (N.odd y); cbn [xorb]; rewrite ?N.lxor_0_l.
  - rewrite !N.lxor_assoc, <- (N.lxor_assoc u), (N.lxor_comm u a), N.lxor_assoc, <- (N.lxor_assoc a a), N.lxor_nilpotent, N.lxor_0_l. reflexivity.
  - symmetry. apply N.lxor_assoc.
  - rewrite <- !N.lxor_assoc. f_equal. apply N.lxor_comm.
  - reflexivity.
Qed.
Lemma gf_mul_linear poly a : linear (gf_mul poly a).
Proof. apply gf_mul_n_linear. Qed.
Definition gf_poly (poly : N) : Prop := 256 <= poly < 512.
Lemma xtime_lt poly a : gf_poly poly -> a < 256 -> xtime poly a < 256.
Proof.
  intros Hp Ha. unfold xtime. destruct (N.ltb_spec (2 * a) 256) as [L|L]; [exact L|].
  apply (lt_pow2_bits 8). intros i Hi. rewrite N.lxor_spec. destruct (N.eq_dec i 8) as [->|D].
  - assert (B : forall z, 256 <= z < 512 -> N.testbit z 8 = true).
    { intros z Hz. apply N.testbit_true. change (2 ^ 8) with 256. replace (z / 256) with 1; [reflexivity|].
      apply (N.div_unique z 256 1 (z - 256)); lia. }
    rewrite !B by (unfold gf_poly in Hp; lia). reflexivity.
  - rewrite !(testbit_high 9) by (try (unfold gf_poly in Hp; change (2 ^ 9) with 512; lia); lia). reflexivity.
Qed.
Lemma gf_mul_n_lt n : forall poly a b, gf_poly poly -> a < 256 -> gf_mul_n n poly a b < 256.
Proof.
  induction n; intros poly a b Hp Ha; [reflexivity|]. cbn [gf_mul_n]. apply (lxor_lt 8); [destruct (N.odd b); [exact Ha|reflexivity]|].
  apply IHn; auto. apply xtime_lt; auto.
Qed.
Lemma gf_mul_lt poly a b : gf_poly poly -> a < 256 -> gf_mul poly a b < 256.
Proof. apply gf_mul_n_lt. Qed.

(** ** Matrices *)
Definition mv (poly : N) (n : nat) (M : nat -> nat -> N) (x : nat -> N) (i : nat) : N :=
  xor_sum (fun j => gf_mul poly (M i j) (x j)) n.
(** Multiplying by [M'] after [M] gives back the powers of two. *)
Definition mat_inv (poly : N) (n : nat) (M M' : nat -> nat -> N) : bool :=
  forallb (fun i => forallb (fun k => forallb (fun t =>
    xor_sum (fun j => gf_mul poly (M' i j) (gf_mul poly (M j k) (2 ^ N.of_nat t))) n =? (if (i =? k)%nat then 2 ^ N.of_nat t else 0))
    (seq 0 8)) (seq 0 n)) (seq 0 n).
Lemma mv_inv poly n M M' x i : mat_inv poly n M M' = true -> (forall k, (k < n)%nat -> x k < 256) -> (i < n)%nat ->
  mv poly n M' (mv poly n M x) i = x i.
Proof.
  intros C Hx Hi. unfold mv.
  rewrite (xs_ext _ (fun j => xor_sum (fun k => gf_mul poly (M' i j) (gf_mul poly (M j k) (x k))) n))
    by (intros j Hj; apply (xs_linear (gf_mul poly (M' i j))); apply gf_mul_linear).
  rewrite xs_swap. rewrite <- (xs_delta x n i Hi). apply xs_ext. intros k Hk.
  apply (linear_ext (fun y => xor_sum (fun j => gf_mul poly (M' i j) (gf_mul poly (M j k) y)) n) (fun y => if (i =? k)%nat then y else 0) 8).
  - apply linear_sum. intros j. apply (linear_comp (gf_mul poly (M j k))); apply gf_mul_linear.
  - intros a b. destruct (i =? k)%nat; reflexivity.
  - intros t Ht. unfold mat_inv in C. rewrite forallb_forall in C. specialize (C i ltac:(apply in_seq; lia)).
    rewrite forallb_forall in C. specialize (C k ltac:(apply in_seq; lia)). rewrite forallb_forall in C. specialize (C t ltac:(apply in_seq; lia)).
    apply N.eqb_eq in C. exact C.
  - apply Hx. exact Hk.
Qed.
Lemma mv_inj poly n M M' x y : mat_inv poly n M M' = true -> (forall k, (k < n)%nat -> x k < 256) -> (forall k, (k < n)%nat -> y k < 256) ->
  (forall i, (i < n)%nat -> mv poly n M x i = mv poly n M y i) -> forall i, (i < n)%nat -> x i = y i.
Proof.
  intros C Hx Hy E i Hi. rewrite <- (mv_inv poly n M M' x i C Hx Hi), <- (mv_inv poly n M M' y i C Hy Hi).
  unfold mv at 1 3. apply xs_ext. intros j Hj. rewrite E by exact Hj. reflexivity.
Qed.
Lemma mv_lt poly n M x i : gf_poly poly -> (forall i j, M i j < 256) -> mv poly n M x i < 256.
Proof. intros Hp HM. apply xs_lt. intros j _. apply gf_mul_lt; auto. Qed.

(** ** Byte matrices column by column *)
Definition cbytes (C : nat) (A : list N) : Prop := length A = (8 * C)%nat /\ bytes_ok A.
Lemma cbytes_cell C A r c : cbytes C A -> cell A r c < 256.
Proof. intros [_ H]. apply nth_bytes_lt. exact H. Qed.
Lemma cells_eq C A B : cbytes C A -> cbytes C B -> (forall r c, (r < 8)%nat -> (c < C)%nat -> cell A r c = cell B r c) -> A = B.
Proof.
  intros [LA _] [LB _] H. apply (nth_ext A B 0 0); [congruence|]. intros n Hn. rewrite (divmod8 n).
  apply H; [apply Nat.mod_upper_bound; lia|apply Nat.div_lt_upper_bound; lia].
Qed.
Lemma colmat_bytes C f : (forall r c, f r c < 256) -> cbytes C (colmat C f).
Proof.
  intros H. split; [apply colmat_length|]. apply Forall_forall. intros x Hx. apply in_map_iff in Hx. destruct Hx as (n & <- & _). apply H.
Qed.
Lemma colmat_inj C f g : colmat C f = colmat C g -> forall r c, (r < 8)%nat -> (c < C)%nat -> f r c = g r c.
Proof. intros E r c Hr Hc. rewrite <- (colmat_cell C f r c Hr Hc), E. apply colmat_cell; auto. Qed.
Lemma col_xor_inj C K : length K = (8 * C)%nat -> inj_on (cbytes C) (fun A => col_xor A K).
Proof.
  intros LK A B [LA _] [LB _] E. unfold col_xor in E. apply (nth_ext A B 0 0); [congruence|]. intros i Hi.
  apply (f_equal (fun l => nth i l 0)) in E. rewrite !map2_nth in E by lia. apply lxor_inj_r in E. exact E.
Qed.
Lemma col_xor_bytes C A K : cbytes C K -> cbytes C A -> cbytes C (col_xor A K).
Proof.
  intros [LK HK] [LA HA]. split; [unfold col_xor; rewrite map2_length; lia|]. apply Forall_forall. intros x Hx.
  apply (In_nth _ _ 0) in Hx. destruct Hx as (i & Hi & <-). unfold col_xor in *. rewrite map2_length in Hi. rewrite map2_nth by lia.
  apply (lxor_lt 8); apply nth_bytes_lt; assumption.
Qed.
Lemma col_sub_inj C S : (forall r, (r < 8)%nat -> inj_on (fun x => x < 256) (S r)) -> inj_on (cbytes C) (col_sub C S).
Proof.
  intros HS A B HA HB E. apply (cells_eq C); auto. intros r c Hr Hc. pose proof (colmat_inj C _ _ E r c Hr Hc) as Q. cbv beta in Q.
  apply (HS r Hr); auto; eapply cbytes_cell; eauto.
Qed.
Lemma col_sub_bytes C S A : (forall r x, x < 256 -> S r x < 256) -> cbytes C A -> cbytes C (col_sub C S A).
Proof. intros H HA. apply colmat_bytes. intros. apply H. eapply cbytes_cell; eauto. Qed.
Lemma col_shift_inj C sigma : inj_on (cbytes C) (col_shift C sigma).
Proof.
  intros A B HA HB E. apply (cells_eq C); auto. intros r c Hr Hc.
  assert (C0 : C <> 0%nat) by lia. set (s := (sigma r mod C)%nat). assert (Hs : (s < C)%nat) by (apply Nat.mod_upper_bound; exact C0).
  pose proof (colmat_inj C _ _ E r ((c + (C - s)) mod C)%nat Hr ltac:(apply Nat.mod_upper_bound; exact C0)) as Q. cbv beta in Q.
  replace (((c + (C - s)) mod C + sigma r) mod C)%nat with c in Q; [exact Q|].
  rewrite Nat.add_mod_idemp_l by exact C0. rewrite <- Nat.add_mod_idemp_r by exact C0. fold s.
  replace (c + (C - s) + s)%nat with (c + 1 * C)%nat by lia. rewrite Nat.mod_add, Nat.mod_small by lia. reflexivity.
Qed.
Lemma col_shift_bytes C sigma A : cbytes C A -> cbytes C (col_shift C sigma A).
Proof. intros H. apply colmat_bytes. intros. eapply cbytes_cell; eauto. Qed.
Definition circ8 (v : list N) (r j : nat) : N := nth ((j + 8 - r) mod 8) v 0.
Lemma col_mix_inj C poly v v' : mat_inv poly 8 (circ8 v) (circ8 v') = true -> inj_on (cbytes C) (col_mix C poly v).
Proof.
  intros M A B HA HB E. apply (cells_eq C); auto. intros r c Hr Hc.
  apply (mv_inj poly 8 (circ8 v) (circ8 v') (fun j => cell A j c) (fun j => cell B j c) M); auto; [intros; eapply cbytes_cell; eauto..|].
  intros i Hi. exact (colmat_inj C _ _ E i c Hi Hc).
Qed.
Lemma col_mix_bytes C poly v A : gf_poly poly -> bytes_ok v -> cbytes C (col_mix C poly v A).
Proof. intros Hp Hv. apply colmat_bytes. intros r c. apply (mv_lt poly 8 (circ8 v) (fun j => cell A j c)); auto. intros. apply nth_bytes_lt. exact Hv. Qed.

(** ** Substitution boxes *)
Fixpoint idx (y : N) (l : list N) : nat := match l with [] => O | a :: r => if a =? y then O else S (idx y r) end.
(** Every entry of a table of 256 bytes is found where it stands, i.e. no value occurs twice. *)
Definition box_ok (l : list N) : bool := forallb (fun i => (idx (nth i l 0%N) l =? i)%nat && (nth i l 0 <? 256)) (seq 0 256).
Lemma box_inj l : box_ok l = true -> inj_on (fun x => x < 256) (fun x => nth (N.to_nat x) l 0).
Proof.
  intros C x y Hx Hy E. cbv beta in E. unfold box_ok in C. rewrite forallb_forall in C.
  pose proof (C (N.to_nat x) ltac:(apply in_seq; lia)) as Cx. pose proof (C (N.to_nat y) ltac:(apply in_seq; lia)) as Cy.
  apply andb_prop in Cx, Cy. destruct Cx as [Cx _], Cy as [Cy _]. apply Nat.eqb_eq in Cx, Cy. rewrite E in Cx. lia.
Qed.
Lemma box_lt l x : box_ok l = true -> x < 256 -> nth (N.to_nat x) l 0 < 256.
Proof.
  intros C Hx. unfold box_ok in C. rewrite forallb_forall in C. specialize (C (N.to_nat x) ltac:(apply in_seq; lia)).
  apply andb_prop in C. apply N.ltb_lt. tauto.
Qed.
