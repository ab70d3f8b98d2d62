(** * The ECHO model computes the specified permutation. *)
From Verif Require Import Base Lemmas TableLemmas WordLemmas Absorb AbsorbProof MdState MdProof
  SpecCommon GfSpec ConstEcho Echo EchoSpec.

(** ** Tables *)
Definition ec_check (j k : nat) (x : N) : bool :=
  byte_at (tbl (nth j echo_T []) x) (N.of_nat (8 * k)) =? gf_mul 0x11b (aes_mds k j) (aes_sbox x).
Lemma ec_check_all :
  forallb (fun j => forallb (fun k => forallb (ec_check j k) (map N.of_nat (seq 0 256))) (seq 0 4)) (seq 0 4) = true.
Proof. vm_compute. reflexivity. Qed.
Lemma ec_T_eq j k x : (j < 4)%nat -> (k < 4)%nat -> x < 256 ->
  byte_at (tbl (nth j echo_T []) x) (N.of_nat (8 * k)) = gf_mul 0x11b (aes_mds k j) (aes_sbox x).
Proof. intros Hj Hk Hx. apply N.eqb_eq. exact (sweep3 ec_check 4 4 ec_check_all j k x Hj Hk Hx). Qed.

Lemma ec_T_lt_all : forallb (fun j => forallb (fun k => forallb (fun x => tbl (nth j echo_T []) x <? 2 ^ 32)
  (map N.of_nat (seq 0 256))) (seq 0 1)) (seq 0 4) = true.
Proof. vm_compute. reflexivity. Qed.
Lemma ec_T_lt j x n : (j < 4)%nat -> ec_T j x n < 2 ^ 32.
Proof.
  intros Hj. apply N.ltb_lt.
  exact (sweep3 (fun j k x => tbl (nth j echo_T []) x <? 2 ^ 32) 4 1 ec_T_lt_all j 0 _ Hj ltac:(lia) (byte_at_lt x n)).
Qed.

(** ** BIG.SubWords *)
Lemma byte_at_trunc w x n : n + 8 <= w -> byte_at (trunc w x) n = byte_at x n.
Proof.
  intros H. unfold byte_at. apply N.bits_inj. intros i. rewrite !N.land_spec, !N.shiftr_spec', trunc_spec.
  destruct (N.ltb_spec i 8) as [Hi|Hi].
  - destruct (N.ltb_spec (i + n) w); [rewrite andb_true_r; reflexivity|lia].
  - replace (N.testbit 255 i) with false; [rewrite !andb_false_r; reflexivity|].
    symmetry. change 255 with (N.ones 8). apply N.ones_spec_high. auto.
Qed.
Lemma byte_at_shr x a n : byte_at (N.shiftr x a) n = byte_at x (a + n).
Proof. unfold byte_at. rewrite N.shiftr_shiftr. reflexivity. Qed.
Lemma byte_at_high w x n : x < 2 ^ w -> w <= n -> byte_at x n = 0.
Proof.
  intros Hx Hn. unfold byte_at. rewrite N.shiftr_div_pow2, N.div_small; [reflexivity|].
  eapply N.lt_le_trans; [exact Hx|]. apply N.pow_le_mono_r; [discriminate|auto].
Qed.
Lemma byte_at_shl_lo y n : n + 8 <= 32 -> byte_at (shlw 64 y 32) n = 0.
Proof.
  intros H. unfold byte_at. apply N.bits_inj. intros i. rewrite N.bits_0, N.land_spec, N.shiftr_spec', shlw_spec.
  destruct (N.ltb_spec i 8) as [Hi|Hi].
  - destruct (N.leb_spec 32 (i + n)); [lia|]. rewrite ?andb_false_r. reflexivity.
  - replace (N.testbit 255 i) with false; [rewrite !andb_false_r; reflexivity|].
    symmetry. change 255 with (N.ones 8). apply N.ones_spec_high. auto.
Qed.
Lemma byte_at_shl_hi y n : n + 8 <= 32 -> byte_at (shlw 64 y 32) (32 + n) = byte_at y n.
Proof.
  intros H. unfold byte_at. apply N.bits_inj. intros i. rewrite !N.land_spec, !N.shiftr_spec', shlw_spec.
  destruct (N.ltb_spec i 8) as [Hi|Hi].
  - destruct (N.leb_spec 32 (i + (32 + n))); [|lia]. destruct (N.ltb_spec (i + (32 + n)) 64); [|lia].
    replace (i + (32 + n) - 32) with (i + n) by lia. rewrite ?andb_true_r, ?andb_true_l. reflexivity.
  - replace (N.testbit 255 i) with false; [rewrite !andb_false_r; reflexivity|].
    symmetry. change 255 with (N.ones 8). apply N.ones_spec_high. auto.
Qed.

(** One term of MixColumns after SubBytes. *)
Definition mg (r j : nat) (x : N) : N := gf_mul 0x11b (aes_mds r j) (aes_sbox x).
Local Opaque gf_mul aes_sbox.
Lemma aes_round_eq x0 x1 x2 x3 x4 x5 x6 x7 x8 x9 x10 x11 x12 x13 x14 x15 k0 k1 k2 k3 k4 k5 k6 k7 k8 k9 k10 k11 k12 k13 k14 k15 :
  aes_round [x0; x1; x2; x3; x4; x5; x6; x7; x8; x9; x10; x11; x12; x13; x14; x15] [k0; k1; k2; k3; k4; k5; k6; k7; k8; k9; k10; k11; k12; k13; k14; k15] =
  [N.lxor (N.lxor (N.lxor (N.lxor (N.lxor 0 (mg 0 0 x0)) (mg 0 1 x5)) (mg 0 2 x10)) (mg 0 3 x15)) k0;
   N.lxor (N.lxor (N.lxor (N.lxor (N.lxor 0 (mg 1 0 x0)) (mg 1 1 x5)) (mg 1 2 x10)) (mg 1 3 x15)) k1;
   N.lxor (N.lxor (N.lxor (N.lxor (N.lxor 0 (mg 2 0 x0)) (mg 2 1 x5)) (mg 2 2 x10)) (mg 2 3 x15)) k2;
   N.lxor (N.lxor (N.lxor (N.lxor (N.lxor 0 (mg 3 0 x0)) (mg 3 1 x5)) (mg 3 2 x10)) (mg 3 3 x15)) k3;
   N.lxor (N.lxor (N.lxor (N.lxor (N.lxor 0 (mg 0 0 x4)) (mg 0 1 x9)) (mg 0 2 x14)) (mg 0 3 x3)) k4;
   N.lxor (N.lxor (N.lxor (N.lxor (N.lxor 0 (mg 1 0 x4)) (mg 1 1 x9)) (mg 1 2 x14)) (mg 1 3 x3)) k5;
   N.lxor (N.lxor (N.lxor (N.lxor (N.lxor 0 (mg 2 0 x4)) (mg 2 1 x9)) (mg 2 2 x14)) (mg 2 3 x3)) k6;
   N.lxor (N.lxor (N.lxor (N.lxor (N.lxor 0 (mg 3 0 x4)) (mg 3 1 x9)) (mg 3 2 x14)) (mg 3 3 x3)) k7;
   N.lxor (N.lxor (N.lxor (N.lxor (N.lxor 0 (mg 0 0 x8)) (mg 0 1 x13)) (mg 0 2 x2)) (mg 0 3 x7)) k8;
   N.lxor (N.lxor (N.lxor (N.lxor (N.lxor 0 (mg 1 0 x8)) (mg 1 1 x13)) (mg 1 2 x2)) (mg 1 3 x7)) k9;
   N.lxor (N.lxor (N.lxor (N.lxor (N.lxor 0 (mg 2 0 x8)) (mg 2 1 x13)) (mg 2 2 x2)) (mg 2 3 x7)) k10;
   N.lxor (N.lxor (N.lxor (N.lxor (N.lxor 0 (mg 3 0 x8)) (mg 3 1 x13)) (mg 3 2 x2)) (mg 3 3 x7)) k11;
   N.lxor (N.lxor (N.lxor (N.lxor (N.lxor 0 (mg 0 0 x12)) (mg 0 1 x1)) (mg 0 2 x6)) (mg 0 3 x11)) k12;
   N.lxor (N.lxor (N.lxor (N.lxor (N.lxor 0 (mg 1 0 x12)) (mg 1 1 x1)) (mg 1 2 x6)) (mg 1 3 x11)) k13;
   N.lxor (N.lxor (N.lxor (N.lxor (N.lxor 0 (mg 2 0 x12)) (mg 2 1 x1)) (mg 2 2 x6)) (mg 2 3 x11)) k14;
   N.lxor (N.lxor (N.lxor (N.lxor (N.lxor 0 (mg 3 0 x12)) (mg 3 1 x1)) (mg 3 2 x6)) (mg 3 3 x11)) k15].
Proof. unfold aes_round, mg. cbn [map seq xor_sum nth Nat.modulo Nat.div Nat.divmod fst snd Nat.add Nat.sub Nat.mul]. reflexivity. Qed.

Lemma le_bytes_8 a : le_bytes 8 a =
  [byte_at a 0; byte_at a 8; byte_at a 16; byte_at a 24; byte_at a 32; byte_at a 40; byte_at a 48; byte_at a 56].
Proof. cbn [le_bytes]. unfold byte_at. rewrite !N.shiftr_shiftr, N.shiftr_0_r. reflexivity. Qed.
Lemma le_bytes_16 k : k < 2 ^ 64 -> le_bytes 16 k = le_bytes 8 k ++ zeros 8.
Proof. intros H. apply (le_bytes_ext 8 8). exact H. Qed.

(** The columns computed with the tables. *)
Definition col4 (r : nat) (a b c d : N) : N :=
  N.lxor (N.lxor (N.lxor (N.lxor 0 (mg r 0 a)) (mg r 1 b)) (mg r 2 c)) (mg r 3 d).
Lemma ec_T_byte j k x n : (j < 4)%nat -> (k < 4)%nat -> byte_at (ec_T j x n) (N.of_nat (8 * k)) = mg k j (byte_at x n).
Proof. intros. apply ec_T_eq; auto. apply byte_at_lt. Qed.
Lemma ec_col4 r a na b nb c nc d nd : (r < 4)%nat ->
  byte_at (N.lxor (N.lxor (N.lxor (ec_T 0 a na) (ec_T 1 b nb)) (ec_T 2 c nc)) (ec_T 3 d nd)) (N.of_nat (8 * r)) =
  col4 r (byte_at a na) (byte_at b nb) (byte_at c nc) (byte_at d nd).
Proof.
  intros Hr. rewrite !byte_at_lxor, !ec_T_byte by lia. unfold col4. rewrite N.lxor_0_l. reflexivity.
Qed.
Lemma ec_col4k k r a na b nb c nc d nd : (r < 4)%nat ->
  byte_at (N.lxor (N.lxor (N.lxor (N.lxor k (ec_T 0 a na)) (ec_T 1 b nb)) (ec_T 2 c nc)) (ec_T 3 d nd)) (N.of_nat (8 * r)) =
  N.lxor (col4 r (byte_at a na) (byte_at b nb) (byte_at c nc) (byte_at d nd)) (byte_at k (N.of_nat (8 * r))).
Proof.
  intros Hr. rewrite <- ec_col4, <- byte_at_lxor by auto. f_equal.
  rewrite (N.lxor_comm _ k), !N.lxor_assoc. reflexivity.
Qed.

Lemma ec_lo X Y s r : X < 2 ^ 32 -> (r < 4)%nat ->
  byte_at (N.lxor (N.lxor X (shlw 64 Y 32)) s) (N.of_nat (8 * r)) = N.lxor (byte_at X (N.of_nat (8 * r))) (byte_at s (N.of_nat (8 * r))).
Proof. intros HX Hr. rewrite !byte_at_lxor, byte_at_shl_lo by lia. rewrite N.lxor_0_r. reflexivity. Qed.
Lemma ec_hi X Y s r : X < 2 ^ 32 -> (r < 4)%nat ->
  byte_at (N.lxor (N.lxor X (shlw 64 Y 32)) s) (32 + N.of_nat (8 * r)) =
  N.lxor (byte_at Y (N.of_nat (8 * r))) (byte_at s (32 + N.of_nat (8 * r))).
Proof.
  intros HX Hr. rewrite !byte_at_lxor, byte_at_shl_hi by lia.
  rewrite (byte_at_high 32 X) by (auto; lia). rewrite N.lxor_0_l. reflexivity.
Qed.
Lemma ec_T4_lt a na b nb c nc d nd :
  N.lxor (N.lxor (N.lxor (ec_T 0 a na) (ec_T 1 b nb)) (ec_T 2 c nc)) (ec_T 3 d nd) < 2 ^ 32.
Proof. repeat apply lxor_lt; apply ec_T_lt; lia. Qed.

(** The bytes of two words computed by columns [X0 .. X3] and the key. *)
Lemma ec_word_bytes X0 X1 s : X0 < 2 ^ 32 -> le_bytes 8 (N.lxor (N.lxor X0 (shlw 64 X1 32)) s) =
  [N.lxor (byte_at X0 0) (byte_at s 0); N.lxor (byte_at X0 8) (byte_at s 8);
   N.lxor (byte_at X0 16) (byte_at s 16); N.lxor (byte_at X0 24) (byte_at s 24);
   N.lxor (byte_at X1 0) (byte_at s 32); N.lxor (byte_at X1 8) (byte_at s 40);
   N.lxor (byte_at X1 16) (byte_at s 48); N.lxor (byte_at X1 24) (byte_at s 56)].
Proof.
  intros H. rewrite le_bytes_8.
  rewrite (ec_lo X0 X1 s 0 H ltac:(lia) : byte_at _ 0 = _), (ec_lo X0 X1 s 1 H ltac:(lia) : byte_at _ 8 = _),
    (ec_lo X0 X1 s 2 H ltac:(lia) : byte_at _ 16 = _), (ec_lo X0 X1 s 3 H ltac:(lia) : byte_at _ 24 = _),
    (ec_hi X0 X1 s 0 H ltac:(lia) : byte_at _ 32 = _), (ec_hi X0 X1 s 1 H ltac:(lia) : byte_at _ 40 = _),
    (ec_hi X0 X1 s 2 H ltac:(lia) : byte_at _ 48 = _), (ec_hi X0 X1 s 3 H ltac:(lia) : byte_at _ 56 = _).
  reflexivity.
Qed.
Lemma ec_col_bytes a na b nb c nc d nd (X := N.lxor (N.lxor (N.lxor (ec_T 0 a na) (ec_T 1 b nb)) (ec_T 2 c nc)) (ec_T 3 d nd))
  (C := fun r => col4 r (byte_at a na) (byte_at b nb) (byte_at c nc) (byte_at d nd)) :
  byte_at X 0 = C 0%nat /\ byte_at X 8 = C 1%nat /\ byte_at X 16 = C 2%nat /\ byte_at X 24 = C 3%nat.
Proof.
  repeat split; [apply (ec_col4 0)|apply (ec_col4 1)|apply (ec_col4 2)|apply (ec_col4 3)]; lia.
Qed.
Lemma ec_colk_bytes k a na b nb c nc d nd
  (X := N.lxor (N.lxor (N.lxor (N.lxor k (ec_T 0 a na)) (ec_T 1 b nb)) (ec_T 2 c nc)) (ec_T 3 d nd))
  (C := fun r => col4 r (byte_at a na) (byte_at b nb) (byte_at c nc) (byte_at d nd)) :
  byte_at X 0 = N.lxor (C 0%nat) (byte_at k 0) /\ byte_at X 8 = N.lxor (C 1%nat) (byte_at k 8) /\
  byte_at X 16 = N.lxor (C 2%nat) (byte_at k 16) /\ byte_at X 24 = N.lxor (C 3%nat) (byte_at k 24).
Proof.
  repeat split; [apply (ec_col4k k 0)|apply (ec_col4k k 1)|apply (ec_col4k k 2)|apply (ec_col4k k 3)]; lia.
Qed.

Lemma ec_sub1_ok s0 s1 k a b : k < 2 ^ 64 ->
  le_bytes 8 (fst (ec_sub1 [s0; s1] k a b)) ++ le_bytes 8 (snd (ec_sub1 [s0; s1] k a b)) =
  aes_round (aes_round (le_bytes 8 a ++ le_bytes 8 b) (le_bytes 16 k)) (le_bytes 8 s0 ++ le_bytes 8 s1).
Proof.
  intros Hk. unfold ec_sub1. cbv zeta. cbn [fst snd nthN nth].
  rewrite !ec_word_bytes by apply ec_T4_lt.
  set (t0 := N.lxor (N.lxor (N.lxor (N.lxor (trunc 32 k) _) _) _) _).
  set (t1 := N.lxor (N.lxor (N.lxor (N.lxor (trunc 32 (N.shiftr k 32)) _) _) _) _).
  set (t2 := N.lxor (N.lxor (N.lxor (ec_T 0 b 0) _) _) _).
  set (t3 := N.lxor (N.lxor (N.lxor (ec_T 0 b 32) _) _) _).
  destruct (ec_colk_bytes (trunc 32 k) a 0 a 40 b 16 b 56) as (A0 & A1 & A2 & A3). fold t0 in A0, A1, A2, A3.
  destruct (ec_colk_bytes (trunc 32 (N.shiftr k 32)) a 32 b 8 b 48 a 24) as (B0 & B1 & B2 & B3). fold t1 in B0, B1, B2, B3.
  destruct (ec_col_bytes b 0 b 40 a 16 a 56) as (C0 & C1 & C2 & C3). fold t2 in C0, C1, C2, C3.
  destruct (ec_col_bytes b 32 a 8 a 48 b 24) as (D0 & D1 & D2 & D3). fold t3 in D0, D1, D2, D3.
  rewrite !byte_at_trunc in A0, A1, A2, A3, B0, B1, B2, B3 by lia. rewrite !byte_at_shr in B0, B1, B2, B3.
  clearbody t0 t1 t2 t3.
  destruct (ec_col_bytes t0 0 t1 8 t2 16 t3 24) as (E0 & E1 & E2 & E3). rewrite E0, E1, E2, E3. clear E0 E1 E2 E3.
  destruct (ec_col_bytes t1 0 t2 8 t3 16 t0 24) as (E0 & E1 & E2 & E3). rewrite E0, E1, E2, E3. clear E0 E1 E2 E3.
  destruct (ec_col_bytes t2 0 t3 8 t0 16 t1 24) as (E0 & E1 & E2 & E3). rewrite E0, E1, E2, E3. clear E0 E1 E2 E3.
  destruct (ec_col_bytes t3 0 t0 8 t1 16 t2 24) as (E0 & E1 & E2 & E3). rewrite E0, E1, E2, E3. clear E0 E1 E2 E3.
  rewrite A0, A1, A2, A3, B0, B1, B2, B3, C0, C1, C2, C3, D0, D1, D2, D3.
  rewrite le_bytes_16 by exact Hk. rewrite !le_bytes_8. cbn [app zeros repeat].
  rewrite !aes_round_eq. rewrite !N.lxor_0_r. reflexivity.
Qed.

(** ** BIG.MixColumns *)
Lemma byte_at_land x y n : byte_at (N.land x y) n = N.land (byte_at x n) (byte_at y n).
Proof.
  unfold byte_at. rewrite N.shiftr_land. apply N.bits_inj. intros i. rewrite !N.land_spec.
  destruct (N.testbit 255 i), (N.testbit (N.shiftr x n) i), (N.testbit (N.shiftr y n) i); reflexivity.
Qed.
Lemma byte_at_bit x n : N.land (byte_at x n) 1 = N.b2n (N.testbit x n).
Proof.
  unfold byte_at. rewrite <- N.land_assoc. change (N.land 255 1) with (N.ones 1). rewrite N.land_ones.
  change (2 ^ 1) with 2. rewrite <- N.bit0_mod. rewrite N.shiftr_spec'. reflexivity.
Qed.
Lemma byte_at_top x n : N.testbit x (n + 7) = N.testbit (byte_at x n) 7.
Proof. unfold byte_at. rewrite N.land_spec, N.shiftr_spec'. rewrite andb_true_r. f_equal. lia. Qed.
Lemma byte_at_shl1 a n : n + 8 <= 64 ->
  N.land (byte_at (shlw 64 a 1) n) 0xfe = N.land (N.shiftl (byte_at a n) 1) 0xfe.
Proof.
  intros Hn. unfold byte_at. apply N.bits_inj. intros i. rewrite !N.land_spec, N.shiftr_spec', shlw_spec.
  destruct (N.ltb_spec i 8) as [Hi|Hi].
  - destruct (N.eqb_spec i 0) as [->|H0]; [rewrite !andb_false_r; reflexivity|].
    rewrite N.shiftl_spec_high', N.land_spec, N.shiftr_spec' by lia.
    replace (i + n - 1) with (i - 1 + n) by lia.
    destruct (N.leb_spec 1 (i + n)); [|lia]. destruct (N.ltb_spec (i + n) 64); [|lia].
    change 255 with (N.ones 8). rewrite !N.ones_spec_low by lia. rewrite !andb_true_r. reflexivity.
  - assert (E : N.testbit 0xfe i = false) by (apply (testbit_high 8); [reflexivity|auto]).
    rewrite E, !andb_false_r. reflexivity.
Qed.

Definition gf_dbl (x : N) : N := N.lxor (N.land (N.shiftl x 1) 0xfe) (27 * N.b2n (N.testbit x 7)).
Lemma gf_mul_small x : x < 256 ->
  (gf_mul 0x11b 1 x =? x) && (gf_mul 0x11b 2 x =? gf_dbl x) && (gf_mul 0x11b 3 x =? N.lxor (gf_dbl x) x) = true.
Proof.
  revert x. apply (forallb_bytes (fun x => (gf_mul 0x11b 1 x =? x) && (gf_mul 0x11b 2 x =? gf_dbl x) && (gf_mul 0x11b 3 x =? N.lxor (gf_dbl x) x))).
  vm_compute. reflexivity.
Qed.
Lemma gf_mul_123 x : x < 256 ->
  gf_mul 0x11b 1 x = x /\ gf_mul 0x11b 2 x = gf_dbl x /\ gf_mul 0x11b 3 x = N.lxor (gf_dbl x) x.
Proof.
  intros H. apply gf_mul_small in H. rewrite !andb_true_iff, !N.eqb_eq in H. tauto.
Qed.

Lemma ec_dbl_mul a : le_bytes 8 (trunc 64 (N.land (shrw a 7) 0x0101010101010101 * 0x1b)) =
  map (fun n => 27 * N.b2n (N.testbit (byte_at a n) 7)) [0; 8; 16; 24; 32; 40; 48; 56].
Proof.
  set (Y := N.land (shrw a 7) 0x0101010101010101).
  assert (EY : le_bytes 8 Y = map (fun n => N.b2n (N.testbit (byte_at a n) 7)) [0; 8; 16; 24; 32; 40; 48; 56]).
  { rewrite le_bytes_8. unfold Y. rewrite !byte_at_land.
    change (byte_at 0x0101010101010101 0) with 1. change (byte_at 0x0101010101010101 8) with 1.
    change (byte_at 0x0101010101010101 16) with 1. change (byte_at 0x0101010101010101 24) with 1.
    change (byte_at 0x0101010101010101 32) with 1. change (byte_at 0x0101010101010101 40) with 1.
    change (byte_at 0x0101010101010101 48) with 1. change (byte_at 0x0101010101010101 56) with 1.
    rewrite !byte_at_bit. cbn [map]. rewrite <- !byte_at_top. unfold shrw. rewrite !N.shiftr_spec'. reflexivity. }
  assert (HY : Y < 2 ^ 64).
  { unfold Y. rewrite N.land_comm. apply land_lt. reflexivity. }
  assert (E2 : Y = le_word (le_bytes 8 Y)).
  { rewrite le_word_bytes. symmetry. apply N.mod_small. exact HY. }
  rewrite EY in E2. rewrite E2. clear. cbn [map].
  generalize (N.testbit (byte_at a 0) 7) (N.testbit (byte_at a 8) 7) (N.testbit (byte_at a 16) 7) (N.testbit (byte_at a 24) 7)
    (N.testbit (byte_at a 32) 7) (N.testbit (byte_at a 40) 7) (N.testbit (byte_at a 48) 7) (N.testbit (byte_at a 56) 7).
  intros b0 b1 b2 b3 b4 b5 b6 b7.
  set (l := [27 * N.b2n b0; 27 * N.b2n b1; 27 * N.b2n b2; 27 * N.b2n b3; 27 * N.b2n b4; 27 * N.b2n b5; 27 * N.b2n b6; 27 * N.b2n b7]).
  assert (E : le_word [N.b2n b0; N.b2n b1; N.b2n b2; N.b2n b3; N.b2n b4; N.b2n b5; N.b2n b6; N.b2n b7] * 0x1b = le_word l).
  { unfold l. cbn [le_word]. lia. }
  rewrite E.
  assert (B : bytes_ok l).
  { unfold l. repeat constructor; match goal with |- 27 * N.b2n ?b < 256 => destruct b; reflexivity end. }
  rewrite trunc_small by exact (le_word_lt l B). exact (le_bytes_word l B).
Qed.
Lemma ec_dbl_bytes a : le_bytes 8 (ec_dbl a) = map gf_dbl (le_bytes 8 a).
Proof.
  unfold ec_dbl. rewrite le_bytes_lxor, ec_dbl_mul, !le_bytes_8, !byte_at_land.
  change (byte_at 0xfefefefefefefefe 0) with 0xfe. change (byte_at 0xfefefefefefefefe 8) with 0xfe.
  change (byte_at 0xfefefefefefefefe 16) with 0xfe. change (byte_at 0xfefefefefefefefe 24) with 0xfe.
  change (byte_at 0xfefefefefefefefe 32) with 0xfe. change (byte_at 0xfefefefefefefefe 40) with 0xfe.
  change (byte_at 0xfefefefefefefefe 48) with 0xfe. change (byte_at 0xfefefefefefefefe 56) with 0xfe.
  rewrite !byte_at_shl1 by lia. reflexivity.
Qed.

(** A row of the matrix applied to four bytes, and the code for four words. *)
Definition mixb (r : nat) (a b c d : N) : N :=
  xor_sum (fun j => gf_mul 0x11b (aes_mds r j) (nth j [a; b; c; d] 0)) 4.
Definition mixc (r : nat) (dbl : N -> N) (a b c d : N) : N :=
  match r with
  | 0%nat => N.lxor (N.lxor (N.lxor (N.lxor (dbl a) (dbl b)) b) c) d
  | 1%nat => N.lxor (N.lxor (N.lxor (N.lxor (dbl b) (dbl c)) c) d) a
  | 2%nat => N.lxor (N.lxor (N.lxor (N.lxor (dbl c) (dbl d)) d) a) b
  | _ => N.lxor (N.lxor (N.lxor (N.lxor (dbl d) (dbl a)) a) b) c
  end.
Lemma mixb_eq r a b c d : (r < 4)%nat -> a < 256 -> b < 256 -> c < 256 -> d < 256 ->
  mixb r a b c d = mixc r gf_dbl a b c d.
Proof.
  intros Hr Ha Hb Hc Hd. unfold mixb.
  destruct (gf_mul_123 a Ha) as (A1 & A2 & A3). destruct (gf_mul_123 b Hb) as (B1 & B2 & B3).
  destruct (gf_mul_123 c Hc) as (C1 & C2 & C3). destruct (gf_mul_123 d Hd) as (D1 & D2 & D3).
  do 4 (destruct r as [|r]; [
    cbn [xor_sum nth aes_mds Nat.modulo Nat.divmod Nat.add Nat.sub fst snd mixc]; unfold aes_mds;
    cbn [nth Nat.modulo Nat.divmod Nat.add Nat.sub fst snd];
    rewrite ?A1, ?A2, ?A3, ?B1, ?B2, ?B3, ?C1, ?C2, ?C3, ?D1, ?D2, ?D3; clear;
    generalize (gf_dbl a) (gf_dbl b) (gf_dbl c) (gf_dbl d); intros x y z t;
    apply N.bits_inj; intros i; rewrite !N.lxor_spec, N.bits_0;
    destruct (N.testbit a i), (N.testbit b i), (N.testbit c i), (N.testbit d i),
      (N.testbit x i), (N.testbit y i), (N.testbit z i), (N.testbit t i); reflexivity|]).
  lia.
Qed.
Definition mixw (r : nat) (A B C D : list N) : list N :=
  map (fun b => mixb r (nth b A 0) (nth b B 0) (nth b C 0) (nth b D 0)) (seq 0 16).
Lemma mixc_nth r a b c d k : (r < 4)%nat -> (k < 8)%nat ->
  nth k (le_bytes 8 (mixc r ec_dbl a b c d)) 0 =
  mixb r (nth k (le_bytes 8 a) 0) (nth k (le_bytes 8 b) 0) (nth k (le_bytes 8 c) 0) (nth k (le_bytes 8 d) 0).
Proof.
  intros Hr Hk. rewrite mixb_eq by (auto; apply nth_bytes_lt, le_bytes_ok).
  assert (E : forall x, nth k (le_bytes 8 (ec_dbl x)) 0 = gf_dbl (nth k (le_bytes 8 x) 0)).
  { intros x. rewrite ec_dbl_bytes. apply map_nth_lt. rewrite le_bytes_length. auto. }
  unfold mixc. do 3 (destruct r as [|r]; [rewrite !le_bytes_lxor, !map2_nth by (rewrite ?map2_length, ?le_bytes_length; lia); rewrite !E; reflexivity|]).
  rewrite !le_bytes_lxor, !map2_nth by (rewrite ?map2_length, ?le_bytes_length; lia). rewrite !E. reflexivity.
Qed.
Lemma mixw_eq r a a' b b' c c' d d' : (r < 4)%nat ->
  mixw r (le_bytes 8 a ++ le_bytes 8 a') (le_bytes 8 b ++ le_bytes 8 b') (le_bytes 8 c ++ le_bytes 8 c') (le_bytes 8 d ++ le_bytes 8 d')
  = le_bytes 8 (mixc r ec_dbl a b c d) ++ le_bytes 8 (mixc r ec_dbl a' b' c' d').
Proof.
  intros Hr. apply (nth_ext _ _ 0 0).
  - unfold mixw. rewrite map_length, app_length, !le_bytes_length, seq_length. reflexivity.
  - unfold mixw. rewrite map_length, seq_length. intros k Hk. rewrite nth_map_seq by auto.
    destruct (Nat.lt_ge_cases k 8).
    + rewrite !app_nth1 by (rewrite le_bytes_length; auto). symmetry. apply mixc_nth; auto.
    + rewrite !app_nth2 by (rewrite le_bytes_length; auto). rewrite !le_bytes_length. symmetry. apply mixc_nth; auto. lia.
Qed.

(** The array as 128-bit words. *)
Definition vw (w : list N) (i : nat) : list N := le_bytes 8 (nthN (2 * i) w) ++ le_bytes 8 (nthN (2 * i + 1) w).
Definition view (n : nat) (w : list N) : list (list N) := map (vw w) (seq 0 n).
Lemma view_nth n w i : (i < n)%nat -> nth i (view n w) [] = vw w i.
Proof.
  intros H. unfold view. rewrite (nth_indep _ [] (vw w 0)) by (rewrite map_length, seq_length; auto).
  rewrite map_nth, seq_nth by auto. reflexivity.
Qed.

Ltac list_cases G H :=
  repeat (destruct G as [|? G]; [discriminate H|apply (f_equal Nat.pred) in H; cbn [length Nat.pred] in H]);
  destruct G; [clear H|discriminate H].

Lemma ec_mix_ok w : length w = 32%nat -> view 16 (ec_mix_columns w) = big_mix (view 16 w).
Proof.
  intros H. unfold big_mix. unfold view at 1. apply map_ext_in. intros n Hn. apply in_seq in Hn.
  assert (E : (n / 4 < 4)%nat /\ (n mod 4 < 4)%nat) by (split; [apply Nat.div_lt_upper_bound|apply Nat.mod_upper_bound]; lia).
  destruct E as [E1 E2].
  transitivity (mixw (n mod 4) (vw w (4 * (n / 4) + 0)) (vw w (4 * (n / 4) + 1)) (vw w (4 * (n / 4) + 2)) (vw w (4 * (n / 4) + 3))).
  2:{ unfold mixw. apply map_ext. intros b. unfold mixb. cbn [xor_sum nth]. rewrite !view_nth by lia. reflexivity. }
  unfold vw. rewrite mixw_eq by auto. clear E1 E2.
  list_cases w H.
  do 16 (destruct n as [|n]; [reflexivity|]). lia.
Qed.
Lemma ec_shift_ok w : length w = 32%nat -> view 16 (ec_shift_rows w) = big_shift (view 16 w).
Proof. intros H. list_cases w H. reflexivity. Qed.

Lemma upd_len {A} (l : list A) : forall i v, length (upd i v l) = length l.
Proof. induction l; intros [|i] v; cbn; auto. Qed.
Lemma nthN_upd (l : list N) : forall i v j, (i < length l)%nat ->
  nthN j (upd i v l) = if (j =? i)%nat then v else nthN j l.
Proof.
  unfold nthN. induction l as [|x l IH]; intros i v j H; [cbn in H; lia|].
  destruct i, j; cbn [upd nth Nat.eqb]; try reflexivity. apply IH. cbn in H. lia.
Qed.
Lemma ec_sub_length salt s : length (fst (ec_sub_words salt s)) = length (fst s).
Proof.
  unfold ec_sub_words. generalize (seq 0 16). intros l. revert s.
  induction l as [|r l IH]; intros [w c]; [reflexivity|]. cbn [fold_left]. destruct (ec_sub1 _ _ _ _) as [x y].
  rewrite IH. cbn [fst]. rewrite !upd_len. reflexivity.
Qed.
Definition ec_sub_n (salt : list N) (n : nat) (s : list N * N) : list N * N :=
  fold_left (fun s r =>
    let '(w, counter) := s in
    let '(x, y) := ec_sub1 salt counter (nthN (r * 2) w) (nthN (r * 2 + 1) w) in
    (upd (r * 2 + 1) y (upd (r * 2) x w), trunc 64 (counter + 1))) (seq 0 n) s.
Lemma ec_sub_words_n salt s : ec_sub_words salt s = ec_sub_n salt 16 s.
Proof. unfold ec_sub_words, ec_sub_n. reflexivity. Qed.
Lemma ec_sub_loop salt w k n s : s = ec_sub_n salt n (w, k) -> (2 * n <= length w)%nat -> k < 2 ^ 64 ->
  length (fst s) = length w /\ snd s = trunc 64 (k + N.of_nat n) /\
  forall i, let x := ec_sub1 salt (trunc 64 (k + N.of_nat i)) (nthN (i * 2) w) (nthN (i * 2 + 1) w) in
    nthN (i * 2) (fst s) = (if (i <? n)%nat then fst x else nthN (i * 2) w) /\
    nthN (i * 2 + 1) (fst s) = (if (i <? n)%nat then snd x else nthN (i * 2 + 1) w).
Proof.
  intros -> Hn Hk. induction n as [|n IH].
  - unfold ec_sub_n. cbn [seq fold_left fst snd]. split; [reflexivity|]. split; [rewrite N.add_0_r, trunc_small; auto|].
    intros i. split; reflexivity.
  - cbv zeta in *. unfold ec_sub_n in *. rewrite seq_S, fold_left_app. cbn [Nat.add fold_left].
    destruct (fold_left _ (seq 0 n) (w, k)) as [w' c']. destruct IH as (L & C & F); [lia|]. cbn [fst snd] in *.
    destruct (F n) as [F1 F2]. rewrite Nat.ltb_irrefl in F1, F2. rewrite F1, F2, C.
    destruct (ec_sub1 salt (trunc 64 (k + N.of_nat n)) (nthN (n * 2) w) (nthN (n * 2 + 1) w)) as [x y] eqn:E.
    cbn [fst snd]. rewrite !upd_len. split; [exact L|]. split; [rewrite trunc_add_l; f_equal; lia|].
    intros i. destruct (F i) as [G1 G2]. rewrite !nthN_upd by (rewrite ?upd_len; lia).
    destruct (Nat.eqb_spec (i * 2) (n * 2 + 1)); [lia|]. destruct (Nat.eqb_spec (i * 2 + 1) (n * 2)); [lia|].
    destruct (Nat.eqb_spec (i * 2) (n * 2)) as [D|D].
    + assert (i = n) by lia. subst i. rewrite Nat.eqb_refl, E.
      destruct (Nat.ltb_spec n (S n)); [|lia]. split; reflexivity.
    + destruct (Nat.eqb_spec (i * 2 + 1) (n * 2 + 1)); [lia|]. rewrite G1, G2.
      destruct (Nat.ltb_spec i n), (Nat.ltb_spec i (S n)); try lia; split; reflexivity.
Qed.
Lemma ec_sub_ok s0 s1 w k : length w = 32%nat -> k < 2 ^ 64 ->
  view 16 (fst (ec_sub_words [s0; s1] (w, k))) = big_sub (le_bytes 8 s0 ++ le_bytes 8 s1) k (view 16 w) /\
  snd (ec_sub_words [s0; s1] (w, k)) = trunc 64 (k + 16).
Proof.
  intros H Hk. rewrite ec_sub_words_n.
  remember (ec_sub_n [s0; s1] 16 (w, k)) as s eqn:Es.
  destruct (ec_sub_loop [s0; s1] w k 16 s Es ltac:(lia) Hk) as (L & C & F). clear Es.
  split; [|exact C]. unfold big_sub. unfold view at 1. apply map_ext_in. intros i Hi. apply in_seq in Hi.
  destruct (F i) as [F1 F2]. destruct (Nat.ltb_spec i 16) as [_|G]; [|lia].
  unfold vw at 1. rewrite (Nat.mul_comm 2 i), F1, F2, ec_sub1_ok by apply trunc_lt.
  rewrite view_nth by lia. unfold vw. rewrite (Nat.mul_comm 2 i), trunc_mod. reflexivity.
Qed.

Lemma ec_mix_length w : length (ec_mix_columns w) = length w.
Proof.
  unfold ec_mix_columns. generalize (seq 0 4). intros l. revert w. induction l as [|i l IH]; intros w; [reflexivity|].
  cbn [fold_left]. rewrite IH. cbn [fold_left seq]. unfold ec_mix_column. cbv zeta. rewrite !upd_len. reflexivity.
Qed.
Lemma ec_shift_length w : length (ec_shift_rows w) = length w.
Proof.
  unfold ec_shift_rows. match goal with |- length (fold_left _ ?l _) = _ => generalize l end. intros l. revert w.
  induction l as [|[i j] l IH]; intros w; [reflexivity|]. cbn [fold_left]. rewrite IH. unfold ec_swap. cbv zeta.
  rewrite !upd_len. reflexivity.
Qed.

Lemma ec_rounds_ok s0 s1 w k n : length w = 32%nat -> k < 2 ^ 64 ->
  let s := Nat.iter n (ec_round [s0; s1]) (w, k) in
  length (fst s) = 32%nat /\ snd s = trunc 64 (k + 16 * N.of_nat n) /\
  view 16 (fst s) = fold_left (big_round (le_bytes 8 s0 ++ le_bytes 8 s1) k) (seq 0 n) (view 16 w).
Proof.
  intros H Hk. induction n as [|n IH].
  - cbn [Nat.iter fst snd]. split; [exact H|]. split; [|reflexivity]. rewrite N.mul_0_r, N.add_0_r, trunc_small; auto.
  - cbv zeta in *. rewrite seq_S, fold_left_app. cbn [Nat.iter nat_rect Nat.add fold_left].
    change (nat_rect _ _ _ n) with (Nat.iter n (ec_round [s0; s1]) (w, k)).
    destruct (Nat.iter n (ec_round [s0; s1]) (w, k)) as [w' c']. destruct IH as (L & C & V). cbn [fst snd] in *.
    rewrite <- V. unfold ec_round.
    destruct (ec_sub_ok s0 s1 w' c' L ltac:(rewrite C; apply trunc_lt)) as [S1 S2].
    pose proof (ec_sub_length [s0; s1] (w', c')) as SL.
    destruct (ec_sub_words [s0; s1] (w', c')) as [w2 c2]. cbn [fst snd] in *.
    assert (L2 : length w2 = 32%nat) by lia.
    split; [rewrite ec_mix_length, ec_shift_length; exact L2|]. split.
    + rewrite S2, C, trunc_add_l. f_equal. lia.
    + rewrite ec_mix_ok by (rewrite ec_shift_length; exact L2). rewrite ec_shift_ok by exact L2. rewrite S1.
      unfold big_round. f_equal. f_equal. unfold big_sub. apply map_ext. intros i. f_equal. f_equal. f_equal.
      rewrite C, trunc_mod, N.add_mod_idemp_l by discriminate. reflexivity.
Qed.
