(** * JH: the bitsliced provider implements the specification. *)
From Verif Require Import Base Absorb Hasher HasherSpec Lemmas WordLemmas AbsorbProof HasherProof
  MdState SpecCommon MdProof BufProof TableLemmas Validate ConstJh Jh JhSpec.

(** The element in position [q] of the words [2 par + half + 4 k], k = 0..3. *)
Definition cell (H : list N) (par half : nat) (q : N) : N :=
  let b k := N.testbit (nthN (4 * k + (2 * par + half)) H) q in
  jhs_nibble (b 0%nat) (b 1%nat) (b 2%nat) (b 3%nat).

(** ** The layers of a round. *)
Lemma jh_sbitsli_ok x0 x1 x2 x3 c q : q < 64 ->
  let '(y0, y1, y2, y3) := jh_sbitsli x0 x1 x2 x3 c in
  jhs_nibble (N.testbit y0 q) (N.testbit y1 q) (N.testbit y2 q) (N.testbit y3 q) =
  jhs_S (N.testbit c q) (jhs_nibble (N.testbit x0 q) (N.testbit x1 q) (N.testbit x2 q) (N.testbit x3 q)).
Proof.
  intros Hq. unfold jh_sbitsli. cbv zeta.
  repeat (rewrite N.lxor_spec || rewrite N.land_spec || rewrite N.lor_spec || rewrite notw_spec).
  apply N.ltb_lt in Hq. rewrite Hq.
  destruct (N.testbit x0 q), (N.testbit x1 q), (N.testbit x2 q), (N.testbit x3 q), (N.testbit c q); reflexivity.
Qed.

Ltac two n := destruct n as [|[|n]]; [| |lia].

Lemma jh_slayer_ok H r par half q : (par < 2)%nat -> (half < 2)%nat -> q < 64 ->
  cell (jh_slayer H r) par half q =
  jhs_S (N.testbit (nthN (r * 4 + (2 * par + half)) jh_C) q) (cell H par half q).
Proof.
  intros Hp Hh Hq. unfold jh_slayer.
  pose proof (fun i => jh_sbitsli_ok (nthN (0 + i) H) (nthN (4 + i) H) (nthN (8 + i) H) (nthN (12 + i) H)
    (nthN (r * 4 + i) jh_C) q Hq) as E.
  pose proof (E 0%nat) as E0. pose proof (E 1%nat) as E1. pose proof (E 2%nat) as E2. pose proof (E 3%nat) as E3.
  clear E. cbn [Nat.add] in E0, E1, E2, E3.
  destruct (jh_sbitsli (nthN 0 H) (nthN 4 H) (nthN 8 H) (nthN 12 H) _) as [[[h0 h4] h8] h12].
  destruct (jh_sbitsli (nthN 1 H) (nthN 5 H) (nthN 9 H) (nthN 13 H) _) as [[[h1 h5] h9] h13].
  destruct (jh_sbitsli (nthN 2 H) (nthN 6 H) (nthN 10 H) (nthN 14 H) _) as [[[h2 h6] h10] h14].
  destruct (jh_sbitsli (nthN 3 H) (nthN 7 H) (nthN 11 H) (nthN 15 H) _) as [[[h3 h7] h11] h15].
  two par; two half; assumption.
Qed.

Lemma jh_lbits_ok : forall a0 a1 a2 a3 b0 b1 b2 b3,
  jhs_L (jhs_nibble a0 a1 a2 a3) (jhs_nibble b0 b1 b2 b3) =
  (let d0 := xorb b0 a1 in let d1 := xorb b1 a2 in let d2 := xorb b2 (xorb a3 a0) in let d3 := xorb b3 a0 in
   (jhs_nibble (xorb a0 d1) (xorb a1 d2) (xorb a2 (xorb d3 d0)) (xorb a3 d0), jhs_nibble d0 d1 d2 d3)).
Proof. intros [] [] [] [] [] [] [] []; reflexivity. Qed.

Lemma jh_lbitsli_ok H half q : (half < 2)%nat ->
  (cell (jh_lbitsli H) 0 half q, cell (jh_lbitsli H) 1 half q) = jhs_L (cell H 0 half q) (cell H 1 half q).
Proof.
  intros Hh. unfold cell at 3 4. rewrite jh_lbits_ok. unfold cell, jh_lbitsli.
  two half; cbn [Nat.mul Nat.add]; unfold nthN; cbn [nth]; repeat rewrite N.lxor_spec; reflexivity.
Qed.

(** Exchanging bits whose positions differ in one binary digit. *)
Definition swap_ok (mask shift : N) : bool :=
  forallb (fun i =>
    (N.lxor i shift <? 64) &&
    if (shift <=? i) && N.testbit mask (i - shift) then
      (i - shift =? N.lxor i shift) && negb (N.testbit (notw 64 mask) (i + shift))
    else (i + shift =? N.lxor i shift) && N.testbit (notw 64 mask) (i + shift))
    (map N.of_nat (seq 0 64)).

Lemma jh_bitswap1_ok mask shift x i : swap_ok mask shift = true -> i < 64 ->
  N.testbit (jh_bitswap1 x mask shift) i = N.testbit x (N.lxor i shift).
Proof.
  unfold swap_ok. rewrite forallb_forall. intros H Hi.
  assert (Hin : In i (map N.of_nat (seq 0 64))).
  { apply in_map_iff. exists (N.to_nat i). split; [apply N2Nat.id|]. apply in_seq. lia. }
  specialize (H i Hin). apply andb_prop in H. destruct H as [_ H].
  unfold jh_bitswap1. rewrite N.lor_spec, shlw_spec, shrw_spec, !N.land_spec.
  assert (E : (i <? 64) = true) by (apply N.ltb_lt; exact Hi). rewrite E.
  destruct (shift <=? i); cbn [andb] in *.
  - destruct (N.testbit mask (i - shift)); cbn [andb] in *;
      apply andb_prop in H; destruct H as [H1 H2]; apply N.eqb_eq in H1.
    + apply negb_true_iff in H2. rewrite H2, H1, !andb_true_r, andb_false_r, orb_false_r. reflexivity.
    + rewrite H2, H1, !andb_true_r, !andb_false_r. reflexivity.
  - apply andb_prop in H; destruct H as [H1 H2]; apply N.eqb_eq in H1.
    rewrite H2, H1, !andb_true_r, ?andb_false_r. reflexivity.
Qed.

(** ** Positions. *)
Definition pos (i : nat) : N := N.lxor (N.of_nat (i mod 64)) 7.
(** The element of pair [i] after [k] rounds is in pair [sig k i] of the specification. *)
Definition rot7 (i : nat) : nat := if Nat.even i then (i / 2)%nat else (64 + i / 2)%nat.
Definition sig (k i : nat) : nat := Nat.iter k rot7 i.

(** Where the permutation takes element [j] of its result from. *)
Definition pidx (j : nat) : nat :=
  let i := (if j <? 128 then j else if Nat.even j then j + 1 else j - 1)%nat in
  let i := (if i <? 128 then 2 * i else 2 * (i - 128) + 1)%nat in
  match (i mod 4)%nat with 2 => i + 1 | 3 => i - 1 | _ => i end%nat.

Lemma forallb_seq (f : nat -> bool) n : forallb f (seq 0 n) = true -> forall i, (i < n)%nat -> f i = true.
Proof. rewrite forallb_forall. intros H i Hi. apply H. apply in_seq. lia. Qed.

Lemma jhs_P_nth w j : (j < 256)%nat -> nth j (jhs_P 256 w) 0 = nth (pidx j) w 0.
Proof.
  intros Hj. unfold jhs_P, jhs_phi. rewrite nth_map_seq by auto.
  set (i1 := (if j <? 256 / 2 then j else if Nat.even j then j + 1 else j - 1)%nat).
  assert (H1 : (i1 < 256)%nat).
  { assert (F : forallb (fun j => (if j <? 256 / 2 then j else if Nat.even j then j + 1 else j - 1) <? 256)%nat
      (seq 0 256) = true) by (vm_compute; reflexivity).
    apply Nat.ltb_lt. exact (forallb_seq _ _ F j Hj). }
  unfold jhs_P'. rewrite nth_map_seq by exact H1.
  set (i2 := (if i1 <? 256 / 2 then 2 * i1 else 2 * (i1 - 256 / 2) + 1)%nat).
  assert (H2 : (i2 < 256)%nat).
  { unfold i2. change (256 / 2)%nat with 128%nat. destruct (Nat.ltb_spec i1 128); lia. }
  unfold jhs_pi. rewrite nth_map_seq by exact H2. reflexivity.
Qed.

Definition check_sig (k : nat) : bool :=
  forallb (fun i => (sig (S k) i <? 128) && (sig k i <? 128) && (Nat.lxor i (2 ^ k) <? 128) &&
    (pidx (2 * sig (S k) i) =? 2 * sig k i) &&
    (pidx (2 * sig (S k) i + 1) =? 2 * sig k (Nat.lxor i (2 ^ k)) + 1))%nat (seq 0 128).
Lemma check_sig_all : forallb check_sig (seq 0 7) = true.
Proof. vm_compute. reflexivity. Qed.

Lemma sig_facts k i : (k < 7)%nat -> (i < 128)%nat ->
  (sig (S k) i < 128 /\ sig k i < 128 /\ Nat.lxor i (2 ^ k) < 128 /\
   pidx (2 * sig (S k) i) = 2 * sig k i /\
   pidx (2 * sig (S k) i + 1) = 2 * sig k (Nat.lxor i (2 ^ k)) + 1)%nat.
Proof.
  intros Hk Hi. pose proof (forallb_seq _ _ check_sig_all k Hk) as F. unfold check_sig in F.
  pose proof (forallb_seq _ _ F i Hi) as G. cbv beta in G.
  repeat (apply andb_prop in G; destruct G as [G ?]).
  rewrite ?Nat.ltb_lt, ?Nat.eqb_eq in *. auto.
Qed.

(** The constants of the bitsliced description are those of R_6, rearranged. *)
Definition check_const (r : nat) (C : list N) : bool :=
  forallb (fun i => forallb (fun par =>
    Bool.eqb (jhs_cbit C (2 * sig (r mod 7) i + par))
      (N.testbit (nthN (r * 4 + (2 * par + i / 64)) jh_C) (pos i))) (seq 0 2)) (seq 0 128).
Fixpoint check_consts (n r : nat) (C : list N) : bool :=
  match n with
  | O => true
  | S n' => check_const r C && check_consts n' (S r) (jhs_R 64 (fun _ => false) C)
  end.
Lemma check_consts_all : check_consts 42 0 jhs_C0 = true.
Proof. vm_compute. reflexivity. Qed.

Lemma check_consts_nth n : forall r C k, check_consts n r C = true -> (k < n)%nat -> C = jhs_consts r ->
  check_const (r + k) (jhs_consts (r + k)) = true.
Proof.
  induction n as [|n IH]; intros r C k H Hk E; [lia|]. cbn [check_consts] in H.
  apply andb_prop in H. destruct H as [H1 H2]. destruct k as [|k].
  - rewrite Nat.add_0_r, <- E. exact H1.
  - rewrite Nat.add_succ_r. apply (IH (S r) _ k H2 ltac:(lia)). rewrite E. reflexivity.
Qed.

Lemma jh_const_ok r i par : (r < 42)%nat -> (i < 128)%nat -> (par < 2)%nat ->
  jhs_cbit (jhs_consts r) (2 * sig (r mod 7) i + par) =
  N.testbit (nthN (r * 4 + (2 * par + i / 64)) jh_C) (pos i).
Proof.
  intros Hr Hi Hp. pose proof (check_consts_nth 42 0 jhs_C0 r check_consts_all Hr eq_refl) as F.
  cbn [Nat.add] in F. unfold check_const in F.
  pose proof (forallb_seq _ _ (forallb_seq _ _ F i Hi) par Hp) as G. apply Bool.eqb_prop. exact G.
Qed.

(** ** Rounds. *)
Definition jrel (k : nat) (H Q : list N) : Prop :=
  forall i par, (i < 128)%nat -> (par < 2)%nat -> nth (2 * sig k i + par) Q 0 = cell H par (i / 64) (pos i).

Lemma pos_lt i : pos i < 64.
Proof.
  unfold pos. apply (lxor_lt 6); [|reflexivity]. change (2 ^ 6) with 64.
  pose proof (Nat.mod_upper_bound i 64 ltac:(lia)). lia.
Qed.
Lemma half_lt i : (i < 128)%nat -> (i / 64 < 2)%nat.
Proof. intros. apply Nat.div_lt_upper_bound; lia. Qed.

(** One round; [H'] is obtained from the linear layer by exchanging odd elements. *)
Lemma jh_round_rel k r H H' Q : (k < 7)%nat -> (r < 42)%nat -> (r mod 7 = k)%nat ->
  (forall i, (i < 128)%nat ->
     cell H' 0 (i / 64) (pos i) = cell (jh_lbitsli (jh_slayer H r)) 0 (i / 64) (pos i) /\
     cell H' 1 (i / 64) (pos i) =
       cell (jh_lbitsli (jh_slayer H r)) 1 (Nat.lxor i (2 ^ k) / 64) (pos (Nat.lxor i (2 ^ k)))) ->
  jrel k H Q -> jrel (S k) H' (jhs_R 256 (jhs_cbit (jhs_consts r)) Q).
Proof.
  intros Hk Hr Erk HH' HR i par Hi Hp.
  destruct (sig_facts k i Hk Hi) as (S1 & S0 & X & P0 & P1).
  unfold jhs_R. rewrite jhs_P_nth by lia.
  set (v := map (fun i => jhs_S (jhs_cbit (jhs_consts r) i) (nth i Q 0)) (seq 0 256)).
  assert (V : forall i par, (i < 128)%nat -> (par < 2)%nat -> nth (2 * sig k i + par) v 0 =
    cell (jh_slayer H r) par (i / 64) (pos i)).
  { intros i' par' Hi' Hp'. destruct (sig_facts k i' Hk Hi') as (_ & S0' & _).
    unfold v. rewrite nth_map_seq by lia. rewrite jh_slayer_ok by auto using half_lt, pos_lt.
    rewrite HR by auto. f_equal. rewrite <- Erk. apply jh_const_ok; auto. }
  assert (L : forall i, (i < 128)%nat ->
    jhs_L (nth (2 * sig k i) v 0) (nth (2 * sig k i + 1) v 0) =
    (cell (jh_lbitsli (jh_slayer H r)) 0 (i / 64) (pos i), cell (jh_lbitsli (jh_slayer H r)) 1 (i / 64) (pos i))).
  { intros i' Hi'. rewrite jh_lbitsli_ok by auto using half_lt. rewrite <- !V by auto.
    rewrite Nat.add_0_r. reflexivity. }
  destruct (HH' i Hi) as [E0 E1]. two par.
  - rewrite Nat.add_0_r, P0, E0. rewrite nth_map_seq by lia.
    replace (Nat.even (2 * sig k i)) with true by (symmetry; apply Nat.even_spec; exists (sig k i); lia).
    rewrite L by exact Hi. reflexivity.
  - rewrite P1, E1. destruct (sig_facts k _ Hk X) as (_ & S0' & _). rewrite nth_map_seq by lia.
    replace (Nat.even (2 * sig k (Nat.lxor i (2 ^ k)) + 1)) with false
      by (symmetry; rewrite Nat.add_1_r, Nat.even_succ, <- Nat.negb_even;
          replace (Nat.even (2 * sig k (Nat.lxor i (2 ^ k)))) with true;
          [reflexivity|symmetry; apply Nat.even_spec; exists (sig k (Nat.lxor i (2 ^ k))); lia]).
    rewrite Nat.add_sub. rewrite L by exact X. reflexivity.
Qed.

Definition check_pos (k : nat) : bool :=
  forallb (fun i => (Nat.lxor i (2 ^ k) / 64 =? i / 64)%nat &&
    (N.lxor (pos i) (2 ^ N.of_nat k) =? pos (Nat.lxor i (2 ^ k)))) (seq 0 128).
Lemma check_pos_all : forallb check_pos (seq 0 6) = true.
Proof. vm_compute. reflexivity. Qed.
Lemma pos_swap k i : (k < 6)%nat -> (i < 128)%nat ->
  (Nat.lxor i (2 ^ k) / 64 = i / 64)%nat /\ N.lxor (pos i) (2 ^ N.of_nat k) = pos (Nat.lxor i (2 ^ k)).
Proof.
  intros Hk Hi. pose proof (forallb_seq _ _ (forallb_seq _ _ check_pos_all k Hk) i Hi) as G.
  cbv beta in G. apply andb_prop in G. destruct G as [G1 G2]. split; [apply Nat.eqb_eq|apply N.eqb_eq]; assumption.
Qed.

Lemma cell_bitswap H mask shift half q : swap_ok mask shift = true -> (half < 2)%nat -> q < 64 ->
  cell (jh_bitswap H mask shift) 0 half q = cell H 0 half q /\
  cell (jh_bitswap H mask shift) 1 half q = cell H 1 half (N.lxor q shift).
Proof.
  intros Hs Hh Hq. unfold cell, jh_bitswap, nthN.
  two half; cbn [Nat.mul Nat.add nth]; split; try reflexivity;
    rewrite !(jh_bitswap1_ok mask shift) by auto; reflexivity.
Qed.

(** A round with an exchange of bits. *)
Lemma jh_round_ok k r mask H Q : (k < 6)%nat -> (r < 42)%nat -> (r mod 7 = k)%nat ->
  swap_ok mask (2 ^ N.of_nat k) = true -> jrel k H Q ->
  jrel (S k) (jh_round H r mask (2 ^ N.of_nat k)) (jhs_R 256 (jhs_cbit (jhs_consts r)) Q).
Proof.
  intros Hk Hr Erk Hs HR. apply (jh_round_rel k r H _ Q); [lia|exact Hr|exact Erk| |exact HR].
  intros i Hi. unfold jh_round.
  replace (2 ^ N.of_nat k =? 0) with false by (symmetry; apply N.eqb_neq, N.pow_nonzero; discriminate).
  destruct (cell_bitswap (jh_lbitsli (jh_slayer H r)) mask (2 ^ N.of_nat k) (i / 64) (pos i) Hs
    (half_lt i Hi) (pos_lt i)) as [E0 E1].
  split; [exact E0|]. rewrite E1. destruct (pos_swap k i Hk Hi) as [-> ->]. reflexivity.
Qed.

(** The last round of seven exchanges words. *)
Lemma jh_round6_ok r mask H Q : (r < 42)%nat -> (r mod 7 = 6)%nat -> jrel 6 H Q ->
  jrel 7 (jh_swap (jh_round H r mask 0)) (jhs_R 256 (jhs_cbit (jhs_consts r)) Q).
Proof.
  intros Hr Erk HR. apply (jh_round_rel 6 r H _ Q); [lia|exact Hr|exact Erk| |exact HR].
  intros i Hi. change (jh_round H r mask 0) with (jh_lbitsli (jh_slayer H r)).
  generalize (jh_lbitsli (jh_slayer H r)). intros HL.
  assert (F : forallb (fun i => (Nat.lxor i 64 / 64 =? 1 - i / 64)%nat && (pos i =? pos (Nat.lxor i 64)))
    (seq 0 128) = true) by (vm_compute; reflexivity).
  pose proof (forallb_seq _ _ F i Hi) as G. cbv beta in G. apply andb_prop in G. destruct G as [G1 G2].
  apply Nat.eqb_eq in G1. apply N.eqb_eq in G2. change (2 ^ 6)%nat with 64%nat. rewrite G1, <- G2.
  pose proof (half_lt i Hi) as Hh. generalize (pos i) as q. intros q. clear - Hh. revert Hh.
  generalize (i / 64)%nat as half. intros half Hh. unfold cell, jh_swap, nthN.
  two half; cbn [Nat.mul Nat.add Nat.sub nth]; split; reflexivity.
Qed.

Lemma sig_7 H Q : jrel 7 H Q -> jrel 0 H Q.
Proof.
  intros HR i par Hi Hp. rewrite <- (HR i par Hi Hp). do 2 f_equal. f_equal.
  assert (F : forallb (fun i => sig 0 i =? sig 7 i)%nat (seq 0 128) = true) by (vm_compute; reflexivity).
  apply Nat.eqb_eq. exact (forallb_seq _ _ F i Hi).
Qed.

Definition spec_round (Q : list N) (r : nat) : list N := jhs_R 256 (jhs_cbit (jhs_consts r)) Q.

Lemma jh_rounds7_ok n H Q : (n < 6)%nat -> jrel 0 H Q ->
  jrel 0 (jh_rounds7 H (7 * n)) (fold_left spec_round (seq (7 * n) 7) Q).
Proof.
  intros Hn HR. apply sig_7. unfold jh_rounds7. cbv zeta.
  cbn [seq fold_left]. replace (S (7 * n)) with (7 * n + 1)%nat by lia.
  replace (S (7 * n + 1)) with (7 * n + 2)%nat by lia. replace (S (7 * n + 2)) with (7 * n + 3)%nat by lia.
  replace (S (7 * n + 3)) with (7 * n + 4)%nat by lia. replace (S (7 * n + 4)) with (7 * n + 5)%nat by lia.
  replace (S (7 * n + 5)) with (7 * n + 6)%nat by lia.
  assert (M : forall j, (j < 7)%nat -> ((7 * n + j) mod 7 = j)%nat).
  { intros j Hj. rewrite Nat.add_comm, Nat.mul_comm, Nat.mod_add by lia. apply Nat.mod_small. lia. }
  apply jh_round6_ok; [lia|apply M; lia|].
  apply (jh_round_ok 5); [lia|lia|apply M; lia|vm_compute; reflexivity|].
  apply (jh_round_ok 4); [lia|lia|apply M; lia|vm_compute; reflexivity|].
  apply (jh_round_ok 3); [lia|lia|apply M; lia|vm_compute; reflexivity|].
  apply (jh_round_ok 2); [lia|lia|apply M; lia|vm_compute; reflexivity|].
  apply (jh_round_ok 1); [lia|lia|apply M; lia|vm_compute; reflexivity|].
  apply (jh_round_ok 0); [lia|lia|rewrite <- (Nat.add_0_r (7 * n)); apply M; lia|vm_compute; reflexivity|]. exact HR.
Qed.

(** ** Grouping and the compression function. *)
Lemma check_bits_ok :
  forallb (fun j => (j / 8 =? 8 * (j / 64) + (j / 8) mod 8)%nat &&
    (N.of_nat (7 - j mod 8) + N.of_nat (8 * ((j / 8) mod 8)) =? pos j)) (seq 0 1024) = true.
Proof. vm_compute. reflexivity. Qed.

Lemma byte_at_testbit x n i : i < 8 -> N.testbit (byte_at x n) i = N.testbit x (i + n).
Proof.
  intros Hi. unfold byte_at. rewrite land255_mod. change 256 with (2 ^ 8).
  rewrite N.mod_pow2_bits_low by exact Hi. apply N.shiftr_spec. lia.
Qed.

Lemma jhs_bit_words H j : (j < 1024)%nat ->
  jhs_bit (words_bytes 8 H) j = N.testbit (nthN (j / 64) H) (pos j).
Proof.
  intros Hj. pose proof check_bits_ok as G. apply forallb_seq with (i := j) in G; [|exact Hj]. cbv beta in G.
  apply andb_prop in G. destruct G as [G1 G2]. apply Nat.eqb_eq in G1. apply N.eqb_eq in G2.
  unfold jhs_bit. rewrite G1 at 1. pose proof (Nat.mod_upper_bound (j / 8) 8 ltac:(lia)).
  rewrite nth_words_bytes by lia. rewrite byte_at_testbit by lia. rewrite G2. reflexivity.
Qed.

Lemma check_cells_ok :
  forallb (fun i => forallb (fun par => forallb (fun k =>
    let j := ((2 * i + par) / 2 + 128 * ((2 * i + par) mod 2) + 256 * k)%nat in
    (j / 64 =? 4 * k + (2 * par + i / 64))%nat && (pos j =? pos i)) (seq 0 4)) (seq 0 2)) (seq 0 128) = true.
Proof. vm_compute. reflexivity. Qed.

Lemma jhs_group_rel H : jrel 0 H (jhs_group (words_bytes 8 H)).
Proof.
  intros i par Hi Hp. change (sig 0 i) with i. unfold jhs_group. rewrite nth_map_seq by lia. cbv zeta.
  pose proof check_cells_ok as F. apply forallb_seq with (i := i) in F; [|exact Hi].
  cbv beta in F. apply forallb_seq with (i := par) in F; [|exact Hp]. cbv beta in F.
  assert (B : forall k, (k < 4)%nat ->
    jhs_bit (words_bytes 8 H) ((2 * i + par) / 2 + 128 * ((2 * i + par) mod 2) + 256 * k) =
    N.testbit (nthN (4 * k + (2 * par + i / 64)) H) (pos i)).
  { intros k Hk. pose proof (forallb_seq _ _ F k Hk) as G. cbv beta zeta in G.
    apply andb_prop in G. destruct G as [G1 G2]. apply Nat.eqb_eq in G1. apply N.eqb_eq in G2.
    assert ((2 * i + par) / 2 < 128)%nat by (apply Nat.div_lt_upper_bound; lia).
    pose proof (Nat.mod_upper_bound (2 * i + par) 2 ltac:(lia)).
    rewrite jhs_bit_words by lia. rewrite G1, G2. reflexivity. }
  unfold cell. rewrite <- (B 0%nat), <- (B 1%nat), <- (B 2%nat), <- (B 3%nat) by lia.
  cbn [Nat.mul]. rewrite !Nat.add_0_r. reflexivity.
Qed.

Lemma jhs_nibble_bits b0 b1 b2 b3 k : (k < 4)%nat ->
  jhs_nibble_bit k (jhs_nibble b0 b1 b2 b3) = nth k [b0; b1; b2; b3] false.
Proof. intros Hk. do 4 (destruct k as [|k]; [destruct b0, b1, b2, b3; reflexivity|]). lia. Qed.

Lemma check_degroup_ok :
  forallb (fun j => (4 * (j / 256) + (2 * ((j / 128) mod 2) + (j mod 128) / 64) =? j / 64)%nat &&
    (pos (j mod 128) =? pos j) && (j / 256 <? 4)%nat) (seq 0 1024) = true.
Proof. vm_compute. reflexivity. Qed.

Lemma jhs_degroup_bit_ok H Q j : (j < 1024)%nat -> jrel 0 H Q ->
  jhs_degroup_bit Q j = jhs_bit (words_bytes 8 H) j.
Proof.
  intros Hj HR. pose proof check_degroup_ok as G. apply forallb_seq with (i := j) in G; [|exact Hj]. cbv beta in G.
  apply andb_prop in G. destruct G as [G G3]. apply andb_prop in G. destruct G as [G1 G2].
  apply Nat.eqb_eq in G1. apply N.eqb_eq in G2. apply Nat.ltb_lt in G3.
  rewrite jhs_bit_words by exact Hj. unfold jhs_degroup_bit.
  pose proof (Nat.mod_upper_bound j 128 ltac:(lia)) as M1.
  pose proof (Nat.mod_upper_bound (j / 128) 2 ltac:(lia)) as M2.
  pose proof (HR (j mod 128)%nat ((j / 128) mod 2)%nat M1 M2) as E. change (sig 0 (j mod 128)) with (j mod 128)%nat in E. rewrite E.
  unfold cell. rewrite jhs_nibble_bits by exact G3. rewrite <- G1, <- G2. clear - G3.
  revert G3. generalize (j / 256)%nat. intros k Hk.
  do 4 (destruct k as [|k]; [reflexivity|]). lia.
Qed.

Lemma byte_bits x : x < 256 ->
  fold_right (fun t acc => N.b2n (N.testbit x (N.of_nat (7 - t))) * 2 ^ N.of_nat (7 - t) + acc) 0 (seq 0 8) = x.
Proof.
  intros Hx. apply N.eqb_eq.
  apply (forallb_bytes (fun x => fold_right (fun t acc => N.b2n (N.testbit x (N.of_nat (7 - t))) * 2 ^ N.of_nat (7 - t) + acc) 0 (seq 0 8) =? x));
    [vm_compute; reflexivity|exact Hx].
Qed.

Lemma jhs_degroup_rel H Q : length H = 16%nat -> jrel 0 H Q -> jhs_degroup Q = words_bytes 8 H.
Proof.
  intros HL HR. unfold jhs_degroup.
  assert (L : length (words_bytes 8 H) = 128%nat) by (rewrite words_bytes_length, HL; reflexivity).
  apply (nth_ext _ _ 0 0); [rewrite map_length, seq_length; auto|].
  intros b Hb. rewrite map_length, seq_length in Hb. rewrite nth_map_seq by exact Hb.
  rewrite <- (byte_bits (nth b (words_bytes 8 H) 0)) at 1 by (apply nth_bytes_lt, words_bytes_ok).
  assert (E : forall t, (t < 8)%nat -> jhs_degroup_bit Q (8 * b + t) =
    N.testbit (nth b (words_bytes 8 H) 0) (N.of_nat (7 - t))).
  { intros t Ht. rewrite (jhs_degroup_bit_ok H) by (auto; lia). unfold jhs_bit.
    replace ((8 * b + t) / 8)%nat with b by (symmetry; rewrite Nat.mul_comm, Nat.div_add_l, Nat.div_small by lia; lia).
    replace ((8 * b + t) mod 8)%nat with t; [reflexivity|].
    symmetry. rewrite Nat.add_comm, Nat.mul_comm, Nat.mod_add by lia. apply Nat.mod_small. exact Ht. }
  cbn [seq fold_right]. rewrite !E by lia. reflexivity.
Qed.

Lemma jh_E8_ok n : forall m H Q, (m + n <= 6)%nat -> jrel 0 H Q ->
  jrel 0 (fold_left (fun H i => jh_rounds7 H (7 * i)) (seq m n) H) (fold_left spec_round (seq (7 * m) (7 * n)) Q).
Proof.
  induction n as [|n IH]; intros m H Q Hm HR; [exact HR|].
  cbn [seq fold_left]. replace (7 * S n)%nat with (7 + 7 * n)%nat by lia.
  rewrite seq_app, fold_left_app. replace (7 * m + 7)%nat with (7 * S m)%nat by lia.
  apply IH; [lia|]. apply jh_rounds7_ok; [lia|exact HR].
Qed.

Lemma jh_rounds_length n : forall m H, (0 < n)%nat ->
  length (fold_left (fun H i => jh_rounds7 H (7 * i)) (seq m n) H) = 16%nat.
Proof.
  induction n as [|n IH]; intros m H Hn; [lia|]. cbn [seq fold_left].
  destruct n as [|n]; [reflexivity|]. apply IH. lia.
Qed.

Lemma jh_step_f H t b : length H = 16%nat -> block_ok 64 b ->
  words_bytes 8 (jh_step H t b) = jhs_F8 (words_bytes 8 H) b /\ length (jh_step H t b) = 16%nat.
Proof.
  intros HL [Lb Ob]. unfold jh_step, jhs_F8, jhs_E8. cbv zeta.
  set (M := le_words 8 8 b).
  assert (LM : length M = 8%nat) by apply le_words_length.
  assert (EM : words_bytes 8 M = b) by (apply words_bytes_le_words; [exact Ob|exact Lb]).
  set (H1 := map2 N.lxor (firstn 8 H) M ++ skipn 8 H).
  assert (E1 : map2 N.lxor (words_bytes 8 H) (b ++ zeros 64) = words_bytes 8 H1).
  { rewrite <- (firstn_skipn 8 H) at 1. unfold H1. rewrite !words_bytes_app.
    rewrite map2_app by (rewrite words_bytes_length, firstn_length; lia).
    rewrite words_bytes_lxor by (rewrite firstn_length; lia). rewrite EM.
    rewrite (map2_zeros (words_bytes 8 (skipn 8 H)) 64) by (rewrite words_bytes_length, skipn_length; lia).
    reflexivity. }
  rewrite E1. generalize H1. clear E1 H1. intros H1.
  set (H2 := fold_left _ _ H1).
  assert (L2 : length H2 = 16%nat) by (apply jh_rounds_length; lia).
  pose proof (jh_E8_ok 6 0 H1 _ ltac:(lia) (jhs_group_rel H1)) as R2. fold H2 in R2.
  change (7 * 0)%nat with 0%nat in R2. change (7 * 6)%nat with 42%nat in R2.
  change (fun Q r => jhs_R 256 (jhs_cbit (jhs_consts r)) Q) with spec_round.
  rewrite (jhs_degroup_rel H2 _ L2 R2).
  assert (E2 : words_bytes 8 H2 = words_bytes 8 (firstn 8 H2) ++ words_bytes 8 (skipn 8 H2))
    by (rewrite <- words_bytes_app, firstn_skipn; reflexivity).
  split.
  - rewrite words_bytes_app, words_bytes_lxor by (rewrite skipn_length; lia). rewrite EM, E2.
    rewrite map2_app by (rewrite words_bytes_length, firstn_length, zeros_length; lia).
    rewrite (map2_zeros _ 64) by (rewrite words_bytes_length, firstn_length; lia). reflexivity.
  - rewrite app_length, map2_length, firstn_length, skipn_length. lia.
Qed.
Global Opaque jh_step jhs_F8.

(** ** The provider. *)
Lemma jh_iv_bytes hs : hs <= 512 ->
  words_bytes 8 (byteswap16 (trunc 16 hs) :: zeros 15) = be_bytes 2 hs ++ zeros 126.
Proof.
  intros Hh. apply list_eqb_eq.
  assert (F : forallb (fun i => list_eqb (words_bytes 8 (byteswap16 (trunc 16 (N.of_nat i)) :: zeros 15))
    (be_bytes 2 (N.of_nat i) ++ zeros 126)) (seq 0 513) = true) by (vm_compute; reflexivity).
  rewrite <- (N2Nat.id hs). apply (forallb_seq _ _ F). lia.
Qed.

Lemma jh_loop_ok n : forall H t data, length H = 16%nat -> bytes_ok data -> length data = (n * 64)%nat ->
  let H' := block_loop jh_step 64 H t data n in
  length H' = 16%nat /\ words_bytes 8 H' = fold_left jhs_F8 (blocks_n n 64 data) (words_bytes 8 H).
Proof.
  induction n as [|n IH]; intros H t data HL Hd Hl; cbv zeta; [split; [exact HL|reflexivity]|].
  cbn [blocks_n fold_left block_loop].
  destruct (jh_step_f H t (firstn 64 data) HL) as [E L];
    [split; [rewrite firstn_length; lia|apply Forall_firstn; exact Hd]|].
  rewrite <- E. apply IH; [exact L|apply Forall_skipn; exact Hd|rewrite skipn_length; lia].
Qed.

Section Jh.
  Variable hs : N.
  Hypothesis Hmax : hs <= 512.
  Hypothesis Hpos : 0 < hs.
  Hypothesis H8 : hs mod 8 = 0.

  Definition jh_ivw : list N := jh_step (byteswap16 (trunc 16 hs) :: zeros 15) 0 (zeros 64).
  Lemma jh_ivw_ok : length jh_ivw = 16%nat /\ words_bytes 8 jh_ivw = jhs_iv hs.
  Proof.
    unfold jh_ivw, jhs_iv. rewrite <- (jh_iv_bytes hs Hmax).
    destruct (jh_step_f (byteswap16 (trunc 16 hs) :: zeros 15) 0 (zeros 64)) as [E L];
      [reflexivity|split; [reflexivity|apply bytes_ok_zeros]|]. split; [exact L|exact E].
  Qed.

  Definition jh_Rel (s : jh_st) (_ : unit) (msg : list N) : Prop :=
    jhhs s = hs /\ bytes_ok msg /\ buf_inv jh_step 64 64 false jh_ivw (jhs s) msg.

  Lemma jh_transform1_ok h X t : length X = 64%nat -> md_transform1 jh_step 64 h X t = Ok (jh_step h t X).
  Proof.
    intros HX. unfold md_transform1. rewrite load_all by auto. cbn [bind block_loop].
    rewrite firstn_all2 by lia. reflexivity.
  Qed.

  Definition jh_len (msg : list N) : list N := be_bytes 8 (bitlen msg mod 2 ^ 64).
  Lemma jh_pad_split B T n : length B = (n * 64)%nat -> (length T < 64)%nat ->
    blocks 64 (jhs_pad (B ++ T)) = blocks_n n 64 B ++
      (if (length T =? 0)%nat then [[128] ++ zeros 55 ++ jh_len (B ++ T)]
       else [T ++ [128] ++ zeros (63 - length T); zeros 56 ++ jh_len (B ++ T)]).
  Proof.
    intros HB HT. unfold jhs_pad.
    assert (EL : be_bytes 16 (bitlen (B ++ T) mod 2 ^ 64) = zeros 8 ++ jh_len (B ++ T)).
    { unfold jh_len. change 16%nat with (8 + 8)%nat. unfold be_bytes.
      rewrite le_bytes_ext by (apply N.mod_lt; discriminate).
      rewrite rev_app_distr. f_equal. }
    rewrite EL. assert (LL : length (jh_len (B ++ T)) = 8%nat) by (apply be_bytes_length).
    set (L := jh_len (B ++ T)) in *. clearbody L. clear EL.
    assert (EM : (length (B ++ T) mod 64 = length T)%nat).
    { rewrite app_length, HB, Nat.add_comm, Nat.mod_add by lia. apply Nat.mod_small. exact HT. }
    rewrite EM. unfold blocks. rewrite <- (app_assoc B).
    set (P := T ++ _).
    assert (LP : length P = if (length T =? 0)%nat then 64%nat else 128%nat).
    { unfold P. rewrite !app_length, !zeros_length, LL. cbn [length].
      destruct (Nat.eqb_spec (length T) 0) as [E|E].
      - rewrite E. reflexivity.
      - rewrite Nat.mod_small by lia. lia. }
    rewrite app_length, HB, LP.
    destruct (Nat.eqb_spec (length T) 0) as [E|E].
    - rewrite Nat.div_add_l by lia. change (64 / 64)%nat with 1%nat. rewrite blocks_n_app by exact HB. f_equal.
      cbn [blocks_n]. rewrite firstn_all2 by lia. f_equal. unfold P. destruct T; [|discriminate].
      cbn [length Nat.sub app]. change ((64 - 0) mod 64)%nat with 0%nat. f_equal.
    - rewrite Nat.div_add_l by lia. change (128 / 64)%nat with 2%nat. rewrite blocks_n_app by exact HB. f_equal.
      cbn [blocks_n]. unfold P. rewrite Nat.mod_small by lia.
      replace (47 + (64 - length T))%nat with ((63 - length T) + 48)%nat by lia.
      assert (EZ : zeros (63 - length T + 48) = zeros (63 - length T) ++ zeros 48) by (apply repeat_app).
      rewrite EZ, <- app_assoc, (app_assoc (zeros 48)). change (zeros 48 ++ zeros 8) with (zeros 56).
      rewrite !(app_assoc T), (app_assoc (T ++ [128])).
      rewrite firstn_app_exact by (rewrite !app_length, zeros_length; cbn [length]; lia).
      rewrite skipn_app_exact by (rewrite !app_length, zeros_length; cbn [length]; lia).
      rewrite firstn_all2 by (rewrite app_length, LL, zeros_length; lia).
      rewrite <- (app_assoc T). reflexivity.
  Qed.

  Lemma jh_final_ok s msg : jh_Rel s tt msg ->
    exists s', jh_final s = Ok (s', jhs_hash hs msg) /\
      length (jhs_hash hs msg) = N.to_nat (hs / 8) /\ bytes_ok (jhs_hash hs msg).
  Proof.
    intros (Es & Hmsg & (B & T & J & n & -> & HB & HT & Hc & Ht & Hm & Hl & Hp)).
    unfold okrem, bschk in HT. assert (HT' : (length T < 64)%nat) by lia.
    assert (HJ : (length T + length J = 64)%nat) by (rewrite <- Hl, Hm, app_length; reflexivity).
    assert (OB : bytes_ok B) by (apply Forall_app in Hmsg; tauto).
    assert (OT : bytes_ok T) by (apply Forall_app in Hmsg; tauto).
    destruct jh_ivw_ok as [L0 E0].
    destruct (jh_loop_ok n jh_ivw 0 B L0 OB HB) as [L1 F]. rewrite E0 in F.
    unfold jhs_hash, md_hash. rewrite jh_pad_split with (n := n) by auto.
    rewrite fold_left_app, <- F. clear F.
    set (H1 := block_loop jh_step 64 jh_ivw 0 B n) in *.
    unfold jh_final. cbv zeta. rewrite Hp, Hm, Hc.
    set (total := trunc 64 (stotal (jhs s) + N.of_nat (length T * 8))).
    assert (Elen : le_bytes 8 (byteswap64 total) = jh_len (B ++ T)).
    { unfold jh_len. rewrite be_bytes_byteswap64. f_equal. unfold total. rewrite Ht.
      rewrite !trunc_mod, N.add_mod_idemp_l by discriminate. f_equal. unfold bitlen. rewrite app_length, HB. lia. }
    rewrite Elen. assert (LL : length (jh_len (B ++ T)) = 8%nat) by apply be_bytes_length.
    assert (OL : bytes_ok (jh_len (B ++ T))) by apply be_bytes_ok.
    set (L := jh_len (B ++ T)) in *. clearbody L. clear Elen.
    rewrite store_app by lia. cbn [bind].
    assert (Hend : forall H m pos, length H = 16%nat -> (pos <= 56)%nat -> length m = 64%nat ->
      bytes_ok (firstn pos m) ->
      exists s', (k <- size_sub 56 pos ;; m <- memset m pos 0 k ;;
        m <- memcpy m (64 - 8) L (64 / 8) ;;
        H <- md_transform1 jh_step 64 H m total ;;
        o <- size_sub 128 (N.to_nat (jhhs s / 8)) ;;
        d <- load (words_bytes 8 H) o (N.to_nat (jhhs s / 8)) ;;
        Ok (mkjh (mkst H m pos total) (jhhs s), d)) =
        Ok (s', skipn (128 - N.to_nat (hs / 8)) (jhs_F8 (words_bytes 8 H) (firstn pos m ++ zeros (56 - pos) ++ L))) /\
        length (skipn (128 - N.to_nat (hs / 8)) (jhs_F8 (words_bytes 8 H) (firstn pos m ++ zeros (56 - pos) ++ L))) = N.to_nat (hs / 8) /\
        bytes_ok (skipn (128 - N.to_nat (hs / 8)) (jhs_F8 (words_bytes 8 H) (firstn pos m ++ zeros (56 - pos) ++ L)))).
    { intros H m pos LH Hpp Lm Om. rewrite size_sub_ok by lia. cbn [bind].
      assert (Lf : length (firstn pos m) = pos) by (rewrite firstn_length; lia).
      pose proof (memset_app (firstn pos m) (skipn pos m) 0 pos (56 - pos) (eq_sym Lf) ltac:(rewrite skipn_length; lia)) as EM.
      rewrite firstn_skipn in EM. rewrite EM. clear EM. cbn [bind].
      rewrite (app_assoc (firstn pos m) (repeat 0 (56 - pos))). change (64 / 8)%nat with 8%nat.
      rewrite memcpy_app; [|rewrite app_length, repeat_length, Lf; lia|lia|rewrite !skipn_length; lia].
      cbn [bind]. rewrite (firstn_all2 L) by lia.
      rewrite (skipn_all2 (n := 8)) by (rewrite !skipn_length; lia). rewrite app_nil_r.
      rewrite <- app_assoc. fold (zeros (56 - pos)).
      set (X := firstn pos m ++ zeros (56 - pos) ++ L).
      assert (LX : length X = 64%nat) by (unfold X; rewrite !app_length, zeros_length, Lf; lia).
      assert (OX : bytes_ok X) by (unfold X; apply bytes_ok_app; [exact Om|apply bytes_ok_app; [apply bytes_ok_zeros|exact OL]]).
      rewrite jh_transform1_ok by exact LX. cbn [bind].
      destruct (jh_step_f H total X LH (conj LX OX)) as [EX L2]. rewrite <- EX.
      assert (LW : length (words_bytes 8 (jh_step H total X)) = 128%nat) by (rewrite words_bytes_length, L2; reflexivity).
      rewrite Es. assert (Hhs : (N.to_nat (hs / 8) <= 64)%nat).
      { assert (hs / 8 <= 64) by (apply N.div_le_upper_bound; lia). lia. }
      clear - LW Hhs. revert Hhs. generalize (N.to_nat (hs / 8)). intros k Hhs.
      rewrite size_sub_ok by lia. cbn [bind]. rewrite load_ok by lia. cbn [bind].
      rewrite firstn_all2 by (rewrite skipn_length; lia).
      eexists. split; [reflexivity|]. split; [rewrite skipn_length; lia|apply Forall_skipn, words_bytes_ok]. }
    destruct (Nat.eqb_spec (length T) 0) as [E|E].
    - destruct T as [|? ?]; [|discriminate]. cbn [length app Nat.add Nat.ltb Nat.leb bind fold_left] in *.
      destruct (Hend H1 (128 :: skipn 1 J) 1%nat L1) as (s' & E2 & E3); [lia|cbn [length]; rewrite skipn_length; lia| |].
      { constructor; [reflexivity|constructor]. }
      cbn [firstn app Nat.sub] in E2, E3. exists s'. split; [exact E2|exact E3].
    - replace (1 <? length T + 1)%nat with true by (symmetry; apply Nat.ltb_lt; lia).
      set (X := T ++ [128] ++ zeros (63 - length T)).
      assert (LX : length X = 64%nat) by (unfold X; rewrite !app_length, zeros_length; cbn [length]; lia).
      assert (OX : bytes_ok X)
        by (unfold X; apply bytes_ok_app; [exact OT|apply bytes_ok_app; [repeat constructor|apply bytes_ok_zeros]]).
      assert (E1 : (if negb (length T + 1 =? 64)%nat then
              k <- size_sub 64 (length T + 1) ;; memset (T ++ [128] ++ skipn 1 J) (length T + 1) 0 k
            else Ok (T ++ [128] ++ skipn 1 J)) = Ok X).
      { unfold X. destruct (Nat.eqb_spec (length T + 1) 64) as [G|G]; cbn [negb].
        - replace (63 - length T)%nat with 0%nat by lia. rewrite skipn_all2 by lia. reflexivity.
        - rewrite size_sub_ok by lia. cbn [bind]. rewrite (app_assoc T).
          rewrite memset_app by (rewrite ?app_length, ?skipn_length; cbn [length]; lia).
          rewrite skipn_skipn, skipn_all2 by lia. rewrite app_nil_r, <- !app_assoc. unfold zeros.
          replace (64 - (length T + 1))%nat with (63 - length T)%nat by lia. reflexivity. }
      rewrite E1. cbn [bind]. clear E1.
      rewrite jh_transform1_ok by exact LX. cbn [bind fold_left].
      destruct (jh_step_f H1 total X L1 (conj LX OX)) as [EX L2]. rewrite <- EX.
      destruct (Hend (jh_step H1 total X) X 0%nat L2) as (s' & E2 & E3); [lia|exact LX|constructor|].
      rewrite firstn_O in E2, E3. change (56 - 0)%nat with 56%nat in E2, E3. cbn [app] in E2, E3.
      exists s'. split; [exact E2|exact E3].
  Qed.

  Lemma jh_sim : sim jh (jh_spec hs) jh_Rel true.
  Proof.
    assert (bs_pos : (0 < 64)%nat) by lia.
    assert (bs_cap : (64 <= 64)%nat) by lia.
    constructor.
    - intros s p msg (Es & _ & A). eexists. split; [reflexivity|]. split; [exact Es|].
      split; [constructor|]. cbn [jhs]. rewrite Es. fold jh_ivw.
      apply buf_inv_start; [exact bs_pos|exact bs_cap|exact (buf_inv_sm _ _ _ _ _ _ _ A)].
    - intros s p msg d Hd (Es & Hm & A).
      destruct (buf_update_ok jh_step 64 64 false bs_pos bs_cap jh_ivw (jhs s) msg d A) as (x & E & A').
      exists (mkjh x hs). split; [|split; [reflexivity|split; [apply bytes_ok_app; auto|exact A']]].
      change (bschk 64 false) with 64%nat in E. unfold jh; cbn [hp p_update]. unfold jh_update. rewrite Es.
      rewrite E. reflexivity.
    - intros _ s p msg (Es & _ & A). do 2 eexists. split; [reflexivity|]. split; [reflexivity|].
      split; [exact Es|]. split; [constructor|]. cbn [jhs jhhs sm]. rewrite Es. fold jh_ivw.
      apply buf_inv_start; [exact bs_pos|exact bs_cap|].
      unfold zero_memory. rewrite zeros_length. exact (buf_inv_sm _ _ _ _ _ _ _ A).
    - intros q. destruct q.
    - intros s [] msg A. destruct (jh_final_ok s msg A) as (s' & E & _). eauto.
    - intros s p msg (Es & _ & _). cbn [jh hp_size jh_spec sp_size]. rewrite Es. lia.
    - intros s [] msg A. destruct (jh_final_ok s msg A) as (s' & _ & E & _). exact E.
    - intros s [] msg A. destruct (jh_final_ok s msg A) as (s' & _ & _ & E). exact E.
    - cbn. assert (1 <= hs / 8); [|lia]. apply N.div_le_lower_bound; [discriminate|].
      pose proof (N.div_mod hs 8 ltac:(discriminate)). lia.
  Qed.

  Theorem jh_implements g : length (sm g) = 64%nat ->
    implements jh (jh_spec hs) true (fresh_of (jh_ctor hs g) jh_init) /\
    implements jh (jh_spec hs) true (fresh_of (jh_ctor_static hs g) jh_init).
  Proof.
    intros Hg.
    assert (E : jh_ctor hs g = jh_ctor_static hs g).
    { unfold jh_ctor, jh_ctor_static. unfold validate_max.
      replace (hs =? 0) with false by (symmetry; apply N.eqb_neq; lia).
      rewrite H8. replace (512 <? hs) with false by (symmetry; apply N.ltb_ge; lia). reflexivity. }
    rewrite E. assert (I : implements jh (jh_spec hs) true (fresh_of (jh_ctor_static hs g) jh_init)).
    { unfold fresh_of, jh_ctor_static. cbn [bind]. unfold jh_init. cbn [jhhs jhs].
      apply (sim_implements _ _ _ _ jh_sim). split; [reflexivity|]. split; [constructor|].
      cbn [jhs]. fold jh_ivw. apply buf_inv_start; [lia|lia|exact Hg]. }
    split; exact I.
  Qed.
End Jh.
