(** * BLAKE2bp and BLAKE2sp conformance. *)
From Verif Require Import Base Absorb Lemmas WordLemmas TableLemmas AbsorbProof AbsorbRel Hasher HasherSpec HasherProof
  MdState MdProof BufProof SpecCommon SqueezeProof SpongeProof ConstBlake2 Blake2 Blake2Spec Blake2Proof Blake2Sim
  Blake2p Blake2pSpec Validate.
Local Open Scope nat_scope.

(** ** Selecting bytes by their index *)
Definition pick {A} (f : nat -> bool) (a : nat) (l : list A) : list A :=
  map snd (filter (fun x => f (fst x)) (combine (seq a (length l)) l)).

Lemma pick_cons {A} f a (x : A) l : pick f a (x :: l) = (if f a then [x] else []) ++ pick f (S a) l.
Proof. unfold pick. cbn [length seq combine filter fst]. destruct (f a); reflexivity. Qed.

Lemma pick_app {A} f (x : list A) : forall a y, pick f a (x ++ y) = pick f a x ++ pick f (a + length x) y.
Proof.
  induction x as [|b x IH]; intros a y.
  - cbn [app length]. rewrite Nat.add_0_r. reflexivity.
  - cbn [app]. rewrite !pick_cons, IH, <- app_assoc. cbn [length].
    replace (S a + length x) with (a + S (length x)) by lia. reflexivity.
Qed.

Lemma pick_shift {A} f g (l : list A) : forall a b, (forall k, k < length l -> f (a + k) = g (b + k)) ->
  pick f a l = pick g b l.
Proof.
  induction l as [|x l IH]; intros a b H; [reflexivity|].
  rewrite !pick_cons. rewrite (IH (S a) (S b)).
  - specialize (H 0 ltac:(cbn; lia)). rewrite !Nat.add_0_r in H. rewrite H. reflexivity.
  - intros k Hk. specialize (H (S k) ltac:(cbn; lia)).
    replace (S a + k) with (a + S k) by lia. replace (S b + k) with (b + S k) by lia. exact H.
Qed.

Lemma pick_all {A} f (l : list A) a : (forall k, k < length l -> f (a + k) = true) -> pick f a l = l.
Proof.
  revert a. induction l as [|x l IH]; intros a H; [reflexivity|].
  rewrite pick_cons. rewrite IH.
  - specialize (H 0 ltac:(cbn; lia)). rewrite Nat.add_0_r in H. rewrite H. reflexivity.
  - intros k Hk. specialize (H (S k) ltac:(cbn; lia)). replace (S a + k) with (a + S k) by lia. exact H.
Qed.
Lemma pick_none {A} f (l : list A) a : (forall k, k < length l -> f (a + k) = false) -> pick f a l = [].
Proof.
  revert a. induction l as [|x l IH]; intros a H; [reflexivity|].
  rewrite pick_cons. rewrite IH.
  - specialize (H 0 ltac:(cbn; lia)). rewrite Nat.add_0_r in H. rewrite H. reflexivity.
  - intros k Hk. specialize (H (S k) ltac:(cbn; lia)). replace (S a + k) with (a + S k) by lia. exact H.
Qed.

Section Split.
  Variables b d : nat.
  Hypothesis Hb : 0 < b.
  Hypothesis Hd : 0 < d.
  Let f (i k : nat) : bool := (k / b) mod d =? i.

  Lemma pick_blocks {A} i n (B T : list A) : length B = n * (d * b) ->
    pick (f i) 0 (B ++ T) = pick (f i) 0 B ++ pick (f i) 0 T.
  Proof.
    intros HB. rewrite pick_app. f_equal. apply pick_shift. intros k _. unfold f.
    rewrite HB. cbn [Nat.add]. replace (n * (d * b) + k) with (k + (n * d) * b) by lia.
    rewrite Nat.div_add by lia. rewrite Nat.mod_add by lia. reflexivity.
  Qed.

  Lemma pick_one {A} i (T : list A) : i < d -> length T <= d * b ->
    pick (f i) 0 T = firstn b (skipn (i * b) T).
  Proof.
    intros Hi HT. rewrite <- (firstn_skipn (i * b) T) at 1. rewrite pick_app.
    assert (E1 : pick (f i) 0 (firstn (i * b) T) = []).
    { apply pick_none. intros k Hk. rewrite firstn_length in Hk. unfold f. apply Nat.eqb_neq. cbn [Nat.add].
      assert (k / b < i) by (apply Nat.div_lt_upper_bound; lia).
      rewrite Nat.mod_small by lia. lia. }
    rewrite E1. cbn [app Nat.add].
    destruct (Nat.le_gt_cases (length T) (i * b)) as [L|L].
    - rewrite (skipn_all2 T L). rewrite firstn_nil. reflexivity.
    - rewrite firstn_length, Nat.min_l by lia.
      set (U := skipn (i * b) T).
      assert (HU : length U = length T - i * b) by (unfold U; rewrite skipn_length; reflexivity).
      rewrite <- (firstn_skipn b U) at 1. rewrite pick_app.
      rewrite pick_all, pick_none; [apply app_nil_r| |].
      + intros k Hk. rewrite skipn_length in Hk. rewrite firstn_length, Nat.min_l by lia.
        unfold f. apply Nat.eqb_neq.
        assert (A1 : i + 1 <= (i * b + b + k) / b) by (apply Nat.div_le_lower_bound; lia).
        assert (A2 : (i * b + b + k) / b < d) by (apply Nat.div_lt_upper_bound; lia).
        rewrite Nat.mod_small by lia. lia.
      + intros k Hk. rewrite firstn_length in Hk. unfold f. apply Nat.eqb_eq.
        assert (E : (i * b + k) / b = i).
        { replace (i * b + k) with (k + i * b) by lia. rewrite Nat.div_add by lia.
          rewrite Nat.div_small by lia. reflexivity. }
        rewrite E. apply Nat.mod_small. exact Hi.
  Qed.
End Split.

(** ** The loops over the leaves *)
Fixpoint Each {A} (Q : nat -> A -> Prop) (i : nat) (l : list A) : Prop :=
  match l with [] => True | x :: r => Q i x /\ Each Q (S i) r end.

Lemma each_ok {A B} (Q : nat -> A -> Prop) (Q' : nat -> B -> Prop) (f : nat -> A -> res B) m l : forall i,
  i + length l <= m ->
  (forall j x, j < m -> Q j x -> exists y, f j x = Ok y /\ Q' j y) -> Each Q i l ->
  exists l', each f i l = Ok l' /\ Each Q' i l' /\ length l' = length l.
Proof.
  induction l as [|x l IH]; intros i Hi H HE.
  - exists []. repeat split.
  - cbn [length] in Hi. destruct HE as [H1 H2]. destruct (H i x ltac:(lia) H1) as (y & Ey & Hy).
    destruct (IH (S i) ltac:(lia) H H2) as (l' & E & HQ & HL).
    exists (y :: l'). cbn [each]. rewrite Ey. cbn [bind]. rewrite E. cbn [bind length Each]. auto.
Qed.

Lemma Each_imp {A} (Q Q' : nat -> A -> Prop) l : (forall j x, Q j x -> Q' j x) -> forall i, Each Q i l -> Each Q' i l.
Proof. intros H. induction l; intros i; cbn [Each]; [auto|]. intros [H1 H2]. split; auto. Qed.

(** ** Tree nodes *)
Lemma par_w0 c nn kk : (c <= 64)%N -> (nn <= 64)%N -> (kk <= 64)%N -> c = 4%N \/ c = 8%N ->
  N.lxor (N.lxor nn (kk * 256)) (N.lor (2 ^ 16 * c) (2 ^ 25)) = (nn + 256 * kk + 2 ^ 16 * c + 2 ^ 24 * 2)%N.
Proof.
  intros _ H1 H2 Hc. apply N.eqb_eq. destruct Hc; subst c.
  - exact (sweep65 (fun nn kk => N.lxor (N.lxor nn (kk * 256)) (N.lor (2 ^ 16 * 4) (2 ^ 25)) =? nn + 256 * kk + 2 ^ 16 * 4 + 2 ^ 24 * 2)%N
      ltac:(vm_compute; reflexivity) nn kk H1 H2).
  - exact (sweep65 (fun nn kk => N.lxor (N.lxor nn (kk * 256)) (N.lor (2 ^ 16 * 8) (2 ^ 25)) =? nn + 256 * kk + 2 ^ 16 * 8 + 2 ^ 24 * 2)%N
      ltac:(vm_compute; reflexivity) nn kk H1 H2).
Qed.

Lemma init_par w (Hw : w = 64%N \/ w = 32%N) salt pers klen hs nd no :
  length salt = 2 * wb w -> length pers = 2 * wb w -> klen <= hb w -> (hs / 8 <= w)%N ->
  nd = 0%N \/ nd = 1%N -> (no < 8)%N ->
  b2_init_H w BHash hs (le_words (wb w) 2 salt) (le_words (wb w) 2 pers) klen (N.of_nat (bp_P w)) nd no
  = init_h w (par_tree w (hs / 8) klen no nd) salt pers.
Proof.
  intros Hs Hp Hk Hn Hnd Hno.
  assert (Hk64 : klen <= 64) by (destruct Hw; subst w; cbv in Hk; lia).
  assert (Hn64 : (hs / 8 <= 64)%N) by (destruct Hw; subst w; lia).
  unfold b2_init_H. rewrite key_word by auto.
  rewrite (trunc_small w (hs / 8)) by (destruct Hw; subst w; (eapply N.le_lt_trans; [exact Hn|reflexivity])).
  pose proof (two_words (wb w) salt) as Es. pose proof (two_words (wb w) pers) as Ep.
  assert (E0 : forall c, c = 4%N \/ c = 8%N ->
    N.lxor (N.lxor (hs / 8) (N.of_nat klen * 256)) (N.lor (2 ^ 16 * c) (2 ^ 25))
    = (hs / 8 + 256 * N.of_nat klen + 2 ^ 16 * c + 2 ^ 24 * 2)%N).
  { intros c Hc. apply par_w0; auto; [destruct Hc; subst c; discriminate|lia]. }
  unfold b2_initH. rewrite b2_IV_eq.
  destruct Hw; subst w.
  - rewrite init_h_64 by auto. change (wb 64) with 8 in *.
    destruct (le_words 8 2 salt) as [|s0 [|s1 [|? ?]]]; try discriminate Es.
    destruct (le_words 8 2 pers) as [|p0 [|p1 [|? ?]]]; try discriminate Ep.
    unfold par_tree, tree_w0. cbn [t_len t_key t_fanout t_depth t_leaf t_noff t_ndepth t_inner].
    change (N.of_nat (degree 64)) with 4%N. rewrite <- (E0 4%N) by auto.
    rewrite (N.mod_small no) by (eapply N.lt_trans; [exact Hno|reflexivity]).
    assert (E2 : N.lor nd (shlw 64 64 8) = (nd + 256 * N.of_nat (hb 64))%N) by (destruct Hnd; subst nd; reflexivity).
    rewrite E2. change (N.lor (shlw 64 (N.of_nat (bp_P 64)) 16) (shlw 64 2 24)) with (N.lor (2 ^ 16 * 4) (2 ^ 25)).
    change (N.of_nat (bp_P 64) =? 0)%N with false. change (64 =? 64)%N with true. cbv iota.
    change (2 ^ 32 * (0 mod 2 ^ 32))%N with 0%N. rewrite N.add_0_r.
    generalize (nd + 256 * N.of_nat (hb 64))%N (N.lor (2 ^ 16 * 4) (2 ^ 25)). intros x y.
    unfold b2_xor_sp, b2_xor, IV2, nthN. cbn [N.eqb Pos.eqb upd nth map2 app].
    rewrite <- !N.lxor_assoc, !N.lxor_0_r. reflexivity.
  - rewrite init_h_32 by auto. change (wb 32) with 4 in *.
    destruct (le_words 4 2 salt) as [|s0 [|s1 [|? ?]]]; try discriminate Es.
    destruct (le_words 4 2 pers) as [|p0 [|p1 [|? ?]]]; try discriminate Ep.
    unfold par_tree, tree_w0. cbn [t_len t_key t_fanout t_depth t_leaf t_noff t_ndepth t_inner].
    change (N.of_nat (degree 32)) with 8%N. rewrite <- (E0 8%N) by auto.
    assert (Hno' : (no < 2 ^ 32)%N) by (eapply N.lt_trans; [exact Hno|reflexivity]).
    rewrite (N.mod_small no), (N.div_small no) by exact Hno'.
    assert (E2 : N.lor (shlw 32 nd 16) (shlw 32 32 24) = (0 mod 2 ^ 16 + 2 ^ 16 * nd + 2 ^ 24 * N.of_nat (hb 32))%N)
      by (destruct Hnd; subst nd; reflexivity).
    rewrite E2. change (N.lor (shlw 32 (N.of_nat (bp_P 32)) 16) (shlw 32 2 24)) with (N.lor (2 ^ 16 * 8) (2 ^ 25)).
    change (N.of_nat (bp_P 32) =? 0)%N with false. change (32 =? 64)%N with false. cbv iota.
    change (0 mod 2 ^ 32)%N with 0%N.
    generalize (0 mod 2 ^ 16 + 2 ^ 16 * nd + 2 ^ 24 * N.of_nat (hb 32))%N (N.lor (2 ^ 16 * 8) (2 ^ 25)). intros x y.
    unfold b2_xor_sp, b2_xor, IV2, nthN. cbn [N.eqb Pos.eqb upd nth map2 app].
    rewrite <- !N.lxor_assoc, !N.lxor_0_r. reflexivity.
Qed.
