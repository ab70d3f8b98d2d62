(** * Streebog: the provider implements the specification up to its checksum addition. *)
From Verif Require Import Base Absorb Hasher HasherSpec Lemmas WordLemmas AbsorbProof HasherProof HasherWhen
  MdState SpecCommon MdProof BufProof TableLemmas GfSpec Validate ConstStreebog Streebog StreebogSpec.

(** ** Tables and constants. *)
(** What a byte [x] in position [j] of a word contributes to l(S(...)). *)
Definition sb_contrib (j : nat) (x : N) : N :=
  xor_sum (fun k => if N.testbit (nth (N.to_nat x) sbs_pi 0) (N.of_nat k) then nth (63 - (8 * j + k)) sbs_A 0 else 0) 8.

Lemma sb_T_eq j x : (j < 8)%nat -> x < 256 -> tbl (nth j streebog_T []) x = sb_contrib j x.
Proof.
  intros Hj Hx. apply N.eqb_eq.
  apply (sweep3 (fun j _ x => tbl (nth j streebog_T []) x =? sb_contrib j x) 8 1) with (k := 0%nat);
    [vm_compute; reflexivity|auto..].
Qed.

Lemma sb_RC_eq : map (words_bytes 8) streebog_RC = map (le_bytes 64) sbs_C.
Proof. vm_compute. reflexivity. Qed.
Lemma sb_RC_len : Forall (fun r => length r = 8%nat) streebog_RC.
Proof. repeat constructor. Qed.

(** ** L P S. *)
Lemma xor_sum_ext f g n : (forall i, (i < n)%nat -> f i = g i) -> xor_sum f n = xor_sum g n.
Proof.
  induction n as [|n IH]; intros H; [reflexivity|]. cbn [xor_sum].
  rewrite IH by (intros; apply H; lia). rewrite H by lia. reflexivity.
Qed.
Lemma xor_sum_app f n k : xor_sum f (n + k) = N.lxor (xor_sum f n) (xor_sum (fun i => f (n + i)%nat) k).
Proof.
  induction k as [|k IH].
  - rewrite Nat.add_0_r. cbn [xor_sum]. rewrite N.lxor_0_r. reflexivity.
  - rewrite Nat.add_succ_r. cbn [xor_sum]. rewrite IH, N.lxor_assoc. reflexivity.
Qed.
Lemma xor_sum_mul f k n : xor_sum f (n * k) = xor_sum (fun j => xor_sum (fun i => f (k * j + i)%nat) k) n.
Proof.
  induction n as [|n IH]; [reflexivity|]. cbn [xor_sum]. rewrite <- IH.
  replace (S n * k)%nat with (n * k + k)%nat by lia. rewrite xor_sum_app, (Nat.mul_comm n k). reflexivity.
Qed.

Lemma sbs_word a c : (c < 8)%nat ->
  firstn 8 (skipn (8 * c) (sbs_P a)) = map (fun j => nth (8 * j + c) a 0) (seq 0 8).
Proof.
  intros Hc. unfold sbs_P. do 8 (destruct c as [|c]; [reflexivity|]). lia.
Qed.

Lemma sb_lps_ok block : length block = 8%nat ->
  words_bytes 8 (sb_lps_block block) = sbs_LPS (words_bytes 8 block) /\ length (sb_lps_block block) = 8%nat.
Proof.
  intros Hl. split; [|reflexivity].
  assert (Hlen : length (words_bytes 8 block) = 64%nat) by (rewrite words_bytes_length, Hl; reflexivity).
  unfold sb_lps_block, sbs_LPS, sbs_L. generalize (words_bytes_ok 8 block). revert Hlen.
  generalize (words_bytes 8 block). intros ch Hlen Hch. cbv zeta.
  unfold words_bytes. rewrite flat_map_concat_map, map_map, <- flat_map_concat_map.
  rewrite !flat_map_concat_map. f_equal. apply map_ext_in. intros c Hc. apply in_seq in Hc. f_equal.
  rewrite sbs_word by lia. unfold sbs_l. change 64%nat with (8 * 8)%nat. rewrite xor_sum_mul.
  unfold sb_lps.
  assert (E : forall j, (j < 8)%nat -> tbl (nth j streebog_T []) (nthN (8 * j + c) ch) =
     xor_sum (fun i => if N.testbit (nth ((8 * j + i) / 8) (map (fun j0 => nth (8 * j0 + c) (sbs_S ch) 0) (seq 0 8)) 0)
                             (N.of_nat ((8 * j + i) mod 8)) then nth (63 - (8 * j + i)) sbs_A 0 else 0) 8).
  { intros j Hj. unfold nthN. rewrite sb_T_eq by (auto; apply nth_bytes_lt; auto). unfold sb_contrib.
    apply xor_sum_ext. intros i Hi.
    replace ((8 * j + i) / 8)%nat with j by (rewrite (Nat.mul_comm 8 j), Nat.div_add_l, Nat.div_small by lia; lia).
    replace ((8 * j + i) mod 8)%nat with i by (rewrite (Nat.mul_comm 8 j), Nat.add_comm, Nat.mod_add, Nat.mod_small by lia; lia).
    rewrite nth_map_seq by lia. unfold sbs_S. rewrite map_nth_lt with (d := 0) by lia. reflexivity. }
  rewrite !E by lia. clear E. cbn [xor_sum]. rewrite !N.lxor_0_l. reflexivity.
Qed.

(** ** The compression function. *)
Lemma sb_xor_ok a b : length a = 8%nat -> length b = 8%nat ->
  words_bytes 8 (sb_xor a b) = sbs_X (words_bytes 8 a) (words_bytes 8 b) /\ length (sb_xor a b) = 8%nat.
Proof.
  intros Ha Hb. unfold sb_xor, sbs_X. split; [apply words_bytes_lxor; congruence|].
  rewrite map2_length, Ha, Hb. reflexivity.
Qed.

Lemma sbs_X_comm a b : sbs_X a b = sbs_X b a.
Proof. apply map2_comm. apply N.lxor_comm. Qed.

Lemma fold_seq_nth {A B} (f : A -> B -> A) (d : B) l : forall a,
  fold_left (fun a i => f a (nth i l d)) (seq 0 (length l)) a = fold_left f l a.
Proof.
  assert (G : forall l k pre a, length pre = k ->
    fold_left (fun a i => f a (nth i (pre ++ l) d)) (seq k (length l)) a = fold_left f l a).
  { clear l. induction l as [|x l IH]; intros k pre a Hk; [reflexivity|]. cbn [length seq fold_left].
    rewrite app_nth2, Hk, Nat.sub_diag by lia. cbn [nth].
    replace (pre ++ x :: l) with ((pre ++ [x]) ++ l) by (rewrite <- app_assoc; reflexivity).
    apply IH. rewrite app_length. cbn [length]. lia. }
  intros a. apply (G l 0%nat []). reflexivity.
Qed.

Definition sb_round (kt : list N * list N) (c : list N) : list N * list N :=
  let '(K, tmp) := kt in
  let K := sb_lps_block K in
  let tmp := sb_lps_block (sb_xor tmp c) in
  (sb_xor K tmp, tmp).
Definition sbs_round (Km : list N * list N) (c : list N) : list N * list N :=
  let '(K, m) := Km in (sbs_LPS (sbs_X K c), sbs_LPS (sbs_X K m)).

Lemma sb_e_fold K m : sb_e K m = fst (fold_left sb_round streebog_RC (sb_xor K m, K)).
Proof. rewrite <- (fold_seq_nth sb_round []). reflexivity. Qed.
Lemma fold_map {A B X} (g : X -> B) (f : A -> B -> A) l : forall a,
  fold_left f (map g l) a = fold_left (fun a x => f a (g x)) l a.
Proof. induction l; intros; [reflexivity|]. cbn [map fold_left]. apply IHl. Qed.
Lemma sbs_E_fold K m : sbs_E K m =
  let '(K, m) := fold_left sbs_round (map (le_bytes 64) sbs_C) (K, m) in sbs_X K m.
Proof. rewrite fold_map. reflexivity. Qed.

Lemma sb_rounds_ok l : forall cur tmp s, Forall (fun r => length r = 8%nat) l ->
  length cur = 8%nat -> length tmp = 8%nat -> words_bytes 8 cur = sbs_X (words_bytes 8 tmp) s ->
  let '(c', _) := fold_left sb_round l (cur, tmp) in
  let '(K', s') := fold_left sbs_round (map (words_bytes 8) l) (words_bytes 8 tmp, s) in
  words_bytes 8 c' = sbs_X K' s' /\ length c' = 8%nat.
Proof.
  induction l as [|r l IH]; intros cur tmp s Hl Hc Ht E; [split; auto|].
  inversion_clear Hl as [|? ? Hr Hl']. cbn [fold_left map]. unfold sb_round at 2, sbs_round at 2.
  destruct (sb_xor_ok tmp r Ht Hr) as [E1 L1].
  destruct (sb_lps_ok (sb_xor tmp r) L1) as [E2 L2]. rewrite E1 in E2.
  destruct (sb_lps_ok cur Hc) as [E3 L3]. rewrite E in E3.
  destruct (sb_xor_ok _ _ L3 L2) as [E4 L4]. rewrite E3 in E4.
  specialize (IH _ _ (sbs_LPS (sbs_X (words_bytes 8 tmp) s)) Hl' L4 L2).
  rewrite E2 in IH. apply IH. rewrite E4, E2. apply sbs_X_comm.
Qed.

Lemma sb_e_ok K m : length K = 8%nat -> length m = 8%nat ->
  words_bytes 8 (sb_e K m) = sbs_E (words_bytes 8 K) (words_bytes 8 m) /\ length (sb_e K m) = 8%nat.
Proof.
  intros HK Hm. rewrite sb_e_fold, sbs_E_fold, <- sb_RC_eq.
  destruct (sb_xor_ok K m HK Hm) as [E L].
  pose proof (sb_rounds_ok streebog_RC _ K (words_bytes 8 m) sb_RC_len L HK E) as H.
  destruct (fold_left sb_round streebog_RC (sb_xor K m, K)) as [c t].
  destruct (fold_left sbs_round (map (words_bytes 8) streebog_RC) (words_bytes 8 K, words_bytes 8 m)) as [K' s'].
  exact H.
Qed.


Lemma sb_gN_ok h m Nn : length h = 8%nat -> length m = 8%nat -> Nn < 2 ^ 64 ->
  words_bytes 8 (sb_gN h m Nn) = sbs_g Nn (words_bytes 8 h) (words_bytes 8 m) /\ length (sb_gN h m Nn) = 8%nat.
Proof.
  intros Hh Hm HN. unfold sb_gN, sbs_g. cbv zeta.
  set (hN := match h with x :: r => N.lxor x Nn :: r | [] => [] end).
  assert (L : length hN = 8%nat) by (unfold hN; destruct h; exact Hh).
  assert (E : words_bytes 8 hN = sbs_X (words_bytes 8 h) (le_bytes 64 Nn)).
  { unfold hN, sbs_X. destruct h as [|x r]; [discriminate Hh|].
    change 64%nat with (8 + 56)%nat. rewrite le_bytes_ext by exact HN.
    unfold words_bytes. cbn [flat_map]. fold (words_bytes 8 r).
    rewrite map2_app by (rewrite !le_bytes_length; reflexivity). rewrite le_bytes_lxor. f_equal.
    symmetry. apply map2_zeros. rewrite words_bytes_length. cbn [length] in Hh. lia. }
  destruct (sb_lps_ok hN L) as [E1 L1]. rewrite E in E1.
  destruct (sb_e_ok _ m L1 Hm) as [E2 L2]. rewrite E1 in E2.
  destruct (sb_xor_ok h _ Hh L2) as [E3 L3]. rewrite E2 in E3.
  destruct (sb_xor_ok _ m L3 Hm) as [E4 L4]. rewrite E3 in E4. split; [|exact L4].
  rewrite E4. f_equal. apply sbs_X_comm.
Qed.

(** ** The checksum addition. *)
Fixpoint wval (l : list N) : N := match l with [] => 0 | w :: r => w + 2 ^ 64 * wval r end.

Lemma le_word_wval l : words_ok 64 l -> le_word (words_bytes 8 l) = wval l.
Proof.
  induction 1 as [|w l Hw Hl IH]; [reflexivity|]. unfold words_bytes. cbn [flat_map wval].
  fold (words_bytes 8 l). rewrite le_word_app, IH, le_word_bytes, le_bytes_length.
  change (256 ^ N.of_nat 8) with (2 ^ 64). rewrite N.mod_small by exact Hw. reflexivity.
Qed.

Lemma le_words_words_bytes l : words_ok 64 l -> le_words 8 (length l) (words_bytes 8 l) = l.
Proof.
  induction 1 as [|w l Hw Hl IH]; [reflexivity|]. unfold words_bytes. cbn [flat_map length le_words].
  fold (words_bytes 8 l). rewrite firstn_app_exact, skipn_app_exact by (rewrite le_bytes_length; reflexivity).
  rewrite IH, le_word_bytes. change (256 ^ N.of_nat 8) with (2 ^ 64). rewrite N.mod_small by exact Hw. reflexivity.
Qed.

(** Addition word by word with the carry. *)
Fixpoint add_words (c : N) (m h : list N) : list N :=
  match m, h with
  | m0 :: m', h0 :: h' => (h0 + m0 + c) mod 2 ^ 64 :: add_words ((h0 + m0 + c) / 2 ^ 64) m' h'
  | _, _ => []
  end.

Lemma add_words_val m : forall c h, length h = length m ->
  wval (add_words c m h) = (wval h + wval m + c) mod 2 ^ (64 * N.of_nat (length m)).
Proof.
  induction m as [|m0 m IH]; intros c [|h0 h] Hl; try discriminate Hl.
  - cbn. rewrite N.mod_1_r. reflexivity.
  - cbn [add_words wval length] in *. rewrite IH by lia.
    replace (64 * N.of_nat (S (length m))) with (64 + 64 * N.of_nat (length m)) by lia.
    rewrite N.pow_add_r. set (P := 2 ^ (64 * N.of_nat (length m))).
    assert (HP : P <> 0) by (apply N.pow_nonzero; discriminate).
    change (2 ^ 64) with 0x10000000000000000 in *. set (W := 0x10000000000000000).
    rewrite N.mod_mul_r by (auto; discriminate).
    replace (h0 + W * wval h + (m0 + W * wval m) + c) with (h0 + m0 + c + (wval h + wval m) * W) by lia.
    rewrite N.mod_add, N.div_add by discriminate. do 2 f_equal. f_equal. lia.
Qed.

Lemma add_words_ok m : forall c h, words_ok 64 (add_words c m h).
Proof.
  induction m as [|m0 m IH]; intros c [|h0 h]; try constructor; [apply N.mod_lt; discriminate|apply IH].
Qed.
Lemma sb_addm_ok m : forall c h, words_ok 64 (sb_addm c m h).
Proof.
  induction m as [|m0 m IH]; intros c [|h0 h]; try constructor; [apply addw_lt|apply IH].
Qed.
Lemma sb_addm_length m : forall c h, length h = length m -> length (sb_addm c m h) = length m.
Proof.
  induction m as [|m0 m IH]; intros c [|h0 h] Hl; try discriminate Hl; [reflexivity|].
  cbn [sb_addm length] in *. f_equal. apply IH. lia.
Qed.

Fixpoint kept (c : N) (m h : list N) : Prop :=
  match m, h with
  | m0 :: m', h0 :: h' =>
      (m' <> [] -> h0 + m0 = 2 ^ 64 - 1 -> c = 0) /\ kept ((h0 + m0 + c) / 2 ^ 64) m' h'
  | _, _ => True
  end.

Definition bit (b : bool) : N := if b then 1 else 0.

Lemma overflow_carry h0 m0 : h0 < 2 ^ 64 -> m0 < 2 ^ 64 ->
  ((addw 64 h0 m0 <? h0) || (addw 64 h0 m0 <? m0)) = (2 ^ 64 <=? h0 + m0).
Proof.
  intros. rewrite addw_mod. change (2 ^ 64) with 0x10000000000000000 in *.
  destruct (N.leb_spec 0x10000000000000000 (h0 + m0)).
  - replace ((h0 + m0) mod 0x10000000000000000) with (h0 + m0 - 0x10000000000000000).
    + apply orb_true_iff. left. apply N.ltb_lt. lia.
    + apply N.mod_unique with 1; lia.
  - rewrite N.mod_small by auto. apply orb_false_iff. split; apply N.ltb_ge; lia.
Qed.

Lemma succ_mod_neq x : x mod 2 ^ 64 <> (x + 1) mod 2 ^ 64.
Proof.
  intros E. change (2 ^ 64) with 0x10000000000000000 in *.
  pose proof (N.div_mod x 0x10000000000000000 ltac:(discriminate)).
  pose proof (N.div_mod (x + 1) 0x10000000000000000 ltac:(discriminate)).
  assert (0x10000000000000000 * ((x + 1) / 0x10000000000000000) =
    0x10000000000000000 * (x / 0x10000000000000000) + 1) by lia. lia.
Qed.

(** The code adds correctly exactly if no carry is lost. *)
Lemma sb_addm_exact m : forall c h, length h = length m -> words_ok 64 m -> words_ok 64 h ->
  (sb_addm c m h = add_words (bit c) m h <-> kept (bit c) m h).
Proof.
  induction m as [|m0 m IH]; intros c [|h0 h] Hl Hm Hh; try discriminate Hl; [cbn; tauto|].
  inversion_clear Hm as [|? ? A1 A2]. inversion_clear Hh as [|? ? B1 B2].
  cbn [sb_addm add_words kept length] in *. cbv zeta.
  rewrite overflow_carry by auto.
  assert (E : addw 64 (addw 64 h0 m0) (if c then 1 else 0) = (h0 + m0 + bit c) mod 2 ^ 64)
    by (rewrite !addw_mod, N.add_mod_idemp_l by discriminate; reflexivity).
  rewrite E. clear E.
  assert (Hc : bit c <= 1) by (destruct c; cbn; lia).
  assert (D : (bit (2 ^ 64 <=? h0 + m0) = (h0 + m0 + bit c) / 2 ^ 64 /\ (h0 + m0 <> 2 ^ 64 - 1 \/ bit c = 0)) \/
    ((2 ^ 64 <=? h0 + m0) = false /\ (h0 + m0 + bit c) / 2 ^ 64 = 1 /\ h0 + m0 = 2 ^ 64 - 1 /\ bit c = 1)).
  { revert Hc. generalize (bit c). intros b Hb. change (2 ^ 64) with 0x10000000000000000 in *.
    destruct (N.leb_spec 0x10000000000000000 (h0 + m0)) as [G|G]; cbn [bit].
    - left. split; [|left; lia].
      apply N.div_unique with (h0 + m0 + b - 0x10000000000000000); lia.
    - destruct (N.eq_dec (h0 + m0 + b) 0x10000000000000000) as [Q|Q].
      + right. rewrite Q. repeat split; lia.
      + left. split; [symmetry; apply N.div_small; lia|lia]. }
  destruct D as [[D1 D2]|(D1 & D2 & D3 & D4)].
  - rewrite <- D1. specialize (IH (2 ^ 64 <=? h0 + m0) h ltac:(lia) A2 B2). split.
    + intros E. injection E as E. split; [intros _ F; destruct D2; [contradiction|assumption]|]. apply IH, E.
    + intros [_ F]. f_equal. apply IH, F.
  - rewrite D1, D2. split.
    + intros E. injection E as E. destruct m as [|m1 m]; [split; [contradiction|exact I]|]. exfalso.
      destruct h as [|h1 h]; [discriminate Hl|]. cbn [sb_addm add_words] in E.
      injection E as E _. rewrite addw_mod in E. rewrite addw_mod, N.add_0_r in E.
      rewrite N.mod_mod in E by discriminate.
      exact (succ_mod_neq _ E).
    + intros [F _]. destruct m as [|m1 m].
      * destruct h; [reflexivity|discriminate Hl].
      * specialize (F ltac:(discriminate) D3). lia.
Qed.

Lemma kept_spec m : forall c h, length h = length m -> words_ok 64 m -> words_ok 64 h -> c <= 1 ->
  (kept c m h <-> forall i, i + 1 < N.of_nat (length m) ->
    (wval h / 2 ^ (64 * i)) mod 2 ^ 64 + (wval m / 2 ^ (64 * i)) mod 2 ^ 64 = 2 ^ 64 - 1 ->
    wval h mod 2 ^ (64 * i) + wval m mod 2 ^ (64 * i) + c < 2 ^ (64 * i)).
Proof.
  induction m as [|m0 m IH]; intros c [|h0 h] Hl Hm Hh Hc; try discriminate Hl.
  { cbn [kept length]. split; [|auto]. intros _ i Hi. lia. }
  inversion_clear Hm as [|? ? A1 A2]. inversion_clear Hh as [|? ? B1 B2].
  cbn [kept wval length] in *.
  assert (Hc' : (h0 + m0 + c) / 2 ^ 64 <= 1).
  { apply N.lt_succ_r. apply N.div_lt_upper_bound; [discriminate|].
    change (2 ^ 64) with 0x10000000000000000 in *. lia. }
  rewrite (IH _ h) by (auto; lia). clear IH.
  set (vh := wval h). set (vm := wval m).
  assert (Low : forall w v, w < 2 ^ 64 -> forall i,
    ((w + 2 ^ 64 * v) / 2 ^ (64 * (i + 1))) = v / 2 ^ (64 * i) /\
    (w + 2 ^ 64 * v) mod 2 ^ (64 * (i + 1)) = w + 2 ^ 64 * (v mod 2 ^ (64 * i))).
  { intros w v Hw i. replace (64 * (i + 1)) with (64 + 64 * i) by lia. rewrite N.pow_add_r.
    assert (HP : 2 ^ (64 * i) <> 0) by (apply N.pow_nonzero; discriminate).
    revert HP. generalize (2 ^ (64 * i)). intros P HP. change (2 ^ 64) with 0x10000000000000000 in *.
    rewrite <- N.div_div by (auto; discriminate). rewrite N.mod_mul_r by (auto; discriminate).
    rewrite (N.mul_comm 0x10000000000000000 v), N.div_add, N.mod_add by discriminate.
    rewrite (N.div_small w), (N.mod_small w), !N.add_0_l by auto. auto. }
  assert (Zero : forall w v, w < 2 ^ 64 -> ((w + 2 ^ 64 * v) / 2 ^ (64 * 0)) mod 2 ^ 64 = w).
  { intros w v Hw. rewrite N.mul_0_r, N.pow_0_r, N.div_1_r, (N.mul_comm (2 ^ 64)), N.mod_add by discriminate.
    apply N.mod_small. exact Hw. }
  assert (Step : forall i, h0 + 2 ^ 64 * (vh mod 2 ^ (64 * i)) + (m0 + 2 ^ 64 * (vm mod 2 ^ (64 * i))) + c
      < 2 ^ (64 * (i + 1)) <->
     vh mod 2 ^ (64 * i) + vm mod 2 ^ (64 * i) + (h0 + m0 + c) / 2 ^ 64 < 2 ^ (64 * i)).
  { intros i. replace (64 * (i + 1)) with (64 + 64 * i) by lia. rewrite N.pow_add_r.
    generalize (2 ^ (64 * i)) as P, (vh mod 2 ^ (64 * i)) as a, (vm mod 2 ^ (64 * i)) as b. intros P a b.
    pose proof (N.div_mod (h0 + m0 + c) (2 ^ 64) ltac:(discriminate)) as D.
    pose proof (N.mod_lt (h0 + m0 + c) (2 ^ 64) ltac:(discriminate)) as L.
    revert D L. generalize ((h0 + m0 + c) / 2 ^ 64) ((h0 + m0 + c) mod 2 ^ 64). intros q r D L.
    change (2 ^ 64) with 0x10000000000000000 in *. lia. }
  split.
  - intros [F0 F] i Hi. destruct (N.eq_dec i 0) as [->|Hi0].
    + rewrite !Zero by auto. rewrite !N.mul_0_r, !N.pow_0_r, !N.mod_1_r. intros E.
      rewrite F0; [reflexivity| |exact E]. destruct m; [cbn in Hi; lia|discriminate].
    + replace i with ((i - 1) + 1) by lia. set (j := i - 1).
      rewrite (proj1 (Low h0 vh B1 j)), (proj1 (Low m0 vm A1 j)), (proj2 (Low h0 vh B1 j)), (proj2 (Low m0 vm A1 j)).
      intros E. apply Step. apply F; [lia|exact E].
  - intros F. split.
    + intros Hne E. specialize (F 0). rewrite !Zero in F by auto.
      rewrite !N.mul_0_r, !N.pow_0_r, !N.mod_1_r in F.
      assert (0 + 1 < N.of_nat (S (length m))) by (destruct m; [contradiction|cbn [length]; lia]).
      specialize (F H E). lia.
    + intros i Hi E. apply Step. specialize (F (i + 1)).
      rewrite (proj1 (Low h0 vh B1 i)), (proj1 (Low m0 vm A1 i)), (proj2 (Low h0 vh B1 i)), (proj2 (Low m0 vm A1 i)) in F.
      apply F; [lia|exact E].
Qed.

(** The addition made by the code, on numbers. *)
Definition sb_sum (s m : N) : N :=
  wval (sb_addm false (le_words 8 8 (le_bytes 64 m)) (le_words 8 8 (le_bytes 64 s))).

Lemma wval_inj a : forall b, length a = length b -> words_ok 64 a -> words_ok 64 b -> wval a = wval b -> a = b.
Proof.
  induction a as [|x a IH]; intros [|y b] Hl Ha Hb E; try discriminate Hl; [reflexivity|].
  inversion_clear Ha as [|? ? A1 A2]. inversion_clear Hb as [|? ? B1 B2]. cbn [wval length] in *.
  change (2 ^ 64) with 0x10000000000000000 in *.
  destruct (N.div_mod_unique 0x10000000000000000 (wval a) (wval b) x y A1 B1 ltac:(lia)) as [E1 E2].
  rewrite E2, (IH b) by (auto; lia). reflexivity.
Qed.

Lemma wval_le_words d : bytes_ok d -> length d = 64%nat -> wval (le_words 8 8 d) = le_word d.
Proof.
  intros Hd Hl. rewrite <- le_word_wval by exact (le_words_lt 8 8 d Hd).
  rewrite words_bytes_le_words by auto. reflexivity.
Qed.
Lemma wval_words x : x < 2 ^ 512 -> wval (le_words 8 8 (le_bytes 64 x)) = x.
Proof.
  intros Hx. rewrite wval_le_words by (auto using le_bytes_ok, le_bytes_length).
  rewrite le_word_bytes. apply N.mod_small. exact Hx.
Qed.

Lemma add_words_length m : forall c h, length h = length m -> length (add_words c m h) = length m.
Proof.
  induction m as [|m0 m IH]; intros c [|h0 h] Hl; try discriminate Hl; [reflexivity|].
  cbn [add_words length] in *. f_equal. apply IH. lia.
Qed.

Lemma sb_sum_exact s m : s < 2 ^ 512 -> m < 2 ^ 512 -> (sb_sum s m = add512 s m <-> carry_kept s m).
Proof.
  intros Hs Hm. unfold sb_sum, add512.
  set (ws := le_words 8 8 (le_bytes 64 s)). set (wm := le_words 8 8 (le_bytes 64 m)).
  assert (Ls : length ws = 8%nat) by apply le_words_length.
  assert (Lm : length wm = 8%nat) by apply le_words_length.
  assert (Os : words_ok 64 ws) by exact (le_words_lt 8 8 _ (le_bytes_ok 64 s)).
  assert (Om : words_ok 64 wm) by exact (le_words_lt 8 8 _ (le_bytes_ok 64 m)).
  pose proof (add_words_val wm 0 ws ltac:(congruence)) as V. rewrite Lm in V.
  unfold ws at 2, wm at 2 in V. rewrite !wval_words, N.add_0_r in V by auto.
  change (64 * N.of_nat 8) with 512 in V. rewrite <- V.
  pose proof (sb_addm_exact wm false ws ltac:(congruence) Om Os) as X. cbn [bit] in X.
  pose proof (kept_spec wm 0 ws ltac:(congruence) Om Os ltac:(lia)) as K. rewrite Lm in K.
  unfold ws at 2 3, wm at 2 3 in K. rewrite !wval_words in K by auto.
  transitivity (kept 0 wm ws).
  - rewrite <- X. split; [|intros ->; reflexivity].
    intros E. apply wval_inj; auto.
    + apply sb_addm_ok.
    + apply add_words_ok.
  - rewrite K. unfold carry_kept. split; intros F i Hi E.
    + specialize (F i ltac:(change (N.of_nat 8) with 8; lia) E). lia.
    + specialize (F i ltac:(change (N.of_nat 8) with 8 in Hi; lia) E). lia.
Qed.

Lemma sb_addm_number s m : s < 2 ^ 512 -> m < 2 ^ 512 ->
  le_word (words_bytes 8 (sb_addm false (le_words 8 8 (le_bytes 64 m)) (le_words 8 8 (le_bytes 64 s))))
    = (s + m) mod 2 ^ 512 <-> carry_kept s m.
Proof.
  intros Hs Hm. rewrite le_word_wval by apply sb_addm_ok. exact (sb_sum_exact s m Hs Hm).
Qed.

(** A decision procedure. *)
Definition carry_keptb (s m : N) : bool :=
  forallb (fun i => negb ((s / 2 ^ (64 * i)) mod 2 ^ 64 + (m / 2 ^ (64 * i)) mod 2 ^ 64 =? 2 ^ 64 - 1) ||
    (s mod 2 ^ (64 * i) + m mod 2 ^ (64 * i) <? 2 ^ (64 * i))) [0; 1; 2; 3; 4; 5; 6].
Fixpoint carries_keptb (s : N) (ms : list (list N)) : bool :=
  match ms with
  | [] => true
  | m :: r => carry_keptb s (le_word m) && carries_keptb (add512 s (le_word m)) r
  end.
Lemma carry_kept_dec s m : carry_keptb s m = true -> carry_kept s m.
Proof.
  unfold carry_keptb. rewrite forallb_forall. intros H i Hi E.
  assert (Hin : In i [0; 1; 2; 3; 4; 5; 6]).
  { assert (i = 0 \/ i = 1 \/ i = 2 \/ i = 3 \/ i = 4 \/ i = 5 \/ i = 6) as D by lia. cbn. intuition. }
  specialize (H i Hin). apply orb_prop in H. destruct H as [H|H].
  - rewrite E, N.eqb_refl in H. discriminate H.
  - apply N.ltb_lt. exact H.
Qed.
Lemma no_lost_carry_dec msg :
  carries_keptb 0 (sbs_full msg ++ [sbs_last (sbs_rest msg)]) = true -> no_lost_carry msg.
Proof.
  unfold no_lost_carry. generalize (sbs_full msg ++ [sbs_last (sbs_rest msg)]) as l. generalize 0 as s.
  intros s l. revert s. induction l as [|m r IH]; intros s H; [exact I|].
  cbn [carries_keptb carries_kept] in *. apply andb_prop in H. destruct H as [H1 H2].
  split; [apply carry_kept_dec; exact H1|apply IH; exact H2].
Qed.

(** ** The provider. *)
(** The chaining value as bytes and the checksum as a number. *)
Definition sb_inv (hS : list N) : Prop := length hS = 16%nat /\ words_ok 64 (skipn 8 hS).
Definition sb_h (hS : list N) : list N := words_bytes 8 (firstn 8 hS).
Definition sb_s (hS : list N) : N := wval (skipn 8 hS).

Lemma sb_s_lt l : words_ok 64 l -> wval l < 2 ^ (64 * N.of_nat (length l)).
Proof.
  induction 1 as [|w l Hw Hl IH]; [reflexivity|]. cbn [wval length].
  replace (64 * N.of_nat (S (length l))) with (64 + 64 * N.of_nat (length l)) by lia. rewrite N.pow_add_r.
  revert IH. generalize (2 ^ (64 * N.of_nat (length l))). intros P IH.
  change (2 ^ 64) with 0x10000000000000000 in *. lia.
Qed.

Lemma sb_words_val l : length l = 8%nat -> words_ok 64 l -> le_words 8 8 (le_bytes 64 (wval l)) = l.
Proof.
  intros Hl Ho. assert (L : wval l < 2 ^ 512) by (pose proof (sb_s_lt l Ho) as L; rewrite Hl in L; exact L).
  apply wval_inj; [rewrite le_words_length; auto|exact (le_words_lt 8 8 _ (le_bytes_ok 64 _))|exact Ho|].
  apply wval_words. exact L.
Qed.
Lemma sb_bytes_val l : length l = 8%nat -> words_ok 64 l -> words_bytes 8 l = le_bytes 64 (wval l).
Proof.
  intros Hl Ho. rewrite <- (sb_words_val l Hl Ho) at 1.
  apply words_bytes_le_words; [apply le_bytes_ok|apply le_bytes_length].
Qed.

Lemma sb_step_ok hS t b : sb_inv hS -> block_ok 64 b -> t < 2 ^ 64 ->
  sb_inv (sb_step hS t b) /\ sb_h (sb_step hS t b) = sbs_g t (sb_h hS) b /\
  sb_s (sb_step hS t b) = sb_sum (sb_s hS) (le_word b).
Proof.
  intros [L O] [Lb Hb] Ht. unfold sb_step. cbv zeta.
  destruct (sb_gN_ok (firstn 8 hS) (le_words 8 8 b) t) as [E1 L1];
    [rewrite firstn_length; lia|apply le_words_length|exact Ht|].
  rewrite words_bytes_le_words in E1 by auto.
  assert (Ls : length (skipn 8 hS) = 8%nat) by (rewrite skipn_length; lia).
  assert (La : length (sb_addm false (le_words 8 8 b) (skipn 8 hS)) = 8%nat)
    by (rewrite sb_addm_length; rewrite le_words_length; [reflexivity|exact Ls]).
  unfold sb_inv, sb_h, sb_s. rewrite firstn_app_exact, skipn_app_exact by auto. repeat split.
  - rewrite app_length. lia.
  - apply sb_addm_ok.
  - exact E1.
  - unfold sb_sum. rewrite sb_words_val by auto. do 2 f_equal.
    rewrite <- Lb, le_bytes_word by exact Hb. reflexivity.
Qed.

Lemma sb_step_final_ok hS t b : sb_inv hS -> block_ok 64 b ->
  sb_inv (sb_step_final hS t b) /\ sb_h (sb_step_final hS t b) = sbs_g 0 (sb_h hS) b /\
  sb_s (sb_step_final hS t b) = sb_s hS.
Proof.
  intros [L O] [Lb Hb]. unfold sb_step_final.
  destruct (sb_gN_ok (firstn 8 hS) (le_words 8 8 b) 0) as [E1 L1];
    [rewrite firstn_length; lia|apply le_words_length|reflexivity|].
  rewrite words_bytes_le_words in E1 by auto.
  unfold sb_inv, sb_h, sb_s. rewrite firstn_app_exact, skipn_app_exact by auto. repeat split; auto.
  rewrite app_length, skipn_length. lia.
Qed.

Definition add64 (x y : N) : N := (x + y) mod 2 ^ 64.
(** The digest computed by the code. *)
Definition sb_code (n : N) (msg : list N) : list N := sbs_hash_with add64 sb_sum n msg.

Lemma sb_loop_ok n : forall hS t data, sb_inv hS -> t < 2 ^ 64 -> bytes_ok data -> length data = (n * 64)%nat ->
  let hS' := block_loop sb_step 64 hS t data n in
  sb_inv hS' /\
  fold_left (sbs_stage2 add64 sb_sum) (blocks_n n 64 data) (sb_h hS, t, sb_s hS) =
    (sb_h hS', (t + N.of_nat (n * 512)) mod 2 ^ 64, sb_s hS').
Proof.
  induction n as [|n IH]; intros hS t data I Ht Hd Hl; cbv zeta.
  - split; [exact I|]. cbn [blocks_n fold_left block_loop]. do 2 f_equal.
    rewrite N.add_0_r, N.mod_small by exact Ht. reflexivity.
  - cbn [blocks_n fold_left block_loop].
    assert (Hb : block_ok 64 (firstn 64 data))
      by (split; [rewrite firstn_length; lia|apply Forall_firstn; exact Hd]).
    destruct (sb_step_ok hS t (firstn 64 data) I Hb Ht) as (I' & E1 & E2).
    destruct (IH (sb_step hS t (firstn 64 data)) (trunc 64 (t + N.of_nat (64 * 8))) (skipn 64 data) I'
      (trunc_lt _ _) (Forall_skipn _ _ _ Hd) ltac:(rewrite skipn_length; lia)) as [I2 E3].
    split; [exact I2|]. unfold sbs_stage2 at 2. rewrite E1, E2 in E3.
    replace (add64 t 512) with (trunc 64 (t + N.of_nat (64 * 8))) by (rewrite trunc_mod; reflexivity).
    rewrite E3. do 2 f_equal. rewrite trunc_mod, N.add_mod_idemp_l by discriminate. f_equal. lia.
Qed.

Section Streebog.
  Variable hs : N.
  Hypothesis Hh : hs = 256 \/ hs = 512.

  Definition sb_iv : list N := le_words 8 8 (repeat (if hs =? 512 then 0 else 1) 64) ++ zeros 8.
  Lemma sb_iv_inv : sb_inv sb_iv /\ sb_h sb_iv = sbs_iv hs /\ sb_s sb_iv = 0.
  Proof.
    unfold sb_iv, sb_inv, sb_h, sbs_iv, sb_s. destruct Hh as [XX|XX]; rewrite XX; cbn [N.eqb Pos.eqb];
      (split; [split; [reflexivity|apply Forall_forall; intros x Hx; cbn in Hx; repeat destruct Hx as [<-|Hx]; try reflexivity; contradiction]|split; vm_compute; reflexivity]).
  Qed.

  Definition sb_Rel (s : sb_st) (_ : unit) (msg : list N) : Prop :=
    sbhs s = hs /\ bytes_ok msg /\ buf_inv sb_step 64 64 false sb_iv (sbs s) msg.

  Lemma sb_transform1_ok step h X t : length X = 64%nat ->
    md_transform1 step 64 h X t = Ok (step h t X).
  Proof.
    intros HX. unfold md_transform1. rewrite load_all by auto. cbn [bind block_loop].
    rewrite firstn_all2 by lia. reflexivity.
  Qed.

  Lemma sb_split B T n : length B = (n * 64)%nat -> (length T < 64)%nat ->
    sbs_full (B ++ T) = blocks_n n 64 B /\ sbs_rest (B ++ T) = T.
  Proof.
    intros HB HT. unfold sbs_full, sbs_rest. rewrite app_length, HB.
    rewrite Nat.div_add_l, Nat.div_small, Nat.add_0_r by lia.
    split; [|apply skipn_app_exact; auto].
    pose proof (blocks_n_app n 0 64 B T HB) as E. rewrite Nat.add_0_r in E. rewrite E. apply app_nil_r.
  Qed.

  Lemma sb_size : (N.to_nat (hs / 8) = 32 /\ N.to_nat (hs / 64) = 4 \/ N.to_nat (hs / 8) = 64 /\ N.to_nat (hs / 64) = 8)%nat.
  Proof. destruct Hh as [XX|XX]; rewrite XX; auto. Qed.

  Lemma sb_final_ok s msg : sb_Rel s tt msg ->
    exists s', sb_final s = Ok (s', sb_code hs msg) /\
      length (sb_code hs msg) = N.to_nat (hs / 8) /\ bytes_ok (sb_code hs msg).
  Proof.
    intros (Es & Hmsg & (B & T & J & n & -> & HB & HT & Hc & Ht & Hm & Hl & Hp)).
    unfold okrem, bschk in HT. assert (HT' : (length T < 64)%nat) by lia.
    assert (HJ : (length T + length J = 64)%nat) by (rewrite <- Hl, Hm, app_length; reflexivity).
    assert (OB : bytes_ok B) by (apply Forall_app in Hmsg; tauto).
    assert (OT : bytes_ok T) by (apply Forall_app in Hmsg; tauto).
    destruct sb_iv_inv as (I0 & Eh0 & Es0).
    destruct (sb_loop_ok n sb_iv 0 B I0 ltac:(reflexivity) OB HB) as [I1 F].
    rewrite Eh0, Es0 in F. unfold sb_code, sbs_hash_with.
    destruct (sb_split B T n HB HT') as [-> ->]. rewrite F. clear F.
    set (hS := block_loop sb_step 64 sb_iv 0 B n) in *.
    assert (Ht' : (0 + N.of_nat (n * 512)) mod 2 ^ 64 = stotal (sbs s))
      by (rewrite Ht, trunc_mod; f_equal; lia).
    rewrite Ht'. assert (Htl : stotal (sbs s) < 2 ^ 64) by (rewrite <- Ht'; apply N.mod_lt; discriminate).
    unfold sbs_stage3. unfold sb_final. cbv zeta. rewrite Hp, Hm, Hc.
    rewrite store_app by lia. cbn [bind].
    set (X := sbs_last T).
    assert (LX : length X = 64%nat) by (unfold X, sbs_last; rewrite !app_length, zeros_length; cbn [length]; lia).
    assert (OX : bytes_ok X)
      by (unfold X, sbs_last; apply bytes_ok_app; [exact OT|apply bytes_ok_app; [repeat constructor|apply bytes_ok_zeros]]).
    assert (E1 : (if negb (length T + 1 =? 64)%nat then
              k <- size_sub 64 (length T + 1) ;; memset (T ++ [1] ++ skipn 1 J) (length T + 1) 0 k
            else Ok (T ++ [1] ++ skipn 1 J)) = Ok X).
    { unfold X, sbs_last. destruct (Nat.eqb_spec (length T + 1) 64) as [G|G]; cbn [negb].
      - replace (63 - length T)%nat with 0%nat by lia. rewrite skipn_all2 by lia. reflexivity.
      - rewrite size_sub_ok by lia. cbn [bind]. rewrite (app_assoc T).
        rewrite memset_app by (rewrite ?app_length, ?skipn_length; cbn [length]; lia).
        rewrite skipn_skipn, skipn_all2 by lia. rewrite app_nil_r, <- !app_assoc. unfold zeros.
        replace (64 - (length T + 1))%nat with (63 - length T)%nat by lia. reflexivity. }
    rewrite E1. cbn [bind]. clear E1.
    rewrite sb_transform1_ok by exact LX. cbn [bind].
    destruct (sb_step_ok hS (stotal (sbs s)) X I1 (conj LX OX) Htl) as (I2 & Eh2 & Es2).
    set (h2 := sb_step hS (stotal (sbs s)) X) in *.
    replace (length T + 1 - 1)%nat with (length T) by lia.
    set (total := trunc 64 (stotal (sbs s) + N.of_nat (length T * 8))).
    pose proof (memcpy_app [] X (le_bytes 8 total) 0 8 eq_refl ltac:(rewrite le_bytes_length; lia) ltac:(lia)) as E2.
    cbn [app] in E2. rewrite E2. cbn [bind]. rewrite firstn_all2 by (rewrite le_bytes_length; lia).
    rewrite memset_app by (rewrite ?skipn_length, ?le_bytes_length; lia). cbn [bind].
    rewrite (skipn_all2 (skipn 8 X)) by (rewrite skipn_length; lia). rewrite app_nil_r.
    change (repeat 0 (64 - 8)) with (zeros 56).
    rewrite <- (le_bytes_ext 8 56 total) by (unfold total; apply trunc_lt). change (8 + 56)%nat with 64%nat.
    rewrite sb_transform1_ok by apply le_bytes_length. cbn [bind].
    destruct (sb_step_final_ok h2 total (le_bytes 64 total) I2 (conj (le_bytes_length _ _) (le_bytes_ok _ _))) as (I3 & Eh3 & Es3).
    set (h3 := sb_step_final h2 total (le_bytes 64 total)) in *.
    assert (Lsk : length (skipn 8 h3) = 8%nat) by (destruct I3 as [L3 _]; rewrite skipn_length; lia).
    rewrite (sb_bytes_val (skipn 8 h3) Lsk (proj2 I3)). fold (sb_s h3).
    rewrite sb_transform1_ok by apply le_bytes_length. cbn [bind].
    destruct (sb_step_final_ok h3 total (le_bytes 64 (sb_s h3)) I3 (conj (le_bytes_length _ _) (le_bytes_ok _ _))) as (I4 & Eh4 & Es4).
    set (h4 := sb_step_final h3 total (le_bytes 64 (sb_s h3))) in *.
    assert (Edig : sbs_g 0 (sbs_g 0 (sbs_g (stotal (sbs s)) (sb_h hS) X)
        (le_bytes 64 (add64 (stotal (sbs s)) (8 * N.of_nat (length T)))))
        (le_bytes 64 (sb_sum (sb_s hS) (le_word X))) = sb_h h4).
    { rewrite Eh4, Es3, Es2, Eh3, Eh2. do 3 f_equal. unfold add64, total. rewrite trunc_mod. do 2 f_equal. lia. }
    rewrite Edig. rewrite Es. fold (sb_h h4).
    assert (L4 : length (sb_h h4) = 64%nat)
      by (unfold sb_h; rewrite words_bytes_length, firstn_length; destruct I4 as [L4 _]; lia).
    assert (O4 : bytes_ok (sb_h h4)) by apply words_bytes_ok.
    clear - Hh L4 O4 Es.
    destruct sb_size as [[Z1 Z2]|[Z1 Z2]]; rewrite Z1, Z2; rewrite size_sub_ok by lia; cbn [bind].
    - rewrite load_ok by lia. cbn [bind]. rewrite firstn_all2 by (rewrite skipn_length; lia).
      eexists. split; [reflexivity|]. split; [rewrite skipn_length; lia|apply Forall_skipn; exact O4].
    - rewrite load_ok by lia. cbn [bind]. rewrite firstn_all2 by (rewrite skipn_length; lia).
      eexists. split; [reflexivity|]. split; [rewrite skipn_length; lia|apply Forall_skipn; exact O4].
  Qed.

  Definition sb_code_spec : hash_spec Empty_set :=
    with_digest (streebog_spec hs) (fun _ msg => sb_code hs msg).

  Lemma streebog_sim : sim streebog sb_code_spec sb_Rel true.
  Proof.
    assert (bs_pos : (0 < 64)%nat) by lia.
    assert (bs_cap : (64 <= 64)%nat) by lia.
    constructor.
    - intros s p msg (Es & _ & A). eexists. split; [reflexivity|]. split; [exact Es|].
      split; [constructor|]. cbn [sbs]. rewrite Es. fold sb_iv.
      apply buf_inv_start; [exact bs_pos|exact bs_cap|exact (buf_inv_sm _ _ _ _ _ _ _ A)].
    - intros s p msg d Hd (Es & Hm & A).
      destruct (buf_update_ok sb_step 64 64 false bs_pos bs_cap sb_iv (sbs s) msg d A) as (x & E & A').
      exists (mksb x hs). split; [|split; [reflexivity|split; [apply bytes_ok_app; auto|exact A']]].
      change (bschk 64 false) with 64%nat in E. unfold streebog; cbn [hp p_update]. unfold sb_update. rewrite Es.
      rewrite E. reflexivity.
    - intros _ s p msg (Es & _ & A). do 2 eexists. split; [reflexivity|]. split; [reflexivity|].
      split; [exact Es|]. split; [constructor|]. cbn [sbs sbhs sm]. rewrite Es. fold sb_iv.
      apply buf_inv_start; [exact bs_pos|exact bs_cap|].
      unfold zero_memory. rewrite zeros_length. exact (buf_inv_sm _ _ _ _ _ _ _ A).
    - intros q. destruct q.
    - intros s [] msg A. destruct (sb_final_ok s msg A) as (s' & E & _). eauto.
    - intros s p msg (Es & _ & _). cbn [streebog hp_size sb_code_spec with_digest streebog_spec sp_size]. rewrite Es. lia.
    - intros s [] msg A. destruct (sb_final_ok s msg A) as (s' & _ & E & _). exact E.
    - intros s [] msg A. destruct (sb_final_ok s msg A) as (s' & _ & _ & E). exact E.
    - cbn. destruct Hh as [XX|XX]; rewrite XX; vm_compute; lia.
  Qed.

  Theorem streebog_code_implements g : length (sm g) = 64%nat ->
    implements streebog sb_code_spec true (fresh_of (sb_ctor hs g) sb_init) /\
    implements streebog sb_code_spec true (fresh_of (sb_ctor_static hs g) sb_init).
  Proof.
    intros Hg.
    assert (E : sb_ctor hs g = sb_ctor_static hs g).
    { destruct Hh as [XX|XX]; rewrite XX; reflexivity. }
    rewrite E. assert (I : implements streebog sb_code_spec true (fresh_of (sb_ctor_static hs g) sb_init)).
    { unfold fresh_of, sb_ctor_static. cbn [bind]. unfold sb_init. cbn [sbhs sbs].
      apply (sim_implements _ _ _ _ streebog_sim). split; [reflexivity|]. split; [constructor|].
      cbn [sbs]. fold sb_iv. apply buf_inv_start; [lia|lia|exact Hg]. }
    split; exact I.
  Qed.

  (** Agreement with the standard. *)
  Lemma sb_fold_agree ms : forall h t s, Forall (block_ok 64) ms ->
    t + 512 * N.of_nat (length ms) < 2 ^ 64 -> s < 2 ^ 512 ->
    forall tl, carries_kept s (ms ++ tl) ->
    fold_left (sbs_stage2 add64 sb_sum) ms (h, t, s) = fold_left (sbs_stage2 add512 add512) ms (h, t, s) /\
    let '(_, t', s') := fold_left (sbs_stage2 add512 add512) ms (h, t, s) in
      t' = t + 512 * N.of_nat (length ms) /\ s' < 2 ^ 512 /\ carries_kept s' tl.
  Proof.
    induction ms as [|m ms IH]; intros h t s Hms Ht Hs tl Hk.
    - cbn [fold_left length]. split; [reflexivity|]. split; [lia|]. split; [exact Hs|exact Hk].
    - inversion_clear Hms as [|? ? [Lm Om] Hms']. cbn [length] in Ht. destruct Hk as [Hk1 Hk2].
      cbn [fold_left]. unfold sbs_stage2 at 2 4 6.
      assert (Hm : le_word m < 2 ^ 512) by (pose proof (le_word_lt m Om) as X; rewrite Lm in X; exact X).
      rewrite (proj2 (sb_sum_exact s (le_word m) Hs Hm) Hk1).
      assert (E : add64 t 512 = t + 512 /\ add512 t 512 = t + 512).
      { unfold add64, add512. assert (2 ^ 64 < 2 ^ 512) by reflexivity.
        rewrite !N.mod_small by lia. auto. }
      destruct E as [-> ->].
      destruct (IH (sbs_g t h m) (t + 512) (add512 s (le_word m)) Hms' ltac:(lia)
        ltac:(apply N.mod_lt; discriminate) tl Hk2) as [E1 E2].
      split; [exact E1|]. revert E2.
      destruct (fold_left (sbs_stage2 add512 add512) ms (sbs_g t h m, t + 512, add512 s (le_word m))) as [[h' t'] s'].
      intros (A & B & C). split; [cbn [length]; lia|auto].
  Qed.

  Lemma sb_code_agree msg : bytes_ok msg -> bitlen msg < 2 ^ 64 -> no_lost_carry msg ->
    sb_code hs msg = sbs_hash hs msg.
  Proof.
    intros Hb Hl Hk. unfold sb_code, sbs_hash, sbs_hash_with. f_equal.
    assert (D : (length msg = 64 * (length msg / 64) + length msg mod 64)%nat) by (apply Nat.div_mod; lia).
    assert (M : (length msg mod 64 < 64)%nat) by (apply Nat.mod_upper_bound; lia).
    assert (Lf : length (sbs_full msg) = (length msg / 64)%nat).
    { unfold sbs_full. generalize (length msg / 64)%nat as n. intros n. generalize msg. clear.
      induction n; intros; [reflexivity|]. cbn [blocks_n length]. f_equal. apply IHn. }
    assert (Of : Forall (block_ok 64) (sbs_full msg)).
    { unfold sbs_full. pose proof (blocks_n_app (length msg / 64) 0 64 (firstn (length msg / 64 * 64) msg)
        (skipn (length msg / 64 * 64) msg) ltac:(rewrite firstn_length; lia)) as E.
      rewrite firstn_skipn, Nat.add_0_r in E. rewrite E. cbn [blocks_n]. rewrite app_nil_r.
      apply blocks_n_ok; [rewrite firstn_length; lia|apply Forall_firstn; exact Hb]. }
    assert (Lr : length (sbs_rest msg) = (length msg mod 64)%nat)
      by (unfold sbs_rest; rewrite skipn_length; lia).
    unfold bitlen in Hl.
    destruct (sb_fold_agree (sbs_full msg) (sbs_iv hs) 0 0 Of ltac:(rewrite Lf; lia) ltac:(reflexivity)
      [sbs_last (sbs_rest msg)] Hk) as [E1 E2].
    rewrite E1. revert E2.
    destruct (fold_left (sbs_stage2 add512 add512) (sbs_full msg) (sbs_iv hs, 0, 0)) as [[h t] s].
    intros (Et & Hs & [Hc _]). unfold sbs_stage3. cbv zeta.
    assert (Hm : le_word (sbs_last (sbs_rest msg)) < 2 ^ 512).
    { assert (O : bytes_ok (sbs_last (sbs_rest msg))).
      { unfold sbs_last. apply bytes_ok_app; [apply Forall_skipn; exact Hb|].
        apply bytes_ok_app; [repeat constructor|apply bytes_ok_zeros]. }
      pose proof (le_word_lt _ O) as X.
      replace (length (sbs_last (sbs_rest msg))) with 64%nat in X; [exact X|].
      unfold sbs_last. rewrite !app_length, zeros_length. cbn [length]. lia. }
    rewrite (proj2 (sb_sum_exact s _ Hs Hm) Hc).
    replace (add64 t (8 * N.of_nat (length (sbs_rest msg)))) with (add512 t (8 * N.of_nat (length (sbs_rest msg))));
      [reflexivity|].
    unfold add64, add512. assert (2 ^ 64 < 2 ^ 512) by reflexivity.
    rewrite Et, Lf, Lr in *. rewrite !N.mod_small by lia. reflexivity.
  Qed.

  Theorem streebog_implements g : length (sm g) = 64%nat ->
    implements_when streebog (streebog_spec hs) (fun _ msg => bitlen msg < 2 ^ 64 /\ no_lost_carry msg) true
      (fresh_of (sb_ctor hs g) sb_init) /\
    implements_when streebog (streebog_spec hs) (fun _ msg => bitlen msg < 2 ^ 64 /\ no_lost_carry msg) true
      (fresh_of (sb_ctor_static hs g) sb_init).
  Proof.
    intros Hg. destruct (streebog_code_implements g Hg) as [I1 I2].
    split; (eapply implements_restrict; [|eassumption]);
      (intros p msg Hb [H1 H2]; apply sb_code_agree; assumption).
  Qed.
End Streebog.
