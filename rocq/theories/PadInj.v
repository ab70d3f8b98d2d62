(** * Injectivity of the paddings. *)
From Verif Require Import Base Lemmas MdProof SpecCommon Hasher HasherSpec Library LibraryProof Blake2Spec BlakeSpec Blake2pSpec EchoSpec
  GroestlSpec KupynaSpec JhSpec StreebogSpec LshSpec SkeinSpec KeccakSpec Sha3Spec AsconSpec EschSpec K12Spec Inputs.

(** ** Lists *)
Lemma app_inj_tail_len {A} (a b c d : list A) : length b = length d -> a ++ b = c ++ d -> a = c /\ b = d.
Proof.
  intros L E. assert (La : length a = length c).
  { apply (f_equal (@length A)) in E. rewrite !app_length in E. lia. }
  revert c La E. induction a as [|x a IH]; intros [|y c] La E; try discriminate; [auto|].
  cbn [app] in E. injection E as -> E. destruct (IH c (f_equal pred La) E) as [-> ->]. auto.
Qed.
Lemma app_inj_head_len {A} (a b c d : list A) : length a = length c -> a ++ b = c ++ d -> a = c /\ b = d.
Proof.
  intros L E. apply app_inj_tail_len; [|exact E]. apply (f_equal (@length A)) in E. rewrite !app_length in E. lia.
Qed.
(** A marker followed by fill can be removed unambiguously. *)
Lemma strip_fill {A} (z x y : A) i : forall a b j, x <> z -> y <> z ->
  a ++ [x] ++ repeat z i = b ++ [y] ++ repeat z j -> a = b /\ x = y /\ i = j.
Proof.
  assert (R : forall n, rev (repeat z n) = repeat z n).
  { induction n; [reflexivity|]. cbn [repeat rev]. rewrite IHn. symmetry. apply (repeat_cons n z). }
  intros a b j Hx Hy E. apply (f_equal (@rev A)) in E. rewrite !rev_app_distr, !R in E. cbn [rev app] in E.
  rewrite <- !app_assoc in E. cbn [app] in E. revert j E. induction i as [|i IH]; intros [|j] E; cbn [repeat app] in E.
  - injection E as -> E. apply (f_equal (@rev A)) in E. rewrite !rev_involutive in E. auto.
  - injection E as E _. congruence.
  - injection E as E _. congruence.
  - injection E as E. destruct (IH j E) as (? & ? & ->). auto.
Qed.

(** Blocks determine the padded string. *)
Lemma blocks_n_concat n bs p : length p = (n * bs)%nat -> concat (blocks_n n bs p) = p.
Proof.
  revert p. induction n as [|n IH]; intros p H; cbn [blocks_n concat].
  - destruct p; [reflexivity|discriminate].
  - rewrite IH by (rewrite skipn_length; lia). apply firstn_skipn.
Qed.
Lemma blocks_concat bs p : (0 < bs)%nat -> (length p mod bs = 0)%nat -> concat (blocks bs p) = p.
Proof.
  intros Hb H. apply blocks_n_concat. pose proof (Nat.div_mod (length p) bs ltac:(lia)). lia.
Qed.
Lemma blocks_inj bs p q : (0 < bs)%nat -> (length p mod bs = 0)%nat -> (length q mod bs = 0)%nat ->
  blocks bs p = blocks bs q -> p = q.
Proof. intros Hb Hp Hq E. rewrite <- (blocks_concat bs p Hb Hp), <- (blocks_concat bs q Hb Hq), E. reflexivity. Qed.
Lemma nth_blocks bs n : forall p s, length p = (n * bs)%nat ->
  map (fun i => firstn bs (skipn ((i - s) * bs) p)) (seq s n) = blocks_n n bs p.
Proof.
  induction n as [|n IH]; intros p s H; [reflexivity|]. cbn [seq map blocks_n].
  rewrite Nat.sub_diag. cbn [Nat.mul skipn]. f_equal.
  rewrite <- (IH (skipn bs p) (S s)) by (rewrite skipn_length; lia).
  apply map_ext_in. intros i Hi. apply in_seq in Hi. rewrite skipn_skipn.
  do 2 f_equal. replace (i - s)%nat with (S (i - S s)) by lia. lia.
Qed.
Lemma nth_blocks_concat bs p n : length p = (n * bs)%nat -> concat (map (nth_block bs p) (seq 0 n)) = p.
Proof.
  intros H. rewrite <- (blocks_n_concat n bs p H) at 2. f_equal. rewrite <- (nth_blocks bs n p 0 H).
  apply map_ext. intros i. rewrite Nat.sub_0_r. reflexivity.
Qed.

Lemma firstn_fill {A} (z : A) n k : firstn n (repeat z k) = repeat z (Nat.min n k).
Proof. revert k. induction n; intros [|k]; cbn; [reflexivity..|]. rewrite IHn. reflexivity. Qed.

(** ** Merkle-Damgaard *)
Lemma md_pad_inj bs l1 l2 m1 m2 : length l1 = length l2 -> md_pad bs l1 m1 = md_pad bs l2 m2 -> m1 = m2 /\ l1 = l2.
Proof.
  intros L E. unfold md_pad in E. rewrite !app_assoc in E. apply app_inj_tail_len in E; [|exact L].
  destruct E as [E ->]. split; [|reflexivity]. rewrite <- !app_assoc in E.
  apply (strip_fill 0 128 128) in E; [tauto|discriminate|discriminate].
Qed.
Lemma md_pad_mod bs l m : (0 < bs)%nat -> (length (md_pad bs l m) mod bs = 0)%nat.
Proof. intros H. destruct (md_pad_length bs l m H) as (n & ->). apply Nat.mod_mul. lia. Qed.
Lemma md_inputs_inj bs enc : (0 < bs)%nat -> (forall x y, length (enc x) = length (enc y)) -> separates (md_inputs bs enc).
Proof.
  intros Hb He m1 m2 _ _ E. unfold md_inputs in E. apply blocks_inj in E; auto using md_pad_mod.
  apply md_pad_inj in E; [tauto|apply He].
Qed.
Lemma le_enc k x y : length (le_bytes k x) = length (le_bytes k y).
Proof. rewrite !le_bytes_length. reflexivity. Qed.
Lemma be_enc k x y : length (be_bytes k x) = length (be_bytes k y).
Proof. rewrite !be_bytes_length. reflexivity. Qed.
Lemma groestl_inputs_inj n : separates (groestl_inputs n).
Proof.
  intros m1 m2 _ _ E. assert (Hb : (0 < 8 * grs_C n)%nat) by (unfold grs_C; destruct (n <=? 256); lia).
  unfold groestl_inputs, grs_pad in E. apply blocks_inj in E; auto using md_pad_mod.
  apply md_pad_inj in E; [tauto|apply be_enc].
Qed.
Lemma jh_pad_mod m : (length (jhs_pad m) mod 64 = 0)%nat.
Proof.
  unfold jhs_pad. rewrite !app_length, zeros_length, be_bytes_length. cbn [length].
  pose proof (Nat.mod_upper_bound (length m) 64 ltac:(lia)). pose proof (Nat.div_mod (length m) 64 ltac:(lia)).
  destruct (Nat.eq_dec (length m mod 64) 0) as [E|E].
  - rewrite E. cbn [Nat.sub]. replace (length m + _)%nat with ((length m / 64 + 1) * 64)%nat by (change (64 mod 64)%nat with 0%nat; lia).
    apply Nat.mod_mul. lia.
  - rewrite (Nat.mod_small (64 - _)) by lia.
    replace (length m + _)%nat with ((length m / 64 + 2) * 64)%nat by lia. apply Nat.mod_mul. lia.
Qed.
Lemma jh_inputs_inj : separates jh_inputs.
Proof.
  intros m1 m2 _ _ E. unfold jh_inputs in E. apply blocks_inj in E; auto using jh_pad_mod; [|lia].
  unfold jhs_pad in E. rewrite !app_assoc in E. apply app_inj_tail_len in E; [|apply be_enc].
  destruct E as [E _]. rewrite <- !app_assoc in E. apply (strip_fill 0 128 128) in E; [tauto|discriminate|discriminate].
Qed.
Lemma lsh_inputs_inj w : 0 < w -> separates (lsh_inputs w).
Proof.
  intros Hw m1 m2 _ _ E. assert (Hb : (0 < lss_bs w)%nat) by (unfold lss_bs; lia).
  assert (L : forall m, (length (lss_pad w m) mod lss_bs w = 0)%nat).
  { intros m. unfold lss_pad. rewrite !app_length, zeros_length. cbn [length].
    pose proof (Nat.mod_upper_bound (length m) (lss_bs w) ltac:(lia)). pose proof (Nat.div_mod (length m) (lss_bs w) ltac:(lia)).
    replace (length m + _)%nat with ((length m / lss_bs w + 1) * lss_bs w)%nat by lia. apply Nat.mod_mul. lia. }
  unfold lsh_inputs in E. apply blocks_inj in E; auto.
  apply (strip_fill 0 128 128) in E; [tauto|discriminate|discriminate].
Qed.

(** ** Blocks with counters *)
Lemma map_fst_pair {A B C} (f : A -> B) (g : A -> C) l : map fst (map (fun i => (f i, g i)) l) = map f l.
Proof. rewrite map_map. reflexivity. Qed.
Lemma indexed_inj {C} bs p q (f g : nat -> C) : (0 < bs)%nat -> (length p mod bs = 0)%nat -> (length q mod bs = 0)%nat ->
  map (fun i => (nth_block bs p i, f i)) (seq 0 (length p / bs)) =
  map (fun i => (nth_block bs q i, g i)) (seq 0 (length q / bs)) -> p = q.
Proof.
  intros Hb Hp Hq E. apply (f_equal (map fst)) in E. rewrite !map_fst_pair in E.
  apply (f_equal (@concat N)) in E.
  pose proof (Nat.div_mod (length p) bs ltac:(lia)). pose proof (Nat.div_mod (length q) bs ltac:(lia)).
  rewrite !nth_blocks_concat in E by lia. exact E.
Qed.
Lemma echo_inputs_inj n : separates (echo_inputs n).
Proof.
  intros m1 m2 _ _ E. assert (Hb : (0 < echo_bs n)%nat) by (unfold echo_bs; destruct (n <=? 256); lia).
  unfold echo_inputs in E. apply indexed_inj in E; auto; unfold echo_pad in *; auto using md_pad_mod.
  apply md_pad_inj in E; [tauto|]. rewrite !app_length, !le_bytes_length. reflexivity.
Qed.

Lemma be_bytes_inj k x y : x < 256 ^ N.of_nat k -> y < 256 ^ N.of_nat k -> be_bytes k x = be_bytes k y -> x = y.
Proof.
  intros Hx Hy E. unfold be_bytes in E. apply (f_equal (@rev N)) in E. rewrite !rev_involutive in E.
  exact (le_bytes_inj k x y Hx Hy E).
Qed.
Lemma pow256_mono k : (8 <= k)%nat -> 2 ^ 64 <= 256 ^ N.of_nat k.
Proof. intros H. change (2 ^ 64) with (256 ^ 8). apply N.pow_le_mono_r; lia. Qed.
Lemma bitlen_inj (m1 m2 : list N) : N.of_nat (length m1) < 2 ^ 61 -> N.of_nat (length m2) < 2 ^ 61 ->
  bitlen m1 mod 2 ^ 64 = bitlen m2 mod 2 ^ 64 -> length m1 = length m2.
Proof. unfold bitlen. intros H1 H2 E. rewrite !N.mod_small in E by lia. lia. Qed.
Lemma padb_mod w l m : (0 < bb w)%nat -> (length (padb w l m) mod bb w = 0)%nat.
Proof.
  intros Hb. unfold padb. rewrite !app_length, !be_bytes_length.
  pose proof (md_pad_mod (bb w) (zeros (2 * wb w)) m Hb) as H. unfold md_pad in H.
  rewrite !app_length, !zeros_length in H. cbn [length] in H. etransitivity; [|exact H]. reflexivity.
Qed.
Lemma blake_inputs_inj n : separates_short (blake_inputs n).
Proof.
  intros m1 m2 _ _ L1 L2 E. assert (Hb : (0 < bb (blake_w n))%nat /\ (8 <= 2 * wb (blake_w n))%nat).
  { unfold blake_w. destruct (256 <? n); vm_compute; lia. }
  destruct Hb as [Hb Hw]. unfold blake_inputs in E. apply indexed_inj in E; auto using padb_mod.
  unfold padb in E. cbv zeta in E. rewrite !app_assoc in E. apply app_inj_tail_len in E; [|apply be_enc]. destruct E as [E F].
  apply be_bytes_inj in F; try (eapply N.lt_le_trans; [apply N.mod_lt; discriminate|apply pow256_mono; exact Hw]).
  apply bitlen_inj in F; auto. apply app_inj_head_len in E; tauto.
Qed.

(** BLAKE2: the last counter is the length. *)
Lemma blocks_of_fits w (d : list N) : (0 < bb w)%nat -> (length d <= blocks_of w d * bb w)%nat /\ (0 < blocks_of w d)%nat.
Proof.
  intros Hb. unfold blocks_of. pose proof (Nat.div_mod (length d + bb w - 1) (bb w) ltac:(lia)).
  pose proof (Nat.mod_upper_bound (length d + bb w - 1) (bb w) ltac:(lia)). nia.
Qed.
Lemma blake2_inputs_inj w d1 d2 : (0 < bb w <= 128)%nat ->
  blake2_inputs w d1 = blake2_inputs w d2 -> d1 = d2.
Proof.
  intros [Hb Hb2] E.
  assert (K : forall d, concat (map (fun x => fst (fst x)) (blake2_inputs w d)) = d ++ zeros (blocks_of w d * bb w - length d)).
  { intros d. unfold blake2_inputs. cbv zeta. rewrite map_app, map_map. cbn [map fst].
    destruct (blocks_of_fits w d Hb) as [H1 H2].
    pose proof (nth_blocks_concat (bb w) (d ++ zeros (blocks_of w d * bb w - length d)) (blocks_of w d)) as X.
    rewrite <- X at 2 by (rewrite app_length, zeros_length; lia).
    replace (seq 0 (blocks_of w d)) with (seq 0 (blocks_of w d - 1) ++ [(blocks_of w d - 1)%nat]).
    - rewrite map_app. reflexivity.
    - rewrite <- seq_S. f_equal. lia. }
  assert (F : forall d, snd (fst (last (blake2_inputs w d) ([], 0, false))) = ctr2 (length d)).
  { intros d. unfold blake2_inputs. cbv zeta. rewrite last_last. reflexivity. }
  assert (Ll : length d1 = length d2).
  { pose proof (F d1) as F1. rewrite E, F in F1. unfold ctr2 in F1.
    assert (D : blocks_of w d1 = blocks_of w d2).
    { apply (f_equal (@length _)) in E. unfold blake2_inputs in E. cbv zeta in E.
      rewrite !app_length, !map_length, !seq_length in E. cbn [length] in E.
      pose proof (blocks_of_fits w d1 Hb). pose proof (blocks_of_fits w d2 Hb). lia. }
    pose proof (blocks_of_fits w d1 Hb) as [A1 _]. pose proof (blocks_of_fits w d2 Hb) as [A2 _].
    assert (B : forall d, (blocks_of w d * bb w <= length d + bb w)%nat).
    { intros d. unfold blocks_of. pose proof (Nat.div_mod (length d + bb w - 1) (bb w) ltac:(lia)). nia. }
    pose proof (B d1). pose proof (B d2). rewrite D in *.
    pose proof (N.div_mod (N.of_nat (length d1)) (2 ^ 61) ltac:(discriminate)).
    pose proof (N.div_mod (N.of_nat (length d2)) (2 ^ 61) ltac:(discriminate)).
    rewrite F1 in *. generalize dependent (N.of_nat (length d1) / 2 ^ 61). generalize dependent (N.of_nat (length d2) / 2 ^ 61).
    intros q2 Hq2 q1 Hq1. assert (q1 = q2) by lia. lia. }
  pose proof (K d1) as K1. rewrite E, K in K1. apply app_inj_head_len in K1; [symmetry; tauto|auto].
Qed.
Lemma leaf_parts_inj (w : N) m1 : forall m2 s, (0 < degree w)%nat ->
  (forall i, (i < degree w)%nat ->
     map snd (filter (fun x : nat * N => ((fst x / bb w) mod degree w =? i)%nat) (combine (seq s (length m1)) m1)) =
     map snd (filter (fun x : nat * N => ((fst x / bb w) mod degree w =? i)%nat) (combine (seq s (length m2)) m2))) ->
  m1 = m2.
Proof.
  induction m1 as [|a m1 IH]; intros [|b m2] s Hd H.
  - reflexivity.
  - specialize (H ((s / bb w) mod degree w)%nat (Nat.mod_upper_bound _ _ (Nat.neq_sym _ _ (Nat.lt_neq _ _ Hd)))).
    cbn [length seq combine filter fst] in H. rewrite Nat.eqb_refl in H. discriminate.
  - specialize (H ((s / bb w) mod degree w)%nat (Nat.mod_upper_bound _ _ (Nat.neq_sym _ _ (Nat.lt_neq _ _ Hd)))).
    cbn [length seq combine filter fst] in H. rewrite Nat.eqb_refl in H. discriminate.
  - assert (E : a = b).
    { specialize (H ((s / bb w) mod degree w)%nat (Nat.mod_upper_bound _ _ (Nat.neq_sym _ _ (Nat.lt_neq _ _ Hd)))).
      cbn [length seq combine filter fst] in H. rewrite Nat.eqb_refl in H. cbn [map snd] in H. injection H as H _. exact H. }
    subst b. f_equal. apply (IH m2 (S s) Hd). intros i Hi. specialize (H i Hi).
    cbn [length seq combine filter fst] in H. destruct (_ =? i)%nat; [|exact H]. cbn [map snd] in H. injection H as H. exact H.
Qed.
Lemma map_eq_at {A B} (f g : A -> B) l x : map f l = map g l -> In x l -> f x = g x.
Proof. induction l as [|a l IH]; intros E []; cbn [map] in E; injection E as E1 E2; [subst; auto|auto]. Qed.
Lemma blake2p_inputs_inj w key m1 m2 : w = 64 \/ w = 32 -> 
  blake2p_inputs w key m1 = blake2p_inputs w key m2 -> m1 = m2.
Proof.
  intros Hw E.
  assert (Hd : (0 < degree w)%nat /\ (0 < bb w <= 128)%nat) by (destruct Hw; subst; vm_compute; lia).
  destruct Hd as (Hd & Hb).
  apply (leaf_parts_inj w m1 m2 0 Hd). intros i Hi.
  pose proof (map_eq_at _ _ _ i E ltac:(apply in_seq; lia)) as Ei.
  apply blake2_inputs_inj in Ei; auto.
  apply app_inv_head in Ei. exact Ei.
Qed.

(** Skein: the positions of the tweaks end with the length. *)
Lemma skein_inputs_inj nw ty m1 m2 : (0 < nw)%nat -> ty < 2 ^ 6 ->
  N.of_nat (length m1) < 2 ^ 64 -> N.of_nat (length m2) < 2 ^ 64 ->
  skein_inputs nw ty m1 = skein_inputs nw ty m2 -> m1 = m2.
Proof.
  intros Hn Ht L1 L2 E. set (bs := (8 * nw)%nat) in *. assert (Hb : (0 < bs)%nat) by (unfold bs; lia).
  assert (C : forall m : list N, (length m <= ubi_count nw (length m) * bs)%nat /\ (0 < ubi_count nw (length m))%nat /\
      ((ubi_count nw (length m) - 1) * bs <= length m)%nat).
  { intros m. unfold ubi_count. fold bs. pose proof (Nat.div_mod (length m + bs - 1) bs ltac:(lia)).
    pose proof (Nat.mod_upper_bound (length m + bs - 1) bs ltac:(lia)). nia. }
  assert (K : forall m, concat (map fst (skein_inputs nw ty m)) = m ++ zeros (ubi_count nw (length m) * bs - length m)).
  { intros m. unfold skein_inputs. cbv zeta. fold bs. rewrite map_fst_pair. destruct (C m) as (C1 & C2 & C3).
    set (k := ubi_count nw (length m)) in *.
    assert (P : length (m ++ zeros (k * bs - length m)) = (k * bs)%nat) by (rewrite app_length, zeros_length; lia).
    rewrite <- (nth_blocks_concat bs _ k P). f_equal. apply map_ext_in. intros i Hi. apply in_seq in Hi.
    unfold nth_block. rewrite skipn_app, firstn_app, skipn_length. f_equal.
    rewrite firstn_length, skipn_length.
    replace (i * bs - length m)%nat with 0%nat by nia. cbn [skipn]. unfold zeros. rewrite firstn_fill. f_equal. nia. }
  assert (F : forall m, N.of_nat (length m) < 2 ^ 64 -> snd (last (skein_inputs nw ty m) ([], 0)) mod 2 ^ 64 = N.of_nat (length m)).
  { intros m Hm. unfold skein_inputs. cbv zeta. fold bs. destruct (C m) as (C1 & C2 & C3).
    set (k := ubi_count nw (length m)) in *. replace (seq 0 k) with (seq 0 (k - 1) ++ [(k - 1)%nat])
      by (rewrite <- seq_S; f_equal; lia).
    rewrite map_app. cbn [map]. rewrite last_last. cbn [snd].
    replace (Nat.min (length m) ((k - 1 + 1) * bs)) with (length m) by nia. unfold ubi_tweak.
    rewrite (N.mod_small (N.of_nat _)) by exact Hm.
    revert Hm. generalize (N.of_nat (length m)). intros a Hm.
    assert (X : forall b l : bool, (a + ty * 2 ^ 120 + (if b then 2 ^ 126 else 0) + (if l then 2 ^ 127 else 0)) mod 2 ^ 64 = a).
    { intros b l. replace (a + ty * 2 ^ 120 + (if b then 2 ^ 126 else 0) + (if l then 2 ^ 127 else 0))
        with (a + (ty * 2 ^ 56 + (if b then 2 ^ 62 else 0) + (if l then 2 ^ 63 else 0)) * 2 ^ 64) by (destruct b, l; lia).
      rewrite N.mod_add by discriminate. apply N.mod_small. exact Hm. }
    apply X. }
  assert (L : length m1 = length m2).
  { pose proof (F m1 L1) as F1. rewrite E, F in F1 by exact L2. lia. }
  pose proof (K m1) as K1. rewrite E, K in K1. apply app_inj_head_len in K1; [symmetry; tauto|auto].
Qed.

(** Streebog: the blocks before the length and the sum. *)
Lemma streebog_inputs_inj addN addS : separates (streebog_inputs addN addS).
Proof.
  intros m1 m2 _ _ E.
  assert (A : forall m, m = concat (sbs_full m) ++ sbs_rest m /\ (length (sbs_rest m) < 64)%nat).
  { intros m. unfold sbs_full, sbs_rest. pose proof (Nat.div_mod (length m) 64 ltac:(lia)).
    pose proof (Nat.mod_upper_bound (length m) 64 ltac:(lia)). split; [|rewrite skipn_length; lia].
    rewrite <- (firstn_skipn (length m / 64 * 64) m) at 1. f_equal.
    assert (G : forall n p, (n * 64 <= length p)%nat -> concat (blocks_n n 64 p) = firstn (n * 64) p).
    { induction n as [|n IH]; intros p Hp; [reflexivity|]. cbn [blocks_n concat]. rewrite IH by (rewrite skipn_length; lia).
      replace (S n * 64)%nat with (64 + n * 64)%nat by lia. rewrite <- (firstn_skipn 64 p) at 3.
      rewrite firstn_app, firstn_firstn, firstn_length, Nat.min_r, (Nat.min_l 64 (length p)) by lia.
      do 2 f_equal. lia. }
    symmetry. apply G. lia. }
  assert (B : forall m, map snd (streebog_inputs addN addS m) = sbs_full m ++
    [sbs_last (sbs_rest m); snd (nth (length (sbs_full m) + 1) (streebog_inputs addN addS m) (0, []));
     snd (nth (length (sbs_full m) + 2) (streebog_inputs addN addS m) (0, []))]).
  { intros m. unfold streebog_inputs. cbv zeta. rewrite map_app, map_map. cbn [map snd].
    rewrite !app_nth2 by (rewrite map_length, seq_length; lia). rewrite map_length, seq_length.
    replace (length (sbs_full m) + 1 - length (sbs_full m))%nat with 1%nat by lia.
    replace (length (sbs_full m) + 2 - length (sbs_full m))%nat with 2%nat by lia. cbn [nth snd].
    f_equal. clear. generalize (sbs_full m). intros l.
    assert (G : forall (l : list (list N)) pre, map (fun i => nth i (pre ++ l) []) (seq (length pre) (length l)) = l).
    { induction l0 as [|a l0 IH]; intros pre; [reflexivity|]. cbn [length seq map]. f_equal.
      - rewrite app_nth2, Nat.sub_diag by lia. reflexivity.
      - rewrite <- (IH (pre ++ [a])) at 2. rewrite app_length. cbn [length]. rewrite Nat.add_1_r.
        apply map_ext. intros i. rewrite <- app_assoc. reflexivity. }
    exact (G l []). }
  pose proof (B m1) as B1. rewrite E, B in B1.
  apply app_inj_tail_len in B1; [|reflexivity]. destruct B1 as [B1 B2]. injection B2 as B2 _ _.
  unfold sbs_last in B2. apply (strip_fill 0 1 1) in B2; [|discriminate|discriminate]. destruct B2 as [B2 _].
  rewrite (proj1 (A m1)), (proj1 (A m2)), B1, B2. reflexivity.
Qed.
