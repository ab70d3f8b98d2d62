(** * Chaining values of the iterated functions are lists of words (C56). *)
From Verif Require Import Base Lemmas WordLemmas TableLemmas SpecCommon Hasher HasherSpec HasherProof Library LibraryProof LibraryTypes
  LibraryTypesProof Md5Spec Sha1Spec Sha2Spec Sha2Proof Sm3Spec WhirlpoolSpec StreebogSpec Blake2Spec Blake2pSpec Blake2Sim BlakeSpec BlakeProof Inputs PadInj PadInjSponge Process ProcessTypes
  Bind BindTypes Inj InjArx InjCols InjCode CollideSpec Collide CollideSponge.
Local Transparent gb_compress gb_CF.

Definition wlen (w : N) (n : nat) (l : list N) : Prop := length l = n /\ words_ok w l.
Lemma le_flat_inj k : forall l m, length l = length m -> words_ok (8 * N.of_nat k) l -> words_ok (8 * N.of_nat k) m -> flat_map (le_bytes k) l = flat_map (le_bytes k) m -> l = m.
Proof.
  induction l as [|x l IH]; intros [|y m] L Hl Hm E; try discriminate L; [reflexivity|]. cbn [flat_map] in E.
  apply app_inj_head_len in E; [|rewrite !le_bytes_length; reflexivity]. destruct E as [E1 E2]. inversion Hl; inversion Hm; subst.
  assert (P : 256 ^ N.of_nat k = 2 ^ (8 * N.of_nat k)) by (rewrite N.pow_mul_r; reflexivity).
  f_equal; [apply (le_bytes_inj k); rewrite ?P; assumption|]. apply IH; auto.
Qed.
Lemma be_flat_inj k : forall l m, length l = length m -> words_ok (8 * N.of_nat k) l -> words_ok (8 * N.of_nat k) m -> flat_map (be_bytes k) l = flat_map (be_bytes k) m -> l = m.
Proof.
  induction l as [|x l IH]; intros [|y m] L Hl Hm E; try discriminate L; [reflexivity|]. cbn [flat_map] in E.
  apply app_inj_head_len in E; [|rewrite !be_bytes_length; reflexivity]. destruct E as [E1 E2]. inversion Hl; inversion Hm; subst.
  assert (P : 256 ^ N.of_nat k = 2 ^ (8 * N.of_nat k)) by (rewrite N.pow_mul_r; reflexivity).
  f_equal; [apply (be_bytes_inj k); rewrite ?P; assumption|]. apply IH; auto.
Qed.

Lemma nth_lt_words w l i : words_ok w l -> nth i l 0 < 2 ^ w.
Proof.
  intros H. destruct (Nat.lt_ge_cases i (length l)) as [L|L]; [exact (proj1 (Forall_forall _ _) H _ (nth_In _ _ L))|].
  rewrite nth_overflow by exact L. apply N.neq_0_lt_0, N.pow_nonzero. discriminate.
Qed.

(** ** MD5, SHA-1, SHA-2, SM3 *)
Lemma md5_words r b : wreg4 32 (rfc_md5_compress r b).
Proof.
  destruct r as [[[a c] d] e]. unfold rfc_md5_compress. cbv zeta. destruct (fold_left _ _ _) as [[[a' c'] d'] e'].
  repeat split; apply plus_mod_lt.
Qed.
Lemma md5_out_inj r1 r2 : wreg4 32 r1 -> wreg4 32 r2 ->
  (let '(a, b, c, d) := r1 in le_bytes 4 a ++ le_bytes 4 b ++ le_bytes 4 c ++ le_bytes 4 d) =
  (let '(a, b, c, d) := r2 in le_bytes 4 a ++ le_bytes 4 b ++ le_bytes 4 c ++ le_bytes 4 d) -> r1 = r2.
Proof.
  destruct r1 as [[[a b] c] d], r2 as [[[a' b'] c'] d']. intros (A & B & C & D) (A' & B' & C' & D') E.
  assert (X : [a; b; c; d] = [a'; b'; c'; d']).
  { apply (le_flat_inj 4); [reflexivity|repeat constructor; assumption..|]. cbn [flat_map]. rewrite !app_nil_r. exact E. }
  congruence.
Qed.
Lemma sha1_words r b : wreg5 32 (fips_sha1_compress r b).
Proof.
  destruct r as [[[[a c] d] e] f]. unfold fips_sha1_compress. cbv zeta. destruct (fold_left _ _ _) as [[[[a' c'] d'] e'] f'].
  repeat split; apply plus_mod_lt.
Qed.
Lemma sha1_out_inj r1 r2 : wreg5 32 r1 -> wreg5 32 r2 ->
  (let '(a, b, c, d, e) := r1 in flat_map (be_bytes 4) [a; b; c; d; e]) = (let '(a, b, c, d, e) := r2 in flat_map (be_bytes 4) [a; b; c; d; e]) -> r1 = r2.
Proof.
  destruct r1 as [[[[a b] c] d] e], r2 as [[[[a' b'] c'] d'] e']. intros ((A & B & C & D) & F) ((A' & B' & C' & D') & F') E.
  apply (be_flat_inj 4) in E; [congruence|reflexivity|repeat constructor; assumption..].
Qed.
Lemma sha2_words P r b : wreg8 (p_w P) (fips_sha2_compress P r b).
Proof.
  destruct r as [[[[[[[a c] d] e] f] g] h] i]. unfold fips_sha2_compress. cbv zeta. destruct (fold_left _ _ _) as [[[[[[[a' c'] d'] e'] f'] g'] h'] i'].
  repeat split; apply plus_mod_lt.
Qed.
Lemma sha2_out_inj P r1 r2 : p_w P = 8 * N.of_nat (p_k P) -> wreg8 (p_w P) r1 -> wreg8 (p_w P) r2 -> regs_bytes P r1 = regs_bytes P r2 -> r1 = r2.
Proof.
  intros HP. destruct r1 as [[[[[[[a b] c] d] e] f] g] h], r2 as [[[[[[[a' b'] c'] d'] e'] f'] g'] h'].
  intros ((A & B & C & D) & F & G & H & I) ((A' & B' & C' & D') & F' & G' & H' & I') E. rewrite HP in *.
  apply (be_flat_inj (p_k P)) in E; [congruence|reflexivity|repeat constructor; assumption..].
Qed.
Lemma sm3_words V b : wlen 32 8 V -> wlen 32 8 (gb_compress V b).
Proof.
  intros [L W]. unfold gb_compress, gb_CF. cbv zeta.
  assert (K : forall i, nth i V 0 < 2 ^ 32) by (intros i; apply nth_lt_words; exact W).
  pose proof (proj2 (sm3_rounds_inj (gb_expand 52 (be_words 4 16 b)) (seq 0 64)) (nth 0 V 0, nth 1 V 0, nth 2 V 0, nth 3 V 0, nth 4 V 0, nth 5 V 0, nth 6 V 0, nth 7 V 0)) as R.
  destruct (fold_left _ _ _) as [[[[[[[a' c'] d'] e'] f'] g'] h'] i'].
  destruct R as ((A & B & C & D) & E & F & G & H); [repeat split; apply K|].
  split; [reflexivity|]. repeat (constructor; [apply lxor_lt; [assumption|apply K]|]). constructor.
Qed.

(** ** BLAKE and BLAKE2 *)
Definition wvec (w : N) (v : vec) : Prop := forall i, v i < 2 ^ w.
Lemma put_wvec w v i x : wvec w v -> x < 2 ^ w -> wvec w (put v i x).
Proof. intros Hv Hx j. unfold put. destruct (j =? i)%nat; auto. Qed.
Definition v_add3 (w : N) (a b : nat) (x : N) (v : vec) : vec := put v a (plus_mod w (plus_mod w (v a) (v b)) x).
Definition v_add2 (w : N) (a b : nat) (v : vec) : vec := put v a (plus_mod w (v a) (v b)).
Definition v_rot (w r : N) (d a : nat) (v : vec) : vec := put v d (ROTR w r (N.lxor (v d) (v a))).
Lemma Gb_ops w v a b c d x y : Gb w v (a, b, c, d) x y = v_rot w (BR4 w) b c (v_add2 w c d (v_rot w (BR3 w) d a (v_add3 w a b y
  (v_rot w (BR2 w) b c (v_add2 w c d (v_rot w (BR1 w) d a (v_add3 w a b x v))))))).
Proof. reflexivity. Qed.
Lemma G2_ops w v a b c d x y : G2 w v (a, b, c, d) x y = v_rot w (R4 w) b c (v_add2 w c d (v_rot w (R3 w) d a (v_add3 w a b y
  (v_rot w (R2 w) b c (v_add2 w c d (v_rot w (R1 w) d a (v_add3 w a b x v))))))).
Proof. reflexivity. Qed.
Lemma add3_wvec w a b x v : wvec w v -> wvec w (v_add3 w a b x v).
Proof. intros H. apply put_wvec; [exact H|apply plus_mod_lt]. Qed.
Lemma add2_wvec w a b v : wvec w v -> wvec w (v_add2 w a b v).
Proof. intros H. apply put_wvec; [exact H|apply plus_mod_lt]. Qed.
Lemma rot_wvec w r d a v : 0 < r < w -> wvec w v -> wvec w (v_rot w r d a v).
Proof. intros [H0 H1] H. apply put_wvec; [exact H|]. apply ROTR_word; auto. apply lxor_lt; apply H. Qed.
Lemma Gb_words w v q x y : w = 64 \/ w = 32 -> wvec w v -> wvec w (Gb w v q x y).
Proof.
  intros Hw Hv. destruct q as [[[a b] c] d]. rewrite Gb_ops.
  assert (R : (0 < BR1 w < w /\ 0 < BR2 w < w) /\ (0 < BR3 w < w /\ 0 < BR4 w < w)) by (destruct Hw; subst w; vm_compute; repeat split; reflexivity).
  destruct R as [[R1 R2] [R3 R4]]. repeat first [apply rot_wvec; [assumption|]|apply add2_wvec|apply add3_wvec|exact Hv].
Qed.
Lemma G2_words w v q x y : w = 64 \/ w = 32 -> wvec w v -> wvec w (G2 w v q x y).
Proof.
  intros Hw Hv. destruct q as [[[a b] c] d]. rewrite G2_ops.
  assert (R : (0 < R1 w < w /\ 0 < R2 w < w) /\ (0 < R3 w < w /\ 0 < R4 w < w)) by (destruct Hw; subst w; vm_compute; repeat split; reflexivity).
  destruct R as [[R1 R2] [R3 R4]]. repeat first [apply rot_wvec; [assumption|]|apply add2_wvec|apply add3_wvec|exact Hv].
Qed.
Lemma fold_wvec {B} w (f : vec -> B -> vec) l : (forall v b, wvec w v -> wvec w (f v b)) -> forall v, wvec w v -> wvec w (fold_left f l v).
Proof. intros H. induction l as [|b l IH]; intros v Hv; [exact Hv|]. cbn [fold_left]. apply IH, H, Hv. Qed.
Lemma roundb_words w m v r : w = 64 \/ w = 32 -> wvec w v -> wvec w (roundb w m v r).
Proof. intros Hw. unfold roundb. cbv zeta. apply fold_wvec. intros u b Hu. apply Gb_words; assumption. Qed.
Lemma round2_words w m v r : w = 64 \/ w = 32 -> wvec w v -> wvec w (round2 w m v r).
Proof. intros Hw. unfold round2. cbv zeta. apply fold_wvec. intros u b Hu. apply G2_words; assumption. Qed.
Lemma PI_word w i : w = 64 \/ w = 32 -> PI w i < 2 ^ w.
Proof. intros Hw. unfold PI. apply nth_lt_words. destruct Hw; subst w; repeat constructor. Qed.
Lemma div_word w t : w = 64 \/ w = 32 -> t < 2 ^ 64 -> t / 2 ^ w < 2 ^ w.
Proof. intros Hw Ht. apply N.div_lt_upper_bound; [apply N.pow_nonzero; discriminate|]. eapply N.lt_le_trans; [exact Ht|]. destruct Hw; subst w; discriminate. Qed.
Lemma compressb_words w h s m t : w = 64 \/ w = 32 -> words_ok w h -> words_ok w s -> t < 2 ^ 64 -> wlen w 8 (compressb w h s m t).
Proof.
  intros Hw Hh Hs Ht. unfold compressb. cbv zeta. match goal with |- context [fold_left (roundb w m) _ ?v] => set (v0 := v) end.
  assert (V0 : wvec w v0).
  { intros i. subst v0. cbv beta. destruct (i <? 8)%nat; [apply nth_lt_words; exact Hh|].
    destruct (i <? 12)%nat; apply lxor_lt; auto using nth_lt_words, PI_word. destruct (i <? 14)%nat; [apply N.mod_lt, N.pow_nonzero; discriminate|apply div_word; assumption]. }
  clearbody v0. pose proof (fold_wvec w (roundb w m) (seq 0 (if w =? 64 then 16 else 14)) (fun v b => roundb_words w m v b Hw) v0 V0) as V.
  revert V. generalize (fold_left (roundb w m) (seq 0 (if w =? 64 then 16 else 14)) v0). intros v V.
  split; [reflexivity|]. apply Forall_forall. intros x Hx. apply in_map_iff in Hx. destruct Hx as (i & <- & _).
  repeat apply lxor_lt; auto using nth_lt_words.
Qed.
Lemma NOT_word w x : x < 2 ^ w -> NOT w x < 2 ^ w.
Proof.
  intros Hx. unfold NOT. destruct (N.eq_dec (N.lnot x w) 0) as [->|Z]; [apply N.neq_0_lt_0, N.pow_nonzero; discriminate|].
  apply N.log2_lt_pow2; [lia|]. destruct (N.lt_ge_cases (N.log2 (N.lnot x w)) w) as [L|L]; [exact L|exfalso].
  pose proof (N.bit_log2 (N.lnot x w) Z) as T. rewrite N.lnot_spec_high in T by exact L.
  destruct (N.eq_dec x 0) as [->|X]; [rewrite N.bits_0 in T; discriminate|].
  rewrite N.bits_above_log2 in T; [discriminate|]. eapply N.lt_le_trans; [|exact L]. apply N.log2_lt_pow2; [lia|exact Hx].
Qed.
Lemma F2_words w h m t f fn : w = 64 \/ w = 32 -> words_ok w h -> t < 2 ^ 64 -> wlen w 8 (F2 w h m t f fn).
Proof.
  intros Hw Hh Ht. unfold F2. cbv zeta.
  assert (NT : forall x, x < 2 ^ w -> NOT w x < 2 ^ w) by (intros x Hx; apply NOT_word; exact Hx).
  assert (I2 : words_ok w (IV2 w)) by (destruct Hw; subst w; repeat constructor).
  set (v0 := fun i : nat => if (i <? 8)%nat then nth i h 0 else nth (i - 8) (IV2 w) 0). assert (V0 : wvec w v0).
  { intros i. subst v0. cbv beta. destruct (i <? 8)%nat; apply nth_lt_words; assumption. }
  change (if (12 <? 8)%nat then nth 12 h 0 else nth (12 - 8) (IV2 w) 0) with (v0 12%nat).
  clearbody v0. assert (V1 : wvec w (put v0 12 (N.lxor (v0 12%nat) (t mod 2 ^ w)))).
  { apply put_wvec; [exact V0|]. apply lxor_lt; [apply V0|apply N.mod_lt, N.pow_nonzero; discriminate]. }
  revert V1. generalize (put v0 12 (N.lxor (v0 12%nat) (t mod 2 ^ w))). clear V0 v0. intros v0 V0.
  assert (V1 : wvec w (put v0 13 (N.lxor (v0 13%nat) (t / 2 ^ w)))).
  { apply put_wvec; [exact V0|]. apply lxor_lt; [apply V0|apply div_word; assumption]. }
  revert V1. generalize (put v0 13 (N.lxor (v0 13%nat) (t / 2 ^ w))). clear V0 v0. intros v0 V0.
  assert (V1 : wvec w (if f then put v0 14 (NOT w (v0 14%nat)) else v0)) by (destruct f; [apply put_wvec|]; auto).
  revert V1. generalize (if f then put v0 14 (NOT w (v0 14%nat)) else v0). clear V0 v0. intros v0 V0.
  assert (V1 : wvec w (if f && fn then put v0 15 (NOT w (v0 15%nat)) else v0)) by (destruct (f && fn); [apply put_wvec|]; auto).
  revert V1. generalize (if f && fn then put v0 15 (NOT w (v0 15%nat)) else v0). clear V0 v0. intros v0 V0.
  pose proof (fold_wvec w (round2 w m) (seq 0 (if w =? 64 then 12 else 10)) (fun v b => round2_words w m v b Hw) v0 V0) as V.
  revert V. generalize (fold_left (round2 w m) (seq 0 (if w =? 64 then 12 else 10)) v0). intros v V.
  split; [reflexivity|]. apply Forall_forall. intros x Hx. apply in_map_iff in Hx. destruct Hx as (i & <- & _).
  repeat apply lxor_lt; auto using nth_lt_words.
Qed.
