(** * The modelled Keccak permutation is KECCAK-p of FIPS 202. *)
From Verif Require Import Base Absorb Lemmas WordLemmas TableLemmas SpecCommon MdProof
  ConstSha3 Keccak KeccakSpec.

(** C50: the round constant table is generated by the LFSR of FIPS 202. *)
Lemma sha3_RC_eq : sha3_RC = map RC (seq 0 24).
Proof. vm_compute. reflexivity. Qed.

Lemma kc_RC ir : (ir < 24)%nat -> nthN ir sha3_RC = RC ir.
Proof. intros. rewrite sha3_RC_eq. unfold nthN. apply nth_map_seq. auto. Qed.

Lemma list25 (A : list N) : length A = 25%nat ->
  exists a0 a1 a2 a3 a4 a5 a6 a7 a8 a9 a10 a11 a12 a13 a14 a15 a16 a17 a18 a19 a20 a21 a22 a23 a24,
  A = [a0; a1; a2; a3; a4; a5; a6; a7; a8; a9; a10; a11; a12; a13; a14; a15; a16; a17; a18; a19;
       a20; a21; a22; a23; a24].
Proof.
  intros H. do 25 (destruct A as [|? A]; [discriminate H|]). destruct A; [|discriminate H].
  repeat eexists.
Qed.

Lemma kc_round_eq A ir : length A = 25%nat -> (ir < 24)%nat -> kc_round A ir = Rnd A ir.
Proof.
  intros HA Hi. destruct (list25 A HA) as
    (a0 & a1 & a2 & a3 & a4 & a5 & a6 & a7 & a8 & a9 & a10 & a11 & a12 & a13 & a14 & a15 & a16
     & a17 & a18 & a19 & a20 & a21 & a22 & a23 & a24 & ->).
  unfold kc_round. rewrite (kc_RC ir Hi). cbv zeta.
  rewrite !rotl_ROTL. unfold notw. unfold nthN. cbn [nth].
  cbv -[N.lxor ROTL N.land NOT N.ones RC]. unfold NOT, N.lnot. reflexivity.
Qed.

Lemma kc_round_length A ir : length (kc_round A ir) = 25%nat.
Proof. reflexivity. Qed.
Global Opaque kc_round.

Lemma kc_perm_eq R A : (R <= 24)%nat -> length A = 25%nat -> kc_perm R A = keccak_p R A.
Proof.
  intros HR HA. unfold kc_perm, keccak_p.
  assert (HF : Forall (fun ir => (ir < 24)%nat) (seq (24 - R) R)).
  { apply Forall_forall. intros i Hi. apply in_seq in Hi. lia. }
  destruct (fold_left_hom (fun x : list N => x) kc_round Rnd (fun A => length A = 25%nat)
              (fun ir => (ir < 24)%nat) (seq (24 - R) R) A) as [E _]; auto.
  intros a x Ha Hx. split; [apply (kc_round_eq a x Ha Hx)|apply (kc_round_length a x)].
Qed.

Lemma kc_perm_length R A : length A = 25%nat -> length (kc_perm R A) = 25%nat.
Proof. apply (fold_left_len kc_round 25 kc_round_length). Qed.
Global Opaque kc_perm.

Lemma le_words_app k n j a b : length a = (n * k)%nat ->
  le_words k (n + j) (a ++ b) = le_words k n a ++ le_words k j b.
Proof.
  revert a. induction n; intros a Ha.
  - destruct a; [reflexivity|discriminate].
  - cbn [Nat.add le_words app]. assert (length a = k + n * k)%nat by (rewrite Ha; lia).
    rewrite (firstn_app k a), (skipn_app k a).
    replace (k - length a)%nat with 0%nat by lia. cbn [firstn skipn]. rewrite app_nil_r.
    rewrite IHn; [reflexivity|]. rewrite skipn_length. lia.
Qed.

Lemma le_word_zeros k : le_word (zeros k) = 0.
Proof. induction k; [reflexivity|]. cbn [zeros repeat le_word]. fold (zeros k). rewrite IHk. reflexivity. Qed.

Lemma firstn_zeros a b : (a <= b)%nat -> firstn a (zeros b) = zeros a.
Proof.
  revert b. induction a; intros b H; [reflexivity|]. destruct b; [lia|].
  cbn [zeros repeat firstn]. fold (zeros b). rewrite IHa by lia. reflexivity.
Qed.
Lemma skipn_zeros a b : skipn a (zeros b) = zeros (b - a).
Proof.
  revert b. induction a; intros [|b]; try reflexivity.
  cbn [zeros repeat skipn Nat.sub]. apply IHa.
Qed.

Lemma le_words_zeros k n m : (n * k <= m)%nat -> le_words k n (zeros m) = zeros n.
Proof.
  revert m. induction n; intros m H; [reflexivity|].
  cbn [le_words]. cbn in H. rewrite firstn_zeros by lia. rewrite le_word_zeros, skipn_zeros, IHn by lia.
  reflexivity.
Qed.

Lemma map2_lxor_zeros l : map2 N.lxor l (zeros (length l)) = l.
Proof.
  induction l; [reflexivity|]. cbn [length zeros repeat map2]. fold (zeros (length l)).
  rewrite IHl, N.lxor_0_r. reflexivity.
Qed.

(** The absorbing step. *)
Definition kc_f (R r64 : nat) (A data : list N) : list N :=
  kc_perm R (map2 N.lxor (firstn r64 A) (le_words 8 r64 data) ++ skipn r64 A).

Lemma kc_block_ok R r64 A t d : (r64 <= 25)%nat -> kc_block R r64 A t d = Ok (kc_f R r64 A d).
Proof. intros. unfold kc_block. destruct (Nat.leb_spec r64 25); [reflexivity|lia]. Qed.

Lemma kc_f_length R r64 A d : (r64 <= 25)%nat -> length A = 25%nat -> length (kc_f R r64 A d) = 25%nat.
Proof.
  intros. apply kc_perm_length.
  rewrite app_length, map2_length, firstn_length, le_words_length, skipn_length. lia.
Qed.

Lemma kc_f_eq R r64 A d : (R <= 24)%nat -> (r64 <= 25)%nat -> length A = 25%nat ->
  length d = (8 * r64)%nat -> kc_f R r64 A d = absorb_block R (8 * r64) A d.
Proof.
  intros HR H HA Hd. unfold kc_f, absorb_block.
  rewrite kc_perm_eq; [|auto|rewrite app_length, map2_length, firstn_length, le_words_length, skipn_length; lia].
  f_equal. replace 25%nat with (r64 + (25 - r64))%nat at 1 by lia.
  rewrite le_words_app by lia. rewrite le_words_zeros by lia.
  rewrite <- (firstn_skipn r64 A) at 3. rewrite map2_app.
  - f_equal. assert (L : length (skipn r64 A) = (25 - r64)%nat) by (rewrite skipn_length; lia).
    rewrite <- L. symmetry. apply map2_lxor_zeros.
  - rewrite firstn_length, le_words_length. lia.
Qed.
