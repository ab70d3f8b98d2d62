(** * Tables that are digits of pi and e and values of the sine

    MD5: entry i of the table is floor(2^32 |sin(i+1)|)  (RFC 1321, section 3.4).
    BLAKE: the constants are the leading words of the fractional part of pi
    (BLAKE submission, sections 2.1.1 and 2.2.1).
    SPARKLE: the constants are 32-bit words of the fractional part of e
    (SPARKLE submission, section 2.1.1). *)
From Coq Require Import ZArith List Lia Reals Lra.
From Verif Require Import RealConst ConstMd5 ConstBlake ConstEsch.
Import ListNotations.
Local Open Scope R_scope.

(** ** MD5 *)
Lemma md5_sin_check : sin_checks sin1_z cos1_z sc_start md5_K = true.
Proof. vm_compute. reflexivity. Qed.
Lemma md5_K_is_sine i : (i < 64)%nat ->
  IZR (Z.of_N (nth i md5_K 0%N)) <= 2 ^ 32 * Rabs (sin (INR (i + 1))) < IZR (Z.of_N (nth i md5_K 0%N)) + 1.
Proof.
  intros Hi. rewrite (Nat.add_comm i 1). apply (sin_checks_ok md5_K 1 sc_start md5_sin_check sc_start_ok).
  change (length md5_K) with 64%nat. exact Hi.
Qed.

(** ** BLAKE *)
Definition pi_lo : Z := (pi_sum (S (S (S pi_terms))) (-1086) / 21)%Z.
Definition pi_hi : Z := (pi_sum (S (S pi_terms)) 1083 / 21 + 1)%Z.
Lemma pi_scale_eq : pi_scale = (21 * 2 ^ Z.of_nat 1100)%Z.
Proof. reflexivity. Qed.
Lemma scale_down (x : R) (lo hi b : Z) : IZR lo <= x * IZR (21 * b) <= IZR hi ->
  IZR (lo / 21) <= x * IZR b <= IZR (hi / 21 + 1).
Proof.
  rewrite mult_IZR. intros [H1 H2].
  destruct (zdiv_ok lo 21 ltac:(lia)) as [A1 A2]. destruct (zdiv_ok hi 21 ltac:(lia)) as [B1 B2].
  rewrite plus_IZR. unfold Rdiv in *. split; lra.
Qed.
Lemma pi_words_in : IZR pi_lo <= PI * IZR (2 ^ Z.of_nat 1100) <= IZR pi_hi.
Proof. apply scale_down. rewrite <- pi_scale_eq. exact pi_enclosed. Qed.

Definition words_check (lo hi : Z) (P w : nat) (l : list (nat * N)) : bool :=
  forallb (fun p => word_check lo hi P w (fst p) (snd p)) l.
Lemma words_check_ok x lo hi P w l : IZR lo <= x * IZR (2 ^ Z.of_nat P) <= IZR hi ->
  words_check lo hi P w l = true -> forall i v, In (i, v) l -> frac_word x w i v.
Proof.
  intros H C i v Hin. unfold words_check in C. rewrite forallb_forall in C. apply (word_check_ok x lo hi P w i v H).
  apply (C (i, v) Hin).
Qed.
Lemma indexed_in {A} (d : A) (l : list A) : forall s i, (i < length l)%nat -> In (s + i, nth i l d)%nat (combine (seq s (length l)) l).
Proof.
  induction l as [|a l IH]; intros s i Hi; cbn [length] in *; [lia|]. destruct i as [|i].
  - left. rewrite Nat.add_0_r. reflexivity.
  - right. cbn [nth]. replace (s + S i)%nat with (S s + i)%nat by lia. apply IH. lia.
Qed.
Definition two_checks (P : nat) (lo hi : Z) : bool :=
  (words_check lo hi P 32 (combine (seq 0 (length blake_c)) blake_c) &&
   words_check lo hi P 64 (combine (seq 0 (length blake_c512)) blake_c512))%bool.
Lemma two_checks_ok P lo hi : two_checks P lo hi = true ->
  words_check lo hi P 32 (combine (seq 0 (length blake_c)) blake_c) = true /\
  words_check lo hi P 64 (combine (seq 0 (length blake_c512)) blake_c512) = true.
Proof. apply Bool.andb_true_iff. Qed.
Lemma pi_tables_ok : two_checks 1100 pi_lo pi_hi = true.
Proof. vm_compute. reflexivity. Qed.
Definition pi_check1 := proj1 (two_checks_ok _ _ _ pi_tables_ok).
Definition pi_check2 := proj2 (two_checks_ok _ _ _ pi_tables_ok).

Lemma blake_c_is_pi i : (i < 16)%nat -> frac_word PI 32 i (nth i blake_c 0%N).
Proof.
  intros Hi. apply (words_check_ok PI _ _ _ _ _ pi_words_in pi_check1).
  apply (indexed_in 0%N blake_c 0 i). exact Hi.
Qed.
Lemma blake_c512_is_pi i : (i < 16)%nat -> frac_word PI 64 i (nth i blake_c512 0%N).
Proof.
  intros Hi. apply (words_check_ok PI _ _ _ _ _ pi_words_in pi_check2).
  apply (indexed_in 0%N blake_c512 0 i). exact Hi.
Qed.

(** ** SPARKLE *)
(** The positions of the words used, in the sequence of 32-bit words of the fraction. *)
Definition sparkle_words : list nat := [0; 2; 5; 8; 13; 14; 25; 28]%nat.
Lemma e_words_check : words_check e_lo (e_lo + 1) 960 32 (combine sparkle_words esch_C) = true.
Proof. vm_compute. reflexivity. Qed.
Lemma e_words_in : IZR e_lo <= exp 1 * IZR (2 ^ Z.of_nat 960) <= IZR (e_lo + 1).
Proof. assert (E : (2 ^ Z.of_nat 960)%Z = e_scale) by reflexivity. rewrite E. exact e_enclosed. Qed.
Lemma esch_c_is_e i : (i < 8)%nat -> frac_word (exp 1) 32 (nth i sparkle_words 0%nat) (nth i esch_C 0%N).
Proof.
  intros Hi. apply (words_check_ok (exp 1) _ _ 960 32 _ e_words_in e_words_check).
  assert (E : combine sparkle_words esch_C = map (fun i => (nth i sparkle_words 0%nat, nth i esch_C 0%N)) (seq 0 8)) by reflexivity.
  rewrite E. apply in_map_iff. exists i. split; [reflexivity|]. apply in_seq. lia.
Qed.
