(** * Checked arithmetic: words that remember undefined behaviour.

    The providers are modelled with total operations ([rotl], [shlw], [nthN], [tbl], [upd]),
    whose C++ counterparts are only defined for shift counts below the width of the word and
    for indices inside the array. Here a word is an outcome [res N]: every operation hands on
    undefined behaviour of its operands, a shift by at least the width is [UB BadShift] and an
    access outside an array is [UB OutOfBounds]. The files Ck*.v repeat the compression functions of
    the models with these operations and prove that they give the same words as the model,
    all of them [Ok]. *)
From Verif Require Import Base.

(** A word together with the question whether computing it was defined. *)
Notation K := (res N).
(** An array all of whose elements are defined. Used in proofs; no code of /repo. *)
Definition kl (l : list N) : list K := map Ok l.

(** The operators ^, &, |, ~, + on uintW_t. Language rules; no code of /repo. *)
Definition kxor (x y : K) : K := a <- x ;; b <- y ;; Ok (N.lxor a b).
(** Language rules; no code of /repo. *)
Definition kand (x y : K) : K := a <- x ;; b <- y ;; Ok (N.land a b).
(** Language rules; no code of /repo. *)
Definition kor (x y : K) : K := a <- x ;; b <- y ;; Ok (N.lor a b).
(** Language rules; no code of /repo. *)
Definition knot (w : N) (x : K) : K := a <- x ;; Ok (notw w a).
(** Language rules; no code of /repo. *)
Definition kadd (w : N) (x y : K) : K := a <- x ;; b <- y ;; Ok (addw w a b).
(** Language rules; no code of /repo. *)
Definition ksub (w : N) (x y : K) : K := a <- x ;; b <- y ;; Ok (subw w a b).
(** Language rules; no code of /repo. *)
Definition kmul (w : N) (x y : K) : K := a <- x ;; b <- y ;; Ok (trunc w (a * b)).
(** Language rules; no code of /repo. *)
Definition ktrunc (w : N) (x : K) : K := a <- x ;; Ok (trunc w a).

(** The operators << and >> on uintW_t: undefined unless the count is below [w].
    Language rules; no code of /repo. *)
Definition kshl (w : N) (x n : K) : K := a <- x ;; k <- n ;; shl_c Strict w a k.
(** Language rules; no code of /repo. *)
Definition kshr (w : N) (x n : K) : K := a <- x ;; k <- n ;; shr_c Strict w a k.
(** detail/functions.hpp:61-82: the counts are n and W - n, computed as unsigned. *)
Definition krotr (w : N) (x n : K) : K := kor (kshr w x n) (kshl w x (ksub 32 (Ok w) n)).
(** detail/functions.hpp:67-71, 79-82. *)
Definition krotl (w : N) (x n : K) : K := kor (kshl w x n) (kshr w x (ksub 32 (Ok w) n)).
(** (unsigned char)(x >> n). Language rules; no code of /repo. *)
Definition kbyte (w : N) (x n : K) : K := a <- kshr w x n ;; Ok (N.land a 255).

(** l[i] for an array of words, for an index that is itself a word, and for l[t - k] with an
    unsigned t. Language rules; no code of /repo. *)
Definition kget (i : nat) (l : list K) : K :=
  match nth_error l i with Some x => x | None => UB OutOfBounds end.
(** Language rules; no code of /repo. *)
Definition kgetw (l : list K) (i : K) : K := i <- i ;; kget (N.to_nat i) l.
(** Language rules; no code of /repo. *)
Definition kback (t k : nat) (l : list K) : K :=
  if (k <=? t)%nat then kget (t - k) l else UB OutOfBounds.
(** T[i] and T[j][i] for constant tables. Language rules; no code of /repo. *)
Definition ktab (i : nat) (T : list N) : K :=
  match nth_error T i with Some x => Ok x | None => UB OutOfBounds end.
(** Language rules; no code of /repo. *)
Definition ktab2 (j i : nat) (T : list (list N)) : K :=
  match nth_error T j with Some r => ktab i r | None => UB OutOfBounds end.
(** Language rules; no code of /repo. *)
Definition ktabw (T : list N) (i : K) : K := i <- i ;; ktab (N.to_nat i) T.
(** Language rules; no code of /repo. *)
Definition ktabw2 (j : nat) (T : list (list N)) (i : K) : K := i <- i ;; ktab2 j (N.to_nat i) T.
(** l[i] = v; after a store outside the array nothing is defined any more.
    Language rules; no code of /repo. *)
Definition kupd (i : nat) (v : K) (l : list K) : list K :=
  if (i <? length l)%nat then upd i v l else map (fun _ => UB OutOfBounds) l.

(** detail/functions.hpp:16-41 *)
Definition kbyteswap16 (v : K) : K :=
  ktrunc 16 (kor (kshl 32 (kand v (Ok 0xff)) (Ok 8)) (kshr 32 (kand v (Ok 0xff00)) (Ok 8))).
(** detail/functions.hpp:22-29. *)
Definition kbyteswap32 (v : K) : K :=
  kor (kor (kor
    (kshr 32 (kand v (Ok 0xff000000)) (Ok 24))
    (kshr 32 (kand v (Ok 0x00ff0000)) (Ok 8)))
    (kshl 32 (kand v (Ok 0x0000ff00)) (Ok 8)))
    (kshl 32 (kand v (Ok 0x000000ff)) (Ok 24)).
(** detail/functions.hpp:31-42. *)
Definition kbyteswap64 (v : K) : K :=
  kor (kor (kor (kor (kor (kor (kor
    (kshr 64 (kand v (Ok 0xff00000000000000)) (Ok 56))
    (kshr 64 (kand v (Ok 0x00ff000000000000)) (Ok 40)))
    (kshr 64 (kand v (Ok 0x0000ff0000000000)) (Ok 24)))
    (kshr 64 (kand v (Ok 0x000000ff00000000)) (Ok 8)))
    (kshl 64 (kand v (Ok 0x00000000ff000000)) (Ok 8)))
    (kshl 64 (kand v (Ok 0x0000000000ff0000)) (Ok 24)))
    (kshl 64 (kand v (Ok 0x000000000000ff00)) (Ok 40)))
    (kshl 64 (kand v (Ok 0x00000000000000ff)) (Ok 56)).

(** ** The operations on defined operands *)

Lemma kl_length l : length (kl l) = length l.
Proof. apply map_length. Qed.
Lemma kl_app a b : kl (a ++ b) = kl a ++ kl b.
Proof. apply map_app. Qed.
Lemma kl_firstn n a : firstn n (kl a) = kl (firstn n a).
Proof. apply firstn_map. Qed.
Lemma kl_skipn n a : skipn n (kl a) = kl (skipn n a).
Proof. apply skipn_map. Qed.

Lemma nth_error_kl l i : nth_error (kl l) i = option_map Ok (nth_error l i).
Proof. unfold kl. apply nth_error_map. Qed.

Lemma ktab_ok i T : (i < length T)%nat -> ktab i T = Ok (nthN i T).
Proof.
  intros H. unfold ktab, nthN. rewrite (nth_error_nth' T 0 H). reflexivity.
Qed.
Lemma kget_ok i l : (i < length l)%nat -> kget i (kl l) = Ok (nthN i l).
Proof.
  intros H. unfold kget, nthN. rewrite nth_error_kl, (nth_error_nth' l 0 H). reflexivity.
Qed.
Lemma kgetw_ok l i : (N.to_nat i < length l)%nat -> kgetw (kl l) (Ok i) = Ok (tbl l i).
Proof. intros H. unfold kgetw. cbn [bind]. now apply kget_ok. Qed.
Lemma kback_ok t k l : (k <= t)%nat -> (t - k < length l)%nat -> kback t k (kl l) = Ok (nthN (t - k) l).
Proof.
  intros H H1. unfold kback. replace (k <=? t)%nat with true by (symmetry; now apply Nat.leb_le).
  now apply kget_ok.
Qed.
Lemma ktab2_ok j i T : (j < length T)%nat -> (i < length (nth j T []))%nat ->
  ktab2 j i T = Ok (nthN i (nth j T [])).
Proof.
  intros H H1. unfold ktab2. rewrite (nth_error_nth' T [] H). now apply ktab_ok.
Qed.
Lemma ktabw_ok T i : (N.to_nat i < length T)%nat -> ktabw T (Ok i) = Ok (tbl T i).
Proof. intros H. unfold ktabw. cbn [bind]. now apply ktab_ok. Qed.
Lemma ktabw2_ok j T i : (j < length T)%nat -> (N.to_nat i < length (nth j T []))%nat ->
  ktabw2 j T (Ok i) = Ok (tbl (nth j T []) i).
Proof. intros H H1. unfold ktabw2. cbn [bind]. now apply ktab2_ok. Qed.

Lemma upd_len (A : Type) i (v : A) l : length (upd i v l) = length l.
Proof. revert i. induction l as [|x l IH]; intros [|i]; cbn [upd length]; try reflexivity. now rewrite IH. Qed.
Lemma upd_kl i v l : upd i (Ok v) (kl l) = kl (upd i v l).
Proof.
  revert i. induction l as [|x l IH]; intros [|i]; cbn [upd kl map]; try reflexivity.
  f_equal. apply IH.
Qed.
Lemma kupd_ok i v l : (i < length l)%nat -> kupd i (Ok v) (kl l) = kl (upd i v l).
Proof.
  intros H. unfold kupd. rewrite kl_length.
  replace (i <? length l)%nat with true by (symmetry; now apply Nat.ltb_lt).
  apply upd_kl.
Qed.

Lemma kshl_ok w x n : n < w -> kshl w (Ok x) (Ok n) = Ok (shlw w x n).
Proof. intros H. unfold kshl, shl_c; cbn [bind]. now rewrite (proj2 (N.ltb_lt _ _) H). Qed.
Lemma kshr_ok w x n : n < w -> kshr w (Ok x) (Ok n) = Ok (shrw x n).
Proof. intros H. unfold kshr, shr_c; cbn [bind]. now rewrite (proj2 (N.ltb_lt _ _) H). Qed.
Lemma kbyte_ok w x n : n < w -> kbyte w (Ok x) (Ok n) = Ok (byte_at x n).
Proof. intros H. unfold kbyte. rewrite kshr_ok by assumption. reflexivity. Qed.

(** W - n as unsigned, for the counts that occur. *)
Lemma subw_count w n : w <= 64 -> 0 < n -> n < w -> subw 32 w n = w - n.
Proof.
  intros Hw H0 H. unfold subw, trunc.
  rewrite !N.land_ones, !N.ones_equiv.
  change (2 ^ 32) with 4294967296. change (N.pred 4294967296) with 4294967295.
  rewrite (N.mod_small n) by lia.
  replace (w + (4294967295 + 1 - n)) with (w - n + 1 * 4294967296) by lia.
  rewrite N.mod_add by lia. apply N.mod_small. lia.
Qed.
Lemma krotl_ok w x n : w <= 64 -> 0 < n -> n < w -> krotl w (Ok x) (Ok n) = Ok (rotl w x n).
Proof.
  intros Hw H0 H. unfold krotl. rewrite kshl_ok by assumption.
  unfold ksub. cbn [bind]. rewrite subw_count by assumption.
  rewrite kshr_ok by lia. reflexivity.
Qed.
Lemma krotr_ok w x n : w <= 64 -> 0 < n -> n < w -> krotr w (Ok x) (Ok n) = Ok (rotr w x n).
Proof.
  intros Hw H0 H. unfold krotr. rewrite kshr_ok by assumption.
  unfold ksub. cbn [bind]. rewrite subw_count by assumption.
  rewrite kshl_ok by lia. reflexivity.
Qed.
(** A rotation by 0 or by the width or more is not defined. *)
Lemma krotl_ub w x n : w <= 64 -> n = 0 \/ w <= n -> krotl w (Ok x) (Ok n) = UB BadShift.
Proof.
  intros Hw [-> | H]; unfold krotl, kshl, kshr, shl_c, shr_c, ksub; cbn [bind].
  - destruct (N.ltb_spec 0 w).
    + cbn [kor bind]. unfold subw, trunc. rewrite N.land_0_l, N.sub_0_r, !N.land_ones, N.ones_equiv.
      change (2 ^ 32) with 4294967296. change (N.pred 4294967296 + 1) with (1 * 4294967296).
      rewrite N.mod_add by lia. rewrite N.mod_small by lia. now rewrite N.ltb_irrefl.
    + reflexivity.
  - destruct (N.ltb_spec n w); [lia|]. reflexivity.
Qed.

Lemma kbyteswap32_ok x : kbyteswap32 (Ok x) = Ok (byteswap32 x).
Proof. reflexivity. Qed.
Lemma kbyteswap64_ok x : kbyteswap64 (Ok x) = Ok (byteswap64 x).
Proof. reflexivity. Qed.

Lemma map_kl (f : K -> K) g l : (forall x, f (Ok x) = Ok (g x)) -> map f (kl l) = kl (map g l).
Proof. intros H. unfold kl. rewrite !map_map. apply map_ext. exact H. Qed.
Lemma map2_kl (f : K -> K -> K) g a b :
  (forall x y, f (Ok x) (Ok y) = Ok (g x y)) -> map2 f (kl a) (kl b) = kl (map2 g a b).
Proof.
  intros H. revert b. induction a as [|x a IH]; intros [|y b]; try reflexivity.
  cbn [kl map map2]. rewrite H. f_equal. apply IH.
Qed.
Lemma map_ok (A : Type) (f : A -> K) g l : (forall i, In i l -> f i = Ok (g i)) -> map f l = kl (map g l).
Proof. intros H. unfold kl. rewrite map_map. now apply map_ext_in. Qed.

(** Loops: if the body of the checked loop agrees with the body of the model on states that
    satisfy [Inv], so does the loop. *)
Lemma fold_k (A S T : Type) (Inv : S -> Prop) (inj : S -> T) (f : S -> A -> S) (fk : T -> A -> T) l s :
  (forall s i, In i l -> Inv s -> fk (inj s) i = inj (f s i) /\ Inv (f s i)) ->
  Inv s -> fold_left fk l (inj s) = inj (fold_left f l s) /\ Inv (fold_left f l s).
Proof.
  revert s. induction l as [|i l IH]; intros s Hf Hs; cbn [fold_left]; [now split|].
  destruct (Hf s i (or_introl eq_refl) Hs) as [E H]. rewrite E.
  apply IH; [|exact H]. intros s' j Hj. apply Hf. now right.
Qed.

(** A list of known length is the list of its elements. *)
Ltac explode l H :=
  repeat (let x := fresh "x" in destruct l as [|x l]; cbn [length] in H; [discriminate H|]);
  destruct l; [clear H | discriminate H].

(** Finite loops: [In i (seq a n)] gives the bounds. *)
Ltac in_seq := match goal with H : In _ (seq _ _) |- _ => apply in_seq in H end.
