(** * Parametricity of the functions of Oblivious.v. *)
From Verif Require Import Base Absorb Hasher MdState Oblivious.
From Verif Require Import Md5 Sha1 Sha2 Sm3 Keccak Ascon Esch Blake Blake2 Jh Skein Lsh.
From Verif Require Import TTable Whirlpool Groestl Kupyna Streebog Echo.

(** A relation between the words of two algebras that all operations preserve. *)
Record alg_rel {W W' : Type} (R : W -> W' -> Prop) (A : alg W) (A' : alg W') : Prop := mkrel {
  r_cst : forall n, R (cst A n) (cst A' n);
  r_xor : forall x x' y y', R x x' -> R y y' -> R (axor A x y) (axor A' x' y');
  r_and : forall x x' y y', R x x' -> R y y' -> R (aand A x y) (aand A' x' y');
  r_or : forall x x' y y', R x x' -> R y y' -> R (aor A x y) (aor A' x' y');
  r_not : forall w x x', R x x' -> R (anot A w x) (anot A' w x');
  r_add : forall w x x' y y', R x x' -> R y y' -> R (aadd A w x y) (aadd A' w x' y');
  r_shl : forall w x x' n, R x x' -> R (ashl A w x n) (ashl A' w x' n);
  r_shr : forall x x' n, R x x' -> R (ashr A x n) (ashr A' x' n);
  r_mul : forall w x x' n, R x x' -> R (amul A w x n) (amul A' w x' n)
}.

(** Outcomes: both calls return related values or fail in the same way. *)
Definition res_rel {X Y} (Q : X -> Y -> Prop) (r : res X) (r' : res Y) : Prop :=
  match r, r' with
  | Ok x, Ok y => Q x y
  | Throw, Throw => True
  | UB a, UB b => a = b
  | _, _ => False
  end.

Section Rel.
Context {W W' : Type} (R : W -> W' -> Prop) (A : alg W) (A' : alg W') (HR : alg_rel R A A').

Local Notation RL := (Forall2 R).

Definition R2 {X Y X' Y'} (Q : X -> X' -> Prop) (S : Y -> Y' -> Prop) (p : X * Y) (q : X' * Y') : Prop :=
  Q (fst p) (fst q) /\ S (snd p) (snd q).

(** *** Lists *)
Lemma rel_nth : forall {X X'} (Q : X -> X' -> Prop) i l l' d d',
  Forall2 Q l l' -> Q d d' -> Q (nth i l d) (nth i l' d').
Proof.
  intros X X' Q i l l' d d' H Hd. revert i. induction H; intros [|i]; cbn [nth]; auto.
Qed.
Lemma rel_length : forall l l', RL l l' -> length l = length l'.
Proof. intros l l' H. induction H; cbn [length]; congruence. Qed.
Lemma rel_upd : forall i v v' l l', R v v' -> RL l l' -> RL (upd i v l) (upd i v' l').
Proof.
  intros i v v' l l' Hv H. revert i. induction H; intros [|i]; cbn [upd]; auto.
Qed.
Lemma rel_app : forall {X X'} (Q : X -> X' -> Prop) a a' b b',
  Forall2 Q a a' -> Forall2 Q b b' -> Forall2 Q (a ++ b) (a' ++ b').
Proof. intros. apply Forall2_app; assumption. Qed.
Lemma rel_firstn : forall n l l', RL l l' -> RL (firstn n l) (firstn n l').
Proof. intros n l l' H. revert n. induction H; intros [|n]; cbn [firstn]; auto. Qed.
Lemma rel_skipn : forall n l l', RL l l' -> RL (skipn n l) (skipn n l').
Proof. intros n l l' H. revert n. induction H; intros [|n]; cbn [skipn]; auto. Qed.
Lemma rel_tl : forall l l', RL l l' -> RL (tl l) (tl l').
Proof. intros l l' H. destruct H; cbn [tl]; auto. Qed.
Lemma rel_map : forall {X X' Y Y'} (Q : X -> X' -> Prop) (S : Y -> Y' -> Prop) f f' l l',
  Forall2 Q l l' -> (forall x x', Q x x' -> S (f x) (f' x')) -> Forall2 S (map f l) (map f' l').
Proof. intros * H Hf. induction H; cbn [map]; auto. Qed.
Lemma rel_mapi : forall {X Y Y'} (S : Y -> Y' -> Prop) (f : X -> Y) f' l,
  (forall i, S (f i) (f' i)) -> Forall2 S (map f l) (map f' l).
Proof. intros * Hf. induction l; cbn [map]; auto. Qed.
Lemma rel_map2 : forall f f' l l' m m', (forall x x' y y', R x x' -> R y y' -> R (f x y) (f' x' y')) ->
  RL l l' -> RL m m' -> RL (map2 f l m) (map2 f' l' m').
Proof.
  intros f f' l l' m m' Hf H. revert m m'. induction H; intros m m' Hm; destruct Hm; cbn [map2]; auto.
Qed.
Lemma rel_fold : forall {X X' Y} (Q : X -> X' -> Prop) f f' (l : list Y) s s',
  (forall s s' i, Q s s' -> Q (f s i) (f' s' i)) -> Q s s' -> Q (fold_left f l s) (fold_left f' l s').
Proof. intros X X' Y Q f f' l. induction l; cbn [fold_left]; auto. Qed.
Lemma rel_fold_words : forall f f' l l' s s', (forall x x' y y', R x x' -> R y y' -> R (f x y) (f' x' y')) ->
  RL l l' -> R s s' -> R (fold_left f l s) (fold_left f' l' s').
Proof. intros f f' l l' s s' Hf H. revert s s'. induction H; cbn [fold_left]; auto. Qed.
Lemma rel_bind : forall {X X' Y Y'} (Q : X -> X' -> Prop) (S : Y -> Y' -> Prop) r r' f f',
  res_rel Q r r' -> (forall x x', Q x x' -> res_rel S (f x) (f' x')) -> res_rel S (bind r f) (bind r' f').
Proof. intros * H Hf. destruct r, r'; cbn in H |- *; try contradiction; auto. Qed.
Lemma rel_fold_res : forall {X X' Y} (Q : X -> X' -> Prop) f f' (l : list Y) s s',
  (forall s s' i, Q s s' -> res_rel Q (f s i) (f' s' i)) -> Q s s' -> res_rel Q (fold_res f l s) (fold_res f' l s').
Proof.
  intros X X' Y Q f f' l. induction l; intros s s' Hf Hs; cbn [fold_res]; [exact Hs|].
  eapply rel_bind; eauto.
Qed.

Lemma rel_get : forall i l l', RL l l' -> R (gget A i l) (gget A' i l').
Proof. intros. apply (rel_nth R); [assumption|apply (r_cst R A A' HR)]. Qed.
Lemma rel_tbl : forall i l l', RL l l' -> R (gtbl A l i) (gtbl A' l' i).
Proof. intros. apply (rel_nth R); [assumption|apply (r_cst R A A' HR)]. Qed.

Create HintDb par discriminated.
Let p_cst := r_cst R A A' HR.
Let p_xor := r_xor R A A' HR.
Let p_and := r_and R A A' HR.
Let p_or := r_or R A A' HR.
Let p_not := r_not R A A' HR.
Let p_add := r_add R A A' HR.
Let p_shl := r_shl R A A' HR.
Let p_shr := r_shr R A A' HR.
Let p_mul := r_mul R A A' HR.
Hint Resolve p_cst p_xor p_and p_or p_not p_add p_shl p_shr p_mul : par.
Hint Resolve rel_get rel_tbl rel_upd rel_app rel_firstn rel_skipn rel_tl rel_map2 Forall2_cons Forall2_nil
  rel_fold_words : par.

Ltac par := auto 200 with par.

(** Names the value of a [let]. *)
Lemma let_rel : forall {X X' Y Y'} (P : X -> X' -> Prop) (Q : Y -> Y' -> Prop) a a' f f',
  P a a' -> (forall x x', P x x' -> Q (f x) (f' x')) -> Q (let x := a in f x) (let x := a' in f' x).
Proof. intros * Ha Hf. exact (Hf a a' Ha). Qed.
Ltac step :=
  lazymatch goal with
  | |- ?Q (let x := ?a in @?f x) (let y := ?b in @?g y) =>
    let Ta := type of a in
    lazymatch Ta with
    | W => refine (let_rel R Q a b f g _ _); [|cbv beta; intros ? ? ?]
    | list W => refine (let_rel RL Q a b f g _ _); [|cbv beta; intros ? ? ?]
    | _ => refine (let_rel eq Q a b f g eq_refl _); cbv beta; intros ? ? <-
    end
  end.
Ltac steps := repeat (step; [solve [par]|] || (step; [])).

Lemma grotr_rel : forall w x x' n, R x x' -> R (grotr A w x n) (grotr A' w x' n).
Proof. unfold grotr; intros; par. Qed.
Lemma grotl_rel : forall w x x' n, R x x' -> R (grotl A w x n) (grotl A' w x' n).
Proof. unfold grotl; intros; par. Qed.
Hint Resolve grotr_rel grotl_rel : par.
Lemma grotl_c_rel : forall sem w x x' n, R x x' -> res_rel R (grotl_c A sem w x n) (grotl_c A' sem w x' n).
Proof.
  intros. unfold grotl_c. apply rel_bind with (Q := R).
  - unfold gshl_c. destruct (n <? w); [cbn; par|]. destruct sem; cbn; par.
  - intros. apply rel_bind with (Q := R); [|intros; cbn; par].
    unfold gshr_c. destruct (subw 32 w n <? w); [cbn; par|]. destruct sem; cbn; par.
Qed.
Lemma gswap32_rel : forall x x', R x x' -> R (gswap32 A x) (gswap32 A' x').
Proof. unfold gswap32; intros; par. Qed.
Lemma gswap64_rel : forall x x', R x x' -> R (gswap64 A x) (gswap64 A' x').
Proof. unfold gswap64; intros; par. Qed.
Hint Resolve gswap32_rel gswap64_rel : par.

(** *** MD5 *)
Lemma groundf_rel : forall r a a' b b' c c' d d' M M', R a a' -> R b b' -> R c c' -> R d d' -> RL M M' ->
  R (groundf A r a b c d M) (groundf A' r a' b' c' d' M').
Proof. unfold groundf; intros; par. Qed.
Lemma groundg_rel : forall r a a' b b' c c' d d' M M', R a a' -> R b b' -> R c c' -> R d d' -> RL M M' ->
  R (groundg A r a b c d M) (groundg A' r a' b' c' d' M').
Proof. unfold groundg; intros; par. Qed.
Lemma groundh_rel : forall r a a' b b' c c' d d' M M', R a a' -> R b b' -> R c c' -> R d d' -> RL M M' ->
  R (groundh A r a b c d M) (groundh A' r a' b' c' d' M').
Proof. unfold groundh; intros; par. Qed.
Lemma groundi_rel : forall r a a' b b' c c' d d' M M', R a a' -> R b b' -> R c c' -> R d d' -> RL M M' ->
  R (groundi A r a b c d M) (groundi A' r a' b' c' d' M').
Proof. unfold groundi; intros; par. Qed.
Definition R4 := R2 (R2 (R2 R R) R) R.
Definition R5 := R2 R4 R.
Definition R8 := R2 (R2 (R2 R5 R) R) R.
(** Takes related tuples apart. *)
Ltac untuple := unfold R8, R5, R4, R2 in *; cbn [fst snd] in *;
  repeat match goal with
  | p : (_ * _)%type |- _ => destruct p
  | K : _ /\ _ |- _ => destruct K
  end; cbn [fst snd] in *.
Ltac tuple Q :=
  match goal with |- _ (match ?x with _ => _ end) (match ?y with _ => _ end) =>
    let K := fresh "K" in assert (K : Q x y); [|revert K; generalize x y; intros ? ? K; untuple] end.

Lemma gfour_rel : forall f f' M M' s s' r,
  (forall r a a' b b' c c' d d' M M', R a a' -> R b b' -> R c c' -> R d d' -> RL M M' ->
     R (f r a b c d M) (f' r a' b' c' d' M')) ->
  RL M M' -> R4 s s' -> R4 (gfour f M s r) (gfour f' M' s' r).
Proof.
  intros. untuple. unfold gfour. cbn [fst snd]. repeat split; par.
Qed.
Lemma gmd5_rel : forall H H' M M', RL H H' -> RL M M' -> RL (gmd5_block A H M) (gmd5_block A' H' M').
Proof.
  intros. unfold gmd5_block. cbv zeta. tuple R4; [|par].
  repeat (apply (rel_fold R4); [intros; apply gfour_rel; auto using groundf_rel, groundg_rel, groundh_rel, groundi_rel|]).
  repeat split; cbn [fst snd]; par.
Qed.

(** *** SHA-1 *)
Lemma gsha1_Ch_rel : forall x x' y y' z z', R x x' -> R y y' -> R z z' -> R (gsha1_Ch A x y z) (gsha1_Ch A' x' y' z').
Proof. unfold gsha1_Ch; intros; par. Qed.
Lemma gsha1_Parity_rel : forall x x' y y' z z', R x x' -> R y y' -> R z z' ->
  R (gsha1_Parity A x y z) (gsha1_Parity A' x' y' z').
Proof. unfold gsha1_Parity; intros; par. Qed.
Lemma gsha1_Maj_rel : forall x x' y y' z z', R x x' -> R y y' -> R z z' -> R (gsha1_Maj A x y z) (gsha1_Maj A' x' y' z').
Proof. unfold gsha1_Maj; intros; par. Qed.
Hint Resolve gsha1_Ch_rel gsha1_Parity_rel gsha1_Maj_rel : par.
Lemma gsha1_expand_rel : forall n X X', RL X X' -> RL (gsha1_expand A n X) (gsha1_expand A' n X').
Proof.
  induction n; intros X X' H; [exact H|]. cbn [gsha1_expand]. rewrite (rel_length _ _ H). apply IHn. par.
Qed.
Hint Resolve gsha1_expand_rel : par.
Definition RF3 (f : W -> W -> W -> W) (f' : W' -> W' -> W' -> W') : Prop :=
  forall x x' y y' z z', R x x' -> R y y' -> R z z' -> R (f x y z) (f' x' y' z').
Definition RS1 := R2 (R2 R5 RF3) R.
Lemma gsha1_iter_rel : forall X X' s s' t, RL X X' -> RS1 s s' -> RS1 (gsha1_iter A X s t) (gsha1_iter A' X' s' t).
Proof.
  intros. unfold RS1 in *. untuple. unfold gsha1_iter. cbv zeta.
  destruct (t =? 19)%nat; [|destruct (t =? 39)%nat; [|destruct (t =? 59)%nat]]; cbn [fst snd];
    repeat split; unfold RF3 in *; par; exact gsha1_Parity_rel || exact gsha1_Maj_rel || par.
Qed.
Lemma gsha1_rel : forall H H' M M', RL H H' -> RL M M' -> RL (gsha1_block A H M) (gsha1_block A' H' M').
Proof.
  intros H H' M M' HH HM. unfold gsha1_block. cbv zeta. tuple (R2 (R2 R5 RF3) R); [|par].
  apply (rel_fold RS1).
  - intros. apply gsha1_iter_rel; [|assumption]. apply gsha1_expand_rel.
    apply (rel_map R R); [assumption|par].
  - repeat split; cbn [fst snd]; unfold RF3; par.
Qed.

(** *** SHA-2 *)
Lemma gsha2_byteswap_rel : forall T x x', R x x' -> R (gsha2_byteswap A T x) (gsha2_byteswap A' T x').
Proof. intros []; cbn [gsha2_byteswap]; par. Qed.
Lemma gsha2_Ch_rel : forall w x x' y y' z z', R x x' -> R y y' -> R z z' ->
  R (gsha2_Ch A w x y z) (gsha2_Ch A' w x' y' z').
Proof. unfold gsha2_Ch; intros; par. Qed.
Lemma gsha2_Maj_rel : forall x x' y y' z z', R x x' -> R y y' -> R z z' -> R (gsha2_Maj A x y z) (gsha2_Maj A' x' y' z').
Proof. unfold gsha2_Maj; intros; par. Qed.
Lemma ggetK_rel : forall T t, R (ggetK A T t) (ggetK A' T t).
Proof. intros [] t; cbn [ggetK]; par. Qed.
Lemma gsum0_rel : forall T x x', R x x' -> R (gsum0 A T x) (gsum0 A' T x').
Proof. intros []; cbn [gsum0]; par. Qed.
Lemma gsum1_rel : forall T x x', R x x' -> R (gsum1 A T x) (gsum1 A' T x').
Proof. intros []; cbn [gsum1]; par. Qed.
Lemma gsigma0_rel : forall T x x', R x x' -> R (gsigma0 A T x) (gsigma0 A' T x').
Proof. intros []; cbn [gsigma0]; par. Qed.
Lemma gsigma1_rel : forall T x x', R x x' -> R (gsigma1 A T x) (gsigma1 A' T x').
Proof. intros []; cbn [gsigma1]; par. Qed.
Hint Resolve gsha2_byteswap_rel gsha2_Ch_rel gsha2_Maj_rel ggetK_rel gsum0_rel gsum1_rel gsigma0_rel gsigma1_rel : par.
Lemma gsha2_expand_rel : forall T n X X', RL X X' -> RL (gsha2_expand A T n X) (gsha2_expand A' T n X').
Proof.
  induction n; intros X X' H; [exact H|]. cbn [gsha2_expand]. rewrite (rel_length _ _ H). apply IHn. par.
Qed.
Lemma gsha2_iter_rel : forall T X X' s s' t, RL X X' -> R8 s s' -> R8 (gsha2_iter A T X s t) (gsha2_iter A' T X' s' t).
Proof. intros. untuple. unfold gsha2_iter. cbn [fst snd]. repeat split; par. Qed.
Lemma gsha2_rel : forall T H H' M M', RL H H' -> RL M M' -> RL (gsha2_block A T H M) (gsha2_block A' T H' M').
Proof.
  intros T H H' M M' HH HM. unfold gsha2_block. cbv zeta. tuple R8; [|par].
  apply (rel_fold R8).
  - intros. apply gsha2_iter_rel; [|assumption]. apply gsha2_expand_rel. apply (rel_map R R); [assumption|par].
  - repeat split; cbn [fst snd]; par.
Qed.

(** *** SM3 *)
Lemma gsm3_xorf_rel : forall x x' y y' z z', R x x' -> R y y' -> R z z' -> R (gsm3_xorf A x y z) (gsm3_xorf A' x' y' z').
Proof. unfold gsm3_xorf; intros; par. Qed.
Lemma gsm3_ff1_rel : forall x x' y y' z z', R x x' -> R y y' -> R z z' -> R (gsm3_ff1 A x y z) (gsm3_ff1 A' x' y' z').
Proof. unfold gsm3_ff1; intros; par. Qed.
Lemma gsm3_gg1_rel : forall x x' y y' z z', R x x' -> R y y' -> R z z' -> R (gsm3_gg1 A x y z) (gsm3_gg1 A' x' y' z').
Proof. unfold gsm3_gg1; intros; par. Qed.
Lemma gsm3_p0_rel : forall x x', R x x' -> R (gsm3_p0 A x) (gsm3_p0 A' x').
Proof. unfold gsm3_p0; intros; par. Qed.
Lemma gsm3_p1_rel : forall x x', R x x' -> R (gsm3_p1 A x) (gsm3_p1 A' x').
Proof. unfold gsm3_p1; intros; par. Qed.
Hint Resolve gsm3_p0_rel gsm3_p1_rel : par.
Lemma gsm3_expand_rel : forall n X X', RL X X' -> RL (gsm3_expand A n X) (gsm3_expand A' n X').
Proof.
  induction n; intros X X' H; [exact H|]. cbn [gsm3_expand]. rewrite (rel_length _ _ H). apply IHn. par.
Qed.
Lemma gsm3_iter_rel : forall sem C ff ff' gg gg' X X' X2 X2' s s' t, RF3 ff ff' -> RF3 gg gg' -> RL X X' -> RL X2 X2' ->
  R8 s s' -> res_rel R8 (gsm3_iter A sem C ff gg X X2 s t) (gsm3_iter A' sem C ff' gg' X' X2' s' t).
Proof.
  intros sem C ff ff' gg gg' X X' X2 X2' s s' t Hff Hgg HX HX2 Hs. unfold RF3 in Hff, Hgg. untuple. unfold gsm3_iter.
  destruct (rotl_c sem 32 C (N.of_nat t)); cbn [bind]; [|exact I|reflexivity].
  cbv zeta. cbn [res_rel]. repeat split; cbn [fst snd]; par.
Qed.
Lemma gsm3_rel : forall sem H H' M M', RL H H' -> RL M M' -> res_rel RL (gsm3_block A sem H M) (gsm3_block A' sem H' M').
Proof.
  intros sem H H' M M' HH HM. unfold gsm3_block. cbv zeta.
  assert (HX : RL (gsm3_expand A 52 (map (gswap32 A) M)) (gsm3_expand A' 52 (map (gswap32 A') M'))).
  { apply gsm3_expand_rel. apply (rel_map R R); [assumption|par]. }
  assert (HX2 : RL (map (fun t => axor A (gget A t (gsm3_expand A 52 (map (gswap32 A) M)))
                     (gget A (t + 4) (gsm3_expand A 52 (map (gswap32 A) M)))) (seq 0 64))
                   (map (fun t => axor A' (gget A' t (gsm3_expand A' 52 (map (gswap32 A') M')))
                     (gget A' (t + 4) (gsm3_expand A' 52 (map (gswap32 A') M')))) (seq 0 64))).
  { apply rel_mapi. intros. par. }
  apply rel_bind with (Q := R8).
  - apply rel_fold_res.
    + intros. apply gsm3_iter_rel; auto; exact gsm3_xorf_rel.
    + repeat split; cbn [fst snd]; par.
  - intros. apply rel_bind with (Q := R8).
    + apply rel_fold_res; [|assumption].
      intros. apply gsm3_iter_rel; auto; exact gsm3_ff1_rel || exact gsm3_gg1_rel.
    + intros. untuple. cbn [res_rel]. par.
Qed.

(** *** Keccak *)
Lemma gkc_round_rel : forall S S' r, RL S S' -> RL (gkc_round A S r) (gkc_round A' S' r).
Proof. intros S S' r H. unfold gkc_round. cbv zeta. repeat (apply Forall2_cons; [par|]). apply Forall2_nil. Qed.
Lemma gkc_perm_rel : forall n S S', RL S S' -> RL (gkc_perm A n S) (gkc_perm A' n S').
Proof. intros n S S' H. unfold gkc_perm. apply (rel_fold RL); [|assumption]. intros. apply gkc_round_rel. assumption. Qed.
Lemma gkc_rel : forall n r64 S S' M M', RL S S' -> RL M M' -> res_rel RL (gkc_block A n r64 S M) (gkc_block A' n r64 S' M').
Proof.
  intros n r64 S S' M M' HS HM. unfold gkc_block. destruct (r64 <=? 25)%nat; [|reflexivity].
  cbn [res_rel]. apply gkc_perm_rel. par.
Qed.

(** *** Ascon *)
Lemma gascon_rel : forall H H' M M', RL H H' -> RL M M' -> RL (gascon_block A H M) (gascon_block A' H' M').
Proof.
  intros H H' M M' HH HM. unfold gascon_block, gascon_perm. apply (rel_fold RL); [|par].
  intros s s' i Hs. unfold gascon_lin, gascon_sub. cbv zeta.
  repeat (apply Forall2_cons; [par|]). apply Forall2_nil.
Qed.

(** *** Esch *)
Lemma gesch_alz_rel : forall c x x' y y', R x x' -> R y y' ->
  R2 R R (gesch_alz A (cst A c) x y) (gesch_alz A' (cst A' c) x' y').
Proof.
  intros. cbv beta delta [gesch_alz]. steps.
  split; assumption.
Qed.
Lemma gesch_ell_rel : forall x x', R x x' -> R (gesch_ell A x) (gesch_ell A' x').
Proof. unfold gesch_ell; intros; par. Qed.
Lemma gxor_at_rel : forall i v v' H H', R v v' -> RL H H' -> RL (gxor_at A i v H) (gxor_at A' i v' H').
Proof. unfold gxor_at; intros; par. Qed.
Hint Resolve gesch_ell_rel gxor_at_rel : par.
Lemma gesch_step_rel : forall rounds H H' s, RL H H' -> RL (gesch_step A rounds H s) (gesch_step A' rounds H' s).
Proof.
  intros rounds H H' s HH. cbv beta delta [gesch_step]. steps. step.
  { apply (rel_fold RL); [|assumption]. intros.
    destruct (gesch_alz_rel (nthN i ConstEsch.esch_C) (gget A (2 * i) s0) (gget A' (2 * i) s')
      (gget A (2 * i + 1) s0) (gget A' (2 * i + 1) s')) as [K K']; par. }
  steps.
  step. { destruct (6 <? rounds)%nat; par. }
  step. { destruct (6 <? rounds)%nat; par. }
  steps.
  step. { apply (rel_fold RL); [|assumption]. intros. cbv zeta. par. }
  steps.
  step. { apply (rel_fold RL); [|assumption]. intros. cbv zeta. par. }
  steps. par.
Qed.
Lemma gsparkle_rel : forall rounds ns H H', RL H H' -> RL (gsparkle A rounds ns H) (gsparkle A' rounds ns H').
Proof. intros. unfold gsparkle. apply (rel_fold RL); [|assumption]. intros. apply gesch_step_rel. assumption. Qed.
Lemma gesch_rel : forall hs last H H' M M', RL H H' -> RL M M' ->
  RL (gesch_block A hs last H M) (gesch_block A' hs last H' M').
Proof.
  intros hs last H H' M M' HH HM. cbv beta delta [gesch_block]. steps.
  step. { destruct (256 <? hs); par. }
  cbv zeta. apply gsparkle_rel. assumption.
Qed.

(** *** BLAKE *)
Lemma gbl_C_rel : forall w t, R (gbl_C A w t) (gbl_C A' w t).
Proof. unfold gbl_C; intros; par. Qed.
Lemma gbl_swap_rel : forall w x x', R x x' -> R (gbl_swap A w x) (gbl_swap A' w x').
Proof. intros. unfold gbl_swap. destruct (w =? 64); par. Qed.
Hint Resolve gbl_C_rel gbl_swap_rel : par.
Lemma gbl_G_rel : forall w r i ia ib ic id M M' v v', RL M M' -> RL v v' ->
  RL (gbl_G A w r i ia ib ic id M v) (gbl_G A' w r i ia ib ic id M' v').
Proof.
  intros. cbv beta delta [gbl_G]. destruct (bl_rots w) as [[[r1 r2] r3] r4].
  steps. par.
Qed.
Hint Resolve gbl_G_rel : par.
Lemma gbl_round_rel : forall w M M' v v' r, RL M M' -> RL v v' -> RL (gbl_round A w M v r) (gbl_round A' w M' v' r).
Proof. intros. cbv beta delta [gbl_round]. steps. par. Qed.
Lemma gbl_rel : forall w padding tb H H' M M', RL H H' -> RL M M' ->
  RL (gbl_block A w padding tb H M) (gbl_block A' w padding tb H' M').
Proof.
  intros w padding tb H H' M M' HH HM. cbv beta delta [gbl_block].
  step; [apply (rel_map R R); [assumption|par]|]. do 2 step. step; [par|].
  step; [apply (rel_fold RL); [intros; apply gbl_round_rel; assumption|assumption]|].
  apply rel_app; [|par]. apply rel_mapi. intros. par.
Qed.

(** *** BLAKE2 *)
Lemma gb2_G_rel : forall w r i ia ib ic id M M' v v', RL M M' -> RL v v' ->
  RL (gb2_G A w r i ia ib ic id M v) (gb2_G A' w r i ia ib ic id M' v').
Proof.
  intros. cbv beta delta [gb2_G]. destruct (b2_rots w) as [[[r1 r2] r3] r4].
  steps. par.
Qed.
Hint Resolve gb2_G_rel : par.
Lemma gb2_round_rel : forall w M M' v v' r, RL M M' -> RL v v' -> RL (gb2_round A w M v r) (gb2_round A' w M' v' r).
Proof. intros. cbv beta delta [gb2_round]. steps. par. Qed.
Lemma gb2_rel : forall w tb last lastn H H' M M', RL H H' -> RL M M' ->
  RL (gb2_block A w tb last lastn H M) (gb2_block A' w tb last lastn H' M').
Proof.
  intros w tb last lastn H H' M M' HH HM. cbv beta delta [gb2_block].
  do 5 step. step; [par|].
  step; [apply (rel_fold RL); [intros; apply gb2_round_rel; assumption|assumption]|].
  apply rel_mapi. intros. par.
Qed.

(** *** JH *)
Lemma gjh_bitswap_rel : forall H H' mask shift, RL H H' -> RL (gjh_bitswap A H mask shift) (gjh_bitswap A' H' mask shift).
Proof. intros. unfold gjh_bitswap, gjh_bitswap1. cbv zeta. repeat (apply Forall2_cons; [par|]). apply Forall2_nil. Qed.
Lemma gjh_sbitsli_rel : forall x0 x0' x1 x1' x2 x2' x3 x3' c c', R x0 x0' -> R x1 x1' -> R x2 x2' -> R x3 x3' -> R c c' ->
  R4 (gjh_sbitsli A x0 x1 x2 x3 c) (gjh_sbitsli A' x0' x1' x2' x3' c').
Proof. intros. cbv beta delta [gjh_sbitsli]. steps. repeat split; assumption. Qed.
Lemma gjh_lbitsli_rel : forall H H', RL H H' -> RL (gjh_lbitsli A H) (gjh_lbitsli A' H').
Proof. intros. unfold gjh_lbitsli. cbv zeta. repeat (apply Forall2_cons; [par|]). apply Forall2_nil. Qed.
Lemma gjh_slayer_rel : forall H H' r, RL H H' -> RL (gjh_slayer A H r) (gjh_slayer A' H' r).
Proof.
  intros. unfold gjh_slayer. cbv zeta.
  tuple R4; [apply gjh_sbitsli_rel; par|].
  tuple R4; [apply gjh_sbitsli_rel; par|].
  tuple R4; [apply gjh_sbitsli_rel; par|].
  tuple R4; [apply gjh_sbitsli_rel; par|].
  repeat (apply Forall2_cons; [assumption|]). apply Forall2_nil.
Qed.
Lemma gjh_round_rel : forall H H' r mask shift, RL H H' -> RL (gjh_round A H r mask shift) (gjh_round A' H' r mask shift).
Proof.
  intros. cbv beta delta [gjh_round]. step; [apply gjh_lbitsli_rel, gjh_slayer_rel; assumption|].
  destruct (shift =? 0); [assumption|]. apply gjh_bitswap_rel. assumption.
Qed.
Hint Resolve gjh_round_rel : par.
Lemma gjh_rounds7_rel : forall H H' r, RL H H' -> RL (gjh_rounds7 A H r) (gjh_rounds7 A' H' r).
Proof.
  intros. cbv beta delta [gjh_rounds7]. steps. unfold gjh_swap. cbv zeta. repeat (apply Forall2_cons; [par|]). apply Forall2_nil.
Qed.
Lemma gjh_rel : forall H H' M M', RL H H' -> RL M M' -> RL (gjh_step A H M) (gjh_step A' H' M').
Proof.
  intros. cbv beta delta [gjh_step]. steps.
  step; [apply (rel_fold RL); [intros; apply gjh_rounds7_rel; assumption|assumption]|]. par.
Qed.

(** *** Skein *)
Lemma gsk_mix_rel : forall nw r G G' j, RL G G' -> RL (gsk_mix A nw r G j) (gsk_mix A' nw r G' j).
Proof. intros. unfold gsk_mix. cbv zeta. par. Qed.
Lemma gsk_GT_rel : forall nw G G' r, RL G G' -> RL (gsk_GT A nw G r) (gsk_GT A' nw G' r).
Proof. intros. unfold gsk_GT. apply (rel_fold RL); [|assumption]. intros. apply gsk_mix_rel. assumption. Qed.
Lemma gsk_KSt_rel : forall nw r k k' t t' G G', RL k k' -> RL t t' -> RL G G' ->
  RL (gsk_KSt A nw r k t G) (gsk_KSt A' nw r k' t' G').
Proof.
  intros. unfold gsk_KSt. apply rel_mapi. intros i. cbv zeta. apply p_add; [par|].
  destruct (i =? nw - 3)%nat; [par|]. destruct (i =? nw - 2)%nat; [par|]. destruct (i =? nw - 1)%nat; par.
Qed.
Lemma gsk_G8_rel : forall nw k k' t t' G G' r, RL k k' -> RL t t' -> RL G G' ->
  RL (gsk_G8 A nw k t G r) (gsk_G8 A' nw k' t' G' r).
Proof.
  intros. cbv beta delta [gsk_G8].
  step; [apply (rel_fold RL); [intros; apply gsk_GT_rel; assumption|assumption]|].
  step; [apply gsk_KSt_rel; assumption|].
  step; [apply (rel_fold RL); [intros; apply gsk_GT_rel; assumption|assumption]|].
  apply gsk_KSt_rel; assumption.
Qed.
Lemma gsk_rel : forall nw reallen h h' M M', RL h h' -> RL M M' ->
  RL (gsk_block A nw reallen h M) (gsk_block A' nw reallen h' M').
Proof.
  intros. cbv beta delta [gsk_block]. steps.
  step; [apply (rel_fold RL); [intros; apply gsk_G8_rel; assumption|assumption]|]. par.
Qed.

(** *** LSH *)
Lemma glsh_expand1_rel : forall w a a' b b', RL a a' -> RL b b' -> RL (glsh_expand1 A w a b) (glsh_expand1 A' w a' b').
Proof. intros. unfold glsh_expand1. apply rel_mapi. intros. par. Qed.
Lemma glsh_rows_rel : forall w n a a' b b', RL a a' -> RL b b' ->
  Forall2 RL (glsh_expand_rows A w n a b) (glsh_expand_rows A' w n a' b').
Proof.
  induction n; intros; cbn [glsh_expand_rows]; [apply Forall2_nil|].
  apply Forall2_cons; [apply glsh_expand1_rel; assumption|].
  apply IHn; [apply glsh_expand1_rel; assumption|assumption].
Qed.
Lemma glsh_msgexpand_rel : forall w M M', RL M M' -> Forall2 RL (glsh_msgexpand A w M) (glsh_msgexpand A' w M').
Proof.
  intros. unfold glsh_msgexpand. cbv zeta. apply Forall2_cons; [par|]. apply Forall2_cons; [par|]. apply glsh_rows_rel; par.
Qed.
Lemma glsh_addmix_rel : forall sem w cv cv' me me' l sc al be ga, RL cv cv' -> RL me me' ->
  res_rel (R2 R R) (glsh_addmix A sem w cv me l sc al be ga) (glsh_addmix A' sem w cv' me' l sc al be ga).
Proof.
  intros. cbv beta delta [glsh_addmix]. steps. apply rel_bind with (Q := R); [apply grotl_c_rel; par|]. intros.
  cbv zeta. apply rel_bind with (Q := R); [apply grotl_c_rel; par|]. intros.
  apply rel_bind with (Q := R); [apply grotl_c_rel; par|]. intros. split; cbn [fst snd]; par.
Qed.
Lemma glsh_step1_rel : forall sem w me me' cv cv' i al be, Forall2 RL me me' -> RL cv cv' ->
  res_rel (R2 RL RL) (glsh_step1 A sem w me cv i al be) (glsh_step1 A' sem w me' cv' i al be).
Proof.
  intros sem w me me' cv cv' i al be Hme Hcv. unfold glsh_step1. apply rel_bind with (Q := Forall2 (R2 R R)).
  - apply rel_fold_res; [|apply Forall2_nil]. intros s s' l Hs. apply rel_bind with (Q := R2 R R).
    + apply glsh_addmix_rel; [assumption|]. apply rel_nth; [assumption|apply Forall2_nil].
    + intros p p' Hp. cbn [res_rel]. apply Forall2_app; [assumption|]. apply Forall2_cons; [assumption|apply Forall2_nil].
  - intros ps ps' Hps. cbv zeta.
    assert (Kt : RL (map fst ps ++ map snd ps) (map fst ps' ++ map snd ps')).
    { apply rel_app; apply (rel_map (R2 R R) R); try assumption; intros ? ? []; assumption. }
    split; cbn [fst snd]; [|assumption]. apply rel_mapi. intros. par.
Qed.
Lemma glsh_rel : forall sem w S S' M M', RL S S' -> RL M M' ->
  res_rel RL (glsh_block A sem w S M) (glsh_block A' sem w S' M').
Proof.
  intros sem w S S' M M' HS HM. unfold glsh_block. cbv zeta.
  pose proof (glsh_msgexpand_rel w M M' HM) as Hme.
  apply rel_bind with (Q := R2 RL RL).
  - apply rel_fold_res; [|split; cbn [fst snd]; par]. intros s s' k [Hs _].
    apply rel_bind with (Q := R2 RL RL); [apply glsh_step1_rel; assumption|].
    intros [cv t] [cv' t'] [Hc _]. apply glsh_step1_rel; assumption.
  - intros [cv t] [cv' t'] [Hc Ht]. cbn [fst snd] in Hc, Ht. cbn [res_rel].
    apply rel_app.
    + apply rel_mapi. intros. apply p_xor; [par|]. apply rel_get. apply rel_nth; [assumption|apply Forall2_nil].
    + apply rel_app; [assumption|]. induction Hme; cbn [concat]; par.
Qed.

(** *** Lookup tables *)
Section Look.
Context (look : list N -> W -> W) (look' : list N -> W' -> W').
Hypothesis Hlook : forall T x x', R x x' -> R (look T x) (look' T x').
Hint Resolve Hlook : par.

Lemma gbyte_at_rel : forall x x' n, R x x' -> R (gbyte_at A x n) (gbyte_at A' x' n).
Proof. unfold gbyte_at; intros; par. Qed.
Hint Resolve gbyte_at_rel : par.
Lemma gcol_rel : forall T x x', (forall j, R (x j) (x' j)) -> R (gcol A look T x) (gcol A' look' T x').
Proof. unfold gcol; intros; par. Qed.
Lemma gwp_G_rel : forall a l l', RL l l' -> R (gwp_G A look a l) (gwp_G A' look' a l').
Proof. intros. unfold gwp_G. apply gcol_rel. par. Qed.
Hint Resolve gwp_G_rel : par.
Lemma gwp_round_rel : forall s s' r, R2 RL RL s s' -> R2 RL RL (gwp_round A look s r) (gwp_round A' look' s' r).
Proof.
  intros [K S] [K' S'] r [HK HS]. cbn [fst snd] in HK, HS. cbv beta delta [gwp_round] iota. steps. split; assumption.
Qed.
Lemma gwp_rel : forall h h' M M', RL h h' -> RL M M' -> RL (gwp_block A look h M) (gwp_block A' look' h' M').
Proof.
  intros. cbv beta delta [gwp_block]. steps. tuple (R2 RL RL); [|par].
  apply rel_fold; [intros; apply gwp_round_rel; assumption|]. split; assumption.
Qed.
Lemma gttable_rel : forall T n off x x', RL x x' -> RL (gttable A look T n off x) (gttable A' look' T n off x').
Proof. intros. unfold gttable. apply rel_mapi. intros. apply gcol_rel. par. Qed.
Definition RRound (f : nat -> list W -> N -> list W) (f' : nat -> list W' -> N -> list W') : Prop :=
  forall n x x' i, RL x x' -> RL (f n x i) (f' n x' i).
Lemma ggr_roundP_rel : RRound (ggr_roundP A look) (ggr_roundP A' look').
Proof.
  intros n x x' i H. unfold ggr_roundP. apply gttable_rel. apply rel_map2; [par|assumption|]. apply rel_mapi. par.
Qed.
Lemma ggr_roundQ_rel : RRound (ggr_roundQ A look) (ggr_roundQ A' look').
Proof.
  intros n x x' i H. unfold ggr_roundQ. apply gttable_rel. apply rel_map2; [par|assumption|]. apply rel_mapi. par.
Qed.
Lemma gku_roundP_rel : RRound (gku_roundP A look) (gku_roundP A' look').
Proof.
  intros n x x' i H. unfold gku_roundP. apply gttable_rel. apply rel_map2; [par|assumption|]. apply rel_mapi. par.
Qed.
Lemma gku_roundQ_rel : RRound (gku_roundQ A look) (gku_roundQ A' look').
Proof.
  intros n x x' i H. unfold gku_roundQ. apply gttable_rel. apply rel_map2; [par|assumption|]. apply rel_mapi. par.
Qed.
Lemma gcl_transform_rel : forall P P' Q Q' n h h' m m', RRound P P' -> RRound Q Q' -> RL h h' -> RL m m' ->
  RL (gcl_transform A P Q n h m) (gcl_transform A' P' Q' n h' m').
Proof.
  intros P P' Q Q' n h h' m m' HP HQ Hh Hm. unfold gcl_transform. tuple (R2 RL RL); [|par].
  apply rel_fold; [|split; cbn [fst snd]; par]. intros [a b] [a' b'] i [Ha Hb]. cbn [fst snd] in Ha, Hb.
  split; cbn [fst snd]; auto.
Qed.
Lemma gcl_output_rel : forall P P' n h h', RRound P P' -> RL h h' -> RL (gcl_output A P n h) (gcl_output A' P' n h').
Proof.
  intros P P' n h h' HP Hh. cbv beta delta [gcl_output].
  step; [apply (rel_fold RL); [intros; cbv zeta; auto|par]|]. par.
Qed.
Lemma ggr_rel : forall hs h h' M M', RL h h' -> RL M M' -> RL (ggr_step A look hs h M) (ggr_step A' look' hs h' M').
Proof. intros. apply gcl_transform_rel; auto using ggr_roundP_rel, ggr_roundQ_rel. Qed.
Lemma gku_rel : forall hs h h' M M', RL h h' -> RL M M' -> RL (gku_step A look hs h M) (gku_step A' look' hs h' M').
Proof. intros. apply gcl_transform_rel; auto using gku_roundP_rel, gku_roundQ_rel. Qed.
Lemma gsb_lps_rel : forall b b', RL b b' -> RL (gsb_lps_block A look b) (gsb_lps_block A' look' b').
Proof. intros. unfold gsb_lps_block. apply rel_mapi. intros. par. Qed.
Lemma gsb_e_rel : forall K K' m m', RL K K' -> RL m m' -> RL (gsb_e A look K m) (gsb_e A' look' K' m').
Proof.
  intros K K' m m' HK Hm. unfold gsb_e.
  match goal with |- RL (fst ?x) (fst ?y) => assert (E : R2 RL RL x y); [|exact (proj1 E)] end.
  apply rel_fold; [|split; cbn [fst snd]; par]. intros [a b] [a' b'] i [Ha Hb]. cbn [fst snd] in Ha, Hb.
  assert (E : RL (gsb_lps_block A look (map2 (axor A) b (map (cst A) (nth i ConstStreebog.streebog_RC []))))
                 (gsb_lps_block A' look' (map2 (axor A') b' (map (cst A') (nth i ConstStreebog.streebog_RC []))))).
  { apply gsb_lps_rel. apply rel_map2; [par|assumption|]. apply rel_mapi. par. }
  split; cbn [fst snd]; [|assumption]. apply rel_map2; [par|apply gsb_lps_rel; assumption|assumption].
Qed.
Lemma gsb_rel : forall Nn h h' M M', RL h h' -> RL M M' -> RL (gsb_gN A look Nn h M) (gsb_gN A' look' Nn h' M').
Proof.
  intros Nn h h' M M' Hh HM. cbv beta delta [gsb_gN].
  step; [destruct Hh; [par|]; cbv iota; par|].
  step; [apply gsb_e_rel; [apply gsb_lps_rel|]; assumption|]. par.
Qed.
Lemma gec_T_rel : forall j x x' n, R x x' -> R (gec_T A look j x n) (gec_T A' look' j x' n).
Proof. unfold gec_T; intros; par. Qed.
Hint Resolve gec_T_rel : par.
Lemma gec_rel : forall salt salt' c a a' b b', RL salt salt' -> R a a' -> R b b' ->
  R2 R R (gec_sub1 A look salt c a b) (gec_sub1 A' look' salt' c a' b').
Proof. intros. cbv beta delta [gec_sub1]. steps. split; cbn [fst snd]; par. Qed.
Definition RW (p : list W * N) (q : list W' * N) : Prop := RL (fst p) (fst q) /\ snd p = snd q.
Lemma gec_sub_words_rel : forall salt salt' s s', RL salt salt' -> RW s s' ->
  RW (gec_sub_words A look salt s) (gec_sub_words A' look' salt' s').
Proof.
  intros salt salt' s s' Hs H. unfold gec_sub_words. apply (rel_fold RW); [|assumption].
  intros [w c] [w' c'] r [Hw Hc]. cbn [fst snd] in Hw, Hc. subst c'. cbv zeta.
  pose proof (gec_rel salt salt' c (gget A (r * 2) w) (gget A' (r * 2) w') (gget A (r * 2 + 1) w) (gget A' (r * 2 + 1) w')
    Hs ltac:(par) ltac:(par)) as K. revert K.
  generalize (gec_sub1 A look salt c (gget A (r * 2) w) (gget A (r * 2 + 1) w)).
  generalize (gec_sub1 A' look' salt' c (gget A' (r * 2) w') (gget A' (r * 2 + 1) w')).
  intros [x' y'] [x y] [Hx Hy]. cbn [fst snd] in Hx, Hy. split; cbn [fst snd]; par.
Qed.
Lemma gec_shift_rows_rel : forall w w', RL w w' -> RL (gec_shift_rows A w) (gec_shift_rows A' w').
Proof.
  intros. unfold gec_shift_rows. apply (rel_fold RL); [|assumption]. intros s s' [i j] Hs. unfold gec_swap. par.
Qed.
Lemma gec_dbl_rel : forall x x', R x x' -> R (gec_dbl A x) (gec_dbl A' x').
Proof. unfold gec_dbl; intros; par. Qed.
Hint Resolve gec_dbl_rel : par.
Lemma gec_mix_columns_rel : forall w w', RL w w' -> RL (gec_mix_columns A w) (gec_mix_columns A' w').
Proof.
  intros. unfold gec_mix_columns. apply (rel_fold RL); [|assumption]. intros. apply (rel_fold RL); [|assumption].
  intros. cbv beta delta [gec_mix_column]. steps. par.
Qed.
Lemma gec_block_rel : forall hs c H H' M M', RL H H' -> RL M M' ->
  RL (gec_block A look hs c H M) (gec_block A' look' hs c H' M').
Proof.
  intros hs c H H' M M' HH HM. cbv beta delta [gec_block]. steps.
  step.
  { match goal with |- RL (fst ?x) (fst ?y) => assert (E : RW x y); [|exact (proj1 E)] end.
    generalize (if 256 <? hs then 10%nat else 8%nat). intros n. induction n; [split; [assumption|reflexivity]|].
    cbn [Nat.iter nat_rect]. cbv beta delta [gec_round]. cbv beta.
    match goal with |- RW (let '(_, _) := ?x in _) (let '(_, _) := ?y in _) => assert (E : RW x y) end.
    { apply gec_sub_words_rel; [par|exact IHn]. }
    revert E. match goal with |- RW ?x ?y -> _ => generalize x y end. intros [w d] [w' d'] [Hw Hd].
    cbn [fst snd] in Hw, Hd. split; cbn [fst snd]; [|exact Hd].
    apply gec_mix_columns_rel, gec_shift_rows_rel. assumption. }
  unfold gec_final256, gec_final512. destruct (hs <=? 256); apply rel_mapi; intros; par.
Qed.
End Look.
End Rel.
