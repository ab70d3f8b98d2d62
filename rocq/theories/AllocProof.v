(** * Proofs about failing allocations (C68). *)
From Verif Require Import Base Hasher MdState Shake Kmac Blake2 Blake2p Alloc.

(** The failures of [F] that occur in the history leave the object alone or are none. *)
Definition harmless {P : provider} (F : fails P) (b : base_op (p_param P)) (k : nat) : Prop :=
  match b, k with
  | SetParam _ _, O => exists f, F b k = Some f /\ forall s, f s = Ok s
  | _, _ => F b k = None
  end.
Definition hharmless {P : hash_provider} (F : fails P) (a : aop (hash_op (p_param P))) : Prop :=
  match a with NoMem (HBase b) k => harmless F b k | _ => True end.
Definition xharmless {P : xof_provider} (F : fails P) (a : aop (xof_op (p_param P))) : Prop :=
  match a with NoMem (XBase b) k => harmless F b k | _ => True end.

Lemma bind_assoc {A B C} (x : res A) (f : A -> res B) (g : B -> res C) :
  (y <- (a <- x ;; f a) ;; g y) = (a <- x ;; y <- f a ;; g y).
Proof. destruct x; reflexivity. Qed.

Lemma ahash_ok (P : hash_provider) (F : fails P) : forall l s,
  Forall (hharmless F) l ->
  ahash_run P F s l =
  (' (s, xs) <- hash_run P s (made hash_effect l) ;; Ok (s, weave hash_effect hash_cut l xs)).
Proof.
  induction l as [|a r IH]; intros s H; [reflexivity|].
  inversion H as [|? ? Ha Hr]; subst.
  destruct a as [o|o k|o j]; cbn [ahash_run ahash_step made weave].
  - cbn [hash_run]. destruct (hash_step P s o) as [[s1 x]| |]; cbn; try reflexivity.
    rewrite (IH _ Hr). destruct (hash_run P s1 _) as [[s2 xs]| |]; reflexivity.
  - assert (NN : forall s, (' (s, x) <- hash_step P s o ;; ' (s, xs) <- ahash_run P F s r ;; Ok (s, x :: xs)) =
              (' (s, xs) <- hash_run P s (o :: made hash_effect r) ;;
               Ok (s, hd ODone xs :: weave hash_effect hash_cut r (tl xs)))).
    { intros s0. cbn [hash_run]. destruct (hash_step P s0 o) as [[s1 x]| |]; cbn; try reflexivity.
      rewrite (IH _ Hr). destruct (hash_run P s1 _) as [[s2 xs]| |]; reflexivity. }
    assert (T : (' (s, x) <- (s <- Ok s ;; Ok (s, OThrow)) ;; ' (s, xs) <- ahash_run P F s r ;; Ok (s, x :: xs)) =
              (' (s, xs) <- hash_run P s (made hash_effect r) ;;
               Ok (s, OThrow :: weave hash_effect hash_cut r xs))).
    { cbn. rewrite (IH _ Hr). destruct (hash_run P s _) as [[s2 xs]| |]; reflexivity. }
    destruct o as [b| | |]; cbn [fate hash_effect]; try exact T.
    cbn [hharmless] in Ha.
    destruct b as [f d|b|p v]; cbn [harmless] in Ha; [rewrite Ha; exact (NN s)..|].
    destruct k as [|k]; [|rewrite Ha; exact (NN s)].
    destruct Ha as (f & E & Hf). rewrite E, Hf. exact T.
  - cbn [hash_run]. destruct (hash_step P s o) as [[s1 x]| |]; cbn; try reflexivity.
    rewrite (IH _ Hr). destruct (hash_run P s1 _) as [[s2 xs]| |]; reflexivity.
Qed.

Lemma axof_ok (P : xof_provider) (F : fails P) : forall l s,
  Forall (xharmless F) l ->
  axof_run P F s l =
  (' (s, xs) <- xof_run P s (made xof_effect l) ;; Ok (s, weave xof_effect xof_cut l xs)).
Proof.
  induction l as [|a r IH]; intros s H; [reflexivity|].
  inversion H as [|? ? Ha Hr]; subst.
  destruct a as [o|o k|o j]; cbn [axof_run axof_step made weave].
  - cbn [xof_run]. destruct (xof_step P s o) as [[s1 x]| |]; cbn; try reflexivity.
    rewrite (IH _ Hr). destruct (xof_run P s1 _) as [[s2 xs]| |]; reflexivity.
  - assert (NN : forall s, (' (s, x) <- xof_step P s o ;; ' (s, xs) <- axof_run P F s r ;; Ok (s, x :: xs)) =
              (' (s, xs) <- xof_run P s (o :: made xof_effect r) ;;
               Ok (s, hd ODone xs :: weave xof_effect xof_cut r (tl xs)))).
    { intros s0. cbn [xof_run]. destruct (xof_step P s0 o) as [[s1 x]| |]; cbn; try reflexivity.
      rewrite (IH _ Hr). destruct (xof_run P s1 _) as [[s2 xs]| |]; reflexivity. }
    assert (T : (' (s, x) <- (s <- Ok s ;; Ok (s, OThrow)) ;; ' (s, xs) <- axof_run P F s r ;; Ok (s, x :: xs)) =
              (' (s, xs) <- xof_run P s (made xof_effect r) ;;
               Ok (s, OThrow :: weave xof_effect xof_cut r xs))).
    { cbn. rewrite (IH _ Hr). destruct (xof_run P s _) as [[s2 xs]| |]; reflexivity. }
    assert (L : forall n (g : list N -> out),
              (' (s, x) <- (s <- (' (s, _) <- squeeze_iter P s n ;; Ok s) ;; Ok (s, OThrow)) ;;
               ' (s, xs) <- axof_run P F s r ;; Ok (s, x :: xs)) =
              (' (s, xs) <- (' (s, x) <- (' (s, b) <- squeeze_iter P s n ;; Ok (s, g b)) ;;
                             ' (s, xs) <- xof_run P s (made xof_effect r) ;; Ok (s, x :: xs)) ;;
               Ok (s, OThrow :: weave xof_effect xof_cut r (tl xs)))).
    { intros n g. destruct (squeeze_iter P s n) as [[s1 x]| |]; cbn; try reflexivity.
      rewrite (IH _ Hr). destruct (xof_run P s1 _) as [[s2 xs]| |]; reflexivity. }
    destruct o as [b|n|n|n]; cbn [xfate xof_effect].
    + cbn [xharmless] in Ha.
      destruct b as [f d|b|p v]; cbn [harmless] in Ha; [rewrite Ha; exact (NN s)..|].
      destruct k as [|k]; [|rewrite Ha; exact (NN s)].
      destruct Ha as (f & E & Hf). rewrite E, Hf. exact T.
    + exact (NN s).
    + destruct k; [exact T|]. exact (L n OBytes).
    + destruct k; [exact T|]. exact (L n (fun r => OBytes (hex_string r))).
  - cbn [xof_run]. destruct (xof_step P s o) as [[s1 x]| |]; cbn; try reflexivity.
    rewrite (IH _ Hr). destruct (xof_run P s1 _) as [[s2 xs]| |]; reflexivity.
Qed.

Lemma keep_harmless (P : provider) b k : harmless (keep P) b k.
Proof. destruct b; cbn; try reflexivity. destruct k; [eexists; split; reflexivity|reflexivity]. Qed.

Lemma ahash_keep (P : hash_provider) s l :
  ahash_run P (keep P) s l =
  (' (s, xs) <- hash_run P s (made hash_effect l) ;; Ok (s, weave hash_effect hash_cut l xs)).
Proof.
  apply ahash_ok. apply Forall_forall. intros [o|[b| | |] k|o j] _; cbn; try exact I. apply keep_harmless.
Qed.
Lemma axof_keep (P : xof_provider) s l :
  axof_run P (keep P) s l =
  (' (s, xs) <- xof_run P s (made xof_effect l) ;; Ok (s, weave xof_effect xof_cut l xs)).
Proof.
  apply axof_ok. apply Forall_forall. intros [o|[b| | |] k|o j] _; cbn; try exact I. apply keep_harmless.
Qed.

(** No allocation fails in a call reset(true). *)
Definition hreset_fine {param} (a : aop (hash_op param)) : bool :=
  match a with NoMem (HBase (Reset true)) _ => false | _ => true end.
Definition xreset_fine {param} (a : aop (xof_op param)) : bool :=
  match a with NoMem (XBase (Reset true)) _ => false | _ => true end.
(** No allocation but the first one fails in a call set_key(). *)
Definition key_fine (a : aop (hash_op b2_param)) : bool :=
  match a with NoMem (HBase (SetParam B2Key _)) (S _) => false | _ => true end.

Lemma kmac_harmless B b k : match b with Reset true => False | _ => True end -> harmless (kmac_fail B) b k.
Proof.
  destruct b as [f d|[]|p v]; cbn; intros H; try reflexivity; try contradiction.
  destruct k; [eexists; split; reflexivity|reflexivity].
Qed.
Lemma akmac_ok B s l :
  forallb hreset_fine l = true ->
  ahash_run (kmac B) (kmac_fail B) s l =
  (' (s, xs) <- hash_run (kmac B) s (made hash_effect l) ;; Ok (s, weave hash_effect hash_cut l xs)).
Proof.
  intros H. apply ahash_ok. apply Forall_forall. intros a Ha. rewrite forallb_forall in H. specialize (H _ Ha).
  destruct a as [o|[b| | |] k|o j]; cbn; try exact I. apply kmac_harmless.
  destruct b as [? ?|[]|? ?]; try exact I. discriminate.
Qed.
Lemma akmacxof_ok B s l :
  forallb xreset_fine l = true ->
  axof_run (kmacxof B) (kmac_fail B) s l =
  (' (s, xs) <- xof_run (kmacxof B) s (made xof_effect l) ;; Ok (s, weave xof_effect xof_cut l xs)).
Proof.
  intros H. apply axof_ok. apply Forall_forall. intros a Ha. rewrite forallb_forall in H. specialize (H _ Ha).
  destruct a as [o|[b| | |] k|o j]; cbn; try exact I. apply kmac_harmless.
  destruct b as [? ?|[]|? ?]; try exact I. discriminate.
Qed.

Lemma ab2p_ok w tf s l :
  forallb key_fine l = true ->
  ahash_run (blake2p_with w tf) (b2p_fail w tf) s l =
  (' (s, xs) <- hash_run (blake2p_with w tf) s (made hash_effect l) ;; Ok (s, weave hash_effect hash_cut l xs)).
Proof.
  intros H. apply ahash_ok. apply Forall_forall. intros a Ha. rewrite forallb_forall in H. specialize (H _ Ha).
  destruct a as [o|[b| | |] k|o j]; cbn; try exact I.
  destruct b as [? ?|[]|p v]; cbn; try reflexivity.
  destruct k; [destruct p; eexists; split; reflexivity|]. destruct p; try reflexivity. discriminate.
Qed.

(** ** The bad cases can be repaired. *)
Lemma zero_memory_idem l : zero_memory (zero_memory l) = zero_memory l.
Proof. unfold zero_memory, zeros. rewrite repeat_length. reflexivity. Qed.
Lemma kmac_repair B k f s s1 :
  kmac_fail B (Reset true) k = Some f -> f s = Ok s1 ->
  reset (kmac_base B) true s1 = reset (kmac_base B) true s /\
  exists s2, kmac_clear B s = Ok s2 /\
    forall v, set_param (kmac_base B) KmKey v s1 = set_param (kmac_base B) KmKey v s2.
Proof.
  destruct k; [|discriminate]. intros E H. injection E as <-. injection H as <-. split.
  - unfold reset. cbn [p_clear kmac_base]. unfold kmac_clear, shake_clear, shake_wipe.
    cbn [kmsh kmhs kmsq hk hN hS hsq hsfx sh sm spos stotal]. rewrite !zero_memory_idem. reflexivity.
  - eexists; split; reflexivity.
Qed.

Lemma b2_set_key w v x : (length v <= b2_hb w)%nat ->
  b2_set w B2Key v x = Done (mkb2 (b2c x) (b2s x) (b2p x) v (b2hs x) (b2xo x) (b2sq x) (b2fo x) (b2nd x) (b2no x)).
Proof. intros H. unfold b2_set. apply Nat.ltb_ge in H. rewrite H. reflexivity. Qed.
Definition with_key (v : list N) (x : b2_st) : b2_st :=
  mkb2 (b2c x) (b2s x) (b2p x) v (b2hs x) (b2xo x) (b2sq x) (b2fo x) (b2nd x) (b2no x).
Lemma b2_set_all_key w v l : (length v <= b2_hb w)%nat -> b2_set_all w B2Key v l = Done (map (with_key v) l).
Proof.
  intros H. induction l as [|x r IH]; [reflexivity|]. cbn [b2_set_all map]. rewrite (b2_set_key w v x H), IH. reflexivity.
Qed.
Lemma b2p_upto w v j s : (length v <= b2_hb w)%nat ->
  b2p_key_upto w v j s =
  Ok (mkb2pst (with_key v (bpmain s)) (map (with_key v) (firstn j (bpleaf s)) ++ skipn j (bpleaf s))
        (bpm s) (bppos s) (bptotal s) (bphs s)).
Proof. intros H. unfold b2p_key_upto. rewrite (b2_set_key w v _ H), (b2_set_all_key w v _ H). reflexivity. Qed.

Lemma each_clear l : forall i, each (fun _ => b2_clear) i l =
  Ok (map (fun x => let x := b2_wipe x in mkb2 (b2c x) (b2s x) (b2p x) [] (b2hs x) (b2xo x) (b2sq x) 0 0 0) l).
Proof. induction l as [|x r IH]; intros i; [reflexivity|]. cbn [each map]. cbn [b2_clear]. rewrite IH. reflexivity. Qed.

Lemma b2p_repair w tf v k f s s1 :
  b2p_fail w tf (SetParam B2Key v) k = Some f -> f s = Ok s1 ->
  (forall v', (length v' <= b2_hb w)%nat ->
    set_param (blake2p_with w tf) B2Key v' s1 = set_param (blake2p_with w tf) B2Key v' s) /\
  reset (blake2p_with w tf) true s1 = reset (blake2p_with w tf) true s.
Proof.
  destruct k as [|j]; cbn [b2p_fail].
  { intros E H. injection E as <-. injection H as <-. split; [intros; reflexivity|reflexivity]. }
  destruct (j <? bp_P w)%nat; cbn [andb]; [|discriminate].
  destruct (length v <=? b2_hb w)%nat eqn:L; [|discriminate]. apply Nat.leb_le in L.
  intros E H. injection E as <-. rewrite (b2p_upto w v j s L) in H. injection H as <-. split.
  - intros v' L'. unfold set_param. cbn [p_set hp blake2p_with]. unfold b2p_set. cbn [bpmain bpleaf].
    rewrite !(b2_set_key w v' _ L'), !(b2_set_all_key w v' _ L'). cbn [bpm bppos bptotal bphs].
    rewrite map_app, map_map.
    change (map (fun x => with_key v' (with_key v x))) with (map (with_key v')).
    rewrite <- map_app, firstn_skipn. reflexivity.
  - unfold reset. cbn [p_clear hp blake2p_with]. unfold b2p_clear. cbn [bpmain bpleaf bpm bppos bptotal bphs].
    rewrite !each_clear, map_app, map_map.
    match goal with |- context [map ?c (skipn j (bpleaf s))] =>
      replace (map c (bpleaf s)) with (map c (firstn j (bpleaf s)) ++ map c (skipn j (bpleaf s)))
        by (rewrite <- map_app, firstn_skipn; reflexivity) end.
    reflexivity.
Qed.
