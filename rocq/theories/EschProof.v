(** * Esch conformance. *)
From Verif Require Import Base Absorb Lemmas WordLemmas TableLemmas AbsorbProof Hasher HasherSpec HasherProof
  MdState MdProof BufProof SpecCommon Squeeze SqueezeProof ShakeProof AsconProof Validate ConstEsch Esch EschSpec.
Local Open Scope nat_scope.

(** ** Alzette and the linear maps *)

Lemma esch_alz_eq c x y : esch_alz c x y = alzette c (x, y).
Proof.
  unfold esch_alz, alzette. cbn [fold_left]. unfold alz_round. cbn [fst snd]. unfold rot0.
  cbn [N.eqb Pos.eqb]. rewrite !addw_plus, !rotr_ROTR. reflexivity.
Qed.

Definition br_ok (p : N * N) : Prop := (fst p < 2 ^ 32)%N /\ (snd p < 2 ^ 32)%N.

Lemma esch_alz_ok c p : (c < 2 ^ 32)%N -> br_ok p -> br_ok (alzette c p).
Proof.
  intros Hc [Hx Hy]. destruct p as [x y]. rewrite <- esch_alz_eq. unfold esch_alz. cbn [fst snd] in *.
  split; cbn [fst snd]; repeat (assumption || apply addw_lt || apply lxor_lt || (apply rotr_lt; [reflexivity|reflexivity|])).
Qed.

Lemma esch_ell_eq x : (x < 2 ^ 32)%N -> esch_ell x = ell x.
Proof.
  intros Hx. unfold esch_ell, ell. rewrite <- rotl_ROTL, <- trunc_mod, rotr_rotl by reflexivity.
  change (32 - 16)%N with 16%N.
  apply N.bits_inj. intros i. rewrite N.lxor_spec, trunc_spec.
  rewrite !rotl_spec by (first [reflexivity | assumption | apply lxor_lt; [assumption|apply trunc_lt]]).
  rewrite N.lxor_spec, shlw_spec.
  destruct (N.ltb_spec i 32), (N.leb_spec 16 i), (N.ltb_spec i 16); try lia; cbn [andb];
    rewrite ?andb_true_r, ?andb_false_r, ?xorb_false_r.
  - destruct (N.leb_spec 16 (i - 16)); [lia|]. rewrite andb_false_r. cbn [andb]. apply xorb_false_r.
  - destruct (N.leb_spec 16 (i + 32 - 16)); [|lia]. destruct (N.ltb_spec (i + 32 - 16) 32); [|lia].
    rewrite !andb_true_r. do 2 f_equal. lia.
  - reflexivity.
Qed.
Lemma ell_lt x : (x < 2 ^ 32)%N -> (ell x < 2 ^ 32)%N.
Proof.
  intros. rewrite <- esch_ell_eq by auto. unfold esch_ell. apply rotr_lt; try reflexivity.
  apply lxor_lt; auto. apply trunc_lt.
Qed.

(** ** The state *)
Definition flat (B : list (N * N)) : list N := flat_map (fun p => [fst p; snd p]) B.
Definition st_ok (h : nat) (B : list (N * N)) : Prop := length B = 2 * h /\ Forall br_ok B.

Lemma sparkle_c_lt i : (nth i sparkle_c 0 < 2 ^ 32)%N.
Proof.
  assert (H : Forall (fun x => (x < 2 ^ 32)%N) sparkle_c) by (repeat constructor).
  destruct (Nat.lt_ge_cases i (length sparkle_c)).
  - apply (proj1 (Forall_forall _ _) H). apply nth_In. auto.
  - rewrite nth_overflow by auto. reflexivity.
Qed.

Lemma M_h_ok B : Forall br_ok B -> Forall br_ok (M_h B).
Proof.
  intros H. unfold M_h.
  assert (X : forall f : N * N -> N, (forall p, br_ok p -> (f p < 2 ^ 32)%N) -> (xor_all (map f B) < 2 ^ 32)%N).
  { intros f Hf. unfold xor_all.
    apply (fold_left_inv (fun a => (a < 2 ^ 32)%N)); [reflexivity|].
    intros a b Hb Ha. apply lxor_lt; auto. apply in_map_iff in Hb. destruct Hb as (p & <- & Hp).
    apply Hf. rewrite Forall_forall in H. auto. }
  apply Forall_map. eapply Forall_impl; [|exact H]. intros p [H1 H2].
  split; cbn [fst snd]; apply lxor_lt; auto; apply ell_lt, X; intros q [? ?]; auto.
Qed.
Lemma xor_br_ok p q : br_ok p -> br_ok q -> br_ok (xor_br p q).
Proof. intros [] []. split; apply lxor_lt; auto. Qed.
Lemma map2_Forall {A B C} (Q1 : A -> Prop) (Q2 : B -> Prop) (Q : C -> Prop) f l : forall l',
  (forall a b, Q1 a -> Q2 b -> Q (f a b)) -> Forall Q1 l -> Forall Q2 l' -> Forall Q (map2 f l l').
Proof.
  induction l; intros l' H H1 H2; cbn [map2]; [constructor|]. destruct l'; [constructor|].
  inversion H1; inversion H2; subst. constructor; auto.
Qed.
Lemma M_h_length B : length (M_h B) = length B.
Proof. unfold M_h. apply map_length. Qed.
Lemma rot1_length {A} (l : list A) : length (rot1 l) = length l.
Proof. destruct l; cbn; auto. rewrite app_length. cbn. lia. Qed.
Lemma rot1_Forall {A} (Q : A -> Prop) l : Forall Q l -> Forall Q (rot1 l).
Proof. intros []; cbn; [constructor|]. apply Forall_app. auto. Qed.

Lemma lin_ok h B : st_ok h B -> st_ok h (lin B).
Proof.
  intros [L W]. unfold lin. rewrite L. replace (2 * h / 2) with h.
  2:{ rewrite Nat.mul_comm, Nat.div_mul; lia. }
  split.
  - rewrite app_length, rot1_length, map2_length, M_h_length, skipn_length, firstn_length. lia.
  - apply Forall_app. split; [|apply Forall_firstn; auto].
    apply rot1_Forall, (map2_Forall br_ok br_ok); [apply xor_br_ok|apply Forall_skipn; auto|].
    apply M_h_ok, Forall_firstn; auto.
Qed.

Lemma sparkle_step_ok h B s : h <= 4 -> st_ok h B -> st_ok h (sparkle_step B s).
Proof.
  intros Hh [L W]. unfold sparkle_step. apply lin_ok.
  match goal with |- st_ok _ (map2 _ _ ?x) => assert (H : length x = 2 * h /\ Forall br_ok x) end.
  { destruct B as [|[x0 y0] [|[x1 y1] r]]; [auto|auto|].
    inversion W as [|? ? [A1 A2] W']; subst. inversion W' as [|? ? [B1 B2] W'']; subst. cbn [fst snd] in *.
    split; [exact L|]. constructor; [|constructor; [|auto]]; (split; [auto|]); cbn [snd]; apply lxor_lt; auto.
    - apply sparkle_c_lt.
    - apply N.mod_lt. discriminate. }
  destruct H as [L' W']. split.
  - rewrite map2_length, L'. cbn [length sparkle_c]. lia.
  - apply (map2_Forall (fun c => (c < 2 ^ 32)%N) br_ok); [intros; apply esch_alz_ok; auto| |auto].
    apply Forall_forall. intros c Hc. apply (In_nth _ _ 0%N) in Hc. destruct Hc as (i & _ & <-). apply sparkle_c_lt.
Qed.

Lemma flat_app a b : flat (a ++ b) = flat a ++ flat b.
Proof. unfold flat. apply flat_map_app. Qed.

(** The two halves of a step: constants and Alzette, linear layer. *)
Definition esch_arx (rounds : nat) (H : list N) (c t : N) : list N :=
  let H := xor_at 1 c H in
  let H := xor_at 3 t H in
  fold_left (fun H j =>
    let xy := esch_alz (nthN j esch_C) (nthN (2 * j) H) (nthN (2 * j + 1) H) in
    upd (2 * j + 1) (snd xy) (upd (2 * j) (fst xy) H)) (seq 0 rounds) H.
Definition esch_linear (rounds : nat) (H : list N) : list N :=
  let x := N.lxor (N.lxor (nthN 0 H) (nthN 2 H)) (nthN 4 H) in
  let y := N.lxor (N.lxor (nthN 1 H) (nthN 3 H)) (nthN 5 H) in
  let x := if (6 <? rounds)%nat then N.lxor x (nthN 6 H) else x in
  let y := if (6 <? rounds)%nat then N.lxor y (nthN 7 H) else y in
  let x := esch_ell x in
  let y := esch_ell y in
  let H := fold_left (fun H k =>
    let i := (2 * k)%nat in
    let j := (rounds + 2 * k)%nat in
    let H := xor_at j (N.lxor (nthN i H) y) H in
    xor_at (j + 1) (N.lxor (nthN (i + 1) H) x) H) (seq 0 (rounds / 2)) H in
  let x := nthN rounds H in
  let y := nthN (rounds + 1) H in
  let H := fold_left (fun H i =>
    let H := upd (i + rounds) (nthN i H) H in
    upd i (nthN (i + rounds + 2) H) H) (seq 0 (rounds - 2)) H in
  let H := upd (rounds * 2 - 2) (nthN (rounds - 2) H) H in
  let H := upd (rounds * 2 - 1) (nthN (rounds - 1) H) H in
  let H := upd (rounds - 2) x H in
  upd (rounds - 1) y H.
Lemma esch_step_split rounds H s :
  esch_step rounds H s = esch_linear rounds (esch_arx rounds H (nthN (s mod 8) esch_C) (N.of_nat s)).
Proof. reflexivity. Qed.

Ltac forall_inv := repeat match goal with H : Forall br_ok (_ :: _) |- _ =>
    inversion H as [|? ? [?Hx ?Hy] ?H']; clear H; subst; cbn [fst snd] in * end.
Ltac crunch := cbv [esch_arx esch_linear flat flat_map app fst snd fold_left seq xor_at upd nthN nth esch_C
  Nat.mul Nat.add Nat.div Nat.divmod Nat.sub Nat.ltb Nat.leb].

Ltac gen_ell := repeat match goal with |- context [esch_ell ?a] => generalize (esch_ell a); intros ? end.
Ltac list_eq := unfold xor_br; cbn [map2 map fst snd rot1 app];
  repeat (apply (f_equal2 (@cons N)); [reflexivity|]); reflexivity.

Lemma esch_linear_3 B J : st_ok 3 B -> esch_linear 6 (flat B ++ J) = flat (lin B) ++ J.
Proof.
  intros [L W]. do 7 (destruct B as [|[? ?] B]; try discriminate L). clear L.
  forall_inv. unfold lin. cbn [length Nat.div Nat.divmod fst firstn skipn map2 rot1 app].
  unfold M_h. cbn [map fst snd]. unfold xor_all. cbn [fold_left].
  rewrite <- !esch_ell_eq by (repeat (assumption || apply lxor_lt); reflexivity).
  crunch. rewrite !N.lxor_0_l.
  gen_ell. list_eq.
Qed.

Lemma esch_linear_4 B J : st_ok 4 B -> esch_linear 8 (flat B ++ J) = flat (lin B) ++ J.
Proof.
  intros [L W]. do 9 (destruct B as [|[? ?] B]; try discriminate L). clear L.
  forall_inv. unfold lin. cbn [length Nat.div Nat.divmod fst firstn skipn map2 rot1 app].
  unfold M_h. cbn [map fst snd]. unfold xor_all. cbn [fold_left].
  rewrite <- !esch_ell_eq by (repeat (assumption || apply lxor_lt); reflexivity).
  crunch. rewrite !N.lxor_0_l.
  gen_ell. list_eq.
Qed.

Lemma esch_arx_eq h B J c t : h = 3 \/ h = 4 -> length B = 2 * h ->
  esch_arx (2 * h) (flat B ++ J) c t =
  flat (map2 alzette sparkle_c
    (match B with
    | (x0, y0) :: (x1, y1) :: r => (x0, N.lxor y0 c) :: (x1, N.lxor y1 t) :: r
    | _ => B
    end)) ++ J.
Proof.
  intros [-> | ->] L.
  - do 7 (destruct B as [|[? ?] B]; try discriminate L). clear L.
    cbv [sparkle_c map2]. rewrite <- !esch_alz_eq. crunch. reflexivity.
  - do 9 (destruct B as [|[? ?] B]; try discriminate L). clear L.
    cbv [sparkle_c map2]. rewrite <- !esch_alz_eq. crunch. reflexivity.
Qed.

Lemma alz_list_ok h B c t : h <= 4 -> st_ok h B -> (c < 2 ^ 32)%N -> (t < 2 ^ 32)%N ->
  st_ok h (map2 alzette sparkle_c
    (match B with
    | (x0, y0) :: (x1, y1) :: r => (x0, N.lxor y0 c) :: (x1, N.lxor y1 t) :: r
    | _ => B
    end)).
Proof.
  intros Hh [L W] Hc Ht.
  match goal with |- st_ok _ (map2 _ _ ?x) => assert (H : length x = 2 * h /\ Forall br_ok x) end.
  { destruct B as [|[x0 y0] [|[x1 y1] r]]; [auto|auto|].
    inversion W as [|? ? [A1 A2] W']; subst. inversion W' as [|? ? [B1 B2] W'']; subst. cbn [fst snd] in *.
    split; [exact L|]. constructor; [|constructor; [|auto]]; (split; [auto|]); cbn [snd]; apply lxor_lt; auto. }
  destruct H as [L' W']. split.
  - rewrite map2_length, L'. cbn [length sparkle_c]. lia.
  - apply (map2_Forall (fun c => (c < 2 ^ 32)%N) br_ok); [intros; apply esch_alz_ok; auto| |auto].
    apply Forall_forall. intros x Hx. apply (In_nth _ _ 0%N) in Hx. destruct Hx as (i & _ & <-). apply sparkle_c_lt.
Qed.

Lemma esch_step_eq h B J s : h = 3 \/ h = 4 -> s < 12 -> st_ok h B ->
  esch_step (2 * h) (flat B ++ J) s = flat (sparkle_step B s) ++ J.
Proof.
  intros Hh Hs Ho. rewrite esch_step_split. unfold sparkle_step.
  change (nthN (s mod 8) esch_C) with (nth (s mod 8) sparkle_c 0%N).
  assert (Hsn : (N.of_nat s < 2 ^ 32)%N) by (apply (N.lt_trans _ 12); [lia|reflexivity]).
  rewrite N.mod_small by exact Hsn.
  rewrite esch_arx_eq by (destruct Ho; auto).
  pose proof (alz_list_ok h B _ _ ltac:(lia) Ho (sparkle_c_lt (s mod 8)) Hsn) as Ho'.
  cbv zeta. destruct Hh as [-> | ->]; [apply esch_linear_3|apply esch_linear_4]; exact Ho'.
Qed.

Lemma sparkle_eq h B J ns : h = 3 \/ h = 4 -> ns <= 12 -> st_ok h B ->
  sparkle (2 * h) ns (flat B ++ J) = flat (sparkle_p ns B) ++ J /\ st_ok h (sparkle_p ns B).
Proof.
  intros Hh Hn Ho. unfold sparkle, sparkle_p.
  assert (E : forall l B, st_ok h B -> (forall i, In i l -> i < 12) ->
    fold_left (esch_step (2 * h)) l (flat B ++ J) = flat (fold_left sparkle_step l B) ++ J /\
    st_ok h (fold_left sparkle_step l B)).
  { clear B Ho. induction l; intros B Ho Hl; [auto|]. cbn [fold_left].
    rewrite (esch_step_eq h B J a Hh) by (auto; apply Hl; left; auto).
    apply IHl; [apply sparkle_step_ok; auto; lia|intros; apply Hl; right; auto]. }
  apply E; auto. intros i Hi. apply in_seq in Hi. lia.
Qed.

Lemma sparkle_p_ok h B ns : h <= 4 -> st_ok h B -> st_ok h (sparkle_p ns B).
Proof. intros. unfold sparkle_p. apply fold_left_inv; auto. intros. apply sparkle_step_ok; auto. Qed.

Global Opaque sparkle sparkle_p.

(** ** Blocks *)
Definition hs_of (h : nat) : N := N.of_nat (128 * h - 128).

(** Code before the permutation. *)
Definition esch_inject (hs : N) (H data : list N) : list N :=
  let M := le_words 4 4 data in
  let x := N.lxor (nthN 0 M) (nthN 2 M) in
  let y := N.lxor (nthN 1 M) (nthN 3 M) in
  let x := esch_ell x in
  let y := esch_ell y in
  let H := upd 0 (N.lxor (N.lxor (nthN 0 H) (nthN 0 M)) y) H in
  let H := upd 1 (N.lxor (N.lxor (nthN 1 H) (nthN 1 M)) x) H in
  let H := upd 2 (N.lxor (N.lxor (nthN 2 H) (nthN 2 M)) y) H in
  let H := upd 3 (N.lxor (N.lxor (nthN 3 H) (nthN 3 M)) x) H in
  let H := xor_at 4 y H in
  let H := xor_at 5 x H in
  if (256 <? hs)%N then xor_at 7 x (xor_at 6 y H) else H.
Lemma esch_block_split hs lastB H t data :
  esch_block hs lastB H t data = sparkle (esch_rounds hs)
    (let steps := if lastB : bool then 11 else 7 in if (256 <? hs)%N then S steps else steps) (esch_inject hs H data).
Proof. reflexivity. Qed.

Lemma bytes_branches_ok k : forall d, bytes_ok d -> Forall br_ok (bytes_branches k d).
Proof.
  assert (W : forall d, bytes_ok d -> (le_word (firstn 4 d) < 2 ^ 32)%N).
  { intros d Hd. eapply N.lt_le_trans; [apply le_word_lt, Forall_firstn; exact Hd|].
    change (2 ^ 32)%N with (256 ^ 4)%N. apply N.pow_le_mono_r; [discriminate|].
    rewrite firstn_length. lia. }
  induction k; intros d Hd; cbn [bytes_branches]; constructor.
  - split; cbn [fst snd]; apply W; auto. apply Forall_skipn. auto.
  - apply IHk, Forall_skipn. auto.
Qed.
Lemma bytes_branches_length k : forall d, length (bytes_branches k d) = k.
Proof. induction k; intros; cbn; auto. Qed.

Lemma inject_ok h B P : st_ok h B -> bytes_ok P -> st_ok h (inject h B P).
Proof.
  intros [L W] HP. unfold inject. split.
  - rewrite app_length, map2_length, M_h_length, bytes_branches_length, firstn_length, skipn_length. lia.
  - apply Forall_app. split; [|apply Forall_skipn; auto].
    apply (map2_Forall br_ok br_ok); [apply xor_br_ok|apply Forall_firstn; auto|].
    apply M_h_ok, bytes_branches_ok. apply bytes_ok_app; auto using bytes_ok_zeros.
Qed.

Lemma lxor_r0 a b : N.lxor a (N.lxor 0 b) = N.lxor a b.
Proof. rewrite N.lxor_0_l. reflexivity. Qed.

Lemma esch_inject_eq h B J P : h = 3 \/ h = 4 -> st_ok h B -> block_ok 16 P ->
  esch_inject (hs_of h) (flat B ++ J) P = flat (inject h B P) ++ J.
Proof.
  intros Hh [L W] [LP WP].
  assert (E : exists a b c d, le_words 4 4 P = [a; b; c; d] /\
     bytes_branches h (P ++ zeros (8 * h - 16)) = [(a, b); (c, d)] ++ repeat (0, 0)%N (h - 2) /\
     (a < 2 ^ 32 /\ b < 2 ^ 32 /\ c < 2 ^ 32 /\ d < 2 ^ 32)%N).
  { pose proof (le_words_lt 4 4 P WP) as Hw.
    do 17 (destruct P as [|? P]; try discriminate LP). clear LP WP.
    do 4 eexists. split; [reflexivity|]. split.
    - destruct Hh as [-> | ->]; reflexivity.
    - cbn [le_words] in Hw. inversion Hw as [|? ? ?H1 Hw1]; subst. inversion Hw1 as [|? ? ?H2 Hw2]; subst.
      inversion Hw2 as [|? ? ?H3 Hw3]; subst. inversion Hw3 as [|? ? ?H4 Hw4]; subst. auto. }
  destruct E as (a & b & c & d & E1 & E2 & Ha & Hb & Hc & Hd).
  unfold inject. rewrite E2. unfold esch_inject. rewrite E1. clear E1 E2 LP WP P.
  unfold M_h. destruct Hh as [-> | ->].
  - do 7 (destruct B as [|[? ?] B]; try discriminate L). clear L W.
    change (256 <? hs_of 3)%N with false.
    cbn [Nat.sub repeat app map fst snd map2 firstn skipn]. unfold xor_all. cbn [fold_left].
    rewrite !N.lxor_0_r, !N.lxor_0_l.
    rewrite <- !esch_ell_eq by (repeat (assumption || apply lxor_lt)).
    crunch. gen_ell. unfold xor_br. cbn [map2 map fst snd rot1 app]. rewrite ?N.lxor_0_l, ?N.lxor_assoc. list_eq.
  - do 9 (destruct B as [|[? ?] B]; try discriminate L). clear L W.
    change (256 <? hs_of 4)%N with true.
    cbn [Nat.sub repeat app map fst snd map2 firstn skipn]. unfold xor_all. cbn [fold_left].
    rewrite !N.lxor_0_r, !N.lxor_0_l.
    rewrite <- !esch_ell_eq by (repeat (assumption || apply lxor_lt)).
    crunch. gen_ell. unfold xor_br. cbn [map2 map fst snd rot1 app]. rewrite ?N.lxor_0_l, ?N.lxor_assoc. list_eq.
Qed.

Definition esch_steps (hs : N) (lastB : bool) : nat :=
  let steps := if lastB then 11 else 7 in if (256 <? hs)%N then S steps else steps.
Lemma esch_block_split2 hs lastB H t data :
  esch_block hs lastB H t data = sparkle (esch_rounds hs) (esch_steps hs lastB) (esch_inject hs H data).
Proof. exact (esch_block_split hs lastB H t data). Qed.
Lemma esch_steps_eq h lastB : h = 3 \/ h = 4 ->
  esch_rounds (hs_of h) = 2 * h /\ esch_steps (hs_of h) lastB = (if lastB then big h else slim h) /\
  (if lastB then big h else slim h) <= 12.
Proof.
  intros [-> | ->]; (split; [reflexivity|]); destruct lastB; (split; [reflexivity|cbn; lia]).
Qed.

Lemma esch_block_eq h lastB B J t P : h = 3 \/ h = 4 -> st_ok h B -> block_ok 16 P ->
  esch_block (hs_of h) lastB (flat B ++ J) t P
    = flat (sparkle_p (if lastB then big h else slim h) (inject h B P)) ++ J /\
  st_ok h (sparkle_p (if lastB then big h else slim h) (inject h B P)).
Proof.
  intros Hh Ho HP. rewrite esch_block_split2, esch_inject_eq by auto.
  destruct (esch_steps_eq h lastB Hh) as (E1 & E2 & E3). rewrite E1, E2.
  apply sparkle_eq; auto. apply inject_ok; auto. apply HP.
Qed.
Definition esch_f (hs : N) (H P : list N) : list N := esch_block hs false H 0 P.
Lemma esch_step_f hs H t P : esch_block hs false H t P = esch_f hs H P.
Proof. unfold esch_f. rewrite !esch_block_split2. reflexivity. Qed.
Global Opaque esch_block inject.

(** ** Output *)
Definition esch_next (hs : N) (H : list N) : list N :=
  sparkle (esch_rounds hs) (if (256 <? hs)%N then 8 else 7) H.

Lemma esch_loop_sq hs : forall fuel H hss processed pos out, 0 < processed ->
  esch_loop hs fuel H 0 hss processed pos out =
  (' (H, pos, out) <- sq_loop (esch_next hs) (words_bytes 4) 16 fuel H hss processed pos out ;;
   Ok (H, 0%N, pos, out)).
Proof.
  induction fuel; intros H hss processed pos out Hp; cbn [esch_loop sq_loop];
    destruct (Nat.ltb_spec processed hss); try reflexivity.
  destruct (Nat.eqb_spec processed 0); [lia|]. change (0 =? 0)%N with true. cbv iota zeta.
  fold (esch_next hs H).
  destruct (load (words_bytes 4 (esch_next hs H)) 0 (Nat.min (hss - processed) 16)); [|reflexivity|reflexivity].
  cbn [bind]. apply IHfuel. lia.
Qed.
Lemma esch_loop_first hs H hss pos : 0 < hss ->
  esch_loop hs hss H 1 hss 0 pos [] =
  (' (H, pos, out) <- sq_first (esch_next hs) (words_bytes 4) 16 H pos hss ;; Ok (H, 0%N, pos, out)).
Proof.
  intros Hn. unfold sq_first. destruct hss as [|n]; [lia|]. cbn [esch_loop sq_loop].
  change (0 <? S n) with true. change (1 =? 0)%N with false. change (0 =? 0) with true. cbv iota zeta.
  destruct (load (words_bytes 4 H) 0 (Nat.min (S n - 0) 16)); [|reflexivity|reflexivity].
  cbn [bind]. apply esch_loop_sq. lia.
Qed.
Lemma esch_loop_full hs H hss pos : 0 < hss ->
  esch_loop hs hss H 0 hss 0 pos [] =
  (' (H, pos, out) <- sq_loop (esch_next hs) (words_bytes 4) 16 hss (esch_next hs H) hss 0 pos [] ;;
   Ok (H, 0%N, pos, out)).
Proof.
  intros Hn. destruct hss as [|n]; [lia|]. cbn [esch_loop sq_loop].
  change (0 <? S n) with true. change (0 =? 0)%N with true. change (0 =? 0) with true. cbv iota zeta.
  fold (esch_next hs H).
  destruct (load (words_bytes 4 (esch_next hs H)) 0 (Nat.min (S n - 0) 16)); [|reflexivity|reflexivity].
  cbn [bind]. apply esch_loop_sq. lia.
Qed.

Lemma flat_bytes B : words_bytes 4 (flat B) = branches_bytes B.
Proof.
  unfold branches_bytes. induction B as [|[x y] B IH]; [reflexivity|].
  change (flat ((x, y) :: B)) with ([x; y] ++ flat B). rewrite words_bytes_app, IH. cbn [flat_map fst snd].
  unfold words_bytes. cbn [flat_map]. rewrite app_nil_r. reflexivity.
Qed.
Lemma flat_length B : length (flat B) = 2 * length B.
Proof. induction B as [|[x y] B IH]; [reflexivity|]. change (flat ((x, y) :: B)) with (x :: y :: flat B). cbn [length]. lia. Qed.
Lemma branches_bytes_length B : length (branches_bytes B) = 8 * length B.
Proof. rewrite <- flat_bytes, words_bytes_length, flat_length. lia. Qed.

Section Obj.
  Variables (h : nat) (xof : bool) (j : nat).
  Hypothesis Hh : h = 3 \/ h = 4.
  Let hs := hs_of h.

  (** The array is one state followed by [j] unused words. *)
  Definition rep (B : list (N * N)) : list N := flat B ++ zeros j.
  Definition esch_I (H : list N) : Prop := exists B, st_ok h B /\ H = rep B.
  Lemma zero_ok : st_ok h (repeat (0, 0)%N (2 * h)).
  Proof. split; [apply repeat_length|]. destruct Hh as [-> | ->]; repeat (apply Forall_cons || apply Forall_nil); split; reflexivity. Qed.
  Definition esch_iv : list N := rep (repeat (0, 0)%N (2 * h)).
  Lemma esch_iv_zeros : esch_iv = zeros (4 * h + j).
  Proof. unfold esch_iv, rep. destruct Hh as [-> | ->]; reflexivity. Qed.

  Lemma next_rep B : st_ok h B -> esch_next hs (rep B) = rep (sparkle_p (slim h) B) /\ st_ok h (sparkle_p (slim h) B).
  Proof.
    intros Ho. unfold esch_next, hs. destruct (esch_steps_eq h false Hh) as (E1 & E2 & E3).
    rewrite E1. unfold esch_steps in E2. cbv zeta in E2. rewrite E2. apply sparkle_eq; auto.
  Qed.
  Lemma emit_rep B : st_ok h B -> firstn 16 (words_bytes 4 (rep B)) = firstn 16 (branches_bytes B).
  Proof.
    intros [L _]. unfold rep. rewrite words_bytes_app, flat_bytes.
    assert (16 <= length (branches_bytes B)) by (rewrite branches_bytes_length; lia).
    rewrite firstn_app. replace (16 - length (branches_bytes B)) with 0 by lia.
    cbn [firstn]. apply app_nil_r.
  Qed.
  Lemma emit_len H : esch_I H -> 16 <= length (words_bytes 4 H).
  Proof.
    intros (B & [L _] & ->). unfold rep. rewrite words_bytes_app, flat_bytes, app_length, branches_bytes_length. lia.
  Qed.
  Lemma next_I H : esch_I H -> esch_I (esch_next hs H).
  Proof.
    intros (B & Ho & ->). destruct (next_rep B Ho) as [-> H']. eexists. split; [exact H'|reflexivity].
  Qed.
  Lemma stream_rep k : forall B, st_ok h B ->
    squeeze_blocks (esch_next hs) (words_bytes 4) 16 k (rep B)
      = squeeze_blocks (sparkle_p (slim h)) branches_bytes 16 k B.
  Proof.
    induction k; intros B Ho; [reflexivity|]. cbn [squeeze_blocks]. rewrite emit_rep by auto.
    destruct (next_rep B Ho) as [-> H']. rewrite IHk by auto. reflexivity.
  Qed.
  Lemma add_dom_eq d B : st_ok h B -> (d < 8)%N ->
    xor_at (N.to_nat ((hs + 128) / 64 - 1)) (d * 2 ^ 24) (rep B) = rep (add_dom h d B) /\
    st_ok h (add_dom h d B).
  Proof.
    intros [L W] Hd. assert (Hd2 : (d * 2 ^ 24 < 2 ^ 32)%N).
    { apply (N.lt_le_trans _ (8 * 2 ^ 24)); [apply N.mul_lt_mono_pos_r; [reflexivity|exact Hd]|discriminate]. }
    unfold rep, add_dom, hs. revert Hd2. generalize (d * 2 ^ 24)%N as v. intros v Hv.
    destruct Hh as [-> | ->].
    - change (N.to_nat ((hs_of 3 + 128) / 64 - 1)) with 5. do 7 (destruct B as [|[? ?] B]; try discriminate L).
      split; [reflexivity|]. split; [reflexivity|]. clear L.
      repeat match goal with H : Forall _ (_ :: _) |- _ => inversion H; clear H; subst end.
      repeat match goal with H : br_ok _ |- _ => destruct H end. cbn [fst snd] in *.
      cbn [seq map Nat.mul Nat.add Nat.sub Nat.eqb nth fst snd].
      repeat (apply Forall_cons || apply Forall_nil); (split; cbn [fst snd]); try assumption; apply lxor_lt; assumption.
    - change (N.to_nat ((hs_of 4 + 128) / 64 - 1)) with 7. do 9 (destruct B as [|[? ?] B]; try discriminate L).
      split; [reflexivity|]. split; [reflexivity|]. clear L.
      repeat match goal with H : Forall _ (_ :: _) |- _ => inversion H; clear H; subst end.
      repeat match goal with H : br_ok _ |- _ => destruct H end. cbn [fst snd] in *.
      cbn [seq map Nat.mul Nat.add Nat.sub Nat.eqb nth fst snd].
      repeat (apply Forall_cons || apply Forall_nil); (split; cbn [fst snd]); try assumption; apply lxor_lt; assumption.
  Qed.

  Lemma absorb_rep n X : length X = n * 16 -> bytes_ok X ->
    fold_left (esch_f hs) (blocks_n n 16 X) esch_iv
      = rep (fold_left (esch_absorb h) (blocks 16 X) (repeat (0, 0)%N (2 * h))) /\
    st_ok h (fold_left (esch_absorb h) (blocks 16 X) (repeat (0, 0)%N (2 * h))).
  Proof.
    intros HX HB. rewrite (blocks_mul n) by (auto; lia). unfold esch_iv.
    assert (E : forall l B, Forall (block_ok 16) l -> st_ok h B ->
      fold_left (esch_f hs) l (rep B) = rep (fold_left (esch_absorb h) l B) /\ st_ok h (fold_left (esch_absorb h) l B)).
    { induction l; intros B Hl Ho; [auto|]. inversion Hl; subst. cbn [fold_left].
      destruct (esch_block_eq h false B (zeros j) 0 a Hh Ho) as [E1 E2]; [auto|].
      change (esch_f hs (rep B) a) with (esch_block (hs_of h) false (flat B ++ zeros j) 0 a).
      rewrite E1. apply IHl; auto. }
    apply E; [apply blocks_n_ok; auto|apply zero_ok].
  Qed.

  (** Splitting off the last block. *)
  Lemma esch_split_eq n B T : length B = n * 16 -> okrem 16 true n (length T) ->
    firstn (16 * esch_split (B ++ T)) (B ++ T) = B /\ skipn (16 * esch_split (B ++ T)) (B ++ T) = T.
  Proof.
    intros HB Hr. unfold okrem in Hr.
    assert (E : 16 * esch_split (B ++ T) = length B).
    { unfold esch_split. rewrite app_length, HB. destruct n.
      - destruct T; [reflexivity|]. cbn [length] in *. rewrite Nat.div_small by lia. lia.
      - replace (S n * 16 + length T - 1) with (length T - 1 + (S n) * 16) by lia.
        rewrite Nat.div_add, Nat.div_small by lia. lia. }
    rewrite E, firstn_app, skipn_app, Nat.sub_diag, firstn_all, skipn_all. cbn [firstn skipn app].
    rewrite app_nil_r. auto.
  Qed.

  Definition Isz : nat := 4 * h + j.
  Lemma esch_state_ok M : bytes_ok M -> st_ok h (esch_state h xof M).
  Proof.
    intros HM. unfold esch_state. cbv zeta. apply sparkle_p_ok; [lia|]. apply inject_ok.
    - refine (proj2 (add_dom_eq _ _ _ _)).
      + assert (E : exists n, length (firstn (16 * esch_split M) M) = n * 16).
        { exists (esch_split M). rewrite firstn_length. unfold esch_split.
          pose proof (Nat.mul_div_le (length M - 1) 16 ltac:(lia)). lia. }
        destruct E as (n & E). apply (absorb_rep n); [exact E|apply Forall_firstn; auto].
      + destruct (length (skipn (16 * esch_split M) M) =? 16), xof; reflexivity.
    - destruct (length (skipn (16 * esch_split M) M) =? 16); [apply Forall_skipn; auto|].
      apply bytes_ok_app; [apply Forall_skipn; auto|]. apply bytes_ok_app; [|apply bytes_ok_zeros].
      constructor; [reflexivity|constructor].
  Qed.

  Definition esch_out (M : list N) (n : nat) : list N := std_esch h xof M n.
  Lemma esch_out_seg M n : bytes_ok M ->
    esch_out M n = seg (esch_next hs) (words_bytes 4) 16 (rep (esch_state h xof M)) 0 n.
  Proof.
    intros HM. unfold esch_out, std_esch. pose proof (esch_state_ok M HM) as So.
    rewrite <- (squeeze_stream_seg (esch_next hs) (words_bytes 4) 16 esch_I ltac:(lia) emit_len next_I)
      by (eexists; split; [exact So|reflexivity]).
    unfold squeeze_stream. rewrite stream_rep by auto. reflexivity.
  Qed.
  Lemma esch_out_length M n : bytes_ok M -> length (esch_out M n) = n.
  Proof. intros. rewrite esch_out_seg by auto. apply seg_length. Qed.
  Lemma esch_out_bytes M n : bytes_ok M -> bytes_ok (esch_out M n).
  Proof. intros. rewrite esch_out_seg by auto. apply seg_bytes. intros. apply words_bytes_ok. Qed.

  Lemma esch_pad_eq k M : bytes_ok M -> buf_inv (esch_block hs false) 16 128 true esch_iv k M ->
    exists m, esch_pad xof hs k = Ok (mkst (rep (esch_state h xof M)) m (spos k) 1) /\ length m = 128.
  Proof.
    intros HM (B & T & J & n & Emsg & HB & Hrem & Hc & Htot & Hm & Hlen & Hpos).
    destruct (esch_split_eq n B T HB Hrem) as [ES1 ES2]. rewrite <- Emsg in ES1, ES2.
    assert (OB : bytes_ok B /\ bytes_ok T) by (apply Forall_app; rewrite <- Emsg; auto). destruct OB as [OB OT].
    unfold okrem in Hrem.
    assert (HJ : length T + length J = 128) by (rewrite <- Hlen, Hm, app_length; lia).
    assert (Hc' : sh k = rep (fold_left (esch_absorb h) (blocks 16 B) (repeat (0, 0)%N (2 * h)))).
    { rewrite Hc. rewrite (block_loop_fold _ (esch_f hs) 16 n (esch_step_f hs)). apply (absorb_rep n B HB OB). }
    pose proof (proj2 (absorb_rep n B HB OB)) as So.
    unfold esch_state. cbv zeta. rewrite ES1, ES2.
    set (S0 := fold_left (esch_absorb h) (blocks 16 B) (repeat (0, 0)%N (2 * h))) in *.
    unfold esch_pad. cbv zeta. rewrite Hpos, Hm, Hc'.
    assert (Li : N.to_nat ((hs + 128) / 64 - 1) < length (rep S0)).
    { unfold rep. rewrite app_length, flat_length, (proj1 So). unfold hs.
      destruct Hh as [-> | ->].
      - change (N.to_nat ((hs_of 3 + 128) / 64 - 1)) with 5. lia.
      - change (N.to_nat ((hs_of 4 + 128) / 64 - 1)) with 7. lia. }
    apply Nat.ltb_lt in Li. rewrite Li.
    assert (Fin : forall P d m', length P = 16 -> bytes_ok P -> (d < 8)%N -> 
      md_transform1 (esch_block hs true) 16 (xor_at (N.to_nat ((hs + 128) / 64 - 1)) (d * 2 ^ 24) (rep S0)) (P ++ m') 1
      = Ok (rep (sparkle_p (big h) (inject h (add_dom h d S0) P)))).
    { intros P d m' LP OP Hd. unfold md_transform1. rewrite load_app by lia. cbn [bind block_loop].
      rewrite firstn_all2 by lia. destruct (add_dom_eq d S0 So Hd) as [E1 E2]. rewrite E1.
      f_equal. exact (proj1 (esch_block_eq h true (add_dom h d S0) (zeros j) _ P Hh E2 (conj LP OP))). }
    destruct (Nat.ltb_spec (length T) 16) as [L|L].
    - rewrite memset_app by lia. cbn [bind]. rewrite store_app by (try reflexivity; rewrite app_length, repeat_length; lia).
      cbn [bind]. rewrite (proj2 (Nat.eqb_neq (length T) 16)) by lia.
      set (z := 15 - length T).
      replace (T ++ [128%N] ++ skipn 1 (repeat 0%N (16 - length T) ++ skipn (16 - length T) J))
        with ((T ++ [128%N] ++ zeros z) ++ skipn (16 - length T) J).
      2:{ rewrite <- !app_assoc. f_equal. f_equal. replace (16 - length T) with (S z) by lia. reflexivity. }
      replace (if xof then 83886080%N else 16777216%N) with ((1 + (if xof then 4 else 0)) * 2 ^ 24)%N
        by (destruct xof; reflexivity).
      rewrite Fin.
      + cbn [bind]. eexists. split; [reflexivity|].
        rewrite !app_length, skipn_length, zeros_length. cbn [length]. lia.
      + rewrite !app_length, zeros_length. cbn [length]. lia.
      + apply bytes_ok_app; auto. apply bytes_ok_app; [|apply bytes_ok_zeros]. constructor; [reflexivity|constructor].
      + destruct xof; reflexivity.
    - cbn [bind]. assert (L16 : length T = 16) by lia. rewrite L16. change (16 =? 16) with true. cbv iota.
      replace (if xof then 100663296%N else 33554432%N) with ((2 + (if xof then 4 else 0)) * 2 ^ 24)%N
        by (destruct xof; reflexivity).
      rewrite Fin; [|exact L16|exact OT|destruct xof; reflexivity].
      cbn [bind]. eexists. split; [reflexivity|]. rewrite app_length. lia.
  Qed.

  (** [M] absorbed, [k] bytes squeezed. *)
  Definition esch_inv (s : esch_st) (M : list N) (k : nat) : Prop :=
    ehs s = hs /\ length (sm (ek s)) = 128 /\ length (sh (ek s)) = Isz /\ bytes_ok M /\
    match k with
    | O => esq s = false /\ buf_inv (esch_block hs false) 16 128 true esch_iv (ek s) M
    | _ => esq s = true /\ stotal (ek s) = 0%N /\
       sq_inv (esch_next hs) 16 (rep (esch_state h xof M)) k (sh (ek s)) (spos (ek s))
    end.
  Lemma rep_length B : st_ok h B -> length (rep B) = Isz.
  Proof. intros [L _]. unfold rep, Isz. rewrite app_length, flat_length, L, zeros_length. lia. Qed.
  Lemma I_length H : esch_I H -> length H = Isz.
  Proof. intros (B & Ho & ->). apply rep_length; auto. Qed.
  Lemma buf_inv_sh k M : bytes_ok M -> buf_inv (esch_block hs false) 16 128 true esch_iv k M -> length (sh k) = Isz.
  Proof.
    intros HM (B & T & J & n & Emsg & HB & Hrem & Hc & Htot & Hm & Hlen & Hpos).
    assert (OB : bytes_ok B /\ bytes_ok T) by (apply Forall_app; rewrite <- Emsg; auto). destruct OB as [OB OT].
    rewrite Hc, (block_loop_fold _ (esch_f hs) 16 n (esch_step_f hs)).
    destruct (absorb_rep n B HB OB) as [-> So]. apply rep_length; auto.
  Qed.

  Lemma esch_init_ok s : ehs s = hs -> length (sm (ek s)) = 128 -> length (sh (ek s)) = Isz ->
    exists s', esch_init s = Ok s' /\ esch_inv s' [] 0.
  Proof.
    intros Ehs Hm Hs. eexists. split; [reflexivity|]. split; [exact Ehs|].
    split; [cbn [ek sm]; unfold zero_memory; rewrite zeros_length; exact Hm|].
    split; [cbn [ek sh]; unfold zero_memory; rewrite zeros_length; exact Hs|].
    split; [constructor|]. split; [reflexivity|]. cbn [ek].
    replace (zero_memory (sh (ek s))) with esch_iv.
    - apply buf_inv_start; try lia. unfold zero_memory. rewrite zeros_length. exact Hm.
    - rewrite esch_iv_zeros. unfold zero_memory. rewrite Hs. reflexivity.
  Qed.

  Lemma esch_update_ok s M d : bytes_ok d -> esch_inv s M 0 ->
    exists s', esch_update s d = Ok s' /\ esch_inv s' (M ++ d) 0.
  Proof.
    intros Hd (E & Hm & Hs & HM & Hq & H). unfold esch_update. rewrite E.
    destruct (buf_update_ok (esch_block hs false) 16 128 true ltac:(lia) ltac:(lia) esch_iv (ek s) M d H)
      as (k & Ek & H'). change 17 with (bschk 16 true). rewrite Ek. cbn [bind]. eexists. split; [reflexivity|].
    assert (HM' : bytes_ok (M ++ d)) by (apply bytes_ok_app; auto).
    split; [reflexivity|]. split; [exact (buf_inv_sm _ _ _ _ _ _ _ H')|].
    split; [exact (buf_inv_sh _ _ HM' H')|]. split; [exact HM'|]. split; [exact Hq|exact H'].
  Qed.

  Lemma esch_squeeze_ok s M k n : 0 < n -> esch_inv s M k ->
    exists s', esch_squeeze xof s n = Ok (s', skipn k (esch_out M (k + n))) /\ esch_inv s' M (k + n).
  Proof.
    intros Hn (E & Hm & Hs & HM & H). unfold esch_squeeze. cbv zeta. rewrite E.
    rewrite esch_out_seg, seg_skip by auto.
    assert (So : esch_I (rep (esch_state h xof M))) by (eexists; split; [exact (esch_state_ok M HM)|reflexivity]).
    assert (Len : forall k c p, sq_inv (esch_next hs) 16 (rep (esch_state h xof M)) k c p -> length c = Isz).
    { intros k' c p (a & _ & _ & ->). apply I_length. apply (inv_iter (esch_next hs) esch_I next_I). exact So. }
    destruct k as [|k].
    - destruct H as [Hq H]. rewrite Hq.
      destruct (esch_pad_eq (ek s) M HM H) as (m' & -> & Hm'). cbn [bind sh sm spos stotal].
      rewrite esch_loop_first by exact Hn.
      destruct (sq_first_ok (esch_next hs) (words_bytes 4) 16 esch_I ltac:(lia) emit_len next_I _ (spos (ek s)) n So Hn)
        as (c' & pos' & -> & Hi). cbn [bind]. eexists. split; [reflexivity|].
      destruct n; [lia|]. split; [reflexivity|]. split; [exact Hm'|]. split; [exact (Len _ _ _ Hi)|].
      split; [exact HM|]. split; [reflexivity|]. split; [reflexivity|exact Hi].
    - destruct H as (Hq & Ht & H). rewrite Hq.
      destruct (sq_more_ok (esch_next hs) (words_bytes 4) 16 esch_I ltac:(lia) emit_len next_I _ (S k) _ _ n So Hn H)
        as (c' & pos' & Ec & Hi).
      match goal with |- context [bind ?X _] => set (A := X) end.
      assert (EA : (' (H0, m, pos, total, processed, out) <- A ;;
        ' (H1, total0, pos0, out0) <- esch_loop hs n H0 total n processed pos out ;;
         Ok (mkes (mkst H1 m pos0 total0) hs true, out0))
        = Ok (mkes (mkst c' (sm (ek s)) pos' 0) hs true, 
              seg (esch_next hs) (words_bytes 4) 16 (rep (esch_state h xof M)) (S k) n)).
      { unfold A. unfold sq_more in Ec. destruct H as (a & Hk & Hp & Hc). 
        destruct (Nat.ltb_spec (spos (ek s)) 16) as [L|L].
        - destruct (load (words_bytes 4 (sh (ek s))) (spos (ek s)) (Nat.min n (16 - spos (ek s)))); try discriminate Ec.
          cbn [bind] in *. rewrite esch_loop_sq by lia. rewrite Ec. reflexivity.
        - cbn [bind]. rewrite Ht. rewrite esch_loop_full by lia.
          rewrite (proj2 (Nat.eqb_eq (spos (ek s)) 16)) in Ec by lia. rewrite Ec. reflexivity. }
      rewrite EA. eexists. split; [reflexivity|].
      split; [reflexivity|]. split; [exact Hm|]. split; [exact (Len _ _ _ Hi)|].
      split; [exact HM|]. change (S k + n) with (S (k + n)) in *. split; [reflexivity|].
      split; [reflexivity|exact Hi].
  Qed.

  Lemma esch_inv_init s M k : esch_inv s M k -> exists s', esch_init s = Ok s' /\ esch_inv s' [] 0.
  Proof. intros (E & Hm & Hs & _). apply esch_init_ok; auto. Qed.
  Lemma esch_inv_clear s M k : esch_inv s M k ->
    exists s1 s2, esch_clear s = Ok s1 /\ esch_init s1 = Ok s2 /\ esch_inv s2 [] 0.
  Proof.
    intros (E & Hm & Hs & _). eexists. unfold esch_clear.
    match goal with |- context [Ok ?x = Ok _] => destruct (esch_init_ok x) as (s2 & E2 & H') end.
    - exact E.
    - cbn [ek sm]. unfold zero_memory. rewrite zeros_length. exact Hm.
    - cbn [ek sh]. unfold zero_memory. rewrite zeros_length. exact Hs.
    - exists s2. split; [reflexivity|]. split; [exact E2|exact H'].
  Qed.
  Lemma esch_inv_M s M k : esch_inv s M k -> bytes_ok M.
  Proof. intros (_ & _ & _ & HM & _). exact HM. Qed.
End Obj.

Lemma esch_sim h j : h = 3 \/ h = 4 ->
  sim esch (esch_spec h) (fun s _ msg => esch_inv h false j s msg 0) true.
Proof.
  intros Hh. constructor.
  - intros s p msg H. exact (esch_inv_init h false j Hh s msg 0 H).
  - intros s p msg d Hd H. exact (esch_update_ok h false j Hh s msg d Hd H).
  - intros _ s p msg H. exact (esch_inv_clear h false j Hh s msg 0 H).
  - intros q. destruct q.
  - intros s p msg H. cbn [hp_final esch].
    assert (E : N.to_nat (ehs s / 8) = 16 * h - 16).
    { destruct H as (-> & _). destruct Hh as [-> | ->]; reflexivity. }
    rewrite E.
    destruct (esch_squeeze_ok h false j Hh s msg 0 (16 * h - 16) ltac:(lia) H) as (s' & E' & _). exists s'. exact E'.
  - intros s p msg H. cbn [hp_size esch sp_size esch_spec]. destruct H as (-> & _). destruct Hh as [-> | ->]; reflexivity.
  - intros s p msg H. exact (esch_out_length h false j Hh msg _ (esch_inv_M _ _ _ _ _ _ H)).
  - intros s p msg H. exact (esch_out_bytes h false j Hh msg _ (esch_inv_M _ _ _ _ _ _ H)).
  - cbn [sp_size esch_spec]. lia.
Qed.

Lemma esch_xof_sim h j : h = 3 \/ h = 4 ->
  xsim esch_xof (esch_xof_spec h) (fun s _ msg k => esch_inv h true j s msg k) true.
Proof.
  intros Hh. constructor.
  - intros s p msg k H. exact (esch_inv_init h true j Hh s msg k H).
  - intros s p msg d Hd H. exact (esch_update_ok h true j Hh s msg d Hd H).
  - intros _ s p msg k H. exact (esch_inv_clear h true j Hh s msg k H).
  - intros q. destruct q.
  - intros s p msg k n Hn H. exact (esch_squeeze_ok h true j Hh s msg k n Hn H).
  - intros s p msg k n H. exact (esch_out_length h true j Hh msg _ (esch_inv_M _ _ _ _ _ _ H)).
  - intros s p msg k n H. exact (esch_out_bytes h true j Hh msg _ (esch_inv_M _ _ _ _ _ _ H)).
Qed.

(** Garbage memory: the array H has [4 h + j] words. *)
Definition esch_mem (w : nat) (g : st) : Prop := length (sm g) = 128 /\ length (sh g) = w.

Theorem esch_implements h w g : h = 3 \/ h = 4 -> 4 * h <= w -> esch_mem w g ->
  implements esch (esch_spec h) true (fresh_of (esch_ctor (hs_of h) g) esch_init) /\
  implements esch (esch_spec h) true (fresh_of (esch_ctor_static (hs_of h) g) esch_init).
Proof.
  intros Hh Hw [Hm Hs].
  assert (E : fresh_of (esch_ctor (hs_of h) g) esch_init = fresh_of (esch_ctor_static (hs_of h) g) esch_init)
    by (destruct Hh as [-> | ->]; reflexivity).
  rewrite E.
  destruct (esch_init_ok h false (w - 4 * h) Hh (mkes g (hs_of h) false) eq_refl Hm) as (s & Ei & H).
  { cbn [ek]. unfold Isz. lia. }
  unfold fresh_of, esch_ctor_static. cbn [bind]. rewrite Ei.
  split; exact (sim_implements _ _ _ true (esch_sim h _ Hh) s H).
Qed.

Theorem esch_xof_implements h g : h = 3 \/ h = 4 -> esch_mem (4 * h) g ->
  ximplements esch_xof (esch_xof_spec h) true (fresh_of (esch_ctor_xof (N.of_nat (128 * h)) g) esch_init).
Proof.
  intros Hh [Hm Hs].
  assert (Eh : (N.of_nat (128 * h) - 128 = hs_of h)%N) by (destruct Hh as [-> | ->]; reflexivity).
  destruct (esch_init_ok h true 0 Hh (mkes g (N.of_nat (128 * h) - 128) false) Eh Hm) as (s & Ei & H).
  { cbn [ek]. unfold Isz. lia. }
  unfold fresh_of, esch_ctor_xof. cbn [bind]. rewrite Ei.
  exact (xsim_implements _ _ _ true (esch_xof_sim h _ Hh) s H).
Qed.
