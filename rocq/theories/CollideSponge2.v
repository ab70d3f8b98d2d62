(** * Equal outputs of Ascon and Esch (C56). *)
From Verif Require Import Base Lemmas WordLemmas TableLemmas SpecCommon Hasher HasherSpec HasherProof Library LibraryProof XLibraryProof LibraryTypes
  LibraryTypesProof Inputs PadInj PadInjSponge Process ProcessTypes KeccakSpec SpongeProof AsconSpec AsconProof EschSpec EschProof
  Inj InjAscon InjArx2 Domain CollideSpec Collide CollideSponge.

Lemma le_word_eq a b : bytes_ok a -> bytes_ok b -> length a = length b -> le_word a = le_word b -> a = b.
Proof. intros A B L E. rewrite <- (le_bytes_word a A), <- (le_bytes_word b B), L, E. reflexivity. Qed.

(** ** Ascon *)
Lemma ascon_before_ok a b : as_ok a -> kblock 8 b ->
  as_ok (map (fun i => if (i =? 0)%nat then N.lxor (nth i a 0) (le_word b) else nth i a 0) (seq 0 5)).
Proof.
  intros Ha [L Hb]. destruct (as_ok_inv a Ha) as (x & y & z & u & v & -> & Hx & Hy & Hz & Hu & Hv). cbn [seq map Nat.eqb nth].
  split; [reflexivity|]. repeat constructor; auto. apply lxor_lt; [exact Hx|]. pose proof (le_word_lt b Hb) as W. rewrite L in W. exact W.
Qed.
Lemma ascon_state_ok a b : as_ok a -> kblock 8 b -> as_ok (ascon_absorb a b).
Proof. intros Ha Hb. unfold ascon_absorb. apply ascon_p_inj, ascon_before_ok; assumption. Qed.
Lemma ascon_collide_step a1 a2 b1 b2 : as_ok a1 -> as_ok a2 -> kblock 8 b1 -> kblock 8 b2 ->
  ascon_absorb a1 b1 = ascon_absorb a2 b2 -> ascon_inner a1 = ascon_inner a2 /\ (a1 = a2 -> b1 = b2).
Proof.
  intros A1 A2 B1 B2 E. unfold ascon_absorb in E. apply (proj1 (ascon_p_inj 12)) in E; [|apply ascon_before_ok; assumption..].
  destruct (as_ok_inv a1 A1) as (x & y & z & u & v & -> & _), (as_ok_inv a2 A2) as (x' & y' & z' & u' & v' & -> & _).
  cbn [seq map Nat.eqb nth] in E. apply cons_eq in E. destruct E as [E0 E]. split; [cbn [ascon_inner skipn]; exact E|].
  intros F. apply cons_eq in F. destruct F as [-> _]. apply (xor_inj_l x') in E0; [|exact I..]. destruct B1 as [L1 O1], B2 as [L2 O2].
  apply le_word_eq; auto. lia.
Qed.
Lemma ascon_start_ok ty : as_ok (ascon_start ty).
Proof. apply ascon_p_inj. split; [reflexivity|]. destruct ty; repeat constructor. Qed.
Lemma ascon_collide ty n l1 l2 : Forall (kblock 8) l1 -> Forall (kblock 8) l2 -> l1 <> [] -> l2 <> [] -> l1 <> l2 ->
  squeeze_stream (ascon_p 12) (words_bytes 8) 8 n (fold_left ascon_absorb l1 (ascon_start ty)) =
  squeeze_stream (ascon_p 12) (words_bytes 8) 8 n (fold_left ascon_absorb l2 (ascon_start ty)) ->
  inner_or_out ascon_absorb (ascon_start ty) ascon_inner (squeeze_stream (ascon_p 12) (words_bytes 8) 8 n) l1 l2.
Proof.
  intros V1 V2 N1 N2 N E.
  apply (sponge_collide ascon_absorb ns_dec (ascon_start ty) ascon_inner _ as_ok (kblock 8)); auto using nss_dec, ascon_start_ok, ascon_state_ok, ascon_collide_step.
Qed.
Lemma ascon_pad_ok m : is_bytes m -> is_bytes (ascon_pad_bytes m) /\ ascon_pad_bytes m <> [].
Proof.
  intros H. split; [|unfold ascon_pad_bytes; intros E; apply app_eq_nil in E; destruct E; discriminate].
  apply is_bytes_app; [exact H|]. apply is_bytes_app; [repeat constructor|apply bytes_ok_zeros].
Qed.
Lemma ascon_equal ty n m1 m2 : is_bytes m1 -> is_bytes m2 -> m1 <> m2 ->
  squeeze_stream (ascon_p 12) (words_bytes 8) 8 n (fold_left ascon_absorb (ascon_inputs m1) (ascon_start ty)) =
  squeeze_stream (ascon_p 12) (words_bytes 8) 8 n (fold_left ascon_absorb (ascon_inputs m2) (ascon_start ty)) ->
  inner_or_out ascon_absorb (ascon_start ty) ascon_inner (squeeze_stream (ascon_p 12) (words_bytes 8) 8 n) (ascon_inputs m1) (ascon_inputs m2).
Proof.
  intros M1 M2 N. destruct (ascon_pad_ok m1 M1) as [P1 Q1], (ascon_pad_ok m2 M2) as [P2 Q2].
  destruct (blocks_ok 8 _ ltac:(lia) (ascon_pad_mod m1) P1 Q1) as [V1 N1], (blocks_ok 8 _ ltac:(lia) (ascon_pad_mod m2) P2 Q2) as [V2 N2].
  apply ascon_collide; auto. intros E. apply N. exact (ascon_inputs_inj m1 m2 M1 M2 E).
Qed.
Lemma ascon_cxof_mod Z m : (length (ascon_custom Z ++ ascon_pad_bytes m) mod 8 = 0)%nat.
Proof.
  unfold ascon_custom. rewrite !app_length, le_bytes_length. pose proof (ascon_pad_mod Z). pose proof (ascon_pad_mod m).
  rewrite Nat.add_mod by lia. rewrite H0, (Nat.add_mod 8) by lia. rewrite H. reflexivity.
Qed.
Lemma ascon_cxof_equal n Z m1 m2 : is_bytes Z -> is_bytes m1 -> is_bytes m2 -> m1 <> m2 ->
  squeeze_stream (ascon_p 12) (words_bytes 8) 8 n (fold_left ascon_absorb (ascon_cxof_inputs Z m1) (ascon_start Ascon.ACxof)) =
  squeeze_stream (ascon_p 12) (words_bytes 8) 8 n (fold_left ascon_absorb (ascon_cxof_inputs Z m2) (ascon_start Ascon.ACxof)) ->
  inner_or_out ascon_absorb (ascon_start Ascon.ACxof) ascon_inner (squeeze_stream (ascon_p 12) (words_bytes 8) 8 n) (ascon_cxof_inputs Z m1) (ascon_cxof_inputs Z m2).
Proof.
  intros HZ M1 M2 N.
  assert (K : forall m, is_bytes m -> is_bytes (ascon_custom Z ++ ascon_pad_bytes m) /\ ascon_custom Z ++ ascon_pad_bytes m <> []).
  { intros m Hm. destruct (ascon_pad_ok m Hm) as [P Q]. split; [|intros E; apply app_eq_nil in E; tauto].
    apply is_bytes_app; [|exact P]. apply is_bytes_app; [apply le_bytes_ok|apply ascon_pad_ok; exact HZ]. }
  destruct (K m1 M1) as [P1 Q1], (K m2 M2) as [P2 Q2].
  destruct (blocks_ok 8 _ ltac:(lia) (ascon_cxof_mod Z m1) P1 Q1) as [V1 N1], (blocks_ok 8 _ ltac:(lia) (ascon_cxof_mod Z m2) P2 Q2) as [V2 N2].
  apply ascon_collide; auto. intros E. apply blocks_inj in E; auto using ascon_cxof_mod; [|lia].
  apply app_inv_head, ascon_pad_inj in E. congruence.
Qed.

(** ** Esch *)
Local Transparent inject.
Definition eblock (x : option N * list N) : Prop := (length (snd x) = 16)%nat /\ bytes_ok (snd x) /\ match fst x with Some d => d < 8 | None => True end.
Lemma esch_dom_ok h d B : h = 3%nat \/ h = 4%nat -> d < 8 -> st_ok h B -> st_ok h (add_dom h d B).
Proof. intros Hh Hd HB. exact (proj2 (add_dom_eq h 0 Hh d B HB Hd)). Qed.
Lemma four_words P : length P = 16%nat -> bytes_ok P -> exists a b c d, P = a ++ b ++ c ++ d /\
  (length a = 4 /\ length b = 4 /\ length c = 4 /\ length d = 4)%nat /\ bytes_ok a /\ bytes_ok b /\ bytes_ok c /\ bytes_ok d.
Proof.
  intros L H. exists (firstn 4 P), (firstn 4 (skipn 4 P)), (firstn 4 (skipn 8 P)), (skipn 12 P).
  split; [|split; [rewrite !firstn_length, !skipn_length; lia|unfold bytes_ok in *; repeat split; auto using Forall_firstn, Forall_skipn]].
  do 16 (destruct P as [|? P]; [discriminate L|]). destruct P; [reflexivity|discriminate L].
Qed.
Lemma branches_of a b c d k : (length a = 4 /\ length b = 4 /\ length c = 4 /\ length d = 4)%nat ->
  bytes_branches (2 + k) ((a ++ b ++ c ++ d) ++ zeros (8 * k)) = (le_word a, le_word b) :: (le_word c, le_word d) :: repeat (0, 0) k.
Proof.
  intros (A & B & C & D).
  do 4 (destruct a as [|? a]; [discriminate A|]). destruct a; [|discriminate A].
  do 4 (destruct b as [|? b]; [discriminate B|]). destruct b; [|discriminate B].
  do 4 (destruct c as [|? c]; [discriminate C|]). destruct c; [|discriminate C].
  do 4 (destruct d as [|? d]; [discriminate D|]). destruct d; [|discriminate D].
  cbn [Nat.add bytes_branches app firstn skipn]. do 2 f_equal. clear.
  induction k as [|k IH]; [reflexivity|]. replace (8 * S k)%nat with (8 + 8 * k)%nat by lia. cbn [bytes_branches repeat]. rewrite <- IH. reflexivity.
Qed.
Lemma pair_eq {A B} (a c : A) (b d : B) : (a, b) = (c, d) -> a = c /\ b = d.
Proof. intros E. split; congruence. Qed.
Lemma esch_last_inj h d1 d2 B P1 P2 : h = 3%nat \/ h = 4%nat -> length B = (2 * h)%nat -> length P1 = 16%nat -> length P2 = 16%nat -> bytes_ok P1 -> bytes_ok P2 ->
  inject h (add_dom h d1 B) P1 = inject h (add_dom h d2 B) P2 -> d1 = d2 /\ P1 = P2.
Proof.
  intros Hh LB L1 L2 O1 O2 E.
  destruct (four_words P1 L1 O1) as (a & b & c & d & -> & LL & A1 & A2 & A3 & A4).
  destruct (four_words P2 L2 O2) as (a' & b' & c' & d' & -> & LL' & A1' & A2' & A3' & A4'). clear L1 L2 O1 O2.
  assert (G : forall x0 y0 x1 y1, x0 = le_word a -> y0 = le_word b -> x1 = le_word c -> y1 = le_word d ->
              forall x0' y0' x1' y1', x0' = le_word a' -> y0' = le_word b' -> x1' = le_word c' -> y1' = le_word d' ->
              (x0 = x0' /\ y0 = y0') /\ (x1 = x1' /\ y1 = y1') /\ d1 = d2 -> d1 = d2 /\ a ++ b ++ c ++ d = a' ++ b' ++ c' ++ d').
  { intros ? ? ? ? -> -> -> -> ? ? ? ? -> -> -> -> ([W1 W2] & [W3 W4] & W5). split; [exact W5|].
    apply le_word_eq in W1, W2, W3, W4; try assumption; try lia. congruence. }
  eapply G; try reflexivity. clear G. unfold inject in E.
  assert (D : forall u, N.lxor u (d1 * 2 ^ 24) = N.lxor u (d2 * 2 ^ 24) -> d1 = d2).
  { intros u W. apply (xor_inj_l u) in W; [|exact I..]. apply N.mul_cancel_r in W; [exact W|discriminate]. }
  assert (Xr : forall u v w, N.lxor u w = N.lxor v w -> u = v) by (intros u v w W; apply (xor_inj_r w) in W; auto).
  assert (Xl : forall u v w, N.lxor w u = N.lxor w v -> u = v) by (intros u v w W; apply (xor_inj_l w) in W; auto).
  assert (Z : forall f (x : N), x = 0 -> N.lxor f x = f) by (intros f x ->; apply N.lxor_0_r).
  destruct Hh as [-> | ->].
  - do 6 (destruct B as [|[? ?] B]; [discriminate LB|]). destruct B; [|discriminate LB].
    pose proof (branches_of a b c d 1 LL) as Y1. pose proof (branches_of a' b' c' d' 1 LL') as Y2.
    change (8 * 3 - 16)%nat with (8 * 1)%nat in E. change (bytes_branches 3) with (bytes_branches (2 + 1)) in E. rewrite Y1, Y2 in E. clear Y1 Y2.
    revert E. generalize (le_word a), (le_word b), (le_word c), (le_word d), (le_word a'), (le_word b'), (le_word c'), (le_word d').
    intros x0 y0 x1 y1 x0' y0' x1' y1' E. unfold M_h, add_dom, xor_all in E.
    cbn [Nat.mul Nat.add Nat.sub seq map nth Nat.eqb fst snd repeat fold_left firstn skipn app map2 xor_br] in E. rewrite !N.lxor_0_l, !N.lxor_0_r in E.
    apply cons_eq in E. destruct E as [E0 E]. apply cons_eq in E. destruct E as [E1 E]. apply cons_eq in E. destruct E as [E2 E]. clear E.
    apply pair_eq in E0, E1, E2. cbn [fst snd] in *. destruct E0 as [E0 F0], E1 as [E1 F1], E2 as [E2 F2].
    apply Xl in E2, E0, E1, F0, F1. rewrite E2 in E0, E1. apply Xr in E0, E1. subst x0' x1'. apply Xr in F0, F1, F2. apply D in F2. auto.
  - do 8 (destruct B as [|[? ?] B]; [discriminate LB|]). destruct B; [|discriminate LB].
    pose proof (branches_of a b c d 2 LL) as Y1. pose proof (branches_of a' b' c' d' 2 LL') as Y2.
    change (8 * 4 - 16)%nat with (8 * 2)%nat in E. change (bytes_branches 4) with (bytes_branches (2 + 2)) in E. rewrite Y1, Y2 in E. clear Y1 Y2.
    revert E. generalize (le_word a), (le_word b), (le_word c), (le_word d), (le_word a'), (le_word b'), (le_word c'), (le_word d').
    intros x0 y0 x1 y1 x0' y0' x1' y1' E. unfold M_h, add_dom, xor_all in E.
    cbn [Nat.mul Nat.add Nat.sub seq map nth Nat.eqb fst snd repeat fold_left firstn skipn app map2 xor_br] in E. rewrite !N.lxor_0_l, !N.lxor_0_r in E.
    apply cons_eq in E. destruct E as [E0 E]. apply cons_eq in E. destruct E as [E1 E]. apply cons_eq in E. destruct E as [E2 E]. apply cons_eq in E. destruct E as [E3 E]. clear E E2.
    apply pair_eq in E0, E1, E3. cbn [fst snd] in *. destruct E0 as [E0 F0], E1 as [E1 F1], E3 as [E2 F2].
    apply Xl in E2, E0, E1, F0, F1. rewrite E2 in E0, E1. apply Xr in E0, E1. subst x0' x1'. apply Xr in F0, F1, F2. apply D in F2. auto.
Qed.
Lemma esch_absorbed_ok h l : h = 3%nat \/ h = 4%nat -> Forall eblock l -> st_ok h (fold_left (esch_step h) l (repeat (0, 0) (2 * h))).
Proof.
  intros Hh V. pose proof (zero_ok h Hh) as Z. revert Z. generalize (repeat (0, 0)%N (2 * h)) as B. induction V as [|[o P] l (LP & OP & HO) Hl IH]; intros B HB; [exact HB|].
  cbn [fold_left fst snd] in *. apply IH. unfold esch_step, esch_absorb. cbn [fst snd].
  destruct o as [d|]; (apply sparkle_p_ok; [destruct Hh; subst; lia|]); apply inject_ok; auto using esch_dom_ok.
Qed.
Lemma esch_blocks_ok xof m : is_bytes m -> exists q d P, esch_inputs xof m = q ++ [(Some d, P)] /\ Forall eblock q /\ d < 8 /\ length P = 16%nat /\ bytes_ok P.
Proof.
  intros Hm. unfold esch_inputs. cbv zeta. eexists _, _, _. split; [reflexivity|].
  pose proof (Nat.div_mod (length m - 1) 16 ltac:(lia)) as DM. pose proof (Nat.mod_upper_bound (length m - 1) 16 ltac:(lia)) as UB.
  fold (esch_split m) in DM.
  split; [|split; [destruct (_ =? _)%nat, xof; reflexivity|]].
  - assert (C : (length (firstn (16 * esch_split m) m) mod 16 = 0)%nat).
    { rewrite firstn_length, Nat.min_l by lia. rewrite Nat.mul_comm. apply Nat.mod_mul. lia. }
    pose proof (blocks_lengths 16 _ ltac:(lia) C) as L. pose proof (blocks_concat 16 _ ltac:(lia) C) as CC.
    assert (O : bytes_ok (concat (blocks 16 (firstn (16 * esch_split m) m)))) by (rewrite CC; apply Forall_firstn; exact Hm).
    clear CC. induction (blocks 16 (firstn (16 * esch_split m) m)) as [|b l IH]; [constructor|]. cbn [map concat] in *.
    apply Forall_app in O. destruct O as [O1 O2]. inversion L; subst. constructor; [|auto]. split; [assumption|]. split; [exact O1|exact I].
  - assert (L : (length (skipn (16 * esch_split m) m) <= 16)%nat) by (rewrite skipn_length; lia).
    destruct (Nat.eqb_spec (length (skipn (16 * esch_split m) m)) 16) as [F|F].
    + split; [exact F|apply Forall_skipn; exact Hm].
    + split; [rewrite !app_length, zeros_length; cbn [length]; lia|]. apply bytes_ok_app; [apply Forall_skipn; exact Hm|].
      apply bytes_ok_app; [repeat constructor|apply bytes_ok_zeros].
Qed.
Lemma nps_dec : dec (list (N * N)).
Proof. intros a b. destruct (list_eq_dec (fun x y : N * N => ltac:(decide equality; apply N.eq_dec)) a b); auto. Qed.
Lemma esch_equal h xof n m1 m2 : h = 3%nat \/ h = 4%nat -> is_bytes m1 -> is_bytes m2 -> m1 <> m2 ->
  squeeze_stream (sparkle_p (slim h)) branches_bytes 16 n (fold_left (esch_step h) (esch_inputs xof m1) (repeat (0, 0) (2 * h))) =
  squeeze_stream (sparkle_p (slim h)) branches_bytes 16 n (fold_left (esch_step h) (esch_inputs xof m2) (repeat (0, 0) (2 * h))) ->
  esch_inner_or_out h n (esch_inputs xof m1) (esch_inputs xof m2).
Proof.
  intros Hh M1 M2 N E. unfold esch_inner_or_out. cbv zeta.
  destruct (nps_dec (fold_left (esch_step h) (esch_inputs xof m1) (repeat (0, 0) (2 * h))) (fold_left (esch_step h) (esch_inputs xof m2) (repeat (0, 0) (2 * h)))) as [X|X];
    [left|right; split; assumption].
  destruct (esch_blocks_ok xof m1 M1) as (q1 & d1 & P1 & E1 & V1 & D1 & L1 & O1), (esch_blocks_ok xof m2 M2) as (q2 & d2 & P2 & E2 & V2 & D2 & L2 & O2).
  rewrite E1, E2 in X |- *. rewrite !removelast_last, !last_last. rewrite !fold_left_app in X. cbn [fold_left] in X. unfold esch_step at 1 3 in X. cbn [fst snd] in X.
  pose proof (esch_absorbed_ok h q1 Hh V1) as S1. pose proof (esch_absorbed_ok h q2 Hh V2) as S2.
  apply (sparkle_p_inj h) in X; [|destruct Hh; subst; lia|apply inject_ok; auto using esch_dom_ok..].
  split; [|exact X]. intros F. subst q2. destruct S1 as [LB _].
  destruct (esch_last_inj h d1 d2 _ P1 P2 Hh LB L1 L2 O1 O2 X) as [-> ->]. apply N, (esch_inputs_inj xof m1 m2 M1 M2). congruence.
Qed.
