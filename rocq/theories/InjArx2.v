(** * Sparkle, the rounds of BLAKE and BLAKE2, Threefish and the LSH steps are injective (C54). *)
From Verif Require Import Base Lemmas WordLemmas TableLemmas SpecCommon EschSpec Esch EschProof Blake2Spec Blake2 Blake2Proof BlakeSpec Blake BlakeProof
  SkeinSpec SkeinProof LshSpec Lsh LshProof PadInj Inj InjArx.
From Coq Require Import ZArith Lia.

Lemma map2_inj {A B C} (f : A -> B -> C) (P : A -> Prop) (Q : B -> Prop) : (forall a, P a -> inj_on Q (f a)) ->
  forall l x y, Forall P l -> Forall Q x -> Forall Q y -> length x = length y -> (length x <= length l)%nat ->
  map2 f l x = map2 f l y -> x = y.
Proof.
  intros F l. induction l as [|a l IH]; intros x y Hl Hx Hy L G E.
  - destruct x; [|cbn in G; lia]. destruct y; [reflexivity|discriminate L].
  - destruct x as [|u x], y as [|v y]; try discriminate L; [reflexivity|]. cbn [map2] in E.
    inversion Hl; inversion Hx; inversion Hy; subst. injection E as E0 E1. cbn [length] in *. f_equal.
    + apply (F a); auto.
    + apply IH; auto; lia.
Qed.

(** ** Sparkle *)
Lemma rot0_word r x : r < 32 -> word 32 x -> word 32 (rot0 r x).
Proof. intros. unfold rot0. destruct (N.eqb_spec r 0); [assumption|]. wd. Qed.
Lemma alz_round_inj c r : fst r < 32 -> inj_on br_ok (fun p => alz_round c p r).
Proof.
  intros Hr [x y] [x' y'] [Hx Hy] [Hx' Hy'] E. unfold alz_round in E. cbn [fst snd] in *.
  injection E as E1 E2. apply lxor_inj_r in E1. rewrite E1 in E2. apply lxor_inj_r in E2. subst y'.
  apply pm_inj_r in E1; [congruence|assumption..].
Qed.
Lemma alz_round_ok c r p : fst r < 32 -> snd r < 32 -> word 32 c -> br_ok p -> br_ok (alz_round c p r).
Proof.
  intros H0 H1 Hc. destruct p as [x y]. intros [Hx Hy]. unfold alz_round, br_ok. cbn [fst snd] in *.
  split; apply lxor_lt; auto; try apply pm_word. apply rot0_word; auto. apply pm_word.
Qed.
Lemma alzette_inj c : word 32 c -> inj_on br_ok (alzette c) /\ forall p, br_ok p -> br_ok (alzette c p).
Proof.
  intros Hc. unfold alzette. apply (inj_fold br_ok (alz_round c) (fun r => fst r < 32 /\ snd r < 32)).
  - intros r [H _]. apply alz_round_inj. exact H.
  - intros r p [H0 H1] Hp. apply alz_round_ok; auto.
  - repeat constructor.
Qed.
Lemma rot1_inj {A} (x y : list A) : length x = length y -> rot1 x = rot1 y -> x = y.
Proof.
  destruct x as [|a x], y as [|b y]; try discriminate; [reflexivity|]. cbn [length rot1]. intros L E.
  apply app_inj_tail in E. destruct E. congruence.
Qed.
Lemma xor_br_inj_l : forall L x y, length x = length y -> (length x <= length L)%nat -> map2 xor_br x L = map2 xor_br y L -> x = y.
Proof.
  induction L as [|a L IH]; intros x y Len G E.
  - destruct x; [|cbn in G; lia]. destruct y; [reflexivity|discriminate Len].
  - destruct x as [|[u u'] x], y as [|[v v'] y]; try discriminate Len; [reflexivity|]. cbn [map2] in E. cbn [length] in *.
    unfold xor_br at 1 3 in E. cbn [fst snd] in E. injection E as E0 E1 E2. apply lxor_inj_r in E0, E1. f_equal; [congruence|].
    apply IH; auto; lia.
Qed.
Lemma rot1_length {A} (l : list A) : length (rot1 l) = length l.
Proof. destruct l; [reflexivity|]. cbn. rewrite app_length. cbn. lia. Qed.
Lemma lin_inj h : inj_on (fun B => length B = 2 * h)%nat lin.
Proof.
  intros A B HA HB E. unfold lin in E. rewrite HA, HB in E. replace (2 * h / 2)%nat with h in E by (rewrite Nat.mul_comm, Nat.div_mul; lia).
  assert (M : forall X, length (M_h X) = length X) by (intros; unfold M_h; apply map_length).
  apply app_inj_head_len in E.
  2:{ rewrite !rot1_length, !map2_length, !M, !skipn_length, !firstn_length. lia. }
  destruct E as [E0 E1]. rewrite E1 in E0. apply rot1_inj in E0.
  2:{ rewrite !map2_length, !M, !skipn_length, !firstn_length. lia. }
  apply xor_br_inj_l in E0; [|rewrite !skipn_length; lia|rewrite M, skipn_length, firstn_length; lia].
  rewrite <- (firstn_skipn h A), <- (firstn_skipn h B). congruence.
Qed.
Lemma sparkle_step_inj h s : (h <= 4)%nat -> inj_on (st_ok h) (fun B => sparkle_step B s).
Proof.
  intros Hh A B [LA HA] [LB HB] E. unfold sparkle_step in E.
  set (f := fun X : list (N * N) => match X with
    | (x0, y0) :: (x1, y1) :: r => (x0, N.lxor y0 (nth (s mod 8) sparkle_c 0)) :: (x1, N.lxor y1 (N.of_nat s mod 2 ^ 32)) :: r
    | _ => X end). change (lin (map2 alzette sparkle_c (f A)) = lin (map2 alzette sparkle_c (f B))) in E.
  assert (Lf : forall X, length (f X) = length X) by (intros [|[x0 y0] [|[x1 y1] X]]; reflexivity).
  assert (Pf : forall X, Forall br_ok X -> Forall br_ok (f X)).
  { intros [|[x0 y0] [|[x1 y1] X]] HX; cbn [f]; auto. inversion HX as [|? ? [U0 V0] HX']; subst. inversion HX' as [|? ? [U1 V1] HX'']; subst. cbn [fst snd] in *.
    repeat constructor; cbn [fst snd]; auto; apply lxor_lt; auto. apply sparkle_c_lt. apply N.mod_upper_bound. discriminate. }
  assert (C8 : length sparkle_c = 8%nat) by reflexivity.
  apply (lin_inj h) in E; [|rewrite map2_length, Lf; lia|rewrite map2_length, Lf; lia].
  apply (map2_inj alzette (word 32) br_ok) in E; auto; [| | |rewrite !Lf; lia|rewrite Lf; lia].
  - destruct A as [|[x0 y0] [|[x1 y1] A]], B as [|[x0' y0'] [|[x1' y1'] B]]; cbn [f length] in *; try lia; try congruence.
    injection E as E0 E1 E2 E3 E4. apply lxor_inj_r in E1, E3. congruence.
  - intros c Hc. apply alzette_inj. exact Hc.
  - repeat constructor.
Qed.
Local Transparent sparkle_p.
Lemma sparkle_p_inj h ns : (h <= 4)%nat -> inj_on (st_ok h) (sparkle_p ns).
Proof.
  intros Hh. assert (E : sparkle_p ns = fun B => fold_left sparkle_step (seq 0 ns) B) by reflexivity. rewrite E.
  apply (inj_fold (st_ok h) sparkle_step (fun _ => True)).
  - intros i _. apply sparkle_step_inj. exact Hh.
  - intros i B _ HB. apply sparkle_step_ok; auto.
  - apply Forall_forall. auto.
Qed.

(** ** BLAKE and BLAKE2 *)
Lemma nth_upd_same : forall (l : list N) i v, (i < length l)%nat -> nthN i (upd i v l) = v.
Proof. induction l as [|a l IH]; intros i v H; [cbn in H; lia|]. destruct i; [reflexivity|]. cbn in *. apply IH. lia. Qed.
Lemma nth_upd_other : forall (l : list N) i j v, i <> j -> nthN i (upd j v l) = nthN i l.
Proof.
  induction l as [|a l IH]; intros i j v H; [destruct j; reflexivity|]. destruct i, j; try reflexivity; [lia|]. cbn. apply IH. lia.
Qed.
Definition wlist (w : N) (n : nat) (l : list N) : Prop := length l = n /\ Forall (word w) l.
Lemma wlist_nth w n l i : wlist w n l -> (i < n)%nat -> word w (nthN i l).
Proof. intros [L H] Hi. apply (proj1 (Forall_forall _ _) H). apply nth_In. lia. Qed.
Lemma wlist_upd w n l i v : wlist w n l -> word w v -> wlist w n (upd i v l).
Proof.
  intros [L H] Hv. split; [rewrite SkeinProof.upd_length; exact L|]. clear L. revert i. induction H; intros i; destruct i; cbn [upd]; auto.
Qed.
Lemma upd4_inj (n ia ib ic id : nat) (l l' : list N) a b c d a' b' c' d' :
  NoDup [ia; ib; ic; id] -> (ia < n)%nat -> (ib < n)%nat -> (ic < n)%nat -> (id < n)%nat -> length l = n -> length l' = n ->
  upd id d (upd ic c (upd ib b (upd ia a l))) = upd id d' (upd ic c' (upd ib b' (upd ia a' l'))) ->
  a = a' /\ b = b' /\ c = c' /\ d = d' /\ forall i, ~ In i [ia; ib; ic; id] -> nthN i l = nthN i l'.
Proof.
  intros ND Ia Ib Ic Id L L' E. inversion ND as [|? ? Na ND1]; subst. inversion ND1 as [|? ? Nb ND2]; subst. inversion ND2 as [|? ? Nc _]; subst.
  cbn [In] in *. assert (Q : forall i, nthN i (upd id d (upd ic c (upd ib b (upd ia a l)))) = nthN i (upd id d' (upd ic c' (upd ib b' (upd ia a' l')))))
    by (intros; rewrite E; reflexivity).
  pose proof (Q ia) as Qa. pose proof (Q ib) as Qb. pose proof (Q ic) as Qc. pose proof (Q id) as Qd.
  assert (D : ib <> ia /\ ic <> ia /\ id <> ia /\ ic <> ib /\ id <> ib /\ id <> ic) by (repeat split; intros Z; subst; tauto).
  destruct D as (D1 & D2 & D3 & D4 & D5 & D6).
  rewrite !(nth_upd_other _ ia id), !(nth_upd_other _ ia ic), !(nth_upd_other _ ia ib) in Qa by auto.
  rewrite !(nth_upd_other _ ib id), !(nth_upd_other _ ib ic) in Qb by auto.
  rewrite !(nth_upd_other _ ic id) in Qc by auto.
  rewrite !nth_upd_same in Qa by (rewrite ?SkeinProof.upd_length; lia).
  rewrite !nth_upd_same in Qb by (rewrite ?SkeinProof.upd_length; lia).
  rewrite !nth_upd_same in Qc by (rewrite ?SkeinProof.upd_length; lia).
  rewrite !nth_upd_same in Qd by (rewrite ?SkeinProof.upd_length; lia).
  do 4 (split; [assumption|]). intros i Hi. specialize (Q i). 
  rewrite !(nth_upd_other _ i id), !(nth_upd_other _ i ic), !(nth_upd_other _ i ib), !(nth_upd_other _ i ia) in Q by (intros Z; apply Hi; rewrite Z; tauto).
  exact Q.
Qed.
Definition half_G (w r s x : N) (q : N * N * N * N) : N * N * N * N :=
  let '(a, b, c, d) := q in
  let a := plus_mod w (plus_mod w a b) x in
  let d := ROTR w r (N.lxor d a) in
  let c := plus_mod w c d in
  (a, ROTR w s (N.lxor b c), c, d).
Lemma half_G_inj w r s x : 0 < r < w -> 0 < s < w -> inj_on (wreg4 w) (half_G w r s x).
Proof.
  intros H1 H2 [[[a b] c] d] [[[a' b'] c'] d'] (Ha & Hb & Hc & Hd) (Ha' & Hb' & Hc' & Hd') E. unfold half_G in E. cbv zeta in E.
  assert (In : forall (x y z t x' y' z' t' : N), (x, y, z, t) = (x', y', z', t') -> x = x' /\ y = y' /\ z = z' /\ t = t')
    by (intros; repeat split; congruence).
  apply In in E. destruct E as (Ea & Eb & Ec & Ed). rewrite Ec in Eb. rewrite Ed in Ec. rewrite Ea in Ed.
  repeat peel. reflexivity.
Qed.
Lemma half_G_word w r s x q : 0 < r < w -> 0 < s < w -> wreg4 w q -> wreg4 w (half_G w r s x q).
Proof. intros H1 H2. destruct q as [[[a b] c] d]. intros (Ha & Hb & Hc & Hd). unfold half_G. cbv zeta. repeat split; wd. Qed.
Lemma pat_inj w r1 r2 r3 r4 q x y : 0 < r1 < w -> 0 < r2 < w -> 0 < r3 < w -> 0 < r4 < w -> In q quads ->
  inj_on (wlist w 16) (pat_list (plus_mod w) N.lxor (ROTR w r1) (ROTR w r2) (ROTR w r3) (ROTR w r4) q x y).
Proof.
  intros H1 H2 H3 H4 Hq A B HA HB E. destruct q as [[[ia ib] ic] id]. unfold pat_list in E.
  assert (K : NoDup [ia; ib; ic; id] /\ (ia < 16 /\ ib < 16 /\ ic < 16 /\ id < 16)%nat).
  { unfold quads in Hq. cbn [In] in Hq. repeat destruct Hq as [Hq|Hq]; [injection Hq as <- <- <- <-..|destruct Hq];
      (split; [|lia]); repeat constructor; cbn; lia. }
  destruct K as (ND & Ia & Ib & Ic & Id). pose proof HA as [LA _]. pose proof HB as [LB _].
  pose proof (wlist_nth _ _ _ _ HA Ia). pose proof (wlist_nth _ _ _ _ HA Ib). pose proof (wlist_nth _ _ _ _ HA Ic). pose proof (wlist_nth _ _ _ _ HA Id).
  pose proof (wlist_nth _ _ _ _ HB Ia). pose proof (wlist_nth _ _ _ _ HB Ib). pose proof (wlist_nth _ _ _ _ HB Ic). pose proof (wlist_nth _ _ _ _ HB Id).
  cbv zeta in E. apply (upd4_inj 16) in E; auto. destruct E as (Ea & Eb & Ec & Ed & Eo).
  assert (N4 : nthN ia A = nthN ia B /\ nthN ib A = nthN ib B /\ nthN ic A = nthN ic B /\ nthN id A = nthN id B).
  { assert (F : half_G w r3 r4 y (half_G w r1 r2 x (nthN ia A, nthN ib A, nthN ic A, nthN id A)) =
                half_G w r3 r4 y (half_G w r1 r2 x (nthN ia B, nthN ib B, nthN ic B, nthN id B))).
    { unfold half_G. cbv zeta. exact (f_equal2 pair (f_equal2 pair (f_equal2 pair Ea Eb) Ec) Ed). }
    apply half_G_inj in F; [|lia|lia|apply half_G_word; auto; cbn; auto|apply half_G_word; auto; cbn; auto].
    apply half_G_inj in F; [|lia|lia|cbn; auto|cbn; auto]. repeat split; congruence. }
  apply (nth_ext A B 0 0); [congruence|]. intros i _. change (nthN i A = nthN i B).
  destruct (in_dec Nat.eq_dec i [ia; ib; ic; id]) as [Hi|Hi]; [|auto].
  cbn [In] in Hi. destruct N4 as (? & ? & ? & ?). repeat destruct Hi as [<-|Hi]; auto; destruct Hi.
Qed.

Lemma pat_word w r1 r2 r3 r4 q x y l : 0 < r1 < w -> 0 < r2 < w -> 0 < r3 < w -> 0 < r4 < w -> In q quads ->
  wlist w 16 l -> wlist w 16 (pat_list (plus_mod w) N.lxor (ROTR w r1) (ROTR w r2) (ROTR w r3) (ROTR w r4) q x y l).
Proof.
  intros H1 H2 H3 H4 Hq H. destruct q as [[[ia ib] ic] id]. unfold pat_list. cbv zeta.
  assert (K : (ia < 16 /\ ib < 16 /\ ic < 16 /\ id < 16)%nat).
  { unfold quads in Hq. cbn [In] in Hq. repeat destruct Hq as [Hq|Hq]; [injection Hq as <- <- <- <-..|destruct Hq]; lia. }
  destruct K as (Ia & Ib & Ic & Id).
  pose proof (wlist_nth _ _ _ _ H Ia). pose proof (wlist_nth _ _ _ _ H Ib). pose proof (wlist_nth _ _ _ _ H Ic). pose proof (wlist_nth _ _ _ _ H Id).
  repeat apply wlist_upd; auto; wd.
Qed.

(** A state of sixteen words as a function. *)
Lemma l16_nthN l : length l = 16%nat -> l16 (fun i => nthN i l) = l.
Proof. intros H. list_cases l H. reflexivity. Qed.

Definition quad_inj (w : N) (f : list N -> list N) : Prop := inj_on (wlist w 16) f /\ forall l, wlist w 16 l -> wlist w 16 (f l).
Lemma quad_comp w f g : quad_inj w f -> quad_inj w g -> quad_inj w (fun l => g (f l)).
Proof. intros [F F'] [G G']. split; [exact (inj_comp _ _ f g F F' G)|auto]. Qed.
Lemma quad_ext w f g : (forall l, length l = 16%nat -> f l = g l) -> quad_inj w f -> quad_inj w g.
Proof.
  intros E [F F']. split.
  - intros a b [La Ha] [Lb Hb] H. rewrite <- !E in H by auto. apply F; auto; split; auto.
  - intros l [L Hl]. rewrite <- E by exact L. apply F'. split; auto.
Qed.

Lemma b2_round_inj w M r : w = 64 \/ w = 32 -> (r < 12)%nat -> quad_inj w (fun l => b2_round w M l r).
Proof.
  intros Hw Hr. assert (S : forall i ia ib ic id, (i < 8)%nat -> In (ia, ib, ic, id) quads -> quad_inj w (b2_G w r i ia ib ic id M)).
  { intros i ia ib ic id Hi Hq. eapply quad_ext.
    - intros l Hl. symmetry. rewrite b2_G_split by auto.
      match goal with |- b2_G' _ ?q ?x ?y l = _ => transitivity (pat_list (plus_mod w) N.lxor (ROTR w (R1 w)) (ROTR w (R2 w)) (ROTR w (R3 w)) (ROTR w (R4 w)) q x y l) end;
        [|reflexivity]. unfold b2_G', pat_list. rewrite !addw_plus, !rotr_ROTR. reflexivity.
    - split; [apply pat_inj|intros; apply pat_word]; auto; destruct Hw; subst w; cbv; auto. }
  unfold b2_round. cbv zeta.
  repeat (refine (quad_comp w _ (b2_G w r _ _ _ _ _ M) _ (S _ _ _ _ _ _ _)); [|lia|unfold quads; cbn [In]; tauto]).
  split; [intros a b _ _ E; exact E|auto].
Qed.
Lemma b2_rounds_inj w M n : w = 64 \/ w = 32 -> (n <= 12)%nat -> quad_inj w (fun l => fold_left (b2_round w M) (seq 0 n) l).
Proof.
  intros Hw Hn. apply (inj_fold (wlist w 16) (b2_round w M) (fun r => r < 12)%nat).
  - intros r Hr. apply b2_round_inj; auto.
  - intros r l Hr Hl. apply (b2_round_inj w M r); auto.
  - apply Forall_forall. intros r Hr. apply in_seq in Hr. lia.
Qed.
Lemma bl_round_inj w M r : w = 64 \/ w = 32 -> quad_inj w (fun l => bl_round w M l r).
Proof.
  intros Hw. assert (S : forall i ia ib ic id, (i < 8)%nat -> In (ia, ib, ic, id) quads -> quad_inj w (bl_G w r i ia ib ic id M)).
  { intros i ia ib ic id Hi Hq. eapply quad_ext.
    - intros l Hl. symmetry. unfold bl_G. rewrite bl_rots_eq. cbv zeta. 
      match goal with |- context [addw w (addw w (nthN ia l) (nthN ib l)) ?x] =>
        match goal with |- context [addw w (addw w (addw w (addw w (nthN ia l) (nthN ib l)) x) _) ?y] =>
        transitivity (pat_list (plus_mod w) N.lxor (ROTR w (BR1 w)) (ROTR w (BR2 w)) (ROTR w (BR3 w)) (ROTR w (BR4 w)) (ia, ib, ic, id) x y l) end end;
        [|reflexivity]. unfold pat_list. rewrite !addw_plus, !rotr_ROTR. reflexivity.
    - split; [apply pat_inj|intros; apply pat_word]; auto; destruct Hw; subst w; cbv; auto. }
  unfold bl_round. cbv zeta.
  repeat (refine (quad_comp w _ (bl_G w r _ _ _ _ _ M) _ (S _ _ _ _ _ _ _)); [|lia|unfold quads; cbn [In]; tauto]).
  split; [intros a b _ _ E; exact E|auto].
Qed.
Lemma bl_rounds_inj w M l : w = 64 \/ w = 32 -> quad_inj w (fun v => fold_left (bl_round w M) l v).
Proof.
  intros Hw. apply (inj_fold (wlist w 16) (bl_round w M) (fun _ => True)).
  - intros r _. apply bl_round_inj; auto.
  - intros r v _ Hv. apply (bl_round_inj w M r); auto.
  - apply Forall_forall. auto.
Qed.

(** ** Threefish *)
Lemma tf_R_lt nw d j : nth j (nth (d mod 8) (tf_R nw) []) 0 < 64.
Proof.
  assert (B : forallb (fun row => forallb (fun x => x <? 64) row) (tf_R nw) = true)
    by (unfold tf_R; destruct (nw =? 4)%nat; [reflexivity|]; destruct (nw =? 8)%nat; reflexivity).
  rewrite forallb_forall in B. destruct (Nat.lt_ge_cases (d mod 8) (length (tf_R nw))) as [L|L].
  - specialize (B _ (nth_In _ [] L)). rewrite forallb_forall in B. destruct (Nat.lt_ge_cases j (length (nth (d mod 8) (tf_R nw) []))) as [L'|L'].
    + specialize (B _ (nth_In _ 0 L')). apply N.ltb_lt in B. exact B.
    + rewrite (nth_overflow _ 0) by exact L'. reflexivity.
  - rewrite (nth_overflow _ []) by exact L. destruct j; reflexivity.
Qed.
Lemma nth_map_seq' {A} (f : nat -> A) n i d : (i < n)%nat -> nth i (map f (seq 0 n)) d = f i.
Proof. intros H. rewrite (nth_indep _ d (f 0%nat)) by (rewrite map_length, seq_length; exact H). rewrite map_nth, seq_nth by exact H. reflexivity. Qed.
Lemma tf_addkey_inj nw K t0 t1 s : inj_on (wlist 64 nw) (tf_addkey nw K t0 t1 s).
Proof.
  intros A B HA HB E. pose proof HA as [LA _]. pose proof HB as [LB _]. apply (nth_ext A B 0 0); [congruence|]. intros i Hi. rewrite LA in Hi.
  apply (f_equal (fun l => nth i l 0)) in E. unfold tf_addkey in E. rewrite !nth_map_seq' in E by exact Hi.
  apply pm_inj_r in E; [exact E|..]; apply (wlist_nth _ nw); auto.
Qed.
Lemma tf_addkey_word nw K t0 t1 s l : wlist 64 nw (tf_addkey nw K t0 t1 s l).
Proof.
  split; [unfold tf_addkey; rewrite map_length; apply seq_length|]. apply Forall_forall. intros x Hx. apply in_map_iff in Hx. destruct Hx as (i & <- & _). apply pm_word.
Qed.
Lemma mix_inj r a b a' b' : r < 64 -> word 64 a -> word 64 b -> word 64 a' -> word 64 b' ->
  plus_mod 64 a b = plus_mod 64 a' b' -> N.lxor (ROTL 64 r b) (plus_mod 64 a b) = N.lxor (ROTL 64 r b') (plus_mod 64 a' b') -> a = a' /\ b = b'.
Proof. intros Hr Ha Hb Ha' Hb' E F. rewrite E in F. repeat peel. auto. Qed.
Definition tf_mixes (nw : nat) (R : nat -> N) (v : list N) : list N :=
  tf_permute nw (flat_map (fun j => let x0 := nth (2 * j) v 0 in let x1 := nth (2 * j + 1) v 0 in let y0 := plus_mod 64 x0 x1 in
    [y0; N.lxor (ROTL 64 (R j) x1) y0]) (seq 0 (nw / 2))).
Lemma cons_eq {A} (a b : A) l m : a :: l = b :: m -> a = b /\ l = m.
Proof. intros E. injection E. auto. Qed.
Lemma tf_mixes_inj nw R : nw = 4%nat \/ nw = 8%nat \/ nw = 16%nat -> (forall j, R j < 64) -> inj_on (wlist 64 nw) (tf_mixes nw R).
Proof.
  intros Hn HR A B [LA HA] [LB HB] E.
  destruct Hn as [-> | [-> | ->]]; list_cases A LA; list_cases B LB;
    repeat match goal with H : Forall _ (_ :: _) |- _ => inversion H; clear H; subst end;
    cbv -[plus_mod N.lxor ROTL] in E;
    repeat (apply cons_eq in E; let E' := fresh "E" in destruct E as [E' E]); clear E;
    repeat match goal with
    | F : plus_mod 64 ?a ?b = plus_mod 64 ?a' ?b', G : N.lxor (ROTL 64 ?r ?b) (plus_mod 64 ?a ?b) = N.lxor (ROTL 64 ?r ?b') (plus_mod 64 ?a' ?b') |- _ =>
        let P := fresh "P" in pose proof (mix_inj r a b a' b' (HR _) ltac:(assumption) ltac:(assumption) ltac:(assumption) ltac:(assumption) F G) as P;
        clear F G; destruct P as [-> ->] end; reflexivity.
Qed.
Lemma tf_mixes_word nw R v : nw = 4%nat \/ nw = 8%nat \/ nw = 16%nat -> (forall j, R j < 64) -> wlist 64 nw v -> wlist 64 nw (tf_mixes nw R v).
Proof.
  intros Hn HR [L H]. split; [unfold tf_mixes, tf_permute, tf_pi; rewrite map_length; destruct Hn as [-> | [-> | ->]]; reflexivity|].
  destruct Hn as [-> | [-> | ->]]; list_cases v L; repeat match goal with H : Forall _ (_ :: _) |- _ => inversion H; clear H; subst end;
    cbv -[plus_mod N.lxor ROTL word]; repeat (apply Forall_cons; [first [apply pm_word|apply xor_word; [apply ROTL_word; [assumption|apply HR]|apply pm_word]]|]); apply Forall_nil.
Qed.
Lemma tf_round_eq nw K t0 t1 v d : tf_round nw K t0 t1 v d =
  tf_mixes nw (fun j => nth j (nth (d mod 8) (tf_R nw) []) 0) (if (d mod 4 =? 0)%nat then tf_addkey nw K t0 t1 (d / 4) v else v).
Proof. reflexivity. Qed.
Lemma threefish_inj nw K t0 t1 : nw = 4%nat \/ nw = 8%nat \/ nw = 16%nat -> inj_on (wlist 64 nw) (threefish nw K t0 t1).
Proof.
  intros Hn. assert (F : inj_on (wlist 64 nw) (fun P => fold_left (tf_round nw K t0 t1) (seq 0 (tf_rounds nw)) P) /\
    forall P, wlist 64 nw P -> wlist 64 nw (fold_left (tf_round nw K t0 t1) (seq 0 (tf_rounds nw)) P)).
  { assert (W : forall d v, wlist 64 nw v -> wlist 64 nw (if (d mod 4 =? 0)%nat then tf_addkey nw K t0 t1 (d / 4) v else v))
      by (intros; destruct (_ =? _)%nat; auto using tf_addkey_word).
    apply (inj_fold (wlist 64 nw) (tf_round nw K t0 t1) (fun _ => True)).
    - intros d _ A B HA HB E. rewrite !tf_round_eq in E. apply tf_mixes_inj in E; auto using tf_R_lt.
      destruct (d mod 4 =? 0)%nat; [apply tf_addkey_inj in E; auto|exact E].
    - intros d v _ Hv. rewrite tf_round_eq. apply tf_mixes_word; auto using tf_R_lt.
    - apply Forall_forall. auto. }
  destruct F as [F F']. intros A B HA HB E. unfold threefish in E. apply tf_addkey_inj in E; auto.
Qed.

(** ** LSH *)
Lemma lss_rot w j l : w = 32 \/ w = 64 -> lss_alpha w j < w /\ lss_beta w j < w /\ lss_gamma w l < w.
Proof.
  intros [-> | ->]; unfold lss_alpha, lss_beta, lss_gamma; cbn [N.eqb Pos.eqb]; (repeat split); try (destruct (Nat.even j); lia);
    (do 8 (destruct l; [cbn; lia|])); destruct l; cbn; lia.
Qed.
Lemma lss_SC_word w j l : w = 32 \/ w = 64 -> word w (nth l (lss_SC w j) 0).
Proof.
  intros Hw. assert (F : Forall (word w) (lss_SC w j)).
  { induction j; cbn [lss_SC]; [destruct Hw; subst; repeat constructor|]. apply Forall_forall. intros x Hx. apply in_map_iff in Hx.
    destruct Hx as (i & <- & _). apply pm_word. }
  destruct (Nat.lt_ge_cases l (length (lss_SC w j))) as [L|L].
  - apply (proj1 (Forall_forall _ _) F). apply nth_In. exact L.
  - rewrite nth_overflow by exact L. destruct Hw; subst; reflexivity.
Qed.
Lemma lss_mix_inj w j l x y x' y' : w = 32 \/ w = 64 -> word w x -> word w y -> word w x' -> word w y' ->
  lss_mix w j l x y = lss_mix w j l x' y' -> x = x' /\ y = y'.
Proof.
  intros Hw Hx Hy Hx' Hy' E. destruct (lss_rot w j l Hw) as (Ra & Rb & Rg). pose proof (lss_SC_word w j l Hw) as Hs.
  assert (W0 : 0 < w) by lia. unfold lss_mix in E. cbv zeta in E.
  assert (In : forall (x y x' y' : N), (x, y) = (x', y') -> x = x' /\ y = y') by (intros; split; congruence). apply In in E. destruct E as [Ex Ey].
  apply rotl_inj' in Ey; [|lia|lia|wd|wd]. rewrite Ey in Ex. apply pm_inj_r in Ex; [|wd|wd].
  rewrite Ex in Ey. repeat peel. auto.
Qed.
Lemma lss_mix_word w j l x y : w = 32 \/ w = 64 -> word w x -> word w y -> word w (fst (lss_mix w j l x y)) /\ word w (snd (lss_mix w j l x y)).
Proof.
  intros Hw Hx Hy. destruct (lss_rot w j l Hw) as (Ra & Rb & Rg). unfold lss_mix. cbn [fst snd]. split; wd.
Qed.
Lemma le_words_word w k : w = 8 * N.of_nat k -> forall n d, bytes_ok d -> Forall (word w) (le_words k n d).
Proof.
  intros ->. induction n; intros d Hd; cbn [le_words]; constructor.
  - unfold word. eapply N.lt_le_trans; [apply le_word_lt, Forall_firstn; exact Hd|]. rewrite N.pow_mul_r. change (2 ^ 8) with 256.
    apply N.pow_le_mono_r; [discriminate|]. pose proof (firstn_le_length k d). lia.
  - apply IHn. apply Forall_skipn. exact Hd.
Qed.
Lemma lss_M_word w b j : w = 32 \/ w = 64 -> bytes_ok b -> wlist w 16 (lss_M w b j).
Proof.
  intros Hw Hb. split; [apply lss_M_length|]. unfold lss_M.
  assert (G : Forall (word w) (fst (lss_MM w b j)) /\ Forall (word w) (snd (lss_MM w b j))); [|tauto].
  assert (Ew : w = 8 * N.of_nat (N.to_nat (w / 8))) by (destruct Hw; subst; reflexivity).
  induction j as [|j IH]; cbn [lss_MM fst snd].
  - split; apply le_words_word; auto. apply Forall_skipn. exact Hb.
  - destruct (lss_MM w b j) as [x y]. cbn [fst snd] in *. split; [tauto|]. apply Forall_forall. intros v Hv.
    apply in_map_iff in Hv. destruct Hv as (i & <- & _). apply pm_word.
Qed.
Lemma xor_lists_inj n : forall M A B, length M = n -> length A = n -> length B = n -> map2 N.lxor A M = map2 N.lxor B M -> A = B.
Proof.
  induction n; intros [|m M] [|a A] [|b B] LM LA LB E; try discriminate; [reflexivity|]. cbn [map2 length] in *. injection E as E0 E1.
  apply lxor_inj_r in E0. f_equal; [exact E0|]. apply (IHn M); congruence.
Qed.
Lemma xor_lists_word w n : forall A B, wlist w n A -> wlist w n B -> wlist w n (map2 N.lxor A B).
Proof.
  intros A B [LA HA] [LB HB]. split; [rewrite map2_length; lia|]. clear LA LB. revert B HB. induction HA; intros B HB; destruct HB; cbn [map2]; constructor; auto.
  apply xor_word; auto.
Qed.
Definition lss_inner (w : N) (j : nat) (T : list N) : list N :=
  let mixed l := lss_mix w j l (nth l T 0) (nth (l + 8) T 0) in
  let T := map (fun l => if (l <? 8)%nat then fst (mixed l) else snd (mixed (l - 8)%nat)) (seq 0 16) in
  map (fun l => nth (lss_sigma l) T 0) (seq 0 16).
Lemma lss_inner_mixed w j T l : (l < 8)%nat ->
  exists p q, (p < 16 /\ q < 16)%nat /\ lss_mix w j l (nth l T 0) (nth (l + 8) T 0) = (nth p (lss_inner w j T) 0, nth q (lss_inner w j T) 0) /\
    forall T', lss_mix w j l (nth l T' 0) (nth (l + 8) T' 0) = (nth p (lss_inner w j T') 0, nth q (lss_inner w j T') 0).
Proof.
  intros Hl.
  assert (S : forall k, (k < 16)%nat -> exists p, (p < 16)%nat /\ lss_sigma p = k).
  { intros k Hk. exists (nth k [9; 10; 8; 11; 1; 2; 0; 3; 12; 15; 14; 13; 4; 7; 6; 5]%nat 0%nat).
    do 16 (destruct k; [split; [cbn; lia|reflexivity]|]). lia. }
  destruct (S l ltac:(lia)) as (p & Hp & Ep). destruct (S (l + 8)%nat ltac:(lia)) as (q & Hq & Eq). exists p, q.
  assert (K : forall T, lss_mix w j l (nth l T 0) (nth (l + 8) T 0) = (nth p (lss_inner w j T) 0, nth q (lss_inner w j T) 0)).
  { intros U. unfold lss_inner. cbv zeta. rewrite (nth_map_seq' _ 16 p) by exact Hp. rewrite (nth_map_seq' _ 16 q) by exact Hq. rewrite Ep, Eq.
    rewrite (nth_map_seq' _ 16 l) by lia. rewrite (nth_map_seq' _ 16 (l + 8)) by lia.
    replace (l <? 8)%nat with true by (symmetry; apply Nat.ltb_lt; exact Hl). replace (l + 8 <? 8)%nat with false by (symmetry; apply Nat.ltb_ge; lia).
    replace (l + 8 - 8)%nat with l by lia. apply surjective_pairing. }
  auto.
Qed.
Lemma lss_inner_inj w j : w = 32 \/ w = 64 -> inj_on (wlist w 16) (lss_inner w j).
Proof.
  intros Hw A B HA HB E. pose proof HA as [LA _]. pose proof HB as [LB _]. 
  assert (P : forall l, (l < 8)%nat -> nth l A 0 = nth l B 0 /\ nth (l + 8) A 0 = nth (l + 8) B 0).
  { intros l Hl. destruct (lss_inner_mixed w j A l Hl) as (p & q & _ & _ & K). apply (lss_mix_inj w j l); auto;
      try (apply (wlist_nth w 16); auto; lia). rewrite !K, E. reflexivity. }
  apply (nth_ext A B 0 0); [congruence|]. intros i Hi. destruct (Nat.lt_ge_cases i 8) as [L|L]; [apply P; exact L|].
  replace i with (i - 8 + 8)%nat by lia. apply P. lia.
Qed.
Lemma lss_inner_word w j T : w = 32 \/ w = 64 -> wlist w 16 T -> wlist w 16 (lss_inner w j T).
Proof.
  intros Hw HT. split; [reflexivity|]. unfold lss_inner. cbv zeta.
  assert (F : Forall (word w) (map (fun l => if (l <? 8)%nat then fst (lss_mix w j l (nth l T 0) (nth (l + 8) T 0))
      else snd (lss_mix w j (l - 8) (nth (l - 8) T 0) (nth (l - 8 + 8) T 0))) (seq 0 16))).
  { apply Forall_forall. intros v Hv. apply in_map_iff in Hv. destruct Hv as (l & <- & Hl). apply in_seq in Hl.
    destruct (Nat.ltb_spec l 8); apply lss_mix_word; auto; apply (wlist_nth w 16); auto; lia. }
  apply Forall_forall. intros v Hv. apply in_map_iff in Hv. destruct Hv as (l & <- & Hl). apply in_seq in Hl.
  apply (proj1 (Forall_forall _ _) F). apply nth_In. rewrite map_length, seq_length. do 16 (destruct l; [cbn; lia|]). lia.
Qed.
Lemma lss_steps_inj w b l : w = 32 \/ w = 64 -> bytes_ok b -> quad_inj w (fun cv => fold_left (lss_step w b) l cv).
Proof.
  intros Hw Hb. apply (inj_fold (wlist w 16) (lss_step w b) (fun _ => True)).
  - intros j _ A B HA HB E. change (lss_inner w j (map2 N.lxor A (lss_M w b j)) = lss_inner w j (map2 N.lxor B (lss_M w b j))) in E.
    apply lss_inner_inj in E; auto using xor_lists_word, lss_M_word. apply (xor_lists_inj 16) in E; [exact E|apply lss_M_length|apply HA|apply HB].
  - intros j A _ HA. change (wlist w 16 (lss_inner w j (map2 N.lxor A (lss_M w b j)))). auto using lss_inner_word, xor_lists_word, lss_M_word.
  - apply Forall_forall. auto.
Qed.
Local Transparent lss_CF.
Lemma lss_CF_inj w b : w = 32 \/ w = 64 -> bytes_ok b -> quad_inj w (fun cv => lss_CF w cv b).
Proof.
  intros Hw Hb. destruct (lss_steps_inj w b (seq 0 (lss_steps w)) Hw Hb) as [F F']. split.
  - intros A B HA HB E. unfold lss_CF in E. apply (xor_lists_inj 16) in E; [auto|apply lss_M_length|apply F'; auto|apply F'; auto].
  - intros A HA. apply xor_lists_word; auto. apply lss_M_word; auto.
Qed.
