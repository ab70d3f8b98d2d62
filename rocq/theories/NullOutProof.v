(** * Proofs about squeeze(nullptr, 0). *)
From Coq Require Import Lia.
From Verif Require Import Base Absorb Hasher MdState Squeeze Library LibraryTypes Keccak Sha3 Shake Kmac K12 Ascon Esch Skein Blake2 NullOut.

Lemma bind_inv {A B} (a : res A) (f : A -> res B) r : bind a f = Ok r -> exists x, a = Ok x /\ f x = Ok r.
Proof. destruct a as [x| |w]; cbn; try discriminate. intros H. exists x. split; [reflexivity|exact H]. Qed.
Ltac inv H := let x := fresh "x" in let E := fresh "E" in
  apply bind_inv in H; destruct H as (x & E & H).
(* the outermost [if] *)
Ltac dif H := match type of H with (if ?b then _ else _) = _ => destruct b end.
Lemma bind_bind {A B C} (a : res A) (f : A -> res B) (g : B -> res C) :
  bind (bind a f) g = bind a (fun x => bind (f x) g).
Proof. destruct a; reflexivity. Qed.
Lemma bind_ext {A B} (a : res A) (f g : A -> res B) : (forall x, f x = g x) -> bind a f = bind a g.
Proof. intros H. destruct a; cbn; auto. Qed.

Lemma copy_load {A} (l : list N) pos (f : list N -> res A) :
  bind (load l pos 0) f = (_ <- copy_to_null false l pos 0 ;; f []).
Proof.
  unfold load, copy_to_null. cbn [Nat.eqb]. rewrite Nat.add_0_r.
  destruct (pos <=? length l)%nat; reflexivity.
Qed.

(** ** The position after an output loop *)
Lemma last_part r p n : (0 < r)%nat -> (p < n)%nat -> ((n - p) mod r <> 0)%nat ->
  (Nat.min (n - p) r < r /\ n <= p + Nat.min (n - p) r)%nat \/
  (p + Nat.min (n - p) r < n /\ (n - (p + Nat.min (n - p) r)) mod r <> 0)%nat.
Proof.
  intros Hr Hp Hm. destruct (Nat.lt_trichotomy (n - p) r) as [C|[C|C]].
  - left. rewrite Nat.min_l by lia. lia.
  - exfalso. apply Hm. rewrite C. apply Nat.mod_same. lia.
  - right. rewrite Nat.min_r by lia. split; [lia|].
    intros E. apply Hm. replace (n - p)%nat with ((n - (p + r)) + 1 * r)%nat by lia.
    rewrite Nat.mod_add by lia. exact E.
Qed.
Lemma ltb_ge a b : (b <= a)%nat -> (a <? b)%nat = false.
Proof. apply Nat.ltb_ge. Qed.
Lemma ltb_lt a b : (a < b)%nat -> (a <? b)%nat = true.
Proof. apply Nat.ltb_lt. Qed.

Lemma sq_loop_pos {C} (next : C -> C) emit r fuel : (0 < r)%nat -> forall c n p pos out c' pos' w,
  (p < n)%nat -> (n - p <= fuel)%nat -> ((n - p) mod r <> 0)%nat ->
  sq_loop next emit r fuel c n p pos out = Ok (c', pos', w) -> (pos' < r)%nat.
Proof.
  intros Hr. induction fuel as [|f IH]; intros c n p pos out c' pos' w Hp Hf Hm H; [lia|].
  cbn [sq_loop] in H. rewrite (ltb_lt _ _ Hp) in H. inv H.
  destruct (last_part r p n Hr Hp Hm) as [[A B]|[A B]].
  - destruct f; cbn [sq_loop] in H; rewrite (ltb_ge _ _ B) in H; injection H as _ <- _; exact A.
  - refine (IH _ n _ _ _ _ _ _ A _ B H). lia.
Qed.
Lemma esch_loop_pos hs fuel : forall H t n p pos out H' t' pos' w,
  (p < n)%nat -> (n - p <= fuel)%nat -> ((n - p) mod 16 <> 0)%nat ->
  esch_loop hs fuel H t n p pos out = Ok (H', t', pos', w) -> (pos' < 16)%nat.
Proof.
  induction fuel as [|f IH]; intros G t n p pos out c' t' pos' w Hp Hf Hm H; [lia|].
  cbn [esch_loop] in H. rewrite (ltb_lt _ _ Hp) in H. inv H.
  assert (Hr : (0 < 16)%nat) by lia.
  destruct (last_part 16 p n Hr Hp Hm) as [[A B]|[A B]].
  - destruct f; cbn [esch_loop] in H; rewrite (ltb_ge _ _ B) in H; injection H as _ _ <- _; exact A.
  - refine (IH _ _ n _ _ _ _ _ _ _ A _ B H). lia.
Qed.
Lemma sk_loop_pos nw hbk fuel : (0 < nw)%nat -> forall c n p out c' w,
  (p < n)%nat -> (n - p <= fuel)%nat -> ((n - p) mod (8 * nw) <> 0)%nat ->
  sk_loop nw hbk fuel c n p out = Ok (c', w) -> (spos c' < 8 * nw)%nat.
Proof.
  intros Hw. assert (Hr : (0 < 8 * nw)%nat) by lia.
  induction fuel as [|f IH]; intros c n p out c' w Hp Hf Hm H; [lia|].
  cbn [sk_loop] in H. rewrite (ltb_lt _ _ Hp) in H. do 3 inv H.
  destruct (last_part (8 * nw) p n Hr Hp Hm) as [[A B]|[A B]].
  - destruct f; cbn [sk_loop] in H; rewrite (ltb_ge _ _ B) in H; injection H as <- _; exact A.
  - refine (IH _ n _ _ _ _ A _ B H). lia.
Qed.
Lemma b2_loop_pos w ty ln s q fuel : (0 < b2_hb w)%nat -> forall c xo n p out c' xo' o,
  (p < n)%nat -> (n - p <= fuel)%nat -> ((n - p) mod b2_hb w <> 0)%nat ->
  b2_loop w ty ln s q fuel c xo n p out = Ok (c', xo', o) -> (spos c' < b2_hb w)%nat.
Proof.
  intros Hr. induction fuel as [|f IH]; intros c xo n p out c' xo' o Hp Hf Hm H; [lia|].
  cbn [b2_loop] in H. rewrite (ltb_lt _ _ Hp) in H. do 3 inv H.
  destruct (last_part (b2_hb w) p n Hr Hp Hm) as [[A B]|[A B]].
  - destruct f; cbn [b2_loop] in H; rewrite (ltb_ge _ _ B) in H; injection H as <- _ _; exact A.
  - refine (IH _ _ n _ _ _ _ _ A _ B H). lia.
Qed.
Lemma mod_pos n r : (n mod r <> 0)%nat -> (r <> 0)%nat -> (0 < n)%nat.
Proof. intros H R. destruct n; [rewrite Nat.mod_0_l in H by exact R; congruence|lia]. Qed.

(** ** What is needed of each provider *)
Record nfacts (P : xof_provider) (Z : bool -> pst P -> res (pst P)) (r : nat) := mkfacts {
  idle : pst P -> Prop;
  f_init : forall s s', p_init P s = Ok s' -> idle s';
  f_update : forall s d s', p_update P s d = Ok s' -> idle s -> idle s';
  f_raised : forall q v s s', p_set P q v s = Raised s' -> idle s -> idle s';
  f_same : forall b s, idle s -> Z b s = Z false s;
  f_mid : forall s n s' o, idle s -> (n mod r <> 0)%nat -> xp_squeeze P s n = Ok (s', o) -> Z true s' = UB NullPointer;
  f_zero : forall s, xp_squeeze P s 0 = (s' <- Z false s ;; Ok (s', []));
  f_or : forall s, Z true s = Z false s \/ Z true s = UB NullPointer
}.

Section ShakeFacts.
  Variables (B : N) (R : nat).
  Let r := N.to_nat (shake_rate B / 8).
  Lemma shake_rate_pos : (0 < r)%nat.
  Proof. unfold r, shake_rate. destruct (B =? 128); apply Nat.ltb_lt; vm_compute; reflexivity. Qed.
  Lemma shake_up s d s' : shake_update B R s d = Ok s' -> hsq s' = hsq s.
  Proof. unfold shake_update. intros H. inv H. injection H as <-. reflexivity. Qed.
  Lemma shake_up_str s d s' : shake_update_str B R s d = Ok s' -> hsq s' = hsq s.
  Proof. unfold shake_update_str. destruct d; intros H; [injection H as <-; reflexivity|exact (shake_up _ _ _ H)]. Qed.
  Lemma shake_in s s' : shake_init B R s = Ok s' -> hsq s' = false.
  Proof.
    unfold shake_init. cbn [hN hS].
    destruct (hN s) as [|a l]; [destruct (hS s) as [|a l]|]; intros H; [injection H as <-; reflexivity| |];
    (inv H; inv H; inv H; inv H; inv H;
     rewrite (shake_up _ _ _ H), (shake_up_str _ _ _ E3), (shake_up _ _ _ E2), (shake_up_str _ _ _ E1), (shake_up _ _ _ E0), (shake_up _ _ _ E);
     reflexivity).
  Qed.
  Lemma shake_same b s : hsq s = false -> shake_squeeze_null b B R s = shake_squeeze_null false B R s.
  Proof. intros H. unfold shake_squeeze_null. rewrite H. reflexivity. Qed.
  Lemma shake_mid s n s' o : hsq s = false -> (n mod r <> 0)%nat -> shake_squeeze B R s n = Ok (s', o) ->
    shake_squeeze_null true B R s' = UB NullPointer.
  Proof.
    intros Hs Hn H. unfold shake_squeeze in H. rewrite Hs in H. inv H. inv H. destruct x0 as [[A pos] w]. injection H as <- _.
    pose proof shake_rate_pos as Hr.
    unfold sq_first in E0. apply sq_loop_pos in E0; [|exact Hr|apply (mod_pos n r Hn); lia|lia|rewrite Nat.sub_0_r; exact Hn].
    unfold shake_squeeze_null. cbn [hsq hk spos sh]. fold r in E0 |- *. rewrite (ltb_lt _ _ E0). reflexivity.
  Qed.
  Lemma shake_zero s : shake_squeeze B R s 0 = (s' <- shake_squeeze_null false B R s ;; Ok (s', [])).
  Proof.
    unfold shake_squeeze, shake_squeeze_null. destruct (hsq s) eqn:Q.
    - unfold sq_more. cbn [Nat.min]. destruct s as [[h m pos t] n S q x]. cbn [hk sh spos sm stotal hN hS hsq hsfx] in *. subst q.
      destruct (pos <? N.to_nat (shake_rate B / 8))%nat.
      + rewrite copy_load, !bind_bind. apply bind_ext. intros _. cbn [sq_loop Nat.ltb Nat.leb bind]. rewrite Nat.add_0_r. reflexivity.
      + destruct (pos =? N.to_nat (shake_rate B / 8))%nat; reflexivity.
    - rewrite bind_bind. apply bind_ext. intros [h m pos t]. reflexivity.
  Qed.
  Lemma shake_or s : shake_squeeze_null true B R s = shake_squeeze_null false B R s \/ shake_squeeze_null true B R s = UB NullPointer.
  Proof.
    unfold shake_squeeze_null. destruct (hsq s); [|auto]. destruct (_ <? _)%nat; auto.
  Qed.
End ShakeFacts.

Lemma shake_facts B R : nfacts (shake B R) (fun b => shake_squeeze_null b B R) (N.to_nat (shake_rate B / 8)).
Proof.
  refine (mkfacts (shake B R) _ _ (fun s => hsq s = false) _ _ _ _ _ _ _).
  - exact (shake_in B R).
  - intros s d s' H I. rewrite (shake_up B R s d s' H). exact I.
  - intros [].
  - exact (shake_same B R).
  - exact (shake_mid B R).
  - exact (shake_zero B R).
  - exact (shake_or B R).
Qed.
Lemma cshake_facts B R : nfacts (cshake B R) (fun b => shake_squeeze_null b B R) (N.to_nat (shake_rate B / 8)).
Proof.
  refine (mkfacts (cshake B R) _ _ (fun s => hsq s = false) _ _ _ _ _ _ _).
  - exact (shake_in B R).
  - intros s d s' H I. rewrite (shake_up B R s d s' H). exact I.
  - intros [] v s s' H; discriminate H.
  - exact (shake_same B R).
  - exact (shake_mid B R).
  - exact (shake_zero B R).
  - exact (shake_or B R).
Qed.

(** ** KMAC *)
Lemma kmac_up B s d s' : kmac_update B s d = Ok s' -> kmsq s' = kmsq s /\ hsq (kmsh s') = hsq (kmsh s).
Proof.
  unfold kmac_update. intros H. inv H. injection H as <-. split; [reflexivity|exact (shake_up _ _ _ _ _ E)].
Qed.
Lemma kmac_facts B : nfacts (kmacxof B) (fun b => kmac_squeeze_null b B) (N.to_nat (shake_rate B / 8)).
Proof.
  refine (mkfacts (kmacxof B) _ _ (fun s => kmsq s = false /\ hsq (kmsh s) = false) _ _ _ _ _ _ _).
  - intros s s' H. cbn in H. unfold kmac_init in H. inv H. destruct (kmac_up _ _ _ _ H) as [-> ->]. split; [reflexivity|exact (shake_in _ _ _ _ E)].
  - intros s d s' H I. destruct (kmac_up _ _ _ _ H) as [-> ->]. exact I.
  - intros q v s s' H I. destruct q; discriminate H.
  - intros b s [I J]. unfold kmac_squeeze_null. rewrite I, !bind_bind.
    destruct (kmac_update B s (right_encode 0 false)) as [x| |] eqn:E; [|reflexivity|reflexivity]. cbn [bind kmsh].
    rewrite (shake_same B 24 b (kmsh x)); [reflexivity|]. rewrite (proj2 (kmac_up _ _ _ _ E)). exact J.
  - intros s n s' o [I J] Hn H. cbn in H. unfold kmac_squeeze in H. rewrite I in H. inv H. inv E. injection E as <-. inv H.
    destruct x as [y w]. injection H as <- _. unfold kmac_squeeze_null. cbn [kmsq kmsh bind].
    rewrite (shake_mid B 24 (kmsh x0) n y w); [reflexivity| |exact Hn|exact E]. rewrite (proj2 (kmac_up _ _ _ _ E0)). exact J.
  - intros s. change (kmac_squeeze B true s 0 = (s' <- kmac_squeeze_null false B s ;; Ok (s', []))).
    unfold kmac_squeeze, kmac_squeeze_null. rewrite bind_bind. apply bind_ext. intros x. rewrite shake_zero, !bind_bind. apply bind_ext. reflexivity.
  - intros s. unfold kmac_squeeze_null. destruct (if kmsq s then _ else _) as [x| |]; cbn [bind]; auto.
    destruct (shake_or B 24 (kmsh x)) as [-> | ->]; auto.
Qed.

(** ** KangarooTwelve *)
Lemma block_loop_res_keeps {C} (Q : C -> Prop) step bs : (forall c t d c', Q c -> step c t d = Ok c' -> Q c') ->
  forall n c t d c', Q c -> block_loop_res step bs c t d n = Ok c' -> Q c'.
Proof.
  intros Hs n. induction n as [|n IH]; intros c t d c' I H; cbn [block_loop_res] in H; [injection H as <-; exact I|].
  inv H. exact (IH _ _ _ _ (Hs _ _ _ _ I E) H).
Qed.
Lemma absorb_keeps {C} (Q : C -> Prop) (tf : C -> list N -> N -> list N -> nat -> res (C * list N)) bs bschk :
  (forall c m t d n c' m', Q c -> tf c m t d n = Ok (c', m') -> Q c') ->
  forall d c m pos t c' m' pos' t', Q c -> absorb_bytes tf bs bschk d c m pos t = Ok (c', m', pos', t') -> Q c'.
Proof.
  intros Ht d c m pos t c' m' pos' t' I H. unfold absorb_bytes in H. inv H.
  destruct x as [[[[c1 m1] d1] p1] t1]. inv H. destruct x as [[[c2 m2] d2] t2]. inv H. injection H as <- _ _ _.
  assert (I1 : Q c1).
  { dif E; [|injection E as <- _ _ _ _; exact I]. do 4 inv E. destruct x3 as [c3 m3]. injection E as <- _ _ _ _.
    exact (Ht _ _ _ _ _ _ _ I E5). }
  dif E0; [|injection E0 as <- _ _ _; exact I1]. do 2 inv E0. destruct x1 as [c3 m3]. injection E0 as <- _ _ _.
  exact (Ht _ _ _ _ _ _ _ I1 E3).
Qed.

Section K12Facts.
  Variables (B : N) (R : nat).
  Lemma k12_chunk_keeps (c : shake_st * shake_st * N) t d c' : hsq (fst (fst c)) = false -> k12_chunk B R c t d = Ok c' -> hsq (fst (fst c')) = false.
  Proof.
    destruct c as [[main child] chunk]. cbn [fst]. intros I H. unfold k12_chunk in H. inv H. destruct x as [m1 c1]. inv H. injection H as <-. cbn [fst].
    destruct (chunk =? 0).
    - inv E. inv E. injection E as <- _. rewrite (shake_up _ _ _ _ _ E2), (shake_up _ _ _ _ _ E1). exact I.
    - inv E. inv E. destruct x1 as [y w]. inv E. injection E as <- _. rewrite (shake_up _ _ _ _ _ E3). exact I.
  Qed.
  Lemma k12_up s d s' : k12_update B R s d = Ok s' -> ksq s = false /\ hsq (kmain s) = false -> ksq s' = false /\ hsq (kmain s') = false.
  Proof.
    intros H [I J]. unfold k12_update in H. inv H. destruct x as [[[[[main child] chunk] m] pos] t]. injection H as <-. split; [exact I|].
    cbn [kmain].
    refine (absorb_keeps (fun c : shake_st * shake_st * N => hsq (fst (fst c)) = false) _ _ _ _ d _ _ _ _ _ _ _ _ _ E); [|exact J].
    intros c m0 t0 d0 n c' m' Q K. inv K. injection K as <- _.
    exact (block_loop_res_keeps (fun c : shake_st * shake_st * N => hsq (fst (fst c)) = false) _ _ k12_chunk_keeps n _ _ _ _ Q E0).
  Qed.
  Lemma k12_fin s s' : k12_finish B R s = Ok s' -> ksq s = false /\ hsq (kmain s) = false -> ksq s' = true /\ hsq (kmain s') = false.
  Proof.
    intros H I. unfold k12_finish in H. inv H. inv H. inv H. destruct x1 as [main child]. injection H as <-. split; [reflexivity|]. cbn [kmain].
    assert (I1 : ksq x = false /\ hsq (kmain x) = false).
    { destruct (kS s); [injection E as <-; exact I|exact (k12_up _ _ _ E I)]. }
    destruct (k12_up _ _ _ E0 I1) as [_ J].
    destruct (negb (kpos x0 =? 0)%nat).
    - inv E1. destruct (kchunk x0 =? 0).
      + inv E1. injection E1 as <- _. cbn [shake_set_suffix hsq]. rewrite (shake_up _ _ _ _ _ E3). exact J.
      + inv E1. inv E1. destruct x3 as [y w]. inv E1. inv E1. inv E1. injection E1 as <- _.
        rewrite (shake_up _ _ _ _ _ E7), (shake_up _ _ _ _ _ E6). cbn [shake_set_suffix hsq]. rewrite (shake_up _ _ _ _ _ E5). exact J.
    - injection E1 as <- _. exact J.
  Qed.
End K12Facts.
Lemma k12_facts B R : nfacts (k12 B R) (fun b => k12_squeeze_null b B R) (N.to_nat (shake_rate B / 8)).
Proof.
  refine (mkfacts (k12 B R) _ _ (fun s => ksq s = false /\ hsq (kmain s) = false) _ _ _ _ _ _ _).
  - intros s s' H. cbn in H. unfold k12_init in H. inv H. injection H as <-. split; [reflexivity|exact (shake_in _ _ _ _ E)].
  - intros s d s' H I. exact (k12_up B R s d s' H I).
  - intros [] v s s' H; discriminate H.
  - intros b s I. unfold k12_squeeze_null. rewrite (proj1 I).
    destruct (k12_finish B R s) as [x| |] eqn:E; [|reflexivity|reflexivity]. cbn [bind].
    rewrite (shake_same B R b (kmain x)); [reflexivity|]. exact (proj2 (k12_fin _ _ _ _ E I)).
  - intros s n s' o I Hn H. cbn in H. unfold k12_squeeze in H. rewrite (proj1 I) in H. inv H. inv H.
    destruct x0 as [y w]. injection H as <- _. destruct (k12_fin _ _ _ _ E I) as [K J]. unfold k12_squeeze_null. cbn [ksq kmain]. rewrite K. cbn [bind kmain].
    rewrite (shake_mid B R (kmain x) n y w J Hn E0). reflexivity.
  - intros s. change (k12_squeeze B R s 0 = (s' <- k12_squeeze_null false B R s ;; Ok (s', []))).
    unfold k12_squeeze, k12_squeeze_null. rewrite bind_bind. apply bind_ext. intros x. rewrite shake_zero, !bind_bind. apply bind_ext. reflexivity.
  - intros s. unfold k12_squeeze_null. destruct (if ksq s then _ else _) as [x| |]; cbn [bind]; auto.
    destruct (shake_or B R (kmain x)) as [-> | ->]; auto.
Qed.

(** ** Ascon *)
Lemma ascon_up s d s' : ascon_update s d = Ok s' -> asq s' = asq s.
Proof. unfold ascon_update. intros H. inv H. injection H as <-. reflexivity. Qed.
Lemma ascon_in ty s s' : ascon_init ty s = Ok s' -> asq s' = false.
Proof.
  unfold ascon_init. destruct ty; intros H; try (injection H as <-; reflexivity).
  inv H. inv H. inv H. rewrite (ascon_up _ _ _ H). pose proof (ascon_up _ _ _ E) as U.
  destruct (aZ x); [injection E0 as <-; exact U|rewrite (ascon_up _ _ _ E0); exact U].
Qed.
Lemma ascon_mid s n s' o : asq s = false -> (n mod 8 <> 0)%nat -> ascon_squeeze s n = Ok (s', o) -> ascon_squeeze_null true s' = UB NullPointer.
Proof.
  intros Hs Hn H. unfold ascon_squeeze in H. rewrite Hs in H. inv H. inv H. destruct x0 as [[A pos] w]. injection H as <- _.
  unfold sq_first in E0. apply sq_loop_pos in E0; [|lia|apply (mod_pos n 8 Hn); lia|lia|rewrite Nat.sub_0_r; exact Hn].
  unfold ascon_squeeze_null. cbn [asq ak spos sh]. rewrite (ltb_lt _ _ E0). reflexivity.
Qed.
Lemma ascon_zero s : ascon_squeeze s 0 = (s' <- ascon_squeeze_null false s ;; Ok (s', [])).
Proof.
  unfold ascon_squeeze, ascon_squeeze_null. destruct (asq s) eqn:Q.
  - unfold sq_more. cbn [Nat.min]. destruct s as [[h m pos t] z q]. cbn [ak sh spos sm stotal aZ asq] in *. subst q.
    destruct (pos <? 8)%nat.
    + rewrite copy_load, !bind_bind. apply bind_ext. intros _. cbn [sq_loop Nat.ltb Nat.leb bind]. rewrite Nat.add_0_r. reflexivity.
    + destruct (pos =? 8)%nat; reflexivity.
  - rewrite bind_bind. apply bind_ext. intros [h m pos t]. reflexivity.
Qed.
Lemma ascon_or s : ascon_squeeze_null true s = ascon_squeeze_null false s \/ ascon_squeeze_null true s = UB NullPointer.
Proof. unfold ascon_squeeze_null. destruct (asq s); [|auto]. destruct (_ <? _)%nat; auto. Qed.
Lemma ascon_same b s : asq s = false -> ascon_squeeze_null b s = ascon_squeeze_null false s.
Proof. intros H. unfold ascon_squeeze_null. rewrite H. reflexivity. Qed.
Lemma ascon_xof_facts : nfacts ascon_xof ascon_squeeze_null 8.
Proof.
  refine (mkfacts ascon_xof _ _ (fun s => asq s = false) (ascon_in AXof) _ _ ascon_same ascon_mid ascon_zero ascon_or).
  - intros s d s' H I. rewrite (ascon_up _ _ _ H). exact I.
  - intros [].
Qed.
Lemma ascon_cxof_facts : nfacts ascon_cxof ascon_squeeze_null 8.
Proof.
  refine (mkfacts ascon_cxof _ _ (fun s => asq s = false) (ascon_in ACxof) _ _ ascon_same ascon_mid ascon_zero ascon_or).
  - intros s d s' H I. rewrite (ascon_up _ _ _ H). exact I.
  - intros q v s s' H; discriminate H.
Qed.

(** ** Esch *)
Lemma esch_facts : nfacts esch_xof esch_squeeze_null 16.
Proof.
  refine (mkfacts esch_xof _ _ (fun s => esq s = false) _ _ _ _ _ _ _).
  - intros s s' H. injection H as <-. reflexivity.
  - intros s d s' H I. cbn in H. unfold esch_update in H. inv H. injection H as <-. exact I.
  - intros [].
  - intros b s I. unfold esch_squeeze_null. rewrite I. reflexivity.
  - intros s n s' o I Hn H. cbn in H. unfold esch_squeeze in H. rewrite I, bind_bind in H. inv H. cbn [bind] in H. inv H.
    destruct x0 as [[[G t] pos] w]. injection H as <- _.
    apply esch_loop_pos in E0; [|apply (mod_pos n 16 Hn); lia|lia|rewrite Nat.sub_0_r; exact Hn].
    unfold esch_squeeze_null. cbn [esq ek spos sh]. rewrite (ltb_lt _ _ E0). reflexivity.
  - intros s. change (esch_squeeze true s 0 = (s' <- esch_squeeze_null false s ;; Ok (s', []))).
    unfold esch_squeeze, esch_squeeze_null. destruct (esq s) eqn:Q.
    + destruct s as [[h m pos t] e q]. cbn [ek sh spos sm stotal ehs esq] in *. subst q. cbn [Nat.min].
      destruct (pos <? 16)%nat; [|reflexivity].
      rewrite copy_load, !bind_bind. apply bind_ext. intros _. cbn [esch_loop Nat.ltb Nat.leb bind]. rewrite Nat.add_0_r. reflexivity.
    + rewrite !bind_bind. apply bind_ext. intros [h m pos t]. reflexivity.
  - intros s. unfold esch_squeeze_null. destruct (esq s); [|auto]. destruct (_ <? _)%nat; auto.
Qed.

(** ** Skein *)
Lemma skein_facts nw : (0 < nw)%nat -> nfacts (skein_xof nw) (fun b => sk_squeeze_null b nw) (8 * nw).
Proof.
  intros Hw.
  refine (mkfacts (skein_xof nw) _ _ (fun s => sksq s = false) _ _ _ _ _ _ _).
  - intros s s' H. cbn [skein_xof xp p_init] in H. unfold sk_init in H. do 10 inv H. injection H as <-. reflexivity.
  - intros s d s' H I. cbn in H. unfold sk_update in H. inv H. injection H as <-. exact I.
  - intros q v s s' H. destruct q; discriminate H.
  - intros b s I. unfold sk_squeeze_null. rewrite I. reflexivity.
  - intros s n s' o I Hn H. change (sk_squeeze nw s n = Ok (s', o)) in H. unfold sk_squeeze in H. rewrite I, !bind_bind in H. inv H. rewrite bind_bind in H. inv H. cbn [bind] in H. inv H.
    destruct x1 as [c w]. injection H as <- _.
    apply sk_loop_pos in E1; [|exact Hw|apply (mod_pos n (8 * nw) Hn); lia|lia|rewrite Nat.sub_0_r; exact Hn].
    unfold sk_squeeze_null. cbn [sksq skc]. rewrite (ltb_lt _ _ E1). reflexivity.
  - intros s. change (sk_squeeze nw s 0 = (s' <- sk_squeeze_null false nw s ;; Ok (s', []))).
    unfold sk_squeeze, sk_squeeze_null. destruct (sksq s) eqn:Q.
    + destruct s as [[h m pos t] hb hs q p n k]. cbn [skc sh spos sm stotal skhb skhs sksq skp skn skk] in *. subst q. cbn [Nat.min].
      destruct (pos <? 8 * nw)%nat; [|reflexivity].
      rewrite copy_load, !bind_bind. apply bind_ext. intros _. cbn [sk_loop Nat.ltb Nat.leb bind]. rewrite Nat.add_0_r. reflexivity.
    + rewrite !bind_bind. apply bind_ext. intros c. rewrite !bind_bind. apply bind_ext. reflexivity.
  - intros s. unfold sk_squeeze_null. destruct (sksq s); [|auto]. destruct (_ <? _)%nat; auto.
Qed.

(** ** BLAKE2X *)
Lemma b2_up w s d s' : b2_update w s d = Ok s' -> b2sq s' = b2sq s.
Proof. unfold b2_update. intros H. inv H. injection H as <-. reflexivity. Qed.
Lemma b2_facts w : (0 < b2_hb w)%nat -> nfacts (blake2x_xof w) (fun b => b2_squeeze_null b w) (b2_hb w).
Proof.
  intros Hw.
  refine (mkfacts (blake2x_xof w) _ _ (fun s => b2sq s = false) _ _ _ _ _ _ _).
  - intros s s' H. change (b2_init w BXof s = Ok s') in H. unfold b2_init in H. dif H; [|injection H as <-; reflexivity].
    unfold b2_absorb_key in H. cbn [b2k] in H. destruct (b2k s); [injection H as <-; reflexivity|].
    do 3 inv H. rewrite (b2_up _ _ _ _ H). reflexivity.
  - intros s d s' H I. change (b2_update w s d = Ok s') in H. rewrite (b2_up _ _ _ _ H). exact I.
  - intros q v s s' H I. change (b2_set w q v s = Raised s') in H. unfold b2_set in H.
    destruct q; repeat dif H; try discriminate H; injection H as <-; exact I.
  - intros b s I. unfold b2_squeeze_null. rewrite I. reflexivity.
  - intros s n s' o I Hn H. change (b2_squeeze w BXof s n = Ok (s', o)) in H. unfold b2_squeeze in H. rewrite I, !bind_bind in H. inv H. rewrite bind_bind in H. inv H. cbn [bind] in H. inv H.
    destruct x1 as [[c xo] u]. injection H as <- _.
    apply b2_loop_pos in E1; [|exact Hw|apply (mod_pos n (b2_hb w) Hn); lia|lia|rewrite Nat.sub_0_r; exact Hn].
    unfold b2_squeeze_null. cbn [b2sq b2c]. rewrite (ltb_lt _ _ E1). reflexivity.
  - intros s. change (b2_squeeze w BXof s 0 = (s' <- b2_squeeze_null false w s ;; Ok (s', []))).
    unfold b2_squeeze, b2_squeeze_null. destruct (b2sq s) eqn:Q.
    + destruct s as [[h m pos t] a b c d e q f g i]. cbn [b2c sh spos sm stotal b2s b2p b2k b2hs b2xo b2sq b2fo b2nd b2no] in *. subst q. cbn [Nat.min].
      destruct (pos <? b2_hb w)%nat; [|reflexivity].
      rewrite copy_load, !bind_bind. apply bind_ext. intros _. cbn [b2_loop Nat.ltb Nat.leb bind]. rewrite Nat.add_0_r. reflexivity.
    + rewrite !bind_bind. apply bind_ext. intros c. rewrite !bind_bind. apply bind_ext. reflexivity.
  - intros s. unfold b2_squeeze_null. destruct (b2sq s); [|auto]. destruct (_ <? _)%nat; auto.
Qed.

Lemma all_facts P Z r : null_squeeze P Z r -> exists F : nfacts P Z r, True.
Proof.
  intros H. destruct H.
  - exact (ex_intro _ (shake_facts 128 24) I).
  - exact (ex_intro _ (shake_facts 256 24) I).
  - exact (ex_intro _ (cshake_facts 128 24) I).
  - exact (ex_intro _ (cshake_facts 256 24) I).
  - exact (ex_intro _ (kmac_facts 128) I).
  - exact (ex_intro _ (kmac_facts 256) I).
  - exact (ex_intro _ (k12_facts 128 12) I).
  - exact (ex_intro _ (k12_facts 256 14) I).
  - exact (ex_intro _ (k12_facts 256 12) I).
  - exact (ex_intro _ ascon_xof_facts I).
  - exact (ex_intro _ ascon_cxof_facts I).
  - exact (ex_intro _ esch_facts I).
  - exact (ex_intro _ (b2_facts 64 (Nat.lt_0_succ _)) I).
  - exact (ex_intro _ (b2_facts 32 (Nat.lt_0_succ _)) I).
  - exact (ex_intro _ (skein_facts nw H) I).
Qed.
