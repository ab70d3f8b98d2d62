(** * Proofs about providers of others. *)
From Coq Require Import Lia.
From Verif Require Import Base Hasher HasherSpec Lemmas HasherProof Custom.

Lemma updates_app P a b : forall s, updates P s (a ++ b) = (s <- updates P s a ;; updates P s b).
Proof.
  induction a as [|d a IH]; intros s; cbn [updates app bind]; [reflexivity|].
  destruct (p_update P s d) as [t| |]; cbn [bind]; auto.
Qed.
Lemma takes_app P a b : forall s, takes P s (a ++ b) =
  (' (s, w) <- takes P s a ;; ' (s, v) <- takes P s b ;; Ok (s, w ++ v)).
Proof.
  induction a as [|n a IH]; intros s; cbn [takes app bind].
  - destruct (takes P s b) as [[t v]| |]; reflexivity.
  - destruct (xp_squeeze P s n) as [[t w]| |]; cbn [bind]; auto. rewrite IH.
    destruct (takes P t a) as [[u v]| |]; cbn [bind]; auto.
    destruct (takes P u b) as [[x y]| |]; cbn [bind]; auto. rewrite app_assoc. reflexivity.
Qed.

Section Hash.
  Context {P : hash_provider} {S : hash_spec (p_param P)} {usable : sp_params S -> pst P -> Prop}.
  Hypothesis H : hash_contract P S usable.

  (** The object after init() and some pieces. *)
  Definition fed (s : pst P) (p : sp_params S) (msg : list N) : Prop :=
    exists s0 s1 pieces, usable p s0 /\ p_init P s0 = Ok s1 /\ Forall bytes_ok pieces /\
      updates P s1 pieces = Ok s /\ concat pieces = msg.
  Lemma fed_init p s s' : usable p s -> p_init P s = Ok s' -> fed s' p [].
  Proof. intros U E. exists s, s', []. repeat split; auto. Qed.
  Lemma fed_facts s p msg : fed s p msg -> usable p s /\ hp_size P s / 8 = N.of_nat (sp_size S) /\
    exists u, hp_final P s = Ok (u, sp_digest S p msg).
  Proof.
    intros (s0 & s1 & ds & U & E & B & F & <-). destruct (hc_update P S usable H p s0 s1 ds U E B) as (t & u & F' & Ut & Sz & Fi).
    rewrite F in F'. injection F' as <-. eauto.
  Qed.
  Lemma fed_sim : sim P S fed true.
  Proof.
    constructor.
    - intros s p msg F. destruct (fed_facts s p msg F) as (U & _). destruct (hc_init P S usable H p s U) as (s' & E).
      exists s'. split; [exact E|exact (fed_init p s s' U E)].
    - intros s p msg d Hd (s0 & s1 & ds & U & E & B & F & <-).
      assert (B' : Forall bytes_ok (ds ++ [d])) by (apply Forall_app; auto).
      destruct (hc_update P S usable H p s0 s1 (ds ++ [d]) U E B') as (t & u & F' & _).
      pose proof F' as F2. rewrite updates_app, F in F2. cbn [bind updates] in F2. destruct (p_update P s d) as [s2| |] eqn:Ed; try discriminate F2.
      cbn [bind] in F2. injection F2 as <-. exists s2. split; [reflexivity|]. exists s0, s1, (ds ++ [d]).
      repeat split; auto. rewrite concat_app. cbn [concat]. rewrite app_nil_r. reflexivity.
    - intros _ s p msg (s0 & s' & ds & U & E & B & F & _). destruct (hc_clear P S usable H p s0 s' ds s U E B F) as (s1 & E1 & U1).
      destruct (hc_init P S usable H _ s1 U1) as (s2 & E2). exists s1, s2. split; [exact E1|]. split; [exact E2|exact (fed_init _ s1 s2 U1 E2)].
    - intros q v s p msg Hv G. pose proof G as (s0 & s' & ds & U & E & B & F & _). pose proof (hc_set P S usable H p s0 s' ds s q v U E B F Hv) as Q.
      destruct (sp_set S q v p) as [p'|].
      + destruct Q as (s1 & E1 & U1). destruct (hc_init P S usable H _ s1 U1) as (s2 & E2). exists s1, s2.
        split; [exact E1|]. split; [exact E2|exact (fed_init _ s1 s2 U1 E2)].
      + exists s. auto.
    - intros s p msg F. exact (proj2 (proj2 (fed_facts s p msg F))).
    - intros s p msg F. exact (proj1 (proj2 (fed_facts s p msg F))).
    - intros s p msg (s0 & s1 & ds & U & E & B & F & <-). exact (proj1 (hc_digest P S usable H p s0 ds U B)).
    - intros s p msg (s0 & s1 & ds & U & E & B & F & <-). exact (proj2 (hc_digest P S usable H p s0 ds U B)).
    - exact (hc_size P S usable H).
  Qed.
  Lemma custom_hash p s s0 ops : usable p s -> p_init P s = Ok s0 -> Forall (hash_op_ok true) ops ->
    exists s1, hash_run P s0 ops = Ok (s1, snd (arun S (p, []) ops)).
  Proof.
    intros U E Ho. destruct (hash_run_ok P S fed true fed_sim ops s0 p [] Ho (fed_init p s s0 U E)) as (s1 & R & _). exists s1. exact R.
  Qed.
End Hash.

Section Xof.
  Context {P : xof_provider} {S : xof_spec (p_param P)} {usable : xs_params S -> pst P -> Prop}.
  Hypothesis H : xof_contract P S usable.

  Definition xfed (s : pst P) (p : xs_params S) (msg : list N) (k : nat) : Prop :=
    exists s0 s1 pieces t lengths w, usable p s0 /\ p_init P s0 = Ok s1 /\ Forall bytes_ok pieces /\ updates P s1 pieces = Ok t /\
      concat pieces = msg /\ Forall (fun n => (0 < n)%nat) lengths /\ takes P t lengths = Ok (s, w) /\ list_sum lengths = k.
  Lemma xfed_init p s s' : usable p s -> p_init P s = Ok s' -> xfed s' p [] 0.
  Proof. intros U E. exists s, s', [], s', [], []. repeat split; auto. Qed.
  Lemma xfed_usable s p msg k : xfed s p msg k -> usable p s.
  Proof.
    intros (s0 & s1 & ds & t & ns & w & U & E & B & F & <- & L & T & <-).
    destruct (xc_squeeze P S usable H p s0 s1 ds t ns U E B F L) as (u & T' & Uu). rewrite T in T'. injection T' as <- _. exact Uu.
  Qed.
  Lemma xfed_sim : xsim P S xfed true.
  Proof.
    constructor.
    - intros s p msg k F. pose proof (xfed_usable s p msg k F) as U. destruct (xc_init P S usable H p s U) as (s' & E).
      exists s'. split; [exact E|exact (xfed_init p s s' U E)].
    - intros s p msg d Hd (s0 & s1 & ds & t & ns & w & U & E & B & F & <- & L & T & K).
      destruct ns as [|n ns]; [|exfalso; inversion L; subst; cbn [list_sum fold_right] in K; lia].
      cbn [takes] in T. injection T as <- _.
      assert (B' : Forall bytes_ok (ds ++ [d])) by (apply Forall_app; auto).
      destruct (xc_update P S usable H p s0 s1 (ds ++ [d]) U E B') as (u & F').
      pose proof F' as F2. rewrite updates_app, F in F2. cbn [bind updates] in F2. destruct (p_update P t d) as [s2| |] eqn:Ed; try discriminate F2.
      cbn [bind] in F2. injection F2 as <-. exists s2. split; [reflexivity|]. exists s0, s1, (ds ++ [d]), s2, [], [].
      repeat split; auto. rewrite concat_app. cbn [concat]. rewrite app_nil_r. reflexivity.
    - intros _ s p msg k (s0 & s' & ds & t & ns & w & U & E & B & F & _ & L & T & _).
      destruct (xc_clear P S usable H p s0 s' ds t ns s w U E B F L T) as (s1 & E1 & U1).
      destruct (xc_init P S usable H _ s1 U1) as (s2 & E2). exists s1, s2. split; [exact E1|]. split; [exact E2|exact (xfed_init _ s1 s2 U1 E2)].
    - intros q v s p msg k Hv G. pose proof G as (s0 & s' & ds & t & ns & w & U & E & B & F & _ & L & T & _).
      pose proof (xc_set P S usable H p s0 s' ds t ns s w q v U E B F L T Hv) as Q.
      destruct (xs_set S q v p) as [p'|].
      + destruct Q as (s1 & E1 & U1). destruct (xc_init P S usable H _ s1 U1) as (s2 & E2). exists s1, s2.
        split; [exact E1|]. split; [exact E2|exact (xfed_init _ s1 s2 U1 E2)].
      + exists s. auto.
    - intros s p msg k n Hn (s0 & s1 & ds & t & ns & w & U & E & B & F & <- & L & T & <-).
      assert (L' : Forall (fun n => (0 < n)%nat) (ns ++ [n])) by (apply Forall_app; auto).
      destruct (xc_squeeze P S usable H p s0 s1 ds t ns U E B F L) as (u & T' & _). rewrite T in T'. injection T' as <- Ew.
      destruct (xc_squeeze P S usable H p s0 s1 ds t (ns ++ [n]) U E B F L') as (u & T2 & _).
      assert (K : list_sum (ns ++ [n]) = (list_sum ns + n)%nat) by (rewrite list_sum_app; cbn; lia).
      pose proof T2 as T3. rewrite takes_app, T in T3. cbn [bind takes] in T3. destruct (xp_squeeze P s n) as [[s2 o]| |]; try discriminate T3.
      cbn [bind] in T3. injection T3 as <- Eo. exists s2. split.
      + f_equal. f_equal. rewrite K in Eo. rewrite <- Eo, Ew. rewrite app_nil_r.
        pose proof (proj1 (xc_out P S usable H p s0 ds (list_sum ns) U B)) as Ln.
        rewrite skipn_app, Ln, Nat.sub_diag, skipn_all2 by lia. reflexivity.
      + exists s0, s1, ds, t, (ns ++ [n]), (xs_out S p (concat ds) (list_sum (ns ++ [n]))). repeat split; auto.
    - intros s p msg k n (s0 & s1 & ds & t & ns & w & U & E & B & F & <- & _). exact (proj1 (xc_out P S usable H p s0 ds n U B)).
    - intros s p msg k n (s0 & s1 & ds & t & ns & w & U & E & B & F & <- & _). exact (proj2 (xc_out P S usable H p s0 ds n U B)).
  Qed.
  Lemma custom_xof p s s0 ops : usable p s -> p_init P s = Ok s0 -> xof_ops_ok S true (p, [], 0%nat) ops ->
    exists s1, xof_run P s0 ops = Ok (s1, snd (xrun S (p, [], 0%nat) ops)).
  Proof.
    intros U E Ho. destruct (xof_run_ok P S xfed true xfed_sim ops s0 p [] 0%nat Ho (xfed_init p s s0 U E)) as (s1 & R & _). exists s1. exact R.
  Qed.
End Xof.

(** ** Providers of the library meet the conditions *)
Section FromSim.
  Context {P : hash_provider} {S : hash_spec (p_param P)} {R : pst P -> sp_params S -> list N -> Prop} {clr : bool}.
  Hypothesis H : sim P S R clr.
  Lemma sim_updates pieces : forall s p msg, Forall bytes_ok pieces -> R s p msg ->
    exists t, updates P s pieces = Ok t /\ R t p (msg ++ concat pieces).
  Proof.
    induction pieces as [|d r IH]; intros s p msg B HR; cbn [updates concat].
    - exists s. rewrite app_nil_r. auto.
    - inversion B as [|? ? Bd Br]; subst. destruct (sim_update P S R clr H s p msg d Bd HR) as (s1 & -> & R1). cbn [bind].
      destruct (IH s1 p (msg ++ d) Br R1) as (t & E & Rt). exists t. rewrite <- app_assoc in Rt. auto.
  Qed.
  Hypothesis Hc : clr = true.
  Hypothesis rejects : forall q v s p msg, R s p msg -> bytes_ok v -> sp_set S q v p = None -> p_set P q v s = Raised s.
  Lemma sim_contract : hash_contract P S (fun p s => exists s', p_init P s = Ok s' /\ R s' p []).
  Proof.
    assert (Q : forall p s s' ds t, (exists s', p_init P s = Ok s' /\ R s' p []) -> p_init P s = Ok s' -> Forall bytes_ok ds ->
      updates P s' ds = Ok t -> R t p (concat ds)).
    { intros p s s' ds t (s2 & E2 & R2) E B F. rewrite E in E2. injection E2 as <-.
      destruct (sim_updates ds s' p [] B R2) as (x & F' & Rx). rewrite F in F'. injection F' as <-. exact Rx. }
    constructor.
    - intros p s (s' & E & _). exists s'. exact E.
    - intros p s s' ds U E B. pose proof U as (s2 & E2 & R2). rewrite E in E2. injection E2 as <-.
      destruct (sim_updates ds s' p [] B R2) as (t & F & Rt). cbn [app] in Rt.
      destruct (sim_final P S R clr H t p _ Rt) as (u & Fi). exists t, u.
      split; [exact F|]. split; [exact (sim_init P S R clr H t p _ Rt)|]. split; [exact (sim_size P S R clr H t p _ Rt)|exact Fi].
    - intros p s s' ds t U E B F. pose proof (Q p s s' ds t U E B F) as Rt.
      destruct (sim_clear P S R clr H Hc t p _ Rt) as (s1 & s2 & E1 & E2 & R2). exists s1. split; [exact E1|]. exists s2. auto.
    - intros p s s' ds t q v U E B F Hv. pose proof (Q p s s' ds t U E B F) as Rt.
      pose proof (sim_set P S R clr H q v t p _ Hv Rt) as W. destruct (sp_set S q v p) as [p'|] eqn:Es.
      + destruct W as (s1 & s2 & E1 & E2 & R2). exists s1. split; [exact E1|]. exists s2. auto.
      + exact (rejects q v t p _ Rt Hv Es).
    - intros p s ds (s2 & E2 & R2) B. destruct (sim_updates ds s2 p [] B R2) as (t & F & Rt).
      split; [exact (sim_len P S R clr H t p _ Rt)|exact (sim_bytes P S R clr H t p _ Rt)].
    - exact (sim_pos P S R clr H).
  Qed.
End FromSim.
Section FromXsim.
  Context {P : xof_provider} {S : xof_spec (p_param P)} {R : pst P -> xs_params S -> list N -> nat -> Prop} {clr : bool}.
  Hypothesis H : xsim P S R clr.
  Lemma xsim_updates pieces : forall s p msg, Forall bytes_ok pieces -> R s p msg 0%nat ->
    exists t, updates P s pieces = Ok t /\ R t p (msg ++ concat pieces) 0%nat.
  Proof.
    induction pieces as [|d r IH]; intros s p msg B HR; cbn [updates concat].
    - exists s. rewrite app_nil_r. auto.
    - inversion B as [|? ? Bd Br]; subst. destruct (xsim_update P S R clr H s p msg d Bd HR) as (s1 & -> & R1). cbn [bind].
      destruct (IH s1 p (msg ++ d) Br R1) as (t & E & Rt). exists t. rewrite <- app_assoc in Rt. auto.
  Qed.
  (** The output for a shorter length is a prefix. *)
  Hypothesis prefix : forall p m k n, length (xs_out S p m k) = k -> (k <= n)%nat -> firstn k (xs_out S p m n) = xs_out S p m k.
  Lemma xsim_takes lengths : forall s p msg k, Forall (fun n => (0 < n)%nat) lengths -> R s p msg k ->
    exists u, takes P s lengths = Ok (u, skipn k (xs_out S p msg (k + list_sum lengths))) /\ R u p msg (k + list_sum lengths)%nat.
  Proof.
    induction lengths as [|n r IH]; intros s p msg k L HR; cbn [takes].
    - change (list_sum []) with 0%nat. rewrite Nat.add_0_r. exists s. rewrite skipn_all2 by (rewrite (xsim_len P S R clr H s p msg k) by exact HR; lia). auto.
    - inversion L as [|? ? Ln Lr]; subst. destruct (xsim_squeeze P S R clr H s p msg k n Ln HR) as (s1 & -> & R1). cbn [bind].
      destruct (IH s1 p msg (k + n)%nat Lr R1) as (u & -> & Ru). cbn [bind]. change (list_sum (n :: r)) with (n + list_sum r)%nat.
      rewrite Nat.add_assoc. exists u. split; [|exact Ru]. f_equal. f_equal.
      set (N := (k + n + list_sum r)%nat). rewrite <- (prefix p msg (k + n)%nat N) by first [exact (xsim_len P S R clr H s p msg k _ HR)|unfold N; lia].
      pose proof (xsim_len P S R clr H s p msg k N HR) as LN.
      rewrite <- (firstn_skipn (k + n) (xs_out S p msg N)) at 3. rewrite skipn_app.
      f_equal. rewrite firstn_length, LN. replace (k - Nat.min (k + n) N)%nat with 0%nat by (unfold N; lia). reflexivity.
  Qed.
  Hypothesis Hc : clr = true.
  Hypothesis rejects : forall q v s p msg k, R s p msg k -> bytes_ok v -> xs_set S q v p = None -> p_set P q v s = Raised s.
  Lemma xsim_contract : xof_contract P S (fun p s => exists s', p_init P s = Ok s' /\ R s' p [] 0%nat).
  Proof.
    assert (Q : forall p s s' ds t ns, (exists s', p_init P s = Ok s' /\ R s' p [] 0%nat) -> p_init P s = Ok s' -> Forall bytes_ok ds ->
      updates P s' ds = Ok t -> Forall (fun n => (0 < n)%nat) ns ->
      exists u, takes P t ns = Ok (u, xs_out S p (concat ds) (list_sum ns)) /\ R u p (concat ds) (list_sum ns)).
    { intros p s s' ds t ns (s2 & E2 & R2) E B F L. rewrite E in E2. injection E2 as <-.
      destruct (xsim_updates ds s' p [] B R2) as (x & F' & Rx). rewrite F in F'. injection F' as <-.
      exact (xsim_takes ns t p _ 0%nat L Rx). }
    constructor.
    - intros p s (s' & E & _). exists s'. exact E.
    - intros p s s' ds (s2 & E2 & R2) E B. rewrite E in E2. injection E2 as <-.
      destruct (xsim_updates ds s' p [] B R2) as (t & F & _). exists t. exact F.
    - intros p s s' ds t ns U E B F L. destruct (Q p s s' ds t ns U E B F L) as (u & T & Ru). exists u.
      split; [exact T|exact (xsim_init P S R clr H u p _ _ Ru)].
    - intros p s s' ds t ns u w U E B F L T. destruct (Q p s s' ds t ns U E B F L) as (u' & T' & Ru). rewrite T in T'. injection T' as <- _.
      destruct (xsim_clear P S R clr H Hc u p _ _ Ru) as (s1 & s2 & E1 & E2 & R2). exists s1. split; [exact E1|]. exists s2. auto.
    - intros p s s' ds t ns u w q v U E B F L T Hv. destruct (Q p s s' ds t ns U E B F L) as (u' & T' & Ru). rewrite T in T'. injection T' as <- _.
      pose proof (xsim_set P S R clr H q v u p _ _ Hv Ru) as W. destruct (xs_set S q v p) as [p'|] eqn:Es.
      + destruct W as (s1 & s2 & E1 & E2 & R2). exists s1. split; [exact E1|]. exists s2. auto.
      + exact (rejects q v u p _ _ Ru Hv Es).
    - intros p s ds n (s2 & E2 & R2) B. destruct (xsim_updates ds s2 p [] B R2) as (t & F & Rt).
      split; [exact (xsim_len P S R clr H t p _ _ n Rt)|exact (xsim_bytes P S R clr H t p _ _ n Rt)].
  Qed.
End FromXsim.
(** ** What holds of every provider *)
Lemma digest_keeps (P : hash_provider) s o s' x : match o with HBase _ => False | _ => True end ->
  hash_step P s o = Ok (s', x) -> s' = s.
Proof.
  destruct o as [b|buf| |]; intros C; [destruct C| | |]; cbn [hash_step].
  - destruct (digest_buf P s buf); cbn [bind]; intros E; [injection E as <- _; reflexivity|discriminate E|discriminate E].
  - destruct (digest_iter P s); cbn [bind]; intros E; [injection E as <- _; reflexivity|discriminate E|discriminate E].
  - destruct (digest_iter P s); cbn [bind]; intros E; [injection E as <- _; reflexivity|discriminate E|discriminate E].
Qed.
Lemma hex_of_digest (P : hash_provider) s b : bytes_ok b ->
  hash_step P s HDigestIter = Ok (s, OBytes b) -> hash_step P s HHexDigest = Ok (s, OBytes (spec_hex b)).
Proof.
  intros B. cbn [hash_step]. destruct (digest_iter P s) as [w| |]; cbn [bind]; intros E; [|discriminate E|discriminate E].
  injection E as ->. rewrite (hex_string_spec b B). reflexivity.
Qed.
Lemma hex_of_squeeze (P : xof_provider) s n t b : bytes_ok b ->
  xof_step P s (XSqueezeIter n) = Ok (t, OBytes b) -> xof_step P s (XHexSqueeze n) = Ok (t, OBytes (spec_hex b)).
Proof.
  intros B. cbn [xof_step]. destruct (squeeze_iter P s n) as [[u w]| |]; cbn [bind]; intros E; [|discriminate E|discriminate E].
  injection E as -> ->. rewrite (hex_string_spec b B). reflexivity.
Qed.
Lemma no_size (P : hash_provider) s : hp_size P s < 8 ->
  hash_step P s HDigestIter = UB EmptyVectorRef /\ hash_step P s HHexDigest = UB EmptyVectorRef.
Proof. intros L. cbn [hash_step]. unfold digest_iter. rewrite (N.div_small _ _ L). split; reflexivity. Qed.

(** ** The providers of the examples *)

Lemma total_app a b : total (a ++ b) = total a + total b.
Proof. unfold total. induction a as [|x a IH]; cbn [fold_right app]; [reflexivity|]. rewrite IH. apply N.add_assoc. Qed.
Lemma sum_updates ds : forall s, updates sum_provider s ds = Ok (fst s, snd s + total (concat ds)).
Proof.
  induction ds as [|d r IH]; intros [k a]; cbn [updates concat fst snd].
  - cbn. rewrite N.add_0_r. reflexivity.
  - cbn [sum_provider hp p_update bind]. rewrite IH, total_app. cbn [fst snd]. rewrite N.add_assoc. reflexivity.
Qed.
Lemma count_updates ds : forall s, updates count_provider s ds = Ok (fst s + total (concat ds), snd s).
Proof.
  induction ds as [|d r IH]; intros [k a]; cbn [updates concat fst snd].
  - cbn. rewrite N.add_0_r. reflexivity.
  - cbn [count_provider xp p_update bind]. rewrite IH, total_app. cbn [fst snd]. rewrite N.add_assoc. reflexivity.
Qed.
Lemma count_takes ns : forall s, takes count_provider s ns =
  Ok ((fst s, (snd s + list_sum ns)%nat), map (fun i => (fst s + N.of_nat i) mod 256) (seq (snd s) (list_sum ns))).
Proof.
  induction ns as [|n r IH]; intros [k a]; cbn [takes fst snd].
  - cbn. rewrite Nat.add_0_r. reflexivity.
  - cbn [count_provider xp_squeeze bind]. rewrite IH. cbn [fst snd bind].
    change (list_sum (n :: r)) with (n + list_sum r)%nat. rewrite seq_app, map_app, Nat.add_assoc. reflexivity.
Qed.
Lemma sum_contract : hash_contract sum_provider sum_spec (fun p s => fst s = p).
Proof.
  constructor.
  - intros p s _. eexists. reflexivity.
  - intros p s s' ds <- E _. injection E as <-. rewrite sum_updates. cbn [fst snd]. do 2 eexists. repeat split; reflexivity.
  - intros p s s' ds t <- E _ F. eexists. split; reflexivity.
  - intros p s s' ds t q v <- E _ F _. injection E as <-. rewrite sum_updates in F. injection F as <-. destruct v as [|b [|c v]]; cbn; [reflexivity| |reflexivity]. eexists. split; reflexivity.
  - intros p s ds _ _. split; [reflexivity|]. constructor; [|constructor]. cbn. apply N.mod_lt. discriminate.
  - cbn. lia.
Qed.
Lemma count_contract : xof_contract count_provider count_spec (fun _ _ => True).
Proof.
  constructor.
  - intros p s _. eexists. reflexivity.
  - intros p s s' ds _ _ _. rewrite count_updates. eexists. reflexivity.
  - intros p s s' ds t ns _ E _ F _. injection E as <-. rewrite count_updates in F. injection F as <-. rewrite count_takes. cbn [fst snd].
    eexists. split; reflexivity.
  - intros p s s' ds t ns u w _ _ _ _ _ _. eexists. split; [reflexivity|exact I].
  - intros p s s' ds t ns u w [].
  - intros p s ds n _ _. split; [cbn; rewrite map_length, seq_length; reflexivity|].
    apply Forall_forall. intros x Hx. apply in_map_iff in Hx. destruct Hx as (i & <- & _). apply N.mod_lt. discriminate.
Qed.
