(** * Objects do not interfere; copies are independent. *)
From Coq Require Import Eqdep_dec.
From Verif Require Import Base Hasher Objects.

Lemma m_run_app M ops1 : forall s ops2,
  m_run M s (ops1 ++ ops2) =
  (' (s, l1) <- m_run M s ops1 ;; ' (s, l2) <- m_run M s ops2 ;; Ok (s, l1 ++ l2)).
Proof.
  induction ops1 as [|o r IH]; intros s ops2; cbn [app m_run bind].
  - destruct (m_run M s ops2) as [[? ?]| |]; reflexivity.
  - destruct (m_step M s o) as [[s1 x]| |]; cbn [bind]; [|reflexivity|reflexivity].
    rewrite IH. destruct (m_run M s1 r) as [[s2 l]| |]; cbn [bind]; [|reflexivity|reflexivity].
    destruct (m_run M s2 ops2) as [[? ?]| |]; reflexivity.
Qed.

Section Store.
  Variable kind : Type.
  Variable kind_eq : forall a b : kind, {a = b} + {a <> b}.
  Variable M : kind -> machine.
  Notation store := (store kind M).
  Notation event := (event kind M).

  Lemma upd_same {A : kind -> Type} (s : forall k, nat -> A k) k i v : upd kind kind_eq s k i v k i = v.
  Proof.
    unfold upd. destruct (kind_eq k k) as [e|n]; [|contradiction].
    rewrite Nat.eqb_refl, (UIP_dec kind_eq e eq_refl). reflexivity.
  Qed.
  Lemma upd_other {A : kind -> Type} (s : forall k, nat -> A k) k i v k' j : (k <> k' \/ i <> j) ->
    upd kind kind_eq s k i v k' j = s k' j.
  Proof.
    intros H. unfold upd. destruct (kind_eq k k') as [e|n]; [|reflexivity].
    destruct (Nat.eqb_spec i j); [|reflexivity]. destruct H; contradiction.
  Qed.
  Lemma slot_dec (k k' : kind) (i j : nat) : (k = k' /\ i = j) \/ (k <> k' \/ i <> j).
  Proof. destruct (kind_eq k k'), (Nat.eq_dec i j); auto. Qed.

  (** Without copies, each object sees exactly its own calls. *)
  Theorem objects_independent es : forall (s s' : store) l, forallb (is_call kind M) es = true ->
    events_run kind kind_eq M s es = Ok (s', l) ->
    forall k i, m_run (M k) (s k i) (calls_on kind kind_eq M k i es) = Ok (s' k i, outs_on kind kind_eq M k i es l).
  Proof.
    induction es as [|e r IH]; intros s s' l Hc H k i.
    - injection H as <- <-. reflexivity.
    - cbn [forallb] in Hc. apply andb_true_iff in Hc. destruct Hc as [Hc Hr].
      destruct e as [k' j o|]; [|discriminate Hc]. cbn [events_run event_step] in H.
      destruct (m_step (M k') (s k' j) o) as [[v x]| |] eqn:E; try discriminate H. cbn [bind] in H.
      destruct (events_run kind kind_eq M (upd kind kind_eq s k' j v) r) as [[s1 l1]| |] eqn:E1; try discriminate H.
      cbn [bind] in H. injection H as -> <-. specialize (IH _ _ _ Hr E1 k i).
      cbn [calls_on outs_on]. destruct (kind_eq k' k) as [e|n].
      + subst k'. cbn [eq_rect]. destruct (Nat.eqb_spec j i) as [->|Hn].
        * rewrite (upd_same s k i v) in IH. cbn [m_run]. rewrite E. cbn [bind]. rewrite IH. reflexivity.
        * rewrite (upd_other s k j v k i) in IH by auto. exact IH.
      + rewrite (upd_other s k' j v k i) in IH by auto. exact IH.
  Qed.
  (** Conversely nothing can go wrong that does not go wrong alone. *)
  Theorem objects_total es : forall s : store, forallb (is_call kind M) es = true ->
    (forall k i, exists v l, m_run (M k) (s k i) (calls_on kind kind_eq M k i es) = Ok (v, l)) ->
    exists s' l, events_run kind kind_eq M s es = Ok (s', l).
  Proof.
    induction es as [|e r IH]; intros s Hc H; [cbn; eauto|].
    cbn [forallb] in Hc. apply andb_true_iff in Hc. destruct Hc as [Hc Hr].
    destruct e as [k j o|]; [|discriminate Hc]. cbn [events_run event_step].
    destruct (H k j) as (v & l & E). cbn [calls_on] in E.
    destruct (kind_eq k k) as [e|n]; [|contradiction]. rewrite (UIP_dec kind_eq e eq_refl), Nat.eqb_refl in E.
    cbn [eq_rect m_run] in E. destruct (m_step (M k) (s k j) o) as [[v1 x]| |] eqn:E1; try discriminate E.
    cbn [bind]. destruct (IH (upd kind kind_eq s k j v1) Hr) as (s' & l' & E2).
    - intros k' i. specialize (H k' i). cbn [calls_on] in H.
      destruct (kind_eq k k') as [e'|n'].
      + subst k'. cbn [eq_rect] in H. destruct (Nat.eqb_spec j i) as [->|Hn].
        * rewrite (upd_same s k i v1). cbn [bind] in E.
          destruct (m_run (M k) v1 (calls_on kind kind_eq M k i r)) as [[v2 l2]| |]; try discriminate E. eauto.
        * rewrite (upd_other s k j v1 k i) by auto. exact H.
      + rewrite (upd_other s k j v1 k' i) by auto. exact H.
    - rewrite E2. cbn [bind]. eauto.
  Qed.

  (** With copies. *)
  Definition follows (h : lives kind M) (s : store) : Prop :=
    forall k i, exists l, m_run (M k) (fst (h k i)) (snd (h k i)) = Ok (s k i, l).
  Theorem copies_independent es : forall (h : lives kind M) (s s' : store) l, follows h s ->
    events_run kind kind_eq M s es = Ok (s', l) ->
    map Ok l = expected kind kind_eq M h es.
  Proof.
    induction es as [|e r IH]; intros h s s' l Hf H.
    - injection H as <- <-. reflexivity.
    - cbn [events_run] in H. destruct (event_step kind kind_eq M s e) as [[s1 x]| |] eqn:E; try discriminate H.
      cbn [bind] in H. destruct (events_run kind kind_eq M s1 r) as [[s2 l2]| |] eqn:E2; try discriminate H.
      cbn [bind] in H. injection H as -> <-. cbn [map expected].
      destruct e as [k i o|k i j]; cbn [event_step] in E.
      + destruct (Hf k i) as (l0 & E0).
        destruct (m_step (M k) (s k i) o) as [[v y]| |] eqn:E1; try discriminate E. cbn [bind] in E.
        injection E as <- ->. f_equal.
        * unfold alone. rewrite E0. cbn [bind]. rewrite E1. reflexivity.
        * eapply IH; [|exact E2]. intros k' i'. unfold live.
          destruct (slot_dec k k' i i') as [[<- <-]|Hn].
          -- rewrite (upd_same (A := fun k => (m_st (M k) * list (m_op (M k)))%type)), (upd_same s k i v). cbn [fst snd].
             exists (l0 ++ [x]). rewrite m_run_app, E0. cbn [bind m_run]. rewrite E1. reflexivity.
          -- rewrite (upd_other (A := fun k => (m_st (M k) * list (m_op (M k)))%type)), (upd_other s) by exact Hn. apply Hf.
      + injection E as <- <-. f_equal. eapply IH; [|exact E2]. intros k' i'. unfold live.
        destruct (slot_dec k k' j i') as [[<- <-]|Hn].
        * rewrite (upd_same (A := fun k => (m_st (M k) * list (m_op (M k)))%type)), (upd_same s k j). apply Hf.
        * rewrite (upd_other (A := fun k => (m_st (M k) * list (m_op (M k)))%type)), (upd_other s) by exact Hn. apply Hf.
  Qed.
  Lemma follows_start (s : store) : follows (start kind M s) s.
  Proof. intros k i. exists []. reflexivity. Qed.
End Store.
