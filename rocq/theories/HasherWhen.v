(** * Conformance restricted to some parameter values and messages.

    When an implementation agrees with a standard only for some parameter values (or
    messages), the histories are restricted to those whose output calls happen under such
    values. *)
From Verif Require Import Base Lemmas Hasher HasherSpec HasherProof.

(** The same parameters and setters with another output function. *)
Definition with_digest {param} (S : hash_spec param) (f : sp_params S -> list N -> list N) : hash_spec param :=
  {| sp_params := sp_params S; sp_default := sp_default S; sp_set := sp_set S; sp_size := sp_size S;
     sp_digest := f |}.
Definition with_out {param} (S : xof_spec param) (f : xs_params S -> list N -> nat -> list N) : xof_spec param :=
  {| xs_params := xs_params S; xs_default := xs_default S; xs_set := xs_set S; xs_out := f |}.

Section Hash.
  Context {param : Type} (S : hash_spec param) (okp : sp_params S -> list N -> Prop).

  (** Every output call happens when the parameters and the message satisfy [okp]. *)
  Definition out_ok (a : astate S) (o : hash_op param) : Prop :=
    match o with HBase _ => True | _ => okp (fst a) (snd a) end.
  Fixpoint outs_ok (a : astate S) (ops : list (hash_op param)) : Prop :=
    match ops with
    | [] => True
    | o :: r => out_ok a o /\ outs_ok (fst (astep S a o)) r
    end.

  Variable f : sp_params S -> list N -> list N.
  Hypothesis agree : forall p msg, bytes_ok msg -> okp p msg -> f p msg = sp_digest S p msg.

  Lemma astep_bytes clr a o : hash_op_ok clr o -> bytes_ok (snd a) -> bytes_ok (snd (fst (astep S a o))).
  Proof.
    destruct a as [p msg]. intros Ho Hm. destruct o as [b|buf| |]; try exact Hm.
    destruct b as [fm d|b|q v]; cbn [astep abase fst snd].
    - apply bytes_ok_app; [exact Hm|]. destruct fm; cbn [absorbed]; [exact Ho..|constructor|exact Ho].
    - destruct b; constructor.
    - destruct (sp_set S q v p); [constructor|exact Hm].
  Qed.

  Lemma arun_agree clr ops : forall a, Forall (hash_op_ok clr) ops -> bytes_ok (snd a) -> outs_ok a ops ->
    snd (arun (with_digest S f) a ops) = snd (arun S a ops).
  Proof.
    induction ops as [|o r IH]; intros a Hops Hb H; [reflexivity|].
    inversion_clear Hops as [|? ? K1 K2]. pose proof (astep_bytes clr a o K1 Hb) as Hb'.
    destruct H as [Ho Hr]. cbn [arun].
    assert (E : astep (with_digest S f) a o = astep S a o).
    { clear Hb'. destruct a as [p msg]. cbn [snd] in Hb. destruct o as [b|buf| |]; cbn [astep sp_digest with_digest sp_size].
      - destruct b as [| [] |]; reflexivity.
      - cbn in Ho. rewrite agree by assumption. reflexivity.
      - cbn in Ho. rewrite agree by assumption. reflexivity.
      - cbn in Ho. rewrite agree by assumption. reflexivity. }
    rewrite E. destruct (astep S a o) as [a1 x] eqn:E1. cbn [fst] in Hr, Hb'.
    specialize (IH a1 K2 Hb' Hr).
    destruct (arun (with_digest S f) a1 r) as [a2 xs]. destruct (arun S a1 r) as [a3 ys].
    cbn [snd] in IH |- *. rewrite IH. reflexivity.
  Qed.
End Hash.

Definition implements_when (P : hash_provider) (S : hash_spec (p_param P)) (okp : sp_params S -> list N -> Prop)
  (clr : bool) (fresh : res (pst P)) : Prop :=
  forall ops, Forall (hash_op_ok clr) ops -> outs_ok S okp (afresh S) ops ->
  exists s0 s1, fresh = Ok s0 /\
    hash_run P s0 ops = Ok (s1, snd (arun S (afresh S) ops)).

Lemma implements_restrict P S (okp : sp_params S -> list N -> Prop) clr fresh f :
  (forall p msg, bytes_ok msg -> okp p msg -> f p msg = sp_digest S p msg) ->
  implements P (with_digest S f) clr fresh -> implements_when P S okp clr fresh.
Proof.
  intros Ha H ops Hops Hp. destruct (H ops Hops) as (s0 & s1 & E0 & E1).
  exists s0, s1. split; [exact E0|].
  rewrite <- (arun_agree S okp f Ha clr ops (afresh S) Hops (Forall_nil _) Hp). exact E1.
Qed.

Section Xof.
  Context {param : Type} (S : xof_spec param) (okp : xs_params S -> Prop).

  Definition xout_ok (a : xstate S) (o : xof_op param) : Prop :=
    match o with XBase _ => True | _ => okp (fst (fst a)) end.
  Fixpoint xouts_ok (a : xstate S) (ops : list (xof_op param)) : Prop :=
    match ops with
    | [] => True
    | o :: r => xout_ok a o /\ xouts_ok (fst (xstep S a o)) r
    end.

  Variable f : xs_params S -> list N -> nat -> list N.
  Hypothesis agree : forall p msg n, okp p -> f p msg n = xs_out S p msg n.

  Lemma xstep_agree a o : xout_ok a o -> xstep (with_out S f) a o = xstep S a o.
  Proof.
    destruct a as [[p msg] k]. intros Ho. destruct o as [b|n|n|n]; cbn [xstep xsq].
    - destruct b as [| [] |]; reflexivity.
    - cbn in Ho. cbn [xs_out with_out]. rewrite agree by exact Ho. reflexivity.
    - cbn in Ho. cbn [xs_out with_out]. rewrite agree by exact Ho. reflexivity.
    - cbn in Ho. cbn [xs_out with_out]. rewrite agree by exact Ho. reflexivity.
  Qed.

  Lemma xrun_agree ops : forall a, xouts_ok a ops ->
    snd (xrun (with_out S f) a ops) = snd (xrun S a ops).
  Proof.
    induction ops as [|o r IH]; intros a H; [reflexivity|].
    destruct H as [Ho Hr]. cbn [xrun]. rewrite (xstep_agree a o Ho).
    destruct (xstep S a o) as [a1 x] eqn:E1. cbn [fst] in Hr.
    specialize (IH a1 Hr).
    destruct (xrun (with_out S f) a1 r) as [a2 xs]. destruct (xrun S a1 r) as [a3 ys].
    cbn [snd] in IH |- *. rewrite IH. reflexivity.
  Qed.

  Lemma xops_ok_agree clr ops : forall a, xouts_ok a ops -> xof_ops_ok S clr a ops ->
    xof_ops_ok (with_out S f) clr a ops.
  Proof.
    induction ops as [|o r IH]; intros a H K; [exact I|].
    destruct H as [Ho Hr]. destruct K as [Ko Kr]. cbn [xof_ops_ok]. split.
    - destruct a as [[p msg] k]. destruct o as [b|n|n|n]; try exact Ko. 
    - rewrite (xstep_agree a o Ho). apply IH; auto.
  Qed.
End Xof.

Definition ximplements_when (P : xof_provider) (S : xof_spec (p_param P)) (okp : xs_params S -> Prop)
  (clr : bool) (fresh : res (pst P)) : Prop :=
  forall ops, xof_ops_ok S clr (xfresh S) ops -> xouts_ok S okp (xfresh S) ops ->
  exists s0 s1, fresh = Ok s0 /\
    xof_run P s0 ops = Ok (s1, snd (xrun S (xfresh S) ops)).

Lemma ximplements_restrict P S (okp : xs_params S -> Prop) clr fresh f :
  (forall p msg n, okp p -> f p msg n = xs_out S p msg n) ->
  ximplements P (with_out S f) clr fresh -> ximplements_when P S okp clr fresh.
Proof.
  intros Ha H ops Hops Hp.
  destruct (H ops (xops_ok_agree S okp f Ha clr ops (xfresh S) Hp Hops)) as (s0 & s1 & E0 & E1).
  exists s0, s1. split; [exact E0|].
  rewrite <- (xrun_agree S okp f Ha ops (xfresh S) Hp). exact E1.
Qed.
