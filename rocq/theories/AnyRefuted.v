(** * Absorbing after squeezing. *)
From Verif Require Import Base Hasher MdState Library LibraryTypes AnyCalls AnyProof LibraryAny VecUtil Shake Ascon.

(** The same bytes through absorb(pointer) and absorb(iterators) after squeezing, in
    every memory: different outputs. *)
Definition forms_differ {P} (T : xtype P) (k : nat) (d : list N) (n : nat) : Prop :=
  forall g, xt_mem_ok T g -> exists a b,
    xafter T g [XSqueezeBuf k; XBase (Absorb FPtr d)] [XSqueezeBuf n] = Ok [OBytes a] /\
    xafter T g [XSqueezeBuf k; XBase (Absorb FIter d)] [XSqueezeBuf n] = Ok [OBytes b] /\ a <> b.
(** absorb(pointer, 0) after squeezing changes what is squeezed next. *)
Definition empty_absorb_matters {P} (T : xtype P) (k n : nat) : Prop :=
  forall g, xt_mem_ok T g -> exists a b,
    xafter T g [XSqueezeBuf k; XBase (Absorb FPtr [])] [XSqueezeBuf n] = Ok [OBytes a] /\
    xafter T g [XSqueezeBuf k] [XSqueezeBuf n] = Ok [OBytes b] /\ a <> b.

Lemma xdiffers_check {P} (T : xtype P) : xlibrary T -> forall g0 pa pb n, xt_mem_ok T g0 -> xany pa -> xany pb ->
  match xafter T g0 pa [XSqueezeBuf n], xafter T g0 pb [XSqueezeBuf n] with
  | Ok [OBytes a], Ok [OBytes b] => leqb a b
  | _, _ => true
  end = false ->
  forall g, xt_mem_ok T g -> exists a b, xafter T g pa [XSqueezeBuf n] = Ok [OBytes a] /\ xafter T g pb [XSqueezeBuf n] = Ok [OBytes b] /\ a <> b.
Proof.
  intros HT g0 pa pb n Hg0 Ha Hb E g Hg. destruct (xlibrary_rob P T HT) as (X & [R]).
  assert (Hn : @xany (p_param P) [XSqueezeBuf n]) by (repeat constructor).
  rewrite (xany_memory R g g0 pa), (xany_memory R g g0 pb) by auto.
  destruct (xafter T g0 pa [XSqueezeBuf n]) as [[|[|a|] [|? ?]]| |]; try discriminate.
  destruct (xafter T g0 pb [XSqueezeBuf n]) as [[|[|b|] [|? ?]]| |]; try discriminate.
  exists a, b. repeat split; auto. intros ->.
  assert (leqb b b = true) as F; [|congruence]. clear. induction b; cbn; [reflexivity|]. rewrite N.eqb_refl. exact IHb.
Qed.

Theorem ascon_forms_differ : forms_differ ascon_xof_type 1 [1; 2; 3; 4; 5; 6; 7; 8; 9; 10; 11; 12; 13; 14; 15] 16.
Proof.
  refine (xdiffers_check ascon_xof_type xlib_ascon_xof (mkst [0; 0; 0; 0; 0] (repeat 0 64) 0 0) _ _ _ _ _ _ _).
  - reflexivity.
  - repeat constructor.
  - repeat constructor.
  - vm_compute. reflexivity.
Qed.
Theorem shake_empty_matters : empty_absorb_matters (shake_type 128) 168 16.
Proof.
  refine (xdiffers_check (shake_type 128) xlib_shake128 (mkst (repeat 0 25) (repeat 0 168) 0 0, false, 0) _ _ _ _ _ _ _).
  - reflexivity.
  - repeat constructor.
  - repeat constructor.
  - vm_compute. reflexivity.
Qed.
