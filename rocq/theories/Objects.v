(** * Several hasher objects (C40, C41).

    All data members of [hasher] and of the providers are per object, there are no
    static or global variables other than constant tables, and copying is member-wise
    (the classes declare no copy operations; they declare destructors, so they have no move operations and std::move copies). A program over many objects is therefore a
    sequence of calls on a store with one provider state per object; calls are the unit
    of interleaving. *)
From Verif Require Import Base Hasher.

(** A kind of object: its state (the only data member, hasher.hpp:394) and its calls
    (hasher.hpp:50-390 and the mixins). *)
Record machine := { m_st : Type; m_op : Type; m_step : m_st -> m_op -> res (m_st * out) }.
(** The calls at hasher.hpp:85-190 and 322-390. *)
Definition hash_machine (P : hash_provider) : machine :=
  {| m_st := pst P; m_op := hash_op (p_param P); m_step := hash_step P |}.
(** The calls at hasher.hpp:85-300 and 385-390. *)
Definition xof_machine (P : xof_provider) : machine :=
  {| m_st := pst P; m_op := xof_op (p_param P); m_step := xof_step P |}.

(** Calls of one object alone. A caller's view; no code of /repo. *)
Fixpoint m_run (M : machine) (s : m_st M) (ops : list (m_op M)) : res (m_st M * list out) :=
  match ops with
  | [] => Ok (s, [])
  | o :: r =>
    ' (s, x) <- m_step M s o ;;
    ' (s, l) <- m_run M s r ;;
    Ok (s, x :: l)
  end.

Section Store.
  (** Copies are the implicit ones of the class (hasher.hpp:37-395 declares none), as
      used by the library itself at hasher.hpp:329 and 351.
      [kind] are the C++ types in use; objects of a type are numbered. *)
  Variable kind : Type.
  Variable kind_eq : forall a b : kind, {a = b} + {a <> b}.
  Variable M : kind -> machine.

  (** The objects of a program; no code of /repo. *)
  Definition store := forall k, nat -> m_st (M k).
  (** A caller's view; no code of /repo. *)
  Inductive event :=
  | ECall (k : kind) (i : nat) (o : m_op (M k))
  | ECopy (k : kind) (src dst : nat).        (* T dst(src); or dst = src; also with std::move(src).
      Types over ascon_provider and shake_provider cannot be assigned: their member rate is const
      (ascon_provider.hpp:179, shake_provider.hpp:173) *)

  (** Used in proofs; no code of /repo. *)
  Definition upd {A : kind -> Type} (s : forall k, nat -> A k) (k : kind) (i : nat) (v : A k) : forall k, nat -> A k :=
    fun k' j => match kind_eq k k' with
                | left e => if (i =? j)%nat then eq_rect k A v k' e else s k' j
                | right _ => s k' j
                end.

  (** A call, or the implicit copy constructor or assignment of hasher.hpp:37-400. *)
  Definition event_step (s : store) (e : event) : res (store * out) :=
    match e with
    | ECall k i o => ' (v, x) <- m_step (M k) (s k i) o ;; Ok (upd s k i v, x)
    | ECopy k i j => Ok (upd s k j (s k i), ODone)
    end.
  (** A caller's view; no code of /repo. *)
  Fixpoint events_run (s : store) (es : list event) : res (store * list out) :=
    match es with
    | [] => Ok (s, [])
    | e :: r =>
      ' (s, x) <- event_step s e ;;
      ' (s, l) <- events_run s r ;;
      Ok (s, x :: l)
    end.

  (** The calls on object [(k, i)], in order, and the corresponding results.
      Specification; no code of /repo. *)
  Fixpoint calls_on (k : kind) (i : nat) (es : list event) : list (m_op (M k)) :=
    match es with
    | [] => []
    | ECall k' j o :: r =>
      match kind_eq k' k with
      | left e => if (j =? i)%nat then eq_rect k' (fun k => m_op (M k)) o k e :: calls_on k i r else calls_on k i r
      | right _ => calls_on k i r
      end
    | ECopy _ _ _ :: r => calls_on k i r
    end.
  (** Specification; no code of /repo. *)
  Fixpoint outs_on (k : kind) (i : nat) (es : list event) (l : list out) : list out :=
    match es, l with
    | ECall k' j _ :: r, x :: l =>
      match kind_eq k' k with
      | left _ => if (j =? i)%nat then x :: outs_on k i r l else outs_on k i r l
      | right _ => outs_on k i r l
      end
    | ECopy _ _ _ :: r, _ :: l => outs_on k i r l
    | _, _ => []
    end.
  (** Specification; no code of /repo. *)
  Definition is_call (e : event) : bool := match e with ECall _ _ _ => true | _ => false end.

  (** With copies: the life of an object is that of its origin up to the copy, followed by
      its own calls. [life k i] is the initial state and the calls. Specification; no code of /repo. *)
  Definition lives := forall k, nat -> (m_st (M k) * list (m_op (M k)))%type.
  (** Specification; no code of /repo. *)
  Definition start (s : store) : lives := fun k i => (s k i, []).
  (** Specification; no code of /repo. *)
  Definition live (h : lives) (e : event) : lives :=
    match e with
    | ECall k i o => upd (A := fun k => (m_st (M k) * list (m_op (M k)))%type) h k i (fst (h k i), snd (h k i) ++ [o])
    | ECopy k i j => upd (A := fun k => (m_st (M k) * list (m_op (M k)))%type) h k j (h k i)
    end.
  (** Result of call [o] on a lone object with life [p]. Specification; no code of /repo. *)
  Definition alone {k} (p : m_st (M k) * list (m_op (M k))) (o : m_op (M k)) : res out :=
    ' (s, _) <- m_run (M k) (fst p) (snd p) ;; ' (_, x) <- m_step (M k) s o ;; Ok x.
  (** Specification; no code of /repo. *)
  Fixpoint expected (h : lives) (es : list event) : list (res out) :=
    match es with
    | [] => []
    | e :: r => match e with ECall k i o => alone (h k i) o | ECopy _ _ _ => Ok ODone end :: expected (live h e) r
    end.
End Store.
Arguments ECall {kind M}. Arguments ECopy {kind M}.
