(** * Model of the calls of a hasher when memory allocation fails (C68).

    The allocations of the library are: strings stored by setters, and the temporary string of
    their overloads for pointers (algorithm/mixin/*.hpp); kmac_functions::bytepad
    (kmac_provider.hpp:18-32); copies of the provider, the vectors and the string streams in
    hasher.hpp:272, 298, 329, 351-352, 374. Assignment of a std::string has no effect if it
    throws; strings of at most 11 characters ("KMAC", "SHA-512/504") are taken not to be
    allocated, as in the usual implementations. *)
From Verif Require Import Base Hasher MdState Shake Kmac Blake2 Blake2p.

(** A call, and what fails in it: nothing; the allocation number [k], which throws std::bad_alloc;
    or the growth of the string stream of hexdigest() and hexsqueeze() (hasher.hpp:375-376, 299-300)
    beyond [j] characters, where operator<< catches the exception and sets badbit, so that nothing
    more is written. *)
Inductive aop (op : Type) :=
| Fine (o : op)
| NoMem (o : op) (k : nat)
| NoStream (o : op) (j : nat).
Arguments Fine {op} o. Arguments NoMem {op} o k. Arguments NoStream {op} o j.

(** For the calls of hasher.hpp:85-190, 385-390 and the mixins: the object when allocation number
    [k] fails; [None] if there are no more than [k] allocations. *)
Definition fails (P : provider) := base_op (p_param P) -> nat -> option (pst P -> res (pst P)).

(** Setters that store one string, e.g. skein_provider.hpp:205-218 behind skein_mixin.hpp:28-88.
    The salts of BLAKE and ECHO and salt and personalization of
    BLAKE2, and strings short enough to be stored in place, are not even allocated: they are allowed
    to fail here all the same. *)
Definition keep (P : provider) : fails P := fun o k =>
  match o, k with SetParam _ _, O => Some (fun s => Ok s) | _, _ => None end.

(** kmac_provider.hpp:111-116 if set_key("") throws in bytepad (115, 73): K has been overwritten
    with zeros but keeps its length. Setters: 71-79. *)
Definition kmac_fail (B : N) : fails (kmac_base B) := fun o k =>
  match o, k with
  | SetParam _ _, O => Some (fun s => Ok s)
  | Reset true, O => Some (fun s => sh <- shake_clear (kmsh s) ;; Ok (mkkm (zero_memory (kmK s)) (kmhs s) (kmsq s) sh))
  | _, _ => None
  end.

(** blake2p_provider.hpp:88-93: allocation 0 is that of main (or of the temporary string), number
    [S j] that of leaf[j]; main and the leaves before it have the new key. *)
Definition b2p_key_upto (w : N) (v : list N) (j : nat) (s : b2p_st) : res b2p_st :=
  match b2_set w B2Key v (bpmain s), b2_set_all w B2Key v (firstn j (bpleaf s)) with
  | Done m, Done l => Ok (mkb2pst m (l ++ skipn j (bpleaf s)) (bpm s) (bppos s) (bptotal s) (bphs s))
  | _, _ => Ok s
  end.
(** blake2p_provider.hpp:88-93 *)
Definition b2p_fail (w : N) (tf : b2p_tf) : fails (blake2p_with w tf) := fun o k =>
  match o, k with
  | SetParam _ _, O => Some (fun s => Ok s)
  | SetParam B2Key v, S j => if (j <? bp_P w)%nat && (length v <=? b2_hb w)%nat then Some (b2p_key_upto w v j) else None
  | _, _ => None
  end.

Section HashAlloc.
  Variables (P : hash_provider) (F : fails P).
  (** digest() and hexdigest() are const (hasher.hpp:324, 349, 372); they allocate in 329, 351-352,
      374, 377 and, with an iterator, possibly in 354. *)
  Definition fate (o : hash_op (p_param P)) (k : nat) : option (pst P -> res (pst P)) :=
    match o with HBase b => F b k | _ => Some (fun s => Ok s) end.
  (** One call: hasher.hpp:85-190, 322-390 and the mixins. *)
  Definition ahash_step (s : pst P) (a : aop (hash_op (p_param P))) : res (pst P * out) :=
    match a with
    | Fine o => hash_step P s o
    | NoMem o k => match fate o k with
                   | Some f => s <- f s ;; Ok (s, OThrow)
                   | None => hash_step P s o
                   end
    | NoStream o j =>
      ' (s, x) <- hash_step P s o ;;
      Ok (s, match o, x with HHexDigest, OBytes b => OBytes (firstn j b) | _, _ => x end)
    end.
  (** A caller making the calls one after the other; no code of /repo. *)
  Fixpoint ahash_run (s : pst P) (l : list (aop (hash_op (p_param P)))) : res (pst P * list out) :=
    match l with
    | [] => Ok (s, [])
    | a :: r => ' (s, x) <- ahash_step s a ;; ' (s, xs) <- ahash_run s r ;; Ok (s, x :: xs)
    end.
End HashAlloc.

Section XofAlloc.
  Variables (P : xof_provider) (F : fails P).
  (** hasher.hpp:272 and 298 allocate before the squeeze; the string returned at 301, and the
      caller's container behind the iterator at 274, after it. *)
  Definition xfate (o : xof_op (p_param P)) (k : nat) : option (pst P -> res (pst P)) :=
    match o, k with
    | XBase b, _ => F b k
    | XSqueezeBuf _, _ => None
    | XSqueezeIter _, O | XHexSqueeze _, O => Some (fun s => Ok s)
    | XSqueezeIter n, S _ | XHexSqueeze n, S _ => Some (fun s => ' (s, _) <- squeeze_iter P s n ;; Ok s)
    end.
  (** One call: hasher.hpp:85-302, 385-390 and the mixins. *)
  Definition axof_step (s : pst P) (a : aop (xof_op (p_param P))) : res (pst P * out) :=
    match a with
    | Fine o => xof_step P s o
    | NoMem o k => match xfate o k with
                   | Some f => s <- f s ;; Ok (s, OThrow)
                   | None => xof_step P s o
                   end
    | NoStream o j =>
      ' (s, x) <- xof_step P s o ;;
      Ok (s, match o, x with XHexSqueeze _, OBytes b => OBytes (firstn j b) | _, _ => x end)
    end.
  (** A caller making the calls one after the other; no code of /repo. *)
  Fixpoint axof_run (s : pst P) (l : list (aop (xof_op (p_param P)))) : res (pst P * list out) :=
    match l with
    | [] => Ok (s, [])
    | a :: r => ' (s, x) <- axof_step s a ;; ' (s, xs) <- axof_run s r ;; Ok (s, x :: xs)
    end.
End XofAlloc.

(** ** Spec of C68 (no code of /repo) *)

(** What remains of a call whose allocation fails: nothing; everything but the output; or the
    whole call, if it does not have that allocation. Specification; no code of /repo. *)
Inductive effect := NotMade | OutputLost | Normal.

(** Specification; no code of /repo. *)
Definition hash_effect {param} (o : hash_op param) (k : nat) : effect :=
  match o, k with
  | HBase (SetParam _ _), O => NotMade
  | HBase _, _ => Normal
  | _, _ => NotMade
  end.
(** Specification; no code of /repo. *)
Definition xof_effect {param} (o : xof_op param) (k : nat) : effect :=
  match o, k with
  | XBase (SetParam _ _), O | XSqueezeIter _, O | XHexSqueeze _, O => NotMade
  | XSqueezeIter _, S _ | XHexSqueeze _, S _ => OutputLost
  | _, _ => Normal
  end.
(** The result of a call whose stream takes [j] characters. Specification; no code of /repo. *)
Definition hash_cut {param} (o : hash_op param) (j : nat) (x : out) : out :=
  match o, x with HHexDigest, OBytes b => OBytes (firstn j b) | _, _ => x end.
(** Specification; no code of /repo. *)
Definition xof_cut {param} (o : xof_op param) (j : nat) (x : out) : out :=
  match o, x with XHexSqueeze _, OBytes b => OBytes (firstn j b) | _, _ => x end.

(** The calls that take effect, and their results with the exceptions in between.
    Specification; no code of /repo. *)
Fixpoint made {op} (e : op -> nat -> effect) (l : list (aop op)) : list op :=
  match l with
  | [] => []
  | NoMem o k :: r => match e o k with NotMade => made e r | _ => o :: made e r end
  | Fine o :: r | NoStream o _ :: r => o :: made e r
  end.
(** Specification; no code of /repo. *)
Fixpoint weave {op} (e : op -> nat -> effect) (cut : op -> nat -> out -> out) (l : list (aop op)) (xs : list out) : list out :=
  match l with
  | [] => []
  | NoMem o k :: r => match e o k with
                      | NotMade => OThrow :: weave e cut r xs
                      | OutputLost => OThrow :: weave e cut r (tl xs)
                      | Normal => hd ODone xs :: weave e cut r (tl xs)
                      end
  | Fine _ :: r => hd ODone xs :: weave e cut r (tl xs)
  | NoStream o j :: r => cut o j (hd ODone xs) :: weave e cut r (tl xs)
  end.
