(** * The hash types of the library and observations of hashers.

    Vocabulary for the properties that speak about "every hash type": which C++ types
    exist, how an object is constructed, and what a caller sees. Nothing here refers to
    the specifications of the hash functions. *)
From Verif Require Import Base Hasher.

(** ** Types *)

(** A fixed-output hasher type (hasher.hpp:36-395 over one provider). [ht_mem] is the memory an object is constructed in,
    [ht_mem_ok] fixes only the lengths of its arrays. *)
Record htype (P : hash_provider) := {
  ht_mem : Type;
  ht_mem_ok : ht_mem -> Prop;
  ht_new : ht_mem -> res (pst P);                 (* constructor and init() *)
  ht_size : nat;                                  (* documented digest length in bytes *)
  ht_accepts : p_param P -> list N -> bool;       (* documented valid arguments of set_* *)
  ht_clr : bool                                   (* false: reset(true) excluded from histories *)
}.
Arguments ht_mem {P}. Arguments ht_mem_ok {P}. Arguments ht_new {P}.
Arguments ht_size {P}. Arguments ht_accepts {P}. Arguments ht_clr {P}.

(** An extendable-output hasher type. hasher.hpp:36-395 over one provider. *)
Record xtype (P : xof_provider) := {
  xt_mem : Type;
  xt_mem_ok : xt_mem -> Prop;
  xt_new : xt_mem -> res (pst P);
  xt_accepts : p_param P -> list N -> bool;
  xt_clr : bool
}.
Arguments xt_mem {P}. Arguments xt_mem_ok {P}. Arguments xt_new {P}.
Arguments xt_accepts {P}. Arguments xt_clr {P}.

(** ** Observations *)

(** What [post] returns on a new object after the calls [pre]. A caller of hasher.hpp:36-395. *)
Definition after {P} (T : htype P) (g : ht_mem T) (pre post : list (hash_op (p_param P))) : res (list out) :=
  s <- ht_new T g ;;
  ' (s, _) <- hash_run P s pre ;;
  ' (_, l) <- hash_run P s post ;;
  Ok l.
(** The same for extendable output. A caller's view; no code of /repo. *)
Definition xafter {P} (T : xtype P) (g : xt_mem T) (pre post : list (xof_op (p_param P))) : res (list out) :=
  s <- xt_new T g ;;
  ' (s, _) <- xof_run P s pre ;;
  ' (_, l) <- xof_run P s post ;;
  Ok l.

(** ** Histories *)
(** What an unsigned char array holds (hasher.hpp:88). *)
Definition is_bytes (l : list N) : Prop := Forall (fun b => b < 256) l.
(** Arguments of the calls at hasher.hpp:85-190, 385-390 and in the mixins. *)
Definition base_call_ok {param} (clr : bool) (o : base_op param) : Prop :=
  match o with
  | Absorb _ d => is_bytes d
  | Reset b => b = true -> clr = true
  | SetParam _ v => is_bytes v
  end.
(** Every sequence of calls with byte arguments (without reset(true) if [ht_clr] is
    false). hasher.hpp:322-378. *)
Definition hcalls {P} (T : htype P) (ops : list (hash_op (p_param P))) : Prop :=
  Forall (fun o => match o with HBase b => base_call_ok (ht_clr T) b | _ => True end) ops.

(** For XOF types: lengths to squeeze are positive, and absorb does not follow squeeze
    before the next reset or successful set_*. [sq]: something was squeezed. hasher.hpp:204-302. *)
Fixpoint xcalls_from {P} (T : xtype P) (sq : bool) (ops : list (xof_op (p_param P))) : Prop :=
  match ops with
  | [] => True
  | XBase b :: r =>
    base_call_ok (xt_clr T) b /\
    match b with
    | Absorb _ _ => sq = false /\ xcalls_from T sq r
    | Reset _ => xcalls_from T false r
    | SetParam q v => xcalls_from T (if xt_accepts T q v then false else sq) r
    end
  | (XSqueezeBuf n | XSqueezeIter n | XHexSqueeze n) :: r => (0 < n)%nat /\ xcalls_from T true r
  end.
(** The same from a new object, hasher.hpp:204-302. *)
Definition xcalls {P} (T : xtype P) ops : Prop := xcalls_from T false ops.

(** Calls that set the parameters in force after [ops].
    Callers of algorithm/mixin/*.hpp and hasher.hpp:385-390. *)
Fixpoint setters_from {param} (acc ops : list (hash_op param)) : list (hash_op param) :=
  match ops with
  | [] => acc
  | HBase (SetParam q v) :: r => setters_from (acc ++ [HBase (SetParam q v)]) r
  | HBase (Reset true) :: r => setters_from [] r
  | _ :: r => setters_from acc r
  end.
(** The same from a new object. Specification; no code of /repo. *)
Definition setters {param} (ops : list (hash_op param)) := setters_from [] ops.
(** The same for extendable output. Specification; no code of /repo. *)
Fixpoint xsetters_from {param} (acc ops : list (xof_op param)) : list (xof_op param) :=
  match ops with
  | [] => acc
  | XBase (SetParam q v) :: r => xsetters_from (acc ++ [XBase (SetParam q v)]) r
  | XBase (Reset true) :: r => xsetters_from [] r
  | _ :: r => xsetters_from acc r
  end.
(** The same from a new object. Specification; no code of /repo. *)
Definition xsetters {param} (ops : list (xof_op param)) := xsetters_from [] ops.

(** Calls that only look at the object. hasher.hpp:322-378. *)
Definition is_digest {param} (o : hash_op param) : bool :=
  match o with HBase _ => false | _ => true end.

(** Bytes of a call that returned bytes. hasher.hpp:270-275. *)
Definition out_concat (l : list out) : list N :=
  flat_map (fun o => match o with OBytes b => b | _ => [] end) l.

(** Whether something was squeezed since the last restart.
    A caller of hasher.hpp:204-302; no code of /repo. *)
Definition xflag1 {P} (T : xtype P) (sq : bool) (o : xof_op (p_param P)) : bool :=
  match o with
  | XBase (Absorb _ _) => sq
  | XBase (Reset _) => false
  | XBase (SetParam q v) => if xt_accepts T q v then false else sq
  | _ => true
  end.
(** The same from a new object. Specification; no code of /repo. *)
Definition xflag {P} (T : xtype P) (ops : list (xof_op (p_param P))) : bool := fold_left (xflag1 T) ops false.

(** ** Empty arguments *)

(** squeeze() of length 0 changes nothing that is squeezed later. hasher.hpp:204-209. *)
Definition empty_squeeze_harmless {P} (T : xtype P) : Prop :=
  forall g pre post, xt_mem_ok T g -> xcalls T pre -> xcalls_from T true post ->
  xafter T g (pre ++ [XSqueezeBuf 0]) post = xafter T g pre post.

(** Setting the parameter [q] to the empty string is as if it had never been set: only
    the other parameters in force remain. [is_q] recognises [q].
    Documentation in algorithm/mixin/*.hpp. *)
Definition sets_other {param} (is_q : param -> bool) (o : base_op param) : bool :=
  match o with SetParam q _ => negb (is_q q) | _ => true end.
(** The property for fixed output. Specification; no code of /repo. *)
Definition empty_is_none {P} (T : htype P) (q : p_param P) (is_q : p_param P -> bool) : Prop :=
  forall g pre post, ht_mem_ok T g -> hcalls T pre -> hcalls T post ->
  exists r, after T g (pre ++ [HBase (SetParam q [])]) post = Ok r /\
    after T g (filter (fun o => match o with HBase b => sets_other is_q b | _ => true end) (setters pre)) post = Ok r.
(** The property for extendable output. Specification; no code of /repo. *)
Definition xempty_is_none {P} (T : xtype P) (q : p_param P) (is_q : p_param P -> bool) : Prop :=
  forall g pre post, xt_mem_ok T g -> xcalls T pre -> xcalls_from T false post ->
  exists r, xafter T g (pre ++ [XBase (SetParam q [])]) post = Ok r /\
    xafter T g (filter (fun o => match o with XBase b => sets_other is_q b | _ => true end) (xsetters pre)) post = Ok r.
