(** * Histories without restrictions.

    The histories of Library.v leave out zero-length squeezes, absorbing after squeezing
    and, for some types, reset(true). Here every sequence of calls is admitted; only the
    arguments are bytes, and squeeze(n, it) / hexsqueeze(n) have n > 0 (hasher.hpp:272-273
    forms [&hash[0]] of an empty vector otherwise). *)
From Verif Require Import Base Hasher Library.

(** Specification; no code of /repo. *)
Definition any_base {param} (o : base_op param) : Prop :=
  match o with Absorb _ d => is_bytes d | Reset _ => True | SetParam _ v => is_bytes v end.
(** Specification; no code of /repo. *)
Definition any_xop {param} (o : xof_op param) : Prop :=
  match o with XBase b => any_base b | XSqueezeBuf _ => True | XSqueezeIter n | XHexSqueeze n => (0 < n)%nat end.
(** Specification; no code of /repo. *)
Definition any_hop {param} (o : hash_op param) : Prop :=
  match o with HBase b => any_base b | _ => True end.
(** Specification; no code of /repo. *)
Definition xany {param} (ops : list (xof_op param)) : Prop := Forall any_xop ops.
(** Specification; no code of /repo. *)
Definition hany {param} (ops : list (hash_op param)) : Prop := Forall any_hop ops.

(** The calls that change parameters. Specification; no code of /repo. *)
Definition param_base {param} (o : base_op param) : bool :=
  match o with SetParam _ _ | Reset true => true | _ => false end.
(** Specification; no code of /repo. *)
Definition xparam_call {param} (o : xof_op param) : bool := match o with XBase b => param_base b | _ => false end.
(** Specification; no code of /repo. *)
Definition hparam_call {param} (o : hash_op param) : bool := match o with HBase b => param_base b | _ => false end.

(** reset(true). Specification; no code of /repo. *)
Definition erases {param} (o : hash_op param) : bool := match o with HBase (Reset true) => true | _ => false end.
(** What is left of the calls before a restart: one reset(true), if there was any, and
    the set_* calls after the last of them. Specification; no code of /repo. *)
Definition kept {param} (pre : list (hash_op param)) : list (hash_op param) :=
  if existsb erases pre then HBase (Reset true) :: setters pre else setters pre.
