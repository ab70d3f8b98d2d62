(** * Normal forms of call histories (C57).

    All that is left of a history: the arguments of the successful set_* calls, the bytes
    absorbed since the last restart and the number of bytes squeezed since then. Nothing here
    refers to the specifications of the hash functions. *)
From Verif Require Import Base Hasher HasherSpec Library LibraryProof Inputs.

(** Successful set_* calls since construction or the last reset(true). *)
Fixpoint settings_from {P} (T : htype P) (l : list (p_param P * list N)) (ops : list (hash_op (p_param P))) : list (p_param P * list N) :=
  match ops with
  | [] => l
  | HBase (SetParam q v) :: r => settings_from T (if ht_accepts T q v then l ++ [(q, v)] else l) r
  | HBase (Reset true) :: r => settings_from T [] r
  | _ :: r => settings_from T l r
  end.
Definition settings {P} (T : htype P) ops := settings_from T [] ops.
Fixpoint xsettings_from {P} (T : xtype P) (l : list (p_param P * list N)) (ops : list (xof_op (p_param P))) : list (p_param P * list N) :=
  match ops with
  | [] => l
  | XBase (SetParam q v) :: r => xsettings_from T (if xt_accepts T q v then l ++ [(q, v)] else l) r
  | XBase (Reset true) :: r => xsettings_from T [] r
  | _ :: r => xsettings_from T l r
  end.
Definition xsettings {P} (T : xtype P) ops := xsettings_from T [] ops.

(** Bytes squeezed since the last restart. *)
Fixpoint squeezed_from {P} (T : xtype P) (k : nat) (ops : list (xof_op (p_param P))) : nat :=
  match ops with
  | [] => k
  | XBase (Absorb _ _) :: r => squeezed_from T k r
  | XBase (Reset _) :: r => squeezed_from T 0 r
  | XBase (SetParam q v) :: r => squeezed_from T (if xt_accepts T q v then 0%nat else k) r
  | (XSqueezeBuf n | XSqueezeIter n | XHexSqueeze n) :: r => squeezed_from T (k + n) r
  end.
Definition squeezed {P} (T : xtype P) ops := squeezed_from T 0 ops.

(** Set the parameters [l], absorb [m] in one call (and squeeze [k] bytes in one call). *)
Definition direct {param} (l : list (param * list N)) (m : list N) : list (hash_op param) :=
  map (fun x => HBase (SetParam (fst x) (snd x))) l ++ [HBase (Absorb FPtr m)].
Definition xdirect {param} (l : list (param * list N)) (m : list N) (k : nat) : list (xof_op param) :=
  map (fun x => XBase (SetParam (fst x) (snd x))) l ++ [XBase (Absorb FPtr m)] ++ (if (k =? 0)%nat then [] else [XSqueezeBuf k]).

(** [v] is the last value given to [q]. *)
Definition last_value {param} (q : param) (v : list N) (l : list (param * list N)) : Prop :=
  exists l1 l2, l = l1 ++ (q, v) :: l2 /\ forall w, ~ In (q, w) l2.
Definition same_values {param} (l1 l2 : list (param * list N)) : Prop := forall q v, last_value q v l1 <-> last_value q v l2.
Definition no_empty {param} (l : list (param * list N)) : Prop := Forall (fun x => snd x <> []) l.
