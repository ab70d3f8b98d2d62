(** * Outcomes without the contents of the bytes (C62). *)
From Verif Require Import Base Hasher Library.

(** What an observer of control flow sees of a call: it returned, it threw, or it returned
    that many bytes. *)
Inductive oshape := SDone | SThrow | SBytes (n : nat).
Definition out_shape (x : out) : oshape :=
  match x with ODone => SDone | OThrow => SThrow | OBytes b => SBytes (length b) end.

(** The documented outcome of a call, from the lengths of its arguments alone. [acc q n]:
    values of [n] bytes are valid for the parameter [q]. *)
Definition base_shape {param} (acc : param -> nat -> bool) (o : base_op param) : oshape :=
  match o with SetParam q v => if acc q (length v) then SDone else SThrow | _ => SDone end.
Definition hash_shape {param} (acc : param -> nat -> bool) (size : nat) (o : hash_op param) : oshape :=
  match o with
  | HBase b => base_shape acc b
  | HDigestBuf buf => if (length buf <? size)%nat then SThrow else SBytes (length buf)
  | HDigestIter => SBytes size
  | HHexDigest => SBytes (2 * size)
  end.
Definition xof_shape {param} (acc : param -> nat -> bool) (o : xof_op param) : oshape :=
  match o with
  | XBase b => base_shape acc b
  | XSqueezeBuf n | XSqueezeIter n => SBytes n
  | XHexSqueeze n => SBytes (2 * n)
  end.

(** The same call with other bytes. *)
Definition base_like {param} (o o' : base_op param) : Prop :=
  match o, o' with
  | Absorb f d, Absorb f' d' => f = f' /\ length d = length d'
  | Reset b, Reset b' => b = b'
  | SetParam q v, SetParam q' v' => q = q' /\ length v = length v'
  | _, _ => False
  end.
Definition hash_like {param} (o o' : hash_op param) : Prop :=
  match o, o' with
  | HBase b, HBase b' => base_like b b'
  | HDigestBuf buf, HDigestBuf buf' => length buf = length buf'
  | HDigestIter, HDigestIter | HHexDigest, HHexDigest => True
  | _, _ => False
  end.
Definition xof_like {param} (o o' : xof_op param) : Prop :=
  match o, o' with
  | XBase b, XBase b' => base_like b b'
  | XSqueezeBuf n, XSqueezeBuf n' | XSqueezeIter n, XSqueezeIter n' | XHexSqueeze n, XHexSqueeze n' => n = n'
  | _, _ => False
  end.
