(** * Abstract hashers: the specification of the API.

    The abstract hasher remembers only the parameters, the absorbed bytes and how many
    bytes were squeezed. Nothing here refers to the provider models. *)
From Verif Require Import Base Hasher.

(** ** Lowercase hexadecimal, from first principles *)
Definition nibble_char (d : N) : N :=
  nth (N.to_nat d)
    [48; 49; 50; 51; 52; 53; 54; 55; 56; 57; 97; 98; 99; 100; 101; 102] 0.
Definition spec_hex (bytes : list N) : list N :=
  flat_map (fun b => [nibble_char (b / 16); nibble_char (b mod 16)]) bytes.

(** ** Hash functions *)
Record hash_spec (param : Type) := {
  sp_params : Type;
  sp_default : sp_params;                              (* no parameter set *)
  sp_set : param -> list N -> sp_params -> option sp_params; (* None: throws *)
  sp_size : nat;                                       (* digest length, bytes *)
  sp_digest : sp_params -> list N -> list N            (* the hash function *)
}.
Arguments sp_params {param}.
Arguments sp_default {param}.
Arguments sp_set {param}.
Arguments sp_size {param}.
Arguments sp_digest {param}.

(** No parameters. *)
Definition no_params_set {P : Type} (q : Empty_set) (_ : list N) (_ : P) : option P :=
  match q with end.

(** Bytes contributed by an absorb call. *)
Definition absorbed (f : form) (data : list N) : list N :=
  match f with FBadStream => [] | _ => data end.

Section AbstractHash.
  Context {param : Type} (S : hash_spec param).

  Definition astate := (sp_params S * list N)%type.
  Definition afresh : astate := (sp_default S, []).

  Definition abase (a : astate) (o : base_op param) : astate * out :=
    let '(p, msg) := a in
    match o with
    | Absorb f d => ((p, msg ++ absorbed f d), ODone)
    | Reset true => ((sp_default S, []), ODone)
    | Reset false => ((p, []), ODone)
    | SetParam q v =>
      match sp_set S q v p with
      | Some p' => ((p', []), ODone)
      | None => ((p, msg), OThrow)
      end
    end.

  Definition astep (a : astate) (o : hash_op param) : astate * out :=
    let '(p, msg) := a in
    match o with
    | HBase b => abase a b
    | HDigestBuf buf =>
      (a, if (length buf <? sp_size S)%nat then OThrow
          else OBytes (sp_digest S p msg ++ skipn (sp_size S) buf))
    | HDigestIter => (a, OBytes (sp_digest S p msg))
    | HHexDigest => (a, OBytes (spec_hex (sp_digest S p msg)))
    end.

  Fixpoint arun (a : astate) (ops : list (hash_op param)) : astate * list out :=
    match ops with
    | [] => (a, [])
    | o :: r =>
      let (a1, x) := astep a o in
      let (a2, xs) := arun a1 r in
      (a2, x :: xs)
    end.
End AbstractHash.

(** ** Extendable-output functions *)
Record xof_spec (param : Type) := {
  xs_params : Type;
  xs_default : xs_params;
  xs_set : param -> list N -> xs_params -> option xs_params;
  xs_out : xs_params -> list N -> nat -> list N  (* first n bytes of the stream *)
}.
Arguments xs_params {param}.
Arguments xs_default {param}.
Arguments xs_set {param}.
Arguments xs_out {param}.

Section AbstractXof.
  Context {param : Type} (S : xof_spec param).

  (** parameters, absorbed bytes, number of bytes squeezed so far *)
  Definition xstate := (xs_params S * list N * nat)%type.
  Definition xfresh : xstate := (xs_default S, [], 0%nat).

  Definition xsq (a : xstate) (n : nat) : xstate * list N :=
    let '(p, msg, k) := a in
    ((p, msg, (k + n)%nat), skipn k (xs_out S p msg (k + n))).

  Definition xstep (a : xstate) (o : xof_op param) : xstate * out :=
    let '(p, msg, k) := a in
    match o with
    | XBase (Absorb f d) => ((p, msg ++ absorbed f d, k), ODone)
    | XBase (Reset true) => ((xs_default S, [], 0%nat), ODone)
    | XBase (Reset false) => ((p, [], 0%nat), ODone)
    | XBase (SetParam q v) =>
      match xs_set S q v p with
      | Some p' => ((p', [], 0%nat), ODone)
      | None => (a, OThrow)
      end
    | XSqueezeBuf n => let (a, r) := xsq a n in (a, OBytes r)
    | XSqueezeIter n => let (a, r) := xsq a n in (a, OBytes r)
    | XHexSqueeze n => let (a, r) := xsq a n in (a, OBytes (spec_hex r))
    end.

  Fixpoint xrun (a : xstate) (ops : list (xof_op param)) : xstate * list out :=
    match ops with
    | [] => (a, [])
    | o :: r =>
      let (a1, x) := xstep a o in
      let (a2, xs) := xrun a1 r in
      (a2, x :: xs)
    end.

  (** Histories for which the documentation promises something: absorbing happens
      before squeezing, or after a reset / set_*. *)
  Definition squeezed_something (a : xstate) : bool :=
    let '(_, _, k) := a in negb (k =? 0)%nat.
End AbstractXof.
