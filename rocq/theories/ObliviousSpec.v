(** * Straight-line programs.

    What it means that a block function has no branches, array indices and shift counts
    that depend on the data: there is one list of expressions in the input words, fixed
    before the data is known, whose values are the result. *)
From Verif Require Import Base Oblivious.

(** Expressions of C++ in the input words. [ELook T e] is the element of the constant table
    [T] at the index [e]. *)
Inductive expr :=
| EVar (i : nat)
| ECst (n : N)
| EXor (a b : expr)
| EAnd (a b : expr)
| EOr (a b : expr)
| ENot (w : N) (a : expr)
| EAdd (w : N) (a b : expr)
| EShl (w : N) (a : expr) (n : N)
| EShr (a : expr) (n : N)
| EMul (w : N) (a : expr) (n : N)
| ELook (T : list N) (a : expr).

(** Their values. *)
Fixpoint eval (env : list N) (e : expr) : N :=
  match e with
  | EVar i => nth i env 0
  | ECst n => n
  | EXor a b => N.lxor (eval env a) (eval env b)
  | EAnd a b => N.land (eval env a) (eval env b)
  | EOr a b => N.lor (eval env a) (eval env b)
  | ENot w a => N.lxor (eval env a) (N.ones w)
  | EAdd w a b => N.land (eval env a + eval env b) (N.ones w)
  | EShl w a n => N.land (N.shiftl (eval env a) n) (N.ones w)
  | EShr a n => N.shiftr (eval env a) n
  | EMul w a n => N.land (eval env a * n) (N.ones w)
  | ELook T a => nth (N.to_nat (eval env a)) T 0
  end.

(** The table indices used in the evaluation, in their order. *)
Fixpoint indices (env : list N) (e : expr) : list N :=
  match e with
  | EVar _ | ECst _ => []
  | EXor a b | EAnd a b | EOr a b | EAdd _ a b => indices env a ++ indices env b
  | ENot _ a | EShl _ a _ | EShr a _ | EMul _ a _ => indices env a
  | ELook T a => indices env a ++ [eval env a]
  end.

(** The input words number [k], [k + 1], ... *)
Definition vars (k n : nat) : list expr := map EVar (seq k n).

(** The words of expressions. *)
Definition salg : alg expr := mkalg expr ECst EXor EAnd EOr ENot EAdd EShl EShr EMul.

(** The outcome of a program; that it returns, throws or has undefined behaviour is part of
    the program. *)
Definition run (env : list N) (p : res (list expr)) : res (list N) :=
  match p with Ok es => Ok (map (eval env) es) | Throw => Throw | UB w => UB w end.
Definition run_indices (env : list N) (p : res (list expr)) : list N :=
  match p with Ok es => flat_map (indices env) es | _ => [] end.

(** [f] is the program [p], which may depend on the lengths of the chaining value and the
    message block; [words] reads the message block from memory. *)
Definition straight_line (f : list N -> list N -> res (list N)) (words : list N -> list N)
    (p : nat -> nat -> res (list expr)) : Prop :=
  forall H data, let M := words data in
    f H data = run (H ++ M) (p (length H) (length M)).

(** No table is read at an index that depends on the data. *)
Definition no_lookups (p : nat -> nat -> res (list expr)) : Prop :=
  forall nH nM env, run_indices env (p nH nM) = [].
