(** Helpers for known-answer tests. *)
From Coq Require Import Ascii String.
From Verif Require Import Base Hasher.

Fixpoint str (s : string) : list N :=
  match s with
  | EmptyString => []
  | String a r => N_of_ascii a :: str r
  end.

Definition unhex1 (c : N) : N := if c <? 58 then c - 48 else if c <? 71 then c - 55 else c - 87.
Fixpoint unhexl (l : list N) : list N :=
  match l with
  | a :: b :: r => (16 * unhex1 a + unhex1 b) :: unhexl r
  | _ => []
  end.
Definition unhex (s : string) : list N := unhexl (str s).

(** One-shot digest through the API. *)
Definition hexof (P : hash_provider) (s0 : res (pst P)) (msg : list N) : res (list N) :=
  s <- s0 ;;
  s <- p_init P s ;;
  s <- absorb P FPtr s msg ;;
  r <- digest_iter P s ;;
  Ok (hex_string r).

Definition xhexof (P : xof_provider) (s0 : res (pst P)) (msg : list N) (n : nat) : res (list N) :=
  s <- s0 ;;
  s <- p_init P s ;;
  s <- absorb P FPtr s msg ;;
  ' (_, r) <- squeeze_iter P s n ;;
  Ok (hex_string r).

Definition fox : list N := str "The quick brown fox jumps over the lazy dog".
Definition junk (n : nat) : list N := repeat 165 n.

Fixpoint leqb (a b : list N) : bool :=
  match a, b with
  | [], [] => true
  | x :: a, y :: b => (x =? y) && leqb a b
  | _, _ => false
  end.
Definition res_is (r : res (list N)) (hex : string) : bool :=
  match r with Ok l => leqb l (str hex) | _ => false end.
Definition bytes_are (l : list N) (hex : string) : bool := leqb l (unhex hex).

(** Outputs of a history on a new hasher. *)
Definition hash_outs (P : hash_provider) (fresh : res (pst P)) (ops : list (hash_op (p_param P))) : res (list out) :=
  s <- fresh ;; ' (_, l) <- hash_run P s ops ;; Ok l.
Definition xof_outs (P : xof_provider) (fresh : res (pst P)) (ops : list (xof_op (p_param P))) : res (list out) :=
  s <- fresh ;; ' (_, l) <- xof_run P s ops ;; Ok l.
(** The bytes of the [i]-th output. *)
Definition out_bytes (r : res (list out)) (i : nat) : list N :=
  match r with Ok l => match nth i l ODone with OBytes b => b | _ => [] end | _ => [] end.
Definition last_bytes (r : res (list out)) : list N :=
  match r with Ok l => match last l ODone with OBytes b => b | _ => [] end | _ => [] end.
