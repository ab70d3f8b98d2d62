(** * The calls of the permutation while squeezing. *)
From Verif Require Import Base Squeeze.
Local Open Scope nat_scope.

Section Squeezes.
  Context {C : Type}.
  Variable next : C -> C.
  Variable emit : C -> list N.
  Variable r : nat.
  (** Calls of squeeze after the first, one length after the other; what is written, in order.
      shake_provider.hpp:137-155, ascon_provider.hpp:104-123. *)
  Fixpoint squeezes_more (c : C) (pos : nat) (lengths : list nat) : res (C * nat * list N) :=
    match lengths with
    | [] => Ok (c, pos, [])
    | n :: l =>
      ' (c, pos, w) <- sq_more next emit r c pos n ;;
      ' (c, pos, v) <- squeezes_more c pos l ;;
      Ok (c, pos, w ++ v)
    end.
  (** The first call with [n] bytes and all others. shake_provider.hpp:127-155,
      ascon_provider.hpp:95-123. *)
  Definition squeezes (c : C) (pos n : nat) (lengths : list nat) : res (C * nat * list N) :=
    ' (c, pos, w) <- sq_first next emit r c pos n ;;
    ' (c, pos, v) <- squeezes_more c pos lengths ;;
    Ok (c, pos, w ++ v).

  (** The state after [k] calls of the permutation. Specification; no code of /repo. *)
  Fixpoint advanced (k : nat) (c : C) : C := match k with O => c | S k => next (advanced k c) end.
  (** The first [n] bytes of the output: byte [i] is byte [i mod r] of the state after [i / r] calls.
      Specification; no code of /repo. *)
  Definition output (c : C) (n : nat) : list N :=
    map (fun i => nth (i mod r) (emit (advanced (i / r) c)) 0%N) (seq 0 n).
End Squeezes.
(** The permutation with a count of its calls. A caller's view; no code of /repo. *)
Definition counting {C} (next : C -> C) (ck : C * nat) : C * nat := (next (fst ck), S (snd ck)).
