(** * The squeezing loop shared by the sponge-based providers.

    shake_provider.hpp:137-155 and ascon_provider.hpp:104-123 have this same code; [next]
    is the permutation call, [emit] the memory image of the state array. *)
From Verif Require Import Base.

Section Squeeze.
  Context {C : Type}.
  Variable next : C -> C.
  Variable emit : C -> list N.
  Variable r : nat.

  (** shake_provider.hpp:148-155, ascon_provider.hpp:116-123: the while loop. [fuel]
      bounds the number of iterations; the callers pass a sufficient value. *)
  Fixpoint sq_loop (fuel : nat) (c : C) (hs processed pos : nat) (out : list N)
    : res (C * nat * list N) :=
    if (processed <? hs)%nat then
      match fuel with
      | O => Ok (c, pos, out)
      | S fuel =>
        let c := if (processed =? 0)%nat then c else next c in
        let pos := Nat.min (hs - processed) r in
        w <- load (emit c) 0 pos ;;
        sq_loop fuel c hs (processed + pos) pos (out ++ w)
      end
    else Ok (c, pos, out).

  (** shake_provider.hpp:137-155, ascon_provider.hpp:104-123: not the first call. *)
  Definition sq_more (c : C) (pos hs : nat) : res (C * nat * list N) :=
    if (pos <? r)%nat then
      let to_copy := Nat.min hs (r - pos) in
      w <- load (emit c) pos to_copy ;;
      sq_loop hs c hs to_copy (pos + to_copy) w
    else if (pos =? r)%nat then sq_loop hs (next c) hs 0 pos []
    else sq_loop hs c hs 0 pos [].

  (** First call, after the padding: falls through to the loop.
      shake_provider.hpp:148-155, ascon_provider.hpp:116-123. *)
  Definition sq_first (c : C) (pos hs : nat) : res (C * nat * list N) :=
    sq_loop hs c hs 0 pos [].
End Squeeze.
