(** * absorb_bytes with the arithmetic of size_t.

    The model in Absorb.v uses natural numbers for lengths. Here the same computation is done
    on 64-bit numbers that wrap around. *)
From Verif Require Import Base.

(** Where the pointer passed to transform points: absorb_data.hpp:22 or 32. *)
Inductive src64 := Buf64 | Data64 (off : N).
(** E.g. absorb_data.hpp:19. *)
Definition add64 (a b : N) : N := trunc 64 (a + b).
(** E.g. absorb_data.hpp:31. *)
Definition mul64 (a b : N) : N := trunc 64 (a * b).
(** [a - b] for [a], [b] below 2^64. E.g. absorb_data.hpp:23. *)
Definition sub64 (a b : N) : N := trunc 64 (a + (2 ^ 64 - b)).

(** absorb_data.hpp:17-38: the calls of [transform(pointer, blocks)], the number of bytes that
    the last memcpy copies to [m + pos], and the new [pos]. *)
Definition absorb64 (bs bschk pos len : N) : list (src64 * N) * N * N :=
  let '(l1, off, len, pos) :=
    if negb (pos =? 0) && (bschk <=? add64 pos len)
    then ([(Buf64, 1)], sub64 bs pos, sub64 len (sub64 bs pos), 0)
    else ([], 0, len, pos) in
  let '(l2, len) :=
    if bschk <=? len then
      let blocks := sub64 (add64 len bs) bschk / bs in
      let bytes := mul64 blocks bs in ([(Data64 off, blocks)], sub64 len bytes)
    else ([], len) in
  (l1 ++ l2, len, add64 pos len).
