(** * Aligned word access. *)
From Coq Require Import List Arith.
Import ListNotations.

(** An address at which a word of [w] bytes may be read. *)
Definition aligned (w p : nat) : Prop := Nat.divide w p.

(** The message bytes [start], ..., [start + len - 1] contain a whole block, counted from
    byte 0, and [extra] bytes after it. *)
Definition whole_block (bs extra start len : nat) : Prop :=
  exists k, start <= bs * k /\ bs * (k + 1) + extra <= start + len.

(** The bytes of some calls, each given by the address and the length of its data. *)
Definition total_len (calls : list (nat * nat)) : nat := list_sum (map snd calls).

(** In every call that contains a whole block the data has the same position relative to the
    words of the memory as relative to the words of the message. *)
Definition in_step (w bs extra pos : nat) (calls : list (nat * nat)) : Prop :=
  forall pre a len post, calls = pre ++ (a, len) :: post ->
    whole_block bs extra (pos + total_len pre) len ->
    a mod w = (pos + total_len pre) mod w.
