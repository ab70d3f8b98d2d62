(** * What it means that a function on a finite set of states loses nothing (C54). Independent
    of the model. *)
From Verif Require Import Base.

(** States: [n] words of [w] bits. *)
Definition states (w : N) (n : nat) (l : list N) : Prop := length l = n /\ Forall (fun x => x < 2 ^ w) l.
(** [f] rearranges the states: it maps states to states, different ones to different ones,
    and reaches all of them. *)
Definition rearranges (w : N) (n : nat) (f : list N -> list N) : Prop :=
  (forall a, states w n a -> states w n (f a)) /\
  (forall a b, states w n a -> states w n b -> f a = f b -> a = b) /\
  (forall b, states w n b -> exists a, states w n a /\ f a = b).
(** Removing a feed-forward: word-wise difference modulo 2^w, or exclusive or. *)
Definition less (w : N) (a b : list N) : list N := map2 (fun x y => (x + (2 ^ w - y)) mod 2 ^ w) a b.
Definition xored (a b : list N) : list N := map2 N.lxor a b.
