(** * Messages short enough for the counters of the code (C59). *)
From Verif Require Import Base Hasher HasherSpec Library.

(** At every time fewer than [B] bytes were absorbed since the last restart ([a] so far), and
    arguments of set_* are shorter than [V] bytes. *)
Fixpoint short_from {param} (acc : param -> list N -> bool) (V B a : N) (ops : list (hash_op param)) : Prop :=
  match ops with
  | [] => True
  | HBase (Absorb f d) :: r => a + N.of_nat (length (absorbed f d)) < B /\ short_from acc V B (a + N.of_nat (length (absorbed f d))) r
  | HBase (Reset _) :: r => short_from acc V B 0 r
  | HBase (SetParam q v) :: r => N.of_nat (length v) < V /\ short_from acc V B (if acc q v then 0 else a) r
  | _ :: r => short_from acc V B a r
  end.
Definition short {P} (T : htype P) (B : N) ops : Prop := short_from (ht_accepts T) (2 ^ 63) B 0 ops.
(** The same for extendable output; no absorb after squeeze ([sq]). *)
Fixpoint xshort_from {param} (acc : param -> list N -> bool) (V B a : N) (sq : bool) (ops : list (xof_op param)) : Prop :=
  match ops with
  | [] => True
  | XBase (Absorb f d) :: r => sq = false /\ a + N.of_nat (length (absorbed f d)) < B /\ xshort_from acc V B (a + N.of_nat (length (absorbed f d))) sq r
  | XBase (Reset _) :: r => xshort_from acc V B 0 false r
  | XBase (SetParam q v) :: r => N.of_nat (length v) < V /\ xshort_from acc V B (if acc q v then 0 else a) (if acc q v then false else sq) r
  | _ :: r => xshort_from acc V B a true r
  end.
Definition xshort {P} (T : xtype P) (B : N) ops : Prop := xshort_from (xt_accepts T) (2 ^ 63) B 0 false ops.

(** BLAKE2, BLAKE2X: 2^64 bits less one block for the key. *)
Definition b2_bound : N := 2 ^ 61 - 128.
(** K12, M14, KT256. *)
Definition k12_bound : N := 2 ^ 76.
