(** * The calls of transform that absorb_bytes makes. *)
From Verif Require Import Base Absorb MdState.
Local Open Scope nat_scope.

(** One call [transform(data, n)]: the counter [total] at that time, the bytes read, [n].
    absorb_data.hpp:22, 32. *)
Definition call : Type := N * list N * nat.
(** A transform that only records its calls. A caller's view; no code of /repo. *)
Definition recorder (c : list call) (m : list N) (t : N) (d : list N) (n : nat) : res (list call * list N) :=
  Ok (c ++ [(t, d, n)], m).
(** A transform that works on [c] and leaves the buffer alone, as all but that of ECHO
    (echo_provider.hpp:207-211), e.g. sha2_provider.hpp:185-186. *)
Definition quiet {C} (f : C -> call -> res C) (c : C) (m : list N) (t : N) (d : list N) (n : nat) : res (C * list N) :=
  c' <- f c (t, d, n) ;; Ok (c', m).
(** absorb_bytes (absorb_data.hpp:14-39) for one piece of data after the other, as update() of the
    providers calls it, e.g. sha2_provider.hpp:183-187. *)
Fixpoint absorbs {C} (tf : C -> list N -> N -> list N -> nat -> res (C * list N)) (bs bschk : nat) (pieces : list (list N))
  (c : C) (m : list N) (pos : nat) (total : N) : res (C * list N * nat * N) :=
  match pieces with
  | [] => Ok (c, m, pos, total)
  | d :: r =>
    ' (c, m, pos, total) <- absorb_bytes tf bs bschk d c m pos total ;;
    absorbs tf bs bschk r c m pos total
  end.

(** update() of the providers with a chaining value, one piece after the other: md5_provider.hpp:71-75
    and the others behind [md_update] of MdState.v. *)
Fixpoint md_updates (step : list N -> N -> list N -> list N) (bs bschk : nat) (s : st) (pieces : list (list N)) : res st :=
  match pieces with
  | [] => Ok s
  | d :: r => s <- md_update step bs bschk s d ;; md_updates step bs bschk s r
  end.

(** ** What the calls should be *)


(** The first [n] blocks of [data] with the counter before each, in bits modulo 2^64.
    Specification; no code of /repo. *)
Definition counted (bs : nat) (t : N) (data : list N) (n : nat) : list (N * list N) :=
  map (fun i => ((t + 8 * N.of_nat (i * bs)) mod 2 ^ 64, firstn bs (skipn (i * bs) data))%N) (seq 0 n).
(** The blocks that the calls cover, in order. Specification; no code of /repo. *)
Definition covered (bs : nat) (calls : list call) : list (N * list N) :=
  flat_map (fun '(t, d, n) => counted bs t d n) calls.
(** How many blocks of a message of [len] bytes may be processed before the end is known:
    all full ones, or ([lazy]) all but a last full one. Specification; no code of /repo. *)
Definition full_blocks (lazy : bool) (bs len : nat) : nat := if lazy then (len - 1) / bs else len / bs.
