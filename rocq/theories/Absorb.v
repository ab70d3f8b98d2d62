(** * Model of detail/absorb_data.hpp. *)
From Verif Require Import Base.

(** absorb_data.hpp:14-39 [absorb_bytes].

    [tf c m total data n] models the callback [transform(data, n)]: [c] is the part of
    the provider object other than the buffer, position and counter; [m] is the
    buffer (a transform may modify it: ECHO keeps its buffer inside the state);
    [total] is the counter value at the time of the call (some transforms read it);
    [data] are exactly the [n * bs] bytes the transform reads.
    Reading past the end of the input, writing past the end of [m] and an underflow
    of [bs - pos] give [UB]. Lengths are natural numbers: [pos + len] is assumed not
    to wrap, i.e. the input is shorter than 2^64 - bs bytes. *)
Definition absorb_bytes {C : Type}
  (tf : C -> list N -> N -> list N -> nat -> res (C * list N))
  (bs bschk : nat) (data : list N)
  (c : C) (m : list N) (pos : nat) (total : N)
  : res (C * list N * nat * N) :=
  ' (c, m, data, pos, total) <-
    (if negb (pos =? 0)%nat && (bschk <=? pos + length data)%nat then
       k <- size_sub bs pos ;;
       m <- memcpy m pos data k ;;
       blk <- load m 0 bs ;;
       ' (c, m) <- tf c m total blk 1%nat ;;
       Ok (c, m, skipn k data, 0%nat, trunc 64 (total + N.of_nat (bs * 8)))
     else Ok (c, m, data, pos, total)) ;;
  ' (c, m, data, total) <-
    (if (bschk <=? length data)%nat then
       let blocks := ((length data + bs - bschk) / bs)%nat in
       let bytes := (blocks * bs)%nat in
       blk <- load data 0 bytes ;;
       ' (c, m) <- tf c m total blk blocks ;;
       Ok (c, m, skipn bytes data, trunc 64 (total + N.of_nat (bytes * 8)))
     else Ok (c, m, data, total)) ;;
  m <- memcpy m pos data (length data) ;;
  Ok (c, m, (pos + length data)%nat, total).

(** The loop [for (blk = 0; blk < num_blks; blk++)] of a transform whose body for one
    block is [step c t block], [t] being [total + blk * bs * 8] (transforms that do
    not use the counter ignore it). The buffer is left alone.
    E.g. sha2_provider.hpp:219, blake_provider.hpp:81, 87. *)
Fixpoint block_loop {C : Type} (step : C -> N -> list N -> C) (bs : nat)
  (c : C) (t : N) (data : list N) (n : nat) : C :=
  match n with
  | O => c
  | S n' => block_loop step bs (step c t (firstn bs data))
              (trunc 64 (t + N.of_nat (bs * 8))) (skipn bs data) n'
  end.

(** The same loop for a body that may hit undefined behaviour.
    E.g. the loop of sm3_provider.hpp transform, which rotates by 32. *)
Fixpoint block_loop_res {C : Type} (step : C -> N -> list N -> res C) (bs : nat)
  (c : C) (t : N) (data : list N) (n : nat) : res C :=
  match n with
  | O => Ok c
  | S n' => c <- step c t (firstn bs data) ;;
            block_loop_res step bs c (trunc 64 (t + N.of_nat (bs * 8))) (skipn bs data) n'
  end.

(** Loop over a list whose body may hit undefined behaviour. E.g. blake2p_provider.hpp:170-173. *)
Fixpoint fold_res {A B : Type} (f : A -> B -> res A) (l : list B) (a : A) : res A :=
  match l with
  | [] => Ok a
  | b :: r => a <- f a b ;; fold_res f r a
  end.
