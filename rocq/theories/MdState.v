(** * Provider object layout shared by the block-buffering providers.

    md5_provider.hpp:188-191, sha1_provider.hpp:152-155, sha2_provider.hpp:268-272,
    sm3_provider.hpp:178-181, whirlpool_provider.hpp:132-135 and others all have a
    chaining value, a message buffer, the fill position and a bit counter. *)
From Verif Require Import Base Absorb.

(** The members named above; [sh] and [sm] have the lengths of the arrays.
    E.g. md5_provider.hpp:188-191. *)
Record st := mkst {
  sh : list N;     (* chaining value words *)
  sm : list N;     (* message buffer bytes *)
  spos : nat;      (* bytes in the buffer *)
  stotal : N       (* bits processed, uint64_t *)
}.

(** [update] of a provider whose transform only touches the chaining value.
    E.g. sha2_provider.hpp:183-187. *)
Definition md_update (step : list N -> N -> list N -> list N) (bs bschk : nat)
  (s : st) (data : list N) : res st :=
  ' (h, m, pos, total) <-
    absorb_bytes (fun h m t d n => Ok (block_loop step bs h t d n, m))
      bs bschk data (sh s) (sm s) (spos s) (stotal s) ;;
  Ok (mkst h m pos total).

(** [transform(&m[0], 1)]. E.g. sha2_provider.hpp:196, 202. *)
Definition md_transform1 (step : list N -> N -> list N -> list N) (bs : nat)
  (h m : list N) (total : N) : res (list N) :=
  blk <- load m 0 bs ;;
  Ok (block_loop step bs h total blk 1).

(** The same for a transform whose body may hit undefined behaviour.
    E.g. sm3_provider.hpp:74-78. *)
Definition md_update_res (step : list N -> N -> list N -> res (list N)) (bs bschk : nat)
  (s : st) (data : list N) : res st :=
  ' (h, m, pos, total) <-
    absorb_bytes (fun h m t d n => h <- block_loop_res step bs h t d n ;; Ok (h, m))
      bs bschk data (sh s) (sm s) (spos s) (stotal s) ;;
  Ok (mkst h m pos total).
(** [transform(&m[0], 1)] of such a provider, e.g. sm3_provider.hpp:80-98. *)
Definition md_transform1_res (step : list N -> N -> list N -> res (list N)) (bs : nat)
  (h m : list N) (total : N) : res (list N) :=
  blk <- load m 0 bs ;;
  block_loop_res step bs h total blk 1.

(** [zero_memory] on every element of an array. detail/functions.hpp:85-104. *)
Definition zero_memory (l : list N) : list N := zeros (length l).
