(** * Model of algorithm/detail/whirlpool_provider.hpp. *)
From Verif Require Import Base Absorb Hasher MdState ConstWhirlpool.

(** whirlpool_provider.hpp:21-32, template G<a>. *)
Definition wp_G (a : nat) (ll : list N) : N :=
  let t j := tbl (nth j whirlpool_T []) (byte_at (nthN ((a - j) mod 8) ll) (N.of_nat (8 * j))) in
  N.lxor (N.lxor (N.lxor (N.lxor (N.lxor (N.lxor (N.lxor (t 0%nat) (t 1%nat)) (t 2%nat)) (t 3%nat))
    (t 4%nat)) (t 5%nat)) (t 6%nat)) (t 7%nat).

(** whirlpool_provider.hpp:99-123: one round; K and state are replaced by L. *)
Definition wp_round (ks : list N * list N) (r : nat) : list N * list N :=
  let '(K, state) := ks in
  let L := [N.lxor (wp_G 8 K) (nthN r whirlpool_RC); wp_G 9 K; wp_G 10 K; wp_G 11 K;
            wp_G 12 K; wp_G 13 K; wp_G 14 K; wp_G 15 K] in
  let K := L in
  let L := [N.lxor (nthN 0 L) (wp_G 8 state); N.lxor (nthN 1 L) (wp_G 9 state);
            N.lxor (nthN 2 L) (wp_G 10 state); N.lxor (nthN 3 L) (wp_G 11 state);
            N.lxor (nthN 4 L) (wp_G 12 state); N.lxor (nthN 5 L) (wp_G 13 state);
            N.lxor (nthN 6 L) (wp_G 14 state); N.lxor (nthN 7 L) (wp_G 15 state)] in
  (K, L).

(** whirlpool_provider.hpp:91-129: loop body of transform. *)
Definition wp_block (h : list N) (_ : N) (data : list N) : list N :=
  let mp := le_words 8 8 data in
  let state := map2 N.lxor h mp in
  let '(_, state) := fold_left wp_round (seq 0 10) (h, state) in
  map2 N.lxor h (map2 N.lxor state mp).

(** whirlpool_provider.hpp:49-54 init. *)
Definition wp_init (s : st) : res st := Ok (mkst (zeros 8) (sm s) 0 0).

(** whirlpool_provider.hpp:56-60 update. *)
Definition wp_update : st -> list N -> res st := md_update wp_block 64 64.

(** whirlpool_provider.hpp:62-78 final. The length field is only 64 bits wide; the
    rest of the 256-bit field is zero. *)
Definition wp_final (s : st) : res (st * list N) :=
  let total := trunc 64 (stotal s + N.of_nat (spos s * 8)) in
  let mlen := byteswap64 total in
  m <- store (sm s) (spos s) 0x80 ;;
  let pos := (spos s + 1)%nat in
  ' (h, m, pos) <-
    (if (32 <? pos)%nat then
       m <- (if (pos =? 64)%nat then Ok m
             else k <- size_sub 64 pos ;; memset m pos 0 k) ;;
       h <- md_transform1 wp_block 64 (sh s) m total ;;
       Ok (h, m, 0%nat)
     else Ok (sh s, m, pos)) ;;
  k <- size_sub 56 pos ;;
  m <- memset m pos 0 k ;;
  m <- memcpy m 56 (le_bytes 8 mlen) 8 ;;
  h <- md_transform1 wp_block 64 h m total ;;
  w <- load (words_bytes 8 h) 0 64 ;;
  Ok (mkst h m pos total, w).

(** whirlpool_provider.hpp:80-84 clear. *)
Definition wp_clear (s : st) : res st :=
  Ok (mkst (zero_memory (sh s)) (zero_memory (sm s)) (spos s) (stotal s)).

(** whirlpool_provider.hpp:86 hash_size and algorithm/whirlpool.hpp. *)
Definition whirlpool : hash_provider :=
  {| hp := {| pst := st; p_init := wp_init; p_update := wp_update; p_clear := wp_clear;
              p_param := Empty_set; p_set := no_set |};
     hp_final := wp_final; hp_size := fun _ => 512 |}.
