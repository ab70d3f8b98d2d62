(** * Model of algorithm/detail/sm3_provider.hpp.

    Everything is parameterized by the meaning [sem] of out-of-range shift counts,
    because lines 137 and 153 rotate by 0 and by more than 31. *)
From Verif Require Import Base Absorb Hasher MdState.

(** sm3_provider.hpp:20-23 *)
Definition sm3_xorf (x y z : N) : N := N.lxor (N.lxor x y) z.
(** sm3_provider.hpp:25-28 *)
Definition sm3_ff1 (x y z : N) : N := N.lxor (N.lxor (N.land x y) (N.land x z)) (N.land y z).
(** sm3_provider.hpp:30-33 *)
Definition sm3_gg1 (x y z : N) : N := N.lxor (N.land x y) (N.land (notw 32 x) z).
(** sm3_provider.hpp:35-38 *)
Definition sm3_p0 (x : N) : N := N.lxor (N.lxor x (rotl 32 x 9)) (rotl 32 x 17).
(** sm3_provider.hpp:40-43 *)
Definition sm3_p1 (x : N) : N := N.lxor (N.lxor x (rotl 32 x 15)) (rotl 32 x 23).

(** sm3_provider.hpp:121-122: [n] more schedule words. *)
Fixpoint sm3_expand (n : nat) (W : list N) : list N :=
  match n with
  | O => W
  | S n' =>
    let t := length W in
    sm3_expand n' (W ++ [N.lxor (N.lxor
      (sm3_p1 (N.lxor (N.lxor (nthN (t - 16) W) (nthN (t - 9) W)) (rotl 32 (nthN (t - 3) W) 15)))
      (rotl 32 (nthN (t - 13) W) 7)) (nthN (t - 6) W)])
  end.

(** sm3_provider.hpp:135-149 ([C] = 0x79cc4519, [ff] = [gg] = xorf) and 151-165
    ([C] = 0x7a879d8a, ff1, gg1): one iteration. *)
Definition sm3_iter (sem : shift_sem) (C : N) (ff gg : N -> N -> N -> N) (W W2 : list N)
  (s : N * N * N * N * N * N * N * N) (t : nat) : res (N * N * N * N * N * N * N * N) :=
  let '(a, b, c, d, e, f, g, h) := s in
  k <- rotl_c sem 32 C (N.of_nat t) ;;
  let ss1 := rotl 32 (addw 32 (addw 32 (rotl 32 a 12) e) k) 7 in
  let ss2 := N.lxor ss1 (rotl 32 a 12) in
  let tt1 := addw 32 (addw 32 (addw 32 (ff a b c) d) ss2) (nthN t W2) in
  let tt2 := addw 32 (addw 32 (addw 32 (gg e f g) h) ss1) (nthN t W) in
  Ok (tt1, a, rotl 32 b 9, c, sm3_p0 tt2, e, rotl 32 f 19, g).

(** sm3_provider.hpp:109-176: loop body of transform. *)
Definition sm3_block (sem : shift_sem) (H : list N) (_ : N) (data : list N) : res (list N) :=
  let M := map byteswap32 (le_words 4 16 data) in
  let W := sm3_expand 52 M in
  let W2 := map (fun t => N.lxor (nthN t W) (nthN (t + 4) W)) (seq 0 64) in
  let s := (nthN 0 H, nthN 1 H, nthN 2 H, nthN 3 H, nthN 4 H, nthN 5 H, nthN 6 H, nthN 7 H) in
  s <- fold_res (sm3_iter sem 0x79cc4519 sm3_xorf sm3_xorf W W2) (seq 0 16) s ;;
  ' (a, b, c, d, e, f, g, h) <-
    fold_res (sm3_iter sem 0x7a879d8a sm3_ff1 sm3_gg1 W W2) (seq 16 48) s ;;
  Ok [N.lxor (nthN 0 H) a; N.lxor (nthN 1 H) b; N.lxor (nthN 2 H) c; N.lxor (nthN 3 H) d;
      N.lxor (nthN 4 H) e; N.lxor (nthN 5 H) f; N.lxor (nthN 6 H) g; N.lxor (nthN 7 H) h].

(** sm3_provider.hpp:60-72 init. *)
Definition sm3_init (s : st) : res st :=
  Ok (mkst [0x7380166f; 0x4914b2b9; 0x172442d7; 0xda8a0600;
            0xa96f30bc; 0x163138aa; 0xe38dee4d; 0xb0fb0e4e] (sm s) 0 0).

(** sm3_provider.hpp:74-78 update. *)
Definition sm3_update (sem : shift_sem) : st -> list N -> res st :=
  md_update_res (sm3_block sem) 64 64.

(** sm3_provider.hpp:80-98 final. *)
Definition sm3_final (sem : shift_sem) (s : st) : res (st * list N) :=
  let total := trunc 64 (stotal s + N.of_nat (spos s * 8)) in
  m <- store (sm s) (spos s) 0x80 ;;
  let pos := (spos s + 1)%nat in
  ' (h, m, pos) <-
    (if (56 <? pos)%nat then
       m <- (if (pos =? 64)%nat then Ok m
             else k <- size_sub 64 pos ;; memset m pos 0 k) ;;
       h <- md_transform1_res (sm3_block sem) 64 (sh s) m total ;;
       Ok (h, m, 0%nat)
     else Ok (sh s, m, pos)) ;;
  k <- size_sub 56 pos ;;
  m <- memset m pos 0 k ;;
  let mlen := byteswap64 total in
  m <- memcpy m 56 (le_bytes 8 mlen) 8 ;;
  h <- md_transform1_res (sm3_block sem) 64 h m total ;;
  let h := map byteswap32 h in
  w <- load (words_bytes 4 h) 0 32 ;;
  Ok (mkst h m pos total, w).

(** sm3_provider.hpp:100-104 clear. *)
Definition sm3_clear (s : st) : res st :=
  Ok (mkst (zero_memory (sh s)) (zero_memory (sm s)) (spos s) (stotal s)).

(** sm3_provider.hpp:106 hash_size and algorithm/sm3.hpp. *)
Definition sm3 (sem : shift_sem) : hash_provider :=
  {| hp := {| pst := st; p_init := sm3_init; p_update := sm3_update sem; p_clear := sm3_clear;
              p_param := Empty_set; p_set := no_set |};
     hp_final := sm3_final sem; hp_size := fun _ => 256 |}.
