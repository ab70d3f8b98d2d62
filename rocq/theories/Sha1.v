(** * Model of algorithm/detail/sha1_provider.hpp. *)
From Verif Require Import Base Absorb Hasher MdState ConstSha1.

(** sha1_provider.hpp:21-24 *)
Definition sha1_Ch (x y z : N) : N := N.lxor (N.land x y) (N.land (notw 32 x) z).
(** sha1_provider.hpp:26-29 *)
Definition sha1_Parity (x y z : N) : N := N.lxor (N.lxor x y) z.
(** sha1_provider.hpp:31-34 *)
Definition sha1_Maj (x y z : N) : N := N.lxor (N.lxor (N.land x y) (N.land x z)) (N.land y z).

(** sha1_provider.hpp:104-108: [W[t] = rotate_left(W[t-3]^W[t-8]^W[t-14]^W[t-16], 1)],
    [n] more words appended to [W]. *)
Fixpoint sha1_expand (n : nat) (W : list N) : list N :=
  match n with
  | O => W
  | S n' =>
    let t := length W in
    sha1_expand n' (W ++ [rotl 32 (N.lxor (N.lxor (N.lxor (nthN (t - 3) W) (nthN (t - 8) W))
                                  (nthN (t - 14) W)) (nthN (t - 16) W)) 1])
  end.

(** sha1_provider.hpp:118-143: one iteration; [f] and [K] are the variables changed at
    t = 19, 39, 59. *)
Definition sha1_iter (W : list N)
  (s : (N * N * N * N * N) * (N -> N -> N -> N) * N) (t : nat)
  : (N * N * N * N * N) * (N -> N -> N -> N) * N :=
  let '((a, b, c, d, e), f, K) := s in
  let T := addw 32 (addw 32 (addw 32 (addw 32 (rotl 32 a 5) (f b c d)) e) K) (nthN t W) in
  let s' := (T, a, rotl 32 b 30, c, d) in
  if (t =? 19)%nat then (s', sha1_Parity, nthN 1 sha1_K)
  else if (t =? 39)%nat then (s', sha1_Maj, nthN 2 sha1_K)
  else if (t =? 59)%nat then (s', sha1_Parity, nthN 3 sha1_K)
  else (s', f, K).

(** sha1_provider.hpp:96-150: loop body of transform. *)
Definition sha1_block (H : list N) (_ : N) (data : list N) : list N :=
  let M := map byteswap32 (le_words 4 16 data) in
  let W := sha1_expand 64 M in
  let s0 := ((nthN 0 H, nthN 1 H, nthN 2 H, nthN 3 H, nthN 4 H), sha1_Ch, nthN 0 sha1_K) in
  let '((a, b, c, d, e), _, _) := fold_left (sha1_iter W) (seq 0 80) s0 in
  [addw 32 (nthN 0 H) a; addw 32 (nthN 1 H) b; addw 32 (nthN 2 H) c;
   addw 32 (nthN 3 H) d; addw 32 (nthN 4 H) e].

(** sha1_provider.hpp:51-60 init. *)
Definition sha1_init (s : st) : res st :=
  Ok (mkst [0x67452301; 0xefcdab89; 0x98badcfe; 0x10325476; 0xc3d2e1f0] (sm s) 0 0).

(** sha1_provider.hpp:62-66 update. *)
Definition sha1_update : st -> list N -> res st := md_update sha1_block 64 64.

(** sha1_provider.hpp:68-85 final. *)
Definition sha1_final (s : st) : res (st * list N) :=
  let total := trunc 64 (stotal s + N.of_nat (spos s * 8)) in
  m <- store (sm s) (spos s) 0x80 ;;
  let pos := (spos s + 1)%nat in
  ' (h, m, pos) <-
    (if (56 <? pos)%nat then
       m <- (if (pos =? 64)%nat then Ok m
             else k <- size_sub 64 pos ;; memset m pos 0 k) ;;
       h <- md_transform1 sha1_block 64 (sh s) m total ;;
       Ok (h, m, 0%nat)
     else Ok (sh s, m, pos)) ;;
  k <- size_sub 56 pos ;;
  m <- memset m pos 0 k ;;
  let mlen := byteswap64 total in
  m <- memcpy m 56 (le_bytes 8 mlen) 8 ;;
  h <- md_transform1 sha1_block 64 h m total ;;
  let h := map byteswap32 h in
  w <- load (words_bytes 4 h) 0 20 ;;
  Ok (mkst h m pos total, w).

(** sha1_provider.hpp:87-91 clear. *)
Definition sha1_clear (s : st) : res st :=
  Ok (mkst (zero_memory (sh s)) (zero_memory (sm s)) (spos s) (stotal s)).

(** sha1_provider.hpp:93 hash_size and algorithm/sha1.hpp. *)
Definition sha1 : hash_provider :=
  {| hp := {| pst := st; p_init := sha1_init; p_update := sha1_update; p_clear := sha1_clear;
              p_param := Empty_set; p_set := no_set |};
     hp_final := sha1_final; hp_size := fun _ => 160 |}.
