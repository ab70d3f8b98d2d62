(** * Model of algorithm/detail/md5_provider.hpp. *)
From Verif Require Import Base Absorb Hasher MdState ConstMd5.

(** md5_provider.hpp:21-25 roundf; [M] are the message words. Returns the new [a]. *)
Definition roundf (r : nat) (a b c d : N) (M : list N) : N :=
  addw 32 b (rotl 32 (addw 32 (addw 32 (addw 32 a
    (N.lxor d (N.land b (N.lxor c d)))) (nthN r md5_K)) (nthN r M)) (nthN r md5_S)).

(** md5_provider.hpp:27-31 roundg. *)
Definition roundg (r : nat) (a b c d : N) (M : list N) : N :=
  addw 32 b (rotl 32 (addw 32 (addw 32 (addw 32 a
    (N.lxor c (N.land d (N.lxor b c)))) (nthN r md5_K)) (nthN ((5 * r + 1) mod 16) M)) (nthN r md5_S)).

(** md5_provider.hpp:33-37 roundh. *)
Definition roundh (r : nat) (a b c d : N) (M : list N) : N :=
  addw 32 b (rotl 32 (addw 32 (addw 32 (addw 32 a
    (N.lxor (N.lxor b c) d)) (nthN r md5_K)) (nthN ((3 * r + 5) mod 16) M)) (nthN r md5_S)).

(** md5_provider.hpp:39-43 roundi. *)
Definition roundi (r : nat) (a b c d : N) (M : list N) : N :=
  addw 32 b (rotl 32 (addw 32 (addw 32 (addw 32 a
    (N.lxor c (N.lor b (notw 32 d)))) (nthN r md5_K)) (nthN ((7 * r) mod 16) M)) (nthN r md5_S)).

(** The four calls [f(r,a,b,c,d); f(r+1,d,a,b,c); f(r+2,c,d,a,b); f(r+3,b,c,d,a)]
    that the unrolled body consists of. md5_provider.hpp:103-186. *)
Definition four (f : nat -> N -> N -> N -> N -> list N -> N) (M : list N)
  (s : N * N * N * N) (r : nat) : N * N * N * N :=
  let '(a, b, c, d) := s in
  let a := f r a b c d M in
  let d := f (r + 1)%nat d a b c M in
  let c := f (r + 2)%nat c d a b M in
  let b := f (r + 3)%nat b c d a M in
  (a, b, c, d).

(** md5_provider.hpp:103-186: body of the transform loop for one block. *)
Definition md5_block (H : list N) (_ : N) (data : list N) : list N :=
  let M := le_words 4 16 data in
  let s := (nthN 0 H, nthN 1 H, nthN 2 H, nthN 3 H) in
  let s := fold_left (four roundf M) [0; 4; 8; 12]%nat s in
  let s := fold_left (four roundg M) [16; 20; 24; 28]%nat s in
  let s := fold_left (four roundh M) [32; 36; 40; 44]%nat s in
  let s := fold_left (four roundi M) [48; 52; 56; 60]%nat s in
  let '(a, b, c, d) := s in
  [addw 32 (nthN 0 H) a; addw 32 (nthN 1 H) b; addw 32 (nthN 2 H) c; addw 32 (nthN 3 H) d].

(** md5_provider.hpp:61-69 init. *)
Definition md5_init (s : st) : res st :=
  Ok (mkst [0x67452301; 0xefcdab89; 0x98badcfe; 0x10325476] (sm s) 0 0).

(** md5_provider.hpp:71-75 update. *)
Definition md5_update : st -> list N -> res st := md_update md5_block 64 64.

(** md5_provider.hpp:77-92 final. *)
Definition md5_final (s : st) : res (st * list N) :=
  let total := trunc 64 (stotal s + N.of_nat (spos s * 8)) in
  m <- store (sm s) (spos s) 0x80 ;;
  let pos := (spos s + 1)%nat in
  ' (h, m, pos) <-
    (if (56 <? pos)%nat then
       m <- (if (pos =? 64)%nat then Ok m
             else k <- size_sub 64 pos ;; memset m pos 0 k) ;;
       h <- md_transform1 md5_block 64 (sh s) m total ;;
       Ok (h, m, 0%nat)
     else Ok (sh s, m, pos)) ;;
  k <- size_sub 56 pos ;;
  m <- memset m pos 0 k ;;
  m <- memcpy m 56 (le_bytes 8 total) 8 ;;
  h <- md_transform1 md5_block 64 h m total ;;
  w <- load (words_bytes 4 h) 0 16 ;;
  Ok (mkst h m pos total, w).

(** md5_provider.hpp:94-98 clear. *)
Definition md5_clear (s : st) : res st :=
  Ok (mkst (zero_memory (sh s)) (zero_memory (sm s)) (spos s) (stotal s)).

(** md5_provider.hpp:100 hash_size and algorithm/md5.hpp. *)
Definition md5 : hash_provider :=
  {| hp := {| pst := st; p_init := md5_init; p_update := md5_update; p_clear := md5_clear;
              p_param := Empty_set; p_set := no_set |};
     hp_final := md5_final; hp_size := fun _ => 128 |}.
