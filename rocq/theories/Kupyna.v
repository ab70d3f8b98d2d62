(** * Model of algorithm/detail/kupyna_provider.hpp. *)
From Verif Require Import Base Absorb Hasher MdState Validate TTable ConstKupyna.

(** kupyna_provider.hpp:22-34, G<R> *)
Definition ku_G (R : nat) (x : list N) : list N :=
  ttable kupyna_T R (fun j => R - (if (j =? 7)%nat then (if (R =? 16)%nat then 11 else 7) else j))%nat x.
(** kupyna_provider.hpp:36-43 *)
Definition ku_roundP (R : nat) (x : list N) (i : N) : list N :=
  ku_G R (map2 N.lxor x (map (fun idx => N.lxor (shlw 64 (N.of_nat idx) 4) i) (seq 0 R))).
(** kupyna_provider.hpp:45-53 *)
Definition ku_roundQ (R : nat) (x : list N) (i : N) : list N :=
  ku_G R (map2 (addw 64) x (map (fun j =>
    N.lxor 0x00F0F0F0F0F0F0F3 (shlw 64 (N.lxor (N.of_nat (R - 1 - j) * 0x10) (N.land i 255)) 56)) (seq 0 R))).

(** kupyna_provider.hpp:182-191: one block. *)
Definition ku_step (hs : N) (h : list N) (_ : N) (data : list N) : list N :=
  cl_transform ku_roundP ku_roundQ (cl_R hs) h (le_words 8 (cl_R hs) data).

(** kupyna_provider.hpp:108-113; [g] is the memory of the object. *)
Definition ku_ctor (hs : N) (g : st) : res cl_st :=
  _ <- validate_list hs [256; 512] ;; Ok (mkcl g hs).
(** kupyna_provider.hpp:115-120 *)
Definition ku_ctor_static (hs : N) (g : st) : res cl_st := Ok (mkcl g hs).

(** kupyna_provider.hpp:127-133 *)
Definition ku_init (s : cl_st) : res cl_st :=
  Ok (mkcl (mkst (N.of_nat (cl_bs (clhs s)) :: zeros 15) (sm (cls s)) 0 0) (clhs s)).

(** kupyna_provider.hpp:135-139 *)
Definition ku_update (s : cl_st) (data : list N) : res cl_st :=
  let bs := cl_bs (clhs s) in
  x <- md_update (ku_step (clhs s)) bs bs (cls s) data ;; Ok (mkcl x (clhs s)).

(** kupyna_provider.hpp:141-161 *)
Definition ku_final (s : cl_st) : res (cl_st * list N) :=
  let hs := clhs s in
  let x := cls s in
  let limit := cl_bs hs in
  let total := trunc 64 (stotal x + N.of_nat (spos x * 8)) in
  m <- store (sm x) (spos x) 0x80 ;;
  let pos := (spos x + 1)%nat in
  ' (h, m, pos) <-
    (if (limit - 12 <? pos)%nat then
       m <- (if negb (limit =? pos)%nat then k <- size_sub limit pos ;; memset m pos 0 k else Ok m) ;;
       h <- md_transform1 (ku_step hs) limit (sh x) m total ;;
       Ok (h, m, 0%nat)
     else Ok (sh x, m, pos)) ;;
  k <- size_sub limit pos ;;
  m <- memset m pos 0 k ;;
  m <- memcpy m (limit - 12) (le_bytes 8 total) 8 ;;
  m <- memset m (limit - 4) 0 4 ;;
  h <- md_transform1 (ku_step hs) limit h m total ;;
  let h := cl_output ku_roundP (cl_R hs) h in
  o <- size_sub limit (N.to_nat (hs / 8)) ;;
  d <- load (words_bytes 8 h) o (N.to_nat (hs / 8)) ;;
  Ok (mkcl (mkst h m pos total) hs, d).

(** kupyna_provider.hpp:163-167 *)
Definition ku_clear (s : cl_st) : res cl_st :=
  let x := cls s in
  Ok (mkcl (mkst (zero_memory (sh x)) (zero_memory (sm x)) (spos x) (stotal x)) (clhs s)).

(** algorithm/kupyna.hpp:58, 94; kupyna_provider.hpp:169 *)
Definition kupyna : hash_provider :=
  {| hp := {| pst := cl_st; p_init := ku_init; p_update := ku_update; p_clear := ku_clear;
              p_param := Empty_set; p_set := no_set |};
     hp_final := ku_final; hp_size := clhs |}.
