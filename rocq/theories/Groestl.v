(** * Model of algorithm/detail/groestl_provider.hpp. *)
From Verif Require Import Base Absorb Hasher MdState Validate TTable ConstGroestl.

(** groestl_provider.hpp:22-37 *)
Definition gr_roundP (R : nat) (x : list N) (i : N) : list N :=
  let x := map2 N.lxor x (map (fun idx => N.lxor (shlw 64 (N.of_nat idx) 4) i) (seq 0 R)) in
  ttable groestl_T R (fun j => if (j =? 7)%nat then (if (R =? 16)%nat then 11 else 7) else j)%nat x.

(** groestl_provider.hpp:39-54; called with the round number shifted to the top byte
    (lines 71 and 72). *)
Definition gr_roundQ (R : nat) (x : list N) (r : N) : list N :=
  let i := shlw 64 r 56 in
  let x := map2 N.lxor x
    (map (fun idx => N.lxor (subw 64 0xffffffffffffffff (shlw 64 (N.of_nat idx) 60)) i) (seq 0 R)) in
  ttable groestl_T R (fun j => nth j [1; 3; 5; if (R =? 16)%nat then 11 else 7; 0; 2; 4; 6] 0)%nat x.

(** groestl_provider.hpp:188-197: one block. *)
Definition gr_step (hs : N) (h : list N) (_ : N) (data : list N) : list N :=
  cl_transform gr_roundP gr_roundQ (cl_R hs) h (le_words 8 (cl_R hs) data).

(** groestl_provider.hpp:109-114; [g] is the memory of the object. *)
Definition gr_ctor (hs : N) (g : st) : res cl_st :=
  _ <- validate_max hs 512 ;; Ok (mkcl g hs).
(** groestl_provider.hpp:116-121 *)
Definition gr_ctor_static (hs : N) (g : st) : res cl_st := Ok (mkcl g hs).

(** groestl_provider.hpp:128-135 *)
Definition gr_init (s : cl_st) : res cl_st :=
  let h := upd (if 256 <? clhs s then 15%nat else 7%nat) (byteswap64 (clhs s)) (zeros 16) in
  Ok (mkcl (mkst h (sm (cls s)) 0 0) (clhs s)).

(** groestl_provider.hpp:137-141 *)
Definition gr_update (s : cl_st) (data : list N) : res cl_st :=
  let bs := cl_bs (clhs s) in
  x <- md_update (gr_step (clhs s)) bs bs (cls s) data ;; Ok (mkcl x (clhs s)).

(** groestl_provider.hpp:143-167 *)
Definition gr_final (s : cl_st) : res (cl_st * list N) :=
  let hs := clhs s in
  let x := cls s in
  let limit := cl_bs hs in
  m <- store (sm x) (spos x) 0x80 ;;
  let pos := (spos x + 1)%nat in
  let total := trunc 64 (stotal x + N.of_nat (pos * 8)) in
  ' (h, m, pos, total) <-
    (if (limit - 8 <? pos)%nat then
       m <- (if negb (limit =? pos)%nat then k <- size_sub limit pos ;; memset m pos 0 k else Ok m) ;;
       h <- md_transform1 (gr_step hs) limit (sh x) m total ;;
       k <- size_sub limit pos ;;
       Ok (h, m, 0%nat, trunc 64 (total + N.of_nat (k * 8)))
     else Ok (sh x, m, pos, total)) ;;
  k <- size_sub (limit - 8) pos ;;
  m <- memset m pos 0 k ;;
  k <- size_sub limit pos ;;
  let total := trunc 64 (total + N.of_nat (k * 8)) in
  let mlen := byteswap64 (total / 8 / N.of_nat limit) in
  m <- memcpy m (limit - 8) (le_bytes 8 mlen) 8 ;;
  h <- md_transform1 (gr_step hs) limit h m total ;;
  let h := cl_output gr_roundP (cl_R hs) h in
  o <- size_sub limit (N.to_nat (hs / 8)) ;;
  d <- load (words_bytes 8 h) o (N.to_nat (hs / 8)) ;;
  Ok (mkcl (mkst h m pos total) hs, d).

(** groestl_provider.hpp:169-173 *)
Definition gr_clear (s : cl_st) : res cl_st :=
  let x := cls s in
  Ok (mkcl (mkst (zero_memory (sh x)) (zero_memory (sm x)) (spos x) (stotal x)) (clhs s)).

(** algorithm/groestl.hpp:53, 88; groestl_provider.hpp:175 *)
Definition groestl : hash_provider :=
  {| hp := {| pst := cl_st; p_init := gr_init; p_update := gr_update; p_clear := gr_clear;
              p_param := Empty_set; p_set := no_set |};
     hp_final := gr_final; hp_size := clhs |}.
