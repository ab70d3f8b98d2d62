(** * Model of algorithm/detail/jh_provider.hpp. *)
From Verif Require Import Base Absorb Hasher MdState Validate ConstJh.

(** detail/functions.hpp:15-19 *)
Definition byteswap16 (v : N) : N :=
  trunc 16 (N.lor (N.shiftl (N.land v 0xff) 8) (N.shiftr (N.land v 0xff00) 8)).

(** jh_provider.hpp:22-25 *)
Definition jh_bitswap1 (x mask shift : N) : N :=
  N.lor (shlw 64 (N.land x mask) shift) (shrw (N.land x (notw 64 mask)) shift).
(** jh_provider.hpp:27-37 *)
Definition jh_bitswap (H : list N) (mask shift : N) : list N :=
  let h i := nthN i H in
  let b i := jh_bitswap1 (h i) mask shift in
  [h 0; h 1; b 2; b 3; h 4; h 5; b 6; b 7; h 8; h 9; b 10; b 11; h 12; h 13; b 14; b 15]%nat.
(** jh_provider.hpp:39-64, the statements for the words ...a; those for the words ...b
    are the same and do not interact with them. *)
Definition jh_sbitsli (x0 x1 x2 x3 c : N) : N * N * N * N :=
  let x3 := notw 64 x3 in
  let x0 := N.lxor x0 (N.land c (notw 64 x2)) in
  let t := N.lxor c (N.land x0 x1) in
  let x0 := N.lxor x0 (N.land x2 x3) in
  let x3 := N.lxor x3 (N.land (notw 64 x1) x2) in
  let x1 := N.lxor x1 (N.land x0 x2) in
  let x2 := N.lxor x2 (N.land x0 (notw 64 x3)) in
  let x0 := N.lxor x0 (N.lor x1 x3) in
  let x3 := N.lxor x3 (N.land x1 x2) in
  let x1 := N.lxor x1 (N.land t x0) in
  let x2 := N.lxor x2 t in
  (x0, x1, x2, x3).
(** jh_provider.hpp:66-84 *)
Definition jh_lbitsli (H : list N) : list N :=
  let h i := nthN i H in
  let h2 := N.lxor (h 2%nat) (h 4%nat) in
  let h3 := N.lxor (h 3%nat) (h 5%nat) in
  let h6 := N.lxor (h 6%nat) (h 8%nat) in
  let h7 := N.lxor (h 7%nat) (h 9%nat) in
  let h10 := N.lxor (h 10%nat) (N.lxor (h 12%nat) (h 0%nat)) in
  let h11 := N.lxor (h 11%nat) (N.lxor (h 13%nat) (h 1%nat)) in
  let h14 := N.lxor (h 14%nat) (h 0%nat) in
  let h15 := N.lxor (h 15%nat) (h 1%nat) in
  let h0 := N.lxor (h 0%nat) h6 in
  let h1 := N.lxor (h 1%nat) h7 in
  let h4 := N.lxor (h 4%nat) h10 in
  let h5 := N.lxor (h 5%nat) h11 in
  let h8 := N.lxor (h 8%nat) (N.lxor h14 h2) in
  let h9 := N.lxor (h 9%nat) (N.lxor h15 h3) in
  let h12 := N.lxor (h 12%nat) h2 in
  let h13 := N.lxor (h 13%nat) h3 in
  [h0; h1; h2; h3; h4; h5; h6; h7; h8; h9; h10; h11; h12; h13; h14; h15].
(** jh_provider.hpp:88-91 *)
Definition jh_slayer (H : list N) (r : nat) : list N :=
  let h i := nthN i H in
  let c i := nthN (r * 4 + i) jh_C in
  let '(h0, h4, h8, h12) := jh_sbitsli (h 0%nat) (h 4%nat) (h 8%nat) (h 12%nat) (c 0%nat) in
  let '(h1, h5, h9, h13) := jh_sbitsli (h 1%nat) (h 5%nat) (h 9%nat) (h 13%nat) (c 1%nat) in
  let '(h2, h6, h10, h14) := jh_sbitsli (h 2%nat) (h 6%nat) (h 10%nat) (h 14%nat) (c 2%nat) in
  let '(h3, h7, h11, h15) := jh_sbitsli (h 3%nat) (h 7%nat) (h 11%nat) (h 15%nat) (c 3%nat) in
  [h0; h1; h2; h3; h4; h5; h6; h7; h8; h9; h10; h11; h12; h13; h14; h15].
(** jh_provider.hpp:86-95 *)
Definition jh_round (H : list N) (r : nat) (mask shift : N) : list N :=
  let H := jh_lbitsli (jh_slayer H r) in
  if shift =? 0 then H else jh_bitswap H mask shift.
(** jh_provider.hpp:195-198 *)
Definition jh_swap (H : list N) : list N :=
  let h i := nthN i H in
  [h 0; h 1; h 3; h 2; h 4; h 5; h 7; h 6; h 8; h 9; h 11; h 10; h 12; h 13; h 15; h 14]%nat.
(** jh_provider.hpp:187-198: the body of the loop over r *)
Definition jh_rounds7 (H : list N) (r : nat) : list N :=
  let H := jh_round H r 0x5555555555555555 1 in
  let H := jh_round H (r + 1) 0x3333333333333333 2 in
  let H := jh_round H (r + 2) 0x0f0f0f0f0f0f0f0f 4 in
  let H := jh_round H (r + 3) 0x00ff00ff00ff00ff 8 in
  let H := jh_round H (r + 4) 0x0000ffff0000ffff 16 in
  let H := jh_round H (r + 5) 0x00000000ffffffff 32 in
  let H := jh_round H (r + 6) 0 0 in
  jh_swap H.
(** jh_provider.hpp:172-209: one block of transform. The message bytes are read through a
    uint64_t pointer (little-endian; alignment and aliasing are not modelled). *)
Definition jh_step (H : list N) (_ : N) (data : list N) : list N :=
  let M := le_words 8 8 data in
  let H := map2 N.lxor (firstn 8 H) M ++ skipn 8 H in
  let H := fold_left (fun H i => jh_rounds7 H (7 * i)) (seq 0 6) H in
  firstn 8 H ++ map2 N.lxor (skipn 8 H) M.

(** jh_provider.hpp:212-216 *)
Record jh_st := mkjh { jhs : st; jhhs : N }.

(** jh_provider.hpp:104-109; [g] is the memory of the object. *)
Definition jh_ctor (hs : N) (g : st) : res jh_st :=
  _ <- validate_max hs 512 ;; Ok (mkjh g hs).
(** jh_provider.hpp:111-116 *)
Definition jh_ctor_static (hs : N) (g : st) : res jh_st := Ok (mkjh g hs).

(** jh_provider.hpp:123-134 *)
Definition jh_init (s : jh_st) : res jh_st :=
  let H := byteswap16 (trunc 16 (jhhs s)) :: zeros 15 in
  Ok (mkjh (mkst (jh_step H 0 (zeros 64)) (sm (jhs s)) 0 0) (jhhs s)).

(** jh_provider.hpp:136-140 *)
Definition jh_update (s : jh_st) (data : list N) : res jh_st :=
  x <- md_update jh_step 64 64 (jhs s) data ;; Ok (mkjh x (jhhs s)).

(** jh_provider.hpp:142-159 *)
Definition jh_final (s : jh_st) : res (jh_st * list N) :=
  let x := jhs s in
  let total := trunc 64 (stotal x + N.of_nat (spos x * 8)) in
  m <- store (sm x) (spos x) 0x80 ;;
  let pos := (spos x + 1)%nat in
  ' (H, m, pos) <-
    (if (1 <? pos)%nat then
       m <- (if negb (pos =? 64)%nat then k <- size_sub 64 pos ;; memset m pos 0 k else Ok m) ;;
       H <- md_transform1 jh_step 64 (sh x) m total ;;
       Ok (H, m, 0%nat)
     else Ok (sh x, m, pos)) ;;
  k <- size_sub 56 pos ;;
  m <- memset m pos 0 k ;;
  m <- memcpy m (64 - 8) (le_bytes 8 (byteswap64 total)) (64 / 8) ;;
  H <- md_transform1 jh_step 64 H m total ;;
  o <- size_sub 128 (N.to_nat (jhhs s / 8)) ;;
  d <- load (words_bytes 8 H) o (N.to_nat (jhhs s / 8)) ;;
  Ok (mkjh (mkst H m pos total) (jhhs s), d).

(** jh_provider.hpp:161-165 *)
Definition jh_clear (s : jh_st) : res jh_st :=
  let x := jhs s in
  Ok (mkjh (mkst (zero_memory (sh x)) (zero_memory (sm x)) (spos x) (stotal x)) (jhhs s)).

(** algorithm/jh.hpp and the static_size variant; jh_provider.hpp:167 *)
Definition jh : hash_provider :=
  {| hp := {| pst := jh_st; p_init := jh_init; p_update := jh_update; p_clear := jh_clear;
              p_param := Empty_set; p_set := no_set |};
     hp_final := jh_final; hp_size := jhhs |}.
