(** * Model of algorithm/detail/streebog_provider.hpp. *)
From Verif Require Import Base Absorb Hasher MdState Validate ConstStreebog.

(** streebog_provider.hpp:22-33, lps<I>; [ch] are the 64 bytes of the block. *)
Definition sb_lps (I : nat) (ch : list N) : N :=
  let t j := tbl (nth j streebog_T []) (nthN (8 * j + I) ch) in
  N.lxor (N.lxor (N.lxor (N.lxor (N.lxor (N.lxor (N.lxor (t 0%nat) (t 1%nat)) (t 2%nat)) (t 3%nat))
    (t 4%nat)) (t 5%nat)) (t 6%nat)) (t 7%nat).
(** streebog_provider.hpp:35-48 *)
Definition sb_lps_block (block : list N) : list N :=
  let ch := words_bytes 8 block in map (fun I => sb_lps I ch) (seq 0 8).
(** streebog_provider.hpp:50-60 *)
Definition sb_xor (block toxor : list N) : list N := map2 N.lxor block toxor.
(** streebog_provider.hpp:62-74; returns K. The message bytes are read through a
    uint64_t pointer (little-endian; alignment and aliasing are not modelled). *)
Definition sb_e (K : list N) (m : list N) : list N :=
  fst (fold_left (fun kt i =>
      let '(K, tmp) := kt in
      let K := sb_lps_block K in
      let tmp := sb_lps_block (sb_xor tmp (nth i streebog_RC [])) in
      (sb_xor K tmp, tmp))
    (seq 0 12) (sb_xor K m, K)).
(** streebog_provider.hpp:76-85 *)
Definition sb_gN (h m : list N) (Nn : N) : list N :=
  let hN := match h with x :: r => N.lxor x Nn :: r | [] => [] end in
  let hN := sb_e (sb_lps_block hN) m in
  sb_xor (sb_xor h hN) m.
(** streebog_provider.hpp:87-98, on words from the lowest to the highest. *)
Fixpoint sb_addm (carry : bool) (m h : list N) : list N :=
  match m, h with
  | m0 :: m', h0 :: h' =>
      let t := addw 64 h0 m0 in
      let overflow := (t <? h0) || (t <? m0) in
      addw 64 t (if carry then 1 else 0) :: sb_addm overflow m' h'
  | _, _ => []
  end.

(** streebog_provider.hpp:178-183; [sbs] holds h followed by S, m, pos and total. *)
Record sb_st := mksb { sbs : st; sbhs : N }.

(** streebog_provider.hpp:167-176: one block of transform(mp, num_blks, false). *)
Definition sb_step (hS : list N) (t : N) (data : list N) : list N :=
  let m := le_words 8 8 data in
  sb_gN (firstn 8 hS) m t ++ sb_addm false m (skipn 8 hS).
(** The same for transform(mp, num_blks, true). streebog_provider.hpp:167-176. *)
Definition sb_step_final (hS : list N) (_ : N) (data : list N) : list N :=
  sb_gN (firstn 8 hS) (le_words 8 8 data) 0 ++ skipn 8 hS.

(** streebog_provider.hpp:108-113; [g] is the memory of the object. *)
Definition sb_ctor (hs : N) (g : st) : res sb_st :=
  _ <- validate_list hs [256; 512] ;; Ok (mksb g hs).
(** streebog_provider.hpp:115-120 *)
Definition sb_ctor_static (hs : N) (g : st) : res sb_st := Ok (mksb g hs).

(** streebog_provider.hpp:127-133 *)
Definition sb_init (s : sb_st) : res sb_st :=
  let b := if sbhs s =? 512 then 0 else 1 in
  let h := le_words 8 8 (repeat b 64) in
  Ok (mksb (mkst (h ++ zeros 8) (sm (sbs s)) 0 0) (sbhs s)).

(** streebog_provider.hpp:135-139 *)
Definition sb_update (s : sb_st) (data : list N) : res sb_st :=
  x <- md_update sb_step 64 64 (sbs s) data ;; Ok (mksb x (sbhs s)).

(** streebog_provider.hpp:141-155 *)
Definition sb_final (s : sb_st) : res (sb_st * list N) :=
  let x := sbs s in
  m <- store (sm x) (spos x) 0x01 ;;
  let pos := (spos x + 1)%nat in
  m <- (if negb (pos =? 64)%nat then k <- size_sub 64 pos ;; memset m pos 0 k else Ok m) ;;
  hS <- md_transform1 sb_step 64 (sh x) m (stotal x) ;;
  let total := trunc 64 (stotal x + N.of_nat ((pos - 1) * 8)) in
  m <- memcpy m 0 (le_bytes 8 total) 8 ;;
  m <- memset m 8 0 (64 - 8) ;;
  hS <- md_transform1 sb_step_final 64 hS m total ;;
  hS <- md_transform1 sb_step_final 64 hS (words_bytes 8 (skipn 8 hS)) total ;;
  i <- size_sub 8 (N.to_nat (sbhs s / 64)) ;;
  d <- load (words_bytes 8 (firstn 8 hS)) (8 * i) (N.to_nat (sbhs s / 8)) ;;
  Ok (mksb (mkst hS m pos total) (sbhs s), d).

(** streebog_provider.hpp:157-162 *)
Definition sb_clear (s : sb_st) : res sb_st :=
  let x := sbs s in
  Ok (mksb (mkst (zero_memory (sh x)) (zero_memory (sm x)) (spos x) (stotal x)) (sbhs s)).

(** algorithm/streebog.hpp:80 and the static_size variant; streebog_provider.hpp:164 *)
Definition streebog : hash_provider :=
  {| hp := {| pst := sb_st; p_init := sb_init; p_update := sb_update; p_clear := sb_clear;
              p_param := Empty_set; p_set := no_set |};
     hp_final := sb_final; hp_size := sbhs |}.
