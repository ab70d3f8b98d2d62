(** * Model of algorithm/detail/esch_provider.hpp. *)
From Verif Require Import Base Absorb Hasher MdState Validate ConstEsch.

(** esch_provider.hpp:32-43: one Alzette instance with constant [c]. *)
Definition esch_alz (c : N) (x y : N) : N * N :=
  let x := addw 32 x (rotr 32 y 31) in
  let y := N.lxor y (rotr 32 x 24) in
  let x := N.lxor x c in
  let x := addw 32 x (rotr 32 y 17) in
  let y := N.lxor y (rotr 32 x 17) in
  let x := N.lxor x c in
  let x := addw 32 x y in
  let y := N.lxor y (rotr 32 x 31) in
  let x := N.lxor x c in
  let x := addw 32 x (rotr 32 y 24) in
  let y := N.lxor y (rotr 32 x 16) in
  let x := N.lxor x c in
  (x, y).

(** esch_provider.hpp:52-53, 186-187 *)
Definition esch_ell (x : N) : N := rotr 32 (N.lxor x (shlw 32 x 16)) 16.

(** Word [i] of the array H. E.g. esch_provider.hpp:28. *)
Definition xor_at (i : nat) (v : N) (H : list N) : list N := upd i (N.lxor (nthN i H) v) H.

(** esch_provider.hpp:26-71: step [s] of sparkle, [rounds] is 6 or 8. *)
Definition esch_step (rounds : nat) (H : list N) (s : nat) : list N :=
  let H := xor_at 1 (nthN (s mod 8) esch_C) H in
  let H := xor_at 3 (N.of_nat s) H in
  let H := fold_left (fun H j =>
    let xy := esch_alz (nthN j esch_C) (nthN (2 * j) H) (nthN (2 * j + 1) H) in
    upd (2 * j + 1) (snd xy) (upd (2 * j) (fst xy) H)) (seq 0 rounds) H in
  let x := N.lxor (N.lxor (nthN 0 H) (nthN 2 H)) (nthN 4 H) in
  let y := N.lxor (N.lxor (nthN 1 H) (nthN 3 H)) (nthN 5 H) in
  let x := if (6 <? rounds)%nat then N.lxor x (nthN 6 H) else x in
  let y := if (6 <? rounds)%nat then N.lxor y (nthN 7 H) else y in
  let x := esch_ell x in
  let y := esch_ell y in
  let H := fold_left (fun H k =>
    let i := (2 * k)%nat in
    let j := (rounds + 2 * k)%nat in
    let H := xor_at j (N.lxor (nthN i H) y) H in
    xor_at (j + 1) (N.lxor (nthN (i + 1) H) x) H) (seq 0 (rounds / 2)) H in
  let x := nthN rounds H in
  let y := nthN (rounds + 1) H in
  let H := fold_left (fun H i =>
    let H := upd (i + rounds) (nthN i H) H in
    upd i (nthN (i + rounds + 2) H) H) (seq 0 (rounds - 2)) H in
  let H := upd (rounds * 2 - 2) (nthN (rounds - 2) H) H in
  let H := upd (rounds * 2 - 1) (nthN (rounds - 1) H) H in
  let H := upd (rounds - 2) x H in
  upd (rounds - 1) y H.

(** esch_provider.hpp:24-72: sparkle(H, rounds, ns). *)
Definition sparkle (rounds ns : nat) (H : list N) : list N := fold_left (esch_step rounds) (seq 0 ns) H.

(** [hs > 256 ? 8 : 6] at esch_provider.hpp:154, 202. *)
Definition esch_rounds (hs : N) : nat := if 256 <? hs then 8 else 6.

(** esch_provider.hpp:179-203: loop body of transform. *)
Definition esch_block (hs : N) (lastBlock : bool) (H : list N) (_ : N) (data : list N) : list N :=
  let M := le_words 4 4 data in
  let x := N.lxor (nthN 0 M) (nthN 2 M) in
  let y := N.lxor (nthN 1 M) (nthN 3 M) in
  let x := esch_ell x in
  let y := esch_ell y in
  let H := upd 0 (N.lxor (N.lxor (nthN 0 H) (nthN 0 M)) y) H in
  let H := upd 1 (N.lxor (N.lxor (nthN 1 H) (nthN 1 M)) x) H in
  let H := upd 2 (N.lxor (N.lxor (nthN 2 H) (nthN 2 M)) y) H in
  let H := upd 3 (N.lxor (N.lxor (nthN 3 H) (nthN 3 M)) x) H in
  let H := xor_at 4 y H in
  let H := xor_at 5 x H in
  let H := if 256 <? hs then xor_at 7 x (xor_at 6 y H) else H in
  let steps := if lastBlock then 11%nat else 7%nat in
  let steps := if 256 <? hs then S steps else steps in
  sparkle (esch_rounds hs) steps H.

(** esch_provider.hpp:207-212 *)
Record esch_st := mkes {
  ek : st;            (* H[N/32], m[128], pos, total *)
  ehs : N;
  esq : bool
}.

(** esch_provider.hpp:82-88 *)
Definition esch_ctor (hs : N) (g : st) : res esch_st :=
  _ <- validate_list hs [256; 384] ;; Ok (mkes g hs false).
(** esch_provider.hpp:90-96 *)
Definition esch_ctor_static (hs : N) (g : st) : res esch_st := Ok (mkes g hs false).
(** esch_provider.hpp:98-102, for state size [sz]. *)
Definition esch_ctor_xof (sz : N) (g : st) : res esch_st := Ok (mkes g (sz - 128) false).

(** esch_provider.hpp:109-116 *)
Definition esch_init (s : esch_st) : res esch_st :=
  Ok (mkes (mkst (zero_memory (sh (ek s))) (zero_memory (sm (ek s))) 0 0) (ehs s) false).

(** esch_provider.hpp:118-122 *)
Definition esch_update (s : esch_st) (data : list N) : res esch_st :=
  k <- md_update (esch_block (ehs s) false) 16 17 (ek s) data ;;
  Ok (mkes k (ehs s) (esq s)).

(** esch_provider.hpp:151-159: the output loop; [total = 0] asks for a permutation call. *)
Fixpoint esch_loop (hs : N) (fuel : nat) (H : list N) (total : N) (hss processed pos : nat) (out : list N)
  : res (list N * N * nat * list N) :=
  if (processed <? hss)%nat then
    match fuel with
    | O => Ok (H, total, pos, out)
    | S fuel =>
      let H := if total =? 0 then sparkle (esch_rounds hs) (if 256 <? hs then 8%nat else 7%nat) H else H in
      let pos := Nat.min (hss - processed) 16 in
      w <- load (words_bytes 4 H) 0 pos ;;
      esch_loop hs fuel H 0 hss (processed + pos) pos (out ++ w)
    end
  else Ok (H, total, pos, out).

(** esch_provider.hpp:129-140; the array index must be inside H. *)
Definition esch_pad (xof : bool) (hs : N) (k : st) : res st :=
  let i := N.to_nat ((hs + 128) / 64 - 1) in
  if (i <? length (sh k))%nat then
    ' (m, H) <-
      (if (spos k <? 16)%nat then
         m <- memset (sm k) (spos k) 0 (16 - spos k) ;;
         m <- store m (spos k) 0x80 ;;
         Ok (m, xor_at i (if xof then 0x5000000 else 0x1000000) (sh k))
       else Ok (sm k, xor_at i (if xof then 0x6000000 else 0x2000000) (sh k))) ;;
    H <- md_transform1 (esch_block hs true) 16 H m 1 ;;
    Ok (mkst H m (spos k) 1)
  else UB OutOfBounds.

(** esch_provider.hpp:124-160 *)
Definition esch_squeeze (xof : bool) (s : esch_st) (hss : nat) : res (esch_st * list N) :=
  let hs := ehs s in
  ' (H, m, pos, total, processed, out) <-
    (if esq s then
       let k := ek s in
       if (spos k <? 16)%nat then
         let to_copy := Nat.min hss (16 - spos k) in
         w <- load (words_bytes 4 (sh k)) (spos k) to_copy ;;
         Ok (sh k, sm k, (spos k + to_copy)%nat, 0, to_copy, w)
       else Ok (sh k, sm k, spos k, stotal k, 0%nat, [])
     else
       k <- esch_pad xof hs (ek s) ;;
       Ok (sh k, sm k, spos k, stotal k, 0%nat, [])) ;;
  ' (H, total, pos, out) <- esch_loop hs hss H total hss processed pos out ;;
  Ok (mkes (mkst H m pos total) hs true, out).

(** esch_provider.hpp:167-171 *)
Definition esch_clear (s : esch_st) : res esch_st :=
  Ok (mkes (mkst (zero_memory (sh (ek s))) (zero_memory (sm (ek s))) (spos (ek s)) (stotal (ek s)))
    (ehs s) (esq s)).

(** algorithm/esch.hpp:56, 144; final at esch_provider.hpp:162-165, hash_size at 173. *)
Definition esch : hash_provider :=
  {| hp := {| pst := esch_st; p_init := esch_init; p_update := esch_update;
              p_clear := esch_clear; p_param := Empty_set; p_set := no_set |};
     hp_final := fun s => esch_squeeze false s (N.to_nat (ehs s / 8));
     hp_size := ehs |}.

(** algorithm/esch.hpp:84 (N = 384), 107 (N = 512). *)
Definition esch_xof : xof_provider :=
  {| xp := {| pst := esch_st; p_init := esch_init; p_update := esch_update;
              p_clear := esch_clear; p_param := Empty_set; p_set := no_set |};
     xp_squeeze := esch_squeeze true |}.
