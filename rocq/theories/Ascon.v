(** * Model of algorithm/detail/ascon_provider.hpp. *)
From Verif Require Import Base Absorb Hasher MdState Squeeze ConstAscon.

(** ascon_provider.hpp:149-164: constant and S-box, bit-sliced. *)
Definition ascon_sub (H : list N) (rc : N) : list N :=
  let h i := nthN i H in
  let h2 := N.lxor (h 2%nat) rc in
  let h0 := N.lxor (h 0%nat) (h 4%nat) in
  let h4 := N.lxor (h 4%nat) (h 3%nat) in
  let h2 := N.lxor h2 (h 1%nat) in
  let h1 := h 1%nat in
  let h3 := h 3%nat in
  let t0 := N.lxor h0 (N.land (notw 64 h1) h2) in
  let t1 := N.lxor h1 (N.land (notw 64 h2) h3) in
  let t2 := N.lxor h2 (N.land (notw 64 h3) h4) in
  let t3 := N.lxor h3 (N.land (notw 64 h4) h0) in
  let t4 := N.lxor h4 (N.land (notw 64 h0) h1) in
  let t1 := N.lxor t1 t0 in
  let t0 := N.lxor t0 t4 in
  let t3 := N.lxor t3 t2 in
  let t2 := notw 64 t2 in
  [t0; t1; t2; t3; t4].

(** ascon_provider.hpp:166-170 *)
Definition ascon_lin (t : list N) : list N :=
  let l x a b := N.lxor (N.lxor x (rotr 64 x a)) (rotr 64 x b) in
  [l (nthN 0 t) 19 28; l (nthN 1 t) 61 39; l (nthN 2 t) 1 6; l (nthN 3 t) 10 17; l (nthN 4 t) 7 41].

(** ascon_provider.hpp:147-171: rounds i = 0 .. 11. *)
Definition ascon_perm (H : list N) : list N :=
  fold_left (fun H i => ascon_lin (ascon_sub H (nthN i ascon_RC))) (seq 0 12) H.

(** ascon_provider.hpp:143-172: loop body of transform. *)
Definition ascon_block (H : list N) (_ : N) (data : list N) : list N :=
  ascon_perm (N.lxor (nthN 0 H) (le_word data) :: tl H).

(** ascon_provider.hpp:176-182 *)
Record ascon_st := mkas {
  ak : st;            (* H[5], m[64], pos, total *)
  aZ : list N;
  asq : bool
}.

(** constants/ascon_constants.hpp:48, ascon_provider.hpp:20 *)
Inductive ascon_type := AHash | AXof | ACxof.

(** ascon_provider.hpp:26-29: Z is empty. *)
Definition ascon_ctor (g : st) : res ascon_st := Ok (mkas g [] false).

(** ascon_provider.hpp:85-89 *)
Definition ascon_update (s : ascon_st) (data : list N) : res ascon_st :=
  k <- md_update ascon_block 8 8 (ak s) data ;;
  Ok (mkas k (aZ s) (asq s)).

(** ascon_provider.hpp:60-65 *)
Definition ascon_iv (ty : ascon_type) : list N :=
  match ty with ACxof => ascon_IVCXOF | AXof => ascon_IVXOF | AHash => ascon_IVHASH end.

(** ascon_provider.hpp:36-77 *)
Definition ascon_init (ty : ascon_type) (s : ascon_st) : res ascon_st :=
  let s := mkas (mkst (ascon_iv ty) (zero_memory (sm (ak s))) 0 0) (aZ s) false in
  match ty with
  | ACxof =>
    s <- ascon_update s (le_bytes 8 (trunc 64 (N.of_nat (length (aZ s)) * 8))) ;;
    s <- (match aZ s with [] => Ok s | _ => ascon_update s (aZ s) end) ;;
    let pad := (length (aZ s) mod 8)%nat in
    data <- load (le_bytes 8 1) 0 (8 - pad) ;;
    ascon_update s data
  | _ => Ok s
  end.

(** ascon_provider.hpp:97-102: padding of the last block; rate is 64. *)
Definition ascon_pad (k : st) : res st :=
  let r := 8%nat in
  m <- store (sm k) (spos k) 1 ;;
  let pos := (spos k + 1)%nat in
  m <- (if (r =? pos)%nat then Ok m
        else n <- size_sub r pos ;; memset m pos 0 n) ;;
  h <- md_transform1 ascon_block 8 (sh k) m (stotal k) ;;
  m <- memset m 0 0 r ;;
  Ok (mkst h m pos (stotal k)).

(** ascon_provider.hpp:91-124. [transform(m.data(), 1)] reads the first 8 bytes of m. *)
Definition ascon_squeeze (s : ascon_st) (hs : nat) : res (ascon_st * list N) :=
  let next (m H : list N) := ascon_block H 0 (firstn 8 m) in
  if asq s then
    ' (h, pos, out) <- sq_more (next (sm (ak s))) (words_bytes 8) 8 (sh (ak s)) (spos (ak s)) hs ;;
    Ok (mkas (mkst h (sm (ak s)) pos (stotal (ak s))) (aZ s) true, out)
  else
    k <- ascon_pad (ak s) ;;
    ' (h, pos, out) <- sq_first (next (sm k)) (words_bytes 8) 8 (sh k) (spos k) hs ;;
    Ok (mkas (mkst h (sm k) pos (stotal k)) (aZ s) true, out).

(** ascon_provider.hpp:131-135: Z is left as it is. *)
Definition ascon_clear (s : ascon_st) : res ascon_st :=
  Ok (mkas (mkst (zero_memory (sh (ak s))) (zero_memory (sm (ak s))) (spos (ak s)) (stotal (ak s)))
    (aZ s) (asq s)).

(** ascon_provider.hpp:79-83 behind mixin/ascon_cxof_mixin.hpp. *)
Inductive ascon_param := AsCustomization.
(** ascon_provider.hpp:79-83 *)
Definition ascon_set (_ : ascon_param) (v : list N) (s : ascon_st) : setres ascon_st :=
  Done (mkas (ak s) v (asq s)).

(** algorithm/ascon.hpp:53; final at ascon_provider.hpp:126-129, hash_size at 137. *)
Definition ascon_hash : hash_provider :=
  {| hp := {| pst := ascon_st; p_init := ascon_init AHash; p_update := ascon_update;
              p_clear := ascon_clear; p_param := Empty_set; p_set := no_set |};
     hp_final := fun s => ascon_squeeze s 32;
     hp_size := fun _ => 256 |}.

(** algorithm/ascon.hpp:82 *)
Definition ascon_xof : xof_provider :=
  {| xp := {| pst := ascon_st; p_init := ascon_init AXof; p_update := ascon_update;
              p_clear := ascon_clear; p_param := Empty_set; p_set := no_set |};
     xp_squeeze := ascon_squeeze |}.

(** algorithm/ascon.hpp:121 *)
Definition ascon_cxof : xof_provider :=
  {| xp := {| pst := ascon_st; p_init := ascon_init ACxof; p_update := ascon_update;
              p_clear := ascon_clear; p_param := ascon_param; p_set := ascon_set |};
     xp_squeeze := ascon_squeeze |}.
