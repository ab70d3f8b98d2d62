(** * Model of algorithm/detail/skein_provider.hpp.

    [nw] is N / 64, the number of words of the state: 4, 8 or 16. *)
From Verif Require Import Base Absorb Hasher MdState Validate ConstSkein.

(** constants/skein_constants.hpp: the tables of the three specialisations. *)
Definition skein_C (nw : nat) : list (list N) :=
  match nw with 4%nat => skein_C4 | 8%nat => skein_C8 | _ => skein_C16 end.
(** constants/skein_constants.hpp: the index tables I4, I8, I16. *)
Definition skein_I (nw : nat) : list (list N) :=
  match nw with 4%nat => skein_I4 | 8%nat => skein_I8 | _ => skein_I16 end.

(** skein_provider.hpp:28-36, 66-80, 115-141 GTv4<r>: one line pair per [j]. *)
Definition sk_mix (nw r : nat) (G : list N) (j : nat) : list N :=
  let I := nth r (skein_I nw) [] in
  let C := nth r (skein_C nw) [] in
  let ia := N.to_nat (nthN (2 * j) I) in
  let ib := N.to_nat (nthN (2 * j + 1) I) in
  let G := upd ia (addw 64 (nthN ia G) (nthN ib G)) G in
  upd ib (N.lxor (rotl 64 (nthN ib G) (nthN j C)) (nthN ia G)) G.
(** skein_provider.hpp:28-36, 66-80, 115-141: all pairs in order. *)
Definition sk_GT (nw : nat) (G : list N) (r : nat) : list N :=
  fold_left (sk_mix nw r) (seq 0 (nw / 2)) G.

(** skein_provider.hpp:38-45, 82-93, 143-162 KStRv4<r> *)
Definition sk_KSt (nw r : nat) (keys tweaks G : list N) : list N :=
  map (fun i =>
    let k := nthN ((r + i + 1) mod (nw + 1)) keys in
    addw 64 (nthN i G)
      (if (i =? nw - 3)%nat then addw 64 k (nthN ((r + 1) mod 3) tweaks)
       else if (i =? nw - 2)%nat then addw 64 k (nthN ((r + 2) mod 3) tweaks)
       else if (i =? nw - 1)%nat then addw 64 (addw 64 k (N.of_nat r)) 1
       else k)) (seq 0 nw).

(** skein_provider.hpp:47-60, 95-108, 164-177 G8<r> *)
Definition sk_G8 (nw : nat) (keys tweaks G : list N) (r : nat) : list N :=
  let G := fold_left (sk_GT nw) [0; 1; 2; 3]%nat G in
  let G := sk_KSt nw r keys tweaks G in
  let G := fold_left (sk_GT nw) [4; 5; 6; 7]%nat G in
  sk_KSt nw (r + 1) keys tweaks G.

(** skein_provider.hpp:341-351: the template arguments of the G8 calls. *)
Definition sk_rounds (nw : nat) : list nat :=
  [0; 2; 4; 6; 8; 10; 12; 14; 16]%nat ++ (if (nw =? 16)%nat then [18%nat] else []).

(** skein_provider.hpp:320-359: one block of transform. The list [h] holds
    tweak[0], tweak[1] and then H. *)
Definition sk_block (nw : nat) (reallen : N) (h : list N) (data : list N) : list N :=
  let H := skipn 2 h in
  let M := le_words 8 nw data in
  let t0 := addw 64 (nthN 0 h) reallen in
  let t1 := nthN 1 h in
  let tweaks := [t0; t1; N.lxor t0 t1] in
  let keys := H ++ [fold_left N.lxor H 0x1BD11BDAA9FC1A22] in
  let G := map2 (addw 64) M H in
  let G := upd (nw - 3) (addw 64 (nthN (nw - 3) G) t0) G in
  let G := upd (nw - 2) (addw 64 (nthN (nw - 2) G) t1) G in
  let G := fold_left (sk_G8 nw keys tweaks) (sk_rounds nw) G in
  [t0; N.land t1 (notw 64 (shlw 64 64 56))] ++ map2 N.lxor G M.

(** transform(data, len, reallen) as seen by absorb_bytes and block_loop.
    skein_provider.hpp:315-360. *)
Definition sk_step (nw : nat) (reallen : N) (h : list N) (t : N) (data : list N) : list N :=
  sk_block nw reallen h data.

(** skein_provider.hpp:380-387 *)
Record sk_st := mksk {
  skc : st;            (* tweak[0], tweak[1], H; m; pos; total *)
  skhb : list N;       (* hbk *)
  skhs : N;            (* hs *)
  sksq : bool;         (* squeezing *)
  skp : list N;        (* p *)
  skn : list N;        (* n *)
  skk : list N         (* k *)
}.

(** skein_provider.hpp:186-191; [g], [hb], [sq] are the uninitialised members. *)
Definition sk_ctor (hs : N) (g : st) (hb : list N) (sq : bool) : res sk_st :=
  _ <- validate_max hs (2 ^ 64 - 1) ;; Ok (mksk g hb hs sq [] [] []).
(** skein_provider.hpp:193-198 *)
Definition sk_ctor_static (hs : N) (g : st) (hb : list N) (sq : bool) : res sk_st :=
  Ok (mksk g hb hs sq [] [] []).

(** The member H, skein_provider.hpp:380 *)
Definition sk_H (c : st) : list N := skipn 2 (sh c).

(** (1 << 62) | (code << 56) and 1 << 63 *)
(** skein_provider.hpp:228, 241, 367, 377 *)
Definition sk_tw1 (code : N) : N := N.lor (shlw 64 1 62) (shlw 64 code 56).
(** skein_provider.hpp:228, 259, 369 *)
Definition sk_lastbit : N := shlw 64 1 63.

(** skein_provider.hpp:247-251 *)
Definition sk_upd (nw : nat) (c : st) (data : list N) : res st :=
  md_update (sk_step nw (N.of_nat (8 * nw))) (8 * nw) (8 * nw + 1) c data.
(** skein_provider.hpp:247-251, on the whole object. *)
Definition sk_update (nw : nat) (s : sk_st) (data : list N) : res sk_st :=
  c <- sk_upd nw (skc s) data ;;
  Ok (mksk c (skhb s) (skhs s) (sksq s) (skp s) (skn s) (skk s)).

(** skein_provider.hpp:259-263 and 369-372: set the last bit, pad, process the block. *)
Definition sk_finish (nw : nat) (c : st) : res st :=
  let h := [nthN 0 (sh c); N.lor (nthN 1 (sh c)) sk_lastbit] ++ sk_H c in
  m <- (if (spos c <? 8 * nw)%nat
        then memset (sm c) (spos c) 0 (8 * nw - spos c) else Ok (sm c)) ;;
  h <- md_transform1 (sk_step nw (N.of_nat (spos c))) (8 * nw) h m (stotal c) ;;
  Ok (mkst h m (spos c) (stotal c)).

(** skein_provider.hpp:362-378; squeezing, already false, is left alone. *)
Definition sk_inject (nw : nat) (par : list N) (code : N) (c : st) : res st :=
  match par with
  | [] => Ok c
  | _ =>
    let c := mkst ([nthN 0 (sh c); sk_tw1 code] ++ sk_H c) (sm c) (spos c) (stotal c) in
    c <- sk_upd nw c par ;;
    c <- sk_finish nw c ;;
    Ok (mkst ([0; sk_tw1 48] ++ sk_H c) (sm c) 0 0)
  end.

(** skein_provider.hpp:220-245. [xof] is the template argument XOF. *)
Definition sk_init (nw : nat) (xof : bool) (s : sk_st) : res sk_st :=
  let c := skc s in
  let c := mkst ([0; nthN 1 (sh c)] ++ zero_memory (sk_H c)) (sm c) 0 0 in
  c <- sk_inject nw (skk s) 0 c ;;
  let h := [nthN 0 (sh c); N.lor (sk_tw1 4) sk_lastbit] ++ sk_H c in
  let m := zero_memory (sm c) in
  m <- store m 0 0x53 ;;
  m <- store m 1 0x48 ;;
  m <- store m 2 0x41 ;;
  m <- store m 3 0x33 ;;
  m <- store m 4 0x01 ;;
  let size64 := if xof then 2 ^ 64 - 1 else skhs s in
  m <- memcpy m 8 (le_bytes 8 size64) 8 ;;
  h <- md_transform1 (sk_step nw 32) (8 * nw) h m 0 ;;
  let c := mkst ([0; sk_tw1 48] ++ skipn 2 h) m 0 0 in
  c <- sk_inject nw (skp s) 8 c ;;
  c <- sk_inject nw (skn s) 20 c ;;
  Ok (mksk c (skhb s) (skhs s) false (skp s) (skn s) (skk s)).

(** skein_provider.hpp:205-218 behind mixin/skein_mixin.hpp. *)
Inductive sk_param := SkPers | SkNonce | SkKey.
(** skein_provider.hpp:205-218 *)
Definition sk_set (q : sk_param) (v : list N) (s : sk_st) : setres sk_st :=
  match q with
  | SkPers => Done (mksk (skc s) (skhb s) (skhs s) (sksq s) v (skn s) (skk s))
  | SkNonce => Done (mksk (skc s) (skhb s) (skhs s) (sksq s) (skp s) v (skk s))
  | SkKey => Done (mksk (skc s) (skhb s) (skhs s) (sksq s) (skp s) (skn s) v)
  end.

(** skein_provider.hpp:276-287; [fuel] bounds the number of iterations. *)
Fixpoint sk_loop (nw : nat) (hbk : list N) (fuel : nat) (c : st) (hs processed : nat) (out : list N)
  : res (st * list N) :=
  if (processed <? hs)%nat then
    match fuel with
    | O => Ok (c, out)
    | S fuel =>
      let pos := Nat.min (hs - processed) (8 * nw) in
      m <- memcpy (sm c) 0 (le_bytes 8 (stotal c)) 8 ;;
      h <- md_transform1 (sk_step nw 8) (8 * nw) ([0; shlw 64 255 56] ++ hbk) m (stotal c) ;;
      o <- load (words_bytes 8 (skipn 2 h)) 0 pos ;;
      sk_loop nw hbk fuel (mkst h m pos (trunc 64 (stotal c + 1))) hs (processed + pos) (out ++ o)
    end
  else Ok (c, out).

(** skein_provider.hpp:253-288 *)
Definition sk_squeeze (nw : nat) (s : sk_st) (hs : nat) : res (sk_st * list N) :=
  ' (c, hbk, processed, out) <-
    (if sksq s then
       let c := skc s in
       if (spos c <? 8 * nw)%nat then
         let to_copy := Nat.min hs (8 * nw - spos c) in
         o <- load (words_bytes 8 (sk_H c)) (spos c) to_copy ;;
         Ok (mkst (sh c) (sm c) (spos c + to_copy) (stotal c), skhb s, to_copy, o)
       else Ok (c, skhb s, 0%nat, [])
     else
       c <- sk_finish nw (skc s) ;;
       m <- memset (sm c) 0 0 (8 * nw) ;;
       Ok (mkst (sh c) m 0 0, sk_H c, 0%nat, [])) ;;
  ' (c, out) <- sk_loop nw hbk hs c hs processed out ;;
  Ok (mksk c hbk (skhs s) true (skp s) (skn s) (skk s), out).

(** skein_provider.hpp:290-293 *)
Definition sk_final (nw : nat) (s : sk_st) : res (sk_st * list N) :=
  sk_squeeze nw s (N.to_nat (skhs s / 8)).

(** skein_provider.hpp:302-308: the memory after the calls of zero_memory. *)
Definition sk_wipe (s : sk_st) : sk_st :=
  let c := skc s in
  mksk (mkst (zero_memory (sh c)) (zero_memory (sm c)) (spos c) (stotal c))
    (zero_memory (skhb s)) (skhs s) (sksq s) (zero_memory (skp s)) (zero_memory (skn s)) (zero_memory (skk s)).
(** skein_provider.hpp:300-312 *)
Definition sk_clear (s : sk_st) : res sk_st :=
  let s := sk_wipe s in
  Ok (mksk (skc s) (skhb s) (skhs s) (sksq s) [] [] []).

(** skein_provider.hpp:180-388: the members that hasher.hpp calls. *)
Definition sk_base (nw : nat) (xof : bool) : provider :=
  {| pst := sk_st; p_init := sk_init nw xof; p_update := sk_update nw; p_clear := sk_clear;
     p_param := sk_param; p_set := sk_set |}.

(** algorithm/skein.hpp: skein256/512/1024 and skein256_xof/512_xof/1024_xof. *)
Definition skein (nw : nat) : hash_provider :=
  {| hp := sk_base nw false; hp_final := sk_final nw; hp_size := skhs |}.
(** algorithm/skein.hpp: skein256_xof, skein512_xof, skein1024_xof. *)
Definition skein_xof (nw : nat) : xof_provider :=
  {| xp := sk_base nw true; xp_squeeze := sk_squeeze nw |}.
