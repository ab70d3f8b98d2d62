(** * Model of algorithm/detail/blake2_provider.hpp.

    [w] is the word size in bits: 64 (BLAKE2b, N = 512) or 32 (BLAKE2s, N = 256);
    N = 8 * w throughout (blake2_provider.hpp:376). *)
From Verif Require Import Base Absorb Hasher MdState Validate ConstBlake2.

(** [H[i] ^= v]. E.g. blake2_provider.hpp:79. *)
Definition b2_xor (i : nat) (v : N) (H : list N) : list N := upd i (N.lxor (nthN i H) v) H.

(** algorithm/detail/blake2_provider.hpp:47-58 uses G on distinct elements of v;
    23-33 (64-bit) and 35-45 (32-bit). *)
Definition b2_rots (w : N) : N * N * N * N :=
  if w =? 64 then (32, 24, 16, 63) else (16, 12, 8, 7).
(** blake2_provider.hpp:23-33 and 35-45 *)
Definition b2_G (w : N) (r i : nat) (ia ib ic id : nat) (M v : list N) : list N :=
  let '(r1, r2, r3, r4) := b2_rots w in
  let S := nth r blake2_S [] in
  let a := nthN ia v in
  let b := nthN ib v in
  let c := nthN ic v in
  let d := nthN id v in
  let a := addw w (addw w a b) (tbl M (nthN (2 * i) S)) in
  let d := rotr w (N.lxor d a) r1 in
  let c := addw w c d in
  let b := rotr w (N.lxor b c) r2 in
  let a := addw w (addw w a b) (tbl M (nthN (2 * i + 1) S)) in
  let d := rotr w (N.lxor d a) r3 in
  let c := addw w c d in
  let b := rotr w (N.lxor b c) r4 in
  upd id d (upd ic c (upd ib b (upd ia a v))).

(** blake2_provider.hpp:47-58 *)
Definition b2_round (w : N) (M : list N) (v : list N) (r : nat) : list N :=
  let v := b2_G w r 0 0 4 8 12 M v in
  let v := b2_G w r 1 1 5 9 13 M v in
  let v := b2_G w r 2 2 6 10 14 M v in
  let v := b2_G w r 3 3 7 11 15 M v in
  let v := b2_G w r 4 0 5 10 15 M v in
  let v := b2_G w r 5 1 6 11 12 M v in
  let v := b2_G w r 6 2 7 8 13 M v in
  b2_G w r 7 3 4 9 14 M v.

(** blake2_provider.hpp:60-73 *)
Definition b2_IV (w : N) : list N := if w =? 64 then blake2b_IV else blake2s_IV.

(** N / 4, N / 8, N / 32 and sizeof(T) in bytes. blake2_provider.hpp:376, 381, 208, 216. *)
Definition b2_bs (w : N) : nat := if w =? 64 then 128 else 64.
(** N / 8, blake2_provider.hpp:208 *)
Definition b2_hb (w : N) : nat := if w =? 64 then 64 else 32.
(** N / 32, blake2_provider.hpp:216, 224 *)
Definition b2_sb (w : N) : nat := if w =? 64 then 16 else 8.
(** sizeof(T), blake2_provider.hpp:124 *)
Definition b2_wb (w : N) : nat := if w =? 64 then 8 else 4.

(** blake2_provider.hpp:75-87 initH *)
Definition b2_initH (w fanout : N) : list N :=
  let H := b2_IV w in
  if fanout =? 0 then b2_xor 0 0x01010000 H else H.

(** blake2_provider.hpp:89-97 (32-bit) and 99-107 (64-bit) initX: [left] is
    hs - processed; [rhs] has type T; the stores truncate to T. *)
Definition b2_initX (w : N) (left : nat) (xoffset rhs : N) : list N :=
  let H := b2_IV w in
  let len := if rhs =? N.ones w then N.of_nat (b2_hb w) else N.of_nat (Nat.min left (b2_hb w)) in
  let H := b2_xor 0 len H in
  if w =? 64 then
    let H := b2_xor 0 0x0000004000000000 H in
    let H := b2_xor 1 xoffset H in
    let H := b2_xor 1 (shlw 64 rhs 32) H in
    b2_xor 2 0x4000 H
  else
    let H := b2_xor 1 0x20 H in
    let H := b2_xor 2 (trunc 32 xoffset) H in
    let H := b2_xor 3 0x20000000 H in
    b2_xor 3 (trunc 16 rhs) H.

(** blake2_provider.hpp:319-370: one block of transform. [tb] is totalbytes, [last] is
    the flag padding, [lastn] the condition of line 332. The counter words are those of
    lines 325-326. *)
Definition b2_block (w : N) (tb : N) (last lastn : bool) (H data : list N) : list N :=
  let M := le_words (b2_wb w) 16 data in
  let IV := b2_IV w in
  let t0 := trunc w tb in
  let t1 := if w =? 64 then 0 else trunc w (N.shiftr tb 32) in
  let f0 := if last then N.ones w else 0 in
  let f1 := if last && lastn then N.ones w else 0 in
  let v := H ++ [nthN 0 IV; nthN 1 IV; nthN 2 IV; nthN 3 IV;
                 N.lxor t0 (nthN 4 IV); N.lxor t1 (nthN 5 IV);
                 N.lxor f0 (nthN 6 IV); N.lxor f1 (nthN 7 IV)] in
  let v := fold_left (b2_round w M) (seq 0 (if w =? 64 then 12 else 10)) v in
  map (fun i => N.lxor (N.lxor (nthN i H) (nthN i v)) (nthN (i + 8) v)) (seq 0 8).

(** blake2_provider.hpp:317-372 transform(data, num_blks, false): for block [blk]
    totalbytes is total / 8 + (blk + 1) * N / 4. The loop of Absorb.block_loop hands
    [t] = total + blk * N * 2 modulo 2^64 to the body, so here totalbytes is
    t / 8 + N / 4. This is the same number unless the message is longer than 2^61 bytes
    (b2_transform_exact in Blake2Proof); for such messages the model is a
    simplification. *)
Definition b2_step (w : N) (H : list N) (t : N) (data : list N) : list N :=
  b2_block w (t / 8 + N.of_nat (b2_bs w)) false false H data.
(** The loop exactly as written, for comparison. blake2_provider.hpp:317-372. *)
Definition b2_transform_code (w : N) (H : list N) (total : N) (data : list N) (n : nat) : list N :=
  fold_left (fun H blk =>
    b2_block w (trunc 64 (total / 8 + N.of_nat ((blk + 1) * b2_bs w))) false false H
      (firstn (b2_bs w) (skipn (blk * b2_bs w) data))) (seq 0 n) H.
(** transform(m.data(), 1, true). blake2_provider.hpp:248, 267, 282, 317-372. *)
Definition b2_last (w : N) (lastn : bool) (H : list N) (t : N) (data : list N) : list N :=
  b2_block w (t / 8) true lastn H data.

(** blake2_provider.hpp:377-389 *)
Record b2_st := mkb2 {
  b2c : st;          (* H[8], m[N/4], pos, total *)
  b2s : list N;      (* salt, 2 words *)
  b2p : list N;      (* personalization, 2 words *)
  b2k : list N;      (* key *)
  b2hs : N;
  b2xo : N;          (* xoffset *)
  b2sq : bool;       (* squeezing *)
  b2fo : N;          (* fanout *)
  b2nd : N;          (* nodedepth *)
  b2no : N           (* nodeoffset *)
}.

(** The template parameter blake2_type.
    constants/blake2_constants.hpp:60, blake2_provider.hpp:114. *)
Inductive b2_type := BHash | BXhash | BXof.

(** blake2_provider.hpp:120-136; [g], [xo] are the uninitialised members. *)
Definition b2_ctor (w : N) (ty : b2_type) (hs : N) (g : st) (xo : N) : res b2_st :=
  _ <- match ty with
       | BHash => validate_max hs (8 * w)
       | BXhash => validate_max hs (8 * w * (w / 8) * 4 - 16)
       | BXof => Ok tt
       end ;;
  Ok (mkb2 g [0; 0] [0; 0] [] hs xo false 0 0 0).
(** blake2_provider.hpp:138-152 *)
Definition b2_ctor_static (w : N) (hs : N) (g : st) (xo : N) : res b2_st :=
  Ok (mkb2 g [0; 0] [0; 0] [] hs xo false 0 0 0).

(** H[4] ^= s[0]; H[5] ^= s[1]; H[6] ^= p[0]; H[7] ^= p[1];
    (blake2_provider.hpp:180-183 and 261-264) *)
Definition b2_xor_sp (s p H : list N) : list N :=
  b2_xor 7 (nthN 1 p) (b2_xor 6 (nthN 0 p) (b2_xor 5 (nthN 1 s) (b2_xor 4 (nthN 0 s) H))).

(** blake2_provider.hpp:200-204 *)
Definition b2_update (w : N) (s : b2_st) (data : list N) : res b2_st :=
  c <- md_update (b2_step w) (b2_bs w) (b2_bs w + 1) (b2c s) data ;;
  Ok (mkb2 c (b2s s) (b2p s) (b2k s) (b2hs s) (b2xo s) (b2sq s) (b2fo s) (b2nd s) (b2no s)).

(** blake2_provider.hpp:305-315; the local array key[N / 4] is entirely overwritten. *)
Definition b2_absorb_key (w : N) (s : b2_st) : res b2_st :=
  match b2k s with
  | [] => Ok s
  | k =>
    key <- memcpy (zeros (b2_bs w)) 0 k (length k) ;;
    n <- size_sub (b2_bs w) (length k) ;;
    key <- memset key (length k) 0 n ;;
    b2_update w s key
  end.

(** blake2_provider.hpp:166-194: the chaining value set by init. *)
Definition b2_init_H (w : N) (ty : b2_type) (hs : N) (s p : list N) (klen : nat) (fo nd no : N) : list N :=
  let H := b2_initH w fo in
  let H :=
    match ty with
    | BHash => b2_xor 0 (trunc w (hs / 8)) H
    | _ =>
      let H := b2_xor 0 w H in
      let rhs := match ty with BXof => N.shiftr (N.ones w) (w / 2) | _ => trunc w (hs / 8) end in
      if w =? 64 then b2_xor 1 (shlw 64 rhs 32) H else b2_xor 3 rhs H
    end in
  let H := b2_xor 0 (trunc w (shlw 64 (N.of_nat klen) 8)) H in
  let H := b2_xor_sp s p H in
  if fo =? 0 then H
  else
    let H := b2_xor 0 (N.lor (shlw w fo 16) (shlw w 2 24)) H in
    let H := b2_xor (if w =? 64 then 1 else 2) no H in
    if w =? 64 then b2_xor 2 (N.lor nd (shlw w 64 8)) H
    else b2_xor 3 (N.lor (shlw w nd 16) (shlw w 32 24)) H.

(** blake2_provider.hpp:159-198 *)
Definition b2_init (w : N) (ty : b2_type) (s : b2_st) : res b2_st :=
  let H := b2_init_H w ty (b2hs s) (b2s s) (b2p s) (length (b2k s)) (b2fo s) (b2nd s) (b2no s) in
  let s := mkb2 (mkst H (sm (b2c s)) 0 0) (b2s s) (b2p s) (b2k s) (b2hs s) 0 false
             (b2fo s) (b2nd s) (b2no s) in
  if (b2fo s =? 0) || (b2nd s =? 0) then b2_absorb_key w s else Ok s.

(** blake2_provider.hpp:206-212, 214-220, 222-228 behind mixin/blake2_mixin.hpp. An
    empty salt or personalization leaves the array as it is. *)
Inductive b2_param := B2Key | B2Salt | B2Pers.
(** blake2_provider.hpp:206-228 *)
Definition b2_set (w : N) (q : b2_param) (v : list N) (s : b2_st) : setres b2_st :=
  match q with
  | B2Key =>
    if (b2_hb w <? length v)%nat then Raised s
    else Done (mkb2 (b2c s) (b2s s) (b2p s) v (b2hs s) (b2xo s) (b2sq s) (b2fo s) (b2nd s) (b2no s))
  | B2Salt =>
    if negb (length v =? 0)%nat && negb (length v =? b2_sb w)%nat then Raised s
    else
      let x := match v with [] => b2s s | _ => le_words (b2_wb w) 2 v end in
      Done (mkb2 (b2c s) x (b2p s) (b2k s) (b2hs s) (b2xo s) (b2sq s) (b2fo s) (b2nd s) (b2no s))
  | B2Pers =>
    if negb (length v =? 0)%nat && negb (length v =? b2_sb w)%nat then Raised s
    else
      let x := match v with [] => b2p s | _ => le_words (b2_wb w) 2 v end in
      Done (mkb2 (b2c s) (b2s s) x (b2k s) (b2hs s) (b2xo s) (b2sq s) (b2fo s) (b2nd s) (b2no s))
  end.

(** The condition of blake2_provider.hpp:332. *)
Definition b2_lastn (s : b2_st) : bool :=
  negb (b2fo s =? 0) && ((b2no s =? b2fo s - 1) || negb (b2nd s =? 0)).

(** blake2_provider.hpp:246-248, 280-282: pad the buffer with zeros and process it. *)
Definition b2_pad (w : N) (s : b2_st) : res st :=
  let c := b2c s in
  n <- size_sub (b2_bs w) (spos c) ;;
  m <- (if (n =? 0)%nat then Ok (sm c) else memset (sm c) (spos c) 0 n) ;;
  H <- md_transform1 (b2_last w (b2_lastn s)) (b2_bs w) (sh c) m (stotal c) ;;
  Ok (mkst H m (spos c) (stotal c)).

(** blake2_provider.hpp:258-271; [fuel] bounds the number of iterations. *)
Fixpoint b2_loop (w : N) (ty : b2_type) (lastn : bool) (s p : list N) (fuel : nat) (c : st) (xo : N)
  (hs processed : nat) (out : list N) : res (st * N * list N) :=
  if (processed <? hs)%nat then
    match fuel with
    | O => Ok (c, xo, out)
    | S fuel =>
      let rhs := match ty with BXof => N.ones w | _ => trunc w (N.of_nat hs) end in
      let H := b2_xor_sp s p (b2_initX w (hs - processed) xo rhs) in
      m <- memset (sm c) (b2_hb w) 0 (length (sm c) - b2_hb w) ;;
      H <- md_transform1 (b2_last w lastn) (b2_bs w) H m (8 * w) ;;
      let pos := Nat.min (hs - processed) (b2_hb w) in
      o <- load (words_bytes (b2_wb w) H) 0 pos ;;
      b2_loop w ty lastn s p fuel (mkst H m pos (8 * w)) (trunc 64 (xo + 1)) hs (processed + pos) (out ++ o)
    end
  else Ok (c, xo, out).

(** blake2_provider.hpp:237-272 *)
Definition b2_squeeze (w : N) (ty : b2_type) (s : b2_st) (hs : nat) : res (b2_st * list N) :=
  ' (c, xo, processed, out) <-
    (if b2sq s then
       let c := b2c s in
       if (spos c <? b2_hb w)%nat then
         let to_copy := Nat.min hs (b2_hb w - spos c) in
         o <- load (words_bytes (b2_wb w) (sh c)) (spos c) to_copy ;;
         Ok (mkst (sh c) (sm c) (spos c + to_copy) (stotal c), b2xo s, to_copy, o)
       else Ok (c, b2xo s, 0%nat, [])
     else
       let c := b2c s in
       let total := match ty with
                    | BXof => trunc 64 (stotal c + N.of_nat (spos c * 8))
                    | _ => stotal c
                    end in
       c <- b2_pad w (mkb2 (mkst (sh c) (sm c) (spos c) total) (b2s s) (b2p s) (b2k s) (b2hs s)
                        0 true (b2fo s) (b2nd s) (b2no s)) ;;
       m <- memcpy (sm c) 0 (words_bytes (b2_wb w) (sh c)) (b2_hb w) ;;
       Ok (mkst (sh c) m (spos c) (stotal c), 0, 0%nat, [])) ;;
  ' (c, xo, out) <- b2_loop w ty (b2_lastn s) (b2s s) (b2p s) hs c xo hs processed out ;;
  Ok (mkb2 c (b2s s) (b2p s) (b2k s) (b2hs s) xo true (b2fo s) (b2nd s) (b2no s), out).

(** blake2_provider.hpp:274-287; [over] is hs_override. *)
Definition b2_final_over (w : N) (ty : b2_type) (over : N) (s : b2_st) : res (b2_st * list N) :=
  let c := b2c s in
  let s := mkb2 (mkst (sh c) (sm c) (spos c) (trunc 64 (stotal c + N.of_nat (spos c * 8))))
             (b2s s) (b2p s) (b2k s) (b2hs s) (b2xo s) (b2sq s) (b2fo s) (b2nd s) (b2no s) in
  let hss := if over =? 0 then b2hs s else over in
  match ty with
  | BHash =>
    c <- b2_pad w s ;;
    o <- load (words_bytes (b2_wb w) (sh c)) 0 (N.to_nat (hss / 8)) ;;
    Ok (mkb2 c (b2s s) (b2p s) (b2k s) (b2hs s) (b2xo s) (b2sq s) (b2fo s) (b2nd s) (b2no s), o)
  | _ => b2_squeeze w ty s (N.to_nat (hss / 8))
  end.
(** blake2_provider.hpp:274 with the default argument. *)
Definition b2_final (w : N) (ty : b2_type) (s : b2_st) : res (b2_st * list N) := b2_final_over w ty 0 s.

(** blake2_provider.hpp:291-295: the memory after the calls of zero_memory; s and p have two
    elements. *)
Definition b2_wipe (s : b2_st) : b2_st :=
  mkb2 (mkst (zero_memory (sh (b2c s))) (zero_memory (sm (b2c s))) (spos (b2c s)) (stotal (b2c s)))
    [0; 0] [0; 0] (zero_memory (b2k s)) (b2hs s) (b2xo s) (b2sq s) (b2fo s) (b2nd s) (b2no s).
(** blake2_provider.hpp:289-300 *)
Definition b2_clear (s : b2_st) : res b2_st :=
  let s := b2_wipe s in
  Ok (mkb2 (b2c s) (b2s s) (b2p s) [] (b2hs s) (b2xo s) (b2sq s) 0 0 0).

(** blake2_provider.hpp:114-390: the members that hasher.hpp calls. *)
Definition b2_base (w : N) (ty : b2_type) : provider :=
  {| pst := b2_st; p_init := b2_init w ty; p_update := b2_update w; p_clear := b2_clear;
     p_param := b2_param; p_set := b2_set w |}.

(** algorithm/blake2.hpp: blake2b, blake2s (BHash), blake2xb, blake2xs (BXhash) and
    blake2xb_xof, blake2xs_xof (BXof). *)
Definition blake2 (w : N) (ty : b2_type) : hash_provider :=
  {| hp := b2_base w ty; hp_final := b2_final w ty; hp_size := b2hs |}.
(** algorithm/blake2.hpp: blake2xb_xof, blake2xs_xof. *)
Definition blake2x_xof (w : N) : xof_provider :=
  {| xp := b2_base w BXof; xp_squeeze := b2_squeeze w BXof |}.
