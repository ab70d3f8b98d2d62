(** * Model of algorithm/detail/blake_provider.hpp.

    The word size [w] is 64 if hs > 256 and 32 otherwise. Of the union u
    (blake_provider.hpp:299) only the member selected by hs is modelled; line 284 and the
    constructors zero the larger member, which covers both. *)
From Verif Require Import Base Absorb Hasher MdState Validate ConstBlake.

(** Which member of the union is used; sizeof(T) and block_bytes() (blake_provider.hpp:289). *)
Definition bl_w (hs : N) : N := if 256 <? hs then 64 else 32.
(** sizeof(T), blake_provider.hpp:119 *)
Definition bl_wb (w : N) : nat := if w =? 64 then 8 else 4.
(** block_bytes(), blake_provider.hpp:289 *)
Definition bl_bs (w : N) : nat := if w =? 64 then 128 else 64.

(** blake_provider.hpp:63-76 *)
Definition bl_C (w : N) (t : N) : N := if w =? 64 then tbl blake_c512 t else tbl blake_c t.
(** detail/functions.hpp:22-41: the overload for T, called at blake_provider.hpp:85, 141. *)
Definition bl_swap (w : N) (x : N) : N := if w =? 64 then byteswap64 x else byteswap32 x.

(** blake_provider.hpp:22-34 (32 bits) and 36-48 (64 bits); the arguments are distinct
    elements of v. *)
Definition bl_rots (w : N) : N * N * N * N :=
  if w =? 64 then (32, 25, 16, 11) else (16, 12, 8, 7).
(** blake_provider.hpp:22-34 and 36-48 *)
Definition bl_G (w : N) (r i : nat) (ia ib ic id : nat) (M v : list N) : list N :=
  let '(r1, r2, r3, r4) := bl_rots w in
  let S := nth (r mod 10) blake_S [] in
  let a := nthN ia v in
  let b := nthN ib v in
  let c := nthN ic v in
  let d := nthN id v in
  let a := addw w (addw w a b) (N.lxor (tbl M (nthN (2 * i) S)) (bl_C w (nthN (2 * i + 1) S))) in
  let d := rotr w (N.lxor d a) r1 in
  let c := addw w c d in
  let b := rotr w (N.lxor b c) r2 in
  let a := addw w (addw w a b) (N.lxor (tbl M (nthN (2 * i + 1) S)) (bl_C w (nthN (2 * i) S))) in
  let d := rotr w (N.lxor d a) r3 in
  let c := addw w c d in
  let b := rotr w (N.lxor b c) r4 in
  upd id d (upd ic c (upd ib b (upd ia a v))).

(** blake_provider.hpp:50-61 *)
Definition bl_round (w : N) (M : list N) (v : list N) (r : nat) : list N :=
  let v := bl_G w r 0 0 4 8 12 M v in
  let v := bl_G w r 1 1 5 9 13 M v in
  let v := bl_G w r 2 2 6 10 14 M v in
  let v := bl_G w r 3 3 7 11 15 M v in
  let v := bl_G w r 4 0 5 10 15 M v in
  let v := bl_G w r 5 1 6 11 12 M v in
  let v := bl_G w r 6 2 7 8 13 M v in
  bl_G w r 7 3 4 9 14 M v.

(** blake_provider.hpp:81-133: one block of transform. [tb] is totalbytes. The stores to
    H[0..7] of lines 125-132 only read H[8..11] and the own element. *)
Definition bl_block (w : N) (padding : bool) (tb : N) (H data : list N) : list N :=
  let M := map (bl_swap w) (le_words (bl_wb w) 16 data) in
  let t0 := if padding then 0 else trunc w tb in
  let t1 := if padding then 0 else if w =? 64 then 0 else trunc w (N.shiftr tb 32) in
  let v := firstn 8 H ++
    [N.lxor (nthN 8 H) (bl_C w 0); N.lxor (nthN 9 H) (bl_C w 1);
     N.lxor (nthN 10 H) (bl_C w 2); N.lxor (nthN 11 H) (bl_C w 3);
     N.lxor t0 (bl_C w 4); N.lxor t0 (bl_C w 5); N.lxor t1 (bl_C w 6); N.lxor t1 (bl_C w 7)] in
  let v := fold_left (bl_round w M) (seq 0 (if w =? 64 then 16 else 14)) v in
  map (fun i => N.lxor (N.lxor (N.lxor (nthN i H) (nthN (8 + i mod 4) H)) (nthN i v)) (nthN (i + 8) v)) (seq 0 8)
  ++ skipn 8 H.

(** transform(data, n, false, false): totalbytes is total + (blk + 1) * sizeof(M) * 8
    modulo 2^64. blake_provider.hpp:81-133. *)
Definition bl_step (w : N) (H : list N) (t : N) (data : list N) : list N :=
  bl_block w false (trunc 64 (t + N.of_nat (bl_bs w * 8))) H data.
(** The loop exactly as written, for comparison. blake_provider.hpp:81-133. *)
Definition bl_transform_code (w : N) (H : list N) (total : N) (data : list N) (n : nat) : list N :=
  fold_left (fun H blk =>
    bl_block w false (trunc 64 (total + N.of_nat ((blk + 1) * bl_bs w * 8))) H
      (firstn (bl_bs w) (skipn (blk * bl_bs w) data))) (seq 0 n) H.
(** transform(m.data(), 1, padding, true). blake_provider.hpp:252, 265, 81-133. *)
Definition bl_transform1 (w : N) (padding : bool) (H m : list N) (total : N) : res (list N) :=
  blk <- load m 0 (bl_bs w) ;;
  Ok (bl_block w padding total H blk).

(** blake_provider.hpp:299-303; [bls] holds H (12 words, the last four are the salt),
    m[128], pos and total. *)
Record bl_st := mkbl { bls : st; blhs : N }.

(** blake_provider.hpp:153-159; [g] is the memory of the object. *)
Definition bl_ctor (hs : N) (g : st) : res bl_st :=
  _ <- validate_list hs [224; 256; 384; 512] ;;
  Ok (mkbl (mkst (zeros 12) (sm g) (spos g) (stotal g)) hs).
(** blake_provider.hpp:161-167 *)
Definition bl_ctor_static (hs : N) (g : st) : res bl_st :=
  Ok (mkbl (mkst (zeros 12) (sm g) (spos g) (stotal g)) hs).

(** blake_provider.hpp:179-221: the values assigned to H[0..7]; no assignment for other
    sizes. *)
Definition bl_iv (hs : N) : option (list N) :=
  if hs =? 512 then
    Some [0x6A09E667F3BCC908; 0xBB67AE8584CAA73B; 0x3C6EF372FE94F82B; 0xA54FF53A5F1D36F1;
          0x510E527FADE682D1; 0x9B05688C2B3E6C1F; 0x1F83D9ABFB41BD6B; 0x5BE0CD19137E2179]
  else if hs =? 384 then
    Some [0xcbbb9d5dc1059ed8; 0x629a292a367cd507; 0x9159015a3070dd17; 0x152fecd8f70e5939;
          0x67332667ffc00b31; 0x8eb44a8768581511; 0xdb0c2e0d64f98fa7; 0x47b5481dbefa4fa4]
  else if hs =? 256 then
    Some [0x6a09e667; 0xbb67ae85; 0x3c6ef372; 0xa54ff53a; 0x510e527f; 0x9b05688c; 0x1f83d9ab; 0x5be0cd19]
  else if hs =? 224 then
    Some [0xC1059ED8; 0x367CD507; 0x3070DD17; 0xF70E5939; 0xFFC00B31; 0x68581511; 0x64F98FA7; 0xBEFA4FA4]
  else None.
(** blake_provider.hpp:174-222 *)
Definition bl_init (s : bl_st) : res bl_st :=
  let H := match bl_iv (blhs s) with Some iv => iv ++ skipn 8 (sh (bls s)) | None => sh (bls s) end in
  Ok (mkbl (mkst H (sm (bls s)) 0 0) (blhs s)).

(** blake_provider.hpp:224-228 *)
Definition bl_update (s : bl_st) (data : list N) : res bl_st :=
  let w := bl_w (blhs s) in
  x <- md_update (bl_step w) (bl_bs w) (bl_bs w) (bls s) data ;; Ok (mkbl x (blhs s)).

(** algorithm/mixin/blake_mixin.hpp:32-54 *)
Inductive bl_param := BlSalt.
(** blake_provider.hpp:230-239 and 136-144 *)
Definition bl_set (q : bl_param) (v : list N) (s : bl_st) : setres bl_st :=
  let hs := blhs s in
  let n := length v in
  if negb (n =? 0)%nat && ((256 <? hs) && negb (n =? 32)%nat || (hs <=? 256) && negb (n =? 16)%nat) then Raised s
  else
    let w := bl_w hs in
    let salt := if (n =? 0)%nat then zeros 4 else map (bl_swap w) (le_words (bl_wb w) 4 v) in
    let x := bls s in
    Done (mkbl (mkst (firstn 8 (sh x) ++ salt) (sm x) (spos x) (stotal x)) hs).

(** blake_provider.hpp:241-278 *)
Definition bl_final (s : bl_st) : res (bl_st * list N) :=
  let hs := blhs s in
  let w := bl_w hs in
  let bs := bl_bs w in
  let x := bls s in
  let messageend := (if (256 <? hs)%N then 111 else 55)%nat in
  let truncated := negb (hs =? 512) && negb (hs =? 256) in
  let padding := (spos x =? 0)%nat in
  let total := trunc 64 (stotal x + N.of_nat (8 * spos x)) in
  m <- store (sm x) (spos x) (if (spos x =? messageend)%nat && negb truncated then 0x81 else 0x80) ;;
  let pos := (spos x + 1)%nat in
  ' (H, m, pos, padding) <-
    (if (messageend <? spos x)%nat then
       m <- (if negb (bs =? pos)%nat then k <- size_sub bs pos ;; memset m pos 0 k else Ok m) ;;
       H <- bl_transform1 w false (sh x) m total ;;
       Ok (H, m, 0%nat, true)
     else Ok (sh x, m, pos, padding)) ;;
  m <- (if (pos <=? messageend)%nat then
          k <- size_sub messageend pos ;;
          m <- memset m pos 0 k ;;
          store m messageend (if truncated then 0 else 1)
        else Ok m) ;;
  let mlen := byteswap64 total in
  m <- (if (bs =? 128)%nat then memset m (128 - 16) 0 8 else Ok m) ;;
  m <- memcpy m (bs - 8) (le_bytes 8 mlen) 8 ;;
  H <- bl_transform1 w padding H m total ;;
  let H := map (bl_swap w) (firstn 8 H) ++ skipn 8 H in
  h <- load (words_bytes (bl_wb w) H) 0 (N.to_nat (hs / 8)) ;;
  Ok (mkbl (mkst H m pos total) hs, h).

(** blake_provider.hpp:280-284 *)
Definition bl_clear (s : bl_st) : res bl_st :=
  let x := bls s in
  Ok (mkbl (mkst (zero_memory (sh x)) (zero_memory (sm x)) (spos x) (stotal x)) (blhs s)).

(** algorithm/blake.hpp:58, 102 *)
Definition blake : hash_provider :=
  {| hp := {| pst := bl_st; p_init := bl_init; p_update := bl_update; p_clear := bl_clear;
              p_param := bl_param; p_set := bl_set |};
     hp_final := bl_final; hp_size := blhs |}.
