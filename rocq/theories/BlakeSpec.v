(** * BLAKE, from the submission document "SHA-3 proposal BLAKE" version 1.4, sections
    2.1-2.4. Independent of the model. The permutations and the pattern of the G
    functions are those of BLAKE2, which took them over. *)
From Verif Require Import Base SpecCommon HasherSpec Blake2Spec.

(** Tables 2.1: constants, the leading digits of pi (see C50_blake_pi). *)
Definition pi256 : list N :=
  [0x243F6A88; 0x85A308D3; 0x13198A2E; 0x03707344; 0xA4093822; 0x299F31D0; 0x082EFA98; 0xEC4E6C89;
   0x452821E6; 0x38D01377; 0xBE5466CF; 0x34E90C6C; 0xC0AC29B7; 0xC97C50DD; 0x3F84D5B5; 0xB5470917].
Definition pi512 : list N :=
  [0x243F6A8885A308D3; 0x13198A2E03707344; 0xA4093822299F31D0; 0x082EFA98EC4E6C89;
   0x452821E638D01377; 0xBE5466CF34E90C6C; 0xC0AC29B7C97C50DD; 0x3F84D5B5B5470917;
   0x9216D5D98979FB1B; 0xD1310BA698DFB5AC; 0x2FFD72DBD01ADFB7; 0xB8E1AFED6A267E96;
   0xBA7C9045F12C7F99; 0x24A19947B3916CF7; 0x0801F2E2858EFC16; 0x636920D871574E69].
Definition PI (w : N) (i : nat) : N := nth i (if w =? 64 then pi512 else pi256) 0.

(** Initial values: those of SHA-256, SHA-224, SHA-512 and SHA-384. *)
Definition blake_IV (n : N) : list N :=
  if n =? 256 then [0x6A09E667; 0xBB67AE85; 0x3C6EF372; 0xA54FF53A; 0x510E527F; 0x9B05688C; 0x1F83D9AB; 0x5BE0CD19]
  else if n =? 224 then [0xC1059ED8; 0x367CD507; 0x3070DD17; 0xF70E5939; 0xFFC00B31; 0x68581511; 0x64F98FA7; 0xBEFA4FA4]
  else if n =? 512 then
    [0x6A09E667F3BCC908; 0xBB67AE8584CAA73B; 0x3C6EF372FE94F82B; 0xA54FF53A5F1D36F1;
     0x510E527FADE682D1; 0x9B05688C2B3E6C1F; 0x1F83D9ABFB41BD6B; 0x5BE0CD19137E2179]
  else
    [0xCBBB9D5DC1059ED8; 0x629A292A367CD507; 0x9159015A3070DD17; 0x152FECD8F70E5939;
     0x67332667FFC00B31; 0x8EB44A8768581511; 0xDB0C2E0D64F98FA7; 0x47B5481DBEFA4FA4].

(** Section 2.1.2 (2.2.2): G_i(a, b, c, d) of round [r]. *)
Definition BR1 (w : N) : N := if w =? 64 then 32 else 16.
Definition BR2 (w : N) : N := if w =? 64 then 25 else 12.
Definition BR3 (w : N) : N := if w =? 64 then 16 else 8.
Definition BR4 (w : N) : N := if w =? 64 then 11 else 7.
Definition Gb (w : N) (v : vec) (q : nat * nat * nat * nat) (x y : N) : vec :=
  let '(a, b, c, d) := q in
  let v := put v a (plus_mod w (plus_mod w (v a) (v b)) x) in
  let v := put v d (ROTR w (BR1 w) (N.lxor (v d) (v a))) in
  let v := put v c (plus_mod w (v c) (v d)) in
  let v := put v b (ROTR w (BR2 w) (N.lxor (v b) (v c))) in
  let v := put v a (plus_mod w (plus_mod w (v a) (v b)) y) in
  let v := put v d (ROTR w (BR3 w) (N.lxor (v d) (v a))) in
  let v := put v c (plus_mod w (v c) (v d)) in
  put v b (ROTR w (BR4 w) (N.lxor (v b) (v c))).
Definition roundb (w : N) (m : list N) (v : vec) (r : nat) : vec :=
  let s := nth (r mod 10) SIGMA [] in
  fold_left (fun v i =>
      let j := nth (2 * i) s 0%nat in
      let k := nth (2 * i + 1) s 0%nat in
      Gb w v (nth i quads (0, 0, 0, 0)%nat) (N.lxor (nth j m 0) (PI w k)) (N.lxor (nth k m 0) (PI w j)))
    (seq 0 8) v.

(** Section 2.1.2: compress(h, m, s, t) with the 2w-bit counter [t]. *)
Definition compressb (w : N) (h s m : list N) (t : N) : list N :=
  let t0 := t mod 2 ^ w in
  let t1 := t / 2 ^ w in
  let v : vec := fun i =>
    if (i <? 8)%nat then nth i h 0
    else if (i <? 12)%nat then N.lxor (nth (i - 8) s 0) (PI w (i - 8))
    else N.lxor (if (i <? 14)%nat then t0 else t1) (PI w (i - 8)) in
  let v := fold_left (roundb w m) (seq 0 (if w =? 64 then 16 else 14)) v in
  map (fun i => N.lxor (N.lxor (N.lxor (nth i h 0) (nth (i mod 4) s 0)) (v i)) (v (i + 8)%nat)) (seq 0 8).

(** Section 2.1.3: a one bit, the least number of zero bits, the bit [last] and the length
    of the message in 64 (128) bits. For messages of whole bytes the bits before the
    length are a number of [z] bytes. *)
Definition padb (w : N) (last : N) (msg : list N) : list N :=
  let lf := (2 * wb w)%nat in
  let z := S (md_zeros (bb w) lf (length msg)) in
  msg ++ be_bytes z (2 ^ (8 * N.of_nat z - 1) + last) ++ be_bytes lf (bitlen msg mod 2 ^ 64).
(** The counter of block [i]: message bits up to and including this block, zero if it
    contains none. The code keeps it modulo 2^64. *)
Definition ctrb (w : N) (len i : nat) : N :=
  if (i * bb w <? len)%nat then (8 * N.of_nat (Nat.min len ((i + 1) * bb w))) mod 2 ^ 64 else 0.
Definition word_be (w : N) (data : list N) (i : nat) : list N :=
  be_words (wb w) 16 (firstn (bb w) (skipn (i * bb w) data)).
(** Section 2.1.3: the iterated hash, as [wb w * 8] bytes. *)
Definition blake_core (w : N) (iv s : list N) (last : N) (msg : list N) : list N :=
  let p := padb w last msg in
  fold_left (fun h i => compressb w h s (word_be w p i) (ctrb w (length msg) i)) (seq 0 (length p / bb w)) iv.
Definition blake_w (n : N) : N := if 256 <? n then 64 else 32.
(** BLAKE-n; the salt is four words. *)
Definition blake_hash (n : N) (salt msg : list N) : list N :=
  let w := blake_w n in
  let s := be_words (wb w) 4 salt in
  firstn (N.to_nat (n / 8))
    (flat_map (be_bytes (wb w)) (blake_core w (blake_IV n) s (if (n =? 256) || (n =? 512) then 1 else 0) msg)).
