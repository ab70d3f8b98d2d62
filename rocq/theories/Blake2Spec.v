(** * BLAKE2b, BLAKE2s (RFC 7693; parameter block and salt/personalization from the
    BLAKE2 paper, section 2) and BLAKE2X (the BLAKE2X note). Independent of the model.

    [w] is the word size, 64 for BLAKE2b and 32 for BLAKE2s. *)
From Verif Require Import Base SpecCommon HasherSpec.

(** RFC 7693 section 2.1: bytes of a word, of a block and of the hash. *)
Definition wb (w : N) : nat := N.to_nat (w / 8).
Definition bb (w : N) : nat := (16 * wb w)%nat.
Definition hb (w : N) : nat := (8 * wb w)%nat.

(** Section 2.6: the initialization vectors of SHA-512 and SHA-256. *)
Definition IV2 (w : N) : list N :=
  if w =? 64 then
    [0x6A09E667F3BCC908; 0xBB67AE8584CAA73B; 0x3C6EF372FE94F82B; 0xA54FF53A5F1D36F1;
     0x510E527FADE682D1; 0x9B05688C2B3E6C1F; 0x1F83D9ABFB41BD6B; 0x5BE0CD19137E2179]
  else
    [0x6A09E667; 0xBB67AE85; 0x3C6EF372; 0xA54FF53A; 0x510E527F; 0x9B05688C; 0x1F83D9AB; 0x5BE0CD19].

(** Section 2.7: message schedule. *)
Definition SIGMA : list (list nat) :=
  [[ 0;  1;  2;  3;  4;  5;  6;  7;  8;  9; 10; 11; 12; 13; 14; 15];
   [14; 10;  4;  8;  9; 15; 13;  6;  1; 12;  0;  2; 11;  7;  5;  3];
   [11;  8; 12;  0;  5;  2; 15; 13; 10; 14;  3;  6;  7;  1;  9;  4];
   [ 7;  9;  3;  1; 13; 12; 11; 14;  2;  6;  5; 10;  4;  0; 15;  8];
   [ 9;  0;  5;  7;  2;  4; 10; 15; 14;  1; 11; 12;  6;  8;  3; 13];
   [ 2; 12;  6; 10;  0; 11;  8;  3;  4; 13;  7;  5; 15; 14;  1;  9];
   [12;  5;  1; 15; 14; 13;  4; 10;  0;  7;  6;  3;  9;  2;  8; 11];
   [13; 11;  7; 14; 12;  1;  3;  9;  5;  0; 15;  4;  8;  6;  2; 10];
   [ 6; 15; 14;  9; 11;  3;  0;  8; 12;  2; 13;  7;  1;  4; 10;  5];
   [10;  2;  8;  4;  7;  6;  1;  5; 15; 11;  9; 14;  3; 12; 13;  0]]%nat.

(** Section 3.1: mixing function G on v[a], v[b], v[c], v[d]. *)
Definition R1 (w : N) : N := if w =? 64 then 32 else 16.
Definition R2 (w : N) : N := if w =? 64 then 24 else 12.
Definition R3 (w : N) : N := if w =? 64 then 16 else 8.
Definition R4 (w : N) : N := if w =? 64 then 63 else 7.
Definition vec := nat -> N.
Definition put (v : vec) (i : nat) (x : N) : vec := fun j => if (j =? i)%nat then x else v j.
Definition G2 (w : N) (v : vec) (q : nat * nat * nat * nat) (x y : N) : vec :=
  let '(a, b, c, d) := q in
  let v := put v a (plus_mod w (plus_mod w (v a) (v b)) x) in
  let v := put v d (ROTR w (R1 w) (N.lxor (v d) (v a))) in
  let v := put v c (plus_mod w (v c) (v d)) in
  let v := put v b (ROTR w (R2 w) (N.lxor (v b) (v c))) in
  let v := put v a (plus_mod w (plus_mod w (v a) (v b)) y) in
  let v := put v d (ROTR w (R3 w) (N.lxor (v d) (v a))) in
  let v := put v c (plus_mod w (v c) (v d)) in
  put v b (ROTR w (R4 w) (N.lxor (v b) (v c))).

(** Section 3.2: columns and diagonals, in the order of the calls. *)
Definition quads : list (nat * nat * nat * nat) :=
  [(0, 4, 8, 12); (1, 5, 9, 13); (2, 6, 10, 14); (3, 7, 11, 15);
   (0, 5, 10, 15); (1, 6, 11, 12); (2, 7, 8, 13); (3, 4, 9, 14)]%nat.
Definition round2 (w : N) (m : list N) (v : vec) (r : nat) : vec :=
  let s := nth (r mod 10) SIGMA [] in
  fold_left (fun v i => G2 w v (nth i quads (0, 0, 0, 0)%nat)
                          (nth (nth (2 * i) s 0%nat) m 0) (nth (nth (2 * i + 1) s 0%nat) m 0))
    (seq 0 8) v.

(** Section 3.2: compression function F with a 2w-bit offset counter [t], final block
    flag [f] and the last-node flag [fn] of the tree mode (BLAKE2 paper 2.4). *)
Definition F2 (w : N) (h : list N) (m : list N) (t : N) (f fn : bool) : list N :=
  let iv := IV2 w in
  let v : vec := fun i => if (i <? 8)%nat then nth i h 0 else nth (i - 8) iv 0 in
  let v := put v 12 (N.lxor (v 12%nat) (t mod 2 ^ w)) in
  let v := put v 13 (N.lxor (v 13%nat) (t / 2 ^ w)) in
  let v := if f then put v 14 (NOT w (v 14%nat)) else v in
  let v := if f && fn then put v 15 (NOT w (v 15%nat)) else v in
  let v := fold_left (round2 w m) (seq 0 (if w =? 64 then 12 else 10)) v in
  map (fun i => N.lxor (N.lxor (nth i h 0) (v i)) (v (i + 8)%nat)) (seq 0 8).

(** Section 3.3: hashing [data], which already starts with the padded key block if
    there is a key. All blocks but the last are compressed with the number of bytes up
    to and including the block, the last one (padded with zeros) with the total length.
    The code keeps this counter modulo 2^61; for data shorter than 2^61 bytes the
    reductions below have no effect. *)
Definition blocks_of (w : N) (data : list N) : nat :=
  Nat.max 1 ((length data + bb w - 1) / bb w).
Definition block_of (w : N) (data : list N) (i : nat) : list N :=
  le_words (wb w) 16 (firstn (bb w) (skipn (i * bb w) data)).
Definition ctr2 (n : nat) : N := N.of_nat n mod 2 ^ 61.
Definition blake2_core (w : N) (fn : bool) (h0 data : list N) : list N :=
  let dd := blocks_of w data in
  let padded := data ++ zeros (dd * bb w - length data) in
  let h := fold_left (fun h i => F2 w h (block_of w padded i) (ctr2 (i * bb w) + N.of_nat (bb w)) false false)
             (seq 0 (dd - 1)) h0 in
  F2 w h (block_of w padded (dd - 1)) (ctr2 (length data)) true fn.

(** BLAKE2 paper 2.5: the parameter block, byte by byte. [noff] is the node offset
    field: 8 bytes in BLAKE2b, 6 bytes in BLAKE2s. *)
Record tree := mktree { t_len : N; t_key : N; t_fanout : N; t_depth : N; t_leaf : N; t_noff : N;
  t_ndepth : N; t_inner : N }.
Definition param_block (w : N) (t : tree) (salt pers : list N) : list N :=
  [t_len t; t_key t; t_fanout t; t_depth t] ++ le_bytes 4 (t_leaf t) ++
  (if w =? 64 then le_bytes 8 (t_noff t) ++ [t_ndepth t; t_inner t] ++ zeros 14
   else le_bytes 6 (t_noff t) ++ [t_ndepth t; t_inner t]) ++
  salt ++ pers.
Definition init_h (w : N) (t : tree) (salt pers : list N) : list N :=
  map2 N.lxor (IV2 w) (le_words (wb w) 8 (param_block w t salt pers)).

(** The hash of [data] as a byte string of [hb w] bytes. *)
Definition blake2_tree (w : N) (fn : bool) (t : tree) (salt pers data : list N) : list N :=
  words_bytes (wb w) (blake2_core w fn (init_h w t salt pers) data).

(** Keys are padded to a block and put in front. *)
Definition key_pad (w : N) (key : list N) : list N :=
  match key with [] => [] | _ => key ++ zeros (bb w - length key) end.

(** Sequential mode with [nn] bytes of output. *)
Definition seq_tree (nn : N) (key : list N) (noff : N) : tree :=
  mktree nn (N.of_nat (length key)) 1 1 0 noff 0 0.
Definition blake2_hash (w nn : N) (key salt pers msg : list N) : list N :=
  firstn (N.to_nat nn) (blake2_tree w false (seq_tree nn key 0) salt pers (key_pad w key ++ msg)).

(** ** BLAKE2X: the XOF digest length [L] (2^32 - 1 resp. 2^16 - 1 if unknown in
    advance) lies right after the 4-byte node offset [i]; for the node offsets that
    BLAKE2X allows, i < 2^32, the exclusive or is the concatenation of the fields. *)
Definition xfield (w : N) (i L : N) : N := N.lxor (if w =? 64 then i else i mod 2 ^ 32) (L * 2 ^ 32).
Definition x_root (w L : N) (key salt pers msg : list N) : list N :=
  blake2_tree w false (seq_tree (N.of_nat (hb w)) key (xfield w 0 L)) salt pers (key_pad w key ++ msg).
(** B2(i, j, H0) *)
Definition x_node (w L : N) (salt pers : list N) (i : nat) (j : nat) (h0 : list N) : list N :=
  firstn j (blake2_tree w false
    (mktree (N.of_nat j) 0 0 0 (N.of_nat (hb w)) (xfield w (N.of_nat i) L) 0 (N.of_nat (hb w)))
    salt pers h0).

(** Output of [n] bytes known in advance: the last node is as long as what is missing. *)
Definition blake2x_hash (w : N) (n : nat) (key salt pers msg : list N) : list N :=
  let h0 := x_root w (N.of_nat n) key salt pers msg in
  flat_map (fun i => x_node w (N.of_nat n) salt pers i (Nat.min (hb w) (n - i * hb w)) h0)
    (seq 0 ((n + hb w - 1) / hb w)).

(** Unknown length: full nodes, truncated. *)
Definition x_unknown (w : N) : N := if w =? 64 then 2 ^ 32 - 1 else 2 ^ 16 - 1.
Definition blake2x_stream (w : N) (key salt pers msg : list N) (n : nat) : list N :=
  let h0 := x_root w (x_unknown w) key salt pers msg in
  squeeze_stream S (fun i => x_node w (x_unknown w) salt pers i (hb w) h0) (hb w) n 0%nat.

(** ** API level: key, salt and personalization. A zero-length salt or personalization
    is accepted and has no effect. *)
Record b2_params := mkb2p { pk : list N; ps : list N; pp : list N }.
Definition b2_default (w : N) : b2_params := mkb2p [] (zeros (2 * wb w)) (zeros (2 * wb w)).
Definition set_field (w : N) (v old : list N) : option (list N) :=
  if (length v =? 0)%nat then Some old
  else if (length v =? 2 * wb w)%nat then Some v else None.
