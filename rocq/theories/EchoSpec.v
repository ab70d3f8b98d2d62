(** * ECHO, from the submission "SHA-3 proposal: ECHO" version 1.5, section 3. Independent of
    the model.

    A 128-bit word is a list of 16 bytes, the AES state column by column: the entry in row
    [r] and column [c] is element 4c+r. *)
From Verif Require Import Base SpecCommon HasherSpec GfSpec.

(** FIPS 197, 5.1.3: the matrix of MixColumns. *)
Definition aes_mds (r j : nat) : N := nth ((j + 4 - r) mod 4) [2; 3; 1; 1] 0.
(** FIPS 197, 5.1: one round, SubBytes, ShiftRows (row [j] is rotated by [j]), MixColumns,
    AddRoundKey. *)
Definition aes_round (x k : list N) : list N :=
  map (fun n =>
    let r := (n mod 4)%nat in
    let c := (n / 4)%nat in
    N.lxor (xor_sum (fun j => gf_mul 0x11b (aes_mds r j) (aes_sbox (nth (4 * ((c + j) mod 4) + j) x 0))) 4)
      (nth n k 0)) (seq 0 16).

(** Section 3.3: the state is 16 words, a 4x4 array column by column. BIG.SubWords: two
    AES rounds with the keys kappa and SALT; kappa starts at [k] and is incremented
    after every word. *)
Definition big_sub (salt : list N) (k : N) (s : list (list N)) : list (list N) :=
  map (fun i => aes_round (aes_round (nth i s []) (le_bytes 16 ((k + N.of_nat i) mod 2 ^ 64))) salt) (seq 0 16).
(** BIG.ShiftRows: row [r] is rotated by [r]. *)
Definition big_shift (s : list (list N)) : list (list N) :=
  map (fun n => let r := (n mod 4)%nat in let c := (n / 4)%nat in nth (4 * ((c + r) mod 4) + r) s []) (seq 0 16).
(** BIG.MixColumns: the AES matrix on the bytes of the same position of the words of a
    column. *)
Definition big_mix (s : list (list N)) : list (list N) :=
  map (fun n => let r := (n mod 4)%nat in let c := (n / 4)%nat in
    map (fun b => xor_sum (fun j => gf_mul 0x11b (aes_mds r j) (nth b (nth (4 * c + j) s []) 0)) 4) (seq 0 16))
    (seq 0 16).
(** A round, with the number of subkeys used so far. *)
Definition big_round (salt : list N) (k : N) (s : list (list N)) (i : nat) : list (list N) :=
  big_mix (big_shift (big_sub salt (k + 16 * N.of_nat i) s)).

(** Parameters: bytes of a message block (1536 or 1024 bits), rounds, words of the chaining
    value. *)
Definition echo_bs (n : N) : nat := if n <=? 256 then 192 else 128.
Definition echo_rounds (n : N) : nat := if n <=? 256 then 8 else 10.
Definition echo_words (n : N) : nat := if n <=? 256 then 4 else 8.

(** Section 3.4: COMPRESS. The state is the chaining value followed by the message words;
    BIG.Final folds the state before and after the rounds. *)
Definition echo_compress (n : N) (salt : list N) (V : list (list N)) (m : list N) (C : N) : list (list N) :=
  let s := V ++ blocks 16 m in
  let w := fold_left (big_round salt C) (seq 0 (echo_rounds n)) s in
  map (fun i => map (fun b =>
      xor_sum (fun j => N.lxor (nth b (nth (i + echo_words n * j) s []) 0)
                               (nth b (nth (i + echo_words n * j) w []) 0)) (16 / echo_words n)) (seq 0 16))
    (seq 0 (echo_words n)).

(** Section 3.2: a one bit, zero bits, HSIZE in 16 bits and the message length in 128 bits. *)
Definition echo_pad (n : N) (msg : list N) : list N :=
  md_pad (echo_bs n) (le_bytes 2 n ++ le_bytes 16 (bitlen msg mod 2 ^ 64)) msg.
(** The counter of block [i]: message bits up to and including this block, zero if it
    contains none; kept modulo 2^64. *)
Definition echo_ctr (n : N) (len i : nat) : N :=
  if (i * echo_bs n <? len)%nat then (8 * N.of_nat (Nat.min len ((i + 1) * echo_bs n))) mod 2 ^ 64 else 0.
(** Section 3.1: all words of the initial value are HSIZE. *)
Definition echo_hash (n : N) (salt msg : list N) : list N :=
  let p := echo_pad n msg in
  let V := fold_left (fun V i =>
      echo_compress n salt V (firstn (echo_bs n) (skipn (i * echo_bs n) p)) (echo_ctr n (length msg) i))
    (seq 0 (length p / echo_bs n)) (repeat (le_bytes 16 n) (echo_words n)) in
  firstn (N.to_nat (n / 8)) (concat V).
