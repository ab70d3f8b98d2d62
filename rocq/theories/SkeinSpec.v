(** * Skein (The Skein Hash Function Family, version 1.3). Independent of the model.

    [nw] is the number of 64-bit words of the state: 4, 8 or 16. *)
From Verif Require Import Base SpecCommon HasherSpec.

(** ** Threefish (section 3.3) *)

(** Section 3.3: number of rounds. *)
Definition tf_rounds (nw : nat) : nat := if (nw =? 16)%nat then 80 else 72.

(** Table 3: the permutations. *)
Definition tf_pi (nw : nat) : list nat :=
  if (nw =? 4)%nat then [0; 3; 2; 1]%nat
  else if (nw =? 8)%nat then [2; 1; 4; 7; 6; 5; 0; 3]%nat
  else [0; 9; 2; 13; 6; 11; 4; 15; 10; 7; 12; 3; 14; 5; 8; 1]%nat.

(** Table 4: the rotation constants R_{d mod 8, j}. *)
Definition tf_R (nw : nat) : list (list N) :=
  if (nw =? 4)%nat then
    [[14; 16]; [52; 57]; [23; 40]; [5; 37]; [25; 33]; [46; 12]; [58; 22]; [32; 32]]
  else if (nw =? 8)%nat then
    [[46; 36; 19; 37]; [33; 27; 14; 42]; [17; 49; 36; 39]; [44; 9; 54; 56];
     [39; 30; 34; 24]; [13; 50; 10; 17]; [25; 29; 39; 43]; [8; 35; 56; 22]]
  else
    [[24; 13; 8; 47; 8; 17; 22; 37]; [38; 19; 10; 55; 49; 18; 23; 52];
     [33; 4; 51; 13; 34; 41; 59; 17]; [5; 20; 48; 41; 47; 28; 16; 25];
     [41; 9; 37; 31; 12; 47; 44; 30]; [16; 34; 56; 51; 4; 53; 42; 41];
     [31; 44; 47; 46; 19; 42; 44; 25]; [9; 48; 35; 52; 23; 31; 37; 20]].

(** Section 3.3.2: the key schedule. Subkey [s] of the key words [K] and tweak words
    [t0], [t1]. *)
Definition tf_C240 : N := 0x1BD11BDAA9FC1A22.
Definition tf_key (nw : nat) (K : list N) (i : nat) : N :=
  if (i =? nw)%nat then fold_left N.lxor K tf_C240 else nth i K 0.
Definition tf_tweak (t0 t1 : N) (i : nat) : N :=
  match i with O => t0 | S O => t1 | _ => N.lxor t0 t1 end.
Definition tf_subkey (nw : nat) (K : list N) (t0 t1 : N) (s i : nat) : N :=
  let k := tf_key nw K ((s + i) mod (nw + 1)) in
  if (i =? nw - 3)%nat then plus_mod 64 k (tf_tweak t0 t1 (s mod 3))
  else if (i =? nw - 2)%nat then plus_mod 64 k (tf_tweak t0 t1 ((s + 1) mod 3))
  else if (i =? nw - 1)%nat then plus_mod 64 k (N.of_nat s)
  else k.
Definition tf_addkey (nw : nat) (K : list N) (t0 t1 : N) (s : nat) (v : list N) : list N :=
  map (fun i => plus_mod 64 (nth i v 0) (tf_subkey nw K t0 t1 s i)) (seq 0 nw).

(** Section 3.3.1: the function MIX_{d,j} on words 2j and 2j + 1. *)
Definition tf_mix (nw d j : nat) (v : list N) : list N :=
  let x0 := nth (2 * j) v 0 in
  let x1 := nth (2 * j + 1) v 0 in
  let y0 := plus_mod 64 x0 x1 in
  [y0; N.lxor (ROTL 64 (nth j (nth (d mod 8) (tf_R nw) []) 0) x1) y0].
Definition tf_permute (nw : nat) (f : list N) : list N := map (fun i => nth i f 0) (tf_pi nw).

(** Section 3.3: round [d]. A subkey is added before every fourth round and at the
    end. *)
Definition tf_round (nw : nat) (K : list N) (t0 t1 : N) (v : list N) (d : nat) : list N :=
  let e := if (d mod 4 =? 0)%nat then tf_addkey nw K t0 t1 (d / 4) v else v in
  tf_permute nw (flat_map (fun j => tf_mix nw d j e) (seq 0 (nw / 2))).
Definition threefish (nw : nat) (K : list N) (t0 t1 : N) (P : list N) : list N :=
  tf_addkey nw K t0 t1 (tf_rounds nw / 4) (fold_left (tf_round nw K t0 t1) (seq 0 (tf_rounds nw)) P).

(** ** UBI (section 3.4) *)

(** The tweak of one block: position, type, first and last bits (section 3.4.1; tree
    level and bit padding are not used). The position is taken modulo 2^64, which is
    no restriction for strings shorter than 2^64 bytes. *)
Definition ubi_tweak (ty pos : N) (first last : bool) : N :=
  pos mod 2 ^ 64 + ty * 2 ^ 120 + (if first then 2 ^ 126 else 0) + (if last then 2 ^ 127 else 0).

Definition ubi_block (nw : nat) (G : list N) (tweak : N) (block : list N) : list N :=
  let m := le_words 8 nw block in
  map2 N.lxor (threefish nw G (tweak mod 2 ^ 64) (tweak / 2 ^ 64) m) m.

(** Section 3.4.2: [M] is split into blocks of [8 * nw] bytes, the last one padded with
    zeros; the empty string gives one block. *)
Definition ubi_count (nw len : nat) : nat := Nat.max 1 ((len + 8 * nw - 1) / (8 * nw))%nat.
Definition ubi (nw : nat) (G M : list N) (ty : N) : list N :=
  let k := ubi_count nw (length M) in
  fold_left (fun H i =>
    let block := firstn (8 * nw) (skipn (i * (8 * nw)) M) in
    ubi_block nw H
      (ubi_tweak ty (N.of_nat (Nat.min (length M) ((i + 1) * (8 * nw)))) (i =? 0)%nat (i =? k - 1)%nat)
      (block ++ zeros (8 * nw - length block))) (seq 0 k) G.

(** ** Skein (section 3.5) *)

(** Table 6: types. *)
Definition T_key : N := 0.
Definition T_cfg : N := 4.
Definition T_prs : N := 8.
Definition T_non : N := 20.
Definition T_msg : N := 48.
Definition T_out : N := 63.

(** Table 7: the configuration string: schema identifier "SHA3", version 1, output
    length in bits, no tree. *)
Definition skein_config (No : N) : list N :=
  [0x53; 0x48; 0x41; 0x33; 1; 0; 0; 0] ++ le_bytes 8 No ++ zeros 16.

(** Personalization, nonce and key. An absent parameter is the empty string. *)
Record skein_params := mkskein { sk_pers : list N; sk_nonce : list N; sk_key : list N }.

(** Section 3.5.4: a UBI call for a parameter that is present. *)
Definition ubi_opt (nw : nat) (G M : list N) (ty : N) : list N :=
  match M with [] => G | _ => ubi nw G M ty end.
Definition skein_chain (nw : nat) (No : N) (p : skein_params) (msg : list N) : list N :=
  let K := match sk_key p with [] => zeros nw | k => ubi nw (zeros nw) k T_key end in
  let G := ubi nw K (skein_config No) T_cfg in
  let G := ubi_opt nw G (sk_pers p) T_prs in
  let G := ubi_opt nw G (sk_nonce p) T_non in
  ubi nw G msg T_msg.

(** Section 3.5.3: the output function, first [n] bytes. *)
Definition skein_output (nw : nat) (G : list N) (n : nat) : list N :=
  squeeze_stream S (fun i => words_bytes 8 (ubi nw G (le_bytes 8 (N.of_nat i)) T_out)) (8 * nw) n 0%nat.

Definition skein_digest (nw : nat) (No : N) (n : nat) (p : skein_params) (msg : list N) : list N :=
  skein_output nw (skein_chain nw No p msg) n.
