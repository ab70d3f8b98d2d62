(** * NIST SP 800-232: Ascon-Hash256, Ascon-XOF128 and Ascon-CXOF128.

    Written from the standard: the state is five 64-bit words, the S-box is its lookup
    table applied to the 64 columns. Independent of the model. *)
From Verif Require Import Base SpecCommon HasherSpec Ascon.

(** The word whose bit [j] is [f j], for [j < w]. *)
Fixpoint bits_word (w : nat) (f : nat -> bool) : N :=
  match w with
  | O => 0
  | S w' => bits_word w' f + (if f w' then 2 ^ N.of_nat w' else 0)
  end.

(** Section 3.2, table 5: the constants of the 16 rounds. *)
Definition ascon_consts : list N :=
  [0x3c; 0x2d; 0x1e; 0x0f; 0xf0; 0xe1; 0xd2; 0xc3; 0xb4; 0xa5; 0x96; 0x87; 0x78; 0x69; 0x5a; 0x4b].

(** Section 3.3, table 6: the S-box. *)
Definition ascon_sbox : list N :=
  [0x04; 0x0b; 0x1f; 0x14; 0x1a; 0x15; 0x09; 0x02; 0x1b; 0x05; 0x08; 0x12; 0x1d; 0x03; 0x06; 0x1c;
   0x1e; 0x13; 0x07; 0x0e; 0x00; 0x0d; 0x11; 0x18; 0x10; 0x0c; 0x01; 0x19; 0x16; 0x0a; 0x0f; 0x17].

(** Column [j]: the word S0 holds the most significant bit. *)
Definition column (S : list N) (j : nat) : N :=
  fold_left (fun v i => 2 * v + (if N.testbit (nth i S 0) (N.of_nat j) then 1 else 0)) (seq 0 5) 0.
Definition sub_layer (S : list N) : list N :=
  map (fun i => bits_word 64 (fun j => N.testbit (nth (N.to_nat (column S j)) ascon_sbox 0) (4 - N.of_nat i)))
    (seq 0 5).

(** Section 3.4 *)
Definition lin_rot : list (N * N) := [(19, 28); (61, 39); (1, 6); (10, 17); (7, 41)].
Definition lin_layer (S : list N) : list N :=
  map2 (fun x r => N.lxor (N.lxor x (ROTR 64 (fst r) x)) (ROTR 64 (snd r) x)) S lin_rot.

(** Section 3.2: the constant is added to S2. *)
Definition add_const (c : N) (S : list N) : list N :=
  map (fun i => if (i =? 2)%nat then N.lxor (nth i S 0) c else nth i S 0) (seq 0 5).

(** Ascon-p[rnd]: round i uses constant 16 - rnd + i. *)
Definition ascon_p (rnd : nat) (S : list N) : list N :=
  fold_left (fun S i => lin_layer (sub_layer (add_const (nth (16 - rnd + i) ascon_consts 0) S))) (seq 0 rnd) S.

(** Section 5: the initial states are Ascon-p[12](IV || 0^256). *)
Definition ascon_iv_word (ty : ascon_type) : N :=
  match ty with
  | AHash => 0x0000080100cc0002
  | AXof => 0x0000080000cc0003
  | ACxof => 0x0000080000cc0004
  end.
Definition ascon_start (ty : ascon_type) : list N := ascon_p 12 [ascon_iv_word ty; 0; 0; 0; 0].

(** Absorb one 64-bit block. *)
Definition ascon_absorb (S : list N) (block : list N) : list N :=
  ascon_p 12 (map (fun i => if (i =? 0)%nat then N.lxor (nth i S 0) (le_word block) else nth i S 0) (seq 0 5)).

(** pad(X, 64): a one bit (byte 01) and the least number of zeros. *)
Definition ascon_pad_bytes (X : list N) : list N := X ++ [1] ++ zeros (7 - length X mod 8).

(** Absorb the blocks and squeeze [n] bytes. *)
Definition ascon_sponge (S : list N) (X : list N) (n : nat) : list N :=
  squeeze_stream (ascon_p 12) (words_bytes 8) 8 n (fold_left ascon_absorb (blocks 8 X) S).

(** Ascon-Hash256(M) and Ascon-XOF128(M, 8n). *)
Definition std_ascon_hash (M : list N) : list N := ascon_sponge (ascon_start AHash) (ascon_pad_bytes M) 32.
Definition std_ascon_xof (M : list N) (n : nat) : list N := ascon_sponge (ascon_start AXof) (ascon_pad_bytes M) n.

(** Ascon-CXOF128(M, 8n, Z): Z0 = |Z| in bits as a 64-bit block, then pad(Z), then pad(M). *)
Definition ascon_custom (Z : list N) : list N := le_bytes 8 (bitlen Z mod 2 ^ 64) ++ ascon_pad_bytes Z.
Definition std_ascon_cxof (Z M : list N) (n : nat) : list N :=
  ascon_sponge (ascon_start ACxof) (ascon_custom Z ++ ascon_pad_bytes M) n.

Definition ascon_hash_spec : hash_spec Empty_set :=
  {| sp_params := unit; sp_default := tt; sp_set := fun _ _ _ => None; sp_size := 32;
     sp_digest := fun _ M => std_ascon_hash M |}.
Definition ascon_xof_spec : xof_spec Empty_set :=
  {| xs_params := unit; xs_default := tt; xs_set := fun _ _ _ => None;
     xs_out := fun _ M n => std_ascon_xof M n |}.
Definition ascon_cxof_spec : xof_spec ascon_param :=
  {| xs_params := list N; xs_default := []; xs_set := fun _ v _ => Some v;
     xs_out := fun Z M n => std_ascon_cxof Z M n |}.
