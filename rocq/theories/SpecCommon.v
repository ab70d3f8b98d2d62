(** * Notions shared by the specifications of the standards.

    Written with arithmetic (mod, div) on [N]; independent of the model. The byte
    order functions [le_word], [be_word], [le_bytes], [be_bytes] of Base are the only
    shared vocabulary. *)
From Verif Require Import Base.

(** Addition modulo 2^w. *)
Definition plus_mod (w x y : N) : N := (x + y) mod 2 ^ w.

(** Circular shifts of a [w]-bit word, as defined in FIPS 180-4 section 3.2. *)
Definition SHR (n x : N) : N := x / 2 ^ n.
Definition ROTL (w n x : N) : N := N.lor ((x * 2 ^ n) mod 2 ^ w) (x / 2 ^ (w - n)).
Definition ROTR (w n x : N) : N := N.lor (x / 2 ^ n) ((x * 2 ^ (w - n)) mod 2 ^ w).

(** Bitwise complement of a [w]-bit word. *)
Definition NOT (w x : N) : N := N.lnot x w.

(** Split into [n] consecutive blocks of [bs] bytes. *)
Fixpoint blocks_n (n bs : nat) (data : list N) : list (list N) :=
  match n with
  | O => []
  | S n' => firstn bs data :: blocks_n n' bs (skipn bs data)
  end.
Definition blocks (bs : nat) (data : list N) : list (list N) :=
  blocks_n (length data / bs) bs data.

(** Merkle-Damgaard strengthening on byte strings: a one bit (byte 0x80), the least
    number of zero bytes that makes room for the length field [lenf] at the end of a
    block of [bs] bytes, and the length field. *)
Definition md_zeros (bs lf len : nat) : nat := ((bs - (len + 1 + lf) mod bs) mod bs)%nat.
Definition md_pad (bs : nat) (lenf : list N) (msg : list N) : list N :=
  msg ++ [128] ++ zeros (md_zeros bs (length lenf) (length msg)) ++ lenf.

(** Bit length of a byte string. *)
Definition bitlen (msg : list N) : N := 8 * N.of_nat (length msg).

(** Iterated compression. *)
Definition md_hash {A} (compress : A -> list N -> A) (iv : A) (bs : nat) (padded : list N) : A :=
  fold_left compress (blocks bs padded) iv.

(** Output of a sponge: [r] bytes of every state in turn, truncated to [n] bytes. *)
Fixpoint squeeze_blocks {C} (next : C -> C) (emit : C -> list N) (r k : nat) (c : C) : list N :=
  match k with
  | O => []
  | S k' => firstn r (emit c) ++ squeeze_blocks next emit r k' (next c)
  end.
Definition squeeze_stream {C} (next : C -> C) (emit : C -> list N) (r n : nat) (c : C) : list N :=
  firstn n (squeeze_blocks next emit r (n / r + 1) c).
