(** * Functions that share a permutation or compression function (C55).

    The Keccak functions with 24 rounds as one family, and their input blocks as they are
    added to the whole state: functions with different rates can be compared too. Written
    with the vocabulary of the specifications, independent of the model. *)
From Verif Require Import Base SpecCommon KeccakSpec Sha3Spec Inputs.

(** A block extended with zeros to the 200 bytes of the state. *)
Definition to_state (b : list N) : list N := b ++ zeros (200 - length b).
(** Adding such a block to the state and permuting it. *)
Definition absorb_state (nr : nat) (S blk : list N) : list N := keccak_p nr (map2 N.lxor S (le_words 8 25 blk)).

(** Digest size in bits for SHA-3; security strength in bytes for the others; for KMAC the
    requested output length in bits, 0 for KMACXOF. *)
Inductive keccak_fn :=
| FSha3 (hs : N)
| FShake (sec : nat)
| FCshake (sec : nat) (name cust : list N)
| FKmac (sec : nat) (L : N) (key cust : list N).
Definition kf_rate (f : keccak_fn) : nat :=
  match f with FSha3 hs => 200 - 2 * N.to_nat (hs / 8) | FShake sec | FCshake sec _ _ | FKmac sec _ _ _ => 200 - 2 * sec end.
Definition kf_inputs (f : keccak_fn) (m : list N) : list (list N) :=
  match f with
  | FSha3 hs => keccak_inputs (kf_rate f) [false; true] m
  | FShake sec => keccak_inputs (kf_rate f) [true; true; true; true] m
  | FCshake sec name cust => cshake_inputs code_bytepad sec (name, cust) m
  | FKmac sec L key cust => kmac_inputs code_bytepad sec L (key, cust) m
  end.
(** cSHAKE with empty name and customization is SHAKE, and the name "KMAC" belongs to KMAC. *)
Definition kf_ok (f : keccak_fn) : Prop :=
  match f with
  | FSha3 hs => In hs [224; 256; 384; 512]
  | FShake sec => sec = 16%nat \/ sec = 32%nat
  | FCshake sec name cust => (sec = 16%nat \/ sec = 32%nat) /\ short name /\ short cust /\ (name, cust) <> ([], []) /\ name <> KMAC_name
  | FKmac sec L key cust => (sec = 16%nat \/ sec = 32%nat) /\ L < 2 ^ 64 /\ short key /\ short cust
  end.
