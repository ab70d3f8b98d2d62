(** * AES-256, from FIPS 197 (used to check a published constant). Independent of the model.

    A block is a list of 16 bytes, the AES state column by column. *)
From Verif Require Import Base SpecCommon GfSpec EchoSpec.

(** 5.2: key expansion for Nk = 8; a word is a list of four bytes. *)
Definition rot_word (w : list N) : list N := skipn 1 w ++ firstn 1 w.
Definition sub_word (w : list N) : list N := map aes_sbox w.
Definition rcon (i : nat) : list N := [Nat.iter (i - 1) (xtime 0x11b) 1; 0; 0; 0].
Fixpoint expand256 (n : nat) (W : list (list N)) : list (list N) :=
  match n with
  | O => W
  | S n' =>
    let i := length W in
    let t := nth (i - 1) W [] in
    let t := if (i mod 8 =? 0)%nat then map2 N.lxor (sub_word (rot_word t)) (rcon (i / 8))
             else if (i mod 8 =? 4)%nat then sub_word t else t in
    expand256 n' (W ++ [map2 N.lxor (nth (i - 8) W []) t])
  end.
Definition key_schedule256 (key : list N) : list (list N) := expand256 52 (blocks 4 key).
Definition round_key (W : list (list N)) (r : nat) : list N := concat (firstn 4 (skipn (4 * r) W)).

(** 5.1: the cipher. [aes_round] is SubBytes, ShiftRows, MixColumns and AddRoundKey; the last
    round omits MixColumns. *)
Definition aes_last (x k : list N) : list N :=
  map (fun n => let r := (n mod 4)%nat in let c := (n / 4)%nat in
    N.lxor (aes_sbox (nth (4 * ((c + r) mod 4) + r) x 0)) (nth n k 0)) (seq 0 16).
Definition aes256 (key block : list N) : list N :=
  let W := key_schedule256 key in
  let x := map2 N.lxor block (round_key W 0) in
  aes_last (fold_left (fun x r => aes_round x (round_key W r)) (seq 1 13) x) (round_key W 14).

(** FIPS 197, appendix C.3. *)
Example aes256_vector :
  aes256 (map N.of_nat (seq 0 32))
    [0x00; 0x11; 0x22; 0x33; 0x44; 0x55; 0x66; 0x77; 0x88; 0x99; 0xaa; 0xbb; 0xcc; 0xdd; 0xee; 0xff] =
  [0x8e; 0xa2; 0xb7; 0xca; 0x51; 0x67; 0x45; 0xbf; 0xea; 0xfc; 0x49; 0x90; 0x4b; 0x49; 0x60; 0x89].
Proof. vm_compute. reflexivity. Qed.
