(** * SM3, from GB/T 32905-2016. *)
From Verif Require Import Base SpecCommon HasherSpec.

Local Infix "[+]" := (plus_mod 32) (at level 50, left associativity).
Local Infix "(+)" := N.lxor (at level 50, left associativity).

(** 4.1-4.4 *)
Definition gb_iv : list N :=
  [0x7380166f; 0x4914b2b9; 0x172442d7; 0xda8a0600; 0xa96f30bc; 0x163138aa; 0xe38dee4d; 0xb0fb0e4e].
Definition gb_T (j : nat) : N := if (j <? 16)%nat then 0x79cc4519 else 0x7a879d8a.
Definition gb_FF (j : nat) (x y z : N) : N :=
  if (j <? 16)%nat then x (+) y (+) z
  else N.lor (N.lor (N.land x y) (N.land x z)) (N.land y z).
Definition gb_GG (j : nat) (x y z : N) : N :=
  if (j <? 16)%nat then x (+) y (+) z
  else N.lor (N.land x y) (N.land (NOT 32 x) z).
Definition gb_P0 (x : N) : N := x (+) ROTL 32 9 x (+) ROTL 32 17 x.
Definition gb_P1 (x : N) : N := x (+) ROTL 32 15 x (+) ROTL 32 23 x.

(** 5.3.2 message expansion *)
Fixpoint gb_expand (n : nat) (W : list N) : list N :=
  match n with
  | O => W
  | S n' =>
    let j := length W in
    let w i := nth i W 0 in
    gb_expand n' (W ++ [gb_P1 (w (j - 16)%nat (+) w (j - 9)%nat (+) ROTL 32 15 (w (j - 3)%nat))
                        (+) ROTL 32 7 (w (j - 13)%nat) (+) w (j - 6)%nat])
  end.

(** 5.3.3 compression *)
Definition gb_round (W : list N) (r : N * N * N * N * N * N * N * N) (j : nat) :=
  let '(A, B, C, D, E, F, G, H) := r in
  let Wj := nth j W 0 in
  let Wj' := nth j W 0 (+) nth (j + 4)%nat W 0 in
  let SS1 := ROTL 32 7 (ROTL 32 12 A [+] E [+] ROTL 32 (N.of_nat j mod 32) (gb_T j)) in
  let SS2 := SS1 (+) ROTL 32 12 A in
  let TT1 := gb_FF j A B C [+] D [+] SS2 [+] Wj' in
  let TT2 := gb_GG j E F G [+] H [+] SS1 [+] Wj in
  (TT1, A, ROTL 32 9 B, C, gb_P0 TT2, E, ROTL 32 19 F, G).

Definition gb_CF (V : list N) (B : list N) : list N :=
  let W := gb_expand 52 B in
  let v i := nth i V 0 in
  let '(A, B, C, D, E, F, G, H) :=
    fold_left (gb_round W) (seq 0 64)
      (v 0%nat, v 1%nat, v 2%nat, v 3%nat, v 4%nat, v 5%nat, v 6%nat, v 7%nat) in
  [A (+) v 0%nat; B (+) v 1%nat; C (+) v 2%nat; D (+) v 3%nat;
   E (+) v 4%nat; F (+) v 5%nat; G (+) v 6%nat; H (+) v 7%nat].

(** A message block is sixteen big-endian words. *)
Definition gb_compress (V block : list N) : list N := gb_CF V (be_words 4 16 block).

(** 5.2 padding, 5.4 output; the length is taken modulo 2^64 (the standard only
    covers messages below 2^64 bits). *)
Definition gb_sm3 (msg : list N) : list N :=
  flat_map (be_bytes 4)
    (md_hash gb_compress gb_iv 64 (md_pad 64 (be_bytes 8 (bitlen msg mod 2 ^ 64)) msg)).

Definition sm3_spec : hash_spec Empty_set :=
  {| sp_params := unit; sp_default := tt; sp_set := no_params_set; sp_size := 32;
     sp_digest := fun _ msg => gb_sm3 msg |}.
