(** * KangarooTwelve, MarsupilamiFourteen and KT256 (RFC 9861, sections 2.2 and 3). *)
From Verif Require Import Base SpecCommon HasherSpec KeccakSpec Sha3Spec.

(** Section 2.2: TurboSHAKE over [nr] rounds with rate [r]: append the domain byte, pad
    with zeros to a multiple of the rate and flip the last bit. *)
Definition turbo_pad (r : nat) (D : N) (M : list N) : list N :=
  let x := M ++ [D] in
  let y := x ++ zeros ((r - length x mod r) mod r) in
  removelast y ++ [N.lxor (last y 0) 0x80].
Definition turbo (nr r : nat) (D : N) (M : list N) (n : nat) : list N := sponge nr r (turbo_pad r D M) n.

(** Section 3.3: no digits for zero. The number is taken modulo 2^64; it is the length of
    the customization string or a number of chunks. *)
Definition length_encode (x : N) : list N :=
  let x := x mod 2 ^ 64 in if x =? 0 then [0] else right_enc x.

(** Section 3.2. The [i]-th chunk of 8192 bytes; [cs] is that number. *)
Definition chunk_of (cs : nat) (S : list N) (i : nat) : list N := firstn cs (skipn (i * cs) S).

Definition kt (nr sec cs : nat) (msg cust : list N) (n : nat) : list N :=
  let r := (200 - 2 * sec)%nat in
  let S := msg ++ cust ++ length_encode (N.of_nat (length cust)) in
  if (length S <=? cs)%nat then turbo nr r 0x07 S n
  else
    let num := ((length S + cs - 1) / cs)%nat in
    let cv i := turbo nr r 0x0B (chunk_of cs S i) (2 * sec) in
    let node := chunk_of cs S 0 ++ [3; 0; 0; 0; 0; 0; 0; 0]
                ++ flat_map cv (seq 1 (num - 1))
                ++ length_encode (N.of_nat (num - 1)) ++ [0xFF; 0xFF] in
    turbo nr r 0x06 node n.

Definition kt_spec (param : Type) (nr sec : nat) : xof_spec param :=
  {| xs_params := list N; xs_default := []; xs_set := fun _ v _ => Some v;
     xs_out := fun cust msg n => kt nr sec (N.to_nat 8192) msg cust n |}.
