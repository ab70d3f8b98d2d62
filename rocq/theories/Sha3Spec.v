(** * SHA-3, SHAKE (FIPS 202) and cSHAKE, KMAC (SP 800-185) as specifications. *)
From Verif Require Import Base SpecCommon HasherSpec KeccakSpec.

Definition sha3_spec (d : nat) : hash_spec Empty_set :=
  {| sp_params := unit; sp_default := tt; sp_set := no_params_set; sp_size := d;
     sp_digest := fun _ msg => sha3_hash d msg |}.

Definition shake_spec (s : nat) : xof_spec Empty_set :=
  {| xs_params := unit; xs_default := tt; xs_set := no_params_set;
     xs_out := fun _ msg n => shake_xof s msg n |}.

(** ** SP 800-185 section 2.3 *)

(** The number of base-256 digits of [x], at least one. *)
Definition num_bytes (x : N) : nat := if x =? 0 then 1%nat else N.to_nat (N.log2 x / 8 + 1).
Definition left_enc (x : N) : list N := N.of_nat (num_bytes x) :: be_bytes (num_bytes x) x.
Definition right_enc (x : N) : list N := be_bytes (num_bytes x) x ++ [N.of_nat (num_bytes x)].

(** 2.3.2. The length is taken modulo 2^64 as for the other algorithms; strings of up to
    2^61 - 1 bytes are not affected. *)
Definition encode_string (S : list N) : list N := left_enc (bitlen S mod 2 ^ 64) ++ S.

(** 2.3.3 *)
Definition bytepad (X : list N) (w : nat) : list N :=
  let z := left_enc (N.of_nat w) ++ X in
  z ++ zeros ((w - length z mod w) mod w).

(** ** Section 3: cSHAKE, [s] is the security strength in bytes *)
Definition cshake_header (s : nat) (fn cust : list N) : list N :=
  bytepad (encode_string fn ++ encode_string cust) (200 - 2 * s).
Definition cshake_xof (s : nat) (fn cust msg : list N) (n : nat) : list N :=
  match fn, cust with
  | [], [] => shake_xof s msg n
  | _, _ => keccak_c (200 - 2 * s) [false; false] (cshake_header s fn cust ++ msg) n
  end.

(** ** Section 4: KMAC and KMACXOF *)
Definition KMAC_name : list N := [75; 77; 65; 67].
Definition kmac_input (s : nat) (key msg : list N) (L : N) : list N :=
  bytepad (encode_string key) (200 - 2 * s) ++ msg ++ right_enc L.
Definition kmac_xof (s : nat) (key cust msg : list N) (L : N) (n : nat) : list N :=
  cshake_xof s KMAC_name cust (kmac_input s key msg L) n.
