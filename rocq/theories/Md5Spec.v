(** * MD5, from RFC 1321. *)
From Coq Require Import ZArith.
From Verif Require Import Base SpecCommon HasherSpec.

(** RFC 1321 section 3.4: T[i] = floor(2^32 * abs(sin(i))), i in radians.
    sin is evaluated by its Taylor series in fixed point with 192 fractional bits
    (200 terms; |i| <= 64, so the remainder is far below 2^-160). *)
Fixpoint sin_terms (n : nat) (k i term acc : Z) : Z :=
  match n with
  | O => acc
  | S n' => sin_terms n' (k + 1)%Z i (- (term * (i * i)) / ((2 * k + 2) * (2 * k + 3)))%Z (acc + term)%Z
  end.
Definition sin_fixed (i : Z) : Z := sin_terms 200 0%Z i (Z.shiftl i 192) 0%Z.
Definition rfc_T (i : nat) : N := Z.to_N (Z.shiftr (Z.abs (sin_fixed (Z.of_nat i))) 160).
Definition rfc_Ts : list N := Eval vm_compute in map rfc_T (seq 1 64).
(** the values are those of the formula *)
Lemma rfc_Ts_formula : rfc_Ts = map rfc_T (seq 1 64).
Proof. vm_compute. reflexivity. Qed.

Local Infix "[+]" := (plus_mod 32) (at level 50, left associativity).

(** Auxiliary functions. *)
Definition rfc_F (x y z : N) : N := N.lor (N.land x y) (N.land (NOT 32 x) z).
Definition rfc_G (x y z : N) : N := N.lor (N.land x z) (N.land y (NOT 32 z)).
Definition rfc_H (x y z : N) : N := N.lxor (N.lxor x y) z.
Definition rfc_I (x y z : N) : N := N.lxor y (N.lor x (NOT 32 z)).

(** Operation number [i] (0..63): which function, which message word, which shift. *)
Definition rfc_fun (i : nat) : N -> N -> N -> N :=
  nth (i / 16)%nat [rfc_F; rfc_G; rfc_H; rfc_I] rfc_F.
Definition rfc_k (i : nat) : nat :=
  nth (i / 16)%nat [i; (5 * i + 1)%nat; (3 * i + 5)%nat; (7 * i)%nat] 0%nat mod 16.
Definition rfc_s (i : nat) : N :=
  nth (i mod 4)%nat
    (nth (i / 16)%nat [[7; 12; 17; 22]; [5; 9; 14; 20]; [4; 11; 16; 23]; [6; 10; 15; 21]] []) 0.

(** [abcd k s i]: a = b + ((a + f(b,c,d) + X[k] + T[i]) <<< s); then the roles of the
    registers rotate. *)
Definition rfc_op (X : list N) (r : N * N * N * N) (i : nat) : N * N * N * N :=
  let '(a, b, c, d) := r in
  (d, b [+] ROTL 32 (rfc_s i) (a [+] rfc_fun i b c d [+] nth (rfc_k i) X 0 [+] nth i rfc_Ts 0), b, c).

Definition rfc_md5_compress (r : N * N * N * N) (block : list N) : N * N * N * N :=
  let X := le_words 4 16 block in
  let '(a, b, c, d) := r in
  let '(a', b', c', d') := fold_left (rfc_op X) (seq 0 64) r in
  (a [+] a', b [+] b', c [+] c', d [+] d').

(** Section 3.3: A = 01 23 45 67, B = 89 ab cd ef, C = fe dc ba 98, D = 76 54 32 10
    (low-order bytes first). *)
Definition rfc_md5_iv : N * N * N * N :=
  (le_word [0x01; 0x23; 0x45; 0x67], le_word [0x89; 0xab; 0xcd; 0xef],
   le_word [0xfe; 0xdc; 0xba; 0x98], le_word [0x76; 0x54; 0x32; 0x10]).

(** Section 3.2: the low 64 bits of the bit length, low-order word first. *)
Definition rfc_md5 (msg : list N) : list N :=
  let padded := md_pad 64 (le_bytes 8 (bitlen msg mod 2 ^ 64)) msg in
  let '(a, b, c, d) := md_hash rfc_md5_compress rfc_md5_iv 64 padded in
  le_bytes 4 a ++ le_bytes 4 b ++ le_bytes 4 c ++ le_bytes 4 d.

Definition md5_spec : hash_spec Empty_set :=
  {| sp_params := unit; sp_default := tt;
     sp_set := no_params_set;
     sp_size := 16;
     sp_digest := fun _ msg => rfc_md5 msg |}.
