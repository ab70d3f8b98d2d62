(** * Element types of the buffers, strings, streams and iterators of the caller.

    The other files pass bytes. Here the arguments have C++ element types: values are
    integers in the range of the type, [None] is a call that does not compile. *)
From Coq Require Import ZArith.
From Verif Require Import Base Hasher.
Local Open Scope N_scope.

(** Element types: the ones of detail/traits.hpp:22-31, and the integer types that an iterator
    can have as well (hasher.hpp:181-190). *)
Inductive ety :=
| TChar | TSChar | TUChar
| TStdByte                            (* std::byte, C++17 *)
| TInt (bits : positive) (signed : bool).
(** [std::is_same], traits.hpp:24-30 *)
Definition ety_eqb (a b : ety) : bool :=
  match a, b with
  | TChar, TChar | TSChar, TSChar | TUChar, TUChar | TStdByte, TStdByte => true
  | TInt n s, TInt m t => (Pos.eqb n m && Bool.eqb s t)%bool
  | _, _ => false
  end.
(** traits.hpp:22-31 *)
Definition is_byte (E : ety) : bool :=
  ety_eqb E TChar || ety_eqb E TSChar || ety_eqb E TStdByte || ety_eqb E TUChar.

Section Elements.
  (** Whether char is signed, a property of the platform; no code of /repo. *)
  Variable char_signed : bool.

  (** Width in bits and signedness of the types of traits.hpp:22-31. *)
  Definition shape (E : ety) : positive * bool :=
    match E with
    | TChar => (8%positive, char_signed)
    | TSChar => (8%positive, true)
    | TUChar | TStdByte => (8%positive, false)
    | TInt n s => (n, s)
    end.
  (** Conversion of an integer to a type (two's complement), hasher.hpp:186 and
      std::copy at hasher.hpp:274, 354. *)
  Definition convert (E : ety) (v : Z) : Z :=
    let (n, s) := shape E in
    let m := (v mod 2 ^ Zpos n)%Z in
    if (s && (2 ^ (Zpos n - 1) <=? m)%Z)%bool then (m - 2 ^ Zpos n)%Z else m.
  (** Values of the type. Specification; no code of /repo. *)
  Definition in_type (E : ety) (v : Z) : Prop := convert E v = v.

  (** Implicit conversion between element types exists: not from or to std::byte
      (hasher.hpp:186, 274, 354). *)
  Definition converts (a b : ety) : bool :=
    ety_eqb a b || negb (ety_eqb a TStdByte) && negb (ety_eqb b TStdByte).
  (** Implicit conversion of [a*] to [b*], hasher.hpp:330. *)
  Definition ptr_converts (a b : ety) : bool := ety_eqb a b.
  (** The byte that an unsigned char pointer to an element of a one-byte type reads,
      hasher.hpp:88, 120, 137. *)
  Definition punned (v : Z) : N := Z.to_N (convert TUChar v).
  (** The value of an element of type [E] after a byte was stored through an unsigned char
      pointer to it, hasher.hpp:208. *)
  Definition stored (E : ety) (b : N) : Z := convert E (Z.of_N b).

  (** ** Arguments *)
  (** hasher.hpp:85-166: pointers, arrays, strings and streams of a byte type;
      hasher.hpp:181-190: iterators, [unsigned char byte = *begin++]. *)
  Definition absorb_of (f : form) (E : ety) (vs : list Z) : option (list N) :=
    match f with
    | FIter => if converts E TUChar then Some (map (fun v => Z.to_N (convert TUChar v)) vs) else None
    | _ => if is_byte E then Some (map punned vs) else None
    end.
  (** algorithm/mixin/*.hpp, the overloads with a pointer and a length, e.g. kmac_mixin.hpp:43-47. *)
  Definition set_of (E : ety) (vs : list Z) : option (list N) :=
    if is_byte E then Some (map punned vs) else None.

  (** ** Results, for a call that returns the bytes [out] *)
  (** hasher.hpp:322-331: [copy.final(buf)], where final takes unsigned char*. *)
  Definition digest_buf_to (E : ety) (out : list N) : option (list Z) :=
    if is_byte E && ptr_converts E TUChar then Some (map (stored E) out) else None.
  (** hasher.hpp:204-209, 222-227, 240-245: with a reinterpret_cast. *)
  Definition squeeze_buf_to (E : ety) (out : list N) : option (list Z) :=
    if is_byte E then Some (map (stored E) out) else None.
  (** hasher.hpp:270-275, 348-355: std::copy of unsigned char to elements of type [E]. *)
  Definition copied_to (E : ety) (out : list N) : option (list Z) :=
    if converts TUChar E then Some (map (fun b => convert E (Z.of_N b)) out) else None.
End Elements.
