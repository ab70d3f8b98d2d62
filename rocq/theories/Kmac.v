(** * Model of algorithm/detail/kmac_provider.hpp. *)
From Verif Require Import Base Absorb Hasher MdState Keccak Squeeze Sha3 Shake Validate.

(** kmac_provider.hpp:18-32; buf[32] holds at most 9 bytes. *)
Definition kmac_bytepad (B : N) (str : list N) : list N :=
  let pad := if B =? 128 then 168%nat else 136%nat in
  let res := left_encode (N.of_nat pad) in
  let res := res ++ left_encode (trunc 64 (N.of_nat (length str) * 8)) in
  let res := res ++ str in
  let delta := (pad - length res mod pad)%nat in
  if negb (delta =? 0)%nat && negb (delta =? pad)%nat then res ++ zeros delta else res.

(** kmac_provider.hpp:123-127 *)
Record kmac_st := mkkm { kmK : list N; kmhs : N; kmsq : bool; kmsh : shake_st }.

(** kmac_provider.hpp:43-49: run-time size; [sh] is the newly constructed inner object
    and [sq] the uninitialised flag. SIZE_MAX is 2^64 - 1. *)
Definition kmac_ctor (B hs : N) (sq : bool) (sh : shake_st) : res kmac_st :=
  _ <- validate_max hs (N.ones 64) ;;
  Ok (mkkm (kmac_bytepad B []) hs sq sh).
(** kmac_provider.hpp:51-57 (static size) and 59-64 (XOF, hs = 0). *)
Definition kmac_ctor_static (B hs : N) (sq : bool) (sh : shake_st) : res kmac_st :=
  Ok (mkkm (kmac_bytepad B []) hs sq sh).

Section Kmac.
  Variables (B : N) (XOF : bool).

  (** kmac_provider.hpp:89-92 *)
  Definition kmac_update (s : kmac_st) (data : list N) : res kmac_st :=
    sh <- shake_update B 24 (kmsh s) data ;;
    Ok (mkkm (kmK s) (kmhs s) (kmsq s) sh).

  (** kmac_provider.hpp:81-87; the literal is "KMAC". *)
  Definition kmac_init (s : kmac_st) : res kmac_st :=
    let sh := kmsh s in
    let sh := mksh (hk sh) [0x4b; 0x4d; 0x41; 0x43] (hS sh) (hsq sh) (hsfx sh) in
    sh <- shake_init B 24 sh ;;
    kmac_update (mkkm (kmK s) (kmhs s) false sh) (kmK s).

  (** kmac_provider.hpp:94-104 *)
  Definition kmac_squeeze (s : kmac_st) (hs : nat) : res (kmac_st * list N) :=
    s <- (if kmsq s then Ok s
          else
            s <- kmac_update s (right_encode (if XOF then 0 else trunc 64 (N.of_nat hs * 8)) false) ;;
            Ok (mkkm (kmK s) (kmhs s) true (kmsh s))) ;;
    ' (sh, out) <- shake_squeeze B 24 (kmsh s) hs ;;
    Ok (mkkm (kmK s) (kmhs s) (kmsq s) sh, out).

  (** kmac_provider.hpp:106-109 *)
  Definition kmac_final (s : kmac_st) : res (kmac_st * list N) :=
    kmac_squeeze s (N.to_nat (kmhs s / 8)).

  (** kmac_provider.hpp:113-114: the memory after the calls of zero_memory, those in the
      inner object included. *)
  Definition kmac_wipe (s : kmac_st) : kmac_st :=
    mkkm (zero_memory (kmK s)) (kmhs s) (kmsq s) (shake_wipe (kmsh s)).
  (** kmac_provider.hpp:111-116; set_key("") then stores the encoding of the empty key. *)
  Definition kmac_clear (s : kmac_st) : res kmac_st :=
    sh <- shake_clear (kmsh s) ;;
    Ok (mkkm (kmac_bytepad B []) (kmhs s) (kmsq s) sh).

  (** kmac_provider.hpp:71-79 behind mixin/kmac_mixin.hpp. *)
  Inductive kmac_param := KmKey | KmCustomization.
  (** kmac_provider.hpp:71-79 *)
  Definition kmac_set (q : kmac_param) (v : list N) (s : kmac_st) : setres kmac_st :=
    match q with
    | KmKey => Done (mkkm (kmac_bytepad B v) (kmhs s) (kmsq s) (kmsh s))
    | KmCustomization =>
      let sh := kmsh s in
      Done (mkkm (kmK s) (kmhs s) (kmsq s) (mksh (hk sh) (hN sh) v (hsq sh) (hsfx sh)))
    end.

  (** kmac_provider.hpp:37-128: the members that hasher.hpp calls. *)
  Definition kmac_base : provider :=
    {| pst := kmac_st; p_init := kmac_init; p_update := kmac_update; p_clear := kmac_clear;
       p_param := kmac_param; p_set := kmac_set |}.
End Kmac.

(** algorithm/kmac.hpp: kmac128, kmac256 and kmac128_xof, kmac256_xof. *)
Definition kmac (B : N) : hash_provider :=
  {| hp := kmac_base B; hp_final := kmac_final B false; hp_size := kmhs |}.
(** algorithm/kmac.hpp: kmac128_xof, kmac256_xof. *)
Definition kmacxof (B : N) : xof_provider :=
  {| xp := kmac_base B; xp_squeeze := kmac_squeeze B true |}.
