(** * The lengths of strings with a size_t of [W] bits (C67).

    [N.length() * 8], [S.length() * 8], [str.length() * 8], [Z.length() * 8] and [hs * 8] are products
    of size_t. The counter of bytes absorbed (Size32.v) does not reach the output of these types. *)
From Verif Require Import Base Absorb Hasher MdState Keccak Sha3 Shake Kmac Ascon Library LibraryTypes.

Section SizeT.
Variable W : N.

(** shake_provider.hpp:80-111 *)
Definition shake_init_sz (B : N) (R : nat) (s : shake_st) : res shake_st :=
  let r := N.to_nat (shake_rate B / 8) in
  let s := mksh (mkst (zeros 25) (sm (hk s)) 0 0) (hN s) (hS s) false 0 in
  match hN s, hS s with
  | [], [] => Ok s
  | _, _ =>
    let e1 := left_encode (N.of_nat r) in
    let total := length e1 in
    s <- shake_update B R s e1 ;;
    let e2 := left_encode (trunc W (N.of_nat (length (hN s)) * 8)) in
    let total := (total + length e2)%nat in
    s <- shake_update B R s e2 ;;
    s <- shake_update_str B R s (hN s) ;;
    let e3 := left_encode (trunc W (N.of_nat (length (hS s)) * 8)) in
    s <- shake_update B R s e3 ;;
    let total := (total + length e3)%nat in
    s <- shake_update_str B R s (hS s) ;;
    let total := (total + (length (hS s) + length (hN s)))%nat in
    let len := (r - total mod r)%nat in
    shake_update B R s (zeros len)
  end.

(** kmac_provider.hpp:18-32 *)
Definition kmac_bytepad_sz (B : N) (str : list N) : list N :=
  let pad := if B =? 128 then 168%nat else 136%nat in
  let res := left_encode (N.of_nat pad) in
  let res := res ++ left_encode (trunc W (N.of_nat (length str) * 8)) in
  let res := res ++ str in
  let delta := (pad - length res mod pad)%nat in
  if negb (delta =? 0)%nat && negb (delta =? pad)%nat then res ++ zeros delta else res.
(** kmac_provider.hpp:71-79 *)
Definition kmac_set_sz (B : N) (q : kmac_param) (v : list N) (s : kmac_st) : setres kmac_st :=
  match q with
  | KmKey => Done (mkkm (kmac_bytepad_sz B v) (kmhs s) (kmsq s) (kmsh s))
  | KmCustomization =>
    let sh := kmsh s in
    Done (mkkm (kmK s) (kmhs s) (kmsq s) (mksh (hk sh) (hN sh) v (hsq sh) (hsfx sh)))
  end.
(** kmac_provider.hpp:81-87 *)
Definition kmac_init_sz (B : N) (s : kmac_st) : res kmac_st :=
  let sh := kmsh s in
  let sh := mksh (hk sh) [0x4b; 0x4d; 0x41; 0x43] (hS sh) (hsq sh) (hsfx sh) in
  sh <- shake_init_sz B 24 sh ;;
  kmac_update B (mkkm (kmK s) (kmhs s) false sh) (kmK s).
(** kmac_provider.hpp:94-104 *)
Definition kmac_squeeze_sz (B : N) (XOF : bool) (s : kmac_st) (hs : nat) : res (kmac_st * list N) :=
  s <- (if kmsq s then Ok s
        else
          s <- kmac_update B s (right_encode (if XOF then 0 else trunc W (N.of_nat hs * 8)) false) ;;
          Ok (mkkm (kmK s) (kmhs s) true (kmsh s))) ;;
  ' (sh, out) <- shake_squeeze B 24 (kmsh s) hs ;;
  Ok (mkkm (kmK s) (kmhs s) (kmsq s) sh, out).
(** kmac_provider.hpp:106-109 *)
Definition kmac_final_sz (B : N) (s : kmac_st) : res (kmac_st * list N) :=
  kmac_squeeze_sz B false s (N.to_nat (kmhs s / 8)).

(** ascon_provider.hpp:36-77, type cxof; Z0 is a uint64_t. *)
Definition ascon_cxof_init_sz (s : ascon_st) : res ascon_st :=
  let s := mkas (mkst (ascon_iv ACxof) (zero_memory (sm (ak s))) 0 0) (aZ s) false in
  s <- ascon_update s (le_bytes 8 (trunc W (N.of_nat (length (aZ s)) * 8))) ;;
  s <- (match aZ s with [] => Ok s | _ => ascon_update s (aZ s) end) ;;
  let pad := (length (aZ s) mod 8)%nat in
  data <- load (le_bytes 8 1) 0 (8 - pad) ;;
  ascon_update s data.
End SizeT.

(** A provider with another init() and other setters. Used in proofs; no code of /repo. *)
Definition retool (P : provider) (init : pst P -> res (pst P))
  (set : p_param P -> list N -> pst P -> setres (pst P)) : provider :=
  {| pst := pst P; p_init := init; p_update := p_update P; p_clear := p_clear P; p_param := p_param P; p_set := set |}.

(** algorithm/kmac.hpp:72, 125, 257-258, 295-296 *)
Definition kmac_sz (W B : N) : hash_provider :=
  {| hp := retool (kmac_base B) (kmac_init_sz W B) (kmac_set_sz W B); hp_final := kmac_final_sz W B; hp_size := kmhs |}.
(** algorithm/kmac.hpp:167, 210 *)
Definition kmacxof_sz (W B : N) : xof_provider :=
  {| xp := retool (kmac_base B) (kmac_init_sz W B) (kmac_set_sz W B); xp_squeeze := kmac_squeeze_sz W B true |}.
(** algorithm/shake.hpp:122, 161 *)
Definition cshake_sz (W B : N) : xof_provider :=
  {| xp := retool (cshake B 24) (shake_init_sz W B 24) cshake_set; xp_squeeze := shake_squeeze B 24 |}.
(** algorithm/ascon.hpp:121 *)
Definition ascon_cxof_sz (W : N) : xof_provider :=
  {| xp := retool ascon_cxof (ascon_cxof_init_sz W) ascon_set; xp_squeeze := ascon_squeeze |}.

(** The types over them, as in LibraryTypes.v. clear() of KMAC and its constructors store the
    encoding of the empty key, the same for all [W]. algorithm/kmac.hpp:72, 125. *)
Definition kmac_type_sz (W B hs : N) : htype (kmac_sz W B) :=
  Build_htype (kmac_sz W B) kmac_mem (fun g => shake_mem_ok (fst g))
    (fun g => fresh_of (kmac_ctor B hs (snd g) (inner_shake (fst g))) (kmac_init_sz W B))
    (N.to_nat (hs / 8)) always true.
(** algorithm/kmac.hpp:257-258, 295-296 *)
Definition kmac_static_type_sz (W B hs : N) : htype (kmac_sz W B) :=
  Build_htype (kmac_sz W B) kmac_mem (fun g => shake_mem_ok (fst g))
    (fun g => fresh_of (kmac_ctor_static B hs (snd g) (inner_shake (fst g))) (kmac_init_sz W B))
    (N.to_nat (hs / 8)) always true.
(** algorithm/kmac.hpp:167, 210 *)
Definition kmacxof_type_sz (W B : N) : xtype (kmacxof_sz W B) :=
  Build_xtype (kmacxof_sz W B) kmac_mem (fun g => shake_mem_ok (fst g))
    (fun g => fresh_of (kmac_ctor_static B 0 (snd g) (inner_shake (fst g))) (kmac_init_sz W B)) always true.
(** algorithm/shake.hpp:122, 161 *)
Definition cshake_type_sz (W B : N) : xtype (cshake_sz W B) :=
  Build_xtype (cshake_sz W B) shake_mem shake_mem_ok
    (fun g => fresh_of (shake_ctor (fst (fst g)) (snd (fst g)) (snd g)) (shake_init_sz W B 24)) always true.
(** algorithm/ascon.hpp:121 *)
Definition ascon_cxof_type_sz (W : N) : xtype (ascon_cxof_sz W) :=
  Build_xtype (ascon_cxof_sz W) st (fun g => length (sm g) = 64%nat)
    (fun g => fresh_of (ascon_ctor g) (ascon_cxof_init_sz W)) always false.

(** Spec of C67: strings shorter than 2^(W-3) bytes. Specification; no code of /repo. *)
Definition short_str (W : N) (v : list N) : Prop := 8 * N.of_nat (length v) < 2 ^ W.
(** Calls that pass only such strings to setters. Specification; no code of /repo. *)
Definition short_set {param} (W : N) (o : base_op param) : Prop :=
  match o with SetParam _ v => short_str W v | _ => True end.
(** Calls of fixed-output hashers. Specification; no code of /repo. *)
Definition hshort_set {param} (W : N) (o : hash_op param) : Prop :=
  match o with HBase b => short_set W b | _ => True end.
(** Calls of extendable-output hashers. Specification; no code of /repo. *)
Definition xshort_set {param} (W : N) (o : xof_op param) : Prop :=
  match o with XBase b => short_set W b | _ => True end.
