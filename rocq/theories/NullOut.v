(** * Empty output behind a null pointer: squeeze(nullptr, 0).

    hasher.hpp:206-209 passes pointer and length on. The other files identify such a call with
    one that has an empty array; here the pointer is null. [strict] as in Null.v. *)
From Verif Require Import Base Hasher MdState Library Keccak Sha3 Shake Kmac K12 Ascon Esch Skein Blake2 LibraryTypes.

(** [memcpy(nullptr, src + pos, n)] at shake_provider.hpp:140, ascon_provider.hpp:107,
    esch_provider.hpp:145, skein_provider.hpp:272, blake2_provider.hpp:254. *)
Definition copy_to_null (strict : bool) (src : list N) (pos n : nat) : res unit :=
  if strict then UB NullPointer
  else if (n =? 0)%nat then if (pos <=? length src)%nat then Ok tt else UB OutOfBounds
  else UB NullPointer.

Section Squeezes.
Variable strict : bool.

(** shake_provider.hpp:124-156 with [hash = nullptr], [hs = 0]: the loop is not entered. *)
Definition shake_squeeze_null (B : N) (R : nat) (s : shake_st) : res shake_st :=
  let r := N.to_nat (shake_rate B / 8) in
  if hsq s then
    let k := hk s in
    if (spos k <? r)%nat then
      _ <- copy_to_null strict (words_bytes 8 (sh k)) (spos k) (Nat.min 0 (r - spos k)) ;;
      Ok s
    else if (spos k =? r)%nat then
      Ok (mksh (mkst (kc_perm R (sh k)) (sm k) (spos k) (stotal k)) (hN s) (hS s) true (hsfx s))
    else Ok s
  else
    let sfx := if hsfx s =? 0 then match hN s, hS s with [], [] => 0x1f | _, _ => 0x04 end
               else hsfx s in
    k <- kc_pad_block R (shake_rate B) sfx (hk s) ;;
    Ok (mksh k (hN s) (hS s) true (hsfx s)).

(** kmac_provider.hpp:94-104 *)
Definition kmac_squeeze_null (B : N) (s : kmac_st) : res kmac_st :=
  s <- (if kmsq s then Ok s
        else
          s <- kmac_update B s (right_encode 0 false) ;;
          Ok (mkkm (kmK s) (kmhs s) true (kmsh s))) ;;
  sh <- shake_squeeze_null B 24 (kmsh s) ;;
  Ok (mkkm (kmK s) (kmhs s) (kmsq s) sh).

(** k12m14_provider.hpp:61-93 *)
Definition k12_squeeze_null (B : N) (R : nat) (s : k12_st) : res k12_st :=
  s <- (if ksq s then Ok s else k12_finish B R s) ;;
  main <- shake_squeeze_null B R (kmain s) ;;
  Ok (mkk12 main (kchild s) (km s) (kS s) (kpos s) (ktotal s) (kchunk s) (ksq s)).

(** ascon_provider.hpp:91-124 *)
Definition ascon_squeeze_null (s : ascon_st) : res ascon_st :=
  if asq s then
    let k := ak s in
    if (spos k <? 8)%nat then
      _ <- copy_to_null strict (words_bytes 8 (sh k)) (spos k) (Nat.min 0 (8 - spos k)) ;;
      Ok s
    else if (spos k =? 8)%nat then
      Ok (mkas (mkst (ascon_block (sh k) 0 (firstn 8 (sm k))) (sm k) (spos k) (stotal k)) (aZ s) true)
    else Ok s
  else
    k <- ascon_pad (ak s) ;;
    Ok (mkas k (aZ s) true).

(** esch_provider.hpp:124-160 *)
Definition esch_squeeze_null (s : esch_st) : res esch_st :=
  let k := ek s in
  if esq s then
    if (spos k <? 16)%nat then
      _ <- copy_to_null strict (words_bytes 4 (sh k)) (spos k) (Nat.min 0 (16 - spos k)) ;;
      Ok (mkes (mkst (sh k) (sm k) (spos k) 0) (ehs s) true)
    else Ok s
  else
    k <- esch_pad true (ehs s) k ;;
    Ok (mkes k (ehs s) true).

(** skein_provider.hpp:253-288 *)
Definition sk_squeeze_null (nw : nat) (s : sk_st) : res sk_st :=
  let c := skc s in
  if sksq s then
    if (spos c <? 8 * nw)%nat then
      _ <- copy_to_null strict (words_bytes 8 (sk_H c)) (spos c) (Nat.min 0 (8 * nw - spos c)) ;;
      Ok s
    else Ok s
  else
    c <- sk_finish nw c ;;
    m <- memset (sm c) 0 0 (8 * nw) ;;
    Ok (mksk (mkst (sh c) m 0 0) (sk_H c) (skhs s) true (skp s) (skn s) (skk s)).

(** blake2_provider.hpp:237-272 with [type == blake2_type::xof]. *)
Definition b2_squeeze_null (w : N) (s : b2_st) : res b2_st :=
  let c := b2c s in
  if b2sq s then
    if (spos c <? b2_hb w)%nat then
      _ <- copy_to_null strict (words_bytes (b2_wb w) (sh c)) (spos c) (Nat.min 0 (b2_hb w - spos c)) ;;
      Ok s
    else Ok s
  else
    let total := trunc 64 (stotal c + N.of_nat (spos c * 8)) in
    c <- b2_pad w (mkb2 (mkst (sh c) (sm c) (spos c) total) (b2s s) (b2p s) (b2k s) (b2hs s)
                     0 true (b2fo s) (b2nd s) (b2no s)) ;;
    m <- memcpy (sm c) 0 (words_bytes (b2_wb w) (sh c)) (b2_hb w) ;;
    Ok (mkb2 (mkst (sh c) m (spos c) (stotal c)) (b2s s) (b2p s) (b2k s) (b2hs s)
          0 true (b2fo s) (b2nd s) (b2no s)).
End Squeezes.

(** One line per provider, algorithm/detail/*_provider.hpp: [null_squeeze P Z r] when [Z] is
    squeeze(nullptr, 0) and a block of output has [r] bytes (documented: FIPS 202 table 3,
    RFC 9861, SP 800-232, the SPARKLE, BLAKE2X and Skein papers). *)
Inductive null_squeeze : forall P : xof_provider, (bool -> pst P -> res (pst P)) -> nat -> Prop :=
| nz_shake128 : null_squeeze (shake 128 24) (fun b => shake_squeeze_null b 128 24) 168
| nz_shake256 : null_squeeze (shake 256 24) (fun b => shake_squeeze_null b 256 24) 136
| nz_cshake128 : null_squeeze (cshake 128 24) (fun b => shake_squeeze_null b 128 24) 168
| nz_cshake256 : null_squeeze (cshake 256 24) (fun b => shake_squeeze_null b 256 24) 136
| nz_kmac128 : null_squeeze (kmacxof 128) (fun b => kmac_squeeze_null b 128) 168
| nz_kmac256 : null_squeeze (kmacxof 256) (fun b => kmac_squeeze_null b 256) 136
| nz_k12 : null_squeeze (k12 128 12) (fun b => k12_squeeze_null b 128 12) 168
| nz_m14 : null_squeeze (k12 256 14) (fun b => k12_squeeze_null b 256 14) 136
| nz_kt256 : null_squeeze (k12 256 12) (fun b => k12_squeeze_null b 256 12) 136
| nz_ascon_xof : null_squeeze ascon_xof ascon_squeeze_null 8
| nz_ascon_cxof : null_squeeze ascon_cxof ascon_squeeze_null 8
| nz_esch_xof : null_squeeze esch_xof esch_squeeze_null 16
| nz_blake2xb : null_squeeze (blake2x_xof 64) (fun b => b2_squeeze_null b 64) 64
| nz_blake2xs : null_squeeze (blake2x_xof 32) (fun b => b2_squeeze_null b 32) 32
| nz_skein nw : (0 < nw)%nat -> null_squeeze (skein_xof nw) (fun b => sk_squeeze_null b nw) (8 * nw).

(** A call of the other files, or squeeze(nullptr, 0). A caller's view; no code of /repo. *)
Inductive zop (op : Type) := Plain (o : op) | NullSqueeze.
Arguments Plain {op} o. Arguments NullSqueeze {op}.

Section Runs.
  Variables (P : xof_provider) (Z : bool -> pst P -> res (pst P)) (strict : bool).
  (** hasher.hpp:206-209; nothing is written. *)
  Definition zstep (s : pst P) (o : zop (xof_op (p_param P))) : res (pst P * out) :=
    match o with
    | Plain o => xof_step P s o
    | NullSqueeze => s <- Z strict s ;; Ok (s, OBytes [])
    end.
  (** The calls one after the other; no code of /repo. *)
  Fixpoint zrun (s : pst P) (ops : list (zop (xof_op (p_param P)))) : res (pst P * list out) :=
    match ops with
    | [] => Ok (s, [])
    | o :: r =>
      ' (s, x) <- zstep s o ;;
      ' (s, xs) <- zrun s r ;;
      Ok (s, x :: xs)
    end.
End Runs.

(** What [post] returns on a new object after [pre], as [xafter] in Library.v.
    A caller's view; no code of /repo. *)
Definition zafter {P} (T : xtype P) (Z : bool -> pst P -> res (pst P)) (strict : bool) (g : xt_mem T)
  (pre post : list (zop (xof_op (p_param P)))) : res (list out) :=
  s <- xt_new T g ;;
  ' (s, _) <- zrun P Z strict s pre ;;
  ' (_, l) <- zrun P Z strict s post ;;
  Ok l.

(** ** Specification *)
(** The same call with an empty array instead. Specification; no code of /repo. *)
Definition zplain {param} (o : zop (xof_op param)) : xof_op param :=
  match o with Plain o => o | NullSqueeze => XSqueezeBuf 0 end.
(** Nothing was squeezed since the object was constructed or last reset.
    Specification; no code of /repo. *)
Fixpoint unread {param} (now : bool) (ops : list (xof_op param)) : bool :=
  match ops with
  | [] => now
  | XBase (Reset _) :: r => unread true r
  | XBase _ :: r => unread now r
  | _ :: r => unread false r
  end.
(** A call that squeezes [n] bytes. Specification; no code of /repo. *)
Definition squeezes {param} (n : nat) (o : xof_op param) : Prop :=
  o = XSqueezeBuf n \/ o = XSqueezeIter n \/ o = XHexSqueeze n.
