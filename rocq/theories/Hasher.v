(** * Model of hasher.hpp and of the mixins.

    [hasher<HashProvider, Mixin>] holds one provider object; every member function is
    modelled as a function on the provider state. *)
From Verif Require Import Base.

(** Outcome of a provider's [set_*] member (called in algorithm/mixin/*.hpp, e.g.
    kmac_mixin.hpp:31): it returns, or it throws and leaves the
    object in the given state. *)
Inductive setres (S : Type) :=
| Done (s : S)
| Raised (s : S)
| SetUB (why : ub_reason).
Arguments Done {S} s.
Arguments Raised {S} s.
Arguments SetUB {S} why.

(** What hasher.hpp uses of every provider (the member [provider], hasher.hpp:394; calls at
    52, 69, 88, 120, 137, 158, 163, 187, 388-389). [p_param] enumerates the [set_*]
    functions offered by the mixin, [p_set] is the provider member behind them. *)
Record provider := {
  pst : Type;
  p_init : pst -> res pst;
  p_update : pst -> list N -> res pst;
  p_clear : pst -> res pst;
  p_param : Type;
  p_set : p_param -> list N -> pst -> setres pst
}.

(** Fixed-output providers: [final(hash)] returns the object after the call and the
    bytes it stores through [hash]; [hash_size()] is in bits. hasher.hpp:326-330, 348-355. *)
Record hash_provider := {
  hp :> provider;
  hp_final : pst hp -> res (pst hp * list N);
  hp_size : pst hp -> N
}.

(** Extendable-output providers: [squeeze(hash, n)] stores [n] bytes. hasher.hpp:208, 273. *)
Record xof_provider := {
  xp :> provider;
  xp_squeeze : pst xp -> nat -> res (pst xp * list N)
}.

(** ** Absorb overloads *)

(** The way the bytes are passed to absorb (overloads at hasher.hpp:86, 105, 117, 134, 152, 182). *)
Inductive form :=
| FPtr       (* pointer + length, std::array *)
| FStr       (* std::string, std::basic_string *)
| FStream    (* std::basic_istream in good state *)
| FBadStream (* std::basic_istream whose failbit is already set *)
| FIter.     (* iterator pair *)

Section Absorb.
  Variable P : provider.

  (** hasher.hpp:115-122, 134-139: empty strings are skipped. *)
  Definition absorb_str (s : pst P) (data : list N) : res (pst P) :=
    match data with [] => Ok s | _ => p_update P s data end.

  (** hasher.hpp:155 tmp_buffer_size. *)
  Definition tmp_buffer_size : N := 65536.

  (** hasher.hpp:151-166. [istr.read(buffer, 65536)] succeeds iff at least 65536
      bytes remain; otherwise it stores the remaining bytes, sets eofbit|failbit and
      gcount() is their number. [fuel] bounds the number of loop iterations and is
      chosen large enough by the caller. *)
  Fixpoint absorb_stream (fuel : nat) (s : pst P) (content : list N) : res (pst P) :=
    if tmp_buffer_size <=? N.of_nat (length content) then
      match fuel with
      | O => Ok s
      | S f =>
        s <- p_update P s (firstn (N.to_nat tmp_buffer_size) content) ;;
        absorb_stream f s (skipn (N.to_nat tmp_buffer_size) content)
      end
    else
      let gcount := length content in
      if (gcount =? 0)%nat then Ok s else p_update P s content.

  (** hasher.hpp:181-190: one [update(&byte, 1)] per element. *)
  Fixpoint absorb_iter (s : pst P) (data : list N) : res (pst P) :=
    match data with
    | [] => Ok s
    | b :: r => s <- p_update P s [b] ;; absorb_iter s r
    end.

  (** hasher.hpp:85-190, all overloads. A stream whose failbit is set makes
      [read] fail at once with [gcount() == 0]. *)
  Definition absorb (f : form) (s : pst P) (data : list N) : res (pst P) :=
    match f with
    | FPtr => p_update P s data
    | FStr => absorb_str s data
    | FStream => absorb_stream (length data) s data
    | FBadStream => Ok s
    | FIter => absorb_iter s data
    end.

  (** hasher.hpp:385-390 reset. *)
  Definition reset (resetParameters : bool) (s : pst P) : res (pst P) :=
    s <- (if resetParameters then p_clear P s else Ok s) ;;
    p_init P s.

  (** algorithm/mixin/*.hpp: [provider.set_X(value); provider.init();] (ascon_cxof 28-34, blake2
      31-103, blake 32-54, cshake 28-61, echo 32-54, k12m14 29-35, kmac 28-61, skein 28-88; the
      std::string overloads pass c_str() and size() on). The boolean tells whether
      the call threw. *)
  Definition set_param (p : p_param P) (v : list N) (s : pst P) : res (pst P * bool) :=
    match p_set P p v s with
    | Done s' => s'' <- p_init P s' ;; Ok (s'', false)
    | Raised s' => Ok (s', true)
    | SetUB w => UB w
    end.
End Absorb.

(** ** Hex output *)

(** One hex digit as printed by [std::hex] (lower case). hasher.hpp:299, 375. *)
Definition hex_char (d : N) : N := if d <? 10 then 48 + d else 87 + d.

(** Digits of [v], most significant first, no leading zeros, "0" for zero.
    Standard library behind stream_width_fixer.hpp:20-24. *)
Fixpoint hex_digits (fuel : nat) (v : N) (acc : list N) : list N :=
  match fuel with
  | O => acc
  | S f => if v <? 16 then hex_char v :: acc
           else hex_digits f (v / 16) (hex_char (v mod 16) :: acc)
  end.

(** [ostr << std::setw(w) << v] with fill character '0' and [std::hex]
    (detail/stream_width_fixer.hpp:20-24; 32-bit unsigned, so 8 digits suffice). *)
Definition put_hex (w : nat) (v : N) : list N :=
  let d := hex_digits 8 v [] in repeat 48 (w - length d) ++ d.

(** hasher.hpp:295-302, 371-378: copying bytes to the ostream_iterator. *)
Definition hex_string (bytes : list N) : list N := flat_map (put_hex 2) bytes.

(** ** API calls *)

(** What a call returns to the caller. hasher.hpp:85-390. *)
Inductive out :=
| ODone
| OBytes (b : list N)  (* contents of the caller's buffer / bytes written *)
| OThrow.

(** Calls that every hasher has: hasher.hpp:85-190, 385-390 and the mixin. *)
Inductive base_op (param : Type) :=
| Absorb (f : form) (data : list N)
| Reset (resetParameters : bool)
| SetParam (p : param) (v : list N).
Arguments Absorb {param} f data.
Arguments Reset {param} resetParameters.
Arguments SetParam {param} p v.

(** One such call: hasher.hpp:85-190, 385-390 and algorithm/mixin/*.hpp. *)
Definition base_step (P : provider) (s : pst P) (o : base_op (p_param P))
  : res (pst P * out) :=
  match o with
  | Absorb f d => s' <- absorb P f s d ;; Ok (s', ODone)
  | Reset b => s' <- reset P b s ;; Ok (s', ODone)
  | SetParam p v =>
    ' (s', threw) <- set_param P p v s ;;
    Ok (s', if threw : bool then OThrow else ODone)
  end.

(** Calls of a fixed-output hasher: hasher.hpp:322-378. *)
Inductive hash_op (param : Type) :=
| HBase (o : base_op param)
| HDigestBuf (buf : list N)   (* digest(buf, len) with the buffer's old contents *)
| HDigestIter                 (* digest(output iterator) *)
| HHexDigest.                 (* hexdigest() *)
Arguments HBase {param} o.
Arguments HDigestBuf {param} buf.
Arguments HDigestIter {param}.
Arguments HHexDigest {param}.

Section HashApi.
  Variable P : hash_provider.

  (** hasher.hpp:322-331. *)
  Definition digest_buf (s : pst P) (buf : list N) : res out :=
    if N.of_nat (length buf) <? hp_size P s / 8 then Ok OThrow
    else
      let copy := s in
      ' (_, w) <- hp_final P copy ;;
      buf <- memcpy buf 0 w (length w) ;;
      Ok (OBytes buf).

  (** hasher.hpp:348-355: [&hash[0]] of an empty vector is undefined. *)
  Definition digest_iter (s : pst P) : res (list N) :=
    let copy := s in
    let hash := zeros (N.to_nat (hp_size P s / 8)) in
    match hash with
    | [] => UB EmptyVectorRef
    | _ =>
      ' (_, w) <- hp_final P copy ;;
      memcpy hash 0 w (length w)
    end.

  (** One such call: hasher.hpp:322-378. *)
  Definition hash_step (s : pst P) (o : hash_op (p_param P)) : res (pst P * out) :=
    match o with
    | HBase b => base_step P s b
    | HDigestBuf buf => r <- digest_buf s buf ;; Ok (s, r)
    | HDigestIter => r <- digest_iter s ;; Ok (s, OBytes r)
    | HHexDigest => r <- digest_iter s ;; Ok (s, OBytes (hex_string r))
    end.

  (** A caller making the calls one after the other; no code of /repo. *)
  Fixpoint hash_run (s : pst P) (ops : list (hash_op (p_param P))) : res (pst P * list out) :=
    match ops with
    | [] => Ok (s, [])
    | o :: r =>
      ' (s, x) <- hash_step s o ;;
      ' (s, xs) <- hash_run s r ;;
      Ok (s, x :: xs)
    end.
End HashApi.

(** Calls of an extendable-output hasher: hasher.hpp:204-302. *)
Inductive xof_op (param : Type) :=
| XBase (o : base_op param)
| XSqueezeBuf (n : nat)    (* squeeze(buf, n), arrays *)
| XSqueezeIter (n : nat)   (* squeeze(n, output iterator) *)
| XHexSqueeze (n : nat).   (* hexsqueeze(n) *)
Arguments XBase {param} o.
Arguments XSqueezeBuf {param} n.
Arguments XSqueezeIter {param} n.
Arguments XHexSqueeze {param} n.

Section XofApi.
  Variable P : xof_provider.

  (** hasher.hpp:204-209 (also 222-227, 240-245): the buffer has [n] bytes. *)
  Definition squeeze_buf (s : pst P) (n : nat) : res (pst P * list N) :=
    ' (s, w) <- xp_squeeze P s n ;;
    buf <- memcpy (zeros n) 0 w (length w) ;;
    Ok (s, buf).

  (** hasher.hpp:270-275: [&hash[0]] of an empty vector is undefined. *)
  Definition squeeze_iter (s : pst P) (n : nat) : res (pst P * list N) :=
    match n with
    | O => UB EmptyVectorRef
    | _ => squeeze_buf s n
    end.

  (** One such call: hasher.hpp:204-302. *)
  Definition xof_step (s : pst P) (o : xof_op (p_param P)) : res (pst P * out) :=
    match o with
    | XBase b => base_step P s b
    | XSqueezeBuf n => ' (s, r) <- squeeze_buf s n ;; Ok (s, OBytes r)
    | XSqueezeIter n => ' (s, r) <- squeeze_iter s n ;; Ok (s, OBytes r)
    | XHexSqueeze n => ' (s, r) <- squeeze_iter s n ;; Ok (s, OBytes (hex_string r))
    end.

  (** A caller making the calls one after the other; no code of /repo. *)
  Fixpoint xof_run (s : pst P) (ops : list (xof_op (p_param P))) : res (pst P * list out) :=
    match ops with
    | [] => Ok (s, [])
    | o :: r =>
      ' (s, x) <- xof_step s o ;;
      ' (s, xs) <- xof_run s r ;;
      Ok (s, x :: xs)
    end.
End XofApi.

(** No setters (hashers without a mixin). algorithm/mixin/null_mixin.hpp. *)
Definition no_set {S : Type} (p : Empty_set) (v : list N) (s : S) : setres S :=
  match p with end.

(** hasher.hpp:49-53, 66-70: the constructors of [hasher] construct the provider and
    call [init()]. *)
Definition fresh_of {S} (ctor : res S) (init : S -> res S) : res S := s <- ctor ;; init s.
