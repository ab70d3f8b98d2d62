(** * Model of algorithm/detail/shake_provider.hpp. *)
From Verif Require Import Base Absorb Hasher MdState Keccak Squeeze Sha3.

(** shake_provider.hpp:24-27, 39-42: [n] plus the number of bytes above the lowest. A
    size_t has 8 bytes, so 8 iterations suffice. *)
Fixpoint count_bytes (fuel : nat) (tmp : N) (n : nat) : nat :=
  match fuel with
  | O => n
  | S f => let tmp := N.shiftr tmp 8 in
           if tmp =? 0 then n else count_bytes f tmp (S n)
  end.

(** shake_provider.hpp:30-32, 45-47: the loop stores byte i of [num] from the end towards
    the front. *)
Fixpoint enc_loop (n : nat) (i : N) (num : N) (acc : list N) : list N :=
  match n with
  | O => acc
  | S n' => enc_loop n' (i + 1) num (byte_at num (8 * i) :: acc)
  end.

(** shake_provider.hpp:21-34: the bytes stored into buf (at most 9). *)
Definition left_encode (num : N) : list N :=
  let n := count_bytes 8 num 1 in N.of_nat n :: enc_loop n 0 num [].

(** shake_provider.hpp:36-49 *)
Definition right_encode (num : N) (k12 : bool) : list N :=
  let n := count_bytes 8 num (if k12 && (num =? 0) then 0%nat else 1%nat) in
  enc_loop n 0 num [] ++ [N.of_nat n].

(** shake_provider.hpp:168-178 *)
Record shake_st := mksh {
  hk : st;            (* A, m, pos, total *)
  hN : list N;
  hS : list N;
  hsq : bool;         (* squeezing *)
  hsfx : N            (* suffix *)
}.

(** shake_provider.hpp:173 *)
Definition shake_rate (B : N) : N := if B =? 128 then 1344 else 1088.

Section Shake.
  Variables (B : N) (R : nat).
  Let rate := shake_rate B.
  Let r := N.to_nat (rate / 8).

  (** shake_provider.hpp:113-117 *)
  Definition shake_update (s : shake_st) (data : list N) : res shake_st :=
    k <- md_update_res (kc_block R (N.to_nat (rate / 64))) r r (hk s) data ;;
    Ok (mksh k (hN s) (hS s) (hsq s) (hsfx s)).

  (** [if (!x.empty()) update(x.data(), x.length())]. shake_provider.hpp:98-99, 103-104. *)
  Definition shake_update_str (s : shake_st) (x : list N) : res shake_st :=
    match x with [] => Ok s | _ => shake_update s x end.

  (** shake_provider.hpp:80-111. buf[1024] holds at most 9 encoded bytes or [len] <= r
      zero bytes. *)
  Definition shake_init (s : shake_st) : res shake_st :=
    let s := mksh (mkst (zeros 25) (sm (hk s)) 0 0) (hN s) (hS s) false 0 in
    match hN s, hS s with
    | [], [] => Ok s
    | _, _ =>
      let e1 := left_encode (N.of_nat r) in
      let total := length e1 in
      s <- shake_update s e1 ;;
      let e2 := left_encode (trunc 64 (N.of_nat (length (hN s)) * 8)) in
      let total := (total + length e2)%nat in
      s <- shake_update s e2 ;;
      s <- shake_update_str s (hN s) ;;
      let e3 := left_encode (trunc 64 (N.of_nat (length (hS s)) * 8)) in
      s <- shake_update s e3 ;;
      let total := (total + length e3)%nat in
      s <- shake_update_str s (hS s) ;;
      let total := (total + (length (hS s) + length (hN s)))%nat in
      let len := (r - total mod r)%nat in
      shake_update s (zeros len)
    end.

  (** shake_provider.hpp:119-122 *)
  Definition shake_set_suffix (x : N) (s : shake_st) : shake_st :=
    mksh (hk s) (hN s) (hS s) (hsq s) x.

  (** shake_provider.hpp:124-156 *)
  Definition shake_squeeze (s : shake_st) (hs : nat) : res (shake_st * list N) :=
    if hsq s then
      ' (A, pos, out) <- sq_more (kc_perm R) (words_bytes 8) r (sh (hk s)) (spos (hk s)) hs ;;
      Ok (mksh (mkst A (sm (hk s)) pos (stotal (hk s))) (hN s) (hS s) true (hsfx s), out)
    else
      let sfx := if hsfx s =? 0 then match hN s, hS s with [], [] => 0x1f | _, _ => 0x04 end
                 else hsfx s in
      k <- kc_pad_block R rate sfx (hk s) ;;
      ' (A, pos, out) <- sq_first (kc_perm R) (words_bytes 8) r (sh k) (spos k) hs ;;
      Ok (mksh (mkst A (sm k) pos (stotal k)) (hN s) (hS s) true (hsfx s), out).

  (** shake_provider.hpp:160-163: the memory after the calls of zero_memory. *)
  Definition shake_wipe (s : shake_st) : shake_st :=
    mksh (mkst (zero_memory (sh (hk s))) (zero_memory (sm (hk s))) (spos (hk s)) (stotal (hk s)))
      (zero_memory (hN s)) (zero_memory (hS s)) (hsq s) (hsfx s).
  (** shake_provider.hpp:158-166 *)
  Definition shake_clear (s : shake_st) : res shake_st :=
    let s := shake_wipe s in
    Ok (mksh (hk s) [] [] (hsq s) (hsfx s)).

  (** shake_provider.hpp:70-78 behind mixin/cshake_mixin.hpp. *)
  Inductive cshake_param := CsName | CsCustomization.
  (** shake_provider.hpp:70-78 *)
  Definition cshake_set (q : cshake_param) (v : list N) (s : shake_st) : setres shake_st :=
    match q with
    | CsName => Done (mksh (hk s) v (hS s) (hsq s) (hsfx s))
    | CsCustomization => Done (mksh (hk s) (hN s) v (hsq s) (hsfx s))
    end.

  (** algorithm/shake.hpp: shake128, shake256. *)
  Definition shake : xof_provider :=
    {| xp := {| pst := shake_st; p_init := shake_init; p_update := shake_update;
                p_clear := shake_clear; p_param := Empty_set; p_set := no_set |};
       xp_squeeze := shake_squeeze |}.

  (** algorithm/shake.hpp: cshake128, cshake256. *)
  Definition cshake : xof_provider :=
    {| xp := {| pst := shake_st; p_init := shake_init; p_update := shake_update;
                p_clear := shake_clear; p_param := cshake_param; p_set := cshake_set |};
       xp_squeeze := shake_squeeze |}.

  (** A newly constructed object: the strings are empty, everything else is garbage.
      shake_provider.hpp:60-63. *)
  Definition shake_ctor (g : st) (sq : bool) (sfx : N) : res shake_st := Ok (mksh g [] [] sq sfx).
End Shake.
