(** * hexdigest() and hexsqueeze() through the string stream they use.

    Hasher.v prints hex digits directly. Here the stream of hasher.hpp:298-301, 374-377 is
    explicit, with the part of the standard library's output formatting that its locale
    can influence: a new std::ostringstream takes the global locale of the program. *)
From Coq Require Import ZArith.
From Verif Require Import Base Hasher Library.
Local Open Scope N_scope.

(** numpunct<char> of a locale, as used by the stream of hasher.hpp:298, 374: the values of
    the characters of grouping(), and thousands_sep(). *)
Record locale := mkloc { lgroup : list Z; lsep : N }.
(** ios_base::basefield, hasher.hpp:299, 375. *)
Inductive base := Dec | Hex.
(** The stream: locale, base, fill(), width() and the characters written.
    hasher.hpp:298, 374. *)
Record ostr := mkos { oloc : locale; obase : base; ofill : N; owidth : nat; obuf : list N }.

(** [std::ostringstream res;] hasher.hpp:298, 374. *)
Definition os_new (l : locale) : ostr := mkos l Dec 32 0 [].
(** [<< std::setfill(c)], hasher.hpp:299, 375 *)
Definition os_setfill (c : N) (s : ostr) : ostr := mkos (oloc s) (obase s) c (owidth s) (obuf s).
(** [<< std::hex], hasher.hpp:299, 375 *)
Definition os_hex (s : ostr) : ostr := mkos (oloc s) Hex (ofill s) (owidth s) (obuf s).
(** [<< std::setw(n)], stream_width_fixer.hpp:23 *)
Definition os_setw (n : nat) (s : ostr) : ostr := mkos (oloc s) (obase s) (ofill s) n (obuf s).

(** Digits of an unsigned int in base [b]; lower case, because std::uppercase is not set.
    Standard library behind stream_width_fixer.hpp:23. *)
Fixpoint num_digits (b : N) (fuel : nat) (v : N) (acc : list N) : list N :=
  match fuel with
  | O => acc
  | S f => if v <? b then hex_char v :: acc else num_digits b f (v / b) (hex_char (v mod b) :: acc)
  end.
(** thousands_sep() between groups of digits, [r] has the digits from the last to the first.
    The sizes of the groups are the elements of grouping(), the last one repeats; sizes
    <= 0 and CHAR_MAX mean no more groups. Standard library behind stream_width_fixer.hpp:23. *)
Fixpoint num_groups (fuel : nat) (g : list Z) (sep : N) (r : list N) : list N :=
  match fuel, g with
  | S f, z :: g' =>
      if ((z <=? 0) || (z =? 127))%Z then r
      else if (length r <=? Z.to_nat z)%nat then r
      else firstn (Z.to_nat z) r ++ sep :: num_groups f (match g' with [] => g | _ => g' end) sep (skipn (Z.to_nat z) r)
  | _, _ => r
  end.
(** [<< x] for characters [x]: filled on the left to width(), which becomes 0.
    Standard library behind stream_width_fixer.hpp:23, hasher.hpp:300, 376. *)
Definition os_field (x : list N) (s : ostr) : ostr :=
  mkos (oloc s) (obase s) (ofill s) 0 (obuf s ++ repeat (ofill s) (owidth s - length x) ++ x).
(** [<< v] for a 32-bit unsigned int, stream_width_fixer.hpp:23 *)
Definition os_uint (v : N) (s : ostr) : ostr :=
  let d := num_digits (match obase s with Dec => 10 | Hex => 16 end) 10 v [] in
  os_field (rev (num_groups (length d) (lgroup (oloc s)) (lsep (oloc s)) (rev d))) s.
(** stream_width_fixer.hpp:20-24 *)
Definition os_fixer (n : nat) (v : N) (s : ostr) : ostr := os_uint v (os_setw n s).
(** Assignment through the std::ostream_iterator of hasher.hpp:300, 376: the element, then
    the delimiter "". *)
Definition os_iter (s : ostr) (b : N) : ostr := os_field [] (os_fixer 2 b s).
(** hasher.hpp:298-301, 374-377 with std::copy of hasher.hpp:274, 354 *)
Definition hex_stream (l : locale) (bytes : list N) : list N :=
  obuf (fold_left os_iter bytes (os_hex (os_setfill 48 (os_new l)))).

(** hexdigest() on a new object after the calls [pre] if [l] is the global locale,
    hasher.hpp:371-378. *)
Definition hexdigest_in (l : locale) {P} (T : htype P) (g : ht_mem T) (pre : list (hash_op (p_param P))) : res (list N) :=
  s <- ht_new T g ;;
  ' (s, _) <- hash_run P s pre ;;
  r <- digest_iter P s ;;
  Ok (hex_stream l r).
(** hexsqueeze(n) in the same way, hasher.hpp:294-302. *)
Definition hexsqueeze_in (l : locale) {P} (T : xtype P) (g : xt_mem T) (pre : list (xof_op (p_param P))) (n : nat) : res (list N) :=
  s <- xt_new T g ;;
  ' (s, _) <- xof_run P s pre ;;
  ' (_, r) <- squeeze_iter P s n ;;
  Ok (hex_stream l r).
