(** * Model of hasher.hpp when the caller's iterators and streams throw, and when iterators
    deliver integers that are not bytes (C58). *)
From Verif Require Import Base Hasher.
From Coq Require Import ZArith.

(** What the caller gets: a normal return, or an exception after some bytes were written to
    the output iterator. A caller's view; no code of /repo. *)
Inductive eout :=
| Returned (o : out)
| Threw (written : list N).

Section Throws.
  Variable P : provider.

  (** hasher.hpp:184: [unsigned char byte = *begin++] converts any integer type modulo 256. *)
  Definition to_byte (z : Z) : N := Z.to_N (Z.modulo z 256).
  (** hasher.hpp:181-190 over integers; [throws]: [!=], [++] or [*] of the iterator throws after
      the elements [zs] (hasher.hpp has no handler: what was absorbed stays absorbed). *)
  Fixpoint absorb_values (s : pst P) (zs : list Z) (throws : bool) : res (pst P * eout) :=
    match zs with
    | [] => Ok (s, if throws then Threw [] else Returned ODone)
    | z :: r => s <- p_update P s [to_byte z] ;; absorb_values s r throws
    end.

  (** hasher.hpp:151-166 for a stream whose [exceptions()] include failbit or eofbit: the
      [read] that meets the end of the stream throws, so the code behind the loop is not
      reached. [fuel] as in [absorb_stream]. *)
  Fixpoint absorb_stream_throws (fuel : nat) (s : pst P) (content : list N) : res (pst P * eout) :=
    if tmp_buffer_size <=? N.of_nat (length content) then
      match fuel with
      | O => Ok (s, Threw [])
      | S f =>
        s <- p_update P s (firstn (N.to_nat tmp_buffer_size) content) ;;
        absorb_stream_throws f s (skipn (N.to_nat tmp_buffer_size) content)
      end
    else Ok (s, Threw []).
End Throws.

(** [std::copy(hash.begin(), hash.end(), it)] (hasher.hpp:274, 354) to an output iterator that
    throws instead of taking byte number [k]. *)
Definition copy_out (bytes : list N) (k : nat) : eout :=
  if (k <? length bytes)%nat then Threw (firstn k bytes) else Returned (OBytes bytes).

(** Calls of a fixed-output hasher (hasher.hpp:85-390), [o]: the calls of Hasher.v. *)
Inductive ehash_op (param : Type) :=
| EHCall (o : hash_op param)
| EHValues (zs : list Z) (throws : bool)   (* absorb(begin, end) *)
| EHStream (content : list N)              (* absorb(istream with exceptions enabled) *)
| EHOut (k : nat).                         (* digest(it), [it] throws at byte k *)
Arguments EHCall {param}. Arguments EHValues {param}. Arguments EHStream {param}. Arguments EHOut {param}.
(** hasher.hpp:85-190, 322-390. *)
Definition ehash_step (P : hash_provider) (s : pst P) (o : ehash_op (p_param P)) : res (pst P * eout) :=
  match o with
  | EHCall o => ' (s, x) <- hash_step P s o ;; Ok (s, Returned x)
  | EHValues zs throws => absorb_values P s zs throws
  | EHStream c => absorb_stream_throws P (length c) s c
  | EHOut k => r <- digest_iter P s ;; Ok (s, copy_out r k)
  end.
(** A caller's view; no code of /repo. *)
Fixpoint ehash_run (P : hash_provider) (s : pst P) (ops : list (ehash_op (p_param P))) : res (pst P * list eout) :=
  match ops with
  | [] => Ok (s, [])
  | o :: r =>
    ' (s, x) <- ehash_step P s o ;;
    ' (s, xs) <- ehash_run P s r ;;
    Ok (s, x :: xs)
  end.

(** Calls of an extendable-output hasher (hasher.hpp:85-302, 385-390). *)
Inductive exof_op (param : Type) :=
| EXCall (o : xof_op param)
| EXValues (zs : list Z) (throws : bool)
| EXStream (content : list N)
| EXOut (n k : nat).                       (* squeeze(n, it), [it] throws at byte k *)
Arguments EXCall {param}. Arguments EXValues {param}. Arguments EXStream {param}. Arguments EXOut {param}.
(** hasher.hpp:85-300, 385-390. *)
Definition exof_step (P : xof_provider) (s : pst P) (o : exof_op (p_param P)) : res (pst P * eout) :=
  match o with
  | EXCall o => ' (s, x) <- xof_step P s o ;; Ok (s, Returned x)
  | EXValues zs throws => absorb_values P s zs throws
  | EXStream c => absorb_stream_throws P (length c) s c
  | EXOut n k => ' (s, r) <- squeeze_iter P s n ;; Ok (s, copy_out r k)
  end.
(** A caller's view; no code of /repo. *)
Fixpoint exof_run (P : xof_provider) (s : pst P) (ops : list (exof_op (p_param P))) : res (pst P * list eout) :=
  match ops with
  | [] => Ok (s, [])
  | o :: r =>
    ' (s, x) <- exof_step P s o ;;
    ' (s, xs) <- exof_run P s r ;;
    Ok (s, x :: xs)
  end.
