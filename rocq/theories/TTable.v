(** * Lookup-table rounds, shared by groestl_provider.hpp and kupyna_provider.hpp. *)
From Verif Require Import Base MdState.

(** groestl_provider.hpp:28-36 and 45-53, kupyna_provider.hpp:25-33: column [c] of the
    result, for tables [T] and column offsets [off]. *)
Definition ttable_col (T : list (list N)) (R : nat) (off : nat -> nat) (x : list N) (c : nat) : N :=
  let t j := tbl (nth j T []) (byte_at (nthN ((c + off j) mod R) x) (N.of_nat (8 * j))) in
  N.lxor (N.lxor (N.lxor (N.lxor (N.lxor (N.lxor (N.lxor (t 0%nat) (t 1%nat)) (t 2%nat)) (t 3%nat))
    (t 4%nat)) (t 5%nat)) (t 6%nat)) (t 7%nat).
(** The loop over the columns; [x] and the result are different arrays.
    groestl_provider.hpp:28-36 and 45-53, kupyna_provider.hpp:25-33. *)
Definition ttable (T : list (list N)) (R : nat) (off : nat -> nat) (x : list N) : list N :=
  map (ttable_col T R off x) (seq 0 R).

(** groestl_provider.hpp:199-203, kupyna_provider.hpp:193-197; [cls] holds h (16 words),
    m[128], pos and total. *)
Record cl_st := mkcl { cls : st; clhs : N }.
(** groestl_provider.hpp:178, kupyna_provider.hpp:172 *)
Definition cl_bs (hs : N) : nat := if 256 <? hs then 128 else 64.
(** The template argument R used by the member functions transform and outputTransform.
    groestl_provider.hpp:183-195, kupyna_provider.hpp:177-189. *)
Definition cl_R (hs : N) : nat := if 256 <? hs then 16 else 8.
(** groestl_provider.hpp:67 and 91, kupyna_provider.hpp:66 and 90 *)
Definition cl_rounds (R : nat) : nat := if (R =? 16)%nat then 14 else 10.

Section Transform.
  Variables roundP roundQ : nat -> list N -> N -> list N.
  (** groestl_provider.hpp:56-79, kupyna_provider.hpp:55-78: transform<R>; the loop runs
      over r = 0, 2, ... and calls each round function for r and r + 1. *)
  Definition cl_transform (R : nat) (h m : list N) : list N :=
    let AP := map2 N.lxor (firstn R h) m in
    let '(AP, AQ) := fold_left (fun a i =>
        let '(AP, AQ) := a in
        let r := N.of_nat (2 * i) in
        (roundP R (roundP R AP r) (r + 1), roundQ R (roundQ R AQ r) (r + 1)))
      (seq 0 (cl_rounds R / 2)) (AP, m) in
    map2 N.lxor (map2 N.lxor AP AQ) (firstn R h) ++ skipn R h.
  (** groestl_provider.hpp:81-99, kupyna_provider.hpp:80-98: outputTransform<R>. *)
  Definition cl_output (R : nat) (h : list N) : list N :=
    let t := fold_left (fun t i => let r := N.of_nat (2 * i) in roundP R (roundP R t r) (r + 1))
      (seq 0 (cl_rounds R / 2)) (firstn R h) in
    map2 N.lxor (firstn R h) t ++ skipn R h.
End Transform.
