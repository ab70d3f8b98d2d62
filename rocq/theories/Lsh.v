(** * Model of algorithm/detail/lsh_provider.hpp.

    Everything is parameterized by the meaning [sem] of out-of-range shift counts, because
    line 176 rotates by gamma, which is 0 for some words. [w] is 8 * sizeof(T). *)
From Verif Require Import Base Absorb Hasher MdState Validate ConstLsh.

(** lsh_provider.hpp:222-223 *)
Definition lsh_N (w : N) : N := if w =? 32 then 256 else 512.
(** lsh_provider.hpp:223 *)
Definition lsh_NS (w : N) : nat := if w =? 32 then 26 else 28.
(** lsh_provider.hpp:143 *)
Definition lsh_bs (w : N) : nat := N.to_nat (lsh_N w / 2).
(** sizeof(T). lsh_provider.hpp:103. *)
Definition lsh_wb (w : N) : nat := N.to_nat (w / 8).
(** lsh_provider.hpp:23-36, step_constant *)
Definition lsh_sc (w : N) (i l : nat) : N := nthN l (nth i (if w =? 32 then lsh_SC256 else lsh_SC512) []).
(** lsh_provider.hpp:38-51, gamma *)
Definition lsh_gamma (w : N) (l : nat) : N := nthN l (if w =? 32 then lsh_G256 else lsh_G512).
(** lsh_provider.hpp:53-66, alphabeta *)
Definition lsh_ab (w : N) (l : nat) : N := nthN l (if w =? 32 then lsh_AB256 else lsh_AB512).

(** lsh_provider.hpp:150-165: one iteration; [a] is msgexp[i - 1], [b] is msgexp[i - 2]. *)
Definition lsh_expand1 (w : N) (a b : list N) : list N :=
  map (fun p => addw w (nthN (fst p) a) (nthN (snd p) b))
    [(0, 3); (1, 2); (2, 0); (3, 1); (4, 7); (5, 4); (6, 5); (7, 6);
     (8, 11); (9, 10); (10, 8); (11, 9); (12, 15); (13, 12); (14, 13); (15, 14)]%nat.
(** lsh_provider.hpp:148-166: [n] more rows, appended. *)
Fixpoint lsh_expand_rows (w : N) (n : nat) (a b : list N) : list (list N) :=
  match n with
  | O => []
  | S n' => let c := lsh_expand1 w a b in c :: lsh_expand_rows w n' c a
  end.
(** lsh_provider.hpp:145-167, msgexpand *)
Definition lsh_msgexpand (w : N) (data : list N) : list (list N) :=
  let ws := le_words (lsh_wb w) 32 data in
  let m0 := firstn 16 ws in
  let m1 := skipn 16 ws in
  m0 :: m1 :: lsh_expand_rows w (lsh_NS w - 1) m1 m0.

(** lsh_provider.hpp:169-177: t[l] and t[l + 8] *)
Definition lsh_addmix (sem : shift_sem) (w : N) (cv me : list N) (l : nat) (sc alpha beta gamma : N)
  : res (N * N) :=
  let x := N.lxor (nthN l cv) (nthN l me) in
  let y := N.lxor (nthN (l + 8) cv) (nthN (l + 8) me) in
  x <- rotl_c sem w (addw w x y) alpha ;;
  let x := N.lxor x sc in
  y <- rotl_c sem w (addw w x y) beta ;;
  z <- rotl_c sem w y gamma ;;
  Ok (addw w x y, z).

(** lsh_provider.hpp:179-205: the new (cv, t). The eight calls of addmix are a loop here. *)
Definition lsh_step1 (sem : shift_sem) (w : N) (me : list (list N)) (cv : list N) (i : nat) (alpha beta : N)
  : res (list N * list N) :=
  ps <- fold_res (fun acc l =>
          p <- lsh_addmix sem w cv (nth i me []) l (lsh_sc w i l) alpha beta (lsh_gamma w l) ;;
          Ok (acc ++ [p])) (seq 0 8) [] ;;
  let t := map fst ps ++ map snd ps in
  Ok (map (fun j => nthN j t) [6; 4; 5; 7; 12; 15; 14; 13; 2; 0; 1; 3; 8; 11; 10; 9]%nat, t).

(** lsh_provider.hpp:207-220: one block of transform. The state is cv, then t, then
    the rows of msgexp. *)
Definition lsh_block (sem : shift_sem) (w : N) (S : list N) (_ : N) (data : list N) : res (list N) :=
  let me := lsh_msgexpand w data in
  ' (cv, t) <- fold_res (fun (ct : list N * list N) k =>
       ' (cv, _) <- lsh_step1 sem w me (fst ct) (2 * k) (lsh_ab w 0) (lsh_ab w 1) ;;
       lsh_step1 sem w me cv (2 * k + 1) (lsh_ab w 2) (lsh_ab w 3))
     (seq 0 (lsh_NS w / 2)) (firstn 16 S, firstn 16 (skipn 16 S)) ;;
  let cv := map (fun i => N.lxor (nthN i cv) (nthN i (nth (lsh_NS w) me []))) (seq 0 16) in
  Ok (cv ++ t ++ concat me).

(** lsh_provider.hpp:225-231 *)
Record lsh_st := mklsh { lss : st; lshs : N }.

(** lsh_provider.hpp:75-81; [g] is the memory of the object. *)
Definition lsh_ctor (w hs : N) (g : st) : res lsh_st :=
  _ <- validate_max hs (lsh_N w) ;; Ok (mklsh g hs).
(** lsh_provider.hpp:83-89 *)
Definition lsh_ctor_static (hs : N) (g : st) : res lsh_st := Ok (mklsh g hs).

(** lsh_provider.hpp:96-110 *)
Definition lsh_init (sem : shift_sem) (w : N) (s : lsh_st) : res lsh_st :=
  let cv := lsh_N w / 8 :: trunc w (lshs s) :: zeros 14 in
  S <- md_transform1_res (lsh_block sem w) (lsh_bs w) (cv ++ skipn 16 (sh (lss s))) (zeros (lsh_bs w)) 0 ;;
  Ok (mklsh (mkst (firstn 16 S ++ zeros (length S - 16)) (sm (lss s)) 0 0) (lshs s)).

(** lsh_provider.hpp:112-116 *)
Definition lsh_update (sem : shift_sem) (w : N) (s : lsh_st) (data : list N) : res lsh_st :=
  x <- md_update_res (lsh_block sem w) (lsh_bs w) (lsh_bs w) (lss s) data ;; Ok (mklsh x (lshs s)).

(** lsh_provider.hpp:118-130 *)
Definition lsh_final (sem : shift_sem) (w : N) (s : lsh_st) : res (lsh_st * list N) :=
  let x := lss s in
  m <- store (sm x) (spos x) 0x80 ;;
  let pos := (spos x + 1)%nat in
  let total := trunc 64 (stotal x + N.of_nat (pos * 8)) in
  m <- (if negb (pos =? lsh_bs w)%nat then k <- size_sub (lsh_bs w) pos ;; memset m pos 0 k else Ok m) ;;
  S <- md_transform1_res (lsh_block sem w) (lsh_bs w) (sh x) m total ;;
  let h := map (fun i => N.lxor (nthN i S) (nthN (i + 8) S)) (seq 0 8) in
  d <- load (words_bytes (lsh_wb w) h) 0 (N.to_nat (lshs s / 8)) ;;
  Ok (mklsh (mkst S m pos total) (lshs s), d).

(** lsh_provider.hpp:132-138 *)
Definition lsh_clear (s : lsh_st) : res lsh_st :=
  let x := lss s in
  Ok (mklsh (mkst (zero_memory (sh x)) (zero_memory (sm x)) (spos x) (stotal x)) (lshs s)).

(** algorithm/lsh.hpp and the static_size variants; lsh_provider.hpp:140 *)
Definition lsh (sem : shift_sem) (w : N) : hash_provider :=
  {| hp := {| pst := lsh_st; p_init := lsh_init sem w; p_update := lsh_update sem w; p_clear := lsh_clear;
              p_param := Empty_set; p_set := no_set |};
     hp_final := lsh_final sem w; hp_size := lshs |}.
