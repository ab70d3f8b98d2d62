(** * SPARKLE and the Esch / XOEsch functions.

    Written from the SPARKLE submission to the NIST lightweight cryptography process
    (version 1.2): a state is a list of branches (x, y) of two 32-bit words.
    Independent of the model. *)
From Verif Require Import Base SpecCommon HasherSpec.

Local Infix "[+]" := (plus_mod 32) (at level 50, left associativity).

(** Section 2.1.1: the round constants (from the digits of e). *)
Definition sparkle_c : list N :=
  [0xB7E15162; 0xBF715880; 0x38B4DA56; 0x324E7738; 0xBB1185EB; 0x4F7C7B57; 0xCFBFA1C8; 0xC2B3293D].

(** Section 2.1.2, figure 2.3: the ARX-box Alzette, four rounds with rotation amounts
    (31,24), (17,17), (0,31), (24,16). *)
Definition rot0 (r x : N) : N := if r =? 0 then x else ROTR 32 r x.
Definition alz_round (c : N) (p : N * N) (r : N * N) : N * N :=
  let x := fst p [+] rot0 (fst r) (snd p) in
  let y := N.lxor (snd p) (rot0 (snd r) x) in
  (N.lxor x c, y).
Definition alzette (c : N) (p : N * N) : N * N :=
  fold_left (alz_round c) [(31, 24); (17, 17); (0, 31); (24, 16)] p.

(** Section 2.1.3: l(x) = (x <<< 16) xor (x and 0xffff). *)
Definition ell (x : N) : N := N.lxor (ROTL 32 16 x) (x mod 2 ^ 16).
Definition xor_all (l : list N) : N := fold_left N.lxor l 0.

(** The Feistel function M_h on half a state. *)
Definition M_h (B : list (N * N)) : list (N * N) :=
  let tx := ell (xor_all (map fst B)) in
  let ty := ell (xor_all (map snd B)) in
  map (fun p => (N.lxor (fst p) ty, N.lxor (snd p) tx)) B.

Definition xor_br (p q : N * N) : N * N := (N.lxor (fst p) (fst q), N.lxor (snd p) (snd q)).

(** Linear layer: Feistel, the right half is rotated by one branch, the halves are
    swapped. *)
Definition rot1 {A} (l : list A) : list A := match l with [] => [] | a :: r => r ++ [a] end.
Definition lin (B : list (N * N)) : list (N * N) :=
  let h := (length B / 2)%nat in
  let L := firstn h B in
  let R := skipn h B in
  rot1 (map2 xor_br R (M_h L)) ++ L.

(** Algorithm 2.1: step [s]. *)
Definition sparkle_step (B : list (N * N)) (s : nat) : list (N * N) :=
  let B :=
    match B with
    | (x0, y0) :: (x1, y1) :: r =>
      (x0, N.lxor y0 (nth (s mod 8) sparkle_c 0)) :: (x1, N.lxor y1 (N.of_nat s mod 2 ^ 32)) :: r
    | _ => B
    end in
  lin (map2 alzette sparkle_c B).
Definition sparkle_p (ns : nat) (B : list (N * N)) : list (N * N) := fold_left sparkle_step (seq 0 ns) B.

(** Bytes of a state and branches of a byte string. *)
Definition branches_bytes (B : list (N * N)) : list N :=
  flat_map (fun p => le_bytes 4 (fst p) ++ le_bytes 4 (snd p)) B.
Fixpoint bytes_branches (k : nat) (d : list N) : list (N * N) :=
  match k with
  | O => []
  | S k' => (le_word (firstn 4 d), le_word (firstn 4 (skipn 4 d))) :: bytes_branches k' (skipn 8 d)
  end.

(** Esch256: SPARKLE384, h = 3, slim 7 and big 11 steps. Esch384: SPARKLE512, h = 4, 8 and
    12 steps. The rate is 128 bits. *)
Section Esch.
  Variable h : nat.
  Definition slim : nat := if (h =? 3)%nat then 7 else 8.
  Definition big : nat := if (h =? 3)%nat then 11 else 12.

  (** Indirect injection: M_h(P || 0) is added to the left half. *)
  Definition inject (B : list (N * N)) (P : list N) : list (N * N) :=
    map2 xor_br (firstn h B) (M_h (bytes_branches h (P ++ zeros (8 * h - 16)))) ++ skipn h B.

  Definition esch_absorb (B : list (N * N)) (P : list N) : list (N * N) := sparkle_p slim (inject B P).

  (** The domain constant is added to the last byte of the left half. *)
  Definition add_dom (d : N) (B : list (N * N)) : list (N * N) :=
    map (fun i => let p := nth i B (0, 0) in
                  if (i =? h - 1)%nat then (fst p, N.lxor (snd p) (d * 2 ^ 24)) else p)
      (seq 0 (2 * h)).

  (** All blocks but the last are absorbed with slim steps; the last block has 1 to 16
      bytes (0 only for the empty message). *)
  Definition esch_split (M : list N) : nat := ((length M - 1) / 16)%nat.
  Definition esch_state (xof : bool) (M : list N) : list (N * N) :=
    let l := (16 * esch_split M)%nat in
    let last := skipn l M in
    let B := fold_left esch_absorb (blocks 16 (firstn l M)) (repeat (0, 0) (2 * h)) in
    let full := (length last =? 16)%nat in
    let d := (if full then 2 else 1) + (if xof then 4 else 0) in
    let P := if full then last else last ++ [128] ++ zeros (15 - length last) in
    sparkle_p big (inject (add_dom d B) P).

  Definition std_esch (xof : bool) (M : list N) (n : nat) : list N :=
    squeeze_stream (sparkle_p slim) branches_bytes 16 n (esch_state xof M).
End Esch.

(** Esch256 and Esch384 return 256 and 384 bits. *)
Definition esch_spec (h : nat) : hash_spec Empty_set :=
  {| sp_params := unit; sp_default := tt; sp_set := fun _ _ _ => None; sp_size := (16 * h - 16)%nat;
     sp_digest := fun _ M => std_esch h false M (16 * h - 16) |}.
Definition esch_xof_spec (h : nat) : xof_spec Empty_set :=
  {| xs_params := unit; xs_default := tt; xs_set := fun _ _ _ => None;
     xs_out := fun _ M n => std_esch h true M n |}.
