(** * LSH, from KS X 3262 ("LSH: A New Fast Secure Hash Function Family", 2014). *)
From Verif Require Import Base SpecCommon HasherSpec.

(** Number of step functions, block size and digest capacity for word size w. *)
Definition lss_steps (w : N) : nat := if w =? 32 then 26 else 28.
Definition lss_bs (w : N) : nat := N.to_nat (4 * w).
(** Message expansion: the permutation tau. *)
Definition lss_tau (l : nat) : nat := nth l [3; 2; 0; 1; 7; 4; 5; 6; 11; 10; 8; 9; 15; 12; 13; 14]%nat 0%nat.
(** The pair M_j, M_{j+1}. *)
Fixpoint lss_MM (w : N) (block : list N) (j : nat) : list N * list N :=
  match j with
  | O => (le_words (N.to_nat (w / 8)) 16 block, le_words (N.to_nat (w / 8)) 16 (skipn (N.to_nat (2 * w)) block))
  | S j' =>
    let '(a, b) := lss_MM w block j' in
    (b, map (fun l => plus_mod w (nth l b 0) (nth (lss_tau l) a 0)) (seq 0 16))
  end.
Definition lss_M (w : N) (block : list N) (j : nat) : list N := fst (lss_MM w block j).
(** Step constants: eight given words, then SC_j = SC_{j-1} + ROTL^8(SC_{j-1}). *)
Definition lss_SC0 (w : N) : list N :=
  if w =? 32 then [0x917caf90; 0x6c1b10a2; 0x6f352943; 0xcf778243; 0x2ceb7472; 0x29e96ff2; 0x8a9ba428; 0x2eeb2642]
  else [0x97884283c938982a; 0xba1fca93533e2355; 0xc519a2e87aeb1c03; 0x9a0fc95462af17b1;
        0xfc3dda8ab019a82b; 0x02825d079a895407; 0x79f2d0a7ee06a6f7; 0xd76d15eed9fdf5fe].
Fixpoint lss_SC (w : N) (j : nat) : list N :=
  match j with
  | O => lss_SC0 w
  | S j' => map (fun x => plus_mod w x (ROTL w 8 x)) (lss_SC w j')
  end.
(** Rotation amounts. *)
Definition lss_alpha (w : N) (j : nat) : N :=
  if w =? 32 then (if Nat.even j then 29 else 5) else (if Nat.even j then 23 else 7).
Definition lss_beta (w : N) (j : nat) : N :=
  if w =? 32 then (if Nat.even j then 1 else 17) else (if Nat.even j then 59 else 3).
Definition lss_gamma (w : N) (l : nat) : N :=
  nth l (if w =? 32 then [0; 8; 16; 24; 24; 16; 8; 0] else [0; 16; 32; 48; 8; 24; 40; 56]) 0.
(** Mix_{j,l}(X, Y). *)
Definition lss_mix (w : N) (j l : nat) (x y : N) : N * N :=
  let x := plus_mod w x y in
  let x := ROTL w (lss_alpha w j) x in
  let x := N.lxor x (nth l (lss_SC w j) 0) in
  let y := plus_mod w x y in
  let y := ROTL w (lss_beta w j) y in
  let x := plus_mod w x y in
  let y := ROTL w (lss_gamma w l) y in
  (x, y).
(** Step_j: MsgAdd, Mix_j, WordPerm (the permutation sigma). *)
Definition lss_sigma (l : nat) : nat := nth l [6; 4; 5; 7; 12; 15; 14; 13; 2; 0; 1; 3; 8; 11; 10; 9]%nat 0%nat.
Definition lss_step (w : N) (block : list N) (cv : list N) (j : nat) : list N :=
  let T := map2 N.lxor cv (lss_M w block j) in
  let mixed l := lss_mix w j l (nth l T 0) (nth (l + 8) T 0) in
  let T := map (fun l => if (l <? 8)%nat then fst (mixed l) else snd (mixed (l - 8)%nat)) (seq 0 16) in
  map (fun l => nth (lss_sigma l) T 0) (seq 0 16).
(** The compression function. *)
Definition lss_CF (w : N) (cv block : list N) : list N :=
  map2 N.lxor (fold_left (lss_step w block) (seq 0 (lss_steps w)) cv) (lss_M w block (lss_steps w)).
(** Initialization from the word size and the digest size. *)
Definition lss_iv (w n : N) : list N := lss_CF w (w :: n :: zeros 14) (zeros (lss_bs w)).
(** One-zeros padding. *)
Definition lss_pad (w : N) (msg : list N) : list N :=
  msg ++ [128] ++ zeros (lss_bs w - 1 - length msg mod lss_bs w).
Definition lss_hash (w n : N) (msg : list N) : list N :=
  let cv := md_hash (lss_CF w) (lss_iv w n) (lss_bs w) (lss_pad w msg) in
  let h := map (fun l => N.lxor (nth l cv 0) (nth (l + 8) cv 0)) (seq 0 8) in
  firstn (N.to_nat (n / 8)) (words_bytes (N.to_nat (w / 8)) h).

Definition lsh_spec (w n : N) : hash_spec Empty_set :=
  {| sp_params := unit; sp_default := tt; sp_set := no_params_set; sp_size := N.to_nat (n / 8);
     sp_digest := fun _ msg => lss_hash w n msg |}.
