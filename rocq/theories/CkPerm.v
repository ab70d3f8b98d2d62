(** * Checked versions of the Keccak, Ascon, Sparkle, JH and Threefish permutations.

    The definitions [k…] mirror those of Keccak.v, Ascon.v, Esch.v, Jh.v and Skein.v, with the
    operations of Checked.v; the lines of the code are those cited there. *)
From Verif Require Import Base Checked Lemmas MdState Keccak Ascon Esch Jh Skein
  ConstSha3 ConstAscon ConstEsch ConstJh ConstSkein.

(** ** Keccak *)

(** sha3_provider.hpp:27-100 *)
Definition kkc_round (A : list K) (round : nat) : list K :=
  let a i := kget i A in
  let C0 := kxor (kxor (kxor (kxor (a 0%nat) (a 5%nat)) (a 10%nat)) (a 15%nat)) (a 20%nat) in
  let C1 := kxor (kxor (kxor (kxor (a 1%nat) (a 6%nat)) (a 11%nat)) (a 16%nat)) (a 21%nat) in
  let C2 := kxor (kxor (kxor (kxor (a 2%nat) (a 7%nat)) (a 12%nat)) (a 17%nat)) (a 22%nat) in
  let C3 := kxor (kxor (kxor (kxor (a 3%nat) (a 8%nat)) (a 13%nat)) (a 18%nat)) (a 23%nat) in
  let C4 := kxor (kxor (kxor (kxor (a 4%nat) (a 9%nat)) (a 14%nat)) (a 19%nat)) (a 24%nat) in
  let D0 := kxor C4 (krotl 64 C1 (Ok 1)) in
  let D1 := kxor C0 (krotl 64 C2 (Ok 1)) in
  let D2 := kxor C1 (krotl 64 C3 (Ok 1)) in
  let D3 := kxor C2 (krotl 64 C4 (Ok 1)) in
  let D4 := kxor C3 (krotl 64 C0 (Ok 1)) in
  let B00 := kxor (a 0%nat) D0 in
  let B10 := krotl 64 (kxor (a 1%nat) D1) (Ok 1) in
  let B20 := krotl 64 (kxor (a 2%nat) D2) (Ok 62) in
  let B5 := krotl 64 (kxor (a 3%nat) D3) (Ok 28) in
  let B15 := krotl 64 (kxor (a 4%nat) D4) (Ok 27) in
  let B16 := krotl 64 (kxor (a 5%nat) D0) (Ok 36) in
  let B1 := krotl 64 (kxor (a 6%nat) D1) (Ok 44) in
  let B11 := krotl 64 (kxor (a 7%nat) D2) (Ok 6) in
  let B21 := krotl 64 (kxor (a 8%nat) D3) (Ok 55) in
  let B6 := krotl 64 (kxor (a 9%nat) D4) (Ok 20) in
  let B7 := krotl 64 (kxor (a 10%nat) D0) (Ok 3) in
  let B17 := krotl 64 (kxor (a 11%nat) D1) (Ok 10) in
  let B2 := krotl 64 (kxor (a 12%nat) D2) (Ok 43) in
  let B12 := krotl 64 (kxor (a 13%nat) D3) (Ok 25) in
  let B22 := krotl 64 (kxor (a 14%nat) D4) (Ok 39) in
  let B23 := krotl 64 (kxor (a 15%nat) D0) (Ok 41) in
  let B8 := krotl 64 (kxor (a 16%nat) D1) (Ok 45) in
  let B18 := krotl 64 (kxor (a 17%nat) D2) (Ok 15) in
  let B3 := krotl 64 (kxor (a 18%nat) D3) (Ok 21) in
  let B13 := krotl 64 (kxor (a 19%nat) D4) (Ok 8) in
  let B14 := krotl 64 (kxor (a 20%nat) D0) (Ok 18) in
  let B24 := krotl 64 (kxor (a 21%nat) D1) (Ok 2) in
  let B9 := krotl 64 (kxor (a 22%nat) D2) (Ok 61) in
  let B19 := krotl 64 (kxor (a 23%nat) D3) (Ok 56) in
  let B4 := krotl 64 (kxor (a 24%nat) D4) (Ok 14) in
  let chi x y z := kxor x (kand (knot 64 y) z) in
  [kxor (chi B00 B1 B2) (ktab round sha3_RC);
   chi B1 B2 B3; chi B2 B3 B4; chi B3 B4 B00; chi B4 B00 B1;
   chi B5 B6 B7; chi B6 B7 B8; chi B7 B8 B9; chi B8 B9 B5; chi B9 B5 B6;
   chi B10 B11 B12; chi B11 B12 B13; chi B12 B13 B14; chi B13 B14 B10; chi B14 B10 B11;
   chi B15 B16 B17; chi B16 B17 B18; chi B17 B18 B19; chi B18 B19 B15; chi B19 B15 B16;
   chi B20 B21 B22; chi B21 B22 B23; chi B22 B23 B24; chi B23 B24 B20; chi B24 B20 B21].

(** sha3_provider.hpp:22-102 *)
Definition kkc_perm (R : nat) (A : list K) : list K := fold_left kkc_round (seq (24 - R) R) A.

(** sha3_provider.hpp:104-116: A[i] ^= data[i] for the first [r64] lanes of [A]. *)
Definition kkc_block (R r64 : nat) (A : list K) (data : list N) : list K :=
  let A := fold_left (fun A i => kupd i (kxor (kget i A) (kget i (kl (le_words 8 r64 data)))) A) (seq 0 r64) A in
  kkc_perm R A.

Lemma kkc_round_ok A r : length A = 25%nat -> (r < 24)%nat ->
  kkc_round (kl A) r = kl (kc_round A r) /\ length (kc_round A r) = 25%nat.
Proof.
  intros HA Hr. split; [|reflexivity]. unfold kkc_round, kc_round.
  rewrite ktab_ok by exact Hr. set (rc := nthN r sha3_RC). clearbody rc.
  explode A HA. reflexivity.
Qed.

Lemma kkc_perm_ok R A : (R <= 24)%nat -> length A = 25%nat ->
  kkc_perm R (kl A) = kl (kc_perm R A) /\ length (kc_perm R A) = 25%nat.
Proof.
  intros HR HA. unfold kkc_perm, kc_perm.
  apply (fold_k nat _ _ (fun v => length v = 25%nat) kl); [|exact HA].
  intros s i Hi Hs. apply kkc_round_ok; [exact Hs|]. apply in_seq in Hi. lia.
Qed.

(** Xoring a list into the first words of an array, word by word. *)
Lemma xor_prefix_fold f M : forall A n,
  length M = n -> (n <= length A)%nat ->
  fold_left (fun A i => upd i (f (nth i A 0) (nth i M 0)) A) (seq 0 n) A
  = map2 f (firstn n A) M ++ skipn n A.
Proof.
  intros A n HM HA.
  enough (G : forall k, (k <= n)%nat ->
    fold_left (fun A i => upd i (f (nth i A 0) (nth i M 0)) A) (seq 0 k) A
    = map2 f (firstn k A) (firstn k M) ++ skipn k A).
  { rewrite (G n) by lia. now rewrite <- HM, (firstn_all M). }
  induction k as [|k IH]; intros Hk; [reflexivity|].
  rewrite seq_S, fold_left_app, IH by lia. cbn [fold_left Nat.add].
  assert (L2 : forall (a b : list N), length a = length b -> length (map2 f a b) = length a).
  { clear. induction a as [|x a IH]; intros [|y b] H; try discriminate; [reflexivity|].
    cbn [map2 length]. f_equal. apply IH. now injection H. }
  assert (Lk : length (map2 f (firstn k A) (firstn k M)) = k)
    by (rewrite L2; rewrite !firstn_length; lia).
  assert (EA : skipn k A = nth k A 0 :: skipn (S k) A).
  { rewrite <- (firstn_skipn k A) at 2. rewrite app_nth2; rewrite firstn_length, Nat.min_l by lia; [|lia].
    rewrite Nat.sub_diag. destruct (skipn k A) as [|x r] eqn:E.
    - exfalso. assert (length (skipn k A) = 0%nat) by now rewrite E. rewrite skipn_length in H. lia.
    - cbn [nth]. f_equal. replace (S k) with (1 + k)%nat by lia.
      rewrite <- (skipn_skipn 1 k A), E. reflexivity. }
  assert (F : forall (l : list N), (k < length l)%nat -> firstn (S k) l = firstn k l ++ [nth k l 0]).
  { clear. induction k as [|k IH]; intros [|x l] H; cbn [length] in H; try lia; [reflexivity|].
    cbn [firstn nth app]. f_equal. apply IH. lia. }
  rewrite EA.
  assert (N1 : nth k (map2 f (firstn k A) (firstn k M) ++ nth k A 0 :: skipn (S k) A) 0 = nth k A 0).
  { rewrite app_nth2 by lia. now rewrite Lk, Nat.sub_diag. }
  rewrite N1, (F A), (F M) by lia.
  assert (U : forall (a : list N) v x r, length a = k -> upd k v (a ++ x :: r) = a ++ v :: r).
  { clear. intros a. revert k. induction a as [|y a IH]; intros k v x r H; subst k; [reflexivity|].
    cbn [length app upd]. f_equal. now apply IH. }
  rewrite U by exact Lk.
  assert (M2 : forall (a b : list N) x y, length a = length b -> map2 f (a ++ [x]) (b ++ [y]) = map2 f a b ++ [f x y]).
  { clear. induction a as [|u a IH]; intros [|v b] x y H; try discriminate; [reflexivity|].
    cbn [app map2]. f_equal. apply IH. now injection H. }
  rewrite M2 by (rewrite !firstn_length; lia).
  now rewrite <- app_assoc.
Qed.

Lemma kkc_block_ok R r64 A t data : (R <= 24)%nat -> (r64 <= 25)%nat -> length A = 25%nat ->
  kc_block R r64 A t data = Ok (kc_perm R (map2 N.lxor (firstn r64 A) (le_words 8 r64 data) ++ skipn r64 A))
  /\ kkc_block R r64 (kl A) data = kl (kc_perm R (map2 N.lxor (firstn r64 A) (le_words 8 r64 data) ++ skipn r64 A)).
Proof.
  intros HR Hr HA. split.
  { unfold kc_block. now rewrite (proj2 (Nat.leb_le r64 25) Hr). }
  unfold kkc_block.
  assert (HM : length (le_words 8 r64 data) = r64) by apply le_words_length.
  set (M := le_words 8 r64 data) in *. clearbody M. cbv zeta.
  destruct (fold_k nat _ _ (fun v => length v = 25%nat) kl
    (fun A i => upd i (N.lxor (nth i A 0) (nth i M 0)) A)
    (fun A i => kupd i (kxor (kget i A) (kget i (kl M))) A) (seq 0 r64) A) as [E L].
  - intros s i Hi Hs. apply in_seq in Hi. rewrite !kget_ok by lia. cbn [kxor bind].
    rewrite kupd_ok by lia. now rewrite upd_len.
  - exact HA.
  - rewrite E. rewrite xor_prefix_fold in L |- * by lia. now apply kkc_perm_ok.
Qed.

(** ** Ascon *)

(** ascon_provider.hpp:149-164 *)
Definition kascon_sub (H : list K) (rc : K) : list K :=
  let h i := kget i H in
  let h2 := kxor (h 2%nat) rc in
  let h0 := kxor (h 0%nat) (h 4%nat) in
  let h4 := kxor (h 4%nat) (h 3%nat) in
  let h2 := kxor h2 (h 1%nat) in
  let h1 := h 1%nat in
  let h3 := h 3%nat in
  let t0 := kxor h0 (kand (knot 64 h1) h2) in
  let t1 := kxor h1 (kand (knot 64 h2) h3) in
  let t2 := kxor h2 (kand (knot 64 h3) h4) in
  let t3 := kxor h3 (kand (knot 64 h4) h0) in
  let t4 := kxor h4 (kand (knot 64 h0) h1) in
  let t1 := kxor t1 t0 in
  let t0 := kxor t0 t4 in
  let t3 := kxor t3 t2 in
  let t2 := knot 64 t2 in
  [t0; t1; t2; t3; t4].

(** ascon_provider.hpp:166-170 *)
Definition kascon_lin (t : list K) : list K :=
  let l x a b := kxor (kxor x (krotr 64 x (Ok a))) (krotr 64 x (Ok b)) in
  [l (kget 0 t) 19 28; l (kget 1 t) 61 39; l (kget 2 t) 1 6; l (kget 3 t) 10 17; l (kget 4 t) 7 41].
(** ascon_provider.hpp:147-171 *)
Definition kascon_perm (H : list K) : list K :=
  fold_left (fun H i => kascon_lin (kascon_sub H (ktab i ascon_RC))) (seq 0 12) H.
(** ascon_provider.hpp:143-172 *)
Definition kascon_block (H : list K) (data : list N) : list K :=
  kascon_perm (kupd 0 (kxor (kget 0 H) (Ok (le_word data))) H).

Lemma kascon_perm_ok H : length H = 5%nat ->
  kascon_perm (kl H) = kl (ascon_perm H) /\ length (ascon_perm H) = 5%nat.
Proof.
  intros HH. unfold kascon_perm, ascon_perm.
  apply (fold_k nat _ _ (fun v => length v = 5%nat) kl); [|exact HH].
  intros s i Hi Hs. apply in_seq in Hi.
  rewrite ktab_ok by (change (length ascon_RC) with 12%nat; lia).
  set (rc := nthN i ascon_RC). clearbody rc.
  split; [|reflexivity]. explode s Hs. reflexivity.
Qed.
Lemma kascon_block_ok H t data : length H = 5%nat ->
  kascon_block (kl H) data = kl (ascon_block H t data).
Proof.
  intros HH. unfold kascon_block, ascon_block.
  rewrite kget_ok by lia. cbn [kxor bind]. rewrite kupd_ok by lia.
  destruct H as [|x H]; [discriminate|].
  now apply kascon_perm_ok.
Qed.

(** ** Esch *)

(** esch_provider.hpp:32-43 *)
Definition kesch_alz (c : K) (x y : K) : K * K :=
  let x := kadd 32 x (krotr 32 y (Ok 31)) in
  let y := kxor y (krotr 32 x (Ok 24)) in
  let x := kxor x c in
  let x := kadd 32 x (krotr 32 y (Ok 17)) in
  let y := kxor y (krotr 32 x (Ok 17)) in
  let x := kxor x c in
  let x := kadd 32 x y in
  let y := kxor y (krotr 32 x (Ok 31)) in
  let x := kxor x c in
  let x := kadd 32 x (krotr 32 y (Ok 24)) in
  let y := kxor y (krotr 32 x (Ok 16)) in
  let x := kxor x c in
  (x, y).
(** esch_provider.hpp:52-53, 186-187 *)
Definition kesch_ell (x : K) : K := krotr 32 (kxor x (kshl 32 x (Ok 16))) (Ok 16).
Definition kxor_at (i : nat) (v : K) (H : list K) : list K := kupd i (kxor (kget i H) v) H.

(** esch_provider.hpp:26-71 *)
Definition kesch_step (rounds : nat) (H : list K) (s : nat) : list K :=
  let H := kxor_at 1 (ktab (s mod 8) esch_C) H in
  let H := kxor_at 3 (Ok (N.of_nat s)) H in
  let H := fold_left (fun H j =>
    let xy := kesch_alz (ktab j esch_C) (kget (2 * j) H) (kget (2 * j + 1) H) in
    kupd (2 * j + 1) (snd xy) (kupd (2 * j) (fst xy) H)) (seq 0 rounds) H in
  let x := kxor (kxor (kget 0 H) (kget 2 H)) (kget 4 H) in
  let y := kxor (kxor (kget 1 H) (kget 3 H)) (kget 5 H) in
  let x := if (6 <? rounds)%nat then kxor x (kget 6 H) else x in
  let y := if (6 <? rounds)%nat then kxor y (kget 7 H) else y in
  let x := kesch_ell x in
  let y := kesch_ell y in
  let H := fold_left (fun H k =>
    let i := (2 * k)%nat in
    let j := (rounds + 2 * k)%nat in
    let H := kxor_at j (kxor (kget i H) y) H in
    kxor_at (j + 1) (kxor (kget (i + 1) H) x) H) (seq 0 (rounds / 2)) H in
  let x := kget rounds H in
  let y := kget (rounds + 1) H in
  let H := fold_left (fun H i =>
    let H := kupd (i + rounds) (kget i H) H in
    kupd i (kget (i + rounds + 2) H) H) (seq 0 (rounds - 2)) H in
  let H := kupd (rounds * 2 - 2) (kget (rounds - 2) H) H in
  let H := kupd (rounds * 2 - 1) (kget (rounds - 1) H) H in
  let H := kupd (rounds - 2) x H in
  kupd (rounds - 1) y H.
(** esch_provider.hpp:24-72 *)
Definition ksparkle (rounds ns : nat) (H : list K) : list K := fold_left (kesch_step rounds) (seq 0 ns) H.

(** Evaluate the checked operations one at a time, naming each result. *)
Lemma krotr_e w a n : (w <=? 64) && (0 <? n) && (n <? w) = true -> krotr w (Ok a) (Ok n) = Ok (rotr w a n).
Proof. rewrite !andb_true_iff, N.leb_le, !N.ltb_lt. intros [[A B] C]. now apply krotr_ok. Qed.
Lemma kadd_e w a b : kadd w (Ok a) (Ok b) = Ok (addw w a b).
Proof. reflexivity. Qed.
Lemma kxor_e a b : kxor (Ok a) (Ok b) = Ok (N.lxor a b).
Proof. reflexivity. Qed.
Ltac kname := repeat match goal with
  | |- context [krotr ?w (Ok ?a) (Ok ?n)] =>
      rewrite (krotr_e w a n eq_refl); generalize (rotr w a n); intros ?
  | |- context [kadd ?w (Ok ?a) (Ok ?b)] =>
      rewrite (kadd_e w a b); generalize (addw w a b); intros ?
  | |- context [kxor (Ok ?a) (Ok ?b)] =>
      rewrite (kxor_e a b); generalize (N.lxor a b); intros ?
  end.
Definition okp (p : N * N) : K * K := (Ok (fst p), Ok (snd p)).
Lemma kesch_alz_ok c x y : kesch_alz (Ok c) (Ok x) (Ok y) = okp (esch_alz c x y).
Proof. unfold kesch_alz, esch_alz. cbv zeta. kname. reflexivity. Qed.
Lemma kesch_ell_ok x : kesch_ell (Ok x) = Ok (esch_ell x).
Proof. reflexivity. Qed.

Lemma kxor_at_ok i v H n : length H = n -> (i < n)%nat ->
  kxor_at i (Ok v) (kl H) = kl (xor_at i v H) /\ length (xor_at i v H) = n.
Proof.
  intros <- Hi. unfold kxor_at, xor_at. rewrite kget_ok by exact Hi. cbn [kxor bind].
  now rewrite kupd_ok, upd_len by exact Hi.
Qed.
Lemma kupd_len_ok i v H n : length H = n -> (i < n)%nat ->
  kupd i (Ok v) (kl H) = kl (upd i v H) /\ length (upd i v H) = n.
Proof. intros <- Hi. now rewrite kupd_ok, upd_len by exact Hi. Qed.

(** The three loops of a step. *)
Lemma sparkle_loop1 rounds H : (rounds <= 8)%nat -> length H = (2 * rounds)%nat ->
  let f := fun H j =>
    let xy := esch_alz (nthN j esch_C) (nthN (2 * j) H) (nthN (2 * j + 1) H) in
    upd (2 * j + 1) (snd xy) (upd (2 * j) (fst xy) H) in
  fold_left (fun H j =>
    let xy := kesch_alz (ktab j esch_C) (kget (2 * j) H) (kget (2 * j + 1) H) in
    kupd (2 * j + 1) (snd xy) (kupd (2 * j) (fst xy) H)) (seq 0 rounds) (kl H)
  = kl (fold_left f (seq 0 rounds) H) /\ length (fold_left f (seq 0 rounds) H) = (2 * rounds)%nat.
Proof.
  intros Hr HH f.
  apply (fold_k nat _ _ (fun v => length v = (2 * rounds)%nat) kl); [|exact HH].
  intros v j Hj Hv. apply in_seq in Hj. unfold f.
  rewrite ktab_ok by (change (length esch_C) with 8%nat; lia).
  rewrite !kget_ok by lia. rewrite kesch_alz_ok.
  destruct (esch_alz (nthN j esch_C) (nthN (2 * j) v) (nthN (2 * j + 1) v)) as [x y].
  cbv zeta. cbn [okp fst snd].
  rewrite !kupd_ok by (rewrite ?upd_len; lia). now rewrite !upd_len.
Qed.
Lemma sparkle_loop2 rounds H x y : length H = (2 * rounds)%nat ->
  let f := fun H k =>
    let i := (2 * k)%nat in
    let j := (rounds + 2 * k)%nat in
    let H := xor_at j (N.lxor (nthN i H) y) H in
    xor_at (j + 1) (N.lxor (nthN (i + 1) H) x) H in
  fold_left (fun H k =>
    let i := (2 * k)%nat in
    let j := (rounds + 2 * k)%nat in
    let H := kxor_at j (kxor (kget i H) (Ok y)) H in
    kxor_at (j + 1) (kxor (kget (i + 1) H) (Ok x)) H) (seq 0 (rounds / 2)) (kl H)
  = kl (fold_left f (seq 0 (rounds / 2)) H) /\ length (fold_left f (seq 0 (rounds / 2)) H) = (2 * rounds)%nat.
Proof.
  intros HH f.
  apply (fold_k nat _ _ (fun v => length v = (2 * rounds)%nat) kl); [|exact HH].
  intros v k Hk Hv. apply in_seq in Hk. unfold f. cbv zeta.
  pose proof (Nat.div_mod rounds 2). assert (rounds mod 2 < 2)%nat by now apply Nat.mod_upper_bound.
  rewrite kget_ok by lia. cbn [kxor bind].
  destruct (kxor_at_ok (rounds + 2 * k) (N.lxor (nthN (2 * k) v) y) v _ Hv) as [-> L]; [lia|].
  set (v1 := xor_at (rounds + 2 * k) _ v) in *. clearbody v1.
  rewrite kget_ok by lia. cbn [kxor bind].
  apply kxor_at_ok; [exact L | lia].
Qed.
Lemma sparkle_loop3 rounds H : (2 <= rounds)%nat -> length H = (2 * rounds)%nat ->
  let f := fun H i =>
    let H := upd (i + rounds) (nthN i H) H in
    upd i (nthN (i + rounds + 2) H) H in
  fold_left (fun H i =>
    let H := kupd (i + rounds) (kget i H) H in
    kupd i (kget (i + rounds + 2) H) H) (seq 0 (rounds - 2)) (kl H)
  = kl (fold_left f (seq 0 (rounds - 2)) H) /\ length (fold_left f (seq 0 (rounds - 2)) H) = (2 * rounds)%nat.
Proof.
  intros Hr HH f.
  apply (fold_k nat _ _ (fun v => length v = (2 * rounds)%nat) kl); [|exact HH].
  intros v i Hi Hv. apply in_seq in Hi. unfold f. cbv zeta.
  rewrite kget_ok by lia.
  destruct (kupd_len_ok (i + rounds) (nthN i v) v _ Hv) as [-> L]; [lia|].
  set (v1 := upd (i + rounds) (nthN i v) v) in *. clearbody v1.
  rewrite kget_ok by lia. apply kupd_len_ok; [exact L | lia].
Qed.

Lemma kesch_step_ok rounds H s : rounds = 6%nat \/ rounds = 8%nat -> length H = (2 * rounds)%nat ->
  kesch_step rounds (kl H) s = kl (esch_step rounds H s)
  /\ length (esch_step rounds H s) = (2 * rounds)%nat.
Proof.
  intros Hr HH. unfold kesch_step, esch_step.
  rewrite (ktab_ok (s mod 8)) by (change (length esch_C) with 8%nat; now apply Nat.mod_upper_bound).
  set (c := nthN (s mod 8) esch_C). clearbody c.
  destruct (kxor_at_ok 1 c H _ HH) as [-> L]; [lia|]. clear HH.
  set (H1 := xor_at 1 c H) in *. clearbody H1. cbv zeta.
  destruct (kxor_at_ok 3 (N.of_nat s) H1 _ L) as [-> L1]; [lia|]. clear L.
  set (H2 := xor_at 3 (N.of_nat s) H1) in *. clearbody H2.
  destruct (sparkle_loop1 rounds H2) as [E L]; [lia | exact L1|]. cbv zeta in E, L. rewrite E. clear E L1.
  set (H3 := fold_left _ (seq 0 rounds) H2) in *. clearbody H3.
  rewrite !(kget_ok 0 H3), !(kget_ok 1 H3), !(kget_ok 2 H3), !(kget_ok 3 H3), !(kget_ok 4 H3), !(kget_ok 5 H3),
    !(kget_ok 6 H3), !(kget_ok 7 H3) by lia.
  cbn [kxor bind].
  assert (I : forall a b : N, (if (6 <? rounds)%nat then Ok a else Ok b) = Ok (if (6 <? rounds)%nat then a else b))
    by (intros; now destruct (6 <? rounds)%nat).
  rewrite !I, !kesch_ell_ok. clear I.
  set (x := esch_ell (if (6 <? rounds)%nat then N.lxor (N.lxor (N.lxor (nthN 0 H3) _) _) _ else _)).
  set (y := esch_ell (if (6 <? rounds)%nat then N.lxor (N.lxor (N.lxor (nthN 1 H3) _) _) _ else _)).
  destruct (sparkle_loop2 rounds H3 x y L) as [E L1]. cbv zeta in E, L1. rewrite E. clear E L.
  set (H4 := fold_left _ (seq 0 (rounds / 2)) H3) in *. clearbody H4.
  destruct (sparkle_loop3 rounds H4) as [E L]; [lia | exact L1|]. cbv zeta in E, L. rewrite E. clear E.
  set (H5 := fold_left _ (seq 0 (rounds - 2)) H4) in *. clearbody H5.
  rewrite !(kget_ok _ H4) by lia. rewrite (kget_ok _ H5) by lia.
  destruct (kupd_len_ok (rounds * 2 - 2) (nthN (rounds - 2) H5) H5 _ L) as [-> L2]; [lia|].
  set (H6 := upd (rounds * 2 - 2) _ H5) in *. clearbody H6.
  rewrite (kget_ok _ H6) by lia.
  destruct (kupd_len_ok (rounds * 2 - 1) (nthN (rounds - 1) H6) H6 _ L2) as [-> L3]; [lia|].
  set (H7 := upd (rounds * 2 - 1) _ H6) in *. clearbody H7.
  destruct (kupd_len_ok (rounds - 2) (nthN rounds H4) H7 _ L3) as [-> L4]; [lia|].
  set (H8 := upd (rounds - 2) _ H7) in *. clearbody H8.
  apply kupd_len_ok; [exact L4 | lia].
Qed.

Lemma ksparkle_ok rounds ns H : rounds = 6%nat \/ rounds = 8%nat -> length H = (2 * rounds)%nat ->
  ksparkle rounds ns (kl H) = kl (sparkle rounds ns H) /\ length (sparkle rounds ns H) = (2 * rounds)%nat.
Proof.
  intros Hr HH. unfold ksparkle, sparkle.
  apply (fold_k nat _ _ (fun v => length v = (2 * rounds)%nat) kl); [|exact HH].
  intros s i _ Hs. now apply kesch_step_ok.
Qed.

(** esch_provider.hpp:179-203 *)
Definition kesch_block (hs : N) (lastBlock : bool) (H : list K) (data : list N) : list K :=
  let M := kl (le_words 4 4 data) in
  let x := kxor (kget 0 M) (kget 2 M) in
  let y := kxor (kget 1 M) (kget 3 M) in
  let x := kesch_ell x in
  let y := kesch_ell y in
  let H := kupd 0 (kxor (kxor (kget 0 H) (kget 0 M)) y) H in
  let H := kupd 1 (kxor (kxor (kget 1 H) (kget 1 M)) x) H in
  let H := kupd 2 (kxor (kxor (kget 2 H) (kget 2 M)) y) H in
  let H := kupd 3 (kxor (kxor (kget 3 H) (kget 3 M)) x) H in
  let H := kxor_at 4 y H in
  let H := kxor_at 5 x H in
  let H := if 256 <? hs then kxor_at 7 x (kxor_at 6 y H) else H in
  let steps := if lastBlock then 11%nat else 7%nat in
  let steps := if 256 <? hs then S steps else steps in
  ksparkle (esch_rounds hs) steps H.

Lemma kesch_block_ok hs lastBlock H t data : length H = (2 * esch_rounds hs)%nat ->
  kesch_block hs lastBlock (kl H) data = kl (esch_block hs lastBlock H t data).
Proof.
  intros HH. unfold kesch_block, esch_block.
  assert (HM : length (le_words 4 4 data) = 4%nat) by apply le_words_length.
  set (M := le_words 4 4 data) in *. clearbody M. cbv zeta.
  assert (Hr : esch_rounds hs = 6%nat \/ esch_rounds hs = 8%nat)
    by (unfold esch_rounds; destruct (256 <? hs); [right|left]; reflexivity).
  rewrite !(kget_ok 0 M), !(kget_ok 1 M), !(kget_ok 2 M), !(kget_ok 3 M) by lia.
  rewrite !kxor_e, !kesch_ell_ok.
  set (x := esch_ell (N.lxor (nthN 0 M) _)). set (y := esch_ell (N.lxor (nthN 1 M) _)).
  set (n := (2 * esch_rounds hs)%nat) in *.
  assert (Hn : (12 <= n)%nat) by lia.
  rewrite (kget_ok 0 H) by lia. rewrite !kxor_e.
  destruct (kupd_len_ok 0 (N.lxor (N.lxor (nthN 0 H) (nthN 0 M)) y) H n HH) as [-> L1]; [lia|].
  set (H1 := upd 0 _ H) in *. clearbody H1.
  rewrite (kget_ok 1 H1) by lia. rewrite !kxor_e.
  destruct (kupd_len_ok 1 (N.lxor (N.lxor (nthN 1 H1) (nthN 1 M)) x) H1 n L1) as [-> L2]; [lia|].
  set (H2 := upd 1 _ H1) in *. clearbody H2.
  rewrite (kget_ok 2 H2) by lia. rewrite !kxor_e.
  destruct (kupd_len_ok 2 (N.lxor (N.lxor (nthN 2 H2) (nthN 2 M)) y) H2 n L2) as [-> L3]; [lia|].
  set (H3 := upd 2 _ H2) in *. clearbody H3.
  rewrite (kget_ok 3 H3) by lia. rewrite !kxor_e.
  destruct (kupd_len_ok 3 (N.lxor (N.lxor (nthN 3 H3) (nthN 3 M)) x) H3 n L3) as [-> L4]; [lia|].
  set (H4 := upd 3 _ H3) in *. clearbody H4.
  destruct (kxor_at_ok 4 y H4 n L4) as [-> L5]; [lia|].
  set (H5 := xor_at 4 y H4) in *. clearbody H5.
  destruct (kxor_at_ok 5 x H5 n L5) as [-> L6]; [lia|].
  set (H6 := xor_at 5 x H5) in *. clearbody H6.
  assert (E : (if 256 <? hs then kxor_at 7 (Ok x) (kxor_at 6 (Ok y) (kl H6)) else kl H6)
    = kl (if 256 <? hs then xor_at 7 x (xor_at 6 y H6) else H6)
    /\ length (if 256 <? hs then xor_at 7 x (xor_at 6 y H6) else H6) = n).
  { destruct (256 <? hs); [|now split].
    destruct (kxor_at_ok 6 y H6 n L6) as [-> L7]; [lia|]. apply kxor_at_ok; [exact L7 | lia]. }
  destruct E as [-> L7].
  now apply ksparkle_ok.
Qed.
