(** * Checked versions of the table-driven compression functions: Whirlpool, Grøstl, Kupyna,
    Streebog and ECHO.

    The definitions [k…] mirror those of Whirlpool.v, TTable.v, Groestl.v, Kupyna.v,
    Streebog.v and Echo.v, with the operations of Checked.v; the lines of the code are those
    cited there. *)
From Verif Require Import Base Checked Lemmas MdState Whirlpool TTable Groestl Kupyna Streebog Echo
  ConstWhirlpool ConstGroestl ConstKupyna ConstStreebog ConstEcho.

(** A byte indexes a table of 256 entries. *)
Lemma byte_at_lt x n : (N.to_nat (byte_at x n) < 256)%nat.
Proof.
  unfold byte_at. change 255 with (N.ones 8). rewrite N.land_ones.
  assert (N.shiftr x n mod 2 ^ 8 < 2 ^ 8) by now apply N.mod_upper_bound.
  change (2 ^ 8) with 256 in *. lia.
Qed.
Definition tables_ok (T : list (list N)) (n : nat) : bool :=
  (n <=? length T)%nat && forallb (fun r => (length r =? 256)%nat) (firstn n T).
Lemma tables_row T n j : tables_ok T n = true -> (j < n)%nat ->
  (j < length T)%nat /\ length (nth j T []) = 256%nat.
Proof.
  unfold tables_ok. rewrite andb_true_iff, Nat.leb_le, forallb_forall. intros [A B] H.
  split; [lia|]. apply Nat.eqb_eq, B.
  replace (nth j T []) with (nth j (firstn n T) []).
  - apply nth_In. rewrite firstn_length. lia.
  - rewrite <- (firstn_skipn n T) at 2. rewrite app_nth1 by (rewrite firstn_length; lia). reflexivity.
Qed.
Lemma ktabw2_byte T n j x k : tables_ok T n = true -> (j < n)%nat ->
  ktabw2 j T (Ok (byte_at x k)) = Ok (tbl (nth j T []) (byte_at x k)).
Proof.
  intros HT Hj. destruct (tables_row T n j HT Hj) as [A B].
  apply ktabw2_ok; [exact A|]. rewrite B. apply byte_at_lt.
Qed.
Lemma kxor_e a b : kxor (Ok a) (Ok b) = Ok (N.lxor a b).
Proof. reflexivity. Qed.

(** ** Whirlpool *)

(** whirlpool_provider.hpp:21-32; ll[(a - j) % 8] with unsigned a, j <= a. *)
Definition kwp_G (a : nat) (ll : list K) : K :=
  let t j := ktabw2 j whirlpool_T (kbyte 64 (kget ((a - j) mod 8) ll) (Ok (N.of_nat (8 * j)))) in
  kxor (kxor (kxor (kxor (kxor (kxor (kxor (t 0%nat) (t 1%nat)) (t 2%nat)) (t 3%nat))
    (t 4%nat)) (t 5%nat)) (t 6%nat)) (t 7%nat).
(** whirlpool_provider.hpp:99-123 *)
Definition kwp_round (ks : list K * list K) (r : nat) : list K * list K :=
  let '(k, state) := ks in
  let L := [kxor (kwp_G 8 k) (ktab r whirlpool_RC); kwp_G 9 k; kwp_G 10 k; kwp_G 11 k;
            kwp_G 12 k; kwp_G 13 k; kwp_G 14 k; kwp_G 15 k] in
  let k := L in
  let L := [kxor (kget 0 L) (kwp_G 8 state); kxor (kget 1 L) (kwp_G 9 state);
            kxor (kget 2 L) (kwp_G 10 state); kxor (kget 3 L) (kwp_G 11 state);
            kxor (kget 4 L) (kwp_G 12 state); kxor (kget 5 L) (kwp_G 13 state);
            kxor (kget 6 L) (kwp_G 14 state); kxor (kget 7 L) (kwp_G 15 state)] in
  (k, L).
(** whirlpool_provider.hpp:91-129 *)
Definition kwp_block (h : list K) (data : list N) : list K :=
  let mp := kl (le_words 8 8 data) in
  let state := map2 kxor h mp in
  let '(_, state) := fold_left kwp_round (seq 0 10) (h, state) in
  map2 kxor h (map2 kxor state mp).

Lemma kwp_G_ok a ll : length ll = 8%nat -> kwp_G a (kl ll) = Ok (wp_G a ll).
Proof.
  intros HL.
  assert (HT : tables_ok whirlpool_T 8 = true) by (vm_compute; reflexivity).
  unfold kwp_G, wp_G. cbv zeta.
  assert (E : forall j, (j < 8)%nat ->
    ktabw2 j whirlpool_T (kbyte 64 (kget ((a - j) mod 8) (kl ll)) (Ok (N.of_nat (8 * j))))
    = Ok (tbl (nth j whirlpool_T []) (byte_at (nthN ((a - j) mod 8) ll) (N.of_nat (8 * j))))).
  { intros j Hj. rewrite kget_ok by (rewrite HL; now apply Nat.mod_upper_bound).
    rewrite kbyte_ok by lia. now apply (ktabw2_byte _ 8). }
  rewrite !E by lia. reflexivity.
Qed.

Definition klp (p : list N * list N) : list K * list K := (kl (fst p), kl (snd p)).

Lemma kwp_round_ok s r : length (fst s) = 8%nat /\ length (snd s) = 8%nat -> (r < 10)%nat ->
  kwp_round (klp s) r = klp (wp_round s r)
  /\ length (fst (wp_round s r)) = 8%nat /\ length (snd (wp_round s r)) = 8%nat.
Proof.
  destruct s as [k s]. cbn [fst snd]. intros [Lk Ls] Hr. unfold kwp_round, wp_round, klp. cbn [fst snd].
  rewrite !kwp_G_ok by assumption. rewrite ktab_ok by exact Hr. rewrite kxor_e.
  split; [|split; reflexivity]. reflexivity.
Qed.

Lemma map2_len (A B C : Type) (f : A -> B -> C) a b : length a = length b -> length (map2 f a b) = length a.
Proof.
  revert b. induction a as [|x a IH]; intros [|y b] H; try discriminate; [reflexivity|].
  cbn [map2 length]. f_equal. apply IH. now injection H.
Qed.

Lemma kwp_block_ok h t data : length h = 8%nat -> kwp_block (kl h) data = kl (wp_block h t data).
Proof.
  intros Hh. unfold kwp_block, wp_block.
  assert (HM : length (le_words 8 8 data) = 8%nat) by apply le_words_length.
  set (M := le_words 8 8 data) in *. clearbody M. cbv zeta.
  rewrite (map2_kl kxor N.lxor) by reflexivity.
  destruct (fold_k nat _ _ (fun s => length (fst s) = 8%nat /\ length (snd s) = 8%nat) klp wp_round kwp_round
    (seq 0 10) (h, map2 N.lxor h M)) as [E _].
  - intros s i Hi Hs. apply in_seq in Hi. apply kwp_round_ok; [exact Hs | lia].
  - cbn [fst snd]. rewrite map2_len by lia. now split.
  - unfold klp at 1 in E. cbn [fst snd] in E. rewrite E.
    destruct (fold_left wp_round (seq 0 10) (h, map2 N.lxor h M)) as [k s].
    unfold klp. cbn [fst snd]. now rewrite !(map2_kl kxor N.lxor) by reflexivity.
Qed.

(** ** Grøstl and Kupyna *)

Definition kttable_col (T : list (list N)) (R : nat) (off : nat -> nat) (x : list K) (c : nat) : K :=
  let t j := ktabw2 j T (kbyte 64 (kget ((c + off j) mod R) x) (Ok (N.of_nat (8 * j)))) in
  kxor (kxor (kxor (kxor (kxor (kxor (kxor (t 0%nat) (t 1%nat)) (t 2%nat)) (t 3%nat))
    (t 4%nat)) (t 5%nat)) (t 6%nat)) (t 7%nat).
Definition kttable (T : list (list N)) (R : nat) (off : nat -> nat) (x : list K) : list K :=
  map (kttable_col T R off x) (seq 0 R).

Lemma kttable_ok T R off x : tables_ok T 8 = true -> (0 < R)%nat -> length x = R ->
  kttable T R off (kl x) = kl (ttable T R off x) /\ length (ttable T R off x) = R.
Proof.
  intros HT HR Hx. unfold kttable, ttable. split; [|rewrite map_length; apply seq_length].
  apply map_ok. intros c _. unfold kttable_col, ttable_col. cbv zeta.
  assert (E : forall j, (j < 8)%nat ->
    ktabw2 j T (kbyte 64 (kget ((c + off j) mod R) (kl x)) (Ok (N.of_nat (8 * j))))
    = Ok (tbl (nth j T []) (byte_at (nthN ((c + off j) mod R) x) (N.of_nat (8 * j))))).
  { intros j Hj. rewrite kget_ok by (rewrite Hx; apply Nat.mod_upper_bound; lia).
    rewrite kbyte_ok by lia. now apply (ktabw2_byte _ 8). }
  rewrite !E by lia. reflexivity.
Qed.

(** groestl_provider.hpp:22-37 *)
Definition kgr_roundP (R : nat) (x : list K) (i : N) : list K :=
  let x := map2 kxor x (map (fun idx => kxor (kshl 64 (Ok (N.of_nat idx)) (Ok 4)) (Ok i)) (seq 0 R)) in
  kttable groestl_T R (fun j => if (j =? 7)%nat then (if (R =? 16)%nat then 11 else 7) else j)%nat x.
(** groestl_provider.hpp:39-54, 71-72 *)
Definition kgr_roundQ (R : nat) (x : list K) (r : N) : list K :=
  let i := kshl 64 (Ok r) (Ok 56) in
  let x := map2 kxor x
    (map (fun idx => kxor (ksub 64 (Ok 0xffffffffffffffff) (kshl 64 (Ok (N.of_nat idx)) (Ok 60))) i) (seq 0 R)) in
  kttable groestl_T R (fun j => nth j [1; 3; 5; if (R =? 16)%nat then 11 else 7; 0; 2; 4; 6] 0)%nat x.
(** kupyna_provider.hpp:22-53 *)
Definition kku_G (R : nat) (x : list K) : list K :=
  kttable kupyna_T R (fun j => R - (if (j =? 7)%nat then (if (R =? 16)%nat then 11 else 7) else j))%nat x.
Definition kku_roundP (R : nat) (x : list K) (i : N) : list K :=
  kku_G R (map2 kxor x (map (fun idx => kxor (kshl 64 (Ok (N.of_nat idx)) (Ok 4)) (Ok i)) (seq 0 R))).
Definition kku_roundQ (R : nat) (x : list K) (i : N) : list K :=
  kku_G R (map2 (kadd 64) x (map (fun j =>
    kxor (Ok 0x00F0F0F0F0F0F0F3)
      (kshl 64 (kxor (Ok (N.of_nat (R - 1 - j) * 0x10)) (kand (Ok i) (Ok 255))) (Ok 56))) (seq 0 R))).

(** groestl_provider.hpp:56-99, kupyna_provider.hpp:55-98 *)
Definition kcl_transform (roundP roundQ : nat -> list K -> N -> list K) (R : nat) (h m : list K) : list K :=
  let AP := map2 kxor (firstn R h) m in
  let '(AP, AQ) := fold_left (fun a i =>
      let '(AP, AQ) := a in
      let r := N.of_nat (2 * i) in
      (roundP R (roundP R AP r) (r + 1), roundQ R (roundQ R AQ r) (r + 1)))
    (seq 0 (cl_rounds R / 2)) (AP, m) in
  map2 kxor (map2 kxor AP AQ) (firstn R h) ++ skipn R h.
Definition kcl_output (roundP : nat -> list K -> N -> list K) (R : nat) (h : list K) : list K :=
  let t := fold_left (fun t i => let r := N.of_nat (2 * i) in roundP R (roundP R t r) (r + 1))
    (seq 0 (cl_rounds R / 2)) (firstn R h) in
  map2 kxor (firstn R h) t ++ skipn R h.

Definition kround_ok (R : nat) (rk : nat -> list K -> N -> list K) (rd : nat -> list N -> N -> list N) : Prop :=
  forall x i, length x = R -> rk R (kl x) i = kl (rd R x i) /\ length (rd R x i) = R.

Lemma kcl_transform_ok Pk P Qk Q R h m : kround_ok R Pk P -> kround_ok R Qk Q ->
  length m = R -> (R <= length h)%nat ->
  kcl_transform Pk Qk R (kl h) (kl m) = kl (cl_transform P Q R h m).
Proof.
  intros HP HQ Hm Hh. unfold kcl_transform, cl_transform. cbv zeta.
  rewrite kl_firstn, kl_skipn, (map2_kl kxor N.lxor) by reflexivity.
  assert (L0 : length (map2 N.lxor (firstn R h) m) = R)
    by (rewrite map2_len; rewrite firstn_length; lia).
  set (AP := map2 N.lxor (firstn R h) m) in *. clearbody AP.
  destruct (fold_k nat _ _ (fun s => length (fst s) = R /\ length (snd s) = R) klp
    (fun a i => let '(AP, AQ) := a in
      (P R (P R AP (N.of_nat (2 * i))) (N.of_nat (2 * i) + 1), Q R (Q R AQ (N.of_nat (2 * i))) (N.of_nat (2 * i) + 1)))
    (fun a i => let '(AP, AQ) := a in
      (Pk R (Pk R AP (N.of_nat (2 * i))) (N.of_nat (2 * i) + 1), Qk R (Qk R AQ (N.of_nat (2 * i))) (N.of_nat (2 * i) + 1)))
    (seq 0 (cl_rounds R / 2)) (AP, m)) as [E _].
  - intros [a b] i _ [La Lb]. cbn [fst snd] in La, Lb. unfold klp. cbn [fst snd].
    set (r := N.of_nat (2 * i)).
    destruct (HP a r La) as [-> L1]. destruct (HP _ (r + 1) L1) as [-> L2].
    destruct (HQ b r Lb) as [-> L3]. destruct (HQ _ (r + 1) L3) as [-> L4].
    split; [reflexivity | split; assumption].
  - split; assumption.
  - unfold klp at 1 in E. cbn [fst snd] in E. rewrite E.
    match goal with |- context [klp ?s] => destruct s as [a b] end.
    unfold klp. cbn [fst snd]. rewrite !(map2_kl kxor N.lxor) by reflexivity. now rewrite kl_app.
Qed.

Lemma kcl_output_ok Pk P R h : kround_ok R Pk P -> (R <= length h)%nat ->
  kcl_output Pk R (kl h) = kl (cl_output P R h).
Proof.
  intros HP Hh. unfold kcl_output, cl_output. cbv zeta.
  rewrite kl_firstn, kl_skipn.
  destruct (fold_k nat _ _ (fun s => length s = R) kl
    (fun t i => P R (P R t (N.of_nat (2 * i))) (N.of_nat (2 * i) + 1))
    (fun t i => Pk R (Pk R t (N.of_nat (2 * i))) (N.of_nat (2 * i) + 1))
    (seq 0 (cl_rounds R / 2)) (firstn R h)) as [-> _].
  - intros a i _ La. destruct (HP a (N.of_nat (2 * i)) La) as [-> L1].
    destruct (HP _ (N.of_nat (2 * i) + 1) L1) as [-> L2]. split; [reflexivity | exact L2].
  - rewrite firstn_length. lia.
  - rewrite (map2_kl kxor N.lxor) by reflexivity. now rewrite kl_app.
Qed.

Lemma kgr_roundP_ok R : (0 < R)%nat -> kround_ok R kgr_roundP gr_roundP.
Proof.
  intros HR x i Hx. unfold kgr_roundP, gr_roundP.
  change (map (fun idx => kxor (kshl 64 (Ok (N.of_nat idx)) (Ok 4)) (Ok i)) (seq 0 R))
    with (map (fun idx => Ok (N.lxor (shlw 64 (N.of_nat idx) 4) i)) (seq 0 R)).
  rewrite (map_ok _ _ (fun idx => N.lxor (shlw 64 (N.of_nat idx) 4) i)) by reflexivity.
  rewrite (map2_kl kxor N.lxor) by reflexivity.
  apply kttable_ok; [vm_compute; reflexivity | exact HR |].
  rewrite map2_len; rewrite ?map_length, ?seq_length; exact Hx.
Qed.
Lemma kgr_roundQ_ok R : (0 < R)%nat -> kround_ok R kgr_roundQ gr_roundQ.
Proof.
  intros HR x i Hx. unfold kgr_roundQ, gr_roundQ. cbv zeta.
  rewrite (map_ok _ (fun idx => kxor (ksub 64 (Ok 0xffffffffffffffff) (kshl 64 (Ok (N.of_nat idx)) (Ok 60)))
      (kshl 64 (Ok i) (Ok 56)))
    (fun idx => N.lxor (subw 64 0xffffffffffffffff (shlw 64 (N.of_nat idx) 60)) (shlw 64 i 56)))
    by (intros; rewrite !kshl_ok by reflexivity; reflexivity).
  rewrite (map2_kl kxor N.lxor) by reflexivity.
  apply kttable_ok; [vm_compute; reflexivity | exact HR |].
  rewrite map2_len; rewrite ?map_length, ?seq_length; exact Hx.
Qed.
Lemma kku_roundP_ok R : (0 < R)%nat -> kround_ok R kku_roundP ku_roundP.
Proof.
  intros HR x i Hx. unfold kku_roundP, ku_roundP, kku_G, ku_G.
  rewrite (map_ok _ (fun idx => kxor (kshl 64 (Ok (N.of_nat idx)) (Ok 4)) (Ok i))
    (fun idx => N.lxor (shlw 64 (N.of_nat idx) 4) i)) by reflexivity.
  rewrite (map2_kl kxor N.lxor) by reflexivity.
  apply kttable_ok; [vm_compute; reflexivity | exact HR |].
  rewrite map2_len; rewrite ?map_length, ?seq_length; exact Hx.
Qed.
Lemma kku_roundQ_ok R : (0 < R)%nat -> kround_ok R kku_roundQ ku_roundQ.
Proof.
  intros HR x i Hx. unfold kku_roundQ, ku_roundQ, kku_G, ku_G.
  rewrite (map_ok _ (fun j => kxor (Ok 0x00F0F0F0F0F0F0F3)
      (kshl 64 (kxor (Ok (N.of_nat (R - 1 - j) * 0x10)) (kand (Ok i) (Ok 255))) (Ok 56)))
    (fun j => N.lxor 0x00F0F0F0F0F0F0F3 (shlw 64 (N.lxor (N.of_nat (R - 1 - j) * 0x10) (N.land i 255)) 56)))
    by (intros; cbn [kxor kand bind]; rewrite !kshl_ok by reflexivity; reflexivity).
  rewrite (map2_kl (kadd 64) (addw 64)) by reflexivity.
  apply kttable_ok; [vm_compute; reflexivity | exact HR |].
  rewrite map2_len; rewrite ?map_length, ?seq_length; exact Hx.
Qed.

(** groestl_provider.hpp:188-197, kupyna_provider.hpp:182-191 *)
Definition kgr_step (hs : N) (h : list K) (data : list N) : list K :=
  kcl_transform kgr_roundP kgr_roundQ (cl_R hs) h (kl (le_words 8 (cl_R hs) data)).
Definition kku_step (hs : N) (h : list K) (data : list N) : list K :=
  kcl_transform kku_roundP kku_roundQ (cl_R hs) h (kl (le_words 8 (cl_R hs) data)).

Lemma cl_R_cases hs : cl_R hs = 16%nat \/ cl_R hs = 8%nat.
Proof. unfold cl_R. destruct (256 <? hs); [now left | now right]. Qed.

Lemma kgr_step_ok hs h t data : length h = 16%nat -> kgr_step hs (kl h) data = kl (gr_step hs h t data).
Proof.
  intros Hh. unfold kgr_step, gr_step. pose proof (cl_R_cases hs).
  apply kcl_transform_ok; [apply kgr_roundP_ok | apply kgr_roundQ_ok | apply le_words_length |]; lia.
Qed.
Lemma kku_step_ok hs h t data : length h = 16%nat -> kku_step hs (kl h) data = kl (ku_step hs h t data).
Proof.
  intros Hh. unfold kku_step, ku_step. pose proof (cl_R_cases hs).
  apply kcl_transform_ok; [apply kku_roundP_ok | apply kku_roundQ_ok | apply le_words_length |]; lia.
Qed.
Lemma kgr_output_ok hs h : length h = 16%nat ->
  kcl_output kgr_roundP (cl_R hs) (kl h) = kl (cl_output gr_roundP (cl_R hs) h).
Proof. intros Hh. pose proof (cl_R_cases hs). apply kcl_output_ok; [apply kgr_roundP_ok|]; lia. Qed.
Lemma kku_output_ok hs h : length h = 16%nat ->
  kcl_output kku_roundP (cl_R hs) (kl h) = kl (cl_output ku_roundP (cl_R hs) h).
Proof. intros Hh. pose proof (cl_R_cases hs). apply kcl_output_ok; [apply kku_roundP_ok|]; lia. Qed.

(** ** Streebog *)

(** streebog_provider.hpp:22-33: ch[8 * j + I], bytes of the block; the block is read as
    unsigned char, so no shift occurs. *)
Definition ksb_lps (I : nat) (ch : list K) : K :=
  let t j := ktabw2 j streebog_T (kget (8 * j + I) ch) in
  kxor (kxor (kxor (kxor (kxor (kxor (kxor (t 0%nat) (t 1%nat)) (t 2%nat)) (t 3%nat))
    (t 4%nat)) (t 5%nat)) (t 6%nat)) (t 7%nat).
(** The 8 bytes of a word. *)
Definition kbytes (x : K) : list K :=
  map (fun i => a <- x ;; Ok (byte_at a (N.of_nat (8 * i)))) (seq 0 8).
(** streebog_provider.hpp:35-48 *)
Definition ksb_lps_block (block : list K) : list K :=
  let ch := flat_map kbytes block in map (fun I => ksb_lps I ch) (seq 0 8).
Definition ksb_xor (block toxor : list K) : list K := map2 kxor block toxor.
(** streebog_provider.hpp:62-74 *)
Definition ksb_e (k : list K) (m : list K) : list K :=
  fst (fold_left (fun kt i =>
      let '(k, tmp) := kt in
      let k := ksb_lps_block k in
      let tmp := ksb_lps_block (ksb_xor tmp (map (fun j => ktab2 i j streebog_RC) (seq 0 8))) in
      (ksb_xor k tmp, tmp))
    (seq 0 12) (ksb_xor k m, k)).
(** streebog_provider.hpp:76-85 *)
Definition ksb_gN (h m : list K) (Nn : N) : list K :=
  let hN := kupd 0 (kxor (kget 0 h) (Ok Nn)) h in
  let hN := ksb_e (ksb_lps_block hN) m in
  ksb_xor (ksb_xor h hN) m.

Lemma le_bytes_byte_at k x : le_bytes k x = map (fun i => byte_at x (N.of_nat (8 * i))) (seq 0 k).
Proof.
  revert x. induction k as [|k IH]; intros x; [reflexivity|].
  change (N.land x 255 :: le_bytes k (N.shiftr x 8)
    = N.land (N.shiftr x 0) 255 :: map (fun i => byte_at x (N.of_nat (8 * i))) (seq 1 k)).
  rewrite N.shiftr_0_r, IH, <- seq_shift, map_map. apply f_equal, map_ext. intros i. unfold byte_at.
  rewrite N.shiftr_shiftr. do 2 f_equal. lia.
Qed.
Lemma kbytes_ok x : kbytes (Ok x) = kl (le_bytes 8 x).
Proof. rewrite le_bytes_byte_at. reflexivity. Qed.
Lemma flat_kbytes l : flat_map kbytes (kl l) = kl (words_bytes 8 l).
Proof.
  unfold words_bytes. induction l as [|x l IH]; [reflexivity|].
  change (flat_map kbytes (kl (x :: l))) with (kbytes (Ok x) ++ flat_map kbytes (kl l)).
  rewrite IH, kbytes_ok. cbn [flat_map]. now rewrite kl_app.
Qed.
Lemma words_bytes_len l : length (words_bytes 8 l) = (8 * length l)%nat.
Proof.
  unfold words_bytes. induction l as [|x l IH]; [reflexivity|].
  cbn [flat_map]. rewrite app_length, IH. cbn [length]. change (length (le_bytes 8 x)) with 8%nat. lia.
Qed.
Lemma words_bytes_lt l i : (N.to_nat (nthN i (words_bytes 8 l)) < 256)%nat.
Proof.
  assert (F : Forall (fun b => (N.to_nat b < 256)%nat) (words_bytes 8 l)).
  { apply Forall_forall. intros b Hb. unfold words_bytes in Hb. apply in_flat_map in Hb.
    destruct Hb as (x & _ & Hb). rewrite le_bytes_byte_at in Hb. apply in_map_iff in Hb.
    destruct Hb as (j & <- & _). apply byte_at_lt. }
  unfold nthN. destruct (Nat.lt_ge_cases i (length (words_bytes 8 l))) as [H|H].
  - rewrite Forall_forall in F. now apply F, nth_In.
  - rewrite nth_overflow by exact H. lia.
Qed.

Lemma ksb_lps_block_ok b : length b = 8%nat ->
  ksb_lps_block (kl b) = kl (sb_lps_block b) /\ length (sb_lps_block b) = 8%nat.
Proof.
  intros Hb. unfold ksb_lps_block, sb_lps_block. rewrite flat_kbytes. cbv zeta.
  split; [|reflexivity]. apply map_ok. intros I HI. apply in_seq in HI.
  assert (HT : tables_ok streebog_T 8 = true) by (vm_compute; reflexivity).
  unfold ksb_lps, sb_lps. cbv zeta.
  assert (E : forall j, (j < 8)%nat ->
    ktabw2 j streebog_T (kget (8 * j + I) (kl (words_bytes 8 b)))
    = Ok (tbl (nth j streebog_T []) (nthN (8 * j + I) (words_bytes 8 b)))).
  { intros j Hj. rewrite kget_ok by (rewrite words_bytes_len; lia).
    destruct (tables_row _ 8 j HT Hj) as [A B]. apply ktabw2_ok; [exact A|]. rewrite B. apply words_bytes_lt. }
  rewrite !E by lia. reflexivity.
Qed.

Lemma sb_RC_ok i : (i < 12)%nat ->
  map (fun j => ktab2 i j streebog_RC) (seq 0 8) = kl (nth i streebog_RC []) /\ length (nth i streebog_RC []) = 8%nat.
Proof.
  intros Hi.
  assert (E : (length streebog_RC =? 12)%nat && forallb (fun r => (length r =? 8)%nat) streebog_RC = true)
    by (vm_compute; reflexivity).
  rewrite andb_true_iff, Nat.eqb_eq, forallb_forall in E. destruct E as [L E].
  assert (L8 : length (nth i streebog_RC []) = 8%nat) by (apply Nat.eqb_eq, E, nth_In; lia).
  split; [|exact L8].
  rewrite (map_ok _ _ (fun j => nthN j (nth i streebog_RC []))).
  - f_equal. generalize dependent (nth i streebog_RC []). intros r L8. explode r L8. reflexivity.
  - intros j Hj. apply in_seq in Hj. apply ktab2_ok; lia.
Qed.

Lemma ksb_e_ok k m : length k = 8%nat -> length m = 8%nat ->
  ksb_e (kl k) (kl m) = kl (sb_e k m) /\ length (sb_e k m) = 8%nat.
Proof.
  intros Hk Hm. unfold ksb_e, sb_e, ksb_xor, sb_xor.
  rewrite (map2_kl kxor N.lxor) by reflexivity.
  assert (L0 : length (map2 N.lxor k m) = 8%nat) by (rewrite map2_len; lia).
  set (K0 := map2 N.lxor k m) in *. clearbody K0.
  destruct (fold_k nat _ _ (fun s => length (fst s) = 8%nat /\ length (snd s) = 8%nat) klp
    (fun kt i => let '(K, tmp) := kt in
      (map2 N.lxor (sb_lps_block K) (sb_lps_block (map2 N.lxor tmp (nth i streebog_RC []))),
       sb_lps_block (map2 N.lxor tmp (nth i streebog_RC []))))
    (fun kt i => let '(K, tmp) := kt in
      (map2 kxor (ksb_lps_block K) (ksb_lps_block (map2 kxor tmp (map (fun j => ktab2 i j streebog_RC) (seq 0 8)))),
       ksb_lps_block (map2 kxor tmp (map (fun j => ktab2 i j streebog_RC) (seq 0 8)))))
    (seq 0 12) (K0, k)) as [E L].
  - intros [a b] i Hi [La Lb]. apply in_seq in Hi. cbn [fst snd] in La, Lb. unfold klp. cbn [fst snd].
    destruct (sb_RC_ok i) as [-> LR]; [lia|].
    rewrite (map2_kl kxor N.lxor) by reflexivity.
    destruct (ksb_lps_block_ok a La) as [-> L1].
    destruct (ksb_lps_block_ok (map2 N.lxor b (nth i streebog_RC []))) as [-> L2]; [rewrite map2_len; lia|].
    rewrite (map2_kl kxor N.lxor) by reflexivity.
    split; [reflexivity | split; [rewrite map2_len; lia | exact L2]].
  - split; [exact L0 | exact Hk].
  - unfold klp at 1 in E. cbn [fst snd] in E. cbv zeta. rewrite E. split; [reflexivity | apply L].
Qed.

Lemma ksb_gN_ok h m Nn : length h = 8%nat -> length m = 8%nat ->
  ksb_gN (kl h) (kl m) Nn = kl (sb_gN h m Nn).
Proof.
  intros Hh Hm. unfold ksb_gN, sb_gN, ksb_xor, sb_xor. cbv zeta.
  rewrite kget_ok by lia. rewrite kxor_e, kupd_ok by lia.
  replace (upd 0 (N.lxor (nthN 0 h) Nn) h) with (match h with x :: r => N.lxor x Nn :: r | [] => [] end)
    by (destruct h; reflexivity).
  set (h1 := match h with x :: r => N.lxor x Nn :: r | [] => [] end).
  assert (L1 : length h1 = 8%nat) by (unfold h1; destruct h; [discriminate | exact Hh]).
  clearbody h1. destruct (ksb_lps_block_ok h1 L1) as [-> L2].
  destruct (ksb_e_ok _ m L2 Hm) as [-> L3].
  now rewrite !(map2_kl kxor N.lxor) by reflexivity.
Qed.

(** ** ECHO *)

(** std::swap *)
Definition kec_swap (w : list K) (ij : nat * nat) : list K :=
  let '(i, j) := ij in
  let x := kget i w in
  let y := kget j w in
  kupd j x (kupd i y w).
(** echo_provider.hpp:22-40 *)
Definition ec_swaps : list (nat * nat) :=
  [(2, 10); (3, 11); (4, 20); (5, 21); (6, 30); (7, 31); (12, 28); (13, 29); (22, 14); (23, 15);
   (30, 14); (31, 15); (26, 18); (27, 19); (26, 10); (27, 11)]%nat.
Definition kec_shift_rows (w : list K) : list K := fold_left kec_swap ec_swaps w.
(** echo_provider.hpp:56-59 *)
Definition kec_dbl (a : K) : K :=
  kxor (kand (kshl 64 a (Ok 1)) (Ok 0xfefefefefefefefe))
       (kmul 64 (kand (kshr 64 a (Ok 7)) (Ok 0x0101010101010101)) (Ok 0x1b)).
(** echo_provider.hpp:50-64 *)
Definition kec_mix_column (w : list K) (idx : nat) : list K :=
  let a := kget idx w in
  let b := kget (idx + 2) w in
  let c := kget (idx + 4) w in
  let d := kget (idx + 6) w in
  let dblA := kec_dbl a in
  let dblB := kec_dbl b in
  let dblC := kec_dbl c in
  let dblD := kec_dbl d in
  let w := kupd idx (kxor (kxor (kxor (kxor dblA dblB) b) c) d) w in
  let w := kupd (idx + 2) (kxor (kxor (kxor (kxor dblB dblC) c) d) a) w in
  let w := kupd (idx + 4) (kxor (kxor (kxor (kxor dblC dblD) d) a) b) w in
  kupd (idx + 6) (kxor (kxor (kxor (kxor dblD dblA) a) b) c) w.
(** echo_provider.hpp:42-67 *)
Definition kec_mix_columns (w : list K) : list K :=
  fold_left (fun w i => fold_left (fun w j => kec_mix_column w (i * 4 * 2 + j)) (seq 0 2) w) (seq 0 4) w.

(** T[j][(unsigned char)(x >> n)] for an x of [w] bits: the words w[idx] have 64 bits, the
    variables t0, ..., t3 have 32. *)
Definition kec_T (j : nat) (w : N) (x : K) (n : N) : K := ktabw2 j echo_T (kbyte w x (Ok n)).
(** echo_provider.hpp:75-117 *)
Definition kec_sub1 (salt : list K) (counter : N) (a b : K) : K * K :=
  let t0 := kxor (kxor (kxor (kxor (ktrunc 32 (Ok counter)) (kec_T 0 64 a 0)) (kec_T 1 64 a 40)) (kec_T 2 64 b 16)) (kec_T 3 64 b 56) in
  let t1 := kxor (kxor (kxor (kxor (ktrunc 32 (kshr 64 (Ok counter) (Ok 32))) (kec_T 0 64 a 32)) (kec_T 1 64 b 8)) (kec_T 2 64 b 48)) (kec_T 3 64 a 24) in
  let t2 := kxor (kxor (kxor (kec_T 0 64 b 0) (kec_T 1 64 b 40)) (kec_T 2 64 a 16)) (kec_T 3 64 a 56) in
  let t3 := kxor (kxor (kxor (kec_T 0 64 b 32) (kec_T 1 64 a 8)) (kec_T 2 64 a 48)) (kec_T 3 64 b 24) in
  (kxor (kxor
     (kxor (kxor (kxor (kec_T 0 32 t0 0) (kec_T 1 32 t1 8)) (kec_T 2 32 t2 16)) (kec_T 3 32 t3 24))
     (kshl 64 (kxor (kxor (kxor (kec_T 0 32 t1 0) (kec_T 1 32 t2 8)) (kec_T 2 32 t3 16)) (kec_T 3 32 t0 24)) (Ok 32)))
     (kget 0 salt),
   kxor (kxor
     (kxor (kxor (kxor (kec_T 0 32 t2 0) (kec_T 1 32 t3 8)) (kec_T 2 32 t0 16)) (kec_T 3 32 t1 24))
     (kshl 64 (kxor (kxor (kxor (kec_T 0 32 t3 0) (kec_T 1 32 t0 8)) (kec_T 2 32 t1 16)) (kec_T 3 32 t2 24)) (Ok 32)))
     (kget 1 salt)).
(** echo_provider.hpp:69-119 *)
Definition kec_sub_words (salt : list K) (s : list K * N) : list K * N :=
  fold_left (fun s r =>
    let '(w, counter) := s in
    let '(x, y) := kec_sub1 salt counter (kget (r * 2) w) (kget (r * 2 + 1) w) in
    (kupd (r * 2 + 1) y (kupd (r * 2) x w), trunc 64 (counter + 1))) (seq 0 16) s.
(** echo_provider.hpp:266-271 *)
Definition kec_round (salt : list K) (s : list K * N) : list K * N :=
  let '(w, counter) := kec_sub_words salt s in
  (kec_mix_columns (kec_shift_rows w), counter).
(** echo_provider.hpp:122-152 *)
Definition kec_final256 (h w : list K) : list K :=
  map (fun i => kxor (kxor (kxor (kxor (kxor (kxor (kxor (kget i h) (kget (i + 8) h)) (kget (i + 16) h))
    (kget (i + 24) h)) (kget i w)) (kget (i + 8) w)) (kget (i + 16) w)) (kget (i + 24) w)) (seq 0 8).
Definition kec_final512 (h w : list K) : list K :=
  map (fun i => kxor (kxor (kxor (kget i h) (kget (i + 16) h)) (kget i w)) (kget (i + 16) w)) (seq 0 16).
(** echo_provider.hpp:264-276 *)
Definition kec_block (hs : N) (salt : list K) (counter : N) (V : list K) (m : list N) : list K :=
  let h := V ++ kl (le_words 8 (ec_bs hs / 8) m) in
  let w := fst (Nat.iter (if 256 <? hs then 10 else 8) (kec_round salt) (h, counter)) in
  if hs <=? 256 then kec_final256 h w else kec_final512 h w.

Lemma kec_shift_rows_ok w : length w = 32%nat ->
  kec_shift_rows (kl w) = kl (ec_shift_rows w) /\ length (ec_shift_rows w) = 32%nat.
Proof.
  intros Hw. unfold kec_shift_rows, ec_shift_rows. change (fold_left ec_swap _ w) with (fold_left ec_swap ec_swaps w).
  apply (fold_k (nat * nat) _ _ (fun v => length v = 32%nat) kl); [|exact Hw].
  intros s [i j] Hi Hs.
  assert (B : (i < 32 /\ j < 32)%nat).
  { assert (E : forallb (fun p => (fst p <? 32)%nat && (snd p <? 32)%nat) ec_swaps = true) by reflexivity.
    rewrite forallb_forall in E. specialize (E _ Hi). rewrite andb_true_iff, !Nat.ltb_lt in E. exact E. }
  unfold kec_swap, ec_swap. rewrite !kget_ok by lia.
  rewrite !kupd_ok by (rewrite ?upd_len; lia). now rewrite !upd_len.
Qed.

Lemma kec_dbl_ok a : kec_dbl (Ok a) = Ok (ec_dbl a).
Proof. reflexivity. Qed.
Lemma kec_mix_column_ok w idx : length w = 32%nat -> (idx + 6 < 32)%nat ->
  kec_mix_column (kl w) idx = kl (ec_mix_column w idx) /\ length (ec_mix_column w idx) = 32%nat.
Proof.
  intros Hw Hi. unfold kec_mix_column, ec_mix_column. cbv zeta.
  rewrite !kget_ok by lia. rewrite !kec_dbl_ok, !kxor_e.
  rewrite !kupd_ok by (rewrite ?upd_len; lia). now rewrite !upd_len.
Qed.
Lemma kec_mix_columns_ok w : length w = 32%nat ->
  kec_mix_columns (kl w) = kl (ec_mix_columns w) /\ length (ec_mix_columns w) = 32%nat.
Proof.
  intros Hw. unfold kec_mix_columns, ec_mix_columns.
  apply (fold_k nat _ _ (fun v => length v = 32%nat) kl); [|exact Hw].
  intros s i Hi Hs. apply in_seq in Hi.
  apply (fold_k nat _ _ (fun v => length v = 32%nat) kl); [|exact Hs].
  intros s' j Hj Hs'. apply in_seq in Hj. apply kec_mix_column_ok; [exact Hs' | lia].
Qed.

Lemma kec_T_ok j w x n : (j < 4)%nat -> n < w -> kec_T j w (Ok x) n = Ok (ec_T j x n).
Proof.
  intros Hj Hn. unfold kec_T, ec_T. rewrite kbyte_ok by exact Hn.
  apply (ktabw2_byte _ 4); [vm_compute; reflexivity | exact Hj].
Qed.
Definition okp (p : N * N) : K * K := (Ok (fst p), Ok (snd p)).
Lemma kec_sub1_ok salt counter a b : length salt = 2%nat ->
  kec_sub1 (kl salt) counter (Ok a) (Ok b) = okp (ec_sub1 salt counter a b).
Proof.
  intros Hs. unfold kec_sub1, ec_sub1. cbv zeta.
  rewrite !kget_ok by lia.
  rewrite !(kec_T_ok _ 64) by (lia || reflexivity).
  change (ktrunc 32 (kshr 64 (Ok counter) (Ok 32))) with (Ok (trunc 32 (N.shiftr counter 32))).
  change (ktrunc 32 (Ok counter)) with (Ok (trunc 32 counter)).
  rewrite !kxor_e.
  rewrite !(kec_T_ok _ 32) by (lia || reflexivity).
  rewrite !kxor_e. rewrite !kshl_ok by reflexivity. rewrite !kxor_e. reflexivity.
Qed.

Definition klc (p : list N * N) : list K * N := (kl (fst p), snd p).
Lemma kec_sub_words_ok salt s : length salt = 2%nat -> length (fst s) = 32%nat ->
  kec_sub_words (kl salt) (klc s) = klc (ec_sub_words salt s) /\ length (fst (ec_sub_words salt s)) = 32%nat.
Proof.
  intros Hsalt Hs. unfold kec_sub_words, ec_sub_words.
  apply (fold_k nat _ _ (fun v => length (fst v) = 32%nat) klc); [|exact Hs].
  intros [w c] r Hr Hw. apply in_seq in Hr. cbn [fst] in Hw. unfold klc. cbn [fst snd].
  rewrite !kget_ok by lia. rewrite kec_sub1_ok by exact Hsalt.
  destruct (ec_sub1 salt c (nthN (r * 2) w) (nthN (r * 2 + 1) w)) as [x y]. unfold okp. cbn [fst snd].
  rewrite !kupd_ok by (rewrite ?upd_len; lia). now rewrite !upd_len.
Qed.
Lemma kec_round_ok salt s : length salt = 2%nat -> length (fst s) = 32%nat ->
  kec_round (kl salt) (klc s) = klc (ec_round salt s) /\ length (fst (ec_round salt s)) = 32%nat.
Proof.
  intros Hsalt Hs. unfold kec_round, ec_round.
  destruct (kec_sub_words_ok salt s Hsalt Hs) as [-> L].
  destruct (ec_sub_words salt s) as [w c]. unfold klc. cbn [fst snd] in *.
  destruct (kec_shift_rows_ok w L) as [-> L1]. destruct (kec_mix_columns_ok _ L1) as [-> L2].
  split; [reflexivity | exact L2].
Qed.
Lemma kec_iter_ok salt n s : length salt = 2%nat -> length (fst s) = 32%nat ->
  Nat.iter n (kec_round (kl salt)) (klc s) = klc (Nat.iter n (ec_round salt) s)
  /\ length (fst (Nat.iter n (ec_round salt) s)) = 32%nat.
Proof.
  intros Hsalt Hs. induction n as [|n [IH L]]; [now split|].
  change (Nat.iter (S n) (kec_round (kl salt)) (klc s)) with (kec_round (kl salt) (Nat.iter n (kec_round (kl salt)) (klc s))).
  change (Nat.iter (S n) (ec_round salt) s) with (ec_round salt (Nat.iter n (ec_round salt) s)).
  rewrite IH. now apply kec_round_ok.
Qed.

Lemma kec_block_ok hs salt counter V m : length salt = 2%nat -> length V = ec_nv hs ->
  kec_block hs (kl salt) counter (kl V) m = kl (ec_block hs salt counter V m).
Proof.
  intros Hsalt HV. unfold kec_block, ec_block.
  rewrite <- kl_app.
  assert (Lh : length (V ++ le_words 8 (ec_bs hs / 8) m) = 32%nat).
  { rewrite app_length, le_words_length, HV. unfold ec_nv, ec_bs. destruct (256 <? hs); reflexivity. }
  set (h := V ++ le_words 8 (ec_bs hs / 8) m) in *. clearbody h. cbv zeta.
  change (kl h, counter) with (klc (h, counter)).
  destruct (kec_iter_ok salt (if 256 <? hs then 10 else 8) (h, counter) Hsalt Lh) as [-> L].
  set (w := Nat.iter _ (ec_round salt) (h, counter)) in *. clearbody w. destruct w as [w c].
  unfold klc. cbn [fst snd] in *.
  destruct (hs <=? 256); apply map_ok; intros i Hi; apply in_seq in Hi; rewrite !kget_ok by lia; reflexivity.
Qed.
