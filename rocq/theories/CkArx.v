(** * Checked versions of the JH and Threefish permutations.

    The definitions [k…] mirror those of Jh.v and Skein.v, with the operations of Checked.v;
    the lines of the code are those cited there. *)
From Verif Require Import Base Checked Lemmas MdState Jh Skein ConstJh ConstSkein.

(** ** JH *)

(** jh_provider.hpp:22-25 *)
Definition kjh_bitswap1 (x : K) (mask shift : N) : K :=
  kor (kshl 64 (kand x (Ok mask)) (Ok shift)) (kshr 64 (kand x (knot 64 (Ok mask))) (Ok shift)).
(** jh_provider.hpp:27-37 *)
Definition kjh_bitswap (H : list K) (mask shift : N) : list K :=
  let h i := kget i H in
  let b i := kjh_bitswap1 (h i) mask shift in
  [h 0; h 1; b 2; b 3; h 4; h 5; b 6; b 7; h 8; h 9; b 10; b 11; h 12; h 13; b 14; b 15]%nat.
(** jh_provider.hpp:39-64 *)
Definition kjh_sbitsli (x0 x1 x2 x3 c : K) : K * K * K * K :=
  let x3 := knot 64 x3 in
  let x0 := kxor x0 (kand c (knot 64 x2)) in
  let t := kxor c (kand x0 x1) in
  let x0 := kxor x0 (kand x2 x3) in
  let x3 := kxor x3 (kand (knot 64 x1) x2) in
  let x1 := kxor x1 (kand x0 x2) in
  let x2 := kxor x2 (kand x0 (knot 64 x3)) in
  let x0 := kxor x0 (kor x1 x3) in
  let x3 := kxor x3 (kand x1 x2) in
  let x1 := kxor x1 (kand t x0) in
  let x2 := kxor x2 t in
  (x0, x1, x2, x3).
(** jh_provider.hpp:66-84 *)
Definition kjh_lbitsli (H : list K) : list K :=
  let h i := kget i H in
  let h2 := kxor (h 2%nat) (h 4%nat) in
  let h3 := kxor (h 3%nat) (h 5%nat) in
  let h6 := kxor (h 6%nat) (h 8%nat) in
  let h7 := kxor (h 7%nat) (h 9%nat) in
  let h10 := kxor (h 10%nat) (kxor (h 12%nat) (h 0%nat)) in
  let h11 := kxor (h 11%nat) (kxor (h 13%nat) (h 1%nat)) in
  let h14 := kxor (h 14%nat) (h 0%nat) in
  let h15 := kxor (h 15%nat) (h 1%nat) in
  let h0 := kxor (h 0%nat) h6 in
  let h1 := kxor (h 1%nat) h7 in
  let h4 := kxor (h 4%nat) h10 in
  let h5 := kxor (h 5%nat) h11 in
  let h8 := kxor (h 8%nat) (kxor h14 h2) in
  let h9 := kxor (h 9%nat) (kxor h15 h3) in
  let h12 := kxor (h 12%nat) h2 in
  let h13 := kxor (h 13%nat) h3 in
  [h0; h1; h2; h3; h4; h5; h6; h7; h8; h9; h10; h11; h12; h13; h14; h15].
(** jh_provider.hpp:88-91 *)
Definition kjh_slayer (H : list K) (r : nat) : list K :=
  let h i := kget i H in
  let c i := ktab (r * 4 + i) jh_C in
  let '(h0, h4, h8, h12) := kjh_sbitsli (h 0%nat) (h 4%nat) (h 8%nat) (h 12%nat) (c 0%nat) in
  let '(h1, h5, h9, h13) := kjh_sbitsli (h 1%nat) (h 5%nat) (h 9%nat) (h 13%nat) (c 1%nat) in
  let '(h2, h6, h10, h14) := kjh_sbitsli (h 2%nat) (h 6%nat) (h 10%nat) (h 14%nat) (c 2%nat) in
  let '(h3, h7, h11, h15) := kjh_sbitsli (h 3%nat) (h 7%nat) (h 11%nat) (h 15%nat) (c 3%nat) in
  [h0; h1; h2; h3; h4; h5; h6; h7; h8; h9; h10; h11; h12; h13; h14; h15].
(** jh_provider.hpp:86-95 *)
Definition kjh_round (H : list K) (r : nat) (mask shift : N) : list K :=
  let H := kjh_lbitsli (kjh_slayer H r) in
  if shift =? 0 then H else kjh_bitswap H mask shift.
(** jh_provider.hpp:195-198 *)
Definition kjh_swap (H : list K) : list K :=
  let h i := kget i H in
  [h 0; h 1; h 3; h 2; h 4; h 5; h 7; h 6; h 8; h 9; h 11; h 10; h 12; h 13; h 15; h 14]%nat.
(** jh_provider.hpp:187-198 *)
Definition kjh_rounds7 (H : list K) (r : nat) : list K :=
  let H := kjh_round H r 0x5555555555555555 1 in
  let H := kjh_round H (r + 1) 0x3333333333333333 2 in
  let H := kjh_round H (r + 2) 0x0f0f0f0f0f0f0f0f 4 in
  let H := kjh_round H (r + 3) 0x00ff00ff00ff00ff 8 in
  let H := kjh_round H (r + 4) 0x0000ffff0000ffff 16 in
  let H := kjh_round H (r + 5) 0x00000000ffffffff 32 in
  let H := kjh_round H (r + 6) 0 0 in
  kjh_swap H.
(** jh_provider.hpp:172-209 *)
Definition kjh_step (H : list K) (data : list N) : list K :=
  let M := kl (le_words 8 8 data) in
  let H := map2 kxor (firstn 8 H) M ++ skipn 8 H in
  let H := fold_left (fun H i => kjh_rounds7 H (7 * i)) (seq 0 6) H in
  firstn 8 H ++ map2 kxor (skipn 8 H) M.

Lemma kxor_e a b : kxor (Ok a) (Ok b) = Ok (N.lxor a b). Proof. reflexivity. Qed.
Lemma kand_e a b : kand (Ok a) (Ok b) = Ok (N.land a b). Proof. reflexivity. Qed.
Lemma kor_e a b : kor (Ok a) (Ok b) = Ok (N.lor a b). Proof. reflexivity. Qed.
Lemma knot_e w a : knot w (Ok a) = Ok (notw w a). Proof. reflexivity. Qed.
Ltac kname := repeat match goal with
  | |- context [kand (Ok ?a) (Ok ?b)] => rewrite (kand_e a b); generalize (N.land a b); intros ?
  | |- context [kor (Ok ?a) (Ok ?b)] => rewrite (kor_e a b); generalize (N.lor a b); intros ?
  | |- context [knot ?w (Ok ?a)] => rewrite (knot_e w a); generalize (notw w a); intros ?
  | |- context [kxor (Ok ?a) (Ok ?b)] => rewrite (kxor_e a b); generalize (N.lxor a b); intros ?
  end.

Lemma kjh_sbitsli_ok a b c d k : kjh_sbitsli (Ok a) (Ok b) (Ok c) (Ok d) (Ok k)
  = let '(a, b, c, d) := jh_sbitsli a b c d k in (Ok a, Ok b, Ok c, Ok d).
Proof. unfold kjh_sbitsli, jh_sbitsli. cbv zeta. kname. reflexivity. Qed.

Lemma kjh_slayer_ok H r : length H = 16%nat -> (r < 42)%nat ->
  kjh_slayer (kl H) r = kl (jh_slayer H r) /\ length (jh_slayer H r) = 16%nat.
Proof.
  intros HH Hr. unfold kjh_slayer, jh_slayer. cbv zeta.
  rewrite !ktab_ok by (change (length jh_C) with 168%nat; lia).
  rewrite !kget_ok by lia. rewrite !kjh_sbitsli_ok.
  repeat match goal with |- context [jh_sbitsli ?a ?b ?c ?d ?k] =>
    destruct (jh_sbitsli a b c d k) as [[[? ?] ?] ?] end.
  split; reflexivity.
Qed.

Lemma kjh_lbitsli_ok H : length H = 16%nat ->
  kjh_lbitsli (kl H) = kl (jh_lbitsli H) /\ length (jh_lbitsli H) = 16%nat.
Proof. intros HH. explode H HH. split; reflexivity. Qed.

Lemma kjh_bitswap_ok H mask shift : length H = 16%nat -> shift < 64 ->
  kjh_bitswap (kl H) mask shift = kl (jh_bitswap H mask shift) /\ length (jh_bitswap H mask shift) = 16%nat.
Proof.
  intros HH Hs. split; [|reflexivity]. unfold kjh_bitswap, jh_bitswap. cbv zeta.
  rewrite !kget_ok by lia.
  assert (E : forall x, kjh_bitswap1 (Ok x) mask shift = Ok (jh_bitswap1 x mask shift)).
  { intros x. unfold kjh_bitswap1. rewrite knot_e, !kand_e, kshl_ok, kshr_ok by exact Hs. reflexivity. }
  rewrite !E. reflexivity.
Qed.

Lemma kjh_round_ok H r mask shift : length H = 16%nat -> (r < 42)%nat -> shift < 64 ->
  kjh_round (kl H) r mask shift = kl (jh_round H r mask shift) /\ length (jh_round H r mask shift) = 16%nat.
Proof.
  intros HH Hr Hs. unfold kjh_round, jh_round.
  destruct (kjh_slayer_ok H r HH Hr) as [-> L]. destruct (kjh_lbitsli_ok _ L) as [-> L1]. cbv zeta.
  destruct (shift =? 0); [split; [reflexivity | exact L1]|]. now apply kjh_bitswap_ok.
Qed.

Lemma kjh_swap_ok H : length H = 16%nat -> kjh_swap (kl H) = kl (jh_swap H) /\ length (jh_swap H) = 16%nat.
Proof. intros HH. explode H HH. split; reflexivity. Qed.

Lemma kjh_rounds7_ok H r : length H = 16%nat -> (r < 36)%nat ->
  kjh_rounds7 (kl H) r = kl (jh_rounds7 H r) /\ length (jh_rounds7 H r) = 16%nat.
Proof.
  intros HH Hr. unfold kjh_rounds7, jh_rounds7. cbv zeta.
  repeat match goal with |- context [kjh_round (kl ?h) ?r ?m ?s] =>
    destruct (kjh_round_ok h r m s) as [-> ?]; [assumption | lia | reflexivity |]; set (jh_round h r m s) in * end.
  now apply kjh_swap_ok.
Qed.

Lemma kjh_step_ok H t data : length H = 16%nat -> kjh_step (kl H) data = kl (jh_step H t data).
Proof.
  intros HH. unfold kjh_step, jh_step.
  assert (HM : length (le_words 8 8 data) = 8%nat) by apply le_words_length.
  set (M := le_words 8 8 data) in *. clearbody M. cbv zeta.
  rewrite kl_firstn, kl_skipn, (map2_kl kxor N.lxor) by reflexivity. rewrite <- kl_app.
  destruct (fold_k nat _ _ (fun v => length v = 16%nat) kl (fun H i => jh_rounds7 H (7 * i))
    (fun H i => kjh_rounds7 H (7 * i)) (seq 0 6) (map2 N.lxor (firstn 8 H) M ++ skipn 8 H)) as [-> L].
  - intros s i Hi Hs. apply in_seq in Hi. apply kjh_rounds7_ok; [exact Hs | lia].
  - explode H HH. explode M HM. reflexivity.
  - rewrite kl_firstn, kl_skipn, (map2_kl kxor N.lxor) by reflexivity. now rewrite <- kl_app.
Qed.

(** ** Threefish *)

(** skein_provider.hpp:28-36, 66-80, 115-141 *)
Definition ksk_mix (nw r : nat) (G : list K) (j : nat) : list K :=
  match ktab2 r (2 * j) (skein_I nw), ktab2 r (2 * j + 1) (skein_I nw) with
  | Ok ia, Ok ib =>
      let ia := N.to_nat ia in
      let ib := N.to_nat ib in
      let G := kupd ia (kadd 64 (kget ia G) (kget ib G)) G in
      kupd ib (kxor (krotl 64 (kget ib G) (ktab2 r j (skein_C nw))) (kget ia G)) G
  | _, _ => map (fun _ => UB OutOfBounds) G
  end.
Definition ksk_GT (nw : nat) (G : list K) (r : nat) : list K :=
  fold_left (ksk_mix nw r) (seq 0 (nw / 2)) G.

(** skein_provider.hpp:38-45, 82-93, 143-162 *)
Definition ksk_KSt (nw r : nat) (keys tweaks G : list K) : list K :=
  map (fun i =>
    let k := kget ((r + i + 1) mod (nw + 1)) keys in
    kadd 64 (kget i G)
      (if (i =? nw - 3)%nat then kadd 64 k (kget ((r + 1) mod 3) tweaks)
       else if (i =? nw - 2)%nat then kadd 64 k (kget ((r + 2) mod 3) tweaks)
       else if (i =? nw - 1)%nat then kadd 64 (kadd 64 k (Ok (N.of_nat r))) (Ok 1)
       else k)) (seq 0 nw).

(** skein_provider.hpp:47-60, 95-108, 164-177 *)
Definition ksk_G8 (nw : nat) (keys tweaks G : list K) (r : nat) : list K :=
  let G := fold_left (ksk_GT nw) [0; 1; 2; 3]%nat G in
  let G := ksk_KSt nw r keys tweaks G in
  let G := fold_left (ksk_GT nw) [4; 5; 6; 7]%nat G in
  ksk_KSt nw (r + 1) keys tweaks G.

(** skein_provider.hpp:320-359 *)
Definition ksk_block (nw : nat) (reallen : N) (h : list K) (data : list N) : list K :=
  let H := skipn 2 h in
  let M := kl (le_words 8 nw data) in
  let t0 := kadd 64 (kget 0 h) (Ok reallen) in
  let t1 := kget 1 h in
  let tweaks := [t0; t1; kxor t0 t1] in
  let keys := H ++ [fold_left kxor H (Ok 0x1BD11BDAA9FC1A22)] in
  let G := map2 (kadd 64) M H in
  let G := kupd (nw - 3) (kadd 64 (kget (nw - 3) G) t0) G in
  let G := kupd (nw - 2) (kadd 64 (kget (nw - 2) G) t1) G in
  let G := fold_left (ksk_G8 nw keys tweaks) (sk_rounds nw) G in
  [t0; kand t1 (knot 64 (kshl 64 (Ok 64) (Ok 56)))] ++ map2 kxor G M.

(** The tables: 8 rows, indices below nw, rotation counts between 1 and 63. *)
Definition sk_tables_ok (nw : nat) : bool :=
  forallb (fun r =>
    (r <? length (skein_I nw))%nat && (r <? length (skein_C nw))%nat &&
    (length (nth r (skein_I nw) []) =? nw)%nat && (length (nth r (skein_C nw) []) =? nw / 2)%nat &&
    forallb (fun i => N.to_nat i <? nw)%nat (nth r (skein_I nw) []) &&
    forallb (fun c => (0 <? c) && (c <? 64)) (nth r (skein_C nw) [])) (seq 0 8).

Lemma sk_tables nw r : nw = 4%nat \/ nw = 8%nat \/ nw = 16%nat -> (r < 8)%nat ->
  (r < length (skein_I nw) /\ r < length (skein_C nw) /\
   length (nth r (skein_I nw) []) = nw /\ length (nth r (skein_C nw) []) = nw / 2)%nat /\
  (forall i, (i < nw)%nat -> (N.to_nat (nthN i (nth r (skein_I nw) [])) < nw)%nat) /\
  (forall i, (i < nw / 2)%nat -> 0 < nthN i (nth r (skein_C nw) []) /\ nthN i (nth r (skein_C nw) []) < 64).
Proof.
  intros Hw Hr.
  assert (E : sk_tables_ok nw = true) by (destruct Hw as [-> | [-> | ->]]; vm_compute; reflexivity).
  unfold sk_tables_ok in E. rewrite forallb_forall in E. specialize (E r).
  rewrite !andb_true_iff, !Nat.ltb_lt, !Nat.eqb_eq, !forallb_forall in E.
  destruct E as (((((A & B) & C) & D) & F) & G); [apply in_seq; lia|].
  split; [tauto|]. split.
  - intros i Hi. apply Nat.ltb_lt, F, nth_In. lia.
  - intros i Hi. specialize (G (nthN i (nth r (skein_C nw) []))).
    rewrite andb_true_iff, !N.ltb_lt in G. apply G, nth_In. lia.
Qed.

Section Threefish.
  Variable nw : nat.
  Hypothesis Hnw : nw = 4%nat \/ nw = 8%nat \/ nw = 16%nat.

  Lemma ksk_mix_ok r G j : (r < 8)%nat -> (j < nw / 2)%nat -> length G = nw ->
    ksk_mix nw r (kl G) j = kl (sk_mix nw r G j) /\ length (sk_mix nw r G j) = nw.
  Proof.
    intros Hr Hj HG. unfold ksk_mix, sk_mix.
    destruct (sk_tables nw r Hnw Hr) as ((A & B & C & D) & F & R).
    assert (Hj2 : (2 * j + 1 < nw)%nat).
    { pose proof (Nat.div_mod nw 2). assert (nw mod 2 < 2)%nat by now apply Nat.mod_upper_bound. lia. }
    rewrite !ktab2_ok by lia.
    assert (Ia := F (2 * j)%nat ltac:(lia)). assert (Ib := F (2 * j + 1)%nat Hj2).
    destruct (R j Hj) as [R0 R1].
    set (ia := N.to_nat (nthN (2 * j) _)) in *. set (ib := N.to_nat (nthN (2 * j + 1) _)) in *.
    set (c := nthN j (nth r (skein_C nw) [])) in *. clearbody ia ib c. cbv zeta.
    rewrite !kget_ok by lia. cbn [kadd bind].
    rewrite kupd_ok by lia.
    set (G1 := upd ia (addw 64 (nthN ia G) (nthN ib G)) G).
    assert (L1 : length G1 = nw) by (unfold G1; now rewrite upd_len).
    clearbody G1. rewrite !kget_ok by lia.
    rewrite krotl_ok by (assumption || discriminate). cbn [kxor bind].
    rewrite kupd_ok by lia. now rewrite upd_len.
  Qed.

  Lemma ksk_GT_ok r G : (r < 8)%nat -> length G = nw ->
    ksk_GT nw (kl G) r = kl (sk_GT nw G r) /\ length (sk_GT nw G r) = nw.
  Proof.
    intros Hr HG. unfold ksk_GT, sk_GT.
    apply (fold_k nat _ _ (fun v => length v = nw) kl); [|exact HG].
    intros s j Hj Hs. apply in_seq in Hj. apply ksk_mix_ok; [exact Hr | lia | exact Hs].
  Qed.

  Lemma ksk_KSt_ok r keys tweaks G : length keys = (nw + 1)%nat -> length tweaks = 3%nat -> length G = nw ->
    ksk_KSt nw r (kl keys) (kl tweaks) (kl G) = kl (sk_KSt nw r keys tweaks G)
    /\ length (sk_KSt nw r keys tweaks G) = nw.
  Proof.
    intros Hk Ht HG. split; [|unfold sk_KSt; rewrite map_length; apply seq_length].
    unfold ksk_KSt, sk_KSt. apply map_ok. intros i Hi. apply in_seq in Hi.
    assert ((r + i + 1) mod (nw + 1) < nw + 1)%nat by (apply Nat.mod_upper_bound; lia).
    assert ((r + 1) mod 3 < 3)%nat by now apply Nat.mod_upper_bound.
    assert ((r + 2) mod 3 < 3)%nat by now apply Nat.mod_upper_bound.
    rewrite !kget_ok by lia. cbv zeta.
    destruct (i =? nw - 3)%nat, (i =? nw - 2)%nat, (i =? nw - 1)%nat; reflexivity.
  Qed.

  Lemma ksk_GTs_ok rs G : Forall (fun r => (r < 8)%nat) rs -> length G = nw ->
    fold_left (ksk_GT nw) rs (kl G) = kl (fold_left (sk_GT nw) rs G) /\ length (fold_left (sk_GT nw) rs G) = nw.
  Proof.
    intros Hr HG. apply (fold_k nat _ _ (fun v => length v = nw) kl); [|exact HG].
    intros s r Hi Hs. rewrite Forall_forall in Hr. apply ksk_GT_ok; [now apply Hr | exact Hs].
  Qed.

  Lemma ksk_G8_ok keys tweaks G r : length keys = (nw + 1)%nat -> length tweaks = 3%nat -> length G = nw ->
    ksk_G8 nw (kl keys) (kl tweaks) (kl G) r = kl (sk_G8 nw keys tweaks G r)
    /\ length (sk_G8 nw keys tweaks G r) = nw.
  Proof.
    intros Hk Ht HG. unfold ksk_G8, sk_G8.
    destruct (ksk_GTs_ok [0; 1; 2; 3]%nat G) as [-> L1]; [repeat (constructor; try lia) | exact HG |].
    set (G1 := fold_left (sk_GT nw) [0; 1; 2; 3]%nat G) in *. clearbody G1. cbv zeta.
    destruct (ksk_KSt_ok r keys tweaks G1 Hk Ht L1) as [-> L2].
    set (G2 := sk_KSt nw r keys tweaks G1) in *. clearbody G2.
    destruct (ksk_GTs_ok [4; 5; 6; 7]%nat G2) as [-> L3]; [repeat (constructor; try lia) | exact L2 |].
    now apply ksk_KSt_ok.
  Qed.

  Lemma fold_kxor l x : fold_left kxor (kl l) (Ok x) = Ok (fold_left N.lxor l x).
  Proof. revert x. induction l as [|y l IH]; intros x; [reflexivity|]. apply IH. Qed.
  Lemma map2_len (A B C : Type) (f : A -> B -> C) a b : length a = length b -> length (map2 f a b) = length a.
  Proof.
    revert b. induction a as [|x a IH]; intros [|y b] H; try discriminate; [reflexivity|].
    cbn [map2 length]. f_equal. apply IH. now injection H.
  Qed.

  Lemma ksk_block_ok reallen h data : length h = (nw + 2)%nat ->
    ksk_block nw reallen (kl h) data = kl (sk_block nw reallen h data).
  Proof.
    intros Hh. unfold ksk_block, sk_block.
    assert (HM : length (le_words 8 nw data) = nw) by apply le_words_length.
    set (M := le_words 8 nw data) in *. clearbody M. cbv zeta.
    rewrite !(kget_ok 0 h), !(kget_ok 1 h) by lia.
    rewrite kl_skipn. cbn [kadd bind].
    set (t0 := addw 64 (nthN 0 h) reallen). set (t1 := nthN 1 h).
    assert (HH : length (skipn 2 h) = nw) by (rewrite skipn_length; lia).
    set (H := skipn 2 h) in *. clearbody H t0 t1. clear h Hh.
    rewrite fold_kxor. cbn [kxor bind].
    change [Ok t0; Ok t1; Ok (N.lxor t0 t1)] with (kl [t0; t1; N.lxor t0 t1]).
    replace (kl H ++ [Ok (fold_left N.lxor H 0x1BD11BDAA9FC1A22)])
      with (kl (H ++ [fold_left N.lxor H 0x1BD11BDAA9FC1A22])) by (rewrite kl_app; reflexivity).
    rewrite (map2_kl (kadd 64) (addw 64)) by reflexivity.
    assert (LG : length (map2 (addw 64) M H) = nw) by (rewrite map2_len; lia).
    set (G0 := map2 (addw 64) M H) in *. clearbody G0.
    rewrite kget_ok by lia. cbn [kadd bind]. rewrite kupd_ok by lia.
    set (G1 := upd (nw - 3) _ G0). assert (L1 : length G1 = nw) by (unfold G1; now rewrite upd_len). clearbody G1.
    rewrite kget_ok by lia. cbn [kadd bind]. rewrite kupd_ok by lia.
    set (G2 := upd (nw - 2) _ G1). assert (L2 : length G2 = nw) by (unfold G2; now rewrite upd_len). clearbody G2.
    destruct (fold_k nat _ _ (fun v => length v = nw) kl
      (sk_G8 nw (H ++ [fold_left N.lxor H 0x1BD11BDAA9FC1A22]) [t0; t1; N.lxor t0 t1])
      (ksk_G8 nw (kl (H ++ [fold_left N.lxor H 0x1BD11BDAA9FC1A22])) (kl [t0; t1; N.lxor t0 t1]))
      (sk_rounds nw) G2) as [-> L3].
    - intros s r _ Hs. apply ksk_G8_ok; [rewrite app_length, HH; reflexivity | reflexivity | exact Hs].
    - exact L2.
    - set (G3 := fold_left _ (sk_rounds nw) G2) in *. clearbody G3.
      rewrite (map2_kl kxor N.lxor) by reflexivity. rewrite kl_app. reflexivity.
  Qed.
End Threefish.
