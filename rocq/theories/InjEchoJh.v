(** * ECHO's rounds and JH's bijective function E8 are injective (C54). *)
From Verif Require Import Base Lemmas WordLemmas TableLemmas SpecCommon GfSpec EchoSpec JhSpec JhProof Inj InjArx InjArx2 InjGf InjCols.
From Coq Require Import ZArith Lia.

Lemma map_seq_eq {A} (f g : nat -> A) n : map f (seq 0 n) = map g (seq 0 n) -> forall i, (i < n)%nat -> f i = g i.
Proof.
  intros E i Hi. apply (f_equal (fun l => nth i l (f 0%nat))) in E. rewrite (nth_map_seq' f), (nth_map_seq' g) in E by exact Hi. exact E.
Qed.

(** ** ECHO *)
Definition aw (x : list N) : Prop := length x = 16%nat /\ bytes_ok x.
Definition est (s : list (list N)) : Prop := length s = 16%nat /\ Forall aw s.
Lemma est_nth s i : est s -> (i < 16)%nat -> aw (nth i s []).
Proof. intros [L H] Hi. apply (proj1 (Forall_forall _ _) H), nth_In. lia. Qed.
Lemma aes_mds_lt r j : aes_mds r j < 256.
Proof. apply nth_bytes_lt. repeat constructor. Qed.
Lemma aes_mds_inv : mat_inv 0x11b 4 aes_mds (fun r j => nth ((j + 4 - r) mod 4) [14; 11; 13; 9] 0) = true.
Proof. vm_compute. reflexivity. Qed.
Lemma mds_lt x r : xor_sum (fun j => gf_mul 0x11b (aes_mds r j) (x j)) 4 < 256.
Proof.
  pose proof (mv_lt 0x11b 4 aes_mds x r ltac:(split; reflexivity || discriminate) aes_mds_lt) as H. unfold mv in H. exact H.
Qed.
Lemma rc_div r c : (r < 4)%nat -> ((4 * c + r) mod 4 = r /\ (4 * c + r) / 4 = c)%nat.
Proof.
  intros Hr. replace (4 * c + r)%nat with (r + c * 4)%nat by lia. rewrite Nat.mod_add, Nat.div_add by lia.
  rewrite Nat.mod_small, Nat.div_small by lia. lia.
Qed.
Lemma sixteen n : (n < 16)%nat -> exists r c, n = (4 * c + r)%nat /\ (r < 4)%nat /\ (c < 4)%nat.
Proof.
  intros Hn. exists (n mod 4)%nat, (n / 4)%nat. pose proof (Nat.div_mod n 4 ltac:(lia)). pose proof (Nat.mod_upper_bound n 4 ltac:(lia)).
  split; [assumption|]. split; [assumption|]. apply Nat.div_lt_upper_bound; lia.
Qed.
Lemma aes_round_aw x k : bytes_ok k -> aw (aes_round x k).
Proof.
  intros Hk. split; [unfold aes_round; rewrite map_length; apply seq_length|].
  apply Forall_forall. intros v Hv. unfold aes_round in Hv. apply in_map_iff in Hv. destruct Hv as (n & Hn & _). cbv zeta in Hn. subst v.
  apply (lxor_lt 8).
  - apply (mds_lt (fun j => aes_sbox (nth (4 * ((n / 4 + j) mod 4) + j) x 0))).
  - apply nth_bytes_lt. exact Hk.
Qed.
Lemma aes_round_inj k : inj_on aw (fun x => aes_round x k).
Proof.
  intros x y [Lx Hx] [Ly Hy] E. unfold aes_round in E. pose proof (map_seq_eq _ _ _ E) as Q. clear E.
  assert (G : forall c j, (c < 4)%nat -> (j < 4)%nat -> nth (4 * ((c + j) mod 4) + j) x 0 = nth (4 * ((c + j) mod 4) + j) y 0).
  { intros c j Hc Hj. apply aes_sbox_inj; [apply nth_bytes_lt; assumption..|].
    apply (mv_inj 0x11b 4 aes_mds _ (fun j => aes_sbox (nth (4 * ((c + j) mod 4) + j) x 0)) (fun j => aes_sbox (nth (4 * ((c + j) mod 4) + j) y 0)) aes_mds_inv);
      [intros; apply aes_sbox_lt, nth_bytes_lt; assumption..| |exact Hj].
    intros r Hr. specialize (Q (4 * c + r)%nat ltac:(lia)). cbv beta zeta in Q. destruct (rc_div r c Hr) as [E1 E2]. rewrite E1, E2 in Q.
    apply lxor_inj_r in Q. exact Q. }
  apply (nth_ext _ _ 0 0); [lia|]. intros n Hn. rewrite Lx in Hn. destruct (sixteen n Hn) as (r & c & -> & Hr & Hc).
  specialize (G ((c + 4 - r) mod 4)%nat r ltac:(apply Nat.mod_upper_bound; lia) Hr).
  replace (((c + 4 - r) mod 4 + r) mod 4)%nat with c in G; [exact G|].
  clear - Hr Hc. do 4 (destruct r; [do 4 (destruct c; [reflexivity|]); lia|]). lia.
Qed.
Lemma big_sub_inj salt k : bytes_ok salt -> inj_on est (big_sub salt k) /\ forall s, est s -> est (big_sub salt k s).
Proof.
  intros Hsalt. split.
  - intros s t Hs Ht E. pose proof (map_seq_eq _ _ _ E) as Q. cbv beta in Q. apply (nth_ext _ _ [] []); [destruct Hs, Ht; lia|].
    intros n Hn. destruct Hs as [Ls Hs']. rewrite Ls in Hn. pose proof (est_nth s n (conj Ls Hs') Hn) as N1. pose proof (est_nth t n Ht Hn) as N2.
    specialize (Q n Hn). apply (aes_round_inj salt) in Q; [|apply aes_round_aw, le_bytes_ok..]. exact (aes_round_inj _ _ _ N1 N2 Q).
  - intros s Hs. split; [reflexivity|]. apply Forall_forall. intros v Hv. apply in_map_iff in Hv. destruct Hv as (n & <- & _).
    apply aes_round_aw. exact Hsalt.
Qed.
Lemma big_shift_inj : inj_on est big_shift /\ forall s, est s -> est (big_shift s).
Proof.
  split.
  - intros s t Hs Ht E. pose proof (map_seq_eq _ _ _ E) as Q. cbv beta zeta in Q. apply (nth_ext _ _ [] []); [destruct Hs, Ht; lia|].
    intros n Hn. destruct Hs as [Ls _]. rewrite Ls in Hn. destruct (sixteen n Hn) as (r & c & -> & Hr & Hc).
    specialize (Q (4 * ((c + 4 - r) mod 4) + r)%nat ltac:(pose proof (Nat.mod_upper_bound (c + 4 - r) 4); lia)).
    destruct (rc_div r ((c + 4 - r) mod 4) Hr) as [E1 E2]. rewrite E1, E2 in Q.
    replace (((c + 4 - r) mod 4 + r) mod 4)%nat with c in Q; [exact Q|].
    clear - Hr Hc. do 4 (destruct r; [do 4 (destruct c; [reflexivity|]); lia|]). lia.
  - intros s Hs. split; [reflexivity|]. apply Forall_forall. intros v Hv. apply in_map_iff in Hv. destruct Hv as (n & <- & Hn). apply in_seq in Hn.
    apply est_nth; [exact Hs|]. pose proof (Nat.mod_upper_bound n 4). pose proof (Nat.mod_upper_bound (n / 4 + n mod 4) 4). lia.
Qed.
Lemma big_mix_inj : inj_on est big_mix /\ forall s, est s -> est (big_mix s).
Proof.
  split.
  - intros s t Hs Ht E. pose proof (map_seq_eq _ _ _ E) as Q. cbv beta zeta in Q. apply (nth_ext _ _ [] []); [destruct Hs, Ht; lia|].
    intros n Hn. rewrite (proj1 Hs) in Hn. pose proof (est_nth s n Hs Hn) as [L1 _]. pose proof (est_nth t n Ht Hn) as [L2 _].
    apply (nth_ext _ _ 0 0); [lia|]. intros b Hb. rewrite L1 in Hb. destruct (sixteen n Hn) as (r & c & -> & Hr & Hc).
    apply (mv_inj 0x11b 4 aes_mds _ (fun j => nth b (nth (4 * c + j) s []) 0) (fun j => nth b (nth (4 * c + j) t []) 0) aes_mds_inv);
      [intros j Hj; apply nth_bytes_lt, est_nth; [assumption|lia]..| |exact Hr].
    intros i Hi. specialize (Q (4 * c + i)%nat ltac:(lia)). destruct (rc_div i c Hi) as [E1 E2]. rewrite E1, E2 in Q.
    exact (map_seq_eq _ _ _ Q b Hb).
  - intros s Hs. split; [reflexivity|]. apply Forall_forall. intros v Hv. apply in_map_iff in Hv. destruct Hv as (n & <- & _).
    split; [reflexivity|]. apply Forall_forall. intros v Hv. apply in_map_iff in Hv. destruct Hv as (b & <- & _).
    apply (mds_lt (fun j => nth b (nth (4 * (n / 4) + j) s []) 0)).
Qed.
Lemma big_rounds_inj salt k l : bytes_ok salt -> inj_on est (fun s => fold_left (big_round salt k) l s) /\
  forall s, est s -> est (fold_left (big_round salt k) l s).
Proof.
  intros Hsalt. apply (inj_fold est (big_round salt k) (fun _ => True)).
  - intros i _ s t Hs Ht E. unfold big_round in E. apply big_mix_inj in E; [|apply big_shift_inj, big_sub_inj; auto..].
    apply big_shift_inj in E; [|apply big_sub_inj; auto..]. apply big_sub_inj in E; auto.
  - intros i s _ Hs. apply big_mix_inj, big_shift_inj, big_sub_inj; auto.
  - apply Forall_forall. auto.
Qed.

(** ** JH *)
Definition jst (Q : list N) : Prop := length Q = 256%nat /\ Forall (fun x => x < 16) Q.
Lemma jst_nth Q i : jst Q -> nth i Q 0 < 16.
Proof.
  intros [_ H]. destruct (Nat.lt_ge_cases i (length Q)) as [L|L]; [apply (proj1 (Forall_forall _ _) H), nth_In, L|rewrite nth_overflow by exact L; reflexivity].
Qed.
Lemma jhs_S_inj c : inj_on (fun x => x < 16) (jhs_S c).
Proof.
  assert (C : forallb (fun c => forallb (fun x => (idx (jhs_S c (N.of_nat x)) (map (fun i => jhs_S c (N.of_nat i)) (seq 0 16)) =? x)%nat) (seq 0 16)) [true; false] = true)
    by (vm_compute; reflexivity).
  rewrite forallb_forall in C. specialize (C c ltac:(destruct c; cbn; auto)). rewrite forallb_forall in C.
  intros x y Hx Hy E. pose proof (C (N.to_nat x) ltac:(apply in_seq; lia)) as X. pose proof (C (N.to_nat y) ltac:(apply in_seq; lia)) as Y.
  rewrite N2Nat.id in X, Y. apply Nat.eqb_eq in X, Y. rewrite E in X. lia.
Qed.
Lemma jhs_S_lt c x : jhs_S c x < 16.
Proof.
  unfold jhs_S. destruct (Nat.lt_ge_cases (N.to_nat x) 16) as [L|L].
  - assert (F : forall l, Forall (fun x => x < 16) l -> nth (N.to_nat x) l 0 < 16).
    { intros l H. destruct (Nat.lt_ge_cases (N.to_nat x) (length l)) as [L'|L']; [apply (proj1 (Forall_forall _ _) H), nth_In, L'|rewrite nth_overflow by exact L'; reflexivity]. }
    apply F. destruct c; repeat constructor.
  - rewrite nth_overflow by (destruct c; exact L). reflexivity.
Qed.
Lemma jhs_double_lt a : a < 16 -> jhs_double a < 16.
Proof.
  intros Ha. assert (C : forallb (fun x => jhs_double (N.of_nat x) <? 16) (seq 0 16) = true) by (vm_compute; reflexivity).
  rewrite forallb_forall in C. specialize (C (N.to_nat a) ltac:(apply in_seq; lia)). rewrite N2Nat.id in C. apply N.ltb_lt in C. exact C.
Qed.
Lemma jhs_L_inj a b a' b' : jhs_L a b = jhs_L a' b' -> a = a' /\ b = b'.
Proof.
  unfold jhs_L. intros E. apply pair_equal_spec in E. destruct E as [E1 E2]. rewrite E2 in E1. apply lxor_inj_r in E1. subst a'.
  apply lxor_inj_r in E2. auto.
Qed.
Lemma jhs_L_lt a b : a < 16 -> b < 16 -> fst (jhs_L a b) < 16 /\ snd (jhs_L a b) < 16.
Proof.
  intros Ha Hb. unfold jhs_L. cbn [fst snd]. assert (D : N.lxor b (jhs_double a) < 16) by (apply (lxor_lt 4); auto using jhs_double_lt).
  split; [|exact D]. apply (lxor_lt 4); auto using jhs_double_lt.
Qed.
Lemma pidx_onto k : (k < 256)%nat -> exists j, (j < 256)%nat /\ pidx j = k.
Proof.
  intros Hk. assert (C : forallb (fun k => existsb (fun j => (pidx j =? k)%nat) (seq 0 256)) (seq 0 256) = true) by (vm_compute; reflexivity).
  rewrite forallb_forall in C. specialize (C k ltac:(apply in_seq; lia)). apply existsb_exists in C. destruct C as (j & Hj & E).
  exists j. apply in_seq in Hj. apply Nat.eqb_eq in E. split; [lia|exact E].
Qed.
Lemma jhs_P_len w : length (jhs_P 256 w) = 256%nat.
Proof. unfold jhs_P, jhs_phi. rewrite map_length. apply seq_length. Qed.
Lemma jhs_P_inj : inj_on (fun Q => length Q = 256%nat) (jhs_P 256).
Proof.
  intros A B HA HB E. apply (nth_ext _ _ 0 0); [congruence|]. intros n Hn. rewrite HA in Hn. destruct (pidx_onto n Hn) as (j & Hj & <-).
  rewrite <- !jhs_P_nth by exact Hj. rewrite E. reflexivity.
Qed.
Definition jl_s (c : nat -> bool) (a : list N) : list N := map (fun i => jhs_S (c i) (nth i a 0)) (seq 0 256).
Definition jl_l (v : list N) : list N :=
  map (fun i => if Nat.even i then fst (jhs_L (nth i v 0) (nth (i + 1) v 0)) else snd (jhs_L (nth (i - 1) v 0) (nth i v 0))) (seq 0 256).
Lemma jhs_R_eq c a : jhs_R 256 c a = jhs_P 256 (jl_l (jl_s c a)).
Proof. reflexivity. Qed.
Lemma jl_s_jst c a : jst (jl_s c a).
Proof.
  split; [unfold jl_s; rewrite map_length; apply seq_length|]. apply Forall_forall. intros x Hx. apply in_map_iff in Hx. destruct Hx as (i & <- & _). apply jhs_S_lt.
Qed.
Lemma jl_s_inj c : inj_on jst (jl_s c).
Proof.
  intros A B HA HB E. pose proof (map_seq_eq _ _ _ E) as Q. cbv beta in Q. apply (nth_ext _ _ 0 0); [destruct HA, HB; congruence|].
  intros n Hn. rewrite (proj1 HA) in Hn. apply (jhs_S_inj (c n)); auto using jst_nth.
Qed.
Lemma jl_l_jst v : jst v -> jst (jl_l v).
Proof.
  intros H. split; [unfold jl_l; rewrite map_length; apply seq_length|]. apply Forall_forall. intros x Hx. apply in_map_iff in Hx. destruct Hx as (i & <- & _).
  destruct (Nat.even i); [exact (proj1 (jhs_L_lt _ _ (jst_nth v i H) (jst_nth v (i + 1) H)))|exact (proj2 (jhs_L_lt _ _ (jst_nth v (i - 1) H) (jst_nth v i H)))].
Qed.
Lemma even_2 i : Nat.even (2 * i) = true /\ Nat.even (2 * i + 1) = false.
Proof. split; [apply Nat.even_spec; exists i; reflexivity|]. rewrite <- Nat.negb_odd. apply negb_false_iff, Nat.odd_spec. exists i. reflexivity. Qed.
Lemma jl_l_inj : inj_on jst jl_l.
Proof.
  intros A B HA HB E. pose proof (map_seq_eq _ _ _ E) as Q. cbv beta in Q.
  assert (G : forall i, (i < 128)%nat -> nth (2 * i) A 0 = nth (2 * i) B 0 /\ nth (2 * i + 1) A 0 = nth (2 * i + 1) B 0).
  { intros i Hi. destruct (even_2 i) as [E1 E2]. pose proof (Q (2 * i)%nat ltac:(lia)) as Q1. pose proof (Q (2 * i + 1)%nat ltac:(lia)) as Q2.
    rewrite E1 in Q1. rewrite E2 in Q2. replace (2 * i + 1 - 1)%nat with (2 * i)%nat in Q2 by lia. apply jhs_L_inj.
    apply injective_projections; assumption. }
  apply (nth_ext _ _ 0 0); [destruct HA, HB; congruence|]. intros n Hn. rewrite (proj1 HA) in Hn.
  destruct (Nat.Even_or_Odd n) as [[i ->]|[i ->]]; apply G; lia.
Qed.
Lemma jhs_P_jst a : jst a -> jst (jhs_P 256 a).
Proof.
  intros H. split; [apply jhs_P_len|]. apply Forall_forall. intros x Hx. apply (In_nth _ _ 0) in Hx. destruct Hx as (i & Hi & <-). rewrite jhs_P_len in Hi.
  rewrite jhs_P_nth by exact Hi. apply jst_nth. exact H.
Qed.
Lemma jhs_rounds_inj (c : nat -> nat -> bool) l : inj_on jst (fun Q => fold_left (fun Q r => jhs_R 256 (c r) Q) l Q) /\
  forall Q, jst Q -> jst (fold_left (fun Q r => jhs_R 256 (c r) Q) l Q).
Proof.
  apply (inj_fold jst (fun Q r => jhs_R 256 (c r) Q) (fun _ => True)).
  - intros r _ A B HA HB E. rewrite !jhs_R_eq in E. apply jhs_P_inj in E; [|apply (jl_l_jst _ (jl_s_jst _ _))..].
    apply jl_l_inj in E; auto using jl_s_jst. apply jl_s_inj in E; auto.
  - intros r Q _ HQ. rewrite jhs_R_eq. apply jhs_P_jst, jl_l_jst, jl_s_jst.
  - apply Forall_forall. auto.
Qed.
Lemma divmod8' t n : (t < 8)%nat -> ((8 * n + t) / 8 = n /\ (8 * n + t) mod 8 = t)%nat.
Proof.
  intros Ht. replace (8 * n + t)%nat with (t + n * 8)%nat by lia. rewrite Nat.div_add, Nat.mod_add by lia. rewrite Nat.div_small, Nat.mod_small by lia. lia.
Qed.
Definition jbs (A : list N) : Prop := length A = 128%nat /\ bytes_ok A.
Lemma byte_bits_inj x y : x < 256 -> y < 256 -> (forall t, (t < 8)%nat -> N.testbit x (N.of_nat t) = N.testbit y (N.of_nat t)) -> x = y.
Proof.
  intros Hx Hy E. rewrite <- (byte_bits x Hx), <- (byte_bits y Hy). cbn [seq fold_right]. rewrite !E by lia. reflexivity.
Qed.
Lemma bits_inj A B : jbs A -> jbs B -> (forall j, (j < 1024)%nat -> jhs_bit A j = jhs_bit B j) -> A = B.
Proof.
  intros [LA HA] [LB HB] E. apply (nth_ext _ _ 0 0); [congruence|]. intros n Hn. rewrite LA in Hn.
  apply byte_bits_inj; [apply nth_bytes_lt; assumption..|]. intros t Ht. specialize (E (8 * n + (7 - t))%nat ltac:(lia)). unfold jhs_bit in E.
  destruct (divmod8' (7 - t) n ltac:(lia)) as [E1 E2]. rewrite E1, E2 in E. replace (7 - (7 - t))%nat with t in E by lia. exact E.
Qed.
Lemma nibble_inj a b c d a' b' c' d' : jhs_nibble a b c d = jhs_nibble a' b' c' d' -> a = a' /\ b = b' /\ c = c' /\ d = d'.
Proof. destruct a, b, c, d, a', b', c', d'; intros E; try discriminate E; auto. Qed.
Lemma jhs_group_inj : inj_on jbs jhs_group.
Proof.
  intros A B HA HB E. pose proof (map_seq_eq _ _ _ E) as Q. cbv beta zeta in Q. apply bits_inj; auto. intros j Hj.
  pose proof (Nat.div_mod j 256 ltac:(lia)) as D. pose proof (Nat.mod_upper_bound j 256 ltac:(lia)) as M.
  set (q := (j mod 256)%nat) in *.
  assert (S : exists p, (p < 256)%nat /\ (p / 2 + 128 * (p mod 2))%nat = q).
  { exists (2 * (q mod 128) + q / 128)%nat. pose proof (Nat.div_mod q 128 ltac:(lia)). pose proof (Nat.mod_upper_bound q 128 ltac:(lia)).
    assert (q / 128 < 2)%nat by (apply Nat.div_lt_upper_bound; lia). replace (2 * (q mod 128) + q / 128)%nat with (q / 128 + (q mod 128) * 2)%nat by lia.
    rewrite Nat.div_add, Nat.mod_add by lia. rewrite (Nat.div_small (q / 128)), (Nat.mod_small (q / 128)) by lia. lia. }
  destruct S as (p & Hp & Ep). specialize (Q p Hp). rewrite Ep in Q. apply nibble_inj in Q. destruct Q as (Q0 & Q1 & Q2 & Q3).
  assert (K : (j / 256 < 4)%nat) by (apply Nat.div_lt_upper_bound; lia). rewrite D. revert K. generalize (j / 256)%nat. intros k K.
  replace (256 * k + q)%nat with (q + 256 * k)%nat by lia. destruct k as [|k]; [rewrite Nat.mul_0_r, Nat.add_0_r; exact Q0|].
  destruct k as [|k]; [exact Q1|]. destruct k as [|k]; [exact Q2|]. destruct k as [|k]; [exact Q3|]. lia.
Qed.
Lemma jhs_group_jst A : jst (jhs_group A).
Proof.
  split; [unfold jhs_group; rewrite map_length; apply seq_length|]. apply Forall_forall. intros x Hx. apply in_map_iff in Hx. destruct Hx as (p & <- & _).
  cbv zeta. unfold jhs_nibble. destruct (jhs_bit _ _), (jhs_bit _ _), (jhs_bit _ _), (jhs_bit _ _); reflexivity.
Qed.
Lemma sum_bits_inj (f g : nat -> bool) : 
  fold_right (fun t acc => N.b2n (f t) * 2 ^ N.of_nat (7 - t) + acc) 0 (seq 0 8) = fold_right (fun t acc => N.b2n (g t) * 2 ^ N.of_nat (7 - t) + acc) 0 (seq 0 8) ->
  forall t, (t < 8)%nat -> f t = g t.
Proof.
  cbn [seq fold_right]. intros E.
  assert (B : forall b, N.b2n b <= 1) by (intros []; cbn; lia).
  assert (J : forall a b, N.b2n a = N.b2n b -> a = b) by (intros [] []; cbn; intros; congruence).
  change (2 ^ N.of_nat (7 - 0)) with 128 in E. change (2 ^ N.of_nat (7 - 1)) with 64 in E. change (2 ^ N.of_nat (7 - 2)) with 32 in E.
  change (2 ^ N.of_nat (7 - 3)) with 16 in E. change (2 ^ N.of_nat (7 - 4)) with 8 in E. change (2 ^ N.of_nat (7 - 5)) with 4 in E.
  change (2 ^ N.of_nat (7 - 6)) with 2 in E. change (2 ^ N.of_nat (7 - 7)) with 1 in E.
  pose proof (B (f 0%nat)). pose proof (B (f 1%nat)). pose proof (B (f 2%nat)). pose proof (B (f 3%nat)).
  pose proof (B (f 4%nat)). pose proof (B (f 5%nat)). pose proof (B (f 6%nat)). pose proof (B (f 7%nat)).
  pose proof (B (g 0%nat)). pose proof (B (g 1%nat)). pose proof (B (g 2%nat)). pose proof (B (g 3%nat)).
  pose proof (B (g 4%nat)). pose proof (B (g 5%nat)). pose proof (B (g 6%nat)). pose proof (B (g 7%nat)).
  intros t Ht. do 8 (destruct t as [|t]; [apply J; lia|]). lia.
Qed.
Lemma jhs_degroup_inj : inj_on jst jhs_degroup.
Proof.
  intros A B HA HB E. pose proof (map_seq_eq _ _ _ E) as Q. cbv beta in Q.
  assert (G : forall j, (j < 1024)%nat -> jhs_degroup_bit A j = jhs_degroup_bit B j).
  { intros j Hj. pose proof (Nat.div_mod j 8 ltac:(lia)) as D. pose proof (Nat.mod_upper_bound j 8 ltac:(lia)) as M.
    specialize (Q (j / 8)%nat ltac:(apply Nat.div_lt_upper_bound; lia)).
    pose proof (sum_bits_inj (fun t => jhs_degroup_bit A (8 * (j / 8) + t)) (fun t => jhs_degroup_bit B (8 * (j / 8) + t)) Q (j mod 8)%nat M) as X.
    cbv beta in X. rewrite <- D in X. exact X. }
  clear Q E. apply (nth_ext _ _ 0 0); [destruct HA, HB; congruence|]. intros n Hn. rewrite (proj1 HA) in Hn.
  assert (F : forall k, (k < 4)%nat -> jhs_nibble_bit k (nth n A 0) = jhs_nibble_bit k (nth n B 0)).
  { intros k Hk. specialize (G (256 * k + 128 * (n mod 2) + n / 2)%nat). pose proof (Nat.mod_upper_bound n 2 ltac:(lia)) as M.
    assert (D : (n / 2 < 128)%nat) by (apply Nat.div_lt_upper_bound; lia). specialize (G ltac:(lia)). unfold jhs_degroup_bit in G.
    pose proof (Nat.div_mod n 2 ltac:(lia)) as DM. set (h := (n / 2)%nat) in *. set (b := (n mod 2)%nat) in *.
    replace ((256 * k + 128 * b + h) / 256)%nat with k in G by (apply Nat.div_unique with (128 * b + h)%nat; lia).
    replace ((256 * k + 128 * b + h) mod 128)%nat with h in G by (apply Nat.mod_unique with (2 * k + b)%nat; lia).
    replace ((256 * k + 128 * b + h) / 128)%nat with (2 * k + b)%nat in G by (apply Nat.div_unique with h; lia).
    replace ((2 * k + b) mod 2)%nat with b in G by (apply Nat.mod_unique with k; lia).
    rewrite <- DM in G. exact G. }
  pose proof (jst_nth A n HA) as Ha. pose proof (jst_nth B n HB) as Hb. apply byte_bits_inj; [lia..|]. intros t Ht.
  destruct (Nat.lt_ge_cases t 4) as [L|L].
  - specialize (F (3 - t)%nat ltac:(lia)). unfold jhs_nibble_bit in F. replace (3 - (3 - t))%nat with t in F by lia. exact F.
  - assert (Z : forall x, x < 16 -> N.testbit x (N.of_nat t) = false); [|rewrite !Z by assumption; reflexivity].
    intros x Hx. rewrite <- (N.mod_small x (2 ^ 4)) by exact Hx. apply N.mod_pow2_bits_high. lia.
Qed.
Lemma jhs_E8_inj : inj_on jbs jhs_E8.
Proof.
  intros A B HA HB E. unfold jhs_E8 in E. apply jhs_degroup_inj in E; [|apply (jhs_rounds_inj (fun r => jhs_cbit (jhs_consts r))), jhs_group_jst..].
  apply (jhs_rounds_inj (fun r => jhs_cbit (jhs_consts r))) in E; auto using jhs_group_jst. apply jhs_group_inj in E; auto.
Qed.
