(** * Whirlpool: the provider implements ISO/IEC 10118-3. *)
From Verif Require Import Base Absorb Hasher HasherSpec Lemmas WordLemmas AbsorbProof HasherProof
  MdState SpecCommon MdProof TableLemmas GfSpec ConstWhirlpool Whirlpool WhirlpoolSpec.

(** The tables are the composition of the S-box and the row of the matrix. *)
Lemma wp_T_eq j k x : (j < 8)%nat -> (k < 8)%nat -> x < 256 ->
  byte_at (tbl (nth j whirlpool_T []) x) (N.of_nat (8 * k)) = gf_mul 0x11d (wp_S x) (wp_C j k).
Proof.
  intros Hj Hk Hx. apply N.eqb_eq.
  apply (sweep3 (fun j k x => byte_at (tbl (nth j whirlpool_T []) x) (N.of_nat (8 * k)) =?
    gf_mul 0x11d (wp_S x) (wp_C j k)) 8 8); [vm_compute; reflexivity|auto..].
Qed.

Lemma wp_RC_eq r : (r < 10)%nat ->
  words_bytes 8 [nthN r whirlpool_RC; 0; 0; 0; 0; 0; 0; 0] = wp_c (S r).
Proof.
  intros Hr. apply list_eqb_eq.
  assert (F : forallb (fun r => list_eqb (words_bytes 8 [nthN r whirlpool_RC; 0; 0; 0; 0; 0; 0; 0])
    (wp_c (S r))) (seq 0 10) = true) by (vm_compute; reflexivity).
  rewrite forallb_forall in F. apply F. apply in_seq. lia.
Qed.

Lemma mat_nth f n : (n < 64)%nat -> nth n (mat f) 0 = f (n / 8)%nat (n mod 8)%nat.
Proof. intros. unfold mat. apply (nth_map_seq (fun n => f (n / 8)%nat (n mod 8)%nat)). auto. Qed.
Lemma mat_entry f i j : (i < 8)%nat -> (j < 8)%nat -> entry (mat f) i j = f i j.
Proof.
  intros. unfold entry. rewrite mat_nth by lia. f_equal.
  - rewrite Nat.mul_comm, Nat.div_add_l, Nat.div_small by lia. lia.
  - rewrite Nat.add_comm, Nat.mul_comm, Nat.mod_add, Nat.mod_small by lia. reflexivity.
Qed.
Lemma mat_length f : length (mat f) = 64%nat.
Proof. unfold mat. rewrite map_length, seq_length. reflexivity. Qed.

Lemma wp_G_byte ll i k : length ll = 8%nat -> (i < 8)%nat -> (k < 8)%nat ->
  byte_at (wp_G (8 + i) ll) (N.of_nat (8 * k)) =
  xor_sum (fun j => gf_mul 0x11d (entry (wp_pi (wp_gamma (words_bytes 8 ll))) i j) (wp_C j k)) 8.
Proof.
  intros Hl Hi Hk. unfold wp_G. cbv zeta. rewrite !byte_at_lxor.
  assert (T : forall j, (j < 8)%nat ->
    byte_at (tbl (nth j whirlpool_T []) (byte_at (nthN ((8 + i - j) mod 8) ll) (N.of_nat (8 * j))))
      (N.of_nat (8 * k)) =
    gf_mul 0x11d (entry (wp_pi (wp_gamma (words_bytes 8 ll))) i j) (wp_C j k)).
  { intros j Hj. rewrite wp_T_eq by auto using byte_at_lt. f_equal.
    unfold wp_pi. rewrite mat_entry by auto.
    assert (Hm : ((i + 8 - j) mod 8 < 8)%nat) by (apply Nat.mod_upper_bound; lia).
    unfold wp_gamma, entry. rewrite (map_nth_lt wp_S _ _ 0) by (rewrite words_bytes_length, Hl; lia).
    rewrite nth_words_bytes by auto. unfold nthN. rewrite (Nat.add_comm 8 i). reflexivity. }
  rewrite !T by lia. cbn [xor_sum]. rewrite N.lxor_0_l. reflexivity.
Qed.

(** The eight G values are theta o pi o gamma. *)
Lemma wp_G_eq ll : length ll = 8%nat ->
  words_bytes 8 (map (fun i => wp_G (8 + i) ll) (seq 0 8)) = wp_theta (wp_pi (wp_gamma (words_bytes 8 ll))).
Proof.
  intros Hl. apply (nth_ext _ _ 0 0).
  - unfold wp_theta. rewrite mat_length, words_bytes_length, map_length, seq_length. reflexivity.
  - intros n Hn. rewrite words_bytes_length, map_length, seq_length in Hn.
    assert (Hi : (n / 8 < 8)%nat) by (apply Nat.div_lt_upper_bound; lia).
    assert (Hk : (n mod 8 < 8)%nat) by (apply Nat.mod_upper_bound; lia).
    unfold wp_theta. rewrite mat_nth by lia. rewrite (divmod8 n) at 1.
    rewrite nth_words_bytes by auto. rewrite nth_map_seq by auto. apply wp_G_byte; auto.
Qed.

Lemma wp_G_opaque_list ll : 
  [wp_G 8 ll; wp_G 9 ll; wp_G 10 ll; wp_G 11 ll; wp_G 12 ll; wp_G 13 ll; wp_G 14 ll; wp_G 15 ll] =
  map (fun i => wp_G (8 + i) ll) (seq 0 8).
Proof. cbn [map seq Nat.add]. reflexivity. Qed.

Lemma wp_round_eq K X r : length K = 8%nat -> length X = 8%nat -> (r < 10)%nat ->
  exists K' X', wp_round (K, X) r = (K', X') /\ length K' = 8%nat /\ length X' = 8%nat /\
    words_bytes 8 K' = wp_rho (wp_c (S r)) (words_bytes 8 K) /\
    words_bytes 8 X' = wp_rho (words_bytes 8 K') (words_bytes 8 X).
Proof.
  intros HK HX Hr. unfold wp_round.
  set (GK := map (fun i => wp_G (8 + i) K) (seq 0 8)).
  set (GX := map (fun i => wp_G (8 + i) X) (seq 0 8)).
  set (K' := map2 N.lxor GK [nthN r whirlpool_RC; 0; 0; 0; 0; 0; 0; 0]).
  replace [N.lxor (wp_G 8 K) (nthN r whirlpool_RC); wp_G 9 K; wp_G 10 K; wp_G 11 K;
            wp_G 12 K; wp_G 13 K; wp_G 14 K; wp_G 15 K] with K'.
  2: { unfold K', GK. rewrite <- wp_G_opaque_list. cbn [map2]. rewrite !N.lxor_0_r. reflexivity. }
  cbv zeta.
  replace [N.lxor (nthN 0 K') (wp_G 8 X); N.lxor (nthN 1 K') (wp_G 9 X);
            N.lxor (nthN 2 K') (wp_G 10 X); N.lxor (nthN 3 K') (wp_G 11 X);
            N.lxor (nthN 4 K') (wp_G 12 X); N.lxor (nthN 5 K') (wp_G 13 X);
            N.lxor (nthN 6 K') (wp_G 14 X); N.lxor (nthN 7 K') (wp_G 15 X)] with (map2 N.lxor K' GX).
  2: { unfold GX. rewrite <- wp_G_opaque_list.
       assert (L : length K' = 8%nat) by reflexivity. clearbody K'.
       do 8 (destruct K' as [|? K']; [discriminate L|]). destruct K'; [|discriminate L].
       unfold nthN. cbn [map2 nth]. reflexivity. }
  assert (LK : length K' = 8%nat) by reflexivity.
  assert (LG : length GX = 8%nat) by reflexivity.
  exists K', (map2 N.lxor K' GX).
  split; [reflexivity|]. split; [auto|]. split; [rewrite map2_length, LK, LG; reflexivity|]. split.
  - unfold K'. rewrite words_bytes_lxor by reflexivity. unfold GK. rewrite wp_G_eq, wp_RC_eq by auto.
    reflexivity.
  - rewrite words_bytes_lxor by (rewrite LK, LG; reflexivity). unfold GX. rewrite wp_G_eq by auto.
    unfold wp_rho, wp_sigma. apply map2_comm. apply N.lxor_comm.
Qed.

Lemma wp_block_eq h t b : length h = 8%nat -> block_ok 64 b ->
  words_bytes 8 (wp_block h t b) = wp_compress (words_bytes 8 h) b /\ length (wp_block h t b) = 8%nat.
Proof.
  intros Hh [Hl Hb]. unfold wp_block, wp_compress, wp_W.
  set (mp := le_words 8 8 b).
  assert (Lm : length mp = 8%nat) by apply le_words_length.
  assert (Em : words_bytes 8 mp = b) by (apply words_bytes_le_words; auto).
  assert (F : forall n, (n <= 10)%nat -> exists K X,
    fold_left wp_round (seq 0 n) (h, map2 N.lxor h mp) = (K, X) /\ length K = 8%nat /\ length X = 8%nat /\
    fold_left (fun ks r => let K' := wp_rho (wp_c r) (fst ks) in (K', wp_rho K' (snd ks)))
      (seq 1 n) (words_bytes 8 h, wp_sigma (words_bytes 8 h) b) = (words_bytes 8 K, words_bytes 8 X)).
  { induction n; intros Hn.
    - exists h, (map2 N.lxor h mp). split; [reflexivity|]. split; [auto|].
      split; [rewrite map2_length, Hh, Lm; reflexivity|]. cbn [seq fold_left]. f_equal.
      unfold wp_sigma. rewrite words_bytes_lxor by congruence. rewrite Em.
      apply map2_comm, N.lxor_comm.
    - destruct IHn as (K & X & E1 & LK & LX & E2); [lia|].
      rewrite !seq_S, !fold_left_app, E1, E2. cbn [fold_left fst snd Nat.add].
      destruct (wp_round_eq K X n LK LX ltac:(lia)) as (K' & X' & E & LK' & LX' & EK & EX).
      exists K', X'. rewrite E, <- EK, <- EX. auto. }
  destruct (F 10%nat ltac:(lia)) as (K & X & E1 & LK & LX & E2).
  cbv zeta in E2. rewrite E1, E2. cbn [snd].
  assert (LXm : length (map2 N.lxor X mp) = 8%nat) by (rewrite map2_length, LX, Lm; reflexivity).
  split.
  - rewrite words_bytes_lxor by congruence. rewrite words_bytes_lxor by congruence. rewrite Em.
    rewrite (map2_comm N.lxor N.lxor_comm (words_bytes 8 X) (words_bytes 8 h)).
    symmetry. apply map2_assoc. apply N.lxor_assoc.
  - rewrite map2_length, Hh, LXm. reflexivity.
Qed.

Definition wp_f (h b : list N) : list N := wp_block h 0 b.
Lemma wp_step_f h t b : wp_block h t b = wp_f h b.
Proof. unfold wp_f, wp_block. reflexivity. Qed.
Global Opaque wp_block.

Definition wp_Rel (s : st) (_ : unit) (msg : list N) : Prop :=
  bytes_ok msg /\ md_inv 64 wp_block (zeros 8) s msg.

Lemma wp_final_tail s : wp_final s =
    (' (h, m, pos, total) <- md_tail 64 wp_block 32 56 (fun t => le_bytes 8 (byteswap64 t)) s ;;
     w <- load (words_bytes 8 h) 0 64 ;; Ok (mkst h m pos total, w)).
Proof. unfold wp_final, md_tail. change (64 - 8)%nat with 56%nat. md_tail_eq. Qed.


Lemma be_bytes_32 x : x < 2 ^ 64 -> be_bytes 32 x = zeros 24 ++ be_bytes 8 x.
Proof.
  intros Hx. unfold be_bytes. change (zeros 24) with (rev (zeros 24)). rewrite <- rev_app_distr.
  f_equal. exact (le_bytes_ext 8%nat 24%nat x Hx).
Qed.

Lemma wp_final_ok s msg : bytes_ok msg -> md_inv 64 wp_block (zeros 8) s msg ->
  exists s', wp_final s = Ok (s', wp_hash msg) /\ length (wp_hash msg) = 64%nat.
Proof.
  intros Hmsg H.
  destruct (md_tail_ok wp_f 64 ltac:(lia) wp_block wp_step_f 32 56
              (fun t => le_bytes 8 (byteswap64 t)) 32 (zeros 8) s msg)
    as (m & pos & total & E & Hm); auto using le_bytes_length; try lia.
  rewrite wp_final_tail, E. cbn [bind]. unfold md_hash.
  rewrite be_bytes_byteswap64, trunc_mod.
  change (zeros (32 - 8)) with (zeros 24).
  rewrite <- be_bytes_32 by (apply N.mod_lt; discriminate).
  set (pad := md_pad 64 (be_bytes 32 (bitlen msg mod 2 ^ 64)) msg).
  destruct (fold_left_hom (words_bytes 8) wp_f wp_compress (fun h => length h = 8%nat) (block_ok 64)
     (blocks 64 pad) (zeros 8)) as [E1 E2].
  - intros a x Ha Hx. exact (wp_block_eq a 0 x Ha Hx).
  - apply blocks_pad_ok; auto using be_bytes_ok. lia.
  - reflexivity.
  - assert (EH : words_bytes 8 (fold_left wp_f (blocks 64 pad) (zeros 8)) = wp_hash msg).
    { rewrite E1. reflexivity. }
    rewrite EH. assert (L : length (wp_hash msg) = 64%nat).
    { rewrite <- EH, words_bytes_length, E2. reflexivity. }
    rewrite load_all by auto. cbn [bind]. eauto.
Qed.

Lemma wp_bytes msg : bytes_ok msg -> bytes_ok (wp_hash msg).
Proof.
  intros Hm. unfold wp_hash, md_hash.
  destruct (fold_left_hom (words_bytes 8) wp_f wp_compress (fun h => length h = 8%nat) (block_ok 64)
     (blocks 64 (md_pad 64 (be_bytes 32 (bitlen msg mod 2 ^ 64)) msg)) (zeros 8)) as [E1 E2].
  - intros a x Ha Hx. exact (wp_block_eq a 0 x Ha Hx).
  - apply blocks_pad_ok; auto using be_bytes_ok. lia.
  - reflexivity.
  - change (repeat 0 64) with (words_bytes 8 (zeros 8)). rewrite <- E1. apply words_bytes_ok.
Qed.

Lemma whirlpool_sim : sim whirlpool whirlpool_spec wp_Rel true.
Proof.
  constructor.
  - intros s p msg [_ H]. eexists. split; [reflexivity|]. split; [constructor|].
    apply md_inv_start; [lia|]. exact (md_inv_sm _ _ _ _ _ H).
  - intros s p msg d Hd [Hm H].
    destruct (md_update_ok 64 ltac:(lia) wp_block (zeros 8) s msg d H) as (s' & E & H').
    exists s'. split; [exact E|]. split; [apply bytes_ok_app; auto|exact H'].
  - intros _ s p msg [_ H]. do 2 eexists. split; [reflexivity|]. split; [reflexivity|].
    split; [constructor|].
    apply md_inv_start; [lia|]. cbn [sm]. unfold zero_memory. rewrite zeros_length.
    exact (md_inv_sm _ _ _ _ _ H).
  - intros q. destruct q.
  - intros s p msg [Hm H]. destruct (wp_final_ok s msg Hm H) as (s' & E & _). eauto.
  - intros. reflexivity.
  - intros s p msg [Hm H]. destruct (wp_final_ok s msg Hm H) as (s' & _ & L). exact L.
  - intros s p msg [Hm H]. apply wp_bytes. auto.
  - cbn. lia.
Qed.

Theorem whirlpool_implements g : length (sm g) = 64%nat ->
  implements whirlpool whirlpool_spec true (wp_init g).
Proof.
  intros Hg. unfold wp_init. apply (sim_implements whirlpool whirlpool_spec wp_Rel true whirlpool_sim).
  split; [constructor|]. apply md_inv_start; [lia|auto].
Qed.
