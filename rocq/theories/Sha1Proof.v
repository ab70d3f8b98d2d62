(** * SHA-1: the provider implements FIPS 180-4. *)
From Verif Require Import Base Absorb Hasher HasherSpec Lemmas WordLemmas AbsorbProof HasherProof
  MdState SpecCommon MdProof ConstSha1 Sha1 Sha1Spec.

Definition tuple5 (q : regs5) : list N := let '(a, b, c, d, e) := q in [a; b; c; d; e].

Lemma sha1_K_eq : sha1_K = map (fun i => fips_K1 (20 * i)) [0; 1; 2; 3]%nat.
Proof. vm_compute. reflexivity. Qed.

Lemma sha1_expand_eq n : forall W, sha1_expand n W = fips_sched1 n W.
Proof.
  induction n; intros; cbn [sha1_expand fips_sched1]; [reflexivity|].
  rewrite rotl_ROTL. apply IHn.
Qed.

(** The variables f and K before iteration t. *)
Lemma sha1_fold W q : forall n,
  (n <= 80)%nat ->
  fold_left (sha1_iter W) (seq 0 n) (q, sha1_Ch, nthN 0 sha1_K) =
  (fold_left (fips_round1 W) (seq 0 n) q,
   if (n <? 80)%nat then fips_f n else sha1_Parity,
   if (n <? 80)%nat then fips_K1 n else nthN 3 sha1_K).
Proof.
  induction n; intros Hn.
  - reflexivity.
  - rewrite seq_S, !fold_left_app. rewrite IHn by lia. cbn [Nat.add fold_left].
    destruct (fold_left (fips_round1 W) (seq 0 n) q) as [[[[a b] c] d] e].
    unfold sha1_iter, fips_round1. rewrite !addw_plus, !rotl_ROTL.
    replace (n <? 80)%nat with true by (symmetry; apply Nat.ltb_lt; lia).
    do 80 (destruct n as [|n]; [reflexivity|]). lia.
Qed.

Lemma sha1_block_eq q t b : block_ok 64 b ->
  sha1_block (tuple5 q) t b = tuple5 (fips_sha1_compress q b).
Proof.
  intros [Hl Hb]. unfold sha1_block, fips_sha1_compress.
  rewrite be_words_swap32 by (auto; lia). rewrite sha1_expand_eq.
  set (W := fips_sched1 64 (be_words 4 16 b)).
  destruct q as [[[[a b0] c] d] e]. cbn [tuple5]. unfold nthN. cbn [nth].
  pose proof (sha1_fold W (a, b0, c, d, e) 80 ltac:(lia)) as E.
  unfold nthN at 1 in E. rewrite E.
  destruct (fold_left (fips_round1 W) (seq 0 80) (a, b0, c, d, e)) as [[[[a' b'] c'] d'] e'].
  rewrite !addw_plus. reflexivity.
Qed.

Definition sha1_f (h b : list N) : list N := sha1_block h 0 b.
Lemma sha1_step_f h t b : sha1_block h t b = sha1_f h b.
Proof. unfold sha1_f, sha1_block. reflexivity. Qed.
Global Opaque sha1_block.

Definition sha1_iv : list N := [0x67452301; 0xefcdab89; 0x98badcfe; 0x10325476; 0xc3d2e1f0].
Lemma sha1_iv_eq : sha1_iv = tuple5 fips_sha1_iv.
Proof. reflexivity. Qed.

Definition sha1_R (s : st) (_ : unit) (msg : list N) : Prop :=
  bytes_ok msg /\ md_inv 64 sha1_block sha1_iv s msg.

Lemma sha1_final_tail s : sha1_final s =
    (' (h, m, pos, total) <- md_tail 64 sha1_block 56 56 (fun t => le_bytes 8 (byteswap64 t)) s ;;
     let h := map byteswap32 h in
     w <- load (words_bytes 4 h) 0 20 ;; Ok (mkst h m pos total, w)).
Proof. unfold sha1_final, md_tail. change (64 - 8)%nat with 56%nat. md_tail_eq. Qed.

Lemma sha1_final_ok s msg : bytes_ok msg -> md_inv 64 sha1_block sha1_iv s msg ->
  exists s', sha1_final s = Ok (s', fips_sha1 msg).
Proof.
  intros Hmsg H.
  destruct (md_tail_ok sha1_f 64 ltac:(lia) sha1_block sha1_step_f 56 56
              (fun t => le_bytes 8 (byteswap64 t)) 8 sha1_iv s msg)
    as (m & pos & total & E & Hm); auto using le_bytes_length; try lia.
  rewrite sha1_final_tail, E. cbn [bind]. cbv zeta. unfold md_hash.
  change (zeros (8 - 8)) with (@nil N). cbn [app].
  rewrite be_bytes_byteswap64, sha1_iv_eq.
  rewrite (fold_left_conv tuple5 sha1_f fips_sha1_compress (block_ok 64));
    [|intros a x Hx; exact (sha1_block_eq a 0 x Hx)
     |apply blocks_pad_ok; auto using be_bytes_ok; lia].
  unfold fips_sha1. rewrite trunc_mod. unfold md_hash.
  destruct (fold_left fips_sha1_compress _ fips_sha1_iv) as [[[[a b] c] d] e].
  cbn [tuple5]. rewrite load_all by (rewrite words_bytes_length, map_length; reflexivity).
  cbn [bind]. rewrite words_bytes_swap32. eauto.
Qed.

Lemma fips_sha1_length msg : length (fips_sha1 msg) = 20%nat.
Proof.
  unfold fips_sha1. destruct (md_hash _ _ _ _) as [[[[a b] c] d] e].
  apply flat_be_bytes_length.
Qed.
Lemma fips_sha1_bytes msg : bytes_ok (fips_sha1 msg).
Proof.
  unfold fips_sha1. destruct (md_hash _ _ _ _) as [[[[a b] c] d] e].
  apply flat_be_bytes_ok.
Qed.

Lemma sha1_sim : sim sha1 sha1_spec sha1_R true.
Proof.
  constructor.
  - intros s p msg [_ H]. eexists. split; [reflexivity|]. split; [constructor|].
    apply md_inv_start; [lia|]. exact (md_inv_sm _ _ _ _ _ H).
  - intros s p msg d Hd [Hm H].
    destruct (md_update_ok 64 ltac:(lia) sha1_block sha1_iv s msg d H) as (s' & E & H').
    exists s'. split; [exact E|]. split; [apply bytes_ok_app; auto|exact H'].
  - intros _ s p msg [_ H]. do 2 eexists. split; [reflexivity|]. split; [reflexivity|].
    split; [constructor|].
    apply md_inv_start; [lia|]. cbn [sm]. unfold zero_memory. rewrite zeros_length.
    exact (md_inv_sm _ _ _ _ _ H).
  - intros q. destruct q.
  - intros s p msg [Hm H]. apply sha1_final_ok; auto.
  - intros. reflexivity.
  - intros. apply fips_sha1_length.
  - intros. apply fips_sha1_bytes.
  - cbn. lia.
Qed.

Theorem sha1_implements g : length (sm g) = 64%nat -> implements sha1 sha1_spec true (sha1_init g).
Proof.
  intros Hg. unfold sha1_init. apply (sim_implements sha1 sha1_spec sha1_R true sha1_sim).
  split; [constructor|]. apply md_inv_start; [lia|auto].
Qed.
