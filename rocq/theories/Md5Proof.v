(** * MD5: the provider implements RFC 1321. *)
From Verif Require Import Base Absorb Hasher HasherSpec Lemmas WordLemmas AbsorbProof HasherProof
  MdState SpecCommon MdProof ConstMd5 Md5 Md5Spec.

Lemma F_eq x y z : trunc 32 (N.lxor z (N.land x (N.lxor y z))) = trunc 32 (rfc_F x y z).
Proof. unfold rfc_F, NOT, N.lnot. change (N.lxor x (N.ones 32)) with (notw 32 x). bitwise. Qed.
Lemma G_eq x y z : trunc 32 (N.lxor y (N.land z (N.lxor x y))) = trunc 32 (rfc_G x y z).
Proof. unfold rfc_G, NOT, N.lnot. change (N.lxor z (N.ones 32)) with (notw 32 z). bitwise. Qed.

Lemma K_eq : md5_K = rfc_Ts.
Proof. reflexivity. Qed.

Definition tuple4 (q : N * N * N * N) : list N := let '(a, b, c, d) := q in [a; b; c; d].

Lemma plus3 a k m : plus_mod 32 (plus_mod 32 a k) m = plus_mod 32 (plus_mod 32 a m) k.
Proof. rewrite !plus_mod_assoc. f_equal. apply plus_mod_comm. Qed.

(** One model round equals one RFC operation. *)
Lemma roundf_eq i a b c d M : (i < 16)%nat ->
  roundf i a b c d M =
  plus_mod 32 b (ROTL 32 (rfc_s i) (plus_mod 32 (plus_mod 32 (plus_mod 32 a (rfc_fun i b c d))
    (nth (rfc_k i) M 0)) (nth i rfc_Ts 0))).
Proof.
  intros Hi. unfold roundf. rewrite !addw_plus, rotl_ROTL, K_eq.
  rewrite (plus_mod_trunc 32 a _ _ (F_eq b c d)), plus3. unfold nthN.
  do 16 (destruct i; [reflexivity|]). lia.
Qed.

Lemma roundg_eq i a b c d M : (16 <= i < 32)%nat ->
  roundg i a b c d M =
  plus_mod 32 b (ROTL 32 (rfc_s i) (plus_mod 32 (plus_mod 32 (plus_mod 32 a (rfc_fun i b c d))
    (nth (rfc_k i) M 0)) (nth i rfc_Ts 0))).
Proof.
  intros Hi. unfold roundg. rewrite !addw_plus, rotl_ROTL, K_eq.
  rewrite (plus_mod_trunc 32 a _ _ (G_eq b c d)), plus3. unfold nthN.
  do 16 (destruct i; [lia|]). do 16 (destruct i; [reflexivity|]). lia.
Qed.

Lemma roundh_eq i a b c d M : (32 <= i < 48)%nat ->
  roundh i a b c d M =
  plus_mod 32 b (ROTL 32 (rfc_s i) (plus_mod 32 (plus_mod 32 (plus_mod 32 a (rfc_fun i b c d))
    (nth (rfc_k i) M 0)) (nth i rfc_Ts 0))).
Proof.
  intros Hi. unfold roundh. rewrite !addw_plus, rotl_ROTL, K_eq, plus3. unfold nthN.
  do 32 (destruct i; [lia|]). do 16 (destruct i; [reflexivity|]). lia.
Qed.

Lemma roundi_eq i a b c d M : (48 <= i < 64)%nat ->
  roundi i a b c d M =
  plus_mod 32 b (ROTL 32 (rfc_s i) (plus_mod 32 (plus_mod 32 (plus_mod 32 a (rfc_fun i b c d))
    (nth (rfc_k i) M 0)) (nth i rfc_Ts 0))).
Proof.
  intros Hi. unfold roundi. rewrite !addw_plus, rotl_ROTL, K_eq, plus3. unfold nthN.
  do 48 (destruct i; [lia|]). do 16 (destruct i; [reflexivity|]). lia.
Qed.

Lemma four_eq f M s r :
  (forall i a b c d, (r <= i < r + 4)%nat -> f i a b c d M =
    plus_mod 32 b (ROTL 32 (rfc_s i) (plus_mod 32 (plus_mod 32 (plus_mod 32 a (rfc_fun i b c d))
      (nth (rfc_k i) M 0)) (nth i rfc_Ts 0)))) ->
  four f M s r = fold_left (rfc_op M) [r; (r + 1)%nat; (r + 2)%nat; (r + 3)%nat] s.
Proof.
  intros H. destruct s as [[[a b] c] d]. unfold four. cbn [fold_left].
  rewrite !H by lia. reflexivity.
Qed.

Lemma md5_block_eq q t b : md5_block (tuple4 q) t b = tuple4 (rfc_md5_compress q b).
Proof.
  unfold md5_block, rfc_md5_compress. set (M := le_words 4 16 b).
  assert (E : fold_left (four roundi M) [48; 52; 56; 60]%nat
    (fold_left (four roundh M) [32; 36; 40; 44]%nat
    (fold_left (four roundg M) [16; 20; 24; 28]%nat
    (fold_left (four roundf M) [0; 4; 8; 12]%nat q))) = fold_left (rfc_op M) (seq 0 64) q).
  { cbn [fold_left].
    rewrite !(four_eq roundi) by (intros; apply roundi_eq; lia).
    rewrite !(four_eq roundh) by (intros; apply roundh_eq; lia).
    rewrite !(four_eq roundg) by (intros; apply roundg_eq; lia).
    rewrite !(four_eq roundf) by (intros; apply roundf_eq; lia).
    rewrite <- !fold_left_app. apply (f_equal (fun l => fold_left (rfc_op M) l q)). reflexivity. }
  destruct q as [[[a b0] c] d]. cbn [tuple4 nthN nth]. unfold nthN. cbn [nth]. rewrite E.
  destruct (fold_left (rfc_op M) (seq 0 64) (a, b0, c, d)) as [[[a' b'] c'] d'].
  rewrite !addw_plus. reflexivity.
Qed.

Definition md5_f (h b : list N) : list N := md5_block h 0 b.

Lemma md5_fold l q :
  fold_left md5_f l (tuple4 q) = tuple4 (fold_left rfc_md5_compress l q).
Proof.
  apply (fold_left_conv tuple4 md5_f rfc_md5_compress (fun _ => True)).
  - intros a x _. exact (md5_block_eq a 0 x).
  - apply Forall_forall. auto.
Qed.

Lemma md5_step_f h t b : md5_block h t b = md5_f h b.
Proof. unfold md5_f, md5_block. reflexivity. Qed.
Global Opaque md5_block.

Definition md5_iv : list N := [0x67452301; 0xefcdab89; 0x98badcfe; 0x10325476].
Lemma md5_iv_eq : md5_iv = tuple4 rfc_md5_iv.
Proof. reflexivity. Qed.

(** Simulation relation. *)
Definition md5_R (s : st) (_ : unit) (msg : list N) : Prop :=
  md_inv 64 md5_block md5_iv s msg.

Lemma md5_final_tail s : md5_final s =
    (' (h, m, pos, total) <- md_tail 64 md5_block 56 56 (le_bytes 8) s ;;
     w <- load (words_bytes 4 h) 0 16 ;; Ok (mkst h m pos total, w)).
Proof. unfold md5_final, md_tail. change (64 - 8)%nat with 56%nat. md_tail_eq. Qed.

Lemma md5_final_ok s msg : md_inv 64 md5_block md5_iv s msg ->
  exists s', md5_final s = Ok (s', rfc_md5 msg).
Proof.
  intros H.
  destruct (md_tail_ok md5_f 64 ltac:(lia) md5_block md5_step_f 56 56 (le_bytes 8) 8 md5_iv s msg)
    as (m & pos & total & E & Hm); auto using le_bytes_length; try lia.
  rewrite md5_final_tail, E. cbn [bind]. unfold md_hash. change (zeros (8 - 8)) with (@nil N).
  cbn [app]. rewrite md5_iv_eq, md5_fold. unfold rfc_md5. rewrite trunc_mod. unfold md_hash.
  destruct (fold_left rfc_md5_compress _ rfc_md5_iv) as [[[a b] c] d].
  cbn [tuple4]. rewrite load_all by (rewrite words_bytes_length; reflexivity). cbn [bind].
  eexists. unfold words_bytes. cbn [flat_map]. rewrite app_nil_r. reflexivity.
Qed.

Lemma rfc_md5_length msg : length (rfc_md5 msg) = 16%nat.
Proof.
  unfold rfc_md5. destruct (md_hash _ _ _ _) as [[[a b] c] d].
  rewrite !app_length, !le_bytes_length. reflexivity.
Qed.
Lemma rfc_md5_bytes msg : bytes_ok (rfc_md5 msg).
Proof.
  unfold rfc_md5. destruct (md_hash _ _ _ _) as [[[a b] c] d].
  repeat apply bytes_ok_app; apply le_bytes_ok.
Qed.

Lemma md5_sim : sim md5 md5_spec md5_R true.
Proof.
  constructor.
  - intros s p msg H. eexists. split; [reflexivity|].
    apply md_inv_start; [lia|]. exact (md_inv_sm _ _ _ _ _ H).
  - intros s p msg d _ H. apply (md_update_ok 64 ltac:(lia) md5_block md5_iv s msg d H).
  - intros _ s p msg H. do 2 eexists. split; [reflexivity|]. split; [reflexivity|].
    apply md_inv_start; [lia|]. cbn [sm]. unfold zero_memory. rewrite zeros_length.
    exact (md_inv_sm _ _ _ _ _ H).
  - intros q. destruct q.
  - intros s p msg H. apply md5_final_ok; auto.
  - intros. reflexivity.
  - intros. apply rfc_md5_length.
  - intros. apply rfc_md5_bytes.
  - cbn. lia.
Qed.

(** A newly constructed md5 hasher, whatever the memory contained, implements MD5. *)
Theorem md5_implements g : length (sm g) = 64%nat -> implements md5 md5_spec true (md5_init g).
Proof.
  intros Hg. unfold md5_init. apply (sim_implements md5 md5_spec md5_R true md5_sim).
  apply md_inv_start; [lia|auto].
Qed.
