(** * SM3: with masked shifts the provider implements GB/T 32905; with the C++ meaning
    of shifts every digest is undefined. *)
From Verif Require Import Base Absorb Hasher HasherSpec Lemmas WordLemmas AbsorbProof HasherProof
  MdState SpecCommon MdProof Sm3 Sm3Spec.

(** The constants rotated by t, on a machine that masks shift counts. *)
Lemma sm3_const_eq t : (t < 64)%nat ->
  rotl_c Masked 32 (gb_T t) (N.of_nat t) = Ok (ROTL 32 (N.of_nat t mod 32) (gb_T t)).
Proof.
  intros Ht.
  assert (F : forallb (fun t => match rotl_c Masked 32 (gb_T t) (N.of_nat t) with
     | Ok x => x =? ROTL 32 (N.of_nat t mod 32) (gb_T t) | _ => false end) (seq 0 64) = true)
    by (vm_compute; reflexivity).
  rewrite forallb_forall in F. specialize (F t ltac:(apply in_seq; lia)).
  destruct (rotl_c Masked 32 (gb_T t) (N.of_nat t)); try discriminate.
  apply N.eqb_eq in F. subst. reflexivity.
Qed.

Lemma sm3_p0_eq x : sm3_p0 x = gb_P0 x.
Proof. unfold sm3_p0, gb_P0. rewrite !rotl_ROTL. reflexivity. Qed.
Lemma sm3_p1_eq x : sm3_p1 x = gb_P1 x.
Proof. unfold sm3_p1, gb_P1. rewrite !rotl_ROTL. reflexivity. Qed.

Lemma sm3_expand_eq n : forall W, sm3_expand n W = gb_expand n W.
Proof.
  induction n; intros; cbn [sm3_expand gb_expand]; [reflexivity|].
  rewrite sm3_p1_eq, !rotl_ROTL. apply IHn.
Qed.

Lemma ff1_eq x y z : sm3_ff1 x y z = N.lor (N.lor (N.land x y) (N.land x z)) (N.land y z).
Proof. unfold sm3_ff1. bitwise. Qed.
Lemma gg1_eq x y z : trunc 32 (sm3_gg1 x y z) = trunc 32 (N.lor (N.land x y) (N.land (NOT 32 x) z)).
Proof. unfold sm3_gg1. change (NOT 32 x) with (notw 32 x). bitwise. Qed.

Lemma plus_trunc_l w x x' y : trunc w x = trunc w x' -> plus_mod w x y = plus_mod w x' y.
Proof. intros. rewrite !(plus_mod_comm w _ y). apply plus_mod_trunc. auto. Qed.

Lemma sm3_iter1_eq W s t : (t < 16)%nat ->
  sm3_iter Masked 0x79cc4519 sm3_xorf sm3_xorf W
    (map (fun t => N.lxor (nthN t W) (nthN (t + 4) W)) (seq 0 64)) s t = Ok (gb_round W s t).
Proof.
  intros Ht. destruct s as [[[[[[[a b] c] d] e] f] g] h]. unfold sm3_iter.
  pose proof (sm3_const_eq t ltac:(lia)) as E. unfold gb_T in E at 1.
  replace (t <? 16)%nat with true in E by (symmetry; apply Nat.ltb_lt; auto).
  rewrite E. cbn [bind]. unfold gb_round. unfold nthN at 1. rewrite nth_map_seq by lia.
  unfold gb_FF, gb_GG. replace (t <? 16)%nat with true by (symmetry; apply Nat.ltb_lt; auto).
  rewrite !addw_plus, !rotl_ROTL, sm3_p0_eq. reflexivity.
Qed.

Lemma sm3_iter2_eq W s t : (16 <= t < 64)%nat ->
  sm3_iter Masked 0x7a879d8a sm3_ff1 sm3_gg1 W
    (map (fun t => N.lxor (nthN t W) (nthN (t + 4) W)) (seq 0 64)) s t = Ok (gb_round W s t).
Proof.
  intros Ht. destruct s as [[[[[[[a b] c] d] e] f] g] h]. unfold sm3_iter.
  pose proof (sm3_const_eq t ltac:(lia)) as E. unfold gb_T in E at 1.
  replace (t <? 16)%nat with false in E by (symmetry; apply Nat.ltb_ge; lia).
  rewrite E. cbn [bind]. unfold gb_round. unfold nthN at 1. rewrite nth_map_seq by lia.
  unfold gb_FF, gb_GG. replace (t <? 16)%nat with false by (symmetry; apply Nat.ltb_ge; lia).
  rewrite !addw_plus, !rotl_ROTL, sm3_p0_eq, ff1_eq.
  rewrite (plus_trunc_l 32 _ _ h (gg1_eq e f g)). reflexivity.
Qed.

(** The block function without the UB wrapper. *)
Definition sm3_pure (h : list N) (_ : N) (b : list N) : list N :=
  gb_CF h (map byteswap32 (le_words 4 16 b)).

Lemma sm3_block_pure h t b : sm3_block Masked h t b = Ok (sm3_pure h t b).
Proof.
  unfold sm3_block, sm3_pure, gb_CF. rewrite sm3_expand_eq.
  set (W := gb_expand 52 (map byteswap32 (le_words 4 16 b))). cbv zeta.
  set (W2 := map _ (seq 0 64)).
  rewrite (fold_res_ok (sm3_iter Masked 0x79cc4519 sm3_xorf sm3_xorf W W2) (gb_round W) (seq 0 16))
    by (intros ? ? I; apply in_seq in I; apply (sm3_iter1_eq W); lia).
  cbn [bind].
  rewrite (fold_res_ok (sm3_iter Masked 0x7a879d8a sm3_ff1 sm3_gg1 W W2) (gb_round W) (seq 16 48))
    by (intros ? ? I; apply in_seq in I; apply (sm3_iter2_eq W); lia).
  cbn [bind]. rewrite <- fold_left_app. change (seq 0 16 ++ seq 16 48) with (seq 0 64).
  unfold nthN.
  destruct (fold_left _ _ _) as [[[[[[[a b'] c] d] e] f] g] h'].
  rewrite !(N.lxor_comm (nth _ h 0)). reflexivity.
Qed.

Definition sm3_f (h b : list N) : list N := sm3_pure h 0 b.
Lemma sm3_step_f h t b : sm3_pure h t b = sm3_f h b.
Proof. unfold sm3_f, sm3_pure. reflexivity. Qed.
Lemma sm3_f_eq h b : block_ok 64 b -> sm3_f h b = gb_compress h b.
Proof.
  intros [Hl Hb]. unfold sm3_f, sm3_pure, gb_compress. rewrite be_words_swap32 by (auto; lia).
  reflexivity.
Qed.
Lemma gb_round_len V B : length (gb_CF V B) = 8%nat.
Proof.
  unfold gb_CF. generalize (gb_expand 52 B). intros W. cbv zeta.
  generalize (fold_left (gb_round W) (seq 0 64)
    (nth 0 V 0, nth 1 V 0, nth 2 V 0, nth 3 V 0, nth 4 V 0, nth 5 V 0, nth 6 V 0, nth 7 V 0)).
  intros [[[[[[[a b'] c] d] e] f] g] h']. reflexivity.
Qed.
Lemma gb_compress_len V b : length (gb_compress V b) = 8%nat.
Proof. unfold gb_compress. exact (gb_round_len V (be_words 4 16 b)). Qed.
Global Opaque gb_compress sm3_pure gb_CF.

Definition sm3_R (s : st) (_ : unit) (msg : list N) : Prop :=
  bytes_ok msg /\ md_inv 64 sm3_pure gb_iv s msg.

Lemma sm3_final_tail s : sm3_final Masked s =
    (' (h, m, pos, total) <- md_tail 64 sm3_pure 56 56 (fun t => le_bytes 8 (byteswap64 t)) s ;;
     let h := map byteswap32 h in
     w <- load (words_bytes 4 h) 0 32 ;; Ok (mkst h m pos total, w)).
Proof.
  unfold sm3_final, md_tail. change (64 - 8)%nat with 56%nat. cbv zeta.
  rewrite bind_assoc. apply bind_ext. intros m.
  rewrite bind_assoc.
  match goal with |- bind ?x _ = bind ?y _ => replace x with y end.
  - apply bind_ext. intros [[h m1] pos]. rewrite bind_assoc. apply bind_ext. intros k.
    rewrite bind_assoc. apply bind_ext. intros m2.
    rewrite bind_assoc. apply bind_ext. intros m3.
    rewrite (md_transform1_res_ok _ sm3_pure) by (intros; apply sm3_block_pure).
    rewrite bind_assoc. reflexivity.
  - destruct (56 <? spos s + 1)%nat; [|reflexivity]. apply bind_ext. intros m1.
    rewrite (md_transform1_res_ok _ sm3_pure) by (intros; apply sm3_block_pure). reflexivity.
Qed.

Lemma md_hash_gb_len l V : length V = 8%nat -> length (fold_left gb_compress l V) = 8%nat.
Proof. intros. exact (fold_left_len gb_compress 8 gb_compress_len l V H). Qed.

Lemma gb_sm3_length msg : length (gb_sm3 msg) = 32%nat.
Proof.
  unfold gb_sm3, md_hash. rewrite flat_be_bytes_length, md_hash_gb_len by reflexivity. reflexivity.
Qed.

Lemma sm3_final_ok s msg : bytes_ok msg -> md_inv 64 sm3_pure gb_iv s msg ->
  exists s', sm3_final Masked s = Ok (s', gb_sm3 msg).
Proof.
  intros Hmsg H.
  destruct (md_tail_ok sm3_f 64 ltac:(lia) sm3_pure sm3_step_f 56 56
              (fun t => le_bytes 8 (byteswap64 t)) 8 gb_iv s msg)
    as (m & pos & total & E & Hm); auto using le_bytes_length; try lia.
  rewrite sm3_final_tail, E. cbn [bind]. cbv zeta. unfold md_hash.
  change (zeros (8 - 8)) with (@nil N). cbn [app]. rewrite be_bytes_byteswap64.
  rewrite (fold_left_ext_in sm3_f gb_compress).
  2: { intros a x Hx. apply sm3_f_eq. revert x Hx. apply Forall_forall.
       apply blocks_pad_ok; auto using be_bytes_ok. lia. }
  rewrite trunc_mod. fold (md_hash gb_compress gb_iv 64
    (md_pad 64 (be_bytes 8 (bitlen msg mod 2 ^ 64)) msg)).
  rewrite load_all.
  - cbn [bind]. rewrite words_bytes_swap32. eauto.
  - rewrite words_bytes_length, map_length. unfold md_hash.
    rewrite md_hash_gb_len by reflexivity. reflexivity.
Qed.

Lemma sm3_sim : sim (sm3 Masked) sm3_spec sm3_R true.
Proof.
  constructor.
  - intros s p msg [_ H]. eexists. split; [reflexivity|]. split; [constructor|].
    apply md_inv_start; [lia|]. exact (md_inv_sm _ _ _ _ _ H).
  - intros s p msg d Hd [Hm H].
    destruct (md_update_ok 64 ltac:(lia) sm3_pure gb_iv s msg d H) as (s' & E & H').
    exists s'. split.
    + cbn [p_update hp sm3]. unfold sm3_update.
      rewrite (md_update_res_ok _ sm3_pure) by (intros; apply sm3_block_pure). exact E.
    + split; [apply bytes_ok_app; auto|exact H'].
  - intros _ s p msg [_ H]. do 2 eexists. split; [reflexivity|]. split; [reflexivity|].
    split; [constructor|].
    apply md_inv_start; [lia|]. cbn [sm]. unfold zero_memory. rewrite zeros_length.
    exact (md_inv_sm _ _ _ _ _ H).
  - intros q. destruct q.
  - intros s p msg [Hm H]. apply sm3_final_ok; auto.
  - intros. reflexivity.
  - intros. apply gb_sm3_length.
  - intros. apply flat_be_bytes_ok.
  - cbn. lia.
Qed.

Theorem sm3_implements g : length (sm g) = 64%nat ->
  implements (sm3 Masked) sm3_spec true (sm3_init g).
Proof.
  intros Hg. unfold sm3_init. apply (sim_implements (sm3 Masked) sm3_spec sm3_R true sm3_sim).
  split; [constructor|]. apply md_inv_start; [lia|auto].
Qed.

(** With the C++ meaning of shifts the first round is already undefined. *)
Lemma sm3_block_strict h t b : sm3_block Strict h t b = UB BadShift.
Proof. reflexivity. Qed.

Theorem sm3_strict_undefined g msg : length (sm g) = 64%nat -> bytes_ok msg ->
  (s <- sm3_init g ;; s <- absorb (sm3 Strict) FPtr s msg ;; digest_iter (sm3 Strict) s)
  = UB BadShift.
Proof.
  intros Hg Hmsg. unfold sm3_init. cbn [bind]. unfold absorb. cbn [p_update hp sm3].
  unfold sm3_update, md_update_res. cbn [sh sm spos stotal].
  unfold absorb_bytes. cbn [Nat.eqb negb andb bind].
  destruct (Nat.leb_spec 64 (length msg)) as [L|L].
  - replace (length msg + 64 - 64)%nat with (length msg) by lia.
    assert (Q : (length msg / 64 * 64 <= length msg)%nat)
      by (pose proof (Nat.mul_div_le (length msg) 64); lia).
    rewrite load_ok by lia. cbn [bind].
    destruct (length msg / 64)%nat eqn:E.
    + pose proof (Nat.div_str_pos (length msg) 64). lia.
    + cbn [block_loop_res]. rewrite sm3_block_strict. reflexivity.
  - cbn [bind]. rewrite memcpy_ok by lia. cbn [bind].
    unfold digest_iter. cbn [hp_size sm3]. change (zeros (N.to_nat (256 / 8))) with (zeros 32).
    change (zeros 32) with (0 :: zeros 31). cbv iota. cbn [hp_final sm3].
    unfold sm3_final. cbn [sh sm spos stotal].
    set (mm := overlay (sm g) 0 (firstn (length msg) msg)).
    assert (Lm : length mm = 64%nat).
    { unfold mm. rewrite overlay_length; [auto|]. rewrite firstn_length. lia. }
    rewrite store_ok by lia. cbn [bind Nat.add].
    set (m1 := overlay mm (length msg) [128]).
    assert (L1 : length m1 = 64%nat).
    { unfold m1. rewrite overlay_length; [auto|]. cbn [length]. lia. }
    assert (TR : forall h m t, length m = 64%nat ->
      md_transform1_res (sm3_block Strict) 64 h m t = UB BadShift).
    { intros. unfold md_transform1_res. rewrite load_ok by lia. reflexivity. }
    destruct (Nat.ltb_spec 56 (length msg + 1)) as [G|G].
    + destruct (Nat.eqb_spec (length msg + 1) 64) as [Q|Q].
      * cbn [bind]. rewrite TR by auto. reflexivity.
      * rewrite size_sub_ok by lia. cbn [bind]. rewrite memset_ok by lia. cbn [bind].
        rewrite TR; [reflexivity|]. rewrite overlay_length; [auto|]. rewrite repeat_length. lia.
    + cbn [bind]. rewrite size_sub_ok by lia. cbn [bind]. rewrite memset_ok by lia. cbn [bind].
      rewrite memcpy_ok.
      2: { rewrite overlay_length; rewrite ?repeat_length; lia. }
      2: { rewrite le_bytes_length. lia. }
      cbn [bind]. rewrite TR; [reflexivity|].
      rewrite overlay_length; rewrite overlay_length; rewrite ?repeat_length; try lia.
      rewrite firstn_length, le_bytes_length. lia.
Qed.
