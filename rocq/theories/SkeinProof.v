(** * The compression function of Skein: Threefish and UBI. *)
From Verif Require Import Base Absorb Lemmas WordLemmas AbsorbProof MdState MdProof BufProof TableLemmas
  SpecCommon Skein SkeinSpec.
Local Open Scope nat_scope.

(** Explicit lists of a known length. *)
Ltac list_cases G H :=
  repeat (destruct G as [|? G]; [discriminate H|apply (f_equal Nat.pred) in H; cbn [length Nat.pred] in H]);
  destruct G; [clear H|discriminate H].

(** ** Threefish *)

(** The words of [G] in the order in which a row of the index table lists them. *)
Definition gather (I : list N) (G : list N) : list N := map (fun i => nthN (N.to_nat i) G) I.

Definition tf_round1 (nw : nat) (v : list N) (d : nat) : list N :=
  tf_permute nw (flat_map (fun j => tf_mix nw d j v) (seq 0 (nw / 2))).

Ltac round_case H G :=
  list_cases G H;
  cbv -[addw rotl plus_mod ROTL N.lxor];
  rewrite ?addw_plus, ?rotl_ROTL; reflexivity.

Lemma gt_round4 r G : length G = 4 -> r < 8 ->
  gather (nth (S r mod 8) (skein_I 4) []) (sk_GT 4 G r) = tf_round1 4 (gather (nth r (skein_I 4) []) G) r.
Proof. intros H Hr. do 8 (destruct r; [round_case H G|]). lia. Qed.
Lemma gt_round8 r G : length G = 8 -> r < 8 ->
  gather (nth (S r mod 8) (skein_I 8) []) (sk_GT 8 G r) = tf_round1 8 (gather (nth r (skein_I 8) []) G) r.
Proof. intros H Hr. do 8 (destruct r; [round_case H G|]). lia. Qed.
Lemma gt_round16 r G : length G = 16 -> r < 8 ->
  gather (nth (S r mod 8) (skein_I 16) []) (sk_GT 16 G r) = tf_round1 16 (gather (nth r (skein_I 16) []) G) r.
Proof. intros H Hr. do 8 (destruct r; [round_case H G|]). lia. Qed.

Section Words.
  Variable nw : nat.
  Hypothesis Hnw : nw = 4 \/ nw = 8 \/ nw = 16.

  Lemma gt_round r G : length G = nw -> r < 8 ->
    gather (nth (S r mod 8) (skein_I nw) []) (sk_GT nw G r) = tf_round1 nw (gather (nth r (skein_I nw) []) G) r.
  Proof.
    destruct Hnw as [E|[E|E]]; subst nw; [apply gt_round4|apply gt_round8|apply gt_round16].
  Qed.

  (** Rows 0 and 4 of the index table are the identity. *)
  Lemma gather_id r G : r = 0 \/ r = 4 -> length G = nw -> gather (nth r (skein_I nw) []) G = G.
  Proof.
    intros Hr H.
    destruct Hnw as [E|[E|E]]; rewrite E in H |- *; clear E; destruct Hr as [Hr|Hr]; rewrite Hr; list_cases G H; reflexivity.
  Qed.

  Lemma upd_length {A} (l : list A) : forall i v, length (upd i v l) = length l.
  Proof. induction l; intros [|i] v; cbn; auto. Qed.
  Lemma sk_GT_length r G : length (sk_GT nw G r) = length G.
  Proof.
    unfold sk_GT. generalize (seq 0 (nw / 2)). intros l. revert G.
    induction l; intros; [reflexivity|]. cbn [fold_left]. rewrite IHl. unfold sk_mix. cbv zeta.
    rewrite !upd_length. reflexivity.
  Qed.
  Lemma tf_round1_length v d : length (tf_round1 nw v d) = nw.
  Proof.
    unfold tf_round1, tf_permute. rewrite map_length. destruct Hnw as [E|[E|E]]; subst nw; reflexivity.
  Qed.

  Lemma four_rounds r G : r = 0 \/ r = 4 -> length G = nw ->
    fold_left (sk_GT nw) [r; r + 1; r + 2; r + 3] G = fold_left (tf_round1 nw) [r; r + 1; r + 2; r + 3] G.
  Proof.
    intros Hr H.
    assert (E4 : (S (r + 3) mod 8 = 0 \/ S (r + 3) mod 8 = 4) /\ S r mod 8 = r + 1 /\ S (r + 1) mod 8 = r + 2 /\
                 S (r + 2) mod 8 = r + 3 /\ r + 3 < 8) by (destruct Hr; subst r; cbn; repeat split; auto; lia).
    destruct E4 as (Ea & Eb & Ec & Ed & Ee).
    cbn [fold_left].
    rewrite <- (gather_id (S (r + 3) mod 8)) at 1; [|exact Ea|rewrite !sk_GT_length; exact H].
    rewrite gt_round by (rewrite ?sk_GT_length; auto).
    rewrite <- Ed at 1. rewrite gt_round by (rewrite ?sk_GT_length; auto; lia).
    rewrite <- Ec at 1. rewrite gt_round by (rewrite ?sk_GT_length; auto; lia).
    rewrite <- Eb at 1. rewrite gt_round by (rewrite ?sk_GT_length; auto; lia).
    rewrite gather_id by auto. reflexivity.
  Qed.

  (** Key injection. *)
  Definition keys_of (K : list N) : list N := K ++ [fold_left N.lxor K 0x1BD11BDAA9FC1A22%N].

  Lemma keys_nth K i : length K = nw -> i < nw + 1 -> nthN i (keys_of K) = tf_key nw K i.
  Proof.
    intros HK Hi. unfold nthN, keys_of, tf_key. destruct (Nat.eqb_spec i nw) as [->|E].
    - rewrite app_nth2 by lia. replace (nw - length K) with 0 by lia. reflexivity.
    - apply app_nth1. lia.
  Qed.
  Lemma tweaks_nth t0 t1 i : i < 3 -> nthN i [t0; t1; N.lxor t0 t1] = tf_tweak t0 t1 i.
  Proof. intros. do 3 (destruct i; [reflexivity|]). lia. Qed.

  Lemma KSt_addkey K t0 t1 r G : length K = nw ->
    sk_KSt nw r (keys_of K) [t0; t1; N.lxor t0 t1] G = tf_addkey nw K t0 t1 (S r) G.
  Proof.
    intros HK. unfold sk_KSt, tf_addkey. apply map_ext. intros i. cbv zeta.
    rewrite addw_plus. f_equal. unfold tf_subkey. cbv zeta.
    replace (r + i + 1) with (S r + i) by lia.
    rewrite keys_nth by (auto; apply Nat.mod_upper_bound; lia).
    replace (r + 1) with (S r) by lia. replace (r + 2) with (S r + 1) by lia.
    rewrite !tweaks_nth by (apply Nat.mod_upper_bound; lia).
    rewrite !addw_plus.
    destruct (i =? nw - 3); [reflexivity|]. destruct (i =? nw - 2); [reflexivity|].
    destruct (i =? nw - 1); [|reflexivity].
    unfold plus_mod. rewrite N.add_mod_idemp_l by discriminate. f_equal. lia.
  Qed.

  Lemma addkey_length K t0 t1 s v : length (tf_addkey nw K t0 t1 s v) = nw.
  Proof. unfold tf_addkey. rewrite map_length, seq_length. reflexivity. Qed.

  Lemma G8_eq K t0 t1 r G : length K = nw -> length G = nw ->
    sk_G8 nw (keys_of K) [t0; t1; N.lxor t0 t1] G r =
    tf_addkey nw K t0 t1 (r + 2) (fold_left (tf_round1 nw) [4; 5; 6; 7]
      (tf_addkey nw K t0 t1 (r + 1) (fold_left (tf_round1 nw) [0; 1; 2; 3] G))).
  Proof.
    intros HK HG. unfold sk_G8. cbv zeta. rewrite !KSt_addkey by auto.
    rewrite (four_rounds 0) by auto. rewrite (four_rounds 4) by (auto using addkey_length).
    cbn [Nat.add]. replace (S (r + 1)) with (r + 2) by lia. replace (S r) with (r + 1) by lia. reflexivity.
  Qed.

  Lemma round_d K t0 t1 v m j : j < 8 ->
    tf_round nw K t0 t1 v (m * 8 + j) =
    tf_round1 nw (if (j mod 4 =? 0) then tf_addkey nw K t0 t1 (2 * m + j / 4) v else v) j.
  Proof.
    intros Hj. unfold tf_round, tf_round1. cbv zeta.
    replace ((m * 8 + j) mod 4) with (j mod 4).
    2:{ replace (m * 8 + j) with (j + (2 * m) * 4) by lia. rewrite Nat.mod_add by lia. reflexivity. }
    replace ((m * 8 + j) / 4) with (2 * m + j / 4).
    2:{ replace (m * 8 + j) with (j + (2 * m) * 4) by lia. rewrite Nat.div_add by lia. lia. }
    f_equal. apply flat_map_ext. intros i. unfold tf_mix. cbv zeta.
    replace ((m * 8 + j) mod 8) with (j mod 8); [reflexivity|].
    rewrite Nat.add_comm, Nat.mod_add by lia. reflexivity.
  Qed.

  Lemma fold_G8 K t0 t1 P m : length K = nw -> length P = nw ->
    fold_left (sk_G8 nw (keys_of K) [t0; t1; N.lxor t0 t1]) (map (Nat.mul 2) (seq 0 m)) (tf_addkey nw K t0 t1 0 P)
    = tf_addkey nw K t0 t1 (2 * m) (fold_left (tf_round nw K t0 t1) (seq 0 (m * 8)) P).
  Proof.
    intros HK HP. induction m; [reflexivity|].
    replace (S m * 8) with (m * 8 + 8) by lia. rewrite !seq_app, seq_S, map_app, !fold_left_app, IHm.
    cbn [Nat.add map fold_left seq].
    set (v := fold_left (tf_round nw K t0 t1) (seq 0 (m * 8)) P).
    rewrite G8_eq by (auto using addkey_length).
    replace (S (m * 8)) with (m * 8 + 1) by lia.
    replace (S (m * 8 + 1)) with (m * 8 + 2) by lia. replace (S (m * 8 + 2)) with (m * 8 + 3) by lia.
    replace (S (m * 8 + 3)) with (m * 8 + 4) by lia. replace (S (m * 8 + 4)) with (m * 8 + 5) by lia.
    replace (S (m * 8 + 5)) with (m * 8 + 6) by lia. replace (S (m * 8 + 6)) with (m * 8 + 7) by lia.
    pose proof (round_d K t0 t1 v m 0 ltac:(lia)) as E0. rewrite Nat.add_0_r in E0. rewrite E0.
    rewrite !round_d by lia.
    change (0 mod 4 =? 0) with true. change (1 mod 4 =? 0) with false. change (2 mod 4 =? 0) with false.
    change (3 mod 4 =? 0) with false. change (4 mod 4 =? 0) with true. change (5 mod 4 =? 0) with false.
    change (6 mod 4 =? 0) with false. change (7 mod 4 =? 0) with false. cbv iota.
    change (0 / 4) with 0. change (4 / 4) with 1. cbn [fold_left].
    rewrite Nat.add_0_r. f_equal. lia.
  Qed.

  (** The first key injection. *)
  Lemma first_key K t0 t1 M : length K = nw -> length M = nw ->
    (let G := map2 (addw 64) M K in
     let G := upd (nw - 3) (addw 64 (nthN (nw - 3) G) t0) G in
     upd (nw - 2) (addw 64 (nthN (nw - 2) G) t1) G) = tf_addkey nw K t0 t1 0 M.
  Proof.
    intros HK HM.
    assert (A : forall a b c, addw 64 (addw 64 a b) c = plus_mod 64 a (plus_mod 64 b c)).
    { intros. rewrite !addw_plus. unfold plus_mod.
      rewrite N.add_mod_idemp_l, N.add_mod_idemp_r by discriminate. f_equal. lia. }
    assert (Z : forall x y, plus_mod 64 x y = plus_mod 64 x (plus_mod 64 y (N.of_nat 0))).
    { intros. unfold plus_mod. cbn [N.of_nat]. rewrite N.add_0_r, N.add_mod_idemp_r by discriminate. reflexivity. }
    destruct Hnw as [E|[E|E]]; rewrite E in HK, HM |- *; clear E; list_cases K HK; list_cases M HM;
      cbv -[addw plus_mod N.lxor N.of_nat]; rewrite !A, ?addw_plus, <- Z; reflexivity.
  Qed.

  Lemma sk_rounds_eq : sk_rounds nw = map (Nat.mul 2) (seq 0 (tf_rounds nw / 8)) /\
    2 * (tf_rounds nw / 8) = tf_rounds nw / 4 /\ tf_rounds nw / 8 * 8 = tf_rounds nw.
  Proof. destruct Hnw as [E|[E|E]]; subst nw; cbv; auto. Qed.

  Definition clear_first (t1 : N) : N := N.land t1 (notw 64 (shlw 64 64 56)).

  (** One block of transform in terms of the specification. *)
  Lemma sk_block_eq L p t1 H data : length H = nw ->
    sk_block nw L ([p; t1] ++ H) data =
    [addw 64 p L; clear_first t1] ++
    map2 N.lxor (threefish nw H (addw 64 p L) t1 (le_words 8 nw data)) (le_words 8 nw data).
  Proof.
    intros HH. unfold sk_block. cbn [app skipn]. cbv zeta.
    change (nthN 0 (p :: t1 :: H)) with p. change (nthN 1 (p :: t1 :: H)) with t1.
    fold (clear_first t1). f_equal. f_equal. f_equal.
    pose proof (first_key H (addw 64 p L) t1 (le_words 8 nw data) HH (le_words_length 8 nw data)) as EF.
    cbv zeta in EF. rewrite EF.
    destruct sk_rounds_eq as (E1 & E2 & E3). rewrite E1. fold (keys_of H).
    rewrite fold_G8 by (auto using le_words_length). rewrite E2, E3. reflexivity.
  Qed.
End Words.

(** ** Tweaks *)

(** The second tweak word. *)
Definition tw (ty : N) (first last : bool) : N :=
  (ty * 2 ^ 56 + (if first then 2 ^ 62 else 0) + (if last then 2 ^ 63 else 0))%N.
Definition sk_types : list N := [T_key; T_cfg; T_prs; T_non; T_msg; T_out].

Lemma ubi_tweak_words ty pos first last :
  (ubi_tweak ty pos first last mod 2 ^ 64 = pos mod 2 ^ 64 /\ ubi_tweak ty pos first last / 2 ^ 64 = tw ty first last)%N.
Proof.
  unfold ubi_tweak.
  assert (E : (pos mod 2 ^ 64 + ty * 2 ^ 120 + (if first then 2 ^ 126 else 0) + (if last then 2 ^ 127 else 0)
               = pos mod 2 ^ 64 + tw ty first last * 2 ^ 64)%N).
  { unfold tw. destruct first, last; cbn; lia. }
  rewrite E. split.
  - rewrite N.mod_add by discriminate. apply N.mod_mod. discriminate.
  - rewrite N.div_add by discriminate. rewrite N.div_small by (apply N.mod_lt; discriminate). lia.
Qed.

Lemma tw_checks ty : In ty sk_types ->
  sk_tw1 ty = tw ty true false /\
  (forall f, N.lor (tw ty f false) sk_lastbit = tw ty f true) /\
  (forall f, clear_first (tw ty f false) = tw ty false false).
Proof.
  intros H. repeat (destruct H as [<-|H]; [repeat split; intros; try (destruct f); reflexivity|]).
  destruct H.
Qed.

(** ** UBI *)
Section Ubi.
  Variable nw : nat.
  Hypothesis Hnw : nw = 4 \/ nw = 8 \/ nw = 16.
  Let bs := 8 * nw.

  Lemma bs_pos : 0 < bs.
  Proof. unfold bs. lia. Qed.

  Lemma tf_length K t0 t1 P : length (threefish nw K t0 t1 P) = nw.
  Proof. apply addkey_length. Qed.
  Lemma ubi_block_length G t b : length (ubi_block nw G t b) = nw.
  Proof. unfold ubi_block. cbv zeta. rewrite map2_length, tf_length, le_words_length. apply Nat.min_id. Qed.

  Lemma sk_block_ubi L p ty f l H data : length H = nw ->
    sk_block nw L ([p; tw ty f l] ++ H) data =
    [addw 64 p L; clear_first (tw ty f l)] ++ ubi_block nw H (ubi_tweak ty (p + L) f l) data.
  Proof.
    intros HH. rewrite sk_block_eq by auto. f_equal. unfold ubi_block. cbv zeta.
    destruct (ubi_tweak_words ty (p + L) f l) as (-> & ->). rewrite addw_mod. reflexivity.
  Qed.

  (** The blocks before the last one. *)
  Definition ubi_pre (G M : list N) (ty : N) (n : nat) : list N :=
    fold_left (fun H i => ubi_block nw H
      (ubi_tweak ty (N.of_nat ((i + 1) * bs)) (i =? 0)%nat false) (firstn bs (skipn (i * bs) M))) (seq 0 n) G.

  Lemma ubi_pre_S G M ty n : ubi_pre G M ty (S n) =
    ubi_block nw (ubi_pre G M ty n) (ubi_tweak ty (N.of_nat ((n + 1) * bs)) (n =? 0)%nat false) (firstn bs (skipn (n * bs) M)).
  Proof. unfold ubi_pre. rewrite seq_S, fold_left_app. reflexivity. Qed.
  Lemma ubi_pre_length G M ty n : length G = nw -> length (ubi_pre G M ty n) = nw.
  Proof. intros. destruct n; [exact H|]. rewrite ubi_pre_S. apply ubi_block_length. Qed.

  Lemma tweak_mod ty p q f l : (p mod 2 ^ 64 = q mod 2 ^ 64)%N -> ubi_tweak ty p f l = ubi_tweak ty q f l.
  Proof. intros E. unfold ubi_tweak. rewrite E. reflexivity. Qed.

  Lemma sk_loop_ubi G ty B n : length G = nw -> In ty sk_types ->
    block_loop (sk_step nw (N.of_nat bs)) bs ([0%N; tw ty true false] ++ G) 0 B n =
    [trunc 64 (N.of_nat (n * bs)); tw ty (n =? 0)%nat false] ++ ubi_pre G B ty n.
  Proof.
    intros HG Hty. rewrite block_loop_seq by reflexivity.
    destruct (tw_checks ty Hty) as (_ & _ & Hc).
    induction n; [reflexivity|].
    rewrite seq_S, fold_left_app, IHn. cbn [fold_left Nat.add]. unfold sk_step at 1.
    rewrite sk_block_ubi by (apply ubi_pre_length; auto). rewrite Hc, ubi_pre_S.
    unfold addw. rewrite trunc_add_l, <- Nat2N.inj_add. cbn [Nat.eqb].
    replace (n * bs + bs) with (S n * bs) by lia. f_equal. f_equal.
    apply tweak_mod. rewrite trunc_mod, N.add_mod_idemp_l by discriminate. f_equal. lia.
  Qed.

  (** UBI as its last block after the others. *)
  Lemma ubi_split G B T ty n : length B = n * bs -> okrem bs true n (length T) ->
    ubi nw G (B ++ T) ty =
    ubi_block nw (ubi_pre G B ty n)
      (ubi_tweak ty (N.of_nat (n * bs + length T)) (n =? 0)%nat true) (T ++ zeros (bs - length T)).
  Proof.
    intros HB (H1 & H2). pose proof bs_pos as Hp. unfold ubi. cbv zeta. fold bs.
    assert (Ek : ubi_count nw (length (B ++ T)) = S n).
    { unfold ubi_count. fold bs. rewrite app_length, HB.
      destruct (Nat.eq_dec (length T) 0) as [E|E].
      - rewrite (H2 E), E. cbn [Nat.mul Nat.add]. rewrite Nat.div_small by lia. reflexivity.
      - replace ((n * bs + length T + bs - 1) / bs) with (S n); [lia|].
        apply Nat.div_unique with (r := length T - 1); lia. }
    rewrite Ek, seq_S, fold_left_app. cbn [fold_left Nat.add].
    replace (S n - 1) with n by lia. rewrite Nat.eqb_refl.
    assert (Et : skipn (n * bs) (B ++ T) = T) by (rewrite <- HB; apply skipn_app_exact; reflexivity).
    rewrite Et, (firstn_all2 T) by lia.
    rewrite app_length, HB, Nat.min_l by lia. f_equal.
    unfold ubi_pre. apply fold_left_ext_in. intros h i Hi. apply in_seq in Hi.
    assert (Hm : (i + 1) * bs <= n * bs) by (apply Nat.mul_le_mono_r; lia).
    assert (Ef : firstn bs (skipn (i * bs) (B ++ T)) = firstn bs (skipn (i * bs) B)).
    { rewrite skipn_app, firstn_app, skipn_length, HB.
      replace (bs - (n * bs - i * bs)) with 0 by lia. cbn [firstn]. apply app_nil_r. }
    assert (El : length (firstn bs (skipn (i * bs) B)) = bs) by (rewrite firstn_length, skipn_length; lia).
    rewrite Ef, El, Nat.sub_diag, app_nil_r.
    rewrite Nat.min_r by lia. destruct (Nat.eqb_spec i n); [lia|]. reflexivity.
  Qed.
  Lemma ubi_length G M ty : length G = nw -> length (ubi nw G M ty) = nw.
  Proof.
    intros H. unfold ubi. cbv zeta.
    assert (E : ubi_count nw (length M) = S (ubi_count nw (length M) - 1)) by (unfold ubi_count; lia).
    rewrite E, seq_S, fold_left_app. cbn [fold_left]. apply ubi_block_length.
  Qed.

  (** ** The final block *)
  Definition iv_of (ty : N) (G : list N) : list N := [0%N; tw ty true false] ++ G.
  Definition ubi_inv (ty : N) (G : list N) (c : st) (msg : list N) : Prop :=
    buf_inv (sk_step nw (N.of_nat bs)) bs bs true (iv_of ty G) c msg.

  Lemma sk_upd_ok ty G c msg d : ubi_inv ty G c msg ->
    exists c', sk_upd nw c d = Ok c' /\ ubi_inv ty G c' (msg ++ d).
  Proof.
    intros H. unfold sk_upd.
    destruct (buf_update_ok (sk_step nw (N.of_nat bs)) bs bs true bs_pos (le_n bs) (iv_of ty G) c msg d H) as (c' & E & R).
    exists c'. split; [exact E|exact R].
  Qed.

  Lemma sk_finish_ok ty G c msg : length G = nw -> In ty sk_types -> ubi_inv ty G c msg ->
    exists c' t0 t1, sk_finish nw c = Ok c' /\ sh c' = [t0; t1] ++ ubi nw G msg ty /\ length (sm c') = bs.
  Proof.
    intros HG Hty (B & T & J & n & Emsg & HB & HT & Hc & Ht & Hm & Hl & Hp).
    destruct (tw_checks ty Hty) as (_ & Hlast & _).
    unfold iv_of in Hc. rewrite (sk_loop_ubi G ty B n HG Hty) in Hc.
    pose proof HT as (HT1 & _).
    unfold sk_finish. cbv zeta.
    assert (El : length J = bs - length T) by (rewrite Hm, app_length in Hl; lia).
    assert (Em : (if (spos c <? 8 * nw)%nat then memset (sm c) (spos c) 0 (8 * nw - spos c) else Ok (sm c))
                 = Ok (T ++ zeros (bs - length T))).
    { rewrite Hp, Hm. fold bs. destruct (Nat.ltb_spec (length T) bs).
      - rewrite memset_app by (auto; lia). rewrite skipn_all2 by lia. rewrite app_nil_r. reflexivity.
      - assert (J = []) as -> by (destruct J; [reflexivity|cbn in El; lia]).
        replace (bs - length T) with 0 by lia. reflexivity. }
    rewrite Em. cbn [bind]. unfold md_transform1.
    rewrite load_all by (rewrite app_length, zeros_length; fold bs; lia). cbn [bind block_loop].
    rewrite firstn_all2 by (rewrite app_length, zeros_length; fold bs; lia).
    unfold sk_H. rewrite Hc. cbn [app skipn].
    change (nthN 0 (trunc 64 (N.of_nat (n * bs)) :: tw ty (n =? 0) false :: ubi_pre G B ty n)) with (trunc 64 (N.of_nat (n * bs))).
    change (nthN 1 (trunc 64 (N.of_nat (n * bs)) :: tw ty (n =? 0) false :: ubi_pre G B ty n)) with (tw ty (n =? 0) false).
    rewrite Hlast. unfold sk_step.
    pose proof (sk_block_ubi (N.of_nat (spos c)) (trunc 64 (N.of_nat (n * bs))) ty (n =? 0) true (ubi_pre G B ty n)
      (T ++ zeros (bs - length T)) (ubi_pre_length G B ty n HG)) as E.
    cbn [app] in E. rewrite E.
    do 3 eexists. split; [reflexivity|]. cbn [sh sm]. split.
    - rewrite Emsg, (ubi_split G B T ty n HB HT). cbn [app]. do 3 f_equal.
      apply tweak_mod. rewrite trunc_mod, N.add_mod_idemp_l, Hp by discriminate. f_equal. lia.
    - rewrite app_length, zeros_length. lia.
  Qed.

  (** A parameter string processed by inject_parameter. *)
  Lemma sk_inject_ok par ty c G t1 : In ty sk_types -> length G = nw -> par <> [] ->
    sh c = [0%N; t1] ++ G -> length (sm c) = bs -> spos c = 0 -> stotal c = 0%N ->
    exists m, sk_inject nw par ty c = Ok (mkst (iv_of T_msg (ubi nw G par ty)) m 0 0) /\ length m = bs.
  Proof.
    intros Hty HG Hne Hsh Hm Hp Ht. destruct par as [|x par]; [congruence|]. unfold sk_inject. cbv zeta.
    destruct (tw_checks ty Hty) as (Htw & _).
    unfold sk_H. rewrite Hsh, Hp, Ht, Htw. cbn [app skipn].
    change (nthN 0 (0%N :: t1 :: G)) with 0%N.
    assert (I0 : ubi_inv ty G (mkst (0%N :: tw ty true false :: G) (sm c) 0 0) []).
    { apply buf_inv_start; [apply bs_pos|apply le_n|exact Hm]. }
    destruct (sk_upd_ok ty G _ [] (x :: par) I0) as (c1 & E1 & R1). rewrite E1. cbn [bind].
    destruct (sk_finish_ok ty G c1 _ HG Hty R1) as (c2 & t0' & t1' & E2 & Hs2 & Hm2). rewrite E2. cbn [bind].
    exists (sm c2). split; [|exact Hm2]. unfold sk_H. rewrite Hs2. cbn [app skipn].
    unfold iv_of. cbn [app]. rewrite <- (proj1 (tw_checks T_msg ltac:(cbn; auto 6))). reflexivity.
  Qed.
End Ubi.
