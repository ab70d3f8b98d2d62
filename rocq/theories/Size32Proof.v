(** * Counters with a size_t of [W] bits (C67). *)
From Coq Require Import NArith Lia.
From Verif Require Import Base Absorb Hasher MdState Library LibraryTypes Md5 Sha1 Sha2 Sm3 Whirlpool TTable Groestl Kupyna
  Streebog Jh Lsh Blake Blake2 Echo Exact ExactProof Lemmas Size32.
Local Open Scope N_scope.

Section Width.
  Variable W : N.

  Section Short.
    Context {C : Type} (tf tf' : C -> list N -> N -> list N -> nat -> res (C * list N)) (bs bschk : nat).
    Hypothesis Hbs : N.of_nat (bs * 8) < 2 ^ W.
    Hypothesis Hchk : (bs <= bschk)%nat.
    Hypothesis Hpos : (0 < bs)%nat.
    Hypothesis Htf : forall c m t d n, N.of_nat (n * bs * 8) < 2 ^ W -> tf' c m t d n = tf c m t d n.

    Lemma blocks_le l : ((l + bs - bschk) / bs * bs <= l)%nat.
    Proof.
      pose proof (Nat.mul_div_le (l + bs - bschk) bs ltac:(lia)). lia.
    Qed.
    Lemma absorb_sz_short data c m pos total : N.of_nat (length data * 8) < 2 ^ W ->
      absorb_bytes_sz W tf' bs bschk data c m pos total = absorb_bytes tf bs bschk data c m pos total.
    Proof.
      intros L. unfold absorb_bytes_sz, absorb_bytes.
      assert (S : forall data c m pos total, N.of_nat (length data * 8) < 2 ^ W ->
        (' (c, m, data, total) <-
          (if (bschk <=? length data)%nat then
             let blocks := ((length data + bs - bschk) / bs)%nat in
             let bytes := (blocks * bs)%nat in
             blk <- load data 0 bytes ;;
             ' (c, m) <- tf' c m total blk blocks ;;
             Ok (c, m, skipn bytes data, trunc 64 (total + trunc W (N.of_nat (bytes * 8))))
           else Ok (c, m, data, total)) ;;
         m <- memcpy m pos data (length data) ;;
         Ok (c, m, (pos + length data)%nat, total)) =
        (' (c, m, data, total) <-
          (if (bschk <=? length data)%nat then
             let blocks := ((length data + bs - bschk) / bs)%nat in
             let bytes := (blocks * bs)%nat in
             blk <- load data 0 bytes ;;
             ' (c, m) <- tf c m total blk blocks ;;
             Ok (c, m, skipn bytes data, trunc 64 (total + N.of_nat (bytes * 8)))
           else Ok (c, m, data, total)) ;;
         m <- memcpy m pos data (length data) ;;
         Ok (c, m, (pos + length data)%nat, total))).
      { clear data c m pos total L. intros data c m pos total L.
        destruct (bschk <=? length data)%nat; [|reflexivity]. cbv zeta.
        pose proof (blocks_le (length data)) as B.
        destruct (load data 0 _) as [blk| |]; cbn [bind]; [|reflexivity..].
        rewrite Htf by lia. rewrite (trunc_small W) by lia. reflexivity. }
      destruct (negb (pos =? 0)%nat && (bschk <=? pos + length data)%nat); [|cbn [bind]; apply S, L].
      destruct (size_sub bs pos) as [k| |]; cbn [bind]; [|reflexivity..].
      destruct (memcpy m pos data k) as [m2| |]; cbn [bind]; [|reflexivity..].
      destruct (load m2 0 bs) as [blk| |]; cbn [bind]; [|reflexivity..].
      rewrite Htf by lia. destruct (tf c m2 total blk 1%nat) as [[c2 m3]| |]; cbn [bind]; [|reflexivity..].
      rewrite (trunc_small W) by lia. apply S. rewrite skipn_length. lia.
    Qed.
  End Short.

  Lemma md_sz_short step bs bschk s d : N.of_nat (bs * 8) < 2 ^ W -> (bs <= bschk)%nat -> (0 < bs)%nat ->
    N.of_nat (length d * 8) < 2 ^ W -> md_update_sz W step bs bschk s d = md_update step bs bschk s d.
  Proof. intros H1 H2 H3 L. unfold md_update_sz, md_update. rewrite (absorb_sz_short (fun h m t d n => Ok (block_loop step bs h t d n, m))); auto. Qed.
  Lemma md_res_sz_short step bs bschk s d : N.of_nat (bs * 8) < 2 ^ W -> (bs <= bschk)%nat -> (0 < bs)%nat ->
    N.of_nat (length d * 8) < 2 ^ W -> md_update_res_sz W step bs bschk s d = md_update_res step bs bschk s d.
  Proof. intros H1 H2 H3 L. unfold md_update_res_sz, md_update_res. rewrite (absorb_sz_short (fun h m t d n => h <- block_loop_res step bs h t d n ;; Ok (h, m))); auto. Qed.

  Lemma fold_left_in {A B} (f g : A -> B -> A) l : (forall a b, In b l -> f a b = g a b) -> forall a, fold_left f l a = fold_left g l a.
  Proof. induction l as [|b l IH]; intros H a; cbn [fold_left]; [reflexivity|]. rewrite H by (left; reflexivity). apply IH. intros a' b' I. apply H. right. exact I. Qed.
  Lemma bl_transform_sz_short w H t d n : N.of_nat (n * bl_bs w * 8) < 2 ^ W -> bl_transform_sz W w H t d n = bl_transform_code w H t d n.
  Proof.
    intros L. apply fold_left_in. intros a b I. apply in_seq in I.
    assert ((b + 1) * bl_bs w <= n * bl_bs w)%nat by (apply Nat.mul_le_mono_r; lia).
    rewrite (trunc_small W); [reflexivity|]. lia.
  Qed.
  Lemma b2_transform_sz_short w H t d n : N.of_nat (n * b2_bs w * 8) < 2 ^ W -> b2_transform_sz W w H t d n = b2_transform_code w H t d n.
  Proof.
    intros L. apply fold_left_in. intros a b I. apply in_seq in I.
    assert ((b + 1) * b2_bs w <= n * b2_bs w)%nat by (apply Nat.mul_le_mono_r; lia).
    rewrite (trunc_small W) by lia. do 3 f_equal.
    replace (N.of_nat ((b + 1) * (b2_bs w * 4))) with (N.of_nat ((b + 1) * b2_bs w) * 4) by lia. apply N.div_mul. discriminate.
  Qed.
  Hypothesis HW : 20 <= W.
  Lemma width_big x : x < 2 ^ 20 -> x < 2 ^ W.
  Proof. intros H. eapply N.lt_le_trans; [exact H|]. apply N.pow_le_mono_r; [discriminate|exact HW]. Qed.
  Section One.
    Variable d : list N.
    Hypothesis L : N.of_nat (length d * 8) < 2 ^ W.
    Lemma M step bs x : (0 < bs <= 256)%nat -> md_update_sz W step bs bs x d = md_update step bs bs x d.
    Proof. intros; apply md_sz_short; [apply width_big; lia|lia|lia|exact L]. Qed.
    Lemma R step bs x : (0 < bs <= 256)%nat -> md_update_res_sz W step bs bs x d = md_update_res step bs bs x d.
    Proof. intros; apply md_res_sz_short; [apply width_big; lia|lia|lia|exact L]. Qed.
    Lemma cl_bs_range hs : (0 < cl_bs hs <= 256)%nat. Proof. unfold cl_bs; destruct (256 <? hs); lia. Qed.
    Lemma ec_bs_range hs : (0 < ec_bs hs <= 192)%nat. Proof. unfold ec_bs; destruct (256 <? hs); lia. Qed.
    Lemma bl_bs_range w : (0 < bl_bs w <= 192)%nat. Proof. unfold bl_bs; destruct (w =? 64); lia. Qed.
    Lemma b2_bs_range w : (0 < b2_bs w <= 192)%nat. Proof. unfold b2_bs; destruct (w =? 64); lia. Qed.
    Lemma sha2_bs_range T : (0 < sha2_bs T <= 256)%nat. Proof. destruct T; cbn; lia. Qed.
    Lemma lsh_bs_range w : In w [32; 64] -> (0 < lsh_bs w <= 256)%nat.
    Proof. intros [<-|[<-|[]]]; [change (lsh_bs 32) with 128%nat|change (lsh_bs 64) with 256%nat]; lia. Qed.
    Lemma md5_sz s : md5_update_sz W s d = md5_update s d. Proof. unfold md5_update_sz, md5_update. apply M; lia. Qed.
    Lemma sha1_sz s : sha1_update_sz W s d = sha1_update s d. Proof. unfold sha1_update_sz, sha1_update. apply M; lia. Qed.
    Lemma wp_sz s : wp_update_sz W s d = wp_update s d. Proof. unfold wp_update_sz, wp_update. apply M; lia. Qed.
    Lemma sm3_sz sem s : sm3_update_sz W sem s d = sm3_update sem s d. Proof. unfold sm3_update_sz, sm3_update. apply R; lia. Qed.
    Lemma sha2_sz T s : sha2_update_sz W T s d = sha2_update T s d.
    Proof. unfold sha2_update_sz, sha2_update. rewrite M by apply sha2_bs_range. reflexivity. Qed.
    Lemma gr_sz s : gr_update_sz W s d = gr_update s d.
    Proof. unfold gr_update_sz, gr_update. cbv zeta. rewrite M by apply cl_bs_range. reflexivity. Qed.
    Lemma ku_sz s : ku_update_sz W s d = ku_update s d.
    Proof. unfold ku_update_sz, ku_update. cbv zeta. rewrite M by apply cl_bs_range. reflexivity. Qed.
    Lemma sb_sz s : sb_update_sz W s d = sb_update s d.
    Proof. unfold sb_update_sz, sb_update. rewrite M by lia. reflexivity. Qed.
    Lemma jh_sz s : jh_update_sz W s d = jh_update s d.
    Proof. unfold jh_update_sz, jh_update. rewrite M by lia. reflexivity. Qed.
    Lemma lsh_sz sem w s : In w [32; 64] -> lsh_update_sz W sem w s d = lsh_update sem w s d.
    Proof. intros H. unfold lsh_update_sz, lsh_update. rewrite R by (apply lsh_bs_range, H). reflexivity. Qed.
    Lemma ec_sz s : ec_update_sz W s d = ec_update s d.
    Proof.
      unfold ec_update_sz, ec_update. cbv zeta. pose proof (ec_bs_range (echs s)).
      rewrite (absorb_sz_short (fun V m t d n => ec_transform (echs s) (ecsalt s) V m t (Some d) n true (N.of_nat (ec_bs (echs s) * n)))
        (fun V m t d n => ec_transform (echs s) (ecsalt s) V m t (Some d) n true (N.of_nat (ec_bs (echs s) * n)))); [reflexivity|apply width_big; lia|lia|lia|reflexivity|exact L].
    Qed.
    Lemma bl_sz s : bl_update_sz W s d = blx_update s d.
    Proof.
      unfold bl_update_sz, blx_update. cbv zeta. set (w := bl_w (blhs s)). pose proof (bl_bs_range w).
      rewrite (absorb_sz_short (fun h m t d n => Ok (bl_transform_code w h t d n, m)) (fun h m t d n => Ok (bl_transform_sz W w h t d n, m))); [reflexivity|apply width_big; lia|lia|lia| |exact L].
      intros c m t d0 n Hn. rewrite (bl_transform_sz_short w c t d0 n Hn). reflexivity.
    Qed.
    Lemma b2_sz w s : b2_update_sz W w s d = b2x_update w s d.
    Proof.
      unfold b2_update_sz, b2x_update. pose proof (b2_bs_range w).
      rewrite (absorb_sz_short (fun h m t d n => Ok (b2_transform_code w h t d n, m)) (fun h m t d n => Ok (b2_transform_sz W w h t d n, m))); [reflexivity|apply width_big; lia|lia|lia| |exact L].
      intros c m t d0 n Hn. rewrite (b2_transform_sz_short w c t d0 n Hn). reflexivity.
    Qed.
  End One.
  Lemma counts_short {P} (T : htype P) u : counts T u -> forall s d, N.of_nat (length d * 8) < 2 ^ W -> u W s d = p_update P s d.
  Proof.
    intros C. destruct C; intros s d L.
    - exact (md5_sz d L s).
    - exact (sha1_sz d L s).
    - exact (sha2_sz d L W32 s).
    - exact (sha2_sz d L W32 s).
    - exact (sha2_sz d L W64 s).
    - exact (sha2_sz d L W64 s).
    - exact (sha2_sz d L W64 s).
    - exact (sm3_sz d L Masked s).
    - exact (wp_sz d L s).
    - exact (gr_sz d L s).
    - exact (gr_sz d L s).
    - exact (ku_sz d L s).
    - exact (ku_sz d L s).
    - exact (sb_sz d L s).
    - exact (sb_sz d L s).
    - exact (jh_sz d L s).
    - exact (jh_sz d L s).
    - exact (lsh_sz d L Masked w s H).
    - exact (lsh_sz d L Masked w s H).
    - exact (ec_sz d L s).
    - exact (ec_sz d L s).
    - exact (bl_sz d L s).
    - exact (bl_sz d L s).
    - exact (b2_sz d L w s).
    - exact (b2_sz d L w s).
  Qed.

  Section Api.
    Variables (P : hash_provider) (u : pst P -> list N -> res (pst P)).
    Hypothesis Hu : forall s d, N.of_nat (length d * 8) < 2 ^ W -> u s d = p_update P s d.
    Notation Q := (with_update P u).
    Lemma sz_stream : forall f (s : pst P) d, absorb_stream Q f s d = absorb_stream P f s d.
    Proof.
      induction f as [|f IH]; intros s d; cbn [absorb_stream]; unfold tmp_buffer_size.
      - destruct (N.leb_spec 65536 (N.of_nat (length d))) as [L|L]; [reflexivity|].
        destruct (length d =? 0)%nat; [reflexivity|]. apply Hu. apply width_big. lia.
      - destruct (N.leb_spec 65536 (N.of_nat (length d))) as [L|L].
        + change (p_update Q) with u. rewrite Hu; [|apply width_big; rewrite firstn_length; lia].
          destruct (p_update P s _); cbn [bind]; [apply IH|reflexivity..].
        + destruct (length d =? 0)%nat; [reflexivity|]. apply Hu. apply width_big. lia.
    Qed.
    Lemma sz_iter : forall d (s : pst P), absorb_iter Q s d = absorb_iter P s d.
    Proof.
      induction d as [|b d IH]; intros s; cbn [absorb_iter]; [reflexivity|].
      change (p_update Q) with u. rewrite Hu; [|apply width_big; cbn; lia].
      destruct (p_update P s [b]); cbn [bind]; [apply IH|reflexivity..].
    Qed.
    Lemma sz_step (s : pst P) o : short_call W o -> hash_step Q s o = hash_step P s o.
    Proof.
      destruct o as [[f d|b|q v]|buf| |]; intros L; try reflexivity.
      cbn [hash_step base_step]. f_equal. destruct f; cbn [absorb]; cbn [short_call] in L.
      - apply Hu. lia.
      - unfold absorb_str. destruct d; [reflexivity|]. apply Hu. lia.
      - apply sz_stream.
      - reflexivity.
      - apply sz_iter.
    Qed.
    Lemma sz_run ops : forall s : pst P, Forall (short_call W) ops -> hash_run Q s ops = hash_run P s ops.
    Proof.
      induction ops as [|o ops IH]; intros s H; [reflexivity|]. inversion H as [|? ? H1 H2]; subst. cbn [hash_run].
      rewrite (sz_step s o H1). destruct (hash_step P s o) as [[s' x]| |]; cbn [bind]; [|reflexivity..].
      rewrite (IH s' H2). reflexivity.
    Qed.
  End Api.
  Theorem width_short {P} (T : htype P) u : counts T u -> forall g pre post,
    Forall (short_call W) pre -> Forall (short_call W) post ->
    after (type_with T (u W)) g pre post = after T g pre post.
  Proof.
    intros C g pre post H1 H2. pose proof (sz_run P (u W) (counts_short T u C)) as R.
    unfold after. change (ht_new (type_with T (u W)) g) with (ht_new T g).
    destruct (ht_new T g) as [s| |]; cbn [bind]; [|reflexivity..].
    rewrite (R pre s H1). destruct (hash_run P s pre) as [[s' x]| |]; cbn [bind]; [|reflexivity..].
    rewrite (R post s' H2). reflexivity.
  Qed.
End Width.

(** ** 64 bits: the models *)
Lemma absorb_sz_64 {C} (tf tf' : C -> list N -> N -> list N -> nat -> res (C * list N)) bs bschk data c m pos total :
  (forall c m t d n, tf' c m t d n = tf c m t d n) ->
  absorb_bytes_sz 64 tf' bs bschk data c m pos total = absorb_bytes tf bs bschk data c m pos total.
Proof.
  intros H. unfold absorb_bytes_sz, absorb_bytes. 
  destruct (negb (pos =? 0)%nat && (bschk <=? pos + length data)%nat).
  - destruct (size_sub bs pos) as [k| |]; cbn [bind]; [|reflexivity..].
    destruct (memcpy m pos data k) as [m2| |]; cbn [bind]; [|reflexivity..].
    destruct (load m2 0 bs) as [blk| |]; cbn [bind]; [|reflexivity..].
    rewrite H. destruct (tf c m2 total blk 1%nat) as [[c2 m3]| |]; cbn [bind]; [|reflexivity..].
    rewrite trunc_add_r. destruct (bschk <=? _)%nat; [|reflexivity]. cbv zeta.
    destruct (load _ 0 _) as [blk2| |]; cbn [bind]; [|reflexivity..]. rewrite H.
    destruct (tf c2 m3 _ blk2 _) as [[c4 m4]| |]; cbn [bind]; [|reflexivity..]. rewrite trunc_add_r. reflexivity.
  - cbn [bind]. destruct (bschk <=? _)%nat; [|reflexivity]. cbv zeta.
    destruct (load _ 0 _) as [blk2| |]; cbn [bind]; [|reflexivity..]. rewrite H.
    destruct (tf c m _ blk2 _) as [[c4 m4]| |]; cbn [bind]; [|reflexivity..]. rewrite trunc_add_r. reflexivity.
Qed.

(** ** The counter in general *)
Lemma absorb_sz_counter {C} W (tf : C -> list N -> N -> list N -> nat -> res (C * list N)) bs bschk data c m pos total :
  N.of_nat (bs * 8) < 2 ^ W -> total < 2 ^ 64 ->
  match absorb_bytes_sz W tf bs bschk data c m pos total, absorb_bytes tf bs bschk data c m pos total with
  | Ok (c1, m1, p1, t1), Ok (c2, m2, p2, t2) =>
    c1 = c2 /\ m1 = m2 /\ p1 = p2 /\
    t2 = trunc 64 (t1 + 2 ^ W * (8 * N.of_nat (in_place bs bschk pos (length data)) / 2 ^ W))
  | Throw, Throw => True
  | UB a, UB b => a = b
  | _, _ => False
  end.
Proof.
  intros Hbs Ht. unfold absorb_bytes_sz, absorb_bytes, in_place.
  assert (S : forall data c m pos total, total < 2 ^ 64 ->
    match (' (c, m, data, total) <-
          (if (bschk <=? length data)%nat then
             let blocks := ((length data + bs - bschk) / bs)%nat in
             let bytes := (blocks * bs)%nat in
             blk <- load data 0 bytes ;;
             ' (c, m) <- tf c m total blk blocks ;;
             Ok (c, m, skipn bytes data, trunc 64 (total + trunc W (N.of_nat (bytes * 8))))
           else Ok (c, m, data, total)) ;;
         m <- memcpy m pos data (length data) ;;
         Ok (c, m, (pos + length data)%nat, total)),
        (' (c, m, data, total) <-
          (if (bschk <=? length data)%nat then
             let blocks := ((length data + bs - bschk) / bs)%nat in
             let bytes := (blocks * bs)%nat in
             blk <- load data 0 bytes ;;
             ' (c, m) <- tf c m total blk blocks ;;
             Ok (c, m, skipn bytes data, trunc 64 (total + N.of_nat (bytes * 8)))
           else Ok (c, m, data, total)) ;;
         m <- memcpy m pos data (length data) ;;
         Ok (c, m, (pos + length data)%nat, total)) with
    | Ok (c1, m1, p1, t1), Ok (c2, m2, p2, t2) =>
      c1 = c2 /\ m1 = m2 /\ p1 = p2 /\
      t2 = trunc 64 (t1 + 2 ^ W * (8 * N.of_nat (if (bschk <=? length data)%nat then (length data + bs - bschk) / bs * bs else 0) / 2 ^ W))
    | Throw, Throw => True
    | UB a, UB b => a = b
    | _, _ => False
    end).
  { clear data c m pos total Ht. intros data c m pos total Ht.
    destruct (bschk <=? length data)%nat.
    - cbv zeta. set (bytes := ((length data + bs - bschk) / bs * bs)%nat).
      destruct (load data 0 bytes) as [blk| |]; cbn [bind]; auto.
      destruct (tf c m total blk _) as [[c2 m2]| |]; cbn [bind]; auto.
      destruct (memcpy m2 pos _ _) as [m3| |]; cbn [bind]; auto.
      repeat split. rewrite trunc_add_l. f_equal. rewrite trunc_mod.
      replace (N.of_nat (bytes * 8)) with (8 * N.of_nat bytes) by lia.
      rewrite <- N.add_assoc. f_equal. rewrite N.add_comm. apply N.div_mod. apply N.pow_nonzero. discriminate.
    - cbn [bind]. destruct (memcpy m pos _ _) as [m3| |]; cbn [bind]; auto.
      repeat split. cbv iota. change (N.of_nat 0) with 0. change (8 * 0) with 0. rewrite N.div_0_l by (apply N.pow_nonzero; discriminate).
      rewrite N.mul_0_r, N.add_0_r. symmetry. apply trunc_small, Ht. }
  replace (0 <? pos)%nat with (negb (pos =? 0)%nat) by (destruct pos; reflexivity).
  destruct (negb (pos =? 0)%nat && (bschk <=? pos + length data)%nat); [|cbn [bind]; apply S, Ht].
  unfold size_sub. destruct (pos <=? bs)%nat eqn:Hp; cbn [bind]; auto.
  destruct (memcpy m pos data (bs - pos)) as [m2| |]; cbn [bind]; auto.
  destruct (load m2 0 bs) as [blk| |]; cbn [bind]; auto.
  destruct (tf c m2 total blk 1%nat) as [[c2 m3]| |]; cbn [bind]; auto.
  rewrite (trunc_small W) by exact Hbs.
  pose proof (S (skipn (bs - pos) data) c2 m3 0%nat (trunc 64 (total + N.of_nat (bs * 8))) (trunc_lt _ _)) as X.
  rewrite <- (skipn_length (bs - pos) data). exact X.
Qed.

(** ** Whole blocks in one call *)
Lemma md_update_blocks W step bs s d n : (0 < bs)%nat -> (0 < n)%nat -> spos s = 0%nat -> length d = (n * bs)%nat ->
  md_update_sz W step bs bs s d = Ok (mkst (block_loop step bs (sh s) (stotal s) d n) (sm s) 0 (trunc 64 (stotal s + trunc W (8 * N.of_nat (length d))))).
Proof.
  intros Hb Hn Hp L. unfold md_update_sz, absorb_bytes_sz. rewrite Hp. cbn [Nat.eqb negb andb bind].
  destruct (Nat.leb_spec bs (length d)) as [_|F]; [|rewrite L in F; destruct n; [lia|cbn in F; lia]].
  cbv zeta. rewrite Nat.add_sub, L, Nat.div_mul by lia.
  unfold load. rewrite Nat.add_0_l, L, Nat.leb_refl. cbn [bind skipn].
  rewrite firstn_all2 by lia. rewrite skipn_all2 by lia. cbn [length].
  replace (8 * N.of_nat (n * bs)) with (N.of_nat (n * bs * 8)) by lia. reflexivity.
Qed.
Lemma md5_counter_32 s d : spos s = 0%nat -> stotal s < 2 ^ 64 -> N.of_nat (length d) = 2 ^ 29 ->
  exists h, md5_update_sz 32 s d = Ok (mkst h (sm s) 0 (stotal s)) /\
            md5_update s d = Ok (mkst h (sm s) 0 (trunc 64 (stotal s + 2 ^ 32))).
Proof.
  intros Hp Ht L. set (n := N.to_nat (2 ^ 23)).
  assert (E : length d = (n * 64)%nat) by (subst n; lia).
  exists (block_loop md5_block 64 (sh s) (stotal s) d n). split.
  - unfold md5_update_sz. rewrite (md_update_blocks 32 md5_block 64 s d n) by (try assumption; subst n; lia).
    rewrite L. change (trunc 32 (8 * 2 ^ 29)) with 0. rewrite N.add_0_r, trunc_small by exact Ht. reflexivity.
  - unfold md5_update, md_update.
    rewrite <- (absorb_sz_64 (fun h m t d n => Ok (block_loop md5_block 64 h t d n, m)) (fun h m t d n => Ok (block_loop md5_block 64 h t d n, m))) by reflexivity.
    change (md_update_sz 64 md5_block 64 64 s d = Ok (mkst (block_loop md5_block 64 (sh s) (stotal s) d n) (sm s) 0 (trunc 64 (stotal s + 2 ^ 32)))).
    rewrite (md_update_blocks 64 md5_block 64 s d n) by (try assumption; subst n; lia).
    rewrite L, trunc_add_r. reflexivity.
Qed.
Lemma length_bits (d : list N) W : 8 * N.of_nat (length d) < 2 ^ W -> N.of_nat (length d * 8) < 2 ^ W.
Proof. lia. Qed.
Lemma absorb_sz_counter_mod {C} W (tf : C -> list N -> N -> list N -> nat -> res (C * list N)) bs bschk data c m pos total :
  N.of_nat (bs * 8) < 2 ^ W -> total < 2 ^ 64 ->
  match absorb_bytes_sz W tf bs bschk data c m pos total, absorb_bytes tf bs bschk data c m pos total with
  | Ok (c1, m1, p1, t1), Ok (c2, m2, p2, t2) =>
    c1 = c2 /\ m1 = m2 /\ p1 = p2 /\
    t2 = (t1 + 2 ^ W * (8 * N.of_nat (in_place bs bschk pos (length data)) / 2 ^ W)) mod 2 ^ 64
  | Throw, Throw => True
  | UB a, UB b => a = b
  | _, _ => False
  end.
Proof.
  intros H1 H2. pose proof (absorb_sz_counter W tf bs bschk data c m pos total H1 H2) as X.
  destruct (absorb_bytes_sz _ _ _ _ _ _ _ _ _) as [[[[c1 m1] p1] t1]| |]; destruct (absorb_bytes _ _ _ _ _ _ _ _) as [[[[c2 m2] p2] t2]| |]; auto.
  rewrite trunc_mod in X. exact X.
Qed.
Lemma md5_counter_32_mod s d : spos s = 0%nat -> stotal s < 2 ^ 64 -> N.of_nat (length d) = 2 ^ 29 ->
  exists h, md5_update_sz 32 s d = Ok (mkst h (sm s) 0 (stotal s)) /\
            md5_update s d = Ok (mkst h (sm s) 0 ((stotal s + 2 ^ 32) mod 2 ^ 64)).
Proof. intros H1 H2 H3. destruct (md5_counter_32 s d H1 H2 H3) as (h & A & B). rewrite trunc_mod in B. exists h. auto. Qed.
