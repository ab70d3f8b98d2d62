(** * The ECHO provider simulates the specification. *)
From Verif Require Import Base Lemmas TableLemmas WordLemmas Absorb AbsorbProof MdState MdProof Validate Hasher HasherSpec
  HasherProof BufProof SpecCommon GfSpec ConstEcho Echo EchoSpec EchoProof.

(** ** COMPRESS *)
Lemma vw_nth w i b : (b < 16)%nat ->
  nth b (vw w i) 0 = byte_at (nthN (2 * i + b / 8) w) (N.of_nat (8 * (b mod 8))).
Proof.
  intros H. unfold vw. destruct (Nat.lt_ge_cases b 8).
  - rewrite app_nth1 by (rewrite le_bytes_length; auto). rewrite Nat.div_small, Nat.mod_small, Nat.add_0_r by auto.
    apply nth_le_bytes. auto.
  - rewrite app_nth2 by (rewrite le_bytes_length; auto). rewrite le_bytes_length.
    assert (E : (b / 8 = 1 /\ b mod 8 = b - 8)%nat).
    { pose proof (Nat.div_mod b 8 ltac:(lia)). pose proof (Nat.mod_upper_bound b 8 ltac:(lia)). lia. }
    destruct E as [-> ->]. apply nth_le_bytes. lia.
Qed.
Lemma seq_from a n : seq a n = map (Nat.add a) (seq 0 n).
Proof.
  revert a. induction n; intros a; [reflexivity|]. rewrite !seq_S, map_app. cbn [map Nat.add]. rewrite IHn. reflexivity.
Qed.
Lemma view_app a : forall n X Y, length X = (2 * a)%nat -> view (a + n) (X ++ Y) = view a X ++ view n Y.
Proof.
  intros n X Y H. unfold view. rewrite seq_app, map_app. f_equal.
  - apply map_ext_in. intros i Hi. apply in_seq in Hi. unfold vw, nthN. rewrite !app_nth1 by lia. reflexivity.
  - cbn [Nat.add]. rewrite (seq_from a n), map_map. apply map_ext. intros i. unfold vw, nthN. rewrite !app_nth2 by lia. do 3 f_equal; lia.
Qed.

Lemma view_words n : forall m, length m = (16 * n)%nat -> bytes_ok m ->
  view n (le_words 8 (2 * n) m) = blocks_n n 16 m.
Proof.
  induction n as [|n IH]; intros m L B; [reflexivity|].
  replace (2 * S n)%nat with (2 + 2 * n)%nat by lia.
  change (le_words 8 (2 + 2 * n) m) with ([le_word (firstn 8 m); le_word (firstn 8 (skipn 8 m))] ++ le_words 8 (2 * n) (skipn 8 (skipn 8 m))).
  change (S n) with (1 + n)%nat at 1. rewrite view_app by reflexivity.
  rewrite skipn_skipn. change (8 + 8)%nat with 16%nat.
  rewrite IH by (rewrite ?skipn_length; try lia; apply Forall_skipn; auto).
  cbn [blocks_n app]. unfold view, vw. cbn [seq map nthN nth Nat.mul Nat.add app].
  f_equal.
  assert (E : forall l, length l = 8%nat -> bytes_ok l -> le_bytes 8 (le_word l) = l).
  { intros l Hl Hb. rewrite <- Hl at 1. apply le_bytes_word. auto. }
  rewrite (E (firstn 8 m)), (E (firstn 8 (skipn 8 m))); auto using Forall_firstn, Forall_skipn;
    [|rewrite firstn_length, skipn_length; lia|unfold bytes_ok; auto using Forall_firstn, Forall_skipn|rewrite firstn_length; lia
     |unfold bytes_ok; auto using Forall_firstn].
  rewrite <- (firstn_skipn 8 (firstn 16 m)). rewrite firstn_firstn, skipn_firstn_comm. reflexivity.
Qed.

Section Compress.
  Variable hs : N.
  Definition ec_q : nat := if 256 <? hs then 8 else 4.
  Lemma ec_dims : (ec_q = echo_words hs /\ ec_bs hs = echo_bs hs /\ (if (256 <? hs)%N then 10 else 8) = echo_rounds hs /\
    ec_nv hs = 2 * ec_q /\ echo_bs hs = 16 * (16 - ec_q) /\ ec_bs hs / 8 = 2 * (16 - ec_q) /\ (ec_q = 4 \/ ec_q = 8))%nat.
  Proof.
    unfold ec_q, ec_bs, echo_bs, echo_words, echo_rounds, ec_nv.
    destruct (N.ltb_spec 256 hs), (N.leb_spec hs 256); try lia; repeat split; auto.
  Qed.
  Lemma ec_block_length salt c V m : length (ec_block hs salt c V m) = (2 * ec_q)%nat.
  Proof.
    unfold ec_block, ec_q, ec_final256, ec_final512. cbv zeta.
    destruct (N.ltb_spec 256 hs), (N.leb_spec hs 256); try lia; rewrite map_length, seq_length; reflexivity.
  Qed.
  Lemma ec_block_ok s0 s1 c V m : length V = (2 * ec_q)%nat -> c < 2 ^ 64 -> length m = echo_bs hs -> bytes_ok m ->
    view ec_q (ec_block hs [s0; s1] c V m) =
    echo_compress hs (le_bytes 8 s0 ++ le_bytes 8 s1) (view ec_q V) m c.
  Proof.
    intros LV Hc Lm Bm. destruct ec_dims as (D1 & D2 & D3 & D4 & D5 & D6 & D7).
    unfold ec_block, echo_compress. rewrite D6, D3, <- D1.
    assert (Es : view ec_q V ++ blocks 16 m = view 16 (V ++ le_words 8 (2 * (16 - ec_q)) m)).
    { transitivity (view (ec_q + (16 - ec_q)) (V ++ le_words 8 (2 * (16 - ec_q)) m)); [|f_equal; lia].
      rewrite view_app by auto. f_equal.
      rewrite view_words by (auto; lia). apply blocks_mul; lia. }
    rewrite Es. set (h := V ++ le_words 8 (2 * (16 - ec_q)) m).
    assert (Lh : length h = 32%nat) by (unfold h; rewrite app_length, le_words_length; lia).
    destruct (ec_rounds_ok s0 s1 h c (echo_rounds hs) Lh Hc) as (_ & _ & EW).
    cbv zeta. rewrite <- EW. set (w := fst (Nat.iter (echo_rounds hs) (ec_round [s0; s1]) (h, c))).
    clearbody h w. clear Es EW. unfold view at 1. apply map_ext_in. intros i Hi. apply in_seq in Hi.
    apply (nth_ext _ _ 0 0).
    { unfold vw. rewrite app_length, !le_bytes_length, map_length, seq_length. reflexivity. }
    intros b Hb. assert (Hb' : (b < 16)%nat) by (unfold vw in Hb; rewrite app_length, !le_bytes_length in Hb; exact Hb).
    rewrite vw_nth, nth_map_seq by auto.
    assert (B8 : (b / 8 < 2)%nat) by (apply Nat.div_lt_upper_bound; lia).
    unfold ec_q in *. destruct (N.ltb_spec 256 hs), (N.leb_spec hs 256); try lia.
    - unfold ec_final512. unfold nthN at 1. rewrite nth_map_seq by lia.
      change (16 / 8)%nat with 2%nat. cbn [xor_sum]. rewrite !view_nth by lia. rewrite !vw_nth by auto.
      rewrite !byte_at_lxor, N.lxor_0_l.
      replace (2 * (i + 8 * 0) + b / 8)%nat with (2 * i + b / 8)%nat by lia.
      replace (2 * (i + 8 * 1) + b / 8)%nat with (2 * i + b / 8 + 16)%nat by lia.
      match goal with |- context [byte_at _ ?n] => generalize n end. intros n.
      rewrite <- !byte_at_lxor. f_equal. rewrite !N.lxor_assoc. f_equal.
      rewrite <- !N.lxor_assoc. f_equal. apply N.lxor_comm.
    - unfold ec_final256. unfold nthN at 1. rewrite nth_map_seq by lia.
      change (16 / 4)%nat with 4%nat. cbn [xor_sum]. rewrite !view_nth by lia. rewrite !vw_nth by auto.
      rewrite !byte_at_lxor, N.lxor_0_l.
      replace (2 * (i + 4 * 0) + b / 8)%nat with (2 * i + b / 8)%nat by lia.
      replace (2 * (i + 4 * 1) + b / 8)%nat with (2 * i + b / 8 + 8)%nat by lia.
      replace (2 * (i + 4 * 2) + b / 8)%nat with (2 * i + b / 8 + 16)%nat by lia.
      replace (2 * (i + 4 * 3) + b / 8)%nat with (2 * i + b / 8 + 24)%nat by lia.
      match goal with |- context [byte_at _ ?n] => generalize n end. intros n.
      generalize (byte_at (nthN (2 * i + b / 8) h) n) (byte_at (nthN (2 * i + b / 8 + 8) h) n)
        (byte_at (nthN (2 * i + b / 8 + 16) h) n) (byte_at (nthN (2 * i + b / 8 + 24) h) n)
        (byte_at (nthN (2 * i + b / 8) w) n) (byte_at (nthN (2 * i + b / 8 + 8) w) n)
        (byte_at (nthN (2 * i + b / 8 + 16) w) n) (byte_at (nthN (2 * i + b / 8 + 24) w) n).
      clear. intros a0 a1 a2 a3 b0 b1 b2 b3. apply N.bits_inj. intros k. rewrite !N.lxor_spec.
      destruct (N.testbit a0 k), (N.testbit a1 k), (N.testbit a2 k), (N.testbit a3 k),
        (N.testbit b0 k), (N.testbit b1 k), (N.testbit b2 k), (N.testbit b3 k); reflexivity.
  Qed.
End Compress.

(** ** The loop over the blocks *)
Section Loop.
  Variable hs : N.
  Let q := ec_q hs.
  Let bs := echo_bs hs.
  Lemma ec_bs_pos : (18 < bs /\ 18 < ec_bs hs)%nat.
  Proof. unfold bs, echo_bs, ec_bs. destruct (hs <=? 256), (256 <? hs); lia. Qed.

  Definition ec_step (salt : list N) (V : list N) (t : N) (data : list N) : list N :=
    ec_block hs salt (trunc 64 (t + N.of_nat (bs * 8))) V data.

  Lemma ec_transform_ok salt V m t data n : length m = bs -> length data = (n * bs)%nat -> t < 2 ^ 64 ->
    exists m', ec_transform hs salt V m t (Some data) n true (N.of_nat (bs * n)) =
               Ok (block_loop (ec_step salt) bs V t data n, m') /\ length m' = bs.
  Proof.
    intros Lm Ld Ht. rewrite block_loop_seq by exact Ht. unfold ec_transform.
    destruct (ec_dims hs) as (_ & D2 & _). fold bs in D2. rewrite D2. pose proof ec_bs_pos as [Hp _].
    assert (G : forall j k V m, (k + j = n)%nat -> length m = bs ->
      exists m' a, fold_res (fun s blk =>
        let '(V, m, addtototal) := s in
        ' (m, addtototal, counter) <-
          (let delta := N.min addtototal (N.of_nat bs) in
           let counter := trunc 64 (t + (N.of_nat (blk * bs) + delta) * 8) in
           m <- memcpy m 0 (skipn (bs * blk) data) (N.to_nat delta) ;;
           Ok (m, addtototal - delta, counter)) ;;
        Ok (ec_block hs salt counter V m, m, addtototal)) (seq k j) (V, m, N.of_nat (bs * j)) =
      Ok (fold_left (fun c i => ec_step salt c (trunc 64 (t + N.of_nat (i * bs * 8))) (firstn bs (skipn (i * bs) data))) (seq k j) V, m', a)
      /\ length m' = bs).
    { clear V m Lm. match goal with |- context[fold_res ?f _ _] => set (F := f) end.
      induction j as [|j IH]; intros k V m Hk Lm.
      - cbn [seq fold_res fold_left]. eauto.
      - cbn [seq fold_res fold_left].
        assert (EF : F (V, m, N.of_nat (bs * S j)) k = 
          Ok (ec_block hs salt (trunc 64 (t + (N.of_nat (k * bs) + N.of_nat bs) * 8)) V (firstn bs (skipn (k * bs) data)),
              firstn bs (skipn (k * bs) data), N.of_nat (bs * j))).
        { unfold F. cbv zeta.
        replace (N.min (N.of_nat (bs * S j)) (N.of_nat bs)) with (N.of_nat bs) by nia.
        rewrite Nat2N.id.
        assert (Hm : ((k + 1) * bs <= n * bs)%nat) by (apply Nat.mul_le_mono_r; lia).
        assert (E : memcpy m 0 (skipn (bs * k) data) bs = Ok (firstn bs (skipn (k * bs) data))).
        { rewrite (Nat.mul_comm bs k), <- (app_nil_l m), memcpy_app by (cbn [length]; rewrite ?skipn_length; lia).
          rewrite (skipn_all2 m), app_nil_r by lia. reflexivity. }
        rewrite E. cbn [bind].
        replace (N.of_nat (bs * S j) - N.of_nat bs) with (N.of_nat (bs * j)) by nia. reflexivity. }
        assert (Hm : ((k + 1) * bs <= n * bs)%nat) by (apply Nat.mul_le_mono_r; lia).
        rewrite EF. cbn [bind].
        destruct (IH (S k) (ec_block hs salt (trunc 64 (t + (N.of_nat (k * bs) + N.of_nat bs) * 8)) V (firstn bs (skipn (k * bs) data)))
          (firstn bs (skipn (k * bs) data)) ltac:(lia)) as (m' & a & E' & L').
        { rewrite firstn_length, skipn_length. lia. }
        exists m', a. split; [|exact L']. rewrite E'. do 4 f_equal. unfold ec_step. rewrite trunc_add_l.
        do 2 f_equal. lia. }
    destruct (G n 0%nat V m eq_refl Lm) as (m' & a & E & L'). exists m'. split; [|exact L'].
    refine (eq_trans (f_equal (fun z => bind z _) E) _). reflexivity.
  Qed.

  (** The specification's loop over the first [n] blocks of [data]. *)
  Definition eblocks (salt data : list N) (len n : nat) (V : list (list N)) : list (list N) :=
    fold_left (fun V i => echo_compress hs salt V (firstn bs (skipn (i * bs) data)) (echo_ctr hs len i)) (seq 0 n) V.
  Lemma eblocks_app s B T len n V : length B = (n * bs)%nat -> eblocks s (B ++ T) len n V = eblocks s B len n V.
  Proof.
    intros HB. unfold eblocks. apply fold_left_ext_in. intros h i Hi. apply in_seq in Hi. f_equal.
    assert ((i + 1) * bs <= n * bs)%nat by (apply Nat.mul_le_mono_r; lia).
    rewrite skipn_app, firstn_app.
    replace (bs - length (skipn (i * bs) B))%nat with 0%nat by (rewrite skipn_length; lia).
    cbn [firstn]. apply app_nil_r.
  Qed.
  Lemma eblocks_S s data len n V : eblocks s data len (S n) V =
    echo_compress hs s (eblocks s data len n V) (firstn bs (skipn (n * bs) data)) (echo_ctr hs len n).
  Proof. unfold eblocks. rewrite seq_S, fold_left_app. reflexivity. Qed.

  Lemma ec_loop s0 s1 V B n len : length V = (2 * q)%nat -> bytes_ok B -> length B = (n * bs)%nat -> (n * bs <= len)%nat ->
    view q (block_loop (ec_step [s0; s1]) bs V 0 B n) =
      eblocks (le_bytes 8 s0 ++ le_bytes 8 s1) B len n (view q V) /\
    length (block_loop (ec_step [s0; s1]) bs V 0 B n) = (2 * q)%nat.
  Proof.
    intros HV Hb HB Hle. rewrite block_loop_seq by reflexivity. unfold eblocks.
    apply (fold_left_hom (view q) _ _ (fun V => length V = (2 * q)%nat) (fun i => (i < n)%nat)); auto.
    - intros V' i LV Hi. assert (Hm : ((i + 1) * bs <= n * bs)%nat) by (apply Nat.mul_le_mono_r; lia).
      pose proof ec_bs_pos as [Hp _]. unfold ec_step. split; [|apply ec_block_length].
      rewrite N.add_0_l, trunc_add_l. etransitivity; [apply ec_block_ok; [exact LV | apply trunc_lt | |]|].
      3:{ f_equal. unfold echo_ctr. fold bs. destruct (Nat.ltb_spec (i * bs) len) as [_|F]; [|lia].
        rewrite Nat.min_r by lia. rewrite trunc_mod. f_equal. lia. }
      + fold bs. rewrite firstn_length, skipn_length. lia.
      + apply Forall_firstn, Forall_skipn. exact Hb.
    - apply Forall_forall. intros i Hi. apply in_seq in Hi. lia.
  Qed.

  (** Padding: the last one or two blocks. *)
  Section Pad.
    Variables (salt B T : list N) (n : nat) (V : list (list N)).
    Hypothesis HB : length B = (n * bs)%nat.
    Hypothesis HT : (length T < bs)%nat.
    Let len := length (B ++ T).
    Let tot := trunc 64 (bitlen (B ++ T)).
    Let lenf := le_bytes 2 hs ++ le_bytes 16 (bitlen (B ++ T) mod 2 ^ 64).
    Lemma lenf_eq : lenf = le_bytes 2 hs ++ le_bytes 8 tot ++ zeros 8.
    Proof. unfold lenf, tot. rewrite trunc_mod. f_equal. apply le_bytes_16. apply N.mod_lt. discriminate. Qed.
    Lemma lenf_length : length lenf = 18%nat.
    Proof. unfold lenf. rewrite app_length, !le_bytes_length. reflexivity. Qed.

    Lemma echo_ctr_n : echo_ctr hs len n = if (length T =? 0)%nat then 0 else tot.
    Proof.
      unfold echo_ctr, tot, len, bitlen. fold bs. rewrite app_length, HB.
      destruct (Nat.eqb_spec (length T) 0); destruct (Nat.ltb_spec (n * bs) (n * bs + length T)); try lia.
      rewrite Nat.min_l by lia. rewrite trunc_mod. reflexivity.
    Qed.
    Lemma echo_ctr_Sn : echo_ctr hs len (S n) = 0.
    Proof.
      unfold echo_ctr, len. fold bs. rewrite app_length, HB.
      destruct (Nat.ltb_spec (S n * bs) (n * bs + length T)); [lia|reflexivity].
    Qed.

    Definition echo_core : list (list N) :=
      eblocks salt (echo_pad hs (B ++ T)) len (length (echo_pad hs (B ++ T)) / bs) V.
    Lemma core_one A : echo_pad hs (B ++ T) = B ++ A -> length A = bs ->
      echo_core = echo_compress hs salt (eblocks salt B len n V) A (if (length T =? 0)%nat then 0 else tot).
    Proof.
      intros E HA. pose proof ec_bs_pos as [Hp _]. unfold echo_core. rewrite E.
      replace (length (B ++ A) / bs)%nat with (S n).
      2:{ rewrite app_length, HB, HA. replace (n * bs + bs)%nat with ((S n) * bs)%nat by lia. symmetry. apply Nat.div_mul. lia. }
      rewrite eblocks_S, eblocks_app by auto. rewrite echo_ctr_n. f_equal.
      rewrite skipn_app_exact by auto. apply firstn_all2. lia.
    Qed.
    Lemma core_two X Y : echo_pad hs (B ++ T) = B ++ X ++ Y -> length X = bs -> length Y = bs -> length T <> 0%nat ->
      echo_core = echo_compress hs salt (echo_compress hs salt (eblocks salt B len n V) X tot) Y 0.
    Proof.
      intros E HX HY HT0. pose proof ec_bs_pos as [Hp _]. unfold echo_core. rewrite E.
      replace (length (B ++ X ++ Y) / bs)%nat with (S (S n)).
      2:{ rewrite !app_length, HB, HX, HY. replace (n * bs + (bs + bs))%nat with ((S (S n)) * bs)%nat by lia. symmetry. apply Nat.div_mul. lia. }
      rewrite !eblocks_S, eblocks_app by auto. rewrite echo_ctr_n, echo_ctr_Sn.
      rewrite (skipn_app_exact B) by auto. rewrite (firstn_app_exact X) by auto.
      rewrite app_assoc, skipn_app_exact by (rewrite app_length; lia). rewrite (firstn_all2 Y) by lia.
      destruct (Nat.eqb_spec (length T) 0); [contradiction|reflexivity].
    Qed.
    Lemma pad_one : (length T + 19 <= bs)%nat ->
      echo_pad hs (B ++ T) = B ++ T ++ [128] ++ zeros (bs - 19 - length T) ++ lenf.
    Proof.
      intros H. pose proof ec_bs_pos as [Hp _]. unfold echo_pad, md_pad. fold lenf. fold bs. rewrite lenf_length, app_length, HB, md_zeros_small by lia.
      rewrite <- app_assoc. replace (bs - 18 - 1 - length T)%nat with (bs - 19 - length T)%nat by lia. reflexivity.
    Qed.
    Lemma pad_two : (bs < length T + 19)%nat ->
      echo_pad hs (B ++ T) = B ++ (T ++ [128] ++ zeros (bs - 1 - length T)) ++ (zeros (bs - 18) ++ lenf).
    Proof.
      intros H. pose proof ec_bs_pos as [Hp _]. unfold echo_pad, md_pad. fold lenf. fold bs. rewrite lenf_length, app_length, HB, md_zeros_big by lia.
      replace (2 * bs - 18 - 1 - length T)%nat with ((bs - 1 - length T) + (bs - 18))%nat by lia.
      unfold zeros. rewrite repeat_app, <- !app_assoc. reflexivity.
    Qed.
  End Pad.
End Loop.

(** ECHO as an abstract hasher: one parameter, the salt, which is absent or sixteen bytes. *)
Definition echo_set (q : ec_param) (v p : list N) : option (list N) :=
  if (length v =? 0)%nat then Some (zeros 16)
  else if (length v =? 16)%nat then Some v else None.
Definition echo_spec (n : N) : hash_spec ec_param :=
  {| sp_params := list N; sp_default := zeros 16; sp_set := echo_set;
     sp_size := N.to_nat (n / 8); sp_digest := echo_hash n |}.

(** ** Finalization *)
Section Sim.
  Variable hs : N.
  Hypothesis Hh : (0 < hs /\ hs <= 512) /\ hs mod 8 = 0.
  Let q := ec_q hs.
  Let bs := echo_bs hs.

  Lemma ec_last_ok salt V m total ab : total < 2 ^ 64 ->
    ec_transform hs salt V m total None 1 ab 0 = Ok (ec_block hs salt (if ab then total else 0) V m, m).
  Proof.
    intros Ht. unfold ec_transform. cbn [seq fold_res]. destruct ab; cbn [bind]; [|reflexivity].
    rewrite N.min_0_l. cbn [Nat.mul]. rewrite N.add_0_r, trunc_small by exact Ht. reflexivity.
  Qed.

  Definition ec_iv : list N := flat_map (fun _ => [hs; 0]) (seq 0 (if 256 <? hs then 8 else 4)).
  Lemma ec_iv_length : length ec_iv = (2 * q)%nat.
  Proof. unfold ec_iv, q, ec_q. destruct (256 <? hs); reflexivity. Qed.
  Lemma ec_iv_view : view q ec_iv = repeat (le_bytes 16 hs) (echo_words hs).
  Proof.
    assert (E : le_bytes 8 hs ++ le_bytes 8 0 = le_bytes 16 hs) by (symmetry; apply le_bytes_16; lia).
    destruct (ec_dims hs) as (D & _). fold q in D. rewrite <- D.
    unfold ec_iv, q, ec_q. destruct (256 <? hs); unfold view, vw; cbn [seq map flat_map app nthN nth Nat.mul Nat.add repeat];
      rewrite E; reflexivity.
  Qed.

  Definition ec_R (s : ec_st) (p msg : list N) : Prop :=
    echs s = hs /\ length p = 16%nat /\ bytes_ok p /\ ecsalt s = le_words 8 2 p /\ bytes_ok msg /\
    buf_inv (ec_step hs (ecsalt s)) bs bs false ec_iv (ecs s) msg.

  Lemma ec_salt_view p : length p = 16%nat -> bytes_ok p ->
    exists s0 s1, le_words 8 2 p = [s0; s1] /\ le_bytes 8 s0 ++ le_bytes 8 s1 = p.
  Proof.
    intros L B. cbn [le_words]. do 2 eexists. split; [reflexivity|].
    assert (E : forall l, length l = 8%nat -> bytes_ok l -> le_bytes 8 (le_word l) = l).
    { intros l Hl Hb. rewrite <- Hl at 1. apply le_bytes_word. auto. }
    rewrite !E; try (rewrite ?firstn_length, ?skipn_length; lia);
      try (unfold bytes_ok; auto using Forall_firstn, Forall_skipn).
    rewrite (firstn_all2 (skipn 8 p)) by (rewrite skipn_length; lia). apply firstn_skipn.
  Qed.

  Lemma concat_view V : forall n, length V = (2 * n)%nat -> concat (view n V) = words_bytes 8 V.
  Proof.
    intros n. revert V. induction n as [|n IH]; intros V L.
    - destruct V; [reflexivity|discriminate].
    - destruct V as [|a [|b V]]; try (cbn [length] in L; lia). cbn [length] in L.
      change (S n) with (1 + n)%nat. change (a :: b :: V) with ([a; b] ++ V).
      rewrite view_app by reflexivity. rewrite concat_app, IH by lia.
      unfold view, vw, words_bytes. cbn [seq map nthN nth Nat.mul Nat.add concat flat_map app]. rewrite app_nil_r, <- app_assoc. reflexivity.
  Qed.

  Lemma ec_final_ok s p msg : ec_R s p msg ->
    exists s', ec_final s = Ok (s', echo_hash hs p msg) /\ length (echo_hash hs p msg) = N.to_nat (hs / 8) /\
               bytes_ok (echo_hash hs p msg).
  Proof.
    intros (E1 & Lp & Bp & Es & Hb & A). destruct s as [x sl h0]. cbn [echs ecsalt ecs] in *. subst h0 sl.
    destruct (ec_salt_view p Lp Bp) as (s0 & s1 & Esl & Ep). rewrite Esl in *.
    destruct A as (B & T & J & n & -> & HB & HT & Hc & Ht & Hm & Hl & Hp).
    unfold okrem in HT. destruct (ec_bs_pos hs) as [Hp1 _]. fold bs in Hp1.
    destruct (ec_dims hs) as (D1 & D2 & _ & _ & D5 & _ & D7). fold q bs in D1, D2, D5, D7.
    apply Forall_app in Hb. destruct Hb as [HbB HbT].
    assert (HJ : (length T + length J = bs)%nat) by (rewrite <- Hl, Hm, app_length; reflexivity).
    destruct (ec_loop hs s0 s1 ec_iv B n (length (B ++ T)) ec_iv_length HbB HB) as [VV LV].
    { rewrite app_length, HB. lia. }
    fold bs q in VV, LV. rewrite <- Hc in VV, LV. rewrite Ep in VV. rewrite ec_iv_view in VV.
    unfold ec_final. cbn [echs ecs ecsalt]. rewrite D2. cbv zeta.
    set (tot := trunc 64 (stotal x + N.of_nat (8 * spos x))).
    assert (Et : tot = trunc 64 (bitlen (B ++ T))).
    { unfold tot. rewrite Ht, Hp, trunc_add_l. f_equal. unfold bitlen. rewrite app_length, HB. lia. }
    assert (Htot : tot < 2 ^ 64) by apply trunc_lt.
    assert (Eh2 : trunc 16 hs = hs) by (apply trunc_small; lia).
    set (L := le_bytes 2 hs ++ le_bytes 8 tot ++ zeros 8).
    assert (LL : length L = 18%nat) by (unfold L; rewrite !app_length, !le_bytes_length; reflexivity).
    assert (BL : bytes_ok L).
    { unfold L. repeat apply bytes_ok_app; auto using le_bytes_ok, bytes_ok_zeros. }
    (* writing the length field *)
    assert (EL : forall Y J', length Y = (bs - 18)%nat -> length J' = 18%nat ->
      (m0 <- memcpy (Y ++ J') (bs - 18) (le_bytes 2 (trunc 16 hs)) 2;;
       m1 <- memcpy m0 (bs - 16) (le_bytes 8 tot) 8;;
       memset m1 (bs - 8) 0 8) = Ok (Y ++ L)).
    { intros Y J' LY LJ. rewrite Eh2. rewrite memcpy_app by (rewrite ?le_bytes_length; lia). cbn [bind].
      rewrite app_assoc, memcpy_app by (rewrite ?app_length, ?firstn_length, ?le_bytes_length, ?skipn_length; lia). cbn [bind].
      rewrite app_assoc, memset_app by (rewrite ?app_length, ?firstn_length, ?le_bytes_length, ?skipn_length; lia).
      rewrite !skipn_skipn, (skipn_all2 J') by lia. rewrite app_nil_r.
      rewrite !firstn_all2 by (rewrite ?le_bytes_length; lia). unfold L. rewrite <- !app_assoc. reflexivity. }
    set (V0 := repeat (le_bytes 16 hs) (echo_words hs)) in *.
    assert (OUT : forall V m, length V = (2 * q)%nat -> view q V = echo_core hs p B T V0 ->
      load (words_bytes 8 V ++ m) 0 (N.to_nat (hs / 8)) = Ok (echo_hash hs p (B ++ T)) /\
      length (echo_hash hs p (B ++ T)) = N.to_nat (hs / 8) /\ bytes_ok (echo_hash hs p (B ++ T))).
    { intros V m LVV EV.
      assert (EH : echo_hash hs p (B ++ T) = firstn (N.to_nat (hs / 8)) (words_bytes 8 V)).
      { rewrite <- (concat_view V q LVV), EV. reflexivity. }
      rewrite EH.
      assert (Hle : (N.to_nat (hs / 8) <= length (words_bytes 8 V))%nat).
      { rewrite words_bytes_length, LVV. clear - Hh. unfold q, ec_q. destruct Hh as [[H0 H1] H8].
        assert (U1 : hs / 8 <= 64) by (apply N.div_le_upper_bound; lia).
        assert (U2 : 256 < hs \/ hs / 8 <= 32) by (destruct (N.lt_ge_cases 256 hs); [auto|right; apply N.div_le_upper_bound; lia]).
        destruct (N.ltb_spec 256 hs); revert U1 U2; generalize (hs / 8); intros; lia. }
      revert Hle. generalize (N.to_nat (hs / 8)). intros k Hle. split; [|split].
      - rewrite load_ok by (rewrite app_length; lia). cbn [skipn]. rewrite firstn_app.
        replace (k - length (words_bytes 8 V))%nat with 0%nat by lia. cbn [firstn]. rewrite app_nil_r. reflexivity.
      - rewrite firstn_length. lia.
      - apply Forall_firstn. apply words_bytes_ok. }
    assert (STEP : forall V c X, length V = (2 * q)%nat -> c < 2 ^ 64 -> length X = bs -> bytes_ok X ->
      view q (ec_block hs [s0; s1] c V X) = echo_compress hs p (view q V) X c /\
      length (ec_block hs [s0; s1] c V X) = (2 * q)%nat).
    { intros V c X LVV Hc' LX BX. split; [|apply ec_block_length]. rewrite <- Ep. apply ec_block_ok; auto. }
    rewrite Hm, Hp, store_app by lia. cbn [bind]. change 0x80 with 128.
    assert (Htb : (length T < bs)%nat) by exact HT.
    destruct (Nat.ltb_spec (bs - 18) (length T + 1)) as [Hbig|Hsmall].
    - set (X := T ++ [128] ++ zeros (bs - 1 - length T)).
      assert (HX : length X = bs) by (unfold X; rewrite !app_length, zeros_length; cbn [length]; lia).
      assert (BX : bytes_ok X).
      { unfold X. apply bytes_ok_app; [exact HbT|]. apply bytes_ok_app; [repeat constructor|apply bytes_ok_zeros]. }
      assert (EX : (if negb (bs =? length T + 1)%nat then
                k <- size_sub bs (length T + 1) ;; memset (T ++ [128] ++ skipn 1 J) (length T + 1) 0 k
              else Ok (T ++ [128] ++ skipn 1 J)) = Ok X).
      { destruct (Nat.eqb_spec bs (length T + 1)) as [F|F]; cbn [negb].
        - unfold X. replace (bs - 1 - length T)%nat with 0%nat by lia.
          rewrite (skipn_all2 J) by lia. reflexivity.
        - rewrite size_sub_ok by lia. cbn [bind]. rewrite (app_assoc T).
          rewrite memset_app by (rewrite ?app_length, ?skipn_length; cbn [length]; lia).
          rewrite skipn_skipn, (skipn_all2 J) by lia. unfold X. rewrite app_nil_r, <- !app_assoc. unfold zeros.
          replace (bs - (length T + 1))%nat with (bs - 1 - length T)%nat by lia. reflexivity. }
      rewrite EX. cbn [bind]. rewrite ec_last_ok by auto. cbn [bind].
      rewrite size_sub_ok by lia. cbn [bind]. rewrite Nat.sub_0_r.
      pose proof (memset_app [] X 0 0 (bs - 18) eq_refl ltac:(lia)) as E2. cbn [app] in E2. rewrite E2. cbn [bind].
      fold (zeros (bs - 18)).
      pose proof (EL (zeros (bs - 18)) (skipn (bs - 18) X) (zeros_length _) ltac:(rewrite skipn_length; lia)) as E3.
      rewrite <- !bind_assoc. rewrite <- !bind_assoc in E3. rewrite E3. cbn [bind].
      rewrite ec_last_ok by auto. cbn [bind Nat.ltb Nat.leb].
      set (Y := zeros (bs - 18) ++ L).
      assert (LY : length Y = bs) by (unfold Y; rewrite app_length, zeros_length; lia).
      assert (BY : bytes_ok Y) by (unfold Y; apply bytes_ok_app; auto using bytes_ok_zeros).
      destruct (STEP (sh x) tot X LV Htot HX BX) as [W1 W2].
      destruct (STEP _ 0 Y W2 ltac:(reflexivity) LY BY) as [W3 W4].
      destruct (OUT _ Y W4) as (O1 & O2 & O3).
      { rewrite W3, W1, VV. symmetry. rewrite Et. apply core_two; auto; [|lia].
        rewrite (pad_two hs B T n HB) by (fold bs; lia). rewrite lenf_eq. rewrite <- Et. reflexivity. }
      rewrite O1. cbn [bind]. eauto.
    - cbn [bind]. rewrite size_sub_ok by lia. cbn [bind]. rewrite (app_assoc T).
      rewrite memset_app by (rewrite ?app_length, ?skipn_length; cbn [length]; lia). cbn [bind].
      rewrite (app_assoc (T ++ [128])).
      match goal with |- context[memcpy (?Y ++ ?J') _ _ _] =>
        pose proof (EL Y J' ltac:(rewrite !app_length, repeat_length; cbn [length]; lia)
          ltac:(rewrite !skipn_length; lia)) as E3 end.
      rewrite <- !bind_assoc. rewrite <- !bind_assoc in E3. rewrite E3. cbn [bind].
      rewrite ec_last_ok by auto. cbn [bind].
      replace (bs - 18 - (length T + 1))%nat with (bs - 19 - length T)%nat by lia.
      set (Y := ((T ++ [128]) ++ repeat 0 (bs - 19 - length T)) ++ L).
      assert (EY : Y = T ++ [128] ++ zeros (bs - 19 - length T) ++ L) by (unfold Y; rewrite <- !app_assoc; reflexivity).
      assert (LY : length Y = bs) by (rewrite EY, !app_length, zeros_length; cbn [length]; lia).
      assert (BY : bytes_ok Y).
      { rewrite EY. apply bytes_ok_app; [exact HbT|]. apply bytes_ok_app; [repeat constructor|].
        apply bytes_ok_app; auto using bytes_ok_zeros. }
      assert (EC : (if (1 <? length T + 1)%nat then tot else 0) = (if (length T =? 0)%nat then 0 else tot)).
      { destruct (Nat.ltb_spec 1 (length T + 1)), (Nat.eqb_spec (length T) 0); try lia; reflexivity. }
      rewrite EC.
      destruct (STEP (sh x) (if (length T =? 0)%nat then 0 else tot) Y LV ltac:(destruct (length T =? 0)%nat; [reflexivity|exact Htot]) LY BY) as [W1 W2].
      destruct (OUT _ Y W2) as (O1 & O2 & O3).
      { rewrite W1, VV. symmetry. rewrite Et. apply core_one; auto.
        rewrite (pad_one hs B T n HB) by (fold bs; lia). rewrite lenf_eq, <- Et, EY. reflexivity. }
      rewrite O1. cbn [bind]. eauto.
  Qed.

  Lemma ec_init_ok s p : echs s = hs -> length p = 16%nat -> bytes_ok p -> ecsalt s = le_words 8 2 p ->
    exists s', ec_init s = Ok s' /\ ec_R s' p [].
  Proof.
    intros E1 E2 E3 E4. unfold ec_init. rewrite E1. eexists. split; [reflexivity|].
    destruct (ec_bs_pos hs) as [Hp1 _]. destruct (ec_dims hs) as (_ & D2 & _). fold bs in Hp1, D2.
    split; [reflexivity|]. split; [exact E2|]. split; [exact E3|]. split; [exact E4|]. split; [constructor|].
    cbn [ecs ecsalt]. rewrite D2. apply buf_inv_start; [lia|lia|apply zeros_length].
  Qed.

  Lemma ec_update_ok s p msg d : bytes_ok d -> ec_R s p msg ->
    exists s', ec_update s d = Ok s' /\ ec_R s' p (msg ++ d).
  Proof.
    intros Hd (E1 & E2 & E3 & E4 & Hb & A). unfold ec_update. rewrite E1. cbv zeta.
    destruct (ec_bs_pos hs) as [Hp1 _]. destruct (ec_dims hs) as (_ & D2 & _). fold bs in Hp1, D2. rewrite D2.
    destruct (absorb_bytes_ok (ec_step hs (ecsalt s))
      (fun V m t d n => ec_transform hs (ecsalt s) V m t (Some d) n true (N.of_nat (bs * n)))
      bs bs false ltac:(lia) ltac:(lia) (ec_transform_ok hs (ecsalt s)) ec_iv 0 msg d _ _ _ _ eq_refl A)
      as (c' & m' & p' & t' & E & A').
    change (bschk bs false) with bs in E. rewrite E. cbn [bind].
    eexists. split; [reflexivity|]. split; [reflexivity|]. do 3 (split; [assumption|]).
    split; [apply bytes_ok_app; auto|exact A'].
  Qed.

  Theorem echo_sim : sim echo (echo_spec hs) ec_R true.
  Proof.
    assert (Z : le_words 8 2 (zeros 16) = zeros 2) by reflexivity.
    constructor.
    - intros s p msg (E1 & E2 & E3 & E4 & _). apply ec_init_ok; auto.
    - intros s p msg d. apply ec_update_ok.
    - intros _ s p msg (E1 & E2 & E3 & E4 & _). eexists.
      destruct (ec_init_ok (mkec (mkst (zero_memory (sh (ecs s))) (zero_memory (sm (ecs s))) (spos (ecs s)) (stotal (ecs s)))
        (zero_memory (ecsalt s)) (echs s)) (zeros 16)) as (s2 & F & R2); auto using zeros_length, bytes_ok_zeros.
      + cbn [ecsalt]. rewrite E4, Z. reflexivity.
      + exists s2. split; [reflexivity|]. split; [exact F|exact R2].
    - intros qq v s p msg Hv HR. pose proof HR as (E1 & E2 & E3 & E4 & _).
      cbn [sp_set echo_spec echo hp p_set]. unfold ec_set, echo_set.
      destruct (Nat.eqb_spec (length v) 0) as [Z0|Z0]; cbn [negb andb].
      + destruct (ec_init_ok (mkec (ecs s) (zeros 2) (echs s)) (zeros 16)) as (s2 & F & R2);
          auto using zeros_length, bytes_ok_zeros. eauto.
      + destruct (Nat.eqb_spec (length v) 16) as [L|L]; cbn [negb].
        * destruct (ec_init_ok (mkec (ecs s) (le_words 8 2 v) (echs s)) v) as (s2 & F & R2); auto. eauto.
        * exists s. split; [reflexivity|exact HR].
    - intros s p msg HR. destruct (ec_final_ok s p msg HR) as (s' & E & _). eauto.
    - intros s p msg (E1 & _). cbn. rewrite E1. lia.
    - intros s p msg HR. destruct (ec_final_ok s p msg HR) as (s' & _ & L & _). exact L.
    - intros s p msg HR. destruct (ec_final_ok s p msg HR) as (s' & _ & _ & B). exact B.
    - cbn. destruct Hh as [[H0 _] H8].
      assert (hs / 8 <> 0) as D; [|revert D; generalize (hs / 8); intros; lia]. intros E. apply N.div_small_iff in E; [|discriminate].
      rewrite N.mod_small in H8 by auto. lia.
  Qed.

  Theorem echo_implements g :
    implements echo (echo_spec hs) true (fresh_of (ec_ctor hs g) ec_init) /\
    implements echo (echo_spec hs) true (fresh_of (ec_ctor_static hs g) ec_init).
  Proof.
    assert (E : ec_ctor hs g = ec_ctor_static hs g).
    { unfold ec_ctor, validate_max. destruct Hh as [[H0 H1] H8].
      destruct (N.eqb_spec hs 0); [lia|]. rewrite H8. destruct (N.ltb_spec 512 hs); [lia|]. reflexivity. }
    rewrite E. assert (I : implements echo (echo_spec hs) true (fresh_of (ec_ctor_static hs g) ec_init)).
    { unfold fresh_of, ec_ctor_static. cbn [bind].
      destruct (ec_init_ok (mkec g (zeros 2) hs) (zeros 16)) as (s2 & F & R2); auto using zeros_length, bytes_ok_zeros.
      rewrite F. apply (sim_implements _ _ _ _ echo_sim). exact R2. }
    split; exact I.
  Qed.
End Sim.

(** Short messages: the length is not reduced. *)
Lemma echo_pad_exact hs msg : N.of_nat (length msg) < 2 ^ 61 ->
  echo_pad hs msg = md_pad (echo_bs hs) (le_bytes 2 hs ++ le_bytes 16 (8 * N.of_nat (length msg))) msg.
Proof.
  intros H. unfold echo_pad. do 3 f_equal. unfold bitlen. rewrite N.mod_small; lia.
Qed.
