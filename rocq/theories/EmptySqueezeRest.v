(** * What an empty squeeze does: Esch, BLAKE2X and Skein. *)
From Verif Require Import Base Lemmas Absorb AbsorbProof Hasher HasherSpec HasherProof MdState MdProof BufProof SpongeProof Squeeze SqueezeProof
  Library LibraryTypes LibraryProof XLibraryProof LibraryTypesProof EmptySqueeze EmptySqueezeProof.
From Verif Require Esch EschSpec EschProof Blake2 Blake2Spec Blake2Proof Blake2Sim Skein SkeinSpec SkeinProof SkeinSim.
Local Open Scope nat_scope.

(** ** After a non-empty squeeze: no effect *)
Section EschNoop.
  Import Esch EschSpec EschProof.
  Lemma xstart_esch h sz w : h = 3 \/ h = 4 -> sz = N.of_nat (128 * h) -> w = 4 * h ->
    xstart (esch_xof_type sz w) (esch_xof_spec h) (fun s _ msg k => esch_inv h true 0 s msg k).
  Proof.
    intros Hh -> ->. constructor.
    - exact (esch_xof_sim h 0 Hh).
    - exact (xgood_esch h _ _ Hh eq_refl eq_refl).
    - intros g [Hm Hs]. cbn [xt_new esch_xof_type]. unfold fresh_of, esch_ctor_xof. cbn [bind].
      assert (Eh : (N.of_nat (128 * h) - 128 = hs_of h)%N) by (destruct Hh as [-> | ->]; reflexivity).
      destruct (esch_init_ok h true 0 Hh (mkes g (N.of_nat (128 * h) - 128) false) Eh Hm) as (s & Ei & H).
      { cbn [ek]. unfold Isz. lia. }
      eauto.
  Qed.
  Lemma esch_noop h s M k : h = 3 \/ h = 4 -> esch_inv h true 0 s M k -> 0 < k -> esch_squeeze true s 0 = Ok (s, []).
  Proof.
    intros Hh (E & Hm & Hs & HM & H) Hk. destruct k as [|k]; [lia|]. destruct H as (Hq & Ht & a & Hk' & Hp & Hc).
    unfold esch_squeeze. cbv zeta. rewrite Hq.
    assert (Hl : length (words_bytes 4 (sh (ek s))) = 16 * h).
    { rewrite words_bytes_length, Hs. unfold Isz. lia. }
    destruct (Nat.ltb_spec (spos (ek s)) 16).
    - rewrite Nat.min_0_l, load_ok by lia. cbn [bind firstn esch_loop Nat.ltb Nat.leb]. rewrite Nat.add_0_r, <- Ht, <- Hq.
      destruct s as [[? ? ? ?] ? ?]. reflexivity.
    - cbn [bind esch_loop Nat.ltb Nat.leb]. rewrite <- Hq. destruct s as [[? ? ? ?] ? ?]. reflexivity.
  Qed.
End EschNoop.

Section Blake2Noop.
  Import Blake2 Blake2Spec Blake2Proof Blake2Sim.
  Lemma xstart_blake2x w : w = 64%N \/ w = 32%N -> xstart (blake2x_xof_type w) (blake2x_xof_spec w) (b2_XR w BXof (8 * w)).
  Proof.
    intros Hw. assert (H1 : (8 * w / 8 < 2 ^ 16)%N) by (destruct Hw; subst w; reflexivity).
    constructor.
    - exact (blake2x_xof_sim w Hw _ H1).
    - exact (xgood_blake2x w Hw).
    - intros g Hg. cbn [xt_new blake2x_xof_type].
      destruct (b2_new_ok w Hw BXof (8 * w) ltac:(discriminate) ltac:(auto) (fst g) (snd g) false (b2_mem_bb w g Hw Hg)) as (s & Es & R).
      exists s. split; [|exact R]. destruct Hw; subst w; exact Es.
  Qed.
  Lemma blake2x_noop w hs s p m k : w = 64%N \/ w = 32%N -> b2_XR w BXof hs s p m k -> 0 < k -> b2_squeeze w BXof s 0 = Ok (s, []).
  Proof.
    intros Hw H Hk. unfold b2_XR in H. destruct (Nat.eqb_spec k 0); [lia|].
    destruct H as (Hp & Hq & _ & a & Hka & Hpos & Hsh & Hxo). unfold b2_squeeze. rewrite Hq, (hb_eq w Hw).
    assert (Hl : length (words_bytes (b2_wb w) (sh (b2c s))) = hb w).
    { rewrite Hsh, (wb_eq w Hw), words_bytes_length. unfold node. rewrite core_length. unfold hb; lia. }
    destruct (Nat.ltb_spec (spos (b2c s)) (hb w)).
    - rewrite Nat.min_0_l, load_ok by lia. cbn [bind firstn b2_loop Nat.ltb Nat.leb]. rewrite Nat.add_0_r, <- Hq.
      destruct s as [[? ? ? ?] ? ? ? ? ? ? ? ? ?]. reflexivity.
    - cbn [bind b2_loop Nat.ltb Nat.leb]. rewrite <- Hq. destruct s as [[? ? ? ?] ? ? ? ? ? ? ? ? ?]. reflexivity.
  Qed.
End Blake2Noop.

Section SkeinNoop.
  Import Skein SkeinSpec SkeinProof SkeinSim.
  Lemma xstart_skein nw : nw = 4 \/ nw = 8 \/ nw = 16 ->
    xstart (skein_xof_type nw) (skein_xof_spec nw) (sk_XR nw true (64 * N.of_nat nw)).
  Proof.
    intros Hn. constructor.
    - exact (skein_xof_sim nw Hn _).
    - apply xgood_skein. destruct Hn as [->|[->| ->]]; cbn; auto.
    - intros g Hg. cbn [xt_new skein_xof_type].
      rewrite (sk_ctor_eq nw Hn (64 * N.of_nat nw)) by (destruct Hn as [->|[->| ->]]; (reflexivity || (split; reflexivity))).
      destruct (sk_new_ok nw Hn true (64 * N.of_nat nw) (fst (fst g)) (snd (fst g)) (snd g) Hg) as (s & Es & R).
      unfold fresh_of, sk_ctor_static. cbn [bind]. rewrite Es. exists s. split; [reflexivity|exact R].
  Qed.
  Lemma skein_noop nw hs s p m k : nw = 4 \/ nw = 8 \/ nw = 16 -> sk_XR nw true hs s p m k -> 0 < k -> sk_squeeze nw s 0 = Ok (s, []).
  Proof.
    intros Hn H Hk. unfold sk_XR in H. destruct (Nat.eqb_spec k 0); [lia|].
    destruct H as (Hp & Hq & Hhb & _ & a & t0 & t1 & Hka & Hpos & Hsh & Hxo). unfold sk_squeeze. rewrite Hq.
    destruct (Nat.ltb_spec (spos (skc s)) (8 * nw)).
    - rewrite Nat.min_0_l, load_ok. 
      2:{ unfold sk_H. rewrite Hsh. change (skipn 2 ([t0; t1] ++ ?x)) with x. rewrite words_bytes_length, SkeinProof.ubi_length; [lia|exact Hn|].
          apply sk_chain_length. exact Hn. }
      cbn [bind firstn sk_loop Nat.ltb Nat.leb]. rewrite Nat.add_0_r, <- Hq.
      destruct s as [[? ? ? ?] ? ? ? ? ? ?]. reflexivity.
    - cbn [bind sk_loop Nat.ltb Nat.leb]. rewrite <- Hq. destruct s as [[? ? ? ?] ? ? ? ? ? ?]. reflexivity.
  Qed.
End SkeinNoop.

Lemma held_eq L bs n r : (0 < bs)%nat -> L = n * bs + r -> r <= bs -> (r = 0 -> n = 0) -> held L bs = r.
Proof.
  intros Hb -> Hr Hz. destruct r as [|r]; [rewrite Hz by reflexivity; reflexivity|].
  rewrite Nat.add_succ_r. cbn [held]. rewrite (Nat.add_comm (n * bs) r), Nat.mod_add, Nat.mod_small by lia. lia.
Qed.
Lemma buf_inv_held {step : list N -> N -> list N -> list N} {bs cap h0 k msg} : 0 < bs ->
  buf_inv step bs cap true h0 k msg -> spos k = held (length msg) bs.
Proof.
  intros Hb (B & T & J & n & Emsg & HB & Hrem & Hc & Htot & Hm & Hlen & Hpos). unfold okrem in Hrem.
  rewrite Hpos. symmetry. apply (held_eq _ _ n); auto; try apply Hrem. rewrite Emsg, app_length, HB. reflexivity.
Qed.

(** ** As the first squeeze *)
Section SkeinFirst.
  Import Skein SkeinSpec SkeinProof SkeinSim.
  Lemma skein_first nw hs s p m : nw = 4 \/ nw = 8 \/ nw = 16 -> sk_XR nw true hs s p m 0 ->
    exists s0, sk_squeeze nw s 0 = Ok (s0, []) /\ forall n, exists s1,
      let G := skein_chain nw (2 ^ 64 - 1) p m in
      let f := firstn n (words_bytes 8 G) ++ skein_output nw G (n - 8 * nw) in
      sk_squeeze nw s0 n = Ok (s1, f) /\ length f = n.
  Proof.
    intros Hn H. unfold sk_XR in H. cbn [Nat.eqb] in H. pose proof H as (Hp & Hq & I).
    pose proof (sk_chain_length nw Hn true hs p m) as Hh.
    change (skein_chain nw (2 ^ 64 - 1) p m) with (sk_chain nw true hs p m).
    unfold sk_squeeze at 1. rewrite Hq.
    destruct (sk_finish_ok nw Hn T_msg (sk_G nw true hs p) (skc s) m (sk_G_length nw Hn true hs p) ltac:(cbn; auto 8) I) as (c1 & t0 & t1 & E & Hs1 & Hm1).
    rewrite E. cbn [bind]. fold (sk_chain nw true hs p m) in Hs1. unfold sk_H at 1. rewrite Hs1.
    change (skipn 2 ([t0; t1] ++ ?x)) with x.
    assert (Em : memset (sm c1) 0 0 (8 * nw) = Ok (zeros (8 * nw))).
    { pose proof (memset_app [] (sm c1) 0 0 (8 * nw) eq_refl ltac:(lia)) as E'. cbn [app] in E'. rewrite E'.
      rewrite skipn_all2 by lia. rewrite app_nil_r. reflexivity. }
    rewrite Em. cbn [bind sk_loop Nat.ltb Nat.leb]. eexists. split; [reflexivity|].
    intros n. set (G := sk_chain nw true hs p m) in *. cbv zeta.
    unfold sk_squeeze. cbn [sksq skc spos sh sm stotal skhb]. destruct (Nat.ltb_spec 0 (8 * nw)); [|lia].
    unfold sk_H. cbn [sh]. change (skipn 2 ([t0; t1] ++ ?x)) with x. rewrite Nat.sub_0_r.
    rewrite load_ok by (rewrite words_bytes_length; lia). cbn [bind skipn Nat.add].
    rewrite (output_strm nw Hn G _ Hh).
    assert (Lf : length (firstn n (words_bytes 8 G) ++ strm nw G 0 (n - 8 * nw)) = n).
    { rewrite app_length, firstn_length, words_bytes_length, Hh. unfold strm. rewrite seg_length. lia. }
    destruct (Nat.le_gt_cases n (8 * nw)) as [L|L].
    - rewrite Nat.min_l by lia. rewrite sk_loop_done. cbn [bind]. eexists. split; [|exact Lf].
      replace (n - 8 * nw) with 0 by lia. unfold strm. f_equal. f_equal. symmetry. apply app_nil_r.
    - rewrite Nat.min_r by lia.
      match goal with |- context [sk_loop nw _ n ?c n _ ?o] =>
        destruct (sk_loop_ok nw Hn G Hh n c 0 n (8 * nw) o) as (c' & E' & _ & _) end.
      { exists (zeros 8). split; [reflexivity|]. cbn [sm]. unfold zeros. rewrite <- repeat_app. f_equal. lia. }
      { reflexivity. } { lia. } { lia. }
      rewrite E'. cbn [bind Nat.mul]. eexists. split; [|exact Lf]. f_equal. f_equal. f_equal.
      rewrite !firstn_all2 by (rewrite words_bytes_length; lia). reflexivity.
  Qed.
End SkeinFirst.

Section Blake2First.
  Import Blake2 Blake2Spec Blake2Proof Blake2Sim.
  Variable w : N.
  Hypothesis Hw : w = 64%N \/ w = 32%N.
  Variable hs : N.
  Hypothesis HA : BXof = BHash -> (hs / 8 <= w)%N.
  Hypothesis HB : BXof <> BHash -> (hs / 8 < 2 ^ 16)%N.

  Lemma blake2x_first s p m : b2_XR w BXof hs s p m 0 ->
    exists s0, b2_squeeze w BXof s 0 = Ok (s0, []) /\ forall n, exists s1,
      let j := held (length (key_pad w (pk p)) + length m) (bb w) in
      let f := firstn n (skipn j (x_root w (x_unknown w) (pk p) (ps p) (pp p) m)) ++
               blake2x_stream w (pk p) (ps p) (pp p) m (n - (hb w - j)) in
      b2_squeeze w BXof s0 n = Ok (s1, f) /\ length f = n.
  Proof.
    intros H. unfold b2_XR in H. cbn [Nat.eqb] in H. pose proof H as (Hp & Hq & A).
    pose proof (hb_pos w Hw) as Hb. pose proof (hb_bb w Hw) as Hbb.
    set (j := held _ _). assert (Ej : spos (b2c s) = j).
    { unfold j. rewrite <- app_length. exact (buf_inv_held (bb_pos w Hw) A). }
    change (x_root w (x_unknown w) (pk p) (ps p) (pp p) m) with (root_bytes w BXof hs p m).
    pose proof (root_bytes_length w Hw BXof hs HA HB p m) as Hl.
    unfold b2_squeeze at 1. rewrite Hq.
    destruct (b2_pad_R w Hw BXof hs HA HB s p m true H) as (m' & T & E & Hm).
    replace (b2_pad w _) with (Ok (mkst (core w BXof hs p m) m' (spos (b2c s)) T)).
    cbn [bind sm sh]. rewrite (wb_eq w Hw), (hb_eq w Hw). fold (root_bytes w BXof hs p m).
    rewrite <- Hl.
    rewrite memcpy_ok by lia. cbn [bind b2_loop Nat.ltb Nat.leb]. eexists. split; [reflexivity|].
    rewrite Hl. intros n. cbv zeta. rewrite Ej.
    set (r := root_bytes w BXof hs p m) in *.
    rewrite (stream_strm w Hw hs). fold r.
    assert (Lf : length (firstn n (skipn j r) ++ strm w p r 0 (n - (hb w - j))) = n).
    { rewrite app_length, firstn_length, skipn_length, Hl. unfold strm. rewrite seg_length. lia. }
    assert (Hold : holds w (overlay m' 0 (firstn (hb w) r)) r).
    { split; [rewrite overlay_length; rewrite ?firstn_length; lia|].
      unfold overlay. cbn [firstn app]. rewrite (firstn_all2 (n := hb w) r) by lia. apply firstn_app_exact. auto. }
    destruct Hp as (Po & Pk & Ps & Pp & P5 & P6 & P7 & P8).
    unfold b2_squeeze. cbn [b2sq b2c spos sh sm stotal b2xo b2s b2p]. unfold b2_lastn. cbn [b2fo b2nd b2no b2c]. rewrite P6. cbn [N.eqb andb negb].
    rewrite (hb_eq w Hw), (wb_eq w Hw). fold (root_bytes w BXof hs p m). fold r. rewrite Ps, Pp.
    change 0%N with (trunc 64 (N.of_nat 0)).
    destruct (Nat.ltb_spec j (hb w)) as [L|L].
    - rewrite load_ok by lia. cbn [bind].
      destruct (Nat.le_gt_cases n (hb w - j)) as [L2|L2].
      + rewrite Nat.min_l by lia. rewrite b2_loop_done. cbn [bind]. eexists. split; [|exact Lf].
        replace (n - (hb w - j)) with 0 by lia. unfold strm. f_equal. f_equal. symmetry. apply app_nil_r.
      + rewrite Nat.min_r by lia.
        match goal with |- context [b2_loop _ _ _ _ _ _ ?c1 _ n _ ?o] =>
          destruct (b2_xloop w Hw BXof hs HA HB p r eq_refl Po Hl n c1 0 n (hb w - j) o) as (c' & xo' & E' & _) end.
        { exact Hold. } { lia. } { lia. }
        rewrite E'. cbn [bind Nat.mul]. eexists. split; [|exact Lf]. f_equal. f_equal. f_equal.
        rewrite !firstn_all2 by (rewrite skipn_length; lia). reflexivity.
    - cbn [bind]. replace (hb w - j) with 0 in * by lia. rewrite Nat.sub_0_r in *.
      rewrite skipn_all2 in * by lia. rewrite firstn_nil in *. cbn [app] in *.
      destruct n as [|n].
      + cbn [b2_loop Nat.ltb Nat.leb bind]. eexists. split; [reflexivity|exact Lf].
      + match goal with |- context [b2_loop _ _ _ _ _ _ ?c1 _ (S n) _ ?o] =>
          destruct (b2_xloop w Hw BXof hs HA HB p r eq_refl Po Hl (S n) c1 0 (S n) 0 o) as (c' & xo' & E' & _) end.
        { exact Hold. } { lia. } { lia. }
        rewrite E'. cbn [bind Nat.mul app]. eexists. split; [reflexivity|exact Lf].
  Qed.
End Blake2First.

Section EschFirst.
  Import Esch EschSpec EschProof.
  Lemma esch_first h s M : h = 3 \/ h = 4 -> esch_inv h true 0 s M 0 ->
    exists s0, esch_squeeze true s 0 = Ok (s0, []) /\ forall n, exists s1,
      let j := length M mod 16 in
      let f := skipn j (std_esch h true M (j + n)) in
      esch_squeeze true s0 n = Ok (s1, f) /\ length f = n.
  Proof.
    intros Hh (E & Hm & Hs & HM & Hq & H). unfold esch_squeeze at 1. cbv zeta. rewrite Hq, E.
    destruct (esch_pad_eq h true 0 Hh (ek s) M HM H) as (m' & E' & Hm'). rewrite E'.
    cbn [bind sh sm spos stotal esch_loop Nat.ltb Nat.leb]. eexists. split; [reflexivity|]. intros n.
    change (std_esch h true M) with (esch_out h true M). rewrite (esch_out_seg h true 0 Hh M _ HM), seg_skip.
    set (c0 := rep 0 (esch_state h true M)).
    assert (So : esch_I h 0 c0) by (eexists; split; [exact (esch_state_ok h true 0 Hh M HM)|reflexivity]).
    pose proof (emit_len h 0 Hh c0 So) as Hc.
    assert (Ej : (spos (ek s) = 16 \/ spos (ek s) < 16) /\ length M mod 16 = spos (ek s) mod 16).
    { destruct H as (B & T & J & q & Emsg & HB & Hrem & Hc' & Htot & Hmm & Hlen & Hpos). unfold okrem in Hrem.
      rewrite Hpos, Emsg, app_length, HB, Nat.add_comm, Nat.mod_add by lia. split; [lia|reflexivity]. }
    destruct Ej as [Hpos Ej]. set (j := length M mod 16) in *.
    assert (Lf : length (seg (esch_next (hs_of h)) (words_bytes 4) 16 c0 j n) = n) by apply seg_length.
    destruct n as [|n].
    { unfold esch_squeeze. cbn [esq ek ehs spos sh sm stotal]. destruct (Nat.ltb_spec (spos (ek s)) 16).
      - rewrite Nat.min_0_l, load_ok by lia. cbn [bind firstn esch_loop Nat.ltb Nat.leb]. eexists. split; [reflexivity|exact Lf].
      - cbn [bind firstn esch_loop Nat.ltb Nat.leb]. eexists. split; [reflexivity|exact Lf]. }
    unfold esch_squeeze. cbn [esq ek ehs spos sh sm stotal].
    destruct Hpos as [P16|Plt].
    - rewrite P16 in *. change (16 mod 16) with 0 in Ej. rewrite Ej in *. cbn [Nat.ltb Nat.leb bind].
      rewrite esch_loop_first by lia.
      destruct (sq_first_ok (esch_next (hs_of h)) (words_bytes 4) 16 (esch_I h 0) ltac:(lia) (emit_len h 0 Hh) (next_I h 0 Hh) _ 16 (S n) So ltac:(lia))
        as (c' & pos' & E2 & _). rewrite E2. cbn [bind]. eexists. split; [reflexivity|exact Lf].
    - rewrite Nat.mod_small in Ej by lia. rewrite <- Ej in *. 
      destruct (Nat.ltb_spec j 16); [|lia]. rewrite load_ok by lia. cbn [bind].
      set (t := Nat.min (S n) (16 - j)).
      pose proof (seg_block (esch_next (hs_of h)) (words_bytes 4) 16 (esch_I h 0) ltac:(lia) (emit_len h 0 Hh) (next_I h 0 Hh) c0 0 j t So ltac:(lia)) as Sb.
      cbn [Nat.mul Nat.add Nat.iter nat_rect] in Sb. rewrite Sb. rewrite esch_loop_sq by lia.
      destruct (Nat.eq_dec t (S n)) as [Et|Et].
      + rewrite Et. cbn [sq_loop]. rewrite Nat.ltb_irrefl. cbn [bind]. eexists. split; [reflexivity|exact Lf].
      + destruct (sq_loop_ok (esch_next (hs_of h)) (words_bytes 4) 16 (esch_I h 0) ltac:(lia) (emit_len h 0 Hh) (next_I h 0 Hh)
          (S n) c0 1 c0 (S n) t (j + t) (seg (esch_next (hs_of h)) (words_bytes 4) 16 c0 j t) So ltac:(lia) ltac:(lia)) as (c' & pos' & E2 & _).
        { destruct (Nat.eqb_spec t 0); [lia|]. reflexivity. }
        rewrite E2. cbn [bind]. eexists. split; [|exact Lf]. f_equal. f_equal.
        replace (1 * 16) with (j + t) by lia. rewrite <- seg_app. f_equal. lia.
  Qed.
End EschFirst.

(** ** All types *)
Lemma sponge_laws P (T : xtype P) r tail : sponge T r tail ->
  exists S (R : pst P -> xs_params S -> list N -> nat -> Prop), xstart T S R /\ zero_laws R r tail.
Proof.
  intros H; destruct H.
  - exact (ex_intro _ _ (ex_intro _ _ (conj (xstart_shake 128 21 16 ltac:(lia) eq_refl eq_refl) (shake_zero 128 21 16 ltac:(lia) eq_refl eq_refl eq_refl)))).
  - exact (ex_intro _ _ (ex_intro _ _ (conj (xstart_shake 256 17 32 ltac:(lia) eq_refl eq_refl) (shake_zero 256 17 32 ltac:(lia) eq_refl eq_refl eq_refl)))).
  - exact (ex_intro _ _ (ex_intro _ _ (conj (xstart_cshake 128 21 16 ltac:(lia) eq_refl eq_refl) (cshake_zero 128 21 16 ltac:(lia) eq_refl eq_refl eq_refl)))).
  - exact (ex_intro _ _ (ex_intro _ _ (conj (xstart_cshake 256 17 32 ltac:(lia) eq_refl eq_refl) (cshake_zero 256 17 32 ltac:(lia) eq_refl eq_refl eq_refl)))).
  - exact (ex_intro _ _ (ex_intro _ _ (conj (xstart_kmac 128 21 16 ltac:(lia) eq_refl eq_refl eq_refl) (kmac_zero 128 21 16 ltac:(lia) eq_refl eq_refl eq_refl)))).
  - exact (ex_intro _ _ (ex_intro _ _ (conj (xstart_kmac 256 17 32 ltac:(lia) eq_refl eq_refl eq_refl) (kmac_zero 256 17 32 ltac:(lia) eq_refl eq_refl eq_refl)))).
  - exists (K12Spec.kt_spec K12.k12_param 12 16), (K12Proof.k12_R 12 21 16 (N.to_nat 8192)). split.
    + apply (xstart_k12 128 12 21 16); try reflexivity; try lia. exact K12Proof.k12_implements.
    + apply (k12_zero 128 12 21 16); try reflexivity; lia.
  - exists (K12Spec.kt_spec K12.k12_param 14 32), (K12Proof.k12_R 14 17 32 (N.to_nat 8192)). split.
    + apply (xstart_k12 256 14 17 32); try reflexivity; try lia. exact K12Proof.m14_implements.
    + apply (k12_zero 256 14 17 32); try reflexivity; lia.
  - exists (K12Spec.kt_spec K12.k12_param 12 32), (K12Proof.k12_R 12 17 32 (N.to_nat 8192)). split.
    + apply (xstart_k12 256 12 17 32); try reflexivity; try lia. exact K12Proof.kt256_implements.
    + apply (k12_zero 256 12 17 32); try reflexivity; lia.
  - exact (ex_intro _ _ (ex_intro _ _ (conj xstart_ascon_xof ascon_xof_zero))).
  - exact (ex_intro _ _ (ex_intro _ _ (conj xstart_ascon_cxof ascon_cxof_zero))).
Qed.
Lemma no_sponge_laws P (T : xtype P) : no_sponge T ->
  exists S (R : pst P -> xs_params S -> list N -> nat -> Prop), xstart T S R /\
    (forall s p m k, R s p m k -> 0 < k -> xp_squeeze P s 0 = Ok (s, [])).
Proof.
  intros H; destruct H.
  - eexists. eexists. split; [exact (xstart_esch 3 _ _ (or_introl eq_refl) eq_refl eq_refl)|]. intros s p m k. exact (esch_noop 3 s m k (or_introl eq_refl)).
  - eexists. eexists. split; [exact (xstart_esch 4 _ _ (or_intror eq_refl) eq_refl eq_refl)|]. intros s p m k. exact (esch_noop 4 s m k (or_intror eq_refl)).
  - eexists. eexists. split; [exact (xstart_blake2x 64 (or_introl eq_refl))|]. intros s p m k. exact (blake2x_noop 64 _ s p m k (or_introl eq_refl)).
  - eexists. eexists. split; [exact (xstart_blake2x 32 (or_intror eq_refl))|]. intros s p m k. exact (blake2x_noop 32 _ s p m k (or_intror eq_refl)).
  - assert (Hn : nw = 4 \/ nw = 8 \/ nw = 16) by (cbn in H; intuition).
    eexists. eexists. split; [exact (xstart_skein nw Hn)|]. intros s p m k. exact (skein_noop nw _ s p m k Hn).
Qed.

Section Claims.
  Context {P : xof_provider} (T : xtype P).

  Theorem sponge_inside r tail g pre post : sponge T r tail -> xt_mem_ok T g -> xcalls T pre ->
    0 < xcount T pre -> xcount T pre mod r <> 0 ->
    xafter T g (pre ++ [XSqueezeBuf 0]) post = xafter T g pre post /\ xafter T g pre [XSqueezeBuf 0] = Ok [OBytes []].
  Proof.
    intros Hs Hg Hp H0 Hm. destruct (sponge_laws _ _ _ _ Hs) as (S & R & X & Z).
    apply (squeeze_noop X); auto. intros s p HR. exact (zl_noop _ _ _ Z s p _ _ HR H0 Hm).
  Qed.
  Theorem other_inside g pre post : no_sponge T -> xt_mem_ok T g -> xcalls T pre -> 0 < xcount T pre ->
    xafter T g (pre ++ [XSqueezeBuf 0]) post = xafter T g pre post /\ xafter T g pre [XSqueezeBuf 0] = Ok [OBytes []].
  Proof.
    intros Hs Hg Hp H0. destruct (no_sponge_laws _ _ Hs) as (S & R & X & Z).
    apply (squeeze_noop X); auto. intros s p HR. exact (Z s p _ _ HR H0).
  Qed.
  Theorem sponge_edge r tail g pre post : sponge T r tail -> xt_mem_ok T g -> xcalls T pre ->
    0 < xcount T pre -> xcount T pre mod r = 0 ->
    xafter T g (pre ++ [XSqueezeBuf 0]) post = xafter T g (pre ++ [XSqueezeBuf r]) post /\
    xafter T g pre [XSqueezeBuf 0] = Ok [OBytes []].
  Proof.
    intros Hs Hg Hp H0 Hm. destruct (sponge_laws _ _ _ _ Hs) as (S & R & X & Z).
    apply (squeeze_same X); auto. intros s p HR. exact (zl_boundary _ _ _ Z s p _ _ HR H0 Hm).
  Qed.
  Theorem sponge_start r tail g pre : sponge T r tail -> xt_mem_ok T g -> xcalls T pre -> xcount T pre = 0 ->
    exists j, 1 <= j <= r /\ (forall t, tail = Some t -> j = (length (xmsg T pre) + t) mod r + 1) /\
      (forall post, xafter T g (pre ++ [XSqueezeBuf 0]) post = xafter T g (pre ++ [XSqueezeBuf j]) post) /\
      xafter T g pre [XSqueezeBuf 0] = Ok [OBytes []].
  Proof.
    intros Hs Hg Hp H0. destruct (sponge_laws _ _ _ _ Hs) as (S & R & X & Z).
    destruct (reach X g pre Hg Hp) as (s0 & s & p & l & E0 & E1 & R1). rewrite H0 in R1.
    destruct (zl_first _ _ _ Z _ _ _ R1) as (j & J1 & J2 & s' & w & A & B & L). exists j. split; [exact J1|]. split; [exact J2|].
    assert (F : xafter T g pre [XSqueezeBuf 0] = Ok [OBytes []] /\ forall post, xafter T g (pre ++ [XSqueezeBuf 0]) post = xafter T g (pre ++ [XSqueezeBuf j]) post).
    { unfold xafter. rewrite E0. cbn [bind]. split; [|intros post]; rewrite ?xof_run_app, E1; cbn [bind xof_run xof_step]; unfold squeeze_buf; rewrite A, ?B;
        cbn [bind length]; change (memcpy (zeros 0) 0 [] 0) with (Ok (@nil N)); cbn [bind]; [reflexivity|].
      rewrite (memcpy_full (zeros j)) by (rewrite zeros_length; lia). reflexivity. }
    split; apply F.
  Qed.
End Claims.

Theorem skein_start nw g pre n : In nw [4; 8; 16] -> xt_mem_ok (skein_xof_type nw) g -> xcalls (skein_xof_type nw) pre ->
  xcount (skein_xof_type nw) pre = 0 ->
  let G := SkeinSpec.skein_chain nw (2 ^ 64 - 1) (xparam (SkeinSim.skein_xof_spec nw) pre) (xmsg (skein_xof_type nw) pre) in
  xafter (skein_xof_type nw) g (pre ++ [XSqueezeBuf 0]) [XSqueezeBuf n]
    = Ok [OBytes (firstn n (words_bytes 8 G) ++ SkeinSpec.skein_output nw G (n - 8 * nw))].
Proof.
  intros Hi Hg Hp H0. assert (Hn : nw = 4 \/ nw = 8 \/ nw = 16) by (cbn in Hi; intuition). cbv zeta.
  refine (squeeze_then (xstart_skein nw Hn) g pre (fun n => _) Hg Hp _ n). intros s HR. rewrite H0 in HR.
  exact (skein_first nw _ s _ _ Hn HR).
Qed.
Theorem blake2x_start w g pre n : w = 64%N \/ w = 32%N -> xt_mem_ok (blake2x_xof_type w) g -> xcalls (blake2x_xof_type w) pre ->
  xcount (blake2x_xof_type w) pre = 0 ->
  let p := xparam (Blake2Sim.blake2x_xof_spec w) pre in
  let msg := xmsg (blake2x_xof_type w) pre in
  let j := held (length (Blake2Spec.key_pad w (Blake2Spec.pk p)) + length msg) (Blake2Spec.bb w) in
  xafter (blake2x_xof_type w) g (pre ++ [XSqueezeBuf 0]) [XSqueezeBuf n]
    = Ok [OBytes (firstn n (skipn j (Blake2Spec.x_root w (Blake2Spec.x_unknown w) (Blake2Spec.pk p) (Blake2Spec.ps p) (Blake2Spec.pp p) msg)) ++
        Blake2Spec.blake2x_stream w (Blake2Spec.pk p) (Blake2Spec.ps p) (Blake2Spec.pp p) msg (n - (Blake2Spec.hb w - j)))].
Proof.
  intros Hw Hg Hp H0. cbv zeta.
  refine (squeeze_then (xstart_blake2x w Hw) g pre (fun n => _) Hg Hp _ n). intros s HR. rewrite H0 in HR.
  refine (blake2x_first w Hw (8 * w) _ _ s _ _ HR); [discriminate|]. intros _. destruct Hw; subst w; reflexivity.
Qed.
Theorem esch_start h sz w g pre n : h = 3 \/ h = 4 -> sz = N.of_nat (128 * h) -> w = 4 * h ->
  xt_mem_ok (esch_xof_type sz w) g -> xcalls (esch_xof_type sz w) pre ->
  xcount (esch_xof_type sz w) pre = 0 ->
  let msg := xmsg (esch_xof_type sz w) pre in
  let j := length msg mod 16 in
  xafter (esch_xof_type sz w) g (pre ++ [XSqueezeBuf 0]) [XSqueezeBuf n]
    = Ok [OBytes (skipn j (EschSpec.std_esch h true msg (j + n)))].
Proof.
  intros Hh E1 E2 Hg Hp H0. cbv zeta.
  refine (squeeze_then (xstart_esch h sz w Hh E1 E2) g pre (fun n => _) Hg Hp _ n). intros s HR. rewrite H0 in HR.
  exact (esch_first h s _ Hh HR).
Qed.
