(** * KangarooTwelve / MarsupilamiFourteen / KT256 conformance. *)
From Verif Require Import Base Absorb Lemmas WordLemmas TableLemmas AbsorbProof AbsorbRel Hasher HasherSpec HasherProof
  MdState MdProof SpecCommon Keccak KeccakSpec KeccakProof Squeeze SqueezeProof Sha3 Shake Sha3Spec
  SpongeProof Sha3Proof EncodeProof ShakeProof Kmac KmacProof K12 K12Spec.
Local Open Scope nat_scope.

(** ** Padding *)
Lemma lor_128 D : (D < 128)%N -> N.lor D 0x80 = N.lxor D 0x80.
Proof.
  intros H. apply N.bits_inj. intro i. rewrite N.lor_spec, N.lxor_spec.
  destruct (N.testbit 128 i) eqn:E; [|destruct (N.testbit D i); reflexivity].
  assert (i = 7%N) as ->.
  { change 128%N with (2 ^ 7)%N in E. rewrite N.pow2_bits_eqb in E. destruct (N.eqb_spec 7 i); congruence. }
  replace (N.testbit D 7) with false; [reflexivity|].
  symmetry. destruct (N.eq_dec D 0) as [->|Hz]; [reflexivity|].
  apply N.bits_above_log2. apply N.log2_lt_pow2; [lia|exact H].
Qed.

Lemma removelast_app1 {A} (l : list A) x : removelast (l ++ [x]) = l.
Proof. rewrite removelast_app by discriminate. cbn. apply app_nil_r. Qed.

Lemma zeros_snoc n : zeros (S n) = zeros n ++ [0%N].
Proof. unfold zeros. induction n; [reflexivity|]. cbn [repeat app] in *. f_equal. exact IHn. Qed.

Lemma turbo_pad_eq r D M : 0 < r -> (D < 128)%N -> turbo_pad r D M = pad_bytes r D M.
Proof.
  intros Hr HD. unfold turbo_pad, pad_bytes, dpad. rewrite app_length. cbn [length].
  pose proof (Nat.mod_upper_bound (length M) r ltac:(lia)) as U.
  pose proof (Nat.div_mod (length M) r ltac:(lia)) as DM.
  destruct (Nat.eqb_spec (r - length M mod r) 1) as [E|E].
  - replace ((length M + 1) mod r) with 0.
    2:{ replace (length M + 1) with (0 + (length M / r + 1) * r) by nia. rewrite Nat.mod_add by lia.
        symmetry. apply Nat.mod_0_l. lia. }
    rewrite Nat.sub_0_r, Nat.mod_same by lia. unfold zeros. cbn [repeat]. rewrite app_nil_r.
    rewrite removelast_app1, last_last, lor_128 by auto. reflexivity.
  - replace ((length M + 1) mod r) with (length M mod r + 1).
    2:{ replace (length M + 1) with ((length M mod r + 1) + (length M / r) * r) by nia.
        rewrite Nat.mod_add by lia. rewrite (Nat.mod_small (length M mod r + 1)) by lia. reflexivity. }
    rewrite (Nat.mod_small (r - _)) by lia.
    replace (r - (length M mod r + 1)) with (S (r - length M mod r - 2)) by lia.
    rewrite zeros_snoc, app_assoc, removelast_app1, last_last.
    rewrite <- !app_assoc. reflexivity.
Qed.

Lemma right_encode_k12 x : right_encode (trunc 64 x) true = length_encode x.
Proof.
  rewrite trunc_mod. unfold length_encode.
  assert (H : (x mod 2 ^ 64 < 2 ^ 64)%N) by (apply N.mod_lt; discriminate).
  destruct (N.eqb_spec (x mod 2 ^ 64) 0) as [->|Hz]; [reflexivity|].
  rewrite <- right_encode_eq by exact H. unfold right_encode. cbn [andb].
  destruct (N.eqb_spec (x mod 2 ^ 64) 0); [contradiction|]. reflexivity.
Qed.
Lemma length_encode_ok x : bytes_ok (length_encode x).
Proof.
  unfold length_encode. destruct (N.eqb_spec (x mod 2 ^ 64) 0); [repeat constructor|].
  apply right_enc_ok. apply N.mod_lt. discriminate.
Qed.
Lemma length_encode_nonempty x : length_encode x <> [].
Proof.
  unfold length_encode. destruct (N.eqb_spec (x mod 2 ^ 64) 0); [discriminate|].
  unfold right_enc. destruct (be_bytes _ _); discriminate.
Qed.

(** ** Chunks *)
Section Chunks.
  Variable cs : nat.
  Lemma chunk_of_app_l B T i k : length B = k * cs -> i < k -> chunk_of cs (B ++ T) i = chunk_of cs B i.
  Proof.
    intros HB Hi. unfold chunk_of. rewrite skipn_app, firstn_app, skipn_length.
    replace (cs - (length B - i * cs)) with 0 by nia. rewrite firstn_O, app_nil_r. reflexivity.
  Qed.
  Lemma chunk_of_last B T k : length B = k * cs -> chunk_of cs (B ++ T) k = firstn cs T.
  Proof.
    intros HB. unfold chunk_of. rewrite skipn_app, skipn_all2 by lia.
    replace (k * cs - length B) with 0 by lia. reflexivity.
  Qed.
End Chunks.

Lemma flat_map_ext_in {A B} (f g : A -> list B) l : (forall x, In x l -> f x = g x) -> flat_map f l = flat_map g l.
Proof.
  induction l; intros H; cbn; [reflexivity|]. rewrite H by (left; reflexivity).
  rewrite IHl; auto. intros. apply H. right. auto.
Qed.

Section K12.
  Variables (B : N) (R r64 sec : nat).
  Hypothesis HR : R <= 24.
  Hypothesis Hr64 : 1 <= r64 <= 21.
  Hypothesis Hrate : shake_rate B = N.of_nat (64 * r64).
  Hypothesis Hsec : 8 * r64 = 200 - 2 * sec.
  Hypothesis HB4 : N.to_nat (B / 4) = 2 * sec.
  Hypothesis sec_pos : 0 < sec.
  Variable cs : nat.
  Hypothesis Hcs : k12_bs = cs.
  Hypothesis cs_pos : 0 < cs.

  Lemma turbo_ksponge D M n : (D < 128)%N -> turbo R (200 - 2 * sec) D M n = ksponge R r64 D M n.
  Proof. intros H. unfold turbo, ksponge. rewrite <- Hsec, turbo_pad_eq by (auto; lia). reflexivity. Qed.

  Definition cv (S : list N) (i : nat) : list N := ksponge R r64 0x0b (chunk_of cs S i) (2 * sec).

  (** What the main object has absorbed after [k] complete chunks. *)
  Definition node (k : nat) (S : list N) : list N :=
    match k with
    | O => []
    | S j => chunk_of cs S 0 ++ [3; 0; 0; 0; 0; 0; 0; 0]%N ++ flat_map (cv S) (seq 1 j)
    end.

  Definition clean (s : shake_st) : Prop := hN s = [] /\ hS s = [] /\ length (sm (hk s)) = 168.

  Definition core_ok (P : list N) (c : shake_st * shake_st * N) : Prop :=
    let '(main, child, chunk) := c in
    exists k, length P = k * cs /\ chunk = N.of_nat k /\ clean child /\
      shake_inv R r64 main [] [] 0 (node k P) 0 /\
      (0 < k -> shake_inv R r64 child [] [] 0x0b [] 0).

  Lemma node_app k P T : length P = k * cs -> node k (P ++ T) = node k P.
  Proof.
    intros H. destruct k as [|j]; [reflexivity|]. cbn [node].
    rewrite (chunk_of_app_l cs P T 0 (S j)) by (auto; lia). do 2 f_equal.
    apply flat_map_ext_in. intros i Hi. apply in_seq in Hi. unfold cv.
    rewrite (chunk_of_app_l cs P T i (S j)) by (auto; lia). reflexivity.
  Qed.
  Lemma node_snoc k P b : length P = k * cs -> length b <= cs ->
    node (S k) (P ++ b) = match k with O => b ++ [3; 0; 0; 0; 0; 0; 0; 0]%N
                          | _ => node k P ++ ksponge R r64 0x0b b (2 * sec) end.
  Proof.
    intros H Hb. destruct k as [|j].
    - cbn [node seq flat_map]. destruct P; [|discriminate]. cbn [app].
      f_equal. unfold chunk_of. cbn [Nat.mul skipn]. apply firstn_all2. exact Hb.
    - rewrite <- (node_app (S j) P b) by exact H. cbn [node]. rewrite (seq_S j 1), flat_map_app.
      rewrite <- !app_assoc. do 3 f_equal. cbn [flat_map]. rewrite app_nil_r. unfold cv. f_equal.
      change (1 + j) with (S j). rewrite (chunk_of_last cs P b (S j)) by exact H. apply firstn_all2. exact Hb.
  Qed.

  Lemma inv_clean s sfx msg k : shake_inv R r64 s [] [] sfx msg k -> clean s.
  Proof. intros H. pose proof (shake_inv_sm _ _ _ _ _ _ _ _ H) as Hl. destruct H as (HN & HS & _). split; auto. Qed.

  Lemma k12_chunk_ok P k c t b : length P = k * cs -> length b = cs -> core_ok P c ->
    exists c', k12_chunk B R c t b = Ok c' /\ core_ok (P ++ b) c'.
  Proof.
    intros HP Hb Hc. destruct c as [[main child] chunk].
    destruct Hc as (k' & HP' & Hch & Hcl & Hm & Hk). assert (k' = k) by nia. subst k'.
    unfold k12_chunk.
    assert (Hgo : exists main' child',
      (if (chunk =? 0)%N then
         main <- shake_update B R main b ;;
         main <- shake_update B R main [3; 0; 0; 0; 0; 0; 0; 0]%N ;;
         Ok (main, child)
       else
         child <- shake_update B R child b ;;
         ' (child, buf) <- shake_squeeze B R child (N.to_nat (B / 4)) ;;
         main <- shake_update B R main buf ;;
         Ok (main, child)) = Ok (main', child') /\ clean child' /\
      shake_inv R r64 main' [] [] 0 (node (S k) (P ++ b)) 0).
    { rewrite (node_snoc k P b HP ltac:(lia)). destruct k as [|k].
      - subst chunk. cbn [N.of_nat N.eqb].
        destruct (shake_update_ok B R r64 HR Hr64 Hrate _ _ _ _ _ b Hm) as (m1 & -> & H1). cbn [bind].
        destruct (shake_update_ok B R r64 HR Hr64 Hrate _ _ _ _ _ [3; 0; 0; 0; 0; 0; 0; 0]%N H1) as (m2 & -> & H2).
        cbn [bind]. exists m2, child. split; [reflexivity|]. split; [exact Hcl|exact H2].
      - destruct (N.eqb_spec chunk 0) as [E|_]; [lia|]. specialize (Hk ltac:(lia)).
        destruct (shake_update_ok B R r64 HR Hr64 Hrate _ _ _ _ _ b Hk) as (c1 & -> & H1). cbn [bind].
        rewrite HB4.
        destruct (shake_squeeze_ok B R r64 HR Hr64 Hrate _ _ _ _ _ 0 (2 * sec) ltac:(lia) H1) as (c2 & -> & H2).
        cbn [bind skipn Nat.add].
        match goal with |- context [shake_update B R main ?d] =>
          destruct (shake_update_ok B R r64 HR Hr64 Hrate _ _ _ _ _ d Hm) as (m2 & -> & H3) end.
        cbn [bind]. exists m2, c2. split; [reflexivity|].
        split; [exact (inv_clean _ _ _ _ H2)|]. exact H3. }
    destruct Hgo as (m' & c' & -> & (HN & HS & Hl) & Hm'). cbn [bind].
    destruct (shake_init_ok B R r64 HR Hr64 Hrate c' Hl) as (c2 & -> & H2). cbn [bind].
    eexists. split; [reflexivity|]. rewrite HN, HS in H2.
    pose proof (shake_set_suffix_ok R r64 _ _ _ _ _ 0x0b H2) as H3.
    exists (S k). rewrite app_length. split; [lia|]. split; [lia|].
    split; [exact (inv_clean _ _ _ _ H3)|]. split; [exact Hm'|]. intros _. exact H3.
  Qed.

  Definition k12_core_tf (c : shake_st * shake_st * N) (m : list N) (t : N) (d : list N) (n : nat) :=
    c <- block_loop_res (k12_chunk B R) cs c t d n ;; Ok (c, m).

  Lemma k12_tf_ok P k c m data n : length m = cs -> length P = k * cs -> length data = n * cs -> core_ok P c ->
    exists c' m', k12_core_tf c m (ctr 0 P) data n = Ok (c', m') /\ length m' = cs /\ core_ok (P ++ data) c'.
  Proof.
    intros Hm HP Hd Hi. unfold k12_core_tf.
    destruct (block_loop_res_rel core_ok (k12_chunk B R) cs 0 n
      (fun P k c b H1 H2 H3 => k12_chunk_ok P k c _ b H1 H2 H3) P k c data HP Hd Hi) as (c' & -> & H').
    cbn [bind]. eauto.
  Qed.

  Definition k12_abs (s : k12_st) (msg : list N) : Prop :=
    rel_state core_ok cs cs true 0 msg (kmain s, kchild s, kchunk s) (km s) (kpos s) (ktotal s).

  Lemma k12_update_ok s msg d : k12_abs s msg ->
    exists s', k12_update B R s d = Ok s' /\ k12_abs s' (msg ++ d) /\ kS s' = kS s /\ ksq s' = ksq s.
  Proof.
    intros H. unfold k12_update. rewrite Hcs.
    destruct (absorb_rel_ok core_ok k12_core_tf cs cs true 0 cs_pos (le_n _) eq_refl k12_tf_ok msg d _ _ _ _ H)
      as (c' & m' & p' & t' & E & H').
    change (bschk cs true) with (cs + 1) in E. unfold k12_core_tf in E. rewrite E. cbn [bind].
    destruct c' as [[main child] chunk]. eexists. split; [reflexivity|]. auto.
  Qed.

  (** The final state before squeezing: domain byte and sponge input. *)
  Definition kt_in (S : list N) : N * list N :=
    if length S <=? cs then (0x07%N, S)
    else let num := (length S + cs - 1) / cs in
      (0x06%N, node num S ++ length_encode (N.of_nat (num - 1)) ++ [0xFF; 0xFF]%N).

  Lemma kt_eq msg cust n :
    kt R sec cs msg cust n
    = let x := kt_in (msg ++ cust ++ length_encode (N.of_nat (length cust))) in ksponge R r64 (fst x) (snd x) n.
  Proof.
    unfold kt, kt_in. cbv zeta. set (S := msg ++ cust ++ _).
    destruct (Nat.leb_spec (length S) cs) as [H|H]; cbn [fst snd]; rewrite turbo_ksponge by reflexivity; [reflexivity|].
    f_equal. set (num := (length S + cs - 1) / cs).
    assert (Hn : num = 1 + (num - 1)).
    { enough (1 <= num) by lia. unfold num. apply Nat.div_le_lower_bound; lia. }
    rewrite Hn at 3. cbn [Nat.add node]. rewrite <- !app_assoc. do 3 f_equal.
    apply flat_map_ext_in. intros i _. unfold cv. apply turbo_ksponge. reflexivity.
  Qed.

  Lemma k12_finish_ok s msg : k12_abs s msg -> ksq s = false -> length (km s) = cs ->
    exists s', k12_finish B R s = Ok s' /\ kS s' = kS s /\ ksq s' = true /\ length (km s') = cs /\
      clean (kchild s') /\
      let x := kt_in (msg ++ kS s ++ length_encode (N.of_nat (length (kS s)))) in
      shake_inv R r64 (kmain s') [] [] (fst x) (snd x) 0.
  Proof.
    intros H Hq Hl. unfold k12_finish. cbv zeta. rewrite right_encode_k12.
    assert (H1 : exists s1, (match kS s with [] => Ok s | _ => k12_update B R s (kS s) end) = Ok s1 /\
      k12_abs s1 (msg ++ kS s) /\ kS s1 = kS s).
    { destruct (kS s) as [|x l] eqn:ES; [exists s; rewrite app_nil_r; auto|]. rewrite <- ES.
      destruct (k12_update_ok s msg (kS s) H) as (s1 & E & H1 & HS1 & _). eauto. }
    destruct H1 as (s1 & -> & H1 & HS1). cbn [bind].
    destruct (k12_update_ok s1 _ (length_encode (N.of_nat (length (kS s)))) H1) as (s2 & -> & H2 & HS2 & _).
    cbn [bind]. rewrite <- app_assoc in H2. set (S := msg ++ _ ++ _) in *.
    destruct H2 as (P & T & J & n & ES & HP & Hrem & Hc & Htot & Hm & Hlen & Hpos).
    assert (HT : 0 < length T <= cs).
    { unfold okrem in Hrem. split; [|lia].
      destruct (length T) eqn:ET; [|lia]. exfalso.
      assert (n = 0) by (apply Hrem; reflexivity). subst n.
      assert (length S = 0) by (rewrite ES, app_length; lia).
      assert (HE : length (length_encode (N.of_nat (length (kS s)))) = 0).
      { unfold S in H0. rewrite !app_length in H0. lia. }
      apply (length_encode_nonempty (N.of_nat (length (kS s)))).
      destruct (length_encode _); [reflexivity|discriminate]. }
    rewrite Hpos. destruct (Nat.eqb_spec (length T) 0); [lia|]. cbn [negb].
    rewrite Hm, load_app by reflexivity. cbn [bind].
    destruct Hc as (k' & HP' & Hch & Hcl & Hmain & Hk). assert (k' = n) by nia. subst k'.
    unfold kt_in. destruct n as [|k].
    - rewrite Hch. cbn [N.of_nat N.eqb].
      destruct P; [|discriminate]. cbn [app] in ES. 
      destruct (Nat.leb_spec (length S) cs) as [HL|HL]; [|rewrite ES in HL; lia].
      destruct (shake_update_ok B R r64 HR Hr64 Hrate _ _ _ _ _ T Hmain) as (m1 & -> & I1). cbn [bind].
      eexists. split; [reflexivity|]. cbn [kS ksq km kchild kmain fst snd].
      split; [congruence|]. split; [reflexivity|]. split; [rewrite <- Hm; exact Hlen|]. split; [exact Hcl|].
      apply (shake_set_suffix_ok R r64 _ _ _ 0). rewrite ES. exact I1.
    - rewrite Hch. destruct (N.eqb_spec (N.of_nat (1 + k)) 0) as [E0|_]; [lia|].
      destruct (N.eqb_spec (N.of_nat (Datatypes.S k)) 0) as [E0|_]; [lia|].
      specialize (Hk ltac:(lia)).
      assert (HLS : length S = Datatypes.S k * cs + length T) by (rewrite ES, app_length; lia).
      destruct (Nat.leb_spec (length S) cs) as [HL|HL]; [nia|].
      assert (Hnum : (length S + cs - 1) / cs = k + 2).
      { rewrite HLS. symmetry. apply (Nat.div_unique _ _ (k + 2) (length T - 1)); nia. }
      rewrite Hnum. replace (k + 2 - 1) with (Datatypes.S k) by lia.
      destruct (shake_update_ok B R r64 HR Hr64 Hrate _ _ _ _ _ T Hk) as (c1 & -> & I1). cbn [bind].
      rewrite HB4.
      destruct (shake_squeeze_ok B R r64 HR Hr64 Hrate _ _ _ _ _ 0 (2 * sec) ltac:(lia) I1) as (c2 & -> & I2).
      cbn [bind skipn Nat.add].
      match goal with |- context [shake_update B R (kmain s2) ?d] =>
        destruct (shake_update_ok B R r64 HR Hr64 Hrate _ _ _ _ _ d Hmain) as (m1 & -> & I3) end.
      cbn [bind]. apply (shake_set_suffix_ok R r64 _ _ _ _ _ 0x06) in I3.
      rewrite right_encode_k12.
      match goal with |- context [shake_update B R (shake_set_suffix 6 m1) ?d] =>
        destruct (shake_update_ok B R r64 HR Hr64 Hrate _ _ _ _ _ d I3) as (m2 & -> & I4) end.
      cbn [bind].
      destruct (shake_update_ok B R r64 HR Hr64 Hrate _ _ _ _ _ [0xFF; 0xFF]%N I4) as (m3 & -> & I5).
      cbn [bind].
      eexists. split; [reflexivity|]. cbn [kS ksq km kchild kmain fst snd].
      split; [congruence|]. split; [reflexivity|]. split; [rewrite <- Hm; exact Hlen|].
      split; [exact (inv_clean _ _ _ _ I2)|].
      replace (k + 2) with (Datatypes.S (Datatypes.S k)) by lia.
      rewrite ES. rewrite (node_snoc (Datatypes.S k) P T HP ltac:(lia)).
      rewrite <- !app_assoc in *. exact I5.
  Qed.

  (** ** The provider invariant *)
  Definition k12_R (s : k12_st) (cust msg : list N) (k : nat) : Prop :=
    bytes_ok msg /\ bytes_ok cust /\ kS s = cust /\ length (km s) = cs /\ clean (kmain s) /\ clean (kchild s) /\
    match k with
    | O => ksq s = false /\ k12_abs s msg
    | _ => ksq s = true /\
      let x := kt_in (msg ++ cust ++ length_encode (N.of_nat (length cust))) in
      shake_inv R r64 (kmain s) [] [] (fst x) (snd x) k
    end.

  Lemma k12_init_ok s cust : bytes_ok cust -> kS s = cust -> length (km s) = cs -> clean (kmain s) -> clean (kchild s) ->
    exists s', k12_init B R s = Ok s' /\ k12_R s' cust [] 0.
  Proof.
    intros Hc HS Hl (HN1 & HS1 & Hl1) Hcl. unfold k12_init.
    destruct (shake_init_ok B R r64 HR Hr64 Hrate (kmain s) Hl1) as (m1 & -> & I1). cbn [bind].
    rewrite HN1, HS1 in I1. eexists. split; [reflexivity|].
    split; [constructor|]. split; [exact Hc|]. split; [exact HS|]. split; [exact Hl|].
    split; [exact (inv_clean _ _ _ _ I1)|]. split; [exact Hcl|]. split; [reflexivity|].
    apply (rel_start core_ok cs cs true 0 cs_pos (le_n _) eq_refl); [exact Hl|].
    exists 0. split; [reflexivity|]. split; [reflexivity|]. split; [exact Hcl|]. split; [exact I1|]. lia.
  Qed.

  Lemma abs_clean s msg : k12_abs s msg -> clean (kmain s) /\ clean (kchild s) /\ length (km s) = cs.
  Proof.
    intros (P & T & J & n & ES & HP & Hrem & (k & _ & _ & Hcl & Hm & _) & Htot & Hmm & Hlen & Hpos).
    split; [exact (inv_clean _ _ _ _ Hm)|]. split; auto.
  Qed.

  Lemma dom_sfx D : (D =? 0)%N = false -> dom_byte D [] [] = D.
  Proof. unfold dom_byte. intros ->. reflexivity. Qed.
  Lemma kt_in_dom S : dom_byte (fst (kt_in S)) [] [] = fst (kt_in S).
  Proof. unfold kt_in. destruct (_ <=? _); reflexivity. Qed.

  Hypothesis Hcs2 : cs = N.to_nat 8192.

  Theorem k12_sim : xsim (k12 B R) (kt_spec k12_param R sec) k12_R true.
  Proof.
    constructor.
    - intros s p msg k (Hm & Hp & HS & Hl & Hmn & Hch & _). apply k12_init_ok; auto.
    - intros s p msg d Hd (Hm & Hp & HS & Hl & Hmn & Hch & Hq & H).
      destruct (k12_update_ok s msg d H) as (s' & E & H' & HS' & Hq').
      exists s'. split; [exact E|]. destruct (abs_clean _ _ H') as (C1 & C2 & C3).
      split; [apply bytes_ok_app; auto|]. split; [exact Hp|]. split; [congruence|]. split; [exact C3|].
      split; [exact C1|]. split; [exact C2|]. split; [congruence|exact H'].
    - intros _ s p msg k (Hm & Hp & HS & Hl & (N1 & S1 & L1) & (N2 & S2 & L2) & _).
      cbn [p_clear p_init k12 xp]. unfold k12_clear, shake_clear, shake_wipe, k12_wipe. cbn [bind hk hN hS hsq hsfx km].
      eexists. match goal with |- context [Ok ?x = Ok _] =>
        destruct (k12_init_ok x []) as (s2 & E & H2) end.
      + constructor.
      + reflexivity.
      + cbn [km]. unfold zero_memory. rewrite zeros_length. exact Hl.
      + repeat split; cbn [kmain hk sm]. unfold zero_memory. rewrite zeros_length. exact L1.
      + repeat split; cbn [kchild hk sm]. unfold zero_memory. rewrite zeros_length. exact L2.
      + exists s2. split; [reflexivity|]. split; [exact E|exact H2].
    - intros q v s p msg k Hv (Hm & Hp & HS & Hl & Hmn & Hch & _).
      cbn [p_set p_init k12 xp xs_set kt_spec]. unfold k12_set.
      eexists. match goal with |- context [Done ?x = Done _] =>
        destruct (k12_init_ok x v) as (s2 & E & H2); auto end.
      exists s2. split; [reflexivity|]. split; [exact E|exact H2].
    - intros s p msg k n Hn (Hm & Hp & HS & Hl & Hmn & Hch & H).
      change (pst (k12 B R)) with k12_st in *.
      cbn [xp_squeeze k12 xs_out kt_spec]. rewrite <- Hcs2, kt_eq. cbv zeta.
      unfold k12_squeeze.
      assert (Hgo : exists s1, (if ksq s then Ok s else k12_finish B R s) = Ok s1 /\ kS s1 = p /\
        ksq s1 = true /\ length (km s1) = cs /\ clean (kchild s1) /\
        let x := kt_in (msg ++ p ++ length_encode (N.of_nat (length p))) in
        shake_inv R r64 (kmain s1) [] [] (fst x) (snd x) k).
      { destruct k as [|k].
        - destruct H as [Hq H]. rewrite Hq.
          destruct (k12_finish_ok s msg H Hq Hl) as (s1 & E & HS1 & Hq1 & Hl1 & Hc1 & I1).
          exists s1. rewrite HS in HS1, I1. do 5 (split; [assumption || reflexivity|]). exact I1.
        - destruct H as [Hq H]. rewrite Hq. exists s. do 5 (split; [assumption || reflexivity|]). exact H. }
      destruct Hgo as (s1 & -> & HS1 & Hq1 & Hl1 & Hc1 & I1). cbn [bind]. cbv zeta in I1.
      destruct (shake_squeeze_ok B R r64 HR Hr64 Hrate _ _ _ _ _ k n Hn I1) as (m2 & -> & I2). cbn [bind].
      rewrite kt_in_dom. eexists. split; [reflexivity|].
      destruct (k + n) eqn:EK; [lia|].
      split; [exact Hm|]. split; [exact Hp|]. split; [exact HS1|]. split; [exact Hl1|].
      split; [exact (inv_clean _ _ _ _ I2)|]. split; [exact Hc1|]. split; [exact Hq1|exact I2].
    - intros s p msg k n _. cbn [xs_out kt_spec]. rewrite <- Hcs2, kt_eq.
      apply (ksponge_length B R r64 HR Hr64 Hrate).
    - intros s p msg k n _. cbn [xs_out kt_spec]. rewrite <- Hcs2, kt_eq.
      apply (ksponge_bytes B R r64 HR Hr64 Hrate).
  Qed.

  Theorem k12_implements_gen g1 sq1 sfx1 g2 sq2 sfx2 m pos total chunk sq :
    length (sm g1) = 168 -> length (sm g2) = 168 -> length m = cs ->
    ximplements (k12 B R) (kt_spec k12_param R sec) true
      (fresh_of (k12_ctor (new_shake g1 sq1 sfx1) (new_shake g2 sq2 sfx2) m pos total chunk sq) (k12_init B R)).
  Proof.
    intros H1 H2 Hl. unfold fresh_of, k12_ctor. cbn [bind].
    match goal with |- context [k12_init B R ?x] => destruct (k12_init_ok x []) as (s' & -> & I') end;
      try (constructor; fail); auto; try (repeat split; auto; fail).
    apply (xsim_implements (k12 B R) (kt_spec k12_param R sec) k12_R true k12_sim). exact I'.
  Qed.
End K12.

Theorem k12_implements g1 sq1 sfx1 g2 sq2 sfx2 m pos total chunk sq :
  length (sm g1) = 168 -> length (sm g2) = 168 -> length m = N.to_nat 8192 ->
  ximplements (k12 128 12) (kt_spec k12_param 12 16) true
    (fresh_of (k12_ctor (new_shake g1 sq1 sfx1) (new_shake g2 sq2 sfx2) m pos total chunk sq) (k12_init 128 12)).
Proof.
  apply (k12_implements_gen 128 12 21 16); try reflexivity; lia.
Qed.
Theorem m14_implements g1 sq1 sfx1 g2 sq2 sfx2 m pos total chunk sq :
  length (sm g1) = 168 -> length (sm g2) = 168 -> length m = N.to_nat 8192 ->
  ximplements (k12 256 14) (kt_spec k12_param 14 32) true
    (fresh_of (k12_ctor (new_shake g1 sq1 sfx1) (new_shake g2 sq2 sfx2) m pos total chunk sq) (k12_init 256 14)).
Proof.
  apply (k12_implements_gen 256 14 17 32); try reflexivity; lia.
Qed.
Theorem kt256_implements g1 sq1 sfx1 g2 sq2 sfx2 m pos total chunk sq :
  length (sm g1) = 168 -> length (sm g2) = 168 -> length m = N.to_nat 8192 ->
  ximplements (k12 256 12) (kt_spec k12_param 12 32) true
    (fresh_of (k12_ctor (new_shake g1 sq1 sfx1) (new_shake g2 sq2 sfx2) m pos total chunk sq) (k12_init 256 12)).
Proof.
  apply (k12_implements_gen 256 12 17 32); try reflexivity; lia.
Qed.
