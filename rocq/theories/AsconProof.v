(** * Ascon conformance. *)
From Verif Require Import Base Absorb Lemmas WordLemmas TableLemmas AbsorbProof Hasher HasherSpec HasherProof
  MdState MdProof BufProof SpecCommon Squeeze SqueezeProof ShakeProof ConstAscon Ascon AsconSpec.
Local Open Scope nat_scope.

(** ** The permutation *)

Lemma bits_word_spec w f i :
  N.testbit (bits_word w f) (N.of_nat i) = (i <? w) && f i.
Proof.
  assert (L : forall w, (bits_word w f < 2 ^ N.of_nat w)%N).
  { clear. induction w; [reflexivity|]. cbn [bits_word].
    rewrite Nat2N.inj_succ, N.pow_succ_r'. destruct (f w); lia. }
  assert (E : forall w, bits_word (S w) f = N.lor (bits_word w f) (if f w then 2 ^ N.of_nat w else 0)).
  { intros v. cbn [bits_word]. destruct (f v).
    - rewrite N.add_nocarry_lxor.
      + apply N.bits_inj. intros j. rewrite N.lxor_spec, N.lor_spec, N.pow2_bits_eqb.
        destruct (N.eqb_spec (N.of_nat v) j) as [<-|]; [|destruct (N.testbit (bits_word v f) j); reflexivity].
        rewrite (testbit_high (N.of_nat v)) by (auto; lia). reflexivity.
      + apply N.bits_inj. intros j. rewrite N.land_spec, N.pow2_bits_eqb, N.bits_0.
        destruct (N.eqb_spec (N.of_nat v) j) as [<-|]; [|apply andb_false_r].
        rewrite (testbit_high (N.of_nat v)) by (auto; lia). reflexivity.
    - rewrite N.add_0_r, N.lor_0_r. reflexivity. }
  induction w; [apply N.bits_0|]. rewrite E, N.lor_spec, IHw. clear IHw E L.
  destruct (Nat.ltb_spec i w), (Nat.ltb_spec i (S w)); try lia; cbn [andb orb].
  - destruct (f w); rewrite ?N.bits_0, ?orb_false_r; auto.
    rewrite N.pow2_bits_eqb. destruct (N.eqb_spec (N.of_nat w) (N.of_nat i)); [lia|]. apply orb_false_r.
  - replace i with w by lia. destruct (f w); [|apply N.bits_0].
    rewrite N.pow2_bits_eqb. apply N.eqb_refl.
  - destruct (f w); [|apply N.bits_0].
    rewrite N.pow2_bits_eqb. destruct (N.eqb_spec (N.of_nat w) (N.of_nat i)); [lia|]. reflexivity.
Qed.

(** States: five 64-bit words. *)
Definition as_ok (H : list N) : Prop := length H = 5 /\ words_ok 64 H.

Lemma as_ok_inv H : as_ok H -> exists a b c d e, H = [a; b; c; d; e] /\
  (a < 2 ^ 64)%N /\ (b < 2 ^ 64)%N /\ (c < 2 ^ 64)%N /\ (d < 2 ^ 64)%N /\ (e < 2 ^ 64)%N.
Proof.
  intros [L W]. do 6 (destruct H as [|? H]; try discriminate).
  repeat match goal with H : words_ok _ _ |- _ => inversion H; clear H; subst
                       | H : Forall _ _ |- _ => inversion H; clear H; subst end.
  do 5 eexists. split; [reflexivity|]. auto.
Qed.

Lemma notw_lt w x : (x < 2 ^ w)%N -> (notw w x < 2 ^ w)%N.
Proof.
  intros. apply lxor_lt; auto. rewrite N.ones_equiv. pose proof (N.pow_nonzero 2 w ltac:(discriminate)). lia.
Qed.
Lemma rotr_lt w x n : (0 < n)%N -> (n < w)%N -> (x < 2 ^ w)%N -> (rotr w x n < 2 ^ w)%N.
Proof. intros. rewrite rotr_rotl by auto. apply rotl_lt; lia. Qed.

Lemma bits64_eq x f : (x < 2 ^ 64)%N -> (forall i, i < 64 -> N.testbit x (N.of_nat i) = f i) ->
  x = bits_word 64 f.
Proof.
  intros Hx H. apply N.bits_inj. intros j. rewrite <- (N2Nat.id j).
  rewrite bits_word_spec. destruct (Nat.ltb_spec (N.to_nat j) 64) as [L|L].
  - rewrite H by auto. reflexivity.
  - rewrite (testbit_high 64) by (auto; lia). reflexivity.
Qed.

Lemma ascon_sub_ok H rc : (rc < 2 ^ 64)%N -> as_ok H -> as_ok (ascon_sub H rc).
Proof.
  intros Hr Ho. destruct (as_ok_inv H Ho) as (a & b & c & d & e & -> & A & B & C & D & E).
  split; [reflexivity|]. unfold ascon_sub, nthN. cbn [nth].
  unfold words_ok; repeat (apply Forall_cons; [|]); try apply Forall_nil; repeat (assumption || apply notw_lt || apply land_lt || apply lxor_lt).
Qed.

Lemma list5_eq (a b c d e a' b' c' d' e' : N) : a = a' -> b = b' -> c = c' -> d = d' -> e = e' ->
  [a; b; c; d; e] = [a'; b'; c'; d'; e'].
Proof. intros; subst; reflexivity. Qed.

Lemma ascon_sub_eq H rc : (rc < 2 ^ 64)%N -> as_ok H ->
  ascon_sub H rc = sub_layer (add_const rc H).
Proof.
  intros Hr Ho. pose proof (ascon_sub_ok H rc Hr Ho) as [_ W].
  destruct (as_ok_inv H Ho) as (a & b & c & d & e & -> & A & B & C & D & E).
  unfold sub_layer. unfold add_const. cbn [seq map Nat.eqb nth].
  unfold ascon_sub, nthN in *. cbn [nth] in *. cbv zeta in *.
  repeat match goal with H : words_ok _ _ |- _ => inversion H; clear H; subst
                       | H : Forall _ _ |- _ => inversion H; clear H; subst end.
  apply list5_eq; (apply bits64_eq; [assumption|]);
  intros i Hi; unfold column; cbn [seq fold_left nth];
  rewrite ?N.lxor_spec, ?N.land_spec, ?notw_spec, ?N.lxor_spec, ?N.land_spec, ?notw_spec, ?N.lxor_spec;
  (replace (N.of_nat i <? 64)%N with true by (symmetry; apply N.ltb_lt; lia));
  destruct (N.testbit a (N.of_nat i)), (N.testbit b (N.of_nat i)), (N.testbit c (N.of_nat i)),
    (N.testbit d (N.of_nat i)), (N.testbit e (N.of_nat i)), (N.testbit rc (N.of_nat i)); reflexivity.
Qed.

Lemma ascon_lin_eq H : as_ok H -> ascon_lin H = lin_layer H.
Proof.
  intros Ho. destruct (as_ok_inv H Ho) as (a & b & c & d & e & -> & _).
  unfold ascon_lin, lin_layer, nthN. cbn [nth map2 lin_rot fst snd]. rewrite !rotr_ROTR. reflexivity.
Qed.
Lemma ascon_lin_ok H : as_ok H -> as_ok (ascon_lin H).
Proof.
  intros Ho. destruct (as_ok_inv H Ho) as (a & b & c & d & e & -> & A & B & C & D & E).
  split; [reflexivity|]. unfold ascon_lin, nthN. cbn [nth].
  unfold words_ok; repeat (apply Forall_cons; [|]); try apply Forall_nil; repeat (apply lxor_lt || (apply rotr_lt; [reflexivity|reflexivity|]) || assumption).
Qed.

Lemma ascon_rc_lt i : (nthN i ascon_RC < 2 ^ 64)%N.
Proof.
  assert (H : Forall (fun x => (x < 2 ^ 64)%N) ascon_RC) by (repeat constructor).
  unfold nthN. destruct (Nat.lt_ge_cases i (length ascon_RC)).
  - apply (proj1 (Forall_forall _ _) H). apply nth_In. auto.
  - rewrite nth_overflow by auto. reflexivity.
Qed.

Lemma ascon_round_ok H i : as_ok H -> as_ok (ascon_lin (ascon_sub H (nthN i ascon_RC))).
Proof. intros. apply ascon_lin_ok, ascon_sub_ok; auto using ascon_rc_lt. Qed.

Lemma ascon_perm_ok H : as_ok H -> as_ok (ascon_perm H).
Proof.
  intros. unfold ascon_perm. apply fold_left_inv; auto. intros. apply ascon_round_ok; auto.
Qed.

Lemma ascon_perm_eq H : as_ok H -> ascon_perm H = ascon_p 12 H.
Proof.
  intros Ho. unfold ascon_perm, ascon_p.
  assert (E : forall l H, as_ok H -> (forall i, In i l -> i < 12) ->
    fold_left (fun H i => ascon_lin (ascon_sub H (nthN i ascon_RC))) l H =
    fold_left (fun S i => lin_layer (sub_layer (add_const (nth (16 - 12 + i) ascon_consts 0%N) S))) l H).
  { clear. induction l; intros H Ho Hl; cbn [fold_left]; [reflexivity|].
    rewrite IHl; [|apply ascon_round_ok; auto|intros; apply Hl; right; auto].
    rewrite ascon_lin_eq by (apply ascon_sub_ok; auto using ascon_rc_lt).
    rewrite ascon_sub_eq by auto using ascon_rc_lt.
    replace (nthN a ascon_RC) with (nth (16 - 12 + a) ascon_consts 0%N); [reflexivity|].
    assert (Ha : a < 12) by (apply Hl; left; auto).
    do 12 (destruct a; [reflexivity|]). lia. }
  apply E; auto. intros i Hi. apply in_seq in Hi. lia.
Qed.

(** The precomputed initial states are those of the standard. *)
Lemma ascon_iv_eq ty : ascon_iv ty = ascon_start ty.
Proof.
  assert (Hs : forall t, as_ok [ascon_iv_word t; 0%N; 0%N; 0%N; 0%N]).
  { intros []; (split; [reflexivity|repeat constructor]). }
  unfold ascon_start. rewrite <- ascon_perm_eq by auto.
  destruct ty; vm_compute; reflexivity.
Qed.
Lemma ascon_iv_ok ty : as_ok (ascon_iv ty).
Proof. destruct ty; (split; [reflexivity|repeat constructor]). Qed.

Global Opaque ascon_perm.

Definition ascon_f (H b : list N) : list N := ascon_block H 0 b.
Lemma ascon_step_f h t b : ascon_block h t b = ascon_f h b.
Proof. unfold ascon_f, ascon_block. reflexivity. Qed.

Lemma le_word8_lt b : block_ok 8 b -> (le_word b < 2 ^ 64)%N.
Proof. intros [L B]. apply le_word_lt in B. rewrite L in B. exact B. Qed.

Lemma ascon_f_ok H b : as_ok H -> block_ok 8 b ->
  ascon_f H b = ascon_absorb H b /\ as_ok (ascon_f H b).
Proof.
  intros Ho Hb. pose proof (le_word8_lt b Hb) as Hw.
  destruct (as_ok_inv H Ho) as (a0 & a1 & a2 & a3 & a4 & -> & A & B & C & D & E).
  unfold ascon_f, ascon_block, ascon_absorb, nthN. cbn [nth tl seq map Nat.eqb].
  assert (Ho' : as_ok [N.lxor a0 (le_word b); a1; a2; a3; a4]).
  { split; [reflexivity|]. unfold words_ok. repeat (apply Forall_cons; [auto|]); [apply lxor_lt; auto|apply Forall_nil]. }
  rewrite ascon_perm_eq by auto. split; [reflexivity|].
  rewrite <- ascon_perm_eq by auto. apply ascon_perm_ok; auto.
Qed.

(** With the buffer cleared the transform is the bare permutation. *)
Definition ascon_next (m H : list N) : list N := ascon_block H 0 (firstn 8 m).
Lemma ascon_next_eq m H : firstn 8 m = zeros 8 -> as_ok H ->
  ascon_next m H = ascon_p 12 H /\ as_ok (ascon_next m H).
Proof.
  intros Hm Ho. unfold ascon_next. rewrite Hm.
  assert (E : ascon_block H 0 (zeros 8) = ascon_perm H).
  { destruct (as_ok_inv H Ho) as (a0 & a1 & a2 & a3 & a4 & -> & _).
    unfold ascon_block, nthN. cbn [nth tl]. change (le_word (zeros 8)) with 0%N.
    rewrite N.lxor_0_r. reflexivity. }
  rewrite E. split; [apply ascon_perm_eq; auto|apply ascon_perm_ok; auto].
Qed.
Global Opaque ascon_block.

(** ** The object *)

Lemma ascon_pad_length X : exists n, length (ascon_pad_bytes X) = n * 8.
Proof.
  unfold ascon_pad_bytes. rewrite !app_length, zeros_length. cbn [length].
  pose proof (Nat.div_mod (length X) 8 ltac:(lia)). pose proof (Nat.mod_upper_bound (length X) 8 ltac:(lia)).
  exists (length X / 8 + 1). lia.
Qed.
Lemma ascon_pad_ok X : bytes_ok X -> bytes_ok (ascon_pad_bytes X).
Proof.
  intros. unfold ascon_pad_bytes. apply bytes_ok_app; auto. apply bytes_ok_app; [|apply bytes_ok_zeros].
  constructor; [reflexivity|constructor].
Qed.

(** [X] has been absorbed (customization included). *)
Definition as_state (ty : ascon_type) (X : list N) : list N :=
  fold_left ascon_absorb (blocks 8 X) (ascon_start ty).

Lemma as_state_fold ty X n : length X = n * 8 -> bytes_ok X ->
  as_state ty X = fold_left ascon_f (blocks_n n 8 X) (ascon_iv ty) /\ as_ok (as_state ty X).
Proof.
  intros HX HB. unfold as_state. rewrite (blocks_mul n) by (auto; lia). rewrite <- ascon_iv_eq.
  destruct (fold_left_hom (fun x : list N => x) ascon_f ascon_absorb as_ok (block_ok 8) (blocks_n n 8 X) (ascon_iv ty))
    as [E L].
  - intros a x Ha Hx. destruct (ascon_f_ok a x Ha Hx) as [E1 E2]. rewrite <- E1. auto.
  - apply blocks_n_ok; auto.
  - apply ascon_iv_ok.
  - cbv beta in E. rewrite E in *. auto.
Qed.

Section Obj.
  Variable ty : ascon_type.

  (** The stream produced after absorbing [X]. *)
  Definition as_out (X : list N) (n : nat) : list N := ascon_sponge (ascon_start ty) X n.

  Definition zm : list N := zeros 8.
  Lemma as_emit H : as_ok H -> 8 <= length (words_bytes 8 H).
  Proof. intros [L _]. rewrite words_bytes_length, L. lia. Qed.
  Lemma as_next_ok m : firstn 8 m = zeros 8 -> forall H, as_ok H -> as_ok (ascon_next m H).
  Proof. intros Hm H Ho. exact (proj2 (ascon_next_eq m H Hm Ho)). Qed.

  Lemma as_out_seg m X n k : firstn 8 m = zeros 8 -> length X = k * 8 -> bytes_ok X ->
    as_out X n = seg (ascon_next m) (words_bytes 8) 8 (as_state ty X) 0 n.
  Proof.
    intros Hm HX HB. unfold as_out, ascon_sponge. fold (as_state ty X).
    destruct (as_state_fold ty X k HX HB) as [_ So].
    rewrite <- (squeeze_stream_seg (ascon_next m) (words_bytes 8) 8 as_ok ltac:(lia) as_emit
      (as_next_ok m Hm)) by exact So.
    unfold squeeze_stream. f_equal. symmetry.
    apply (squeeze_blocks_ext (ascon_next m) (ascon_p 12) (words_bytes 8) 8 as_ok); auto.
    - intros c Hc. exact (proj1 (ascon_next_eq m c Hm Hc)).
    - intros c Hc. exact (proj2 (ascon_next_eq m c Hm Hc)).
  Qed.
  Lemma as_out_length X n k : length X = k * 8 -> bytes_ok X -> length (as_out X n) = n.
  Proof. intros. rewrite (as_out_seg (zeros 8) X n k) by auto. apply seg_length. Qed.
  Lemma as_out_bytes X n k : length X = k * 8 -> bytes_ok X -> bytes_ok (as_out X n).
  Proof. intros. rewrite (as_out_seg (zeros 8) X n k) by auto. apply seg_bytes. intros. apply words_bytes_ok. Qed.

  (** [pre] (whole blocks) and [msg] have been absorbed, [k] bytes squeezed. *)
  Definition ascon_inv (s : ascon_st) (Z pre msg : list N) (k : nat) : Prop :=
    aZ s = Z /\ length (sm (ak s)) = 64 /\
    match k with
    | O => asq s = false /\ buf_inv ascon_block 8 64 false (ascon_iv ty) (ak s) (pre ++ msg)
    | _ => asq s = true /\ firstn 8 (sm (ak s)) = zeros 8 /\
      sq_inv (ascon_next (sm (ak s))) 8 (as_state ty (pre ++ ascon_pad_bytes msg)) k (sh (ak s)) (spos (ak s))
    end.

  Lemma ascon_update_ok s Z pre msg d : ascon_inv s Z pre msg 0 ->
    exists s', ascon_update s d = Ok s' /\ ascon_inv s' Z pre (msg ++ d) 0.
  Proof.
    intros (HZ & Hl & Hq & H). unfold ascon_update.
    destruct (buf_update_ok ascon_block 8 64 false ltac:(lia) ltac:(lia) (ascon_iv ty) (ak s) _ d H)
      as (s' & E & H'). unfold bschk in E. rewrite E. cbn [bind]. eexists. split; [reflexivity|].
    split; [auto|]. split; [exact (buf_inv_sm _ _ _ _ _ _ _ H')|]. split; [auto|].
    cbn [ak]. rewrite app_assoc. exact H'.
  Qed.

  Lemma ascon_pad_block_ok k pre msg q : length pre = q * 8 -> bytes_ok pre -> bytes_ok msg ->
    buf_inv ascon_block 8 64 false (ascon_iv ty) k (pre ++ msg) ->
    exists m p, ascon_pad k = Ok (mkst (as_state ty (pre ++ ascon_pad_bytes msg)) m p (stotal k)) /\
      length m = 64 /\ firstn 8 m = zeros 8.
  Proof.
    intros Hq Hpre Hmsg (B & T & J & n & Emsg & HB & Hrem & Hc & Htot & Hm & Hlen & Hpos).
    unfold okrem in Hrem. unfold ascon_pad. rewrite Hpos, Hm.
    assert (HJ : length T + length J = 64) by (rewrite <- Hlen, Hm, app_length; lia).
    rewrite store_app by lia. cbn [bind].
    assert (HT : length msg mod 8 = length T).
    { assert (L : length (pre ++ msg) = length (B ++ T)) by (rewrite Emsg; reflexivity).
      rewrite !app_length, Hq, HB in L.
      replace (length msg) with (length T + (n - q) * 8).
      - rewrite Nat.mod_add, Nat.mod_small by lia. reflexivity.
      - assert (q <= n) by lia. nia. }
    set (z := 7 - length T).
    assert (E0 : (if 8 =? length T + 1 then Ok (T ++ [1%N] ++ skipn 1 J)
       else n0 <- size_sub 8 (length T + 1) ;; memset (T ++ [1%N] ++ skipn 1 J) (length T + 1) 0 n0)
       = Ok ((T ++ [1%N] ++ zeros z) ++ skipn (z + 1) J)).
    { destruct (Nat.eqb_spec 8 (length T + 1)) as [E|E].
      - replace z with 0 by lia. rewrite <- !app_assoc. reflexivity.
      - rewrite size_sub_ok by lia. cbn [bind]. rewrite app_assoc.
        rewrite memset_app; [|rewrite app_length; cbn; lia|rewrite skipn_length; lia].
        replace (8 - (length T + 1)) with z by lia.
        rewrite Lemmas.skipn_skipn, <- !app_assoc. reflexivity. }
    rewrite E0. cbn [bind]. clear E0.
    assert (LP : length (T ++ [1%N] ++ zeros z) = 8).
    { rewrite !app_length, zeros_length. cbn [length]. lia. }
    unfold md_transform1. rewrite load_app by lia. cbn [bind block_loop].
    rewrite ascon_step_f, firstn_all2 by lia.
    rewrite memset_ok by (rewrite app_length, skipn_length; lia). cbn [bind].
    do 2 eexists. split; [|split].
    - f_equal. f_equal.
      assert (LX : length (pre ++ ascon_pad_bytes msg) = (n + 1) * 8).
      { unfold ascon_pad_bytes. rewrite HT. fold z. rewrite (app_assoc pre msg), Emsg, <- (app_assoc B T), app_length, LP. lia. }
      rewrite (proj1 (as_state_fold ty _ _ LX ltac:(apply bytes_ok_app; auto using ascon_pad_ok))).
      unfold ascon_pad_bytes. rewrite HT. fold z. rewrite (app_assoc pre msg), Emsg, <- (app_assoc B T), blocks_n_app by auto.
      rewrite fold_left_app. cbn [blocks_n fold_left]. rewrite firstn_all2 by lia. f_equal.
      rewrite Hc. apply block_loop_fold. exact ascon_step_f.
    - rewrite overlay_length; rewrite ?repeat_length, app_length, skipn_length; lia.
    - unfold overlay. reflexivity.
  Qed.

  Lemma ascon_squeeze_ok s Z pre msg q k n : 0 < n -> length pre = q * 8 -> bytes_ok pre -> bytes_ok msg ->
    ascon_inv s Z pre msg k ->
    exists s', ascon_squeeze s n = Ok (s', skipn k (as_out (pre ++ ascon_pad_bytes msg) (k + n))) /\
      ascon_inv s' Z pre msg (k + n).
  Proof.
    intros Hn Hq Hpre Hmsg (HZ & Hl & H). unfold ascon_squeeze. cbv zeta.
    destruct (ascon_pad_length msg) as (j & Hj).
    assert (LX : length (pre ++ ascon_pad_bytes msg) = (q + j) * 8) by (rewrite app_length; lia).
    assert (OX : bytes_ok (pre ++ ascon_pad_bytes msg)) by (apply bytes_ok_app; auto using ascon_pad_ok).
    pose proof (proj2 (as_state_fold ty _ _ LX OX)) as So.
    destruct k as [|k].
    - destruct H as [Hqz H]. rewrite Hqz.
      destruct (ascon_pad_block_ok (ak s) pre msg q Hq Hpre Hmsg H) as (m' & p' & -> & Hm' & Hz').
      cbn [bind sh sm spos stotal]. fold (ascon_next m').
      rewrite (as_out_seg m' _ _ _ Hz' LX OX), seg_skip.
      destruct (sq_first_ok (ascon_next m') (words_bytes 8) 8 as_ok ltac:(lia) as_emit
                  (as_next_ok m' Hz') _ p' n So Hn) as (c' & pos' & -> & Hi).
      cbn [bind]. eexists. split; [reflexivity|].
      destruct n; [lia|]. split; [auto|]. split; [auto|]. split; [reflexivity|]. split; [exact Hz'|exact Hi].
    - destruct H as (Hqz & Hz & H). rewrite Hqz. fold (ascon_next (sm (ak s))).
      rewrite (as_out_seg (sm (ak s)) _ _ _ Hz LX OX), seg_skip.
      destruct (sq_more_ok (ascon_next (sm (ak s))) (words_bytes 8) 8 as_ok ltac:(lia) as_emit
                  (as_next_ok _ Hz) _ (S k) _ _ n So Hn H) as (c' & pos' & -> & Hi).
      cbn [bind]. eexists. split; [reflexivity|].
      change (S k + n) with (S (k + n)). split; [auto|]. split; [auto|]. split; [reflexivity|].
      split; [exact Hz|exact Hi].
  Qed.

  Definition as_pre (Z : list N) : list N := match ty with ACxof => ascon_custom Z | _ => [] end.

  Lemma ascon_init_ok s : length (sm (ak s)) = 64 ->
    exists s', ascon_init ty s = Ok s' /\ ascon_inv s' (aZ s) (as_pre (aZ s)) [] 0.
  Proof.
    intros Hl. unfold ascon_init. cbv zeta. set (Z := aZ s).
    set (s0 := mkas (mkst (ascon_iv ty) (zero_memory (sm (ak s))) 0 0) Z false).
    assert (H0 : ascon_inv s0 Z [] [] 0).
    { split; [auto|]. split; [unfold s0, zero_memory; cbn [ak sm]; rewrite zeros_length; auto|].
      split; [auto|]. apply buf_inv_start; try lia. unfold zero_memory. rewrite zeros_length. auto. }
    clearbody s0. unfold as_pre.
    assert (Hgo : exists s', 
      (s1 <- ascon_update s0 (le_bytes 8 (trunc 64 (N.of_nat (length (aZ s0)) * 8))) ;;
       s2 <- match aZ s1 with [] => Ok s1 | _ :: _ => ascon_update s1 (aZ s1) end ;;
       data <- load (le_bytes 8 1) 0 (8 - length (aZ s2) mod 8) ;; ascon_update s2 data) = Ok s' /\
      ascon_inv s' Z (ascon_custom Z) [] 0).
    { pose proof H0 as (Z0 & _). rewrite Z0.
      destruct (ascon_update_ok s0 Z [] [] (le_bytes 8 (trunc 64 (N.of_nat (length Z) * 8))) H0)
        as (s1 & -> & H1). cbn [bind app] in *. pose proof H1 as (Z1 & _). rewrite Z1.
      assert (E2 : exists s2, (match Z with [] => Ok s1 | _ :: _ => ascon_update s1 Z end) = Ok s2 /\
        ascon_inv s2 Z [] (le_bytes 8 (trunc 64 (N.of_nat (length Z) * 8)) ++ Z) 0).
      { destruct (ascon_update_ok s1 Z [] _ Z H1) as (s2 & E & H2). destruct Z; [|eauto].
        exists s1. rewrite app_nil_r. auto. }
      destruct E2 as (s2 & -> & H2). cbn [bind]. pose proof H2 as (Z2 & _). rewrite Z2.
      pose proof (Nat.mod_upper_bound (length Z) 8 ltac:(lia)) as U.
      rewrite load_ok by (rewrite le_bytes_length; lia). cbn [bind skipn].
      replace (firstn (8 - length Z mod 8) (le_bytes 8 1)) with ([1%N] ++ zeros (7 - length Z mod 8)).
      2:{ set (u := length Z mod 8) in *. clearbody u. do 8 (destruct u; [reflexivity|]). lia. }
      destruct (ascon_update_ok s2 Z [] _ ([1%N] ++ zeros (7 - length Z mod 8)) H2) as (s3 & E3 & H3).
      exists s3. split; [exact E3|].
      destruct H3 as (A & B & C & D). split; [auto|]. split; [auto|]. split; [auto|].
      rewrite app_nil_r. cbn [app] in D.
      match type of D with buf_inv _ _ _ _ _ _ ?x => replace x with (ascon_custom Z) in D; [exact D|] end.
      unfold ascon_custom, ascon_pad_bytes.
      replace (bitlen Z mod 2 ^ 64)%N with (trunc 64 (N.of_nat (length Z) * 8)).
      - rewrite <- !app_assoc. reflexivity.
      - rewrite trunc_mod. unfold bitlen. f_equal. lia. }
    destruct ty; [exists s0; auto|exists s0; auto|exact Hgo].
  Qed.

  Lemma as_pre_ok Z : bytes_ok Z -> bytes_ok (as_pre Z).
  Proof.
    intros. unfold as_pre. destruct ty; [constructor|constructor|]. unfold ascon_custom.
    apply bytes_ok_app; [apply le_bytes_ok|apply ascon_pad_ok; auto].
  Qed.
  Lemma as_pre_length Z : exists q, length (as_pre Z) = q * 8.
  Proof.
    unfold as_pre. destruct ty; try (exists 0; reflexivity).
    unfold ascon_custom. destruct (ascon_pad_length Z) as (n & E). exists (S n).
    rewrite app_length, le_bytes_length. lia.
  Qed.
  Lemma ascon_inv_sm s Z pre msg k : ascon_inv s Z pre msg k -> length (sm (ak s)) = 64.
  Proof. intros (_ & H & _). exact H. Qed.

  (** Simulation relation. *)
  Definition ascon_R (s : ascon_st) (Z msg : list N) (k : nat) : Prop :=
    bytes_ok Z /\ bytes_ok msg /\ ascon_inv s Z (as_pre Z) msg k.

  Lemma ascon_R_init s Z msg k : ascon_R s Z msg k ->
    exists s', ascon_init ty s = Ok s' /\ ascon_R s' Z [] 0.
  Proof.
    intros (HZ & _ & H). destruct (ascon_init_ok s (ascon_inv_sm _ _ _ _ _ H)) as (s' & E & H').
    destruct H as (EZ & _). rewrite EZ in H'. exists s'. split; [auto|]. split; [auto|]. split; [constructor|auto].
  Qed.
  Lemma ascon_R_update s Z msg d : bytes_ok d -> ascon_R s Z msg 0 ->
    exists s', ascon_update s d = Ok s' /\ ascon_R s' Z (msg ++ d) 0.
  Proof.
    intros Hd (HZ & Hm & H). destruct (ascon_update_ok s Z _ msg d H) as (s' & E & H').
    exists s'. split; [auto|]. split; [auto|]. split; [apply bytes_ok_app; auto|auto].
  Qed.
  Lemma ascon_R_clear s Z msg k : ascon_R s Z msg k ->
    exists s1 s2, ascon_clear s = Ok s1 /\ ascon_init ty s1 = Ok s2 /\ ascon_R s2 Z [] 0.
  Proof.
    intros (HZ & _ & H). eexists. unfold ascon_clear.
    match goal with |- context [Ok ?x = Ok _] => destruct (ascon_init_ok x) as (s2 & E & H') end.
    - cbn [ak sm]. unfold zero_memory. rewrite zeros_length. exact (ascon_inv_sm _ _ _ _ _ H).
    - destruct H as (EZ & _). cbn [aZ] in H'. rewrite EZ in H'.
      exists s2. split; [reflexivity|]. split; [exact E|]. split; [auto|]. split; [constructor|auto].
  Qed.
  Lemma ascon_R_squeeze s Z msg k n : 0 < n -> ascon_R s Z msg k ->
    exists s', ascon_squeeze s n = Ok (s', skipn k (as_out (as_pre Z ++ ascon_pad_bytes msg) (k + n))) /\
      ascon_R s' Z msg (k + n).
  Proof.
    intros Hn (HZ & Hm & H). destruct (as_pre_length Z) as (q & Hq).
    destruct (ascon_squeeze_ok s Z _ msg q k n Hn Hq (as_pre_ok Z HZ) Hm H) as (s' & E & H').
    exists s'. split; [exact E|]. split; [auto|]. split; [auto|exact H'].
  Qed.
  Lemma ascon_out_ok Z msg n : bytes_ok Z -> bytes_ok msg ->
    length (as_out (as_pre Z ++ ascon_pad_bytes msg) n) = n /\
    bytes_ok (as_out (as_pre Z ++ ascon_pad_bytes msg) n).
  Proof.
    intros HZ Hm. destruct (as_pre_length Z) as (q & Hq). destruct (ascon_pad_length msg) as (j & Hj).
    assert (LX : length (as_pre Z ++ ascon_pad_bytes msg) = (q + j) * 8) by (rewrite app_length; lia).
    assert (OX : bytes_ok (as_pre Z ++ ascon_pad_bytes msg))
      by (apply bytes_ok_app; [apply as_pre_ok|apply ascon_pad_ok]; auto).
    split; [apply (as_out_length _ _ _ LX OX)|apply (as_out_bytes _ _ _ LX OX)].
  Qed.
  Lemma ascon_R_fresh g : length (sm g) = 64 ->
    exists s, fresh_of (ascon_ctor g) (ascon_init ty) = Ok s /\ ascon_R s [] [] 0.
  Proof.
    intros Hg. destruct (ascon_init_ok (mkas g [] false) Hg) as (s & E & H).
    exists s. split; [exact E|]. split; [constructor|]. split; [constructor|exact H].
  Qed.
End Obj.

Lemma ascon_hash_sim : sim ascon_hash ascon_hash_spec (fun s _ msg => ascon_R AHash s [] msg 0) true.
Proof.
  constructor.
  - intros s p msg H. exact (ascon_R_init AHash s [] msg 0 H).
  - intros s p msg d Hd H. exact (ascon_R_update AHash s [] msg d Hd H).
  - intros _ s p msg H. exact (ascon_R_clear AHash s [] msg 0 H).
  - intros q. destruct q.
  - intros s p msg H.
    destruct (ascon_R_squeeze AHash s [] msg 0 32 ltac:(lia) H) as (s' & E & _). exists s'. exact E.
  - intros. reflexivity.
  - intros s p msg (HZ & Hm & _). exact (proj1 (ascon_out_ok AHash [] msg 32 HZ Hm)).
  - intros s p msg (HZ & Hm & _). exact (proj2 (ascon_out_ok AHash [] msg 32 HZ Hm)).
  - cbn. lia.
Qed.

Lemma ascon_xof_sim : xsim ascon_xof ascon_xof_spec (fun s _ msg k => ascon_R AXof s [] msg k) true.
Proof.
  constructor.
  - intros s p msg k H. exact (ascon_R_init AXof s [] msg k H).
  - intros s p msg d Hd H. exact (ascon_R_update AXof s [] msg d Hd H).
  - intros _ s p msg k H. exact (ascon_R_clear AXof s [] msg k H).
  - intros q. destruct q.
  - intros s p msg k n Hn H. exact (ascon_R_squeeze AXof s [] msg k n Hn H).
  - intros s p msg k n (HZ & Hm & _). exact (proj1 (ascon_out_ok AXof [] msg n HZ Hm)).
  - intros s p msg k n (HZ & Hm & _). exact (proj2 (ascon_out_ok AXof [] msg n HZ Hm)).
Qed.

Lemma ascon_cxof_sim : xsim ascon_cxof ascon_cxof_spec (ascon_R ACxof) false.
Proof.
  constructor.
  - intros s p msg k H. exact (ascon_R_init ACxof s p msg k H).
  - intros s p msg d Hd H. exact (ascon_R_update ACxof s p msg d Hd H).
  - discriminate.
  - intros q v s p msg k Hv (HZ & Hm & H). cbn [xs_set ascon_cxof_spec].
    destruct (ascon_init_ok ACxof (mkas (ak s) v (asq s)) (ascon_inv_sm _ _ _ _ _ _ H)) as (s' & E & H').
    eexists. exists s'. split; [reflexivity|]. split; [exact E|]. split; [auto|]. split; [constructor|exact H'].
  - intros s p msg k n Hn H. exact (ascon_R_squeeze ACxof s p msg k n Hn H).
  - intros s p msg k n (HZ & Hm & _). exact (proj1 (ascon_out_ok ACxof p msg n HZ Hm)).
  - intros s p msg k n (HZ & Hm & _). exact (proj2 (ascon_out_ok ACxof p msg n HZ Hm)).
Qed.

Theorem ascon_hash_implements g : length (sm g) = 64 ->
  implements ascon_hash ascon_hash_spec true (fresh_of (ascon_ctor g) (ascon_init AHash)).
Proof.
  intros Hg. destruct (ascon_R_fresh AHash g Hg) as (s & -> & H).
  exact (sim_implements _ _ _ true ascon_hash_sim s H).
Qed.
Theorem ascon_xof_implements g : length (sm g) = 64 ->
  ximplements ascon_xof ascon_xof_spec true (fresh_of (ascon_ctor g) (ascon_init AXof)).
Proof.
  intros Hg. destruct (ascon_R_fresh AXof g Hg) as (s & -> & H).
  exact (xsim_implements _ _ _ true ascon_xof_sim s H).
Qed.
Theorem ascon_cxof_implements g : length (sm g) = 64 ->
  ximplements ascon_cxof ascon_cxof_spec false (fresh_of (ascon_ctor g) (ascon_init ACxof)).
Proof.
  intros Hg. destruct (ascon_R_fresh ACxof g Hg) as (s & -> & H).
  exact (xsim_implements _ _ _ false ascon_cxof_sim s H).
Qed.
