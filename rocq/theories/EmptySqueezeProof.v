(** * What an empty squeeze does. *)
From Verif Require Import Base Lemmas Absorb AbsorbProof Hasher HasherSpec HasherProof HasherWhen MdState MdProof SpongeProof Squeeze SqueezeProof
  Library LibraryTypes LibraryProof XLibraryProof LibraryTypesProof EmptySqueeze
  Keccak Sha3 KeccakProof Shake Sha3Spec EncodeProof ShakeProof Kmac KmacProof K12Spec K12 K12Proof Ascon AsconSpec AsconProof.
Local Open Scope nat_scope.

(** The type [T] is simulated by [S] through [R]. *)
Record xstart {P} (T : xtype P) (S : xof_spec (p_param P)) (R : pst P -> xs_params S -> list N -> nat -> Prop) : Prop := {
  xs_sim : xsim P S R (xt_clr T);
  xs_good : xgood T S;
  xs_new : forall g, xt_mem_ok T g -> exists s0, xt_new T g = Ok s0 /\ R s0 (xs_default S) [] 0
}.

Section Start.
  Context {P : xof_provider} {T : xtype P} {S : xof_spec (p_param P)} {R : pst P -> xs_params S -> list N -> nat -> Prop}.
  Hypothesis H : xstart T S R.

  Lemma xst_counts ops : forall p m k, exists p', xst S (p, m, k) ops = (p', fold_left (xmsg1 T) ops m, fold_left (xcount1 T) ops k).
  Proof.
    induction ops as [|o r IH]; intros p m k; [exists p; reflexivity|]. rewrite xst_cons. cbn [fold_left].
    destruct o as [[f d|[]|q v]|n|n|n]; try apply IH.
    cbn [xstep xmsg1 xcount1]. pose proof (xg_acc _ _ (xs_good _ _ _ H) q v p) as A. destruct (xs_set S q v p); rewrite A; apply IH.
  Qed.
  Lemma reach_at g pre : xt_mem_ok T g -> xcalls T pre -> exists s0 s l,
    xt_new T g = Ok s0 /\ xof_run P s0 pre = Ok (s, l) /\ R s (xparam S pre) (xmsg T pre) (xcount T pre).
  Proof.
    intros Hg Hp. destruct (xs_new _ _ _ H g Hg) as (s0 & E0 & R0).
    destruct (xof_run_ok P S R (xt_clr T) (xs_sim _ _ _ H) pre s0 (xs_default S) [] 0) as (s & E & R1);
      [exact (xcalls_ok (xs_good _ _ _ H) pre (xfresh S) Hp)|exact R0|].
    exists s0, s. destruct (xst_counts pre (xs_default S) [] 0) as (p' & Ep). unfold xparam. unfold xst, xfresh in *. rewrite Ep in *.
    eexists. eauto.
  Qed.
  Lemma reach g pre : xt_mem_ok T g -> xcalls T pre -> exists s0 s p l,
    xt_new T g = Ok s0 /\ xof_run P s0 pre = Ok (s, l) /\ R s p (xmsg T pre) (xcount T pre).
  Proof. intros Hg Hp. destruct (reach_at g pre Hg Hp) as (s0 & s & l & A & B & C). eauto 8. Qed.
  Lemma squeeze_then g pre (f : nat -> list N) :
    xt_mem_ok T g -> xcalls T pre ->
    (forall s, R s (xparam S pre) (xmsg T pre) (xcount T pre) ->
      exists s0, xp_squeeze P s 0 = Ok (s0, []) /\ forall n, exists s1, xp_squeeze P s0 n = Ok (s1, f n) /\ length (f n) = n) ->
    forall n, xafter T g (pre ++ [XSqueezeBuf 0]) [XSqueezeBuf n] = Ok [OBytes (f n)].
  Proof.
    intros Hg Hp Hs n. destruct (reach_at g pre Hg Hp) as (s0 & s & l & E0 & E1 & R1).
    destruct (Hs s R1) as (s' & A & B). destruct (B n) as (s1 & B1 & L). unfold xafter. rewrite E0. cbn [bind].
    rewrite !xof_run_app, E1. cbn [bind xof_run xof_step]. unfold squeeze_buf. rewrite A. cbn [bind length].
    change (memcpy (zeros 0) 0 [] 0) with (Ok (@nil N)). cbn [bind]. rewrite B1. cbn [bind].
    rewrite memcpy_full by (rewrite zeros_length; lia). cbn [bind]. rewrite skipn_all2 by (rewrite zeros_length; lia).
    rewrite app_nil_r. reflexivity.
  Qed.

  Lemma squeeze_same g pre j post :
    xt_mem_ok T g -> xcalls T pre ->
    (forall s p, R s p (xmsg T pre) (xcount T pre) -> exists s' w, xp_squeeze P s 0 = Ok (s', []) /\ xp_squeeze P s j = Ok (s', w) /\ length w = j) ->
    xafter T g (pre ++ [XSqueezeBuf 0]) post = xafter T g (pre ++ [XSqueezeBuf j]) post /\
    xafter T g pre [XSqueezeBuf 0] = Ok [OBytes []].
  Proof.
    intros Hg Hp Hs. destruct (reach g pre Hg Hp) as (s0 & s & p & l & E0 & E1 & R1).
    destruct (Hs s p R1) as (s' & w & A & B & L). unfold xafter. rewrite E0. cbn [bind]. rewrite !xof_run_app, E1. cbn [bind xof_run xof_step].
    unfold squeeze_buf. rewrite A, B. cbn [bind length]. change (memcpy (zeros 0) 0 [] 0) with (Ok (@nil N)). cbn [bind].
    rewrite (memcpy_full (zeros j)) by (rewrite zeros_length; lia). split; reflexivity.
  Qed.
  Lemma squeeze_noop g pre post :
    xt_mem_ok T g -> xcalls T pre ->
    (forall s p, R s p (xmsg T pre) (xcount T pre) -> xp_squeeze P s 0 = Ok (s, [])) ->
    xafter T g (pre ++ [XSqueezeBuf 0]) post = xafter T g pre post /\
    xafter T g pre [XSqueezeBuf 0] = Ok [OBytes []].
  Proof.
    intros Hg Hp Hs. destruct (reach g pre Hg Hp) as (s0 & s & p & l & E0 & E1 & R1).
    specialize (Hs s p R1). unfold xafter. rewrite E0. cbn [bind]. rewrite !xof_run_app, E1. cbn [bind xof_run xof_step].
    unfold squeeze_buf. rewrite Hs. cbn [bind length]. split; reflexivity.
  Qed.
End Start.

(** ** The common loop *)
Section Loop.
  Context {C : Type} (next : C -> C) (emit : C -> list N) (r : nat).
  Hypothesis Hr : 0 < r.

  Lemma sq_more_zero c pos : 0 < pos < r -> pos <= length (emit c) -> sq_more next emit r c pos 0 = Ok (c, pos, []).
  Proof.
    intros [Hp H1] Hl. unfold sq_more. destruct (Nat.ltb_spec pos r); [|lia]. rewrite Nat.min_0_l.
    rewrite load_ok by lia. cbn [bind firstn sq_loop]. rewrite Nat.add_0_r. reflexivity.
  Qed.
  Lemma sq_more_full c : r <= length (emit (next c)) ->
    sq_more next emit r c r 0 = Ok (next c, r, []) /\ sq_more next emit r c r r = Ok (next c, r, firstn r (emit (next c))).
  Proof.
    intros Hl. unfold sq_more. rewrite Nat.ltb_irrefl, Nat.eqb_refl. split; [reflexivity|].
    destruct r as [|n] eqn:E; [lia|]. cbn [sq_loop]. destruct (Nat.ltb_spec 0 (S n)); [|lia]. cbn [Nat.eqb].
    rewrite Nat.sub_0_r, Nat.min_id. rewrite load_ok by lia. cbn [bind]. rewrite Nat.add_0_l.
    destruct n; cbn [sq_loop]; [reflexivity|]. rewrite Nat.ltb_irrefl. reflexivity.
  Qed.
  Lemma sq_first_same c pos : 0 < pos <= r -> r <= length (emit c) ->
    sq_first next emit r c pos 0 = Ok (c, pos, []) /\ sq_first next emit r c pos pos = Ok (c, pos, firstn pos (emit c)).
  Proof.
    intros Hp Hl. unfold sq_first. split; [reflexivity|].
    destruct pos as [|n]; [lia|]. cbn [sq_loop]. destruct (Nat.ltb_spec 0 (S n)); [|lia]. cbn [Nat.eqb].
    rewrite Nat.sub_0_r, Nat.min_l by lia. rewrite load_ok by lia. cbn [bind]. rewrite Nat.add_0_l.
    destruct n; cbn [sq_loop]; [reflexivity|]. rewrite Nat.ltb_irrefl. reflexivity.
  Qed.
  Lemma sq_inv_pos c0 k c pos : sq_inv next r c0 k c pos -> (k mod r = 0 -> pos = r) /\ (k mod r <> 0 -> 0 < pos < r).
  Proof.
    intros (a & -> & Hp & _). rewrite Nat.add_comm, Nat.mod_add by lia. destruct (Nat.eq_dec pos r) as [->|].
    - rewrite Nat.mod_same by lia. lia.
    - rewrite Nat.mod_small by lia. lia.
  Qed.
End Loop.

Lemma load_length src pos n w : load src pos n = Ok w -> length w = n.
Proof. unfold load. destruct (Nat.leb_spec (pos + n) (length src)); [|discriminate]. intros E. injection E as <-. rewrite firstn_length, skipn_length. lia. Qed.

(** [j] bytes squeezed and thrown away. *)
Definition same {st} (sq : st -> nat -> res (st * list N)) (s : st) (j : nat) : Prop :=
  exists s' w, sq s 0 = Ok (s', []) /\ sq s j = Ok (s', w) /\ length w = j.


Section ShakeZero.
  Variables (B : N) (R r64 : nat).
  Hypothesis HR : R <= 24.
  Hypothesis Hr64 : 1 <= r64 <= 21.
  Hypothesis Hrate : shake_rate B = N.of_nat (64 * r64).
  Notation r := (8 * r64).

  Lemma emit_r A : length A = 25 -> r <= length (words_bytes 8 A).
  Proof. intros E. rewrite words_bytes_length, E. lia. Qed.
  Lemma inv_25 D msg k A p : sq_inv (kc_perm R) r (S0 R r64 D msg) k A p -> length A = 25.
  Proof.
    intros (a & _ & _ & ->). apply (inv_iter (kc_perm R) (fun c => length c = 25)); [apply kc_perm_length|].
    exact (S0_length B R r64 HR Hr64 Hrate _ _).
  Qed.

  Lemma shake_noop s fn cust sfx msg k : shake_inv R r64 s fn cust sfx msg k -> 0 < k -> k mod r <> 0 ->
    shake_squeeze B R s 0 = Ok (s, []).
  Proof.
    intros (HN & HS & Hx & Hl & H) Hk Hm. destruct k as [|k]; [lia|]. destruct H as [Hq H].
    destruct (sq_inv_pos (kc_perm R) r ltac:(lia) _ _ _ _ H) as [_ Hp]. specialize (Hp Hm).
    unfold shake_squeeze. rewrite Hq, (sh_r B r64 Hrate).
    pose proof (emit_r _ (inv_25 _ _ _ _ _ H)).
    rewrite sq_more_zero by lia. cbn [bind]. destruct s as [[A m p t] ? ? ? ?]. cbn in *. subst. reflexivity.
  Qed.
  Lemma shake_boundary s fn cust sfx msg k : shake_inv R r64 s fn cust sfx msg k -> 0 < k -> k mod r = 0 ->
    same (shake_squeeze B R) s r.
  Proof.
    intros (HN & HS & Hx & Hl & H) Hk Hm. destruct k as [|k]; [lia|]. destruct H as [Hq H].
    destruct (sq_inv_pos (kc_perm R) r ltac:(lia) _ _ _ _ H) as [Hp _]. specialize (Hp Hm).
    unfold same, shake_squeeze. rewrite Hq, (sh_r B r64 Hrate), Hp.
    pose proof (emit_r _ (kc_perm_length R _ (inv_25 _ _ _ _ _ H))) as L.
    destruct (sq_more_full (kc_perm R) (words_bytes 8) r ltac:(lia) (sh (hk s)) L) as [-> ->]. cbn [bind].
    eexists. eexists. split; [reflexivity|]. split; [reflexivity|]. rewrite firstn_length. lia.
  Qed.
  Lemma shake_first s fn cust sfx msg : shake_inv R r64 s fn cust sfx msg 0 ->
    same (shake_squeeze B R) s (length msg mod r + 1).
  Proof.
    intros (HN & HS & Hx & Hl & Hq & H). unfold same, shake_squeeze. rewrite Hq, (sh_r B r64 Hrate), HN, HS, Hx.
    fold (dom_byte sfx fn cust).
    assert (Hpos : spos (hk s) = length msg mod r).
    { destruct H as (B' & T & J & n & Emsg & HB & Hrem & Hc & Htot & Hm & Hlen & Hpos). unfold okrem in Hrem.
      rewrite Hpos, Emsg, app_length, HB, Nat.add_comm, Nat.mod_add by lia. rewrite Nat.mod_small by lia. reflexivity. }
    destruct (kc_pad_ok R r64 168 HR (Hr25 B R r64 HR Hr64 Hrate) (Hcap B R r64 HR Hr64 Hrate) (shake_rate B) (dom_byte sfx fn cust) (hk s) msg
                (sh_r B r64 Hrate) (sh_r64 B r64 Hrate) H) as (m' & p' & E & Hm').
    assert (p' = length msg mod r + 1).
    { rewrite <- Hpos. revert E. unfold kc_pad_block.
      repeat match goal with |- bind ?x _ = _ -> _ => destruct x; cbn [bind]; try discriminate end.
      intros E. injection E as _ _ E. auto. }
    subst p'. rewrite E. cbn [bind sh sm spos stotal].
    pose proof (Nat.mod_upper_bound (length msg) r ltac:(lia)).
    pose proof (emit_r _ (S0_length B R r64 HR Hr64 Hrate (dom_byte sfx fn cust) msg)) as L. unfold S0 in L.
    destruct (sq_first_same (kc_perm R) (words_bytes 8) r ltac:(lia) _ (length msg mod r + 1) ltac:(lia) L) as [E1 E2].
    rewrite E1, E2. cbn [bind]. eexists. eexists. split; [reflexivity|]. split; [reflexivity|]. rewrite firstn_length. lia.
  Qed.
End ShakeZero.

(** The behaviour of a sponge type with rate [r]; [tail] as in [sponge_tail]. *)
Record zero_laws {P : xof_provider} {A} (R : pst P -> A -> list N -> nat -> Prop) (r : nat) (tail : option nat) : Prop := {
  zl_noop : forall s p m k, R s p m k -> 0 < k -> k mod r <> 0 -> xp_squeeze P s 0 = Ok (s, []);
  zl_boundary : forall s p m k, R s p m k -> 0 < k -> k mod r = 0 -> same (xp_squeeze P) s r;
  zl_first : forall s p m, R s p m 0 ->
    exists j, 1 <= j <= r /\ (forall t, tail = Some t -> j = (length m + t) mod r + 1) /\ same (xp_squeeze P) s j
}.

Lemma mod_add_front x y r : 0 < r -> x mod r = 0 -> (x + y) mod r = y mod r.
Proof. intros Hr H. rewrite <- Nat.add_mod_idemp_l, H by lia. reflexivity. Qed.
Lemma fill_mod x r : 0 < r -> (x + (r - x mod r)) mod r = 0.
Proof.
  intros Hr. pose proof (Nat.mod_upper_bound x r ltac:(lia)). rewrite (Nat.div_mod x r) at 1 by lia.
  replace (r * (x / r) + x mod r + (r - x mod r)) with (0 + (x / r + 1) * r) by nia. rewrite Nat.mod_add, Nat.mod_0_l; lia.
Qed.
Lemma hdr_mod r64 fn cust : 1 <= r64 -> length (hdr r64 fn cust) mod (8 * r64) = 0.
Proof.
  intros H. unfold hdr. destruct fn; [destruct cust|]; [apply Nat.mod_0_l; lia|..]; rewrite app_length, zeros_length; apply fill_mod; lia.
Qed.

Section Fips.
  Variables (B : N) (r64 sec : nat).
  Hypothesis Hr64 : 1 <= r64 <= 21.
  Hypothesis Hrate : shake_rate B = N.of_nat (64 * r64).
  Hypothesis Hsec : 8 * r64 = 200 - 2 * sec.
  Hypothesis Hpad : (if (B =? 128)%N then 168 else 136) = 8 * r64.
  Notation r := (8 * r64).

  Lemma cshake_zero : zero_laws (P := cshake B 24) (cshake_R r64) r (Some 0).
  Proof.
    constructor.
    - intros s p m k (_ & _ & _ & H). exact (shake_noop B 24 r64 (le_n 24) Hr64 Hrate _ _ _ _ _ _ H).
    - intros s p m k (_ & _ & _ & H). exact (shake_boundary B 24 r64 (le_n 24) Hr64 Hrate _ _ _ _ _ _ H).
    - intros s p m (_ & _ & _ & H). pose proof (shake_first B 24 r64 (le_n 24) Hr64 Hrate _ _ _ _ _ H) as F.
      rewrite app_length, mod_add_front in F by (try apply hdr_mod; lia).
      eexists. split; [|split; [|exact F]]; [pose proof (Nat.mod_upper_bound (length m) r ltac:(lia)); lia|].
      intros t E. injection E as <-. rewrite Nat.add_0_r. reflexivity.
  Qed.

  Lemma key_block_mod key : length (key_block sec key) mod r = 0.
  Proof.
    unfold key_block, bytepad. rewrite <- Hsec, app_length, zeros_length. set (n := length _).
    rewrite Nat.add_mod_idemp_r by lia. apply fill_mod. lia.
  Qed.
  Lemma kmac_zero : zero_laws (P := kmacxof B) (kmac_R r64 sec 0) r (Some 2).
  Proof.
    constructor.
    - intros s p m k (_ & _ & _ & HK & Hq & H) Hk Hm. cbn [xp_squeeze kmacxof]. unfold kmac_squeeze.
      destruct (Nat.eqb_spec k 0); [lia|]. cbn [negb] in Hq. rewrite Hq. cbn [bind].
      rewrite (shake_noop B 24 r64 (le_n 24) Hr64 Hrate _ _ _ _ _ _ H Hk Hm). cbn [bind]. destruct s; reflexivity.
    - intros s p m k (_ & _ & _ & HK & Hq & H) Hk Hm. unfold same. cbn [xp_squeeze kmacxof]. unfold kmac_squeeze.
      destruct (Nat.eqb_spec k 0); [lia|]. cbn [negb] in Hq. rewrite Hq. cbn [bind].
      destruct (shake_boundary B 24 r64 (le_n 24) Hr64 Hrate _ _ _ _ _ _ H Hk Hm) as (s' & w & E0 & E1 & L).
      rewrite E0, E1. cbn [bind]. eauto.
    - intros s p m (_ & _ & _ & HK & Hq & H). unfold same. cbn [xp_squeeze kmacxof]. unfold kmac_squeeze.
      cbn [Nat.eqb negb] in *. rewrite Hq, right_encode_eq by reflexivity. unfold kmac_update.
      destruct (shake_update_ok B 24 r64 (le_n 24) Hr64 Hrate _ _ _ 0 _ (right_enc 0) H) as (s2 & E2 & I2).
      rewrite E2. cbn [bind kmsh kmK kmhs kmsq].
      destruct (shake_first B 24 r64 (le_n 24) Hr64 Hrate _ _ _ _ _ I2) as (s' & w & E0 & E1 & L).
      rewrite app_nil_r, <- !app_assoc in E1, L.
      rewrite app_length, mod_add_front, app_length, mod_add_front, app_length in E1, L by (try apply hdr_mod; try apply key_block_mod; lia).
      change (length (right_enc 0)) with 2 in *.
      exists ((length m + 2) mod r + 1). split; [pose proof (Nat.mod_upper_bound (length m + 2) r ltac:(lia)); lia|].
      split; [intros t E; injection E as <-; reflexivity|]. rewrite E0, E1. cbn [bind]. eauto.
  Qed.

  Lemma xstart_cshake : xstart (cshake_type B) (with_out (cshake_spec sec) (cshake_code r64 sec)) (cshake_R r64).
  Proof.
    constructor.
    - exact (cshake_sim B r64 sec Hr64 Hrate Hsec).
    - exact (xgood_cshake B r64 sec Hr64 Hrate Hsec).
    - intros g Hg. cbn [xt_new cshake_type]. unfold fresh_of, shake_ctor. cbn [bind].
      destruct (shake_init_ok B 24 r64 (le_n 24) Hr64 Hrate (mksh (fst (fst g)) [] [] (snd (fst g)) (snd g)) Hg) as (s' & E & H').
      exists s'. split; [exact E|]. split; [constructor|]. split; [constructor|]. split; [constructor|]. cbn [hN hS] in H'. rewrite app_nil_r. exact H'.
  Qed.

  Lemma shake_zero : zero_laws (P := shake B 24) (shake_R r64) r (Some 0).
  Proof.
    constructor.
    - intros s p m k (_ & H). exact (shake_noop B 24 r64 (le_n 24) Hr64 Hrate _ _ _ _ _ _ H).
    - intros s p m k (_ & H). exact (shake_boundary B 24 r64 (le_n 24) Hr64 Hrate _ _ _ _ _ _ H).
    - intros s p m (_ & H). pose proof (shake_first B 24 r64 (le_n 24) Hr64 Hrate _ _ _ _ _ H) as F.
      eexists. split; [|split; [|exact F]]; [pose proof (Nat.mod_upper_bound (length m) r ltac:(lia)); lia|].
      intros t E. injection E as <-. rewrite Nat.add_0_r. reflexivity.
  Qed.
  Lemma xstart_shake : xstart (shake_type B) (shake_spec sec) (shake_R r64).
  Proof.
    constructor.
    - exact (shake_sim B r64 sec Hr64 Hrate Hsec).
    - exact (xgood_shake B r64 sec Hr64 Hrate Hsec).
    - intros g Hg. cbn [xt_new shake_type]. unfold fresh_of, shake_ctor. cbn [bind].
      destruct (shake_init_ok B 24 r64 (le_n 24) Hr64 Hrate (mksh (fst (fst g)) [] [] (snd (fst g)) (snd g)) Hg) as (s' & E & H').
      exists s'. split; [exact E|]. split; [constructor|]. exact H'.
  Qed.
  Lemma xstart_kmac : xstart (kmacxof_type B) (with_out (kmacxof_spec sec) (kmac_code r64 sec 0)) (kmac_R r64 sec 0).
  Proof.
    constructor.
    - exact (kmacxof_sim B r64 sec Hr64 Hrate Hsec Hpad).
    - exact (xgood_kmac B r64 sec Hr64 Hrate Hsec Hpad).
    - intros g Hg. cbn [xt_new kmacxof_type]. unfold fresh_of, kmac_ctor_static. cbn [bind].
      destruct (kmac_init_ok B r64 sec Hr64 Hrate 0 (mkkm (kmac_bytepad B []) 0 (snd g) (inner_shake (fst g))) [] [])
        as (s' & E & I' & _).
      + exact Hg.
      + apply (kmac_bytepad_eq B r64 sec Hr64 Hrate Hsec Hpad).
      + constructor.
      + constructor.
      + reflexivity.
      + eauto.
  Qed.
End Fips.

Section Tree.
  Variables (B : N) (R r64 sec : nat).
  Hypothesis HR : R <= 24.
  Hypothesis Hr64 : 1 <= r64 <= 21.
  Hypothesis Hrate : shake_rate B = N.of_nat (64 * r64).
  Hypothesis Hsec : 8 * r64 = 200 - 2 * sec.
  Hypothesis HB4 : N.to_nat (B / 4) = 2 * sec.
  Hypothesis sec_pos : 0 < sec.
  Variable cs : nat.
  Hypothesis Hcs : k12_bs = cs.
  Hypothesis cs_pos : 0 < cs.
  Notation r := (8 * r64).

  Lemma k12_zero : zero_laws (P := k12 B R) (k12_R R r64 sec cs) r None.
  Proof.
    constructor.
    - intros s p m k (_ & _ & _ & _ & _ & _ & H) Hk Hm. destruct k; [lia|]. destruct H as [Hq H]. cbv zeta in H.
      cbn [xp_squeeze k12]. unfold k12_squeeze. rewrite Hq. cbn [bind].
      rewrite (shake_noop B R r64 HR Hr64 Hrate _ _ _ _ _ _ H Hk Hm). cbn [bind]. destruct s; reflexivity.
    - intros s p m k (_ & _ & _ & _ & _ & _ & H) Hk Hm. destruct k; [lia|]. destruct H as [Hq H]. cbv zeta in H.
      unfold same. cbn [xp_squeeze k12]. unfold k12_squeeze. rewrite Hq. cbn [bind].
      destruct (shake_boundary B R r64 HR Hr64 Hrate _ _ _ _ _ _ H Hk Hm) as (s' & w & E0 & E1 & L).
      rewrite E0, E1. cbn [bind]. eauto.
    - intros s p m (_ & _ & _ & Hl & _ & _ & Hq & H). unfold same. cbn [xp_squeeze k12]. unfold k12_squeeze. rewrite Hq.
      destruct (k12_finish_ok B R r64 sec HR Hr64 Hrate Hsec HB4 sec_pos cs Hcs cs_pos s m H Hq Hl) as (s1 & E & HS1 & Hq1 & Hl1 & Hc1 & I1). cbv zeta in I1.
      destruct (shake_first B R r64 HR Hr64 Hrate _ _ _ _ _ I1) as (s' & w & E0 & E1 & L). rewrite E. cbn [bind].
      eexists. split; [|split; [discriminate|]]; [|rewrite E0, E1; cbn [bind]; eauto].
      match goal with |- context [?x mod r] => pose proof (Nat.mod_upper_bound x r ltac:(lia)) end. lia.
  Qed.

  Hypothesis Hcs2 : cs = N.to_nat 8192.
  Hypothesis Himp : forall g1 sq1 sfx1 g2 sq2 sfx2 m pos total chunk sq,
    length (sm g1) = 168 -> length (sm g2) = 168 -> length m = N.to_nat 8192 ->
    ximplements (k12 B R) (kt_spec k12_param R sec) true
     (fresh_of (k12_ctor (new_shake g1 sq1 sfx1) (new_shake g2 sq2 sfx2) m pos total chunk sq) (k12_init B R)).
  Lemma xstart_k12 : xstart (k12_type B R) (kt_spec k12_param R sec) (k12_R R r64 sec cs).
  Proof.
    constructor.
    - exact (k12_sim B R r64 sec HR Hr64 Hrate Hsec HB4 sec_pos cs Hcs cs_pos Hcs2).
    - apply xgood_k12; [lia|exact Himp].
    - intros [[[g1 a1] b1] [[g2 a2] b2] m pos total chunk sq] (G1 & G2 & G3). cbn [xt_new k12_type]. unfold fresh_of, k12_ctor. cbn [bind].
      match goal with |- context [k12_init B R ?x] => destruct (k12_init_ok B R r64 sec HR Hr64 Hrate Hsec HB4 sec_pos cs Hcs cs_pos x []) as (s' & E & I') end.
      + constructor.
      + reflexivity.
      + rewrite Hcs2. exact G3.
      + split; [reflexivity|]. split; [reflexivity|exact G1].
      + split; [reflexivity|]. split; [reflexivity|exact G2].
      + eauto.
  Qed.
End Tree.

Section AsconZero.
  Variable ty : ascon_type.
  Lemma ascon_emit H : as_ok H -> 8 <= length (words_bytes 8 H).
  Proof. apply as_emit. Qed.
  Lemma ascon_inv_ok m c0 k c p : firstn 8 m = zeros 8 -> as_ok c0 -> sq_inv (ascon_next m) 8 c0 k c p -> as_ok c.
  Proof. intros Hz H0 (a & _ & _ & ->). apply (inv_iter (ascon_next m) as_ok); [intros x Hx; exact (as_next_ok m Hz x Hx)|exact H0]. Qed.

  Lemma ascon_zero_laws s Z m k : ascon_R ty s Z m k ->
    (0 < k -> k mod 8 <> 0 -> ascon_squeeze s 0 = Ok (s, [])) /\
    (0 < k -> k mod 8 = 0 -> same ascon_squeeze s 8) /\
    (k = 0 -> same ascon_squeeze s (length m mod 8 + 1)).
  Proof.
    intros (HZ & Hmb & EZ & Hl & H).
    destruct (as_pre_length ty Z) as (q & Hq). destruct (ascon_pad_length m) as (j & Hj).
    assert (LX : length (as_pre ty Z ++ ascon_pad_bytes m) = (q + j) * 8) by (rewrite app_length; lia).
    assert (OX : bytes_ok (as_pre ty Z ++ ascon_pad_bytes m)) by (apply bytes_ok_app; [apply as_pre_ok|apply ascon_pad_ok]; auto).
    pose proof (proj2 (as_state_fold ty _ _ LX OX)) as So.
    split; [|split]; intros Hk.
    - intros Hm. destruct k as [|k]; [lia|]. destruct H as (Hqz & Hz & H).
      destruct (sq_inv_pos _ 8 ltac:(lia) _ _ _ _ H) as [_ Hp]. specialize (Hp Hm).
      unfold ascon_squeeze. cbv zeta. rewrite Hqz. fold (ascon_next (sm (ak s))).
      pose proof (as_emit _ (ascon_inv_ok _ _ _ _ _ Hz So H)).
      rewrite sq_more_zero by lia. cbn [bind]. rewrite <- Hqz. destruct s as [[A mm p t] ? ?]. reflexivity.
    - intros Hm. destruct k as [|k]; [lia|]. destruct H as (Hqz & Hz & H).
      destruct (sq_inv_pos _ 8 ltac:(lia) _ _ _ _ H) as [Hp _]. specialize (Hp Hm).
      unfold same, ascon_squeeze. cbv zeta. rewrite Hqz, Hp. fold (ascon_next (sm (ak s))).
      pose proof (as_emit _ (as_next_ok _ Hz _ (ascon_inv_ok _ _ _ _ _ Hz So H))) as L.
      destruct (sq_more_full _ (words_bytes 8) 8 ltac:(lia) (sh (ak s)) L) as [-> ->]. cbn [bind].
      eexists. eexists. split; [reflexivity|]. split; [reflexivity|]. rewrite firstn_length. lia.
    - subst k. destruct H as [Hqz H]. unfold same, ascon_squeeze. cbv zeta. rewrite Hqz.
      assert (Hpos : spos (ak s) = length m mod 8).
      { destruct H as (B' & T & J & n & Emsg & HB & Hrem & Hc & Htot & Hmm & Hlen & Hpos). unfold okrem in Hrem.
        rewrite Hpos. assert (L : length (as_pre ty Z ++ m) = length (B' ++ T)) by (rewrite Emsg; reflexivity).
        rewrite !app_length, Hq, HB in L. replace (length m) with (length T + (n - q) * 8) by nia.
        rewrite Nat.mod_add, Nat.mod_small by lia. reflexivity. }
      destruct (ascon_pad_block_ok ty (ak s) _ m q Hq (as_pre_ok ty Z HZ) Hmb H) as (m' & p' & E & Hm' & Hz').
      assert (p' = length m mod 8 + 1).
      { rewrite <- Hpos. revert E. unfold ascon_pad. cbv zeta.
        repeat match goal with |- bind ?x _ = _ -> _ => destruct x; cbn [bind]; try discriminate end.
        intros E. injection E as _ _ E. auto. }
      subst p'. rewrite E. cbn [bind sh sm spos stotal]. fold (ascon_next m').
      pose proof (Nat.mod_upper_bound (length m) 8 ltac:(lia)).
      destruct (sq_first_same (ascon_next m') (words_bytes 8) 8 ltac:(lia) _ (length m mod 8 + 1) ltac:(lia) (as_emit _ So)) as [E1 E2].
      rewrite E1, E2. cbn [bind]. pose proof (as_emit _ So).
      eexists. eexists. split; [reflexivity|]. split; [reflexivity|]. rewrite firstn_length. lia.
  Qed.
End AsconZero.
Lemma ascon_xof_zero : zero_laws (P := ascon_xof) (fun s (_ : unit) msg k => ascon_R AXof s [] msg k) 8 (Some 0).
Proof.
  constructor.
  - intros s p m k H. exact (proj1 (ascon_zero_laws AXof s [] m k H)).
  - intros s p m k H. exact (proj1 (proj2 (ascon_zero_laws AXof s [] m k H))).
  - intros s p m H. eexists. split; [|split; [|exact (proj2 (proj2 (ascon_zero_laws AXof s [] m 0 H)) eq_refl)]].
    + pose proof (Nat.mod_upper_bound (length m) 8 ltac:(lia)). lia.
    + intros t E. injection E as <-. rewrite Nat.add_0_r. reflexivity.
Qed.
Lemma ascon_cxof_zero : zero_laws (P := ascon_cxof) (ascon_R ACxof) 8 (Some 0).
Proof.
  constructor.
  - intros s p m k H. exact (proj1 (ascon_zero_laws ACxof s p m k H)).
  - intros s p m k H. exact (proj1 (proj2 (ascon_zero_laws ACxof s p m k H))).
  - intros s p m H. eexists. split; [|split; [|exact (proj2 (proj2 (ascon_zero_laws ACxof s p m 0 H)) eq_refl)]].
    + pose proof (Nat.mod_upper_bound (length m) 8 ltac:(lia)). lia.
    + intros t E. injection E as <-. rewrite Nat.add_0_r. reflexivity.
Qed.
Lemma xstart_ascon_xof : xstart ascon_xof_type ascon_xof_spec (fun s _ msg k => ascon_R AXof s [] msg k).
Proof. constructor; [exact ascon_xof_sim|exact xgood_ascon_xof|]. intros g Hg. exact (ascon_R_fresh AXof g Hg). Qed.
Lemma xstart_ascon_cxof : xstart ascon_cxof_type ascon_cxof_spec (ascon_R ACxof).
Proof. constructor; [exact ascon_cxof_sim|exact xgood_ascon_cxof|]. intros g Hg. exact (ascon_R_fresh ACxof g Hg). Qed.
