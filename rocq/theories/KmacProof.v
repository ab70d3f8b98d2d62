(** * KMAC conformance. *)
From Verif Require Import Base Absorb Lemmas WordLemmas TableLemmas AbsorbProof Hasher HasherSpec HasherProof
  HasherWhen MdState MdProof SpecCommon Keccak KeccakSpec KeccakProof Squeeze SqueezeProof Sha3 Shake Sha3Spec
  SpongeProof Sha3Proof EncodeProof ShakeProof Kmac Validate.
Local Open Scope nat_scope.

Section Kmac.
  Variables (B : N) (r64 sec : nat).
  Hypothesis Hr64 : 1 <= r64 <= 21.
  Hypothesis Hrate : shake_rate B = N.of_nat (64 * r64).
  Hypothesis Hsec : 8 * r64 = 200 - 2 * sec.
  Hypothesis Hpad : (if (B =? 128)%N then 168 else 136) = 8 * r64.

  Lemma kmac_bytepad_eq key : kmac_bytepad B key = bytepad (encode_string key) (200 - 2 * sec).
  Proof.
    unfold kmac_bytepad, bytepad. rewrite Hpad, <- Hsec.
    assert (EB : trunc 64 (N.of_nat (length key) * 8) = (bitlen key mod 2 ^ 64)%N).
    { rewrite trunc_mod. unfold bitlen. f_equal. lia. }
    rewrite EB, !left_encode_eq by (try (apply N.mod_lt; discriminate); lia).
    unfold encode_string. rewrite <- app_assoc.
    set (z := left_enc _ ++ _ ++ key).
    pose proof (Nat.mod_upper_bound (length z) (8 * r64) ltac:(lia)) as U.
    generalize dependent (length z mod (8 * r64)). intros x U.
    destruct (Nat.eqb_spec (8 * r64 - x) 0); [lia|].
    destruct (Nat.eqb_spec (8 * r64 - x) (8 * r64)) as [E|E]; cbn [negb andb].
    - rewrite E, Nat.mod_same by lia. rewrite app_nil_r. reflexivity.
    - rewrite Nat.mod_small by lia. reflexivity.
  Qed.

  Definition key_block (key : list N) : list N := bytepad (encode_string key) (200 - 2 * sec).

  Lemma key_block_ok key : bytes_ok key -> bytes_ok (key_block key).
  Proof.
    intros. unfold key_block, bytepad. apply bytes_ok_app; [|apply bytes_ok_zeros].
    apply bytes_ok_app; [apply left_enc_ok; lia|apply encode_string_ok; auto].
  Qed.

  Lemma right_enc_ok x : (x < 2 ^ 64)%N -> bytes_ok (right_enc x).
  Proof.
    intros H. pose proof (left_enc_ok x H) as L. inversion L; subst.
    apply bytes_ok_app; [apply be_bytes_ok|]. constructor; auto.
  Qed.

  (** The digest with length field [L], as the code computes it. *)
  Definition kmac_code (L : N) (p : list N * list N) (msg : list N) (n : nat) : list N :=
    cshake_code r64 sec (KMAC_name, snd p) (kmac_input sec (fst p) msg L) n.

  Lemma kmac_agree L p msg n : hdr_fits sec KMAC_name (snd p) ->
    kmac_code L p msg n = kmac_xof sec (fst p) (snd p) msg L n.
  Proof.
    intros H. unfold kmac_code.
    rewrite (cshake_agree B r64 sec Hr64 Hrate Hsec (KMAC_name, snd p)) by exact H. reflexivity.
  Qed.

  (** [L] is the value of the length field. *)
  Definition kmac_R (L : N) (s : kmac_st) (p : list N * list N) (msg : list N) (k : nat) : Prop :=
    bytes_ok msg /\ bytes_ok (fst p) /\ bytes_ok (snd p) /\
    kmK s = key_block (fst p) /\ kmsq s = negb (k =? 0) /\
    shake_inv 24 r64 (kmsh s) KMAC_name (snd p) 0
      (hdr r64 KMAC_name (snd p) ++ key_block (fst p) ++ msg ++ (if k =? 0 then [] else right_enc L)) k.

  Lemma kmac_init_ok L s key cust : length (sm (hk (kmsh s))) = 168 -> kmK s = key_block key ->
    bytes_ok key -> bytes_ok cust -> hS (kmsh s) = cust ->
    exists s', kmac_init B s = Ok s' /\ kmac_R L s' (key, cust) [] 0 /\ kmhs s' = kmhs s.
  Proof.
    intros Hl HK H1 H2 HS. unfold kmac_init.
    destruct (shake_init_ok B 24 r64 (le_n 24) Hr64 Hrate
      (mksh (hk (kmsh s)) KMAC_name (hS (kmsh s)) (hsq (kmsh s)) (hsfx (kmsh s))) Hl) as (s1 & E1 & I1).
    cbn [hN hS] in I1. change [75%N; 77%N; 65%N; 67%N] with KMAC_name. rewrite E1. cbn [bind].
    unfold kmac_update. cbn [kmsh kmK kmhs kmsq].
    destruct (shake_update_ok B 24 r64 (le_n 24) Hr64 Hrate s1 _ _ 0 _ (kmK s) I1) as (s2 & E2 & I2).
    rewrite E2. cbn [bind]. eexists. split; [reflexivity|]. split; [|reflexivity].
    unfold kmac_R. cbn [fst snd kmK kmsq kmsh Nat.eqb]. rewrite !app_nil_r.
    rewrite HS, HK in I2. do 5 (split; [auto; constructor|]). exact I2.
  Qed.

  Lemma kmac_update_ok L s p msg d : bytes_ok d -> kmac_R L s p msg 0 ->
    exists s', kmac_update B s d = Ok s' /\ kmac_R L s' p (msg ++ d) 0 /\ kmhs s' = kmhs s.
  Proof.
    intros Hd (Hm & H1 & H2 & HK & Hq & I1). unfold kmac_update.
    destruct (shake_update_ok B 24 r64 (le_n 24) Hr64 Hrate _ _ _ 0 _ d I1) as (s2 & E2 & I2).
    rewrite E2. cbn [bind]. eexists. split; [reflexivity|]. split; [|reflexivity].
    unfold kmac_R. cbn [kmK kmsq kmsh Nat.eqb] in *. rewrite !app_nil_r in *.
    rewrite <- !app_assoc in I2.
    do 5 (split; [auto using bytes_ok_app|]). exact I2.
  Qed.

  Lemma kmac_squeeze_ok (xof : bool) L s p msg k n : 0 < n -> (L < 2 ^ 64)%N ->
    (k = 0 -> (if xof then 0%N else trunc 64 (N.of_nat n * 8)) = L) ->
    kmac_R L s p msg k ->
    exists s', kmac_squeeze B xof s n = Ok (s', skipn k (kmac_code L p msg (k + n))) /\
      kmac_R L s' p msg (k + n).
  Proof.
    intros Hn HL HLk (Hm & H1 & H2 & HK & Hq & I1). unfold kmac_squeeze.
    assert (HX : bytes_ok (kmac_input sec (fst p) msg L)).
    { unfold kmac_input. apply bytes_ok_app; [apply key_block_ok; auto|].
      apply bytes_ok_app; auto using right_enc_ok. }
    assert (EC : kmac_code L p msg (k + n)
      = ksponge 24 r64 (dom_byte 0 KMAC_name (snd p))
          (hdr r64 KMAC_name (snd p) ++ kmac_input sec (fst p) msg L) (k + n)).
    { unfold kmac_code. apply (cshake_code_eq B r64 sec Hr64 Hrate Hsec); auto.
      repeat constructor. }
    rewrite EC. unfold kmac_input. fold (key_block (fst p)).
    assert (Hgo : exists s1, (if kmsq s then Ok s
          else
            s <- kmac_update B s (right_encode (if xof then 0 else trunc 64 (N.of_nat n * 8)) false) ;;
            Ok (mkkm (kmK s) (kmhs s) true (kmsh s))) = Ok s1 /\ kmsq s1 = true /\ kmK s1 = kmK s /\
        shake_inv 24 r64 (kmsh s1) KMAC_name (snd p) 0
          (hdr r64 KMAC_name (snd p) ++ key_block (fst p) ++ msg ++ right_enc L) k).
    { destruct k as [|k]; cbn [Nat.eqb negb] in *; rewrite Hq.
      - rewrite (HLk eq_refl), right_encode_eq by exact HL. unfold kmac_update.
        destruct (shake_update_ok B 24 r64 (le_n 24) Hr64 Hrate _ _ _ 0 _ (right_enc L) I1) as (s2 & E2 & I2).
        rewrite E2. cbn [bind]. eexists. split; [reflexivity|]. cbn [kmsq kmsh kmK].
        rewrite app_nil_r, <- !app_assoc in I2. auto.
      - exists s. auto. }
    destruct Hgo as (s1 & E1 & Hq1 & HK1 & I2).
    rewrite E1. cbn [bind].
    destruct (shake_squeeze_ok B 24 r64 (le_n 24) Hr64 Hrate _ _ _ 0 _ k n Hn I2) as (s3 & E3 & I3).
    rewrite E3. cbn [bind]. eexists. split; [reflexivity|].
    destruct (Nat.eqb_spec (k + n) 0) as [E0|E0]; [lia|].
    unfold kmac_R. cbn [kmK kmsq kmsh]. destruct (Nat.eqb_spec (k + n) 0); [lia|]. cbn [negb].
    rewrite HK1, Hq1. do 5 (split; [auto|]). exact I3.
  Qed.

  Lemma kmac_R_sm L s p msg k : kmac_R L s p msg k -> length (sm (hk (kmsh s))) = 168.
  Proof. intros (_ & _ & _ & _ & _ & I1). exact (shake_inv_sm _ _ _ _ _ _ _ _ I1). Qed.

  Lemma kmac_init_R L s p msg k : kmac_R L s p msg k ->
    exists s', kmac_init B s = Ok s' /\ kmac_R L s' p [] 0 /\ kmhs s' = kmhs s.
  Proof.
    intros H. pose proof (kmac_R_sm _ _ _ _ _ H) as Hl. destruct H as (Hm & H1 & H2 & HK & Hq & I1).
    destruct p as [key cust]. apply (kmac_init_ok L s key cust); auto. apply I1.
  Qed.

  Lemma kmac_clear_ok L s p msg k : kmac_R L s p msg k ->
    exists s1 s2, kmac_clear B s = Ok s1 /\ kmac_init B s1 = Ok s2 /\ kmac_R L s2 ([], []) [] 0 /\
      kmhs s2 = kmhs s.
  Proof.
    intros H. pose proof (kmac_R_sm _ _ _ _ _ H) as Hl.
    unfold kmac_clear, shake_clear, shake_wipe. cbn [bind hk hN hS hsq hsfx]. eexists.
    match goal with |- context [Ok ?x = Ok _] => destruct (kmac_init_ok L x [] []) as (s2 & E & I2 & Hh) end.
    - cbn [kmsh hk sm]. unfold zero_memory. rewrite zeros_length. exact Hl.
    - cbn [kmK]. apply kmac_bytepad_eq.
    - constructor.
    - constructor.
    - reflexivity.
    - exists s2. split; [reflexivity|]. split; [exact E|]. auto.
  Qed.

  Lemma kmac_set_ok L q v s p msg k : bytes_ok v -> kmac_R L s p msg k ->
    exists s1 s2, kmac_set B q v s = Done s1 /\ kmac_init B s1 = Ok s2 /\
      kmac_R L s2 (match q with KmKey => (v, snd p) | KmCustomization => (fst p, v) end) [] 0 /\
      kmhs s2 = kmhs s.
  Proof.
    intros Hv H. pose proof (kmac_R_sm _ _ _ _ _ H) as Hl.
    destruct H as (Hm & H1 & H2 & HK & Hq & I1). destruct p as [key cust]. cbn [fst snd] in *.
    destruct q; cbn [kmac_set]; eexists.
    - destruct (kmac_init_ok L (mkkm (kmac_bytepad B v) (kmhs s) (kmsq s) (kmsh s)) v cust)
        as (s2 & E & I2 & Hh); auto.
      { cbn [kmK]. apply kmac_bytepad_eq. } { apply I1. }
      exists s2. auto.
    - match goal with |- context [Done ?x = Done _] =>
        destruct (kmac_init_ok L x key v) as (s2 & E & I2 & Hh); auto end.
      exists s2. auto.
  Qed.

  Definition kmac_params_set (q : kmac_param) (v : list N) (p : list N * list N) : option (list N * list N) :=
    Some (match q with KmKey => (v, snd p) | KmCustomization => (fst p, v) end).

  (** *** KMACXOF *)
  Definition kmacxof_spec : xof_spec kmac_param :=
    {| xs_params := list N * list N; xs_default := ([], []); xs_set := kmac_params_set;
       xs_out := fun p msg n => kmac_xof sec (fst p) (snd p) msg 0 n |}.

  Lemma kmac_code_len L p msg n : bytes_ok (fst p) -> bytes_ok (snd p) -> bytes_ok msg -> (L < 2 ^ 64)%N ->
    length (kmac_code L p msg n) = n /\ bytes_ok (kmac_code L p msg n).
  Proof.
    intros H1 H2 Hm HL. unfold kmac_code.
    assert (HX : bytes_ok (kmac_input sec (fst p) msg L)).
    { unfold kmac_input. apply bytes_ok_app; [apply key_block_ok; auto|].
      apply bytes_ok_app; auto using right_enc_ok. }
    rewrite (cshake_code_eq B r64 sec Hr64 Hrate Hsec) by (auto; repeat constructor).
    split; [apply (ksponge_length B 24 r64 (le_n 24) Hr64 Hrate)|apply (ksponge_bytes B 24 r64 (le_n 24) Hr64 Hrate)].
  Qed.

  Lemma kmacxof_sim : xsim (kmacxof B) (with_out kmacxof_spec (kmac_code 0)) (kmac_R 0) true.
  Proof.
    constructor.
    - intros s p msg k H. destruct (kmac_init_R _ _ _ _ _ H) as (s' & E & I' & _). eauto.
    - intros s p msg d Hd H. destruct (kmac_update_ok _ _ _ _ _ Hd H) as (s' & E & I' & _). eauto.
    - intros _ s p msg k H. destruct (kmac_clear_ok _ _ _ _ _ H) as (s1 & s2 & E1 & E2 & I' & _). eauto.
    - intros q v s p msg k Hv H. destruct (kmac_set_ok _ q v _ _ _ _ Hv H) as (s1 & s2 & E1 & E2 & I' & _).
      cbn [xs_set with_out kmacxof_spec kmac_params_set]. eauto.
    - intros s p msg k n Hn H. 
      destruct (kmac_squeeze_ok true 0 s p msg k n Hn) as (s' & E & I'); auto; [reflexivity|]. eauto.
    - intros s p msg k n (Hm & H1 & H2 & _). apply kmac_code_len; auto. reflexivity.
    - intros s p msg k n (Hm & H1 & H2 & _). apply kmac_code_len; auto. reflexivity.
  Qed.

  (** A new inner object. *)
  Definition new_shake (g : st) (sq : bool) (sfx : N) : shake_st := mksh g [] [] sq sfx.

  Theorem kmacxof_code_implements g sq1 sfx sq : length (sm g) = 168 ->
    ximplements (kmacxof B) (with_out kmacxof_spec (kmac_code 0)) true
      (fresh_of (kmac_ctor_static B 0 sq (new_shake g sq1 sfx)) (kmac_init B)).
  Proof.
    intros Hg. unfold fresh_of, kmac_ctor_static. cbn [bind].
    destruct (kmac_init_ok 0 (mkkm (kmac_bytepad B []) 0 sq (new_shake g sq1 sfx)) [] [])
      as (s' & -> & I' & _); auto.
    { apply kmac_bytepad_eq. } { constructor. } { constructor. }
    apply (xsim_implements (kmacxof B) (with_out kmacxof_spec (kmac_code 0)) (kmac_R 0) true kmacxof_sim).
    exact I'.
  Qed.

  Theorem kmacxof_implements_gen g sq1 sfx sq : length (sm g) = 168 ->
    ximplements_when (kmacxof B) kmacxof_spec (fun p => hdr_fits sec KMAC_name (snd p)) true
      (fresh_of (kmac_ctor_static B 0 sq (new_shake g sq1 sfx)) (kmac_init B)).
  Proof.
    intros Hg. apply (ximplements_restrict (kmacxof B) kmacxof_spec _ true _ (kmac_code 0)).
    - intros p msg n H. apply kmac_agree. exact H.
    - apply kmacxof_code_implements. exact Hg.
  Qed.

  (** *** KMAC with a digest of [hs] bits *)
  Definition kmac_spec (hs : N) : hash_spec kmac_param :=
    {| sp_params := list N * list N; sp_default := ([], []); sp_set := kmac_params_set;
       sp_size := N.to_nat (hs / 8);
       sp_digest := fun p msg => kmac_xof sec (fst p) (snd p) msg hs (N.to_nat (hs / 8)) |}.

  Section Hash.
    Variable hs : N.
    Hypothesis Hhs : (hs < 2 ^ 64)%N.
    Hypothesis Hpos : (0 < hs)%N.
    Hypothesis H8 : (hs mod 8 = 0)%N.

    Lemma hs_eq : (N.of_nat (N.to_nat (hs / 8)) * 8 = hs)%N.
    Proof. rewrite N2Nat.id. pose proof (N.div_mod hs 8). lia. Qed.

    Definition kmac_HR (s : kmac_st) (p : list N * list N) (msg : list N) : Prop :=
      kmac_R hs s p msg 0 /\ kmhs s = hs.
    Definition kmac_digest (p : list N * list N) (msg : list N) : list N :=
      kmac_code hs p msg (N.to_nat (hs / 8)).

    Lemma kmac_sim : sim (kmac B) (with_digest (kmac_spec hs) kmac_digest) kmac_HR true.
    Proof.
      assert (Hn : 0 < N.to_nat (hs / 8)).
      { pose proof hs_eq. destruct (N.to_nat (hs / 8)); [cbn in *; lia|lia]. }
      constructor.
      - intros s p msg (H & Hh). destruct (kmac_init_R _ _ _ _ _ H) as (s' & E & I' & E').
        exists s'. split; [exact E|]. split; congruence.
      - intros s p msg d Hd (H & Hh). destruct (kmac_update_ok _ _ _ _ _ Hd H) as (s' & E & I' & E').
        exists s'. split; [exact E|]. split; congruence.
      - intros _ s p msg (H & Hh). destruct (kmac_clear_ok _ _ _ _ _ H) as (s1 & s2 & E1 & E2 & I' & E').
        exists s1, s2. split; [exact E1|]. split; [exact E2|]. split; [exact I'|congruence].
      - intros q v s p msg Hv (H & Hh).
        destruct (kmac_set_ok _ q v _ _ _ _ Hv H) as (s1 & s2 & E1 & E2 & I' & E').
        cbn [sp_set with_digest kmac_spec kmac_params_set].
        exists s1, s2. split; [exact E1|]. split; [exact E2|]. split; [exact I'|congruence].
      - intros s p msg (H & Hh). cbn [hp_final kmac]. unfold kmac_final. rewrite Hh.
        destruct (kmac_squeeze_ok false hs s p msg 0 (N.to_nat (hs / 8)) Hn Hhs) as (s' & E & I'); auto.
        { intros _. rewrite hs_eq. apply trunc_small. exact Hhs. }
        exists s'. exact E.
      - intros s p msg (H & Hh). cbn [hp_size kmac sp_size with_digest kmac_spec]. rewrite Hh. lia.
      - intros s p msg ((Hm & H1 & H2 & _) & Hh). exact (proj1 (kmac_code_len hs p msg _ H1 H2 Hm Hhs)).
      - intros s p msg ((Hm & H1 & H2 & _) & Hh). exact (proj2 (kmac_code_len hs p msg _ H1 H2 Hm Hhs)).
      - exact Hn.
    Qed.

    Lemma kmac_fresh_ok g sq1 sfx sq : length (sm g) = 168 ->
      exists s', kmac_init B (mkkm (kmac_bytepad B []) hs sq (new_shake g sq1 sfx)) = Ok s' /\
        kmac_HR s' ([], []) [].
    Proof.
      intros Hg.
      destruct (kmac_init_ok hs (mkkm (kmac_bytepad B []) hs sq (new_shake g sq1 sfx)) [] [])
        as (s' & E & I' & E'); auto.
      { apply kmac_bytepad_eq. } { constructor. } { constructor. }
      exists s'. split; [exact E|]. split; auto.
    Qed.

    Theorem kmac_code_implements g sq1 sfx sq : length (sm g) = 168 ->
      implements (kmac B) (with_digest (kmac_spec hs) kmac_digest) true
        (fresh_of (kmac_ctor B hs sq (new_shake g sq1 sfx)) (kmac_init B)).
    Proof.
      intros Hg. unfold fresh_of, kmac_ctor, validate_max.
      destruct (N.eqb_spec hs 0); [lia|]. rewrite H8. cbn [N.eqb negb].
      destruct (N.ltb_spec (N.ones 64) hs) as [E|E].
      { change (N.ones 64) with (2 ^ 64 - 1)%N in E. lia. }
      cbn [bind]. destruct (kmac_fresh_ok g sq1 sfx sq Hg) as (s' & -> & I').
      apply (sim_implements (kmac B) (with_digest (kmac_spec hs) kmac_digest) kmac_HR true kmac_sim). exact I'.
    Qed.

    Theorem kmac_implements_gen g sq1 sfx sq : length (sm g) = 168 ->
      implements_when (kmac B) (kmac_spec hs) (fun p _ => hdr_fits sec KMAC_name (snd p)) true
        (fresh_of (kmac_ctor B hs sq (new_shake g sq1 sfx)) (kmac_init B)).
    Proof.
      intros Hg. apply (implements_restrict (kmac B) (kmac_spec hs) _ true _ kmac_digest).
      - intros p msg _ H. cbn [sp_digest kmac_spec]. unfold kmac_digest. exact (kmac_agree hs p msg _ H).
      - apply kmac_code_implements. exact Hg.
    Qed.

    Theorem kmac_static_code_implements g sq1 sfx sq : length (sm g) = 168 ->
      implements (kmac B) (with_digest (kmac_spec hs) kmac_digest) true
        (fresh_of (kmac_ctor_static B hs sq (new_shake g sq1 sfx)) (kmac_init B)).
    Proof.
      intros Hg. unfold fresh_of, kmac_ctor_static.
      cbn [bind]. destruct (kmac_fresh_ok g sq1 sfx sq Hg) as (s' & -> & I').
      apply (sim_implements (kmac B) (with_digest (kmac_spec hs) kmac_digest) kmac_HR true kmac_sim). exact I'.
    Qed.

    Theorem kmac_static_implements_gen g sq1 sfx sq : length (sm g) = 168 ->
      implements_when (kmac B) (kmac_spec hs) (fun p _ => hdr_fits sec KMAC_name (snd p)) true
        (fresh_of (kmac_ctor_static B hs sq (new_shake g sq1 sfx)) (kmac_init B)).
    Proof.
      intros Hg. apply (implements_restrict (kmac B) (kmac_spec hs) _ true _ kmac_digest).
      - intros p msg _ H. cbn [sp_digest kmac_spec]. unfold kmac_digest. exact (kmac_agree hs p msg _ H).
      - apply kmac_static_code_implements. exact Hg.
    Qed.
  End Hash.
End Kmac.

Theorem kmac128_implements hs g sq1 sfx sq : (hs < 2 ^ 64)%N -> (0 < hs)%N -> (hs mod 8 = 0)%N -> length (sm g) = 168 ->
  implements_when (kmac 128) (kmac_spec 16 hs) (fun p _ => hdr_fits 16 KMAC_name (snd p)) true
    (fresh_of (kmac_ctor 128 hs sq (new_shake g sq1 sfx)) (kmac_init 128)).
Proof. intros. apply (kmac_implements_gen 128 21 16); [lia|reflexivity|reflexivity|reflexivity|assumption..]. Qed.
Theorem kmac256_implements hs g sq1 sfx sq : (hs < 2 ^ 64)%N -> (0 < hs)%N -> (hs mod 8 = 0)%N -> length (sm g) = 168 ->
  implements_when (kmac 256) (kmac_spec 32 hs) (fun p _ => hdr_fits 32 KMAC_name (snd p)) true
    (fresh_of (kmac_ctor 256 hs sq (new_shake g sq1 sfx)) (kmac_init 256)).
Proof. intros. apply (kmac_implements_gen 256 17 32); [lia|reflexivity|reflexivity|reflexivity|assumption..]. Qed.
Theorem kmac128_static_implements hs g sq1 sfx sq :
  (hs < 2 ^ 64)%N -> (0 < hs)%N -> (hs mod 8 = 0)%N -> length (sm g) = 168 ->
  implements_when (kmac 128) (kmac_spec 16 hs) (fun p _ => hdr_fits 16 KMAC_name (snd p)) true
    (fresh_of (kmac_ctor_static 128 hs sq (new_shake g sq1 sfx)) (kmac_init 128)).
Proof. intros. apply (kmac_static_implements_gen 128 21 16); [lia|reflexivity|reflexivity|reflexivity|assumption..]. Qed.
Theorem kmac256_static_implements hs g sq1 sfx sq :
  (hs < 2 ^ 64)%N -> (0 < hs)%N -> (hs mod 8 = 0)%N -> length (sm g) = 168 ->
  implements_when (kmac 256) (kmac_spec 32 hs) (fun p _ => hdr_fits 32 KMAC_name (snd p)) true
    (fresh_of (kmac_ctor_static 256 hs sq (new_shake g sq1 sfx)) (kmac_init 256)).
Proof. intros. apply (kmac_static_implements_gen 256 17 32); [lia|reflexivity|reflexivity|reflexivity|assumption..]. Qed.
Theorem kmac128_xof_implements g sq1 sfx sq : length (sm g) = 168 ->
  ximplements_when (kmacxof 128) (kmacxof_spec 16) (fun p => hdr_fits 16 KMAC_name (snd p)) true
    (fresh_of (kmac_ctor_static 128 0 sq (new_shake g sq1 sfx)) (kmac_init 128)).
Proof. intros. apply (kmacxof_implements_gen 128 21 16); [lia|reflexivity|reflexivity|reflexivity|assumption..]. Qed.
Theorem kmac256_xof_implements g sq1 sfx sq : length (sm g) = 168 ->
  ximplements_when (kmacxof 256) (kmacxof_spec 32) (fun p => hdr_fits 32 KMAC_name (snd p)) true
    (fresh_of (kmac_ctor_static 256 0 sq (new_shake g sq1 sfx)) (kmac_init 256)).
Proof. intros. apply (kmacxof_implements_gen 256 17 32); [lia|reflexivity|reflexivity|reflexivity|assumption..]. Qed.
