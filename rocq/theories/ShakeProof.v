(** * SHAKE and cSHAKE conformance. *)
From Verif Require Import Base Absorb Lemmas WordLemmas TableLemmas AbsorbProof Hasher HasherSpec HasherProof
  HasherWhen MdState MdProof SpecCommon Keccak KeccakSpec KeccakProof Squeeze SqueezeProof Sha3 Shake Sha3Spec
  SpongeProof Sha3Proof EncodeProof.
Local Open Scope nat_scope.

Lemma squeeze_blocks_ext {C} (f g : C -> C) emit r (Inv : C -> Prop)
  (Hfg : forall c, Inv c -> f c = g c) (Hi : forall c, Inv c -> Inv (f c)) k : forall c, Inv c ->
  squeeze_blocks f emit r k c = squeeze_blocks g emit r k c.
Proof.
  induction k; intros c Hc; [reflexivity|]. cbn [squeeze_blocks].
  rewrite IHk by auto. rewrite Hfg by auto. reflexivity.
Qed.

(** Domain separation byte chosen at shake_provider.hpp:130. *)
Definition dom_byte (sfx : N) (fn cust : list N) : N :=
  if (sfx =? 0)%N then match fn, cust with [], [] => 0x1f | _, _ => 0x04 end else sfx.

Section Shake.
  Variables (B : N) (R r64 : nat).
  Hypothesis HR : R <= 24.
  Hypothesis Hr64 : 1 <= r64 <= 21.
  Hypothesis Hrate : shake_rate B = N.of_nat (64 * r64).
  Let r := 8 * r64.

  Lemma Hcap : 8 * r64 <= 168. Proof. lia. Qed.
  Lemma Hr25 : 1 <= r64 <= 25. Proof. lia. Qed.
  Lemma sh_r : N.to_nat (shake_rate B / 8) = 8 * r64.
  Proof. rewrite Hrate. apply rate_r. Qed.
  Lemma sh_r64 : N.to_nat (shake_rate B / 64) = r64.
  Proof. rewrite Hrate. apply rate_r64. Qed.

  (** Sponge output with domain byte [D]. *)
  Definition ksponge (D : N) (msg : list N) (n : nat) : list N := sponge R r (pad_bytes r D msg) n.
  Definition S0 (D : N) (msg : list N) : list N := kc_state R r64 (pad_bytes r D msg).

  Lemma S0_length D msg : length (S0 D msg) = 25.
  Proof.
    destruct (pad_bytes_length R r64 168 HR Hr25 Hcap D msg) as (n & Hn).
    exact (proj2 (kc_state_fold R r64 168 HR Hr25 Hcap _ n Hn)).
  Qed.

  Definition len25 (A : list N) : Prop := length A = 25.
  Lemma emit25 A : len25 A -> r <= length (words_bytes 8 A).
  Proof. intros H. rewrite words_bytes_length, H. unfold r. lia. Qed.

  Lemma ksponge_seg D msg n :
    ksponge D msg n = seg (kc_perm R) (words_bytes 8) r (S0 D msg) 0 n.
  Proof.
    unfold ksponge. unfold r. rewrite sponge_state. fold r. fold (S0 D msg).
    rewrite <- (squeeze_stream_seg (kc_perm R) (words_bytes 8) r len25 ltac:(unfold r; lia) emit25
      (kc_perm_length R)) by apply S0_length.
    unfold squeeze_stream. f_equal. symmetry.
    apply (squeeze_blocks_ext (kc_perm R) (keccak_p R) (words_bytes 8) r len25).
    - intros c Hc. apply kc_perm_eq; auto.
    - apply kc_perm_length.
    - apply S0_length.
  Qed.

  Lemma ksponge_length D msg n : length (ksponge D msg n) = n.
  Proof. rewrite ksponge_seg. apply seg_length. Qed.
  Lemma ksponge_bytes D msg n : bytes_ok (ksponge D msg n).
  Proof. rewrite ksponge_seg. apply seg_bytes. intros. apply words_bytes_ok. Qed.

  (** The object has strings [fn], [cust], suffix [sfx], has absorbed [msg] (including any
      header) and squeezed [k] bytes. *)
  Definition shake_inv (s : shake_st) (fn cust : list N) (sfx : N) (msg : list N) (k : nat) : Prop :=
    hN s = fn /\ hS s = cust /\ hsfx s = sfx /\ length (sm (hk s)) = 168 /\
    match k with
    | O => hsq s = false /\ kc_inv R r64 168 (hk s) msg
    | _ => hsq s = true /\
      sq_inv (kc_perm R) r (S0 (dom_byte sfx fn cust) msg) k (sh (hk s)) (spos (hk s))
    end.

  Lemma shake_inv_sm s fn cust sfx msg k : shake_inv s fn cust sfx msg k -> length (sm (hk s)) = 168.
  Proof. intros (_ & _ & _ & H & _). exact H. Qed.

  Lemma shake_update_ok s fn cust sfx msg d : shake_inv s fn cust sfx msg 0 ->
    exists s', shake_update B R s d = Ok s' /\ shake_inv s' fn cust sfx (msg ++ d) 0.
  Proof.
    intros (HN & HS & Hx & Hl & Hq & H). unfold shake_update. rewrite sh_r, sh_r64.
    destruct (kc_update_ok R r64 168 HR Hr25 Hcap (hk s) msg d H) as (s' & -> & H').
    cbn [bind]. eexists. split; [reflexivity|].
    repeat split; auto. exact (kc_inv_sm R r64 168 _ _ H').
  Qed.

  Lemma shake_update_str_ok s fn cust sfx msg d : shake_inv s fn cust sfx msg 0 ->
    exists s', shake_update_str B R s d = Ok s' /\ shake_inv s' fn cust sfx (msg ++ d) 0.
  Proof.
    intros H. destruct d; [|apply shake_update_ok; auto].
    exists s. rewrite app_nil_r. auto.
  Qed.

  Lemma shake_set_suffix_ok s fn cust sfx msg x : shake_inv s fn cust sfx msg 0 ->
    shake_inv (shake_set_suffix x s) fn cust x msg 0.
  Proof. intros (HN & HS & Hx & Hl & Hq & H). repeat split; auto. Qed.

  Lemma shake_squeeze_ok s fn cust sfx msg k n : 0 < n -> shake_inv s fn cust sfx msg k ->
    exists s', shake_squeeze B R s n
        = Ok (s', skipn k (ksponge (dom_byte sfx fn cust) msg (k + n))) /\
      shake_inv s' fn cust sfx msg (k + n).
  Proof.
    intros Hn (HN & HS & Hx & Hl & H). unfold shake_squeeze. rewrite ksponge_seg, seg_skip.
    rewrite sh_r. fold r. destruct k as [|k].
    - destruct H as [Hq H]. rewrite Hq. rewrite HN, HS, Hx. fold (dom_byte sfx fn cust).
      destruct (kc_pad_ok R r64 168 HR Hr25 Hcap (shake_rate B) (dom_byte sfx fn cust) (hk s) msg
                  sh_r sh_r64 H) as (m' & p' & -> & Hm').
      cbn [bind sh sm spos stotal]. fold r. fold (S0 (dom_byte sfx fn cust) msg).
      destruct (sq_first_ok (kc_perm R) (words_bytes 8) r len25 ltac:(unfold r; lia) emit25
                  (kc_perm_length R) (S0 (dom_byte sfx fn cust) msg) p' n (S0_length _ _) Hn)
        as (c' & pos' & -> & Hi).
      cbn [bind]. eexists. split; [reflexivity|].
      destruct n; [lia|]. repeat split; auto.
    - destruct H as [Hq H]. rewrite Hq.
      destruct (sq_more_ok (kc_perm R) (words_bytes 8) r len25 ltac:(unfold r; lia) emit25
                  (kc_perm_length R) (S0 (dom_byte sfx fn cust) msg) (S k) _ _ n (S0_length _ _) Hn H)
        as (c' & pos' & -> & Hi).
      cbn [bind]. eexists. split; [reflexivity|].
      change (S k + n) with (S (k + n)). repeat split; auto.
  Qed.

  (** The header absorbed by init: the zero padding is never empty. *)
  Definition hdr_z (fn cust : list N) : list N :=
    left_enc (N.of_nat r) ++ encode_string fn ++ encode_string cust.
  Definition hdr (fn cust : list N) : list N :=
    match fn, cust with
    | [], [] => []
    | _, _ => hdr_z fn cust ++ zeros (r - length (hdr_z fn cust) mod r)
    end.

  Lemma shake_init_ok s : length (sm (hk s)) = 168 ->
    exists s', shake_init B R s = Ok s' /\ shake_inv s' (hN s) (hS s) 0 (hdr (hN s) (hS s)) 0.
  Proof.
    intros Hl. unfold shake_init. cbv zeta. cbn [hN hS].
    set (fn := hN s). set (cust := hS s).
    set (s0 := mksh (mkst (zeros 25) (sm (hk s)) 0 0) fn cust false 0).
    assert (H0 : shake_inv s0 fn cust 0 [] 0).
    { repeat split; auto. apply kc_inv_start; auto using Hcap, Hr25. }
    assert (Hgo : exists s', 
      (s1 <- shake_update B R s0 (left_encode (N.of_nat (N.to_nat (shake_rate B / 8)))) ;;
       s2 <- shake_update B R s1 (left_encode (trunc 64 (N.of_nat (length (hN s1)) * 8))) ;;
       s3 <- shake_update_str B R s2 (hN s2) ;;
       s4 <- shake_update B R s3 (left_encode (trunc 64 (N.of_nat (length (hS s3)) * 8))) ;;
       s5 <- shake_update_str B R s4 (hS s4) ;;
       shake_update B R s5
         (zeros (N.to_nat (shake_rate B / 8) - 
          (length (left_encode (N.of_nat (N.to_nat (shake_rate B / 8))))
           + length (left_encode (trunc 64 (N.of_nat (length (hN s1)) * 8)))
           + length (left_encode (trunc 64 (N.of_nat (length (hS s3)) * 8)))
           + (length (hS s5) + length (hN s5))) mod N.to_nat (shake_rate B / 8))))
      = Ok s' /\
      shake_inv s' fn cust 0 (hdr_z fn cust ++ zeros (r - length (hdr_z fn cust) mod r)) 0).
    { rewrite sh_r. fold r.
      rewrite (left_encode_eq (N.of_nat r)) by (unfold r; lia).
      destruct (shake_update_ok s0 fn cust 0 [] (left_enc (N.of_nat r)) H0) as (s1 & E1 & H1).
      rewrite E1. cbn [bind]. clear E1 H0. pose proof H1 as (N1 & _). rewrite N1.
      assert (EB : forall x : list N, trunc 64 (N.of_nat (length x) * 8) = (bitlen x mod 2 ^ 64)%N).
      { intros. rewrite trunc_mod. unfold bitlen. f_equal. lia. }
      rewrite (EB fn). rewrite (left_encode_eq (bitlen fn mod 2 ^ 64)) by (apply N.mod_lt; discriminate).
      destruct (shake_update_ok s1 fn cust 0 _ (left_enc (bitlen fn mod 2 ^ 64)) H1) as (s2 & E2 & H2).
      rewrite E2. cbn [bind]. clear E2 H1. pose proof H2 as (N2 & _). rewrite N2.
      destruct (shake_update_str_ok s2 fn cust 0 _ fn H2) as (s3 & E3 & H3).
      rewrite E3. cbn [bind]. clear E3 H2. pose proof H3 as (_ & N3 & _). rewrite N3.
      rewrite (EB cust). rewrite (left_encode_eq (bitlen cust mod 2 ^ 64)) by (apply N.mod_lt; discriminate).
      destruct (shake_update_ok s3 fn cust 0 _ (left_enc (bitlen cust mod 2 ^ 64)) H3) as (s4 & E4 & H4).
      rewrite E4. cbn [bind]. clear E4 H3. pose proof H4 as (_ & N4 & _). rewrite N4.
      destruct (shake_update_str_ok s4 fn cust 0 _ cust H4) as (s5 & E5 & H5).
      rewrite E5. cbn [bind]. clear E5 H4. pose proof H5 as (N5 & N5' & _). rewrite N5, N5'.
      match type of H5 with shake_inv _ _ _ _ ?x _ => assert (EZ : x = hdr_z fn cust) end.
      { unfold hdr_z, encode_string. rewrite <- !app_assoc. reflexivity. }
      rewrite EZ in H5.
      replace (length (left_enc (N.of_nat r)) + length (left_enc (bitlen fn mod 2 ^ 64))
        + length (left_enc (bitlen cust mod 2 ^ 64)) + (length cust + length fn))
        with (length (hdr_z fn cust)).
      2:{ rewrite <- EZ. rewrite !app_length. cbn [length]. lia. }
      apply shake_update_ok. exact H5. }
    assert (Hmatch : forall X (a b : X), (match fn, cust with [], [] => a | _, _ => b end)
       = match fn ++ cust with [] => a | _ => b end).
    { intros. destruct fn, cust; reflexivity. }
    unfold hdr. subst s0. cbn [hN hS]. rewrite !Hmatch.
    destruct (fn ++ cust); [eauto|]. exact Hgo.
  Qed.

  Lemma shake_clear_init_ok s : length (sm (hk s)) = 168 ->
    exists s1 s2, shake_clear s = Ok s1 /\ shake_init B R s1 = Ok s2 /\ shake_inv s2 [] [] 0 [] 0.
  Proof.
    intros Hl. eexists. unfold shake_clear, shake_wipe. cbn [hk hN hS hsq hsfx].
    match goal with |- context [Ok ?x = Ok _] => destruct (shake_init_ok x) as (s2 & E & H) end.
    - cbn [hk sm]. unfold zero_memory. rewrite zeros_length. exact Hl.
    - exists s2. split; [reflexivity|]. split; [exact E|]. exact H.
  Qed.
End Shake.

(** ** The FIPS 202 / SP 800-185 functions *)
Section Fips.
  Variables (B : N) (r64 sec : nat).
  Hypothesis Hr64 : 1 <= r64 <= 21.
  Hypothesis Hrate : shake_rate B = N.of_nat (64 * r64).
  Hypothesis Hsec : 8 * r64 = 200 - 2 * sec.

  Lemma keccak_c_ksponge sfx msg n : length sfx <= 6 -> bytes_ok msg ->
    keccak_c (200 - 2 * sec) sfx msg n = ksponge 24 r64 (suffix_byte sfx) msg n.
  Proof.
    intros Hs Hm. unfold keccak_c, ksponge. rewrite <- Hsec.
    rewrite (bits_pad_eq (8 * r64) sfx msg) by (auto; lia). reflexivity.
  Qed.

  Definition shake_R (s : shake_st) (_ : unit) (msg : list N) (k : nat) : Prop :=
    bytes_ok msg /\ shake_inv 24 r64 s [] [] 0 msg k.

  Lemma shake_xof_eq msg n : bytes_ok msg -> shake_xof sec msg n = ksponge 24 r64 0x1f msg n.
  Proof. intros. unfold shake_xof. rewrite keccak_c_ksponge; [reflexivity|cbn; lia|auto]. Qed.

  Lemma shake_sim : xsim (shake B 24) (shake_spec sec) shake_R true.
  Proof.
    constructor.
    - intros s p msg k (_ & H). pose proof H as (HN & HS & _ & Hl & _).
      destruct (shake_init_ok B 24 r64 (le_n 24) Hr64 Hrate s Hl) as (s' & E & H').
      rewrite HN, HS in H'. exists s'. repeat split; auto; try constructor; apply H'.
    - intros s p msg d Hd (Hm & H).
      destruct (shake_update_ok B 24 r64 (le_n 24) Hr64 Hrate s [] [] 0 msg d H) as (s' & E & H').
      exists s'. split; [exact E|]. split; [apply bytes_ok_app; auto|exact H'].
    - intros _ s p msg k (_ & H).
      destruct (shake_clear_init_ok B 24 r64 (le_n 24) Hr64 Hrate s (shake_inv_sm _ _ _ _ _ _ _ _ H))
        as (s1 & s2 & E1 & E2 & H').
      exists s1, s2. split; [exact E1|]. split; [exact E2|]. split; [constructor|exact H'].
    - intros q. destruct q.
    - intros s p msg k n Hn (Hm & H).
      destruct (shake_squeeze_ok B 24 r64 (le_n 24) Hr64 Hrate s [] [] 0 msg k n Hn H) as (s' & E & H').
      exists s'. cbn [xs_out shake_spec xp_squeeze shake]. rewrite shake_xof_eq by auto.
      split; [exact E|]. split; [auto|exact H'].
    - intros s p msg k n (Hm & _). cbn [xs_out shake_spec]. rewrite shake_xof_eq by auto.
      apply (ksponge_length B 24 r64 (le_n 24) Hr64 Hrate).
    - intros s p msg k n (Hm & _). cbn [xs_out shake_spec]. rewrite shake_xof_eq by auto.
      apply (ksponge_bytes B 24 r64 (le_n 24) Hr64 Hrate).
  Qed.

  Theorem shake_implements_gen g sq sfx : length (sm g) = 168 ->
    ximplements (shake B 24) (shake_spec sec) true (fresh_of (shake_ctor g sq sfx) (shake_init B 24)).
  Proof.
    intros Hg. unfold fresh_of, shake_ctor. cbn [bind].
    destruct (shake_init_ok B 24 r64 (le_n 24) Hr64 Hrate (mksh g [] [] sq sfx) Hg) as (s' & -> & H').
    apply (xsim_implements (shake B 24) (shake_spec sec) shake_R true shake_sim).
    split; [constructor|exact H'].
  Qed.

  (** *** cSHAKE *)

  (** What the code computes: the header padding has at least one zero byte. *)
  Definition cshake_code (p : list N * list N) (msg : list N) (n : nat) : list N :=
    match fst p, snd p with
    | [], [] => shake_xof sec msg n
    | fn, cust => keccak_c (200 - 2 * sec) [false; false] (hdr r64 fn cust ++ msg) n
    end.

  Lemma hdr_ok fn cust : bytes_ok fn -> bytes_ok cust -> bytes_ok (hdr r64 fn cust).
  Proof.
    intros H1 H2. assert (H : bytes_ok (hdr_z r64 fn cust ++ zeros (8 * r64 - length (hdr_z r64 fn cust) mod (8 * r64)))).
    { apply bytes_ok_app; [|apply bytes_ok_zeros].
      unfold hdr_z. apply bytes_ok_app; [apply left_enc_ok; lia|].
      apply bytes_ok_app; apply encode_string_ok; auto. }
    unfold hdr. destruct fn; [destruct cust; [constructor|]|]; exact H.
  Qed.

  Lemma cshake_code_eq fn cust msg n : bytes_ok fn -> bytes_ok cust -> bytes_ok msg ->
    cshake_code (fn, cust) msg n = ksponge 24 r64 (dom_byte 0 fn cust) (hdr r64 fn cust ++ msg) n.
  Proof.
    intros H1 H2 Hm. unfold cshake_code. cbn [fst snd].
    assert (H : bytes_ok (hdr r64 fn cust ++ msg)) by (apply bytes_ok_app; auto using hdr_ok).
    destruct fn; [destruct cust|]; [apply shake_xof_eq; auto|..];
      (rewrite keccak_c_ksponge; [reflexivity|cbn; lia|auto]).
  Qed.

  Definition cshake_spec : xof_spec cshake_param :=
    {| xs_params := list N * list N; xs_default := ([], []);
       xs_set := fun q v p => match q with
                              | CsName => Some (v, snd p)
                              | CsCustomization => Some (fst p, v)
                              end;
       xs_out := fun p msg n => cshake_xof sec (fst p) (snd p) msg n |}.

  Definition cshake_R (s : shake_st) (p : list N * list N) (msg : list N) (k : nat) : Prop :=
    bytes_ok msg /\ bytes_ok (fst p) /\ bytes_ok (snd p) /\
    shake_inv 24 r64 s (fst p) (snd p) 0 (hdr r64 (fst p) (snd p) ++ msg) k.

  Lemma cshake_sim : xsim (cshake B 24) (with_out cshake_spec cshake_code) cshake_R true.
  Proof.
    constructor.
    - intros s p msg k (_ & P1 & P2 & H). pose proof H as (HN & HS & _ & Hl & _).
      destruct (shake_init_ok B 24 r64 (le_n 24) Hr64 Hrate s Hl) as (s' & E & H').
      rewrite HN, HS in H'. exists s'. split; [exact E|]. unfold cshake_R. rewrite app_nil_r.
      split; [constructor|]. auto.
    - intros s p msg d Hd (Hm & P1 & P2 & H).
      destruct (shake_update_ok B 24 r64 (le_n 24) Hr64 Hrate s _ _ 0 _ d H) as (s' & E & H').
      exists s'. split; [exact E|]. unfold cshake_R. rewrite app_assoc.
      split; [apply bytes_ok_app; auto|]. auto.
    - intros _ s p msg k (_ & P1 & P2 & H).
      destruct (shake_clear_init_ok B 24 r64 (le_n 24) Hr64 Hrate s (shake_inv_sm _ _ _ _ _ _ _ _ H))
        as (s1 & s2 & E1 & E2 & H').
      exists s1, s2. split; [exact E1|]. split; [exact E2|]. repeat split; try constructor; apply H'.
    - intros q v s p msg k Hv (_ & P1 & P2 & H). pose proof H as (HN & HS & _ & Hl & _).
      destruct q; cbn [xs_set with_out cshake_spec].
      + destruct (shake_init_ok B 24 r64 (le_n 24) Hr64 Hrate
                    (mksh (hk s) v (hS s) (hsq s) (hsfx s)) Hl) as (s' & E & H').
        eexists. exists s'. split; [reflexivity|]. split; [exact E|].
        cbn [hN hS] in H'. rewrite HS in H'. unfold cshake_R. cbn [fst snd]. rewrite app_nil_r.
        split; [constructor|]. auto.
      + destruct (shake_init_ok B 24 r64 (le_n 24) Hr64 Hrate
                    (mksh (hk s) (hN s) v (hsq s) (hsfx s)) Hl) as (s' & E & H').
        eexists. exists s'. split; [reflexivity|]. split; [exact E|].
        cbn [hN hS] in H'. rewrite HN in H'. unfold cshake_R. cbn [fst snd]. rewrite app_nil_r.
        split; [constructor|]. auto.
    - intros s p msg k n Hn (Hm & P1 & P2 & H). 
      destruct (shake_squeeze_ok B 24 r64 (le_n 24) Hr64 Hrate s _ _ 0 _ k n Hn H) as (s' & E & H').
      exists s'. destruct p as [fn cust]. cbn [fst snd] in *.
      cbn [xs_out with_out]. rewrite cshake_code_eq by auto. split; [exact E|]. split; auto.
    - intros s [fn cust] msg k n (Hm & P1 & P2 & H). cbn [xs_out with_out].
      rewrite cshake_code_eq by auto. apply (ksponge_length B 24 r64 (le_n 24) Hr64 Hrate).
    - intros s [fn cust] msg k n (Hm & P1 & P2 & H). cbn [xs_out with_out].
      rewrite cshake_code_eq by auto. apply (ksponge_bytes B 24 r64 (le_n 24) Hr64 Hrate).
  Qed.

  Theorem cshake_code_implements g sq sfx : length (sm g) = 168 ->
    ximplements (cshake B 24) (with_out cshake_spec cshake_code) true
      (fresh_of (shake_ctor g sq sfx) (shake_init B 24)).
  Proof.
    intros Hg. unfold fresh_of, shake_ctor. cbn [bind].
    destruct (shake_init_ok B 24 r64 (le_n 24) Hr64 Hrate (mksh g [] [] sq sfx) Hg) as (s' & -> & H').
    apply (xsim_implements (cshake B 24) (with_out cshake_spec cshake_code) cshake_R true cshake_sim).
    split; [constructor|]. split; [constructor|]. split; [constructor|exact H'].
  Qed.

  (** The header fits SP 800-185 unless its unpadded length is a multiple of the rate. *)
  Definition hdr_fits (fn cust : list N) : Prop :=
    fn ++ cust <> [] ->
    (length (left_enc (N.of_nat (200 - 2 * sec)) ++ encode_string fn ++ encode_string cust)
      mod (200 - 2 * sec)) <> 0.

  Lemma hdr_standard fn cust : hdr_fits fn cust -> fn ++ cust <> [] ->
    hdr r64 fn cust = cshake_header sec fn cust.
  Proof.
    intros H Hn. specialize (H Hn). unfold cshake_header, bytepad.
    assert (E : hdr r64 fn cust
      = hdr_z r64 fn cust ++ zeros (8 * r64 - length (hdr_z r64 fn cust) mod (8 * r64))).
    { unfold hdr. destruct fn; [destruct cust; [contradiction|]|]; reflexivity. }
    rewrite E. unfold hdr_z. rewrite Hsec.
    set (z := left_enc (N.of_nat (200 - 2 * sec)) ++ encode_string fn ++ encode_string cust) in *.
    f_equal. f_equal. symmetry. apply Nat.mod_small. lia.
  Qed.

  Lemma cshake_agree p msg n : hdr_fits (fst p) (snd p) ->
    cshake_code p msg n = xs_out cshake_spec p msg n.
  Proof.
    destruct p as [fn cust]. cbn [fst snd xs_out cshake_spec]. intros H.
    unfold cshake_code, cshake_xof. cbn [fst snd].
    destruct fn; [destruct cust; [reflexivity|]|]; rewrite hdr_standard; auto; discriminate.
  Qed.

  Theorem cshake_implements_gen g sq sfx : length (sm g) = 168 ->
    ximplements_when (cshake B 24) cshake_spec (fun p => hdr_fits (fst p) (snd p)) true
      (fresh_of (shake_ctor g sq sfx) (shake_init B 24)).
  Proof.
    intros Hg.
    apply (ximplements_restrict (cshake B 24) cshake_spec _ true _ cshake_code).
    - intros p msg n H. apply cshake_agree. exact H.
    - apply cshake_code_implements. exact Hg.
  Qed.
End Fips.

Theorem shake128_implements g sq sfx : length (sm g) = 168 ->
  ximplements (shake 128 24) (shake_spec 16) true (fresh_of (shake_ctor g sq sfx) (shake_init 128 24)).
Proof. apply (shake_implements_gen 128 21 16); [lia|reflexivity|reflexivity]. Qed.
Theorem shake256_implements g sq sfx : length (sm g) = 168 ->
  ximplements (shake 256 24) (shake_spec 32) true (fresh_of (shake_ctor g sq sfx) (shake_init 256 24)).
Proof. apply (shake_implements_gen 256 17 32); [lia|reflexivity|reflexivity]. Qed.
Theorem cshake128_implements g sq sfx : length (sm g) = 168 ->
  ximplements_when (cshake 128 24) (cshake_spec 16) (fun p => hdr_fits 16 (fst p) (snd p)) true
    (fresh_of (shake_ctor g sq sfx) (shake_init 128 24)).
Proof. apply (cshake_implements_gen 128 21 16); [lia|reflexivity|reflexivity]. Qed.
Theorem cshake256_implements g sq sfx : length (sm g) = 168 ->
  ximplements_when (cshake 256 24) (cshake_spec 32) (fun p => hdr_fits 32 (fst p) (snd p)) true
    (fresh_of (shake_ctor g sq sfx) (shake_init 256 24)).
Proof. apply (cshake_implements_gen 256 17 32); [lia|reflexivity|reflexivity]. Qed.
