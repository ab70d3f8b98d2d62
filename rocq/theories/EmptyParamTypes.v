(** * Types whose parameters are forgotten when set to the empty string. *)
From Verif Require Import Base Hasher HasherSpec Library LibraryProof XLibraryProof LibraryTypes LibraryTypesProof EmptyParam
  HasherWhen Shake Kmac KmacProof ShakeProof Sha3Spec K12 K12Spec K12Proof Ascon AsconSpec Blake BlakeProof Blake2 Blake2Spec Blake2Sim Blake2p Blake2pSim Skein SkeinSim Echo EchoSim.

Definition is_name (q : cshake_param) : bool := match q with CsName => true | _ => false end.
Definition is_cust (q : cshake_param) : bool := match q with CsCustomization => true | _ => false end.
Definition is_key (q : kmac_param) : bool := match q with KmKey => true | _ => false end.
Definition is_kcust (q : kmac_param) : bool := match q with KmCustomization => true | _ => false end.
Definition is_b2key (q : b2_param) : bool := match q with B2Key => true | _ => false end.

Ltac which := let r := fresh in intros r; destruct r; split; (reflexivity || discriminate || congruence).
Ltac over := intros v [] p1; cbn; intros E; injection E as <-; reflexivity.

Lemma cshake_none B r64 sec : (1 <= r64 <= 21)%nat -> shake_rate B = N.of_nat (64 * r64) -> (8 * r64 = 200 - 2 * sec)%nat ->
  xempty_is_none (cshake_type B) CsName is_name /\ xempty_is_none (cshake_type B) CsCustomization is_cust.
Proof.
  intros H1 H2 H3. pose proof (xgood_cshake B r64 sec H1 H2 H3) as G.
  split; (apply (xempty_param G); [which|reflexivity|over]).
Qed.
Lemma kmac_none B r64 sec hs : (1 <= r64 <= 21)%nat -> shake_rate B = N.of_nat (64 * r64) -> (8 * r64 = 200 - 2 * sec)%nat ->
  (if (B =? 128)%N then 168%nat else 136%nat) = (8 * r64)%nat -> bits_up_to (2 ^ 64 - 1) hs ->
  (empty_is_none (kmac_type B hs) KmKey is_key /\ empty_is_none (kmac_type B hs) KmCustomization is_kcust) /\
  (xempty_is_none (kmacxof_type B) KmKey is_key /\ xempty_is_none (kmacxof_type B) KmCustomization is_kcust).
Proof.
  intros H1 H2 H3 H4 H5.
  pose proof (proj1 (good_kmac B r64 sec hs H1 H2 H3 H4 H5)) as G.
  pose proof (xgood_kmac B r64 sec H1 H2 H3 H4) as XG.
  split; split; first [apply (empty_param G); [which|reflexivity|over] | apply (xempty_param XG); [which|reflexivity|over]].
Qed.

Ltac cust := intros []; split; reflexivity.
Lemma k12_none : xempty_is_none (k12_type 128 12) K12Customization (fun _ => true) /\
  xempty_is_none (k12_type 256 14) K12Customization (fun _ => true) /\
  xempty_is_none (k12_type 256 12) K12Customization (fun _ => true).
Proof.
  split; [|split].
  - apply (xempty_param (xgood_k12 128 12 16 ltac:(lia) k12_implements)); [cust|reflexivity|].
    intros v p p1; cbn; intros E; injection E as <-; reflexivity.
  - apply (xempty_param (xgood_k12 256 14 32 ltac:(lia) m14_implements)); [cust|reflexivity|].
    intros v p p1; cbn; intros E; injection E as <-; reflexivity.
  - apply (xempty_param (xgood_k12 256 12 32 ltac:(lia) kt256_implements)); [cust|reflexivity|].
    intros v p p1; cbn; intros E; injection E as <-; reflexivity.
Qed.
Lemma cxof_none : xempty_is_none ascon_cxof_type AsCustomization (fun _ => true).
Proof.
  apply (xempty_param xgood_ascon_cxof); [cust|reflexivity|].
  intros v p p1; cbn; intros E; injection E as <-; reflexivity.
Qed.
Lemma b2_key_over w v p p1 : b2_spec_set w B2Key v p = Some p1 -> b2_spec_set w B2Key [] p1 = b2_spec_set w B2Key [] p.
Proof. cbn [b2_spec_set]. destruct (_ <=? _)%nat; intros E; [|discriminate]. injection E as <-. reflexivity. Qed.
Lemma blake2_key_none w hs : w = 64 \/ w = 32 -> bits_up_to (8 * w) hs ->
  empty_is_none (blake2_type w BHash hs) B2Key is_b2key.
Proof.
  intros Hw Hs. apply (empty_param (proj1 (good_blake2 w hs Hw Hs))); [which|reflexivity|exact (b2_key_over w)].
Qed.
Lemma blake2x_key_none w hs : w = 64 \/ w = 32 -> bits_up_to (8 * w * (w / 8) * 4 - 16) hs ->
  empty_is_none (blake2_type w BXhash hs) B2Key is_b2key.
Proof.
  intros Hw Hs. apply (empty_param (proj1 (good_blake2x w hs Hw Hs))); [which|reflexivity|exact (b2_key_over w)].
Qed.
Lemma blake2x_xof_key_none w : w = 64 \/ w = 32 -> xempty_is_none (blake2x_xof_type w) B2Key is_b2key.
Proof.
  intros Hw. apply (xempty_param (xgood_blake2x w Hw)); [which|reflexivity|exact (b2_key_over w)].
Qed.
Lemma blake2p_key_none w hs : w = 64 \/ w = 32 -> bits_up_to (8 * w) hs ->
  empty_is_none (blake2p_type w hs) B2Key is_b2key.
Proof.
  intros Hw Hs. apply (empty_param (proj1 (good_blake2p w hs Hw Hs))); [which|reflexivity|exact (b2_key_over w)].
Qed.
Definition is_sk (q r : sk_param) : bool :=
  match q, r with SkPers, SkPers | SkNonce, SkNonce | SkKey, SkKey => true | _, _ => false end.
Lemma skein_none nw hs q : In nw [4; 8; 16]%nat -> bits_up_to (2 ^ 64 - 1) hs ->
  empty_is_none (skein_type nw hs) q (is_sk q) /\ xempty_is_none (skein_xof_type nw) q (is_sk q).
Proof.
  intros Hn Hs. split.
  - apply (empty_param (proj1 (good_skein nw hs Hn Hs)));
      [destruct q; which|destruct q; reflexivity|destruct q; over].
  - apply (xempty_param (xgood_skein nw Hn)); [destruct q; which|destruct q; reflexivity|destruct q; over].
Qed.
Lemma blake_salt_none hs : In hs [224; 256; 384; 512] -> empty_is_none (blake_type hs) BlSalt (fun _ => true).
Proof.
  intros Hs. apply (empty_param (proj1 (good_blake hs Hs))); [cust|reflexivity|].
  intros v p p1 _. reflexivity.
Qed.
Lemma echo_salt_none hs : bits_up_to 512 hs -> empty_is_none (echo_type hs) EcSalt (fun _ => true).
Proof.
  intros Hs. apply (empty_param (proj1 (good_echo hs Hs))); [cust|reflexivity|].
  intros v p p1 _. reflexivity.
Qed.
