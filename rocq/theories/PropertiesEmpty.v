(** * Empty squeezes and empty parameters (C12, C48).

    [empty_squeeze_harmless], [empty_is_none], [xempty_is_none] are defined in Library.v. *)
From Verif Require Import Base Hasher Library LibraryTypes Blake Blake2 Blake2p Skein Echo Shake Kmac K12 Ascon EmptyRefuted EmptyParamTypes.

(** ** C12 is false for every XOF type *)
Theorem C12_shake128_refuted : ~ empty_squeeze_harmless (shake_type 128). Proof. exact shake128_empty_squeeze. Qed.
Theorem C12_shake256_refuted : ~ empty_squeeze_harmless (shake_type 256). Proof. exact shake256_empty_squeeze. Qed.
Theorem C12_cshake128_refuted : ~ empty_squeeze_harmless (cshake_type 128). Proof. exact cshake128_empty_squeeze. Qed.
Theorem C12_cshake256_refuted : ~ empty_squeeze_harmless (cshake_type 256). Proof. exact cshake256_empty_squeeze. Qed.
Theorem C12_kmac128_xof_refuted : ~ empty_squeeze_harmless (kmacxof_type 128). Proof. exact kmac128_empty_squeeze. Qed.
Theorem C12_kmac256_xof_refuted : ~ empty_squeeze_harmless (kmacxof_type 256). Proof. exact kmac256_empty_squeeze. Qed.
Theorem C12_k12_refuted : ~ empty_squeeze_harmless (k12_type 128 12). Proof. exact k12_empty_squeeze. Qed.
Theorem C12_m14_refuted : ~ empty_squeeze_harmless (k12_type 256 14). Proof. exact m14_empty_squeeze. Qed.
Theorem C12_kt256_refuted : ~ empty_squeeze_harmless (k12_type 256 12). Proof. exact kt256_empty_squeeze. Qed.
Theorem C12_ascon_xof_refuted : ~ empty_squeeze_harmless ascon_xof_type. Proof. exact ascon_xof_empty_squeeze. Qed.
Theorem C12_ascon_cxof_refuted : ~ empty_squeeze_harmless ascon_cxof_type. Proof. exact ascon_cxof_empty_squeeze. Qed.
Theorem C12_esch256_xof_refuted : ~ empty_squeeze_harmless (esch_xof_type 384 12). Proof. exact esch256_empty_squeeze. Qed.
Theorem C12_esch384_xof_refuted : ~ empty_squeeze_harmless (esch_xof_type 512 16). Proof. exact esch384_empty_squeeze. Qed.
Theorem C12_blake2xb_xof_refuted : ~ empty_squeeze_harmless (blake2x_xof_type 64). Proof. exact blake2xb_empty_squeeze. Qed.
Theorem C12_blake2xs_xof_refuted : ~ empty_squeeze_harmless (blake2x_xof_type 32). Proof. exact blake2xs_empty_squeeze. Qed.
Theorem C12_skein256_xof_refuted : ~ empty_squeeze_harmless (skein_xof_type 4). Proof. exact skein256_empty_squeeze. Qed.
Theorem C12_skein512_xof_refuted : ~ empty_squeeze_harmless (skein_xof_type 8). Proof. exact skein512_empty_squeeze. Qed.
Theorem C12_skein1024_xof_refuted : ~ empty_squeeze_harmless (skein_xof_type 16). Proof. exact skein1024_empty_squeeze. Qed.

(** ** C48 *)

(** BLAKE2: the previous salt (personalization) stays in force. *)
Theorem C48_blake2b_salt_refuted : ~ empty_is_none (blake2_type 64 BHash 256) B2Salt is_salt.
Proof. exact blake2b_empty_salt. Qed.
Theorem C48_blake2b_personalization_refuted : ~ empty_is_none (blake2_type 64 BHash 256) B2Pers is_pers.
Proof. exact blake2b_empty_pers. Qed.
Theorem C48_blake2s_salt_refuted : ~ empty_is_none (blake2_type 32 BHash 256) B2Salt is_salt.
Proof. exact blake2s_empty_salt. Qed.
Theorem C48_blake2s_personalization_refuted : ~ empty_is_none (blake2_type 32 BHash 256) B2Pers is_pers.
Proof. exact blake2s_empty_pers. Qed.
Theorem C48_blake2xb_salt_refuted : ~ empty_is_none (blake2_type 64 BXhash 256) B2Salt is_salt.
Proof. exact blake2xb_empty_salt. Qed.
Theorem C48_blake2xs_salt_refuted : ~ empty_is_none (blake2_type 32 BXhash 256) B2Salt is_salt.
Proof. exact blake2xs_empty_salt. Qed.
Theorem C48_blake2xb_xof_salt_refuted : ~ xempty_is_none (blake2x_xof_type 64) B2Salt is_salt.
Proof. exact blake2xb_xof_empty_salt. Qed.
Theorem C48_blake2xs_xof_salt_refuted : ~ xempty_is_none (blake2x_xof_type 32) B2Salt is_salt.
Proof. exact blake2xs_xof_empty_salt. Qed.
Theorem C48_blake2bp_salt_refuted : ~ empty_is_none (blake2p_type 64 512) B2Salt is_salt.
Proof. exact blake2bp_empty_salt. Qed.
Theorem C48_blake2bp_personalization_refuted : ~ empty_is_none (blake2p_type 64 512) B2Pers is_pers.
Proof. exact blake2bp_empty_pers. Qed.
Theorem C48_blake2sp_salt_refuted : ~ empty_is_none (blake2p_type 32 256) B2Salt is_salt.
Proof. exact blake2sp_empty_salt. Qed.
Theorem C48_blake2sp_personalization_refuted : ~ empty_is_none (blake2p_type 32 256) B2Pers is_pers.
Proof. exact blake2sp_empty_pers. Qed.

(** Parameters of the other kinds are forgotten. *)
Theorem C48_cshake :
  xempty_is_none (cshake_type 128) CsName is_name /\ xempty_is_none (cshake_type 128) CsCustomization is_cust /\
  xempty_is_none (cshake_type 256) CsName is_name /\ xempty_is_none (cshake_type 256) CsCustomization is_cust.
Proof.
  destruct (cshake_none 128 21 16 ltac:(lia) eq_refl eq_refl). destruct (cshake_none 256 17 32 ltac:(lia) eq_refl eq_refl). auto.
Qed.
Theorem C48_kmac128 hs : bits_up_to (2 ^ 64 - 1) hs ->
  (empty_is_none (kmac_type 128 hs) KmKey is_key /\ empty_is_none (kmac_type 128 hs) KmCustomization is_kcust) /\
  (xempty_is_none (kmacxof_type 128) KmKey is_key /\ xempty_is_none (kmacxof_type 128) KmCustomization is_kcust).
Proof. exact (kmac_none 128 21 16 hs ltac:(lia) eq_refl eq_refl eq_refl). Qed.
Theorem C48_kmac256 hs : bits_up_to (2 ^ 64 - 1) hs ->
  (empty_is_none (kmac_type 256 hs) KmKey is_key /\ empty_is_none (kmac_type 256 hs) KmCustomization is_kcust) /\
  (xempty_is_none (kmacxof_type 256) KmKey is_key /\ xempty_is_none (kmacxof_type 256) KmCustomization is_kcust).
Proof. exact (kmac_none 256 17 32 hs ltac:(lia) eq_refl eq_refl eq_refl). Qed.
Theorem C48_k12 : xempty_is_none (k12_type 128 12) K12Customization (fun _ => true) /\
  xempty_is_none (k12_type 256 14) K12Customization (fun _ => true) /\
  xempty_is_none (k12_type 256 12) K12Customization (fun _ => true).
Proof. exact k12_none. Qed.
Theorem C48_ascon_cxof : xempty_is_none ascon_cxof_type AsCustomization (fun _ => true).
Proof. exact cxof_none. Qed.
Theorem C48_blake2_key :
  (forall hs, bits_up_to 512 hs -> empty_is_none (blake2_type 64 BHash hs) B2Key is_b2key) /\
  (forall hs, bits_up_to 256 hs -> empty_is_none (blake2_type 32 BHash hs) B2Key is_b2key) /\
  (forall hs, bits_up_to 16368 hs -> empty_is_none (blake2_type 64 BXhash hs) B2Key is_b2key) /\
  (forall hs, bits_up_to 4080 hs -> empty_is_none (blake2_type 32 BXhash hs) B2Key is_b2key) /\
  xempty_is_none (blake2x_xof_type 64) B2Key is_b2key /\ xempty_is_none (blake2x_xof_type 32) B2Key is_b2key.
Proof.
  split; [exact (fun hs => blake2_key_none 64 hs (or_introl eq_refl))|].
  split; [exact (fun hs => blake2_key_none 32 hs (or_intror eq_refl))|].
  split; [exact (fun hs => blake2x_key_none 64 hs (or_introl eq_refl))|].
  split; [exact (fun hs => blake2x_key_none 32 hs (or_intror eq_refl))|].
  split; [exact (blake2x_xof_key_none 64 (or_introl eq_refl))|exact (blake2x_xof_key_none 32 (or_intror eq_refl))].
Qed.
(* the histories that are compared: a name, then a customization, then no name *)
Example C48_example :
  filter (fun o => match o with XBase b => sets_other is_name b | _ => true end)
    (xsetters [XBase (SetParam CsName [1]); XBase (Absorb FStr [5]); XBase (SetParam CsCustomization [2]); XSqueezeBuf 4])
  = [XBase (SetParam CsCustomization [2])].
Proof. reflexivity. Qed.

Theorem C48_blake2p_key :
  (forall hs, bits_up_to 512 hs -> empty_is_none (blake2p_type 64 hs) B2Key is_b2key) /\
  (forall hs, bits_up_to 256 hs -> empty_is_none (blake2p_type 32 hs) B2Key is_b2key).
Proof.
  split; [exact (fun hs => blake2p_key_none 64 hs (or_introl eq_refl))|exact (fun hs => blake2p_key_none 32 hs (or_intror eq_refl))].
Qed.

Theorem C48_blake_salt hs : In hs [224; 256; 384; 512] -> empty_is_none (blake_type hs) BlSalt (fun _ => true).
Proof. exact (blake_salt_none hs). Qed.

(** Skein: key, nonce and personalization, hash and extendable output. *)
Theorem C48_skein nw hs q : In nw [4; 8; 16]%nat -> bits_up_to (2 ^ 64 - 1) hs ->
  empty_is_none (skein_type nw hs) q (is_sk q) /\ xempty_is_none (skein_xof_type nw) q (is_sk q).
Proof. exact (skein_none nw hs q). Qed.

Theorem C48_echo_salt hs : bits_up_to 512 hs -> empty_is_none (echo_type hs) EcSalt (fun _ => true).
Proof. exact (echo_salt_none hs). Qed.

Definition empty_theorems :=
  (@C12_shake128_refuted,
   @C12_shake256_refuted,
   @C12_cshake128_refuted,
   @C12_cshake256_refuted,
   @C12_kmac128_xof_refuted,
   @C12_kmac256_xof_refuted,
   @C12_k12_refuted,
   @C12_m14_refuted,
   @C12_kt256_refuted,
   @C12_ascon_xof_refuted,
   @C12_ascon_cxof_refuted,
   @C12_esch256_xof_refuted,
   @C12_esch384_xof_refuted,
   @C12_blake2xb_xof_refuted,
   @C12_blake2xs_xof_refuted,
   @C48_blake2b_salt_refuted,
   @C48_blake2b_personalization_refuted,
   @C48_blake2s_salt_refuted,
   @C48_blake2s_personalization_refuted,
   @C48_blake2xb_salt_refuted,
   @C48_blake2xs_salt_refuted,
   @C48_blake2xb_xof_salt_refuted,
   @C48_blake2xs_xof_salt_refuted,
   @C48_cshake,
   @C48_kmac128,
   @C48_kmac256,
   @C48_k12,
   @C48_ascon_cxof,
   @C48_blake2_key,
   @C48_blake2bp_salt_refuted,
   @C48_blake2bp_personalization_refuted,
   @C48_blake2sp_salt_refuted,
   @C48_blake2sp_personalization_refuted,
   @C48_blake2p_key,
   @C48_blake_salt,
   @C12_skein256_xof_refuted,
   @C12_skein512_xof_refuted,
   @C12_skein1024_xof_refuted,
   @C48_skein,
   @C48_echo_salt).
Print Assumptions empty_theorems.
