(** * SHA-3 conformance. *)
From Verif Require Import Base Absorb Lemmas WordLemmas TableLemmas AbsorbProof Hasher HasherSpec HasherProof
  MdState MdProof SpecCommon Keccak KeccakSpec KeccakProof Squeeze SqueezeProof Sha3 Sha3Spec SpongeProof Validate.
Local Open Scope nat_scope.

Lemma squeeze_stream_short {C} (next : C -> C) emit r n c : 0 < r -> n <= r -> n <= length (emit c) ->
  squeeze_stream next emit r n c = firstn n (emit c).
Proof.
  intros Hr Hn He. unfold squeeze_stream.
  rewrite Nat.add_1_r. cbn [squeeze_blocks]. rewrite firstn_app, firstn_firstn.
  replace (n - length (firstn r (emit c))) with 0 by (rewrite firstn_length; lia).
  rewrite firstn_O, app_nil_r. f_equal. lia.
Qed.

Lemma sponge_state R r64 P n :
  sponge R (8 * r64) P n = squeeze_stream (keccak_p R) (words_bytes 8) (8 * r64) n (kc_state R r64 P).
Proof. reflexivity. Qed.

Lemma rate_r r64 : N.to_nat (N.of_nat (64 * r64) / 8) = 8 * r64.
Proof. replace (N.of_nat (64 * r64)) with (N.of_nat (8 * r64) * 8)%N by lia. rewrite N.div_mul by lia. lia. Qed.
Lemma rate_r64 r64 : N.to_nat (N.of_nat (64 * r64) / 64) = r64.
Proof. replace (N.of_nat (64 * r64)) with (N.of_nat r64 * 64)%N by lia. rewrite N.div_mul by lia. lia. Qed.

Section Size.
  (** digest of [d] bytes, rate of [r64] words *)
  Variables (d r64 : nat).
  Hypothesis Hd : 0 < d.
  Hypothesis Hr : 8 * r64 + 2 * d = 200.
  Hypothesis Hcap : 8 * r64 <= 144.
  Hypothesis Hdr : d <= 8 * r64.

  Definition sha3_R (s : sha3_st) (_ : unit) (msg : list N) : Prop :=
    bytes_ok msg /\ kc_inv 24 r64 144 (k3 s) msg /\ k3_hs s = N.of_nat (8 * d) /\
    k3_rate s = N.of_nat (64 * r64).

  Lemma sha3_digest_state msg : bytes_ok msg ->
    sha3_hash d msg = firstn d (words_bytes 8 (kc_state 24 r64 (pad_bytes (8 * r64) 6 msg))) /\
    length (kc_state 24 r64 (pad_bytes (8 * r64) 6 msg)) = 25.
  Proof.
    intros Hm.
    destruct (pad_bytes_length 24 r64 144 (le_n 24) ltac:(lia) Hcap 6 msg) as (n & Hn).
    destruct (kc_state_fold 24 r64 144 (le_n 24) ltac:(lia) Hcap _ n Hn) as [_ L].
    split; [|exact L].
    unfold sha3_hash, keccak_c. replace (200 - 2 * d) with (8 * r64) by lia.
    pose proof (bits_pad_eq (8 * r64) [false; true] msg ltac:(lia) ltac:(cbn; lia) Hm) as E.
    cbv zeta in E. rewrite E. change (suffix_byte [false; true]) with 6%N.
    rewrite sponge_state. apply squeeze_stream_short; [lia|lia|].
    rewrite words_bytes_length, L. lia.
  Qed.

  Lemma sha3_sim : sim sha3 (sha3_spec d) sha3_R true.
  Proof.
    constructor.
    - intros s p msg (_ & H & Hh & Ht). eexists. split; [reflexivity|].
      repeat split; auto; [constructor|]. apply kc_inv_start; [lia|lia|exact Hcap|]. exact (kc_inv_sm 24 r64 144 _ _ H).
    - intros s p msg x Hx (Hm & H & Hh & Ht). cbn [p_update hp sha3]. unfold sha3_update.
      rewrite Ht, rate_r, rate_r64.
      destruct (kc_update_ok 24 r64 144 (le_n 24) ltac:(lia) Hcap (k3 s) msg x H) as (s' & -> & H').
      cbn [bind]. eexists. split; [reflexivity|]. repeat split; auto. apply bytes_ok_app; auto.
    - intros _ s p msg (_ & H & Hh & Ht). do 2 eexists. split; [reflexivity|]. split; [reflexivity|].
      repeat split; auto; [constructor|]. apply kc_inv_start; [lia|lia|exact Hcap|]. cbn [k3 sm].
      unfold zero_memory. rewrite zeros_length. exact (kc_inv_sm 24 r64 144 _ _ H).
    - intros q. destruct q.
    - intros s p msg (Hm & H & Hh & Ht). cbn [hp_final sha3]. unfold sha3_final.
      destruct (kc_pad_ok 24 r64 144 (le_n 24) ltac:(lia) Hcap (k3_rate s) 6 (k3 s) msg)
        as (m' & p' & E & _); auto.
      { rewrite Ht. apply rate_r. } { rewrite Ht. apply rate_r64. }
      destruct (sha3_digest_state msg Hm) as (E2 & L).
      rewrite E. cbn [bind sh].
      replace (N.to_nat (k3_hs s / 8)) with d.
      2:{ rewrite Hh. replace (N.of_nat (8 * d)) with (N.of_nat d * 8)%N by lia. rewrite N.div_mul by lia. lia. }
      rewrite load_ok by (rewrite words_bytes_length, L; lia). cbn [bind skipn].
      cbn [sp_digest sha3_spec]. rewrite E2. eauto.
    - intros s p msg (Hm & H & Hh & Ht). cbn [hp_size sha3 sp_size sha3_spec]. rewrite Hh.
      replace (N.of_nat (8 * d)) with (N.of_nat d * 8)%N by lia. rewrite N.div_mul by lia. lia.
    - intros s p msg (Hm & _). cbn [sp_digest sp_size sha3_spec].
      destruct (sha3_digest_state msg Hm) as (-> & L).
      rewrite firstn_length, words_bytes_length, L. lia.
    - intros s p msg (Hm & _). cbn [sp_digest sha3_spec].
      destruct (sha3_digest_state msg Hm) as (-> & L). apply Forall_firstn, words_bytes_ok.
    - exact Hd.
  Qed.

  Lemma sha3_implements_gen s : k3_hs s = N.of_nat (8 * d) -> k3_rate s = N.of_nat (64 * r64) ->
    length (sm (k3 s)) = 144 -> implements sha3 (sha3_spec d) true (sha3_init s).
  Proof.
    intros Hh Ht Hg. unfold sha3_init.
    apply (sim_implements sha3 (sha3_spec d) sha3_R true sha3_sim).
    repeat split; auto; [constructor|]. apply kc_inv_start; [lia|lia|exact Hcap|exact Hg].
  Qed.
End Size.

Definition sha3_size (hs : N) : Prop := (hs = 224 \/ hs = 256 \/ hs = 384 \/ hs = 512)%N.

Theorem sha3_implements hs g : sha3_size hs -> length (sm g) = 144 ->
  implements sha3 (sha3_spec (N.to_nat (hs / 8))) true (fresh_of (sha3_ctor hs g) sha3_init).
Proof.
  intros Hs Hg.
  destruct Hs as [ | [ | [ | ]]]; subst hs; unfold fresh_of, sha3_ctor; cbn [validate_list bind];
    [apply (sha3_implements_gen 28 18)|apply (sha3_implements_gen 32 17)
    |apply (sha3_implements_gen 48 13)|apply (sha3_implements_gen 64 9)]; auto; try lia; reflexivity.
Qed.

Theorem sha3_static_implements hs g : sha3_size hs -> length (sm g) = 144 ->
  implements sha3 (sha3_spec (N.to_nat (hs / 8))) true (fresh_of (sha3_ctor_static hs g) sha3_init).
Proof.
  intros Hs Hg.
  destruct Hs as [ | [ | [ | ]]]; subst hs; unfold fresh_of, sha3_ctor_static; cbn [validate_list bind];
    [apply (sha3_implements_gen 28 18)|apply (sha3_implements_gen 32 17)
    |apply (sha3_implements_gen 48 13)|apply (sha3_implements_gen 64 9)]; auto; try lia; reflexivity.
Qed.
