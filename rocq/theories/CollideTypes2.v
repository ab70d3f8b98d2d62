(** * Equal digests of the remaining types (C56). *)
From Verif Require Import Base Lemmas WordLemmas TableLemmas SpecCommon Hasher HasherSpec HasherProof Library LibraryProof XLibraryProof LibraryTypes
  LibraryTypesProof Md5Spec Sha1Spec Sha2 Sha2Spec Sha2Proof Sm3Spec WhirlpoolSpec StreebogSpec StreebogProof Blake2 Blake2Spec Blake2pSpec Blake2Sim Blake2pSim BlakeSpec BlakeProof EchoSpec
  EchoSim GroestlSpec KupynaSpec JhSpec LshSpec LshProof SkeinSpec SkeinSim KeccakSpec Sha3Spec K12Spec AsconSpec EschSpec Inputs PadInj PadInjSponge Process ProcessTypes
  Bind BindTypes Inj InjArx InjCols InjCode CollideSpec Collide CollideSponge CollideSponge2 CollideWords CollideTypes PropertiesPad Sha3 Shake Kmac K12 ShakeProof KmacProof K12Proof.

(** ** Chains of blocks with shortened output *)
Lemma sha2_any :
  equal_digests sha224_type sha224_spec (below (2 ^ 61)) (fun _ => md_inputs 64 (be_bytes 8))
    (fun _ => in_step_or_out (fips_sha2_compress params256) iv_224 (fun r => firstn 28 (regs_bytes params256 r))) /\
  equal_digests sha384_type sha384_spec (below (2 ^ 61)) (fun _ => md_inputs 128 (be_bytes 16))
    (fun _ => in_step_or_out (fips_sha2_compress params512) iv_384 (fun r => firstn 48 (regs_bytes params512 r))) /\
  forall hs, bits_up_to 512 hs -> both_equal (sha512_type hs) (sha512_static_type hs) (sha2_spec W64 hs) (below (2 ^ 61)) (fun _ => md_inputs 128 (be_bytes 16))
    (fun _ => in_step_or_out (fips_sha2_compress params512) (iv_of W64 hs) (fun r => firstn (N.to_nat (hs / 8)) (regs_bytes params512 r))).
Proof.
  destruct C47_sha2 as (X & _ & Y & Z). split; [|split].
  - exact (processes_collide _ _ _ _ _ _ (2 ^ 61) r8_dec ns_dec X (fun _ _ => md_be_suffix 64 8 ltac:(lia) ltac:(lia))).
  - exact (processes_collide _ _ _ _ _ _ (2 ^ 61) r8_dec ns_dec Y (fun _ _ => md_be_suffix 128 16 ltac:(lia) ltac:(lia))).
  - intros hs H. exact (both_collide _ _ _ _ _ _ _ (2 ^ 61) r8_dec ns_dec (Z hs H) (fun _ => md_be_suffix 128 16 ltac:(lia) ltac:(lia))).
Qed.
Lemma kupyna_any hs : In hs [256; 512] -> both_equal (kupyna_type hs) (kupyna_static_type hs) (kupyna_spec hs) (below (2 ^ 61))
  (fun _ => md_inputs (8 * kus_C hs) (le_bytes 12)) (fun _ => in_step_or_out (kus_f (kus_C hs)) (kus_iv (kus_C hs)) (kus_last (kus_C hs) hs)).
Proof.
  intros H. assert (B : (0 < 8 * kus_C hs)%nat) by (unfold kus_C; destruct (_ <=? _); cbn; lia).
  exact (both_collide _ _ _ _ _ _ _ (2 ^ 61) ns_dec ns_dec (C47_kupyna hs H) (fun _ => md_le_suffix (8 * kus_C hs) 12 B ltac:(lia))).
Qed.
Lemma jh_any hs : bits_up_to 512 hs -> both_equal (jh_type hs) (jh_static_type hs) (jh_spec hs) (below (2 ^ 61))
  (fun _ => jh_inputs) (fun _ => in_step_or_out jhs_F8 (jhs_iv hs) (skipn (128 - N.to_nat (hs / 8)))).
Proof. intros H. exact (both_collide _ _ _ _ _ _ _ (2 ^ 61) ns_dec ns_dec (C47_jh hs H) (fun _ => jh_suffix)). Qed.
Lemma groestl_any hs : bits_up_to 512 hs -> both_equal (groestl_type hs) (groestl_static_type hs) (groestl_spec hs) (below (2 ^ 61 - 256))
  (fun _ => groestl_inputs hs) (fun _ => in_step_or_out (grs_f (grs_C hs)) (grs_iv (grs_C hs) hs) (grs_omega (grs_C hs) hs)).
Proof. intros H. exact (both_collide _ _ _ _ _ _ _ (2 ^ 61 - 256) ns_dec ns_dec (C47_groestl hs H) (fun _ => groestl_suffix hs)). Qed.
Lemma echo_any hs : bits_up_to 512 hs -> both_equal (echo_type hs) (echo_static_type hs) (echo_spec hs) (below (2 ^ 61))
  (fun _ => echo_inputs hs) (fun salt => in_step_or_out (fun V x => echo_compress hs salt V (fst x) (snd x)) (repeat (le_bytes 16 hs) (echo_words hs))
    (fun V => firstn (N.to_nat (hs / 8)) (concat V))).
Proof. intros H. exact (both_collide _ _ _ _ _ _ _ (2 ^ 61) nss_dec ctr_dec (C47_echo hs H) (fun _ => echo_suffix hs)). Qed.
Lemma streebog_any hs : In hs [256; 512] -> both_equal (streebog_type hs) (streebog_static_type hs) (sb_code_spec hs) (below (2 ^ 61))
  (fun _ => streebog_inputs add64 sb_sum) (fun _ => in_step_or_out (fun h x => sbs_g (fst x) h (snd x)) (sbs_iv hs) (skipn (64 - N.to_nat (hs / 8)))).
Proof. intros H. exact (both_collide _ _ _ _ _ _ _ (2 ^ 61) ns_dec sb_dec (C47_streebog hs H) (fun _ => streebog_suffix sb_sum)). Qed.
Lemma skein_any nw hs : In nw [4; 8; 16]%nat -> bits_up_to (2 ^ 64 - 1) hs -> both_equal (skein_type nw hs) (skein_static_type nw hs) (skein_spec nw hs) (below (2 ^ 64))
  (fun _ => skein_inputs nw T_msg) (fun p => in_step_or_out (fun H x => ubi_block nw H (snd x) (fst x)) (skein_start nw hs p) (fun G => skein_output nw G (N.to_nat (hs / 8)))).
Proof.
  intros Hn H. assert (B : (0 < nw)%nat) by (destruct Hn as [<-|[<-|[<-|[]]]]; lia).
  exact (both_collide _ _ _ _ _ _ _ (2 ^ 64) ns_dec ctr_dec (C47_skein nw hs Hn H) (fun _ => skein_suffix nw T_msg B eq_refl)).
Qed.
Lemma skein_xof_any nw : In nw [4; 8; 16]%nat -> equal_streams (skein_xof_type nw) (skein_xof_spec nw) (below (2 ^ 64))
  (fun _ => skein_inputs nw T_msg) (fun n p => in_step_or_out (fun H x => ubi_block nw H (snd x) (fst x)) (skein_start nw (2 ^ 64 - 1) p) (fun G => skein_output nw G n)).
Proof.
  intros Hn. assert (B : (0 < nw)%nat) by (destruct Hn as [<-|[<-|[<-|[]]]]; lia).
  exact (xprocesses_collide _ _ _ _ _ _ (2 ^ 64) ns_dec ctr_dec (C47_skein_xof nw Hn) (fun _ _ => skein_suffix nw T_msg B eq_refl)).
Qed.

(** ** Sponges *)
Lemma sha3_any hs : In hs [224; 256; 384; 512] -> let r := (200 - 2 * N.to_nat (hs / 8))%nat in
  both_equal (sha3_type hs) (sha3_static_type hs) (sha3_spec (N.to_nat (hs / 8))) any_length (fun _ => keccak_inputs r [false; true])
    (fun _ => inner_or_out (absorb_block 24 r) (zeros 25) (keccak_inner r) (keccak_out 24 r (N.to_nat (hs / 8)))).
Proof.
  intros H r. destruct (C43_sha3_inputs hs H) as [X Y].
  assert (Hr : (0 < r <= 200)%nat /\ (r mod 8 = 0)%nat) by (unfold r; destruct H as [<-|[<-|[<-|[<-|[]]]]]; vm_compute; lia). destruct Hr as [Hr Hm].
  split; [apply (processes_equal _ _ _ _ _ _ _ _ X)|apply (processes_equal _ _ _ _ _ _ _ _ Y)]; intros ops m1 m2 C p M1 M2 L1 L2 N E;
    (apply keccak_equal; auto; apply plain_ins; cbn; auto).
Qed.
Lemma shake_any :
  equal_streams (shake_type 128) (shake_spec 16) any_length (fun _ => keccak_inputs 168 [true; true; true; true])
    (fun n _ => inner_or_out (absorb_block 24 168) (zeros 25) (keccak_inner 168) (keccak_out 24 168 n)) /\
  equal_streams (shake_type 256) (shake_spec 32) any_length (fun _ => keccak_inputs 136 [true; true; true; true])
    (fun n _ => inner_or_out (absorb_block 24 136) (zeros 25) (keccak_inner 136) (keccak_out 24 136 n)).
Proof.
  destruct C43_shake_inputs as [X Y].
  split; [apply (xprocesses_equal _ _ _ _ _ _ _ _ X)|apply (xprocesses_equal _ _ _ _ _ _ _ _ Y)]; intros ops m1 m2 n C p M1 M2 L1 L2 N Hn E;
    (apply keccak_equal; auto; [lia|apply plain_ins; cbn; auto]).
Qed.
Lemma cshake_set_bytes (q : cshake_param) v p p' : is_bytes v -> pair_bytes p -> match q with CsName => Some (v, snd p) | CsCustomization => Some (fst p, v) end = Some p' -> pair_bytes p'.
Proof. intros Hv [H1 H2] E. destruct q; inversion E; subst; split; auto. Qed.
Lemma kmac_set_bytes (q : kmac_param) v p p' : is_bytes v -> pair_bytes p -> kmac_params_set q v p = Some p' -> pair_bytes p'.
Proof. intros Hv [H1 H2] E. destruct q; inversion E; subst; split; auto. Qed.
Lemma no_pair_bytes : pair_bytes ([], []).
Proof. split; constructor. Qed.
Lemma cshake_any :
  equal_streams (cshake_type 128) (cshake_spec 16) any_length (cshake_inputs code_bytepad 16)
    (fun n _ => inner_or_out (absorb_block 24 168) (zeros 25) (keccak_inner 168) (keccak_out 24 168 n)) /\
  equal_streams (cshake_type 256) (cshake_spec 32) any_length (cshake_inputs code_bytepad 32)
    (fun n _ => inner_or_out (absorb_block 24 136) (zeros 25) (keccak_inner 136) (keccak_out 24 136 n)).
Proof.
  destruct C42_cshake_inputs as [X Y].
  split; [apply (xprocesses_equal _ _ _ _ _ _ _ _ X)|apply (xprocesses_equal _ _ _ _ _ _ _ _ Y)]; intros ops m1 m2 n C p M1 M2 L1 L2 N Hn E.
  - destruct (xparams_inv (cshake_type 128) (cshake_spec 16) pair_bytes no_pair_bytes cshake_set_bytes ops C) as [P1 P2].
    apply keccak_equal; auto; [lia|]. exact (cshake_ins 16 p ltac:(lia) P1 P2).
  - destruct (xparams_inv (cshake_type 256) (cshake_spec 32) pair_bytes no_pair_bytes cshake_set_bytes ops C) as [P1 P2].
    apply keccak_equal; auto; [lia|]. exact (cshake_ins 32 p ltac:(lia) P1 P2).
Qed.
Lemma kmac_any hs : bits_up_to (2 ^ 64 - 1) hs ->
  both_equal (kmac_type 128 hs) (kmac_static_type 128 hs) (kmac_spec 16 hs) any_length (kmac_inputs code_bytepad 16 hs)
    (fun _ => inner_or_out (absorb_block 24 168) (zeros 25) (keccak_inner 168) (keccak_out 24 168 (N.to_nat (hs / 8)))) /\
  both_equal (kmac_type 256 hs) (kmac_static_type 256 hs) (kmac_spec 32 hs) any_length (kmac_inputs code_bytepad 32 hs)
    (fun _ => inner_or_out (absorb_block 24 136) (zeros 25) (keccak_inner 136) (keccak_out 24 136 (N.to_nat (hs / 8)))).
Proof.
  intros H. assert (HL : hs < 2 ^ 64) by (destruct H; lia). destruct (C44_kmac_inputs hs H) as [[X X'] [Y Y']].
  split; (split; [|]); [apply (processes_equal _ _ _ _ _ _ _ _ X)|apply (processes_equal _ _ _ _ _ _ _ _ X')|apply (processes_equal _ _ _ _ _ _ _ _ Y)|apply (processes_equal _ _ _ _ _ _ _ _ Y')];
    intros ops m1 m2 C p M1 M2 L1 L2 N E.
  - destruct (params_inv (kmac_type 128 hs) (kmac_spec 16 hs) pair_bytes no_pair_bytes kmac_set_bytes ops C) as [P1 P2].
    apply keccak_equal; auto; [lia|]. exact (kmac_ins 16 hs p ltac:(lia) HL P1 P2).
  - destruct (params_inv (kmac_static_type 128 hs) (kmac_spec 16 hs) pair_bytes no_pair_bytes kmac_set_bytes ops C) as [P1 P2].
    apply keccak_equal; auto; [lia|]. exact (kmac_ins 16 hs p ltac:(lia) HL P1 P2).
  - destruct (params_inv (kmac_type 256 hs) (kmac_spec 32 hs) pair_bytes no_pair_bytes kmac_set_bytes ops C) as [P1 P2].
    apply keccak_equal; auto; [lia|]. exact (kmac_ins 32 hs p ltac:(lia) HL P1 P2).
  - destruct (params_inv (kmac_static_type 256 hs) (kmac_spec 32 hs) pair_bytes no_pair_bytes kmac_set_bytes ops C) as [P1 P2].
    apply keccak_equal; auto; [lia|]. exact (kmac_ins 32 hs p ltac:(lia) HL P1 P2).
Qed.
Lemma kmacxof_any :
  equal_streams (kmacxof_type 128) (kmacxof_spec 16) any_length (kmac_inputs code_bytepad 16 0)
    (fun n _ => inner_or_out (absorb_block 24 168) (zeros 25) (keccak_inner 168) (keccak_out 24 168 n)) /\
  equal_streams (kmacxof_type 256) (kmacxof_spec 32) any_length (kmac_inputs code_bytepad 32 0)
    (fun n _ => inner_or_out (absorb_block 24 136) (zeros 25) (keccak_inner 136) (keccak_out 24 136 n)).
Proof.
  destruct C44_kmacxof_inputs as [X Y].
  split; [apply (xprocesses_equal _ _ _ _ _ _ _ _ X)|apply (xprocesses_equal _ _ _ _ _ _ _ _ Y)]; intros ops m1 m2 n C p M1 M2 L1 L2 N Hn E.
  - destruct (xparams_inv (kmacxof_type 128) (kmacxof_spec 16) pair_bytes no_pair_bytes kmac_set_bytes ops C) as [P1 P2].
    apply keccak_equal; auto; [lia|]. exact (kmac_ins 16 0 p ltac:(lia) eq_refl P1 P2).
  - destruct (xparams_inv (kmacxof_type 256) (kmacxof_spec 32) pair_bytes no_pair_bytes kmac_set_bytes ops C) as [P1 P2].
    apply keccak_equal; auto; [lia|]. exact (kmac_ins 32 0 p ltac:(lia) eq_refl P1 P2).
Qed.
Lemma k12_any B nr sec : In (B, nr, sec) [(128, 12, 16); (256, 14, 32); (256, 12, 32)]%nat ->
  equal_streams (k12_type (N.of_nat B) nr) (kt_spec k12_param nr sec) any_length (kt_inputs nr sec (N.to_nat 8192))
    (fun n _ => turbo_collide nr (200 - 2 * sec) n (2 * sec)).
Proof.
  intros H. apply (xprocesses_equal _ _ _ _ _ _ _ _ (C42_k12_inputs B nr sec H)). intros ops m1 m2 n C p M1 M2 L1 L2 N Hn E.
  assert (P : is_bytes p).
  { apply (xparams_inv (k12_type (N.of_nat B) nr) (kt_spec k12_param nr sec) is_bytes); [constructor| |exact C]. intros q v a b Hv _ X. inversion X; subst; exact Hv. }
  apply kt_equal; auto; [|lia]. destruct H as [H|[H|[H|[]]]]; inversion H; cbn; auto.
Qed.
Lemma ascon_any :
  equal_digests ascon_hash_type ascon_hash_spec any_length (fun _ => ascon_inputs)
    (fun _ => inner_or_out ascon_absorb (ascon_start Ascon.AHash) ascon_inner (squeeze_stream (ascon_p 12) (words_bytes 8) 8 32)) /\
  equal_streams ascon_xof_type ascon_xof_spec any_length (fun _ => ascon_inputs)
    (fun n _ => inner_or_out ascon_absorb (ascon_start Ascon.AXof) ascon_inner (squeeze_stream (ascon_p 12) (words_bytes 8) 8 n)) /\
  equal_streams ascon_cxof_type ascon_cxof_spec any_length ascon_cxof_inputs
    (fun n _ => inner_or_out ascon_absorb (ascon_start Ascon.ACxof) ascon_inner (squeeze_stream (ascon_p 12) (words_bytes 8) 8 n)).
Proof.
  destruct C43_ascon_inputs as (X & Y & Z). split; [|split].
  - apply (processes_equal _ _ _ _ _ _ _ _ X). intros ops m1 m2 C p M1 M2 L1 L2 N E. exact (ascon_equal Ascon.AHash 32 m1 m2 M1 M2 N E).
  - apply (xprocesses_equal _ _ _ _ _ _ _ _ Y). intros ops m1 m2 n C p M1 M2 L1 L2 N Hn E. exact (ascon_equal Ascon.AXof n m1 m2 M1 M2 N E).
  - apply (xprocesses_equal _ _ _ _ _ _ _ _ Z). intros ops m1 m2 n C p M1 M2 L1 L2 N Hn E.
    assert (P : is_bytes p).
    { apply (xparams_inv ascon_cxof_type ascon_cxof_spec is_bytes); [constructor| |exact C]. intros q v a b Hv _ W. inversion W; subst; exact Hv. }
    exact (ascon_cxof_equal n p m1 m2 P M1 M2 N E).
Qed.
Lemma esch_any h hs : (h = 3%nat /\ hs = 256) \/ (h = 4%nat /\ hs = 384) ->
  both_equal (esch_type hs) (esch_static_type hs) (esch_spec h) any_length (fun _ => esch_inputs false) (fun _ => esch_inner_or_out h (16 * h - 16)) /\
  equal_streams (esch_xof_type (N.of_nat (128 * h)) (4 * h)) (esch_xof_spec h) any_length (fun _ => esch_inputs true) (fun n _ => esch_inner_or_out h n).
Proof.
  intros H. assert (Hh : h = 3%nat \/ h = 4%nat) by tauto. destruct (C43_esch_inputs h hs H) as [[X Y] Z]. split; [split|].
  - apply (processes_equal _ _ _ _ _ _ _ _ X). intros ops m1 m2 C p M1 M2 L1 L2 N E. exact (esch_equal h false (16 * h - 16) m1 m2 Hh M1 M2 N E).
  - apply (processes_equal _ _ _ _ _ _ _ _ Y). intros ops m1 m2 C p M1 M2 L1 L2 N E. exact (esch_equal h false (16 * h - 16) m1 m2 Hh M1 M2 N E).
  - apply (xprocesses_equal _ _ _ _ _ _ _ _ Z). intros ops m1 m2 n C p M1 M2 L1 L2 N Hn E. exact (esch_equal h true n m1 m2 Hh M1 M2 N E).
Qed.

(** ** Messages of any length *)
Lemma processes_returns {P} (T : htype P) S {A B} ins (step : sp_params S -> A -> B -> A) iv out : dec A -> dec B ->
  processes T S ins step iv out -> (forall ops, hcalls T ops -> separates (ins (params_after S ops))) ->
  equal_digests T S any_length ins (fun p => in_step_returns_or_out (step p) (iv p) (out p)).
Proof.
  intros dA dB X F. apply (processes_equal _ _ _ _ _ _ _ _ X). intros ops m1 m2 C p M1 M2 L1 L2 N E. apply fold_returns; auto.
  intros I. apply N. exact (F ops C m1 m2 M1 M2 I).
Qed.
Lemma both_returns {P} (T T' : htype P) S {A B} ins (step : sp_params S -> A -> B -> A) iv out : dec A -> dec B ->
  both_process T T' S ins step iv out -> (forall p, separates (ins p)) ->
  both_equal T T' S any_length ins (fun p => in_step_returns_or_out (step p) (iv p) (out p)).
Proof. intros dA dB [X Y] F. split; apply processes_returns; auto. Qed.
Lemma md_long :
  equal_digests md5_type md5_spec any_length (fun _ => md_inputs 64 (le_bytes 8))
    (fun _ => in_step_returns_or_out rfc_md5_compress rfc_md5_iv (fun '(a, b, c, d) => le_bytes 4 a ++ le_bytes 4 b ++ le_bytes 4 c ++ le_bytes 4 d)) /\
  equal_digests sha1_type sha1_spec any_length (fun _ => md_inputs 64 (be_bytes 8))
    (fun _ => in_step_returns_or_out fips_sha1_compress fips_sha1_iv (fun '(a, b, c, d, e) => flat_map (be_bytes 4) [a; b; c; d; e])) /\
  equal_digests sha256_type sha256_spec any_length (fun _ => md_inputs 64 (be_bytes 8))
    (fun _ => in_step_returns_or_out (fips_sha2_compress params256) iv_256 (fun r => firstn 32 (regs_bytes params256 r))) /\
  (forall hs, bits_up_to 512 hs -> both_equal (sha512_type hs) (sha512_static_type hs) (sha2_spec W64 hs) any_length (fun _ => md_inputs 128 (be_bytes 16))
    (fun _ => in_step_returns_or_out (fips_sha2_compress params512) (iv_of W64 hs) (fun r => firstn (N.to_nat (hs / 8)) (regs_bytes params512 r)))) /\
  equal_digests sm3_type sm3_spec any_length (fun _ => md_inputs 64 (be_bytes 8)) (fun _ => in_step_returns_or_out gb_compress gb_iv (flat_map (be_bytes 4))) /\
  equal_digests whirlpool_type whirlpool_spec any_length (fun _ => md_inputs 64 (be_bytes 32)) (fun _ => in_step_returns_or_out wp_compress (repeat 0 64) (fun h => h)).
Proof.
  assert (S64 : separates (md_inputs 64 (be_bytes 8))) by (apply C43_md; [lia|exact (be_enc 8)]).
  assert (L64 : separates (md_inputs 64 (le_bytes 8))) by (apply C43_md; [lia|exact (le_enc 8)]).
  assert (S32 : separates (md_inputs 64 (be_bytes 32))) by (apply C43_md; [lia|exact (be_enc 32)]).
  assert (S128 : separates (md_inputs 128 (be_bytes 16))) by (apply C43_md; [lia|exact (be_enc 16)]).
  destruct C47_sha2 as (_ & X & _ & Y).
  split; [exact (processes_returns _ _ _ _ _ _ r4_dec ns_dec C47_md5 (fun _ _ => L64))|].
  split; [exact (processes_returns _ _ _ _ _ _ r5_dec ns_dec C47_sha1 (fun _ _ => S64))|].
  split; [exact (processes_returns _ _ _ _ _ _ r8_dec ns_dec X (fun _ _ => S64))|].
  split; [intros hs H; exact (both_returns _ _ _ _ _ _ _ r8_dec ns_dec (Y hs H) (fun _ => S128))|].
  split; [exact (processes_returns _ _ _ _ _ _ ns_dec ns_dec C47_sm3 (fun _ _ => S64))|].
  exact (processes_returns _ _ _ _ _ _ ns_dec ns_dec C47_whirlpool (fun _ _ => S32)).
Qed.
Lemma jh_long hs : bits_up_to 512 hs -> both_equal (jh_type hs) (jh_static_type hs) (jh_spec hs) any_length
  (fun _ => jh_inputs) (fun _ => in_step_returns_or_out jhs_F8 (jhs_iv hs) (skipn (128 - N.to_nat (hs / 8)))).
Proof. intros H. exact (both_returns _ _ _ _ _ _ _ ns_dec ns_dec (C47_jh hs H) (fun _ => C43_jh)). Qed.
Lemma groestl_long hs : bits_up_to 512 hs -> both_equal (groestl_type hs) (groestl_static_type hs) (groestl_spec hs) any_length
  (fun _ => groestl_inputs hs) (fun _ => in_step_returns_or_out (grs_f (grs_C hs)) (grs_iv (grs_C hs) hs) (grs_omega (grs_C hs) hs)).
Proof. intros H. exact (both_returns _ _ _ _ _ _ _ ns_dec ns_dec (C47_groestl hs H) (fun _ => C43_groestl hs)). Qed.
Lemma streebog_long hs : In hs [256; 512] -> both_equal (streebog_type hs) (streebog_static_type hs) (sb_code_spec hs) any_length
  (fun _ => streebog_inputs add64 sb_sum) (fun _ => in_step_returns_or_out (fun h x => sbs_g (fst x) h (snd x)) (sbs_iv hs) (skipn (64 - N.to_nat (hs / 8)))).
Proof. intros H. exact (both_returns _ _ _ _ _ _ _ ns_dec sb_dec (C47_streebog hs H) (fun _ => C43_streebog add64 sb_sum)). Qed.
Lemma blake2_long w hs : wordsize w -> bits_up_to (8 * w) hs ->
  both_equal (blake2_type w BHash hs) (blake2_static_type w BHash hs) (blake2_spec w hs) any_length (fun p m => blake2_inputs w (key_pad w (pk p) ++ m))
    (fun p => in_step_returns_or_out (b2_step w false) (init_h w (seq_tree (hs / 8) (pk p) 0) (ps p) (pp p)) (fun h => firstn (N.to_nat (hs / 8)) (words_bytes (wb w) h))).
Proof. intros Hw H. exact (both_returns _ _ _ _ _ _ _ ns_dec b2_dec (C47_blake2 w hs Hw H) (fun p => C43_blake2 w (pk p) Hw)). Qed.
