(** * The remaining links between types and inputs, and exactness of the counters. *)
From Verif Require Import Base Lemmas WordLemmas MdProof SpongeProof SpecCommon Hasher HasherSpec HasherProof HasherWhen Library LibraryProof XLibraryProof LibraryTypes
  LibraryTypesProof Blake2Spec Blake2 Blake2Sim BlakeSpec BlakeProof
  Blake2pSpec Blake2pSim EchoSpec EchoSim GroestlSpec StreebogSpec StreebogProof SkeinSpec SkeinSim
  KeccakSpec Sha3Spec Shake Kmac K12 ShakeProof KmacProof AsconSpec EschSpec K12Spec K12Proof Inputs PadInj PadInjSponge Process.
Local Opaque F2 ubi_block sbs_g sparkle_p inject add_dom keccak_p absorb_block init_h squeeze_stream
  words_bytes be_bytes le_bytes le_words be_words N.div.

(** ** Exactness *)
Lemma groestl_count_exact bs m : (0 < bs)%nat -> N.of_nat (length (grs_pad bs m)) < 2 ^ 61 ->
  2 ^ 61 mod N.of_nat bs = 0 ->
  grs_count bs m mod (2 ^ 61 / N.of_nat bs) = N.of_nat (length (grs_pad bs m) / bs).
Proof.
  intros Hb HL Hm. assert (E : grs_count bs m = N.of_nat (length (grs_pad bs m) / bs)).
  { unfold grs_count, grs_pad, md_pad. rewrite !app_length, zeros_length, be_bytes_length. cbn [length].
    do 2 f_equal. lia. }
  rewrite E. apply N.mod_small.
  assert (D : 2 ^ 61 = N.of_nat bs * (2 ^ 61 / N.of_nat bs)).
  { pose proof (N.div_mod (2 ^ 61) (N.of_nat bs) ltac:(lia)) as K. rewrite Hm in K. lia. }
  pose proof (Nat.mul_div_le (length (grs_pad bs m)) bs ltac:(lia)) as L.
  set (q := 2 ^ 61 / N.of_nat bs) in *. clearbody q. set (z := (length (grs_pad bs m) / bs)%nat) in *. clearbody z.
  apply (N.mul_lt_mono_pos_l (N.of_nat bs)); [lia|]. rewrite <- D, <- Nat2N.inj_mul. eapply N.le_lt_trans; [|exact HL]. lia.
Qed.
Lemma counters_exact hs (m : list N) i : N.of_nat (length m) < 2 ^ 61 ->
  ctrb (blake_w hs) (length m) i =
    (if (i * bb (blake_w hs) <? length m)%nat then 8 * N.of_nat (Nat.min (length m) ((i + 1) * bb (blake_w hs))) else 0) /\
  echo_ctr hs (length m) i =
    (if (i * echo_bs hs <? length m)%nat then 8 * N.of_nat (Nat.min (length m) ((i + 1) * echo_bs hs)) else 0).
Proof. intros H. unfold ctrb, echo_ctr. split; (destruct (_ <? _)%nat; [apply N.mod_small; lia|reflexivity]). Qed.
Lemma blake2_last_exact w d : N.of_nat (length d) < 2 ^ 61 ->
  last (blake2_inputs w d) ([], 0, false) =
    (nth_block (bb w) (d ++ zeros (blocks_of w d * bb w - length d)) (blocks_of w d - 1), N.of_nat (length d), true).
Proof.
  intros H. unfold blake2_inputs. cbv zeta. rewrite last_last. unfold ctr2. rewrite N.mod_small by exact H. reflexivity.
Qed.
Lemma streebog_length_exact addS m : N.of_nat (length m) < 2 ^ 61 ->
  nth (length (sbs_full m) + 1) (streebog_inputs add64 addS m) (0, []) = (0, le_bytes 64 (8 * N.of_nat (length m))).
Proof.
  intros H. unfold streebog_inputs. cbv zeta. rewrite app_nth2 by (rewrite map_length, seq_length; lia).
  rewrite map_length, seq_length. replace (length (sbs_full m) + 1 - length (sbs_full m))%nat with 1%nat by lia. cbn [nth].
  assert (A : forall n, fold_left add64 (repeat 512 n) 0 = (512 * N.of_nat n) mod 2 ^ 64).
  { induction n as [|n IH]; [reflexivity|]. cbn [repeat]. rewrite (repeat_cons n 512), fold_left_app, IH. cbn [fold_left].
    unfold add64, trunc. rewrite N.add_mod_idemp_l by discriminate. f_equal. lia. }
  rewrite A. unfold add64, trunc. rewrite N.add_mod_idemp_l by discriminate.
  assert (L : (64 * length (sbs_full m) + length (sbs_rest m) = length m)%nat).
  { unfold sbs_full, sbs_rest. rewrite skipn_length.
    assert (B : forall k (p : list N), length (blocks_n k 64 p) = k).
    { induction k; intros p; [reflexivity|]. cbn [blocks_n length]. rewrite IHk. reflexivity. }
    rewrite B. pose proof (Nat.mul_div_le (length m) 64 ltac:(lia)). lia. }
  do 2 f_equal. rewrite N.mod_small; lia.
Qed.

(** ** Iterations *)
Lemma blake2_hash_fold w hs (p : b2_params) m : sp_digest (blake2_spec w hs) p m =
  firstn (N.to_nat (hs / 8)) (words_bytes (wb w) (fold_left (b2_step w false) (blake2_inputs w (key_pad w (pk p) ++ m))
    (init_h w (seq_tree (hs / 8) (pk p) 0) (ps p) (pp p)))).
Proof. rewrite <- blake2_core_fold. reflexivity. Qed.
Lemma blake2x_hash_fold w hs (p : b2_params) m : sp_digest (blake2x_spec w hs) p m =
  x_hash_out w (N.to_nat (hs / 8)) p (words_bytes (wb w) (fold_left (b2_step w false) (blake2_inputs w (key_pad w (pk p) ++ m))
    (init_h w (seq_tree (N.of_nat (hb w)) (pk p) (xfield w 0 (N.of_nat (N.to_nat (hs / 8))))) (ps p) (pp p)))).
Proof. rewrite <- blake2_core_fold. reflexivity. Qed.
Lemma blake2x_stream_fold w (p : b2_params) m n : xs_out (blake2x_xof_spec w) p m n =
  x_stream_out w p (words_bytes (wb w) (fold_left (b2_step w false) (blake2_inputs w (key_pad w (pk p) ++ m))
    (init_h w (seq_tree (N.of_nat (hb w)) (pk p) (xfield w 0 (x_unknown w))) (ps p) (pp p)))) n.
Proof. rewrite <- blake2_core_fold. reflexivity. Qed.
Lemma skein_fold nw No n (p : skein_params) m : skein_digest nw No n p m =
  skein_output nw (fold_left (fun H x => ubi_block nw H (snd x) (fst x)) (skein_inputs nw T_msg m) (skein_start nw No p)) n.
Proof. rewrite <- ubi_fold. reflexivity. Qed.

(** The parameters do not depend on the digest function. *)
Lemma with_digest_params {param} (S : hash_spec param) f ops : forall a : astate S,
  fst (fst (arun (with_digest S f) a ops)) = fst (fst (arun S a ops)).
Proof.
  induction ops as [|o r IH]; intros a; [reflexivity|]. cbn [arun].
  assert (E : fst (astep (with_digest S f) a o) = fst (astep S a o)).
  { destruct a as [p m]. destruct o as [[g d|[]|q v]|buf| |]; try reflexivity. }
  destruct (astep (with_digest S f) a o) as [a1 x1], (astep S a o) as [a2 x2]. cbn [fst] in E. subst a2.
  specialize (IH a1). destruct (arun (with_digest S f) a1 r), (arun S a1 r). exact IH.
Qed.
Lemma with_out_params {param} (S : xof_spec param) f ops : forall a : xstate S,
  fst (fst (xrun (with_out S f) a ops)) = fst (fst (xrun S a ops)).
Proof.
  induction ops as [|o r IH]; intros a; [reflexivity|]. cbn [xrun].
  assert (E : fst (xstep (with_out S f) a o) = fst (xstep S a o)).
  { destruct a as [[p m] k]. destruct o as [[g d|[]|q v]|n|n|n]; try reflexivity. }
  destruct (xstep (with_out S f) a o) as [a1 x1], (xstep S a o) as [a2 x2]. cbn [fst] in E. subst a2.
  specialize (IH a1). destruct (xrun (with_out S f) a1 r), (xrun S a1 r). exact IH.
Qed.
Lemma with_digest_processes {P} (T : htype P) S f {A B} ins (step : sp_params S -> A -> B -> A) iv out :
  @processes P T (with_digest S f) A B ins step iv out -> processes T S ins step iv out.
Proof.
  intros H g ops Hg Hc. rewrite (H g ops Hg Hc). unfold params_after.
  change (afresh (with_digest S f)) with (afresh S). rewrite with_digest_params. reflexivity.
Qed.
Lemma with_out_processes {P} (T : xtype P) S f {A B} ins (step : xs_params S -> A -> B -> A) iv out :
  @xprocesses P T (with_out S f) A B ins step iv out -> xprocesses T S ins step iv out.
Proof.
  intros H g ops n Hg Hc Hf Hn. rewrite (H g ops n Hg Hc Hf Hn). unfold xparams_after.
  change (xfresh (with_out S f)) with (xfresh S). rewrite with_out_params. reflexivity.
Qed.

Definition keccak_out (nr r n : nat) (A : list N) : list N := squeeze_stream (keccak_p nr) (words_bytes 8) r n A.
Lemma cshake_processes :
  xprocesses (cshake_type 128) (cshake_spec 16) (cshake_inputs code_bytepad 16)
    (fun _ => absorb_block 24 168) (fun _ => zeros 25) (fun _ A n => keccak_out 24 168 n A) /\
  xprocesses (cshake_type 256) (cshake_spec 32) (cshake_inputs code_bytepad 32)
    (fun _ => absorb_block 24 136) (fun _ => zeros 25) (fun _ A n => keccak_out 24 136 n A).
Proof.
  split; [apply (with_out_processes (cshake_type 128) (cshake_spec 16) (cshake_code 21 16)), xgood_processes
         |apply (with_out_processes (cshake_type 256) (cshake_spec 32) (cshake_code 17 32)), xgood_processes].
  - exact (xgood_cshake 128 21 16 ltac:(lia) eq_refl eq_refl).
  - intros p m n. exact (cshake_fold 21 16 p m n eq_refl).
  - exact (xgood_cshake 256 17 32 ltac:(lia) eq_refl eq_refl).
  - intros p m n. exact (cshake_fold 17 32 p m n eq_refl).
Qed.
Definition both_process {P} (T T' : htype P) (S : hash_spec (p_param P)) {A B} ins step iv out : Prop :=
  @processes P T S A B ins step iv out /\ @processes P T' S A B ins step iv out.
Lemma both_from {P} (T T' : htype P) S {A B} ins (step : sp_params S -> A -> B -> A) iv out :
  good T S /\ good T' S -> (forall p m, sp_digest S p m = out p (fold_left (step p) (ins p m) (iv p))) ->
  both_process T T' S ins step iv out.
Proof. intros [G G'] E. split; apply good_processes; auto. Qed.
Lemma kmac_processes hs : bits_up_to (2 ^ 64 - 1) hs ->
  both_process (kmac_type 128 hs) (kmac_static_type 128 hs) (kmac_spec 16 hs) (kmac_inputs code_bytepad 16 hs)
    (fun _ => absorb_block 24 168) (fun _ => zeros 25) (fun _ => keccak_out 24 168 (N.to_nat (hs / 8))) /\
  both_process (kmac_type 256 hs) (kmac_static_type 256 hs) (kmac_spec 32 hs) (kmac_inputs code_bytepad 32 hs)
    (fun _ => absorb_block 24 136) (fun _ => zeros 25) (fun _ => keccak_out 24 136 (N.to_nat (hs / 8))).
Proof.
  intros H. 
  split; split; [apply (with_digest_processes (kmac_type 128 hs) (kmac_spec 16 hs) (kmac_digest 21 16 hs)), good_processes
    |apply (with_digest_processes (kmac_static_type 128 hs) (kmac_spec 16 hs) (kmac_digest 21 16 hs)), good_processes
    |apply (with_digest_processes (kmac_type 256 hs) (kmac_spec 32 hs) (kmac_digest 17 32 hs)), good_processes
    |apply (with_digest_processes (kmac_static_type 256 hs) (kmac_spec 32 hs) (kmac_digest 17 32 hs)), good_processes].
  - exact (proj1 (good_kmac128 hs H)).
  - intros p m. exact (cshake_fold 21 16 (KMAC_name, snd p) (kmac_input 16 (fst p) m hs) (N.to_nat (hs / 8)) eq_refl).
  - exact (proj2 (good_kmac128 hs H)).
  - intros p m. exact (cshake_fold 21 16 (KMAC_name, snd p) (kmac_input 16 (fst p) m hs) (N.to_nat (hs / 8)) eq_refl).
  - exact (proj1 (good_kmac256 hs H)).
  - intros p m. exact (cshake_fold 17 32 (KMAC_name, snd p) (kmac_input 32 (fst p) m hs) (N.to_nat (hs / 8)) eq_refl).
  - exact (proj2 (good_kmac256 hs H)).
  - intros p m. exact (cshake_fold 17 32 (KMAC_name, snd p) (kmac_input 32 (fst p) m hs) (N.to_nat (hs / 8)) eq_refl).
Qed.
Lemma kmacxof_processes :
  xprocesses (kmacxof_type 128) (kmacxof_spec 16) (kmac_inputs code_bytepad 16 0)
    (fun _ => absorb_block 24 168) (fun _ => zeros 25) (fun _ A n => keccak_out 24 168 n A) /\
  xprocesses (kmacxof_type 256) (kmacxof_spec 32) (kmac_inputs code_bytepad 32 0)
    (fun _ => absorb_block 24 136) (fun _ => zeros 25) (fun _ A n => keccak_out 24 136 n A).
Proof.
  split; [apply (with_out_processes (kmacxof_type 128) (kmacxof_spec 16) (kmac_code 21 16 0)), xgood_processes
         |apply (with_out_processes (kmacxof_type 256) (kmacxof_spec 32) (kmac_code 17 32 0)), xgood_processes].
  - exact (xgood_kmac 128 21 16 ltac:(lia) eq_refl eq_refl eq_refl).
  - intros p m n. exact (cshake_fold 21 16 (KMAC_name, snd p) (kmac_input 16 (fst p) m 0) n eq_refl).
  - exact (xgood_kmac 256 17 32 ltac:(lia) eq_refl eq_refl eq_refl).
  - intros p m n. exact (cshake_fold 17 32 (KMAC_name, snd p) (kmac_input 32 (fst p) m 0) n eq_refl).
Qed.
Lemma k12_processes B nr sec : In (B, nr, sec) [(128, 12, 16); (256, 14, 32); (256, 12, 32)]%nat ->
  xprocesses (k12_type (N.of_nat B) nr) (kt_spec k12_param nr sec) (kt_inputs nr sec (N.to_nat 8192))
    (fun _ => kt_step nr (200 - 2 * sec)) (fun _ => zeros 25) (fun _ A n => keccak_out nr (200 - 2 * sec) n A).
Proof.
  intros H. apply xgood_processes; [|intros p m n; exact (kt_fold nr sec (N.to_nat 8192) p m n)].
  destruct H as [E|[E|[E|[]]]]; injection E as <- <- <-.
  - exact (xgood_k12 128 12 16 ltac:(lia) k12_implements).
  - exact (xgood_k12 256 14 32 ltac:(lia) m14_implements).
  - exact (xgood_k12 256 12 32 ltac:(lia) kt256_implements).
Qed.
Lemma esch_good h hs : (h = 3%nat /\ hs = 256) \/ (h = 4%nat /\ hs = 384) ->
  good (esch_type hs) (esch_spec h) /\ good (esch_static_type hs) (esch_spec h).
Proof.
  intros [[-> ->]|[-> ->]]; split; (apply good_plain; [|reflexivity|exact no_param]); intros g Hg.
  - exact (proj1 (EschProof.esch_implements 3 16 g (or_introl eq_refl) ltac:(lia) Hg)).
  - exact (proj2 (EschProof.esch_implements 3 16 g (or_introl eq_refl) ltac:(lia) Hg)).
  - exact (proj1 (EschProof.esch_implements 4 16 g (or_intror eq_refl) ltac:(lia) Hg)).
  - exact (proj2 (EschProof.esch_implements 4 16 g (or_intror eq_refl) ltac:(lia) Hg)).
Qed.
Lemma std_esch_fold h xof m n : std_esch h xof m n =
  squeeze_stream (sparkle_p (slim h)) branches_bytes 16 n (fold_left (esch_step h) (esch_inputs xof m) (repeat (0, 0) (2 * h))).
Proof. rewrite <- esch_fold. reflexivity. Qed.
Lemma esch_processes h hs : (h = 3%nat /\ hs = 256) \/ (h = 4%nat /\ hs = 384) ->
  both_process (esch_type hs) (esch_static_type hs) (esch_spec h) (fun _ => esch_inputs false) (fun _ => esch_step h)
    (fun _ => repeat (0, 0) (2 * h)) (fun _ => squeeze_stream (sparkle_p (slim h)) branches_bytes 16 (16 * h - 16)) /\
  xprocesses (esch_xof_type (N.of_nat (128 * h)) (4 * h)) (esch_xof_spec h) (fun _ => esch_inputs true) (fun _ => esch_step h)
    (fun _ => repeat (0, 0) (2 * h)) (fun _ B n => squeeze_stream (sparkle_p (slim h)) branches_bytes 16 n B).
Proof.
  intros H. split.
  - apply both_from; [exact (esch_good h hs H)|]. intros p m. exact (std_esch_fold h false m _).
  - apply xgood_processes.
    + apply xgood_esch; [destruct H as [[-> _]|[-> _]]; auto|reflexivity|reflexivity].
    + intros p m n. exact (std_esch_fold h true m n).
Qed.

(** ** Separation, in the form of the properties *)
Lemma blake2_key_inj w key : w = 64 \/ w = 32 -> separates (fun m => blake2_inputs w (key_pad w key ++ m)).
Proof.
  intros Hw m1 m2 _ _ E. apply blake2_inputs_inj in E; [exact (app_inv_head _ _ _ E)|].
  destruct Hw; subst w; vm_compute; lia.
Qed.
Lemma skein_inputs_short nw ty : (0 < nw)%nat -> ty < 2 ^ 6 -> separates_short (skein_inputs nw ty).
Proof. intros Hn Ht m1 m2 _ _ L1 L2. apply skein_inputs_inj; auto; lia. Qed.
Lemma keccak_separates r suffix : (0 < r)%nat -> In suffix [[false; true]; [true; true; true; true]; [false; false]] ->
  separates (keccak_inputs r suffix).
Proof.
  intros Hr Hs m1 m2 H1 H2 E.
  assert (K : (length suffix <= 6)%nat /\ dom_range (suffix_byte suffix) = true).
  { destruct Hs as [<-|[<-|[<-|[]]]]; (split; [cbn; lia|reflexivity]). }
  destruct K as [K1 K2]. apply keccak_inputs_inj in E; tauto.
Qed.
Lemma cshake_inputs_code sec fn1 cust1 m1 fn2 cust2 m2 : (sec < 100)%nat ->
  short fn1 -> short cust1 -> is_bytes m1 -> short fn2 -> short cust2 -> is_bytes m2 ->
  cshake_inputs code_bytepad sec (fn1, cust1) m1 = cshake_inputs code_bytepad sec (fn2, cust2) m2 ->
  fn1 = fn2 /\ cust1 = cust2 /\ m1 = m2.
Proof.
  intros Hs F1 C1 M1 F2 C2 M2 E. apply cshake_inputs_inj in E; auto using code_bytepad_pads.
  destruct E as [E ->]. injection E as -> ->. auto.
Qed.
Lemma kmac_inputs_code sec L1 key1 cust1 m1 L2 key2 cust2 m2 : (sec < 100)%nat -> L1 < 2 ^ 64 -> L2 < 2 ^ 64 ->
  short key1 -> short cust1 -> is_bytes m1 -> short key2 -> short cust2 -> is_bytes m2 ->
  kmac_inputs code_bytepad sec L1 (key1, cust1) m1 = kmac_inputs code_bytepad sec L2 (key2, cust2) m2 ->
  L1 = L2 /\ key1 = key2 /\ cust1 = cust2 /\ m1 = m2.
Proof.
  intros Hs B1 B2 F1 C1 M1 F2 C2 M2 E. apply kmac_inputs_inj in E; auto using code_bytepad_pads.
  destruct E as (-> & E & ->). injection E as -> ->. auto.
Qed.
Lemma kmac_inputs_length sec hs1 hs2 p1 p2 m1 m2 : (sec < 100)%nat -> hs1 < 2 ^ 64 -> hs2 < 2 ^ 64 -> hs1 <> hs2 ->
  short (fst p1) -> short (snd p1) -> is_bytes m1 -> short (fst p2) -> short (snd p2) -> is_bytes m2 ->
  kmac_inputs code_bytepad sec hs1 p1 m1 <> kmac_inputs code_bytepad sec hs2 p2 m2.
Proof.
  intros Hs B1 B2 Hn F1 C1 M1 F2 C2 M2 E. apply kmac_inputs_inj in E; auto using code_bytepad_pads. tauto.
Qed.
Lemma kt_inputs_code nr sec c1 c2 m1 m2 : (sec < 100)%nat -> short c1 -> short c2 ->
  kt_inputs nr sec (N.to_nat 8192) c1 m1 = kt_inputs nr sec (N.to_nat 8192) c2 m2 -> c1 = c2 /\ m1 = m2.
Proof. intros Hs [_ L1] [_ L2]. apply kt_inputs_inj; auto; lia. Qed.
Lemma short_dec l : forallb (fun b => b <? 256) l && (N.of_nat (length l) <? 2 ^ 61) = true -> short l.
Proof.
  intros H. apply andb_true_iff in H. destruct H as [H1 H2]. split; [|apply N.ltb_lt; exact H2].
  apply Forall_forall. intros b Hb. rewrite forallb_forall in H1. apply N.ltb_lt, H1, Hb.
Qed.
