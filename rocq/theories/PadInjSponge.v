(** * Injectivity of the sponge paddings and of the SP 800-185 and RFC 9861 encodings. *)
From Verif Require Import Base Lemmas WordLemmas MdProof SpongeProof K12Proof SpecCommon Hasher HasherSpec Library LibraryProof
  KeccakSpec Sha3Spec AsconSpec EschSpec K12Spec Inputs PadInj EncodeProof.

(** ** Ascon *)
Lemma ascon_pad_mod X : (length (ascon_pad_bytes X) mod 8 = 0)%nat.
Proof.
  unfold ascon_pad_bytes. rewrite !app_length, zeros_length. cbn [length].
  pose proof (Nat.div_mod (length X) 8 ltac:(lia)) as D. pose proof (Nat.mod_upper_bound (length X) 8 ltac:(lia)) as U.
  apply Nat.mod_divides; [lia|]. exists (length X / 8 + 1)%nat. lia.
Qed.
Lemma ascon_pad_inj a b : ascon_pad_bytes a = ascon_pad_bytes b -> a = b.
Proof. intros E. apply (strip_fill 0 1 1) in E; [tauto|discriminate|discriminate]. Qed.
Lemma ascon_inputs_inj : separates ascon_inputs.
Proof. intros m1 m2 _ _ E. apply blocks_inj in E; auto using ascon_pad_mod; [|lia]. apply ascon_pad_inj. exact E. Qed.

Lemma bits64 (m : list N) : N.of_nat (length m) < 2 ^ 61 -> bitlen m mod 2 ^ 64 = 8 * N.of_nat (length m).
Proof. intros H. unfold bitlen. rewrite N.mod_small by lia. reflexivity. Qed.
Lemma ascon_cxof_inputs_inj Z1 Z2 m1 m2 : short Z1 -> short Z2 ->
  ascon_cxof_inputs Z1 m1 = ascon_cxof_inputs Z2 m2 -> Z1 = Z2 /\ m1 = m2.
Proof.
  intros [_ L1] [_ L2] E. apply blocks_inj in E; [|lia| |].
  2,3: rewrite app_length; unfold ascon_custom; rewrite app_length, le_bytes_length;
    rewrite <- Nat.add_mod_idemp_r, ascon_pad_mod, Nat.add_0_r, <- Nat.add_mod_idemp_r, ascon_pad_mod by lia; reflexivity.
  unfold ascon_custom in E. rewrite <- !app_assoc in E. apply app_inj_head_len in E; [|apply le_enc].
  destruct E as [E F]. rewrite !bits64 in E by auto.
  apply le_bytes_inj in E; [|change (256 ^ N.of_nat 8) with (2 ^ 64); lia|change (256 ^ N.of_nat 8) with (2 ^ 64); lia].
  apply app_inj_head_len in F.
  - destruct F as [F G]. split; apply ascon_pad_inj; auto.
  - unfold ascon_pad_bytes. rewrite !app_length, !zeros_length. assert (length Z1 = length Z2) as -> by lia. reflexivity.
Qed.

(** ** Esch *)
Lemma esch_inputs_inj xof : separates (esch_inputs xof).
Proof.
  assert (A : forall M, (length (skipn (16 * esch_split M) M) <= 16)%nat /\ (16 * esch_split M <= length M)%nat).
  { intros M. unfold esch_split. pose proof (Nat.div_mod (length M - 1) 16 ltac:(lia)).
    pose proof (Nat.mod_upper_bound (length M - 1) 16 ltac:(lia)). rewrite skipn_length. lia. }
  intros m1 m2 _ _ E. unfold esch_inputs in E. cbv zeta in E. apply app_inj_tail_len in E; [|reflexivity].
  destruct E as [E F].
  assert (In1 : forall (a b : N) (x y : list N), [(Some a, x)] = [(Some b, y)] -> a = b /\ x = y) by (intros; split; congruence).
  apply In1 in F. destruct F as [Fd Fb].
  assert (B : forall l, map snd (map (fun b : list N => (@None N, b)) l) = l).
  { induction l as [|x l IH]; [reflexivity|]. cbn [map snd]. rewrite IH. reflexivity. }
  apply (f_equal (map snd)) in E. rewrite !B in E.
  assert (C : forall M, (length (firstn (16 * esch_split M) M) mod 16 = 0)%nat).
  { intros M. rewrite firstn_length, Nat.min_l by apply A. rewrite Nat.mul_comm. apply Nat.mod_mul. lia. }
  apply blocks_inj in E; auto; [|lia].
  rewrite <- (firstn_skipn (16 * esch_split m1) m1), <- (firstn_skipn (16 * esch_split m2) m2), E. f_equal.
  destruct (Nat.eqb_spec (length (skipn (16 * esch_split m1) m1)) 16), (Nat.eqb_spec (length (skipn (16 * esch_split m2) m2)) 16).
  - exact Fb.
  - destruct xof; discriminate Fd.
  - destruct xof; discriminate Fd.
  - apply (strip_fill 0 128 128) in Fb; [tauto|discriminate|discriminate].
Qed.

(** ** Keccak *)
Lemma pad_bytes_mod r D m : (0 < r)%nat -> (length (pad_bytes r D m) mod r = 0)%nat.
Proof.
  intros Hr. unfold pad_bytes. pose proof (Nat.mod_upper_bound (length m) r ltac:(lia)).
  rewrite app_length, dpad_length by lia. pose proof (Nat.div_mod (length m) r ltac:(lia)).
  apply Nat.mod_divides; [lia|]. exists (length m / r + 1)%nat. nia.
Qed.
Definition dom_range (D : N) : bool := (0 <? D) && (D <? 128).
Lemma dom_lor D : dom_range D = true -> N.lor D 128 = D + 128 /\ N.lxor D 128 = D + 128 /\ 0 < D < 128.
Proof.
  intros H. unfold dom_range in H. apply andb_true_iff in H. destruct H as [H1 H2].
  apply N.ltb_lt in H1. apply N.ltb_lt in H2.
  pose proof (forallb_bytes (fun D => if D <? 128 then (N.lor D 128 =? D + 128) && (N.lxor D 128 =? D + 128) else true)
    ltac:(vm_compute; reflexivity) D ltac:(lia)) as K. cbv beta in K.
  destruct (N.ltb_spec D 128); [|lia]. apply andb_true_iff in K. destruct K as [K1 K2].
  apply N.eqb_eq in K1. apply N.eqb_eq in K2. auto.
Qed.
Lemma pad_bytes_inj r D1 D2 m1 m2 : (0 < r)%nat -> dom_range D1 = true -> dom_range D2 = true ->
  pad_bytes r D1 m1 = pad_bytes r D2 m2 -> m1 = m2 /\ D1 = D2.
Proof.
  intros Hr R1 R2. destruct (dom_lor D1 R1) as (A1 & _ & B1). destruct (dom_lor D2 R2) as (A2 & _ & B2).
  unfold pad_bytes, dpad. rewrite A1, A2.
  destruct (Nat.eqb_spec (r - length m1 mod r) 1), (Nat.eqb_spec (r - length m2 mod r) 1); intros E.
  - apply app_inj_tail in E. destruct E as [E F]. split; [exact E|lia].
  - rewrite !app_assoc in E. apply app_inj_tail in E. destruct E as [_ F]. lia.
  - rewrite !app_assoc in E. apply app_inj_tail in E. destruct E as [_ F]. lia.
  - rewrite !(app_assoc _ _ [128]), !app_assoc in E. apply app_inj_tail in E. destruct E as [E _].
    rewrite <- !app_assoc in E. apply (strip_fill 0) in E; [tauto|lia|lia].
Qed.
Lemma keccak_inputs_pad r sfx m : (0 < r)%nat -> (length sfx <= 6)%nat -> is_bytes m ->
  keccak_inputs r sfx m = blocks r (pad_bytes r (suffix_byte sfx) m).
Proof. intros Hr Hs Hm. unfold keccak_inputs. cbv zeta. rewrite bits_pad_eq by auto. reflexivity. Qed.
(** Both the message and the suffix are determined. *)
Lemma keccak_inputs_inj r s1 s2 m1 m2 : (0 < r)%nat -> (length s1 <= 6)%nat -> (length s2 <= 6)%nat ->
  dom_range (suffix_byte s1) = true -> dom_range (suffix_byte s2) = true -> is_bytes m1 -> is_bytes m2 ->
  keccak_inputs r s1 m1 = keccak_inputs r s2 m2 -> m1 = m2 /\ suffix_byte s1 = suffix_byte s2.
Proof.
  intros Hr L1 L2 D1 D2 H1 H2 E. rewrite !keccak_inputs_pad in E by auto.
  apply blocks_inj in E; auto using pad_bytes_mod. apply pad_bytes_inj in E; auto.
Qed.

(** ** left_encode and right_encode *)
Lemma num_bytes_bound x : x < 256 ^ N.of_nat (num_bytes x).
Proof.
  unfold num_bytes. destruct (N.eqb_spec x 0) as [->|H]; [reflexivity|]. rewrite N2Nat.id.
  change 256 with (2 ^ 8). rewrite <- N.pow_mul_r. destruct (N.log2_spec x ltac:(lia)) as [_ K].
  eapply N.lt_le_trans; [exact K|]. apply N.pow_le_mono_r; [lia|].
  pose proof (N.div_mod (N.log2 x) 8 ltac:(lia)). pose proof (N.mod_lt (N.log2 x) 8 ltac:(lia)). lia.
Qed.
Lemma left_enc_prefix x y a b : left_enc x ++ a = left_enc y ++ b -> x = y /\ a = b.
Proof.
  unfold left_enc. cbn [app]. intros E. injection E as E F.
  assert (K : num_bytes x = num_bytes y) by lia. rewrite <- K in F. apply app_inj_head_len in F; [|apply be_enc].
  destruct F as [F G]. split; [|exact G]. apply (be_bytes_inj (num_bytes x)) in F; auto using num_bytes_bound.
  rewrite K. apply num_bytes_bound.
Qed.
Lemma right_enc_suffix x y a b : a ++ right_enc x = b ++ right_enc y -> a = b /\ x = y.
Proof.
  unfold right_enc. rewrite !app_assoc. intros E. apply app_inj_tail in E. destruct E as [E F].
  assert (K : num_bytes x = num_bytes y) by lia. rewrite <- K in E. apply app_inj_tail_len in E; [|apply be_enc].
  destruct E as [E G]. split; [exact E|]. apply (be_bytes_inj (num_bytes x)) in G; auto using num_bytes_bound.
  rewrite K. apply num_bytes_bound.
Qed.
Lemma encode_string_prefix s t a b : short s -> short t -> encode_string s ++ a = encode_string t ++ b -> s = t /\ a = b.
Proof.
  intros [_ L1] [_ L2]. unfold encode_string. rewrite <- !app_assoc, !bits64 by auto. intros E.
  apply left_enc_prefix in E. destruct E as [E F]. apply app_inj_head_len in F; [exact F|lia].
Qed.

(** ** cSHAKE and KMAC *)
Definition pads (pad : list N -> nat -> list N) : Prop :=
  exists f, forall X w, pad X w = (left_enc (N.of_nat w) ++ X) ++ zeros (f w (length (left_enc (N.of_nat w) ++ X))).
Lemma bytepad_pads : pads bytepad.
Proof. exists (fun w l => ((w - l mod w) mod w)%nat). reflexivity. Qed.
Lemma code_bytepad_pads : pads code_bytepad.
Proof. exists (fun w l => (w - l mod w)%nat). reflexivity. Qed.
Lemma is_bytes_app a b : is_bytes a -> is_bytes b -> is_bytes (a ++ b).
Proof. apply bytes_ok_app. Qed.
Lemma pad_ok pad X w : pads pad -> N.of_nat w < 2 ^ 64 -> is_bytes X -> is_bytes (pad X w).
Proof.
  intros [f F] Hw HX. rewrite F. apply is_bytes_app; [apply is_bytes_app; [apply left_enc_ok; exact Hw|exact HX]|apply bytes_ok_zeros].
Qed.
Lemma pad1_prefix pad s t a b w : pads pad -> short s -> short t ->
  pad (encode_string s) w ++ a = pad (encode_string t) w ++ b -> s = t /\ a = b.
Proof.
  intros [f F] Hs Ht E. rewrite !F in E. rewrite <- !app_assoc in E. apply left_enc_prefix in E. destruct E as [_ E].
  apply encode_string_prefix in E; auto. destruct E as [<- E]. split; [reflexivity|]. exact (app_inv_head _ _ _ E).
Qed.
Lemma pad2_prefix pad s s' t t' a b w : pads pad -> short s -> short t -> short s' -> short t' ->
  pad (encode_string s ++ encode_string s') w ++ a = pad (encode_string t ++ encode_string t') w ++ b ->
  s = t /\ s' = t' /\ a = b.
Proof.
  intros [f F] Hs Ht Hs' Ht' E. rewrite !F in E. rewrite <- !app_assoc in E. apply left_enc_prefix in E. destruct E as [_ E].
  apply encode_string_prefix in E; auto. destruct E as [<- E]. apply encode_string_prefix in E; auto.
  destruct E as [<- E]. split; [reflexivity|]. split; [reflexivity|]. exact (app_inv_head _ _ _ E).
Qed.
Lemma cshake_inputs_inj pad sec p1 p2 m1 m2 : pads pad -> (sec < 100)%nat ->
  short (fst p1) -> short (snd p1) -> short (fst p2) -> short (snd p2) -> is_bytes m1 -> is_bytes m2 ->
  cshake_inputs pad sec p1 m1 = cshake_inputs pad sec p2 m2 -> p1 = p2 /\ m1 = m2.
Proof.
  intros Hp Hsec. destruct p1 as [f1 c1], p2 as [f2 c2]. cbn [fst snd]. intros F1 C1 F2 C2 H1 H2.
  assert (Hr : (0 < 200 - 2 * sec)%nat) by lia. assert (Hw : N.of_nat (200 - 2 * sec) < 2 ^ 64) by lia.
  assert (K : forall f c, short f -> short c ->
    is_bytes (pad (encode_string f ++ encode_string c) (200 - 2 * sec)%nat)).
  { intros f c [Hf _] [Hc _]. apply pad_ok; auto. apply is_bytes_app; apply encode_string_ok; auto. }
  assert (Shape : forall f c m, (f = [] /\ c = [] /\
      cshake_inputs pad sec (f, c) m = keccak_inputs (200 - 2 * sec) [true; true; true; true] m) \/
    (f ++ c <> [] /\ cshake_inputs pad sec (f, c) m =
      keccak_inputs (200 - 2 * sec) [false; false] (pad (encode_string f ++ encode_string c) (200 - 2 * sec)%nat ++ m))).
  { intros f c m. unfold cshake_inputs. destruct f; [destruct c|]; [left|right|right]; repeat split; discriminate. }
  destruct (Shape f1 c1 m1) as [(-> & -> & ->)|(N1 & ->)], (Shape f2 c2 m2) as [(-> & -> & ->)|(N2 & ->)]; intros E;
    apply keccak_inputs_inj in E; auto using is_bytes_app; try reflexivity; try (cbn [length]; lia).
  - destruct E as [-> _]. auto.
  - destruct E as [_ E]. discriminate E.
  - destruct E as [_ E]. discriminate E.
  - destruct E as [E _]. apply pad2_prefix in E; auto. destruct E as (-> & -> & ->). auto.
Qed.
Lemma kmac_inputs_inj pad sec L1 L2 p1 p2 m1 m2 : pads pad -> (sec < 100)%nat -> L1 < 2 ^ 64 -> L2 < 2 ^ 64 ->
  short (fst p1) -> short (snd p1) -> short (fst p2) -> short (snd p2) -> is_bytes m1 -> is_bytes m2 ->
  kmac_inputs pad sec L1 p1 m1 = kmac_inputs pad sec L2 p2 m2 -> L1 = L2 /\ p1 = p2 /\ m1 = m2.
Proof.
  intros Hp Hsec HL1 HL2 F1 C1 F2 C2 H1 H2 E. unfold kmac_inputs in E.
  assert (HK : short KMAC_name) by (split; [repeat constructor|reflexivity]).
  assert (RO : forall x, x < 2 ^ 64 -> is_bytes (right_enc x)).
  { intros x Hx. pose proof (left_enc_ok x Hx) as K. unfold left_enc in K. inversion K; subst.
    apply is_bytes_app; [assumption|]. constructor; [assumption|constructor]. }
  assert (KI : forall (p : list N * list N) m L, short (fst p) -> is_bytes m -> L < 2 ^ 64 -> is_bytes (kmac_input sec (fst p) m L)).
  { intros p m L [Hk _] Hm HL. unfold kmac_input. apply is_bytes_app; [apply pad_ok; [exact bytepad_pads|lia|apply encode_string_ok; exact Hk]|].
    apply is_bytes_app; auto. }
  apply cshake_inputs_inj in E; cbn [fst snd]; auto. destruct E as [Ep E]. injection Ep as Ep.
  unfold kmac_input in E. apply (pad1_prefix bytepad) in E; auto using bytepad_pads. destruct E as [Ek E].
  apply right_enc_suffix in E. destruct E as [-> ->]. repeat split. destruct p1, p2; cbn [fst snd] in *. congruence.
Qed.

(** ** KangarooTwelve *)
Lemma turbo_pad_eq r D M : (0 < r)%nat -> dom_range D = true -> turbo_pad r D M = pad_bytes r D M.
Proof.
  intros Hr HD. destruct (dom_lor D HD) as (A & B & _). unfold turbo_pad, pad_bytes, dpad. cbv zeta.
  rewrite app_length. cbn [length]. pose proof (Nat.mod_upper_bound (length M) r ltac:(lia)) as U.
  assert (K : ((r - (length M + 1) mod r) mod r = r - length M mod r - 1)%nat).
  { pose proof (Nat.div_mod (length M) r ltac:(lia)) as DM.
    replace (length M + 1)%nat with (length M mod r + 1 + length M / r * r)%nat by nia. rewrite Nat.mod_add by lia.
    destruct (Nat.eq_dec (length M mod r + 1) r) as [e|e].
    - rewrite e, Nat.mod_same, Nat.sub_0_r, Nat.mod_same by lia. lia.
    - rewrite (Nat.mod_small (length M mod r + 1)) by lia. rewrite Nat.mod_small by lia. lia. }
  rewrite K. destruct (Nat.eqb_spec (r - length M mod r) 1) as [e|e].
  - rewrite e. cbn [Nat.sub zeros repeat]. rewrite app_nil_r, removelast_last, last_last, A, B. reflexivity.
  - replace (r - length M mod r - 1)%nat with (S (r - length M mod r - 2)) by lia.
    assert (Z : forall n, zeros (S n) = zeros n ++ [0]) by (intros n; exact (repeat_cons n 0)).
    rewrite Z, app_assoc, removelast_last, last_last. rewrite <- !app_assoc. reflexivity.
Qed.
Lemma turbo_inputs_inj r D1 D2 m1 m2 : (0 < r)%nat -> dom_range D1 = true -> dom_range D2 = true ->
  turbo_inputs r D1 m1 = turbo_inputs r D2 m2 -> m1 = m2 /\ D1 = D2.
Proof.
  intros Hr H1 H2 E. unfold turbo_inputs in E. rewrite !turbo_pad_eq in E by auto.
  apply blocks_inj in E; auto using pad_bytes_mod. apply pad_bytes_inj in E; auto.
Qed.
Lemma length_encode_suffix x y a b : x < 2 ^ 64 -> y < 2 ^ 64 -> a ++ length_encode x = b ++ length_encode y -> a = b /\ x = y.
Proof.
  intros Hx Hy. unfold length_encode. cbv zeta. rewrite !N.mod_small by auto.
  assert (P : forall z, (0 < num_bytes z)%nat).
  { intros z. unfold num_bytes. destruct (z =? 0); [lia|]. generalize (N.log2 z / 8). intros; lia. }
  destruct (N.eqb_spec x 0) as [->|Nx], (N.eqb_spec y 0) as [->|Ny]; intros E.
  - apply app_inj_tail in E. tauto.
  - unfold right_enc in E. rewrite app_assoc in E. apply app_inj_tail in E. destruct E as [_ E]. specialize (P y). lia.
  - unfold right_enc in E. rewrite app_assoc in E. apply app_inj_tail in E. destruct E as [_ E]. specialize (P x). lia.
  - apply right_enc_suffix in E. exact E.
Qed.
(** The string S determines the message and the customization. *)
Lemma kt_string_inj c1 c2 m1 m2 : N.of_nat (length c1) < 2 ^ 64 -> N.of_nat (length c2) < 2 ^ 64 ->
  m1 ++ c1 ++ length_encode (N.of_nat (length c1)) = m2 ++ c2 ++ length_encode (N.of_nat (length c2)) -> c1 = c2 /\ m1 = m2.
Proof.
  intros H1 H2 E. rewrite !app_assoc in E. apply length_encode_suffix in E; auto. destruct E as [E F].
  apply app_inj_tail_len in E; [tauto|lia].
Qed.
(** The chunks determine S. *)
Lemma chunks_inj cs n : forall S T, (length S <= n * cs)%nat -> (length T <= n * cs)%nat ->
  (forall i, (i < n)%nat -> chunk_of cs S i = chunk_of cs T i) -> S = T.
Proof.
  induction n as [|n IH]; intros S T HS HT H.
  - destruct S, T; cbn in *; auto; lia.
  - rewrite <- (firstn_skipn cs S), <- (firstn_skipn cs T). f_equal; [exact (H 0%nat ltac:(lia))|].
    apply IH; try (rewrite skipn_length; lia). intros i Hi. specialize (H (Datatypes.S i) ltac:(lia)).
    unfold chunk_of in *. rewrite !skipn_skipn. replace (i * cs + cs)%nat with (Datatypes.S i * cs)%nat by lia. exact H.
Qed.
Lemma kt_inputs_inj nr sec cs c1 c2 m1 m2 : (sec < 100)%nat -> (0 < cs)%nat ->
  N.of_nat (length c1) < 2 ^ 64 -> N.of_nat (length c2) < 2 ^ 64 ->
  kt_inputs nr sec cs c1 m1 = kt_inputs nr sec cs c2 m2 -> c1 = c2 /\ m1 = m2.
Proof.
  intros Hsec Hcs H1 H2 E. apply kt_string_inj; auto. unfold kt_inputs in E. cbv zeta in E.
  set (S1 := m1 ++ c1 ++ _) in *. set (S2 := m2 ++ c2 ++ _) in *. clearbody S1 S2.
  assert (Hr : (0 < 200 - 2 * sec)%nat) by lia.
  destruct (Nat.leb_spec (length S1) cs) as [A1|A1], (Nat.leb_spec (length S2) cs) as [A2|A2].
  - injection E as E. apply turbo_inputs_inj in E; [tauto|auto|reflexivity|reflexivity].
  - change [turbo_inputs (200 - 2 * sec) 7 S1] with ([] ++ [turbo_inputs (200 - 2 * sec) 7 S1]) in E.
    apply app_inj_tail in E. destruct E as [_ E]. apply turbo_inputs_inj in E; [|auto|reflexivity|reflexivity].
    destruct E as [_ E]. discriminate E.
  - change [turbo_inputs (200 - 2 * sec) 7 S2] with ([] ++ [turbo_inputs (200 - 2 * sec) 7 S2]) in E.
    apply app_inj_tail in E. destruct E as [_ E]. apply turbo_inputs_inj in E; [|auto|reflexivity|reflexivity].
    destruct E as [_ E]. discriminate E.
  - apply app_inj_tail in E. destruct E as [E F]. apply turbo_inputs_inj in F; [|auto|reflexivity|reflexivity].
    destruct F as [F _].
    assert (num : forall S : list N, (cs < length S)%nat -> (length S <= ((length S + cs - 1) / cs) * cs)%nat
      /\ (1 <= (length S + cs - 1) / cs)%nat).
    { intros S HS. pose proof (Nat.div_mod (length S + cs - 1) cs ltac:(lia)).
      pose proof (Nat.mod_upper_bound (length S + cs - 1) cs ltac:(lia)). split; nia. }
    destruct (num S1 A1) as [B1 C1]. destruct (num S2 A2) as [B2 C2].
    assert (n12 : ((length S1 + cs - 1) / cs = (length S2 + cs - 1) / cs)%nat).
    { apply (f_equal (@length _)) in E. rewrite !map_length, !seq_length in E. lia. }
    rewrite <- n12 in *. apply app_inj_head_len in F.
    2:{ unfold chunk_of. cbn [Nat.mul skipn]. rewrite !firstn_length. lia. }
    destruct F as [F _]. apply (chunks_inj cs ((length S1 + cs - 1) / cs)%nat); auto.
    intros [|i] Hi; [exact F|].
    pose proof (map_eq_at _ _ _ (Datatypes.S i) E ltac:(apply in_seq; lia)) as K.
    apply turbo_inputs_inj in K; [tauto|auto|reflexivity|reflexivity].
Qed.
