(** * Counterexamples for cSHAKE and KMAC. *)
From Verif Require Import Base Lemmas VecUtil Hasher HasherSpec HasherProof HasherWhen MdState
  Squeeze SqueezeProof Keccak KeccakSpec KeccakProof EncodeProof SpongeProof SpecCommon TableLemmas MdProof Sha3 Shake Sha3Spec ShakeProof Kmac KmacProof.

(** If a provider implements two functions they agree wherever histories reach. *)
Lemma ximplements_unique P S (f : xs_params S -> list N -> nat -> list N) clr fresh ops :
  ximplements P (with_out S f) clr fresh -> ximplements P S clr fresh ->
  xof_ops_ok (with_out S f) clr (xfresh (with_out S f)) ops -> xof_ops_ok S clr (xfresh S) ops ->
  snd (xrun (with_out S f) (xfresh (with_out S f)) ops) = snd (xrun S (xfresh S) ops).
Proof.
  intros H1 H2 O1 O2. destruct (H1 ops O1) as (a & b & E & E1). destruct (H2 ops O2) as (a' & b' & E' & E2).
  rewrite E in E'. injection E' as <-. rewrite E1 in E2. injection E2 as _ E2. exact E2.
Qed.
Lemma implements_unique P S (f : sp_params S -> list N -> list N) clr fresh ops :
  implements P (with_digest S f) clr fresh -> implements P S clr fresh ->
  Forall (hash_op_ok clr) ops ->
  snd (arun (with_digest S f) (afresh (with_digest S f)) ops) = snd (arun S (afresh S) ops).
Proof.
  intros H1 H2 O1. destruct (H1 ops O1) as (a & b & E & E1). destruct (H2 ops O1) as (a' & b' & E' & E2).
  rewrite E in E'. injection E' as <-. rewrite E1 in E2. injection E2 as _ E2. exact E2.
Qed.

Lemma bytes_ok_repeat b n : b < 256 -> bytes_ok (repeat b n).
Proof. intros H. induction n; constructor; auto. Qed.

(** The history: set a parameter, take the output. *)
Lemma set_squeeze_ok {param} (S : xof_spec param) clr a q v n : bytes_ok v -> (0 < n)%nat ->
  xof_ops_ok S clr a [XBase (SetParam q v); XSqueezeBuf n].
Proof. intros Hv Hn. split; [split; [exact Hv|exact I]|]. split; [exact Hn|exact I]. Qed.
Lemma set_squeeze_run {param} (S : xof_spec param) q v n p : xs_set S q v (xs_default S) = Some p ->
  snd (xrun S (xfresh S) [XBase (SetParam q v); XSqueezeBuf n]) = [ODone; OBytes (xs_out S p [] n)].
Proof. intros E. unfold xfresh. cbn [xrun xstep]. rewrite E. reflexivity. Qed.
Lemma set_digest_ok {param} clr (q : param) v : bytes_ok v ->
  Forall (hash_op_ok clr) [HBase (SetParam q v); HDigestIter].
Proof. intros H. constructor; [exact H|]. constructor; [exact I|constructor]. Qed.
Lemma set_digest_run {param} (S : hash_spec param) q v p : sp_set S q v (sp_default S) = Some p ->
  snd (arun S (afresh S) [HBase (SetParam q v); HDigestIter]) = [ODone; OBytes (sp_digest S p [])].
Proof. intros E. unfold afresh. cbn [arun astep abase]. rewrite E. reflexivity. Qed.

Lemma ximplements_set_unique P S (f : xs_params S -> list N -> nat -> list N) clr fresh q v n p :
  ximplements P (with_out S f) clr fresh -> ximplements P S clr fresh ->
  bytes_ok v -> (0 < n)%nat -> xs_set S q v (xs_default S) = Some p ->
  f p [] n = xs_out S p [] n.
Proof.
  intros H1 H2 Hv Hn E.
  pose proof (ximplements_unique P S f clr fresh _ H1 H2
    (set_squeeze_ok _ _ _ q v n Hv Hn) (set_squeeze_ok _ _ _ q v n Hv Hn)) as U.
  rewrite (set_squeeze_run S q v n p E) in U.
  rewrite (set_squeeze_run (with_out S f) q v n p E) in U.
  injection U as U. exact U.
Qed.
Lemma implements_set_unique P S (f : sp_params S -> list N -> list N) clr fresh q v p :
  implements P (with_digest S f) clr fresh -> implements P S clr fresh ->
  bytes_ok v -> sp_set S q v (sp_default S) = Some p ->
  f p [] = sp_digest S p [].
Proof.
  intros H1 H2 Hv E.
  pose proof (implements_unique P S f clr fresh _ H1 H2 (set_digest_ok _ q v Hv)) as U.
  rewrite (set_digest_run S q v p E) in U.
  rewrite (set_digest_run (with_digest S f) q v p E) in U.
  injection U as U. exact U.
Qed.

(** Both sides in terms of the modelled permutation, which computes faster. *)
Lemma cshake_differ B r64 sec cust X n : (1 <= r64 <= 21)%nat -> shake_rate B = N.of_nat (64 * r64) ->
  (8 * r64 = 200 - 2 * sec)%nat -> bytes_ok cust -> bytes_ok X -> forall fn, bytes_ok fn -> fn ++ cust <> [] ->
  cshake_code r64 sec (fn, cust) X n = cshake_xof sec fn cust X n ->
  ksponge 24 r64 4 (hdr r64 fn cust ++ X) n = ksponge 24 r64 4 (cshake_header sec fn cust ++ X) n.
Proof.
  intros Hr Hrate Hsec Hc HX fn Hf Hne E.
  rewrite (cshake_code_eq B r64 sec Hr Hrate Hsec fn cust X n Hf Hc HX) in E.
  unfold cshake_xof in E.
  assert (HH : bytes_ok (cshake_header sec fn cust ++ X)).
  { apply bytes_ok_app; [|exact HX]. unfold cshake_header, bytepad.
    apply bytes_ok_app; [|apply bytes_ok_zeros].
    apply bytes_ok_app; [apply left_enc_ok; lia|].
    apply bytes_ok_app; apply encode_string_ok; assumption. }
  pose proof (keccak_c_ksponge B r64 sec Hr Hrate Hsec [false; false] _ n (le_S _ _ (le_S _ _ (le_S _ _ (le_S _ _ (le_n _))))) HH) as K.
  destruct fn; [destruct cust; [contradiction|]|]; rewrite K in E; exact E.
Qed.

Lemma hd_differ a b : hd 256 a <> hd 256 b -> a <> b.
Proof. intros H ->. apply H. reflexivity. Qed.

(** The sponge with the modelled permutation. *)
Definition fast (r64 : nat) (msg : list N) (n : nat) : list N :=
  let P := pad_bytes (8 * r64) 4 msg in
  seg (kc_perm 24) (words_bytes 8) (8 * r64)
    (fold_left (kc_f 24 r64) (blocks_n (length P / (8 * r64)) (8 * r64) P) (zeros 25)) 0 n.
Lemma fast_eq B r64 msg n : (1 <= r64 <= 21)%nat -> shake_rate B = N.of_nat (64 * r64) ->
  ksponge 24 r64 4 msg n = fast r64 msg n.
Proof.
  intros Hr Hrate. rewrite (ksponge_seg B 24 r64 (le_n 24) Hr Hrate). unfold fast, S0.
  destruct (pad_bytes_length 24 r64 168 (le_n 24) ltac:(lia) ltac:(lia) 4 msg) as (k & Hk).
  rewrite (proj1 (kc_state_fold 24 r64 168 (le_n 24) ltac:(lia) ltac:(lia) _ k Hk)).
  rewrite Hk, Nat.div_mul by lia. reflexivity.
Qed.

(** It is enough to compare the first bytes. *)
Lemma cshake_differ_fast B r64 sec cust X n fn :
  cshake_code r64 sec (fn, cust) X n = cshake_xof sec fn cust X n ->
  (1 <= r64 <= 21)%nat -> shake_rate B = N.of_nat (64 * r64) ->
  (8 * r64 = 200 - 2 * sec)%nat -> bytes_ok cust -> bytes_ok X -> bytes_ok fn -> fn ++ cust <> [] ->
  hd 256 (fast r64 (hdr r64 fn cust ++ X) n) = hd 256 (fast r64 (cshake_header sec fn cust ++ X) n).
Proof.
  intros E Hr Hrate Hsec Hc HX Hf Hne.
  rewrite <- !(fast_eq B) by assumption. f_equal.
  exact (cshake_differ B r64 sec cust X n Hr Hrate Hsec Hc HX fn Hf Hne E).
Qed.

Lemma differ_128 : hd 256 (fast 21 (hdr 21 [] (repeat 97 161) ++ []) 32)
  <> hd 256 (fast 21 (cshake_header 16 [] (repeat 97 161) ++ []) 32).
Proof. vm_compute. discriminate. Qed.
Lemma differ_256 : hd 256 (fast 17 (hdr 17 [] (repeat 97 129) ++ []) 32)
  <> hd 256 (fast 17 (cshake_header 32 [] (repeat 97 129) ++ []) 32).
Proof. vm_compute. discriminate. Qed.
Lemma differ_kmac128 L : (L = 0 \/ L = 256)%N -> hd 256 (fast 21 (hdr 21 KMAC_name (repeat 97 157) ++ kmac_input 16 [] [] L) 32)
  <> hd 256 (fast 21 (cshake_header 16 KMAC_name (repeat 97 157) ++ kmac_input 16 [] [] L) 32).
Proof. intros [-> | ->]; vm_compute; discriminate. Qed.
Lemma differ_kmac256 : hd 256 (fast 17 (hdr 17 KMAC_name (repeat 97 125) ++ kmac_input 32 [] [] 512) 64)
  <> hd 256 (fast 17 (cshake_header 32 KMAC_name (repeat 97 125) ++ kmac_input 32 [] [] 512) 64).
Proof. vm_compute; discriminate. Qed.
Lemma differ_kmac256_xof : hd 256 (fast 17 (hdr 17 KMAC_name (repeat 97 125) ++ kmac_input 32 [] [] 0) 32)
  <> hd 256 (fast 17 (cshake_header 32 KMAC_name (repeat 97 125) ++ kmac_input 32 [] [] 0) 32).
Proof. vm_compute; discriminate. Qed.

Lemma KMAC_name_ok : bytes_ok KMAC_name.
Proof. repeat constructor. Qed.
Lemma kmac_input_ok sec key msg L : bytes_ok key -> bytes_ok msg -> (L < 2 ^ 64)%N ->
  bytes_ok (kmac_input sec key msg L).
Proof.
  intros H1 H2 H3. unfold kmac_input. apply bytes_ok_app.
  - unfold bytepad. apply bytes_ok_app; [|apply bytes_ok_zeros].
    apply bytes_ok_app; [apply left_enc_ok; lia|apply encode_string_ok; auto].
  - apply bytes_ok_app; auto. apply right_enc_ok; auto.
Qed.

(** If the implementation conformed for this customization the first bytes would agree. *)
Section Differ.
  Variables (B : N) (r64 sec : nat).
  Hypothesis Hr : (1 <= r64 <= 21)%nat.
  Hypothesis Hrate : shake_rate B = N.of_nat (64 * r64).
  Hypothesis Hsec : (8 * r64 = 200 - 2 * sec)%nat.
  Hypothesis Hpad : (if (B =? 128)%N then 168 else 136)%nat = (8 * r64)%nat.
  Variables (g : st) (sq sq1 : bool) (sfx : N) (cust : list N).
  Hypothesis Hg : length (sm g) = 168%nat.
  Hypothesis Hc : bytes_ok cust.
  Hypothesis Hne : cust <> [].

  Lemma cshake_conf n : (0 < n)%nat ->
    ximplements (cshake B 24) (cshake_spec sec) true (fresh_of (shake_ctor g sq sfx) (shake_init B 24)) ->
    hd 256 (fast r64 (hdr r64 [] cust ++ []) n) = hd 256 (fast r64 (cshake_header sec [] cust ++ []) n).
  Proof.
    intros Hn H.
    pose proof (ximplements_set_unique (cshake B 24) (cshake_spec sec) (cshake_code r64 sec) true _
      CsCustomization cust n ([], cust)
      (cshake_code_implements B r64 sec Hr Hrate Hsec g sq sfx Hg) H Hc Hn eq_refl) as E.
    exact (cshake_differ_fast B r64 sec cust [] n [] E Hr Hrate Hsec Hc (Forall_nil _) (Forall_nil _) Hne).
  Qed.

  Lemma kmacxof_conf n : (0 < n)%nat ->
    ximplements (kmacxof B) (kmacxof_spec sec) true
      (fresh_of (kmac_ctor_static B 0 sq (new_shake g sq1 sfx)) (kmac_init B)) ->
    hd 256 (fast r64 (hdr r64 KMAC_name cust ++ kmac_input sec [] [] 0) n)
    = hd 256 (fast r64 (cshake_header sec KMAC_name cust ++ kmac_input sec [] [] 0) n).
  Proof.
    intros Hn H.
    pose proof (ximplements_set_unique (kmacxof B) (kmacxof_spec sec) (kmac_code r64 sec 0) true _
      KmCustomization cust n ([], cust)
      (kmacxof_code_implements B r64 sec Hr Hrate Hsec Hpad g sq1 sfx sq Hg) H Hc Hn eq_refl) as E.
    exact (cshake_differ_fast B r64 sec cust (kmac_input sec [] [] 0) n KMAC_name E Hr Hrate Hsec Hc
      (kmac_input_ok sec [] [] 0 (Forall_nil _) (Forall_nil _) eq_refl) KMAC_name_ok ltac:(discriminate)).
  Qed.

  Lemma kmac_conf hs : hs < 2 ^ 64 -> 0 < hs -> hs mod 8 = 0 ->
    implements (kmac B) (kmac_spec sec hs) true
      (fresh_of (kmac_ctor B hs sq (new_shake g sq1 sfx)) (kmac_init B)) ->
    hd 256 (fast r64 (hdr r64 KMAC_name cust ++ kmac_input sec [] [] hs) (N.to_nat (hs / 8)))
    = hd 256 (fast r64 (cshake_header sec KMAC_name cust ++ kmac_input sec [] [] hs) (N.to_nat (hs / 8))).
  Proof.
    intros H1 H2 H3 H.
    pose proof (implements_set_unique (kmac B) (kmac_spec sec hs) (kmac_digest r64 sec hs) true _
      KmCustomization cust ([], cust)
      (kmac_code_implements B r64 sec Hr Hrate Hsec Hpad hs H1 H2 H3 g sq1 sfx sq Hg) H Hc eq_refl) as E.
    exact (cshake_differ_fast B r64 sec cust (kmac_input sec [] [] hs) _ KMAC_name E Hr Hrate Hsec Hc
      (kmac_input_ok sec _ _ _ (Forall_nil _) (Forall_nil _) H1) KMAC_name_ok ltac:(discriminate)).
  Qed.
End Differ.

Theorem cshake128_refuted g sq sfx : length (sm g) = 168%nat ->
  ~ ximplements (cshake 128 24) (cshake_spec 16) true (fresh_of (shake_ctor g sq sfx) (shake_init 128 24)).
Proof.
  intros Hg H. apply differ_128.
  refine (cshake_conf 128 21 16 _ eq_refl eq_refl g sq sfx _ Hg (bytes_ok_repeat 97 _ eq_refl) _ 32 _ H); [lia|discriminate|lia].
Qed.
Theorem cshake256_refuted g sq sfx : length (sm g) = 168%nat ->
  ~ ximplements (cshake 256 24) (cshake_spec 32) true (fresh_of (shake_ctor g sq sfx) (shake_init 256 24)).
Proof.
  intros Hg H. apply differ_256.
  refine (cshake_conf 256 17 32 _ eq_refl eq_refl g sq sfx _ Hg (bytes_ok_repeat 97 _ eq_refl) _ 32 _ H); [lia|discriminate|lia].
Qed.

Theorem kmac128_refuted g sq1 sfx sq : length (sm g) = 168%nat ->
  ~ implements (kmac 128) (kmac_spec 16 256) true
      (fresh_of (kmac_ctor 128 256 sq (new_shake g sq1 sfx)) (kmac_init 128)).
Proof.
  intros Hg H. apply (differ_kmac128 256 (or_intror eq_refl)).
  refine (kmac_conf 128 21 16 _ eq_refl eq_refl eq_refl g sq sq1 sfx _ Hg (bytes_ok_repeat 97 _ eq_refl)
    256 eq_refl eq_refl eq_refl H). lia.
Qed.
Theorem kmac256_refuted g sq1 sfx sq : length (sm g) = 168%nat ->
  ~ implements (kmac 256) (kmac_spec 32 512) true
      (fresh_of (kmac_ctor 256 512 sq (new_shake g sq1 sfx)) (kmac_init 256)).
Proof.
  intros Hg H. apply differ_kmac256.
  refine (kmac_conf 256 17 32 _ eq_refl eq_refl eq_refl g sq sq1 sfx _ Hg (bytes_ok_repeat 97 _ eq_refl)
    512 eq_refl eq_refl eq_refl H). lia.
Qed.
Theorem kmac128_xof_refuted g sq1 sfx sq : length (sm g) = 168%nat ->
  ~ ximplements (kmacxof 128) (kmacxof_spec 16) true
      (fresh_of (kmac_ctor_static 128 0 sq (new_shake g sq1 sfx)) (kmac_init 128)).
Proof.
  intros Hg H. apply (differ_kmac128 0 (or_introl eq_refl)).
  refine (kmacxof_conf 128 21 16 _ eq_refl eq_refl eq_refl g sq sq1 sfx _ Hg (bytes_ok_repeat 97 _ eq_refl)
    32 _ H); lia.
Qed.
Theorem kmac256_xof_refuted g sq1 sfx sq : length (sm g) = 168%nat ->
  ~ ximplements (kmacxof 256) (kmacxof_spec 32) true
      (fresh_of (kmac_ctor_static 256 0 sq (new_shake g sq1 sfx)) (kmac_init 256)).
Proof.
  intros Hg H. apply differ_kmac256_xof.
  refine (kmacxof_conf 256 17 32 _ eq_refl eq_refl eq_refl g sq sq1 sfx _ Hg (bytes_ok_repeat 97 _ eq_refl)
    32 _ H); lia.
Qed.

(** An object whose memory was zero. *)
Definition zero_st (h m : nat) : st := mkst (zeros h) (zeros m) 0 0.
