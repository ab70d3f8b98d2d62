(** * Every type of the library implements an abstract hasher. *)
From Verif Require Import Base Lemmas Hasher HasherSpec HasherProof HasherWhen SpecCommon MdState Library LibraryProof
  XLibraryProof LibraryTypes Md5 Md5Spec Md5Proof Sha1 Sha1Spec Sha1Proof Sha2 Sha2Spec Sha2Proof Sm3 Sm3Spec Sm3Proof
  Whirlpool WhirlpoolSpec WhirlpoolProof Sha3 Shake Kmac KeccakSpec Sha3Spec Sha3Proof ShakeProof KmacProof
  K12 K12Spec K12Proof Ascon AsconSpec AsconProof Esch EschSpec EschProof Blake BlakeSpec BlakeProof Blake2 Blake2Spec Blake2Proof Blake2Sim Blake2p Blake2pSpec Blake2pProof Blake2pSim
  Groestl GroestlSpec GroestlProof Kupyna KupynaSpec KupynaProof Streebog StreebogSpec StreebogProof
  Jh JhSpec JhProof Lsh LshSpec LshProof Skein SkeinSpec SkeinSim Echo EchoSpec EchoSim.

(** Types without customization parameters. *)
Lemma good_plain {P} (T : htype P) S :
  (forall g, ht_mem_ok T g -> implements P S (ht_clr T) (ht_new T g)) -> sp_size S = ht_size T ->
  (p_param P -> False) -> good T S.
Proof. intros H1 H2 H3. constructor; auto; intros q; destruct (H3 q). Qed.
Lemma xgood_plain {P} (T : xtype P) S :
  (forall g, xt_mem_ok T g -> ximplements P S (xt_clr T) (xt_new T g)) ->
  (p_param P -> False) -> (forall p msg, xs_out S p msg 0 = []) ->
  (forall p msg n m, length (xs_out S p msg n) = n -> (n <= m)%nat -> firstn n (xs_out S p msg m) = xs_out S p msg n) ->
  xgood T S.
Proof. intros H1 H2 H3 H4. constructor; auto; intros q; destruct (H2 q). Qed.

Definition no_param (q : Empty_set) : False := match q with end.

(** Outputs of sponges. *)
Lemma squeeze_blocks_app {C} (next : C -> C) emit r k : forall j c,
  squeeze_blocks next emit r (k + j) c = squeeze_blocks next emit r k c ++ squeeze_blocks next emit r j (Nat.iter k next c).
Proof.
  induction k; intros j c; [reflexivity|]. cbn [Nat.add squeeze_blocks]. rewrite IHk, app_assoc. do 2 f_equal.
  clear. induction k; cbn; [reflexivity|]. f_equal. exact IHk.
Qed.
Lemma squeeze_stream_prefix {C} (next : C -> C) emit r n m c : (0 < r)%nat ->
  length (squeeze_stream next emit r n c) = n -> (n <= m)%nat ->
  firstn n (squeeze_stream next emit r m c) = squeeze_stream next emit r n c.
Proof.
  intros Hr L Hn. unfold squeeze_stream in *. rewrite firstn_firstn, Nat.min_l by exact Hn.
  assert (E : (m / r + 1 = (n / r + 1) + (m / r - n / r))%nat).
  { pose proof (Nat.div_le_mono n m r ltac:(lia) Hn). lia. }
  rewrite E, squeeze_blocks_app, firstn_app.
  rewrite firstn_length in L. replace (n - _)%nat with 0%nat by lia. rewrite firstn_O, app_nil_r. reflexivity.
Qed.
Lemma sponge_prefix nr r P n m : (0 < r)%nat -> length (sponge nr r P n) = n -> (n <= m)%nat ->
  firstn n (sponge nr r P m) = sponge nr r P n.
Proof. apply squeeze_stream_prefix. Qed.
Lemma keccak_c_prefix r sfx msg n m : (0 < r)%nat -> length (keccak_c r sfx msg n) = n -> (n <= m)%nat ->
  firstn n (keccak_c r sfx msg m) = keccak_c r sfx msg n.
Proof. apply sponge_prefix. Qed.
Lemma turbo_prefix nr r D msg n m : (0 < r)%nat -> length (turbo nr r D msg n) = n -> (n <= m)%nat ->
  firstn n (turbo nr r D msg m) = turbo nr r D msg n.
Proof. apply sponge_prefix. Qed.
Lemma cshake_code_prefix r64 sec p msg n m : (0 < 200 - 2 * sec)%nat ->
  length (cshake_code r64 sec p msg n) = n -> (n <= m)%nat ->
  firstn n (cshake_code r64 sec p msg m) = cshake_code r64 sec p msg n.
Proof. unfold cshake_code. destruct (fst p); [destruct (snd p)|]; apply keccak_c_prefix. Qed.
Lemma kt_prefix nr sec cs msg cust n m : (0 < 200 - 2 * sec)%nat ->
  length (kt nr sec cs msg cust n) = n -> (n <= m)%nat ->
  firstn n (kt nr sec cs msg cust m) = kt nr sec cs msg cust n.
Proof. unfold kt. cbv zeta. intros H. destruct (_ <=? _)%nat; apply turbo_prefix; exact H. Qed.

(** ** Fixed output *)
Lemma good_md5 : good md5_type md5_spec.
Proof. apply good_plain; [exact md5_implements|reflexivity|exact no_param]. Qed.
Lemma good_sha1 : good sha1_type sha1_spec.
Proof. apply good_plain; [exact sha1_implements|reflexivity|exact no_param]. Qed.
Lemma good_sha224 : good sha224_type sha224_spec.
Proof. apply good_plain; [exact sha224_implements|reflexivity|exact no_param]. Qed.
Lemma good_sha256 : good sha256_type sha256_spec.
Proof. apply good_plain; [exact sha256_implements|reflexivity|exact no_param]. Qed.
Lemma good_sha384 : good sha384_type sha384_spec.
Proof. apply good_plain; [exact sha384_implements|reflexivity|exact no_param]. Qed.
Lemma good_sha512_static hs : bits_up_to 512 hs -> good (sha512_static_type hs) (sha2_spec W64 hs).
Proof.
  intros H. apply good_plain; [|reflexivity|exact no_param].
  intros g Hg. exact (sha2_implements_gen W64 hs g H Hg).
Qed.
Lemma good_sha512 hs : bits_up_to 512 hs -> good (sha512_type hs) (sha2_spec W64 hs).
Proof.
  intros H. apply good_plain; [|reflexivity|exact no_param].
  intros g Hg. cbn [ht_new sha512_type plain]. rewrite <- sha512_static_same by exact H.
  exact (sha2_implements_gen W64 hs g H Hg).
Qed.
Lemma good_sm3 : good sm3_type sm3_spec.
Proof. apply good_plain; [exact sm3_implements|reflexivity|exact no_param]. Qed.
Lemma good_whirlpool : good whirlpool_type whirlpool_spec.
Proof. apply good_plain; [exact whirlpool_implements|reflexivity|exact no_param]. Qed.

Lemma sha3_size_in hs : In hs [224; 256; 384; 512] -> sha3_size hs.
Proof. cbn. unfold sha3_size. intuition. Qed.
Lemma good_sha3 hs : In hs [224; 256; 384; 512] -> good (sha3_type hs) (sha3_spec (N.to_nat (hs / 8))).
Proof.
  intros H. apply good_plain; [|reflexivity|exact no_param].
  intros g Hg. exact (sha3_implements hs g (sha3_size_in hs H) Hg).
Qed.
Lemma good_sha3_static hs : In hs [224; 256; 384; 512] -> good (sha3_static_type hs) (sha3_spec (N.to_nat (hs / 8))).
Proof.
  intros H. apply good_plain; [|reflexivity|exact no_param].
  intros g Hg. exact (sha3_static_implements hs g (sha3_size_in hs H) Hg).
Qed.

Lemma good_kmac B r64 sec hs : (1 <= r64 <= 21)%nat -> shake_rate B = N.of_nat (64 * r64) -> (8 * r64 = 200 - 2 * sec)%nat ->
  (if (B =? 128)%N then 168%nat else 136%nat) = (8 * r64)%nat -> bits_up_to (2 ^ 64 - 1) hs ->
  good (kmac_type B hs) (with_digest (kmac_spec sec hs) (kmac_digest r64 sec hs)) /\
  good (kmac_static_type B hs) (with_digest (kmac_spec sec hs) (kmac_digest r64 sec hs)).
Proof.
  intros H1 H2 H3 H4 (H5 & H6 & H7). assert (H6' : hs < 2 ^ 64) by lia.
  split; constructor.
  - intros [[[g sq] sfx] sq'] Hg. exact (kmac_code_implements B r64 sec H1 H2 H3 H4 hs H6' H5 H7 g sq sfx sq' Hg).
  - reflexivity.
  - intros q v p. reflexivity.
  - intros [] [] v1 v2 p p1 p2 Hq E1 E2; try contradiction; cbn in *; injection E1 as <-; injection E2 as <-; reflexivity.
  - intros [] v1 v2 p p1 _ E1; cbn in *; injection E1 as <-; reflexivity.
  - intros [[[g sq] sfx] sq'] Hg. exact (kmac_static_code_implements B r64 sec H1 H2 H3 H4 hs H6' H5 H7 g sq sfx sq' Hg).
  - reflexivity.
  - intros q v p. reflexivity.
  - intros [] [] v1 v2 p p1 p2 Hq E1 E2; try contradiction; cbn in *; injection E1 as <-; injection E2 as <-; reflexivity.
  - intros [] v1 v2 p p1 _ E1; cbn in *; injection E1 as <-; reflexivity.
Qed.
Lemma good_kmac128 hs : bits_up_to (2 ^ 64 - 1) hs ->
  good (kmac_type 128 hs) (with_digest (kmac_spec 16 hs) (kmac_digest 21 16 hs)) /\
  good (kmac_static_type 128 hs) (with_digest (kmac_spec 16 hs) (kmac_digest 21 16 hs)).
Proof. apply good_kmac; [lia|reflexivity|reflexivity|reflexivity]. Qed.
Lemma good_kmac256 hs : bits_up_to (2 ^ 64 - 1) hs ->
  good (kmac_type 256 hs) (with_digest (kmac_spec 32 hs) (kmac_digest 17 32 hs)) /\
  good (kmac_static_type 256 hs) (with_digest (kmac_spec 32 hs) (kmac_digest 17 32 hs)).
Proof. apply good_kmac; [lia|reflexivity|reflexivity|reflexivity]. Qed.

Lemma good_ascon_hash : good ascon_hash_type ascon_hash_spec.
Proof. apply good_plain; [exact ascon_hash_implements|reflexivity|exact no_param]. Qed.

Lemma good_esch hs : In hs [256; 384] -> exists S, good (esch_type hs) S /\ good (esch_static_type hs) S.
Proof.
  intros [<-|[<-|[]]]; [exists (esch_spec 3)|exists (esch_spec 4)]; split;
    (apply good_plain; [|reflexivity|exact no_param]); intros g Hg.
  - exact (proj1 (esch_implements 3 16 g (or_introl eq_refl) ltac:(lia) Hg)).
  - exact (proj2 (esch_implements 3 16 g (or_introl eq_refl) ltac:(lia) Hg)).
  - exact (proj1 (esch_implements 4 16 g (or_intror eq_refl) ltac:(lia) Hg)).
  - exact (proj2 (esch_implements 4 16 g (or_intror eq_refl) ltac:(lia) Hg)).
Qed.

(** ** Extendable output *)
Lemma xgood_shake B r64 sec : (1 <= r64 <= 21)%nat -> shake_rate B = N.of_nat (64 * r64) -> (8 * r64 = 200 - 2 * sec)%nat ->
  xgood (shake_type B) (shake_spec sec).
Proof.
  intros H1 H2 H3. apply xgood_plain.
  - intros [[g sq] sfx] Hg. exact (shake_implements_gen B r64 sec H1 H2 H3 g sq sfx Hg).
  - exact no_param.
  - reflexivity.
  - intros p msg n m. apply keccak_c_prefix. lia.
Qed.
Lemma xgood_cshake B r64 sec : (1 <= r64 <= 21)%nat -> shake_rate B = N.of_nat (64 * r64) -> (8 * r64 = 200 - 2 * sec)%nat ->
  xgood (cshake_type B) (with_out (cshake_spec sec) (cshake_code r64 sec)).
Proof.
  intros H1 H2 H3. constructor.
  - intros [[g sq] sfx] Hg. exact (cshake_code_implements B r64 sec H1 H2 H3 g sq sfx Hg).
  - intros [] v p; reflexivity.
  - intros [] [] v1 v2 p p1 p2 Hq E1 E2; try contradiction; cbn in *; injection E1 as <-; injection E2 as <-; reflexivity.
  - intros [] v1 v2 p p1 _ E1; cbn in *; injection E1 as <-; reflexivity.
  - intros [[|] [|]] msg; reflexivity.
  - intros p msg n m. apply cshake_code_prefix. lia.
Qed.
Lemma xgood_kmac B r64 sec : (1 <= r64 <= 21)%nat -> shake_rate B = N.of_nat (64 * r64) -> (8 * r64 = 200 - 2 * sec)%nat ->
  (if (B =? 128)%N then 168%nat else 136%nat) = (8 * r64)%nat ->
  xgood (kmacxof_type B) (with_out (kmacxof_spec sec) (kmac_code r64 sec 0)).
Proof.
  intros H1 H2 H3 H4. constructor.
  - intros [[[g sq] sfx] sq'] Hg. exact (kmacxof_code_implements B r64 sec H1 H2 H3 H4 g sq sfx sq' Hg).
  - intros q v p. reflexivity.
  - intros [] [] v1 v2 p p1 p2 Hq E1 E2; try contradiction; cbn in *; injection E1 as <-; injection E2 as <-; reflexivity.
  - intros [] v1 v2 p p1 _ E1; cbn in *; injection E1 as <-; reflexivity.
  - intros p msg. reflexivity.
  - intros p msg n m. apply cshake_code_prefix. lia.
Qed.
Lemma xgood_k12 B R sec : (0 < 200 - 2 * sec)%nat ->
  (forall g1 sq1 sfx1 g2 sq2 sfx2 m pos total chunk sq,
    length (sm g1) = 168%nat -> length (sm g2) = 168%nat -> length m = N.to_nat 8192 ->
    ximplements (k12 B R) (kt_spec k12_param R sec) true
     (fresh_of (k12_ctor (new_shake g1 sq1 sfx1) (new_shake g2 sq2 sfx2) m pos total chunk sq) (k12_init B R))) ->
  xgood (k12_type B R) (kt_spec k12_param R sec).
Proof.
  intros Hs H. constructor.
  - intros [[[g1 a1] b1] [[g2 a2] b2] m pos total chunk sq] (G1 & G2 & G3).
    exact (H g1 a1 b1 g2 a2 b2 m pos total chunk sq G1 G2 G3).
  - intros q v p. reflexivity.
  - intros [] [] v1 v2 p p1 p2 Hq E1 E2. contradiction.
  - intros [] v1 v2 p p1 _ E1; cbn in *; injection E1 as <-; reflexivity.
  - intros p msg. cbn [xs_out kt_spec]. unfold kt. cbv zeta. destruct (_ <=? _)%nat; reflexivity.
  - intros p msg n m. apply kt_prefix. exact Hs.
Qed.
Lemma xgood_ascon_xof : xgood ascon_xof_type ascon_xof_spec.
Proof.
  apply xgood_plain; [exact ascon_xof_implements|exact no_param|reflexivity|].
  intros p msg n m. apply squeeze_stream_prefix. lia.
Qed.
Lemma xgood_ascon_cxof : xgood ascon_cxof_type ascon_cxof_spec.
Proof.
  constructor; [exact ascon_cxof_implements|reflexivity| | |reflexivity|].
  - intros [] [] v1 v2 p p1 p2 Hq E1 E2. contradiction.
  - intros [] v1 v2 p p1 _ E1; cbn in *; injection E1 as <-; reflexivity.
  - intros p msg n m. apply squeeze_stream_prefix. lia.
Qed.
Lemma xgood_esch h sz w : h = 3%nat \/ h = 4%nat -> sz = N.of_nat (128 * h) -> w = (4 * h)%nat ->
  xgood (esch_xof_type sz w) (esch_xof_spec h).
Proof.
  intros Hh -> ->. apply xgood_plain; [|exact no_param|reflexivity|].
  - intros g Hg. exact (esch_xof_implements h g Hh Hg).
  - intros p msg n m. apply squeeze_stream_prefix. lia.
Qed.

(** BLAKE *)
Lemma good_blake hs : In hs [224; 256; 384; 512] ->
  good (blake_type hs) (blake_spec hs) /\ good (blake_static_type hs) (blake_spec hs).
Proof.
  intros Hi. assert (Hh : bl_size hs) by (cbn in Hi; unfold bl_size; intuition).
  assert (E : (4 * wb (blake_w hs) = if (256 <? hs)%N then 32 else 16)%nat) by (destruct Hh as [->|[->|[->| ->]]]; reflexivity).
  assert (A : forall q v p, match blake_set hs q v p with None => blake_accepts hs q v = false | Some _ => blake_accepts hs q v = true end).
  { intros q v p. unfold blake_set, blake_accepts. cbv zeta. rewrite E. destruct (length v =? 0)%nat; [reflexivity|].
    destruct (length v =? _)%nat; reflexivity. }
  assert (O : forall q v1 v2 p p1, v2 <> [] -> blake_set hs q v1 p = Some p1 -> blake_set hs q v2 p1 = blake_set hs q v2 p) by reflexivity.
  split; (constructor; [intros g Hg | reflexivity | exact A | intros [] [] v1 v2 p p1 p2 Hq; contradiction | exact O]).
  - exact (proj1 (blake_implements hs Hh g Hg)).
  - exact (proj2 (blake_implements hs Hh g Hg)).
Qed.

(** JH *)
Lemma good_jh hs : bits_up_to 512 hs ->
  good (jh_type hs) (jh_spec hs) /\ good (jh_static_type hs) (jh_spec hs).
Proof.
  intros (H0 & H1 & H8). split; (apply good_plain; [intros g Hg|reflexivity|exact no_param]).
  - exact (proj1 (jh_implements hs H1 H0 H8 g Hg)).
  - exact (proj2 (jh_implements hs H1 H0 H8 g Hg)).
Qed.

(** LSH *)
Lemma good_lsh w hs : wide w -> bits_up_to (8 * w) hs ->
  good (lsh_type w hs) (lsh_spec w hs) /\ good (lsh_static_type w hs) (lsh_spec w hs).
Proof.
  intros Hw (H0 & H1 & H8). split; (apply good_plain; [intros g Hg|reflexivity|exact no_param]).
  - exact (proj1 (lsh_implements w hs Hw H1 H0 H8 g Hg)).
  - exact (proj2 (lsh_implements w hs Hw H1 H0 H8 g Hg)).
Qed.

(** Skein *)
Lemma sk_acc q v p : match skein_set q v p with None => always q v = false | Some _ => always q v = true end.
Proof. reflexivity. Qed.
Lemma sk_comm q1 q2 v1 v2 p p1 p2 : q1 <> q2 -> skein_set q1 v1 p = Some p1 -> skein_set q2 v2 p = Some p2 ->
  skein_set q2 v2 p1 = skein_set q1 v1 p2.
Proof.
  intros Hq E1 E2. injection E1 as <-. injection E2 as <-. destruct q1, q2; try contradiction; reflexivity.
Qed.
Lemma sk_over q v1 v2 p p1 : v2 <> [] -> skein_set q v1 p = Some p1 -> skein_set q v2 p1 = skein_set q v2 p.
Proof. intros _ E. injection E as <-. destruct q; reflexivity. Qed.
Lemma skein_nw nw : In nw [4; 8; 16]%nat -> nw = 4%nat \/ nw = 8%nat \/ nw = 16%nat.
Proof. cbn. intuition. Qed.
Lemma good_skein nw hs : In nw [4; 8; 16]%nat -> bits_up_to (2 ^ 64 - 1) hs ->
  good (skein_type nw hs) (skein_spec nw hs) /\ good (skein_static_type nw hs) (skein_spec nw hs).
Proof.
  intros Hn (H0 & H1 & H8). apply skein_nw in Hn.
  assert (H64 : 0 < hs < 2 ^ 64) by lia.
  split; (constructor; [intros g Hg | reflexivity | exact sk_acc | exact sk_comm | exact sk_over]).
  - exact (proj1 (skein_implements nw Hn hs (fst (fst g)) (snd (fst g)) (snd g) H64 H8 Hg)).
  - exact (proj2 (skein_implements nw Hn hs (fst (fst g)) (snd (fst g)) (snd g) H64 H8 Hg)).
Qed.
Lemma xgood_skein nw : In nw [4; 8; 16]%nat -> xgood (skein_xof_type nw) (skein_xof_spec nw).
Proof.
  intros Hn. apply skein_nw in Hn. constructor; [| exact sk_acc | exact sk_comm | exact sk_over | |].
  - intros g Hg.
    apply (skein_xof_implements nw Hn (64 * N.of_nat nw) (fst (fst g)) (snd (fst g)) (snd g)); [| |exact Hg];
      destruct Hn as [E|[E|E]]; rewrite E; (reflexivity || (split; reflexivity)).
  - reflexivity.
  - intros p msg n m. apply squeeze_stream_prefix. lia.
Qed.

(** ECHO *)
Lemma good_echo hs : bits_up_to 512 hs ->
  good (echo_type hs) (echo_spec hs) /\ good (echo_static_type hs) (echo_spec hs).
Proof.
  intros (H0 & H1 & H8).
  assert (A : forall q v p, match echo_set q v p with None => echo_accepts q v = false | Some _ => echo_accepts q v = true end).
  { intros q v p. unfold echo_set, echo_accepts. destruct (length v =? 0)%nat; [reflexivity|].
    destruct (length v =? _)%nat; reflexivity. }
  assert (O : forall q v1 v2 p p1, v2 <> [] -> echo_set q v1 p = Some p1 -> echo_set q v2 p1 = echo_set q v2 p) by reflexivity.
  split; (constructor; [intros g Hg | reflexivity | exact A | intros [] [] v1 v2 p p1 p2 Hq; contradiction | exact O]).
  - exact (proj1 (echo_implements hs (conj (conj H0 H1) H8) g)).
  - exact (proj2 (echo_implements hs (conj (conj H0 H1) H8) g)).
Qed.

(** Groestl, Kupyna *)
Lemma good_groestl hs : bits_up_to 512 hs ->
  good (groestl_type hs) (groestl_spec hs) /\ good (groestl_static_type hs) (groestl_spec hs).
Proof.
  intros (H0 & H1 & H8). split; (apply good_plain; [intros g Hg|reflexivity|exact no_param]).
  - exact (proj1 (groestl_implements hs (conj (conj H0 H1) H8) g Hg)).
  - exact (proj2 (groestl_implements hs (conj (conj H0 H1) H8) g Hg)).
Qed.
Lemma kupyna_size_in hs : In hs [256; 512] -> hs = 256 \/ hs = 512.
Proof. cbn. intuition. Qed.
Lemma good_kupyna hs : In hs [256; 512] ->
  good (kupyna_type hs) (kupyna_spec hs) /\ good (kupyna_static_type hs) (kupyna_spec hs).
Proof.
  intros H. split; (apply good_plain; [intros g Hg|reflexivity|exact no_param]).
  - exact (proj1 (kupyna_implements hs (kupyna_size_in hs H) g Hg)).
  - exact (proj2 (kupyna_implements hs (kupyna_size_in hs H) g Hg)).
Qed.
Lemma good_streebog hs : In hs [256; 512] ->
  good (streebog_type hs) (sb_code_spec hs) /\ good (streebog_static_type hs) (sb_code_spec hs).
Proof.
  intros H. split; (apply good_plain; [intros g Hg|reflexivity|exact no_param]).
  - exact (proj1 (streebog_code_implements hs (kupyna_size_in hs H) g Hg)).
  - exact (proj2 (streebog_code_implements hs (kupyna_size_in hs H) g Hg)).
Qed.

(** BLAKE2 *)
Lemma b2_acc w : w = 64 \/ w = 32 -> forall q v p,
  match b2_spec_set w q v p with None => b2_accepts w q v = false | Some _ => b2_accepts w q v = true end.
Proof.
  intros Hw q v p. pose proof (hb_w w Hw) as Eh.
  assert (E2 : N.of_nat (2 * wb w) = w / 4) by (destruct Hw; subst w; reflexivity).
  assert (F : forall old, match set_field w v old with None => b2_accepts w B2Salt v = false | Some _ => b2_accepts w B2Salt v = true end).
  { intros old. unfold set_field, b2_accepts. cbv zeta.
    destruct (Nat.eqb_spec (length v) 0) as [Z|Z].
    - rewrite Z. reflexivity.
    - rewrite <- E2. destruct (Nat.eqb_spec (length v) (2 * wb w)) as [->|Z2].
      + rewrite N.eqb_refl. apply orb_true_r.
      + apply orb_false_iff. rewrite !N.eqb_neq. lia. }
  destruct q; cbn [b2_spec_set].
  - unfold b2_accepts. cbv zeta. destruct (Nat.leb_spec (length v) (hb w)).
    + apply N.leb_le. lia.
    + apply N.leb_gt. lia.
  - specialize (F (ps p)). destruct (set_field w v (ps p)); exact F.
  - specialize (F (pp p)). destruct (set_field w v (pp p)); exact F.
Qed.
Lemma b2_comm w q1 q2 v1 v2 p p1 p2 : q1 <> q2 -> b2_spec_set w q1 v1 p = Some p1 -> b2_spec_set w q2 v2 p = Some p2 ->
  b2_spec_set w q2 v2 p1 = b2_spec_set w q1 v1 p2.
Proof.
  intros Hq. destruct q1, q2; try contradiction; cbn [b2_spec_set]; unfold set_field;
  repeat match goal with |- context [if ?b then _ else _] => destruct b end; cbn [option_map];
  intros E1 E2; try discriminate; injection E1 as <-; injection E2 as <-; reflexivity.
Qed.
Lemma b2_over w q v1 v2 p p1 : v2 <> [] -> b2_spec_set w q v1 p = Some p1 -> b2_spec_set w q v2 p1 = b2_spec_set w q v2 p.
Proof.
  intros Hv. destruct v2 as [|x v2]; [contradiction|]. destruct q; cbn [b2_spec_set]; unfold set_field; cbn [length Nat.eqb];
  repeat match goal with |- context [if ?b then _ else _] => destruct b end; cbn [option_map];
  intros E1; try discriminate; injection E1 as <-; reflexivity.
Qed.
Lemma b2_mem_bb w g : w = 64 \/ w = 32 -> b2_mem_ok w g -> length (sm (fst g)) = bb w.
Proof. intros Hw. unfold b2_mem_ok. pose proof (bb_w w Hw). lia. Qed.
Lemma good_blake2 w hs : w = 64 \/ w = 32 -> bits_up_to (8 * w) hs ->
  good (blake2_type w BHash hs) (blake2_spec w hs) /\ good (blake2_static_type w BHash hs) (blake2_spec w hs).
Proof.
  intros Hw (H0 & H1 & H8). split; (constructor;
    [intros g Hg | reflexivity | exact (b2_acc w Hw) | exact (b2_comm w) | exact (b2_over w)]).
  - exact (proj1 (blake2_implements w Hw hs (fst g) (snd g) (conj H0 H1) H8 (b2_mem_bb w g Hw Hg))).
  - exact (proj2 (blake2_implements w Hw hs (fst g) (snd g) (conj H0 H1) H8 (b2_mem_bb w g Hw Hg))).
Qed.
Lemma good_blake2x w hs : w = 64 \/ w = 32 -> bits_up_to (8 * w * (w / 8) * 4 - 16) hs ->
  good (blake2_type w BXhash hs) (blake2x_spec w hs) /\ good (blake2_static_type w BXhash hs) (blake2x_spec w hs).
Proof.
  intros Hw (H0 & H1 & H8). split; (constructor;
    [intros g Hg | reflexivity | exact (b2_acc w Hw) | exact (b2_comm w) | exact (b2_over w)]).
  - exact (proj1 (blake2x_implements w Hw hs (fst g) (snd g) (conj H0 H1) H8 (b2_mem_bb w g Hw Hg))).
  - exact (proj2 (blake2x_implements w Hw hs (fst g) (snd g) (conj H0 H1) H8 (b2_mem_bb w g Hw Hg))).
Qed.
Lemma xgood_blake2x w : w = 64 \/ w = 32 -> xgood (blake2x_xof_type w) (blake2x_xof_spec w).
Proof.
  intros Hw. constructor; [| exact (b2_acc w Hw) | exact (b2_comm w) | exact (b2_over w) | |].
  - intros g Hg. exact (blake2x_xof_implements w Hw (fst g) (snd g) (b2_mem_bb w g Hw Hg)).
  - reflexivity.
  - intros p msg n m. apply squeeze_stream_prefix. exact (hb_pos w Hw).
Qed.

Lemma b2p_mem_bb w g : w = 64 \/ w = 32 -> b2p_mem_ok w g -> b2p_mem_sized w g.
Proof.
  intros Hw (H1 & H2 & H3 & H4). split; [exact (b2_mem_bb w _ Hw H1)|]. split; [|split; [|exact H4]].
  - rewrite H2. reflexivity.
  - eapply Forall_impl; [|exact H3]. intros x. apply (b2_mem_bb w x Hw).
Qed.
Lemma good_blake2p w hs : w = 64 \/ w = 32 -> bits_up_to (8 * w) hs ->
  good (blake2p_type w hs) (blake2p_spec w hs) /\ good (blake2p_static_type w hs) (blake2p_spec w hs).
Proof.
  intros Hw (H0 & H1 & H8). split; (constructor;
    [intros g Hg | reflexivity | exact (b2_acc w Hw) | exact (b2_comm w) | exact (b2_over w)]).
  - exact (proj1 (blake2p_implements w Hw hs g (conj H0 H1) H8 (b2p_mem_bb w g Hw Hg))).
  - exact (proj2 (blake2p_implements w Hw hs g (conj H0 H1) H8 (b2p_mem_bb w g Hw Hg))).
Qed.
Lemma good_blake2p_omp w hs sch : w = 64 \/ w = 32 -> bits_up_to (8 * w) hs -> any_schedule w sch ->
  good (blake2p_omp_type w hs sch) (blake2p_spec w hs) /\ good (blake2p_omp_static_type w hs sch) (blake2p_spec w hs).
Proof.
  intros Hw (H0 & H1 & H8) Hs. split; (constructor;
    [intros g Hg | reflexivity | exact (b2_acc w Hw) | exact (b2_comm w) | exact (b2_over w)]).
  - exact (proj1 (blake2p_omp_implements w Hw hs g sch (conj H0 H1) H8 (b2p_mem_bb w g Hw Hg) Hs)).
  - exact (proj2 (blake2p_omp_implements w Hw hs g sch (conj H0 H1) H8 (b2p_mem_bb w g Hw Hg) Hs)).
Qed.

Theorem library_good P (T : htype P) : library T -> exists S, good T S.
Proof.
  intros H. destruct H; eauto using good_md5, good_sha1, good_sha224, good_sha256, good_sha384, good_sha512,
    good_sha512_static, good_sm3, good_whirlpool, good_sha3, good_sha3_static, good_ascon_hash.
  - exact (ex_intro _ _ (proj1 (good_kmac128 hs H))).
  - exact (ex_intro _ _ (proj2 (good_kmac128 hs H))).
  - exact (ex_intro _ _ (proj1 (good_kmac256 hs H))).
  - exact (ex_intro _ _ (proj2 (good_kmac256 hs H))).
  - destruct (good_esch hs H) as (S & G & _). exact (ex_intro _ S G).
  - destruct (good_esch hs H) as (S & _ & G). exact (ex_intro _ S G).
  - exact (ex_intro _ _ (proj1 (good_blake hs H))).
  - exact (ex_intro _ _ (proj2 (good_blake hs H))).
  - exact (ex_intro _ _ (proj1 (good_groestl hs H))).
  - exact (ex_intro _ _ (proj2 (good_groestl hs H))).
  - exact (ex_intro _ _ (proj1 (good_jh hs H))).
  - exact (ex_intro _ _ (proj2 (good_jh hs H))).
  - exact (ex_intro _ _ (proj1 (good_lsh 32 hs (or_introl eq_refl) H))).
  - exact (ex_intro _ _ (proj2 (good_lsh 32 hs (or_introl eq_refl) H))).
  - exact (ex_intro _ _ (proj1 (good_lsh 64 hs (or_intror eq_refl) H))).
  - exact (ex_intro _ _ (proj2 (good_lsh 64 hs (or_intror eq_refl) H))).
  - exact (ex_intro _ _ (proj1 (good_skein nw hs H H0))).
  - exact (ex_intro _ _ (proj2 (good_skein nw hs H H0))).
  - exact (ex_intro _ _ (proj1 (good_echo hs H))).
  - exact (ex_intro _ _ (proj2 (good_echo hs H))).
  - exact (ex_intro _ _ (proj1 (good_kupyna hs H))).
  - exact (ex_intro _ _ (proj2 (good_kupyna hs H))).
  - exact (ex_intro _ _ (proj1 (good_streebog hs H))).
  - exact (ex_intro _ _ (proj2 (good_streebog hs H))).
  - exact (ex_intro _ _ (proj1 (good_blake2 64 hs (or_introl eq_refl) H))).
  - exact (ex_intro _ _ (proj2 (good_blake2 64 hs (or_introl eq_refl) H))).
  - exact (ex_intro _ _ (proj1 (good_blake2 32 hs (or_intror eq_refl) H))).
  - exact (ex_intro _ _ (proj2 (good_blake2 32 hs (or_intror eq_refl) H))).
  - exact (ex_intro _ _ (proj1 (good_blake2x 64 hs (or_introl eq_refl) H))).
  - exact (ex_intro _ _ (proj2 (good_blake2x 64 hs (or_introl eq_refl) H))).
  - exact (ex_intro _ _ (proj1 (good_blake2x 32 hs (or_intror eq_refl) H))).
  - exact (ex_intro _ _ (proj2 (good_blake2x 32 hs (or_intror eq_refl) H))).
  - exact (ex_intro _ _ (proj1 (good_blake2p 64 hs (or_introl eq_refl) H))).
  - exact (ex_intro _ _ (proj2 (good_blake2p 64 hs (or_introl eq_refl) H))).
  - exact (ex_intro _ _ (proj1 (good_blake2p 32 hs (or_intror eq_refl) H))).
  - exact (ex_intro _ _ (proj2 (good_blake2p 32 hs (or_intror eq_refl) H))).
  - exact (ex_intro _ _ (proj1 (good_blake2p_omp 64 hs sch (or_introl eq_refl) H H0))).
  - exact (ex_intro _ _ (proj2 (good_blake2p_omp 64 hs sch (or_introl eq_refl) H H0))).
  - exact (ex_intro _ _ (proj1 (good_blake2p_omp 32 hs sch (or_intror eq_refl) H H0))).
  - exact (ex_intro _ _ (proj2 (good_blake2p_omp 32 hs sch (or_intror eq_refl) H H0))).
Qed.
Theorem xlibrary_good P (T : xtype P) : xlibrary T -> exists S, xgood T S.
Proof.
  intros H. destruct H.
  - exact (ex_intro _ _ (xgood_shake 128 21 16 ltac:(lia) eq_refl eq_refl)).
  - exact (ex_intro _ _ (xgood_shake 256 17 32 ltac:(lia) eq_refl eq_refl)).
  - exact (ex_intro _ _ (xgood_cshake 128 21 16 ltac:(lia) eq_refl eq_refl)).
  - exact (ex_intro _ _ (xgood_cshake 256 17 32 ltac:(lia) eq_refl eq_refl)).
  - exact (ex_intro _ _ (xgood_kmac 128 21 16 ltac:(lia) eq_refl eq_refl eq_refl)).
  - exact (ex_intro _ _ (xgood_kmac 256 17 32 ltac:(lia) eq_refl eq_refl eq_refl)).
  - exact (ex_intro _ _ (xgood_k12 128 12 16 ltac:(lia) k12_implements)).
  - exact (ex_intro _ _ (xgood_k12 256 14 32 ltac:(lia) m14_implements)).
  - exact (ex_intro _ _ (xgood_k12 256 12 32 ltac:(lia) kt256_implements)).
  - exact (ex_intro _ _ xgood_ascon_xof).
  - exact (ex_intro _ _ xgood_ascon_cxof).
  - exact (ex_intro _ _ (xgood_esch 3 384 12 (or_introl eq_refl) eq_refl eq_refl)).
  - exact (ex_intro _ _ (xgood_esch 4 512 16 (or_intror eq_refl) eq_refl eq_refl)).
  - exact (ex_intro _ _ (xgood_blake2x 64 (or_introl eq_refl))).
  - exact (ex_intro _ _ (xgood_blake2x 32 (or_intror eq_refl))).
  - exact (ex_intro _ _ (xgood_skein nw H)).
Qed.
Theorem static_pair_good P (T T' : htype P) : static_pair T T' -> exists S, good T S /\ good T' S.
Proof.
  intros H. destruct H.
  - exact (ex_intro _ _ (conj (good_sha512 hs H) (good_sha512_static hs H))).
  - exact (ex_intro _ _ (conj (good_sha3 hs H) (good_sha3_static hs H))).
  - exact (ex_intro _ _ (good_kmac128 hs H)).
  - exact (ex_intro _ _ (good_kmac256 hs H)).
  - exact (good_esch hs H).
  - exact (ex_intro _ _ (good_blake hs H)).
  - exact (ex_intro _ _ (good_groestl hs H)).
  - exact (ex_intro _ _ (good_jh hs H)).
  - exact (ex_intro _ _ (good_lsh 32 hs (or_introl eq_refl) H)).
  - exact (ex_intro _ _ (good_lsh 64 hs (or_intror eq_refl) H)).
  - exact (ex_intro _ _ (good_skein nw hs H H0)).
  - exact (ex_intro _ _ (good_echo hs H)).
  - exact (ex_intro _ _ (good_kupyna hs H)).
  - exact (ex_intro _ _ (good_streebog hs H)).
  - exact (ex_intro _ _ (good_blake2 64 hs (or_introl eq_refl) H)).
  - exact (ex_intro _ _ (good_blake2 32 hs (or_intror eq_refl) H)).
  - exact (ex_intro _ _ (good_blake2x 64 hs (or_introl eq_refl) H)).
  - exact (ex_intro _ _ (good_blake2x 32 hs (or_intror eq_refl) H)).
  - exact (ex_intro _ _ (good_blake2p 64 hs (or_introl eq_refl) H)).
  - exact (ex_intro _ _ (good_blake2p 32 hs (or_intror eq_refl) H)).
Qed.
