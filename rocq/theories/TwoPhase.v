(** * Types on which reset(true) does not restore the initial state.

    The abstract hasher with one more bit: whether reset(true) was ever called. From then
    on the digest is [lost] instead of that of the specification. For all other types
    [lost] is the digest of the specification. *)
From Verif Require Import Base Lemmas Hasher HasherSpec HasherProof Library LibraryTypes LibraryProof LibraryTypesProof LibraryMore
  AnyCalls LibraryAny MdState Blake2 Blake2Spec Blake2Sim Blake2p Blake2pSpec Blake2pSim Blake2pLostSpec Blake2pLost.
Local Open Scope nat_scope.

Section Two.
  Context {param : Type} (S : hash_spec param) (lost : sp_params S -> list N -> list N).

  Definition phase (b : bool) : hash_spec param :=
    {| sp_params := sp_params S; sp_default := sp_default S; sp_set := sp_set S; sp_size := sp_size S;
       sp_digest := if b then lost else sp_digest S |}.
  Fixpoint run2 (b : bool) (a : sp_params S * list N) (ops : list (hash_op param)) : list out :=
    match ops with
    | [] => []
    | o :: r => snd (astep (phase b) a o) :: run2 (b || erases o) (fst (astep S a o)) r
    end.

  Lemma step_state b a o : fst (astep (phase b) a o) = fst (astep S a o).
  Proof. destruct a as [p msg]. destruct o as [[f d|[]|q v]|buf| |]; reflexivity. Qed.
  Lemma run2_length ops : forall b a, length (run2 b a ops) = length ops.
  Proof. induction ops as [|o r IH]; intros b a; cbn [run2 length]; [reflexivity|]. rewrite IH. reflexivity. Qed.
  Lemma run2_true ops : forall a, run2 true a ops = snd (arun (phase true) a ops).
  Proof.
    induction ops as [|o r IH]; intros a; cbn [run2 arun]; [reflexivity|]. cbn [orb]. rewrite IH, <- (step_state true).
    destruct (astep (phase true) a o) as [a1 x]. cbn [fst snd]. destruct (arun (phase true) a1 r). reflexivity.
  Qed.
End Two.

Lemma run2_same {param} (S : hash_spec param) ops : forall b a, run2 S (sp_digest S) b a ops = snd (arun S a ops).
Proof.
  induction ops as [|o r IH]; intros b a; cbn [run2 arun]; [reflexivity|]. rewrite IH.
  assert (E : snd (astep (phase S (sp_digest S) b) a o) = snd (astep S a o)).
  { destruct a as [p msg]. destruct o as [[f d|[]|q v]|buf| |], b; cbn; try reflexivity; destruct (sp_set S q v p); reflexivity. }
  rewrite E. destruct (astep S a o) as [a1 x]. cbn [fst snd]. destruct (arun S a1 r). reflexivity.
Qed.

Record good2 {P} (T : htype P) (S : hash_spec (p_param P)) (lost : sp_params S -> list N -> list N) : Prop := {
  g2_after : forall g pre post, ht_mem_ok T g -> hany pre -> hany post ->
    after T g pre post = Ok (run2 S lost (existsb erases pre) (ast S (afresh S) pre) post);
  g2_size : sp_size S = ht_size T
}.

Lemma good_good2 P (T : htype P) S : ht_clr T = true -> good T S -> good2 T S (sp_digest S).
Proof.
  intros Hc G. constructor; [|exact (g_size _ _ G)]. intros g pre post Hg H1 H2.
  rewrite (after_eq G) by auto using hany_hcalls. rewrite run2_same. reflexivity.
Qed.

Section Sim2.
  Context {P : hash_provider} {T : htype P} {S : hash_spec (p_param P)} {lost : sp_params S -> list N -> list N}.
  Variable R0 R1 : pst P -> sp_params S -> list N -> Prop.
  Hypothesis H0 : sim P (phase S lost false) R0 false.
  Hypothesis H1 : sim P (phase S lost true) R1 true.
  Hypothesis H01 : forall s p msg, R0 s p msg -> exists s1 s2, p_clear P s = Ok s1 /\ p_init P s1 = Ok s2 /\ R1 s2 (sp_default S) [].
  Let R (b : bool) := if b then R1 else R0.

  Lemma step2_ok b s p msg o : any_hop o -> R b s p msg ->
    exists s', hash_step P s o = Ok (s', snd (astep (phase S lost b) (p, msg) o)) /\
      R (b || erases o) s' (fst (fst (astep S (p, msg) o))) (snd (fst (astep S (p, msg) o))).
  Proof.
    intros Ho HR. rewrite <- (step_state S lost b). destruct b.
    - apply (hash_step_ok _ _ _ _ H1); [|exact HR]. destruct o as [[]|?| |]; auto; cbn; auto.
    - destruct (erases o) eqn:E.
      + destruct o as [[f d|[]|q v]|buf| |]; try discriminate E.
        destruct (H01 s p msg HR) as (s1 & s2 & E1 & E2 & HR').
        exists s2. split; [|exact HR']. cbn [hash_step base_step]. unfold reset. rewrite E1. cbn [bind]. rewrite E2. reflexivity.
      + apply (hash_step_ok _ _ _ _ H0); [|exact HR]. destruct o as [[f d|[]|q v]|?| |]; auto; try discriminate E; cbn; discriminate.
  Qed.
  Lemma run2_ok ops : forall b s p msg, hany ops -> R b s p msg ->
    exists s' , hash_run P s ops = Ok (s', run2 S lost b (p, msg) ops) /\
      R (b || existsb erases ops) s' (fst (ast S (p, msg) ops)) (snd (ast S (p, msg) ops)).
  Proof.
    induction ops as [|o r IH]; intros b s p msg Hops HR; cbn [hash_run run2].
    - exists s. cbn [existsb]. rewrite orb_false_r. auto.
    - inversion Hops as [|? ? Ho Hr]; subst.
      destruct (step2_ok b s p msg o Ho HR) as (s1 & -> & HR1). cbn [bind]. rewrite ast_cons.
      destruct (astep S (p, msg) o) as [[p1 m1] x]. cbn [fst snd] in *.
      destruct (IH _ s1 p1 m1 Hr HR1) as (s2 & -> & HR2). cbn [bind]. exists s2. split; [reflexivity|].
      cbn [existsb]. rewrite orb_assoc. exact HR2.
  Qed.

  Lemma good2_of : (forall g, ht_mem_ok T g -> exists s, ht_new T g = Ok s /\ R0 s (sp_default S) []) ->
    sp_size S = ht_size T -> good2 T S lost.
  Proof.
    intros Hnew Hs. constructor; [|exact Hs]. intros g pre post Hg Hpre Hpost.
    destruct (Hnew g Hg) as (s & E & HR). unfold after. rewrite E. cbn [bind].
    destruct (run2_ok pre false s _ _ Hpre HR) as (s1 & E1 & HR1). rewrite E1. cbn [bind]. cbn [orb] in HR1.
    change (sp_default S, []) with (afresh S) in HR1.
    destruct (run2_ok post _ s1 _ _ Hpost HR1) as (s2 & E2 & _). rewrite E2. cbn [bind].
    destruct (ast S (afresh S) pre). reflexivity.
  Qed.
End Sim2.

(** ** BLAKE2bp, BLAKE2sp *)
Definition b2p_lost (w hs : N) (p : b2_params) (msg : list N) : list N := blake2p_lost w (hs / 8) (pk p) (ps p) (pp p) msg.

Section Blake2p.
  Variables w hs : N.
  Hypothesis Hw : w = 64%N \/ w = 32%N.
  Hypothesis Hhs : bits_up_to (8 * w) hs.
  Variable tf : b2p_tf.
  Hypothesis Htf : forall leaf t d n r, length leaf = degree w -> b2p_transform w d n leaf = Ok r -> tf leaf t d n = Ok r.

  Lemma b2p_good2 (T : htype (blake2p_with w tf)) :
    (forall g, ht_mem_ok T g -> exists s, ht_new T g = b2p_init w s /\ bp_par w hs s (b2_default w)) ->
    N.to_nat (hs / 8) = ht_size T ->
    good2 T (blake2p_spec w hs) (b2p_lost w hs).
  Proof.
    destruct Hhs as (B0 & B1 & B8). assert (0 < hs / 8 <= w)%N by (pose proof (N.div_mod' hs 8); lia).
    intros Hnew Hs. apply (good2_of (P := blake2p_with w tf) (S := blake2p_spec w hs) (bp_R w hs) (lost_R w hs)); [| | | |exact Hs].
    - exact (blake2p_sim w Hw hs tf ltac:(lia) ltac:(lia) Htf).
    - exact (lost_sim w Hw hs tf ltac:(lia) ltac:(lia) Htf).
    - intros s p msg R.
      exact (clear_sized w Hw hs ltac:(lia) s (tree_sized w hs s p (bp_R_par w hs s p msg R))).
    - intros g Hg. destruct (Hnew g Hg) as (s & E & Hp).
      destruct (bp_init_ok w Hw hs ltac:(lia) s _ Hp) as (s' & E' & HR). exists s'. split; [rewrite E; exact E'|exact HR].
  Qed.
End Blake2p.

Lemma b2p_new_static w hs g : w = 64%N \/ w = 32%N -> b2p_mem_ok w g ->
  exists s, fresh_of (b2p_ctor_static w hs g) (b2p_init w) = b2p_init w s /\ bp_par w hs s (b2_default w).
Proof.
  intros Hw Hg. destruct (b2p_static_ok w Hw hs g (b2p_mem_bb w g Hw Hg)) as (s & E & HP).
  exists s. unfold fresh_of. rewrite E. auto.
Qed.
Lemma b2p_new w hs g : w = 64%N \/ w = 32%N -> bits_up_to (8 * w) hs -> b2p_mem_ok w g ->
  exists s, fresh_of (b2p_ctor w hs g) (b2p_init w) = b2p_init w s /\ bp_par w hs s (b2_default w).
Proof. intros Hw (H0 & H1 & H8) Hg. rewrite (b2p_ctor_eq w Hw hs g (conj H0 H1) H8). exact (b2p_new_static w hs g Hw Hg). Qed.

Lemma good2_blake2p w hs : w = 64%N \/ w = 32%N -> bits_up_to (8 * w) hs ->
  good2 (blake2p_type w hs) (blake2p_spec w hs) (b2p_lost w hs) /\
  good2 (blake2p_static_type w hs) (blake2p_spec w hs) (b2p_lost w hs).
Proof.
  intros Hw Hhs.
  pose proof (fun T => b2p_good2 w hs Hw Hhs (fun leaf _ d n => b2p_transform w d n leaf) (fun leaf t d n r _ E => E) T) as X.
  split; apply X; try reflexivity; intros g Hg; [exact (b2p_new w hs g Hw Hhs Hg)|exact (b2p_new_static w hs g Hw Hg)].
Qed.
Lemma good2_blake2p_omp w hs sch : w = 64%N \/ w = 32%N -> bits_up_to (8 * w) hs -> any_schedule w sch ->
  good2 (blake2p_omp_type w hs sch) (blake2p_spec w hs) (b2p_lost w hs) /\
  good2 (blake2p_omp_static_type w hs sch) (blake2p_spec w hs) (b2p_lost w hs).
Proof.
  intros Hw Hhs Hs.
  assert (Htf : forall leaf t d n r, length leaf = degree w -> b2p_transform w d n leaf = Ok r -> b2p_run w d (sch leaf t d n) leaf = Ok r).
  { intros leaf t d n r HL E. apply schedule_ok with (n := n); [|exact E]. rewrite HL. apply Hs. }
  pose proof (fun T => b2p_good2 w hs Hw Hhs (fun leaf t d n => b2p_run w d (sch leaf t d n) leaf) Htf T) as X.
  split; apply X; try reflexivity; intros g Hg; [exact (b2p_new w hs g Hw Hhs Hg)|exact (b2p_new_static w hs g Hw Hg)].
Qed.

Theorem library_good2 P (T : htype P) : library T -> exists S lost, good2 T S lost.
Proof.
  intros H. destruct (ht_clr T) eqn:E.
  - destruct (library_good P T H) as [S G]. exists S, (sp_digest S). exact (good_good2 P T S E G).
  - destruct H; try discriminate E.
    + exact (ex_intro _ _ (ex_intro _ _ (proj1 (good2_blake2p 64 hs (or_introl eq_refl) H)))).
    + exact (ex_intro _ _ (ex_intro _ _ (proj2 (good2_blake2p 64 hs (or_introl eq_refl) H)))).
    + exact (ex_intro _ _ (ex_intro _ _ (proj1 (good2_blake2p 32 hs (or_intror eq_refl) H)))).
    + exact (ex_intro _ _ (ex_intro _ _ (proj2 (good2_blake2p 32 hs (or_intror eq_refl) H)))).
    + exact (ex_intro _ _ (ex_intro _ _ (proj1 (good2_blake2p_omp 64 hs sch (or_introl eq_refl) H H0)))).
    + exact (ex_intro _ _ (ex_intro _ _ (proj2 (good2_blake2p_omp 64 hs sch (or_introl eq_refl) H H0)))).
    + exact (ex_intro _ _ (ex_intro _ _ (proj1 (good2_blake2p_omp 32 hs sch (or_intror eq_refl) H H0)))).
    + exact (ex_intro _ _ (ex_intro _ _ (proj2 (good2_blake2p_omp 32 hs sch (or_intror eq_refl) H H0)))).
Qed.
Theorem static_pair_good2 P (T T' : htype P) : static_pair T T' -> exists S lost, good2 T S lost /\ good2 T' S lost.
Proof.
  intros H. destruct (ht_clr T) eqn:E.
  - assert (E' : ht_clr T' = true) by (destruct H; try reflexivity; discriminate E).
    destruct (static_pair_good P T T' H) as (S & G & G'). exists S, (sp_digest S). auto using good_good2.
  - destruct H; try discriminate E.
    + exact (ex_intro _ _ (ex_intro _ _ (good2_blake2p 64 hs (or_introl eq_refl) H))).
    + exact (ex_intro _ _ (ex_intro _ _ (good2_blake2p 32 hs (or_intror eq_refl) H))).
Qed.

(** ** Consequences *)
Section Good2.
  Context {P : hash_provider} {T : htype P} {S : hash_spec (p_param P)} {lost : sp_params S -> list N -> list N}.
  Hypothesis G : good2 T S lost.

  Lemma same_state g pre1 pre2 post : ht_mem_ok T g -> hany pre1 -> hany pre2 -> hany post ->
    existsb erases pre1 = existsb erases pre2 -> ast S (afresh S) pre1 = ast S (afresh S) pre2 ->
    exists r, after T g pre1 post = Ok r /\ after T g pre2 post = Ok r.
  Proof. intros Hg H1 H2 H3 E1 E2. rewrite !(g2_after _ _ _ G) by auto. rewrite E1, E2. eauto. Qed.

  Lemma erases_abs l : existsb erases (map (ab (P := P)) l) = false.
  Proof. induction l as [|[f d] l IH]; [reflexivity|exact IH]. Qed.
  Theorem forms2 g pre l f post : f <> FBadStream ->
    ht_mem_ok T g -> hany pre -> Forall (fun p => is_bytes (snd p)) l -> hany post ->
    exists r, after T g (pre ++ map ab l) post = Ok r /\
      after T g (pre ++ [HBase (Absorb f (stream_bytes l))]) post = Ok r.
  Proof.
    intros Hf Hg Hpre Hl Hpost.
    assert (Hm : hany (map (ab (P := P)) l)).
    { unfold hany. apply Forall_map. eapply Forall_impl; [|exact Hl]. intros [f' d] H. exact H. }
    assert (Hs : is_bytes (stream_bytes l)).
    { unfold is_bytes, stream_bytes. apply Forall_flat_map. eapply Forall_impl; [|exact Hl].
      intros [[] d] H; cbn in *; auto. }
    apply same_state; auto.
    - apply Forall_app; auto.
    - apply Forall_app. split; [auto|]. constructor; [exact Hs|constructor].
    - rewrite !existsb_app, erases_abs. reflexivity.
    - rewrite !ast_app. destruct (ast S (afresh S) pre) as [p msg]. rewrite ast_absorbs.
      unfold ast. cbn [arun astep abase fst]. destruct f; try reflexivity. contradiction.
  Qed.
  Theorem nothing2 g pre f post : ht_mem_ok T g -> hany pre -> hany post ->
    exists r, after T g (pre ++ [HBase (Absorb f [])]) post = Ok r /\ after T g pre post = Ok r.
  Proof.
    intros Hg H1 H2. apply same_state; auto.
    - apply Forall_app. split; [auto|]. constructor; [|constructor]. constructor.
    - rewrite existsb_app. cbn. apply orb_false_r.
    - rewrite ast_app. destruct (ast S (afresh S) pre) as [p msg].
      unfold ast. cbn [arun astep abase fst]. destruct f; cbn [absorbed]; rewrite app_nil_r; reflexivity.
  Qed.
  Lemma erases_pieces ops : forallb (absorb_or_digest (P := P)) ops = true -> existsb erases ops = false.
  Proof.
    induction ops as [|o r IH]; [reflexivity|]. cbn [forallb existsb]. intros H. apply andb_prop in H as [H1 H2].
    rewrite IH by exact H2. destruct o as [[| |]|?| |]; try discriminate H1; reflexivity.
  Qed.
  Theorem pieces2 g pre ops d : ht_mem_ok T g -> hany pre -> hany ops ->
    forallb absorb_or_digest ops = true -> is_digest d = true ->
    exists b, after T g (pre ++ ops) [d] = Ok [b] /\ after T g (pre ++ [HBase (Absorb FPtr (pieces ops))]) [d] = Ok [b].
  Proof.
    intros Hg H1 H2 Ho Hd.
    assert (Hd' : hany [d]) by (constructor; [destruct d; [discriminate Hd| | |]; exact I|constructor]).
    assert (Hp : is_bytes (pieces ops)).
    { apply Forall_flat_map. eapply Forall_impl; [|exact H2]. intros [[[] x|?|? ?]|?| |] H; cbn in *; auto; constructor. }
    destruct (same_state g (pre ++ ops) (pre ++ [HBase (Absorb FPtr (pieces ops))]) [d]) as (r & E1 & E2); auto.
    - apply Forall_app; auto.
    - apply Forall_app. split; [auto|]. constructor; [exact Hp|constructor].
    - rewrite !existsb_app, (erases_pieces ops Ho). reflexivity.
    - rewrite !ast_app. destruct (ast S (afresh S) pre) as [p msg]. rewrite ast_pieces by exact Ho. reflexivity.
    - pose proof E1 as E3. rewrite (g2_after _ _ _ G) in E3 by (auto; apply Forall_app; auto).
      assert (L : length r = length [d]) by (rewrite <- (run2_length S lost [d] (existsb erases (pre ++ ops)) (ast S (afresh S) (pre ++ ops))); congruence).
      destruct r as [|b [|]]; try discriminate L. eauto.
  Qed.
  Theorem digest_forms2 g pre : ht_mem_ok T g -> hany pre ->
    exists d, length d = ht_size T /\ is_bytes d /\
      after T g pre [HDigestIter] = Ok [OBytes d] /\
      after T g pre [HHexDigest] = Ok [OBytes (spec_hex d)] /\
      forall buf, after T g pre [HDigestBuf buf] =
        Ok [if (length buf <? ht_size T)%nat then OThrow else OBytes (d ++ skipn (ht_size T) buf)].
  Proof.
    intros Hg Hpre. pose proof (fun post H => g2_after _ _ _ G g pre post Hg Hpre H) as A. rewrite <- (g2_size _ _ _ G).
    destruct (ast S (afresh S) pre) as [p msg]. exists (sp_digest (phase S lost (existsb erases pre)) p msg).
    assert (A1 := A [HDigestIter] ltac:(repeat constructor)).
    assert (A2 := A [HHexDigest] ltac:(repeat constructor)).
    assert (A3 := fun buf => A [HDigestBuf buf] ltac:(repeat constructor)).
    assert (L := fun H => obs_length_bytes g pre _ A1 A2 H). rewrite <- (g2_size _ _ _ G) in L. specialize (L A3).
    destruct L as [L1 L2]. auto 6.
  Qed.
End Good2.

Theorem static2 P (T T' : htype P) : static_pair T T' -> forall g g' pre post,
  ht_mem_ok T g -> ht_mem_ok T' g' -> hany pre -> hany post ->
  ht_size T = ht_size T' /\ after T g pre post = after T' g' pre post.
Proof.
  intros H g g' pre post Hg Hg' H1 H2. destruct (static_pair_good2 P T T' H) as (S & lost & G & G').
  split; [rewrite <- (g2_size _ _ _ G); apply (g2_size _ _ _ G')|].
  rewrite (g2_after _ _ _ G), (g2_after _ _ _ G') by auto. reflexivity.
Qed.

(** The digest after reset(true). *)
Theorem lost_after w hs : w = 64%N \/ w = 32%N -> bits_up_to (8 * w) hs -> forall (T : htype (blake2p w)),
  T = blake2p_type w hs \/ T = blake2p_static_type w hs -> forall g pre post, ht_mem_ok T g -> hany pre -> hany post ->
  after T g (pre ++ [HBase (Reset true)]) post = Ok (snd (arun (blake2p_lost_spec w hs) (afresh (blake2p_lost_spec w hs)) post)).
Proof.
  intros Hw Hhs T HT g pre post Hg H1 H2.
  assert (G : good2 T (blake2p_spec w hs) (b2p_lost w hs)) by (destruct HT as [->| ->]; apply good2_blake2p; auto).
  rewrite (g2_after _ _ _ G); [|auto|apply Forall_app; split; [auto|constructor; [exact I|constructor]]|auto].
  rewrite existsb_app, orb_true_r, run2_true, ast_app. destruct (ast _ _ pre). reflexivity.
Qed.
Theorem lost_after_omp w hs sch : w = 64%N \/ w = 32%N -> bits_up_to (8 * w) hs -> any_schedule w sch -> forall (T : htype (blake2p_omp w sch)),
  T = blake2p_omp_type w hs sch \/ T = blake2p_omp_static_type w hs sch -> forall g pre post, ht_mem_ok T g -> hany pre -> hany post ->
  after T g (pre ++ [HBase (Reset true)]) post = Ok (snd (arun (blake2p_lost_spec w hs) (afresh (blake2p_lost_spec w hs)) post)).
Proof.
  intros Hw Hhs Hsch T HT g pre post Hg H1 H2.
  assert (G : good2 T (blake2p_spec w hs) (b2p_lost w hs)) by (destruct HT as [->| ->]; apply good2_blake2p_omp; auto).
  rewrite (g2_after _ _ _ G); [|auto|apply Forall_app; split; [auto|constructor; [exact I|constructor]]|auto].
  rewrite existsb_app, orb_true_r, run2_true, ast_app. destruct (ast _ _ pre). reflexivity.
Qed.

Section Kept.
  Context {P : hash_provider} {T : htype P} {S : hash_spec (p_param P)} {lost : sp_params S -> list N -> list N}.
  Hypothesis G : good2 T S lost.

  Lemma setters_from_erases ops : forall acc : list (hash_op (p_param P)), existsb erases acc = false -> existsb erases (setters_from acc ops) = false.
  Proof.
    induction ops as [|o r IH]; intros acc H; [exact H|].
    destruct o as [[f d|[]|q v]|?| |]; cbn [setters_from]; apply IH; auto. rewrite existsb_app, H. reflexivity.
  Qed.
  Lemma kept_erases (pre : list (hash_op (p_param P))) : existsb erases (kept pre) = existsb erases pre.
  Proof.
    unfold kept. destruct (existsb erases pre) eqn:E; [reflexivity|]. apply setters_from_erases. reflexivity.
  Qed.
  Lemma setters_any pre : hany pre -> hany (kept (param := p_param P) pre).
  Proof.
    intros H. assert (K : hany (setters pre)).
    { unfold setters. assert (A : hany (@nil (hash_op (p_param P)))) by constructor. revert A H. generalize (@nil (hash_op (p_param P))).
      induction pre as [|o r IH]; intros acc Ha H; [exact Ha|]. inversion H as [|? ? Ho Hr]; subst.
      destruct o as [[f d|[]|q v]|?| |]; cbn [setters_from]; apply IH; auto; try constructor.
      apply Forall_app. split; [auto|]. constructor; [exact Ho|constructor]. }
    unfold kept. destruct (existsb erases pre); [constructor; [exact I|exact K]|exact K].
  Qed.
  Lemma kept_state pre : ast S (afresh S) (kept pre) = (fst (ast S (afresh S) pre), []).
  Proof.
    assert (E : ast S (afresh S) (setters pre) = (fst (ast S (afresh S) pre), [])).
    { pose proof (ast_setters (P := P) (S := S) pre (afresh S) [] eq_refl) as E1.
      pose proof (setters_only (P := P) (S := S) pre [] eq_refl) as E2. unfold setters.
      destruct (ast S (afresh S) (setters_from [] pre)). cbn [fst snd] in *. congruence. }
    unfold kept. destruct (existsb erases pre); [|exact E]. rewrite ast_cons. exact E.
  Qed.
  Theorem reset2 g pre post : ht_mem_ok T g -> hany pre -> hany post ->
    exists r, after T g (pre ++ [HBase (Reset false)]) post = Ok r /\ after T g (kept pre) post = Ok r.
  Proof.
    intros Hg H1 H2. apply (same_state G); auto using setters_any.
    - apply Forall_app. split; [auto|]. constructor; [exact I|constructor].
    - rewrite existsb_app, kept_erases. apply orb_false_r.
    - rewrite ast_app, kept_state. destruct (ast S (afresh S) pre). reflexivity.
  Qed.
  Theorem set2 g pre q v post : ht_mem_ok T g -> hany pre -> is_bytes v -> hany post ->
    after T g pre [HBase (SetParam q v)] = Ok [ODone] ->
    exists r, after T g (pre ++ [HBase (SetParam q v)]) post = Ok r /\ after T g (kept pre ++ [HBase (SetParam q v)]) post = Ok r.
  Proof.
    intros Hg H1 Hv H2 Hd.
    assert (Hs : hany [HBase (SetParam (param := p_param P) q v)]) by (constructor; [exact Hv|constructor]).
    rewrite (g2_after _ _ _ G) in Hd by auto. apply (same_state G); auto using setters_any.
    - apply Forall_app; split; auto.
    - apply Forall_app; split; [apply setters_any; exact H1|exact Hs].
    - rewrite !existsb_app, kept_erases. reflexivity.
    - rewrite !ast_app, kept_state. destruct (ast S (afresh S) pre) as [p msg]. rewrite !ast_cons. cbn [fst astep abase] in *.
      cbn [run2 astep abase phase sp_set snd] in Hd. destruct (sp_set S q v p); [reflexivity|discriminate Hd].
  Qed.
End Kept.
