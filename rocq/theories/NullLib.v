(** * Empty data behind a null pointer, for the types of the library. *)
From Verif Require Import Base Hasher HasherSpec MdState Library LibraryTypes LibraryProof LibraryMore AnyCalls AnyProof LibraryAny TwoPhase
  Null NullProof PropertiesApi PropertiesAny PropertiesLost.

(** ** Every type has such calls *)
Lemma library_nulls P (T : htype P) : library T -> exists U d, null_calls P U d.
Proof.
  intros H. destruct H.
  - exact (ex_intro _ _ (ex_intro _ _ nl_md5)).
  - exact (ex_intro _ _ (ex_intro _ _ nl_sha1)).
  - exact (ex_intro _ _ (ex_intro _ _ nl_sha256)).
  - exact (ex_intro _ _ (ex_intro _ _ nl_sha256)).
  - exact (ex_intro _ _ (ex_intro _ _ nl_sha512)).
  - exact (ex_intro _ _ (ex_intro _ _ nl_sha512)).
  - exact (ex_intro _ _ (ex_intro _ _ nl_sha512)).
  - exact (ex_intro _ _ (ex_intro _ _ (nl_sm3 _))).
  - exact (ex_intro _ _ (ex_intro _ _ nl_whirlpool)).
  - exact (ex_intro _ _ (ex_intro _ _ nl_sha3)).
  - exact (ex_intro _ _ (ex_intro _ _ nl_sha3)).
  - exact (ex_intro _ _ (ex_intro _ _ (nl_kmac _))).
  - exact (ex_intro _ _ (ex_intro _ _ (nl_kmac _))).
  - exact (ex_intro _ _ (ex_intro _ _ (nl_kmac _))).
  - exact (ex_intro _ _ (ex_intro _ _ (nl_kmac _))).
  - exact (ex_intro _ _ (ex_intro _ _ nl_ascon_hash)).
  - exact (ex_intro _ _ (ex_intro _ _ nl_esch)).
  - exact (ex_intro _ _ (ex_intro _ _ nl_esch)).
  - exact (ex_intro _ _ (ex_intro _ _ nl_blake)).
  - exact (ex_intro _ _ (ex_intro _ _ nl_blake)).
  - exact (ex_intro _ _ (ex_intro _ _ nl_groestl)).
  - exact (ex_intro _ _ (ex_intro _ _ nl_groestl)).
  - exact (ex_intro _ _ (ex_intro _ _ nl_jh)).
  - exact (ex_intro _ _ (ex_intro _ _ nl_jh)).
  - exact (ex_intro _ _ (ex_intro _ _ (nl_lsh _ _))).
  - exact (ex_intro _ _ (ex_intro _ _ (nl_lsh _ _))).
  - exact (ex_intro _ _ (ex_intro _ _ (nl_lsh _ _))).
  - exact (ex_intro _ _ (ex_intro _ _ (nl_lsh _ _))).
  - exact (ex_intro _ _ (ex_intro _ _ (nl_skein _))).
  - exact (ex_intro _ _ (ex_intro _ _ (nl_skein _))).
  - exact (ex_intro _ _ (ex_intro _ _ nl_echo)).
  - exact (ex_intro _ _ (ex_intro _ _ nl_echo)).
  - exact (ex_intro _ _ (ex_intro _ _ nl_kupyna)).
  - exact (ex_intro _ _ (ex_intro _ _ nl_kupyna)).
  - exact (ex_intro _ _ (ex_intro _ _ nl_streebog)).
  - exact (ex_intro _ _ (ex_intro _ _ nl_streebog)).
  - exact (ex_intro _ _ (ex_intro _ _ (nl_blake2 _ _))).
  - exact (ex_intro _ _ (ex_intro _ _ (nl_blake2 _ _))).
  - exact (ex_intro _ _ (ex_intro _ _ (nl_blake2 _ _))).
  - exact (ex_intro _ _ (ex_intro _ _ (nl_blake2 _ _))).
  - exact (ex_intro _ _ (ex_intro _ _ (nl_blake2 _ _))).
  - exact (ex_intro _ _ (ex_intro _ _ (nl_blake2 _ _))).
  - exact (ex_intro _ _ (ex_intro _ _ (nl_blake2 _ _))).
  - exact (ex_intro _ _ (ex_intro _ _ (nl_blake2 _ _))).
  - exact (ex_intro _ _ (ex_intro _ _ (nl_blake2p _ _))).
  - exact (ex_intro _ _ (ex_intro _ _ (nl_blake2p _ _))).
  - exact (ex_intro _ _ (ex_intro _ _ (nl_blake2p _ _))).
  - exact (ex_intro _ _ (ex_intro _ _ (nl_blake2p _ _))).
  - exact (ex_intro _ _ (ex_intro _ _ (nl_blake2p _ _))).
  - exact (ex_intro _ _ (ex_intro _ _ (nl_blake2p _ _))).
  - exact (ex_intro _ _ (ex_intro _ _ (nl_blake2p _ _))).
  - exact (ex_intro _ _ (ex_intro _ _ (nl_blake2p _ _))).
Qed.
Lemma xlibrary_nulls P (T : xtype P) : xlibrary T -> exists U d, null_calls P U d.
Proof.
  intros H. destruct H.
  - exact (ex_intro _ _ (ex_intro _ _ (nl_shake _))).
  - exact (ex_intro _ _ (ex_intro _ _ (nl_shake _))).
  - exact (ex_intro _ _ (ex_intro _ _ (nl_cshake _))).
  - exact (ex_intro _ _ (ex_intro _ _ (nl_cshake _))).
  - exact (ex_intro _ _ (ex_intro _ _ (nl_kmacxof _))).
  - exact (ex_intro _ _ (ex_intro _ _ (nl_kmacxof _))).
  - exact (ex_intro _ _ (ex_intro _ _ (nl_k12 _ _))).
  - exact (ex_intro _ _ (ex_intro _ _ (nl_k12 _ _))).
  - exact (ex_intro _ _ (ex_intro _ _ (nl_k12 _ _))).
  - exact (ex_intro _ _ (ex_intro _ _ nl_ascon_xof)).
  - exact (ex_intro _ _ (ex_intro _ _ nl_ascon_cxof)).
  - exact (ex_intro _ _ (ex_intro _ _ nl_esch_xof)).
  - exact (ex_intro _ _ (ex_intro _ _ nl_esch_xof)).
  - exact (ex_intro _ _ (ex_intro _ _ (nl_blake2x _))).
  - exact (ex_intro _ _ (ex_intro _ _ (nl_blake2x _))).
  - exact (ex_intro _ _ (ex_intro _ _ (nl_skein_xof _))).
Qed.

(** ** Histories *)
Definition harmless (strict : bool) {op param} (d : param -> bool) (ops : list (nop op param)) : Prop :=
  forallb (fun o => negb (strict && copies_null d o)) ops = true.
Lemma harmless_lax {op param} (d : param -> bool) (ops : list (nop op param)) : harmless false d ops.
Proof. unfold harmless. induction ops; [reflexivity|exact IHops]. Qed.
Lemma harmless_strict strict {op param} (d : param -> bool) (ops : list (nop op param)) :
  Forall (fun o => copies_null d o = false) ops -> harmless strict d ops.
Proof. intros H. unfold harmless. induction H as [|o ops E _ IH]; [reflexivity|]. cbn. rewrite E, Bool.andb_false_r. exact IH. Qed.

Section Hash.
  Context {P : hash_provider} (T : htype P) {U : nulls P} {d : p_param P -> bool}.
  Hypothesis HU : null_calls P U d.

  Lemma hrun_same strict ops : harmless strict d ops -> forall s r,
    nrun P U strict _ (hash_step P) s ops = Ok r <-> hash_run P s (map as_empty ops) = Ok r.
  Proof.
    intros H. exact (nrun_same P U d HU _ (hash_step P) HBase (fun _ _ => eq_refl) (hash_run P) (fun _ => eq_refl) (fun _ _ _ => eq_refl) strict ops H).
  Qed.
  Lemma hafter_same strict g pre post : harmless strict d pre -> harmless strict d post -> forall r,
    nafter T U strict g pre post = Ok r <-> after T g (map as_empty pre) (map as_empty post) = Ok r.
  Proof.
    intros H1 H2 r. unfold nafter, after. apply bind_ok; [tauto|]. intros s r1.
    apply bind_ok; [exact (hrun_same strict pre H1 s)|]. intros [s1 x] r2.
    apply bind_ok; [exact (hrun_same strict post H2 s1)|]. intros [s2 y] r3. tauto.
  Qed.
  Lemma hdefined strict g pre post : library T -> ht_mem_ok T g -> hany (map as_empty pre) -> hany (map as_empty post) ->
    harmless strict d pre -> harmless strict d post ->
    exists r, nafter T U strict g pre post = Ok r /\ after T g (map as_empty pre) (map as_empty post) = Ok r /\ length r = length post.
  Proof.
    intros HT Hg A1 A2 H1 H2. destruct (C08_any_history P T HT g _ _ Hg A1 A2) as (r & E & L). exists r.
    split; [exact (proj2 (hafter_same strict g pre post H1 H2 r) E)|]. split; [exact E|]. rewrite map_length in L. exact L.
  Qed.
  Lemma hnothing g pre post : library T -> ht_mem_ok T g -> hany (map as_empty pre) -> hany (map as_empty post) ->
    exists r, nafter T U false g (pre ++ [NullAbsorb]) post = Ok r /\ nafter T U false g pre post = Ok r.
  Proof.
    intros HT Hg A1 A2. destruct (C01_any_history_empty P T HT g _ FPtr _ Hg A1 A2) as (r & E1 & E2). exists r.
    split; apply (hafter_same false); try apply harmless_lax; [rewrite map_app; exact E1|exact E2].
  Qed.
  Lemma hundefined g pre o post rest : library T -> ht_mem_ok T g -> hany (map as_empty pre) ->
    harmless true d pre -> copies_null d o = true -> nafter T U true g (pre ++ o :: post) rest = UB NullPointer.
  Proof.
    intros HT Hg A1 H1 Ho.
    assert (A2 : hany (map as_empty [o])).
    { repeat constructor. destruct o as [o| |q]; [discriminate Ho|constructor|constructor]. }
    destruct (C08_any_history P T HT g _ _ Hg A1 A2) as (r & E & _).
    unfold after in E. unfold nafter. destruct (ht_new T g) as [s| |]; cbn [bind] in *; try discriminate E.
    rewrite nrun_app. pose proof (hrun_same true pre H1 s) as S.
    destruct (hash_run P s (map as_empty pre)) as [[s1 x]| |]; cbn [bind] in *; try discriminate E.
    rewrite (proj2 (S (s1, x)) eq_refl). cbn [bind nrun].
    cbn [map hash_run] in E. destruct (hash_step P s1 (as_empty o)) as [y| |] eqn:Ey; cbn [bind] in E; try discriminate E.
    rewrite (nstep_strict P U d HU _ (hash_step P) HBase (fun _ _ => eq_refl) s1 o y Ho Ey). reflexivity.
  Qed.
End Hash.

Section Xof.
  Context {P : xof_provider} (T : xtype P) {U : nulls P} {d : p_param P -> bool}.
  Hypothesis HU : null_calls P U d.

  Lemma xrun_same strict ops : harmless strict d ops -> forall s r,
    nrun P U strict _ (xof_step P) s ops = Ok r <-> xof_run P s (map xas_empty ops) = Ok r.
  Proof.
    intros H. exact (nrun_same P U d HU _ (xof_step P) XBase (fun _ _ => eq_refl) (xof_run P) (fun _ => eq_refl) (fun _ _ _ => eq_refl) strict ops H).
  Qed.
  Lemma xafter_same strict g pre post : harmless strict d pre -> harmless strict d post -> forall r,
    nxafter T U strict g pre post = Ok r <-> xafter T g (map xas_empty pre) (map xas_empty post) = Ok r.
  Proof.
    intros H1 H2 r. unfold nxafter, xafter. apply bind_ok; [tauto|]. intros s r1.
    apply bind_ok; [exact (xrun_same strict pre H1 s)|]. intros [s1 x] r2.
    apply bind_ok; [exact (xrun_same strict post H2 s1)|]. intros [s2 y] r3. tauto.
  Qed.
  Lemma xdefined strict g pre post : xlibrary T -> xt_mem_ok T g -> xany (map xas_empty pre) -> xany (map xas_empty post) ->
    harmless strict d pre -> harmless strict d post ->
    exists r, nxafter T U strict g pre post = Ok r /\ xafter T g (map xas_empty pre) (map xas_empty post) = Ok r /\ length r = length post.
  Proof.
    intros HT Hg A1 A2 H1 H2. destruct (C08_any_history_xof P T HT g _ _ Hg A1 A2) as (r & E & L). exists r.
    split; [exact (proj2 (xafter_same strict g pre post H1 H2 r) E)|]. split; [exact E|]. rewrite map_length in L. exact L.
  Qed.
  Lemma xnothing g pre post : xlibrary T -> xt_mem_ok T g -> xcalls T (map xas_empty pre) -> xflag T (map xas_empty pre) = false ->
    xcalls_from T false (map xas_empty post) ->
    exists r, nxafter T U false g (pre ++ [NullAbsorb]) post = Ok r /\ nxafter T U false g pre post = Ok r.
  Proof.
    intros HT Hg A1 F A2. destruct (C01_empty_absorb_xof P T HT g _ FPtr _ Hg A1 F A2) as (r & E1 & E2). exists r.
    split; apply (xafter_same false); try apply harmless_lax; [rewrite map_app; exact E1|exact E2].
  Qed.
  Lemma xundefined g pre o post rest : xlibrary T -> xt_mem_ok T g -> xany (map xas_empty pre) ->
    harmless true d pre -> copies_null d o = true -> nxafter T U true g (pre ++ o :: post) rest = UB NullPointer.
  Proof.
    intros HT Hg A1 H1 Ho.
    assert (A2 : xany (map xas_empty [o])).
    { repeat constructor. destruct o as [o| |q]; [discriminate Ho|constructor|constructor]. }
    destruct (C08_any_history_xof P T HT g _ _ Hg A1 A2) as (r & E & _).
    unfold xafter in E. unfold nxafter. destruct (xt_new T g) as [s| |]; cbn [bind] in *; try discriminate E.
    rewrite nrun_app. pose proof (xrun_same true pre H1 s) as S.
    destruct (xof_run P s (map xas_empty pre)) as [[s1 x]| |]; cbn [bind] in *; try discriminate E.
    rewrite (proj2 (S (s1, x)) eq_refl). cbn [bind nrun].
    cbn [map xof_run] in E. destruct (xof_step P s1 (xas_empty o)) as [y| |] eqn:Ey; cbn [bind] in E; try discriminate E.
    rewrite (nstep_strict P U d HU _ (xof_step P) XBase (fun _ _ => eq_refl) s1 o y Ho Ey). reflexivity.
  Qed.
End Xof.
