(** * Proofs about Construct.v (C69). *)
From Verif Require Import Base Validate Hasher MdState Library LibraryTypes Sizes Construct
  Sha2 Sha3 Kmac Esch Blake Blake2 Blake2p TTable Groestl Kupyna Streebog Jh Lsh Skein Echo.

(** What [construct_with] finds. *)
Lemma two_static HS d a mk mks arg : HS <> 0 ->
  construct_with false [run_time HS d mk; static HS a mks] arg =
  match arg with None => if a then Some (mks HS) else None | Some _ => None end.
Proof.
  intros H. unfold construct_with, run_time, static. cbn [filter viable c_enabled c_size].
  rewrite (proj2 (N.eqb_neq HS 0) H). destruct arg; reflexivity.
Qed.

Definition is_choice (n : name) : bool := match doc n with Choice _ _ => true | _ => false end.
Lemma choice_static n : in_static_size n = is_choice n.
Proof. destruct n; reflexivity. Qed.

(** The two constructors of the names with several sizes. *)
Definition run_obj (n : name) : N -> object :=
  match n with
  | Nsha512 => fun k => OHash _ (sha512_type k) | Nsha3 => fun k => OHash _ (sha3_type k)
  | Nkmac128 => fun k => OHash _ (kmac_type 128 k) | Nkmac256 => fun k => OHash _ (kmac_type 256 k)
  | Nesch => fun k => OHash _ (esch_type k) | Nblake => fun k => OHash _ (blake_type k)
  | Ngroestl => fun k => OHash _ (groestl_type k) | Njh => fun k => OHash _ (jh_type k)
  | Nlsh256 => fun k => OHash _ (lsh_type 32 k) | Nlsh512 => fun k => OHash _ (lsh_type 64 k)
  | Nskein256 => fun k => OHash _ (skein_type 4 k) | Nskein512 => fun k => OHash _ (skein_type 8 k)
  | Nskein1024 => fun k => OHash _ (skein_type 16 k) | Necho => fun k => OHash _ (echo_type k)
  | Nkupyna => fun k => OHash _ (kupyna_type k) | Nstreebog => fun k => OHash _ (streebog_type k)
  | Nblake2b => fun k => OHash _ (blake2_type 64 BHash k) | Nblake2s => fun k => OHash _ (blake2_type 32 BHash k)
  | Nblake2xb => fun k => OHash _ (blake2_type 64 BXhash k) | Nblake2xs => fun k => OHash _ (blake2_type 32 BXhash k)
  | Nblake2bp => fun k => OHash _ (blake2p_type 64 k) | Nblake2sp => fun k => OHash _ (blake2p_type 32 k)
  | _ => fun _ => OHash _ md5_type
  end.
Definition static_obj (n : name) : N -> object :=
  match n with
  | Nsha512 => fun k => OHash _ (sha512_static_type k) | Nsha3 => fun k => OHash _ (sha3_static_type k)
  | Nkmac128 => fun k => OHash _ (kmac_static_type 128 k) | Nkmac256 => fun k => OHash _ (kmac_static_type 256 k)
  | Nesch => fun k => OHash _ (esch_static_type k) | Nblake => fun k => OHash _ (blake_static_type k)
  | Ngroestl => fun k => OHash _ (groestl_static_type k) | Njh => fun k => OHash _ (jh_static_type k)
  | Nlsh256 => fun k => OHash _ (lsh_static_type 32 k) | Nlsh512 => fun k => OHash _ (lsh_static_type 64 k)
  | Nskein256 => fun k => OHash _ (skein_static_type 4 k) | Nskein512 => fun k => OHash _ (skein_static_type 8 k)
  | Nskein1024 => fun k => OHash _ (skein_static_type 16 k) | Necho => fun k => OHash _ (echo_static_type k)
  | Nkupyna => fun k => OHash _ (kupyna_static_type k) | Nstreebog => fun k => OHash _ (streebog_static_type k)
  | Nblake2b => fun k => OHash _ (blake2_static_type 64 BHash k) | Nblake2s => fun k => OHash _ (blake2_static_type 32 BHash k)
  | Nblake2xb => fun k => OHash _ (blake2_static_type 64 BXhash k) | Nblake2xs => fun k => OHash _ (blake2_static_type 32 BXhash k)
  | Nblake2bp => fun k => OHash _ (blake2p_static_type 64 k) | Nblake2sp => fun k => OHash _ (blake2p_static_type 32 k)
  | _ => fun _ => OHash _ md5_type
  end.
Definition asserts (n : name) (HS : N) : bool :=
  match n with
  | Nsha3 | Nblake => one_of [224; 256; 384; 512] HS
  | Nesch => one_of [256; 384] HS
  | Nkupyna | Nstreebog => one_of [256; 512] HS
  | Nkmac128 | Nkmac256 | Nskein256 | Nskein512 | Nskein1024 => HS mod 8 =? 0
  | Nlsh256 | Nblake2s | Nblake2sp => up_to 256 HS
  | Nblake2xb => up_to 16368 HS
  | Nblake2xs => up_to 4080 HS
  | _ => up_to 512 HS
  end.
Definition default_of (n : name) : option N :=
  match n with
  | Njh | Nsha512 | Nskein512 | Nblake2b | Nblake2xb | Nblake2bp => Some 512
  | Nskein256 | Nblake2s | Nblake2xs | Nblake2sp => Some 256
  | Nskein1024 => Some 1024
  | _ => None
  end.

(** The constructors of hasher for HS = 0 (also the names of digestpp), *)
Lemma run_ctors n arg : is_choice n = true ->
  construct_with (fst (provider_ctors n 0)) (snd (provider_ctors n 0)) arg =
  match arg with Some k => Some (run_obj n k) | None => option_map (run_obj n) (default_of n) end.
Proof. destruct n; try discriminate; intros _; destruct arg; reflexivity. Qed.
(** and for the others. *)
Lemma static_ctors n HS : is_choice n = true -> HS <> 0 -> forall arg,
  construct_with (fst (provider_ctors n HS)) (snd (provider_ctors n HS)) arg =
  match arg with
  | None => if asserts n HS then Some (static_obj n HS) else None
  | Some _ => if is_skein n && (HS mod 8 =? 0) then Some (static_obj n HS) else None
  end.
Proof.
  intros C H arg.
  assert (E : (HS =? 0) = false) by exact (proj2 (N.eqb_neq HS 0) H).
  assert (L : (0 <? HS) = true) by (apply N.ltb_lt; lia).
  destruct n; try discriminate C;
    try (cbn [provider_ctors fst snd is_skein andb]; exact (two_static HS _ _ _ _ arg H)).
  - unfold construct_with. cbn [provider_ctors fst snd]. unfold sha2_ctors. cbn [N.eqb Pos.eqb andb orb].
    cbn [filter viable c_enabled c_size]. rewrite E. cbn [negb andb is_skein].
    destruct arg; [reflexivity|]. cbn [c_asserts c_make asserts static_obj].
    unfold up_to. rewrite L, andb_true_r. cbn [andb]. reflexivity.
  - unfold construct_with. cbn [provider_ctors fst snd]. unfold skein_ctors, run_time.
    cbn [filter viable c_enabled c_size]. rewrite E. cbn [negb andb is_skein].
    destruct arg; cbn [c_asserts c_make asserts static_obj size_of_arg]; rewrite L; cbn [andb]; reflexivity.
  - unfold construct_with. cbn [provider_ctors fst snd]. unfold skein_ctors, run_time.
    cbn [filter viable c_enabled c_size]. rewrite E. cbn [negb andb is_skein].
    destruct arg; cbn [c_asserts c_make asserts static_obj size_of_arg]; rewrite L; cbn [andb]; reflexivity.
  - unfold construct_with. cbn [provider_ctors fst snd]. unfold skein_ctors, run_time.
    cbn [filter viable c_enabled c_size]. rewrite E. cbn [negb andb is_skein].
    destruct arg; cbn [c_asserts c_make asserts static_obj size_of_arg]; rewrite L; cbn [andb]; reflexivity.
Qed.

Lemma construct_plain n arg : is_choice n = true ->
  construct (Plain n) arg =
  match arg with Some k => Some (run_obj n k) | None => option_map (run_obj n) (default_of n) end.
Proof.
  intros C. rewrite <- (run_ctors n arg C). unfold construct. destruct (provider_ctors n 0). reflexivity.
Qed.
Lemma construct_zero n arg : is_choice n = true -> construct (Static n 0) arg = construct (Plain n) arg.
Proof. intros C. unfold construct. rewrite choice_static, C. reflexivity. Qed.
Lemma construct_static n HS arg : is_choice n = true -> HS <> 0 ->
  construct (Static n HS) arg =
  match arg with
  | None => if asserts n HS then Some (static_obj n HS) else None
  | Some _ => if is_skein n && (HS mod 8 =? 0) then Some (static_obj n HS) else None
  end.
Proof.
  intros C H. rewrite <- (static_ctors n HS C H arg). unfold construct. rewrite choice_static, C.
  destruct (provider_ctors n HS). reflexivity.
Qed.
Lemma construct_nothing n HS arg : is_choice n = false -> construct (Static n HS) arg = None.
Proof. intros C. unfold construct. rewrite choice_static, C. reflexivity. Qed.

(** The static_asserts. *)
Lemma up_to_spec max HS : up_to max HS = true <-> bits_up_to max HS.
Proof.
  unfold up_to, bits_up_to. rewrite !andb_true_iff, N.leb_le, N.ltb_lt, N.eqb_eq. tauto.
Qed.
Lemma one_of_spec l HS : one_of l HS = true <-> In HS l.
Proof.
  unfold one_of. rewrite existsb_exists. split.
  - intros (x & Hx & E). apply N.eqb_eq in E. subst. exact Hx.
  - intros Hx. exists HS. split; [exact Hx|apply N.eqb_refl].
Qed.
Lemma bytes_spec HS : HS <> 0 -> HS < 2 ^ 64 -> (HS mod 8 =? 0) = true <-> arbitrary HS.
Proof.
  intros H L. rewrite N.eqb_eq. unfold arbitrary, bits_up_to. split; [intros E; repeat split; [lia|lia|exact E]|tauto].
Qed.
Definition doc_ok (n : name) (k : N) : Prop := match doc n with Choice ok _ => ok k | _ => False end.
Lemma asserts_spec n HS : is_choice n = true -> HS <> 0 -> HS < 2 ^ 64 ->
  asserts n HS = true <-> doc_ok n HS /\ blake2x_limit n HS.
Proof.
  intros C H L.
  assert (T : forall P : Prop, P <-> P /\ True) by (intros; tauto).
  assert (X : forall m, m <= 2 ^ 64 - 1 -> up_to m HS = true <-> arbitrary HS /\ HS <= m).
  { intros m Hm. rewrite up_to_spec. unfold arbitrary, bits_up_to. split; [intros (A & B & D)|intros ((A & B & D) & E)]; repeat split; auto; lia. }
  destruct n; try discriminate C; cbn [asserts doc_ok doc blake2x_limit];
    first [ apply X; discriminate
          | rewrite <- T; first [apply up_to_spec | apply one_of_spec | exact (bytes_spec HS H L)] ].
Qed.
Lemma doc_ok_pos n k : doc_ok n k -> k <> 0.
Proof.
  unfold doc_ok. destruct n; cbn [doc]; try (intros []; fail); unfold arbitrary, bits_up_to; try (intros; lia);
    intros H ->; cbn [In] in H; repeat (destruct H as [H|H]; [discriminate H|]); exact H.
Qed.
Lemma doc_ok_64 n k : doc_ok n k -> k < 2 ^ 64.
Proof.
  unfold doc_ok. destruct n; cbn [doc]; try (intros []; fail); unfold arbitrary, bits_up_to; try (intros; lia);
    intros H; cbn [In] in H; repeat (destruct H as [<-|H]; [reflexivity|]); contradiction.
Qed.
Lemma doc_ok_choice n k : doc_ok n k -> is_choice n = true.
Proof. unfold doc_ok, is_choice. destruct (doc n); [contradiction|reflexivity|contradiction]. Qed.

(** ** Which declarations compile *)
Lemma default_compiles n : compiles (Plain n) None <-> doc_default n \/ n = Njh.
Proof.
  unfold compiles, doc_default. destruct (is_choice n) eqn:C.
  - rewrite (construct_plain n None C). destruct n; try discriminate C; cbn [default_of option_map doc];
      (split; [intros H; first [left; exact I | right; reflexivity | exfalso; apply H; reflexivity]
              |intros [H|H]; first [contradiction | discriminate H | discriminate]]).
  - destruct n; try discriminate C; (split; [intros _; left; exact I|intros _; discriminate]).
Qed.
Lemma sized_compiles n k : compiles (Plain n) (Some k) <-> doc_sized n.
Proof.
  unfold compiles, doc_sized. destruct (is_choice n) eqn:C.
  - rewrite (construct_plain n (Some k) C). unfold is_choice in C. destruct (doc n); try discriminate C.
    split; [trivial|discriminate].
  - destruct n; try discriminate C; (split; [intros H; exfalso; apply H; reflexivity|intros []]).
Qed.
Lemma static_compiles n HS : HS <> 0 -> HS < 2 ^ 64 ->
  compiles (Static n HS) None <-> doc_bits (Static n HS) None HS /\ blake2x_limit n HS.
Proof.
  intros H L. unfold compiles. cbn [doc_bits]. destruct (is_choice n) eqn:C.
  - rewrite (construct_static n HS None C H).
    assert (D : doc_ok n HS <-> match doc n with Choice ok _ => ok HS /\ HS = HS | _ => False end)
      by (unfold doc_ok; destruct (doc n); tauto).
    rewrite <- D, <- (asserts_spec n HS C H L). destruct (asserts n HS); split; congruence.
  - rewrite (construct_nothing n HS None C). unfold is_choice in C.
    destruct (doc n); try discriminate C; (split; [congruence|tauto]).
Qed.
Lemma static_zero_compiles n arg : compiles (Static n 0) arg <-> doc_sized n /\ compiles (Plain n) arg.
Proof.
  unfold compiles. destruct (is_choice n) eqn:C.
  - rewrite (construct_zero n arg C). unfold doc_sized. unfold is_choice in C. destruct (doc n); try discriminate C. tauto.
  - rewrite (construct_nothing n 0 arg C). unfold doc_sized. unfold is_choice in C.
    destruct (doc n); try discriminate C; (split; [congruence|tauto]).
Qed.
Lemma static_sized_compiles n HS k : HS <> 0 ->
  compiles (Static n HS) (Some k) <-> is_skein n = true /\ HS mod 8 = 0.
Proof.
  intros H. unfold compiles. destruct (is_choice n) eqn:C.
  - rewrite (construct_static n HS (Some k) C H). rewrite <- N.eqb_eq.
    destruct (is_skein n), (HS mod 8 =? 0); cbn [andb]; (split; [intros A|intros [A B]]); try congruence; split; reflexivity.
  - rewrite (construct_nothing n HS (Some k) C). split; [congruence|]. intros [A _]. destruct n; discriminate.
Qed.
Lemma skein_ignores n HS k : is_skein n = true -> HS <> 0 -> construct (Static n HS) (Some k) = construct (Static n HS) None.
Proof.
  intros S H. rewrite !construct_static by (first [exact H | destruct n; try discriminate S; reflexivity]).
  rewrite S. cbn [andb]. destruct n; try discriminate S; reflexivity.
Qed.

(** ** What they construct *)
Definition in_library (o : object) (k : N) : Prop :=
  match o with OHash P T => library T /\ ht_size T = N.to_nat (k / 8) | OXof _ _ => False end.
Lemma limit_b k : arbitrary k -> k <= 16368 -> bits_up_to 16368 k.
Proof. unfold arbitrary, bits_up_to. tauto. Qed.
Lemma limit_s k : arbitrary k -> k <= 4080 -> bits_up_to 4080 k.
Proof. unfold arbitrary, bits_up_to. tauto. Qed.
Lemma skein_nw : In 4%nat [4; 8; 16]%nat /\ In 8%nat [4; 8; 16]%nat /\ In 16%nat [4; 8; 16]%nat.
Proof. cbn. tauto. Qed.

Lemma run_in_library n k : doc_ok n k -> blake2x_limit n k -> in_library (run_obj n k) k.
Proof.
  destruct skein_nw as (N4 & N8 & N16).
  unfold doc_ok. destruct n; cbn [doc]; intros D B; try contradiction; cbn [run_obj in_library]; (split; [|reflexivity]).
  - exact (lib_sha512 k D).
  - exact (lib_sha3 k D).
  - exact (lib_kmac128 k D).
  - exact (lib_kmac256 k D).
  - exact (lib_esch k D).
  - exact (lib_blake k D).
  - exact (lib_groestl k D).
  - exact (lib_jh k D).
  - exact (lib_lsh256 k D).
  - exact (lib_lsh512 k D).
  - exact (lib_skein 4 k N4 D).
  - exact (lib_skein 8 k N8 D).
  - exact (lib_skein 16 k N16 D).
  - exact (lib_echo k D).
  - exact (lib_kupyna k D).
  - exact (lib_streebog k D).
  - exact (lib_blake2b k D).
  - exact (lib_blake2s k D).
  - exact (lib_blake2xb k (limit_b k D B)).
  - exact (lib_blake2xs k (limit_s k D B)).
  - exact (lib_blake2bp k D).
  - exact (lib_blake2sp k D).
Qed.
Lemma static_in_library n k : doc_ok n k -> blake2x_limit n k -> in_library (static_obj n k) k.
Proof.
  destruct skein_nw as (N4 & N8 & N16).
  unfold doc_ok. destruct n; cbn [doc]; intros D B; try contradiction; cbn [static_obj in_library]; (split; [|reflexivity]).
  - exact (lib_sha512_static k D).
  - exact (lib_sha3_static k D).
  - exact (lib_kmac128_static k D).
  - exact (lib_kmac256_static k D).
  - exact (lib_esch_static k D).
  - exact (lib_blake_static k D).
  - exact (lib_groestl_static k D).
  - exact (lib_jh_static k D).
  - exact (lib_lsh256_static k D).
  - exact (lib_lsh512_static k D).
  - exact (lib_skein_static 4 k N4 D).
  - exact (lib_skein_static 8 k N8 D).
  - exact (lib_skein_static 16 k N16 D).
  - exact (lib_echo_static k D).
  - exact (lib_kupyna_static k D).
  - exact (lib_streebog_static k D).
  - exact (lib_blake2b_static k D).
  - exact (lib_blake2s_static k D).
  - exact (lib_blake2xb_static k (limit_b k D B)).
  - exact (lib_blake2xs_static k (limit_s k D B)).
  - exact (lib_blake2bp_static k D).
  - exact (lib_blake2sp_static k D).
Qed.
Lemma defaults_agree n ok b : doc n = Choice ok (Some b) -> default_of n = Some b /\ ok b /\ blake2x_limit n b.
Proof.
  destruct n; cbn [doc]; intros E; try discriminate E; injection E as <- <-; cbn [default_of blake2x_limit];
    repeat split; discriminate.
Qed.
Lemma fixed_in_library n b : doc n = Fixed b -> exists o, construct (Plain n) None = Some o /\ in_library o b.
Proof.
  destruct n; cbn [doc]; intros E; try discriminate E; injection E as <-; (eexists; split; [reflexivity|split; [|reflexivity]]).
  - exact lib_md5.
  - exact lib_sha1.
  - exact lib_sha224.
  - exact lib_sha256.
  - exact lib_sha384.
  - exact lib_sm3.
  - exact lib_whirlpool.
  - exact lib_ascon_hash.
Qed.

(** Every documented declaration is one of the types the other theorems are about, with the documented size. *)
Lemma documented d arg k : doc_bits d arg k -> blake2x_limit (name_of d) k ->
  exists P (T : htype P), construct d arg = Some (OHash P T) /\ library T /\ ht_size T = N.to_nat (k / 8).
Proof.
  intros D B.
  assert (G : exists o, construct d arg = Some o /\ in_library o k).
  { destruct d as [n|n HS], arg as [a|]; cbn [doc_bits name_of] in *.
    - destruct (doc n) as [|ok df|] eqn:E; try contradiction. destruct D as [D ->].
      assert (O : doc_ok n a) by (unfold doc_ok; rewrite E; exact D).
      rewrite (construct_plain n _ (doc_ok_choice n a O)). eexists; split; [reflexivity|]. exact (run_in_library n a O B).
    - destruct (doc n) as [b|ok [b|]|] eqn:E; try contradiction; subst k; [exact (fixed_in_library n b E)|].
      destruct (defaults_agree n ok b E) as (Ed & Ok & Bl).
      assert (O : doc_ok n b) by (unfold doc_ok; rewrite E; exact Ok).
      rewrite (construct_plain n _ (doc_ok_choice n b O)), Ed. eexists; split; [reflexivity|]. exact (run_in_library n b O Bl).
    - contradiction.
    - destruct (doc n) as [|ok df|] eqn:E; try contradiction. destruct D as [D ->].
      assert (O : doc_ok n HS) by (unfold doc_ok; rewrite E; exact D).
      rewrite (construct_static n HS None (doc_ok_choice n HS O) (doc_ok_pos n HS O)).
      rewrite (proj2 (asserts_spec n HS (doc_ok_choice n HS O) (doc_ok_pos n HS O) (doc_ok_64 n HS O)) (conj O B)).
      eexists; split; [reflexivity|]. exact (static_in_library n HS O B). }
  destruct G as ([P T|P T] & E & L); [|contradiction]. exists P, T. split; [exact E|exact L].
Qed.
Lemma xof_declared n : doc n = Squeezed -> exists P (T : xtype P), construct (Plain n) None = Some (OXof P T) /\ xlibrary T.
Proof.
  destruct skein_nw as (N4 & N8 & N16).
  destruct n; cbn [doc]; intros E; try discriminate E; (eexists; eexists; split; [reflexivity|]).
  - exact xlib_shake128.
  - exact xlib_shake256.
  - exact xlib_cshake128.
  - exact xlib_cshake256.
  - exact xlib_kmac128.
  - exact xlib_kmac256.
  - exact xlib_k12.
  - exact xlib_m14.
  - exact xlib_kt256.
  - exact xlib_ascon_xof.
  - exact xlib_ascon_cxof.
  - exact xlib_esch256.
  - exact xlib_esch384.
  - exact xlib_blake2xb.
  - exact xlib_blake2xs.
  - exact (xlib_skein 4 N4).
  - exact (xlib_skein 8 N8).
  - exact (xlib_skein 16 N16).
Qed.
Lemma default_size n ok b : doc n = Choice ok (Some b) -> ok b /\ construct (Plain n) None = construct (Plain n) (Some b).
Proof.
  intros E. destruct (defaults_agree n ok b E) as (Ed & Ok & _). split; [exact Ok|].
  assert (C : is_choice n = true) by (unfold is_choice; rewrite E; reflexivity).
  rewrite !construct_plain by exact C. rewrite Ed. reflexivity.
Qed.
Lemma static_pairs n k : doc_bits (Static n k) None k -> blake2x_limit n k ->
  exists P (T1 T2 : htype P), construct (Plain n) (Some k) = Some (OHash P T1) /\
    construct (Static n k) None = Some (OHash P T2) /\ static_pair T1 T2.
Proof.
  destruct skein_nw as (N4 & N8 & N16).
  cbn [doc_bits]. intros D B.
  assert (O : doc_ok n k) by (unfold doc_ok; destruct (doc n); tauto).
  rewrite (construct_plain n _ (doc_ok_choice n k O)).
  rewrite (construct_static n k None (doc_ok_choice n k O) (doc_ok_pos n k O)).
  rewrite (proj2 (asserts_spec n k (doc_ok_choice n k O) (doc_ok_pos n k O) (doc_ok_64 n k O)) (conj O B)).
  clear D. unfold doc_ok in O.
  destruct n; cbn [doc] in O; try contradiction; cbn [run_obj static_obj];
    (eexists; eexists; eexists; split; [reflexivity|split; [reflexivity|]]).
  - exact (pair_sha512 k O).
  - exact (pair_sha3 k O).
  - exact (pair_kmac128 k O).
  - exact (pair_kmac256 k O).
  - exact (pair_esch k O).
  - exact (pair_blake k O).
  - exact (pair_groestl k O).
  - exact (pair_jh k O).
  - exact (pair_lsh256 k O).
  - exact (pair_lsh512 k O).
  - exact (pair_skein 4 k N4 O).
  - exact (pair_skein 8 k N8 O).
  - exact (pair_skein 16 k N16 O).
  - exact (pair_echo k O).
  - exact (pair_kupyna k O).
  - exact (pair_streebog k O).
  - exact (pair_blake2b k O).
  - exact (pair_blake2s k O).
  - exact (pair_blake2xb k (limit_b k O B)).
  - exact (pair_blake2xs k (limit_s k O B)).
  - exact (pair_blake2bp k O).
  - exact (pair_blake2sp k O).
Qed.

(** ** Nothing else can be constructed *)
Lemma covered_max P (T : N -> htype P) max k : (forall hs, bits_up_to max hs -> library (T hs)) ->
  throws_exactly T (bits_up_to max) -> k < 2 ^ 64 -> covered (OHash P (T k)).
Proof.
  intros HL HT L. cbn [covered]. destruct (up_to max k) eqn:E.
  - left. apply HL. apply up_to_spec. exact E.
  - right. intros g Hg. apply (HT k g L Hg). intros D. apply up_to_spec in D. congruence.
Qed.
Lemma run_covered n k : is_choice n = true -> listed n = false -> k < 2 ^ 64 -> covered (run_obj n k).
Proof.
  destruct skein_nw as (N4 & N8 & N16).
  destruct n; intros C NL L; try discriminate C; try discriminate NL; cbn [run_obj].
  - exact (covered_max _ _ _ k lib_sha512 sha512_sizes L).
  - exact (covered_max _ _ _ k lib_kmac128 kmac128_sizes L).
  - exact (covered_max _ _ _ k lib_kmac256 kmac256_sizes L).
  - exact (covered_max _ _ _ k lib_groestl groestl_sizes L).
  - exact (covered_max _ _ _ k lib_jh jh_sizes L).
  - exact (covered_max _ _ _ k lib_lsh256 lsh256_sizes L).
  - exact (covered_max _ _ _ k lib_lsh512 lsh512_sizes L).
  - exact (covered_max _ _ _ k (fun hs => lib_skein 4 hs N4) (skein_sizes 4 N4) L).
  - exact (covered_max _ _ _ k (fun hs => lib_skein 8 hs N8) (skein_sizes 8 N8) L).
  - exact (covered_max _ _ _ k (fun hs => lib_skein 16 hs N16) (skein_sizes 16 N16) L).
  - exact (covered_max _ _ _ k lib_echo echo_sizes L).
  - exact (covered_max _ _ _ k lib_blake2b blake2b_sizes L).
  - exact (covered_max _ _ _ k lib_blake2s blake2s_sizes L).
  - exact (covered_max _ _ _ k lib_blake2xb blake2xb_sizes L).
  - exact (covered_max _ _ _ k lib_blake2xs blake2xs_sizes L).
  - exact (covered_max _ _ _ k lib_blake2bp blake2bp_sizes L).
  - exact (covered_max _ _ _ k lib_blake2sp blake2sp_sizes L).
Qed.
Lemma in_library_covered o k : in_library o k -> covered o.
Proof. destruct o; cbn [in_library covered]; [|contradiction]. intros [H _]. left. exact H. Qed.
Lemma plain_covered n arg o : listed n = false -> match arg with Some k => k < 2 ^ 64 | None => True end ->
  construct (Plain n) arg = Some o -> covered o.
Proof.
  intros NL L E. destruct (is_choice n) eqn:C.
  - rewrite (construct_plain n arg C) in E. destruct arg as [k|].
    + injection E as <-. exact (run_covered n k C NL L).
    + destruct (default_of n) as [b|] eqn:D; [|discriminate E]. injection E as <-.
      apply run_covered; [exact C|exact NL|]. destruct n; try discriminate D; injection D as <-; reflexivity.
  - assert (X : compiles (Plain n) arg) by (unfold compiles; congruence).
    destruct arg as [k|].
    + apply sized_compiles in X. unfold doc_sized in X. unfold is_choice in C. destruct (doc n); try discriminate C; contradiction.
    + destruct (doc n) as [b| |] eqn:D.
      * destruct (fixed_in_library n b D) as (o' & E' & I). rewrite E in E'. injection E' as ->. exact (in_library_covered o' b I).
      * unfold is_choice in C. rewrite D in C. discriminate C.
      * destruct (xof_declared n D) as (P & T & E' & I). rewrite E in E'. injection E' as ->. exact I.
Qed.
Lemma all_covered d arg o : size_t_args d arg -> construct d arg = Some o ->
  match d with Plain n | Static n 0 => listed n = false | Static _ _ => True end -> covered o.
Proof.
  intros [L1 L2] E NL. destruct d as [n|n HS]; [exact (plain_covered n arg o NL L2 E)|].
  destruct (is_choice n) eqn:C; [|rewrite (construct_nothing n HS arg C) in E; discriminate E].
  destruct (N.eqb_spec HS 0) as [->|H].
  - rewrite (construct_zero n arg C) in E. exact (plain_covered n arg o NL L2 E).
  - assert (A : forall a, construct (Static n HS) None = Some a -> covered a).
    { intros a Ea. rewrite (construct_static n HS None C H) in Ea. destruct (asserts n HS) eqn:As; [|discriminate Ea].
      injection Ea as <-. apply (asserts_spec n HS C H L1) in As. destruct As as [O B].
      exact (in_library_covered _ HS (static_in_library n HS O B)). }
    destruct arg as [k|]; [|exact (A o E)]. apply A. rewrite <- E. symmetry. apply skein_ignores; [|exact H].
    assert (X : compiles (Static n HS) (Some k)) by (unfold compiles; congruence).
    apply (static_sized_compiles n HS k H) in X. exact (proj1 X).
Qed.

(** Every type of [library] and [xlibrary] is declared somehow. *)
Lemma in_static k n : doc_ok n k -> blake2x_limit n k -> construct (Static n k) None = Some (static_obj n k).
Proof.
  intros O B. rewrite (construct_static n k None (doc_ok_choice n k O) (doc_ok_pos n k O)).
  rewrite (proj2 (asserts_spec n k (doc_ok_choice n k O) (doc_ok_pos n k O) (doc_ok_64 n k O)) (conj O B)). reflexivity.
Qed.
Lemma arb max k : max <= 2 ^ 64 - 1 -> bits_up_to max k -> arbitrary k.
Proof. unfold arbitrary, bits_up_to. intros H (A & B & D). repeat split; auto; lia. Qed.
Lemma all_declared P (T : htype P) : library T -> openmp T \/ exists d arg, construct d arg = Some (OHash P T).
Proof.
  intros H. destruct H.
  all: try (left; apply openmp_run); try (left; apply openmp_static); right.
  - exists (Plain Nmd5), None. reflexivity.
  - exists (Plain Nsha1), None. reflexivity.
  - exists (Plain Nsha224), None. reflexivity.
  - exists (Plain Nsha256), None. reflexivity.
  - exists (Plain Nsha384), None. reflexivity.
  - exists (Plain Nsha512), (Some hs). reflexivity.
  - exists (Static Nsha512 hs), None. exact (in_static hs Nsha512 H I).
  - exists (Plain Nsm3), None. reflexivity.
  - exists (Plain Nwhirlpool), None. reflexivity.
  - exists (Plain Nsha3), (Some hs). reflexivity.
  - exists (Static Nsha3 hs), None. exact (in_static hs Nsha3 H I).
  - exists (Plain Nkmac128), (Some hs). reflexivity.
  - exists (Static Nkmac128 hs), None. exact (in_static hs Nkmac128 H I).
  - exists (Plain Nkmac256), (Some hs). reflexivity.
  - exists (Static Nkmac256 hs), None. exact (in_static hs Nkmac256 H I).
  - exists (Plain Nascon_hash), None. reflexivity.
  - exists (Plain Nesch), (Some hs). reflexivity.
  - exists (Static Nesch hs), None. exact (in_static hs Nesch H I).
  - exists (Plain Nblake), (Some hs). reflexivity.
  - exists (Static Nblake hs), None. exact (in_static hs Nblake H I).
  - exists (Plain Ngroestl), (Some hs). reflexivity.
  - exists (Static Ngroestl hs), None. exact (in_static hs Ngroestl H I).
  - exists (Plain Njh), (Some hs). reflexivity.
  - exists (Static Njh hs), None. exact (in_static hs Njh H I).
  - exists (Plain Nlsh256), (Some hs). reflexivity.
  - exists (Static Nlsh256 hs), None. exact (in_static hs Nlsh256 H I).
  - exists (Plain Nlsh512), (Some hs). reflexivity.
  - exists (Static Nlsh512 hs), None. exact (in_static hs Nlsh512 H I).
  - cbn [In] in H. destruct H as [<-|[<-|[<-|[]]]].
    + exists (Plain Nskein256), (Some hs). reflexivity.
    + exists (Plain Nskein512), (Some hs). reflexivity.
    + exists (Plain Nskein1024), (Some hs). reflexivity.
  - cbn [In] in H. destruct H as [<-|[<-|[<-|[]]]].
    + exists (Static Nskein256 hs), None. exact (in_static hs Nskein256 H0 I).
    + exists (Static Nskein512 hs), None. exact (in_static hs Nskein512 H0 I).
    + exists (Static Nskein1024 hs), None. exact (in_static hs Nskein1024 H0 I).
  - exists (Plain Necho), (Some hs). reflexivity.
  - exists (Static Necho hs), None. exact (in_static hs Necho H I).
  - exists (Plain Nkupyna), (Some hs). reflexivity.
  - exists (Static Nkupyna hs), None. exact (in_static hs Nkupyna H I).
  - exists (Plain Nstreebog), (Some hs). reflexivity.
  - exists (Static Nstreebog hs), None. exact (in_static hs Nstreebog H I).
  - exists (Plain Nblake2b), (Some hs). reflexivity.
  - exists (Static Nblake2b hs), None. exact (in_static hs Nblake2b H I).
  - exists (Plain Nblake2s), (Some hs). reflexivity.
  - exists (Static Nblake2s hs), None. exact (in_static hs Nblake2s H I).
  - exists (Plain Nblake2xb), (Some hs). reflexivity.
  - exists (Static Nblake2xb hs), None. refine (in_static hs Nblake2xb (arb _ hs _ H) (proj1 (proj2 H))). discriminate.
  - exists (Plain Nblake2xs), (Some hs). reflexivity.
  - exists (Static Nblake2xs hs), None. refine (in_static hs Nblake2xs (arb _ hs _ H) (proj1 (proj2 H))). discriminate.
  - exists (Plain Nblake2bp), (Some hs). reflexivity.
  - exists (Static Nblake2bp hs), None. exact (in_static hs Nblake2bp H I).
  - exists (Plain Nblake2sp), (Some hs). reflexivity.
  - exists (Static Nblake2sp hs), None. exact (in_static hs Nblake2sp H I).
Qed.
Lemma all_xdeclared P (T : xtype P) : xlibrary T -> exists n, construct (Plain n) None = Some (OXof P T).
Proof.
  intros H. destruct H.
  - exists Nshake128. reflexivity.
  - exists Nshake256. reflexivity.
  - exists Ncshake128. reflexivity.
  - exists Ncshake256. reflexivity.
  - exists Nkmac128_xof. reflexivity.
  - exists Nkmac256_xof. reflexivity.
  - exists Nk12. reflexivity.
  - exists Nm14. reflexivity.
  - exists Nkt256. reflexivity.
  - exists Nascon_xof. reflexivity.
  - exists Nascon_cxof. reflexivity.
  - exists Nesch256_xof. reflexivity.
  - exists Nesch384_xof. reflexivity.
  - exists Nblake2xb_xof. reflexivity.
  - exists Nblake2xs_xof. reflexivity.
  - cbn [In] in H. destruct H as [<-|[<-|[<-|[]]]].
    + exists Nskein256_xof. reflexivity.
    + exists Nskein512_xof. reflexivity.
    + exists Nskein1024_xof. reflexivity.
Qed.
