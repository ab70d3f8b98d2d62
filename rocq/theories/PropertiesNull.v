(** * C70: empty data behind a null pointer. *)
From Verif Require Import Base Hasher MdState Library LibraryTypes AnyCalls Md5 Sha3 Skein Blake2 Blake2p Echo Shake Null NullProof NullLib.

(** [null_calls P U d]: [U] are update(nullptr, 0) and set_*(nullptr, 0) of the provider [P]; [d]
    names the setters that copy from the pointer. Every type has them. *)
Theorem C70_types P (T : htype P) : library T -> exists U d, null_calls P U d.
Proof. exact (library_nulls P T). Qed.
Theorem C70_types_xof P (T : xtype P) : xlibrary T -> exists U d, null_calls P U d.
Proof. exact (xlibrary_nulls P T). Qed.

(** ** memcpy may be given a null pointer and no bytes *)

(** Every history with such calls gives what it gives with empty arrays instead. Missing: the
    rules up to C23 and C++23, see below. *)
Theorem C70_empty_partial P (T : htype P) U d : library T -> null_calls P U d -> forall g pre post,
  ht_mem_ok T g -> hany (map as_empty pre) -> hany (map as_empty post) ->
  exists r, nafter T U false g pre post = Ok r /\ after T g (map as_empty pre) (map as_empty post) = Ok r /\ length r = length post.
Proof.
  intros HT HU g pre post Hg A1 A2.
  exact (hdefined T HU false g pre post HT Hg A1 A2 (harmless_lax d pre) (harmless_lax d post)).
Qed.
Theorem C70_empty_xof_partial P (T : xtype P) U d : xlibrary T -> null_calls P U d -> forall g pre post,
  xt_mem_ok T g -> xany (map xas_empty pre) -> xany (map xas_empty post) ->
  exists r, nxafter T U false g pre post = Ok r /\ xafter T g (map xas_empty pre) (map xas_empty post) = Ok r /\ length r = length post.
Proof.
  intros HT HU g pre post Hg A1 A2.
  exact (xdefined T HU false g pre post HT Hg A1 A2 (harmless_lax d pre) (harmless_lax d post)).
Qed.
(** On any object, whatever its memory, the outcomes agree. *)
Theorem C70_same_partial P (T : htype P) U d : null_calls P U d -> forall g pre post r,
  nafter T U false g pre post = Ok r <-> after T g (map as_empty pre) (map as_empty post) = Ok r.
Proof. intros HU g pre post. exact (hafter_same T HU false g pre post (harmless_lax d pre) (harmless_lax d post)). Qed.
Theorem C70_same_xof_partial P (T : xtype P) U d : null_calls P U d -> forall g pre post r,
  nxafter T U false g pre post = Ok r <-> xafter T g (map xas_empty pre) (map xas_empty post) = Ok r.
Proof. intros HU g pre post. exact (xafter_same T HU false g pre post (harmless_lax d pre) (harmless_lax d post)). Qed.

(** absorb(nullptr, 0) changes nothing. *)
Theorem C70_no_effect_partial P (T : htype P) U d : library T -> null_calls P U d -> forall g pre post,
  ht_mem_ok T g -> hany (map as_empty pre) -> hany (map as_empty post) ->
  exists r, nafter T U false g (pre ++ [NullAbsorb]) post = Ok r /\ nafter T U false g pre post = Ok r.
Proof. intros HT HU g pre post. exact (hnothing T HU g pre post HT). Qed.
Theorem C70_no_effect_xof_partial P (T : xtype P) U d : xlibrary T -> null_calls P U d -> forall g pre post,
  xt_mem_ok T g -> xcalls T (map xas_empty pre) -> xflag T (map xas_empty pre) = false ->
  xcalls_from T false (map xas_empty post) ->
  exists r, nxafter T U false g (pre ++ [NullAbsorb]) post = Ok r /\ nxafter T U false g pre post = Ok r.
Proof. intros HT HU g pre post. exact (xnothing T HU g pre post HT). Qed.

(** ** memcpy must not be given a null pointer *)

(** The first absorb(nullptr, 0), and the first set_salt or set_personalization of that kind on
    BLAKE2, is undefined on every type in every history. *)
Theorem C70_strict_refuted P (T : htype P) U d : library T -> null_calls P U d -> forall g pre o post rest,
  ht_mem_ok T g -> hany (map as_empty pre) -> Forall (fun o => copies_null d o = false) pre -> copies_null d o = true ->
  nafter T U true g (pre ++ o :: post) rest = UB NullPointer.
Proof.
  intros HT HU g pre o post rest Hg A H. exact (hundefined T HU g pre o post rest HT Hg A (harmless_strict true d pre H)).
Qed.
Theorem C70_strict_xof_refuted P (T : xtype P) U d : xlibrary T -> null_calls P U d -> forall g pre o post rest,
  xt_mem_ok T g -> xany (map xas_empty pre) -> Forall (fun o => copies_null d o = false) pre -> copies_null d o = true ->
  nxafter T U true g (pre ++ o :: post) rest = UB NullPointer.
Proof.
  intros HT HU g pre o post rest Hg A H. exact (xundefined T HU g pre o post rest HT Hg A (harmless_strict true d pre H)).
Qed.
(** All other setters may be given a null pointer under these rules too. *)
Theorem C70_setters P (T : htype P) U d : library T -> null_calls P U d -> forall strict g pre post,
  ht_mem_ok T g -> hany (map as_empty pre) -> hany (map as_empty post) ->
  Forall (fun o => copies_null d o = false) pre -> Forall (fun o => copies_null d o = false) post ->
  exists r, nafter T U strict g pre post = Ok r /\ after T g (map as_empty pre) (map as_empty post) = Ok r /\ length r = length post.
Proof.
  intros HT HU strict g pre post Hg A1 A2 H1 H2.
  exact (hdefined T HU strict g pre post HT Hg A1 A2 (harmless_strict strict d pre H1) (harmless_strict strict d post H2)).
Qed.
Theorem C70_setters_xof P (T : xtype P) U d : xlibrary T -> null_calls P U d -> forall strict g pre post,
  xt_mem_ok T g -> xany (map xas_empty pre) -> xany (map xas_empty post) ->
  Forall (fun o => copies_null d o = false) pre -> Forall (fun o => copies_null d o = false) post ->
  exists r, nxafter T U strict g pre post = Ok r /\ xafter T g (map xas_empty pre) (map xas_empty post) = Ok r /\ length r = length post.
Proof.
  intros HT HU strict g pre post Hg A1 A2 H1 H2.
  exact (xdefined T HU strict g pre post HT Hg A1 A2 (harmless_strict strict d pre H1) (harmless_strict strict d post H2)).
Qed.

(** ** Examples *)
Definition garbage : st := mkst [] (repeat 77 64) 5 9.
Definition null_md5 := by_string md5 md5_null.
Example C70_md5_lax :
  nafter md5_type null_md5 false garbage [Given (HBase (Absorb FStr [97])); NullAbsorb] [NullAbsorb; Given HDigestIter] =
  Ok [ODone; OBytes [12; 193; 117; 185; 192; 241; 182; 168; 49; 195; 153; 226; 105; 119; 38; 97]].
Proof. vm_compute. reflexivity. Qed.
Example C70_md5_strict :
  nafter md5_type null_md5 true garbage [Given (HBase (Absorb FStr [97]))] [NullAbsorb; Given HDigestIter] = UB NullPointer.
Proof. vm_compute. reflexivity. Qed.
(** The hypotheses hold for it. *)
Example C70_md5_meets : library md5_type /\ null_calls md5 null_md5 none /\ ht_mem_ok md5_type garbage /\
  hany (map as_empty [Given (HBase (Absorb FStr [97])); @NullAbsorb (hash_op Empty_set) Empty_set]) /\
  Forall (fun o => copies_null none o = false) [@Given (hash_op Empty_set) Empty_set (HBase (Absorb FStr [97]))] /\
  copies_null none (@NullAbsorb (hash_op Empty_set) Empty_set) = true.
Proof.
  split; [exact lib_md5|]. split; [exact nl_md5|]. split; [reflexivity|]. split; [repeat constructor|]. split; [repeat constructor|reflexivity].
Qed.
(** set_salt(nullptr, 0): ECHO and BLAKE2 differ. *)
Example C70_salts : copies_null none (@NullSet (hash_op ec_param) ec_param EcSalt) = false /\
  copies_null salt_or_pers (@NullSet (hash_op b2_param) b2_param B2Salt) = true /\
  copies_null salt_or_pers (@NullSet (hash_op b2_param) b2_param B2Key) = false.
Proof. repeat split. Qed.

Definition null_all := (@C70_types, @C70_types_xof, @C70_empty_partial, @C70_empty_xof_partial, @C70_same_partial, @C70_same_xof_partial,
  @C70_no_effect_partial, @C70_no_effect_xof_partial, @C70_strict_refuted, @C70_strict_xof_refuted, @C70_setters, @C70_setters_xof).
Print Assumptions null_all.
