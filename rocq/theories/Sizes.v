(** * Which digest sizes the constructors accept (C10). *)
From Verif Require Import Base Validate Hasher HasherSpec HasherProof MdState Library LibraryTypes LibraryProof LibraryTypesProof
  Sha2 Sha3 Kmac Esch Blake Blake2 Blake2p TTable Groestl Kupyna Streebog Jh Lsh Skein Echo VecUtil EmptyRefuted.

(** Construction of [T hs] throws exactly for the sizes that are not documented.
    Specification; no code of /repo. *)
Definition throws_exactly {P} (T : N -> htype P) (doc : N -> Prop) : Prop :=
  forall hs g, hs < 2 ^ 64 -> ht_mem_ok (T hs) g -> (ht_new (T hs) g = Throw <-> ~ doc hs).

Lemma new_ok P (T : htype P) g : library T -> ht_mem_ok T g -> ht_new T g <> Throw.
Proof.
  intros H Hg E. destruct (library_good P T H) as [S G].
  destruct (never_undefined G g [] [] Hg (Forall_nil _) (Forall_nil _)) as (r & E' & _).
  unfold after in E'. rewrite E in E'. discriminate.
Qed.

Lemma max_throws hs max : ~ bits_up_to max hs -> validate_max hs max = Throw.
Proof.
  intros H. unfold validate_max. destruct (N.eqb_spec hs 0); [reflexivity|].
  destruct (N.eqb_spec (hs mod 8) 0); cbn [negb]; [|reflexivity].
  destruct (N.ltb_spec max hs); [reflexivity|]. exfalso. apply H. repeat split; auto. lia.
Qed.

Lemma throws_max P (T : N -> htype P) max :
  (forall hs, bits_up_to max hs -> library (T hs)) ->
  (forall hs g, validate_max hs max = Throw -> ht_new (T hs) g = Throw) ->
  throws_exactly T (bits_up_to max).
Proof.
  intros HL HT hs g _ Hg. split.
  - intros E Hd. exact (new_ok P (T hs) g (HL hs Hd) Hg E).
  - intros Hd. apply HT. apply max_throws. exact Hd.
Qed.

Ltac use E := match goal with |- context [validate_max ?h ?m] =>
  replace (validate_max h m) with (@Throw unit) by (symmetry; exact E) end; reflexivity.
Ltac by_max L := apply throws_max; [exact L|]; intros hs g E; cbn [ht_new]; unfold fresh_of.

Lemma sha512_sizes : throws_exactly sha512_type (bits_up_to 512).
Proof. by_max lib_sha512. cbn. unfold fresh_of, sha512_ctor. use E. Qed.
Lemma kmac128_sizes : throws_exactly (kmac_type 128) (bits_up_to (2 ^ 64 - 1)).
Proof. by_max lib_kmac128. cbn. unfold fresh_of, kmac_ctor. use E. Qed.
Lemma kmac256_sizes : throws_exactly (kmac_type 256) (bits_up_to (2 ^ 64 - 1)).
Proof. by_max lib_kmac256. cbn. unfold fresh_of, kmac_ctor. use E. Qed.
Lemma groestl_sizes : throws_exactly groestl_type (bits_up_to 512).
Proof. by_max lib_groestl. cbn. unfold fresh_of, gr_ctor. use E. Qed.
Lemma jh_sizes : throws_exactly jh_type (bits_up_to 512).
Proof. by_max lib_jh. cbn. unfold fresh_of, jh_ctor. use E. Qed.
Lemma echo_sizes : throws_exactly echo_type (bits_up_to 512).
Proof. by_max lib_echo. cbn. unfold fresh_of, ec_ctor. use E. Qed.
Lemma lsh256_sizes : throws_exactly (lsh_type 32) (bits_up_to 256).
Proof. by_max lib_lsh256. cbn. unfold fresh_of, lsh_ctor. cbn. use E. Qed.
Lemma lsh512_sizes : throws_exactly (lsh_type 64) (bits_up_to 512).
Proof. by_max lib_lsh512. cbn. unfold fresh_of, lsh_ctor. cbn. use E. Qed.
Lemma skein_sizes nw : In nw [4; 8; 16]%nat -> throws_exactly (skein_type nw) (bits_up_to (2 ^ 64 - 1)).
Proof. intros Hn. by_max (fun hs => lib_skein nw hs Hn). cbn. unfold fresh_of, sk_ctor. use E. Qed.
Lemma blake2b_sizes : throws_exactly (blake2_type 64 BHash) (bits_up_to 512).
Proof. by_max lib_blake2b. cbn. unfold fresh_of, b2_ctor. cbn. use E. Qed.
Lemma blake2s_sizes : throws_exactly (blake2_type 32 BHash) (bits_up_to 256).
Proof. by_max lib_blake2s. cbn. unfold fresh_of, b2_ctor. cbn. use E. Qed.
Lemma blake2xb_sizes : throws_exactly (blake2_type 64 BXhash) (bits_up_to 16368).
Proof. by_max lib_blake2xb. cbn. unfold fresh_of, b2_ctor. cbn. use E. Qed.
Lemma blake2xs_sizes : throws_exactly (blake2_type 32 BXhash) (bits_up_to 4080).
Proof. by_max lib_blake2xs. cbn. unfold fresh_of, b2_ctor. cbn. use E. Qed.
Lemma blake2bp_sizes : throws_exactly (blake2p_type 64) (bits_up_to 512).
Proof. by_max lib_blake2bp. cbn. unfold fresh_of, b2p_ctor, b2_ctor. cbn. use E. Qed.
Lemma blake2sp_sizes : throws_exactly (blake2p_type 32) (bits_up_to 256).
Proof. by_max lib_blake2sp. cbn. unfold fresh_of, b2p_ctor, b2_ctor. cbn. use E. Qed.

(** The overload with a list of sizes accepts every size but zero (validate_hash_size.hpp:20). *)
Lemma list_accepts hs set : hs <> 0 -> validate_list hs set = Ok tt.
Proof. intros H. unfold validate_list. destruct (N.eqb_spec hs 0); [contradiction|reflexivity]. Qed.
Lemma list_throws hs set : validate_list hs set = Throw <-> hs = 0.
Proof. unfold validate_list. destruct (N.eqb_spec hs 0); split; intros; (contradiction || discriminate || assumption || reflexivity). Qed.

(** What the constructors do: only zero throws. Specification; no code of /repo. *)
Definition throws_only_zero {P} (T : N -> htype P) : Prop :=
  forall hs g, ht_new (T hs) g = Throw <-> hs = 0.
Lemma blake_only_zero : throws_only_zero blake_type.
Proof. intros hs g. cbn. unfold fresh_of, bl_ctor. destruct (N.eqb_spec hs 0) as [->|H]; [split; reflexivity|].
  rewrite list_accepts by exact H. split; [discriminate|contradiction]. Qed.
Lemma sha3_only_zero : throws_only_zero sha3_type.
Proof. intros hs g. cbn. unfold fresh_of, sha3_ctor. destruct (N.eqb_spec hs 0) as [->|H]; [split; reflexivity|].
  rewrite list_accepts by exact H. split; [discriminate|contradiction]. Qed.
Lemma kupyna_only_zero : throws_only_zero kupyna_type.
Proof. intros hs g. cbn. unfold fresh_of, ku_ctor. destruct (N.eqb_spec hs 0) as [->|H]; [split; reflexivity|].
  rewrite list_accepts by exact H. split; [discriminate|contradiction]. Qed.
Lemma streebog_only_zero : throws_only_zero streebog_type.
Proof. intros hs g. cbn. unfold fresh_of, sb_ctor. destruct (N.eqb_spec hs 0) as [->|H]; [split; reflexivity|].
  rewrite list_accepts by exact H. split; [discriminate|contradiction]. Qed.
Lemma esch_only_zero : throws_only_zero esch_type.
Proof. intros hs g. cbn. unfold fresh_of, esch_ctor. destruct (N.eqb_spec hs 0) as [->|H]; [split; reflexivity|].
  rewrite list_accepts by exact H. split; [discriminate|contradiction]. Qed.

Lemma only_zero_refutes P (T : N -> htype P) doc hs g : throws_only_zero T -> hs <> 0 -> hs < 2 ^ 64 ->
  ht_mem_ok (T hs) g -> ~ doc hs -> ~ throws_exactly T doc.
Proof. intros H H0 H1 Hg Hd HT. apply H0. apply (H hs g). apply (HT hs g H1 Hg). exact Hd. Qed.
Lemma blake_sizes : ~ throws_exactly blake_type (fun hs => In hs [224; 256; 384; 512]).
Proof. apply (only_zero_refutes _ blake_type _ 8 (zero_mem 12 128) blake_only_zero); [discriminate|reflexivity|reflexivity|]. cbn; intuition discriminate. Qed.
Lemma sha3_sizes : ~ throws_exactly sha3_type (fun hs => In hs [224; 256; 384; 512]).
Proof. apply (only_zero_refutes _ sha3_type _ 8 (zero_mem 25 144) sha3_only_zero); [discriminate|reflexivity|reflexivity|]. cbn; intuition discriminate. Qed.
Lemma kupyna_sizes : ~ throws_exactly kupyna_type (fun hs => In hs [256; 512]).
Proof. apply (only_zero_refutes _ kupyna_type _ 8 (zero_mem 16 128) kupyna_only_zero); [discriminate|reflexivity|reflexivity|]. cbn; intuition discriminate. Qed.
Lemma streebog_sizes : ~ throws_exactly streebog_type (fun hs => In hs [256; 512]).
Proof. apply (only_zero_refutes _ streebog_type _ 8 (zero_mem 16 64) streebog_only_zero); [discriminate|reflexivity|reflexivity|]. cbn; intuition discriminate. Qed.
Lemma esch_sizes : ~ throws_exactly esch_type (fun hs => In hs [256; 384]).
Proof. apply (only_zero_refutes _ esch_type _ 8 (zero_mem 16 128) esch_only_zero); [discriminate|reflexivity|split; reflexivity|]. cbn; intuition discriminate. Qed.

(** The accepted sizes lead to undefined behaviour. Specification; no code of /repo. *)
Definition undefined {A} (r : res A) : bool := match r with UB _ => true | _ => false end.
Lemma accepted_undefined :
  undefined (after (blake_type 1024) (zero_mem 12 128) [] [HDigestIter]) = true /\
  undefined (after (sha3_type 8) (zero_mem 25 144) [] [HDigestIter]) = true /\
  undefined (after (kupyna_type 1032) (zero_mem 16 128) [] [HDigestIter]) = true /\
  undefined (after (streebog_type 1024) (zero_mem 16 64) [] [HDigestIter]) = true /\
  undefined (after (esch_type 1024) (zero_mem 16 128) [] [HDigestIter]) = true.
Proof. repeat split; vm_compute; reflexivity. Qed.

(** blake2xb and blake2xs are documented to have arbitrary sizes (README.md:205-206,
    blake2.hpp:133, 176), but are limited. *)
Lemma blake2x_sizes : ~ throws_exactly (blake2_type 64 BXhash) (bits_up_to (2 ^ 64 - 1)) /\
  ~ throws_exactly (blake2_type 32 BXhash) (bits_up_to (2 ^ 64 - 1)).
Proof.
  split; intros H.
  - pose proof (H 16376 (zero_mem 8 128, 0) ltac:(reflexivity) ltac:(reflexivity)) as E.
    apply E; [reflexivity|]. repeat split; discriminate.
  - pose proof (H 16376 (zero_mem 8 64, 0) ltac:(reflexivity) ltac:(reflexivity)) as E.
    apply E; [reflexivity|]. repeat split; discriminate.
Qed.
