(** * C59: the counters of BLAKE, BLAKE2 and KangarooTwelve as the code computes them. *)
From Verif Require Import Base Absorb Hasher MdState Library K12 Blake Blake2 Blake2p LibraryTypes Exact ExactSpec ExactProof.

(** All histories of calls. *)
Theorem C59_blake : forall hs g pre post, after (blakex_type hs) g pre post = after (blake_type hs) g pre post.
Proof. exact blake_exact. Qed.
Theorem C59_blake_static : forall hs g pre post, after (blakex_static_type hs) g pre post = after (blake_static_type hs) g pre post.
Proof. exact blake_static_exact. Qed.
Theorem C59_blake2p : forall w, w = 64 \/ w = 32 -> forall hs g pre post,
  after (blake2px_type w hs) g pre post = after (blake2p_type w hs) g pre post /\
  after (blake2px_static_type w hs) g pre post = after (blake2p_static_type w hs) g pre post.
Proof. intros w Hw hs g pre post. exact (conj (blake2p_exact w Hw hs g pre post) (blake2p_static_exact w Hw hs g pre post)). Qed.
Theorem C59_blake2p_omp : forall w, w = 64 \/ w = 32 -> forall hs sch g pre post,
  after (blake2px_omp_type w hs sch) g pre post = after (blake2p_omp_type w hs sch) g pre post /\
  after (blake2px_omp_static_type w hs sch) g pre post = after (blake2p_omp_static_type w hs sch) g pre post.
Proof. intros w Hw hs sch g pre post. exact (conj (blake2p_omp_exact w Hw hs sch g pre post) (blake2p_omp_static_exact w Hw hs sch g pre post)). Qed.

(** Histories that absorb fewer than 2^61 - 128 bytes between two restarts. *)
Theorem C59_blake2 : forall w, w = 64 \/ w = 32 -> forall ty hs g pre post, short (blake2_type w ty hs) b2_bound (pre ++ post) ->
  after (blake2x_type w ty hs) g pre post = after (blake2_type w ty hs) g pre post.
Proof. exact blake2_exact. Qed.
Theorem C59_blake2_static : forall w, w = 64 \/ w = 32 -> forall ty hs g pre post, short (blake2_static_type w ty hs) b2_bound (pre ++ post) ->
  after (blake2x_static_type w ty hs) g pre post = after (blake2_static_type w ty hs) g pre post.
Proof. exact blake2_static_exact. Qed.
Theorem C59_blake2x_xof : forall w, w = 64 \/ w = 32 -> forall g pre post, xshort (blake2x_xof_type w) b2_bound (pre ++ post) ->
  xafter (blake2xx_xof_type w) g pre post = xafter (blake2x_xof_type w) g pre post.
Proof. exact blake2x_xof_exact. Qed.
(** Histories that absorb fewer than 2^76 bytes between two restarts. *)
Theorem C59_k12 : forall B R g pre post, xshort (k12_type B R) k12_bound (pre ++ post) ->
  xafter (k12x_type B R) g pre post = xafter (k12_type B R) g pre post.
Proof. exact k12_exact. Qed.

(** Above the bound of BLAKE2 the result depends on how the data is cut into calls: one call
    counts past 2^61 bytes, two calls start again from 0. The object is one that has absorbed
    2^61 - 128 bytes as far as its counter tells (its chaining value is not computed from such
    a message). *)
Definition long_object : b2_st := mkb2 (mkst (zeros 8) (zeros 128) 0 (2 ^ 64 - 1024)) [0; 0] [0; 0] [] 512 0 false 0 0 0.
Theorem C59_blake2_long_refuted : exists s a b, stotal (b2c s) = 8 * (2 ^ 61 - 128) /\
  (s1 <- b2x_update 64 s a ;; b2x_update 64 s1 b) <> b2x_update 64 s (a ++ b).
Proof.
  exists long_object, (zeros 129), (zeros 128). split; [reflexivity|].
  assert (H : match (s1 <- b2x_update 64 long_object (zeros 129) ;; b2x_update 64 s1 (zeros 128)), b2x_update 64 long_object (zeros 129 ++ zeros 128) with
    | Ok x, Ok y => nthN 0 (sh (b2c x)) =? nthN 0 (sh (b2c y)) | _, _ => true end = false) by (vm_compute; reflexivity).
  intros E. rewrite E in H. destruct (b2x_update 64 long_object (zeros 129 ++ zeros 128)) as [y| |]; [|discriminate H..].
  rewrite N.eqb_refl in H. discriminate H.
Qed.

(** Histories as in the theorems. *)
Example C59_short : short (blake2_type 64 BHash 512) b2_bound
  [HBase (SetParam B2Key [1; 2; 3]); HBase (Absorb FPtr (zeros 300)); HDigestIter; HBase (Reset false); HBase (Absorb FStream (zeros 70))].
Proof. unfold short. cbn [short_from]. repeat split; vm_compute; reflexivity. Qed.
Example C59_xshort : xshort (k12_type 128 12) k12_bound
  [XBase (SetParam K12Customization [1]); XBase (Absorb FPtr (zeros 30)); XHexSqueeze 10; XBase (Reset true)].
Proof. unfold xshort. cbn [xshort_from]. repeat split; vm_compute; reflexivity. Qed.

Definition exact_theorems := (C59_blake, C59_blake_static, C59_blake2p, C59_blake2p_omp, C59_blake2, C59_blake2_static, C59_blake2x_xof, C59_k12, C59_blake2_long_refuted).
Print Assumptions exact_theorems.
