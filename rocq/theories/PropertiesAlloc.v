(** * C68: failing memory allocations.

    [aop] is a call in which nothing, an allocation ([NoMem]) or the growth of a string stream
    ([NoStream]) fails; [made] are the calls of a history that take effect according to
    [hash_effect] and [xof_effect], and [weave] puts the exceptions between their results. [keep]
    describes all types but KMAC ([kmac_fail]) and BLAKE2bp, BLAKE2sp ([b2p_fail]). *)
From Verif Require Import Base Hasher MdState Library LibraryTypes Md5 Shake Kmac Blake2 Blake2p Skein Alloc AllocProof.

(** A failing call throws, and the object goes on as if it had not been made; hexsqueeze() and
    squeeze() to an iterator may have advanced the object, however, and lost the output. *)
Theorem C68_hash_partial (P : hash_provider) s l :
  ahash_run P (keep P) s l =
  (' (s, xs) <- hash_run P s (made hash_effect l) ;; Ok (s, weave hash_effect hash_cut l xs)).
Proof. exact (ahash_keep P s l). Qed.
Theorem C68_xof_partial (P : xof_provider) s l :
  axof_run P (keep P) s l =
  (' (s, xs) <- xof_run P s (made xof_effect l) ;; Ok (s, weave xof_effect xof_cut l xs)).
Proof. exact (axof_keep P s l). Qed.
(** KMAC: unless it fails in reset(true). *)
Theorem C68_kmac_partial B s l : forallb hreset_fine l = true ->
  ahash_run (kmac B) (kmac_fail B) s l =
  (' (s, xs) <- hash_run (kmac B) s (made hash_effect l) ;; Ok (s, weave hash_effect hash_cut l xs)).
Proof. exact (akmac_ok B s l). Qed.
Theorem C68_kmacxof_partial B s l : forallb xreset_fine l = true ->
  axof_run (kmacxof B) (kmac_fail B) s l =
  (' (s, xs) <- xof_run (kmacxof B) s (made xof_effect l) ;; Ok (s, weave xof_effect xof_cut l xs)).
Proof. exact (akmacxof_ok B s l). Qed.
(** BLAKE2bp and BLAKE2sp, with and without OpenMP: unless a later allocation of set_key() fails. *)
Theorem C68_blake2p_partial w tf s l : forallb key_fine l = true ->
  ahash_run (blake2p_with w tf) (b2p_fail w tf) s l =
  (' (s, xs) <- hash_run (blake2p_with w tf) s (made hash_effect l) ;; Ok (s, weave hash_effect hash_cut l xs)).
Proof. exact (ab2p_ok w tf s l). Qed.

(** In the excepted cases the next successful reset(true) or set_key() repairs the object. *)
Theorem C68_kmac_repair B k f s s1 :
  kmac_fail B (Reset true) k = Some f -> f s = Ok s1 ->
  reset (kmac_base B) true s1 = reset (kmac_base B) true s /\
  exists s2, kmac_clear B s = Ok s2 /\
    forall v, set_param (kmac_base B) KmKey v s1 = set_param (kmac_base B) KmKey v s2.
Proof. exact (kmac_repair B k f s s1). Qed.
Theorem C68_blake2p_repair w tf v k f s s1 :
  b2p_fail w tf (SetParam B2Key v) k = Some f -> f s = Ok s1 ->
  (forall v', (length v' <= b2_hb w)%nat ->
    set_param (blake2p_with w tf) B2Key v' s1 = set_param (blake2p_with w tf) B2Key v' s) /\
  reset (blake2p_with w tf) true s1 = reset (blake2p_with w tf) true s.
Proof. exact (b2p_repair w tf v k f s s1). Qed.

(** ** Refutations *)

(** The hex digest at the end of a history, and whether the call number [i] threw. *)
Definition final_hex (r : res (list out)) : list N :=
  match r with Ok l => match last l ODone with OBytes b => b | _ => [] end | _ => [] end.
Definition threw (r : res (list out)) (i : nat) : bool :=
  match r with Ok l => match nth i l ODone with OThrow => true | _ => false end | _ => false end.
Definition aafter {P} (T : htype P) (F : fails P) (g : ht_mem T) (l : list (aop (hash_op (p_param P)))) : res (list out) :=
  s <- ht_new T g ;; ' (_, xs) <- ahash_run P F s l ;; Ok xs.
Definition axafter {P} (T : xtype P) (F : fails P) (g : xt_mem T) (l : list (aop (xof_op (p_param P)))) : res (list out) :=
  s <- xt_new T g ;; ' (_, xs) <- axof_run P F s l ;; Ok xs.

(** The claim for histories of a new object in which one call fails. *)
Definition as_if_not_made {P} (T : htype P) (F : fails P) : Prop :=
  forall g pre o k post, ht_mem_ok T g -> fate P F o k <> None ->
    threw (aafter T F g (map Fine pre ++ NoMem o k :: map Fine post)) (length pre) = true /\
    final_hex (aafter T F g (map Fine pre ++ NoMem o k :: map Fine post ++ [Fine HHexDigest])) =
    final_hex (after T g [] (pre ++ post ++ [HHexDigest])).
(** Or as if it had been made. *)
Definition as_if_made {P} (T : htype P) (F : fails P) : Prop :=
  forall g pre o k post, ht_mem_ok T g -> fate P F o k <> None ->
    final_hex (aafter T F g (map Fine pre ++ NoMem o k :: map Fine post ++ [Fine HHexDigest])) =
    final_hex (after T g [] (pre ++ o :: post ++ [HHexDigest])).

(** A failed reset(true) of KMAC128 leaves a key of zeros: neither the old one nor none. *)
Definition c68_kmac_mem : kmac_mem := (mkst [] (zeros 168) 0 0, false, 0, false).
Definition c68_kmac_pre : list (hash_op kmac_param) := [HBase (SetParam KmKey [107; 101; 121])].
Theorem C68_kmac_refuted :
  ~ as_if_not_made (kmac_type 128 256) (kmac_fail 128) /\ ~ as_if_made (kmac_type 128 256) (kmac_fail 128).
Proof.
  split; intros H; specialize (H c68_kmac_mem c68_kmac_pre (HBase (Reset true)) 0%nat [HBase (Reset false)] eq_refl).
  - destruct H as [_ H]; [discriminate|]. revert H. vm_compute. discriminate.
  - specialize (H ltac:(discriminate)). revert H. vm_compute. discriminate.
Qed.

(** A failed set_key() of BLAKE2bp: the root and two leaves have the new key, two the old one. *)
Definition c68_b2p_mem : b2p_mem :=
  mkb2pm (mkst [] (zeros 128) 0 0, 0) (repeat (mkst [] (zeros 128) 0 0, 0) 4) (zeros 512) 0 0.
Lemma c68_b2p_mem_ok : b2p_mem_ok 64 c68_b2p_mem.
Proof. repeat split; repeat constructor. Qed.
Definition c68_b2p_pre : list (hash_op b2_param) := [HBase (SetParam B2Key (repeat 1 32))].
Theorem C68_blake2p_refuted :
  ~ as_if_not_made (blake2p_type 64 512) (b2p_fail 64 _) /\ ~ as_if_made (blake2p_type 64 512) (b2p_fail 64 _).
Proof.
  split; intros H; specialize (H c68_b2p_mem c68_b2p_pre (HBase (SetParam B2Key (repeat 2 32))) 3%nat
    [HBase (Reset false)] c68_b2p_mem_ok).
  - destruct H as [_ H]; [discriminate|]. revert H. vm_compute. discriminate.
  - specialize (H ltac:(discriminate)). revert H. vm_compute. discriminate.
Qed.

(** A failed hexsqueeze() may have squeezed: the second call gives other bytes than the first would. *)
Definition c68_shake_mem : shake_mem := (mkst [] (zeros 168) 0 0, false, 0).
Theorem C68_hexsqueeze_refuted :
  ~ (forall g, shake_mem_ok g ->
       final_hex (axafter (shake_type 128) (keep (shake 128 24)) g [NoMem (XHexSqueeze 8) 1; Fine (XHexSqueeze 8)]) =
       final_hex (axafter (shake_type 128) (keep (shake 128 24)) g [Fine (XHexSqueeze 8)])).
Proof. intros H. specialize (H c68_shake_mem eq_refl). revert H. vm_compute. discriminate. Qed.
(** A stream that cannot grow is not reported: hexdigest() returns a truncated string. *)
Theorem C68_hexdigest_refuted :
  ~ (forall g j, ht_mem_ok md5_type g ->
       let r := aafter md5_type (keep md5) g [NoStream HHexDigest j] in
       threw r 0 = true \/ final_hex r = final_hex (after md5_type g [] [HHexDigest])).
Proof.
  intros H. specialize (H (mkst [] (zeros 64) 0 0) 15%nat eq_refl). revert H. vm_compute.
  intros [H|H]; discriminate.
Qed.

(** Examples: the hypotheses are met by histories with failures, and what these give. *)
Definition c68_hist : list (aop (hash_op kmac_param)) :=
  [Fine (HBase (SetParam KmKey [107])); NoMem (HBase (SetParam KmKey [1; 2; 3])) 0; Fine (HBase (Absorb FPtr [97; 98; 99]));
   NoMem HHexDigest 1; NoMem (HBase (SetParam KmCustomization [5])) 0; Fine HHexDigest].
Example C68_example_kmac : forallb hreset_fine c68_hist = true /\
  made hash_effect c68_hist =
    [HBase (SetParam KmKey [107]); HBase (Absorb FPtr [97; 98; 99]); HHexDigest] /\
  weave hash_effect hash_cut c68_hist [ODone; ODone; OBytes [48; 49]] =
    [ODone; OThrow; ODone; OThrow; OThrow; OBytes [48; 49]].
Proof. repeat split. Qed.
Definition c68_xhist : list (aop (xof_op kmac_param)) :=
  [NoMem (XBase (SetParam KmKey [1])) 0; NoMem (XSqueezeIter 4) 0; NoMem (XHexSqueeze 4) 1; Fine (XSqueezeBuf 2);
   NoStream (XHexSqueeze 2) 3].
Example C68_example_kmacxof : forallb xreset_fine c68_xhist = true /\
  made xof_effect c68_xhist = [XHexSqueeze 4; XSqueezeBuf 2; XHexSqueeze 2] /\
  weave xof_effect xof_cut c68_xhist [OBytes [1]; OBytes [2; 3]; OBytes [48; 49; 50; 51]] =
    [OThrow; OThrow; OThrow; OBytes [2; 3]; OBytes [48; 49; 50]].
Proof. repeat split. Qed.
Example C68_example_blake2p : forallb key_fine
  [NoMem (HBase (SetParam B2Key [1])) 0; NoMem (HBase (SetParam B2Salt [1])) 0; NoMem (HBase (Reset true)) 0; NoMem HDigestIter 2] = true.
Proof. reflexivity. Qed.
(** Failures that leave KMAC with a key of zeros, and BLAKE2bp with two leaves of four rekeyed. *)
Example C68_example_repair :
  (exists f s1, kmac_fail 128 (Reset true) 0%nat = Some f /\
     f (mkkm [1; 2] 256 false (mksh (mkst [7] [8; 9] 1 2) [3] [4] true 5)) = Ok s1 /\ kmK s1 = [0; 0]) /\
  (exists f s1, b2p_fail 64 (fun l _ _ _ => Ok l) (SetParam B2Key [9]) 3%nat = Some f /\
     let b := mkb2 (mkst [] [] 0 0) [] [] [6] 512 0 false 4 0 0 in
     f (mkb2pst b [b; b; b; b] [] 0 0 512) = Ok s1 /\ map b2k (bpleaf s1) = [[9]; [9]; [6]; [6]] /\ b2k (bpmain s1) = [9]).
Proof. split; eexists; eexists; repeat split; reflexivity. Qed.

(** set_key() of BLAKE2bp has five allocations, none if the key is too long; BLAKE2sp has nine. *)
Example C68_example_allocations :
  map (fun k => match b2p_fail 64 (fun l _ _ _ => Ok l) (SetParam B2Key [9]) k with Some _ => true | None => false end) (seq 0 7) =
    [true; true; true; true; true; false; false] /\
  b2p_fail 64 (fun l _ _ _ => Ok l) (SetParam B2Key (repeat 1 65)) 1%nat = None /\
  b2p_fail 32 (fun l _ _ _ => Ok l) (SetParam B2Key [9]) 8%nat <> None /\
  b2p_fail 32 (fun l _ _ _ => Ok l) (SetParam B2Key [9]) 9%nat = None.
Proof. repeat split. discriminate. Qed.

Definition C68_all := (C68_hash_partial, C68_xof_partial, C68_kmac_partial, C68_kmacxof_partial, C68_blake2p_partial,
  C68_kmac_repair, C68_blake2p_repair, C68_kmac_refuted, C68_blake2p_refuted, C68_hexsqueeze_refuted,
  C68_hexdigest_refuted, C68_example_kmac, C68_example_kmacxof, C68_example_blake2p, C68_example_repair, C68_example_allocations).
Print Assumptions C68_all.
