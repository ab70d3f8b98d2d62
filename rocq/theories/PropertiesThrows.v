(** * C58: exceptions of the caller's iterators and streams. *)
From Verif Require Import Base Hasher HasherSpec Library LibraryTypes MdState Md5 Shake Inputs HistorySpec Throws ThrowsProof.
From Coq Require Import ZArith.

(** For every provider and state: a call during which the caller's iterator or stream throws
    leaves the object in the state of a plain call with the bytes read so far (whole buffers
    for streams), a throwing output iterator gets a prefix of the output. *)
Theorem C58_calls P : forall ops s, ehash_run P s ops = (' (s', l) <- hash_run P s (map quiet ops) ;; Ok (s', map2 seen ops l)).
Proof. exact (erun_plain P). Qed.
Theorem C58_calls_xof P : forall ops s, exof_run P s ops = (' (s', l) <- xof_run P s (map xquiet ops) ;; Ok (s', map2 xseen ops l)).
Proof. exact (exrun_plain P). Qed.
(** For every type of the library: after any history with such exceptions the object works like
    one with the same settings, bytes and squeezed length, without undefined behaviour. *)
Theorem C58_direct P (T : htype P) : library T -> forall g g' ops post,
  ht_mem_ok T g -> ht_mem_ok T g' -> hcalls T (map quiet ops) -> hcalls T post ->
  exists r, eafter T g ops post = Ok r /\ after T g' (direct (settings T (map quiet ops)) (since T (map quiet ops))) post = Ok r.
Proof. exact (throws_direct P T). Qed.
Theorem C58_direct_xof P (T : xtype P) : xlibrary T -> forall g g' ops post,
  xt_mem_ok T g -> xt_mem_ok T g' -> xcalls T (map xquiet ops) -> xcalls_from T (xflag T (map xquiet ops)) post ->
  exists r, exafter T g ops post = Ok r /\ xafter T g' (xdirect (xsettings T (map xquiet ops)) (xsince T (map xquiet ops)) (squeezed T (map xquiet ops))) post = Ok r.
Proof. exact (throws_direct_xof P T). Qed.
(** Integers that are not bytes count with their low byte; plain arguments are always bytes. *)
Theorem C58_low_bytes zs : is_bytes (map low_byte zs) /\ forall z, In z zs -> (exists q, z = 256 * q + Z.of_N (low_byte z))%Z.
Proof. exact (conj (low_bytes_ok zs) (fun z _ => low_byte_eq z)). Qed.

(** ** Examples *)
Definition md5_throws : list (ehash_op Empty_set) :=
  [EHValues [1; -1; 300]%Z true; EHStream [7; 8]; EHOut 3; EHCall HDigestIter; EHOut 20].
Example C58_md5_example : hcalls md5_type (map quiet md5_throws) /\ since md5_type (map quiet md5_throws) = [1; 255; 44].
Proof. split; [|reflexivity]. unfold hcalls, md5_throws. cbn. repeat constructor. Qed.
(** A stream with exceptions enabled loses what does not fill a buffer: the digest after it is
    the one of no input. *)
Example C58_stream_tail : forall g, ht_mem_ok md5_type g ->
  eafter md5_type g [EHStream [97; 98; 99]] [HHexDigest] = after md5_type g [] [HHexDigest].
Proof.
  intros g H. unfold eafter, after. destruct (ht_new md5_type g) as [s| |]; reflexivity.
Qed.
Example C58_xof_example :
  let ops := [EXCall (XBase (SetParam CsName [1])); EXValues [1; 2]%Z true; EXCall (XBase (Absorb FStr [3])); EXOut 7 2; EXOut 9 100] in
  xcalls (cshake_type 128) (map xquiet ops) /\ xsince (cshake_type 128) (map xquiet ops) = [1; 2; 3] /\ squeezed (cshake_type 128) (map xquiet ops) = 16%nat.
Proof. cbn zeta. split; [unfold xcalls; cbn; repeat split; try lia; try discriminate; repeat constructor|]. split; reflexivity. Qed.

Definition throws_theorems := (@C58_calls, @C58_calls_xof, @C58_direct, @C58_direct_xof, @C58_low_bytes).
Print Assumptions throws_theorems.
