(** * Exactly what a zero-length squeeze does (C12).

    C12 is false (PropertiesEmpty.v). Here is, for every type, every call history and every
    position in the output, where the empty squeeze is harmless and what it does elsewhere.
    The vocabulary is in EmptySqueeze.v: [xcount] bytes squeezed and [xmsg] bytes absorbed
    since the last restart. *)
From Verif Require Import Base Hasher HasherSpec Library LibraryTypes EmptySqueeze EmptySqueezeRest.
From Verif Require Import EschSpec Blake2Spec Blake2Sim SkeinSpec SkeinSim.
Local Open Scope nat_scope.

(** The two lists of types cover the library. *)
Theorem C12_types P (T : xtype P) : xlibrary T <-> (exists r tail, sponge T r tail) \/ no_sponge T.
Proof.
  split.
  - intros H; destruct H.
    + left. exact (ex_intro _ _ (ex_intro _ _ sponge_shake128)).
    + left. exact (ex_intro _ _ (ex_intro _ _ sponge_shake256)).
    + left. exact (ex_intro _ _ (ex_intro _ _ sponge_cshake128)).
    + left. exact (ex_intro _ _ (ex_intro _ _ sponge_cshake256)).
    + left. exact (ex_intro _ _ (ex_intro _ _ sponge_kmac128)).
    + left. exact (ex_intro _ _ (ex_intro _ _ sponge_kmac256)).
    + left. exact (ex_intro _ _ (ex_intro _ _ sponge_k12)).
    + left. exact (ex_intro _ _ (ex_intro _ _ sponge_m14)).
    + left. exact (ex_intro _ _ (ex_intro _ _ sponge_kt256)).
    + left. exact (ex_intro _ _ (ex_intro _ _ sponge_ascon_xof)).
    + left. exact (ex_intro _ _ (ex_intro _ _ sponge_ascon_cxof)).
    + right. exact ns_esch256.
    + right. exact ns_esch384.
    + right. exact ns_blake2xb.
    + right. exact ns_blake2xs.
    + right. exact (ns_skein nw H).
  - intros [(r & tail & H)|H]; destruct H.
    + exact xlib_shake128.
    + exact xlib_shake256.
    + exact xlib_cshake128.
    + exact xlib_cshake256.
    + exact xlib_kmac128.
    + exact xlib_kmac256.
    + exact xlib_k12.
    + exact xlib_m14.
    + exact xlib_kt256.
    + exact xlib_ascon_xof.
    + exact xlib_ascon_cxof.
    + exact xlib_esch256.
    + exact xlib_esch384.
    + exact xlib_blake2xb.
    + exact xlib_blake2xs.
    + exact (xlib_skein nw H).
Qed.

(** Part of C12: harmless once something has been squeezed, for the sponges only away from
    the block boundaries. Missing: the first squeeze, and the boundaries; there C12 is false. *)
Theorem C12_sponge_partial P (T : xtype P) r tail g pre post : sponge T r tail -> xt_mem_ok T g -> xcalls T pre ->
  0 < xcount T pre -> xcount T pre mod r <> 0 ->
  xafter T g (pre ++ [XSqueezeBuf 0]) post = xafter T g pre post /\ xafter T g pre [XSqueezeBuf 0] = Ok [OBytes []].
Proof. exact (sponge_inside T r tail g pre post). Qed.
Theorem C12_other_partial P (T : xtype P) g pre post : no_sponge T -> xt_mem_ok T g -> xcalls T pre ->
  0 < xcount T pre ->
  xafter T g (pre ++ [XSqueezeBuf 0]) post = xafter T g pre post /\ xafter T g pre [XSqueezeBuf 0] = Ok [OBytes []].
Proof. exact (other_inside T g pre post). Qed.

(** At a block boundary a sponge loses a whole block of output. *)
Theorem C12_boundary P (T : xtype P) r tail g pre post : sponge T r tail -> xt_mem_ok T g -> xcalls T pre ->
  0 < xcount T pre -> xcount T pre mod r = 0 ->
  xafter T g (pre ++ [XSqueezeBuf 0]) post = xafter T g (pre ++ [XSqueezeBuf r]) post /\
  xafter T g pre [XSqueezeBuf 0] = Ok [OBytes []].
Proof. exact (sponge_edge T r tail g pre post). Qed.

(** As the first squeeze of a sponge it loses between one byte and a whole block. *)
Theorem C12_first P (T : xtype P) r tail g pre : sponge T r tail -> xt_mem_ok T g -> xcalls T pre -> xcount T pre = 0 ->
  exists j, 1 <= j <= r /\ (forall t, tail = Some t -> j = (length (xmsg T pre) + t) mod r + 1) /\
    (forall post, xafter T g (pre ++ [XSqueezeBuf 0]) post = xafter T g (pre ++ [XSqueezeBuf j]) post) /\
    xafter T g pre [XSqueezeBuf 0] = Ok [OBytes []].
Proof. exact (sponge_start T r tail g pre). Qed.

(** As the first squeeze of Esch it loses as many bytes as the last partial block of the message has. *)
Theorem C12_first_esch256 g pre n : xt_mem_ok (esch_xof_type 384 12) g -> xcalls (esch_xof_type 384 12) pre ->
  xcount (esch_xof_type 384 12) pre = 0 ->
  let msg := xmsg (esch_xof_type 384 12) pre in
  let j := length msg mod 16 in
  xafter (esch_xof_type 384 12) g (pre ++ [XSqueezeBuf 0]) [XSqueezeBuf n] = Ok [OBytes (skipn j (std_esch 3 true msg (j + n)))].
Proof. exact (esch_start 3 384 12 g pre n (or_introl eq_refl) eq_refl eq_refl). Qed.
Theorem C12_first_esch384 g pre n : xt_mem_ok (esch_xof_type 512 16) g -> xcalls (esch_xof_type 512 16) pre ->
  xcount (esch_xof_type 512 16) pre = 0 ->
  let msg := xmsg (esch_xof_type 512 16) pre in
  let j := length msg mod 16 in
  xafter (esch_xof_type 512 16) g (pre ++ [XSqueezeBuf 0]) [XSqueezeBuf n] = Ok [OBytes (skipn j (std_esch 4 true msg (j + n)))].
Proof. exact (esch_start 4 512 16 g pre n (or_intror eq_refl) eq_refl eq_refl). Qed.

(** As the first squeeze of Skein it discloses the secret chaining value: the next
    [8 * nw] bytes are that value, and the regular output follows. *)
Theorem C12_first_skein nw g pre n : In nw [4; 8; 16] -> xt_mem_ok (skein_xof_type nw) g -> xcalls (skein_xof_type nw) pre ->
  xcount (skein_xof_type nw) pre = 0 ->
  let G := skein_chain nw (2 ^ 64 - 1) (xparam (skein_xof_spec nw) pre) (xmsg (skein_xof_type nw) pre) in
  xafter (skein_xof_type nw) g (pre ++ [XSqueezeBuf 0]) [XSqueezeBuf n]
    = Ok [OBytes (firstn n (words_bytes 8 G) ++ skein_output nw G (n - 8 * nw))].
Proof. exact (skein_start nw g pre n). Qed.

(** As the first squeeze of BLAKE2X it discloses the root hash from byte [j] on, [j] the
    number of buffered bytes; the regular output follows. *)
Theorem C12_first_blake2x w g pre n : w = 64%N \/ w = 32%N -> xt_mem_ok (blake2x_xof_type w) g -> xcalls (blake2x_xof_type w) pre ->
  xcount (blake2x_xof_type w) pre = 0 ->
  let p := xparam (blake2x_xof_spec w) pre in
  let msg := xmsg (blake2x_xof_type w) pre in
  let j := held (length (key_pad w (pk p)) + length msg) (bb w) in
  xafter (blake2x_xof_type w) g (pre ++ [XSqueezeBuf 0]) [XSqueezeBuf n]
    = Ok [OBytes (firstn n (skipn j (x_root w (x_unknown w) (pk p) (ps p) (pp p) msg)) ++
                  blake2x_stream w (pk p) (ps p) (pp p) msg (n - (hb w - j)))].
Proof. exact (blake2x_start w g pre n). Qed.

(** The hypotheses can be met: a history with a restart, at each kind of position. *)
Definition demo (n : nat) : list (xof_op Empty_set) :=
  [XBase (Absorb FStr [7]%N); XSqueezeBuf 5; XBase (Reset true); XBase (Absorb FStr [1; 2; 3]%N); XSqueezeBuf 1; XSqueezeBuf n].
Example C12_example :
  sponge (shake_type 256) 136 (Some 0) /\
  xcalls (shake_type 256) (demo 4) /\ xcount (shake_type 256) (demo 4) = 5 /\ 5 mod 136 <> 0 /\
  xcalls (shake_type 256) (demo 135) /\ xcount (shake_type 256) (demo 135) = 136 /\
  xcalls (shake_type 256) (firstn 4 (demo 4)) /\ xcount (shake_type 256) (firstn 4 (demo 4)) = 0 /\
  xmsg (shake_type 256) (firstn 4 (demo 4)) = [1; 2; 3]%N.
Proof.
  split; [exact sponge_shake256|]. split; [repeat split; repeat constructor|]. split; [reflexivity|]. split; [discriminate|].
  split; [repeat split; repeat constructor|]. split; [reflexivity|]. split; [repeat split; repeat constructor|].
  split; reflexivity.
Qed.

Definition squeeze_theorems := (C12_types, C12_sponge_partial, C12_other_partial, C12_boundary, C12_first, C12_first_esch256,
  C12_first_esch384, C12_first_skein, C12_first_blake2x).
Print Assumptions squeeze_theorems.
