(** * C62: outcomes depend on lengths only.

    [hany] and [xany] admit every sequence of calls with byte arguments (AnyCalls.v). *)
From Verif Require Import Base Hasher Library LibraryTypes AnyCalls ShapeSpec ShapeProof.
From Verif Require Import Md5 Blake2 Kmac Shake.

(** C62: whether a call throws and how many bytes it returns is what the documentation says
    from the lengths of its own arguments; the calls before do not matter. *)
Theorem C62_outcome P (T : htype P) : library T -> forall g post pre, ht_mem_ok T g -> hany pre -> hany post ->
  exists r, after T g pre post = Ok r /\
    map out_shape r = map (hash_shape (fun q n => ht_accepts T q (repeat 0 n)) (ht_size T)) post.
Proof. exact (all_shapes P T). Qed.
Theorem C62_outcome_xof P (T : xtype P) : xlibrary T -> forall g post pre, xt_mem_ok T g -> xany pre -> xany post ->
  exists r, xafter T g pre post = Ok r /\
    map out_shape r = map (xof_shape (fun q n => xt_accepts T q (repeat 0 n))) post.
Proof. exact (all_xshapes P T). Qed.

(** C62: valid and invalid values of parameters differ in their lengths. *)
Theorem C62_accepts P (T : htype P) : library T -> forall q v,
  ht_accepts T q v = ht_accepts T q (repeat 0 (length v)).
Proof. exact (accepts_length P T). Qed.
Theorem C62_accepts_xof P (T : xtype P) : xlibrary T -> forall q v,
  xt_accepts T q v = xt_accepts T q (repeat 0 (length v)).
Proof. exact (xaccepts_length P T). Qed.

(** C62: two runs of the same calls with other bytes, after any calls, in any memory. *)
Theorem C62_lengths_only P (T : htype P) : library T -> forall g g' pre pre' post post',
  ht_mem_ok T g -> ht_mem_ok T g' -> hany pre -> hany pre' -> hany post -> hany post' ->
  Forall2 hash_like post post' ->
  exists r r', after T g pre post = Ok r /\ after T g' pre' post' = Ok r' /\ map out_shape r = map out_shape r'.
Proof. exact (lengths_only P T). Qed.
Theorem C62_lengths_only_xof P (T : xtype P) : xlibrary T -> forall g g' pre pre' post post',
  xt_mem_ok T g -> xt_mem_ok T g' -> xany pre -> xany pre' -> xany post -> xany post' ->
  Forall2 xof_like post post' ->
  exists r r', xafter T g pre post = Ok r /\ xafter T g' pre' post' = Ok r' /\ map out_shape r = map out_shape r'.
Proof. exact (xlengths_only P T). Qed.

(** Two keys for BLAKE2b-256, a salt that is too short, a buffer that is too short. *)
Definition shape_calls (key : list N) : list (hash_op (p_param (blake2 64 BHash))) :=
  [HBase (SetParam B2Key key); HBase (SetParam B2Salt [1; 2; 3]); HBase (Absorb FIter [5]);
   HDigestBuf (repeat 0 31); HDigestBuf (repeat 0 40); HHexDigest].
Example shape_example : hany (shape_calls [1; 2]) /\ Forall2 hash_like (shape_calls [1; 2]) (shape_calls [7; 8]) /\
  map (hash_shape (fun q n => b2_accepts 64 q (repeat 0 n)) 32) (shape_calls [1; 2])
  = [SDone; SThrow; SDone; SThrow; SBytes 40; SBytes 64].
Proof.
  split; [|split; [|reflexivity]].
  - repeat constructor.
  - repeat constructor.
Qed.

Definition C62_all := (@C62_outcome, @C62_outcome_xof, @C62_accepts, @C62_accepts_xof, @C62_lengths_only, @C62_lengths_only_xof).
Print Assumptions C62_all.
