(** * BLAKE2bp and BLAKE2sp: the tree mode of the BLAKE2 paper, section 2.10 (four leaves
    for BLAKE2bp, eight for BLAKE2sp). Independent of the model. *)
From Verif Require Import Base SpecCommon HasherSpec Blake2Spec.

(** Number of leaves. *)
Definition degree (w : N) : nat := if w =? 64 then 4 else 8.

(** The bytes of the message that belong to leaf [i]: byte [k] lies in block
    [k / bb w], and blocks are dealt out to the leaves in turn. *)
Definition leaf_part (w : N) (i : nat) (msg : list N) : list N :=
  map snd (filter (fun x => ((fst x / bb w) mod degree w =? i)%nat) (combine (seq 0 (length msg)) msg)).

(** Parameters: digest length, key length, fanout, depth 2, unlimited leaf length, node
    offset, node depth, inner length. *)
Definition par_tree (w nn : N) (klen : nat) (noff ndepth : N) : tree :=
  mktree nn (N.of_nat klen) (N.of_nat (degree w)) 2 0 noff ndepth (N.of_nat (hb w)).
Definition leaf_hash (w nn : N) (key salt pers msg : list N) (i : nat) : list N :=
  blake2_tree w (i =? degree w - 1)%nat (par_tree w nn (length key) (N.of_nat i) 0) salt pers
    (key_pad w key ++ leaf_part w i msg).
Definition blake2p_hash (w nn : N) (key salt pers msg : list N) : list N :=
  firstn (N.to_nat nn)
    (blake2_tree w true (par_tree w nn (length key) 0 1) salt pers
      (flat_map (leaf_hash w nn key salt pers msg) (seq 0 (degree w)))).
