(** * What blake2bp and blake2sp compute once reset(true) has been called (C05, C25).

    Not a standard: blake2_provider.hpp:297-299 zeroes the tree parameters of all nodes and
    nothing restores them. The message is still dealt out to the leaves, but every node,
    the root included, is then a keyed BLAKE2 hash in sequential mode. *)
From Verif Require Import Base SpecCommon HasherSpec Blake2Spec Blake2pSpec.

(** All bytes of the final chaining value of BLAKE2 with digest length [nn]. *)
Definition seq_node (w nn : N) (key salt pers data : list N) : list N :=
  blake2_tree w false (seq_tree nn key 0) salt pers (key_pad w key ++ data).
Definition blake2p_lost (w nn : N) (key salt pers msg : list N) : list N :=
  blake2_hash w nn key salt pers
    (flat_map (fun i => seq_node w nn key salt pers (leaf_part w i msg)) (seq 0 (degree w))).
