(** * Known answers for the BLAKE2p model: the examples in algorithm/blake2p.hpp and two
    messages of test/testvectors/blake2sp_256.txt and blake2bp_512.txt. *)
From Coq Require Import String.
From Verif Require Import Base Hasher HasherSpec VecUtil MdState Blake2 Blake2p.
Open Scope string_scope. Open Scope N_scope.

Definition b2pg (w : N) : b2p_mem :=
  let g := (mkst (junk 8) (junk (b2_bs w)) 3 77, 9) in
  mkb2pm g (repeat g (bp_P w)) (junk 512) 5 6.
Definition b2p_fresh (w : N) (hs : N) : res b2p_st := fresh_of (b2p_ctor w hs (b2pg w)) (b2p_init w).

Example kat_blake2bp : res_is (hexof (blake2p 64) (b2p_fresh 64 256) fox)
  "4184d2acbcce03adc3b8f2fccd1ae3d6ced3aa0b051ae648f6986bb46579a0cf" = true.
Proof. vm_compute. reflexivity. Qed.
Example kat_blake2sp : res_is (hexof (blake2p 32) (b2p_fresh 32 256) fox)
  "cf192976714bb648e72b29fa90e6bf0fbc5bf2efe7d5c26ed8ff34e855368691" = true.
Proof. vm_compute. reflexivity. Qed.
Example kat_blake2bp_empty : res_is (hexof (blake2p 64) (b2p_fresh 64 512) [])
  "b5ef811a8038f70b628fa8b294daae7492b1ebe343a80eaabbf1f6ae664dd67b9d90b0120791eab81dc96985f28849f6a305186a85501b405114bfa678df9380" = true.
Proof. vm_compute. reflexivity. Qed.
Example kat_blake2sp_key : bytes_are (last_bytes (hash_outs (blake2p 32) (b2p_fresh 32 256)
    [HBase (SetParam B2Key (map N.of_nat (seq 0 32))); HBase (Absorb FPtr (map N.of_nat (seq 0 100)));
     HBase (Absorb FPtr (map N.of_nat (seq 100 155))); HDigestIter]))
  "0c8a36597d7461c63a94732821c941856c668376606c86a52de0ee4104c615db" = true.
Proof. vm_compute. reflexivity. Qed.
