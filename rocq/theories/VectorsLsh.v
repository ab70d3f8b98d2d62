(** * Known answers for the LSH model from test/testvectors, with masked shifts. *)
From Coq Require Import String.
From Verif Require Import Base Hasher HasherSpec VecUtil MdState Lsh.
Open Scope string_scope. Open Scope N_scope.

Definition lsh_fresh (sem : shift_sem) (w hs : N) : res lsh_st :=
  fresh_of (lsh_ctor w hs (mkst (junk (32 + 16 * (lsh_NS w + 1))) (junk (lsh_bs w)) 3 77)) (lsh_init sem w).

Example kat_lsh256_224_0 : bytes_are (last_bytes (hash_outs (lsh Masked 32) (lsh_fresh Masked 32 224)
    [HBase (Absorb FPtr (unhex "")); HDigestIter])) "48a0d55b2b3d91f26e06f7110fe9ce8ea0e2656bbe344cb1c5930653" = true.
Proof. vm_compute. reflexivity. Qed.
Example kat_lsh256_256_1 : bytes_are (last_bytes (hash_outs (lsh Masked 32) (lsh_fresh Masked 32 256)
    [HBase (Absorb FPtr (unhex "00")); HDigestIter])) "cf25c47eb1efa77d2f7a1dfcc09f4d3acfe97dc77c317b43976e7b238da3dc71" = true.
Proof. vm_compute. reflexivity. Qed.
Example kat_lsh256_256_128 : bytes_are (last_bytes (hash_outs (lsh Masked 32) (lsh_fresh Masked 32 256)
    [HBase (Absorb FPtr (unhex "000102030405060708090a0b0c0d0e0f101112131415161718191a1b1c1d1e1f202122232425262728292a2b2c2d2e2f303132333435363738393a3b3c3d3e3f404142434445464748494a4b4c4d4e4f505152535455565758595a5b5c5d5e5f606162636465666768696a6b6c6d6e6f707172737475767778797a7b7c7d7e7f")); HDigestIter])) "2d44a90b60f696e8fa4bb25432e22deba1d9775cff5606dba2545d17e2d4bf9a" = true.
Proof. vm_compute. reflexivity. Qed.
Example kat_lsh512_224_2 : bytes_are (last_bytes (hash_outs (lsh Masked 64) (lsh_fresh Masked 64 224)
    [HBase (Absorb FPtr (unhex "0001")); HDigestIter])) "7d635b2711dfe386fac8d850af00ae795bb6203caa952d7bf1999277" = true.
Proof. vm_compute. reflexivity. Qed.
Example kat_lsh512_512_256 : bytes_are (last_bytes (hash_outs (lsh Masked 64) (lsh_fresh Masked 64 512)
    [HBase (Absorb FPtr (unhex "000102030405060708090a0b0c0d0e0f101112131415161718191a1b1c1d1e1f202122232425262728292a2b2c2d2e2f303132333435363738393a3b3c3d3e3f404142434445464748494a4b4c4d4e4f505152535455565758595a5b5c5d5e5f606162636465666768696a6b6c6d6e6f707172737475767778797a7b7c7d7e7f808182838485868788898a8b8c8d8e8f909192939495969798999a9b9c9d9e9fa0a1a2a3a4a5a6a7a8a9aaabacadaeafb0b1b2b3b4b5b6b7b8b9babbbcbdbebfc0c1c2c3c4c5c6c7c8c9cacbcccdcecfd0d1d2d3d4d5d6d7d8d9dadbdcdddedfe0e1e2e3e4e5e6e7e8e9eaebecedeeeff0f1f2f3f4f5f6f7f8f9fafbfcfdfeff")); HDigestIter])) "9c2bb4e6b45ba3350e3a22910514cdfeffa821e16fb39d29d923c9e5fd98045f4a9dfe83ec18048bdec1cd7f79319399e195b85ed217f25e21a25c7377f34ca0" = true.
Proof. vm_compute. reflexivity. Qed.
