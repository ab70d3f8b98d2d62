(** Known answers for the models (tests, not proofs); the strings are those of
    test/test.cc:145-152, 457-497, 411-417. *)
From Coq Require Import String.
From Verif Require Import Base Hasher VecUtil MdState Sha3 Shake Kmac KmacProof K12.
Local Open Scope string_scope.
Local Open Scope N_scope.

Definition kg (m : nat) : st := mkst (junk 25) (junk m) 77 99.
Example kat_sha3_224 : bytes_are (last_bytes (hash_outs sha3 (fresh_of (sha3_ctor 224 (kg 144)) sha3_init)
    [HBase (Absorb FStr fox); HDigestIter])) "d15dadceaa4d5d7bb3b48f446421d542e08ad8887305e28d58335795" = true.
Proof. vm_compute. reflexivity. Qed.
Example kat_cshake256 : bytes_are (last_bytes (xof_outs (cshake 256 24) (fresh_of (shake_ctor (kg 168) true 9) (shake_init 256 24))
    [XBase (SetParam CsCustomization (str "Customization")); XBase (Absorb FStr fox); XSqueezeIter 64]))
  "202501c95942b134284eb379fc95841dc2439da8ed7f5206fc8a9ce87b77d0cc6a0ee7431a69eb1295f4f5e292ad63b6f0163d624f9586dc43c0a2fe7b4136f5" = true.
Proof. vm_compute. reflexivity. Qed.
Definition kmac_key : list N := map N.of_nat (seq 64 32).
Example kat_kmac128 : bytes_are (last_bytes (hash_outs (kmac 128)
    (fresh_of (kmac_ctor 128 256 true (new_shake (kg 168) true 9)) (kmac_init 128))
    [HBase (SetParam KmKey kmac_key); HBase (Absorb FPtr [0; 1; 2; 3]); HDigestIter]))
  "e5780b0d3ea6f7d3a429c5706aa43a00fadbd7d49628839e3187243f456ee14e" = true.
Proof. vm_compute. reflexivity. Qed.
Example kat_kmac256 : bytes_are (last_bytes (hash_outs (kmac 256)
    (fresh_of (kmac_ctor 256 512 true (new_shake (kg 168) true 9)) (kmac_init 256))
    [HBase (SetParam KmCustomization (str "My Tagged Application")); HBase (SetParam KmKey kmac_key);
     HBase (Absorb FPtr [0; 1; 2; 3]); HDigestIter]))
  "20c570c31346f703c9ac36c61c03cb64c3970d0cfc787e9b79599d273a68d2f7f69d4cc3de9d104a351689f27cf6f5951f0103f33f4f24871024d9c27773a8dd" = true.
Proof. vm_compute. reflexivity. Qed.
Example kat_kmac128_xof : bytes_are (last_bytes (xof_outs (kmacxof 128)
    (fresh_of (kmac_ctor_static 128 0 true (new_shake (kg 168) true 9)) (kmac_init 128))
    [XBase (SetParam KmKey kmac_key); XBase (Absorb FPtr [0; 1; 2; 3]); XSqueezeIter 32]))
  "cd83740bbd92ccc8cf032b1481a0f4460e7ca9dd12b08a0c4031178bacd6ec35" = true.
Proof. vm_compute. reflexivity. Qed.
Definition k12_new (B : N) (R : nat) : res k12_st :=
  fresh_of (k12_ctor (new_shake (kg 168) true 9) (new_shake (kg 168) true 9) (junk (N.to_nat 8192)) 7 7 7 true) (k12_init B R).
Example kat_k12 : bytes_are (last_bytes (xof_outs (k12 128 12) (k12_new 128 12) [XBase (Absorb FStr fox); XSqueezeIter 64]))
  "b4f249b4f77c58df170aa4d1723db1127d82f1d98d25ddda561ada459cd11a489242e112dbfb1f99a1de1d7e830d457778a66d1dc2aa44d61a1da91655122fb7" = true.
Proof. vm_compute. reflexivity. Qed.
Example kat_m14 : bytes_are (last_bytes (xof_outs (k12 256 14) (k12_new 256 14) [XBase (Absorb FStr fox); XSqueezeIter 64]))
  "3611bcaa666347770dbffd4562f137c5adfe2e09f3c4268ef7c7d7c0e6c5d59c21fa67c4cfdba29e449c944b1a16c4583f2be8a75fb4f7649df6b98698708ecf" = true.
Proof. vm_compute. reflexivity. Qed.
