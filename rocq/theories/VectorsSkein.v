(** * Known answers for the Skein model from test/testvectors and test/test.cc. *)
From Coq Require Import String.
From Verif Require Import Base Hasher HasherSpec VecUtil MdState Skein.
Open Scope string_scope. Open Scope N_scope.

Definition sk_g (nw : nat) : st := mkst (junk (2 + nw)) (junk (8 * nw)) 3 77.
Definition sk_fresh (nw : nat) (hs : N) : res sk_st :=
  fresh_of (sk_ctor hs (sk_g nw) (junk nw) true) (sk_init nw false).
Definition skx_fresh (nw : nat) (hs : N) : res sk_st :=
  fresh_of (sk_ctor hs (sk_g nw) (junk nw) true) (sk_init nw true).

Example kat_skein256_256_0 : bytes_are (last_bytes (hash_outs (skein 4) (sk_fresh 4 256)
    [HBase (Absorb FPtr (unhex "")); HDigestIter])) "c8877087da56e072870daa843f176e9453115929094c3a40c463a196c29bf7ba" = true.
Proof. vm_compute. reflexivity. Qed.
Example kat_skein256_224_33 : bytes_are (last_bytes (hash_outs (skein 4) (sk_fresh 4 224)
    [HBase (Absorb FPtr (unhex "DE8F1B3FAA4B7040ED4563C3B8E598253178E87E4D0DF75E4FF2F2DEDD5A0BE046")); HDigestIter])) "f90a54822806937a0f37bede4dc35560bb93d08684a165fca74c82bd" = true.
Proof. vm_compute. reflexivity. Qed.
Example kat_skein512_512_64 : bytes_are (last_bytes (hash_outs (skein 8) (sk_fresh 8 512)
    [HBase (Absorb FPtr (unhex "00000000000000000000000000000000000000000000000000000000000000000000000000000000000000000000000000000000000000000000000000000000")); HDigestIter])) "33f7457de06569e7cf5fd1edd50ccfe1d5f166429e75ddbe54a5b7e247030dd912f0dc5ab6012f59ce9203abd82b316df67d5c6f009a18ba84db030146da99db" = true.
Proof. vm_compute. reflexivity. Qed.
Example kat_skein512_384_65 : bytes_are (last_bytes (hash_outs (skein 8) (sk_fresh 8 384)
    [HBase (Absorb FPtr (unhex "16E8B3D8F988E9BB04DE9C96F2627811C973CE4A5296B4772CA3EEFEB80A652BDF21F50DF79F32DB23F9F73D393B2D57D9A0297F7A2F2E79CFDA39FA393DF1AC00")); HDigestIter])) "682de91050385c47497c05d0aebc9a6611d21ee9fde7bf7393de821662d6f41da566715827d73133bbaf5dd10e7bb8ab" = true.
Proof. vm_compute. reflexivity. Qed.
Example kat_skein1024_1024_128 : bytes_are (last_bytes (hash_outs (skein 16) (sk_fresh 16 1024)
    [HBase (Absorb FPtr (unhex "0000000000000000000000000000000000000000000000000000000000000000000000000000000000000000000000000000000000000000000000000000000000000000000000000000000000000000000000000000000000000000000000000000000000000000000000000000000000000000000000000000000000000000")); HDigestIter])) "8118d174a0bc09505a2f677c6dcbc1b8c5a7c6720f6c59d60afbc7cd6f64e20a92b64095c39edb56a2f47c2683c5116ff358fd969e76d44c1f50c92b26171a33fa9eebaf0d1f320d4144bc97ea00d59f00598643439cc13bbdaddde6671a89e9a40d3002a29300e7c665b606d8b7167254787c867be8141a56e8d1145865ccb9" = true.
Proof. vm_compute. reflexivity. Qed.
Example kat_skein1024_256_5 : bytes_are (last_bytes (hash_outs (skein 16) (sk_fresh 16 256)
    [HBase (Absorb FPtr (unhex "21F134AC57")); HDigestIter])) "07ca3c0473656319accb09a6015e8e793f61655cebfc6cd2ee0422ae33603f0a" = true.
Proof. vm_compute. reflexivity. Qed.
Example kat_skein256_2056 : bytes_are (last_bytes (hash_outs (skein 4) (sk_fresh 4 2056)
    [HBase (Absorb FPtr (unhex "FBD17C26B61A82E12E125F0D459B96C91AB4837DFF22B39B78439430CDFC5DC878BB393A1A5F79BEF30995A85A12923339BA8AB7D8FC6DC5FEC6F4ED22C122BBE7EB61981892966DE5CEF576F71FC7A80D14DAB2D0C03940B95B9FB3A727C66A6E1FF0DC311B9AA21A3054484802154C1826C2A27A0914152AEB76F1168D4410")); HDigestIter])) "aef6dd3b351a3dca5b43813459f0a7c41a243c3b3b608fc649a5214559288746a2c9548c2df31e47d2c52be8cf971cc5a9479ecef388b2623cd292fa77e5aeb59bafb88229369d9806a0a0b1db43fef7d41f967e80b0cce86734042607fd75c7743367c98eda13a6a55c6a891f869e83e73b9db413fccfc86f7904ccd9cc3984eb35652ee6280fd0cd71ec3e97b57c4255b628e64d1477f1e07b76cffcd1b1d187d31e32b1c2ed0c1f15a1718462cfd3c5239854094c90bc2a7e8f84948bbcbd03b731d9a7f4cececabc119a101f6f59e4b5b7b29318d8487c33d51057ed82d6d7ea3114f3a43e90f0060a2dd9d2d5f3fe5c4b536f7d172cdf0c318746c499798d" = true.
Proof. vm_compute. reflexivity. Qed.
Example kat_skein256_xof : bytes_are (last_bytes (xof_outs (skein_xof 4) (skx_fresh 4 8)
    [XBase (Absorb FPtr (unhex "119713CC83EEEF")); XSqueezeIter 128])) "c0a428aa19d7046bc21efc29a1c241acda8d63b3e9ede2f6484c1d2d5714e81e3d6780c4beb0ee9a0fa850ff04c7bcc1b39258732e796c2254a6389d2e8e1630587e8dff0f737b008e485ce81b54ee5423206048bf69a4584a9665b9aadcfa9bcf47b02b29fb8ffb4a8547cf6122c48ad0984554fe4020cfc7087e7f57ef701a" = true.
Proof. vm_compute. reflexivity. Qed.
Example kat_skein512_xof : bytes_are (last_bytes (xof_outs (skein_xof 8) (skx_fresh 8 8)
    [XBase (Absorb FPtr (unhex "94F7CA8E1A54234C6D53CC734BB3D3150C8BA8C5F880EAB8D25FED13793A9701EBE320509286FD8E422E931D99C98DA4DF7E70AE447BAB8CFFD92382D8A77760A259FC4FBD72")); XSqueezeIter 32])) "a20536e0c1ab9888b42af26a8badf2f77aba3ac1ef7f8db99308adc318b6fef9" = true.
Proof. vm_compute. reflexivity. Qed.
(** test/test.cc:376-378 *)
Example kat_skein512_pn : bytes_are (last_bytes (hash_outs (skein 8) (sk_fresh 8 256)
    [HBase (SetParam SkPers (str "Skein")); HBase (SetParam SkNonce (str "ABCD")); HBase (Absorb FStr fox); HDigestIter]))
    "d08265088e1c46f6c0a7c295747b21e5c4a7750bee699918db5ac999002a28e4" = true.
Proof. vm_compute. reflexivity. Qed.
(** test/test.cc:384-386 *)
Example kat_skein512_pnk : bytes_are (last_bytes (hash_outs (skein 8) (sk_fresh 8 256)
    [HBase (SetParam SkPers (str "Skein")); HBase (SetParam SkNonce (str "ABCD")); HBase (SetParam SkKey (str "Key")); HBase (Absorb FStr fox); HDigestIter]))
    "e509a1c002625e84e0edae9c213732b4c57604f06ed78c99248cef05707ecaa5" = true.
Proof. vm_compute. reflexivity. Qed.
