(** * Known answers for the Streebog model from test/testvectors. *)
From Coq Require Import String.
From Verif Require Import Base Hasher HasherSpec VecUtil MdState Streebog.
Open Scope string_scope. Open Scope N_scope.

Definition streebog_fresh (hs : N) : res sb_st := fresh_of (sb_ctor hs (mkst (junk 16) (junk 64) 3 77)) sb_init.

Example kat_streebog256_63 : bytes_are (last_bytes (hash_outs streebog (streebog_fresh 256)
    [HBase (Absorb FPtr (unhex "303132333435363738393031323334353637383930313233343536373839303132333435363738393031323334353637383930313233343536373839303132")); HDigestIter])) "9d151eefd8590b89daa6ba6cb74af9275dd051026bb149a452fd84e5e57b5500" = true.
Proof. vm_compute. reflexivity. Qed.
Example kat_streebog256_72 : bytes_are (last_bytes (hash_outs streebog (streebog_fresh 256)
    [HBase (Absorb FPtr (unhex "d1e520e2e5f2f0e82c20d1f2f0e8e1eee6e820e2edf3f6e82c20e2e5fef2fa20f120eceef0ff20f1f2f0e5ebe0ece820ede020f5f0e0e1f0fbff20efebfaeafb20c8e3eef0e5e2fb")); HDigestIter])) "9dd2fe4e90409e5da87f53976d7405b0c0cac628fc669a741d50063c557e8f50" = true.
Proof. vm_compute. reflexivity. Qed.
Example kat_streebog256_64 : bytes_are (last_bytes (hash_outs streebog (streebog_fresh 256)
    [HBase (Absorb FPtr (unhex "00000000000000000000000000000000000000000000000000000000000000000000000000000000000000000000000000000000000000000000000000000000")); HDigestIter])) "df1fda9ce83191390537358031db2ecaa6aa54cd0eda241dc107105e13636b95" = true.
Proof. vm_compute. reflexivity. Qed.
Example kat_streebog512_63 : bytes_are (last_bytes (hash_outs streebog (streebog_fresh 512)
    [HBase (Absorb FPtr (unhex "303132333435363738393031323334353637383930313233343536373839303132333435363738393031323334353637383930313233343536373839303132")); HDigestIter])) "1b54d01a4af5b9d5cc3d86d68d285462b19abc2475222f35c085122be4ba1ffa00ad30f8767b3a82384c6574f024c311e2a481332b08ef7f41797891c1646f48" = true.
Proof. vm_compute. reflexivity. Qed.
Example kat_streebog512_72 : bytes_are (last_bytes (hash_outs streebog (streebog_fresh 512)
    [HBase (Absorb FPtr (unhex "d1e520e2e5f2f0e82c20d1f2f0e8e1eee6e820e2edf3f6e82c20e2e5fef2fa20f120eceef0ff20f1f2f0e5ebe0ece820ede020f5f0e0e1f0fbff20efebfaeafb20c8e3eef0e5e2fb")); HDigestIter])) "1e88e62226bfca6f9994f1f2d51569e0daf8475a3b0fe61a5300eee46d961376035fe83549ada2b8620fcd7c496ce5b33f0cb9dddc2b6460143b03dabac9fb28" = true.
Proof. vm_compute. reflexivity. Qed.
Example kat_streebog512_64 : bytes_are (last_bytes (hash_outs streebog (streebog_fresh 512)
    [HBase (Absorb FPtr (unhex "00000000000000000000000000000000000000000000000000000000000000000000000000000000000000000000000000000000000000000000000000000000")); HDigestIter])) "b0fd29ac1b0df441769ff3fdb8dc564df67721d6ac06fb28ceffb7bbaa7948c6c014ac999235b58cb26fb60fb112a145d7b4ade9ae566bf2611402c552d20db7" = true.
Proof. vm_compute. reflexivity. Qed.
