(** * Known answers for the JH model from test/testvectors. *)
From Coq Require Import String.
From Verif Require Import Base Hasher HasherSpec VecUtil MdState Jh.
Open Scope string_scope. Open Scope N_scope.

Definition jh_fresh (hs : N) : res jh_st := fresh_of (jh_ctor hs (mkst (junk 16) (junk 64) 3 77)) jh_init.

Example kat_jh224_0 : bytes_are (last_bytes (hash_outs jh (jh_fresh 224)
    [HBase (Absorb FPtr (unhex "")); HDigestIter])) "2c99df889b019309051c60fecc2bd285a774940e43175b76b2626630" = true.
Proof. vm_compute. reflexivity. Qed.
Example kat_jh256_5 : bytes_are (last_bytes (hash_outs jh (jh_fresh 256)
    [HBase (Absorb FPtr (unhex "21F134AC57")); HDigestIter])) "3a550fcd062011d809cfe08aef1735089385025fa983a4c1b1ef00a85c474641" = true.
Proof. vm_compute. reflexivity. Qed.
Example kat_jh256_63 : bytes_are (last_bytes (hash_outs jh (jh_fresh 256)
    [HBase (Absorb FPtr (unhex "F57C64006D9EA761892E145C99DF1B24640883DA79D9ED5262859DCDA8C3C32E05B03D984F1AB4A230242AB6B78D368DC5AAA1E6D3498D53371E84B0C1D4BA")); HDigestIter])) "98f236f14420fa4d6d7187d429f446b28a82c359e7d0ff59d0efc983bb224ad9" = true.
Proof. vm_compute. reflexivity. Qed.
Example kat_jh384_64 : bytes_are (last_bytes (hash_outs jh (jh_fresh 384)
    [HBase (Absorb FPtr (unhex "E926AE8B0AF6E53176DBFFCC2A6B88C6BD765F939D3D178A9BDE9EF3AA131C61E31C1E42CDFAF4B4DCDE579A37E150EFBEF5555B4C1CB40439D835A724E2FAE7")); HDigestIter])) "b605535f1860879c2e7356c762967bc67d6f80a68a85194daf0057e3adf3baffd3b07ca1bf3bd6c4b76f3cafc901ce6b" = true.
Proof. vm_compute. reflexivity. Qed.
Example kat_jh512_70 : bytes_are (last_bytes (hash_outs jh (jh_fresh 512)
    [HBase (Absorb FPtr (unhex "94F7CA8E1A54234C6D53CC734BB3D3150C8BA8C5F880EAB8D25FED13793A9701EBE320509286FD8E422E931D99C98DA4DF7E70AE447BAB8CFFD92382D8A77760A259FC4FBD72")); HDigestIter])) "9a80ea1d6aa97286dbe15a4ab5573d342992dd481218b2efff2a0f65f672a2f88483a75ef57595f1cc5888396f7ed0da51d1e52722dff84cc9501bbbd3ace1cc" = true.
Proof. vm_compute. reflexivity. Qed.
