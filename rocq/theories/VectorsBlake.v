(** * Known answers for the BLAKE model from test/testvectors/blake*.txt. *)
From Coq Require Import String.
From Verif Require Import Base Hasher HasherSpec VecUtil MdState Blake.
Open Scope string_scope. Open Scope N_scope.

Definition blake_fresh (hs : N) : res bl_st := fresh_of (bl_ctor hs (mkst (junk 12) (junk 128) 3 77)) bl_init.

Example kat_blake224_55 : bytes_are (last_bytes (hash_outs blake (blake_fresh 224)
    [HBase (Absorb FPtr (unhex "DE286BA4206E8B005714F80FB1CDFAEBDE91D29F84603E4A3EBC04686F99A46C9E880B96C574825582E8812A26E5A857FFC6579F63742F")); HDigestIter])) "fa083b9d06432539780b306f8869c12ebc8c893e9308a208b337182d" = true.
Proof. vm_compute. reflexivity. Qed.
Example kat_blake256_55 : bytes_are (last_bytes (hash_outs blake (blake_fresh 256)
    [HBase (Absorb FPtr (unhex "DE286BA4206E8B005714F80FB1CDFAEBDE91D29F84603E4A3EBC04686F99A46C9E880B96C574825582E8812A26E5A857FFC6579F63742F")); HDigestIter])) "ad373db6defaefbeeff69e78e220a4ca9ef510ad5f85f0c698a749e0e6dcaeb5" = true.
Proof. vm_compute. reflexivity. Qed.
Example kat_blake256_64 : bytes_are (last_bytes (hash_outs blake (blake_fresh 256)
    [HBase (Absorb FPtr (unhex "E926AE8B0AF6E53176DBFFCC2A6B88C6BD765F939D3D178A9BDE9EF3AA131C61E31C1E42CDFAF4B4DCDE579A37E150EFBEF5555B4C1CB40439D835A724E2FAE7")); HDigestIter])) "f76305a1bb52917ce0882111f20f57eb51ee545cf064ce331a61d35ef17272c3" = true.
Proof. vm_compute. reflexivity. Qed.
Example kat_blake256_salt : bytes_are (last_bytes (hash_outs blake (blake_fresh 256)
    [HBase (SetParam BlSalt (unhex "000102030405060708090A0B0C0D0E0F")); HBase (Absorb FPtr (unhex "2FDA311DBBA27321C5329510FAE6948F03210B76D43E7448D1689A063877B6D14C4F6D0EAA96C150051371F7DD8A4119F7DA5C483CC3E6723C01FB7D")); HDigestIter])) "2da5d3c52d045b00536e991328a7cc846486c2c1b6661e26ecbf924d19b1094e" = true.
Proof. vm_compute. reflexivity. Qed.
Example kat_blake384_111 : bytes_are (last_bytes (hash_outs blake (blake_fresh 384)
    [HBase (Absorb FPtr (unhex "F690A132AB46B28EDFA6479283D6444E371C6459108AFD9C35DBD235E0B6B6FF4C4EA58E7554BD002460433B2164CA51E868F7947D7D7A0D792E4ABF0BE5F450853CC40D85485B2B8857EA31B5EA6E4CCFA2F3A7EF3380066D7D8979FDAC618AAD3D7E886DEA4F005AE4AD05E5065F")); HDigestIter])) "10b485a54f643131d18647ed8ddebd36f3d403ccf658d477dceab018b349814b90939ed19b5978f3e6a980e94b966b5d" = true.
Proof. vm_compute. reflexivity. Qed.
Example kat_blake384_salt : bytes_are (last_bytes (hash_outs blake (blake_fresh 384)
    [HBase (SetParam BlSalt (unhex "000102030405060708090A0B0C0D0E0F101112131415161718191A1B1C1D1E1F")); HBase (Absorb FPtr (unhex "2B6DB7CED8665EBE9DEB080295218426BDAA7C6DA9ADD2088932CDFFBAA1C14129BCCDD70F369EFB149285858D2B1D155D14DE2FDB680A8B027284055182A0CAE275234CC9C92863C1B4AB66F304CF0621CD54565F5BFF461D3B461BD40DF28198E3732501B4860EADD503D26D6E69338F4E0456E9E9BAF3D827AE685FB1D817")); HDigestIter])) "f611934cd4f0588e4d71683edbefd218ca347056e4eccdba8026b87c1cc919bdff5645e28e185db2bdf4e43165fc6e8e" = true.
Proof. vm_compute. reflexivity. Qed.
Example kat_blake512_112 : bytes_are (last_bytes (hash_outs blake (blake_fresh 512)
    [HBase (Absorb FPtr (unhex "58D6A99BC6458824B256916770A8417040721CCCFD4B79EACD8B65A3767CE5BA7E74104C985AC56B8CC9AEBD16FEBD4CDA5ADB130B0FF2329CC8D611EB14DAC268A2F9E633C99DE33997FEA41C52A7C5E1317D5B5DAED35EBA7D5A60E45D1FA7EAABC35F5C2B0A0F2379231953322C4E")); HDigestIter])) "3909717a6f65c8e8cdc78dc446f53a44ea9d08993a83a51edeba291af3a0fa874ebcd758293a70f4b660bc3b7909004c73e8755dd72e12db2d60d102d9b2dd60" = true.
Proof. vm_compute. reflexivity. Qed.
