(** * Known answers for the Groestl and Kupyna models from test/testvectors. *)
From Coq Require Import String.
From Verif Require Import Base Hasher HasherSpec VecUtil MdState TTable Groestl Kupyna.
Open Scope string_scope. Open Scope N_scope.

Definition groestl_fresh (hs : N) : res cl_st := fresh_of (gr_ctor hs (mkst (junk 16) (junk 128) 3 77)) gr_init.
Definition kupyna_fresh (hs : N) : res cl_st := fresh_of (ku_ctor hs (mkst (junk 16) (junk 128) 3 77)) ku_init.

Example kat_groestl224_55 : bytes_are (last_bytes (hash_outs groestl (groestl_fresh 224)
    [HBase (Absorb FPtr (unhex "DE286BA4206E8B005714F80FB1CDFAEBDE91D29F84603E4A3EBC04686F99A46C9E880B96C574825582E8812A26E5A857FFC6579F63742F")); HDigestIter])) "01c9cc2e89a5572223a1d7d2848ee77a2d22daf16ee0b9a02cb8bf1c" = true.
Proof. vm_compute. reflexivity. Qed.
Example kat_groestl256_56 : bytes_are (last_bytes (hash_outs groestl (groestl_fresh 256)
    [HBase (Absorb FPtr (unhex "EEBCC18057252CBF3F9C070F1A73213356D5D4BC19AC2A411EC8CDEEE7A571E2E20EAF61FD0C33A0FFEB297DDB77A97F0A415347DB66BCAF")); HDigestIter])) "1db8b9b50186a8a8a122d9a861ed45b9d01aaf8256bf2c8956b09fb166c92f6d" = true.
Proof. vm_compute. reflexivity. Qed.
Example kat_groestl256_64 : bytes_are (last_bytes (hash_outs groestl (groestl_fresh 256)
    [HBase (Absorb FPtr (unhex "E926AE8B0AF6E53176DBFFCC2A6B88C6BD765F939D3D178A9BDE9EF3AA131C61E31C1E42CDFAF4B4DCDE579A37E150EFBEF5555B4C1CB40439D835A724E2FAE7")); HDigestIter])) "5adebbfdf6fd6178892b39a97a32b29fb605f97e1e5c3bbcf624a0e9cd72d145" = true.
Proof. vm_compute. reflexivity. Qed.
Example kat_groestl384_119 : bytes_are (last_bytes (hash_outs groestl (groestl_fresh 384)
    [HBase (Absorb FPtr (unhex "3C9B46450C0F2CAE8E3823F8BDB4277F31B744CE2EB17054BDDC6DFF36AF7F49FB8A2320CC3BDF8E0A2EA29AD3A55DE1165D219ADEDDB5175253E2D1489E9B6FDD02E2C3D3A4B54D60E3A47334C37913C5695378A669E9B72DEC32AF5434F93F46176EBF044C4784467C700470D0C0B40C8A088C815816")); HDigestIter])) "bb1b06695e85a70f9b889eef89e7d9f1c20236aa6453cd939b80b4667b49d7dc0c2a252ba90f77e0639f32689560cc72" = true.
Proof. vm_compute. reflexivity. Qed.
Example kat_groestl512_120 : bytes_are (last_bytes (hash_outs groestl (groestl_fresh 512)
    [HBase (Absorb FPtr (unhex "D1E654B77CB155F5C77971A64DF9E5D34C26A3CAD6C7F6B300D39DEB1910094691ADAA095BE4BA5D86690A976428635D5526F3E946F7DC3BD4DBC78999E653441187A81F9ADCD5A3C5F254BC8256B0158F54673DCC1232F6E918EBFC6C51CE67EAEB042D9F57EEC4BFE910E169AF78B3DE48D137DF4F2840")); HDigestIter])) "5146d9b44b0bf31099b11835cc8bb4bc3b6370de7932cd77c6d4468b0a847de13758de22f3f223522e7fe9d722ae044b13012ec5dd7c34a9fa0d3c61cb9398b9" = true.
Proof. vm_compute. reflexivity. Qed.
Example kat_groestl512_200 : bytes_are (last_bytes (hash_outs groestl (groestl_fresh 512)
    [HBase (Absorb FPtr (unhex "8C3798E51BC68482D7337D3ABB75DC9FFE860714A9AD73551E120059860DDE24AB87327222B64CF774415A70F724CDF270DE3FE47DDA07B61C9EF2A3551F45A5584860248FABDE676E1CD75F6355AA3EAEABE3B51DC813D9FB2EAA4F0F1D9F834D7CAD9C7C695AE84B329385BC0BEF895B9F1EDF44A03D4B410CC23A79A6B62E4F346A5E8DD851C2857995DDBF5B2D717AEB847310E1F6A46AC3D26A7F9B44985AF656D2B7C9406E8A9E8F47DCB4EF6B83CAACF9AEFB6118BFCFF7E44BEF6937EBDDC89186839B77")); HDigestIter])) "cd21a8bc35b8e8ba0255bb4ffc53263003566b203710401c4accaca06f85b56620e8b08787278ce8dfdd1446e47344a94926598d2d3bc06787aa2f1b72bc804c" = true.
Proof. vm_compute. reflexivity. Qed.
Example kat_kupyna256_64 : bytes_are (last_bytes (hash_outs kupyna (kupyna_fresh 256)
    [HBase (Absorb FPtr (unhex "000102030405060708090A0B0C0D0E0F101112131415161718191A1B1C1D1E1F202122232425262728292A2B2C2D2E2F303132333435363738393A3B3C3D3E3F")); HDigestIter])) "08f4ee6f1be6903b324c4e27990cb24ef69dd58dbe84813ee0a52f6631239875" = true.
Proof. vm_compute. reflexivity. Qed.
Example kat_kupyna256_95 : bytes_are (last_bytes (hash_outs kupyna (kupyna_fresh 256)
    [HBase (Absorb FPtr (unhex "000102030405060708090A0B0C0D0E0F101112131415161718191A1B1C1D1E1F202122232425262728292A2B2C2D2E2F303132333435363738393A3B3C3D3E3F404142434445464748494A4B4C4D4E4F505152535455565758595A5B5C5D5E")); HDigestIter])) "1075c8b0cb910f116bda5fa1f19c29cf8ecc75caff7208ba2994b68fc56e8d16" = true.
Proof. vm_compute. reflexivity. Qed.
Example kat_kupyna256_0 : bytes_are (last_bytes (hash_outs kupyna (kupyna_fresh 256)
    [HBase (Absorb FPtr (unhex "")); HDigestIter])) "cd5101d1ccdf0d1d1f4ada56e888cd724ca1a0838a3521e7131d4fb78d0f5eb6" = true.
Proof. vm_compute. reflexivity. Qed.
Example kat_kupyna512_128 : bytes_are (last_bytes (hash_outs kupyna (kupyna_fresh 512)
    [HBase (Absorb FPtr (unhex "000102030405060708090A0B0C0D0E0F101112131415161718191A1B1C1D1E1F202122232425262728292A2B2C2D2E2F303132333435363738393A3B3C3D3E3F404142434445464748494A4B4C4D4E4F505152535455565758595A5B5C5D5E5F606162636465666768696A6B6C6D6E6F707172737475767778797A7B7C7D7E7F")); HDigestIter])) "76ed1ac28b1d0143013ffa87213b4090b356441263c13e03fa060a8cada32b979635657f256b15d5fca4a174de029f0b1b4387c878fcc1c00e8705d783fd7ffe" = true.
Proof. vm_compute. reflexivity. Qed.
Example kat_kupyna512_64 : bytes_are (last_bytes (hash_outs kupyna (kupyna_fresh 512)
    [HBase (Absorb FPtr (unhex "000102030405060708090A0B0C0D0E0F101112131415161718191A1B1C1D1E1F202122232425262728292A2B2C2D2E2F303132333435363738393A3B3C3D3E3F")); HDigestIter])) "3813e2109118cdfb5a6d5e72f7208dccc80a2dfb3afdfb02f46992b5edbe536b3560dd1d7e29c6f53978af58b444e37ba685c0dd910533ba5d78efffc13de62a" = true.
Proof. vm_compute. reflexivity. Qed.
