(** * Known answers for the ECHO model from test/testvectors. *)
From Coq Require Import String.
From Verif Require Import Base Hasher HasherSpec VecUtil MdState Echo.
Open Scope string_scope. Open Scope N_scope.

Definition ec_fresh (hs : N) : res ec_st :=
  fresh_of (ec_ctor hs (mkst (junk (ec_nv hs)) (junk (ec_bs hs)) 3 77)) ec_init.

Example kat_echo224_0 : bytes_are (last_bytes (hash_outs echo (ec_fresh 224)
    [HBase (Absorb FPtr (unhex "")); HBase (Absorb FPtr (unhex "")); HDigestIter]))
    "17da087595166f733fff7cdb0bca6438f303d0e00c48b5e7a3075905" = true.
Proof. vm_compute. reflexivity. Qed.
Example kat_echo224_191 : bytes_are (last_bytes (hash_outs echo (ec_fresh 224)
    [HBase (Absorb FPtr (unhex "588E94B9054ABC2189DF69B8BA34341B77CDD528E7860E5DEFCAA79B0C9A452AD4B82AA306BE84536EB7CEDCBE058D7B84A6AEF826B028B8A0271B69AC3605")); HBase (Absorb FPtr (unhex "A9635EA9F5EA0AA700F3EB7835BC54611B922964300C953EFE7491E3677C2CEBE0822E956CD16433B02C68C4A23252C3F9E151A416B4963257B783E038F6B4D5C9F110F871652C7A649A7BCEDCBCCC6F2D0725BB903CC196BA76C76AA9F10A190B1D1168993BAA9FFC96A1655216773458BEC72B0E39C9F2C121378FEAB4E76A")); HDigestIter]))
    "4a7da1eb8bb39a93c64bab1a889ebb2c05170b1701afc253b6532c58" = true.
Proof. vm_compute. reflexivity. Qed.
Example kat_echo256_33 : bytes_are (last_bytes (hash_outs echo (ec_fresh 256)
    [HBase (Absorb FPtr (unhex "DE8F1B3FAA4B7040ED4563")); HBase (Absorb FPtr (unhex "C3B8E598253178E87E4D0DF75E4FF2F2DEDD5A0BE046")); HDigestIter]))
    "1a69246875d8248774c96725e080cff5958d7c7e3cbe5cf425c4c17d3d70f631" = true.
Proof. vm_compute. reflexivity. Qed.
Example kat_echo256_192 : bytes_are (last_bytes (hash_outs echo (ec_fresh 256)
    [HBase (Absorb FPtr (unhex "08959A7E4BAAE874928813364071194E2939772F20DB7C3157078987C557C2A6D5ABE68D520EEF3DC491692E1E21BCD880ADEBF63BB4213B50897FA005256ED4")); HBase (Absorb FPtr (unhex "1B5690F78F52855C8D9168A4B666FCE2DA2B456D7A7E7C17AB5F2FB1EE90B79E698712E963715983FD07641AE4B4E9DC73203FAC1AE11FA1F8C7941FCC82EAB247ADDB56E2638447E9D609E610B60CE086656AAEBF1DA3C8A231D7D94E2FD0AFE46B391FF14A72EAEB3F44AD4DF85866DEF43D4781A0B3578BC996C87970B132")); HDigestIter]))
    "d95c12e8041a37cacf24f1972dc3502c560827839cb08bae7eebc2b6b0f839ce" = true.
Proof. vm_compute. reflexivity. Qed.
Example kat_echo384_110 : bytes_are (last_bytes (hash_outs echo (ec_fresh 384)
    [HBase (Absorb FPtr (unhex "47C6E0C2B74948465921868804F0F7BD50DD323583DC784F998A93CD1CA4C6EF84D41DC8")); HBase (Absorb FPtr (unhex "1C2C40F34B5BEE6A93867B3BDBA0052C5F59E6F3657918C382E771D33109122CC8BB0E1E53C4E3D13B43CE44970F5E0C079D2AD7D7A3549CD75760C21BB15B447589E86E8D76B1E9CED2")); HDigestIter]))
    "24837ec999b0843c68f63db5617a7cfff94af9c385b1df9db18e7209ec4bf841e32592cf52a8c61cee7a5e7731753c98" = true.
Proof. vm_compute. reflexivity. Qed.
Example kat_echo384_128 : bytes_are (last_bytes (hash_outs echo (ec_fresh 384)
    [HBase (Absorb FPtr (unhex "2B6DB7CED8665EBE9DEB080295218426BDAA7C6DA9ADD2088932CDFFBAA1C14129BCCDD70F369EFB1492")); HBase (Absorb FPtr (unhex "85858D2B1D155D14DE2FDB680A8B027284055182A0CAE275234CC9C92863C1B4AB66F304CF0621CD54565F5BFF461D3B461BD40DF28198E3732501B4860EADD503D26D6E69338F4E0456E9E9BAF3D827AE685FB1D817")); HDigestIter]))
    "1c5ab536e0f0eba20d31e98f582d78922cb31132c897d0269fbdf93d1ef10dc178ac80001ac4d2d2db970061d95b0e56" = true.
Proof. vm_compute. reflexivity. Qed.
Example kat_echo512_111 : bytes_are (last_bytes (hash_outs echo (ec_fresh 512)
    [HBase (Absorb FPtr (unhex "F690A132AB46B28EDFA6479283D6444E371C6459108AFD9C35DBD235E0B6B6FF4C4EA58E75")); HBase (Absorb FPtr (unhex "54BD002460433B2164CA51E868F7947D7D7A0D792E4ABF0BE5F450853CC40D85485B2B8857EA31B5EA6E4CCFA2F3A7EF3380066D7D8979FDAC618AAD3D7E886DEA4F005AE4AD05E5065F")); HDigestIter]))
    "256cc5f13594e89894da97b0297e325c5b3209e92a5a61c28892aa533419a25170d7a0944eaab95821af8facea15d54f859aaedf614b43d47b2aaedecc2e1d3e" = true.
Proof. vm_compute. reflexivity. Qed.
Example kat_echo512_129 : bytes_are (last_bytes (hash_outs echo (ec_fresh 512)
    [HBase (Absorb FPtr (unhex "10DB509B2CDCABA6C062AE33BE48116A29EB18E390E1BBADA5CA0A2718AFBCD23431440106594893043CC7")); HBase (Absorb FPtr (unhex "F2625281BF7DE2655880966A23705F0C5155C2F5CCA9F2C2142E96D0A2E763B70686CD421B5DB812DACED0C6D65035FDE558E94F26B3E6DDE5BD13980CC80292B723013BD033284584BFF27657871B0CF07A849F4AE2")); HDigestIter]))
    "cc6e4c03e096bda1160a33c343e536fdfc2b6ddb76b4be868ed6eae2341060382ef881b7304d22bca90ab20ccecbf82f04f1df4938f15b1d162c5ff8f5c2177f" = true.
Proof. vm_compute. reflexivity. Qed.
