(** Known answers (tests, not proofs): the calls of compare() in basic_self_test of
    test/test.cc; written by tools/vectors.py. [Eval] runs them
    when the file is built. *)
From Coq Require Import String.
From Verif Require Import Base Hasher HasherSpec MdState Library LibraryTypes VecUtil VecReplay
  Md5 Sha1 Sha2 Sm3 Whirlpool Sha3 Shake Kmac K12 Ascon Esch Blake Blake2 Blake2p Groestl Kupyna Streebog Jh Lsh Skein Echo.
Local Open Scope string_scope.
Local Open Scope N_scope.

(** digestpp::blake(256) *)
Definition self_0 := Eval vm_compute in replay (blake_type 256) (mst 12 128)
  [([], ["54686520717569636b2062726f776e20666f78206a756d7073206f76657220746865206c617a7920646f67"], "7576698ee9cad30173080678e5965916adbb11cb5245d386bf1ffda1cb26c9d7")].
Example self_0_ok : self_0 = true. Proof. reflexivity. Qed.
(** digestpp::static_size::blake<256>() *)
Definition self_1 := Eval vm_compute in replay (blake_static_type 256) (mst 12 128)
  [([], ["54686520717569636b2062726f776e20666f78206a756d7073206f76657220746865206c617a7920646f67"], "7576698ee9cad30173080678e5965916adbb11cb5245d386bf1ffda1cb26c9d7")].
Example self_1_ok : self_1 = true. Proof. reflexivity. Qed.
(** digestpp::blake2s(256) *)
Definition self_2 := Eval vm_compute in replay (blake2_type 32 BHash 256) ((mst 9 64, 5))
  [([], ["54686520717569636b2062726f776e20666f78206a756d7073206f76657220746865206c617a7920646f67"], "606beeec743ccbeff6cbcdf5d5302aa855c256c29b88c8ed331ea1a6bf3c8812")].
Example self_2_ok : self_2 = true. Proof. reflexivity. Qed.
(** digestpp::blake2b(256) *)
Definition self_3 := Eval vm_compute in replay (blake2_type 64 BHash 256) ((mst 9 128, 5))
  [([], ["54686520717569636b2062726f776e20666f78206a756d7073206f76657220746865206c617a7920646f67"], "01718cec35cd3d796dd00020e0bfecb473ad23457d063b75eff29c0ffa2e58a9")].
Example self_3_ok : self_3 = true. Proof. reflexivity. Qed.
(** digestpp::static_size::blake2s<256>() *)
Definition self_4 := Eval vm_compute in replay (blake2_static_type 32 BHash 256) ((mst 9 64, 5))
  [([], ["54686520717569636b2062726f776e20666f78206a756d7073206f76657220746865206c617a7920646f67"], "606beeec743ccbeff6cbcdf5d5302aa855c256c29b88c8ed331ea1a6bf3c8812")].
Example self_4_ok : self_4 = true. Proof. reflexivity. Qed.
(** digestpp::static_size::blake2b<256>() *)
Definition self_5 := Eval vm_compute in replay (blake2_static_type 64 BHash 256) ((mst 9 128, 5))
  [([], ["54686520717569636b2062726f776e20666f78206a756d7073206f76657220746865206c617a7920646f67"], "01718cec35cd3d796dd00020e0bfecb473ad23457d063b75eff29c0ffa2e58a9")].
Example self_5_ok : self_5 = true. Proof. reflexivity. Qed.
(** digestpp::static_size::echo<256>() *)
Definition self_6 := Eval vm_compute in replay (echo_static_type 256) (mst 9 5)
  [([], ["54686520717569636b2062726f776e20666f78206a756d7073206f76657220746865206c617a7920646f67"], "3c3c10b84e818cbddfd71e1aefc6cb9cd7fd1b84acb5765813e716734a97d422")].
Example self_6_ok : self_6 = true. Proof. reflexivity. Qed.
(** digestpp::static_size::esch<256>() *)
Definition self_7 := Eval vm_compute in replay (esch_static_type 256) (mst 16 128)
  [([], ["54686520717569636b2062726f776e20666f78206a756d7073206f76657220746865206c617a7920646f67"], "d43f87a0fe60fc5925064880c6116c136b6d94fa24a93dffcb35d178c3af932c")].
Example self_7_ok : self_7 = true. Proof. reflexivity. Qed.
(** digestpp::static_size::groestl<256>() *)
Definition self_8 := Eval vm_compute in replay (groestl_static_type 256) (mst 12 128)
  [([], ["54686520717569636b2062726f776e20666f78206a756d7073206f76657220746865206c617a7920646f67"], "8c7ad62eb26a21297bc39c2d7293b4bd4d3399fa8afab29e970471739e28b301")].
Example self_8_ok : self_8 = true. Proof. reflexivity. Qed.
(** digestpp::groestl(256) *)
Definition self_9 := Eval vm_compute in replay (groestl_type 256) (mst 12 128)
  [([], ["54686520717569636b2062726f776e20666f78206a756d7073206f76657220746865206c617a7920646f67"], "8c7ad62eb26a21297bc39c2d7293b4bd4d3399fa8afab29e970471739e28b301")].
Example self_9_ok : self_9 = true. Proof. reflexivity. Qed.
(** digestpp::jh(256) *)
Definition self_10 := Eval vm_compute in replay (jh_type 256) (mst 12 64)
  [([], ["54686520717569636b2062726f776e20666f78206a756d7073206f76657220746865206c617a7920646f67"], "6a049fed5fc6874acfdc4a08b568a4f8cbac27de933496f031015b38961608a0")].
Example self_10_ok : self_10 = true. Proof. reflexivity. Qed.
(** digestpp::static_size::jh<256>() *)
Definition self_11 := Eval vm_compute in replay (jh_static_type 256) (mst 12 64)
  [([], ["54686520717569636b2062726f776e20666f78206a756d7073206f76657220746865206c617a7920646f67"], "6a049fed5fc6874acfdc4a08b568a4f8cbac27de933496f031015b38961608a0")].
Example self_11_ok : self_11 = true. Proof. reflexivity. Qed.
(** digestpp::kupyna(256) *)
Definition self_12 := Eval vm_compute in replay (kupyna_type 256) (mst 12 128)
  [([], ["54686520717569636b2062726f776e20666f78206a756d7073206f76657220746865206c617a7920646f67"], "996899f2d7422ceaf552475036b2dc120607eff538abf2b8dff471a98a4740c6")].
Example self_12_ok : self_12 = true. Proof. reflexivity. Qed.
(** digestpp::static_size::kupyna<256>() *)
Definition self_13 := Eval vm_compute in replay (kupyna_static_type 256) (mst 12 128)
  [([], ["54686520717569636b2062726f776e20666f78206a756d7073206f76657220746865206c617a7920646f67"], "996899f2d7422ceaf552475036b2dc120607eff538abf2b8dff471a98a4740c6")].
Example self_13_ok : self_13 = true. Proof. reflexivity. Qed.
(** digestpp::sha256() *)
Definition self_14 := Eval vm_compute in replay sha256_type (mst 12 64)
  [([], ["54686520717569636b2062726f776e20666f78206a756d7073206f76657220746865206c617a7920646f67"], "d7a8fbb307d7809469ca9abcb0082e4f8d5651e46d3cdb762d02d0bf37c9e592")].
Example self_14_ok : self_14 = true. Proof. reflexivity. Qed.
(** digestpp::sha512(256) *)
Definition self_15 := Eval vm_compute in replay (sha512_type 256) (mst 8 128)
  [([], ["54686520717569636b2062726f776e20666f78206a756d7073206f76657220746865206c617a7920646f67"], "dd9d67b371519c339ed8dbd25af90e976a1eeefd4ad3d889005e532fc5bef04d")].
Example self_15_ok : self_15 = true. Proof. reflexivity. Qed.
(** digestpp::static_size::sha512<256>() *)
Definition self_16 := Eval vm_compute in replay (sha512_static_type 256) (mst 8 128)
  [([], ["54686520717569636b2062726f776e20666f78206a756d7073206f76657220746865206c617a7920646f67"], "dd9d67b371519c339ed8dbd25af90e976a1eeefd4ad3d889005e532fc5bef04d")].
Example self_16_ok : self_16 = true. Proof. reflexivity. Qed.
(** digestpp::sha3(256) *)
Definition self_17 := Eval vm_compute in replay (sha3_type 256) (mst 25 144)
  [([], ["54686520717569636b2062726f776e20666f78206a756d7073206f76657220746865206c617a7920646f67"], "69070dda01975c8c120c3aada1b282394e7f032fa9cf32f4cb2259a0897dfc04")].
Example self_17_ok : self_17 = true. Proof. reflexivity. Qed.
(** digestpp::static_size::sha3<256>() *)
Definition self_18 := Eval vm_compute in replay (sha3_static_type 256) (mst 25 144)
  [([], ["54686520717569636b2062726f776e20666f78206a756d7073206f76657220746865206c617a7920646f67"], "69070dda01975c8c120c3aada1b282394e7f032fa9cf32f4cb2259a0897dfc04")].
Example self_18_ok : self_18 = true. Proof. reflexivity. Qed.
(** digestpp::shake128() *)
Definition self_19 := Eval vm_compute in xreplay (shake_type 128) ((mst 25 168, true, 9))
  [([], ["54686520717569636b2062726f776e20666f78206a756d7073206f76657220746865206c617a7920646f67"], "f4202e3c5852f9182a0430fd8144f0a74b95e7417ecae17db0f8cfeed0e3e66e")].
Example self_19_ok : self_19 = true. Proof. reflexivity. Qed.
(** digestpp::streebog(256) *)
Definition self_20 := Eval vm_compute in replay (streebog_type 256) (mst 12 64)
  [([], ["54686520717569636b2062726f776e20666f78206a756d7073206f76657220746865206c617a7920646f67"], "3e7dea7f2384b6c5a3d0e24aaa29c05e89ddd762145030ec22c71a6db8b2c1f4")].
Example self_20_ok : self_20 = true. Proof. reflexivity. Qed.
(** digestpp::static_size::streebog<256>() *)
Definition self_21 := Eval vm_compute in replay (streebog_static_type 256) (mst 12 64)
  [([], ["54686520717569636b2062726f776e20666f78206a756d7073206f76657220746865206c617a7920646f67"], "3e7dea7f2384b6c5a3d0e24aaa29c05e89ddd762145030ec22c71a6db8b2c1f4")].
Example self_21_ok : self_21 = true. Proof. reflexivity. Qed.
(** digestpp::sm3() *)
Definition self_22 := Eval vm_compute in replay sm3_type (mst 12 64)
  [([], ["54686520717569636b2062726f776e20666f78206a756d7073206f76657220746865206c617a7920646f67"], "5fdfe814b8573ca021983970fc79b2218c9570369b4859684e2e4c3fc76cb8ea")].
Example self_22_ok : self_22 = true. Proof. reflexivity. Qed.
(** digestpp::blake2b(512) *)
Definition self_23 := Eval vm_compute in replay (blake2_type 64 BHash 512) ((mst 9 128, 5))
  [([], ["54686520717569636b2062726f776e20666f78206a756d7073206f76657220746865206c617a7920646f67"], "a8add4bdddfd93e4877d2746e62817b116364a1fa7bc148d95090bc7333b3673f82401cf7aa2e4cb1ecd90296e3f14cb5413f8ed77be73045b13914cdcd6a918")].
Example self_23_ok : self_23 = true. Proof. reflexivity. Qed.
(** digestpp::static_size::blake2b<512>() *)
Definition self_24 := Eval vm_compute in replay (blake2_static_type 64 BHash 512) ((mst 9 128, 5))
  [([], ["54686520717569636b2062726f776e20666f78206a756d7073206f76657220746865206c617a7920646f67"], "a8add4bdddfd93e4877d2746e62817b116364a1fa7bc148d95090bc7333b3673f82401cf7aa2e4cb1ecd90296e3f14cb5413f8ed77be73045b13914cdcd6a918")].
Example self_24_ok : self_24 = true. Proof. reflexivity. Qed.
(** digestpp::groestl(512) *)
Definition self_25 := Eval vm_compute in replay (groestl_type 512) (mst 12 128)
  [([], ["54686520717569636b2062726f776e20666f78206a756d7073206f76657220746865206c617a7920646f67"], "badc1f70ccd69e0cf3760c3f93884289da84ec13c70b3d12a53a7a8a4a513f99715d46288f55e1dbf926e6d084a0538e4eebfc91cf2b21452921ccde9131718d")].
Example self_25_ok : self_25 = true. Proof. reflexivity. Qed.
(** digestpp::jh(512) *)
Definition self_26 := Eval vm_compute in replay (jh_type 512) (mst 12 64)
  [([], ["54686520717569636b2062726f776e20666f78206a756d7073206f76657220746865206c617a7920646f67"], "043f14e7c0775e7b1ef5ad657b1e858250b21e2e61fd699783f8634cb86f3ff938451cabd0c8cdae91d4f659d3f9f6f654f1bfedca117ffba735c15fedda47a3")].
Example self_26_ok : self_26 = true. Proof. reflexivity. Qed.
(** digestpp::static_size::jh<512>() *)
Definition self_27 := Eval vm_compute in replay (jh_static_type 512) (mst 12 64)
  [([], ["54686520717569636b2062726f776e20666f78206a756d7073206f76657220746865206c617a7920646f67"], "043f14e7c0775e7b1ef5ad657b1e858250b21e2e61fd699783f8634cb86f3ff938451cabd0c8cdae91d4f659d3f9f6f654f1bfedca117ffba735c15fedda47a3")].
Example self_27_ok : self_27 = true. Proof. reflexivity. Qed.
(** digestpp::kupyna(512) *)
Definition self_28 := Eval vm_compute in replay (kupyna_type 512) (mst 12 128)
  [([], ["54686520717569636b2062726f776e20666f78206a756d7073206f76657220746865206c617a7920646f67"], "d1b469f43e0963735b6cd08a6e75fc370956d8afa9653b5231614decb1cceb8162ae5b8ff2dc3b02417f86dc4df621d0ca5b1ff399d494766c93a6d2513cae3a")].
Example self_28_ok : self_28 = true. Proof. reflexivity. Qed.
(** digestpp::static_size::kupyna<512>() *)
Definition self_29 := Eval vm_compute in replay (kupyna_static_type 512) (mst 12 128)
  [([], ["54686520717569636b2062726f776e20666f78206a756d7073206f76657220746865206c617a7920646f67"], "d1b469f43e0963735b6cd08a6e75fc370956d8afa9653b5231614decb1cceb8162ae5b8ff2dc3b02417f86dc4df621d0ca5b1ff399d494766c93a6d2513cae3a")].
Example self_29_ok : self_29 = true. Proof. reflexivity. Qed.
(** digestpp::sha512() *)
Definition self_30 := Eval vm_compute in replay (sha512_type 512) (mst 8 128)
  [([], ["54686520717569636b2062726f776e20666f78206a756d7073206f76657220746865206c617a7920646f67"], "07e547d9586f6a73f73fbac0435ed76951218fb7d0c8d788a309d785436bbb642e93a252a954f23912547d1e8a3b5ed6e1bfd7097821233fa0538f3db854fee6")].
Example self_30_ok : self_30 = true. Proof. reflexivity. Qed.
(** digestpp::sha3(512) *)
Definition self_31 := Eval vm_compute in replay (sha3_type 512) (mst 25 144)
  [([], ["54686520717569636b2062726f776e20666f78206a756d7073206f76657220746865206c617a7920646f67"], "01dedd5de4ef14642445ba5f5b97c15e47b9ad931326e4b0727cd94cefc44fff23f07bf543139939b49128caf436dc1bdee54fcb24023a08d9403f9b4bf0d450")].
Example self_31_ok : self_31 = true. Proof. reflexivity. Qed.
(** digestpp::static_size::sha3<512>() *)
Definition self_32 := Eval vm_compute in replay (sha3_static_type 512) (mst 25 144)
  [([], ["54686520717569636b2062726f776e20666f78206a756d7073206f76657220746865206c617a7920646f67"], "01dedd5de4ef14642445ba5f5b97c15e47b9ad931326e4b0727cd94cefc44fff23f07bf543139939b49128caf436dc1bdee54fcb24023a08d9403f9b4bf0d450")].
Example self_32_ok : self_32 = true. Proof. reflexivity. Qed.
(** digestpp::shake256() *)
Definition self_33 := Eval vm_compute in xreplay (shake_type 256) ((mst 25 168, true, 9))
  [([], ["54686520717569636b2062726f776e20666f78206a756d7073206f76657220746865206c617a7920646f67"], "2f671343d9b2e1604dc9dcf0753e5fe15c7c64a0d283cbbf722d411a0e36f6ca1d01d1369a23539cd80f7c054b6e5daf9c962cad5b8ed5bd11998b40d5734442")].
Example self_33_ok : self_33 = true. Proof. reflexivity. Qed.
(** digestpp::skein256(512) *)
Definition self_34 := Eval vm_compute in replay (skein_type 4 512) ((mst 6 32, junk 3, true))
  [([], ["54686520717569636b2062726f776e20666f78206a756d7073206f76657220746865206c617a7920646f67"], "f8138e72cdd9e11cf09e4be198c234acb0d21a9f75f936e989cf532f1fa9f4fb21d255811f0f1592fb3617d04704add875ae7bd16ddbbeaed4eca6eb9675d2c6")].
Example self_34_ok : self_34 = true. Proof. reflexivity. Qed.
(** digestpp::static_size::skein256<512>() *)
Definition self_35 := Eval vm_compute in replay (skein_static_type 4 512) ((mst 6 32, junk 3, true))
  [([], ["54686520717569636b2062726f776e20666f78206a756d7073206f76657220746865206c617a7920646f67"], "f8138e72cdd9e11cf09e4be198c234acb0d21a9f75f936e989cf532f1fa9f4fb21d255811f0f1592fb3617d04704add875ae7bd16ddbbeaed4eca6eb9675d2c6")].
Example self_35_ok : self_35 = true. Proof. reflexivity. Qed.
(** digestpp::skein256_xof() *)
Definition self_36 := Eval vm_compute in xreplay (skein_xof_type 4) ((mst 6 32, junk 3, true))
  [([], ["54686520717569636b2062726f776e20666f78206a756d7073206f76657220746865206c617a7920646f67"], "217021fbabe331c5753024fe4c17a005a698b037859ca8f4f0fb9112dce5605c7c9c11b7bdaaeaf7e778488042772ac34c51a7c44c9d3471bb515a506312ded9")].
Example self_36_ok : self_36 = true. Proof. reflexivity. Qed.
(** digestpp::skein512(512) *)
Definition self_37 := Eval vm_compute in replay (skein_type 8 512) ((mst 10 64, junk 3, true))
  [([], ["54686520717569636b2062726f776e20666f78206a756d7073206f76657220746865206c617a7920646f67"], "94c2ae036dba8783d0b3f7d6cc111ff810702f5c77707999be7e1c9486ff238a7044de734293147359b4ac7e1d09cd247c351d69826b78dcddd951f0ef912713")].
Example self_37_ok : self_37 = true. Proof. reflexivity. Qed.
(** digestpp::static_size::skein512<512>() *)
Definition self_38 := Eval vm_compute in replay (skein_static_type 8 512) ((mst 10 64, junk 3, true))
  [([], ["54686520717569636b2062726f776e20666f78206a756d7073206f76657220746865206c617a7920646f67"], "94c2ae036dba8783d0b3f7d6cc111ff810702f5c77707999be7e1c9486ff238a7044de734293147359b4ac7e1d09cd247c351d69826b78dcddd951f0ef912713")].
Example self_38_ok : self_38 = true. Proof. reflexivity. Qed.
(** digestpp::skein512(256) *)
Definition self_39 := Eval vm_compute in replay (skein_type 8 256) ((mst 10 64, junk 3, true))
  [([(SkPers, "536b65696e")], ["54686520717569636b2062726f776e20666f78206a756d7073206f76657220746865206c617a7920646f67"], "89440a0472257aa5a90afe6e9599525dd9d5d2178b287b859b3814fff735f284")].
Example self_39_ok : self_39 = true. Proof. reflexivity. Qed.
(** digestpp::static_size::skein512<256>() *)
Definition self_40 := Eval vm_compute in replay (skein_static_type 8 256) ((mst 10 64, junk 3, true))
  [([(SkPers, "536b65696e")], ["54686520717569636b2062726f776e20666f78206a756d7073206f76657220746865206c617a7920646f67"], "89440a0472257aa5a90afe6e9599525dd9d5d2178b287b859b3814fff735f284")].
Example self_40_ok : self_40 = true. Proof. reflexivity. Qed.
(** digestpp::skein512(256) *)
Definition self_41 := Eval vm_compute in replay (skein_type 8 256) ((mst 10 64, junk 3, true))
  [([(SkPers, "536b65696e"); (SkNonce, "41424344")], ["54686520717569636b2062726f776e20666f78206a756d7073206f76657220746865206c617a7920646f67"], "d08265088e1c46f6c0a7c295747b21e5c4a7750bee699918db5ac999002a28e4")].
Example self_41_ok : self_41 = true. Proof. reflexivity. Qed.
(** digestpp::static_size::skein512<256>() *)
Definition self_42 := Eval vm_compute in replay (skein_static_type 8 256) ((mst 10 64, junk 3, true))
  [([(SkPers, "536b65696e"); (SkNonce, "41424344")], ["54686520717569636b2062726f776e20666f78206a756d7073206f76657220746865206c617a7920646f67"], "d08265088e1c46f6c0a7c295747b21e5c4a7750bee699918db5ac999002a28e4")].
Example self_42_ok : self_42 = true. Proof. reflexivity. Qed.
(** digestpp::skein512(256) *)
Definition self_43 := Eval vm_compute in replay (skein_type 8 256) ((mst 10 64, junk 3, true))
  [([(SkPers, "536b65696e"); (SkNonce, "41424344"); (SkKey, "4b6579")], ["54686520717569636b2062726f776e20666f78206a756d7073206f76657220746865206c617a7920646f67"], "e509a1c002625e84e0edae9c213732b4c57604f06ed78c99248cef05707ecaa5")].
Example self_43_ok : self_43 = true. Proof. reflexivity. Qed.
(** digestpp::static_size::skein512<256>() *)
Definition self_44 := Eval vm_compute in replay (skein_static_type 8 256) ((mst 10 64, junk 3, true))
  [([(SkPers, "536b65696e"); (SkNonce, "41424344"); (SkKey, "4b6579")], ["54686520717569636b2062726f776e20666f78206a756d7073206f76657220746865206c617a7920646f67"], "e509a1c002625e84e0edae9c213732b4c57604f06ed78c99248cef05707ecaa5")].
Example self_44_ok : self_44 = true. Proof. reflexivity. Qed.
(** digestpp::skein1024(512) *)
Definition self_45 := Eval vm_compute in replay (skein_type 16 512) ((mst 18 128, junk 3, true))
  [([], ["54686520717569636b2062726f776e20666f78206a756d7073206f76657220746865206c617a7920646f67"], "a40ba71fa36a8c1d152bfc68b79782ef206d2e74b9a072b11aa874e6ec2148d937e9acd4ca1026ad636fed1a88b740112d782e2ca0e6c3bbe0dd2704a60a10a5")].
Example self_45_ok : self_45 = true. Proof. reflexivity. Qed.
(** digestpp::static_size::skein1024<512>() *)
Definition self_46 := Eval vm_compute in replay (skein_static_type 16 512) ((mst 18 128, junk 3, true))
  [([], ["54686520717569636b2062726f776e20666f78206a756d7073206f76657220746865206c617a7920646f67"], "a40ba71fa36a8c1d152bfc68b79782ef206d2e74b9a072b11aa874e6ec2148d937e9acd4ca1026ad636fed1a88b740112d782e2ca0e6c3bbe0dd2704a60a10a5")].
Example self_46_ok : self_46 = true. Proof. reflexivity. Qed.
(** digestpp::streebog(512) *)
Definition self_47 := Eval vm_compute in replay (streebog_type 512) (mst 12 64)
  [([], ["54686520717569636b2062726f776e20666f78206a756d7073206f76657220746865206c617a7920646f67"], "d2b793a0bb6cb5904828b5b6dcfb443bb8f33efc06ad09368878ae4cdc8245b97e60802469bed1e7c21a64ff0b179a6a1e0bb74d92965450a0adab69162c00fe")].
Example self_47_ok : self_47 = true. Proof. reflexivity. Qed.
(** digestpp::static_size::streebog<512>() *)
Definition self_48 := Eval vm_compute in replay (streebog_static_type 512) (mst 12 64)
  [([], ["54686520717569636b2062726f776e20666f78206a756d7073206f76657220746865206c617a7920646f67"], "d2b793a0bb6cb5904828b5b6dcfb443bb8f33efc06ad09368878ae4cdc8245b97e60802469bed1e7c21a64ff0b179a6a1e0bb74d92965450a0adab69162c00fe")].
Example self_48_ok : self_48 = true. Proof. reflexivity. Qed.
(** digestpp::whirlpool() *)
Definition self_49 := Eval vm_compute in replay whirlpool_type (mst 12 64)
  [([], ["54686520717569636b2062726f776e20666f78206a756d7073206f76657220746865206c617a7920646f67"], "b97de512e91e3828b40d2b0fdce9ceb3c4a71f9bea8d88e75c4fa854df36725fd2b52eb6544edcacd6f8beddfea403cb55ae31f03ad62a5ef54e42ee82c3fb35")].
Example self_49_ok : self_49 = true. Proof. reflexivity. Qed.
(** digestpp::k12() *)
Definition self_50 := Eval vm_compute in xreplay (k12_type 128 12) ((mkk12m (mst 25 168, true, 9) (mst 25 168, true, 9) (junk (N.to_nat 8192)) 7 7 7 true))
  [([], ["54686520717569636b2062726f776e20666f78206a756d7073206f76657220746865206c617a7920646f67"], "b4f249b4f77c58df170aa4d1723db1127d82f1d98d25ddda561ada459cd11a489242e112dbfb1f99a1de1d7e830d457778a66d1dc2aa44d61a1da91655122fb7")].
Example self_50_ok : self_50 = true. Proof. reflexivity. Qed.
(** digestpp::m14() *)
Definition self_51 := Eval vm_compute in xreplay (k12_type 256 14) ((mkk12m (mst 25 168, true, 9) (mst 25 168, true, 9) (junk (N.to_nat 8192)) 7 7 7 true))
  [([], ["54686520717569636b2062726f776e20666f78206a756d7073206f76657220746865206c617a7920646f67"], "3611bcaa666347770dbffd4562f137c5adfe2e09f3c4268ef7c7d7c0e6c5d59c21fa67c4cfdba29e449c944b1a16c4583f2be8a75fb4f7649df6b98698708ecf")].
Example self_51_ok : self_51 = true. Proof. reflexivity. Qed.
(** digestpp::blake2xs(512) *)
Definition self_52 := Eval vm_compute in replay (blake2_type 32 BXhash 512) ((mst 9 64, 5))
  [([], ["54686520717569636b2062726f776e20666f78206a756d7073206f76657220746865206c617a7920646f67"], "e709f8377d21507c166e5dd2279a1f58b290792d65dafcc5647b6e439a974227503c341341572725709b874e95f13a438677aa6f9648467fd341e0f3e5421840")].
Example self_52_ok : self_52 = true. Proof. reflexivity. Qed.
(** digestpp::static_size::blake2xs<512>() *)
Definition self_53 := Eval vm_compute in replay (blake2_static_type 32 BXhash 512) ((mst 9 64, 5))
  [([], ["54686520717569636b2062726f776e20666f78206a756d7073206f76657220746865206c617a7920646f67"], "e709f8377d21507c166e5dd2279a1f58b290792d65dafcc5647b6e439a974227503c341341572725709b874e95f13a438677aa6f9648467fd341e0f3e5421840")].
Example self_53_ok : self_53 = true. Proof. reflexivity. Qed.
(** digestpp::blake2xs_xof() *)
Definition self_54 := Eval vm_compute in xreplay (blake2x_xof_type 32) ((mst 9 64, 5))
  [([], ["54686520717569636b2062726f776e20666f78206a756d7073206f76657220746865206c617a7920646f67"], "0650cde4df888a06eada0f0fecb3c17594304b4a03fdd678182f27db1238b1747e33c34ae539fe2179a7594442b5cc9a7a0f398bb15ac3095a397de6a60061d6")].
Example self_54_ok : self_54 = true. Proof. reflexivity. Qed.
(** digestpp::blake2xb() *)
Definition self_55 := Eval vm_compute in replay (blake2_type 64 BXhash 512) ((mst 9 128, 5))
  [([], ["54686520717569636b2062726f776e20666f78206a756d7073206f76657220746865206c617a7920646f67"], "6136549d6849d7386e42a1b7c034a1ddd6527e055a8425db4f3ae3c044aa306d59c0bc428787d1539c5d13c703bfef01004e22277a84f5b0b093bed8268536b7")].
Example self_55_ok : self_55 = true. Proof. reflexivity. Qed.
(** digestpp::static_size::blake2xb<512>() *)
Definition self_56 := Eval vm_compute in replay (blake2_static_type 64 BXhash 512) ((mst 9 128, 5))
  [([], ["54686520717569636b2062726f776e20666f78206a756d7073206f76657220746865206c617a7920646f67"], "6136549d6849d7386e42a1b7c034a1ddd6527e055a8425db4f3ae3c044aa306d59c0bc428787d1539c5d13c703bfef01004e22277a84f5b0b093bed8268536b7")].
Example self_56_ok : self_56 = true. Proof. reflexivity. Qed.
(** digestpp::blake2xb_xof() *)
Definition self_57 := Eval vm_compute in xreplay (blake2x_xof_type 64) ((mst 9 128, 5))
  [([], ["54686520717569636b2062726f776e20666f78206a756d7073206f76657220746865206c617a7920646f67"], "364e84ca4c103df292306c93ebba6f6633d5e9cc8a95e040498e9a012d5ca534c5532e20be9705e9266ad829952104c694954be42a6f50d847f8a782910ffe4b")].
Example self_57_ok : self_57 = true. Proof. reflexivity. Qed.
(** digestpp::blake2b(136) *)
Definition self_58 := Eval vm_compute in replay (blake2_type 64 BHash 136) ((mst 9 128, 5))
  [([(B2Key, "000102030405060708090a0b0c0d0e0f10"); (B2Salt, "35623662343165643962333433666530"); (B2Pers, "35313236666232613337343030643261")], ["000102030405060708090a0b0c0d0e0f"], "e262ba3e2ab76efdf83513108e3b987d1b")].
Example self_58_ok : self_58 = true. Proof. reflexivity. Qed.
(** digestpp::static_size::blake2b<136>() *)
Definition self_59 := Eval vm_compute in replay (blake2_static_type 64 BHash 136) ((mst 9 128, 5))
  [([(B2Key, "000102030405060708090a0b0c0d0e0f10"); (B2Salt, "35623662343165643962333433666530"); (B2Pers, "35313236666232613337343030643261")], ["000102030405060708090a0b0c0d0e0f"], "e262ba3e2ab76efdf83513108e3b987d1b")].
Example self_59_ok : self_59 = true. Proof. reflexivity. Qed.
(** digestpp::kmac128(256) *)
Definition self_60 := Eval vm_compute in replay (kmac_type 128 256) ((mst 25 168, true, 9, true))
  [([(KmKey, "404142434445464748494a4b4c4d4e4f505152535455565758595a5b5c5d5e5f")], ["00010203"], "e5780b0d3ea6f7d3a429c5706aa43a00fadbd7d49628839e3187243f456ee14e")].
Example self_60_ok : self_60 = true. Proof. reflexivity. Qed.
(** digestpp::kmac256(512) *)
Definition self_61 := Eval vm_compute in replay (kmac_type 256 512) ((mst 25 168, true, 9, true))
  [([(KmCustomization, "4d7920546167676564204170706c69636174696f6e"); (KmKey, "404142434445464748494a4b4c4d4e4f505152535455565758595a5b5c5d5e5f")], ["00010203"], "20c570c31346f703c9ac36c61c03cb64c3970d0cfc787e9b79599d273a68d2f7f69d4cc3de9d104a351689f27cf6f5951f0103f33f4f24871024d9c27773a8dd")].
Example self_61_ok : self_61 = true. Proof. reflexivity. Qed.
(** digestpp::static_size::kmac128<256>() *)
Definition self_62 := Eval vm_compute in replay (kmac_static_type 128 256) ((mst 25 168, true, 9, true))
  [([(KmKey, "404142434445464748494a4b4c4d4e4f505152535455565758595a5b5c5d5e5f")], ["00010203"], "e5780b0d3ea6f7d3a429c5706aa43a00fadbd7d49628839e3187243f456ee14e")].
Example self_62_ok : self_62 = true. Proof. reflexivity. Qed.
(** digestpp::static_size::kmac256<512>() *)
Definition self_63 := Eval vm_compute in replay (kmac_static_type 256 512) ((mst 25 168, true, 9, true))
  [([(KmCustomization, "4d7920546167676564204170706c69636174696f6e"); (KmKey, "404142434445464748494a4b4c4d4e4f505152535455565758595a5b5c5d5e5f")], ["00010203"], "20c570c31346f703c9ac36c61c03cb64c3970d0cfc787e9b79599d273a68d2f7f69d4cc3de9d104a351689f27cf6f5951f0103f33f4f24871024d9c27773a8dd")].
Example self_63_ok : self_63 = true. Proof. reflexivity. Qed.
(** digestpp::kmac128_xof() *)
Definition self_64 := Eval vm_compute in xreplay (kmacxof_type 128) ((mst 25 168, true, 9, true))
  [([(KmKey, "404142434445464748494a4b4c4d4e4f505152535455565758595a5b5c5d5e5f")], ["00010203"], "cd83740bbd92ccc8cf032b1481a0f4460e7ca9dd12b08a0c4031178bacd6ec35")].
Example self_64_ok : self_64 = true. Proof. reflexivity. Qed.
(** digestpp::kmac256_xof() *)
Definition self_65 := Eval vm_compute in xreplay (kmacxof_type 256) ((mst 25 168, true, 9, true))
  [([(KmCustomization, "4d7920546167676564204170706c69636174696f6e"); (KmKey, "404142434445464748494a4b4c4d4e4f505152535455565758595a5b5c5d5e5f")], ["00010203"], "1755133f1534752aad0748f2c706fb5c784512cab835cd15676b16c0c6647fa96faa7af634a0bf8ff6df39374fa00fad9a39e322a7c92065a64eb1fb0801eb2b")].
Example self_65_ok : self_65 = true. Proof. reflexivity. Qed.
(** digestpp::lsh256(256) *)
Definition self_66 := Eval vm_compute in replay (lsh_type 32 256) (mst 12 128)
  [([], ["54686520717569636b2062726f776e20666f78206a756d7073206f76657220746865206c617a7920646f67"], "f8025b61eb10d80a7f03ccfb906222a0645bb175fdeee9595f223936edbf7070")].
Example self_66_ok : self_66 = true. Proof. reflexivity. Qed.
(** digestpp::lsh512(256) *)
Definition self_67 := Eval vm_compute in replay (lsh_type 64 256) (mst 12 256)
  [([], ["54686520717569636b2062726f776e20666f78206a756d7073206f76657220746865206c617a7920646f67"], "5e4ebe2017e84f35420bda7486ebbd791e0ece579cc18e49341b9a526466e633")].
Example self_67_ok : self_67 = true. Proof. reflexivity. Qed.
(** digestpp::static_size::lsh256<256>() *)
Definition self_68 := Eval vm_compute in replay (lsh_static_type 32 256) (mst 12 128)
  [([], ["54686520717569636b2062726f776e20666f78206a756d7073206f76657220746865206c617a7920646f67"], "f8025b61eb10d80a7f03ccfb906222a0645bb175fdeee9595f223936edbf7070")].
Example self_68_ok : self_68 = true. Proof. reflexivity. Qed.
(** digestpp::static_size::lsh512<256>() *)
Definition self_69 := Eval vm_compute in replay (lsh_static_type 64 256) (mst 12 256)
  [([], ["54686520717569636b2062726f776e20666f78206a756d7073206f76657220746865206c617a7920646f67"], "5e4ebe2017e84f35420bda7486ebbd791e0ece579cc18e49341b9a526466e633")].
Example self_69_ok : self_69 = true. Proof. reflexivity. Qed.
(** digestpp::blake2bp() *)
Definition self_70 := Eval vm_compute in replay (blake2p_type 64 512) (mtree 128 4)
  [([], [], "b5ef811a8038f70b628fa8b294daae7492b1ebe343a80eaabbf1f6ae664dd67b9d90b0120791eab81dc96985f28849f6a305186a85501b405114bfa678df9380")].
Example self_70_ok : self_70 = true. Proof. reflexivity. Qed.
(** digestpp::blake2sp() *)
Definition self_71 := Eval vm_compute in replay (blake2p_type 32 256) (mtree 64 8)
  [([], [], "dd0e891776933f43c7d032b08a917e25741f8aa9a12c12e1cac8801500f2ca4f")].
Example self_71_ok : self_71 = true. Proof. reflexivity. Qed.
(** digestpp::blake2bp() *)
Definition self_72 := Eval vm_compute in replay (blake2p_type 64 512) (mtree 128 4)
  [([], ["54686520717569636b2062726f776e20666f78206a756d7073206f76657220746865206c617a7920646f67"], "f10e0523631699102c63412c0701fa19f6550fbac0e9c035803c6033b50465222bb92ee0af0dad53edca32f0e08a72c077a6cafc6f4d24a7fb649079d47ce089")].
Example self_72_ok : self_72 = true. Proof. reflexivity. Qed.
(** digestpp::blake2bp(256) *)
Definition self_73 := Eval vm_compute in replay (blake2p_type 64 256) (mtree 128 4)
  [([], ["54686520717569636b2062726f776e20666f78206a756d7073206f76657220746865206c617a7920646f67"], "4184d2acbcce03adc3b8f2fccd1ae3d6ced3aa0b051ae648f6986bb46579a0cf")].
Example self_73_ok : self_73 = true. Proof. reflexivity. Qed.
(** digestpp::static_size::blake2bp<256>() *)
Definition self_74 := Eval vm_compute in replay (blake2p_static_type 64 256) (mtree 128 4)
  [([], ["54686520717569636b2062726f776e20666f78206a756d7073206f76657220746865206c617a7920646f67"], "4184d2acbcce03adc3b8f2fccd1ae3d6ced3aa0b051ae648f6986bb46579a0cf")].
Example self_74_ok : self_74 = true. Proof. reflexivity. Qed.
(** digestpp::blake2sp(256) *)
Definition self_75 := Eval vm_compute in replay (blake2p_type 32 256) (mtree 64 8)
  [([], ["54686520717569636b2062726f776e20666f78206a756d7073206f76657220746865206c617a7920646f67"], "cf192976714bb648e72b29fa90e6bf0fbc5bf2efe7d5c26ed8ff34e855368691")].
Example self_75_ok : self_75 = true. Proof. reflexivity. Qed.
(** digestpp::static_size::blake2sp<256>() *)
Definition self_76 := Eval vm_compute in replay (blake2p_static_type 32 256) (mtree 64 8)
  [([], ["54686520717569636b2062726f776e20666f78206a756d7073206f76657220746865206c617a7920646f67"], "cf192976714bb648e72b29fa90e6bf0fbc5bf2efe7d5c26ed8ff34e855368691")].
Example self_76_ok : self_76 = true. Proof. reflexivity. Qed.
(** digestpp::blake2sp(128) *)
Definition self_77 := Eval vm_compute in replay (blake2p_type 32 128) (mtree 64 8)
  [([], ["54686520717569636b2062726f776e20666f78206a756d7073206f76657220746865206c617a7920646f67"], "379d86c91467e6234a4a8d764d4c5c40")].
Example self_77_ok : self_77 = true. Proof. reflexivity. Qed.
(** digestpp::blake2sp(256) *)
Definition self_78 := Eval vm_compute in replay (blake2p_type 32 256) (mtree 64 8)
  [([], ["3030303130323033303430353036303730383039304130423043304430453046313031313132313331343135313631373138313931413142314331443145314632303231323232333234323532363237323832393241324232433244324532463330333133323333333433353336333733383339334133423343334433453346343034313432343334343435343634373438343934413442344334443445344635303531353235333534353535363537353835393541354235433544354535463630363136323633363436353636363736383639364136423643364436453646373037313732373337343735373637373738373937413742374337443745374638303831383238333834383538363837383838393841384238433844384538463930393139323933393439353936393739383939394139423943394439453946413041314132413341344135413641374138413941414142414341444145414642304231423242334234423542364237423842394241424242434244424542464330433143324333433443354336433743384339434143424343434443454346443044314432443344344435443644374438443944414442444344444445444645304531453245334534453545364537453845394541454245434544454545464630463146324633463446354636463746384639464146424643464446454646303030313032303330343035303630373038303930413042304330443045304631303131313231333134313531363137313831393141314231433144314531463230323132323233323432353236323732383239324132423243324432453246333033313332333333343335333633373338333933413342334333443345334634303431343234333434343534363437343834393441344234433444344534463530353135323533353435353536353735383539354135423543354435453546363036313632363336343635363636373638363936413642364336443645364637303731373237333734373537363737373837393741374237433744374537463830383138323833383438353836383738383839384138423843384438453846393039313932393339343935393639373938393939413942394339443945394641304131413241334134413541364137413841394141414241434144414541464230423142324233423442354236423742384239424142424243424442454246433043314332433343344335433643374338433943414342434343444345434644304431443244334434443544364437443844394441444244434444444544464530453145324533453445354536453745384539454145424543454445454546463046314632463346344635463646374638463946414642464346444645464630303031303230333034303530363037303830393041304230433044304530463130313131323133313431353136313731383139314131423143314431453146323032313232323332343235323632373238323932413242324332443245324633303331333233333334333533363337333833393341334233433344334533463430343134323433343434353436343734383439344134423443344434453446353035313532353335343535353635373538353935413542354335443545354636303631363236333634363536363637363836393641364236433644364536463730373137323733373437353736373737383739374137423743374437453746383038313832383338343835383638373838383938413842384338443845384639303931393239333934393539363937393839393941394239433944394539464130413141324133413441354136413741384139414141424143414441454146423042314232423342344235423642374238423942414242424342444245424643304331433243334334433543364337433843394341434243434344434543464430443144324433443444354436443744384439444144424443444444454446453045314532453345344535453645374538453945414542454345444545454646304631463246334634463546364637463846394641464246434644464546463030303130323033303430353036303730383039304130423043304430453046313031313132313331343135313631373138313931413142314331443145314632303231323232333234323532363237323832393241324232433244324532463330333133323333333433353336333733383339334133423343334433453346343034313432343334343435343634373438343934413442344334443445344635303531353235333534353535363537353835393541354235433544354535463630363136323633363436353636363736383639364136423643364436453646373037313732373337343735373637373738373937413742374337443745374638303831383238333834383538363837383838393841384238433844384538463930393139323933393439353936393739383939394139423943394439453946413041314132413341344135413641374138413941414142414341444145414642304231423242334234423542364237423842394241424242434244424542464330433143324333433443354336433743384339434143424343434443454346443044314432443344344435443644374438443944414442444344444445444645304531453245334534453545364537453845394541454245434544454545464630463146324633463446354636463746384639464146424643464446454646303030313032303330343035303630373038303930413042304330443045304631303131313231333134313531363137313831393141314231433144314531463230323132323233323432353236323732383239324132423243324432453246333033313332333333343335333633373338333933413342334333443345334634303431343234333434343534363437343834393441344234433444344534463530353135323533353435353536353735383539354135423543354435453546363036313632363336343635363636373638363936413642364336443645364637303731373237333734373537363737373837393741374237433744374537463830383138323833383438353836383738383839384138423843384438453846393039313932393339343935393639373938393939413942394339443945394641304131413241334134413541364137413841394141414241434144414541464230423142324233423442354236423742384239424142424243424442454246433043314332433343344335433643374338433943414342434343444345434644304431443244334434443544364437443844394441444244434444444544464530453145324533453445354536453745384539454145424543454445454546463046314632463346344635463646374638463946414642464346444645464630303031303230333034303530363037303830393041304230433044304530463130313131323133313431353136313731383139314131423143314431453146323032313232323332343235323632373238323932413242324332443245324633303331333233333334333533363337333833393341334233433344334533463430343134323433343434353436343734383439344134423443344434453446353035313532353335343535353635373538353935413542354335443545354636303631363236333634363536363637363836393641364236433644364536463730373137323733373437353736373737383739374137423743374437453746383038313832383338343835383638373838383938413842384338443845384639303931393239333934393539363937393839393941394239433944394539464130413141324133413441354136413741384139414141424143414441454146423042314232423342344235423642374238423942414242424342444245424643304331433243334334433543364337433843394341434243434344434543464430443144324433443444354436443744384439444144424443444444454446453045314532453345344535453645374538453945414542454345444545454646304631463246334634463546364637463846394641464246434644464546463030303130323033303430353036303730383039304130423043304430453046313031313132313331343135313631373138313931413142314331443145314632303231323232333234323532363237323832393241324232433244324532463330333133323333333433353336333733383339334133423343334433453346343034313432343334343435343634373438343934413442344334443445344635303531353235333534353535363537353835393541354235433544354535463630363136323633363436353636363736383639364136423643364436453646373037313732373337343735373637373738373937413742374337443745374638303831383238333834383538363837383838393841384238433844384538463930393139323933393439353936393739383939394139423943394439453946413041314132413341344135413641374138413941414142414341444145414642304231423242334234423542364237423842394241424242434244424542464330433143324333433443354336433743384339434143424343434443454346443044314432443344344435443644374438443944414442444344444445444645304531453245334534453545364537453845394541454245434544454545464630463146324633463446354636463746384639464146424643464446454646303030313032303330343035303630373038303930413042304330443045304631303131313231333134313531363137313831393141314231433144314531463230323132323233323432353236323732383239324132423243324432453246333033313332333333343335333633373338333933413342334333443345334634303431343234333434343534363437343834393441344234433444344534463530353135323533353435353536353735383539354135423543354435453546363036313632363336343635363636373638363936413642364336443645364637303731373237333734373537363737373837393741374237433744374537463830383138323833383438353836383738383839384138423843384438453846393039313932393339343935393639373938393939413942394339443945394641304131413241334134413541364137413841394141414241434144414541464230423142324233423442354236423742384239424142424243424442454246433043314332433343344335433643374338433943414342434343444345434644304431443244334434443544364437443844394441444244434444444544464530453145324533453445354536453745384539454145424543454445454546463046314632463346344635463646374638463946414642464346444645464646464645"], "04530d08da46ba1fc73c675d1a32d9e7a6570f5268ce1536d221e217d1bd98a2")].
Example self_78_ok : self_78 = true. Proof. reflexivity. Qed.
(** digestpp::blake2sp(256) *)
Definition self_79 := Eval vm_compute in replay (blake2p_type 32 256) (mtree 64 8)
  [([], ["30303031303230333034303530363037303830393041304230433044304530463130313131323133313431353136313731383139314131423143314431453146323032313232323332343235323632373238323932413242324332443245324633303331333233333334333533363337333833393341334233433344334533463430343134323433343434353436343734383439344134423443344434453446353035313532353335343535353635373538353935413542354335443545354636303631363236333634363536363637363836393641364236433644364536463730373137323733373437353736373737383739374137423743374437453746383038313832383338343835383638373838383938413842384338443845384639303931393239333934393539363937393839393941394239433944394539464130413141324133413441354136413741384139414141424143414441454146423042314232423342344235423642374238423942414242424342444245424643304331433243334334433543364337433843394341434243434344434543464430443144324433443444354436443744384439444144424443444444454446453045314532453345344535453645374538453945414542454345444545454646304631463246334634463546364637463846394641464246434644464546"], "bbb2fb4774fc894ad2972dcd5a0c2d2b8a7baac18d33177172b70a6f6aec9c86")].
Example self_79_ok : self_79 = true. Proof. reflexivity. Qed.
(** digestpp::blake2sp(256) *)
Definition self_80 := Eval vm_compute in replay (blake2p_type 32 256) (mtree 64 8)
  [([], ["3030303130323033303430353036303730383039304130423043304430453046313031313132313331343135313631373138313931413142314331443145314632303231323232333234323532363237323832393241324232433244324532463330333133323333333433353336333733383339334133423343334433453346343034313432343334343435343634373438343934413442344334443445344635303531353235333534353535363537353835393541354235433544354535463630363136323633363436353636363736383639364136423643364436453646373037313732373337343735373637373738373937413742374337443745374638303831383238333834383538363837383838393841384238433844384538463930393139323933393439353936393739383939394139423943394439453946413041314132413341344135413641374138413941414142414341444145414642304231423242334234423542364237423842394241424242434244424542464330433143324333433443354336433743384339434143424343434443454346443044314432443344344435443644374438443944414442444344444445444645304531453245334534453545364537453845394541454245434544454545464630463146324633463446354636463746384639464146424643464446454646"], "c1198319797f84f938e1e582175206a8999dcb41d5929ba4846a96750d6a8dc8")].
Example self_80_ok : self_80 = true. Proof. reflexivity. Qed.
(** digestpp::blake2sp(256) *)
Definition self_81 := Eval vm_compute in replay (blake2p_type 32 256) (mtree 64 8)
  [([], ["303030313032303330343035303630373038303930413042304330443045304631303131313231333134313531363137313831393141314231433144314531463230323132323233323432353236323732383239324132423243324432453246333033313332333333343335333633373338333933413342334333443345334634303431343234333434343534363437343834393441344234433444344534463530353135323533353435353536353735383539354135423543354435453546363036313632363336343635363636373638363936413642364336443645364637303731373237333734373537363737373837393741374237433744374537463830383138323833383438353836383738383839384138423843384438453846393039313932393339343935393639373938393939413942394339443945394641304131413241334134413541364137413841394141414241434144414541464230423142324233423442354236423742384239424142424243424442454246433043314332433343344335433643374338433943414342434343444345434644304431443244334434443544364437443844394441444244434444444544464530453145324533453445354536453745384539454145424543454445454546463046314632463346344635463646374638463946414642464346444645464630"], "91da37c990a8a9f8744c96394330ee82efbe29e39e45543de771ad6a95aad3cb")].
Example self_81_ok : self_81 = true. Proof. reflexivity. Qed.
(** digestpp::blake2sp(256) *)
Definition self_82 := Eval vm_compute in replay (blake2p_type 32 256) (mtree 64 8)
  [([(B2Key, "0001")], ["303030313032303330343035303630373038303930413042304330443045304631303131313231333134313531363137313831393141314231433144314531463230323132323233323432353236323732383239324132423243324432453246333033313332333333343335333633373338333933413342334333443345334634303431343234333434343534363437343834393441344234433444344534463530353135323533353435353536353735383539354135423543354435453546363036313632363336343635363636373638363936413642364336443645364637303731373237333734373537363737373837393741374237433744374537463830383138323833383438353836383738383839384138423843384438453846393039313932393339343935393639373938393939413942394339443945394641304131413241334134413541364137413841394141414241434144414541464230423142324233423442354236423742384239424142424243424442454246433043314332433343344335433643374338433943414342434343444345434644304431443244334434443544364437443844394441444244434444444544464530453145324533453445354536453745384539454145424543454445454546463046314632463346344635463646374638463946414642464346444645464630"], "e6ec2fae4a044d4e002470f98e77d73d1c981d60512e4f2a2ba2f7c486365c28")].
Example self_82_ok : self_82 = true. Proof. reflexivity. Qed.
