(** Known answers (tests, not proofs): vectors of test/testvectors replayed on the models of
    the types that test/test_vectors.cc uses; written by tools/vectors.py. [Eval] runs them
    when the file is built. *)
From Coq Require Import String.
From Verif Require Import Base Hasher HasherSpec MdState Library LibraryTypes VecUtil VecReplay
  Md5 Sha1 Sha2 Sm3 Whirlpool Sha3 Shake Kmac K12 Ascon Esch Blake Blake2 Blake2p Groestl Kupyna Streebog Jh Lsh Skein Echo.
Local Open Scope string_scope.
Local Open Scope N_scope.

(** test/testvectors/jh224.txt, 14 of 321 vectors. *)
Definition repo_jh224 := Eval vm_compute in replay (jh_type 224) (mst 12 64) [
   ([], [""],
    "2c99df889b019309051c60fecc2bd285a774940e43175b76b2626630");
   ([], ["cc"],
    "f79c791ac9b9d80ec934312d6b26748481198e3ca78ebb01b2c9ca51");
   ([], ["4a4f202484512526"],
    "e654e5ed2ee87ed09ff7e1ffd1525b07a6c3a2f6b34f7728d1cc7088");
   ([], ["de286ba4206e8b005714f80fb1cdfaebde91d29f84603e4a3ebc04686f99a46c9e880b96c574825582e8812a26e5a857ffc6579f63742f"],
    "b1e2d08e14114f8b393a15a7a07bd77b902c24d18f1cc5a029e446cf");
   ([], ["eebcc18057252cbf3f9c070f1a73213356d5d4bc19ac2a411ec8cdeee7a571e2e20eaf61fd0c33a0ffeb297ddb77a97f0a415347db66bcaf"],
    "5607b3ed6f25c1103ae4b71543b012949fb826bce4c760a14ffe9e96");
   ([], ["f57c64006d9ea761892e145c99df1b24640883da79d9ed5262859dcda8c3c32e05b03d984f1ab4a230242ab6b78d368dc5aaa1e6d3498d53371e84b0c1d4ba"],
    "2cb2a73729a62f69d9af8252189c1dce8c02286314db64ac6111e3d7");
   ([], ["e926ae8b0af6e53176dbffcc2a6b88c6bd765f939d3d178a9bde9ef3aa131c61e31c1e42cdfaf4b4dcde579a37e150efbef5555b4c1cb40439d835a724e2fae7"],
    "982a5d2aa039f9c7d5cff3cc8a34c3a0b205892e7c5b09ed68f2cc84");
   ([], ["f690a132ab46b28edfa6479283d6444e371c6459108afd9c35dbd235e0b6b6ff4c4ea58e7554bd002460433b2164ca51e868f7947d7d7a0d792e4abf0be5f450853cc40d85485b2b8857ea31b5ea6e4ccfa2f3a7ef3380066d7d8979fdac618aad3d7e886dea4f005ae4ad05e5065f"],
    "cd62987fd0c91232848ddd8067d5056675b10824c1149576bbae3036");
   ([], ["58d6a99bc6458824b256916770a8417040721cccfd4b79eacd8b65a3767ce5ba7e74104c985ac56b8cc9aebd16febd4cda5adb130b0ff2329cc8d611eb14dac268a2f9e633c99de33997fea41c52a7c5e1317d5b5daed35eba7d5a60e45d1fa7eaabc35f5c2b0a0f2379231953322c4e"],
    "ad2b153e82a3d248a4f55ded3886f9e6a393faa534593f95299f2b20");
   ([], ["3c9b46450c0f2cae8e3823f8bdb4277f31b744ce2eb17054bddc6dff36af7f49fb8a2320cc3bdf8e0a2ea29ad3a55de1165d219adeddb5175253e2d1489e9b6fdd02e2c3d3a4b54d60e3a47334c37913c5695378a669e9b72dec32af5434f93f46176ebf044c4784467c700470d0c0b40c8a088c815816"],
    "41c8f4ff2038efd6131599becc2ddaa0e2b68ceb13bc20a5060d49b2");
   ([], ["d1e654b77cb155f5c77971a64df9e5d34c26a3cad6c7f6b300d39deb1910094691adaa095be4ba5d86690a976428635d5526f3e946f7dc3bd4dbc78999e653441187a81f9adcd5a3c5f254bc8256b0158f54673dcc1232f6e918ebfc6c51ce67eaeb042d9f57eec4bfe910e169af78b3de48d137df4f2840"],
    "2cf30cd656fa7e502722425f4247dbc3aaa3c3ce5a9b0f4203821337");
   ([], ["2b6db7ced8665ebe9deb080295218426bdaa7c6da9add2088932cdffbaa1c14129bccdd70f369efb149285858d2b1d155d14de2fdb680a8b027284055182a0cae275234cc9c92863c1b4ab66f304cf0621cd54565f5bff461d3b461bd40df28198e3732501b4860eadd503d26d6e69338f4e0456e9e9baf3d827ae685fb1d817"],
    "5e3c00c2c0e126a2e6327aa30db4c3f66052c74cf10cac9c380f5d56");
   ([], ["8c3798e51bc68482d7337d3abb75dc9ffe860714a9ad73551e120059860dde24ab87327222b64cf774415a70f724cdf270de3fe47dda07b61c9ef2a3551f45a5584860248fabde676e1cd75f6355aa3eaeabe3b51dc813d9fb2eaa4f0f1d9f834d7cad9c7c695ae84b329385bc0bef895b9f1edf44a03d4b410cc23a79a6b62e4f346a5e8dd851c2857995ddbf5b2d717aeb847310e1f6a46ac3d26a7f9b44985af656d2b7c9406e8a9e8f47dcb4ef6b83caacf9aefb6118bfcff7e44bef6937ebddc89186839b77"],
    "4004ccf1a0d8a3fe57d7f4d48461fb9d333957e97c10811098a80e6e");
   ([], ["3a3a819c48efde2ad914fbf00e18ab6bc4f14513ab27d0c178a188b61431e7f5623cb66b23346775d386b50e982c493adbbfc54b9a3cd383382336a1a0b2150a15358f336d03ae18f666c7573d55c4fd181c29e6ccfde63ea35f0adf5885cfc0a3d84a2b2e4dd24496db789e663170cef74798aa1bbcd4574ea0bba40489d764b2f83aadc66b148b4a0cd95246c127d5871c4f11418690a5ddf01246a0c80a43c70088b6183639dcfda4125bd113a8f49ee23ed306faac576c3fb0c1e256671d817fc2534a52f5b439f72e424de376f4c565cca82307dd9ef76da5b7c4eb7e085172e328807c02d011ffbf33785378d79dc266f6a5be6bb0e4a92eceebaeb1"],
    "c494c05c8c41893f58784c88a4243dd7b94de9a96ea14a0e6ae35f05")].
Example repo_jh224_ok : repo_jh224 = true. Proof. reflexivity. Qed.

(** test/testvectors/jh256.txt, 14 of 321 vectors. *)
Definition repo_jh256 := Eval vm_compute in replay (jh_type 256) (mst 12 64) [
   ([], [""],
    "46e64619c18bb0a92a5e87185a47eef83ca747b8fcc8e1412921357e326df434");
   ([], ["cc"],
    "7b1191f13a2667830142541bfc5918543d2a434c7692e70c3e5e9bbdddb7f581");
   ([], ["4a4f202484512526"],
    "2cf254d773dd18ba2efd3be2cb9c8f88ab313fb285da11e38c8a6680521dbb48");
   ([], ["de286ba4206e8b005714f80fb1cdfaebde91d29f84603e4a3ebc04686f99a46c9e880b96c574825582e8812a26e5a857ffc6579f63742f"],
    "3d50b9f2e622249062cb3c51014c68a2460f69a005b2879d74a65ca41e5be204");
   ([], ["eebcc18057252cbf3f9c070f1a73213356d5d4bc19ac2a411ec8cdeee7a571e2e20eaf61fd0c33a0ffeb297ddb77a97f0a415347db66bcaf"],
    "dc8b0beee7f15eadb52b6279c4efc517391b5ffb378af123b166cc1183473430");
   ([], ["f57c64006d9ea761892e145c99df1b24640883da79d9ed5262859dcda8c3c32e05b03d984f1ab4a230242ab6b78d368dc5aaa1e6d3498d53371e84b0c1d4ba"],
    "98f236f14420fa4d6d7187d429f446b28a82c359e7d0ff59d0efc983bb224ad9");
   ([], ["e926ae8b0af6e53176dbffcc2a6b88c6bd765f939d3d178a9bde9ef3aa131c61e31c1e42cdfaf4b4dcde579a37e150efbef5555b4c1cb40439d835a724e2fae7"],
    "9d35c0cc1880a36ebb6cb33b732c0c2adb4a418b4bf0df9173b539263653e90b");
   ([], ["f690a132ab46b28edfa6479283d6444e371c6459108afd9c35dbd235e0b6b6ff4c4ea58e7554bd002460433b2164ca51e868f7947d7d7a0d792e4abf0be5f450853cc40d85485b2b8857ea31b5ea6e4ccfa2f3a7ef3380066d7d8979fdac618aad3d7e886dea4f005ae4ad05e5065f"],
    "f01429d4c048fa93d38c1679a1012ab57511fb8d7d6cac6eb2df6b82baf7397d");
   ([], ["58d6a99bc6458824b256916770a8417040721cccfd4b79eacd8b65a3767ce5ba7e74104c985ac56b8cc9aebd16febd4cda5adb130b0ff2329cc8d611eb14dac268a2f9e633c99de33997fea41c52a7c5e1317d5b5daed35eba7d5a60e45d1fa7eaabc35f5c2b0a0f2379231953322c4e"],
    "aa58c9a9e5ff59945ed59c68a20d8cbaeedc184bdf1b878fa5c0e3bd185d9c21");
   ([], ["3c9b46450c0f2cae8e3823f8bdb4277f31b744ce2eb17054bddc6dff36af7f49fb8a2320cc3bdf8e0a2ea29ad3a55de1165d219adeddb5175253e2d1489e9b6fdd02e2c3d3a4b54d60e3a47334c37913c5695378a669e9b72dec32af5434f93f46176ebf044c4784467c700470d0c0b40c8a088c815816"],
    "6a9d6fe70214225050779c1505639b0c342ee0bdce26dc7cf5d2fed1b952d2b2");
   ([], ["d1e654b77cb155f5c77971a64df9e5d34c26a3cad6c7f6b300d39deb1910094691adaa095be4ba5d86690a976428635d5526f3e946f7dc3bd4dbc78999e653441187a81f9adcd5a3c5f254bc8256b0158f54673dcc1232f6e918ebfc6c51ce67eaeb042d9f57eec4bfe910e169af78b3de48d137df4f2840"],
    "ae80210494b265dc4daecd8d7c1e81148c86db3664fa5420386f0d7653cb569a");
   ([], ["2b6db7ced8665ebe9deb080295218426bdaa7c6da9add2088932cdffbaa1c14129bccdd70f369efb149285858d2b1d155d14de2fdb680a8b027284055182a0cae275234cc9c92863c1b4ab66f304cf0621cd54565f5bff461d3b461bd40df28198e3732501b4860eadd503d26d6e69338f4e0456e9e9baf3d827ae685fb1d817"],
    "43b7d01d93213874b2ac0792bed8c137e865ba5fa87b20a3151a984f4af267a6");
   ([], ["8c3798e51bc68482d7337d3abb75dc9ffe860714a9ad73551e120059860dde24ab87327222b64cf774415a70f724cdf270de3fe47dda07b61c9ef2a3551f45a5584860248fabde676e1cd75f6355aa3eaeabe3b51dc813d9fb2eaa4f0f1d9f834d7cad9c7c695ae84b329385bc0bef895b9f1edf44a03d4b410cc23a79a6b62e4f346a5e8dd851c2857995ddbf5b2d717aeb847310e1f6a46ac3d26a7f9b44985af656d2b7c9406e8a9e8f47dcb4ef6b83caacf9aefb6118bfcff7e44bef6937ebddc89186839b77"],
    "81762fe2792ccb4b8ed9d02eb56ec26c2f9fa33ac45668a2cc89301c41bb7a12");
   ([], ["3a3a819c48efde2ad914fbf00e18ab6bc4f14513ab27d0c178a188b61431e7f5623cb66b23346775d386b50e982c493adbbfc54b9a3cd383382336a1a0b2150a15358f336d03ae18f666c7573d55c4fd181c29e6ccfde63ea35f0adf5885cfc0a3d84a2b2e4dd24496db789e663170cef74798aa1bbcd4574ea0bba40489d764b2f83aadc66b148b4a0cd95246c127d5871c4f11418690a5ddf01246a0c80a43c70088b6183639dcfda4125bd113a8f49ee23ed306faac576c3fb0c1e256671d817fc2534a52f5b439f72e424de376f4c565cca82307dd9ef76da5b7c4eb7e085172e328807c02d011ffbf33785378d79dc266f6a5be6bb0e4a92eceebaeb1"],
    "d02b055958e12ef6f499f400144d2b8fb8b4e8975be487a2fb3b135646783974")].
Example repo_jh256_ok : repo_jh256 = true. Proof. reflexivity. Qed.

(** test/testvectors/jh384.txt, 14 of 321 vectors. *)
Definition repo_jh384 := Eval vm_compute in replay (jh_type 384) (mst 12 64) [
   ([], [""],
    "2fe5f71b1b3290d3c017fb3c1a4d02a5cbeb03a0476481e25082434a881994b0ff99e078d2c16b105ad069b569315328");
   ([], ["cc"],
    "ccfa3732089cb4d49af04daa865cb2376bfa264e527b5eb8486cd09b3fb9a8019140a1ca9df7539efbb3a3118d8e0584");
   ([], ["4a4f202484512526"],
    "79de2f45888b898f0dfc3167b6fafad1f3b734c3c81faf5de0c22c079ef740e1dea2ac34c56231d4d99dcd9e975a189b");
   ([], ["de286ba4206e8b005714f80fb1cdfaebde91d29f84603e4a3ebc04686f99a46c9e880b96c574825582e8812a26e5a857ffc6579f63742f"],
    "e68b6b5de4b20b3b4a276d092ba7b75f6c297b1fed84444a240bc35265231b15c5c0cae3e9eb4e1e88114815a1583891");
   ([], ["eebcc18057252cbf3f9c070f1a73213356d5d4bc19ac2a411ec8cdeee7a571e2e20eaf61fd0c33a0ffeb297ddb77a97f0a415347db66bcaf"],
    "95cdb4f7d939356c1c13bb4026180518034b9c6edec26aee8e27ea34cb50f35a95193eeeca7b78550cabf173650574ad");
   ([], ["f57c64006d9ea761892e145c99df1b24640883da79d9ed5262859dcda8c3c32e05b03d984f1ab4a230242ab6b78d368dc5aaa1e6d3498d53371e84b0c1d4ba"],
    "93125f2f4036ac69f2bdd5be4b87c299fc535ae6422d61fed98b618eeeecd0f002a6a307e2b110de59eb2bfeb26e74f0");
   ([], ["e926ae8b0af6e53176dbffcc2a6b88c6bd765f939d3d178a9bde9ef3aa131c61e31c1e42cdfaf4b4dcde579a37e150efbef5555b4c1cb40439d835a724e2fae7"],
    "b605535f1860879c2e7356c762967bc67d6f80a68a85194daf0057e3adf3baffd3b07ca1bf3bd6c4b76f3cafc901ce6b");
   ([], ["f690a132ab46b28edfa6479283d6444e371c6459108afd9c35dbd235e0b6b6ff4c4ea58e7554bd002460433b2164ca51e868f7947d7d7a0d792e4abf0be5f450853cc40d85485b2b8857ea31b5ea6e4ccfa2f3a7ef3380066d7d8979fdac618aad3d7e886dea4f005ae4ad05e5065f"],
    "6cefcfa215fff5c82243f986452ee5979d51e1799ae5ffc92f843288ca4cf9719d8ecb778540c74e1fc692f8970b88eb");
   ([], ["58d6a99bc6458824b256916770a8417040721cccfd4b79eacd8b65a3767ce5ba7e74104c985ac56b8cc9aebd16febd4cda5adb130b0ff2329cc8d611eb14dac268a2f9e633c99de33997fea41c52a7c5e1317d5b5daed35eba7d5a60e45d1fa7eaabc35f5c2b0a0f2379231953322c4e"],
    "257203e41bc3e1f41a1077e69cf8c6fb8160802fb66c9d9da032a8153eea89aba8eb3da8f872b6b19b3f68e554509937");
   ([], ["3c9b46450c0f2cae8e3823f8bdb4277f31b744ce2eb17054bddc6dff36af7f49fb8a2320cc3bdf8e0a2ea29ad3a55de1165d219adeddb5175253e2d1489e9b6fdd02e2c3d3a4b54d60e3a47334c37913c5695378a669e9b72dec32af5434f93f46176ebf044c4784467c700470d0c0b40c8a088c815816"],
    "4c822fcf6815c11f8b2d4e00a87fccfe61dabee7373210ae62c7947a38667caa5deff73738b0727a303e849d31d2eb61");
   ([], ["d1e654b77cb155f5c77971a64df9e5d34c26a3cad6c7f6b300d39deb1910094691adaa095be4ba5d86690a976428635d5526f3e946f7dc3bd4dbc78999e653441187a81f9adcd5a3c5f254bc8256b0158f54673dcc1232f6e918ebfc6c51ce67eaeb042d9f57eec4bfe910e169af78b3de48d137df4f2840"],
    "208814f5b0cbd5fadf45bc5764e006155298f4e4e59bbba6fec3010890dc341c2d1a2560e5f1609a5bde6b0fbcde092a");
   ([], ["2b6db7ced8665ebe9deb080295218426bdaa7c6da9add2088932cdffbaa1c14129bccdd70f369efb149285858d2b1d155d14de2fdb680a8b027284055182a0cae275234cc9c92863c1b4ab66f304cf0621cd54565f5bff461d3b461bd40df28198e3732501b4860eadd503d26d6e69338f4e0456e9e9baf3d827ae685fb1d817"],
    "fef557b18a29160fd3bc78cc0cc66c5613b0f2d463c231bc23a03bdb15674197a293104d7a86544f8216d8066b84d8b5");
   ([], ["8c3798e51bc68482d7337d3abb75dc9ffe860714a9ad73551e120059860dde24ab87327222b64cf774415a70f724cdf270de3fe47dda07b61c9ef2a3551f45a5584860248fabde676e1cd75f6355aa3eaeabe3b51dc813d9fb2eaa4f0f1d9f834d7cad9c7c695ae84b329385bc0bef895b9f1edf44a03d4b410cc23a79a6b62e4f346a5e8dd851c2857995ddbf5b2d717aeb847310e1f6a46ac3d26a7f9b44985af656d2b7c9406e8a9e8f47dcb4ef6b83caacf9aefb6118bfcff7e44bef6937ebddc89186839b77"],
    "813450eaf3337bc188043a3ced1c50ee56f7128c22839c8b145347302eeb4445b4bdaf43e0a6475f60580a5d1292a35b");
   ([], ["3a3a819c48efde2ad914fbf00e18ab6bc4f14513ab27d0c178a188b61431e7f5623cb66b23346775d386b50e982c493adbbfc54b9a3cd383382336a1a0b2150a15358f336d03ae18f666c7573d55c4fd181c29e6ccfde63ea35f0adf5885cfc0a3d84a2b2e4dd24496db789e663170cef74798aa1bbcd4574ea0bba40489d764b2f83aadc66b148b4a0cd95246c127d5871c4f11418690a5ddf01246a0c80a43c70088b6183639dcfda4125bd113a8f49ee23ed306faac576c3fb0c1e256671d817fc2534a52f5b439f72e424de376f4c565cca82307dd9ef76da5b7c4eb7e085172e328807c02d011ffbf33785378d79dc266f6a5be6bb0e4a92eceebaeb1"],
    "e8690e13312e80c837853fd947886c1490557eed59359301f9917b74a1898fe421c87b2b912701196962d1bab8a026c5")].
Example repo_jh384_ok : repo_jh384 = true. Proof. reflexivity. Qed.

(** test/testvectors/jh512.txt, 14 of 321 vectors. *)
Definition repo_jh512 := Eval vm_compute in replay (jh_type 512) (mst 12 64) [
   ([], [""],
    "90ecf2f76f9d2c8017d979ad5ab96b87d58fc8fc4b83060f3f900774faa2c8fabe69c5f4ff1ec2b61d6b316941cedee117fb04b1f4c5bc1b919ae841c50eec4f");
   ([], ["cc"],
    "277c93806945992a7f10102f28471af2783fe32003b3f63320810e74f1bc233bf8669ab4b922db9ef13fcdcd4d31193b731eedde98fc87c129c04a4a1071f66f");
   ([], ["4a4f202484512526"],
    "11893879dbc8e810d3abba8f38f07895c5b76c038d3bcdbce71edffb803233dd71066a7bad4f4de667c2f4197731dc37736604ebf6825d716c491c8441674e9c");
   ([], ["de286ba4206e8b005714f80fb1cdfaebde91d29f84603e4a3ebc04686f99a46c9e880b96c574825582e8812a26e5a857ffc6579f63742f"],
    "dd2d76998b7048d63f4c23070de09e216a446fbbfcdefa6e6b7504e35efe470b6b919b023efffcd169f7e953b62e51709e1c88f1e9cfbead1500ab099d06fae7");
   ([], ["eebcc18057252cbf3f9c070f1a73213356d5d4bc19ac2a411ec8cdeee7a571e2e20eaf61fd0c33a0ffeb297ddb77a97f0a415347db66bcaf"],
    "5b0d347113a9862cac078d6eea684f50f049260741cbf8063eb78347d5222fddc0b81f563a489093d75fe10229ee0444f5863e8ea0503ec68da600cd82bfdabf");
   ([], ["f57c64006d9ea761892e145c99df1b24640883da79d9ed5262859dcda8c3c32e05b03d984f1ab4a230242ab6b78d368dc5aaa1e6d3498d53371e84b0c1d4ba"],
    "197514abfb2c85c94566b72beeb9b95f6a4fb2d19306579f1e64241c4751b3df09a04dc77d7cb19d38baba36d23d73438a7c92bcbace65fad3586f9b7621205a");
   ([], ["e926ae8b0af6e53176dbffcc2a6b88c6bd765f939d3d178a9bde9ef3aa131c61e31c1e42cdfaf4b4dcde579a37e150efbef5555b4c1cb40439d835a724e2fae7"],
    "d1dbacb16c6a88bea992cd34f92d1375f05215037cf989e155d324d6d1e4204320cf18c1ad6bf11019cdd112bac3c7cb73e41a94254b8c5af3db8245318ffc70");
   ([], ["f690a132ab46b28edfa6479283d6444e371c6459108afd9c35dbd235e0b6b6ff4c4ea58e7554bd002460433b2164ca51e868f7947d7d7a0d792e4abf0be5f450853cc40d85485b2b8857ea31b5ea6e4ccfa2f3a7ef3380066d7d8979fdac618aad3d7e886dea4f005ae4ad05e5065f"],
    "9c7288ed5156d330df00b7189f0fd32ca6e2203abe1877d6cbe13b0c1b2dff593a7cad6bf0af0b1ff6eab035d611e0edfac74fec014b6a7f68a4fffc6aeb7c72");
   ([], ["58d6a99bc6458824b256916770a8417040721cccfd4b79eacd8b65a3767ce5ba7e74104c985ac56b8cc9aebd16febd4cda5adb130b0ff2329cc8d611eb14dac268a2f9e633c99de33997fea41c52a7c5e1317d5b5daed35eba7d5a60e45d1fa7eaabc35f5c2b0a0f2379231953322c4e"],
    "97873a28cdf97bd5438463b82ea80412728db35c53322bcf42b597d0775fe0c48c1a9703b2b5c2f9fdd096b5167efef5f221b9e04b4f7c49defa5b0fce9cc79d");
   ([], ["3c9b46450c0f2cae8e3823f8bdb4277f31b744ce2eb17054bddc6dff36af7f49fb8a2320cc3bdf8e0a2ea29ad3a55de1165d219adeddb5175253e2d1489e9b6fdd02e2c3d3a4b54d60e3a47334c37913c5695378a669e9b72dec32af5434f93f46176ebf044c4784467c700470d0c0b40c8a088c815816"],
    "c32802d79a3d03199b35490de200f143aadf2e5816c32f56f0a0b8fc225b6b248d4d3868ba25daac331a40dc1fa8fbd5280e92037c2837e8d28dd23c9eeab151");
   ([], ["d1e654b77cb155f5c77971a64df9e5d34c26a3cad6c7f6b300d39deb1910094691adaa095be4ba5d86690a976428635d5526f3e946f7dc3bd4dbc78999e653441187a81f9adcd5a3c5f254bc8256b0158f54673dcc1232f6e918ebfc6c51ce67eaeb042d9f57eec4bfe910e169af78b3de48d137df4f2840"],
    "2fb80ec16c5cc73b4b85c7621ef5f3f5e7a4474f795a0e673dc0d268f3cfd6153f0822890d591f399d04baf4760de1cc6802e934d7feb15bc3e2e48ee443f010");
   ([], ["2b6db7ced8665ebe9deb080295218426bdaa7c6da9add2088932cdffbaa1c14129bccdd70f369efb149285858d2b1d155d14de2fdb680a8b027284055182a0cae275234cc9c92863c1b4ab66f304cf0621cd54565f5bff461d3b461bd40df28198e3732501b4860eadd503d26d6e69338f4e0456e9e9baf3d827ae685fb1d817"],
    "9ec6669f30f482a65d93fe7811923b6bdf3a1bde032502e0b1a064c9d893c03507576fc4fbc745d458c1402ba76f7d4c4539c4dfed7c058596fa270416865162");
   ([], ["8c3798e51bc68482d7337d3abb75dc9ffe860714a9ad73551e120059860dde24ab87327222b64cf774415a70f724cdf270de3fe47dda07b61c9ef2a3551f45a5584860248fabde676e1cd75f6355aa3eaeabe3b51dc813d9fb2eaa4f0f1d9f834d7cad9c7c695ae84b329385bc0bef895b9f1edf44a03d4b410cc23a79a6b62e4f346a5e8dd851c2857995ddbf5b2d717aeb847310e1f6a46ac3d26a7f9b44985af656d2b7c9406e8a9e8f47dcb4ef6b83caacf9aefb6118bfcff7e44bef6937ebddc89186839b77"],
    "598b79981ec49e93c1bfa7af343d3c5b18c798200e4f774ddfca64dfd17c0dff5038710d51fc1777f89541a454f967688cbab1eaf498993821493022025420f4");
   ([], ["3a3a819c48efde2ad914fbf00e18ab6bc4f14513ab27d0c178a188b61431e7f5623cb66b23346775d386b50e982c493adbbfc54b9a3cd383382336a1a0b2150a15358f336d03ae18f666c7573d55c4fd181c29e6ccfde63ea35f0adf5885cfc0a3d84a2b2e4dd24496db789e663170cef74798aa1bbcd4574ea0bba40489d764b2f83aadc66b148b4a0cd95246c127d5871c4f11418690a5ddf01246a0c80a43c70088b6183639dcfda4125bd113a8f49ee23ed306faac576c3fb0c1e256671d817fc2534a52f5b439f72e424de376f4c565cca82307dd9ef76da5b7c4eb7e085172e328807c02d011ffbf33785378d79dc266f6a5be6bb0e4a92eceebaeb1"],
    "f9eaf9be02ed767289802372d67ab3b19ea9422cad9efa1a420e4b011c123ba906ee1d4852e12914752d648c432ef34a2bb3960574fefc56f96ca76d9f619218")].
Example repo_jh512_ok : repo_jh512 = true. Proof. reflexivity. Qed.

(** test/testvectors/streebog256.txt, 4 of 4 vectors. *)
Definition repo_streebog256 := Eval vm_compute in replay (streebog_type 256) (mst 12 64) [
   ([], ["303132333435363738393031323334353637383930313233343536373839303132333435363738393031323334353637383930313233343536373839303132"],
    "9d151eefd8590b89daa6ba6cb74af9275dd051026bb149a452fd84e5e57b5500");
   ([], ["d1e520e2e5f2f0e82c20d1f2f0e8e1eee6e820e2edf3f6e82c20e2e5fef2fa20f120eceef0ff20f1f2f0e5ebe0ece820ede020f5f0e0e1f0fbff20efebfaeafb20c8e3eef0e5e2fb"],
    "9dd2fe4e90409e5da87f53976d7405b0c0cac628fc669a741d50063c557e8f50");
   ([], [""],
    "3f539a213e97c802cc229d474c6aa32a825a360b2a933a949fd925208d9ce1bb");
   ([], ["00000000000000000000000000000000000000000000000000000000000000000000000000000000000000000000000000000000000000000000000000000000"],
    "df1fda9ce83191390537358031db2ecaa6aa54cd0eda241dc107105e13636b95")].
Example repo_streebog256_ok : repo_streebog256 = true. Proof. reflexivity. Qed.

(** test/testvectors/streebog512.txt, 4 of 4 vectors. *)
Definition repo_streebog512 := Eval vm_compute in replay (streebog_type 512) (mst 12 64) [
   ([], ["303132333435363738393031323334353637383930313233343536373839303132333435363738393031323334353637383930313233343536373839303132"],
    "1b54d01a4af5b9d5cc3d86d68d285462b19abc2475222f35c085122be4ba1ffa00ad30f8767b3a82384c6574f024c311e2a481332b08ef7f41797891c1646f48");
   ([], ["d1e520e2e5f2f0e82c20d1f2f0e8e1eee6e820e2edf3f6e82c20e2e5fef2fa20f120eceef0ff20f1f2f0e5ebe0ece820ede020f5f0e0e1f0fbff20efebfaeafb20c8e3eef0e5e2fb"],
    "1e88e62226bfca6f9994f1f2d51569e0daf8475a3b0fe61a5300eee46d961376035fe83549ada2b8620fcd7c496ce5b33f0cb9dddc2b6460143b03dabac9fb28");
   ([], [""],
    "8e945da209aa869f0455928529bcae4679e9873ab707b55315f56ceb98bef0a7362f715528356ee83cda5f2aac4c6ad2ba3a715c1bcd81cb8e9f90bf4c1c1a8a");
   ([], ["00000000000000000000000000000000000000000000000000000000000000000000000000000000000000000000000000000000000000000000000000000000"],
    "b0fd29ac1b0df441769ff3fdb8dc564df67721d6ac06fb28ceffb7bbaa7948c6c014ac999235b58cb26fb60fb112a145d7b4ade9ae566bf2611402c552d20db7")].
Example repo_streebog512_ok : repo_streebog512 = true. Proof. reflexivity. Qed.
