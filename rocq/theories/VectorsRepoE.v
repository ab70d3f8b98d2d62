(** Known answers (tests, not proofs): vectors of test/testvectors replayed on the models of
    the types that test/test_vectors.cc uses; written by tools/vectors.py. [Eval] runs them
    when the file is built. *)
From Coq Require Import String.
From Verif Require Import Base Hasher HasherSpec MdState Library LibraryTypes VecUtil VecReplay
  Md5 Sha1 Sha2 Sm3 Whirlpool Sha3 Shake Kmac K12 Ascon Esch Blake Blake2 Blake2p Groestl Kupyna Streebog Jh Lsh Skein Echo.
Local Open Scope string_scope.
Local Open Scope N_scope.

(** test/testvectors/echo224.txt, 14 of 594 vectors. *)
Definition repo_echo224 := Eval vm_compute in replay (echo_type 224) (mst 9 5) [
   ([], [""],
    "17da087595166f733fff7cdb0bca6438f303d0e00c48b5e7a3075905");
   ([], ["cc"],
    "34d81c434b63c8fbcf023b6417af87d906942ebd7b56c1d7b08baddc");
   ([], ["4a4f202484512526"],
    "4bf079d0c16ae30e50718648d51ad2555ebb8de85dd9e95c208d4fe1");
   ([], ["de286ba4206e8b005714f80fb1cdfaebde91d29f84603e4a3ebc04686f99a46c9e880b96c574825582e8812a26e5a857ffc6579f63742f"],
    "5a62964bc064999c9f6f830b09311c765b36fbd2caf7f50e613b563f");
   ([], ["eebcc18057252cbf3f9c070f1a73213356d5d4bc19ac2a411ec8cdeee7a571e2e20eaf61fd0c33a0ffeb297ddb77a97f0a415347db66bcaf"],
    "fabe473b8527592b2542b22b1591f0cc925072a8e0c0ab5e0333f281");
   ([], ["f57c64006d9ea761892e145c99df1b24640883da79d9ed5262859dcda8c3c32e05b03d984f1ab4a230242ab6b78d368dc5aaa1e6d3498d53371e84b0c1d4ba"],
    "ddeca087b44b107aba83ba0d92632e061dcd76d0c01928b6cd954e5a");
   ([], ["e926ae8b0af6e53176dbffcc2a6b88c6bd765f939d3d178a9bde9ef3aa131c61e31c1e42cdfaf4b4dcde579a37e150efbef5555b4c1cb40439d835a724e2fae7"],
    "9469acfade22153a470374ed35fcd576898da8d084311d42f381b735");
   ([], ["f690a132ab46b28edfa6479283d6444e371c6459108afd9c35dbd235e0b6b6ff4c4ea58e7554bd002460433b2164ca51e868f7947d7d7a0d792e4abf0be5f450853cc40d85485b2b8857ea31b5ea6e4ccfa2f3a7ef3380066d7d8979fdac618aad3d7e886dea4f005ae4ad05e5065f"],
    "a2f5583da6af32f003cb1117ca8a01d5d767ec905e14dd0cb3884a74");
   ([], ["58d6a99bc6458824b256916770a8417040721cccfd4b79eacd8b65a3767ce5ba7e74104c985ac56b8cc9aebd16febd4cda5adb130b0ff2329cc8d611eb14dac268a2f9e633c99de33997fea41c52a7c5e1317d5b5daed35eba7d5a60e45d1fa7eaabc35f5c2b0a0f2379231953322c4e"],
    "a8b9bc38e09a0be5633a571882905544e3cc7dddd1eb834628110221");
   ([], ["3c9b46450c0f2cae8e3823f8bdb4277f31b744ce2eb17054bddc6dff36af7f49fb8a2320cc3bdf8e0a2ea29ad3a55de1165d219adeddb5175253e2d1489e9b6fdd02e2c3d3a4b54d60e3a47334c37913c5695378a669e9b72dec32af5434f93f46176ebf044c4784467c700470d0c0b40c8a088c815816"],
    "25e7534b0d552dbc336cadbc14067c1bb0f27540df6cf89072d04ad0");
   ([], ["d1e654b77cb155f5c77971a64df9e5d34c26a3cad6c7f6b300d39deb1910094691adaa095be4ba5d86690a976428635d5526f3e946f7dc3bd4dbc78999e653441187a81f9adcd5a3c5f254bc8256b0158f54673dcc1232f6e918ebfc6c51ce67eaeb042d9f57eec4bfe910e169af78b3de48d137df4f2840"],
    "0525bdb698d51b48fb2a1f1bf9328d052c6dd8105e20dd741c718b30");
   ([], ["2b6db7ced8665ebe9deb080295218426bdaa7c6da9add2088932cdffbaa1c14129bccdd70f369efb149285858d2b1d155d14de2fdb680a8b027284055182a0cae275234cc9c92863c1b4ab66f304cf0621cd54565f5bff461d3b461bd40df28198e3732501b4860eadd503d26d6e69338f4e0456e9e9baf3d827ae685fb1d817"],
    "da9e9e064f307c70ded9c7d3e3439eba127842ceef2834f4fff43836");
   ([], ["8c3798e51bc68482d7337d3abb75dc9ffe860714a9ad73551e120059860dde24ab87327222b64cf774415a70f724cdf270de3fe47dda07b61c9ef2a3551f45a5584860248fabde676e1cd75f6355aa3eaeabe3b51dc813d9fb2eaa4f0f1d9f834d7cad9c7c695ae84b329385bc0bef895b9f1edf44a03d4b410cc23a79a6b62e4f346a5e8dd851c2857995ddbf5b2d717aeb847310e1f6a46ac3d26a7f9b44985af656d2b7c9406e8a9e8f47dcb4ef6b83caacf9aefb6118bfcff7e44bef6937ebddc89186839b77"],
    "eb6f00b18c15dbfc615e161b3d437dc1b9285348ba6df8a2aa1c62b1");
   ([], ["3a3a819c48efde2ad914fbf00e18ab6bc4f14513ab27d0c178a188b61431e7f5623cb66b23346775d386b50e982c493adbbfc54b9a3cd383382336a1a0b2150a15358f336d03ae18f666c7573d55c4fd181c29e6ccfde63ea35f0adf5885cfc0a3d84a2b2e4dd24496db789e663170cef74798aa1bbcd4574ea0bba40489d764b2f83aadc66b148b4a0cd95246c127d5871c4f11418690a5ddf01246a0c80a43c70088b6183639dcfda4125bd113a8f49ee23ed306faac576c3fb0c1e256671d817fc2534a52f5b439f72e424de376f4c565cca82307dd9ef76da5b7c4eb7e085172e328807c02d011ffbf33785378d79dc266f6a5be6bb0e4a92eceebaeb1"],
    "01ad62ea368d29cfa58723f8eb62bdf1affc8fd9ce366627663a3b54")].
Example repo_echo224_ok : repo_echo224 = true. Proof. reflexivity. Qed.

(** test/testvectors/echo256.txt, 14 of 594 vectors. *)
Definition repo_echo256 := Eval vm_compute in replay (echo_type 256) (mst 9 5) [
   ([], [""],
    "4496cd09d425999aefa75189ee7fd3c97362aa9e4ca898328002d20a4b519788");
   ([], ["cc"],
    "01c382b5b9d7d10ec36c98785c27eaccfb2f772a7e58b6b97bf62212b8584ae5");
   ([], ["4a4f202484512526"],
    "6b93a635adb230cf34dc57e326be59bad2a2cfa071232d5b1d39d28f3897c5a1");
   ([], ["de286ba4206e8b005714f80fb1cdfaebde91d29f84603e4a3ebc04686f99a46c9e880b96c574825582e8812a26e5a857ffc6579f63742f"],
    "c5769bbc385a3f8640aeef81ce532dec668bee7bc602fdb2f3bc1f850a9c2177");
   ([], ["eebcc18057252cbf3f9c070f1a73213356d5d4bc19ac2a411ec8cdeee7a571e2e20eaf61fd0c33a0ffeb297ddb77a97f0a415347db66bcaf"],
    "19bac8f3821c3dc529a3a56ae9d786239174abed3d1ddb7175045831e5532042");
   ([], ["f57c64006d9ea761892e145c99df1b24640883da79d9ed5262859dcda8c3c32e05b03d984f1ab4a230242ab6b78d368dc5aaa1e6d3498d53371e84b0c1d4ba"],
    "2c38ab2d34cfa545667044610eabc8079d856e1c90f58ef627b0c8356ffacfd2");
   ([], ["e926ae8b0af6e53176dbffcc2a6b88c6bd765f939d3d178a9bde9ef3aa131c61e31c1e42cdfaf4b4dcde579a37e150efbef5555b4c1cb40439d835a724e2fae7"],
    "653a4a61b6ab33fe5eef3e3d8c8b78982b09097f685f63011c1372be5c4afa59");
   ([], ["f690a132ab46b28edfa6479283d6444e371c6459108afd9c35dbd235e0b6b6ff4c4ea58e7554bd002460433b2164ca51e868f7947d7d7a0d792e4abf0be5f450853cc40d85485b2b8857ea31b5ea6e4ccfa2f3a7ef3380066d7d8979fdac618aad3d7e886dea4f005ae4ad05e5065f"],
    "ff37cbfff75415b1822b050f82eecb858ac2d353e5aa4c0ab37cc9dc6e1a3c92");
   ([], ["58d6a99bc6458824b256916770a8417040721cccfd4b79eacd8b65a3767ce5ba7e74104c985ac56b8cc9aebd16febd4cda5adb130b0ff2329cc8d611eb14dac268a2f9e633c99de33997fea41c52a7c5e1317d5b5daed35eba7d5a60e45d1fa7eaabc35f5c2b0a0f2379231953322c4e"],
    "16d4cfa9dc9d03afccfc74b3087cfa8d512e5d16f5aadbd25452e03aca836a09");
   ([], ["3c9b46450c0f2cae8e3823f8bdb4277f31b744ce2eb17054bddc6dff36af7f49fb8a2320cc3bdf8e0a2ea29ad3a55de1165d219adeddb5175253e2d1489e9b6fdd02e2c3d3a4b54d60e3a47334c37913c5695378a669e9b72dec32af5434f93f46176ebf044c4784467c700470d0c0b40c8a088c815816"],
    "ebc9ee987374e18bca1bd4dc16d3316b02651004871ac272c03c1399a4c7dd05");
   ([], ["d1e654b77cb155f5c77971a64df9e5d34c26a3cad6c7f6b300d39deb1910094691adaa095be4ba5d86690a976428635d5526f3e946f7dc3bd4dbc78999e653441187a81f9adcd5a3c5f254bc8256b0158f54673dcc1232f6e918ebfc6c51ce67eaeb042d9f57eec4bfe910e169af78b3de48d137df4f2840"],
    "0ff5b9834ea1790343b8bf8caf9f07e19712f384c2733487471ca736f8d61c32");
   ([], ["2b6db7ced8665ebe9deb080295218426bdaa7c6da9add2088932cdffbaa1c14129bccdd70f369efb149285858d2b1d155d14de2fdb680a8b027284055182a0cae275234cc9c92863c1b4ab66f304cf0621cd54565f5bff461d3b461bd40df28198e3732501b4860eadd503d26d6e69338f4e0456e9e9baf3d827ae685fb1d817"],
    "8cceb620fd5e295299d8ff8d3b96ce2df5815e1a03495a20e2cb4a0a1c1654c9");
   ([], ["8c3798e51bc68482d7337d3abb75dc9ffe860714a9ad73551e120059860dde24ab87327222b64cf774415a70f724cdf270de3fe47dda07b61c9ef2a3551f45a5584860248fabde676e1cd75f6355aa3eaeabe3b51dc813d9fb2eaa4f0f1d9f834d7cad9c7c695ae84b329385bc0bef895b9f1edf44a03d4b410cc23a79a6b62e4f346a5e8dd851c2857995ddbf5b2d717aeb847310e1f6a46ac3d26a7f9b44985af656d2b7c9406e8a9e8f47dcb4ef6b83caacf9aefb6118bfcff7e44bef6937ebddc89186839b77"],
    "0d732b5454085223049d1c9554e630842fa02cba6c6ed3154a3bd5b28418cc3f");
   ([], ["3a3a819c48efde2ad914fbf00e18ab6bc4f14513ab27d0c178a188b61431e7f5623cb66b23346775d386b50e982c493adbbfc54b9a3cd383382336a1a0b2150a15358f336d03ae18f666c7573d55c4fd181c29e6ccfde63ea35f0adf5885cfc0a3d84a2b2e4dd24496db789e663170cef74798aa1bbcd4574ea0bba40489d764b2f83aadc66b148b4a0cd95246c127d5871c4f11418690a5ddf01246a0c80a43c70088b6183639dcfda4125bd113a8f49ee23ed306faac576c3fb0c1e256671d817fc2534a52f5b439f72e424de376f4c565cca82307dd9ef76da5b7c4eb7e085172e328807c02d011ffbf33785378d79dc266f6a5be6bb0e4a92eceebaeb1"],
    "716f607321b3673e0f5da3c4ca66be9a0cb3b7d6373dd30fac0a37a608687d16")].
Example repo_echo256_ok : repo_echo256 = true. Proof. reflexivity. Qed.

(** test/testvectors/echo384.txt, 14 of 594 vectors. *)
Definition repo_echo384 := Eval vm_compute in replay (echo_type 384) (mst 9 5) [
   ([], [""],
    "134040763f840559b84b7a1ae5d6d64fc3659821a789cc64a7f1444c09ee7f81a54d72beee8273bae5ef18ec43aa5f34");
   ([], ["cc"],
    "90875a2649cab90018ff8aecd334482c92b15d76b378574eeaacd3b7598020db11e2c7480614eea8793de3daf2093f73");
   ([], ["4a4f202484512526"],
    "d31eb4bdf60a6e6e3bc9c0d3f1a788d3599e6d232655de81100fddce04eb1d4aa424712759c6e58c6c320a0012314229");
   ([], ["de286ba4206e8b005714f80fb1cdfaebde91d29f84603e4a3ebc04686f99a46c9e880b96c574825582e8812a26e5a857ffc6579f63742f"],
    "ef280bf71fba0f40299904dfc1a06550a7af523a9af44cc1cc1b80ba4890a901396ccf8aca2d354934cde7c170f2725d");
   ([], ["eebcc18057252cbf3f9c070f1a73213356d5d4bc19ac2a411ec8cdeee7a571e2e20eaf61fd0c33a0ffeb297ddb77a97f0a415347db66bcaf"],
    "f338413a9290bd3aa5236eb78c3ea2f7c003f3a11f600d48a14b7c74b0149a83e724d708b39784d99d2ba5dc0d0d9f97");
   ([], ["f57c64006d9ea761892e145c99df1b24640883da79d9ed5262859dcda8c3c32e05b03d984f1ab4a230242ab6b78d368dc5aaa1e6d3498d53371e84b0c1d4ba"],
    "7d65575f8ae0f300b7d060a7971011e6adfdaaacf7b8aebc1e7fb5dee34251c621062109b8c74e28bec56749a9adea22");
   ([], ["e926ae8b0af6e53176dbffcc2a6b88c6bd765f939d3d178a9bde9ef3aa131c61e31c1e42cdfaf4b4dcde579a37e150efbef5555b4c1cb40439d835a724e2fae7"],
    "e9866471683e04ad10b937d34c68b201b75cf3d9bfb691ec007677e29182c1f833d167264f185b32840efccec1f59340");
   ([], ["f690a132ab46b28edfa6479283d6444e371c6459108afd9c35dbd235e0b6b6ff4c4ea58e7554bd002460433b2164ca51e868f7947d7d7a0d792e4abf0be5f450853cc40d85485b2b8857ea31b5ea6e4ccfa2f3a7ef3380066d7d8979fdac618aad3d7e886dea4f005ae4ad05e5065f"],
    "e3f939c89315a10de480f5786a64c485d8a5b120caa3a565896077ece6e44fe70be0bdf1edb9347c36a05ec4aaf06575");
   ([], ["58d6a99bc6458824b256916770a8417040721cccfd4b79eacd8b65a3767ce5ba7e74104c985ac56b8cc9aebd16febd4cda5adb130b0ff2329cc8d611eb14dac268a2f9e633c99de33997fea41c52a7c5e1317d5b5daed35eba7d5a60e45d1fa7eaabc35f5c2b0a0f2379231953322c4e"],
    "cde657a9a6ceeb982b70c4b7b43b5d89737997571b6f6606d83fb2b4bb647cbb3773169bc4f3ef9d57ad686d356d2ade");
   ([], ["3c9b46450c0f2cae8e3823f8bdb4277f31b744ce2eb17054bddc6dff36af7f49fb8a2320cc3bdf8e0a2ea29ad3a55de1165d219adeddb5175253e2d1489e9b6fdd02e2c3d3a4b54d60e3a47334c37913c5695378a669e9b72dec32af5434f93f46176ebf044c4784467c700470d0c0b40c8a088c815816"],
    "c2a243fa705ca6db227a9ca1893ff51fca3731cfd96713f153657cc7d7438a0830c5a19410e842f1bf703b1839ebc85e");
   ([], ["d1e654b77cb155f5c77971a64df9e5d34c26a3cad6c7f6b300d39deb1910094691adaa095be4ba5d86690a976428635d5526f3e946f7dc3bd4dbc78999e653441187a81f9adcd5a3c5f254bc8256b0158f54673dcc1232f6e918ebfc6c51ce67eaeb042d9f57eec4bfe910e169af78b3de48d137df4f2840"],
    "8d74a829c72204171e3c3829cec5c58802a2237172ac5085f6c8ebc5351041b8156711e7ee2974f8f2145b7faf123632");
   ([], ["2b6db7ced8665ebe9deb080295218426bdaa7c6da9add2088932cdffbaa1c14129bccdd70f369efb149285858d2b1d155d14de2fdb680a8b027284055182a0cae275234cc9c92863c1b4ab66f304cf0621cd54565f5bff461d3b461bd40df28198e3732501b4860eadd503d26d6e69338f4e0456e9e9baf3d827ae685fb1d817"],
    "1c5ab536e0f0eba20d31e98f582d78922cb31132c897d0269fbdf93d1ef10dc178ac80001ac4d2d2db970061d95b0e56");
   ([], ["8c3798e51bc68482d7337d3abb75dc9ffe860714a9ad73551e120059860dde24ab87327222b64cf774415a70f724cdf270de3fe47dda07b61c9ef2a3551f45a5584860248fabde676e1cd75f6355aa3eaeabe3b51dc813d9fb2eaa4f0f1d9f834d7cad9c7c695ae84b329385bc0bef895b9f1edf44a03d4b410cc23a79a6b62e4f346a5e8dd851c2857995ddbf5b2d717aeb847310e1f6a46ac3d26a7f9b44985af656d2b7c9406e8a9e8f47dcb4ef6b83caacf9aefb6118bfcff7e44bef6937ebddc89186839b77"],
    "a36ac58c51b71b768a61d9b37e9ab7fc8a033114e326936ac9229c880882ab1ce089219aa9549c9396986f9e3d13a787");
   ([], ["3a3a819c48efde2ad914fbf00e18ab6bc4f14513ab27d0c178a188b61431e7f5623cb66b23346775d386b50e982c493adbbfc54b9a3cd383382336a1a0b2150a15358f336d03ae18f666c7573d55c4fd181c29e6ccfde63ea35f0adf5885cfc0a3d84a2b2e4dd24496db789e663170cef74798aa1bbcd4574ea0bba40489d764b2f83aadc66b148b4a0cd95246c127d5871c4f11418690a5ddf01246a0c80a43c70088b6183639dcfda4125bd113a8f49ee23ed306faac576c3fb0c1e256671d817fc2534a52f5b439f72e424de376f4c565cca82307dd9ef76da5b7c4eb7e085172e328807c02d011ffbf33785378d79dc266f6a5be6bb0e4a92eceebaeb1"],
    "c2178ed359c8a8fc2e7d8a9830cb9c206b9c930c9e93c456210a6b27ad2b03ea8e68952a40e9506cd119c6d72b69417e")].
Example repo_echo384_ok : repo_echo384 = true. Proof. reflexivity. Qed.

(** test/testvectors/echo512.txt, 14 of 594 vectors. *)
Definition repo_echo512 := Eval vm_compute in replay (echo_type 512) (mst 9 5) [
   ([], [""],
    "158f58cc79d300a9aa292515049275d051a28ab931726d0ec44bdd9faef4a702c36db9e7922fff077402236465833c5cc76af4efc352b4b44c7fa15aa0ef234e");
   ([], ["cc"],
    "dfce37ca6f32ba4c3a72e77bca20e511a39b31a6075815f083db2ecfd5c32cfd6a4e0dd9bd51921199758edd2fe8ed0fa31e06aa821c7030653d15408e8728dd");
   ([], ["4a4f202484512526"],
    "042d9632db0a23fc10292cfeae5cb7d9317cd4f536eb16eaa25909fccdfc86048076a13a5c0e22798998840b4745ee1fbf174c07c189536ae109abe253a4c2ee");
   ([], ["de286ba4206e8b005714f80fb1cdfaebde91d29f84603e4a3ebc04686f99a46c9e880b96c574825582e8812a26e5a857ffc6579f63742f"],
    "3a9da3d5edeca4c821fcf26a961b311ea5b5d148fad1046c4108b7bd47aed2b6d955941be0f53c7e0deef422b3e1f43e7c0144828aaee9b7038f899d87d968a5");
   ([], ["eebcc18057252cbf3f9c070f1a73213356d5d4bc19ac2a411ec8cdeee7a571e2e20eaf61fd0c33a0ffeb297ddb77a97f0a415347db66bcaf"],
    "661ee6987dbed94aa98c58e1545f6af1d8b02481a47163f14a6309c7ceeb4bbdd02ec0dbb2dc02604da5c16e1bddb5462a81f2a038663c89e60ec270719920b1");
   ([], ["f57c64006d9ea761892e145c99df1b24640883da79d9ed5262859dcda8c3c32e05b03d984f1ab4a230242ab6b78d368dc5aaa1e6d3498d53371e84b0c1d4ba"],
    "d72261198469dc5f80b61afcb1b157b632177dcb3fc59ba32bf34c45110487514d65989350541f4fc3082cf95346230893cb5c30bc04ea3eddc6e43a02b5e5ae");
   ([], ["e926ae8b0af6e53176dbffcc2a6b88c6bd765f939d3d178a9bde9ef3aa131c61e31c1e42cdfaf4b4dcde579a37e150efbef5555b4c1cb40439d835a724e2fae7"],
    "ec6e7384fa2c16f125a736f57c936d07044a0ac2ebb3ef4adc2775168f94f7a837dc5125aad549f02af856c19198f0e70f329cade4c319b6ec91c5fc82b6eeb9");
   ([], ["f690a132ab46b28edfa6479283d6444e371c6459108afd9c35dbd235e0b6b6ff4c4ea58e7554bd002460433b2164ca51e868f7947d7d7a0d792e4abf0be5f450853cc40d85485b2b8857ea31b5ea6e4ccfa2f3a7ef3380066d7d8979fdac618aad3d7e886dea4f005ae4ad05e5065f"],
    "256cc5f13594e89894da97b0297e325c5b3209e92a5a61c28892aa533419a25170d7a0944eaab95821af8facea15d54f859aaedf614b43d47b2aaedecc2e1d3e");
   ([], ["58d6a99bc6458824b256916770a8417040721cccfd4b79eacd8b65a3767ce5ba7e74104c985ac56b8cc9aebd16febd4cda5adb130b0ff2329cc8d611eb14dac268a2f9e633c99de33997fea41c52a7c5e1317d5b5daed35eba7d5a60e45d1fa7eaabc35f5c2b0a0f2379231953322c4e"],
    "6ecfd9dcb3fb7695e8b6fbfd7cc47d34ac35f08ebc3faf47ca9f643564cfd22ddad3c5164eb29a8bc2a4d3996dff4e5cd8aace62cddcc5fd2d2516110f599db6");
   ([], ["3c9b46450c0f2cae8e3823f8bdb4277f31b744ce2eb17054bddc6dff36af7f49fb8a2320cc3bdf8e0a2ea29ad3a55de1165d219adeddb5175253e2d1489e9b6fdd02e2c3d3a4b54d60e3a47334c37913c5695378a669e9b72dec32af5434f93f46176ebf044c4784467c700470d0c0b40c8a088c815816"],
    "933e2a4371380ef2cb2ff40febf606f743783c60f2afcf0de4602cb1a2551d8103dd8055bafdb90eb2b14a4287e18d199ec8d8e6f4abdcb9cd1951cf219fff12");
   ([], ["d1e654b77cb155f5c77971a64df9e5d34c26a3cad6c7f6b300d39deb1910094691adaa095be4ba5d86690a976428635d5526f3e946f7dc3bd4dbc78999e653441187a81f9adcd5a3c5f254bc8256b0158f54673dcc1232f6e918ebfc6c51ce67eaeb042d9f57eec4bfe910e169af78b3de48d137df4f2840"],
    "1c7d3e1437fd7334d50a88d4d1d6b693e7ddc9c967f25b993ec0c29e81dd1994004af875835715abe06081408c5a978fc5ad2af5ee267603455a345a9d2213e7");
   ([], ["2b6db7ced8665ebe9deb080295218426bdaa7c6da9add2088932cdffbaa1c14129bccdd70f369efb149285858d2b1d155d14de2fdb680a8b027284055182a0cae275234cc9c92863c1b4ab66f304cf0621cd54565f5bff461d3b461bd40df28198e3732501b4860eadd503d26d6e69338f4e0456e9e9baf3d827ae685fb1d817"],
    "f286dbf18d8320b44098e99be7b974ebdf0da2c7b6e580bce54f6a27e2a114de140e4f49802d79008ec5f405f58f17077f24d5da007a24db96c72dce2343991e");
   ([], ["8c3798e51bc68482d7337d3abb75dc9ffe860714a9ad73551e120059860dde24ab87327222b64cf774415a70f724cdf270de3fe47dda07b61c9ef2a3551f45a5584860248fabde676e1cd75f6355aa3eaeabe3b51dc813d9fb2eaa4f0f1d9f834d7cad9c7c695ae84b329385bc0bef895b9f1edf44a03d4b410cc23a79a6b62e4f346a5e8dd851c2857995ddbf5b2d717aeb847310e1f6a46ac3d26a7f9b44985af656d2b7c9406e8a9e8f47dcb4ef6b83caacf9aefb6118bfcff7e44bef6937ebddc89186839b77"],
    "9aacb0f6e446b42b881af55b5452839ebeed356a76fde6778495cb1f20f6037054bfd250c001ef911433e4ef600e292cb9f57bbae08d21cf4b021260ffff6ae1");
   ([], ["3a3a819c48efde2ad914fbf00e18ab6bc4f14513ab27d0c178a188b61431e7f5623cb66b23346775d386b50e982c493adbbfc54b9a3cd383382336a1a0b2150a15358f336d03ae18f666c7573d55c4fd181c29e6ccfde63ea35f0adf5885cfc0a3d84a2b2e4dd24496db789e663170cef74798aa1bbcd4574ea0bba40489d764b2f83aadc66b148b4a0cd95246c127d5871c4f11418690a5ddf01246a0c80a43c70088b6183639dcfda4125bd113a8f49ee23ed306faac576c3fb0c1e256671d817fc2534a52f5b439f72e424de376f4c565cca82307dd9ef76da5b7c4eb7e085172e328807c02d011ffbf33785378d79dc266f6a5be6bb0e4a92eceebaeb1"],
    "9bfee65eb915bb72e8c3b213399c4f6b3f26466ddf7df39773a0e08ed2066419d4c68f8480f7d79522a244f9a1c73b1f1ed2ef8ad8bb73167b2be438810f65fd")].
Example repo_echo512_ok : repo_echo512 = true. Proof. reflexivity. Qed.

(** test/testvectors/groestl224.txt, 14 of 321 vectors. *)
Definition repo_groestl224 := Eval vm_compute in replay (groestl_type 224) (mst 12 128) [
   ([], [""],
    "f2e180fb5947be964cd584e22e496242c6a329c577fc4ce8c36d34c3");
   ([], ["cc"],
    "62e367662adf9317154f877fd740c23fc2356080b477dac847be2eb2");
   ([], ["4a4f202484512526"],
    "3ba6fa43b12760343316ff84150f70d4215ae520f10e652e2c1a70f8");
   ([], ["de286ba4206e8b005714f80fb1cdfaebde91d29f84603e4a3ebc04686f99a46c9e880b96c574825582e8812a26e5a857ffc6579f63742f"],
    "01c9cc2e89a5572223a1d7d2848ee77a2d22daf16ee0b9a02cb8bf1c");
   ([], ["eebcc18057252cbf3f9c070f1a73213356d5d4bc19ac2a411ec8cdeee7a571e2e20eaf61fd0c33a0ffeb297ddb77a97f0a415347db66bcaf"],
    "b9ecb7cce0fb965f11bcc52d513d1ab4ea352c43d4f310f657a19d0d");
   ([], ["f57c64006d9ea761892e145c99df1b24640883da79d9ed5262859dcda8c3c32e05b03d984f1ab4a230242ab6b78d368dc5aaa1e6d3498d53371e84b0c1d4ba"],
    "27f7577603bf46cbc34783d2ca24f424590ac4eda511ed5931a63577");
   ([], ["e926ae8b0af6e53176dbffcc2a6b88c6bd765f939d3d178a9bde9ef3aa131c61e31c1e42cdfaf4b4dcde579a37e150efbef5555b4c1cb40439d835a724e2fae7"],
    "2bfcc41d9044a4619da5f5c84adb8a6715bc65f54a586c3e6a7b6a50");
   ([], ["f690a132ab46b28edfa6479283d6444e371c6459108afd9c35dbd235e0b6b6ff4c4ea58e7554bd002460433b2164ca51e868f7947d7d7a0d792e4abf0be5f450853cc40d85485b2b8857ea31b5ea6e4ccfa2f3a7ef3380066d7d8979fdac618aad3d7e886dea4f005ae4ad05e5065f"],
    "cbb36ba195b1de38404aab5981764f2a13bd08311a6608a84faa1afe");
   ([], ["58d6a99bc6458824b256916770a8417040721cccfd4b79eacd8b65a3767ce5ba7e74104c985ac56b8cc9aebd16febd4cda5adb130b0ff2329cc8d611eb14dac268a2f9e633c99de33997fea41c52a7c5e1317d5b5daed35eba7d5a60e45d1fa7eaabc35f5c2b0a0f2379231953322c4e"],
    "b31484b8c52e8a2a76b0a1043fb0eaf91bd26cc9e3223b09294206f4");
   ([], ["3c9b46450c0f2cae8e3823f8bdb4277f31b744ce2eb17054bddc6dff36af7f49fb8a2320cc3bdf8e0a2ea29ad3a55de1165d219adeddb5175253e2d1489e9b6fdd02e2c3d3a4b54d60e3a47334c37913c5695378a669e9b72dec32af5434f93f46176ebf044c4784467c700470d0c0b40c8a088c815816"],
    "cf16a3db340ef6ec2a3666abfd2b6369ba56eb1fa2065e0e14956b05");
   ([], ["d1e654b77cb155f5c77971a64df9e5d34c26a3cad6c7f6b300d39deb1910094691adaa095be4ba5d86690a976428635d5526f3e946f7dc3bd4dbc78999e653441187a81f9adcd5a3c5f254bc8256b0158f54673dcc1232f6e918ebfc6c51ce67eaeb042d9f57eec4bfe910e169af78b3de48d137df4f2840"],
    "30586139cdb912ba12374d6318a6a222277e56605faae8b02f3ad9d3");
   ([], ["2b6db7ced8665ebe9deb080295218426bdaa7c6da9add2088932cdffbaa1c14129bccdd70f369efb149285858d2b1d155d14de2fdb680a8b027284055182a0cae275234cc9c92863c1b4ab66f304cf0621cd54565f5bff461d3b461bd40df28198e3732501b4860eadd503d26d6e69338f4e0456e9e9baf3d827ae685fb1d817"],
    "33ead6e58f47469e8c391e3b9b8309ad581e6acb3ab7e7350ff5135d");
   ([], ["8c3798e51bc68482d7337d3abb75dc9ffe860714a9ad73551e120059860dde24ab87327222b64cf774415a70f724cdf270de3fe47dda07b61c9ef2a3551f45a5584860248fabde676e1cd75f6355aa3eaeabe3b51dc813d9fb2eaa4f0f1d9f834d7cad9c7c695ae84b329385bc0bef895b9f1edf44a03d4b410cc23a79a6b62e4f346a5e8dd851c2857995ddbf5b2d717aeb847310e1f6a46ac3d26a7f9b44985af656d2b7c9406e8a9e8f47dcb4ef6b83caacf9aefb6118bfcff7e44bef6937ebddc89186839b77"],
    "e6ae87d9dd8fcce6013c6eab10353debd94aa1e04fb18ddbc2138c1b");
   ([], ["3a3a819c48efde2ad914fbf00e18ab6bc4f14513ab27d0c178a188b61431e7f5623cb66b23346775d386b50e982c493adbbfc54b9a3cd383382336a1a0b2150a15358f336d03ae18f666c7573d55c4fd181c29e6ccfde63ea35f0adf5885cfc0a3d84a2b2e4dd24496db789e663170cef74798aa1bbcd4574ea0bba40489d764b2f83aadc66b148b4a0cd95246c127d5871c4f11418690a5ddf01246a0c80a43c70088b6183639dcfda4125bd113a8f49ee23ed306faac576c3fb0c1e256671d817fc2534a52f5b439f72e424de376f4c565cca82307dd9ef76da5b7c4eb7e085172e328807c02d011ffbf33785378d79dc266f6a5be6bb0e4a92eceebaeb1"],
    "6bbb50c983faa6d5a836bfb96d2520997402afda80613c3fd22440a3")].
Example repo_groestl224_ok : repo_groestl224 = true. Proof. reflexivity. Qed.

(** test/testvectors/groestl256.txt, 14 of 321 vectors. *)
Definition repo_groestl256 := Eval vm_compute in replay (groestl_type 256) (mst 12 128) [
   ([], [""],
    "1a52d11d550039be16107f9c58db9ebcc417f16f736adb2502567119f0083467");
   ([], ["cc"],
    "15e2671f0eaf66c0de3093ab7b1e39dc68f945d7002fc5dfd52d60527e7228d1");
   ([], ["4a4f202484512526"],
    "b9a9049619ffa74d3393530dddd00b7eb0e25074afff5a0a6ecf80841b80282b");
   ([], ["de286ba4206e8b005714f80fb1cdfaebde91d29f84603e4a3ebc04686f99a46c9e880b96c574825582e8812a26e5a857ffc6579f63742f"],
    "51ecb0fe1bc249ef84a7602971e70885f38d4e0a60dec0614fa760e4243a6ceb");
   ([], ["eebcc18057252cbf3f9c070f1a73213356d5d4bc19ac2a411ec8cdeee7a571e2e20eaf61fd0c33a0ffeb297ddb77a97f0a415347db66bcaf"],
    "1db8b9b50186a8a8a122d9a861ed45b9d01aaf8256bf2c8956b09fb166c92f6d");
   ([], ["f57c64006d9ea761892e145c99df1b24640883da79d9ed5262859dcda8c3c32e05b03d984f1ab4a230242ab6b78d368dc5aaa1e6d3498d53371e84b0c1d4ba"],
    "bcf360ae1494dfd755471adfb62feb4a68415ee501620b278e99cd60955ff3f9");
   ([], ["e926ae8b0af6e53176dbffcc2a6b88c6bd765f939d3d178a9bde9ef3aa131c61e31c1e42cdfaf4b4dcde579a37e150efbef5555b4c1cb40439d835a724e2fae7"],
    "5adebbfdf6fd6178892b39a97a32b29fb605f97e1e5c3bbcf624a0e9cd72d145");
   ([], ["f690a132ab46b28edfa6479283d6444e371c6459108afd9c35dbd235e0b6b6ff4c4ea58e7554bd002460433b2164ca51e868f7947d7d7a0d792e4abf0be5f450853cc40d85485b2b8857ea31b5ea6e4ccfa2f3a7ef3380066d7d8979fdac618aad3d7e886dea4f005ae4ad05e5065f"],
    "5eae8c4fa2e296ef5b246bf8abd0874b02b579ddfa372ca8e7543e7cbf5280a2");
   ([], ["58d6a99bc6458824b256916770a8417040721cccfd4b79eacd8b65a3767ce5ba7e74104c985ac56b8cc9aebd16febd4cda5adb130b0ff2329cc8d611eb14dac268a2f9e633c99de33997fea41c52a7c5e1317d5b5daed35eba7d5a60e45d1fa7eaabc35f5c2b0a0f2379231953322c4e"],
    "dc57217032f0fbc452799adc8eb4cc69f5e2ee897b683109bbb8f209f8b5ff5a");
   ([], ["3c9b46450c0f2cae8e3823f8bdb4277f31b744ce2eb17054bddc6dff36af7f49fb8a2320cc3bdf8e0a2ea29ad3a55de1165d219adeddb5175253e2d1489e9b6fdd02e2c3d3a4b54d60e3a47334c37913c5695378a669e9b72dec32af5434f93f46176ebf044c4784467c700470d0c0b40c8a088c815816"],
    "14f30b014222c3c85f7f8d9ade2f86347303ec62aa79add7ddf45cb5f77b4098");
   ([], ["d1e654b77cb155f5c77971a64df9e5d34c26a3cad6c7f6b300d39deb1910094691adaa095be4ba5d86690a976428635d5526f3e946f7dc3bd4dbc78999e653441187a81f9adcd5a3c5f254bc8256b0158f54673dcc1232f6e918ebfc6c51ce67eaeb042d9f57eec4bfe910e169af78b3de48d137df4f2840"],
    "50b3b3cadebefa8702671075d02b8a9d6a7a770393c3b8a02b4e6d4496f2f766");
   ([], ["2b6db7ced8665ebe9deb080295218426bdaa7c6da9add2088932cdffbaa1c14129bccdd70f369efb149285858d2b1d155d14de2fdb680a8b027284055182a0cae275234cc9c92863c1b4ab66f304cf0621cd54565f5bff461d3b461bd40df28198e3732501b4860eadd503d26d6e69338f4e0456e9e9baf3d827ae685fb1d817"],
    "b8a871928fcc39ab286e5a768b0ae61ddbd765fbc55c2dd2f3d10477d362a08f");
   ([], ["8c3798e51bc68482d7337d3abb75dc9ffe860714a9ad73551e120059860dde24ab87327222b64cf774415a70f724cdf270de3fe47dda07b61c9ef2a3551f45a5584860248fabde676e1cd75f6355aa3eaeabe3b51dc813d9fb2eaa4f0f1d9f834d7cad9c7c695ae84b329385bc0bef895b9f1edf44a03d4b410cc23a79a6b62e4f346a5e8dd851c2857995ddbf5b2d717aeb847310e1f6a46ac3d26a7f9b44985af656d2b7c9406e8a9e8f47dcb4ef6b83caacf9aefb6118bfcff7e44bef6937ebddc89186839b77"],
    "64c6a5553aa262ec66fcf70d303d4b88168d2a93acbd0483e1519a3300ce7695");
   ([], ["3a3a819c48efde2ad914fbf00e18ab6bc4f14513ab27d0c178a188b61431e7f5623cb66b23346775d386b50e982c493adbbfc54b9a3cd383382336a1a0b2150a15358f336d03ae18f666c7573d55c4fd181c29e6ccfde63ea35f0adf5885cfc0a3d84a2b2e4dd24496db789e663170cef74798aa1bbcd4574ea0bba40489d764b2f83aadc66b148b4a0cd95246c127d5871c4f11418690a5ddf01246a0c80a43c70088b6183639dcfda4125bd113a8f49ee23ed306faac576c3fb0c1e256671d817fc2534a52f5b439f72e424de376f4c565cca82307dd9ef76da5b7c4eb7e085172e328807c02d011ffbf33785378d79dc266f6a5be6bb0e4a92eceebaeb1"],
    "aa65c8ad802d0733e6ebbee59d1eeb9c02550df812226f68860b652f0a266471")].
Example repo_groestl256_ok : repo_groestl256 = true. Proof. reflexivity. Qed.

(** test/testvectors/groestl384.txt, 14 of 321 vectors. *)
Definition repo_groestl384 := Eval vm_compute in replay (groestl_type 384) (mst 12 128) [
   ([], [""],
    "ac353c1095ace21439251007862d6c62f829ddbe6de4f78e68d310a9205a736d8b11d99bffe448f57a1cfa2934f044a5");
   ([], ["cc"],
    "180967815d83acfd0c771c2140f5eed93eb4b346fc7b88e73d1febb77c6e11ea7834e35ecfabe03083a520dacb76e7b7");
   ([], ["4a4f202484512526"],
    "631f3bb9b30322595b72add70628eeea5c55cedc9916d2a625eab0b88c6fbf21333ef0eac4560942766af565315e483b");
   ([], ["de286ba4206e8b005714f80fb1cdfaebde91d29f84603e4a3ebc04686f99a46c9e880b96c574825582e8812a26e5a857ffc6579f63742f"],
    "dcad8735557ebd07762b79c79180497d5bd771aad3eb84194d5864b878aeb8e6b03d4d470ab6da68be9b4d971b26c248");
   ([], ["eebcc18057252cbf3f9c070f1a73213356d5d4bc19ac2a411ec8cdeee7a571e2e20eaf61fd0c33a0ffeb297ddb77a97f0a415347db66bcaf"],
    "e57059f9c8dc994af929b5c84af66c35e35203af1b5c3a7b08c1000ba60f036400b0ced6b9ed6b1f0c57530ab5531be1");
   ([], ["f57c64006d9ea761892e145c99df1b24640883da79d9ed5262859dcda8c3c32e05b03d984f1ab4a230242ab6b78d368dc5aaa1e6d3498d53371e84b0c1d4ba"],
    "8b93df690dcf3b14ecaa00c2158d107ee17bdc585e78e9fbe1c7990a50b7f363337cfb8b36a7a7ff253c090d585f6355");
   ([], ["e926ae8b0af6e53176dbffcc2a6b88c6bd765f939d3d178a9bde9ef3aa131c61e31c1e42cdfaf4b4dcde579a37e150efbef5555b4c1cb40439d835a724e2fae7"],
    "428aa2346ddcba643b9209b72ccbb56706a77846bcd1796387ee78a68086faf84865f14163cf3e6c4bb585b4337e40e2");
   ([], ["f690a132ab46b28edfa6479283d6444e371c6459108afd9c35dbd235e0b6b6ff4c4ea58e7554bd002460433b2164ca51e868f7947d7d7a0d792e4abf0be5f450853cc40d85485b2b8857ea31b5ea6e4ccfa2f3a7ef3380066d7d8979fdac618aad3d7e886dea4f005ae4ad05e5065f"],
    "d968c873ce6f97c38ea3a29e26a61383d4e555e6527011f0d382ffcbf730714bcb83b9ca6fcb4a9c83f9ea482a8ae2f6");
   ([], ["58d6a99bc6458824b256916770a8417040721cccfd4b79eacd8b65a3767ce5ba7e74104c985ac56b8cc9aebd16febd4cda5adb130b0ff2329cc8d611eb14dac268a2f9e633c99de33997fea41c52a7c5e1317d5b5daed35eba7d5a60e45d1fa7eaabc35f5c2b0a0f2379231953322c4e"],
    "b311bfa063710c01ca14b59cbda79a038682340a61c4591e4f94b5b5c7ccbb93d30d3f4579bbdb85920373d25d5e2b6d");
   ([], ["3c9b46450c0f2cae8e3823f8bdb4277f31b744ce2eb17054bddc6dff36af7f49fb8a2320cc3bdf8e0a2ea29ad3a55de1165d219adeddb5175253e2d1489e9b6fdd02e2c3d3a4b54d60e3a47334c37913c5695378a669e9b72dec32af5434f93f46176ebf044c4784467c700470d0c0b40c8a088c815816"],
    "bb1b06695e85a70f9b889eef89e7d9f1c20236aa6453cd939b80b4667b49d7dc0c2a252ba90f77e0639f32689560cc72");
   ([], ["d1e654b77cb155f5c77971a64df9e5d34c26a3cad6c7f6b300d39deb1910094691adaa095be4ba5d86690a976428635d5526f3e946f7dc3bd4dbc78999e653441187a81f9adcd5a3c5f254bc8256b0158f54673dcc1232f6e918ebfc6c51ce67eaeb042d9f57eec4bfe910e169af78b3de48d137df4f2840"],
    "96297748df369cd38bee7ae196d0c6e591a6958856a5e2db12732af9d44362a80f612d65b930aa40b90bef1b7ee82a9e");
   ([], ["2b6db7ced8665ebe9deb080295218426bdaa7c6da9add2088932cdffbaa1c14129bccdd70f369efb149285858d2b1d155d14de2fdb680a8b027284055182a0cae275234cc9c92863c1b4ab66f304cf0621cd54565f5bff461d3b461bd40df28198e3732501b4860eadd503d26d6e69338f4e0456e9e9baf3d827ae685fb1d817"],
    "91502d3dd560bcc6e2c7750dd95abce45a30e7daf7f4b42d8774ce1fc504c93cd8139daacbf6484ff496defab324823d");
   ([], ["8c3798e51bc68482d7337d3abb75dc9ffe860714a9ad73551e120059860dde24ab87327222b64cf774415a70f724cdf270de3fe47dda07b61c9ef2a3551f45a5584860248fabde676e1cd75f6355aa3eaeabe3b51dc813d9fb2eaa4f0f1d9f834d7cad9c7c695ae84b329385bc0bef895b9f1edf44a03d4b410cc23a79a6b62e4f346a5e8dd851c2857995ddbf5b2d717aeb847310e1f6a46ac3d26a7f9b44985af656d2b7c9406e8a9e8f47dcb4ef6b83caacf9aefb6118bfcff7e44bef6937ebddc89186839b77"],
    "d3cd5825665360a343072be4e8b397eb26fe560720e60d4beec2649a38b0e19f0a39aabd47b4674a1fd1fb88179f36f2");
   ([], ["3a3a819c48efde2ad914fbf00e18ab6bc4f14513ab27d0c178a188b61431e7f5623cb66b23346775d386b50e982c493adbbfc54b9a3cd383382336a1a0b2150a15358f336d03ae18f666c7573d55c4fd181c29e6ccfde63ea35f0adf5885cfc0a3d84a2b2e4dd24496db789e663170cef74798aa1bbcd4574ea0bba40489d764b2f83aadc66b148b4a0cd95246c127d5871c4f11418690a5ddf01246a0c80a43c70088b6183639dcfda4125bd113a8f49ee23ed306faac576c3fb0c1e256671d817fc2534a52f5b439f72e424de376f4c565cca82307dd9ef76da5b7c4eb7e085172e328807c02d011ffbf33785378d79dc266f6a5be6bb0e4a92eceebaeb1"],
    "dfab86a389657a2c4d8d9d248ce12c26d03b3ccebc5122226af256432ebdbf4c9bae3eb5363614a725e43216589d6299")].
Example repo_groestl384_ok : repo_groestl384 = true. Proof. reflexivity. Qed.

(** test/testvectors/groestl512.txt, 14 of 321 vectors. *)
Definition repo_groestl512 := Eval vm_compute in replay (groestl_type 512) (mst 12 128) [
   ([], [""],
    "6d3ad29d279110eef3adbd66de2a0345a77baede1557f5d099fce0c03d6dc2ba8e6d4a6633dfbd66053c20faa87d1a11f39a7fbe4a6c2f009801370308fc4ad8");
   ([], ["cc"],
    "b23eeeb675c272c6e37a6ee9ab4dc505c9d6a10020f6bed3948205d04cdd1e90b06e494d186ef4f19266d7da200c89dc009e2b1a538cdea199e773fc076f802e");
   ([], ["4a4f202484512526"],
    "75d6ae946bc0d3c56d23d0ab0bb85ee1eb4904970ea85225471e54d19e026f4092ea2f4705fc1da2bfafccfce268e5f864dabf246539821da19c3f544180a103");
   ([], ["de286ba4206e8b005714f80fb1cdfaebde91d29f84603e4a3ebc04686f99a46c9e880b96c574825582e8812a26e5a857ffc6579f63742f"],
    "8d0b18a616a31af5f8bd3eb8715ab0019233586e79668439d36fcca7c01b76ebf4f1b729e34fc0c078c893c76908322cb6921c272c624a3ba735463e099dc8ec");
   ([], ["eebcc18057252cbf3f9c070f1a73213356d5d4bc19ac2a411ec8cdeee7a571e2e20eaf61fd0c33a0ffeb297ddb77a97f0a415347db66bcaf"],
    "8e150575425c26620c42672e1f32864c0b6fac1f23cb8062b4e2977390f5f971ee7079aba920cba14adb4465ade9cc556900c8524e8df1c80327c92e9caf7493");
   ([], ["f57c64006d9ea761892e145c99df1b24640883da79d9ed5262859dcda8c3c32e05b03d984f1ab4a230242ab6b78d368dc5aaa1e6d3498d53371e84b0c1d4ba"],
    "84749515e7aa1d096117c35a02fe35e2f0487cc1ce44c9e89e2b28c228c436908f312011a04d5363a6370ff98180f1c14ed62ac61218ee474cf91314af4ff412");
   ([], ["e926ae8b0af6e53176dbffcc2a6b88c6bd765f939d3d178a9bde9ef3aa131c61e31c1e42cdfaf4b4dcde579a37e150efbef5555b4c1cb40439d835a724e2fae7"],
    "e8eeddef7104f8ee0a93c4be5028db073b7ac44b73787b3adcafdb8aade084c19550ebb1d968e2b26b9f99ba48d5686e1d7658725f6934a845cb5ee475b8b7f0");
   ([], ["f690a132ab46b28edfa6479283d6444e371c6459108afd9c35dbd235e0b6b6ff4c4ea58e7554bd002460433b2164ca51e868f7947d7d7a0d792e4abf0be5f450853cc40d85485b2b8857ea31b5ea6e4ccfa2f3a7ef3380066d7d8979fdac618aad3d7e886dea4f005ae4ad05e5065f"],
    "814a596249ac113cf394a5e348df55293bce8401bf9f0ec34114bb55ea1a047283af655d45ac45717c60f66398a36cd1f7f354ae6fd327d6f50f1c978c704433");
   ([], ["58d6a99bc6458824b256916770a8417040721cccfd4b79eacd8b65a3767ce5ba7e74104c985ac56b8cc9aebd16febd4cda5adb130b0ff2329cc8d611eb14dac268a2f9e633c99de33997fea41c52a7c5e1317d5b5daed35eba7d5a60e45d1fa7eaabc35f5c2b0a0f2379231953322c4e"],
    "064811fc74ca13d2a6dac05c9617a369d77071f4ab5c0d3d563bdf33fb9f1d8e05c6c261d32ffb7bb0e2037d0b934fc16183346c644b8926c2ae0719d2ec06a1");
   ([], ["3c9b46450c0f2cae8e3823f8bdb4277f31b744ce2eb17054bddc6dff36af7f49fb8a2320cc3bdf8e0a2ea29ad3a55de1165d219adeddb5175253e2d1489e9b6fdd02e2c3d3a4b54d60e3a47334c37913c5695378a669e9b72dec32af5434f93f46176ebf044c4784467c700470d0c0b40c8a088c815816"],
    "427af58871bec7fadc342e40805abb7b3e47ab2a4c7fe529ffa20207d7b7f3c1b53e050ff64498f0ad028fe1f9f4d075eb88f8a59fa4bc25922a1cd21547b09e");
   ([], ["d1e654b77cb155f5c77971a64df9e5d34c26a3cad6c7f6b300d39deb1910094691adaa095be4ba5d86690a976428635d5526f3e946f7dc3bd4dbc78999e653441187a81f9adcd5a3c5f254bc8256b0158f54673dcc1232f6e918ebfc6c51ce67eaeb042d9f57eec4bfe910e169af78b3de48d137df4f2840"],
    "5146d9b44b0bf31099b11835cc8bb4bc3b6370de7932cd77c6d4468b0a847de13758de22f3f223522e7fe9d722ae044b13012ec5dd7c34a9fa0d3c61cb9398b9");
   ([], ["2b6db7ced8665ebe9deb080295218426bdaa7c6da9add2088932cdffbaa1c14129bccdd70f369efb149285858d2b1d155d14de2fdb680a8b027284055182a0cae275234cc9c92863c1b4ab66f304cf0621cd54565f5bff461d3b461bd40df28198e3732501b4860eadd503d26d6e69338f4e0456e9e9baf3d827ae685fb1d817"],
    "ff410b511135dbc0b8644c28efa3ec632326feb98e50edc6390c441610d7c514acdf0a61a0bf01aa9dc1f55d92e085248eba1c24ee23978b4986af41c13a6176");
   ([], ["8c3798e51bc68482d7337d3abb75dc9ffe860714a9ad73551e120059860dde24ab87327222b64cf774415a70f724cdf270de3fe47dda07b61c9ef2a3551f45a5584860248fabde676e1cd75f6355aa3eaeabe3b51dc813d9fb2eaa4f0f1d9f834d7cad9c7c695ae84b329385bc0bef895b9f1edf44a03d4b410cc23a79a6b62e4f346a5e8dd851c2857995ddbf5b2d717aeb847310e1f6a46ac3d26a7f9b44985af656d2b7c9406e8a9e8f47dcb4ef6b83caacf9aefb6118bfcff7e44bef6937ebddc89186839b77"],
    "cd21a8bc35b8e8ba0255bb4ffc53263003566b203710401c4accaca06f85b56620e8b08787278ce8dfdd1446e47344a94926598d2d3bc06787aa2f1b72bc804c");
   ([], ["3a3a819c48efde2ad914fbf00e18ab6bc4f14513ab27d0c178a188b61431e7f5623cb66b23346775d386b50e982c493adbbfc54b9a3cd383382336a1a0b2150a15358f336d03ae18f666c7573d55c4fd181c29e6ccfde63ea35f0adf5885cfc0a3d84a2b2e4dd24496db789e663170cef74798aa1bbcd4574ea0bba40489d764b2f83aadc66b148b4a0cd95246c127d5871c4f11418690a5ddf01246a0c80a43c70088b6183639dcfda4125bd113a8f49ee23ed306faac576c3fb0c1e256671d817fc2534a52f5b439f72e424de376f4c565cca82307dd9ef76da5b7c4eb7e085172e328807c02d011ffbf33785378d79dc266f6a5be6bb0e4a92eceebaeb1"],
    "42edfe5595c0c5df6a02eead0feb4092d970c54147bd781023afa29452d96884db3047c72a1395d12c12c713b11cf0a3e478950f473fe2d47d253f0203ba5c6a")].
Example repo_groestl512_ok : repo_groestl512 = true. Proof. reflexivity. Qed.

(** test/testvectors/kupyna256.txt, 6 of 6 vectors. *)
Definition repo_kupyna256 := Eval vm_compute in replay (kupyna_type 256) (mst 12 128) [
   ([], ["000102030405060708090a0b0c0d0e0f101112131415161718191a1b1c1d1e1f202122232425262728292a2b2c2d2e2f303132333435363738393a3b3c3d3e3f"],
    "08f4ee6f1be6903b324c4e27990cb24ef69dd58dbe84813ee0a52f6631239875");
   ([], ["000102030405060708090a0b0c0d0e0f101112131415161718191a1b1c1d1e1f202122232425262728292a2b2c2d2e2f303132333435363738393a3b3c3d3e3f404142434445464748494a4b4c4d4e4f505152535455565758595a5b5c5d5e5f606162636465666768696a6b6c6d6e6f707172737475767778797a7b7c7d7e7f"],
    "0a9474e645a7d25e255e9e89fff42ec7eb31349007059284f0b182e452bda882");
   ([], ["000102030405060708090a0b0c0d0e0f101112131415161718191a1b1c1d1e1f202122232425262728292a2b2c2d2e2f303132333435363738393a3b3c3d3e3f404142434445464748494a4b4c4d4e4f505152535455565758595a5b5c5d5e5f606162636465666768696a6b6c6d6e6f707172737475767778797a7b7c7d7e7f808182838485868788898a8b8c8d8e8f909192939495969798999a9b9c9d9e9fa0a1a2a3a4a5a6a7a8a9aaabacadaeafb0b1b2b3b4b5b6b7b8b9babbbcbdbebfc0c1c2c3c4c5c6c7c8c9cacbcccdcecfd0d1d2d3d4d5d6d7d8d9dadbdcdddedfe0e1e2e3e4e5e6e7e8e9eaebecedeeeff0f1f2f3f4f5f6f7f8f9fafbfcfdfeff"],
    "d305a32b963d149dc765f68594505d4077024f836c1bf03806e1624ce176c08f");
   ([], ["ff"],
    "ea7677ca4526555680441c117982ea14059ea6d0d7124d6ecdb3deec49e890f4");
   ([], ["000102030405060708090a0b0c0d0e0f101112131415161718191a1b1c1d1e1f202122232425262728292a2b2c2d2e2f303132333435363738393a3b3c3d3e3f404142434445464748494a4b4c4d4e4f505152535455565758595a5b5c5d5e"],
    "1075c8b0cb910f116bda5fa1f19c29cf8ecc75caff7208ba2994b68fc56e8d16");
   ([], [""],
    "cd5101d1ccdf0d1d1f4ada56e888cd724ca1a0838a3521e7131d4fb78d0f5eb6")].
Example repo_kupyna256_ok : repo_kupyna256 = true. Proof. reflexivity. Qed.

(** test/testvectors/kupyna512.txt, 7 of 7 vectors. *)
Definition repo_kupyna512 := Eval vm_compute in replay (kupyna_type 512) (mst 12 128) [
   ([], ["000102030405060708090a0b0c0d0e0f101112131415161718191a1b1c1d1e1f202122232425262728292a2b2c2d2e2f303132333435363738393a3b3c3d3e3f"],
    "3813e2109118cdfb5a6d5e72f7208dccc80a2dfb3afdfb02f46992b5edbe536b3560dd1d7e29c6f53978af58b444e37ba685c0dd910533ba5d78efffc13de62a");
   ([], ["000102030405060708090a0b0c0d0e0f101112131415161718191a1b1c1d1e1f202122232425262728292a2b2c2d2e2f303132333435363738393a3b3c3d3e3f404142434445464748494a4b4c4d4e4f505152535455565758595a5b5c5d5e5f606162636465666768696a6b6c6d6e6f707172737475767778797a7b7c7d7e7f"],
    "76ed1ac28b1d0143013ffa87213b4090b356441263c13e03fa060a8cada32b979635657f256b15d5fca4a174de029f0b1b4387c878fcc1c00e8705d783fd7ffe");
   ([], ["000102030405060708090a0b0c0d0e0f101112131415161718191a1b1c1d1e1f202122232425262728292a2b2c2d2e2f303132333435363738393a3b3c3d3e3f404142434445464748494a4b4c4d4e4f505152535455565758595a5b5c5d5e5f606162636465666768696a6b6c6d6e6f707172737475767778797a7b7c7d7e7f808182838485868788898a8b8c8d8e8f909192939495969798999a9b9c9d9e9fa0a1a2a3a4a5a6a7a8a9aaabacadaeafb0b1b2b3b4b5b6b7b8b9babbbcbdbebfc0c1c2c3c4c5c6c7c8c9cacbcccdcecfd0d1d2d3d4d5d6d7d8d9dadbdcdddedfe0e1e2e3e4e5e6e7e8e9eaebecedeeeff0f1f2f3f4f5f6f7f8f9fafbfcfdfeff"],
    "0dd03d7350c409cb3c29c25893a0724f6b133fa8b9eb90a64d1a8fa93b56556611eb187d715a956b107e3bfc76482298133a9ce8cbc0bd5e1436a5b197284f7e");
   ([], ["ff"],
    "871b18cf754b72740307a97b449abeb32b64444cc0d5a4d65830ae5456837a72d8458f12c8f06c98c616abe11897f86263b5cb77c420fb375374bec52b6d0292");
   ([], ["000102030405060708090a0b0c0d0e0f101112131415161718191a1b1c1d1e1f202122232425262728292a2b2c2d2e2f303132333435363738393a3b3c3d3e3f404142434445464748494a4b4c4d4e4f505152535455565758595a5b5c5d5e5f606162636465666768696a6b6c6d6e6f707172737475767778797a7b7c7d7e7f808182838485868788898a8b8c8d8e8f909192939495969798999a9b9c9d9e9fa0a1a2a3a4a5a6a7a8a9aaabacadaeafb0b1b2b3b4b5b6b7b8b9babbbcbdbebf"],
    "b189bfe987f682f5f167f0d7fa565330e126b6e592b1c55d44299064ef95b1a57f3c2d0ecf17869d1d199ebbd02e8857fb8add67a8c31f56cd82c016cf743121");
   ([], [""],
    "656b2f4cd71462388b64a37043ea55dbe445d452aecd46c3298343314ef04019bcfa3f04265a9857f91be91fce197096187ceda78c9c1c021c294a0689198538");
   ([], ["000102030405060708090a0b0c0d0e0f101112131415161718191a1b1c1d1e1f202122232425262728292a2b2c2d2e2f303132333435363738393a3b3c3d3e3f404142434445464748494a4b4c4d4e4f505152535455565758595a5b5c5d5e"],
    "53bbb2b549cd4f31f1cc231651302242d9021692d84e5175735654846ba751e6d0ed0fac36dfbc0841287dcb0b5584c75016c3decc2a6e47c50b2f3811e351b8")].
Example repo_kupyna512_ok : repo_kupyna512 = true. Proof. reflexivity. Qed.

(** test/testvectors/whirlpool.txt, 11 of 647 vectors. *)
Definition repo_whirlpool := Eval vm_compute in replay whirlpool_type (mst 12 64) [
   ([], [""],
    "19fa61d75522a4669b44e39c1d2e1726c530232130d407f89afee0964997f7a73e83be698b288febcf88e3e03c4f0757ea8964e59b63d93708b138cc42a66eb3");
   ([], ["00"],
    "4d9444c212955963d425a410176fccfb74161e6839692b4c11fde2ed6eb559efe0560c39a7b61d5a8bcabd6817a3135af80f342a4942ccaae745abddfb6afed0");
   ([], ["0000000000000000"],
    "7207be34fee657189af2748358f46c23175c1dcdd6741a9bdb139aeb255b618b711775fc258ac0fa53c350305862415ea121c65bf9e2fae06cbd81355d928ad7");
   ([], ["00000000000000000000000000000000000000000000000000000000000000000000000000000000000000000000000000000000000000"],
    "d64ab30797e2d5e986b7b6fe99fc5aa79918d4423a5808d64f8042a9489485e6619f57d2865091b363a3b9b788b16690fba45e8be352fc9517b58a05937383e7");
   ([], ["0000000000000000000000000000000000000000000000000000000000000000000000000000000000000000000000000000000000000000"],
    "0b3f5378ebed2bf4d7be3cfd818c1b03b6bb03d346948b04f4f40c726f0758702a0f1e225880e38dd5f6ed6de9b1e961e49fc1318d7cb74822f3d0e2e9a7e7b0");
   ([], ["000000000000000000000000000000000000000000000000000000000000000000000000000000000000000000000000000000000000000000000000000000"],
    "0fac8ef35b4f7be6e1ac1580eef1a8a90f81e3043cc45e918eda3543d9d4e9e3aa16c8e5e71bf792f81ca67f625ff98f9ca1eab8fa9b78c9d2e771cf249768dd");
   ([], ["00000000000000000000000000000000000000000000000000000000000000000000000000000000000000000000000000000000000000000000000000000000"],
    "15cfa7c1df8e0d6753d9a9aed0642867e26bb3cf11df7dac96f60c274e060fda941ec41eaff5f7375f3839632516ae9a831d9f2fbe2bd0ff02e9cf16e99ebd03");
   ([], ["000000000000000000000000000000000000000000000000000000000000000000000000000000000000000000000000000000000000000000000000000000000000000000000000000000000000000000000000000000000000000000000000000000000000000000000000000000"],
    "58058d5811cb118fa2480b0e76c00cb217c6f7b40dc786f884194ad2ce2e4620862ebacf758afe3e304a16f6dd57503890d8c6609fb5b26df2f19a461ef2e4b1");
   ([], ["00000000000000000000000000000000000000000000000000000000000000000000000000000000000000000000000000000000000000000000000000000000000000000000000000000000000000000000000000000000000000000000000000000000000000000000000000000000"],
    "e7a337a2189f07031e4b68e6114df7e1f0979970e90a999390b6a374bbdeb37d5842c6c2a691d6d9f600626c57c73f4b70082ca6770daec1ede1dd28c984964e");
   ([], ["0000000000000000000000000000000000000000000000000000000000000000000000000000000000000000000000000000000000000000000000000000000000000000000000000000000000000000000000000000000000000000000000000000000000000000000000000000000000000000000000"],
    "4003434d77081d59ef43f826de060d4776d94ce8c9b7e0d11d3c7a159addcaaed691843793ff0a6482c1f9eb5740765bd47720cbd7660ea0e310a76e09bc38cd");
   ([], ["000000000000000000000000000000000000000000000000000000000000000000000000000000000000000000000000000000000000000000000000000000000000000000000000000000000000000000000000000000000000000000000000000000000000000000000000000000000000000000000000"],
    "2adee7400ca8b2d5ee3cc614b7de1a94d70246ca6b29b7ecd7b01a59cea0592730aad9fee593c9d3d809d47d74b901f897e8c7901ddfc68ca5a1971c41853415")].
Example repo_whirlpool_ok : repo_whirlpool = true. Proof. reflexivity. Qed.
