(** Known answers (tests, not proofs): vectors of test/testvectors replayed on the models of
    the types that test/test_vectors.cc uses; written by tools/vectors.py. [Eval] runs them
    when the file is built. *)
From Coq Require Import String.
From Verif Require Import Base Hasher HasherSpec MdState Library LibraryTypes VecUtil VecReplay
  Md5 Sha1 Sha2 Sm3 Whirlpool Sha3 Shake Kmac K12 Ascon Esch Blake Blake2 Blake2p Groestl Kupyna Streebog Jh Lsh Skein Echo.
Local Open Scope string_scope.
Local Open Scope N_scope.

(** test/testvectors/blake224.txt, 16 of 321 vectors. *)
Definition repo_blake224 := Eval vm_compute in replay (blake_type 224) (mst 12 128) [
   ([], [""],
    "7dc5313b1c04512a174bd6503b89607aecbee0903d40a8a569c94eed");
   ([], ["cc"],
    "5e21c1e375c7bc822046fad96910c95031bd4262ada71b4c91052fea");
   ([], ["4a4f202484512526"],
    "9a103b050484c01f0054c5ffc2eff886d8839a7943b1a350049add7c");
   ([], ["de286ba4206e8b005714f80fb1cdfaebde91d29f84603e4a3ebc04686f99a46c9e880b96c574825582e8812a26e5a857ffc6579f63742f"],
    "fa083b9d06432539780b306f8869c12ebc8c893e9308a208b337182d");
   ([], ["eebcc18057252cbf3f9c070f1a73213356d5d4bc19ac2a411ec8cdeee7a571e2e20eaf61fd0c33a0ffeb297ddb77a97f0a415347db66bcaf"],
    "309389f16f265e921d06be744032b8d12947557887bfb91055a00950");
   ([], ["f57c64006d9ea761892e145c99df1b24640883da79d9ed5262859dcda8c3c32e05b03d984f1ab4a230242ab6b78d368dc5aaa1e6d3498d53371e84b0c1d4ba"],
    "0549471fcdd5a11ee1617c6a82c67193f20f24898db956b7367ae358");
   ([], ["e926ae8b0af6e53176dbffcc2a6b88c6bd765f939d3d178a9bde9ef3aa131c61e31c1e42cdfaf4b4dcde579a37e150efbef5555b4c1cb40439d835a724e2fae7"],
    "2c57f9f809acc4c7b2f2c76af7eeac9da6c0d19e44cfa95f585e91d0");
   ([], ["16e8b3d8f988e9bb04de9c96f2627811c973ce4a5296b4772ca3eefeb80a652bdf21f50df79f32db23f9f73d393b2d57d9a0297f7a2f2e79cfda39fa393df1ac00"],
    "b9fc1906a0804675769550ba4942b4b4688e2ad29eb1ac6e4d926650");
   ([], ["f690a132ab46b28edfa6479283d6444e371c6459108afd9c35dbd235e0b6b6ff4c4ea58e7554bd002460433b2164ca51e868f7947d7d7a0d792e4abf0be5f450853cc40d85485b2b8857ea31b5ea6e4ccfa2f3a7ef3380066d7d8979fdac618aad3d7e886dea4f005ae4ad05e5065f"],
    "ac78e686255de094e780041ce091721943674fb219bcb87a4ddb7d7c");
   ([], ["58d6a99bc6458824b256916770a8417040721cccfd4b79eacd8b65a3767ce5ba7e74104c985ac56b8cc9aebd16febd4cda5adb130b0ff2329cc8d611eb14dac268a2f9e633c99de33997fea41c52a7c5e1317d5b5daed35eba7d5a60e45d1fa7eaabc35f5c2b0a0f2379231953322c4e"],
    "451d6bc79d3bb9fd2ed56131eb3f88d2cd8e6368377f4172f1401366");
   ([], ["a62fc595b4096e6336e53fcdfc8d1cc175d71dac9d750a6133d23199eaac288207944cea6b16d27631915b4619f743da2e30a0c00bbdb1bbb35ab852ef3b9aec6b0a8dcc6e9e1abaa3ad62ac0a6c5de765de2c3711b769e3fde44a74016fff82ac46fa8f1797d3b2a726b696e3dea5530439acee3a45c2a51bc32dd055650b"],
    "43f5dcd3b1f1c2388bfcb5f52c339b708785d67a99def12288ad01ca");
   ([], ["2b6db7ced8665ebe9deb080295218426bdaa7c6da9add2088932cdffbaa1c14129bccdd70f369efb149285858d2b1d155d14de2fdb680a8b027284055182a0cae275234cc9c92863c1b4ab66f304cf0621cd54565f5bff461d3b461bd40df28198e3732501b4860eadd503d26d6e69338f4e0456e9e9baf3d827ae685fb1d817"],
    "d704873be44a7cc70caabca8babb62cde45f589bb457ad4a92eae6e1");
   ([], ["10db509b2cdcaba6c062ae33be48116a29eb18e390e1bbada5ca0a2718afbcd23431440106594893043cc7f2625281bf7de2655880966a23705f0c5155c2f5cca9f2c2142e96d0a2e763b70686cd421b5db812daced0c6d65035fde558e94f26b3e6dde5bd13980cc80292b723013bd033284584bff27657871b0cf07a849f4ae2"],
    "4a5142935e9c503005045ffa8fa0463e8b8b344bf44b03ee5d97ae7b");
   ([], ["b771d5cef5d1a41a93d15643d7181d2a2ef0a8e84d91812f20ed21f147bef732bf3a60ef4067c3734b85bc8cd471780f10dc9e8291b58339a677b960218f71e793f2797aea349406512829065d37bb55ea796fa4f56fd8896b49b2cd19b43215ad967c712b24e5032d065232e02c127409d2ed4146b9d75d763d52db98d949d3b0fed6a8052fbb"],
    "eb9137cdcbf56deda4b06598d793b115de72dff184ada6eebc383f9a");
   ([], ["b32d95b0b9aad2a8816de6d06d1f86008505bd8c14124f6e9a163b5a2ade55f835d0ec3880ef50700d3b25e42cc0af050ccd1be5e555b23087e04d7bf9813622780c7313a1954f8740b6ee2d3f71f768dd417f520482bd3a08d4f222b4ee9dbd015447b33507dd50f3ab4247c5de9a8abd62a8decea01e3b87c8b927f5b08beb37674c6f8e380c04"],
    "93267ec55b666734918653df0367a5ea8293f9cb5fbc392db07bf722");
   ([], ["157d5b7e4507f66d9a267476d33831e7bb768d4d04cc3438da12f9010263ea5fcafbde2579db2f6b58f911d593d5f79fb05fe3596e3fa80ff2f761d1b0e57080055c118c53e53cdb63055261d7c9b2b39bd90acc32520cbbdbda2c4fd8856dbcee173132a2679198daf83007a9b5c51511ae49766c792a29520388444ebefe28256fb33d4260439cba73a9479ee00c63"],
    "7a1077a5de9d22f24a01052f98786287d1e808ffc42e22cbc6096a6b")].
Example repo_blake224_ok : repo_blake224 = true. Proof. reflexivity. Qed.

(** test/testvectors/blake256.txt, 16 of 321 vectors. *)
Definition repo_blake256 := Eval vm_compute in replay (blake_type 256) (mst 12 128) [
   ([], [""],
    "716f6e863f744b9ac22c97ec7b76ea5f5908bc5b2f67c61510bfc4751384ea7a");
   ([], ["cc"],
    "e104256a2bc501f459d03fac96b9014f593e22d30f4de525fa680c3aa189eb4f");
   ([], ["4a4f202484512526"],
    "fdf092993edbb7a0dc7ca67f04051bbd14481639da0808947aff8bfab5abed4b");
   ([], ["de286ba4206e8b005714f80fb1cdfaebde91d29f84603e4a3ebc04686f99a46c9e880b96c574825582e8812a26e5a857ffc6579f63742f"],
    "ad373db6defaefbeeff69e78e220a4ca9ef510ad5f85f0c698a749e0e6dcaeb5");
   ([], ["eebcc18057252cbf3f9c070f1a73213356d5d4bc19ac2a411ec8cdeee7a571e2e20eaf61fd0c33a0ffeb297ddb77a97f0a415347db66bcaf"],
    "cad656a57a59591a03e7b540a1e5a76a7645a60228e1057ea39b34f6b691510d");
   ([], ["f57c64006d9ea761892e145c99df1b24640883da79d9ed5262859dcda8c3c32e05b03d984f1ab4a230242ab6b78d368dc5aaa1e6d3498d53371e84b0c1d4ba"],
    "a17d2cdd3e3fd0aa2790ee8c3802606b46ae91b66db66684a56768fe52fb9760");
   ([], ["e926ae8b0af6e53176dbffcc2a6b88c6bd765f939d3d178a9bde9ef3aa131c61e31c1e42cdfaf4b4dcde579a37e150efbef5555b4c1cb40439d835a724e2fae7"],
    "f76305a1bb52917ce0882111f20f57eb51ee545cf064ce331a61d35ef17272c3");
   ([], ["16e8b3d8f988e9bb04de9c96f2627811c973ce4a5296b4772ca3eefeb80a652bdf21f50df79f32db23f9f73d393b2d57d9a0297f7a2f2e79cfda39fa393df1ac00"],
    "d184236acc1b11b65b13752dd97928519a8504391fd4c8389d3bec3583ece2ef");
   ([], ["f690a132ab46b28edfa6479283d6444e371c6459108afd9c35dbd235e0b6b6ff4c4ea58e7554bd002460433b2164ca51e868f7947d7d7a0d792e4abf0be5f450853cc40d85485b2b8857ea31b5ea6e4ccfa2f3a7ef3380066d7d8979fdac618aad3d7e886dea4f005ae4ad05e5065f"],
    "d49ea6685748992f274bb158cd4a936c479f1eba9217518068ffbbf9a44bb968");
   ([], ["58d6a99bc6458824b256916770a8417040721cccfd4b79eacd8b65a3767ce5ba7e74104c985ac56b8cc9aebd16febd4cda5adb130b0ff2329cc8d611eb14dac268a2f9e633c99de33997fea41c52a7c5e1317d5b5daed35eba7d5a60e45d1fa7eaabc35f5c2b0a0f2379231953322c4e"],
    "166ed4abd425d074e8091f44ec2e9eeed471a9020adec03a4f1f003d7826f5ef");
   ([], ["a62fc595b4096e6336e53fcdfc8d1cc175d71dac9d750a6133d23199eaac288207944cea6b16d27631915b4619f743da2e30a0c00bbdb1bbb35ab852ef3b9aec6b0a8dcc6e9e1abaa3ad62ac0a6c5de765de2c3711b769e3fde44a74016fff82ac46fa8f1797d3b2a726b696e3dea5530439acee3a45c2a51bc32dd055650b"],
    "45d0808107836411153667b2ca1b0b68476dad3eb8a46627923aceb32a920aaa");
   ([], ["2b6db7ced8665ebe9deb080295218426bdaa7c6da9add2088932cdffbaa1c14129bccdd70f369efb149285858d2b1d155d14de2fdb680a8b027284055182a0cae275234cc9c92863c1b4ab66f304cf0621cd54565f5bff461d3b461bd40df28198e3732501b4860eadd503d26d6e69338f4e0456e9e9baf3d827ae685fb1d817"],
    "e9916891100d60a4f6686701b0ec5bc5ad200a496a89658e18ad10505b898ee6");
   ([], ["10db509b2cdcaba6c062ae33be48116a29eb18e390e1bbada5ca0a2718afbcd23431440106594893043cc7f2625281bf7de2655880966a23705f0c5155c2f5cca9f2c2142e96d0a2e763b70686cd421b5db812daced0c6d65035fde558e94f26b3e6dde5bd13980cc80292b723013bd033284584bff27657871b0cf07a849f4ae2"],
    "38443bdd9d99dd16d7570d0529f0662bc1797a516276d063327a722e43667fe8");
   ([], ["b771d5cef5d1a41a93d15643d7181d2a2ef0a8e84d91812f20ed21f147bef732bf3a60ef4067c3734b85bc8cd471780f10dc9e8291b58339a677b960218f71e793f2797aea349406512829065d37bb55ea796fa4f56fd8896b49b2cd19b43215ad967c712b24e5032d065232e02c127409d2ed4146b9d75d763d52db98d949d3b0fed6a8052fbb"],
    "9213860134edd9693b7455405a1139e72fc1637fc7c6f4deb05950fe1cc4c8ae");
   ([], ["b32d95b0b9aad2a8816de6d06d1f86008505bd8c14124f6e9a163b5a2ade55f835d0ec3880ef50700d3b25e42cc0af050ccd1be5e555b23087e04d7bf9813622780c7313a1954f8740b6ee2d3f71f768dd417f520482bd3a08d4f222b4ee9dbd015447b33507dd50f3ab4247c5de9a8abd62a8decea01e3b87c8b927f5b08beb37674c6f8e380c04"],
    "2feb9de1b8f6706b05c594ac6ba953d2eb1077bcdc273586a1e9a7693b719b35");
   ([], ["157d5b7e4507f66d9a267476d33831e7bb768d4d04cc3438da12f9010263ea5fcafbde2579db2f6b58f911d593d5f79fb05fe3596e3fa80ff2f761d1b0e57080055c118c53e53cdb63055261d7c9b2b39bd90acc32520cbbdbda2c4fd8856dbcee173132a2679198daf83007a9b5c51511ae49766c792a29520388444ebefe28256fb33d4260439cba73a9479ee00c63"],
    "f2e3f93d6d23a16bf97a2ad32c3e1293de59805ee26277a04fe42f166570d296")].
Example repo_blake256_ok : repo_blake256 = true. Proof. reflexivity. Qed.

(** test/testvectors/blake256salt.txt, 16 of 321 vectors. *)
Definition repo_blake256salt := Eval vm_compute in replay (blake_type 256) (mst 12 128) [
   ([(BlSalt, "000102030405060708090A0B0C0D0E0F")], [""],
    "b84262fa040ed902314bd8166ea6965cd6b85d9d132b530c1d76e4beb29f4703");
   ([], ["cc"],
    "d062e4d749b8215d8bbb586550a23bb7d254eff1eef2c27784a54f7fa1b0d177");
   ([], ["4a4f202484512526"],
    "effd8e3d5d4d8bd747d645c86dac530914f3809f8eacde68b592e742aacbbd64");
   ([], ["de286ba4206e8b005714f80fb1cdfaebde91d29f84603e4a3ebc04686f99a46c9e880b96c574825582e8812a26e5a857ffc6579f63742f"],
    "76073d00e7dada01ebe0217dceb032b10ffb08f8c99c6e8110d12a750900dae4");
   ([], ["eebcc18057252cbf3f9c070f1a73213356d5d4bc19ac2a411ec8cdeee7a571e2e20eaf61fd0c33a0ffeb297ddb77a97f0a415347db66bcaf"],
    "406d89ede79ede707919f28842415c2818b275e397a053e19406a4e8d6cda5ac");
   ([], ["f57c64006d9ea761892e145c99df1b24640883da79d9ed5262859dcda8c3c32e05b03d984f1ab4a230242ab6b78d368dc5aaa1e6d3498d53371e84b0c1d4ba"],
    "3369adac56f02651992755afa1ccc5381ebfb2ecf7d42e1789ed1d115031c9e4");
   ([], ["e926ae8b0af6e53176dbffcc2a6b88c6bd765f939d3d178a9bde9ef3aa131c61e31c1e42cdfaf4b4dcde579a37e150efbef5555b4c1cb40439d835a724e2fae7"],
    "4aee289530e36b9e2080c17831d4e47474db349e486fd6c33b27856c67e04b88");
   ([], ["16e8b3d8f988e9bb04de9c96f2627811c973ce4a5296b4772ca3eefeb80a652bdf21f50df79f32db23f9f73d393b2d57d9a0297f7a2f2e79cfda39fa393df1ac00"],
    "0236c424bb702760d4f3301f0c67d61c63f821a248ffe461832e6c6219178924");
   ([], ["f690a132ab46b28edfa6479283d6444e371c6459108afd9c35dbd235e0b6b6ff4c4ea58e7554bd002460433b2164ca51e868f7947d7d7a0d792e4abf0be5f450853cc40d85485b2b8857ea31b5ea6e4ccfa2f3a7ef3380066d7d8979fdac618aad3d7e886dea4f005ae4ad05e5065f"],
    "484924dc38ecebdb33ba4eac957a1812b3447677b75d7cdc5c93e414cde76a82");
   ([], ["58d6a99bc6458824b256916770a8417040721cccfd4b79eacd8b65a3767ce5ba7e74104c985ac56b8cc9aebd16febd4cda5adb130b0ff2329cc8d611eb14dac268a2f9e633c99de33997fea41c52a7c5e1317d5b5daed35eba7d5a60e45d1fa7eaabc35f5c2b0a0f2379231953322c4e"],
    "7bbf6a0c40cb1109180074d37fb3af9e6d645e405965d6b91c9e99f643cfb0b5");
   ([], ["a62fc595b4096e6336e53fcdfc8d1cc175d71dac9d750a6133d23199eaac288207944cea6b16d27631915b4619f743da2e30a0c00bbdb1bbb35ab852ef3b9aec6b0a8dcc6e9e1abaa3ad62ac0a6c5de765de2c3711b769e3fde44a74016fff82ac46fa8f1797d3b2a726b696e3dea5530439acee3a45c2a51bc32dd055650b"],
    "e9e5fdc29b81cbddaa6478e46791426fa4e588882438a190194fdd930ffa54e8");
   ([], ["2b6db7ced8665ebe9deb080295218426bdaa7c6da9add2088932cdffbaa1c14129bccdd70f369efb149285858d2b1d155d14de2fdb680a8b027284055182a0cae275234cc9c92863c1b4ab66f304cf0621cd54565f5bff461d3b461bd40df28198e3732501b4860eadd503d26d6e69338f4e0456e9e9baf3d827ae685fb1d817"],
    "6418f2897e1f69054645b775a0e37387ceecebf2af13e75c36aee8440ca80b7d");
   ([], ["10db509b2cdcaba6c062ae33be48116a29eb18e390e1bbada5ca0a2718afbcd23431440106594893043cc7f2625281bf7de2655880966a23705f0c5155c2f5cca9f2c2142e96d0a2e763b70686cd421b5db812daced0c6d65035fde558e94f26b3e6dde5bd13980cc80292b723013bd033284584bff27657871b0cf07a849f4ae2"],
    "ca070e4095e8d6476700f8ba4f01019e6557954b1d447dea331477f6fc7aa193");
   ([], ["b771d5cef5d1a41a93d15643d7181d2a2ef0a8e84d91812f20ed21f147bef732bf3a60ef4067c3734b85bc8cd471780f10dc9e8291b58339a677b960218f71e793f2797aea349406512829065d37bb55ea796fa4f56fd8896b49b2cd19b43215ad967c712b24e5032d065232e02c127409d2ed4146b9d75d763d52db98d949d3b0fed6a8052fbb"],
    "c52200dbbfb46f1cdc60ba9ab1e7aad1c0a44c0ec98cc160f4ccd329cf4dabb7");
   ([], ["b32d95b0b9aad2a8816de6d06d1f86008505bd8c14124f6e9a163b5a2ade55f835d0ec3880ef50700d3b25e42cc0af050ccd1be5e555b23087e04d7bf9813622780c7313a1954f8740b6ee2d3f71f768dd417f520482bd3a08d4f222b4ee9dbd015447b33507dd50f3ab4247c5de9a8abd62a8decea01e3b87c8b927f5b08beb37674c6f8e380c04"],
    "620e8dc6d2e4b2877ac46ba4238e18129ab6a5510e6f3925d562141ce0eb99fa");
   ([], ["157d5b7e4507f66d9a267476d33831e7bb768d4d04cc3438da12f9010263ea5fcafbde2579db2f6b58f911d593d5f79fb05fe3596e3fa80ff2f761d1b0e57080055c118c53e53cdb63055261d7c9b2b39bd90acc32520cbbdbda2c4fd8856dbcee173132a2679198daf83007a9b5c51511ae49766c792a29520388444ebefe28256fb33d4260439cba73a9479ee00c63"],
    "9eed8b167f627e194a39d6f3fc23b02be2f2e5bc57a51da178e1c4fbf7539648")].
Example repo_blake256salt_ok : repo_blake256salt = true. Proof. reflexivity. Qed.

(** test/testvectors/blake2b_128.txt, 16 of 256 vectors. *)
Definition repo_blake2b_128 := Eval vm_compute in replay (blake2_type 64 BHash 128) ((mst 9 128, 5)) [
   ([], [""],
    "cae66941d9efbd404e4d88758ea67670");
   ([], ["00"],
    "7025e075d5e2f6cde3cc051a31f07660");
   ([], ["0001020304050607"],
    "d0e90592ae6dd7652b279a63d7277c8a");
   ([], ["000102030405060708090a0b0c0d0e0f101112131415161718191a1b1c1d1e1f202122232425262728292a2b2c2d2e2f30313233343536"],
    "c10b42ee0ca122e922708085eadc4287");
   ([], ["000102030405060708090a0b0c0d0e0f101112131415161718191a1b1c1d1e1f202122232425262728292a2b2c2d2e2f3031323334353637"],
    "01590acc71684437be46e22b8b2983b0");
   ([], ["000102030405060708090a0b0c0d0e0f101112131415161718191a1b1c1d1e1f202122232425262728292a2b2c2d2e2f303132333435363738393a3b3c3d3e"],
    "0d8952b502864e3820109070f09c631c");
   ([], ["000102030405060708090a0b0c0d0e0f101112131415161718191a1b1c1d1e1f202122232425262728292a2b2c2d2e2f303132333435363738393a3b3c3d3e3f"],
    "59059895958b8a56277edb046df67166");
   ([], ["000102030405060708090a0b0c0d0e0f101112131415161718191a1b1c1d1e1f202122232425262728292a2b2c2d2e2f303132333435363738393a3b3c3d3e3f40"],
    "00ba98fe88932180db451d022774d19a");
   ([], ["000102030405060708090a0b0c0d0e0f101112131415161718191a1b1c1d1e1f202122232425262728292a2b2c2d2e2f303132333435363738393a3b3c3d3e3f404142434445464748494a4b4c4d4e4f505152535455565758595a5b5c5d5e5f606162636465666768696a6b6c6d6e"],
    "ce8924aed405e7b1a5af6b4ca1cbc4d2");
   ([], ["000102030405060708090a0b0c0d0e0f101112131415161718191a1b1c1d1e1f202122232425262728292a2b2c2d2e2f303132333435363738393a3b3c3d3e3f404142434445464748494a4b4c4d4e4f505152535455565758595a5b5c5d5e5f606162636465666768696a6b6c6d6e6f"],
    "bc8e05f70dba1f48bfe7cb6bc26f10b4");
   ([], ["000102030405060708090a0b0c0d0e0f101112131415161718191a1b1c1d1e1f202122232425262728292a2b2c2d2e2f303132333435363738393a3b3c3d3e3f404142434445464748494a4b4c4d4e4f505152535455565758595a5b5c5d5e5f606162636465666768696a6b6c6d6e6f707172737475767778797a7b7c7d7e"],
    "28b1296c7d4807883de6ee4ec04dcc0a");
   ([], ["000102030405060708090a0b0c0d0e0f101112131415161718191a1b1c1d1e1f202122232425262728292a2b2c2d2e2f303132333435363738393a3b3c3d3e3f404142434445464748494a4b4c4d4e4f505152535455565758595a5b5c5d5e5f606162636465666768696a6b6c6d6e6f707172737475767778797a7b7c7d7e7f"],
    "a74787004ef589e31149183900d0294a");
   ([], ["000102030405060708090a0b0c0d0e0f101112131415161718191a1b1c1d1e1f202122232425262728292a2b2c2d2e2f303132333435363738393a3b3c3d3e3f404142434445464748494a4b4c4d4e4f505152535455565758595a5b5c5d5e5f606162636465666768696a6b6c6d6e6f707172737475767778797a7b7c7d7e7f80"],
    "aaf1b0371f6d4ee49ee4fb5ddd9c49ef");
   ([], ["000102030405060708090a0b0c0d0e0f101112131415161718191a1b1c1d1e1f202122232425262728292a2b2c2d2e2f303132333435363738393a3b3c3d3e3f404142434445464748494a4b4c4d4e4f505152535455565758595a5b5c5d5e5f606162636465666768696a6b6c6d6e6f707172737475767778797a7b7c7d7e7f80818283848586"],
    "0f8728afbb04ecf9bd984e7a30f76529");
   ([], ["000102030405060708090a0b0c0d0e0f101112131415161718191a1b1c1d1e1f202122232425262728292a2b2c2d2e2f303132333435363738393a3b3c3d3e3f404142434445464748494a4b4c4d4e4f505152535455565758595a5b5c5d5e5f606162636465666768696a6b6c6d6e6f707172737475767778797a7b7c7d7e7f8081828384858687"],
    "557e7ac34424eef3b943e09f79203af6");
   ([], ["000102030405060708090a0b0c0d0e0f101112131415161718191a1b1c1d1e1f202122232425262728292a2b2c2d2e2f303132333435363738393a3b3c3d3e3f404142434445464748494a4b4c4d4e4f505152535455565758595a5b5c5d5e5f606162636465666768696a6b6c6d6e6f707172737475767778797a7b7c7d7e7f808182838485868788898a8b8c8d8e8f"],
    "988c6e6cac3555c25a52a11cbdcb0638")].
Example repo_blake2b_128_ok : repo_blake2b_128 = true. Proof. reflexivity. Qed.

(** test/testvectors/blake2b_160.txt, 16 of 256 vectors. *)
Definition repo_blake2b_160 := Eval vm_compute in replay (blake2_type 64 BHash 160) ((mst 9 128, 5)) [
   ([], [""],
    "3345524abf6bbe1809449224b5972c41790b6cf2");
   ([], ["00"],
    "082ad992fb76871c33a1b9993a082952feaca5e6");
   ([], ["0001020304050607"],
    "f422108c43bad02773c989e90a027729b0fd3b8c");
   ([], ["000102030405060708090a0b0c0d0e0f101112131415161718191a1b1c1d1e1f202122232425262728292a2b2c2d2e2f30313233343536"],
    "716a0f2cf96f308233e6c68150a1ab2a661c3da7");
   ([], ["000102030405060708090a0b0c0d0e0f101112131415161718191a1b1c1d1e1f202122232425262728292a2b2c2d2e2f3031323334353637"],
    "e640f12a22189a12ac432bc56b24b1e4edb0ff80");
   ([], ["000102030405060708090a0b0c0d0e0f101112131415161718191a1b1c1d1e1f202122232425262728292a2b2c2d2e2f303132333435363738393a3b3c3d3e"],
    "1cb62c8f6cc806dcd161f08c81e704ae32ad5b3a");
   ([], ["000102030405060708090a0b0c0d0e0f101112131415161718191a1b1c1d1e1f202122232425262728292a2b2c2d2e2f303132333435363738393a3b3c3d3e3f"],
    "11cc6661e922b0e407e0a57249c38d4ff76d8ec8");
   ([], ["000102030405060708090a0b0c0d0e0f101112131415161718191a1b1c1d1e1f202122232425262728292a2b2c2d2e2f303132333435363738393a3b3c3d3e3f40"],
    "7e8d79a50a0fbd8bfa2c605e5ab883db8b4ea2c6");
   ([], ["000102030405060708090a0b0c0d0e0f101112131415161718191a1b1c1d1e1f202122232425262728292a2b2c2d2e2f303132333435363738393a3b3c3d3e3f404142434445464748494a4b4c4d4e4f505152535455565758595a5b5c5d5e5f606162636465666768696a6b6c6d6e"],
    "139105bc993171de9fff828b5e8a3ffd15297df6");
   ([], ["000102030405060708090a0b0c0d0e0f101112131415161718191a1b1c1d1e1f202122232425262728292a2b2c2d2e2f303132333435363738393a3b3c3d3e3f404142434445464748494a4b4c4d4e4f505152535455565758595a5b5c5d5e5f606162636465666768696a6b6c6d6e6f"],
    "866cf68f16e920cccc4770602c4f4952afa6a238");
   ([], ["000102030405060708090a0b0c0d0e0f101112131415161718191a1b1c1d1e1f202122232425262728292a2b2c2d2e2f303132333435363738393a3b3c3d3e3f404142434445464748494a4b4c4d4e4f505152535455565758595a5b5c5d5e5f606162636465666768696a6b6c6d6e6f707172737475767778797a7b7c7d7e"],
    "535975c8d8c5dd9ed14a9204757b06783dd7b1fb");
   ([], ["000102030405060708090a0b0c0d0e0f101112131415161718191a1b1c1d1e1f202122232425262728292a2b2c2d2e2f303132333435363738393a3b3c3d3e3f404142434445464748494a4b4c4d4e4f505152535455565758595a5b5c5d5e5f606162636465666768696a6b6c6d6e6f707172737475767778797a7b7c7d7e7f"],
    "e6992372ab022447b34f6d6032fbab707a11adef");
   ([], ["000102030405060708090a0b0c0d0e0f101112131415161718191a1b1c1d1e1f202122232425262728292a2b2c2d2e2f303132333435363738393a3b3c3d3e3f404142434445464748494a4b4c4d4e4f505152535455565758595a5b5c5d5e5f606162636465666768696a6b6c6d6e6f707172737475767778797a7b7c7d7e7f80"],
    "a7bf25f1599102ab631e3052e8303a2c097d1a7e");
   ([], ["000102030405060708090a0b0c0d0e0f101112131415161718191a1b1c1d1e1f202122232425262728292a2b2c2d2e2f303132333435363738393a3b3c3d3e3f404142434445464748494a4b4c4d4e4f505152535455565758595a5b5c5d5e5f606162636465666768696a6b6c6d6e6f707172737475767778797a7b7c7d7e7f80818283848586"],
    "f036fc6b3a9d6da82b52ecf4de3d82bc8e38d075");
   ([], ["000102030405060708090a0b0c0d0e0f101112131415161718191a1b1c1d1e1f202122232425262728292a2b2c2d2e2f303132333435363738393a3b3c3d3e3f404142434445464748494a4b4c4d4e4f505152535455565758595a5b5c5d5e5f606162636465666768696a6b6c6d6e6f707172737475767778797a7b7c7d7e7f8081828384858687"],
    "be941de2a77dae6763e6143dd3689dbf18831e9e");
   ([], ["000102030405060708090a0b0c0d0e0f101112131415161718191a1b1c1d1e1f202122232425262728292a2b2c2d2e2f303132333435363738393a3b3c3d3e3f404142434445464748494a4b4c4d4e4f505152535455565758595a5b5c5d5e5f606162636465666768696a6b6c6d6e6f707172737475767778797a7b7c7d7e7f808182838485868788898a8b8c8d8e8f"],
    "daeb6fc65cc55220f2856e859b18e34b1aeecf8c")].
Example repo_blake2b_160_ok : repo_blake2b_160 = true. Proof. reflexivity. Qed.

(** test/testvectors/blake2b_224.txt, 16 of 256 vectors. *)
Definition repo_blake2b_224 := Eval vm_compute in replay (blake2_type 64 BHash 224) ((mst 9 128, 5)) [
   ([], [""],
    "836cc68931c2e4e3e838602eca1902591d216837bafddfe6f0c8cb07");
   ([], ["00"],
    "0d94e174732ef9aae73f395ab44507bfa983d65023c11a951f0c32e4");
   ([], ["0001020304050607"],
    "2a0864b8cb51f1888991fa60d6e960cd9340771a86e33f825b01573b");
   ([], ["000102030405060708090a0b0c0d0e0f101112131415161718191a1b1c1d1e1f202122232425262728292a2b2c2d2e2f30313233343536"],
    "69c32a4f2bd6e07b9d1e123fbc22209f216847c2b3a4f1f86cd0c577");
   ([], ["000102030405060708090a0b0c0d0e0f101112131415161718191a1b1c1d1e1f202122232425262728292a2b2c2d2e2f3031323334353637"],
    "3ed934b66864af5b52e33a38cf3fe4a401072ce6d6c01ca3b3b69819");
   ([], ["000102030405060708090a0b0c0d0e0f101112131415161718191a1b1c1d1e1f202122232425262728292a2b2c2d2e2f303132333435363738393a3b3c3d3e"],
    "f331120c1f65fc55f159a2b739dd25f64a8206e500cf7329a67646af");
   ([], ["000102030405060708090a0b0c0d0e0f101112131415161718191a1b1c1d1e1f202122232425262728292a2b2c2d2e2f303132333435363738393a3b3c3d3e3f"],
    "f38b4f2eec950f185879ed97d8a93fc81ddb146b28511090db10c9a2");
   ([], ["000102030405060708090a0b0c0d0e0f101112131415161718191a1b1c1d1e1f202122232425262728292a2b2c2d2e2f303132333435363738393a3b3c3d3e3f40"],
    "2c0149f95f0972292858199657351ff2d3593e2971614405a13856a0");
   ([], ["000102030405060708090a0b0c0d0e0f101112131415161718191a1b1c1d1e1f202122232425262728292a2b2c2d2e2f303132333435363738393a3b3c3d3e3f404142434445464748494a4b4c4d4e4f505152535455565758595a5b5c5d5e5f606162636465666768696a6b6c6d6e"],
    "78207f99babc498a168545eaa729ff851c3025328bea775c042c818b");
   ([], ["000102030405060708090a0b0c0d0e0f101112131415161718191a1b1c1d1e1f202122232425262728292a2b2c2d2e2f303132333435363738393a3b3c3d3e3f404142434445464748494a4b4c4d4e4f505152535455565758595a5b5c5d5e5f606162636465666768696a6b6c6d6e6f"],
    "e0bcf73ad5dbc5c1ed7fd9e34cd39b9b6bd9243864b81ef108ea2378");
   ([], ["000102030405060708090a0b0c0d0e0f101112131415161718191a1b1c1d1e1f202122232425262728292a2b2c2d2e2f303132333435363738393a3b3c3d3e3f404142434445464748494a4b4c4d4e4f505152535455565758595a5b5c5d5e5f606162636465666768696a6b6c6d6e6f707172737475767778797a7b7c7d7e"],
    "afa0454a4a572149b09a845baefef20384539a349933d15c281029ca");
   ([], ["000102030405060708090a0b0c0d0e0f101112131415161718191a1b1c1d1e1f202122232425262728292a2b2c2d2e2f303132333435363738393a3b3c3d3e3f404142434445464748494a4b4c4d4e4f505152535455565758595a5b5c5d5e5f606162636465666768696a6b6c6d6e6f707172737475767778797a7b7c7d7e7f"],
    "f0ca1b2d7e6d603147b07d0560027876df36e2eeca2d7b3d59b47ee2");
   ([], ["000102030405060708090a0b0c0d0e0f101112131415161718191a1b1c1d1e1f202122232425262728292a2b2c2d2e2f303132333435363738393a3b3c3d3e3f404142434445464748494a4b4c4d4e4f505152535455565758595a5b5c5d5e5f606162636465666768696a6b6c6d6e6f707172737475767778797a7b7c7d7e7f80"],
    "b2638debd279de80b15faea232f3d25cb73ee0d709d664c57f281d98");
   ([], ["000102030405060708090a0b0c0d0e0f101112131415161718191a1b1c1d1e1f202122232425262728292a2b2c2d2e2f303132333435363738393a3b3c3d3e3f404142434445464748494a4b4c4d4e4f505152535455565758595a5b5c5d5e5f606162636465666768696a6b6c6d6e6f707172737475767778797a7b7c7d7e7f80818283848586"],
    "5e3c644a1549325a4e86424a6ef7e890b9d72badbbbd0a4b632c5967");
   ([], ["000102030405060708090a0b0c0d0e0f101112131415161718191a1b1c1d1e1f202122232425262728292a2b2c2d2e2f303132333435363738393a3b3c3d3e3f404142434445464748494a4b4c4d4e4f505152535455565758595a5b5c5d5e5f606162636465666768696a6b6c6d6e6f707172737475767778797a7b7c7d7e7f8081828384858687"],
    "c8faa4776bca801b7dfa3fd3bd1701dc8b1e7010abb93b5a91b8732c");
   ([], ["000102030405060708090a0b0c0d0e0f101112131415161718191a1b1c1d1e1f202122232425262728292a2b2c2d2e2f303132333435363738393a3b3c3d3e3f404142434445464748494a4b4c4d4e4f505152535455565758595a5b5c5d5e5f606162636465666768696a6b6c6d6e6f707172737475767778797a7b7c7d7e7f808182838485868788898a8b8c8d8e8f"],
    "2845529d7fcf3900f2136c185643de249c4fae4ebd0dda5002dc3ef4")].
Example repo_blake2b_224_ok : repo_blake2b_224 = true. Proof. reflexivity. Qed.

(** test/testvectors/blake2b_256.txt, 16 of 256 vectors. *)
Definition repo_blake2b_256 := Eval vm_compute in replay (blake2_type 64 BHash 256) ((mst 9 128, 5)) [
   ([], [""],
    "0e5751c026e543b2e8ab2eb06099daa1d1e5df47778f7787faab45cdf12fe3a8");
   ([], ["00"],
    "03170a2e7597b7b7e3d84c05391d139a62b157e78786d8c082f29dcf4c111314");
   ([], ["0001020304050607"],
    "77065d25b622a8251094d869edf6b4e9ba0708a8db1f239cb68e4eeb45851621");
   ([], ["000102030405060708090a0b0c0d0e0f101112131415161718191a1b1c1d1e1f202122232425262728292a2b2c2d2e2f30313233343536"],
    "ace7db9e8f298e823b7b265bbcd004577e0029256c48684b2d7a7cdfcbff5e47");
   ([], ["000102030405060708090a0b0c0d0e0f101112131415161718191a1b1c1d1e1f202122232425262728292a2b2c2d2e2f3031323334353637"],
    "a6c1d35f74218e57b4dbd4ed467b41981208666738ffa0d9dc53d3de96be702a");
   ([], ["000102030405060708090a0b0c0d0e0f101112131415161718191a1b1c1d1e1f202122232425262728292a2b2c2d2e2f303132333435363738393a3b3c3d3e"],
    "29e41a64fbdd2fd27612228623c0702222bf367451e7324287f181cb3dcf7237");
   ([], ["000102030405060708090a0b0c0d0e0f101112131415161718191a1b1c1d1e1f202122232425262728292a2b2c2d2e2f303132333435363738393a3b3c3d3e3f"],
    "10d8e6d534b00939843fe9dcc4dae48cdf008f6b8b2b82b156f5404d874887f5");
   ([], ["000102030405060708090a0b0c0d0e0f101112131415161718191a1b1c1d1e1f202122232425262728292a2b2c2d2e2f303132333435363738393a3b3c3d3e3f40"],
    "84c04ab082c8ae24206561f77397704b627892089a05887a2a1996472bcfe15d");
   ([], ["000102030405060708090a0b0c0d0e0f101112131415161718191a1b1c1d1e1f202122232425262728292a2b2c2d2e2f303132333435363738393a3b3c3d3e3f404142434445464748494a4b4c4d4e4f505152535455565758595a5b5c5d5e5f606162636465666768696a6b6c6d6e"],
    "e08b3d16f0a3b663f319da999db897488d1677048a38fa7b4f1f783e4f1974e6");
   ([], ["000102030405060708090a0b0c0d0e0f101112131415161718191a1b1c1d1e1f202122232425262728292a2b2c2d2e2f303132333435363738393a3b3c3d3e3f404142434445464748494a4b4c4d4e4f505152535455565758595a5b5c5d5e5f606162636465666768696a6b6c6d6e6f"],
    "d5587e0b33166a320dd69417adb01cb1129aff5506a2f655574cf2e264636bdb");
   ([], ["000102030405060708090a0b0c0d0e0f101112131415161718191a1b1c1d1e1f202122232425262728292a2b2c2d2e2f303132333435363738393a3b3c3d3e3f404142434445464748494a4b4c4d4e4f505152535455565758595a5b5c5d5e5f606162636465666768696a6b6c6d6e6f707172737475767778797a7b7c7d7e"],
    "f2fe67ff342e21b8f45e8f2e0bcd1d9243245d50ee6c78042e9c491388791c72");
   ([], ["000102030405060708090a0b0c0d0e0f101112131415161718191a1b1c1d1e1f202122232425262728292a2b2c2d2e2f303132333435363738393a3b3c3d3e3f404142434445464748494a4b4c4d4e4f505152535455565758595a5b5c5d5e5f606162636465666768696a6b6c6d6e6f707172737475767778797a7b7c7d7e7f"],
    "c3582f71ebb2be66fa5dd750f80baae97554f3b015663c8be377cfcb2488c1d1");
   ([], ["000102030405060708090a0b0c0d0e0f101112131415161718191a1b1c1d1e1f202122232425262728292a2b2c2d2e2f303132333435363738393a3b3c3d3e3f404142434445464748494a4b4c4d4e4f505152535455565758595a5b5c5d5e5f606162636465666768696a6b6c6d6e6f707172737475767778797a7b7c7d7e7f80"],
    "f7f3c46ba2564ff4c4c162da1f5b605f9f1c4aa6a20652a9f9a337c1a2f5b9c9");
   ([], ["000102030405060708090a0b0c0d0e0f101112131415161718191a1b1c1d1e1f202122232425262728292a2b2c2d2e2f303132333435363738393a3b3c3d3e3f404142434445464748494a4b4c4d4e4f505152535455565758595a5b5c5d5e5f606162636465666768696a6b6c6d6e6f707172737475767778797a7b7c7d7e7f80818283848586"],
    "f7c4efacc0a4cb5836f170ea0bf5dc5ce36fe2d88e76a9f259eaab71aef0ff13");
   ([], ["000102030405060708090a0b0c0d0e0f101112131415161718191a1b1c1d1e1f202122232425262728292a2b2c2d2e2f303132333435363738393a3b3c3d3e3f404142434445464748494a4b4c4d4e4f505152535455565758595a5b5c5d5e5f606162636465666768696a6b6c6d6e6f707172737475767778797a7b7c7d7e7f8081828384858687"],
    "6a35d3dadc62dfe7819519f92181b2f8d38f5e0ed3d51a22cf8a133ab628d6f4");
   ([], ["000102030405060708090a0b0c0d0e0f101112131415161718191a1b1c1d1e1f202122232425262728292a2b2c2d2e2f303132333435363738393a3b3c3d3e3f404142434445464748494a4b4c4d4e4f505152535455565758595a5b5c5d5e5f606162636465666768696a6b6c6d6e6f707172737475767778797a7b7c7d7e7f808182838485868788898a8b8c8d8e8f"],
    "e15dc6238e2e58e9ea212b0d7abfd700da3ae5120d4d601341ce9e424a7c5828")].
Example repo_blake2b_256_ok : repo_blake2b_256 = true. Proof. reflexivity. Qed.

(** test/testvectors/blake2b_384.txt, 16 of 256 vectors. *)
Definition repo_blake2b_384 := Eval vm_compute in replay (blake2_type 64 BHash 384) ((mst 9 128, 5)) [
   ([], [""],
    "b32811423377f52d7862286ee1a72ee540524380fda1724a6f25d7978c6fd3244a6caf0498812673c5e05ef583825100");
   ([], ["00"],
    "cc01088536f784f0bb769e41c4957b6d0cde1fcc8cf1d91fc477d4dd6e3fbfcd43d1698d146f348b2c36a339682bec3f");
   ([], ["0001020304050607"],
    "8eda71fcd7afa16d333d5897026e2628e6c272e78acaf021a3fab244aee81f8a6dbe68adf9b649c90536d621067a01bc");
   ([], ["000102030405060708090a0b0c0d0e0f101112131415161718191a1b1c1d1e1f202122232425262728292a2b2c2d2e2f30313233343536"],
    "1a27a6c9a0c6f493d66e567061980fb0eb5819461c4976d5d30cc91b3c5de1118e89cd2e00176322c42bfebac3508ca3");
   ([], ["000102030405060708090a0b0c0d0e0f101112131415161718191a1b1c1d1e1f202122232425262728292a2b2c2d2e2f3031323334353637"],
    "40fe3f1e4f60ae955d7ebce290dc3c867557650620f512ec42689d999f7fe6cf51459a361d688225d43903bf67197483");
   ([], ["000102030405060708090a0b0c0d0e0f101112131415161718191a1b1c1d1e1f202122232425262728292a2b2c2d2e2f303132333435363738393a3b3c3d3e"],
    "16bb371b2bcca20f406442146ab47467ed37a24d1e51115c2ed5c10b31435bb9fb5cd4025156e428b5a57701ec5dbf3c");
   ([], ["000102030405060708090a0b0c0d0e0f101112131415161718191a1b1c1d1e1f202122232425262728292a2b2c2d2e2f303132333435363738393a3b3c3d3e3f"],
    "11c8e1a6ad99f75bd0b8df1530549c6bf2e72d64e6703535ad06512417b0f335dfe07e63ccb8c5cf99d76ee1f653f609");
   ([], ["000102030405060708090a0b0c0d0e0f101112131415161718191a1b1c1d1e1f202122232425262728292a2b2c2d2e2f303132333435363738393a3b3c3d3e3f40"],
    "31466a2f0ff943f08d69924b1049181670949cecc738075f410a6ef41a8e25bd2a8df14829701637aba4c97199eff213");
   ([], ["000102030405060708090a0b0c0d0e0f101112131415161718191a1b1c1d1e1f202122232425262728292a2b2c2d2e2f303132333435363738393a3b3c3d3e3f404142434445464748494a4b4c4d4e4f505152535455565758595a5b5c5d5e5f606162636465666768696a6b6c6d6e"],
    "d443f41b6461562048765ae37feb6c63683800c4c7ad7dc4c8d7d6b67a689f8435fbb2940506d6722a09c0f3e46d6c64");
   ([], ["000102030405060708090a0b0c0d0e0f101112131415161718191a1b1c1d1e1f202122232425262728292a2b2c2d2e2f303132333435363738393a3b3c3d3e3f404142434445464748494a4b4c4d4e4f505152535455565758595a5b5c5d5e5f606162636465666768696a6b6c6d6e6f"],
    "40790c95c391eb482bb315e6153838ab6622bb651ebfe979b09b7456ef021c811fb216027d063732c5b83f0ad639ebc3");
   ([], ["000102030405060708090a0b0c0d0e0f101112131415161718191a1b1c1d1e1f202122232425262728292a2b2c2d2e2f303132333435363738393a3b3c3d3e3f404142434445464748494a4b4c4d4e4f505152535455565758595a5b5c5d5e5f606162636465666768696a6b6c6d6e6f707172737475767778797a7b7c7d7e"],
    "0c046dce7c3ed50a4be7eca79fdeb9d821ebe28f5d82acadac3d7449e6892789313679018034a2ce6b42f006c02f19ee");
   ([], ["000102030405060708090a0b0c0d0e0f101112131415161718191a1b1c1d1e1f202122232425262728292a2b2c2d2e2f303132333435363738393a3b3c3d3e3f404142434445464748494a4b4c4d4e4f505152535455565758595a5b5c5d5e5f606162636465666768696a6b6c6d6e6f707172737475767778797a7b7c7d7e7f"],
    "a2c2acf7ce4079c02b7f38e2ef33bff531a31a7c7effe712c5348b4d616c0cba9b152679317984ec632d0c70eb11eece");
   ([], ["000102030405060708090a0b0c0d0e0f101112131415161718191a1b1c1d1e1f202122232425262728292a2b2c2d2e2f303132333435363738393a3b3c3d3e3f404142434445464748494a4b4c4d4e4f505152535455565758595a5b5c5d5e5f606162636465666768696a6b6c6d6e6f707172737475767778797a7b7c7d7e7f80"],
    "a95db6e5ccd191793ad20179bfd63e8c7aedf0cc1084549f73127e3fccc738b405ac2a93d692e76214320089121073e5");
   ([], ["000102030405060708090a0b0c0d0e0f101112131415161718191a1b1c1d1e1f202122232425262728292a2b2c2d2e2f303132333435363738393a3b3c3d3e3f404142434445464748494a4b4c4d4e4f505152535455565758595a5b5c5d5e5f606162636465666768696a6b6c6d6e6f707172737475767778797a7b7c7d7e7f80818283848586"],
    "17bfc685ee89a404752ddccd0bed6b9b0696c0f968a2d96749a2bede10bbf8e57f4b1aedc9e8de723ffcc22e3f309c81");
   ([], ["000102030405060708090a0b0c0d0e0f101112131415161718191a1b1c1d1e1f202122232425262728292a2b2c2d2e2f303132333435363738393a3b3c3d3e3f404142434445464748494a4b4c4d4e4f505152535455565758595a5b5c5d5e5f606162636465666768696a6b6c6d6e6f707172737475767778797a7b7c7d7e7f8081828384858687"],
    "adf0cc27bb9d359090d277c3a47a3c96e1f0c6598e9abf460ed128bd39565ae464b39cd6a75dbca75298181af1356c94");
   ([], ["000102030405060708090a0b0c0d0e0f101112131415161718191a1b1c1d1e1f202122232425262728292a2b2c2d2e2f303132333435363738393a3b3c3d3e3f404142434445464748494a4b4c4d4e4f505152535455565758595a5b5c5d5e5f606162636465666768696a6b6c6d6e6f707172737475767778797a7b7c7d7e7f808182838485868788898a8b8c8d8e8f"],
    "57d66cb0a11f02127fd13d435b6cb6195e30ea2562e92c88b9f5daac5ec3e86f738f05c9c949d66f04d4665f942ec991")].
Example repo_blake2b_384_ok : repo_blake2b_384 = true. Proof. reflexivity. Qed.

(** test/testvectors/blake2b_512.txt, 16 of 256 vectors. *)
Definition repo_blake2b_512 := Eval vm_compute in replay (blake2_type 64 BHash 512) ((mst 9 128, 5)) [
   ([], [""],
    "786a02f742015903c6c6fd852552d272912f4740e15847618a86e217f71f5419d25e1031afee585313896444934eb04b903a685b1448b755d56f701afe9be2ce");
   ([], ["00"],
    "2fa3f686df876995167e7c2e5d74c4c7b6e48f8068fe0e44208344d480f7904c36963e44115fe3eb2a3ac8694c28bcb4f5a0f3276f2e79487d8219057a506e4b");
   ([], ["0001020304050607"],
    "e998e0dc03ec30eb99bb6bfaaf6618acc620320d7220b3af2b23d112d8e9cb1262f3c0d60d183b1ee7f096d12dae42c958418600214d04f5ed6f5e718be35566");
   ([], ["000102030405060708090a0b0c0d0e0f101112131415161718191a1b1c1d1e1f202122232425262728292a2b2c2d2e2f30313233343536"],
    "659858f0b5c9edab5b94fd732f6e6b17c51cc096104f09beb3afc3aa467c2ecf885c4c6541effa9023d3b5738ae5a14d867e15db06fe1f9d1127b77e1aabb516");
   ([], ["000102030405060708090a0b0c0d0e0f101112131415161718191a1b1c1d1e1f202122232425262728292a2b2c2d2e2f3031323334353637"],
    "26cca0126f5d1a813c62e5c71001c046f9c92095704550be5873a495a999ad010a4f79491f24f286500adce1a137bc2084e4949f5b7294cefe51ecaff8e95cba");
   ([], ["000102030405060708090a0b0c0d0e0f101112131415161718191a1b1c1d1e1f202122232425262728292a2b2c2d2e2f303132333435363738393a3b3c3d3e"],
    "d10bf9a15b1c9fc8d41f89bb140bf0be08d2f3666176d13baac4d381358ad074c9d4748c300520eb026daeaea7c5b158892fde4e8ec17dc998dcd507df26eb63");
   ([], ["000102030405060708090a0b0c0d0e0f101112131415161718191a1b1c1d1e1f202122232425262728292a2b2c2d2e2f303132333435363738393a3b3c3d3e3f"],
    "2fc6e69fa26a89a5ed269092cb9b2a449a4409a7a44011eecad13d7c4b0456602d402fa5844f1a7a758136ce3d5d8d0e8b86921ffff4f692dd95bdc8e5ff0052");
   ([], ["000102030405060708090a0b0c0d0e0f101112131415161718191a1b1c1d1e1f202122232425262728292a2b2c2d2e2f303132333435363738393a3b3c3d3e3f40"],
    "fcbe8be7dcb49a32dbdf239459e26308b84dff1ea480df8d104eeff34b46fae98627b450c2267d48c0946a697c5b59531452ac0484f1c84e3a33d0c339bb2e28");
   ([], ["000102030405060708090a0b0c0d0e0f101112131415161718191a1b1c1d1e1f202122232425262728292a2b2c2d2e2f303132333435363738393a3b3c3d3e3f404142434445464748494a4b4c4d4e4f505152535455565758595a5b5c5d5e5f606162636465666768696a6b6c6d6e"],
    "bf23c0c25c8060e4f6995f1623a3bebecaa96e308680000a8aa3cd56bb1a6da099e10d9231b37f4519b2efd2c24de72f31a5f19535241b4a59fa3c03ceb790e7");
   ([], ["000102030405060708090a0b0c0d0e0f101112131415161718191a1b1c1d1e1f202122232425262728292a2b2c2d2e2f303132333435363738393a3b3c3d3e3f404142434445464748494a4b4c4d4e4f505152535455565758595a5b5c5d5e5f606162636465666768696a6b6c6d6e6f"],
    "877fd652c05281009c0a5250e7a3a671f8b18c108817fe4a874de22da8e45db11958a600c5f62e67d36cbf84474cf244a9c2b03a9fb9dc711cd1a2cab6f3fae0");
   ([], ["000102030405060708090a0b0c0d0e0f101112131415161718191a1b1c1d1e1f202122232425262728292a2b2c2d2e2f303132333435363738393a3b3c3d3e3f404142434445464748494a4b4c4d4e4f505152535455565758595a5b5c5d5e5f606162636465666768696a6b6c6d6e6f707172737475767778797a7b7c7d7e"],
    "b6292669ccd38d5f01caae96ba272c76a879a45743afa0725d83b9ebb26665b731f1848c52f11972b6644f554c064fa90780dbbbf3a89d4fc31f67df3e5857ef");
   ([], ["000102030405060708090a0b0c0d0e0f101112131415161718191a1b1c1d1e1f202122232425262728292a2b2c2d2e2f303132333435363738393a3b3c3d3e3f404142434445464748494a4b4c4d4e4f505152535455565758595a5b5c5d5e5f606162636465666768696a6b6c6d6e6f707172737475767778797a7b7c7d7e7f"],
    "2319e3789c47e2daa5fe807f61bec2a1a6537fa03f19ff32e87eecbfd64b7e0e8ccff439ac333b040f19b0c4ddd11a61e24ac1fe0f10a039806c5dcc0da3d115");
   ([], ["000102030405060708090a0b0c0d0e0f101112131415161718191a1b1c1d1e1f202122232425262728292a2b2c2d2e2f303132333435363738393a3b3c3d3e3f404142434445464748494a4b4c4d4e4f505152535455565758595a5b5c5d5e5f606162636465666768696a6b6c6d6e6f707172737475767778797a7b7c7d7e7f80"],
    "f59711d44a031d5f97a9413c065d1e614c417ede998590325f49bad2fd444d3e4418be19aec4e11449ac1a57207898bc57d76a1bcf3566292c20c683a5c4648f");
   ([], ["000102030405060708090a0b0c0d0e0f101112131415161718191a1b1c1d1e1f202122232425262728292a2b2c2d2e2f303132333435363738393a3b3c3d3e3f404142434445464748494a4b4c4d4e4f505152535455565758595a5b5c5d5e5f606162636465666768696a6b6c6d6e6f707172737475767778797a7b7c7d7e7f80818283848586"],
    "0602185d8c3a78738b99164b8bc6ffb21c7debebbf806372e0da44d121545597b9c662a255dc31542cf995ecbe6a50fb5e6e0ee4ef240fe557eded1188087e86");
   ([], ["000102030405060708090a0b0c0d0e0f101112131415161718191a1b1c1d1e1f202122232425262728292a2b2c2d2e2f303132333435363738393a3b3c3d3e3f404142434445464748494a4b4c4d4e4f505152535455565758595a5b5c5d5e5f606162636465666768696a6b6c6d6e6f707172737475767778797a7b7c7d7e7f8081828384858687"],
    "c08afa5b927bf08097afc5fff9ca4e7800125c1f52f2af3553fa2b89e1e3015c4f87d5e0a48956ad31450b083dad147ffb5ec03434a26830cf37d103ab50c5da");
   ([], ["000102030405060708090a0b0c0d0e0f101112131415161718191a1b1c1d1e1f202122232425262728292a2b2c2d2e2f303132333435363738393a3b3c3d3e3f404142434445464748494a4b4c4d4e4f505152535455565758595a5b5c5d5e5f606162636465666768696a6b6c6d6e6f707172737475767778797a7b7c7d7e7f808182838485868788898a8b8c8d8e8f"],
    "6b1c69460bbd50ac2ed6f32e6e887cfed407d47dcf0aaa60387fe320d780bd03eab6d7baeb2a07d10cd552a300341354ea9a5f03183a623f92a2d4d9f00926af")].
Example repo_blake2b_512_ok : repo_blake2b_512 = true. Proof. reflexivity. Qed.

(** test/testvectors/blake2bp_512.txt, 21 of 512 vectors. *)
Definition repo_blake2bp_512 := Eval vm_compute in replay (blake2p_type 64 512) (mtree 128 4) [
   ([], [""],
    "b5ef811a8038f70b628fa8b294daae7492b1ebe343a80eaabbf1f6ae664dd67b9d90b0120791eab81dc96985f28849f6a305186a85501b405114bfa678df9380");
   ([], ["00"],
    "a139280e72757b723e6473d5be59f36e9d50fc5cd7d4585cbc09804895a36c521242fb2789f85cb9e35491f31d4a6952f9d8e097aef94fa1ca0b12525721f03d");
   ([], ["0001020304050607"],
    "3a831f2da969b9b7360e74ee53b518980a5ebcdfd4ee23ed805c26394d1824208d7e8f6327d4ec87979ce4af8ab097d69e261ca32db0eefdbc18d16377a6bd20");
   ([], ["000102030405060708090a0b0c0d0e0f101112131415161718191a1b1c1d1e1f202122232425262728292a2b2c2d2e2f30313233343536"],
    "3d39eecc9e904236dc857ba49d55d3bad76572a91a759503376b7708d62d5a785c23068059cf68897f23eec507219b0a02eda2d8bc94fa6989a514822203c8d1");
   ([], ["000102030405060708090a0b0c0d0e0f101112131415161718191a1b1c1d1e1f202122232425262728292a2b2c2d2e2f3031323334353637"],
    "e08c54d998f92b7a54a24ca6aeb153a64f9c9f1fc33658b3edac2c4bb5263158dadf00d3519a119a5614c7f37940e55d13cce466cb71a407c39fc51e1efe18da");
   ([], ["000102030405060708090a0b0c0d0e0f101112131415161718191a1b1c1d1e1f202122232425262728292a2b2c2d2e2f303132333435363738393a3b3c3d3e"],
    "0425caaa923b47b35045eb50829c048bc890444afeefc0afc9d1877b821e043c9c7b9d6dc33fbbdfa537c1ece311965b2fee8982bc46a2a750bfc71d79dbea04");
   ([], ["000102030405060708090a0b0c0d0e0f101112131415161718191a1b1c1d1e1f202122232425262728292a2b2c2d2e2f303132333435363738393a3b3c3d3e3f"],
    "6b9d86f15c090a00fc3d907f906c5eb79265e58b88eb64294b4cc4e2b89b1a7c5ee3127ed21b456862de6b2abda59eaacf2dcbe922ca755e40735be81d9c88a5");
   ([], ["000102030405060708090a0b0c0d0e0f101112131415161718191a1b1c1d1e1f202122232425262728292a2b2c2d2e2f303132333435363738393a3b3c3d3e3f40"],
    "146a187a99e8a2d233e0eb373d437b02bfa8d6515b3ca1de48a6b6acf7437eb7e7ac3f2d19ef3bb9b833cc5761dba22d1ad060be76cdcb812d64d578e989a5a4");
   ([], ["000102030405060708090a0b0c0d0e0f101112131415161718191a1b1c1d1e1f202122232425262728292a2b2c2d2e2f303132333435363738393a3b3c3d3e3f404142434445464748494a4b4c4d4e4f505152535455565758595a5b5c5d5e5f606162636465666768696a6b6c6d6e"],
    "4359a45876bf6acc0aece7b9b4b4a838b9dba5776a3b14da2fba9102e78bf648ffb4d867bae85fd9b71312dc4602d0d49c907bb9289b2295961e54138123f54a");
   ([], ["000102030405060708090a0b0c0d0e0f101112131415161718191a1b1c1d1e1f202122232425262728292a2b2c2d2e2f303132333435363738393a3b3c3d3e3f404142434445464748494a4b4c4d4e4f505152535455565758595a5b5c5d5e5f606162636465666768696a6b6c6d6e6f"],
    "d3f2c8e74f343a4e7190d475cf9af754eed5577262b35bd9a9c42b58ce88262e3114917fb9e683c62d9f8947b58a294da506fb86b3edf25cb9e2d2df611cd448");
   ([], ["000102030405060708090a0b0c0d0e0f101112131415161718191a1b1c1d1e1f202122232425262728292a2b2c2d2e2f303132333435363738393a3b3c3d3e3f404142434445464748494a4b4c4d4e4f505152535455565758595a5b5c5d5e5f606162636465666768696a6b6c6d6e6f707172737475767778797a7b7c7d7e"],
    "ea64b003a135766121cfbccbdc08dca2402926be78cea3d0a7253d9ec9e63b8acdd994559917e0e03b5e155f944d7198d99245a794ce19c9b4df4da4a3399334");
   ([], ["000102030405060708090a0b0c0d0e0f101112131415161718191a1b1c1d1e1f202122232425262728292a2b2c2d2e2f303132333435363738393a3b3c3d3e3f404142434445464748494a4b4c4d4e4f505152535455565758595a5b5c5d5e5f606162636465666768696a6b6c6d6e6f707172737475767778797a7b7c7d7e7f"],
    "05ad0f271faf7e361320518452813ff9fb9976ac378050b6eefb05f7867b577b8f14475794cff61b2bc062d346a7c65c6e0067c60a374af7940f10aa449d5fb9");
   ([], ["000102030405060708090a0b0c0d0e0f101112131415161718191a1b1c1d1e1f202122232425262728292a2b2c2d2e2f303132333435363738393a3b3c3d3e3f404142434445464748494a4b4c4d4e4f505152535455565758595a5b5c5d5e5f606162636465666768696a6b6c6d6e6f707172737475767778797a7b7c7d7e7f80"],
    "b545880294afa153f8b9f49c73d952b5d1228f1a1ab5ebcb05ff79e560c030f7500fe256a40b6a0e6cb3d42acd4b98595c5b51eaec5ad69cd40f1fc16d2d5f50");
   ([], ["000102030405060708090a0b0c0d0e0f101112131415161718191a1b1c1d1e1f202122232425262728292a2b2c2d2e2f303132333435363738393a3b3c3d3e3f404142434445464748494a4b4c4d4e4f505152535455565758595a5b5c5d5e5f606162636465666768696a6b6c6d6e6f707172737475767778797a7b7c7d7e7f80818283848586"],
    "707d6a58421b8f7e44ff1f8362bc700f71ef7c3935e0764bd14d390c1c72792af9c2c02fb72a2b9d9a0729cb3e99626cf034df54b506b5b16464f475864f2590");
   ([], ["000102030405060708090a0b0c0d0e0f101112131415161718191a1b1c1d1e1f202122232425262728292a2b2c2d2e2f303132333435363738393a3b3c3d3e3f404142434445464748494a4b4c4d4e4f505152535455565758595a5b5c5d5e5f606162636465666768696a6b6c6d6e6f707172737475767778797a7b7c7d7e7f8081828384858687"],
    "9d88f8baa4eb0f9ab2292e4982ac80445358227d7f9ce7a4a629f180f7141e08fe6355c64521a69ba2bfbd1c4a3ea048d0bc8ab3701f30ea83fbe02474d892bf");
   ([], ["000102030405060708090a0b0c0d0e0f101112131415161718191a1b1c1d1e1f202122232425262728292a2b2c2d2e2f303132333435363738393a3b3c3d3e3f404142434445464748494a4b4c4d4e4f505152535455565758595a5b5c5d5e5f606162636465666768696a6b6c6d6e6f707172737475767778797a7b7c7d7e7f808182838485868788898a8b8c8d8e8f"],
    "fc16e0925a35aad47ad69554b25796fcf9260cb50e6cc3747535559e99c85881c75889ac793ab78b88b05fb160895655e4d663a2a09ba9fa614a10c22947210d");
   ([(B2Key, "000102030405060708090a0b0c0d0e0f101112131415161718191a1b1c1d1e1f202122232425262728292a2b2c2d2e2f303132333435363738393a3b3c3d3e3f")], [""],
    "9d9461073e4eb640a255357b839f394b838c6ff57c9b686a3f76107c1066728f3c9956bd785cbc3bf79dc2ab578c5a0c063b9d9c405848de1dbe821cd05c940a");
   ([(B2Key, "000102030405060708090a0b0c0d0e0f101112131415161718191a1b1c1d1e1f202122232425262728292a2b2c2d2e2f303132333435363738393a3b3c3d3e3f")], ["00"],
    "ff8e90a37b94623932c59f7559f26035029c376732cb14d41602001cbb73adb79293a2dbda5f60703025144d158e2735529596251c73c0345ca6fccb1fb1e97e");
   ([(B2Key, "000102030405060708090a0b0c0d0e0f101112131415161718191a1b1c1d1e1f202122232425262728292a2b2c2d2e2f303132333435363738393a3b3c3d3e3f")], ["0001020304050607"],
    "3aba07ae980e338637479dca1e352800f4588e62d823365aa69c5b25fce12968d26c9bdbee9a32bffd42e6b22c8138a61c1fce49ffbc190e1e15160153ccb6b4");
   ([(B2Key, "000102030405060708090a0b0c0d0e0f101112131415161718191a1b1c1d1e1f202122232425262728292a2b2c2d2e2f303132333435363738393a3b3c3d3e3f")], ["000102030405060708090a0b0c0d0e0f101112131415161718191a1b1c1d1e1f202122232425262728292a2b2c2d2e2f30313233343536"],
    "1f705f6e9f070d87fde8e2774674fa9bf120d288eb0be7aa128dfb5d1011ce1fda99b255226665d83f634e8fcabda9a23c03515e9cfece6e94a8ec92e4edecb7");
   ([(B2Key, "000102030405060708090a0b0c0d0e0f101112131415161718191a1b1c1d1e1f202122232425262728292a2b2c2d2e2f303132333435363738393a3b3c3d3e3f")], ["000102030405060708090a0b0c0d0e0f101112131415161718191a1b1c1d1e1f202122232425262728292a2b2c2d2e2f3031323334353637"],
    "2d96c5b01574722b817feb486c5fc98f5f8461f4cee9905af206d4723386d1c4c7cac5840028d7afed0e38ad139628eb6af92b4b88ebf09b1fa047fbe10bc31d")].
Example repo_blake2bp_512_ok : repo_blake2bp_512 = true. Proof. reflexivity. Qed.

(** test/testvectors/blake2s_128.txt, 16 of 256 vectors. *)
Definition repo_blake2s_128 := Eval vm_compute in replay (blake2_type 32 BHash 128) ((mst 9 64, 5)) [
   ([], [""],
    "64550d6ffe2c0a01a14aba1eade0200c");
   ([], ["00"],
    "9f31f3ec588c6064a8e1f9051aeab90a");
   ([], ["0001020304050607"],
    "873ad9ce57fb6d239970a38e0d92cd8e");
   ([], ["000102030405060708090a0b0c0d0e0f101112131415161718191a1b1c1d1e1f202122232425262728292a2b2c2d2e2f30313233343536"],
    "ce44dc306dff56ed00a657fb7b25d20c");
   ([], ["000102030405060708090a0b0c0d0e0f101112131415161718191a1b1c1d1e1f202122232425262728292a2b2c2d2e2f3031323334353637"],
    "081b0e61dbe0ea09128bf93ba7ed8edc");
   ([], ["000102030405060708090a0b0c0d0e0f101112131415161718191a1b1c1d1e1f202122232425262728292a2b2c2d2e2f303132333435363738393a3b3c3d3e"],
    "4006430a2d313751a9ece24fccb52de5");
   ([], ["000102030405060708090a0b0c0d0e0f101112131415161718191a1b1c1d1e1f202122232425262728292a2b2c2d2e2f303132333435363738393a3b3c3d3e3f"],
    "dc66ca8f03865801b0ffe06ed8a1a90e");
   ([], ["000102030405060708090a0b0c0d0e0f101112131415161718191a1b1c1d1e1f202122232425262728292a2b2c2d2e2f303132333435363738393a3b3c3d3e3f40"],
    "399d3e92ccfcedcdde9bf4c2be14cf8c");
   ([], ["000102030405060708090a0b0c0d0e0f101112131415161718191a1b1c1d1e1f202122232425262728292a2b2c2d2e2f303132333435363738393a3b3c3d3e3f404142434445464748494a4b4c4d4e4f505152535455565758595a5b5c5d5e5f606162636465666768696a6b6c6d6e"],
    "0760e13db7921cdba669c67e88c3a7d1");
   ([], ["000102030405060708090a0b0c0d0e0f101112131415161718191a1b1c1d1e1f202122232425262728292a2b2c2d2e2f303132333435363738393a3b3c3d3e3f404142434445464748494a4b4c4d4e4f505152535455565758595a5b5c5d5e5f606162636465666768696a6b6c6d6e6f"],
    "73d5a76fb7d704856c0daa9ec40e75ce");
   ([], ["000102030405060708090a0b0c0d0e0f101112131415161718191a1b1c1d1e1f202122232425262728292a2b2c2d2e2f303132333435363738393a3b3c3d3e3f404142434445464748494a4b4c4d4e4f505152535455565758595a5b5c5d5e5f606162636465666768696a6b6c6d6e6f707172737475767778797a7b7c7d7e"],
    "5d3541be0ce9b6d8f9315862ac0198c5");
   ([], ["000102030405060708090a0b0c0d0e0f101112131415161718191a1b1c1d1e1f202122232425262728292a2b2c2d2e2f303132333435363738393a3b3c3d3e3f404142434445464748494a4b4c4d4e4f505152535455565758595a5b5c5d5e5f606162636465666768696a6b6c6d6e6f707172737475767778797a7b7c7d7e7f"],
    "7a3b3fa888b60095e7b305efcf3c3dbc");
   ([], ["000102030405060708090a0b0c0d0e0f101112131415161718191a1b1c1d1e1f202122232425262728292a2b2c2d2e2f303132333435363738393a3b3c3d3e3f404142434445464748494a4b4c4d4e4f505152535455565758595a5b5c5d5e5f606162636465666768696a6b6c6d6e6f707172737475767778797a7b7c7d7e7f80"],
    "dd6146fb0f48a29aa4c813fe75d15941");
   ([], ["000102030405060708090a0b0c0d0e0f101112131415161718191a1b1c1d1e1f202122232425262728292a2b2c2d2e2f303132333435363738393a3b3c3d3e3f404142434445464748494a4b4c4d4e4f505152535455565758595a5b5c5d5e5f606162636465666768696a6b6c6d6e6f707172737475767778797a7b7c7d7e7f80818283848586"],
    "e771eba04e80d736e22d7f08bdfe7636");
   ([], ["000102030405060708090a0b0c0d0e0f101112131415161718191a1b1c1d1e1f202122232425262728292a2b2c2d2e2f303132333435363738393a3b3c3d3e3f404142434445464748494a4b4c4d4e4f505152535455565758595a5b5c5d5e5f606162636465666768696a6b6c6d6e6f707172737475767778797a7b7c7d7e7f8081828384858687"],
    "f04aff50bdb3974a3eeca7b6396323e4");
   ([], ["000102030405060708090a0b0c0d0e0f101112131415161718191a1b1c1d1e1f202122232425262728292a2b2c2d2e2f303132333435363738393a3b3c3d3e3f404142434445464748494a4b4c4d4e4f505152535455565758595a5b5c5d5e5f606162636465666768696a6b6c6d6e6f707172737475767778797a7b7c7d7e7f808182838485868788898a8b8c8d8e8f"],
    "56aaed9bb4e70bf6c8416ece4fb06d10")].
Example repo_blake2s_128_ok : repo_blake2s_128 = true. Proof. reflexivity. Qed.

(** test/testvectors/blake2s_160.txt, 16 of 256 vectors. *)
Definition repo_blake2s_160 := Eval vm_compute in replay (blake2_type 32 BHash 160) ((mst 9 64, 5)) [
   ([], [""],
    "354c9c33f735962418bdacb9479873429c34916f");
   ([], ["00"],
    "63a5f3dba42c1ee9ce4147c1b22e0b61f4c7a17a");
   ([], ["0001020304050607"],
    "55af018d4764bfb68d6a1157f1ceec211e1885ea");
   ([], ["000102030405060708090a0b0c0d0e0f101112131415161718191a1b1c1d1e1f202122232425262728292a2b2c2d2e2f30313233343536"],
    "2c0ae504b7674099048042ce546844dd06e32efb");
   ([], ["000102030405060708090a0b0c0d0e0f101112131415161718191a1b1c1d1e1f202122232425262728292a2b2c2d2e2f3031323334353637"],
    "81ded6f4245b0bc4c055d5b7940d4a82dfea329a");
   ([], ["000102030405060708090a0b0c0d0e0f101112131415161718191a1b1c1d1e1f202122232425262728292a2b2c2d2e2f303132333435363738393a3b3c3d3e"],
    "3d0034e3e070ced4c8555cc592d019af6155b086");
   ([], ["000102030405060708090a0b0c0d0e0f101112131415161718191a1b1c1d1e1f202122232425262728292a2b2c2d2e2f303132333435363738393a3b3c3d3e3f"],
    "68c18b80dd398444aa9fd4272ecfa8e71b31ee8a");
   ([], ["000102030405060708090a0b0c0d0e0f101112131415161718191a1b1c1d1e1f202122232425262728292a2b2c2d2e2f303132333435363738393a3b3c3d3e3f40"],
    "20eb8eee0c703a44779298f35f92da38f2b4f0bf");
   ([], ["000102030405060708090a0b0c0d0e0f101112131415161718191a1b1c1d1e1f202122232425262728292a2b2c2d2e2f303132333435363738393a3b3c3d3e3f404142434445464748494a4b4c4d4e4f505152535455565758595a5b5c5d5e5f606162636465666768696a6b6c6d6e"],
    "aacabe58bf3fcd680deb8fe8c7d8d74798e9081d");
   ([], ["000102030405060708090a0b0c0d0e0f101112131415161718191a1b1c1d1e1f202122232425262728292a2b2c2d2e2f303132333435363738393a3b3c3d3e3f404142434445464748494a4b4c4d4e4f505152535455565758595a5b5c5d5e5f606162636465666768696a6b6c6d6e6f"],
    "e660714f551a3eaebf8bf334af6415152b86e485");
   ([], ["000102030405060708090a0b0c0d0e0f101112131415161718191a1b1c1d1e1f202122232425262728292a2b2c2d2e2f303132333435363738393a3b3c3d3e3f404142434445464748494a4b4c4d4e4f505152535455565758595a5b5c5d5e5f606162636465666768696a6b6c6d6e6f707172737475767778797a7b7c7d7e"],
    "b326e5f0e03512e436f31111df9c378dca2b3171");
   ([], ["000102030405060708090a0b0c0d0e0f101112131415161718191a1b1c1d1e1f202122232425262728292a2b2c2d2e2f303132333435363738393a3b3c3d3e3f404142434445464748494a4b4c4d4e4f505152535455565758595a5b5c5d5e5f606162636465666768696a6b6c6d6e6f707172737475767778797a7b7c7d7e7f"],
    "fb7b50db11a7a2acecf57aa08636df85eeaac736");
   ([], ["000102030405060708090a0b0c0d0e0f101112131415161718191a1b1c1d1e1f202122232425262728292a2b2c2d2e2f303132333435363738393a3b3c3d3e3f404142434445464748494a4b4c4d4e4f505152535455565758595a5b5c5d5e5f606162636465666768696a6b6c6d6e6f707172737475767778797a7b7c7d7e7f80"],
    "844da1b7c83cef2f35fc1433c5990161e3202c9d");
   ([], ["000102030405060708090a0b0c0d0e0f101112131415161718191a1b1c1d1e1f202122232425262728292a2b2c2d2e2f303132333435363738393a3b3c3d3e3f404142434445464748494a4b4c4d4e4f505152535455565758595a5b5c5d5e5f606162636465666768696a6b6c6d6e6f707172737475767778797a7b7c7d7e7f80818283848586"],
    "0a044bfbf1e562d8fc5e473c21c6cebbb1f7da2b");
   ([], ["000102030405060708090a0b0c0d0e0f101112131415161718191a1b1c1d1e1f202122232425262728292a2b2c2d2e2f303132333435363738393a3b3c3d3e3f404142434445464748494a4b4c4d4e4f505152535455565758595a5b5c5d5e5f606162636465666768696a6b6c6d6e6f707172737475767778797a7b7c7d7e7f8081828384858687"],
    "b362843375912ef91b00f958ad88e66bf3a679b7");
   ([], ["000102030405060708090a0b0c0d0e0f101112131415161718191a1b1c1d1e1f202122232425262728292a2b2c2d2e2f303132333435363738393a3b3c3d3e3f404142434445464748494a4b4c4d4e4f505152535455565758595a5b5c5d5e5f606162636465666768696a6b6c6d6e6f707172737475767778797a7b7c7d7e7f808182838485868788898a8b8c8d8e8f"],
    "0e1f2bb4a7b989a6fffa1c4412b9816bb29ca403")].
Example repo_blake2s_160_ok : repo_blake2s_160 = true. Proof. reflexivity. Qed.

(** test/testvectors/blake2s_224.txt, 16 of 256 vectors. *)
Definition repo_blake2s_224 := Eval vm_compute in replay (blake2_type 32 BHash 224) ((mst 9 64, 5)) [
   ([], [""],
    "1fa1291e65248b37b3433475b2a0dd63d54a11ecc4e3e034e7bc1ef4");
   ([], ["00"],
    "61b94ec94622a391d2ae42e6456c9012d5800797b8865afc482197bb");
   ([], ["0001020304050607"],
    "9903423028c41511fabd3366a07aaf7e480d2b6fc0457eef7c11a824");
   ([], ["000102030405060708090a0b0c0d0e0f101112131415161718191a1b1c1d1e1f202122232425262728292a2b2c2d2e2f30313233343536"],
    "5cd64a9845375020f2331c72cb955821cfe11d06a3b63d8a1d1187e2");
   ([], ["000102030405060708090a0b0c0d0e0f101112131415161718191a1b1c1d1e1f202122232425262728292a2b2c2d2e2f3031323334353637"],
    "8522ab2d20cdf3ca0f85ea5a18e5c385f1bb3e9b0a4fdc07324c98b0");
   ([], ["000102030405060708090a0b0c0d0e0f101112131415161718191a1b1c1d1e1f202122232425262728292a2b2c2d2e2f303132333435363738393a3b3c3d3e"],
    "8d88168937a3b44e45c1408c03df60835df2794e8b55eca1fd1e266a");
   ([], ["000102030405060708090a0b0c0d0e0f101112131415161718191a1b1c1d1e1f202122232425262728292a2b2c2d2e2f303132333435363738393a3b3c3d3e3f"],
    "0f3cd451360aad6bd7c9cbc1497771315bc0e0f34c82d1f4e1052b1e");
   ([], ["000102030405060708090a0b0c0d0e0f101112131415161718191a1b1c1d1e1f202122232425262728292a2b2c2d2e2f303132333435363738393a3b3c3d3e3f40"],
    "c4ed166ec8ccb80a236767111fa75498a0666901226b549de011d576");
   ([], ["000102030405060708090a0b0c0d0e0f101112131415161718191a1b1c1d1e1f202122232425262728292a2b2c2d2e2f303132333435363738393a3b3c3d3e3f404142434445464748494a4b4c4d4e4f505152535455565758595a5b5c5d5e5f606162636465666768696a6b6c6d6e"],
    "6e3df733dcb232d9742deab44a6cc9ce75b52d677599de018be80a02");
   ([], ["000102030405060708090a0b0c0d0e0f101112131415161718191a1b1c1d1e1f202122232425262728292a2b2c2d2e2f303132333435363738393a3b3c3d3e3f404142434445464748494a4b4c4d4e4f505152535455565758595a5b5c5d5e5f606162636465666768696a6b6c6d6e6f"],
    "589286ce5d448b9b6a727ae3e24deb9e8141fedb1e8e853556a63a03");
   ([], ["000102030405060708090a0b0c0d0e0f101112131415161718191a1b1c1d1e1f202122232425262728292a2b2c2d2e2f303132333435363738393a3b3c3d3e3f404142434445464748494a4b4c4d4e4f505152535455565758595a5b5c5d5e5f606162636465666768696a6b6c6d6e6f707172737475767778797a7b7c7d7e"],
    "a5ce0ff6222e2669fc425ef4d5cdaed1870bf1c384a560e4dd86f5b3");
   ([], ["000102030405060708090a0b0c0d0e0f101112131415161718191a1b1c1d1e1f202122232425262728292a2b2c2d2e2f303132333435363738393a3b3c3d3e3f404142434445464748494a4b4c4d4e4f505152535455565758595a5b5c5d5e5f606162636465666768696a6b6c6d6e6f707172737475767778797a7b7c7d7e7f"],
    "784e4d4a1465f11253d1812c9c865c99581656086f4f2b7ee7ffdbb6");
   ([], ["000102030405060708090a0b0c0d0e0f101112131415161718191a1b1c1d1e1f202122232425262728292a2b2c2d2e2f303132333435363738393a3b3c3d3e3f404142434445464748494a4b4c4d4e4f505152535455565758595a5b5c5d5e5f606162636465666768696a6b6c6d6e6f707172737475767778797a7b7c7d7e7f80"],
    "f777cfa65ac9a2aada6a1304ab336bd5f0acdd67be700be1b7943a2d");
   ([], ["000102030405060708090a0b0c0d0e0f101112131415161718191a1b1c1d1e1f202122232425262728292a2b2c2d2e2f303132333435363738393a3b3c3d3e3f404142434445464748494a4b4c4d4e4f505152535455565758595a5b5c5d5e5f606162636465666768696a6b6c6d6e6f707172737475767778797a7b7c7d7e7f80818283848586"],
    "2060a49466b269b5163f8430a1f36fae84b1fd17a4a096af88c63309");
   ([], ["000102030405060708090a0b0c0d0e0f101112131415161718191a1b1c1d1e1f202122232425262728292a2b2c2d2e2f303132333435363738393a3b3c3d3e3f404142434445464748494a4b4c4d4e4f505152535455565758595a5b5c5d5e5f606162636465666768696a6b6c6d6e6f707172737475767778797a7b7c7d7e7f8081828384858687"],
    "48a9e7dbfd29ed7b7203774f581c2394e38a0617f674ec471f01b461");
   ([], ["000102030405060708090a0b0c0d0e0f101112131415161718191a1b1c1d1e1f202122232425262728292a2b2c2d2e2f303132333435363738393a3b3c3d3e3f404142434445464748494a4b4c4d4e4f505152535455565758595a5b5c5d5e5f606162636465666768696a6b6c6d6e6f707172737475767778797a7b7c7d7e7f808182838485868788898a8b8c8d8e8f"],
    "05d475177b43b746790d955fe7c0a304ce387c6004aff93c60727b6c")].
Example repo_blake2s_224_ok : repo_blake2s_224 = true. Proof. reflexivity. Qed.

(** test/testvectors/blake2s_256.txt, 16 of 256 vectors. *)
Definition repo_blake2s_256 := Eval vm_compute in replay (blake2_type 32 BHash 256) ((mst 9 64, 5)) [
   ([], [""],
    "69217a3079908094e11121d042354a7c1f55b6482ca1a51e1b250dfd1ed0eef9");
   ([], ["00"],
    "e34d74dbaf4ff4c6abd871cc220451d2ea2648846c7757fbaac82fe51ad64bea");
   ([], ["0001020304050607"],
    "c7e887b546623635e93e0495598f1726821996c2377705b93a1f636f872bfa2d");
   ([], ["000102030405060708090a0b0c0d0e0f101112131415161718191a1b1c1d1e1f202122232425262728292a2b2c2d2e2f30313233343536"],
    "f4495470f226c8c214be08fdfad4bc4a2a9dbea9136a210df0d4b64929e6fc14");
   ([], ["000102030405060708090a0b0c0d0e0f101112131415161718191a1b1c1d1e1f202122232425262728292a2b2c2d2e2f3031323334353637"],
    "e290dd270b467f34ab1c002d340fa016257ff19e5833fdbbf2cb401c3b2817de");
   ([], ["000102030405060708090a0b0c0d0e0f101112131415161718191a1b1c1d1e1f202122232425262728292a2b2c2d2e2f303132333435363738393a3b3c3d3e"],
    "e57cb79487dd57902432b250733813bd96a84efce59f650fac26e6696aefafc3");
   ([], ["000102030405060708090a0b0c0d0e0f101112131415161718191a1b1c1d1e1f202122232425262728292a2b2c2d2e2f303132333435363738393a3b3c3d3e3f"],
    "56f34e8b96557e90c1f24b52d0c89d51086acf1b00f634cf1dde9233b8eaaa3e");
   ([], ["000102030405060708090a0b0c0d0e0f101112131415161718191a1b1c1d1e1f202122232425262728292a2b2c2d2e2f303132333435363738393a3b3c3d3e3f40"],
    "1b53ee94aaf34e4b159d48de352c7f0661d0a40edff95a0b1639b4090e974472");
   ([], ["000102030405060708090a0b0c0d0e0f101112131415161718191a1b1c1d1e1f202122232425262728292a2b2c2d2e2f303132333435363738393a3b3c3d3e3f404142434445464748494a4b4c4d4e4f505152535455565758595a5b5c5d5e5f606162636465666768696a6b6c6d6e"],
    "0a4049d57e833b5695fac93dd1fbef3166b44b12ad11248662383ae051e15827");
   ([], ["000102030405060708090a0b0c0d0e0f101112131415161718191a1b1c1d1e1f202122232425262728292a2b2c2d2e2f303132333435363738393a3b3c3d3e3f404142434445464748494a4b4c4d4e4f505152535455565758595a5b5c5d5e5f606162636465666768696a6b6c6d6e6f"],
    "81dcc0678bb6a765e48c3209654fe90089ce44ff5618477e39ab286476df052b");
   ([], ["000102030405060708090a0b0c0d0e0f101112131415161718191a1b1c1d1e1f202122232425262728292a2b2c2d2e2f303132333435363738393a3b3c3d3e3f404142434445464748494a4b4c4d4e4f505152535455565758595a5b5c5d5e5f606162636465666768696a6b6c6d6e6f707172737475767778797a7b7c7d7e"],
    "f18417b39d617ab1c18fdf91ebd0fc6d5516bb34cf39364037bce81fa04cecb1");
   ([], ["000102030405060708090a0b0c0d0e0f101112131415161718191a1b1c1d1e1f202122232425262728292a2b2c2d2e2f303132333435363738393a3b3c3d3e3f404142434445464748494a4b4c4d4e4f505152535455565758595a5b5c5d5e5f606162636465666768696a6b6c6d6e6f707172737475767778797a7b7c7d7e7f"],
    "1fa877de67259d19863a2a34bcc6962a2b25fcbf5cbecd7ede8f1fa36688a796");
   ([], ["000102030405060708090a0b0c0d0e0f101112131415161718191a1b1c1d1e1f202122232425262728292a2b2c2d2e2f303132333435363738393a3b3c3d3e3f404142434445464748494a4b4c4d4e4f505152535455565758595a5b5c5d5e5f606162636465666768696a6b6c6d6e6f707172737475767778797a7b7c7d7e7f80"],
    "5bd169e67c82c2c2e98ef7008bdf261f2ddf30b1c00f9e7f275bb3e8a28dc9a2");
   ([], ["000102030405060708090a0b0c0d0e0f101112131415161718191a1b1c1d1e1f202122232425262728292a2b2c2d2e2f303132333435363738393a3b3c3d3e3f404142434445464748494a4b4c4d4e4f505152535455565758595a5b5c5d5e5f606162636465666768696a6b6c6d6e6f707172737475767778797a7b7c7d7e7f80818283848586"],
    "70ea3b0176927d9096a18508cd123a290325920a9d00a89b5de04273fbc76b85");
   ([], ["000102030405060708090a0b0c0d0e0f101112131415161718191a1b1c1d1e1f202122232425262728292a2b2c2d2e2f303132333435363738393a3b3c3d3e3f404142434445464748494a4b4c4d4e4f505152535455565758595a5b5c5d5e5f606162636465666768696a6b6c6d6e6f707172737475767778797a7b7c7d7e7f8081828384858687"],
    "67de25c02a4aaba23bdc973c8bb0b5796d47cc0659d43dff1f97de174963b68e");
   ([], ["000102030405060708090a0b0c0d0e0f101112131415161718191a1b1c1d1e1f202122232425262728292a2b2c2d2e2f303132333435363738393a3b3c3d3e3f404142434445464748494a4b4c4d4e4f505152535455565758595a5b5c5d5e5f606162636465666768696a6b6c6d6e6f707172737475767778797a7b7c7d7e7f808182838485868788898a8b8c8d8e8f"],
    "a6f98658f6eabaf902d8b3871a4b101d16196e8a4b241e1558fe29966e103e8d")].
Example repo_blake2s_256_ok : repo_blake2s_256 = true. Proof. reflexivity. Qed.

(** test/testvectors/blake2sp_256.txt, 21 of 512 vectors. *)
Definition repo_blake2sp_256 := Eval vm_compute in replay (blake2p_type 32 256) (mtree 64 8) [
   ([], [""],
    "dd0e891776933f43c7d032b08a917e25741f8aa9a12c12e1cac8801500f2ca4f");
   ([], ["00"],
    "a6b9eecc25227ad788c99d3f236debc8da408849e9a5178978727a81457f7239");
   ([], ["0001020304050607"],
    "391ea912df4d4d79a4646d9da2549a446d2240f62415d070a2e093992b471fba");
   ([], ["000102030405060708090a0b0c0d0e0f101112131415161718191a1b1c1d1e1f202122232425262728292a2b2c2d2e2f30313233343536"],
    "3908e8d547c0afb1134949466304a145027e6bb7a74dd1c162cdf0bcf77237e8");
   ([], ["000102030405060708090a0b0c0d0e0f101112131415161718191a1b1c1d1e1f202122232425262728292a2b2c2d2e2f3031323334353637"],
    "1b6c87a34838c7cd5fd08914224e90c22abf5a97b10646d98c4916d3a8939e62");
   ([], ["000102030405060708090a0b0c0d0e0f101112131415161718191a1b1c1d1e1f202122232425262728292a2b2c2d2e2f303132333435363738393a3b3c3d3e"],
    "1024c940be7341449b5010522b509f65bbdc1287b455c2bb7f72b2c92fd0d189");
   ([], ["000102030405060708090a0b0c0d0e0f101112131415161718191a1b1c1d1e1f202122232425262728292a2b2c2d2e2f303132333435363738393a3b3c3d3e3f"],
    "52603b6cbfad4966cb044cb267568385cf35f21e6c45cf30aed19832cb51e9f5");
   ([], ["000102030405060708090a0b0c0d0e0f101112131415161718191a1b1c1d1e1f202122232425262728292a2b2c2d2e2f303132333435363738393a3b3c3d3e3f40"],
    "fff24d3cc729d395daf978b0157306cb495797e6c8dca1731d2f6f81b849baae");
   ([], ["000102030405060708090a0b0c0d0e0f101112131415161718191a1b1c1d1e1f202122232425262728292a2b2c2d2e2f303132333435363738393a3b3c3d3e3f404142434445464748494a4b4c4d4e4f505152535455565758595a5b5c5d5e5f606162636465666768696a6b6c6d6e"],
    "1aaef55d4fa892b635fb2a7a25f9a8e03b9ffb082ae9c07c2042a049c6515e45");
   ([], ["000102030405060708090a0b0c0d0e0f101112131415161718191a1b1c1d1e1f202122232425262728292a2b2c2d2e2f303132333435363738393a3b3c3d3e3f404142434445464748494a4b4c4d4e4f505152535455565758595a5b5c5d5e5f606162636465666768696a6b6c6d6e6f"],
    "297daac4d54dc41c83e32394599f171cdaa9ddb71726da4ece3ccf95c11f56df");
   ([], ["000102030405060708090a0b0c0d0e0f101112131415161718191a1b1c1d1e1f202122232425262728292a2b2c2d2e2f303132333435363738393a3b3c3d3e3f404142434445464748494a4b4c4d4e4f505152535455565758595a5b5c5d5e5f606162636465666768696a6b6c6d6e6f707172737475767778797a7b7c7d7e"],
    "a626543c271fccc3e4450b48d66bc9cbdeb25e5d077a6213cd90cbbd0fd22076");
   ([], ["000102030405060708090a0b0c0d0e0f101112131415161718191a1b1c1d1e1f202122232425262728292a2b2c2d2e2f303132333435363738393a3b3c3d3e3f404142434445464748494a4b4c4d4e4f505152535455565758595a5b5c5d5e5f606162636465666768696a6b6c6d6e6f707172737475767778797a7b7c7d7e7f"],
    "05cf3a90049116dc60efc31536aaa3d167762994892876dcb7ef3fbecd7449c0");
   ([], ["000102030405060708090a0b0c0d0e0f101112131415161718191a1b1c1d1e1f202122232425262728292a2b2c2d2e2f303132333435363738393a3b3c3d3e3f404142434445464748494a4b4c4d4e4f505152535455565758595a5b5c5d5e5f606162636465666768696a6b6c6d6e6f707172737475767778797a7b7c7d7e7f80"],
    "ccd61c926cc1e5e9128c021c0c6e92aefc4ffbde394dd6f3b7d87a8ced896014");
   ([], ["000102030405060708090a0b0c0d0e0f101112131415161718191a1b1c1d1e1f202122232425262728292a2b2c2d2e2f303132333435363738393a3b3c3d3e3f404142434445464748494a4b4c4d4e4f505152535455565758595a5b5c5d5e5f606162636465666768696a6b6c6d6e6f707172737475767778797a7b7c7d7e7f80818283848586"],
    "b519538fe1626f0c595945ada58a344faac0061761cc9d4a841419bd32eec0d9");
   ([], ["000102030405060708090a0b0c0d0e0f101112131415161718191a1b1c1d1e1f202122232425262728292a2b2c2d2e2f303132333435363738393a3b3c3d3e3f404142434445464748494a4b4c4d4e4f505152535455565758595a5b5c5d5e5f606162636465666768696a6b6c6d6e6f707172737475767778797a7b7c7d7e7f8081828384858687"],
    "96e488b027896413f4034b0354f48484f6cfc10f8ec57b026fd21a3b88361a74");
   ([], ["000102030405060708090a0b0c0d0e0f101112131415161718191a1b1c1d1e1f202122232425262728292a2b2c2d2e2f303132333435363738393a3b3c3d3e3f404142434445464748494a4b4c4d4e4f505152535455565758595a5b5c5d5e5f606162636465666768696a6b6c6d6e6f707172737475767778797a7b7c7d7e7f808182838485868788898a8b8c8d8e8f"],
    "327dfa464459d9e48f5e55c7f5baa68fc4a25ad622bc7bf01aca82fd5e72314c");
   ([(B2Key, "000102030405060708090a0b0c0d0e0f101112131415161718191a1b1c1d1e1f")], [""],
    "715cb13895aeb678f6124160bff21465b30f4f6874193fc851b4621043f09cc6");
   ([(B2Key, "000102030405060708090a0b0c0d0e0f101112131415161718191a1b1c1d1e1f")], ["00"],
    "40578ffa52bf51ae1866f4284d3a157fc1bcd36ac13cbdcb0377e4d0cd0b6603");
   ([(B2Key, "000102030405060708090a0b0c0d0e0f101112131415161718191a1b1c1d1e1f")], ["0001020304050607"],
    "b9ed22e7dd8dd14ee8c95b20e7632e8553a268d9ff8633ed3c21d1b8c9a70be1");
   ([(B2Key, "000102030405060708090a0b0c0d0e0f101112131415161718191a1b1c1d1e1f")], ["000102030405060708090a0b0c0d0e0f101112131415161718191a1b1c1d1e1f202122232425262728292a2b2c2d2e2f30313233343536"],
    "c1a75bdda12b8b2ab1b924843858183a09d202421fdbcdf0e63eae46f37d91ed");
   ([(B2Key, "000102030405060708090a0b0c0d0e0f101112131415161718191a1b1c1d1e1f")], ["000102030405060708090a0b0c0d0e0f101112131415161718191a1b1c1d1e1f202122232425262728292a2b2c2d2e2f3031323334353637"],
    "9a8cab7a5f2e576221a6a85e5fddee75678e065324a61db03a39261ddf75e3f4")].
Example repo_blake2sp_256_ok : repo_blake2sp_256 = true. Proof. reflexivity. Qed.

(** test/testvectors/blake2xb_2040.txt, 1 of 1 vectors. *)
Definition repo_blake2xb_2040 := Eval vm_compute in replay (blake2_type 64 BXhash 2040) ((mst 9 128, 5)) [
   ([], ["000102030405060708090a0b0c0d0e0f101112131415161718191a1b1c1d1e1f202122232425262728292a2b2c2d2e2f303132333435363738393a3b3c3d3e3f404142434445464748494a4b4c4d4e4f505152535455565758595a5b5c5d5e5f606162636465666768696a6b6c6d6e6f707172737475767778797a7b7c7d7e7f808182838485868788898a8b8c8d8e8f909192939495969798999a9b9c9d9e9fa0a1a2a3a4a5a6a7a8a9aaabacadaeafb0b1b2b3b4b5b6b7b8b9babbbcbdbebfc0c1c2c3c4c5c6c7c8c9cacbcccdcecfd0d1d2d3d4d5d6d7d8d9dadbdcdddedfe0e1e2e3e4e5e6e7e8e9eaebecedeeeff0f1f2f3f4f5f6f7f8f9fafbfcfdfeff"],
    "65caea398636380c6955c7549491c91157776fa1a6514355837e51fc6bbc35b7bb8b44fe019c1be93ce474e810305e36e5cd445b417001cb2b8bba78af6fdc1c12b83e326a5d323752930c5fe879629d5f5772f872b3db4ddb1cbf43ef3115e344327b3dcba6a7d8c82511c74a70b12b405481e66dbd1b8a7a9cdab1d52bdcde972aba064915ceee02e7901e757d1470fabc32f9ab873508c6e243b956cac2d63aeb32b179f2cfab3cb4c2345dfb6a18c05b97f9e659c0020de22f85b5ceef470a5ad6e8597c8570a85be25d48d60151577f9a4fbe2c09862dd57ff734e156f66fd7107ccfe0e46193d2272ce6d6c0dfc0a81cef52cbd61d2964aea53922bb")].
Example repo_blake2xb_2040_ok : repo_blake2xb_2040 = true. Proof. reflexivity. Qed.

(** test/testvectors/blake2xb_2056.txt, 16 of 257 vectors. *)
Definition repo_blake2xb_2056 := Eval vm_compute in replay (blake2_type 64 BXhash 2056) ((mst 9 128, 5)) [
   ([], [""],
    "525b19b2e19ebc02cee43b41935bf17bcf111f21e285cf76b1b226cafdbf56e96de381651e743992a3addb68bed2c40de14df404e7684d1195857d5f9328cffa5c3d95d5e30160d62d804a681874f0df18e19212c06dcc701b19aa4ae8dcbe8950d8a2c3970489a50949ab10c4a8a10aa5eabaadd88b49ec91ed1a3e0bb937ad7429d955b9be62e62b21ed84851fe7b49710083b3723c06884faaa3d78680ff1d7e9dc9cf590fd5fe10d82ffa2c9612a355af0e2bdd185dc68b4c5cb5eb89f91cd529bb44853446fa7ca751e8315181a6aa115024cea656a4ee65049c2aad484b5a537139ba787610499bcd82e4d617bf52178541f4a677b7625c7069ef082aa62");
   ([], ["00"],
    "1e399d9af8329c6ad9c89ca7d8a6cd7378e22014401d30f0c30f0b04c4016f67425f06c28599b3f5f68e24bc2f7a17a9581993e937fe2e1e236de5ca426e2451621fd11eda3be372916fd81b64aeb480194ef1f7478b54ecce126fe94b6dd3a8d7b0f6fbe8e7e5dd2d1d91c3c8e64e03e2b17cc32278914df0afec80a7b9646791e4a6d6cf520297526058aa047e66bd7d48923a55c20b6d178c09c8b001b2edfeb89f1d9d98db743064dfdb046a3415d4a330eed7b3057c141a9261134e35c59a54a637c92c85c4f4fe6d0b9627042690d34ff058789596ada6f8a823e11633345d04fcf8656b6cd4e71b658c064e2a5d9c46a94ea4f167169e2170fb5d3ddad2");
   ([], ["0001020304050607"],
    "a4432e895669e719063f8f500ff1829e21f0e8794a1919b5e782d4cff45fbf3586ba1b3d46224535696dc02b8d9a3a08f5653d3a65b6b68f35284d754bd7f75a45ccbb91d2737ce89ae32955c5ee2e6cd64a07a7a561b47ed588c18381ca3ff805919d4bd0fa08c472a08f4bc3f8e419694af9a07552eef092ba512f0f0de9b5e689ca0db75fa3bc672a179e7dda5e8b6a0e16870259ea636fcebd32e80e424816ee3fe0b76e3dc8a9f1ce3127cbafb3c506516562397ccead35c2e63cf7ad02d9b11d582775cb0cf4c1973689a8ad4cc0c08ec1b6fb505e1163ec19fe4adb15eaa3d96df170a4120e01276cf925f8085d623a3e422b0ebd93100eb16d68d37779");
   ([], ["000102030405060708090a0b0c0d0e0f101112131415161718191a1b1c1d1e1f202122232425262728292a2b2c2d2e2f30313233343536"],
    "9ae497cb8240a4a4e61d25ce96f082611f2620102a14a77d2d3f7c7df496f27038e2f216dbf8ebfff1406494795d7e3ed3841524d941bdcace396f11296e5d5047f2b75f87710d03018a43cf1b76877f5b58818ac226c8a8bbf92225c8bbc47310e15c568abc2f607e76f0f14a92a1422e29d6265edbabdecaab3c0d043ccec1a1a1d495d17dd940162b12a9eb0911287ff33cc7f82986a4932812ab765b45fd6bba3b4501a37ce0c70bab5cb19b4fa0c9820c2215dbc7ec05d4574c30b0d45cd14fbc9c03486868f1788c71c886006d092f5b2449079365abc4b13d46b8bba6b181ad51959fd012102b27a687711abb18c843e1b9cd2f887d20e223550b29ca15");
   ([], ["000102030405060708090a0b0c0d0e0f101112131415161718191a1b1c1d1e1f202122232425262728292a2b2c2d2e2f3031323334353637"],
    "9969df83fe4c26350c937f91ece9ed51e01e5cb72f4e89f3bc1a7ce2e932622676fd594576960bd5ef5717462aaf0c174185ebd1cff1bac9a33bb2f4f2edd0264f293a49c6f50adde095e1f67679eb5b66abbb47fd163cbf1e33b62488fe5f942534edd77af79a72c215ab2f258c20731ad611a826ef7d2e54ad9d7a8c1703fadf02ac59a277bd277acf5ccfb0ba55ec9f5e93ef64fb49b45dd8400671c5d5034c2ed1ed71465f38d6dea26c1652603787e89914348a8a7efd5e10563d3fa5ebfa89442057f7a7840a0e1161a011e45f9c36a1138b65d469f6f2f577990f3866a9062054afeeb808c7cf80f7591cf341a23721bc65f00c7c608292bbd674ab958f");
   ([], ["000102030405060708090a0b0c0d0e0f101112131415161718191a1b1c1d1e1f202122232425262728292a2b2c2d2e2f303132333435363738393a3b3c3d3e"],
    "ad37757b762bd64f91e94b906644d587993bcccbf35eb1360a0e25bfb449b9c1638c96caaec5a9f7add6ea8bb74ec1ad8462c1dbb6c4ffbc5ca28cee29007fd4366354bf4017cdda98223895d9d49327081712661c62faa0f98e9353131e9a7e8d6e75e52b1ebf08c64fc5ee4cbb59be8f840aea28d59955ee068800e0971380c081fc0265b5f6f572f07a46088d5cb02da04c6dd85a38dc6a5439680ca6dba4432a5033bae0a6abf3618a75e753dae4d10ec17d9b41c0c0105cf097d86caef5d1d83e32969a4a59f5276ce08a59b306be19229ebf3cea8a13e51992ef8158637201e76d011415ed352558858c5b4d302662de0161fc4078e3247614b121dbe791");
   ([], ["000102030405060708090a0b0c0d0e0f101112131415161718191a1b1c1d1e1f202122232425262728292a2b2c2d2e2f303132333435363738393a3b3c3d3e3f"],
    "37467fedf7ca4f514658d07247dfe37e145de28217da8cf9e9cfa0dff2d1c838fa527ce18062e62a35ce8be37246a9f5943aac42653fa7704784b8db9e653d832287f6920045404550193ce3431c25505cf4d15ec5e9092fbde6238859af7a2e7852cb8b36814efe771b906c6c4959f90aad979cbe0a637dd5ec25e774351b415b65219a042ba36f1f063f3e9257297d8a21432f6960f4105571c8bfd5fe3c9a2e41e4cfb21f0ad3f8becc42e4465cbda6461fe55f2c94a8a8ccba49edebbbc81b072ae473f22ef694ec03863bca9187659f0b91c51e4118710c822de232a58dfbf11da54dde5daebfe21a43265ee34bc093b1af8d8f2aa9504f8eff226abcd3cb");
   ([], ["000102030405060708090a0b0c0d0e0f101112131415161718191a1b1c1d1e1f202122232425262728292a2b2c2d2e2f303132333435363738393a3b3c3d3e3f40"],
    "4b5805eb6b309798324e07f5662b492c9ab6fc248457f208f91f3547d9faf8cf16ab2f7e20684bce90192a53e5b93c0ee62829efc0e3596382e9c9f9d1b11c737e7293d58ff7f5e0b9c3f6f447e9a4b694277856dfe6762047c383a65c50536f15a7aa55785c04d9617ab22294d7fd54882075311df4ccfdd4c7ab5df2adafbdddfc950231934fb4911efd7b612c0bfb37ec05ceb5e7928f1878b1a2901ef9173503ae3935d32439dbe35da950eadf9b13e784e35c46ca4d326c7d249e419fe695c822c5627327748811148b24d0f9d2304dd8bebeb99579fb8adba39fe3541c0ae2cef68749de0d15b46a63b1d566aa2c06fb0ef3563814602345149de308f16d");
   ([], ["000102030405060708090a0b0c0d0e0f101112131415161718191a1b1c1d1e1f202122232425262728292a2b2c2d2e2f303132333435363738393a3b3c3d3e3f404142434445464748494a4b4c4d4e4f505152535455565758595a5b5c5d5e5f606162636465666768696a6b6c6d6e"],
    "4b9e6cc9d1bff8b768cb00f110c226dd91a7ab7ea3071382c98843b17a9df098cd833438ecf4cf2f3f1dfd780cc6818bb0ac2e2540d09cad8d33fe2d68c9001e20f9142c85f18d416d84597d0d80c8adcd22c26519da30a4abc501981af30e0509054079ae34b013fb5d0c40c217bb41984ac7722dce053559639b57d2c3f6fbc68777bf2edf53f3f2a155545fd01a363d07ee23b4c720bc40854648e86d5f7d9e9ed8b8b69530fe48b8d6ad3fd2682ba2ed95e604b5a23952c777b26a684b8aed14ce84672e51330d489354c5bf9502cee4b9a2e5d709a7d24e79a02ae34b902c94a9f919bc2644bf2e5723d6d5c8db6b06426ea0d546093c70b8f5cefd080137");
   ([], ["000102030405060708090a0b0c0d0e0f101112131415161718191a1b1c1d1e1f202122232425262728292a2b2c2d2e2f303132333435363738393a3b3c3d3e3f404142434445464748494a4b4c4d4e4f505152535455565758595a5b5c5d5e5f606162636465666768696a6b6c6d6e6f"],
    "985845f46b866dfd4800d1a05a4e31d1d1888f612e78eb3c87f79ecb754082d5022825821d4d757fc2e5fe72b44b2fdf1732f34d0b374ccd2c4f08e6a6b10731ce90d1d48f777fe1fcb2354686d9eb64c9f90cb097fc9c1682284f412ce55bf02fba6dceb505ad4a3f37a5befccc829fab9510fc11b8e119ce21415f23d995af8b56c60664daf50cf85a58ec9cd9a6d89b67c55fa6c2931b4ebcacec15e5062422cb06cd609e280a184c1f3c9ec386506fdf826ab795473bc295e376959da3b70cdebbd88cf64e1eaaae728490c734942e8404c1255b67cbc582ae0726c88749a7772e041c962c06ff6f3878f50b68f327e2050db1dbe949536e0e34ded541c5b3");
   ([], ["000102030405060708090a0b0c0d0e0f101112131415161718191a1b1c1d1e1f202122232425262728292a2b2c2d2e2f303132333435363738393a3b3c3d3e3f404142434445464748494a4b4c4d4e4f505152535455565758595a5b5c5d5e5f606162636465666768696a6b6c6d6e6f707172737475767778797a7b7c7d7e"],
    "a63a411d755bde3d6fa0715a6370e9ea3ea03f4f3b4d4bd22128964c713fdc3e13af0be39c268894b8927286137dc3e3538603a2092e6232193f5797e6a93cef76c9c46c8c9353a44e11b3569bfacb771c8afcf93b4fc4788d0ff8c035c1b2991b7598d379854c86c1e1c8d7fae99562df962f1a818b669201ff1c9469ea2fe29de4d35c4822cb89687279a219209046893e16950d898b1bee577482445c865097875a1b449051e52c013acfe8a6ef9e7d91cd0868405dbb1942d064532b746856ebc87bb1bfe7548ea40dffe894b8e7e04708dffc0fa91bf163d44ccdd4a116f74adc48694d892aca3dc5f23c10a091bed88ab7040e04edbc0f4488f33dfdc8b2");
   ([], ["000102030405060708090a0b0c0d0e0f101112131415161718191a1b1c1d1e1f202122232425262728292a2b2c2d2e2f303132333435363738393a3b3c3d3e3f404142434445464748494a4b4c4d4e4f505152535455565758595a5b5c5d5e5f606162636465666768696a6b6c6d6e6f707172737475767778797a7b7c7d7e7f"],
    "36d0d492d9cf8e57f78d873bca3d9694f78f09c017beaecd807d9987e9cb6efe87920af81f33039cb168ff5977cd80cfef088282161509be65f3a372daf178fa3767b106b801aef53caeca7c94b77d03ef3121d62e713afb2497285c81b10f8e4cb8968a60ed15c6d58514efaf0246e0744eae11a459dda938074f2eefc15a09162093af82d9a20d6d0e8173ccfac6fd4088ff615d64cca27023141d3f4aa1a56c1c86599156aa681189cc6195e76c8f45f84cd1766ab84afea7889148924117b046ac73a3799d01b27ca551766ee381632afe34f5dc60defa64f48832c095ff00b642711f7be6b4a61ca1ea9bae9bb4f24087821365c70c023bfbed06476184e2");
   ([], ["000102030405060708090a0b0c0d0e0f101112131415161718191a1b1c1d1e1f202122232425262728292a2b2c2d2e2f303132333435363738393a3b3c3d3e3f404142434445464748494a4b4c4d4e4f505152535455565758595a5b5c5d5e5f606162636465666768696a6b6c6d6e6f707172737475767778797a7b7c7d7e7f80"],
    "43e2acba0ff80219bb0e776830f1893c22adac8c813c8637b3cc2db97a3d88c9c8ba3e6057092715944d241949ecbebcfc22d35365de0880a9378adc08f205b4ddd6d9465bcc8e7cc310b9164db4a7e64b82f4933318c6cdb2b70df528c775672574d18ba20af312d2118bb98ae6144f6309ee322c0ef61ecd51dae8ff849f0d2bc6155ca143d59cf8dd567f884b1ad7244b0bace129ba96b290776146313f5ce0c4f9e9d66e6886824fd21b4b396ab37c305c7f4fe9ace625ca21c87063f602c6c63ef668bc0fad921933870804663a7acf07d84f553893c638d3e386b70899943cd4aa34db7efbb67c630ecae2834b5cf2c18c8c3aaabf93fd49c0934a30d872");
   ([], ["000102030405060708090a0b0c0d0e0f101112131415161718191a1b1c1d1e1f202122232425262728292a2b2c2d2e2f303132333435363738393a3b3c3d3e3f404142434445464748494a4b4c4d4e4f505152535455565758595a5b5c5d5e5f606162636465666768696a6b6c6d6e6f707172737475767778797a7b7c7d7e7f80818283848586"],
    "2ac036e048e0fb68470961af7241d145bfbc8b31df41e3b88e75b4b282ba1e9ebec06a297f7a3138930d008c7a8a0099442c1507a77ed6b28d0077c92fe8bffaf5f34341866460a8fc1b15cd67a954ec78678842a4f3e53ce7166702e8930de0f1e2eeff53433e3aa49d8c65e7438dc93be4da2c5fe63d8ff416246000f51f630d5bf6310ae6293206d4eb4e9e48158dc383978e5c7b87141cda73ca7e809874b9bf35736b3223eed91e0bffc78a403033ec057cd93ac3dcbf4d29fe2a75f2528102b9eab9db5faaf85a3f350acf86218325bbe57a62dc35c154e83cb1a642201b4c65b00a6d3913c180ced725a5bd545257b757d3f6fd191673fae60ffb1e0049");
   ([], ["000102030405060708090a0b0c0d0e0f101112131415161718191a1b1c1d1e1f202122232425262728292a2b2c2d2e2f303132333435363738393a3b3c3d3e3f404142434445464748494a4b4c4d4e4f505152535455565758595a5b5c5d5e5f606162636465666768696a6b6c6d6e6f707172737475767778797a7b7c7d7e7f8081828384858687"],
    "12fdb2b633ff4bbfb6b64c1dbf81ef8b3e94596d94df7e67b4e00143ade61cfed445bd460825e7128e022a4bdbea04dafef2aabd273f70cf7b2b308e216b198eca0d9fe3012ccfaa00de9096b9b3f7f5b29c2edb75411176cb282f5702abd81415bcf2e5c0e89e242b401dc6b5788334c87f46c3fcc4bc862f0b324f8bb4caf802c232fb54de6c80012e7a2e3a1fae16b24a57ac938cebb77ad2a131bc357ee6bb0c4f850fb13be5620cefd4030db971d271b8db37b80240af84eac320d1b68b418577c375200caf97b4f085b76ef935d51e64eb09e902449fca7faf9ab97d6374d474f73b1b66f132d85b03e196d27e83598ef2ac2e5a033ec5ce7e635b6a7d7a");
   ([], ["000102030405060708090a0b0c0d0e0f101112131415161718191a1b1c1d1e1f202122232425262728292a2b2c2d2e2f303132333435363738393a3b3c3d3e3f404142434445464748494a4b4c4d4e4f505152535455565758595a5b5c5d5e5f606162636465666768696a6b6c6d6e6f707172737475767778797a7b7c7d7e7f808182838485868788898a8b8c8d8e8f"],
    "526725af551863419c89e8114d290205ea2cabc5f61b2d61625525cd339cad2ff2d5d3c311624b0d5d845484dbd4e913ce6eee9cc0c39d396ce22084ce3dfdb3ffed0840aab9d8f7cac602fc731e5f7079e20d3b66a06ec833b9ef94887e4687d546daece991a25ac4b7fa42c28a65d2ad2c3f87f8c871fb4e1065959adcf8fd64eeb08d55975afb717b75f0bf2b1c2ed0bc76490d88e59304bd485e3d8c390b8348158982218355951638ba9503e79de873e493f819eafe9b7dd9ecfd87d554354bd612b2702aad1d3a30b58a5d7f6f7f9d3f5b66baf535459025e6bd76f1c7fba4fcf1c081f28defba795fa5fe999b5de09c5426a15f04f1c28db517a45cb727")].
Example repo_blake2xb_2056_ok : repo_blake2xb_2056 = true. Proof. reflexivity. Qed.

(** test/testvectors/blake2xb_2056param.txt, 16 of 257 vectors. *)
Definition repo_blake2xb_2056param := Eval vm_compute in replay (blake2_type 64 BXhash 2056) ((mst 9 128, 5)) [
   ([(B2Salt, "000102030405060708090a0b0c0d0e0f"); (B2Pers, "0a0b0c0d0e0f10111213141516171819")], [""],
    "9bf1acd21d851da4f682bae40f5a0b992a4d9be5220b960a614dbd091b79d4dae79c49184bf768f38fdeddff3eddf7d0b03ee6a8882d2596cea0ade201194c8a7443edb391a77af61dd527e45176d09d08ae92c4ceec45dc45d573d3d038142f3e2fe2bd55a4596517ffa84333422495e3bb89ca0f264bff0178fa65559070774a0d924f8c6b7116e7aa27a5854fa5a6d0b7942869089d5de3e445ae2d4c7c6958051ee9c5c1bad67fbd357668bcd68deedeb550e41d338a52d4142afd4bdabaf1603d9d5b8eb7fb3318175f6a3271dec6998dcfaf0bbbaec357daa8b195c19a8d908d021b1b321bc19d6ac011e42d46aff793fd67a80868170f6774be9c57f0a1");
   ([], ["00"],
    "9551ac66689f93af9499f179e72ef69eddb2533b05a0e91dfe30b0f36d2282a97d1103acda46cb4680ee13dad952f8fc267a75fd3bad27bb06ddd0cd926ada9a73a983458c76564820ed4c60fda23c9049755004d9d61e86f1b80915fcb4916a1db594d229e82d0661cb9bc2bc2c7d802feb13ad1d160336156c3f62970abcc5efc10326340848b645c86a8a5d4edee5ec16dc023845655f5b34f5fdb7bb7ea4d71ed4a2e124002faf81891a83547e77fc2ee9ec760722c34e6c4df8732b6e4c43abce370340df6ab9475fea03fb6997cd785cb458997cc04cbb6bd373a3d18c6178538400c92598be6e20535987658f3362f10abc43823d98e3616623ace0268c");
   ([], ["0001020304050607"],
    "b2940b8ccaee2de1e360912af591d35845fe6b0666486716c9d0b692871087c5aef7d89aad9412f76150dcb38759f96b1d5d5821df5adf50793cc4b70641f7a3f493aed29bf17d3c01f757dd2e1400a966f46ca0af50e54a1687c89aea516a0b80239314862707a6a097818daa0a585a358c09f5d357eec4af57f3cf7d71877b1d9ac97e9ba3e3a6838a304565caa84087b602336a46e86340a653f5522b2285655f9bddaacc2e30eff639cedd7b46aed7ab8ac95830b4f8b22d4586ce6e5e1b925dad9853e8ceb3e78c8a444222ccc85b9b265b868aa96c6647c4fa00b95151925dcacf92e047b39e3758c04cc8286c68c6ef93aecab1683b23a89bae086eac35");
   ([], ["000102030405060708090a0b0c0d0e0f101112131415161718191a1b1c1d1e1f202122232425262728292a2b2c2d2e2f30313233343536"],
    "6ba74d5725d3f9cd399ae388065fe049cc9e18b95fad8808eb89583804263e2f2ad7f6a48c2b46e540fb37c145e0bce91e3ecb6bf229cb2cd27d1b9678c2c328bc693509eaebab65ee88d193f06e1b1b28a29587f89bf285eb838d82ee5c0dcba63af744545cb52d9b30e19cbca7a2c9c8a55cada0460ddf49c385d9145af6894804bc7a182d39bfdc909919ac639dbdc1053985b68bfe70c478a0fa7e447c2d4e04c4d09e853d9194cd7678ed86fa0e2e5208ae53cb0e6b50d52ebeaa5931291c86867e742e200ed6c81a635602d4d20da46f01fa7a0da19a1d5fc702ee6e7c57ed278dea7a1a8d7dce433b491bc1f1834ef850c800594800b3521d091fd0b2ad");
   ([], ["000102030405060708090a0b0c0d0e0f101112131415161718191a1b1c1d1e1f202122232425262728292a2b2c2d2e2f3031323334353637"],
    "80d7bf397209b28993cd6e3239c73ac44ccb066b5863ce72c03b1c09afa13370981f374e823a1001a24876da4b2baba5a8dbfbfec83c73d3ed3e0ef4d41b87f55a73948bba494b732d6f7de4b64fd2b10f715ff8a1bd69b6ffb6c2437fadad308e5bd1b0e1c9bda8df3f91684d2aff886d3f0d1c90340b5117f26eeb417b2aa4581365535d02f484f981eb6299ff21a351f3b5d2f0ff48a9a3f54366a89ee67171c81f3b988ffb34be5fe8157921a6518f46a69034c33c7aafd0a1a3381b991c86d87180c8bbc88dbaee0645c149023415931f255d3c0a8ef97e5f30c1f8fef34cb26db4b0f73ca23ca74ecfcd36f5d50935dc8d8c86af9f651983ea08501921c7");
   ([], ["000102030405060708090a0b0c0d0e0f101112131415161718191a1b1c1d1e1f202122232425262728292a2b2c2d2e2f303132333435363738393a3b3c3d3e"],
    "86cac173c4579662bafa136c565050e159e69613641ee1803fdac729e016a5b38b2812e511fca94a0130a6e1d9c0f04f781f846c3f7afb88ac0836a820a2cb13f8918cd717c6bcbc438b2765ac0c64f40c9efb43db061cfabb39d6b79f22b0eb89e1bac183c20845a828c3d782649954a14f1ecc5c91610043462eab0c6ce76f25eb70560206f24475ced89ac279028e43c56f86602cf9be6a9df96d316be8757628f6f670e19e73974926ff928825650d21f6c1ef370147b079765d3316942e11d462eaaa95c7160667ecfada92a65ae7406b270dc6fea377c5440a4c8464d38d4b5d24dc472d198d2fe6368fa85f650eeebf27e9f82999363f3d5218d96c8e74");
   ([], ["000102030405060708090a0b0c0d0e0f101112131415161718191a1b1c1d1e1f202122232425262728292a2b2c2d2e2f303132333435363738393a3b3c3d3e3f"],
    "47b260542f5cdc603e48fee677a8b9554b9e9698eb4ac879651e5a5504f1585af8e24e8e8c6a3f16e2879cc60832d9c870853bb5ac6e6d6b2b674085d68a096eb35d0ddfa1c3c6355f7c274acb1814f97c0c60375d639f6fd1f3713a8b2ba4262e797af722b258221227a18cf60261209d2fa1a9308df1ee19d29a73022614b188bdce910c8ade148c7f6ca7bddde160aa6c5afeab52f1807df4956ee95afb90b20ef38c00f9635a4178493330190fab1cb232bd1cb26fb6686ecc84a0d08669f34970bb625a87cc43d1b6af78b34776463674efe25ca5e98ab9cb77d4015f060319690eea3a81b32df7ceb6e83094dcc96a9cf09b76168733f522497438cab79b");
   ([], ["000102030405060708090a0b0c0d0e0f101112131415161718191a1b1c1d1e1f202122232425262728292a2b2c2d2e2f303132333435363738393a3b3c3d3e3f40"],
    "4eb45cb8a513121fe252dac59508866a999f16abe210100fd4bec36c7c1405bf81d0e1b1ab4ac97d7b2750d80ae9ecd742b6ce8331be12a3488aafd324721dbb6fad6af02a70d9c30b75bc5a59320657c3ea4d398dcf7d6ec788d98631a8977dc02705f336c82080b3f5bf97963ff8b644becee688fb181a23d6f48311c53d1fd7d1cda5ddb0a13c6f8a8dd7007bed09d4fadffb0098009bb5ab3b0cb4a5c00e4788beefc6de37183faee36d910be176ccdef0c048a401405e2951098d8d01b3e21b060a1f9998d3b9f13fbd38c9af138d5e73289b032d643d528bb97c655e847fb11dd3982474735dac97a1c3f6a7f54f28448162fc9c3a9ed6173609ed47c6c7");
   ([], ["000102030405060708090a0b0c0d0e0f101112131415161718191a1b1c1d1e1f202122232425262728292a2b2c2d2e2f303132333435363738393a3b3c3d3e3f404142434445464748494a4b4c4d4e4f505152535455565758595a5b5c5d5e5f606162636465666768696a6b6c6d6e"],
    "dc7d3d27ea2f3fa437781b8579245a6bca62fef20e046224ab6e7c5f8bdfc195fe3f260b7205ddb9b891dcc686668e422e0fac6b908b26c612018851c99c68e8d4e80085ca109a116115e9423333ddfb1c34c8b8277043f949a96b292cb0c3eff5ab01ed21f7cf21341498d60f2f5a933d1fb908e1f332da99ae9058ff4d46bbca9d30dc60ffdc6ef5e54f3e1a60a0388157b4cd46e415224193c27f726694f40d78d320e84f36b812fcdc47ceb859bc89ab5f72435c4a56e7288419629607daef2d7ca39cf78cd1905510e27b82fc70164cf09f445e4a71e6543d7fe3e785dc7a11e77a292803640a0a6c09de0ce0b7c705b689817e22ca01a7783179c10ea5a6");
   ([], ["000102030405060708090a0b0c0d0e0f101112131415161718191a1b1c1d1e1f202122232425262728292a2b2c2d2e2f303132333435363738393a3b3c3d3e3f404142434445464748494a4b4c4d4e4f505152535455565758595a5b5c5d5e5f606162636465666768696a6b6c6d6e6f"],
    "30b1fb5026a24cff1a73ad98d9f87849d0715af9ec43bcd65b17646b61722f1e82b5b157e0a2b9ab7a83e0c9c3e67d27ac82db031b0aa68dfff0e53b6accce95b7bf9b27ed53786dc1b1afdc071b1f1aaf89e07ed9b72a5a33fb34df7d3ffef9fdc398d7015cd92d7193095eb8f24b074939dd21938369f5d628bcd3416f3fffce704a8970ca1a47c3e95b7619ca7a9f4b9a4790cf03f78db78715e160d4c03759688a1eb8d24eb8d91a1c783fd2d456d58c856199524d53338457b628fa11f135daf1dffa906cee15e997ea953c9a3943b9a8df06fb2b03d37ad4153ec73e2da0e29e5ee45ec38e5f85efdb0e20bb6fb906f7a09b05d9d63f0a3d989c35932278");
   ([], ["000102030405060708090a0b0c0d0e0f101112131415161718191a1b1c1d1e1f202122232425262728292a2b2c2d2e2f303132333435363738393a3b3c3d3e3f404142434445464748494a4b4c4d4e4f505152535455565758595a5b5c5d5e5f606162636465666768696a6b6c6d6e6f707172737475767778797a7b7c7d7e"],
    "270667478c1e23be0b1005fb124b4628e36803694fb6efa8e2a0dbef4cbdd4dffd7743e713a47c5dcb7b661bf80310558d8c08270e6342c2534e3c5a9a80ed29fd83b87335357231b0bca87810c99feb29bff3b93bafcf76d5cef10bd0d2ede8e36a253b16bd6aa4e61933ac357048ec9540220f1277985b2720370edf7276d824f7f853859226b00e75a2a0772ed51fbb8346fe36e2ab883a7cd145f0795558f89d28fac8429d5226db1f6bb21f0344ead9c7dfe232d8df8e80d6476f241f65194ed436f971b3dc7207f73a40dc5c3b3508e466970298b00922ed55eadd9f8844b503f6ceaec94d33d5dbf1ae6fee69288ba8fbb7225d3733b5c0a65f48c6d1a1");
   ([], ["000102030405060708090a0b0c0d0e0f101112131415161718191a1b1c1d1e1f202122232425262728292a2b2c2d2e2f303132333435363738393a3b3c3d3e3f404142434445464748494a4b4c4d4e4f505152535455565758595a5b5c5d5e5f606162636465666768696a6b6c6d6e6f707172737475767778797a7b7c7d7e7f"],
    "d900d44e81653bbbb1a27ab943292364cd0a8d3bba2db1919ab89fae3af813a76ef87fd4ffc38609d1c811b75ea7570271b8df080e012f00e006179902f1f309862691a2b15ff764e599824c5442d72a53cb587b46fd1cefac133999d75cab8334bf7ad4009ff2bdfc25c0d2770ff1578cc74f920cf8abaef054f67c7d20c8ed57f4b193b692115ef0efc28b416cae4873e357639dd934cfc3e333ce7df2848e4961fda5bba264613274b3b0c9cc88a97494c86f5c8edddd32fb367baab7461ee3ea997248b3c706bf22c57a09a5b2635fd2022a6c542668e6a232b16bc2dcef4db69ad1e8fb97b08a42944b3566292849be5c0d0956db6f458f7f57102eec7dfc");
   ([], ["000102030405060708090a0b0c0d0e0f101112131415161718191a1b1c1d1e1f202122232425262728292a2b2c2d2e2f303132333435363738393a3b3c3d3e3f404142434445464748494a4b4c4d4e4f505152535455565758595a5b5c5d5e5f606162636465666768696a6b6c6d6e6f707172737475767778797a7b7c7d7e7f80"],
    "8151dae02464438b1ff3c7f3c181587af78d3ddc1612eb6fc25f6c3df89bbd1ee1249a9750973356544cca0efe975bcbe578eb5dc645f14147736d3cec25a6d6e649d1bba179025a2cec7d5d974c0534d0f6e20acbd0e0ef7fbc4d9894cfe565eb46db9bc2e9a47c7d0fc5e90309b0b0bbec4a93435093b0d8693fbdb44703c5498310a7f0882c7fce81b8e9c66d116c63de1718cf8c8c5aec93ba50e5fc7e032b0b00c273b588f43534fd570377e29fcb9a7fcf955181c4fb53828aac509b2a55131d08e4c6276fb4f09d895d2459a3b03a27ccf45b8ccd1cf413b58a16bd596774c2c01cb3e05af13808607f52788c9f8f93044dd28d35de2deb3d7280b634a8");
   ([], ["000102030405060708090a0b0c0d0e0f101112131415161718191a1b1c1d1e1f202122232425262728292a2b2c2d2e2f303132333435363738393a3b3c3d3e3f404142434445464748494a4b4c4d4e4f505152535455565758595a5b5c5d5e5f606162636465666768696a6b6c6d6e6f707172737475767778797a7b7c7d7e7f80818283848586"],
    "af6ea729af84b93e6bc24abae91d7a2fa37b43de14ddbf648c337d741bdcfb2533b063220be842884f7746f56e462eb5cd2acd25cdcfb0f12f9511f97b287d337a1e5cc4c7c982f1d43da0c7263d02f592ce1cd3e72cac309ecef03f4fdd7cbf4db88c1eee20c7502839ba1e3f97fa636e77ad45c79314574f2a5bb80d758005f8b6012d8bf20929c2b371b46fb99c3b3a80574c5cc2eeccf225c10848a7279126d8b95fefe3697473be5a0b5c16af4f88ef98aa7cbe8fd4f77af70ea4557a87d8445b3b783e12a5e93d4dfc7c2a26ec906f65a1958297bd5a21ee6f338e050c10963574005baca41c60d4794371c6d0afe066850801010668c0f61f259e8af02b");
   ([], ["000102030405060708090a0b0c0d0e0f101112131415161718191a1b1c1d1e1f202122232425262728292a2b2c2d2e2f303132333435363738393a3b3c3d3e3f404142434445464748494a4b4c4d4e4f505152535455565758595a5b5c5d5e5f606162636465666768696a6b6c6d6e6f707172737475767778797a7b7c7d7e7f8081828384858687"],
    "697ac106ec351f577b14bcf1cc39408c21936faa1d1c425acda57fd48c8c25d1782116740ae123d8b17d9fc7c5a375329fadfa4f79a931c2d6f0d97affbff493fdd52bcd398f2fc6440da7a01118e76b970dd69c077293954af03aefc248a161966e02d9947527da616cd3c3cbb23a2b6d8000fc4471516883df409cab2b398384da0b71eb90fd595e24a59213bdc2de65c92738605364e70e8ce8b02ee4f268e91c90246ade2cf15dbeeeeabdcfa2e1348ea7afd6a3b14e80274a51567da095f821329220f6f4a2f738db51d297c9d263c2070650073267c560617184cae99d19c41e5b91727112c2fff4dde9acc562323b901284dd378ffe9e4f1e0b7a5425a0");
   ([], ["000102030405060708090a0b0c0d0e0f101112131415161718191a1b1c1d1e1f202122232425262728292a2b2c2d2e2f303132333435363738393a3b3c3d3e3f404142434445464748494a4b4c4d4e4f505152535455565758595a5b5c5d5e5f606162636465666768696a6b6c6d6e6f707172737475767778797a7b7c7d7e7f808182838485868788898a8b8c8d8e8f"],
    "e67baf9b8387a51c3349f0515c369e486794f068a6513edd13322d1cc2ef9b523e1ba0ed40def4229eae676382833bf9a3d891fbd0b2d48cdaa8cb10a0ce3a5d34f1e0776a7878f973bf97cd12f25a1111197ba3f032d08676592eb2d8ed2e0735b2c0058f38d1c6a16dfded7dabfcba3e5ddbb8a69f50e9ad8e3d23cad3640bdc27ec5d227e73cfba767d788aa121abbf4e9cd3d363b230e13dea35902fa24caad199d4c347adbf0f2a0dbcc766ec986507c1a672cd919faee3050ef3acbc0947b1dda89a52f981ab491694b1e305f69af3fbdfae9fded6a3c69e435286a645fa8df220a5d6a6458f7a93de0f52624b45e4000d3740b1cc9e78c7a36a1aab071b")].
Example repo_blake2xb_2056param_ok : repo_blake2xb_2056param = true. Proof. reflexivity. Qed.

(** test/testvectors/blake2xb_256.txt, 16 of 257 vectors. *)
Definition repo_blake2xb_256 := Eval vm_compute in replay (blake2_type 64 BXhash 256) ((mst 9 128, 5)) [
   ([], [""],
    "1632e145f2e19726b6a9ef54bda8f2493d1147c00ab5b749572f27073e84ed07");
   ([], ["00"],
    "fe0a258cd10c350c5c3e2625dbfa44c7e03a7ac2326dbdfed80b86dfac9a662f");
   ([], ["0001020304050607"],
    "9941f9bef164e9de5358581cbfdde299caf14ea53e9aa6fec2973991353daacd");
   ([], ["000102030405060708090a0b0c0d0e0f101112131415161718191a1b1c1d1e1f202122232425262728292a2b2c2d2e2f30313233343536"],
    "492b520492ea42a6f98a072c4b716e5197d0eccfdebbfc6b4c30a7667b1f442e");
   ([], ["000102030405060708090a0b0c0d0e0f101112131415161718191a1b1c1d1e1f202122232425262728292a2b2c2d2e2f3031323334353637"],
    "9c37e46ee360a7f97fe181e8e609e750af4471ce9b1cdf65970677503092981a");
   ([], ["000102030405060708090a0b0c0d0e0f101112131415161718191a1b1c1d1e1f202122232425262728292a2b2c2d2e2f303132333435363738393a3b3c3d3e"],
    "14848c709685f0149b3524a65ce4332a095abb52d3f6af662f2422c53bac8507");
   ([], ["000102030405060708090a0b0c0d0e0f101112131415161718191a1b1c1d1e1f202122232425262728292a2b2c2d2e2f303132333435363738393a3b3c3d3e3f"],
    "71208512f0beb12c101b16ef978d18eb1ff0956e8a69be109587c75fe0738db8");
   ([], ["000102030405060708090a0b0c0d0e0f101112131415161718191a1b1c1d1e1f202122232425262728292a2b2c2d2e2f303132333435363738393a3b3c3d3e3f40"],
    "2a90b3dff3eb30caa34d4d51d99c7c4e46572b45e0287f31cb7fde432c675e26");
   ([], ["000102030405060708090a0b0c0d0e0f101112131415161718191a1b1c1d1e1f202122232425262728292a2b2c2d2e2f303132333435363738393a3b3c3d3e3f404142434445464748494a4b4c4d4e4f505152535455565758595a5b5c5d5e5f606162636465666768696a6b6c6d6e"],
    "a7c3a0aba978f083db4d3485af1eb98739f0811e18210fc037444ba005149510");
   ([], ["000102030405060708090a0b0c0d0e0f101112131415161718191a1b1c1d1e1f202122232425262728292a2b2c2d2e2f303132333435363738393a3b3c3d3e3f404142434445464748494a4b4c4d4e4f505152535455565758595a5b5c5d5e5f606162636465666768696a6b6c6d6e6f"],
    "44095e0dafe82326a2ed8e2dfc0a4456b521d5f6ee34f2aefeb5c4ba0e65c3dc");
   ([], ["000102030405060708090a0b0c0d0e0f101112131415161718191a1b1c1d1e1f202122232425262728292a2b2c2d2e2f303132333435363738393a3b3c3d3e3f404142434445464748494a4b4c4d4e4f505152535455565758595a5b5c5d5e5f606162636465666768696a6b6c6d6e6f707172737475767778797a7b7c7d7e"],
    "7422b1587ea6a0a7f2ae5a473fbd462bc6fddcac5d63e1f2cd2bff51bb437c1d");
   ([], ["000102030405060708090a0b0c0d0e0f101112131415161718191a1b1c1d1e1f202122232425262728292a2b2c2d2e2f303132333435363738393a3b3c3d3e3f404142434445464748494a4b4c4d4e4f505152535455565758595a5b5c5d5e5f606162636465666768696a6b6c6d6e6f707172737475767778797a7b7c7d7e7f"],
    "a72567a6169ba7abf21ce738c896d51d2e5bd2f0cf92b7f201293e7188156d0c");
   ([], ["000102030405060708090a0b0c0d0e0f101112131415161718191a1b1c1d1e1f202122232425262728292a2b2c2d2e2f303132333435363738393a3b3c3d3e3f404142434445464748494a4b4c4d4e4f505152535455565758595a5b5c5d5e5f606162636465666768696a6b6c6d6e6f707172737475767778797a7b7c7d7e7f80"],
    "c0ae18c8034f56702260d40605392ed1ba830e9a539d424cebc04edd25f1c415");
   ([], ["000102030405060708090a0b0c0d0e0f101112131415161718191a1b1c1d1e1f202122232425262728292a2b2c2d2e2f303132333435363738393a3b3c3d3e3f404142434445464748494a4b4c4d4e4f505152535455565758595a5b5c5d5e5f606162636465666768696a6b6c6d6e6f707172737475767778797a7b7c7d7e7f80818283848586"],
    "16df3003962b07ecee5c7780c4798452ca39ea2d3ca027706a0e4afc9144cef0");
   ([], ["000102030405060708090a0b0c0d0e0f101112131415161718191a1b1c1d1e1f202122232425262728292a2b2c2d2e2f303132333435363738393a3b3c3d3e3f404142434445464748494a4b4c4d4e4f505152535455565758595a5b5c5d5e5f606162636465666768696a6b6c6d6e6f707172737475767778797a7b7c7d7e7f8081828384858687"],
    "0490e8454f0cd6d1f0d2d684f600eb51ff6cb13b368df03f9c5300d21337bb7b");
   ([], ["000102030405060708090a0b0c0d0e0f101112131415161718191a1b1c1d1e1f202122232425262728292a2b2c2d2e2f303132333435363738393a3b3c3d3e3f404142434445464748494a4b4c4d4e4f505152535455565758595a5b5c5d5e5f606162636465666768696a6b6c6d6e6f707172737475767778797a7b7c7d7e7f808182838485868788898a8b8c8d8e8f"],
    "c9547a8f3877cd07ac75afa3d3cb91d798e740946fe87332a5b0a2f7bcd90937")].
Example repo_blake2xb_256_ok : repo_blake2xb_256 = true. Proof. reflexivity. Qed.

(** test/testvectors/blake2xb_512.txt, 16 of 257 vectors. *)
Definition repo_blake2xb_512 := Eval vm_compute in replay (blake2_type 64 BXhash 512) ((mst 9 128, 5)) [
   ([], [""],
    "c5ef3d8845b9b2ba8ea28e9326c9e46e7a5843ad42bacaf927798beaf554a43ca0830ccf8bb4a24ce1b1d82bd2da971afb2be73919cc5fff8e7c6a20f87284fa");
   ([], ["00"],
    "9553c5788aad1c5ec418c9a0eea0018b30604a8c56960616b400e72e538268614766a3c5ab758fb906f3d3a163b636e99ad27d57bad31997cb2a02918db2a096");
   ([], ["0001020304050607"],
    "fe593d04a8cfa9644d11bba897c9d42f7a52161ca2be62b97b20d92af7452a0631599598fd852897e9fe9a31b2003cd52e141841a639385f1b4116023dede5ca");
   ([], ["000102030405060708090a0b0c0d0e0f101112131415161718191a1b1c1d1e1f202122232425262728292a2b2c2d2e2f30313233343536"],
    "12c42cec03271318efd57f2f57be8b19e39f96193e515fc8a2705ac0a8a8cfc849b2d1ee098f871da932844d8eda53e764e6300dfd0f99e02e4105af0150c0bd");
   ([], ["000102030405060708090a0b0c0d0e0f101112131415161718191a1b1c1d1e1f202122232425262728292a2b2c2d2e2f3031323334353637"],
    "6f0c8778da11ec2ea4947cb07d13b6f45c3ffac98808b47174f0cc047b325955ae6d0d4c3528d5f7b5a4656974d3b63bf1ae61b6382b2c0ce37e223dc8bd0f2f");
   ([], ["000102030405060708090a0b0c0d0e0f101112131415161718191a1b1c1d1e1f202122232425262728292a2b2c2d2e2f303132333435363738393a3b3c3d3e"],
    "cd5465e4c17b9d6b878fcd02d2c8ca8fc4fc76385e62a6d3b74b0662fcf3b599d72295aa582809232d750c4e8d3227b444a5e06a5a6bd05db94fd5e159949ebd");
   ([], ["000102030405060708090a0b0c0d0e0f101112131415161718191a1b1c1d1e1f202122232425262728292a2b2c2d2e2f303132333435363738393a3b3c3d3e3f"],
    "1f4e589ca7a53bf964afbb34d3d4f13198285cc798b6bd3bdb90a6f5178a26a52b6b3ef2d1354e71ad796c71d8efb159860d12db9ad79b7c18ae3c2757830f86");
   ([], ["000102030405060708090a0b0c0d0e0f101112131415161718191a1b1c1d1e1f202122232425262728292a2b2c2d2e2f303132333435363738393a3b3c3d3e3f40"],
    "aa0d5a99a46b51f4aa038e2e5f2315bf8cc2512b20ed4f7f0772087fe562dd428fb72456c50afa22434f7aebaad29630dae82fabaf494a1c5d844752a549fb37");
   ([], ["000102030405060708090a0b0c0d0e0f101112131415161718191a1b1c1d1e1f202122232425262728292a2b2c2d2e2f303132333435363738393a3b3c3d3e3f404142434445464748494a4b4c4d4e4f505152535455565758595a5b5c5d5e5f606162636465666768696a6b6c6d6e"],
    "dd8bd722c34a94fffcd6b1afad0c28a212ad2fa4c9cb2a1ce14db04b8d887019bcf6ac3a6af51e90deccb8a9852cfd903f01e9c9ddcfd4c08f5a6e1ceb3ace81");
   ([], ["000102030405060708090a0b0c0d0e0f101112131415161718191a1b1c1d1e1f202122232425262728292a2b2c2d2e2f303132333435363738393a3b3c3d3e3f404142434445464748494a4b4c4d4e4f505152535455565758595a5b5c5d5e5f606162636465666768696a6b6c6d6e6f"],
    "c8ff8cc243169ced3624fadacd33e92d0cd506e9716d98adc89c3ff2ffe3d37d9285635a6b6d6cea281f5d4c087a8865f0583a2d45c68e6f7c52d42c5dfab842");
   ([], ["000102030405060708090a0b0c0d0e0f101112131415161718191a1b1c1d1e1f202122232425262728292a2b2c2d2e2f303132333435363738393a3b3c3d3e3f404142434445464748494a4b4c4d4e4f505152535455565758595a5b5c5d5e5f606162636465666768696a6b6c6d6e6f707172737475767778797a7b7c7d7e"],
    "76a3e7e7e931f0c81cced1ed3b7f32c7a304569efbd53049aafd952017fac30220bbad36f9bcd8042cc8256b8738552230b7e0119d42fa691b5b8983378d3886");
   ([], ["000102030405060708090a0b0c0d0e0f101112131415161718191a1b1c1d1e1f202122232425262728292a2b2c2d2e2f303132333435363738393a3b3c3d3e3f404142434445464748494a4b4c4d4e4f505152535455565758595a5b5c5d5e5f606162636465666768696a6b6c6d6e6f707172737475767778797a7b7c7d7e7f"],
    "305d77b06f0537a7d7cb4d7d0b9a8b82b451e6495cd1c1d95a308afc8b566d47234ee25b9a6feecb612902443e62c50fae393e35ab9985208f63c1998345b573");
   ([], ["000102030405060708090a0b0c0d0e0f101112131415161718191a1b1c1d1e1f202122232425262728292a2b2c2d2e2f303132333435363738393a3b3c3d3e3f404142434445464748494a4b4c4d4e4f505152535455565758595a5b5c5d5e5f606162636465666768696a6b6c6d6e6f707172737475767778797a7b7c7d7e7f80"],
    "8aa8600c8f1ce2f5a98a8decf62e368ce01e6c3e11f6cf6262301864ddacf3cf6e8ebf047688f6b711732f6ed698b9e89ccc0c8265e6e5b6cf7b3e2f10c67f15");
   ([], ["000102030405060708090a0b0c0d0e0f101112131415161718191a1b1c1d1e1f202122232425262728292a2b2c2d2e2f303132333435363738393a3b3c3d3e3f404142434445464748494a4b4c4d4e4f505152535455565758595a5b5c5d5e5f606162636465666768696a6b6c6d6e6f707172737475767778797a7b7c7d7e7f80818283848586"],
    "aebe914a89677eef38851a79b6bfe1c5bf18619e9d1daf41ae41e0ec76d0a7a0aab76d5266651a08191c175f2d59cf90a852fdcb31eccff6f56f5948d67b41f3");
   ([], ["000102030405060708090a0b0c0d0e0f101112131415161718191a1b1c1d1e1f202122232425262728292a2b2c2d2e2f303132333435363738393a3b3c3d3e3f404142434445464748494a4b4c4d4e4f505152535455565758595a5b5c5d5e5f606162636465666768696a6b6c6d6e6f707172737475767778797a7b7c7d7e7f8081828384858687"],
    "47c15e91e816d736024a00735b0ce677d0509b87e22ad7aeb670b0c5056a36551ef683cf282180dd43476e00bc33719cbeedbb95cc4e0a3e26bbdaf9ab675ea9");
   ([], ["000102030405060708090a0b0c0d0e0f101112131415161718191a1b1c1d1e1f202122232425262728292a2b2c2d2e2f303132333435363738393a3b3c3d3e3f404142434445464748494a4b4c4d4e4f505152535455565758595a5b5c5d5e5f606162636465666768696a6b6c6d6e6f707172737475767778797a7b7c7d7e7f808182838485868788898a8b8c8d8e8f"],
    "5b4d0896aaaefb04814653e3a90b0cafb856465ef59669336158097c747ed3aed8765fd9e787659260c694368da86338eb911e4e7d28fed5f644cd2929f2b15d")].
Example repo_blake2xb_512_ok : repo_blake2xb_512 = true. Proof. reflexivity. Qed.

(** test/testvectors/blake2xb_xof.txt, 16 of 257 vectors. *)
Definition repo_blake2xb_xof := Eval vm_compute in xreplay (blake2x_xof_type 64) ((mst 9 128, 5)) [
   ([], [""],
    "bc2cc15201a9ffc24e7d4a7c18543125b5ffec88826ec25b0083ab69ba9680c8362b9226cbc7e799d8274f220ed85a04c68db8c918fe7581b19eec57668b57688cea87d8cd19baa8cc508f07edf6f46ce1830b92bb80294de9075eddeb9cbb971d22b012b7fdf117e966ab6879d00ab7eab7768c02bfe8d1e7a526ef87523c8cb9ff1f9c2adb51596bcd83726a62b2b0e5a2fb878fe1e3c851f0178d6ef994a1a570d072233925ba825ec2c5143ea1fe82d2f28e8f9d9909d47cb53a9b82f81edb8961279b8ea815caf0379f190289db246912416bf9b38179bf3ac43bfb2672f6eaf841d02cc7560707e8005c7cfd9f87f60321f3e4b507f8ab7ef184f9362fc2");
   ([], ["00"],
    "515c6be392b919775ada71f83ff8e3a05452215f8dc6c324f5265b024c998b321d3d12b26acf4b9d2308f20c436f0b272adda079e760e64809aaf33527551bf6d7ceecbaa256bbfcabe52b88ce08cd0dec781102c3150bb5a3a974d894c8d65261f632a0e888929be3b5afac7269a177b6a171cc9852530ac45fb84b75ca89e5c9553383acb65cb171aefdc44b23dfce21259a26b6231162c13de2e9dd01e9d040a332e57843308542c28da84c00bd611d688f288994c34edb7d0be450e9fda9df63a98cd87d5567ba681fc2d82bd3ac31381b7991126a5efea5ae8c4b1f748a4753fbb965dd7ce906aa8d96aac85d750d395538d5a49044ca4346c337f2157c3d");
   ([], ["0001020304050607"],
    "862ec48f1b9f3349e3e25008f08ffb306ac4686bbff28f5c5aa667b13d997bb5a709ef969d99f677316d41186007a76523162bbcc0457b78281ae60527811d0079c14a73ee0123a3c42aabf81f1188dc53d8b3df96c30753a1f4cc5f9eeb3c2149cdd2ecbd66107741135fb38c1f245cec44985af36f38491cc13f6b0f2c922d9aff7f9f405fe862136668ca0f178958a6ecbfe2e11c4c9530aab0b401af3864f4435e87e027c5ac04651f9f777d2546d2e8606575105c4ee65b7fa44cefbbca455ae59a93dfefbe12f2f3b3e60d2b9ccc5e1d37a4a223fb3e9d34355dc9ef12664036c97c0b7df65e721f38954a822012164bc50c922f6776b030aa0b0c4c4ac6");
   ([], ["000102030405060708090a0b0c0d0e0f101112131415161718191a1b1c1d1e1f202122232425262728292a2b2c2d2e2f30313233343536"],
    "c5b24c1d5fc9259b8a02f22e7273b4dc9d0b6f174fdbf5599b4ede0723b2c71523fd930288c008c7e8c86f4ebc3f75cba65a93ea532f1c108a588e3b0750cb5b09d26846d0c8efe9cefa1964a48b6c58e2c5ebe2a659bf30dc2f5f9aa7089a18024a278ea8ed3d029181e4224d63dbe1ed846e2a53fdef359a9fe5324c84dc60dc37c227bb7c87db09efd0e26c079053518e2e0a078a1b3ddd69ee59daccf491569869cfd2bf484c75a5541eed5155291e8dacfce89dca5200a2de24ca36b3e9fd399ee98d578a4666e119003e8d54ca28b008aa08329690758965fb64d49b8a4c0dfe6857f35fb829000d746d9e7a6ee03d1436f67b34fe348886d96cc29b6f54");
   ([], ["000102030405060708090a0b0c0d0e0f101112131415161718191a1b1c1d1e1f202122232425262728292a2b2c2d2e2f3031323334353637"],
    "7566cb46fe77e95f0b8b163a05ef261a498dbeac0ccdb175d96d1f50e62614bb13444d57c05f64e74567530ebaaeee4a418670b9c47d12a67438b228bd7ae039c97d5b37032b76479af4a6a411bcdbd594d2184403c68e7741dbae1a73b061be7a4f4b343723d435e9d9783c32ded092fb2a5df6d09aac10cc1fbe11e749e9408d1009e58e91443d76abdcbc792d561ed3896cbfe62b26c36f1e31a304787a404f728b5b2a743ff2cfeded845176ef9dea53e6bc02eb895d30d83e7fbb5108e2afeeb8a97e100f092e44a6fb4650cee81f7806c5ac62fda8223253589091934e2faab539b617d4ee6be93dcee0847f2e6a361a2d6ab7ff3fd8b464b7f90ed9659d");
   ([], ["000102030405060708090a0b0c0d0e0f101112131415161718191a1b1c1d1e1f202122232425262728292a2b2c2d2e2f303132333435363738393a3b3c3d3e"],
    "8a0519a7b7650769432b35efa7f130cb062791f3c6eee43011ce132dea27f595f1b76939d2291957f232cbc70903835149925b2c87ef6cbaf9ca7a7103d5b65745aee96d14cf70f3bea80c25f155ab91dab120af809ffcb1068a4fba49af05eefebf90694339c0c0724be6da33a090fcbbc16c4650fb5a3d723bdcab5874726688d47b7296f3e7f1c316dd534d22a5e082171bb7f1d1bcc748b176d61a0a22a3a8a2483848daf1683cb1558a46c01d8b1584b90b7e62fe06ee2c37de9f98ba9e3e1e4acbc4b33c7e94659ad17058ed8eb6d1fc7e3114bea569edebcff3fb47a96a02516730b5423f24b7163aad0097e3a75876bef6cc6f1553301d96a1f122e89c");
   ([], ["000102030405060708090a0b0c0d0e0f101112131415161718191a1b1c1d1e1f202122232425262728292a2b2c2d2e2f303132333435363738393a3b3c3d3e3f"],
    "7022be0db24f1ce5cf0028a7da76bddb130a4b2f39f5e4668bcd0d5b636edf47c030c89e2892e07e678f75a7c25be666af69781dfd4496778ecee3ed2d407c97ced0f548086a1d1c51e7ee43acf72eb6aff616f8433087ee1e6667a5def30720d530d13c9d8daec0e5e89b1cdcbe2e783697c6976e78455bcc2f21c5685ea79c1f35c7aced3ade85ae2179d639deb8642c065700bd65a7f233bff1183c1e3fa3835a9b772e5617085edc55157e3716612ed3795b45f3048e571670a9c4c053787774c2e551df0f8121593d04db5909e1bf5692c484bf7d1c923cf328d40fe39c6cb05c8a1180ca5714baf49bbd39e7243b8adc8458399efc555d44e8bf1e560ee9");
   ([], ["000102030405060708090a0b0c0d0e0f101112131415161718191a1b1c1d1e1f202122232425262728292a2b2c2d2e2f303132333435363738393a3b3c3d3e3f40"],
    "80d22f3d8d1e331ae08c4fccf4235f45602a5d04d5ff406d3aa77a68ac3b703452b334abd54a66ecb90c5754b66703e702968d611a94a8965c593c918bcb5483788268085ffdea5b007a333393d21acac01e82895c2d3bcc4c8a36466ed669e55befe25e44d164f0be82b9b3b5a540d5ef5ae093cb3f9a572071f76ba90f88316cc5b59becbc709b942a4a15a9899afc2664565022f1730c8aff0ddb5718109794cdfc7a84181f083399053e70f302bb2a9a2329a0a26bfc527ca197f60ba084fed4da3a56e64723174ca8ad43f980a3fcf2e2985f7d2272c59f257d4c12110a5c66d0512207b2d732ee6d4875885e04ea26ed5b4fd90739787af3b18894de36c0");
   ([], ["000102030405060708090a0b0c0d0e0f101112131415161718191a1b1c1d1e1f202122232425262728292a2b2c2d2e2f303132333435363738393a3b3c3d3e3f404142434445464748494a4b4c4d4e4f505152535455565758595a5b5c5d5e5f606162636465666768696a6b6c6d6e"],
    "8db1edf9af18eaa899caa80d8191de93382e816ca0d8f7973d32b6f8067c39a5fe6dc3675cd16f3e5071d182ba7dabe4e7970c7a1e70669f3cff0b929558854f79edb06b602e4d95bd2d7e59c9045a1e35689e0086ef90fe945a21e362a1e40e1b5e30ae5344e5edaa7a532d9bf57fb0f0f4bb67829db86ffaea4180dd6b99772bb448f38247c116762c117fac83283b7596b511975248d54aff029df54b6680f69547ac7eb1b19d20c2e2d44fd24373aea15443b69309222fafbde2296bbc9cbd0f389a292c76efaf1446e2e4175af13f6bc23b24a7605f45cd8a76721c216f3681dae7448eca156c80ab2b46fe81e19f6f5c6e5b0c3c32557b345f9bd10d13d8");
   ([], ["000102030405060708090a0b0c0d0e0f101112131415161718191a1b1c1d1e1f202122232425262728292a2b2c2d2e2f303132333435363738393a3b3c3d3e3f404142434445464748494a4b4c4d4e4f505152535455565758595a5b5c5d5e5f606162636465666768696a6b6c6d6e6f"],
    "34f4ccd591280fb65803bd972a4abfea1135c4f2ef265b3913aa95f19dcbcf18857edfc6f841f2075564f624859b1e87fabf938252caf30287cf4db4d5400bff3dedba48b9da9ac2ccbeb152e705f5ab60e857187a6b9c2fc88f81d4da7967d0d2f51fca5e314c8c0f84689af8bead8f02cd76b2952fd064acdf364c3a90305319d4a012e96025112d886bdaec5d76d36e6258053fd1ce013d15e9d8a47472e112421a1a5d06abd60d0675e2e3127d8e31f2fa5c88eff04a755f2fb3a34ff89d9ae6d699ae00158abad4f793601a1f2c7a8d7254e97838344b4d355496b0c89ef9e665712270c44ffbf974172a9938c834247c116330f463e91ccf28955187b380");
   ([], ["000102030405060708090a0b0c0d0e0f101112131415161718191a1b1c1d1e1f202122232425262728292a2b2c2d2e2f303132333435363738393a3b3c3d3e3f404142434445464748494a4b4c4d4e4f505152535455565758595a5b5c5d5e5f606162636465666768696a6b6c6d6e6f707172737475767778797a7b7c7d7e"],
    "2f757618977c4b9e5c970f10bfb20ee1339104752d0a9a9f99bc71e130f7cc5e25e30f8c843f4a2713853d262967b68060f477dcb6e76679c0c34ee0e0de8ee7e6639958a8a46c5f926ef9c869cbcbeb67749f5c3b8ddf6884d6fae96a8f69697a5b5adcf4198bb837a9deffd96f9f68ebfb8f6842d4e6a868c60545e737b9850080995a11fc6830b654bed2c5cf9eb70f950ce21cdb6e652b13e8f3e745e4149babbb7247ab63a91d82728bc0bff95ebbf7349f5b2eb8f45460d1502c9872e2ef1effa5160631e83f32408fe8b75d5ac9debf6ea3a40aaf7a0e63a3cfbb5ff31f0ee94e3facb294e6f9af5fd45502128a1fe726c4288974b369b9aaae9c1785c8");
   ([], ["000102030405060708090a0b0c0d0e0f101112131415161718191a1b1c1d1e1f202122232425262728292a2b2c2d2e2f303132333435363738393a3b3c3d3e3f404142434445464748494a4b4c4d4e4f505152535455565758595a5b5c5d5e5f606162636465666768696a6b6c6d6e6f707172737475767778797a7b7c7d7e7f"],
    "2d3d914455aac1665d27d6601705db08c144e9d1469ebd59651319c3f226890862c1a3370f62c37409b0b7fe7998161e85c5aa7ef2f7974c4439b2a79ae1dd81c2c295be7a35098fa5e6ecb59efbf76937facc44779847a56283184246a5aea38bff9829dbc33d5096daef9e82cf9160ba11a45d40840b6ff6d55af72e16b8192e35e36d58e7b9a81df51ea5897c2e7f820b1847b253ae3fca48ef3fdf0698e88aeca51ee584cec772b1a1ba2dc28a542870bcf342c71eb261401565d49436a2131a761fc7f88803955ccd5d1681b3fa2bd871425dfe7a7d3fc68161a7263e5d16802dc9c046fefe3c3bfc7f827f90e6d92fcaebc7a9c0fb44b7b575838d2819ff");
   ([], ["000102030405060708090a0b0c0d0e0f101112131415161718191a1b1c1d1e1f202122232425262728292a2b2c2d2e2f303132333435363738393a3b3c3d3e3f404142434445464748494a4b4c4d4e4f505152535455565758595a5b5c5d5e5f606162636465666768696a6b6c6d6e6f707172737475767778797a7b7c7d7e7f80"],
    "cf986ff718d41c746f0c3ee1aa3040abd223119857ead294b497c6211df7f175268b8e34e02ceba6035067cf741f3607b7b98ab6df673bce6284bb8279b19e5d38080f97dcda985ce6a6c2ec9062e0fd749d341c27e1e99147e57d49841e0b9413c8a4c1c0c8aee0a56b63530704504a0eb7b66e0708c925291a7905f7563d0af110b1571681b92106e974509bcef84176ff061bc116cdbd2a3dc4caf3da4487ec71f3f4218264a251d5ec6f6b71c4cd68421d561df06b3f11587620bb43a7e9e52cb2eedacdba5cb404612197b68ff161aa9616ddbb8bc30a4fd912ea10e84788a3f346d42965fe067ea3fe47998d012fcc7cbb3654ada756631469fb827e5d8c");
   ([], ["000102030405060708090a0b0c0d0e0f101112131415161718191a1b1c1d1e1f202122232425262728292a2b2c2d2e2f303132333435363738393a3b3c3d3e3f404142434445464748494a4b4c4d4e4f505152535455565758595a5b5c5d5e5f606162636465666768696a6b6c6d6e6f707172737475767778797a7b7c7d7e7f80818283848586"],
    "b4766ff60e1efd073f95bd64f2cfafa36590159c1163efca3d9e2071e866ceb7042dc7759818ad6b8fca21a6ab7f6a8b5e943f05c0920233f662b97de74b69de837263b2344c23edfdb9950123c32b720dd971e369a951665ee0a2ec3a7920a10ed6f09fb441ba9f8a6263b80317fc5404df52e2649f8fb69fb400c6be5097410dd44f230739d4384cba44afee6e8891c08201413f95602c2759ea699d4991f2961a0d73d8dbab0bc963ecbe1004a6cf35d4f00ebf2c0860d7aec0e54a3f1ed9c92be8f93aa794079e237bcb37e531b8953f6f49c3015c2c9110c970e0fe59e0542385089c1b78a65f24fb8487af2e0a88d27f927925a1c88e80efb1c83d1a5318");
   ([], ["000102030405060708090a0b0c0d0e0f101112131415161718191a1b1c1d1e1f202122232425262728292a2b2c2d2e2f303132333435363738393a3b3c3d3e3f404142434445464748494a4b4c4d4e4f505152535455565758595a5b5c5d5e5f606162636465666768696a6b6c6d6e6f707172737475767778797a7b7c7d7e7f8081828384858687"],
    "7212bc9e5e861d48fbd8bd4e0ebee421f0239e2fcbeb2532ad1488bc92ad921e5ee4024107b77e339250b47d34cbc98c41734461f249071637f393683734dd596bb07e543849f1acce52ebe214457f76868c0bc272ae270d04291be417b19ffe8410949229ae9e158509e188f70c9ea0a497bab23e7255588cd727fc9dcb05bd027e80d467f8ca70045fed5336e8b57ef7bb94417da43af3648a3fe111de4fbda98dadca26f354bd77b958400b764157734ba4118ded0a109a7f5d74f62965c90e03e4e9e4ee0c2c01de193c2f92fee8aa3ed35c9ae9e0e93782a28a6863ae8064c4d56315d235cca3a29da27aa040444144fe3978b524509e81c1a491894b3391");
   ([], ["000102030405060708090a0b0c0d0e0f101112131415161718191a1b1c1d1e1f202122232425262728292a2b2c2d2e2f303132333435363738393a3b3c3d3e3f404142434445464748494a4b4c4d4e4f505152535455565758595a5b5c5d5e5f606162636465666768696a6b6c6d6e6f707172737475767778797a7b7c7d7e7f808182838485868788898a8b8c8d8e8f"],
    "47904b12e6cbcddfc3bb2d23d6b99aef68a41400e918d0ae4c5353f559f7219b09790be7058018e55d5d9788bd1a9e1da1bad342f2398920de318a714c8e4a8e7970a20008b72f4ef5970188a7e2ef516ccc017552d19788594a16918ef45b5795da003186624f90b13c202013611883da612edf4cb975585951744a05600b647d6c4e3d019a11370f509ae0062495388f385192a4ed0053747919f86d6f7434ef8c744a1c9cfd9f25231777f375901131ba9d8855be6a8f730e1b8114bf3ad5211975c44aafa91e1e7638020f72f1c107d6dafa846b59668a3c97f18e666f5e6b1c8b012268c7c495332656c728595e66ca8c041a36c71b2e99c15ff49894ae7a")].
Example repo_blake2xb_xof_ok : repo_blake2xb_xof = true. Proof. reflexivity. Qed.

(** test/testvectors/blake2xs_2056.txt, 16 of 257 vectors. *)
Definition repo_blake2xs_2056 := Eval vm_compute in replay (blake2_type 32 BXhash 2056) ((mst 9 64, 5)) [
   ([], [""],
    "7ce8fa6944dbd239e7bac0c5181bd9e26f36960fad038a5f4510ae6ad495267e3f6a3aef7287a26e7233ac8ecbfe32be73974ec21b269fe1223befaa034a712106b402963d059f9f3e47786627060e5a47451286ab5cd32a106496f4ac481ee22e472c7cde313e70d3457cf00f0410a27792a840d4a4b48d45474ce3fc9bd503c54d10faf1527d50ba93a99ddd7d640c358605311697b31846bd6f5199b0a678bc9fa9d30bcc45907d28dff0001ea99fb33258dd3994c904812a54daaa1c837c8c4daec88688d63340c2e9f941211f043e26aa2c68eb4ebc81c832707303a651a5202cfd9e29979a0c1d4a13b67f94f41c682259a3229ffb95a25da273ccbfb0c9");
   ([], ["00"],
    "3ef9b32b3be1e1a12cb73b14f2bbad3aa48877bb5d1974958d62d465824fc1bdf147e7880dc775ff439df7c27c9e128768c5740c8b58d09f8aa405334974518c0267905b73de6a2ce08bb8643f759237e1ce19330abd062a799d62b7da005104717baf6477a3144ab7d62c1894c9552542a041ce8a070c5ca19862f08af9046a5602c34b9052fc3db9e6efd7b09e885db4eba065a5a9b59199e4d4364afc99a68abe861bd5a8dd520058b82420c4cb8b61ba9ed3758d4665f2a520c5cfaaf70a78e26404cf0cae649a06ea8ec04a5b9879bed022796b34e5ebc8185054a6b86756891dce08f1adf733b8d273c2adc1c74e4a388453c0ed66311f35d1fcfa460ee6");
   ([], ["0001020304050607"],
    "fed6abaf619567abcf4dd310ddd670af49cc528ba564a41a0b59034983ac7c0790f9931ac280608af59359d4b1ecdb101e0ea3164ebc9bff88ced76f2c42d437c0a49b5ed14b01d63b9ddacb42eb421b648d4717060bbdb248a017ccf7efba5ce749b399c998a54b1a9490a2e208d39c50461503dff9cc6b5133b4f8ce1d96a3c37a275269214ac2b45e941e75251882e6967a8c57607b1b59dfd192c71fb9c039afd83dd21b382eda187bf9bbe2a13dedf8a7a069191cdf143e57e1e9b7df2a310e76b7311481f8d2d1487aec8110ea342256c178cb59269f3eb527b9cb946518f3242ff4cc1117178f68e86318dd1e174e9d8ac8fdf7630264701e9ca0aba075");
   ([], ["000102030405060708090a0b0c0d0e0f101112131415161718191a1b1c1d1e1f202122232425262728292a2b2c2d2e2f30313233343536"],
    "34736fc7ec150b72f6aa8e3495e62a597d3f9e63bd1a4d629741411ce8f1a1ea891a56e114c9e46d9246c05cf64d5075df0d0e27f0c7251dd7696b0d758221e9316eaab0b447631ff3c356208f1251e7da2a52fd239feb8305b8a51c3276c53f9844b520cb7dc050920e2cba0f03e234d00109bc23e1b813e7761dd33f947e5af75a1120d7c02de7ca1b97d4191dafaed1924429fe4fc824659d707e729866d229587008a91598f5af7d0898c21034103db22dbc9a0191eb45ab81414079a9e089d66726e814e1791d24d9e4f5060c901bfabb42beea799dd8994fa92c7ddd6387d450419150c0db41d94d9a2fb544cf6b5ead26641a3011d3616ec1026ddc5935");
   ([], ["000102030405060708090a0b0c0d0e0f101112131415161718191a1b1c1d1e1f202122232425262728292a2b2c2d2e2f3031323334353637"],
    "7ac410cc92f85d5930de2df5c2e421ffec89c5449285381cc144eaab63d55d4dac7e3af9b00168ca19574db62276d8704af721e6a9dcdffd26f5bbec50a5863daeb35cb57ed44b5293cc6e493b11e1252f6d65d993164503e66a7300426b8a2f0e8adeb1f85d6019701b5e83753eac8dd79ecb940504a467654e1b943db9dba91acaaffd3979d44a0735b2c2ce1d0b9c08f86b02b48c8e72a0a17a39de68fa21ceb8c7b6c2a980d4ec0f784f4f5826707f7e579346059773852d767ddda0c1cc5b398fc22878efb18d3a053728549bd097d1a8684b66d11f9c3d6827842162fc22a53c98745842fccf0e9679e4db5bfdff496408d05086ca4930b382ac8cadf21d");
   ([], ["000102030405060708090a0b0c0d0e0f101112131415161718191a1b1c1d1e1f202122232425262728292a2b2c2d2e2f303132333435363738393a3b3c3d3e"],
    "990750cfc6e9e9f58a8228bdaed4facf0cdb07d164b2f02f63cd9b1c8560973d1bc1352d24ac461265eaf8a1f2e82951428a68cb955151160763e3bbde6593a21ad1119af6b879d06ddfa9d72d801ffba901aec5f7d6edb0ea020cbf64e52f9116b68a29bf88fb39d9806131fbbfd8229d3af2a934f1177fc5c78b6b207f78b1462439d9f52d0aff5c1c3f55a23c0a4910e55d26b1ab9edf467e3eca67e5bce0c160f6fad6920a0c9f9481c5bb3eca998c39988283f130badfc4f987b1dab19271aaa72b4399c4f1c0a0f9294cda08e5c110bc190776ff8225b40b1493b14488e12e3978f1d7e8af5e0b8101eb2adf164f6534ad1df71900110305c81f912eb740");
   ([], ["000102030405060708090a0b0c0d0e0f101112131415161718191a1b1c1d1e1f202122232425262728292a2b2c2d2e2f303132333435363738393a3b3c3d3e3f"],
    "e6bd8cf20d38b5b54655736438551d9799d2c352d317f283975190730cac71f040b6e647d548d357b2d3974a566cc67e3fe594271b6401d0228ba57338836f9933c6cf095c99fa435943a96c27e3549a50b7a5014283d8ea271790453dd92448fbd5e48f7faa881a53f617e20cf64e3b3facac59940cadfe744a9846c77ac03808bd59fd3ce4a299079d9c597646adb0c31e3f381855374af0f40778e32bfcc9216ab39cf49e32d487dab9c5a1ecd3304cf38949cff7bed69d32701610c4ba78908d6f3c47da79bfbfc449c8ac3f04f328c679376533e460fb34e2b6ca8685f4f5910e51016de13c6c4eb1fac6cd22ac5aabaff0541b98af08c77765235b60cb74");
   ([], ["000102030405060708090a0b0c0d0e0f101112131415161718191a1b1c1d1e1f202122232425262728292a2b2c2d2e2f303132333435363738393a3b3c3d3e3f40"],
    "e362bd9836729af2195820e42d2a2d5521d2cc8f7ad8e3355c08cdb5a3f12bc1dc2a8e0daf49ecfffa01b442965dd24844b71bbbdbd8fdfe691686992178041eafbd556a709cbd13ce070e0564da6551293f2b30c3be6593233f2e6e2197e22cb36630528c230a219ed2259a35a6006159c2c6c83c99c19c0a4d19c396b003e109edf9af2ecb929ad176b9191692c7e7487a05830480893d2c7c7bf4e3afe9e607998f68e9e6db300cfa140a591276e2bf740944d59a5fb835a126d7e2a0804621cecc0c36cbedc7f989db827b8ab77d09b4235a12d03424c76f1ddf71b4f18ccc54c5eec2cc9d5f555e80eeb3a596a37ef0b5d2fcfd6aa6e25acd4e7a94700528");
   ([], ["000102030405060708090a0b0c0d0e0f101112131415161718191a1b1c1d1e1f202122232425262728292a2b2c2d2e2f303132333435363738393a3b3c3d3e3f404142434445464748494a4b4c4d4e4f505152535455565758595a5b5c5d5e5f606162636465666768696a6b6c6d6e"],
    "9199d40af1260b02c037c25da41c7b5657ba2c3cf0509c475087741ba9eac009b8c98b7bb7f5b9bb5856142a8fd0942abaa741812c3d8bc5800f198fdfe6f2c591a41a709ac7cad3a94b57b85d6fb354626100be11620325a9e7902d936b4b107b4674b13649984cba47822cbe7578ca52bb807add8abfb13228898660ced53c8dba3f8c4e0577ec5b038857b119b454b4a38cb35c95995f34369d3ab5579f6318d367d1dd3be680efb4759ce51ff5a251c7730735775c756467e33f9aea1b7cd9c6a68a0f8c0775f640a57923bc6fb5305b35c4083701c1456cd03c7b13f1004752693d01b9750697e15ea01c03ee9be67fd0695edbbb850d231ef690ed894da7");
   ([], ["000102030405060708090a0b0c0d0e0f101112131415161718191a1b1c1d1e1f202122232425262728292a2b2c2d2e2f303132333435363738393a3b3c3d3e3f404142434445464748494a4b4c4d4e4f505152535455565758595a5b5c5d5e5f606162636465666768696a6b6c6d6e6f"],
    "0a5f3cd1b0fbbfe9e79b65486e08e5b37a088d69fd14feb8ed835d06c7aaffedbf015795ddfae53dbd12051ef69860d46d0ab7a1313d5052853139a28bb2cc977107b412e81eeefd7b87a1ca762f2bb817eb53c56c396f5e9549b22135be04bf1bc195b5ab9b15d3265097b6b5a0dee0dfd811ea373df38ec7fa2a7154c15d48d5096e4f5d6b66ef73d9e63d528db37ed08e52ec824e708a6399695d6ebb787f0e531ddb9e8a2d8d219f3caf0db243e4abedd6ed04c738220af7c3232f3dc4e2ef742a6c4d5f8295a85bc03622101ded1bb6de04fa8fb2430e62fd69aae145268d22c4773530c75620270233a72ef9c74498d72b6bf6f68afb50dd35b05e0b145b");
   ([], ["000102030405060708090a0b0c0d0e0f101112131415161718191a1b1c1d1e1f202122232425262728292a2b2c2d2e2f303132333435363738393a3b3c3d3e3f404142434445464748494a4b4c4d4e4f505152535455565758595a5b5c5d5e5f606162636465666768696a6b6c6d6e6f707172737475767778797a7b7c7d7e"],
    "f83086853e53abefea952c77c5cdb06d4e834f9828eb92d03bbdd87212199ac87bb180c3f9cb15211af5102d623a6274bdfa7988261e77bbd67f0ddc6f54d836101f6660f9f7ed5ef8eca2a15ff6515f39da4acf13c31f65d14d60bd0cd79915af95b3e932b8beaf6e2f9bc00023c99e843b5c63f19750c0e0fd80ebdaa79f64bc636997c29bce2bd56f93ff89935d2590255d463d239c4ecc8eb934dbb8f69bc834330dc0f101341c8c034cc711ea8e3e3408ebb519da153e76c524f4eb8195d8725b108ae110bc42a6daa4e1a1b6797135a999b219f68c3c976916996a844d9dd91eceb0b7d617c31d89f1be757456b270fa01607dcec18ef12086cb597a67e2");
   ([], ["000102030405060708090a0b0c0d0e0f101112131415161718191a1b1c1d1e1f202122232425262728292a2b2c2d2e2f303132333435363738393a3b3c3d3e3f404142434445464748494a4b4c4d4e4f505152535455565758595a5b5c5d5e5f606162636465666768696a6b6c6d6e6f707172737475767778797a7b7c7d7e7f"],
    "086a9667428cbc06e2d36170178972d8296158ac4963d2a252a49532ffbf8ef900e927c9fc54e27777683f27fa1db177ba763670dfb00f5de58a2d3f371c3cc18fccc27f5337db50826ecc1310223504189cb59f5c814d95a57f0a5bc437d4f682f930d8ce83658f7a8717d922f03789a66fa653633e96d79955de00d1ac9149b3fe6acf43dff35bfb3a9f0e763321b25626dd5029adf708bdb523bc24dafdf5c5a7803b58b7a32eef0ea2843611c830048dfd89a81e13665346d639e94e55205389038dcb81bc988cfe2cd67e55ad6aad328a28ed8417a85bd5b8804ccb76ac5a05820877af66ec471a9fe6ca54c306b1f37f633b3304f81fb97c8d333ce8804d");
   ([], ["000102030405060708090a0b0c0d0e0f101112131415161718191a1b1c1d1e1f202122232425262728292a2b2c2d2e2f303132333435363738393a3b3c3d3e3f404142434445464748494a4b4c4d4e4f505152535455565758595a5b5c5d5e5f606162636465666768696a6b6c6d6e6f707172737475767778797a7b7c7d7e7f80"],
    "04c6b5703f43a193e073d49b080300178d8a61516b112fc0979ab5a6c2343324f4808bfbfda097e09cb90455fd72bd11c15379eee16154332168c666d10ac97ba2b9b5a1c63a9ee1096a6216bc93ed141dca19beebaece9a96487ed11f03693b4e4f0c7933f9fe7c68375cd5f2de6031ff7d7819285b27442da4afc3746096542ae86449dffd6b8d815d8b5b5bb34fd12342a1264f9fa6bd0260adb1cee154398dfd7a66c707f9d04013cbfa26b41436f22196bebe64b4717457a37b20929fcd6af9a52d428cb0f5b6c0713a463f98b9fc776fcb5dcea7ef54f1d7ef51ee587348cf136e412ce117af900bef67c85479ba74070557a45d70b3196ddb053de668b7");
   ([], ["000102030405060708090a0b0c0d0e0f101112131415161718191a1b1c1d1e1f202122232425262728292a2b2c2d2e2f303132333435363738393a3b3c3d3e3f404142434445464748494a4b4c4d4e4f505152535455565758595a5b5c5d5e5f606162636465666768696a6b6c6d6e6f707172737475767778797a7b7c7d7e7f80818283848586"],
    "9b887550ebc9f827ea5f173a7d571c41ec6cd74118d272ad3123d52eadba57639dc15a2c2b3018d7560d1aacf1e438f06f4cd4d3bd7ee762d2e72d8591b2404a7c4dd4c97a22ada73ed5718e65f6bc6446affff17d094b77bada0d186ad2e9d766b97b7cc85534d1827dac3629acb9da06e27de2d55621b805295e8696da3cab27a801017b5117a804446bb793d4998233bb162a7249ab260cd65291f522b7cde739c8c298a40e63a97bcdaf16a434cb452d6c4479399918fc0d0baa32672e152a8faac1176178ed0510e216184b2ae3e8b85d0ed29a67b03aef2f180d112d8e12a0384da31742e39fdb76297bd26dd84befb720199a3a25abaee53bf2cbe42ff7");
   ([], ["000102030405060708090a0b0c0d0e0f101112131415161718191a1b1c1d1e1f202122232425262728292a2b2c2d2e2f303132333435363738393a3b3c3d3e3f404142434445464748494a4b4c4d4e4f505152535455565758595a5b5c5d5e5f606162636465666768696a6b6c6d6e6f707172737475767778797a7b7c7d7e7f8081828384858687"],
    "fe67a56fd854bac85fd7edd86d79f436286f8104d311034537d4e1566c3246519f6550f30cbc0b0cb4679162ff340c15dd860b12bd5faaf99bab9703d0ef7ea5110ff89c86e2b907dbfa6ee2f79c4bb283e35afa7ec93b643613923d0e40651ee428eba907a6d3f2831a18cdb38bb4ef910c779fbcb6847326c3804c049fc0be57597a66983971cd5e8594a92fae1c07250f50fb3a4369025f0251dca089de92df630f8666733fd3b284f9949370cd70c7fb8089688f8b33292517303ba1ef72da58e71a7c936a3a81302a090d210948555e6522f7e13a0a9845154663107a56163f35f643dce35c4d214c7d82931518b8e7442781a093de0ab272b5bdabb8e04a");
   ([], ["000102030405060708090a0b0c0d0e0f101112131415161718191a1b1c1d1e1f202122232425262728292a2b2c2d2e2f303132333435363738393a3b3c3d3e3f404142434445464748494a4b4c4d4e4f505152535455565758595a5b5c5d5e5f606162636465666768696a6b6c6d6e6f707172737475767778797a7b7c7d7e7f808182838485868788898a8b8c8d8e8f"],
    "3bd955a8a5181c183923be83ee7182d31804f9b9cf0f9001fc1ea685875d8172be5e209faec0ef17ab547da3bdac54652be5546cca14557c83d530d96b902bfc4287c0d635654437ab748828312b3b17e585f70573ced2be1796bd57b3a81824ddb67be8368580cafa6e84da3da3ef76393120e351549b4ed6dc4f060df5a42c3dcd214977dee5cac057a6a1e0242f43ba7e2262ecde3efb51b73d60ca74c68bc808026e3e862535a9ccc38f0f656a4885dc38615a9123318997ddcccc13b22f222845448bf28bd519e632808371b8e89f92c6aa205e285c150e18bb721fa91faae80ff1a5cd57d120b8f7c34c1a997e8d4b70428680c35e399ea7a2b2d5274dfb")].
Example repo_blake2xs_2056_ok : repo_blake2xs_2056 = true. Proof. reflexivity. Qed.

(** test/testvectors/blake2xs_2056param.txt, 16 of 257 vectors. *)
Definition repo_blake2xs_2056param := Eval vm_compute in replay (blake2_type 32 BXhash 2056) ((mst 9 64, 5)) [
   ([(B2Salt, "0001020304050607"); (B2Pers, "0a0b0c0d0e0f1011")], [""],
    "ec1cc92b4c599c7061c5d9f6d19b06a851f0199326168248bb95aa15aea9964bf4de7fd3c8be1ff20174f4c4237a3bc3580dc7620d8b1402884b8028c9c7dd177efd304aab0ee4a482e284dd8618f72e20285b1055a745e0677fa06d9e119c732ac8b1493abfe3aef315d99a12c2dc9cbf6225bf90a23b6ae942743a138e458450149564a60064720002290fe2268bbec36f0640565a17f4c3944108d0806978ebcd3295fc62961941172492540d4309471a02185454b88a28cf6ea8ccb839fbe694891ead6b00dcb4e265caabbb263ff3ca1de5e6ba60b2d9a0eb287467cf7e591a83fdb05c937ed29d830bb31ee4043844f2506d3c5a764d6e62328e899c1991");
   ([], ["00"],
    "c46005ad1b73ed1ba02256adc3b9c0bb5206c4d40cf897919ec5f7d2c5dd89ec637aa886fb9e597d98ad4f580e0eaf6a098e0e805cde4aad8479a52d9fd0f67c202ec10d1a7193ebb069b634a99eb0d1c40379eb592092fe221ca5e1b6cbe4d96bc74dd8fcda00a77235974d4ca40d55f8301586d428f5db7fa9d66f8e31760af87b6bba0f209bdb79186f68fa8d57d82fcb8ad8bfd56cdbabaef0d317e87b7ea6b1ed9d3155931e8bde1f645d39a3113952f74948e1476905d6324b164aebf000c03180df07c85b2785caafd7887db32463620d694e54fa97c9b231dfa046d9e4a33f956300b8e29681f3c0756317df3d13ab725c0b4ecad257f186bb96df1097");
   ([], ["0001020304050607"],
    "51640bd4ff9f09e7bd6217e7b861fecbf4cb283aed145fdeb33bd4a1bdc5f045f29236ee4c61547c66e82fb252e7f19da63e791fdb2640b49cec3ac7c5cb06f572706f04f1be61e87918e02d246921913673bb53b348c00f4850f8bf8ac83f376472b1b326cd96817194034b74a9e8e8c3c3e39d40fcd6cc17465f0bae0ffe9fc185dc26918bf4426bb1306701cf31c8b2f88045e6453edeaa79268fbd5eb5580d7aee2948a95e26ba46c00b7eef47d4f3babf306eabdf30a21ee304bfb1488ba9a79bdad7bcc6336dbec73ba1233d4519d77766a043af19cf374ea2f07431972e114604ea739c47a93ae690ac57e93a5adfe50de216af77d8ea906fa345754f8b");
   ([], ["000102030405060708090a0b0c0d0e0f101112131415161718191a1b1c1d1e1f202122232425262728292a2b2c2d2e2f30313233343536"],
    "2ddf5cd757462af067099ec8f92a048538c42a0c2b24226836886cc71bb4dc3bf06cec612254a314ace5f351d8ce49278bd69fabc99dc508d640e6503c82775bc97f6e4bcbc6886da397e4c3dbf1defa82b4eb98215beefd983dbf1ab59e5d0ebfb1802cd1bf3747551bf76d410f6444a8cd2efea1fff0b4f8d3ac4917b1a88769f6e4ab833ae53a0091e58c6fd235be3fea9c40b2e8a29e9ad377fc86172ce97e71fbf52a3baaefae6ef3a6082224148524bf3d0bd343d76203f9eeddd2e1bdfaa60f6e2984031d1775f632d6ce84858f71f62f759e870451686de1eaee4059df90bf5c1958c2068bde84cc46b5aedae604de16432791f847646ac5fa59c8f5b8");
   ([], ["000102030405060708090a0b0c0d0e0f101112131415161718191a1b1c1d1e1f202122232425262728292a2b2c2d2e2f3031323334353637"],
    "02cd9896c90683dafe9795048e111d5558b3dcce440fd77236d4108f27952ff631f6963e91bec179589fd45c83e1491b5c7a70bf7d782610402a2a84369568b14b2f6c0d105fd40a34c553d548f442b8f42a517350b480d1accea4cfb5bc807ab69b2842c0ad5359e5a0e9a223cfe7fa631b0324f363e0646ac24949261213f33708394987b67b17e2a76e1454bbb8d0919a4382b6609209255139ffbb7c6f179391c50ba6a1691ea411e21fb1613c3865bd99e3ae0044edc74a250ea9ed6982b7172d01648afbd46e8f91e07fb303b2858af500f86ee891a07f0deef561ca4dde285719cb7824cd02d82f30ca0800ad66c3b06eb221999e3325550b8d7e084f7f");
   ([], ["000102030405060708090a0b0c0d0e0f101112131415161718191a1b1c1d1e1f202122232425262728292a2b2c2d2e2f303132333435363738393a3b3c3d3e"],
    "4645d19f9a924bc016fc5359df6b37771ea9a85ffaeaa60e90ad5afc5a3140e09a5de756cfb29db03a47556b6b11959c43b92cecfcf774ffaae31e503642768da2aff5c1594dd5f69db7c4ded78a589495cb3c4fcd394d2404dc81b155e4c40250f5918e42aab5d5892a1fea65a22047b64fe1987634f2f91e7786ac4af9bc6d7b3c1af6cb4832c1454c9695f555dac1aa4c51d23d9fea4802a935a774dcea0812787f565033ac1b9db87cc49d7ef9115f68db7793040dd2d020919baee9e4e8f43179c8ac2855e3c78b4a9f36547041a98934e4fad273d74ed19bc72c4b6cfe1455072342bc019aea43eca3bcad654ef92fc8590e392c95bba1be20bdb290bebd");
   ([], ["000102030405060708090a0b0c0d0e0f101112131415161718191a1b1c1d1e1f202122232425262728292a2b2c2d2e2f303132333435363738393a3b3c3d3e3f"],
    "1ae17216f345abe19ca59a5dd1abc77427e2a162123b38574c2d1194b20fcfc18ac73047d5ca4f111c1fbaf3ce955e68719ffbe1bffc0393cbcacee6a15e88b2e1dd9664b0718953b79a888139b1a1bc4084e34a287e91f433bc965793221f1ce08d39bd3f6e0166faa797b694809dbd71335108a4426f9be7fe6531d2a83b95feeab204563337dfa282365707a4a391ac25c00a7022599714b270ea3475c26df9561504decba2f95abd1222250a6ce78589efe4653795fc470ccb3cb7fe442a64799ac5e0f0261c1f28abe5e622d085555b6a553fca5bca85144411d4001d4f389ce38c5e16f01c10135de764f4cc00f9f96def8bb67d44bbf795450ff85beb2d");
   ([], ["000102030405060708090a0b0c0d0e0f101112131415161718191a1b1c1d1e1f202122232425262728292a2b2c2d2e2f303132333435363738393a3b3c3d3e3f40"],
    "672b4951c5d471f68affac6079ac898216c96a1fd153d07bf1d623ccd9044880eca99b3f87a763dfc4a6c3a0125fb28ac07d3d98e0667ae6725b90166b9d6eb0a73170816c7fe6dae027aef17fbe2676ff08e37d2974bb07391096bd94d58fc226222095e2c6e3fac3f8c3e8ff76bedfd5541dc91995e4a084cf3192f35620dcf4084cb070021fbdc5d3ec99c0716c8ff9eb0df44dd7316d315b269a1424bf439a595cc6fbbba1b65933209e10c53ed9d858d66c8f7c13ccde588542cc83d684e83fd15aa026dcf546fc34a2d7e80bd65f2a206118244a5fe36dccfdae323ee132dad586c611787c5cea7b900b10f3dc7f78bb96c20600316d9a32e33ef56b8025");
   ([], ["000102030405060708090a0b0c0d0e0f101112131415161718191a1b1c1d1e1f202122232425262728292a2b2c2d2e2f303132333435363738393a3b3c3d3e3f404142434445464748494a4b4c4d4e4f505152535455565758595a5b5c5d5e5f606162636465666768696a6b6c6d6e"],
    "74d6099802b27e96664234388efaee456931e326ca4b8ebe7b25b48663792a2adc5cbfa477528c4a199cadf030a97a52367cd876ecac4879173f7a99f775091e373881850ac2cfb6c92fd7572624366a569777108ca16bd9f54dc33a8fede9f23123b23da7487202e1695a6070387aede3d5dba198d80f46d1e6caffcdfef7367649f7df27eb62a6fc7768ff9e7fc6f06b8286f23b91377c0da3e69bd55f6df3fdd33f4dc15f3729b40e7da06e6f256d5c503da536be717a33ff2062a292af8bce8de14725a15e4a688da76f7b87240af116e3c0c4f22ee5cc32f89118f14dd3715b955514fb7765c2191bc7a28fe47cfee8385afadd9bad5e57261ef0b94d4482");
   ([], ["000102030405060708090a0b0c0d0e0f101112131415161718191a1b1c1d1e1f202122232425262728292a2b2c2d2e2f303132333435363738393a3b3c3d3e3f404142434445464748494a4b4c4d4e4f505152535455565758595a5b5c5d5e5f606162636465666768696a6b6c6d6e6f"],
    "8ed47b55bcc61475f0168492ef3eaae93454d4ea86303af4948ce65963f87c5d23339f17bfbf5aeacf6b9c12dd79f7ef6fbd58bbaf8536e2479095903da79a9ebd0610f7c40418792a7111a10534878d2918b08319af1e69b0fe2fda8960f081f9f589f2fce6a9c8ec3761c8396c69efa8dba298f524bddaeb49a27bc1593c6a2a26e75f08bcee8d73c521eed61df37dcfc71ea9d6c18b31d350d0f65150a64aa3dedd64df2ae5dab417299e7464a5e5c0bab2e7e164c930ff54bfea8dc63f53879fcb6ca0dc8a38d07af57bf55f09f59398eee39b35e6a047e565fed1c61f87ecd587fbdf950c050d8239cc3dd18a13adaa538cf91a7d92b4baf40453b9bc8b64");
   ([], ["000102030405060708090a0b0c0d0e0f101112131415161718191a1b1c1d1e1f202122232425262728292a2b2c2d2e2f303132333435363738393a3b3c3d3e3f404142434445464748494a4b4c4d4e4f505152535455565758595a5b5c5d5e5f606162636465666768696a6b6c6d6e6f707172737475767778797a7b7c7d7e"],
    "d2f02db5544bf0e5555ca93c5156acdc66f0dac24ff9ab3e137454fb2ea65a0b6cb73a478c545e9b3db0ed2b962d641e9f59031e8c703399ab9f51016c148f387b2433a22a61096ea4a5685638871c88463b59a53311418f898a3250797c887e9ed9394459cc26931bbfacdb890bacd0d1c4a8b2a668ee76522b3bc87969eac2d2586de55cd9b51cd100ce85e88d93c2b3fb9d3c68ec93ff41a46eaa31b4f58da2e6de71a5adfe823ee4d6b9d654dd4a1c1091054a5e649a7b6ecda6d76d2a1da7e824fecc38e5b5bdaf128b4eee7c568561efc6f6234ccbc0da37825bfec9104e3e0a7fb05307aa3026da898b3172f95c1473c7529950f2c413b85ebeb168cb83");
   ([], ["000102030405060708090a0b0c0d0e0f101112131415161718191a1b1c1d1e1f202122232425262728292a2b2c2d2e2f303132333435363738393a3b3c3d3e3f404142434445464748494a4b4c4d4e4f505152535455565758595a5b5c5d5e5f606162636465666768696a6b6c6d6e6f707172737475767778797a7b7c7d7e7f"],
    "4c3d77d861c49f642a072e2c139febf831d054e2694454841780a0bd1a556417bf71972fc1d8e57374b09582f545e9bab44e08e76d431765a316f9ac0a1aabffb8607ac830afd8a82c7052f3416dbcc0ccd0ebbc8ee8bbb56cd2a8e5577a40194c0f572664edde03db94d88b00f22fdbeef3ccbff6fbe6a38f0492bf511ac2088f93b124871874e602705dbdf6837ea66f0670e7a1a6a63bf6df53798df8ead656f42ea4d0f381e89873dc97efaea5fa5c313413403ba71d69f13ba48ca5f0ca406de7d4570a845d078e832e66c8824bdbe177539db383393e8260c740ec353e78ac8943ac0d2174534f9875493e63244f9d3c08fdd31b5aed59d65b3c8aa6f2e1");
   ([], ["000102030405060708090a0b0c0d0e0f101112131415161718191a1b1c1d1e1f202122232425262728292a2b2c2d2e2f303132333435363738393a3b3c3d3e3f404142434445464748494a4b4c4d4e4f505152535455565758595a5b5c5d5e5f606162636465666768696a6b6c6d6e6f707172737475767778797a7b7c7d7e7f80"],
    "175fe926395faf23b7cbf2c97b07d092e2075375e29c3d34c6fe05228b65d9facde19325f5d48e6af237cbe751bb703caefbe3d1b5942b1850648679133c2d8a6913ebd14a12f28fa308894a5f24b97420c9a8597d875676b5f92b66d67de2fe28a4f3442852ac72818171c3acbd583590669611d418f07d1bea029126740d1bf6f767ffa1f97531c028a63f2b973cd39433563dda9eb512d7bea18535eb6b97b8bd67dccab63054416786acf171bcf05b39f96ba431888c9b793be0da12742d81d5c93b35d6989627802044fd4d99470522756ba9823d09024358f33e68d63b4771b34e6ee2dc389cd439526b79a92b87f08d8c55cb6567b0cf2a47ecf19213c6");
   ([], ["000102030405060708090a0b0c0d0e0f101112131415161718191a1b1c1d1e1f202122232425262728292a2b2c2d2e2f303132333435363738393a3b3c3d3e3f404142434445464748494a4b4c4d4e4f505152535455565758595a5b5c5d5e5f606162636465666768696a6b6c6d6e6f707172737475767778797a7b7c7d7e7f80818283848586"],
    "c3d190f4cacbe114a53f7f3fcf4baf30cfaba462b9034eca839d79fb1277ea025ceebb90828fefd6494e2c859352adf1436d2c6a54a42a24b89efd0a69bcc12ba0df713df45a865fea47cf97d0a2b5eca1cac7f49a0e120462bca67b8be351febb05e23d698ebdb2930f316b1d48efcf496676b8e1887683d74ba7cac41bd37f45f047c46a4a85b8969377d36c4f57bd3a0dda63df45b6fa6e08bad8c4360735ffdafc135847dd927b7763283db9642013c03cd34453084701f4d1192e43dfa11e8739a172a02b96d4a2d322eccd35769fe13581242b4c0b8c39dd6700ccce8a03e5b4b22b99afe46a51e5d682f4422b6b83c1c73f4d07bfcb5db6043c90cfbac3");
   ([], ["000102030405060708090a0b0c0d0e0f101112131415161718191a1b1c1d1e1f202122232425262728292a2b2c2d2e2f303132333435363738393a3b3c3d3e3f404142434445464748494a4b4c4d4e4f505152535455565758595a5b5c5d5e5f606162636465666768696a6b6c6d6e6f707172737475767778797a7b7c7d7e7f8081828384858687"],
    "57c2d65d236a7953c6a8cd9936b3df942207dacb5d8ba33ac7661fbb8d5620676b5a38d3b6fc72851f05abb69c120e0b0499766f8fb7321e3e3f1f5d7932b426ff948f51002fd149226a56697ef6b8bc86d1c7c0905bc7c9d8cafb7f4591845699dc6d3c66f846e8108a2ae7d024b2bd8ce3e5852fc5cc86d613c0273ba31cd3ce5262b8b44311222dbb1beb7b961ff01a17fbdec4183a99a05d3571ff3226040e751865c60274d2e6abdb9b47b28b19b2237bc09870d57a124bac3c4de3a02339234b9ec9fba7016e30b152a16381bf3ed3b217bec18364da3ee0b43281732c40a49121ca61864401e16e61cdb4c11429f0d7c5c69d9f743b426bb8536a82fbd5");
   ([], ["000102030405060708090a0b0c0d0e0f101112131415161718191a1b1c1d1e1f202122232425262728292a2b2c2d2e2f303132333435363738393a3b3c3d3e3f404142434445464748494a4b4c4d4e4f505152535455565758595a5b5c5d5e5f606162636465666768696a6b6c6d6e6f707172737475767778797a7b7c7d7e7f808182838485868788898a8b8c8d8e8f"],
    "45ec843d587f1de91db8dfda0f608b6cc2c44d325c9a58aff03627523868a1cd461004674d39040fac966f5bbe543568b17c7781206db660e084821e86170cb0545ede9364a8fd3711812ea50b49905d228495685025ff143c95d8c37d8e015ee9de9fca51e206f7015824c61efa8b5555812c1733a4386450460eee4c573e4ddaf52143a76304dd905239498af7a7ce33c67dbb4b619584b4cb7919870b006f1f4df080e8be64c5e12febcebd57e23d2a4f6673e5a2e9376ae2b0a6bedd65412a3606d1c42f374dd39e51e410f0336d56997115b7985bccc8de1ae5251890ea30832ac3d744569a470973e96ac921254e5d8b3d42eb252e666c2ad9afefd5b440")].
Example repo_blake2xs_2056param_ok : repo_blake2xs_2056param = true. Proof. reflexivity. Qed.

(** test/testvectors/blake2xs_256.txt, 16 of 257 vectors. *)
Definition repo_blake2xs_256 := Eval vm_compute in replay (blake2_type 32 BXhash 256) ((mst 9 64, 5)) [
   ([], [""],
    "f4b358457e5563fb54df3060aec26ea3aa1c959cf89f55a22538117ecf708bfc");
   ([], ["00"],
    "beb92a5f3c192dc7098a8505ad6eee04f15488dbb41efcaf012f9b912ad0cc9c");
   ([], ["0001020304050607"],
    "e1ad2de9a1c0c95cccd3ace55434ce1abb699e59b8a06433876447c6c295ec2c");
   ([], ["000102030405060708090a0b0c0d0e0f101112131415161718191a1b1c1d1e1f202122232425262728292a2b2c2d2e2f30313233343536"],
    "0c2f5042bb35ce74d7c1422fecf2b2871afc5be85c4ce137d312e02c224d53aa");
   ([], ["000102030405060708090a0b0c0d0e0f101112131415161718191a1b1c1d1e1f202122232425262728292a2b2c2d2e2f3031323334353637"],
    "8ccbe8adb39b3c57ee934869ac23d09a84afb514772a1ed5565f4c5c4df41e00");
   ([], ["000102030405060708090a0b0c0d0e0f101112131415161718191a1b1c1d1e1f202122232425262728292a2b2c2d2e2f303132333435363738393a3b3c3d3e"],
    "5b76b9fec5e7175a1794a01a25415c5a29891171d133f0a41e6995b4b32cabe3");
   ([], ["000102030405060708090a0b0c0d0e0f101112131415161718191a1b1c1d1e1f202122232425262728292a2b2c2d2e2f303132333435363738393a3b3c3d3e3f"],
    "7390b8f66b5abb4a8412d666b39355bbbca5c94940576a4761e4be6fef7b1488");
   ([], ["000102030405060708090a0b0c0d0e0f101112131415161718191a1b1c1d1e1f202122232425262728292a2b2c2d2e2f303132333435363738393a3b3c3d3e3f40"],
    "f7355fc79e4d0c1a7a27da8c2415460ccd608c22324049a9d63890d979b96060");
   ([], ["000102030405060708090a0b0c0d0e0f101112131415161718191a1b1c1d1e1f202122232425262728292a2b2c2d2e2f303132333435363738393a3b3c3d3e3f404142434445464748494a4b4c4d4e4f505152535455565758595a5b5c5d5e5f606162636465666768696a6b6c6d6e"],
    "66633d93fa44c81c6c257296647955a8df52b6b56ade983163bee716be12ec53");
   ([], ["000102030405060708090a0b0c0d0e0f101112131415161718191a1b1c1d1e1f202122232425262728292a2b2c2d2e2f303132333435363738393a3b3c3d3e3f404142434445464748494a4b4c4d4e4f505152535455565758595a5b5c5d5e5f606162636465666768696a6b6c6d6e6f"],
    "323750e888dc8d898577f8c8fc9289d2ed7686d7171385b658380c87a7747c3e");
   ([], ["000102030405060708090a0b0c0d0e0f101112131415161718191a1b1c1d1e1f202122232425262728292a2b2c2d2e2f303132333435363738393a3b3c3d3e3f404142434445464748494a4b4c4d4e4f505152535455565758595a5b5c5d5e5f606162636465666768696a6b6c6d6e6f707172737475767778797a7b7c7d7e"],
    "87d2b5535af1dac05ed362915940fcc393494ba3bb85a62a74947e8dbd62d242");
   ([], ["000102030405060708090a0b0c0d0e0f101112131415161718191a1b1c1d1e1f202122232425262728292a2b2c2d2e2f303132333435363738393a3b3c3d3e3f404142434445464748494a4b4c4d4e4f505152535455565758595a5b5c5d5e5f606162636465666768696a6b6c6d6e6f707172737475767778797a7b7c7d7e7f"],
    "5cc6e59950864b8319d7ce3833e819ab4cad50ebf39263726bf6d4a9fe4ad664");
   ([], ["000102030405060708090a0b0c0d0e0f101112131415161718191a1b1c1d1e1f202122232425262728292a2b2c2d2e2f303132333435363738393a3b3c3d3e3f404142434445464748494a4b4c4d4e4f505152535455565758595a5b5c5d5e5f606162636465666768696a6b6c6d6e6f707172737475767778797a7b7c7d7e7f80"],
    "a23974a1169d7cc7cdc92b8fc17b28adfa750d80bf807b59ae96519f8fb4561d");
   ([], ["000102030405060708090a0b0c0d0e0f101112131415161718191a1b1c1d1e1f202122232425262728292a2b2c2d2e2f303132333435363738393a3b3c3d3e3f404142434445464748494a4b4c4d4e4f505152535455565758595a5b5c5d5e5f606162636465666768696a6b6c6d6e6f707172737475767778797a7b7c7d7e7f80818283848586"],
    "f514956af18becda787bece2478f91fd91fbadfdae7d4ca1a4b8762a095f663b");
   ([], ["000102030405060708090a0b0c0d0e0f101112131415161718191a1b1c1d1e1f202122232425262728292a2b2c2d2e2f303132333435363738393a3b3c3d3e3f404142434445464748494a4b4c4d4e4f505152535455565758595a5b5c5d5e5f606162636465666768696a6b6c6d6e6f707172737475767778797a7b7c7d7e7f8081828384858687"],
    "72c3e562c09d6cb4678fcb63ccaece7336d5a456fe413cc6d68a50f03af92955");
   ([], ["000102030405060708090a0b0c0d0e0f101112131415161718191a1b1c1d1e1f202122232425262728292a2b2c2d2e2f303132333435363738393a3b3c3d3e3f404142434445464748494a4b4c4d4e4f505152535455565758595a5b5c5d5e5f606162636465666768696a6b6c6d6e6f707172737475767778797a7b7c7d7e7f808182838485868788898a8b8c8d8e8f"],
    "40eb82997a6e67c00af4068c0f93d14c1e2189e58bb6afeaa4d636fb6991e030")].
Example repo_blake2xs_256_ok : repo_blake2xs_256 = true. Proof. reflexivity. Qed.

(** test/testvectors/blake2xs_xof.txt, 16 of 255 vectors. *)
Definition repo_blake2xs_xof := Eval vm_compute in xreplay (blake2x_xof_type 32) ((mst 9 64, 5)) [
   ([], [""],
    "5390f558b3986863ca6623a0d01e23e6ff026175069fc55b27b2454fa09772c87da0040718cdec056149f5f30093309f894c081e0820eb293f51c480eab227f19dabcd6da545a616d69fef71102ae4aab7aa99c971ed7252eafc8cf0941c359fea1cb3e52281f32108968c397de9e46564ffbbd8f12ceb38069bb6003c1604dee461099b9c51e8fbbfdd457fa59eba98537a25f81f7bf256a84b947603e0b3f31708a2e8cc5086f1dc8e0f347330aa173dcaeaac36a472529ca14d9ba53c38a0572888ba5576bc25380e92100c57544dd5d4cde4a6ffeac8f331492e9cdf09eb1960b8bde6316e5187a2bab02c841b71b1a84f0b3f6e9a65e002d38bf72c3b8c5a");
   ([], ["00"],
    "65a924da91c24346e5bf5b8cba58929ebcf31fe3587c5801d4ef58dba971a9a7e386a809d087ec83bbbda0b2c0bc29f685900065b9c80a9832628722377d39964b56f5803fb98c68d8e18c74dcd8b0e9792be8903ddd93deac52350fec0b05464119697a24c96c6f302eedde8ebf901ad349f8540eac9f14ee0e473b180233a91b0a5303f3d477fd5307f423905ae410aaf643f7c0afa2be46593b06b22ffcbe55dece5bc76cc10b5d9aed60841265d222d438673053c4c9e44ceaf9b3ba478e1d643438bed8513775bd7de59601f8445feaa5620333b4a0ddaa58bd4a33109f88ab8b0c7adee6e690737b6998acfbb908e6d1c5db6c1686c7bb5cdf3b84c11cc9");
   ([], ["0001020304050607"],
    "c671e2d802ceecf92cff50d70aaf33d59c182ad4780789743d53e00035310697a1107a01c5929a6ba4fe2b69032afdb501d360e3db63428ed0495217ca6eb8b663fc2e8a99137d41f32bd8b011f0382e3d985e70f95fda3498f79d77e5b0b53c8b8d96d5935b5236e313f77ccb6fb48676803ed2ce71edd22fd659f0a14af9604b483460f2ed53323c7ba2c726ec924499b00bd1f8a64c4d84c52d68a18d984cf6b1fe11767422c933dcde8b3f79f9fe7ec54f36906d9124cb26b0080fc6ebdcedffb5a02fe823d20c550d7d8190bbaf41aca232981a03e814967f52884521ff4bcdb2a8f3f9e62a3d0deab661a6a9a549bb32c7da8608ecc446018e059039beaf");
   ([], ["000102030405060708090a0b0c0d0e0f101112131415161718191a1b1c1d1e1f202122232425262728292a2b2c2d2e2f30313233343536"],
    "c5a9690c2fc5f89b4d89bb8bd30b62ebf8133221391daa2c5e08859eccc371fe3019bb13797e7dcb19f1b9871b66fbe81280b1c1d43c6c4de0ed94ddfc3380253ed31fb022931721f23456fbd13590084a0d08176bcadb77d759a2d9af280c323efd7f7adf50800a1e44dc7dd57d2f886bab2e34f9d050781baaa05c34e649b0a0a5cc93faac707110e3e44211e54fdbee7adeee48bc6dda179ae9923b310e42dc68d7c8e0fab709c79720be78e01191b5ae7fa3e9ce1c4d827a9503f9f9490584d6a0bf719e63d25e841f7b7b5a738076034c160dbbb2b24a05c440cbac59778a27c03508f641c325ed89dfaa3ecdd0cca7af90f89605fd2a2a0cef901cce5f59");
   ([], ["000102030405060708090a0b0c0d0e0f101112131415161718191a1b1c1d1e1f202122232425262728292a2b2c2d2e2f3031323334353637"],
    "1f3503f9795799192d44f819409a2a9710b543be7594fbbe6e0f4db5b0fbf74cd955677bdd5851a866d55ed2802479e789104d0c6075fa7a3b154e488ba275843efb81bd21c216deb63cf519f52e4879d3acb6950ddc519b6d47ae2c8e61a29e61cd6769d7dacb64e330f3cf12c1af81729cfdf1ea3d228641d3463d046e9ab2cd15255f074d1dc91cba467fb427f99c271b04dc5a52bfad71114d4d5920437935a71271f40422e6ead62355bb4f2626da8e435b9221e85826ac1b13e7b53a8fdd32b30388a3736de66cf6ea76df38fcb645e5e5a089dfff61062d80ffaaa4246792d63647ca62be30f80a31ec56bced89c7ae7b14e9b73b9ec348eec7ad420319");
   ([], ["000102030405060708090a0b0c0d0e0f101112131415161718191a1b1c1d1e1f202122232425262728292a2b2c2d2e2f303132333435363738393a3b3c3d3e"],
    "c6acaa4b00c451ff43034e4e471b7e1a0c1f2e84a63cba17d8db2763732a68698e24fc812f0378152e210f77df80e16711e3b10e249a4c654acf28e4cdf88c497051d7f48ad0b5ff476389855df842a2191ce43cb5e7ce98fa6b1fc404df8bdb349ae587a6943f3b29dc1ffa5c3d91480db3350bc85a1efa7d892745e58f7cf82e504b7d6807d7cfd7079d7f3a32f669356ff2f258075f756c7593ef99a7529115cc2399b1676ab155b9d665e95157d62433390354654ab234c840d4a5b99bcbc136aae33b631d09002bf7d9bd6b82214e14c48fdfb732641fd0d8a887e9c027410ca13dc52925d107c0865c7796828526c98de524ef0d36769bbd42f555976d07");
   ([], ["000102030405060708090a0b0c0d0e0f101112131415161718191a1b1c1d1e1f202122232425262728292a2b2c2d2e2f303132333435363738393a3b3c3d3e3f"],
    "ce37156a8f3dd76fd130034faa15be598bacb72d4b76089809adf8ae953480193780137ccdb034f82b8da0e290ba95a37efff1761f146d4f758d33108eb57df9c79fa3f421457e21cb1bc64d239d17745be631a7030c4867f0eb2fb4542e99d597a2e082724dd8e5bdbc9b827ef6eb3fc0efa9807aba802d092821c3e93293e099ce4f9f13900b4d0a508e4bf9950f6f2141e4ca7476616c4161fb52129088b3738fc56fa1ecc2f7adaf476d3bf9ec478d96a433a28fe0bec35f4b0515317578d131a689b43022ae9ae2b5c4565e3492b206284315b0ba47fbcce260efab0e81aec88853d4878f1635337145914604a60d3733357da68f1960be2efc3193285349");
   ([], ["000102030405060708090a0b0c0d0e0f101112131415161718191a1b1c1d1e1f202122232425262728292a2b2c2d2e2f303132333435363738393a3b3c3d3e3f40"],
    "3796fa7ed855e638fd2753fed14a905f47ab04ba589de6425b664055a3a608db010566eac2d03b13e219976b17db4115969d95bf81ee7f5627892febb7c39e4bef785d56bae79cfa4d201aa06ae01acfe3f33f9c805865d7a6b3076c16bfac4e9123647cbdaccb9d5a7b741a36d37a6abfec7e1019f29f62c83f38509f877dc1f5e8ca36656ab22b3c159b72956383763a64cb46d8117bf042864d7f347febbaaa916c4fe30f982327b363c1fa0623fed675c921258cbe88f4c0735879c5d8411c38107124a618eac14f6a7419e22527f0ffdc8b6cd380ae23e300444cd5b7c12b70b35fdebca92eedb3e256aceadf8a06f1808796b804817966426db8d358d8f8");
   ([], ["000102030405060708090a0b0c0d0e0f101112131415161718191a1b1c1d1e1f202122232425262728292a2b2c2d2e2f303132333435363738393a3b3c3d3e3f404142434445464748494a4b4c4d4e4f505152535455565758595a5b5c5d5e5f606162636465666768696a6b6c6d6e"],
    "880798c361612e83dffb4473bb25136ad96705de82b540a345875d984cec6fd158fbae207752ebda85589ef405fd3b01a860d6b8b70dae2d7de3ee67408774bdfa8dd6e0dab8a03229372e2254f27bed225bbcc26e283b9ede5fc273c0b990564bdf98311b7e859f5179f0cec513d35ed113e66657f48ba37f6df38e7a31a3c56eaad9e9410718bfe7ed128a1a761450ff72b11b8a2a2d492baf973dc0298f915c9257eaa93d478c1356406b02b95208cec0ca2d166f31ac409c94e8b7355fb399462f01b83e30d395de64b3f7c838d991cc4d3cb058cf13fd0d321e9d6602993b19c554d92bdc261f328579a4b390ff6dd4d0d9f649ab26f8c890deb2431dfa79");
   ([], ["000102030405060708090a0b0c0d0e0f101112131415161718191a1b1c1d1e1f202122232425262728292a2b2c2d2e2f303132333435363738393a3b3c3d3e3f404142434445464748494a4b4c4d4e4f505152535455565758595a5b5c5d5e5f606162636465666768696a6b6c6d6e6f"],
    "e8fd343f15a59d126431072d2f59959458d30e76fbd718b0bc3b5bf86184316b13a5faf51fb67dd185a8e960ea65bafe2021d40fd36d1b21e547209e8c039f04f2a24477973745b5c356a2b48896a87ae2db47643b7d3fbc41cbd2aadb361952eea0fd7685e8407606bbd807accb482faad701a35b8fdf1dced7d2b1ff85d04d55e0ad2d35fe48e5a19d26a817adbe0062cf1af736d7841a373bbd27a96ee75c73a09afa3644fe7ad3bd0b3db544087e3b13e97130f559f82d22fde74587981d0586dd31d6a086b5d2a89572a850705303cbc08e96dc3f1a44acc7f22544c2bd80a9de687aef007a8ad85f356e1cf4eaa855cd7dcd67e5c150a2802079015e221e");
   ([], ["000102030405060708090a0b0c0d0e0f101112131415161718191a1b1c1d1e1f202122232425262728292a2b2c2d2e2f303132333435363738393a3b3c3d3e3f404142434445464748494a4b4c4d4e4f505152535455565758595a5b5c5d5e5f606162636465666768696a6b6c6d6e6f707172737475767778797a7b7c7d7e"],
    "746420dc4aa73134e61b22952bca8b4787e089a7ac3f9c9c5b316d05c73170502c13624a8a737a3ccf871c0514da84d8a878c23e70fa81b43b4e7cbe92f2a4502450f217a1c93628caa42568531f3d8c944801bf95ef0afb45ce9fb224351437038ecfb3fe5ac9e763e83bc03e33cd65017c2a803b0010280d3ebb30f50fb08c1778727e37a5b6544cfde138e5b5419a0270dab5ae9acafc9d1200c29076c8bc82e9e26a893f28e7b276ccc0eded6400a727e2495136d07efeb86022fc0f1e09b1f7ffb7d4db7c35bfc24a466121f90252255d93ce75cb0e886dfa0d9e0020de58886facaf9c333cdad07e3f827cfd0cdb6f62a5e213854788efe4ae324d3bc8cb");
   ([], ["000102030405060708090a0b0c0d0e0f101112131415161718191a1b1c1d1e1f202122232425262728292a2b2c2d2e2f303132333435363738393a3b3c3d3e3f404142434445464748494a4b4c4d4e4f505152535455565758595a5b5c5d5e5f606162636465666768696a6b6c6d6e6f707172737475767778797a7b7c7d7e7f"],
    "b1dd42734c4e430fbdbd886552bdd450adb6b8eb043f43316d8fcc6dfd11de411e54b8681bec59551c80e7386c9c4c7ab9cbcad2ad962584af05806c6d0e8197f592529c2fb9ffc360b386147c0acecc07d6221bddea9654d9dc65fbe123f7c99f811728ad843d8cbe0cfc0fd124c49628480662a8df094c0b61c191944a6ec47eb381bad01ae388e13036ecf63d20f1602d327af2b1ddee2b09a16bb6dac79bb1456ae2e0261f14ecbaec5cf71e81fd065eefb20fe410ee318724e33c17788fa0c144e19f5687c2a3d3cd4b15357ac757be20abfad391bb98c42f66f73ca9e8cd454930ae16af41787a82a636e0ca0fc5876f05c7dc2fdd43d6465d8ad66abcf0");
   ([], ["000102030405060708090a0b0c0d0e0f101112131415161718191a1b1c1d1e1f202122232425262728292a2b2c2d2e2f303132333435363738393a3b3c3d3e3f404142434445464748494a4b4c4d4e4f505152535455565758595a5b5c5d5e5f606162636465666768696a6b6c6d6e6f707172737475767778797a7b7c7d7e7f80"],
    "791e63233d13aee4e4b7af440580d0464ce0feeecf6351768c8b1e949c86b3932e51d5472b1d6ac68bcfbc5b8a27dd00fc7664db6e4077d29e11e4192317803bb25d316f36768f4a73dea1915c936b80165e2ff32e27fd60fe00214c03a52c75f7da490b5f948f5881379ce2e9257c835990d9dac3d86dfc41ed3648193afcdb53549a9524a594e9e6ab9e66485974d5a6497672d62eb15e5484f70449661d8b50a4e86d66b2219a2e92e35f736ff3c44496567ddb6f3d0d03fba96f593d959a63e6be3685207446376bcea36ed69e5c7e6d0f2dce8ad756ca73c0e671e505b56768fd4d3556d0e784da802e2e6b5ebb22c44bfa6d120c3932ed8033d06a7f86fd");
   ([], ["000102030405060708090a0b0c0d0e0f101112131415161718191a1b1c1d1e1f202122232425262728292a2b2c2d2e2f303132333435363738393a3b3c3d3e3f404142434445464748494a4b4c4d4e4f505152535455565758595a5b5c5d5e5f606162636465666768696a6b6c6d6e6f707172737475767778797a7b7c7d7e7f80818283848586"],
    "a955e8d80148ee9abe1a357e6573e90451489bd7fe443d39e66849f8f79c1bf249609d77983b371cf24aa730db1449156e2ec4d30187f41a95346336766d79e55003c0a23c31e8969dd811b7872d40ba1c03c2b7688ab19fa4b46fbb42d38359f5c4c9b021a0ea6d2dbd1dd972f8c2d276198f8ca7b389baf2cad8cc648209d2bf8c75c705f089db5d14e32cdf0294c5e8b5a480144364cdd02757a86a8dc2fd54cdc42f0298abde5586ceb20c46e3d7635686fe2939c2ab935fe7861f60783d7e30205b73395b3d45e3a2a70d437a7d0f78f12f7af78c7efb8b397d35ee905ae3e4b02f9eeb7e9fdd54cc58df8180d04952f16eab0889610b116143ee31618393");
   ([], ["000102030405060708090a0b0c0d0e0f101112131415161718191a1b1c1d1e1f202122232425262728292a2b2c2d2e2f303132333435363738393a3b3c3d3e3f404142434445464748494a4b4c4d4e4f505152535455565758595a5b5c5d5e5f606162636465666768696a6b6c6d6e6f707172737475767778797a7b7c7d7e7f8081828384858687"],
    "bf01af8f4b0cbe7559ae433eb27b111bddd285a5fc6783c26122a60f0e720bf3467ad4e559778064c424cb28c7cbe8c42c0149da9c5800b0609df41886687e5f6f4310334e11d2d955cfa1e235398efd55c8f9548a96032bccdb4083bc8dda1566113db7557f39c8b2d354a4f9a876146fae4cdc402631038672e5181827fd102688ad2c12be1f9d228ec4b298de2f99526e9a6c5145120bf9811439778b0fa1a58b1a2f868b6ce1bbe1cfab4e8243e5377b1ee089293fe0a054d1ff23310dd40f6a2ca90f179004bfab16824704031caed3ff850379296fa133806b477b0e1ba6f27f3168adf038e253462e406d5088598a33c5ae4ca2931bf73079f0de232e6d");
   ([], ["000102030405060708090a0b0c0d0e0f101112131415161718191a1b1c1d1e1f202122232425262728292a2b2c2d2e2f303132333435363738393a3b3c3d3e3f404142434445464748494a4b4c4d4e4f505152535455565758595a5b5c5d5e5f606162636465666768696a6b6c6d6e6f707172737475767778797a7b7c7d7e7f808182838485868788898a8b8c8d8e8f"],
    "58c214eb5e2fbad603b2c9765eab8e971445e12a176c9e1df7ef444a76b2b10c716d7261c00d69253db5bc2de87332ece472d26bebdaaa2d87d0c83b1999e3af4f652635253d4ec788bfef0d3d9c95ebf64db99a1b1f53ae9e7d63246b247777c65920947f8f247ecd64a7187b76056126333fc4ef84bd9519a607895a8048d4acbce2c7434609811d6fe0087e472ec082818a23dab44dbdbcd604d2ae32eb417e78639e993ab7a9a2b2291d0891c8ae8a27b0f989eb8d8ab5a9c91b70b7f8e0192ffb2e3b35edf2fa102a6392764dfd5da355d11c41ddb2f57d166ff622e8e2d5fc7193c3c68602eb698b71e8c087359f6bfacf043544b89b6bb33b28a01fe714")].
Example repo_blake2xs_xof_ok : repo_blake2xs_xof = true. Proof. reflexivity. Qed.

(** test/testvectors/blake384.txt, 16 of 321 vectors. *)
Definition repo_blake384 := Eval vm_compute in replay (blake_type 384) (mst 12 128) [
   ([], [""],
    "c6cbd89c926ab525c242e6621f2f5fa73aa4afe3d9e24aed727faaadd6af38b620bdb623dd2b4788b1c8086984af8706");
   ([], ["cc"],
    "a77e65c0c03ecb831dbcdd50a3c2bce300d55eac002a9c197095518d8514c0b578e3ecb7415291f99ede91d49197dd05");
   ([], ["4a4f202484512526"],
    "de8220a9b59327074de5934db1e4784b5a3699c5693ca47c7411a5cd05688bd2581d1bae8c32b05ef7d057812603c0c9");
   ([], ["de286ba4206e8b005714f80fb1cdfaebde91d29f84603e4a3ebc04686f99a46c9e880b96c574825582e8812a26e5a857ffc6579f63742f"],
    "a61f716166653a3bd743231ebf1eb0afac0c1880c7ec9c834cd282c069263b31b8abd4a44395a326f4ff587b990fa8a8");
   ([], ["eebcc18057252cbf3f9c070f1a73213356d5d4bc19ac2a411ec8cdeee7a571e2e20eaf61fd0c33a0ffeb297ddb77a97f0a415347db66bcaf"],
    "7ca4372641c7ee1233e813391fdb28cf4877ae2100a229a3d4df0551a5c4c14c4ced0861a5b7eaa60e62252a96502da9");
   ([], ["f57c64006d9ea761892e145c99df1b24640883da79d9ed5262859dcda8c3c32e05b03d984f1ab4a230242ab6b78d368dc5aaa1e6d3498d53371e84b0c1d4ba"],
    "4938f0f3f7f64183afcf52138623b15a672d6f1db0c8b7b7c2b8c9dedbd741e3963d829696e8ad866ac7aa58b9196fec");
   ([], ["e926ae8b0af6e53176dbffcc2a6b88c6bd765f939d3d178a9bde9ef3aa131c61e31c1e42cdfaf4b4dcde579a37e150efbef5555b4c1cb40439d835a724e2fae7"],
    "c6610ebb4fd0433a61ae16ecb61cb161c14d8e6317caedfbd10d07470ddc83e7ff0872aaf440998fcd88abc8ca69d353");
   ([], ["16e8b3d8f988e9bb04de9c96f2627811c973ce4a5296b4772ca3eefeb80a652bdf21f50df79f32db23f9f73d393b2d57d9a0297f7a2f2e79cfda39fa393df1ac00"],
    "4ad239a060bed281126e941de11f3ac78d2db6d4df4d7c1b85db4fb53439efec7a91c155b5bd082fddeaf7765f298575");
   ([], ["f690a132ab46b28edfa6479283d6444e371c6459108afd9c35dbd235e0b6b6ff4c4ea58e7554bd002460433b2164ca51e868f7947d7d7a0d792e4abf0be5f450853cc40d85485b2b8857ea31b5ea6e4ccfa2f3a7ef3380066d7d8979fdac618aad3d7e886dea4f005ae4ad05e5065f"],
    "10b485a54f643131d18647ed8ddebd36f3d403ccf658d477dceab018b349814b90939ed19b5978f3e6a980e94b966b5d");
   ([], ["58d6a99bc6458824b256916770a8417040721cccfd4b79eacd8b65a3767ce5ba7e74104c985ac56b8cc9aebd16febd4cda5adb130b0ff2329cc8d611eb14dac268a2f9e633c99de33997fea41c52a7c5e1317d5b5daed35eba7d5a60e45d1fa7eaabc35f5c2b0a0f2379231953322c4e"],
    "b0661bf4d2aa466d905c36fd689c0da1eeb23f750f5cae4bd9b4938b8e5e9f6db37df95c8f031411cf54c22e858ef694");
   ([], ["a62fc595b4096e6336e53fcdfc8d1cc175d71dac9d750a6133d23199eaac288207944cea6b16d27631915b4619f743da2e30a0c00bbdb1bbb35ab852ef3b9aec6b0a8dcc6e9e1abaa3ad62ac0a6c5de765de2c3711b769e3fde44a74016fff82ac46fa8f1797d3b2a726b696e3dea5530439acee3a45c2a51bc32dd055650b"],
    "3bc7d07a5c87e63c30341cf290d3c21205a6230956a8657b56053dbf0ac2518bb505690024ac7be4463861a89e100d3e");
   ([], ["2b6db7ced8665ebe9deb080295218426bdaa7c6da9add2088932cdffbaa1c14129bccdd70f369efb149285858d2b1d155d14de2fdb680a8b027284055182a0cae275234cc9c92863c1b4ab66f304cf0621cd54565f5bff461d3b461bd40df28198e3732501b4860eadd503d26d6e69338f4e0456e9e9baf3d827ae685fb1d817"],
    "71d25053787827490d86a4d70927c2fd9049b0d9a933df239b870919ca6b0979a9964aa9f934045d0bdb36d66d51a923");
   ([], ["10db509b2cdcaba6c062ae33be48116a29eb18e390e1bbada5ca0a2718afbcd23431440106594893043cc7f2625281bf7de2655880966a23705f0c5155c2f5cca9f2c2142e96d0a2e763b70686cd421b5db812daced0c6d65035fde558e94f26b3e6dde5bd13980cc80292b723013bd033284584bff27657871b0cf07a849f4ae2"],
    "9183593ac37732ae9741c9f0a1b8ecf619692a5fc936a6c7437475af0072e842132ccb5f7de4c4786065e35dcf5d5a02");
   ([], ["b771d5cef5d1a41a93d15643d7181d2a2ef0a8e84d91812f20ed21f147bef732bf3a60ef4067c3734b85bc8cd471780f10dc9e8291b58339a677b960218f71e793f2797aea349406512829065d37bb55ea796fa4f56fd8896b49b2cd19b43215ad967c712b24e5032d065232e02c127409d2ed4146b9d75d763d52db98d949d3b0fed6a8052fbb"],
    "e09e83f49a413c08534fb8167e8933abfc54971f66de9d8d38243bceb260893845034808e6ee5a76a4d997d5cc91a0da");
   ([], ["b32d95b0b9aad2a8816de6d06d1f86008505bd8c14124f6e9a163b5a2ade55f835d0ec3880ef50700d3b25e42cc0af050ccd1be5e555b23087e04d7bf9813622780c7313a1954f8740b6ee2d3f71f768dd417f520482bd3a08d4f222b4ee9dbd015447b33507dd50f3ab4247c5de9a8abd62a8decea01e3b87c8b927f5b08beb37674c6f8e380c04"],
    "eea448cb8bfbd5013a654f710772c72ceea13fa33b0f5e1458ae8e84e4a36c4329a3494fcd72b6ff8a6314bd981f36a5");
   ([], ["157d5b7e4507f66d9a267476d33831e7bb768d4d04cc3438da12f9010263ea5fcafbde2579db2f6b58f911d593d5f79fb05fe3596e3fa80ff2f761d1b0e57080055c118c53e53cdb63055261d7c9b2b39bd90acc32520cbbdbda2c4fd8856dbcee173132a2679198daf83007a9b5c51511ae49766c792a29520388444ebefe28256fb33d4260439cba73a9479ee00c63"],
    "8f2caedfcb5a7b1ce3cf228992d70e74bc7bb519d549b12af4ec32a95a18b64434bf234a2b2b479a5812c7a30d98491d")].
Example repo_blake384_ok : repo_blake384 = true. Proof. reflexivity. Qed.

(** test/testvectors/blake384salt.txt, 16 of 321 vectors. *)
Definition repo_blake384salt := Eval vm_compute in replay (blake_type 384) (mst 12 128) [
   ([(BlSalt, "000102030405060708090A0B0C0D0E0F101112131415161718191A1B1C1D1E1F")], [""],
    "a31b31c9d859a47ab8899f5c63160ee3ef23c3800aec341123f9f49b73585132fe54f7bbdcf08cffaf5d63e6979e4849");
   ([], ["cc"],
    "92db8a74e1a75b95f1e556200174cbcbef62710aa165d4104f9bef11dee645b268677ec5def9806f2010da7440333b62");
   ([], ["4a4f202484512526"],
    "ed404de54efe44832fe0777c9a60306f7373f963830a8771609eeec89508389865568a921510b77d308d50ed8658b924");
   ([], ["de286ba4206e8b005714f80fb1cdfaebde91d29f84603e4a3ebc04686f99a46c9e880b96c574825582e8812a26e5a857ffc6579f63742f"],
    "3f0b5522920b92e42ffa5c06cfedddceea914d70e41f587a45a857f46f3f5580022d5239e36c58ac96be4f2891b88561");
   ([], ["eebcc18057252cbf3f9c070f1a73213356d5d4bc19ac2a411ec8cdeee7a571e2e20eaf61fd0c33a0ffeb297ddb77a97f0a415347db66bcaf"],
    "ee7a32a3251cc621062c940445d06ab635820a155767fed27a75a8c700ba517680ccb43b5e36a77d9864c1fa84f51b3f");
   ([], ["f57c64006d9ea761892e145c99df1b24640883da79d9ed5262859dcda8c3c32e05b03d984f1ab4a230242ab6b78d368dc5aaa1e6d3498d53371e84b0c1d4ba"],
    "db5a22275d9e86de7d74a59357c3523b15dc898598e2721bc24ffcb228fb5686338cc566a28842224028e62c57d746fa");
   ([], ["e926ae8b0af6e53176dbffcc2a6b88c6bd765f939d3d178a9bde9ef3aa131c61e31c1e42cdfaf4b4dcde579a37e150efbef5555b4c1cb40439d835a724e2fae7"],
    "e92340d273aaeecfbb3d6a9fc8216db2afe6d7272ef709552fd54708e67c786fa7338c6268a69c220ee83b636909aa10");
   ([], ["16e8b3d8f988e9bb04de9c96f2627811c973ce4a5296b4772ca3eefeb80a652bdf21f50df79f32db23f9f73d393b2d57d9a0297f7a2f2e79cfda39fa393df1ac00"],
    "9cea580fe039d4a98282a9869c9040dcee7a721017b7ba06955a5bf6d1738470a114cf7919db6f022828876c3f859587");
   ([], ["f690a132ab46b28edfa6479283d6444e371c6459108afd9c35dbd235e0b6b6ff4c4ea58e7554bd002460433b2164ca51e868f7947d7d7a0d792e4abf0be5f450853cc40d85485b2b8857ea31b5ea6e4ccfa2f3a7ef3380066d7d8979fdac618aad3d7e886dea4f005ae4ad05e5065f"],
    "4509a7210c60787e46c63bedcbc04c01188977540286bde240a910024fa88b38c4a14fb248d56fd2ffcd8148b4e2b1f8");
   ([], ["58d6a99bc6458824b256916770a8417040721cccfd4b79eacd8b65a3767ce5ba7e74104c985ac56b8cc9aebd16febd4cda5adb130b0ff2329cc8d611eb14dac268a2f9e633c99de33997fea41c52a7c5e1317d5b5daed35eba7d5a60e45d1fa7eaabc35f5c2b0a0f2379231953322c4e"],
    "ef348afa17f12996a93eb50f30101e2bb14913d136ae8443bec67bb13a21fda1e27b78f0276d14ffb96fa76fbc70e87a");
   ([], ["a62fc595b4096e6336e53fcdfc8d1cc175d71dac9d750a6133d23199eaac288207944cea6b16d27631915b4619f743da2e30a0c00bbdb1bbb35ab852ef3b9aec6b0a8dcc6e9e1abaa3ad62ac0a6c5de765de2c3711b769e3fde44a74016fff82ac46fa8f1797d3b2a726b696e3dea5530439acee3a45c2a51bc32dd055650b"],
    "5c799b6b87d5b5046a7398531fb2821e94a5587aa5dbe8ffe1aba0eed0e1691687fe46472d9c185613fba01879cb009f");
   ([], ["2b6db7ced8665ebe9deb080295218426bdaa7c6da9add2088932cdffbaa1c14129bccdd70f369efb149285858d2b1d155d14de2fdb680a8b027284055182a0cae275234cc9c92863c1b4ab66f304cf0621cd54565f5bff461d3b461bd40df28198e3732501b4860eadd503d26d6e69338f4e0456e9e9baf3d827ae685fb1d817"],
    "f611934cd4f0588e4d71683edbefd218ca347056e4eccdba8026b87c1cc919bdff5645e28e185db2bdf4e43165fc6e8e");
   ([], ["10db509b2cdcaba6c062ae33be48116a29eb18e390e1bbada5ca0a2718afbcd23431440106594893043cc7f2625281bf7de2655880966a23705f0c5155c2f5cca9f2c2142e96d0a2e763b70686cd421b5db812daced0c6d65035fde558e94f26b3e6dde5bd13980cc80292b723013bd033284584bff27657871b0cf07a849f4ae2"],
    "2fd7dc79ed56364540ebe857b32673acf1fe58033fb66a22fd80e668ec12232703a1b3df4eb637445161cfdd48b017ae");
   ([], ["b771d5cef5d1a41a93d15643d7181d2a2ef0a8e84d91812f20ed21f147bef732bf3a60ef4067c3734b85bc8cd471780f10dc9e8291b58339a677b960218f71e793f2797aea349406512829065d37bb55ea796fa4f56fd8896b49b2cd19b43215ad967c712b24e5032d065232e02c127409d2ed4146b9d75d763d52db98d949d3b0fed6a8052fbb"],
    "714e71f69acef0cf7b766fb6aff0f5f593d44307cca24b7e9ac95d8febb904dfca94b20678388053a683cf440bb7341f");
   ([], ["b32d95b0b9aad2a8816de6d06d1f86008505bd8c14124f6e9a163b5a2ade55f835d0ec3880ef50700d3b25e42cc0af050ccd1be5e555b23087e04d7bf9813622780c7313a1954f8740b6ee2d3f71f768dd417f520482bd3a08d4f222b4ee9dbd015447b33507dd50f3ab4247c5de9a8abd62a8decea01e3b87c8b927f5b08beb37674c6f8e380c04"],
    "8191bfe18dd70f3b1c6af1923e645919d2eee39a0b7c34a9ee86965bc7a7257a8beb53a2d872ab29d0f88825618d0512");
   ([], ["157d5b7e4507f66d9a267476d33831e7bb768d4d04cc3438da12f9010263ea5fcafbde2579db2f6b58f911d593d5f79fb05fe3596e3fa80ff2f761d1b0e57080055c118c53e53cdb63055261d7c9b2b39bd90acc32520cbbdbda2c4fd8856dbcee173132a2679198daf83007a9b5c51511ae49766c792a29520388444ebefe28256fb33d4260439cba73a9479ee00c63"],
    "20cb3e2d9ddd568c81191db0df2a15991d79e3f1d63ef60cb3701cc1fc081e199c40fc06326ce983d5fb1d19ae682e06")].
Example repo_blake384salt_ok : repo_blake384salt = true. Proof. reflexivity. Qed.

(** test/testvectors/blake512.txt, 16 of 321 vectors. *)
Definition repo_blake512 := Eval vm_compute in replay (blake_type 512) (mst 12 128) [
   ([], [""],
    "a8cfbbd73726062df0c6864dda65defe58ef0cc52a5625090fa17601e1eecd1b628e94f396ae402a00acc9eab77b4d4c2e852aaaa25a636d80af3fc7913ef5b8");
   ([], ["cc"],
    "4f0ef594f20172d23504873f596984c64c1583c7b2abb8d8786aa2aeeae1c46c744b61893d661b0733b76d1fe19257dd68e0ef05422ca25d058dfe6c33d68709");
   ([], ["4a4f202484512526"],
    "e2069c9d8a33314f3bc22e519c80f08647ac238ece2d709e3904ce77097c7ec0f0a398f60c5667b26a76df8023e39c84c979f424539cb96b736440b854bcaf55");
   ([], ["de286ba4206e8b005714f80fb1cdfaebde91d29f84603e4a3ebc04686f99a46c9e880b96c574825582e8812a26e5a857ffc6579f63742f"],
    "939b3b16698f14b4de2c5e1894d8a75fa641188e5887e74511a128c005b135f04d00db30b82efd8e63cdc02eedca26d1c15f1cb50baab6db517521e154a0e11c");
   ([], ["eebcc18057252cbf3f9c070f1a73213356d5d4bc19ac2a411ec8cdeee7a571e2e20eaf61fd0c33a0ffeb297ddb77a97f0a415347db66bcaf"],
    "f6396e00bbdb23dbdc6ccb900a9ccc7ee6a15148ae291879d1665fbf10f63c87204ecaa1541a5ec8cc02023e3b8c09a9261411f80c26ef658fab3e032e16db86");
   ([], ["f57c64006d9ea761892e145c99df1b24640883da79d9ed5262859dcda8c3c32e05b03d984f1ab4a230242ab6b78d368dc5aaa1e6d3498d53371e84b0c1d4ba"],
    "7baf21fd1b9c1aa50cafc611fe640f33004aacb5dfa1baff3ddeb8360ce574ff0ca8bbabd694af4d11cac1e04bda44b729fa007e57c2d63841c95e0ef6daa4d0");
   ([], ["e926ae8b0af6e53176dbffcc2a6b88c6bd765f939d3d178a9bde9ef3aa131c61e31c1e42cdfaf4b4dcde579a37e150efbef5555b4c1cb40439d835a724e2fae7"],
    "ec1270cb5c96df2106a9c4f694ad6dc8d83a8ae1c375b613a447b95e2a09e76d1a32c73cae58ef8c6822ad7ba50aabba00f01de11ac3606fabb67fadbb5be530");
   ([], ["16e8b3d8f988e9bb04de9c96f2627811c973ce4a5296b4772ca3eefeb80a652bdf21f50df79f32db23f9f73d393b2d57d9a0297f7a2f2e79cfda39fa393df1ac00"],
    "ea6bd3422c8e5108ee70085e5626ded927efa7439f430e0c5d0b2bf78863d5f3c60591c24f8dde3cc13100cfdf31d96a4b24f1a45e49138aa8b2e4bd50446ab7");
   ([], ["f690a132ab46b28edfa6479283d6444e371c6459108afd9c35dbd235e0b6b6ff4c4ea58e7554bd002460433b2164ca51e868f7947d7d7a0d792e4abf0be5f450853cc40d85485b2b8857ea31b5ea6e4ccfa2f3a7ef3380066d7d8979fdac618aad3d7e886dea4f005ae4ad05e5065f"],
    "0043e39f7d08a1eb38a80712d6e6ce244fb1834bbf19a3e60a7bf9067de49a18cb6bcefeb3885c099eaadc8e9c8f04dad0c2a0599c61194ded218354f255badd");
   ([], ["58d6a99bc6458824b256916770a8417040721cccfd4b79eacd8b65a3767ce5ba7e74104c985ac56b8cc9aebd16febd4cda5adb130b0ff2329cc8d611eb14dac268a2f9e633c99de33997fea41c52a7c5e1317d5b5daed35eba7d5a60e45d1fa7eaabc35f5c2b0a0f2379231953322c4e"],
    "3909717a6f65c8e8cdc78dc446f53a44ea9d08993a83a51edeba291af3a0fa874ebcd758293a70f4b660bc3b7909004c73e8755dd72e12db2d60d102d9b2dd60");
   ([], ["a62fc595b4096e6336e53fcdfc8d1cc175d71dac9d750a6133d23199eaac288207944cea6b16d27631915b4619f743da2e30a0c00bbdb1bbb35ab852ef3b9aec6b0a8dcc6e9e1abaa3ad62ac0a6c5de765de2c3711b769e3fde44a74016fff82ac46fa8f1797d3b2a726b696e3dea5530439acee3a45c2a51bc32dd055650b"],
    "0b2cd74713892965dcaa2a32b9ee1b86b505b1e7bf90382353767c938e15784d754f197fc47348c8db58fb526c3680ede4fdd5bec8bb850b019906d454f4515a");
   ([], ["2b6db7ced8665ebe9deb080295218426bdaa7c6da9add2088932cdffbaa1c14129bccdd70f369efb149285858d2b1d155d14de2fdb680a8b027284055182a0cae275234cc9c92863c1b4ab66f304cf0621cd54565f5bff461d3b461bd40df28198e3732501b4860eadd503d26d6e69338f4e0456e9e9baf3d827ae685fb1d817"],
    "708dbd20edbd4cb8d1127e8ed75d8b89f7507c15b3eadbc8a2a0a352d8801dfda778d9c0a96b04c517cc8565ba28b6260b788a5ea0c8cd7091d3cc75036b412e");
   ([], ["10db509b2cdcaba6c062ae33be48116a29eb18e390e1bbada5ca0a2718afbcd23431440106594893043cc7f2625281bf7de2655880966a23705f0c5155c2f5cca9f2c2142e96d0a2e763b70686cd421b5db812daced0c6d65035fde558e94f26b3e6dde5bd13980cc80292b723013bd033284584bff27657871b0cf07a849f4ae2"],
    "5312a940cc8f82a2e575d486273788cfa9bc5d940e41c373a75b47db2b9847f09bd71c8f65fa15ff168ed1bb4143b09a8c4f678c23384e47754387842b5358af");
   ([], ["b771d5cef5d1a41a93d15643d7181d2a2ef0a8e84d91812f20ed21f147bef732bf3a60ef4067c3734b85bc8cd471780f10dc9e8291b58339a677b960218f71e793f2797aea349406512829065d37bb55ea796fa4f56fd8896b49b2cd19b43215ad967c712b24e5032d065232e02c127409d2ed4146b9d75d763d52db98d949d3b0fed6a8052fbb"],
    "ffad3f92f582e77813a7bb6e99b877e8d50e6ed211392345d4bf8f2ca5349d2aac686860d23635e3eea4c5ba45b38e35fbe34e5d4d6742553c1edefaebd5ab81");
   ([], ["b32d95b0b9aad2a8816de6d06d1f86008505bd8c14124f6e9a163b5a2ade55f835d0ec3880ef50700d3b25e42cc0af050ccd1be5e555b23087e04d7bf9813622780c7313a1954f8740b6ee2d3f71f768dd417f520482bd3a08d4f222b4ee9dbd015447b33507dd50f3ab4247c5de9a8abd62a8decea01e3b87c8b927f5b08beb37674c6f8e380c04"],
    "3a3decb9e8716ccb0478e688a7c988ba7a613cc329ec5ddf937d6574de328431450194d69cdd6c054d3cfc3fc5dca9f323151251c2a23f9fa2066e7ead09652b");
   ([], ["157d5b7e4507f66d9a267476d33831e7bb768d4d04cc3438da12f9010263ea5fcafbde2579db2f6b58f911d593d5f79fb05fe3596e3fa80ff2f761d1b0e57080055c118c53e53cdb63055261d7c9b2b39bd90acc32520cbbdbda2c4fd8856dbcee173132a2679198daf83007a9b5c51511ae49766c792a29520388444ebefe28256fb33d4260439cba73a9479ee00c63"],
    "e39234dcf3b22d9cc6286cd7fe8789ed72909f38fa4dbb2a544bc90ef2ded6bddf257eebb700df2d6acb42198d8b45e13b3f3398903a6334ba058337560823f4")].
Example repo_blake512_ok : repo_blake512 = true. Proof. reflexivity. Qed.
