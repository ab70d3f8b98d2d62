(** Known answers (tests, not proofs): vectors of test/testvectors replayed on the models of
    the types that test/test_vectors.cc uses; written by tools/vectors.py. [Eval] runs them
    when the file is built. *)
From Coq Require Import String.
From Verif Require Import Base Hasher HasherSpec MdState Library LibraryTypes VecUtil VecReplay
  Md5 Sha1 Sha2 Sm3 Whirlpool Sha3 Shake Kmac K12 Ascon Esch Blake Blake2 Blake2p Groestl Kupyna Streebog Jh Lsh Skein Echo.
Local Open Scope string_scope.
Local Open Scope N_scope.

(** test/testvectors/md5.txt, 11 of 649 vectors. *)
Definition repo_md5 := Eval vm_compute in replay md5_type (mst 12 64) [
   ([], [""],
    "d41d8cd98f00b204e9800998ecf8427e");
   ([], ["61"],
    "0cc175b9c0f1b6a831c399e269772661");
   ([], ["6162636462636465636465666465666765666768666768696768696a68696a6b696a6b6c6a6b6c6d6b6c6d6e6c6d6e6f6d6e6f706e6f7071"],
    "8215ef0796a20bcaaae116d3876c664a");
   ([], ["0000000000000000"],
    "7dea362b3fac8e00956a4952a3d4f474");
   ([], ["00000000000000000000000000000000000000000000000000000000000000000000000000000000000000000000000000000000000000"],
    "c9ea3314b91c9fd4e38f9432064fd1f2");
   ([], ["000000000000000000000000000000000000000000000000000000000000000000000000000000000000000000000000000000000000000000000000000000"],
    "65cecfb980d72fde57d175d6ec1c3f64");
   ([], ["00000000000000000000000000000000000000000000000000000000000000000000000000000000000000000000000000000000000000000000000000000000"],
    "3b5d3c7d207e37dceeedd301e35e2e58");
   ([], ["0000000000000000000000000000000000000000000000000000000000000000000000000000000000000000000000000000000000000000000000000000000000"],
    "1ef5e829303a139ce967440e0cdca10c");
   ([], ["000000000000000000000000000000000000000000000000000000000000000000000000000000000000000000000000000000000000000000000000000000000000000000000000000000000000000000000000000000000000000000000000000000000000000000000000000000"],
    "03bc63b77bec853adcb65719a21459ce");
   ([], ["00000000000000000000000000000000000000000000000000000000000000000000000000000000000000000000000000000000000000000000000000000000000000000000000000000000000000000000000000000000000000000000000000000000000000000000000000000000"],
    "c20019258ca235d2408334dfbc5e67e3");
   ([], ["00000000000000000000000000000000000000000000000000000000000000000000000000000000000000000000000000000000000000000000000000000000000000000000000000000000000000000000000000000000000000000000000000000000000000000000000000000000000000000000000000000000000000"],
    "e457fbae1dd166a0c89d244ac03f4e93")].
Example repo_md5_ok : repo_md5 = true. Proof. reflexivity. Qed.

(** test/testvectors/sha1.txt, 7 of 129 vectors. *)
Definition repo_sha1 := Eval vm_compute in replay sha1_type (mst 12 64) [
   ([], [""],
    "da39a3ee5e6b4b0d3255bfef95601890afd80709");
   ([], ["36"],
    "c1dfd96eea8cc2b62785275bca38ac261256e278");
   ([], ["7e3d7b3eada98866"],
    "24a2c34b976305277ce58c2f42d5092031572520");
   ([], ["ec6b4a88713df27c0f2d02e738b69db43abda3921317259c864c1c386e9a5a3f533dc05f3beeb2bec2aac8e06db4c6cb3cddcf697e03d5"],
    "a7272e2308622ff7a339460adc61efd0ea8dabdc");
   ([], ["0321736beba578e90abc1a90aa56157d871618f6de0d764cc8c91e06c68ecd3b9de3824064503384db67beb7fe012232dacaef93a000fba7"],
    "aef843b86916c16f66c84d83a6005d23fd005c9e");
   ([], ["f2c76ef617fa2bfc8a4d6bcbb15fe88436fdc2165d3074629579079d4d5b86f5081ab177b4c3f530376c9c924cbd421a8daf8830d0940c4fb7589865830699"],
    "9f3ea255f6af95c5454e55d7354cabb45352ea0b");
   ([], ["45927e32ddf801caf35e18e7b5078b7f5435278212ec6bb99df884f49b327c6486feae46ba187dc1cc9145121e1492e6b06e9007394dc33b7748f86ac3207cfe"],
    "a70cfbfe7563dd0e665c7c6715a96a8d756950c0")].
Example repo_sha1_ok : repo_sha1 = true. Proof. reflexivity. Qed.

(** test/testvectors/sha224.txt, 7 of 129 vectors. *)
Definition repo_sha224 := Eval vm_compute in replay sha224_type (mst 12 64) [
   ([], [""],
    "d14a028c2a3a2bc9476102bb288234c415a2b01f828ea62ac5b3e42f");
   ([], ["84"],
    "3cd36921df5d6963e73739cf4d20211e2d8877c19cff087ade9d0e3a");
   ([], ["5f77b3664823c33e"],
    "bdf21ff325f754157ccf417f4855360a72e8fd117d28c8fe7da3ea38");
   ([], ["445e8698eeb8accbaac4ffa7d934fffd16014a430ef70f3a9174c6cfe96d1e3f6ab1377f4a7212dbb30146dd17d9f470c4dffc45b8e871"],
    "4c7ae028c0fe61f2a9cada61fae30685b77f04c6442576e912af9fa6");
   ([], ["52839f2f0853a30df14ec897a1914c685c1ac21470d00654c8c37663bfb65fa732dbb694d9dd09ced723b48d8f545846ba168988b61cc724"],
    "2f755a57674b49d5c25cb37348f35b6fd2de2552c749f2645ba63d20");
   ([], ["716944de41710c29b659be10480bb25a351a39e577ee30e8f422d57cf62ad95bda39b6e70c61426e33fd84aca84cc7912d5eee45dc34076a5d2323a15c7964"],
    "61645ac748db567ac862796b8d06a47afebfa2e1783d5c5f3bcd81e2");
   ([], ["a3310ba064be2e14ad32276e18cd0310c933a6e650c3c754d0243c6c61207865b4b65248f66a08edf6e0832689a9dc3a2e5d2095eeea50bd862bac88c8bd318d"],
    "b2a5586d9cbf0baa999157b4af06d88ae08d7c9faab4bc1a96829d65")].
Example repo_sha224_ok : repo_sha224 = true. Proof. reflexivity. Qed.

(** test/testvectors/sha256.txt, 7 of 129 vectors. *)
Definition repo_sha256 := Eval vm_compute in replay sha256_type (mst 12 64) [
   ([], [""],
    "e3b0c44298fc1c149afbf4c8996fb92427ae41e4649b934ca495991b7852b855");
   ([], ["d3"],
    "28969cdfa74a12c82f3bad960b0b000aca2ac329deea5c2328ebc6f2ba9802c1");
   ([], ["5738c929c4f4ccb6"],
    "963bb88f27f512777aab6c8b1a02c70ec0ad651d428f870036e1917120fb48bf");
   ([], ["3ebfb06db8c38d5ba037f1363e118550aad94606e26835a01af05078533cc25f2f39573c04b632f62f68c294ab31f2a3e2a1a0d8c2be51"],
    "6595a2ef537a69ba8583dfbf7f5bec0ab1f93ce4c8ee1916eff44a93af5749c4");
   ([], ["2d52447d1244d2ebc28650e7b05654bad35b3a68eedc7f8515306b496d75f3e73385dd1b002625024b81a02f2fd6dffb6e6d561cb7d0bd7a"],
    "cfb88d6faf2de3a69d36195acec2e255e2af2b7d933997f348e09f6ce5758360");
   ([], ["e2f76e97606a872e317439f1a03fcd92e632e5bd4e7cbc4e97f1afc19a16fde92d77cbe546416b51640cddb92af996534dfd81edb17c4424cf1ac4d75aceeb"],
    "18041bd4665083001fba8c5411d2d748e8abbfdcdfd9218cb02b68a78e7d4c23");
   ([], ["5a86b737eaea8ee976a0a24da63e7ed7eefad18a101c1211e2b3650c5187c2a8a650547208251f6d4237e661c7bf4c77f335390394c37fa1a9f9be836ac28509"],
    "42e61e174fbb3897d6dd6cef3dd2802fe67b331953b06114a65c772859dfc1aa")].
Example repo_sha256_ok : repo_sha256 = true. Proof. reflexivity. Qed.

(** test/testvectors/sha384.txt, 12 of 257 vectors. *)
Definition repo_sha384 := Eval vm_compute in replay sha384_type (mst 12 128) [
   ([], [""],
    "38b060a751ac96384cd9327eb1b1e36a21fdb71114be07434c0cc7bf63f6e1da274edebfe76f65fbd51ad2f14898b95b");
   ([], ["c5"],
    "b52b72da75d0666379e20f9b4a79c33a329a01f06a2fb7865c9062a28c1de860ba432edfd86b4cb1cb8a75b46076e3b1");
   ([], ["de60275bdafce4b1"],
    "a3d861d866c1362423eb21c6bec8e44b74ce993c55baa2b6640567560ebecdaeda07183dbbbd95e0f522caee5ddbdaf0");
   ([], ["a8de55170c6dc0d80de32f508bf49b7046aeea4b975a511b5ea3dc853bfa4b1e0138202d6785f6b3017914a86f824288d586dc0e8bc924"],
    "2bc3b10c148200f7919b57afe1d7db773ffd235e04fec6897dd94f13ad9c437ef50900a40937f82a39daf2aa2b3dfd68");
   ([], ["accd9d05fb7ef3043470836137554af117440b3ccca7a280285494f90dfaea60dcbf40b230271932cd3875b1d3dca60d38865ff874180efa"],
    "b9e02df93e9254180d6a15288d77088b5a5ce517644109b4e2532be315f08dee43491608a1127dcdf69397406e23d231");
   ([], ["0b94a0f43a92408963a59ded01a9338283a6ff1bfbacd9051a0104445c7f041e8037afde3b5a87d22d5a4796144cbc944091d6cc47b5ffd1f997ab1496ca31"],
    "07a045c9590e9901d0598e604c4649554a823de996fa438cc81a634344eeb98e5f3c0c234ba30e2285a4d7ab568f2610");
   ([], ["93035d3a13ae1b06dd033e764aca0124961da79c366c6c756bc4bcc11850a3a8d120854f34290fff7c8d6d83531dbdd1e81cc4ed4246e00bd4113ef451334daa"],
    "8d46cc84b6c2deb206aa5c861798798751a26ee74b1daf3a557c41aebd65adc027559f7cd92b255b374c83bd55568b45");
   ([], ["bfb94dfbe0d9a509b78d164a722050054dad91c9a8e260545d037eb450321aac48ed4459fdd8a41572bd6c9c84d18b6ec339247482cc3ee52a1bbd6bd4ae918216"],
    "13af0be02986ea3176e8c65534ec9f32c23b53c93a73b15c26b9ecbd8a1181ae184a372e9f5e0596cd6606849aeae8e0");
   ([], ["a04f390a9cc2effad05db80d9076a8d4b6cc8bba97b27b423670b290b8e69c2b187230011c1481ac88d090f39154659494db5e410851c6e8b2b8a93717cae76037e0881978124fe7e1a0929d8891491f4e99646cc94062dc82411fa66130eda46560e75b98048236439465125e737b"],
    "e7089d72945cef851e689b4409cfb63d135f0b5cdfb0dac6c3a292dd70371ab4b79da1997d7992906ac7213502662920");
   ([], ["f419494c3c6d0727b3395a483a2167182a7252f4fd099c2d4b71b053f94bb8b3adf3b51e8460cfec084ce9415c95798fbae4975c208c544645b54c44d2b97f2ecfce5c805be61f5ba1d35dcc07afdd51a87baa990506668cf710e18be9b0ebf943f366fa29c69f7a6616de72a3353b66"],
    "aead8688c58c6ba4e9cadb4756b465dce0fb06f1cfaa478197f2ea89414e47e9572034adfed160703c79b82b3fd7ab78");
   ([], ["dbed7612448d46cbe0a384d1c93233f02ffd1c984ba765299518656d3723b766c1658d4b1e7047cdc729459e366ef9349efc40cbd990f2a9a24db7a5045e1dea12dce8f9d9f2aaed933f93031e7b8959ac5e7bf6bbbdf30b48f7eb783f8fe292371a2f245c5c94b4acae160767a20ce7c0ea7723d97691d8eedda9efd1fe2d"],
    "fb531a1ed181c732311e56f4b56ed91dcacc0dd6bf1eb4a44be6f87dd7cb1ef9dfb0310f4a79eaaa3f32bf3914d8624e");
   ([], ["3bf52cc5ee86b9a0190f390a5c0366a560b557000dbe5115fd9ee11630a62769011575f15881198f227876e8fe685a6939bc8b89fd48a34ec5e71e131462b2886794dffa68ccc6d564733e67ffef25e627c6f4b5460796e3bce67bf58ca6e8e555bc916a8531697ac948b90dc8616f25101db90b50c3d3dbc9e21e42ff387187"],
    "12b6cb35eda92ee37356ddee77781a17b3d90e563824a984faffc6fdd1693bd7626039635563cfc3b9a2b00f9c65eefd")].
Example repo_sha384_ok : repo_sha384 = true. Proof. reflexivity. Qed.

(** test/testvectors/sha512.txt, 12 of 257 vectors. *)
Definition repo_sha512 := Eval vm_compute in replay (sha512_type 512) (mst 12 128) [
   ([], [""],
    "cf83e1357eefb8bdf1542850d66d8007d620e4050b5715dc83f4a921d36ce9ce47d0d13c5d85f2b0ff8318d2877eec2f63b931bd47417a81a538327af927da3e");
   ([], ["21"],
    "3831a6a6155e509dee59a7f451eb35324d8f8f2df6e3708894740f98fdee23889f4de5adb0c5010dfb555cda77c8ab5dc902094c52de3278f35a75ebc25f093a");
   ([], ["6f8d58b7cab1888c"],
    "a3941def2803c8dfc08f20c06ba7e9a332ae0c67e47ae57365c243ef40059b11be22c91da6a80c2cff0742a8f4bcd941bdee0b861ec872b215433ce8dcf3c031");
   ([], ["ec2a92e47f692b53c1355475c71ceff0b0952a8b3541b2938270247d44e7c5cc04e17236b353da028674eab4047d89ec5dad868cfd91ce"],
    "c83aca6147bfcbbc72c377efa8d53654ba0830c5a6a89e1d2a19b713e68fb534640deb833ca512247166dd273b5897e57d526f88eef58f6ff97baee0b4ee5644");
   ([], ["c99e31ad4e23ac68e15e605d0b02437f8147c44f5445a55b68a10905276cce8676481c33e8cd3efe322bb13fe0107bb546ccbec7b8b38d10"],
    "52992d45a88221d972958e9f2854adaa9a21d2bf7051e1f1019ae78004da50c5b55c144a02afffe539d753949a2b056534f5b4c21f248a05baa52a6c38c7f5dd");
   ([], ["ebb3e2ad7803508ba46e81e220b1cff33ea8381504110e9f8092ef085afef84db0d436931d085d0e1b06bd218cf571c79338da31a83b4cb1ec6c06d6b98768"],
    "f33428d8fc67aa2cc1adcb2822f37f29cbd72abff68190483e415824f0bcecd447cb4f05a9c47031b9c50e0411c552f31cd04c30cea2bc64bcf825a5f8a66028");
   ([], ["c1ca70ae1279ba0b918157558b4920d6b7fba8a06be515170f202fafd36fb7f79d69fad745dba6150568db1e2b728504113eeac34f527fc82f2200b462ecbf5d"],
    "046e46623912b3932b8d662ab42583423843206301b58bf20ab6d76fd47f1cbbcf421df536ecd7e56db5354e7e0f98822d2129c197f6f0f222b8ec5231f3967d");
   ([], ["d3ddddf805b1678a02e39200f6440047acbb062e4a2f046a3ca7f1dd6eb03a18be00cd1eb158706a64af5834c68cf7f105b415194605222c99a2cbf72c50cb14bf"],
    "bae7c5d590bf25a493d8f48b8b4638ccb10541c67996e47287b984322009d27d1348f3ef2999f5ee0d38e112cd5a807a57830cdc318a1181e6c4653cdb8cf122");
   ([], ["324533e685f1852e358eea8ea8b81c288b3f3beb1f2bc2b8d3fdbac318382e3d7120de30c9c237aa0a34831deb1e5e060a7969cd3a9742ec1e64b354f7eb290cba1c681c66cc7ea994fdf5614f604d1a2718aab581c1c94931b1387e4b7dc73635bf3a7301174075fa70a9227d85d3"],
    "3b26c5170729d0814153becb95f1b65cd42f9a6d0649d914e4f69d938b5e9dc041cd0f5c8da0b484d7c7bc7b1bdefb08fe8b1bfedc81109345bc9e9a399feedf");
   ([], ["518985977ee21d2bf622a20567124fcbf11c72df805365835ab3c041f4a9cd8a0ad63c9dee1018aa21a9fa3720f47dc48006f1aa3dba544950f87e627f369bc2793ede21223274492cceb77be7eea50e5a509059929a16d33a9f54796cde5770c74bd3ecc25318503f1a41976407aff2"],
    "c00926a374cde55b8fbd77f50da1363da19744d3f464e07ce31794c5a61b6f9c85689fa1cfe136553527fd876be91673c2cac2dd157b2defea360851b6d92cf4");
   ([], ["c13e6ca3abb893aa5f82c4a8ef754460628af6b75af02168f45b72f8f09e45ed127c203bc7bb80ff0c7bd96f8cc6d8110868eb2cfc01037d8058992a6cf2effcbfe498c842e53a2e68a793867968ba18efc4a78b21cdf6a11e5de821dcabab14921ddb33625d48a13baffad6fe8272dbdf4433bd0f7b813c981269c388f001"],
    "6e56f77f6883d0bd4face8b8d557f144661989f66d51b1fe4b8fc7124d66d9d20218616fea1bcf86c08d63bf8f2f21845a3e519083b937e70aa7c358310b5a7c");
   ([], ["fd2203e467574e834ab07c9097ae164532f24be1eb5d88f1af7748ceff0d2c67a21f4e4097f9d3bb4e9fbf97186e0db6db0100230a52b453d421f8ab9c9a6043aa3295ea20d2f06a2f37470d8a99075f1b8a8336f6228cf08b5942fc1fb4299c7d2480e8e82bce175540bdfad7752bc95b577f229515394f3ae5cec870a4b2f8"],
    "a21b1077d52b27ac545af63b32746c6e3c51cb0cb9f281eb9f3580a6d4996d5c9917d2a6e484627a9d5a06fa1b25327a9d710e027387fc3e07d7c4d14c6086cc")].
Example repo_sha512_ok : repo_sha512 = true. Proof. reflexivity. Qed.

(** test/testvectors/sha512_224.txt, 12 of 257 vectors. *)
Definition repo_sha512_224 := Eval vm_compute in replay (sha512_type 224) (mst 12 128) [
   ([], [""],
    "6ed0dd02806fa89e25de060c19d3ac86cabb87d6a0ddd05c333b84f4");
   ([], ["cf"],
    "4199239e87d47b6feda016802bf367fb6e8b5655eff6225cb2668f4a");
   ([], ["6963446913771410"],
    "21f6c373637e6a5e89d6e88811110c5c3fa12e497144912914c546e1");
   ([], ["55cab876556079eff98bf7b90e318f8ff583c2be55de882c0defe6996d1bc225a51ef7127df2a5cc47f2ca26123f17e72163fc859c3406"],
    "811fd907f3f74b9f214193048d70eda44f3a7465cdb882173bf79a0a");
   ([], ["5dab016d4feb42ea606123c0ac4c3259cc7177af9cc955a64177b29f6bfc584ad8ae9abb1a673ac1997a8a73dbebd20b03dff2f89851482e"],
    "340b5a71ed65407a686706b068edb92d0ad2a079c1c88bf78ad8a3a0");
   ([], ["350bd6018cbbed86e050b3e7e60683e1f619b73b4c2e764b74eecdbb00f4018d7ce9245da4ede7e6d439afc8bf03eb8964a2a4d93ef3551abbfbfe1ff0ce74"],
    "c8ec854e632b2c132d505affe1bc00ddbe99452e5b59ba76a02dd838");
   ([], ["4cd27324c28364873c6ddbc3e3a7e2cda9e8a72ad2f72201b262f874b8739f30ab60c34334c2e92f9d48533cd8ad2312c3e7c386aaa283b50dec844fa432d636"],
    "ced6081761ff5259f132aa831b7a1b432d093fc857da0eeeb82be71f");
   ([], ["a4f2063fe6ec17550d7aa831091952dc4dc041a283c488187ef9b75e701ab0a25d6ab6e5cf9cc702ccf02cec05a04e37507acbda58cec933938a8b4b75a4425ce4"],
    "af6b7fafcbe9cb25003c5702995fd656365a20e113c8e5b10312cdf0");
   ([], ["15cb777ef3e451b928dbf288e46a3627044ff5de42add884a9af6b424d6e7399381581a6a743c7a577b02bb5da149ada4e449f48d09e34df4ca8d8f259f4e14c23471475a8f97331289f564ad6e8bd8fd4c5e51d5ecd19dd46dfcb4ea009e385bea857725fd1fc6423f09ccf42af48"],
    "9fa12561f1df9a2d793292e0f4df5327af529336b5b2118952f5c24e");
   ([], ["d24df75a00cf92677bb41a620fae519723937ebfe1f7b430970056505d76db4ff91acf16ff391a7a3d8085b655127a18acd80bfa831837f4644a6850c0273fbed6029449d65bb98a47b2ff1ca6997c50500d0b21a206936a5e4d8d56508ec01832ae4fddce5ef6ff62f1917c486adea6"],
    "5cae12ea9652269ea2aafc656cb83424746ea1d5d491f9a159594b2a");
   ([], ["4b9895235cb4956aefffe815415252e7d6b21921bd7f675315eff071d0bbd429b718c774aee96f6c3a330d5d40d1601e1069c7a2a19ea5ca1e87097da2608ffb4180816e478b42c3c4e9edb748773935eb7ca0df90dec0eb6b960130c1617880efb80b39ae03d617950ace4ce0aca4d36fd3ed0112a77f5d03021eb1b42458"],
    "9a9176e97aec99ab07f468f6a226876710d6d877021d27061d4d0132");
   ([], ["9e127870be2431bcb4f4eb4efd5c2a6c5870c55e7a5e3b7503994a4cb136be4ed396887801450f600b22cb772fc00f8b8f0d2690e231a29f69b9f13f24f531e4479e45b5e8bc2992fac782567e0d7a59f853ca3a20bf18dbdbf684ac69817e2de075daaed9532659692d3b73530a12df7b8cd9e49ed0463041962c1ce7a24c31"],
    "7e2cf6226623535784c59cd6a7b27dac60ee23fdce8a804dbd6dfedd")].
Example repo_sha512_224_ok : repo_sha512_224 = true. Proof. reflexivity. Qed.

(** test/testvectors/sha512_256.txt, 12 of 257 vectors. *)
Definition repo_sha512_256 := Eval vm_compute in replay (sha512_type 256) (mst 12 128) [
   ([], [""],
    "c672b8d1ef56ed28ab87c3622c5114069bdd3ad7b8f9737498d0c01ecef0967a");
   ([], ["fa"],
    "c4ef36923c64e51e875720e550298a5ab8a3f2f875b1e1a4c9b95babf7344fef");
   ([], ["b4e2e8501f54be91"],
    "d25265bf9cbc0dd2f108a2f5e8f69db7d15e5b8fe9100fe887dae20b6e054fe8");
   ([], ["71b58f40e28bd9427f0f7821ece9c6e0f34b7f5cc924222692979a8e28ab1e0018445694ee52bfe0b3485011b3d05e3a84bcbdeb434028"],
    "7614582f42d5a907d4ceba0025798ee61d38072485f54ba3d742f29503f1911f");
   ([], ["592335639cd4f2f9ae6624e895d6a729b5079ee1f45aba911b7fb98c7f8b2cafe24a7e4c94d63267dd686c25a06fb38138dff541a6cccb28"],
    "68d64cb4331b71e72b42c88b8f6513f4bc17d995254f04dc2b7cac022ad5edfa");
   ([], ["ac4065c8dcd58031b7475c3debe032168fa9f7ae5ad02d48134dfe3b48c58bf243af82383ab5eeb2c65d54ad96e8fb1b657b8bd7297cda318e3f02a6a2e2b7"],
    "9fb9d7e6b81e86e441695ca5c762cf3b7735a75dbc4b2b1e3e5667848f6cdd73");
   ([], ["d2bc0ce7217ff2e944e1ae47ad5873bf391f1b0cc07f6151eb4c50bb45b2fb6295326f716ce7e687fa0e3d5d25c5a8a8dd13a541a9292e8386e733f4f2a24728"],
    "9c1fea5786702d027bb5b66b3fa92de34621a8626982ec21c0ecf8daa79dea05");
   ([], ["a82aa079ad878cf1d699e9612fd3aef603df30c3e8904358fb18a2976d7b91c33f43c0da4976732581c5e00d7a06d8302be4aab4f2d545dbd94d9cd817324fe2da"],
    "46eb49bfc5b2ee3c97b91102525b6666d56bffaab4baa03059b89f24ec4b5622");
   ([], ["5731f467c5b923c43af9c5fa849aad21ab8dd7db1ca1a687065571b705ea3ee4febdcd614ad4d98e16b79a4e09818ebb28367918f757ab06e1b481fbda822ef143adbb5b0e704d5d2222a73c0153ef14a817b5c9b7a2313fd115ccce4698e3f0efa9c73d5ab3089a27e3f3adb23759"],
    "f5253b5c69db9c724aebf762ec51c221f8a4d4e2174a4b7f56e4d69aa44adfa3");
   ([], ["92b23c0bc4d8d07d22e28812710dff06cb9bbecea2c960ac0200f480164fa2e1ee19926c7f0b095cec51d55c040aec990bf9501abd7d355490c366f93a3ae5127347d14dfc3b8d98e0821feefa1cd671b75230ba1da1fa6d0cfbb910c42f491da8a5c455424ea65886db2e735b2d07b9"],
    "55a0597f11ff71c426201715beb585f254bb31c1dbade533f04e499c3391ff79");
   ([], ["3e3a52d3261e1194249786d6c0e18d52d92f1c7639f079c26c51aa72d1032e5df13eea1d1006667002ad39de4099c29c3b4719b1f0904557bd2bb0a47374d869ac6b465b5f00c470b18ecb8c0ea53b5d790c4e832006cff534d587a0f77df95117ca4fd43a94935eda422228538d5e5d3a87a436f1db7e63785619ae86a6f9"],
    "b34e72cefefb63d6e309bcfb4f0b1d350f2c5c582de3b93ad137f921a92a7e79");
   ([], ["bc8173c878ca60e9a0f823f9a589d4ff84547b389b117fb6bb1b614e7e75a9b1db0b21d9f73b42a73e94eccab3de5ae2845a54e5e24ba6c20fb4d245b964023b863040d6f080e953530d5fd944e8ffa525bf5364f65c88e06e6e22df4b8cee48e67738880a9f3f3406e9e6f001b0ac8f8e0ade7c814c0c5800d0b9e4ddf55622"],
    "f691d01ee9ab675f3872313b77e6a4543c71e3e89aa94c48f91d6ee7fa1ab4fb")].
Example repo_sha512_256_ok : repo_sha512_256 = true. Proof. reflexivity. Qed.

(** test/testvectors/sm3.txt, 2 of 2 vectors. *)
Definition repo_sm3 := Eval vm_compute in replay sm3_type (mst 12 64) [
   ([], ["616263"],
    "66c7f0f462eeedd9d1f2d46bdc10e4e24167c4875cf2f7a2297da02b8f4ba8e0");
   ([], ["61626364616263646162636461626364616263646162636461626364616263646162636461626364616263646162636461626364616263646162636461626364"],
    "debe9ff92275b8a138604889c18e5a4d6fdb70e5387e5765293dcba39c0c5732")].
Example repo_sm3_ok : repo_sm3 = true. Proof. reflexivity. Qed.
