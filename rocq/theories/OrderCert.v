(** n*G = O and the blinding constant's multiple of G, by a checked chain of 256 doublings.
    Generated by tools/gen_order.py. *)
From Verif Require Import Word Spec Fp Curve Group Chain.

Definition order_chain : list entry :=
  [(Untake, Skip, (0xcb35b28428101a303eb9d1235992ac63f58857c2f631ee6936d3aebbeddcd1b1, (-0x3b04fbed296cc1277f1659ab9a6f3feba665d74e98725ee2d39e827bc28878b0), 0xa14e3460febe2c2316bfcccc1b764790c3b7d9ff92663ea740240f16b583e774, (-0x3c8b95972f12b04b3ca25330b2bd449e8e938229d1fd14f76cae42249ce0dc11)));
   (Skip, Untake, (0x6ad2cb95963c033328d4857d4f8711deff557dd9faaa673b400442833f0efb64, (-0x1b511f0c4acacddb11995426b44becf23d1a165eac933b36c0dae7f6c721d3035), 0x2c933e2a83bac0c704d83956ce68e1a07920f532e04e27ff098c8c712d51733d, (-0xcc0862604f39a0c08e4ce0b1d06b205a54268b6c11e626473e3a3a21a84dcfc)));
   (Skip, Skip, (0x9693023fb325cc6c7bc993eb684358ea623d5feea8ff351df662beabd0efdc6d, (-0x203e697a2ff0b71f15bbe8e0b1128a2612545720e641a25d3f0da1b92ba257869), 0x58909b0e3b1d179e26d093a041c3e56b0e5fcd45c4d389144042c9dcfcec275e, 0x6acbca9638108e08374e790d2f8fb746c0f38f81a62038c77abfdadb56826ebc));
   (Skip, Minus (0xdc5597ca2ab6d6818c1207aa398c8cf726d086d94b0665aa52288a8747890385, (-0x81f8b97c8f387ac5285b8aacc1fec8f47fd60c1dd5724a8c9825bfa48dc23e86), 0xbda339819faabc243b7dd9cc31589e08637c31980bff6b694c0dbabb998add54, 0x207ea677beb4c3368fd28a8aaa8976906c75fc6c1d94659d5feca473a075d618), (0xbc380350880ab969e653d334691ca8c2da83b2acde59e7439ed92d96a9654a07, 0x6dd55cce46f1224cd99f821ea3a2f0a9ebe970a9b8ce11ac81430dc918b68adb, 0x8a62511fbb16418a37f7a5ead3f099487b15785e66a133e078848957eec143eb, (-0x8696444c9f994992fb103911d7efc9d6af6d7ba29b92732df8ec73823bb24fdc)));
   (Skip, Skip, (0xb68c9cb56c4f0fd3279f2dec6acae3ffbacfb8384548d24892d676cd6beacbf5, (-0x10ab9b201128ebe909e6b37287520fd58164cf175e3decaf3a10f957ce0bfa99e), 0x822c3c0dbc5c7d8c3c32320b58378c5c160825393d62371ce9fa174521d13e00, 0xd9690ecf0b9571b77cc0887ee3bf9fc63a5c7330cffad04355faeac0e641f21));
   (Skip, Skip, (0x57aaae4151a198790e40eb37fe0dad5ed4d4581b1a82c40124b58ac767ed1ec4, (-0x1a3b3ccfcc7443b593002caea6e5cc086509c6bce8bc4354465c8e5f864c2e02d), 0x1e05743c4ad91be301d2b36fafdb42772de829193a4a9e64f4882f9890335c35, 0x6cda36c32abc46e74112f34db81c84c8eede3927bb247626df1e0bdea815270));
   (Minus (0xb0ae180bfa670ffaab789eb0333dcf5026dc8e3b4759fc551da3123aee275e21, 0x2fe4dfdb0fe0a0aaa18453d8a3a3353f56184d5370c271fcf4e8f3717559e9e6, 0x79efd7752ad85995314ec68ecbb6385f5779d72ec9bcfd8f4234d37d35ee753d, 0x432b5470417dda9a41da3a7cb6b369228c7c8f89cfafa0a740993867d049fb6f), Minus (0x55f7da19106f49d3438d297e5f3dd516c811e77936862ce934a5fb29d0fd56a4, 0xa5e6b49320464a49cd51a879150c3df026d3046cfda997349f4b655bf539129, 0x1cde86cb3b165038810e6bdf1c48922ef17e5de783d6f5eef18049a746ae48e2, 0x2891f5548c34c185ce66bd8d98799875f75e80bd73046b89457b577b55a0b522), (0x875978642d00b859133774fec1878f9e7623f6df9c734f7ed297e920a77b4406, (-0x14a1cfa9fea71de68e71e2ba70b5d638c74f6dd5926c1a65b4b1ea2d5127c49b9), 0x478f7c3e95bc1e51fd80a25edfc36ff0eb8d5523f1ee56a882e1aa48e6ddcd40, 0x49098a07b728aaafaff50d946bf2d2a513aa2fa43789f3e06840d7ea9bc98e5b));
   (Skip, Skip, (0xf0d3817330010db820c7710c8ee17a157984f4bfd3bafbd4a49079efd7754990, 0x8f3723c85ff3164db3a07559b4963e07950769fd94b7a173e978889b3444bc4c, 0xe28d41769f5865ab14c24658822fc9961aeadb95b0bfe9fe782f4a0efece7b64, (-0x48eac5c2254e673b8f140471c905697727cf02e9fff1852fad4e9e3e0cd660e7)));
   (Minus (0x8199deb5ca518413d84e132a3f21a00e23197d0f0b19a771ee291370146566a, 0x35b549ce4dad9e4b54dc97c750e0c17de30611dc64462a97afca82110be00bb, 0x419c6eef2cf1c888f7f32a3eedd248fc49e5c2c31a3556a6b0e29ea0d42d5a, (-0x3a24e08ef29e143bff366ed75ac3d217b4c158ef93361c791601e1dfa888b1a)), Skip, (0xed7816fe6ca3e42058b150c9eeac31ef8a6bda7ee9e51a0ec33e09f96afc74bc, (-0xa6420f67637bb25071e77ce944474fe9df3cfbcfc86659791d17ebcd2533bdc8), 0xdc4792e8a5be0591b11466a7b249cba8f2a33a30c8468e1f561a5045057941bd, 0x37d37953fb0fa4bd1da2e0c78a3d18e7906ea3d2bbf400f5c11966075d72b11f));
   (Skip, Skip, (0x62f219d148d24eff34fe56735390098e29b6a2190daa3dc0fbd1d33b92531a49, (-0x104bcc3d6c16aaa6e41de7cd3a7f9df365fe8717877572d43f3d2ebbc048b91d), 0x263e40b90e093d69ce9cb94f331276dfca50fdd5d52899f82b416e3f11684268, 0xd38110e4317d0ec08c09ffd9caebca5fdbc0a7ce9f3c36d91be61730894d5d3));
   (Skip, Skip, (0xda8eabc70379e66ae8e505f49deb2e1b4906022def4c45ec320e33aed7091903, 0x7b5b31118e706a6f8d21e90c3e5ea4663c618a515ed94cb62815179af21e1ba5, 0xba974c11f5f6f104f4a38f0164419677e70a8dc4d1e0c492b7e51bcd3a94d1c6, (-0x30a64c00ff8a9a57ae5268b8915895ffdc90bcc50a5f4835a3176aa1164c157a)));
   (Skip, Skip, (0x6c49014b33417076abaadc7958f95908e93dd2886468bd7d27d61cef7c1fdfdd, (-0x4387d42d834ce77c2bdfbb0b5c3cac71a4050b08b24c228ca392b55ebcd59c9b), 0x2dcdade930241eb3da0207e1a22e90f4e54b1654ef831673a369c13514d214b2, 0x1d7ff2dd811340b382fdc822936038d852438a2146b088d8ab34010335a40240));
   (Skip, Skip, (0xca43b3ab114e7c697fee873576d7b89f909e0592f9e805e00246c31200fb967b, 0x1478493006042606ebaf3a073842ec13860fe45dc5db3cdf4018312111fee64d5, 0x9fcee97180f397ef7f1ea6a9af040c9da7112c47f135895f18340817b5f96aff, (-0x21dcdd8efd150c268bede9c019716bbfa25aa10b288f800c3643785b508ba348)));
   (Skip, Plus (0x6ec3ef33cc239a8ed2efec34c3545d370d5f037eb2d18040cbe35e8c40a758ba, 0xb95c8005d5ce9ff5851df33bebe2d4572f8b83a954ce8a513f8058f9e7f60b2, 0x2fecf786cbd958b5a66a8e8a776ce7e4b0e9d833d21999ed60070b817b186011, (-0x1f184df8293ebe75fc095936ed4c8009be616c18fe47f8c51b9825747e247055)), (0x1b5d9cdfbd96d7eaf397653b120ed6cb0f4bd05bf004f79c2a9fd0bcdf4929bc, (-0xbd2d5b4b69b8eae1df0bfc0ac9ec40498debeffeda634d668b3379e7187a574), 0x2ece1528caf03c02071834190fc18b0cedeea0605e73d1a35c9a08e6510e906, 0x53ff9677d1ffe6ad3a775007ddeabc1b0ff47b13574906bdb2d6d177386b2f4));
   (Minus (0x1f34e75c124329ff5d793949fc1ddf29c412eb7402f3ff1cfd82cffd713864fe, (-0xee411fa6a77d5ddd0be43fa31b2c48369ec5407beb5edd514eb13bf3cb2edf4), 0x3cddaf71aeaf9873fbfe2e211561e8876d34ec64cba34adb7d83a717daa7949, (-0x89a4461a0a2f4b0c3e8a8cf0798e02c5b0e7fbe9704cabc4e6a7ea59eb6b85f)), Skip, (0x6fedf4339b46436d0db4e1864076fe618c51a754e1c0ed5708b889c5733613e, (-0x31295687438b3691e3d17d8dafebb1045d575330197ec85036975ce382d6854), 0x30f036f2d126d8f6968324ff42731ef15eeb7688f83513e3844fc2eace0af5, (-0x18ffa9bcd5a0771eaf92f0fa74c4b5f3dc5c9f27e00cbaf762a52d5d2f19209)));
   (Skip, Skip, (0xa377ffff0b36d0535197bead9992fee7698334fa5bfc270f64d511cc9ab7c03a, 0x28cf04b1cbfe92d8768178540ee817b905160ac1eee61d1a85c9bf4546c1ad57, 0x6862083ec76250ae5213dc10e6d2a32a6ada8d51e30e61ff447fc6a4b31ca726, 0xccd96b79f4c0b76f998c898d50fda9757e88f96dd1d6b7ecf22cb0bb98ce214));
   (Skip, Minus (0x5c08c3593049bc1b0fcba84ada34e44f401bad13c57152e15811b44fa0ecabb8, (-0x14850c3e6bc047d8ae68d96728ad2885fe2bb003bca8a1fe1660e878883382b0), 0x21164cb4e559027225fd1e588713d731094098b282b457ad093ad9556a8f5549, (-0x285eead324cdbd066e5308de70b2e2a2f36eca6501ef65c5e097e253d6113e0a)), (0xbe610814de113647213fff8fc6378b31333e2bac4ac437ff9a702a6734563c9, (-0x2205da3da20d2694587a87007f1b0adffc57375f6010372238068eeb7d646242), 0x8d942cc619b325313df8fa55e5c71316b73c92e0c7ebbb2df4d2261a408af0, (-0x104313706e420e07202194031d638c56d395896464c74366718eaff086645ce)));
   (Plus (0x1a0198d4af492814b02bd65ce4c051c278887db32d444581ad49b7cffae58047, (-0xd95e5e374cce6ebb6f56583aae4bfec8b14445648fcb6c13e595d31fa7ba758), 0x2a4530dc0817b902cba550e8d491468586b3d8ae276ce18aee56cac2612deb8, (-0x50d2560c6d750fa4dcfd571d66ddf2656a7c8f9bce3b04a5fe09c077fbecfb)), Skip, (0x92ebb512788e5c3c7a3baf1feaf8281104d50976aef98bbac62a97be2d8b7a7b, 0x9ac262009b89c175cbd678a06fd84f5402c686a24698d987284aca6056eff453, 0x5451b38f017ed660cdacc050a98f48958c36daae31d09e1aeafad0be1c77641a, (-0x3275e7b129800aed4a29e992243f38ac08a7ae21b931f0bb29f8348a56722d47)));
   (Skip, Skip, (0x9b0f855eb9be64f095aa255167f0f0baf01b2cd3cc72ef8f1444747071666278, (-0xecac6acdf617a12c0fc3cab2cf7b069a048c3961fe6344fb5e0e0a7396f6dafd), 0x5debcc719b81e297ece66acf5c5cd90c3479aa2d47d460e8e685a54e458b6bdc, (-0x26a27b95aaf6d1c9e9dd930d18c059da3dae6bc39e15846556d58318a76ce85)));
   (Plus (0xa2038b4ec91746404935bbbe3e3b18dda1663a9940957e0047ebff3f3433846, (-0x1c6f4e23664714b1ddfe94ab93c60fed15611bce19ecdb7d4b5253426027fe6), 0x66887c5c4628d2137097e5fac9a20103badc940e67a0f8e842116dbc061cd8, 0x59168f0328b7e681b553f931d7c468f30e26d8c4767ce08de1b43a7a518caba), Skip, (0xc95c70effee378ee51d4695a7e30804db90a8fdfcca618c180cec3ec5c83b500, (-0x5f417de978a22edfa469e24dea0573f9085dfc70f76d02f457fd2960ed6ec854), 0x9e624aba3c93476a1c1ee0cb1425ac0e200806a56469fa72c409926db514d680, 0x1697f14e3cfdd54bfc46c4b390e76f70dbf980d8c8d01b56f162416b83c20eb0));
   (Skip, Minus (0x3e8e29762c5b64f9910cad296c2585463d1096952f6636c03ed0ee1bc9fa5cf8, (-0x149a816682934f0577666f68a365b3aded0e1eb99817fb1c1148ea563f2363f5), 0xf492b07434c8b0f19679fceac9a742853877fff1f8b99e2f953124fba6de5ce, 0x1bf9dc31246359b5028546c3b3691bc27160a6e9ddbc73b58361a961d7a468d1), (0xec7e64a924b93bbe0b71cb15729ff63848d6104ae7d55a16ed4a41d45b8fe684, (-0x5968060be05e4550a107807a5d46ff6ef624d4321cad7992e1ba5dbad1798600), 0xda7947ff19ca40ef6caf0b245130593d7386691fe132793106e05a3dca8183e6, (-0x5a4e2d67463497086e8f4a0565b68eed5403cb63ee254077874028156d100d63)));
   (Skip, Skip, (0x4a97f998b50e69d9b7f9c654687b8490e7f4a168b22ee05f0491f67c5bcae6b4, (-0x27e9fcb816f540970a38efb8f3bb1794b7b6ec1b1546063d8afd671a732062d4c), 0x15bc3684ae2c578048480c3cbe2205afdeeefc3a383c1028ddb1105441b292e7, (-0x40b14e41637f2b157c565d83e2950266c9f2b651777595e52fefa5006b9af2d)));
   (Minus (0xe61da638d8d1077f7f6f9a918b34c15a9fc7856ab1e9f07db9e049c6d7cbe9a2, 0xa0ac0b2cb16f1b3d816b8067917e234b736a246dfabe2b0405554a8eff0fdf74, 0xced94a1d3a667ea374ad71676dd7571fbea666420e5a47f1039fcbfb4fa17904, (-0x90053f138fd777538e499e90be5ffe5304f0687231ca8be068e29745f6bccc83)), Plus (0x17acf4631c71a8fedfca2b841e88a7822e8e594a3c22f619d4793c65e244e6b9, 0xd1d3a1abeb9dc2d9c70d1b51dca7edddbc19d033db9cb1649e4087b2974c833, 0x23088c31d97b9b08feaaaa511dc65981b8c4dc3de1913d156ce7e0209df0320, (-0x18dcd6980b53a5f828d99feb6a4c4fa0cdb14ce0aa2b49796d0f47fcfd44b55)), (0xc0b764bf04ae63359beb2b4fc6f722f47da0482483379a58ca50aff8c2ea4869, (-0x1aea680db6da70879fdf3fe19077a44c6c265cc2a38ba6a90464722c97c4d0825), 0x91139a7fb7c410527a5580e2a973ed19de91a4c86ceefc4df3c5d842dc61ff7c, 0xb591a58dc639cc68ee6b80d560bc0b59536beb3a30ab739ab716f9c10557be5c));
   (Skip, Skip, (0xb9f84addcab19fb53a62e79564f6075b848477821df6d6c58668d8e9b2501575, 0xd670256d7deb08454ce883be32981339ddc4537d27c02bed4c770daef2e73483, 0x8718cd05b2926a4fa5036246d666daad8ca3b5a3c98e7d865de6e8545bd1131f, (-0x4beab7d1b16e8543048c13b33d73f80d14132747bcca21662f6dbc1acc88d7c2)));
   (Skip, Skip, (0xc985b179caa5bee0ef6acefc42c0dec227b196c5dbd0953cc43c5868392e7cd3, 0x54a823a57da8af30a8be0434766ae1afc6d78eb92734cc2507b3e0f6efc1a7b2, 0x9ea3368323ce7a1ff0b9f641ce3c90557704df763321e14b45e35824eaae12a0, 0x14b4404b5ceb4c2c32ff2f4c679f8ac58aee29f289033d697669b1c2566e3a7e));
   (Skip, Skip, (0xa6d04e5b19577537db75701165cc1aa476cbdc92cb167d90af93b785d698742e, 0xbdac29b962115ea33a0a115ae783fc7dee05691e6ab124bf8c407a598878b073, 0x6cb2cf1d90e23dff3d7e7e640c92991e4765d6b76b6f46cec27537b1a8c3894b, 0x2058ae474acad1d6ba1a83b0a8025efa6cdf880696de36bf4a6899e681506c7f));
   (Skip, Plus (0x80157113af481edca3924affb526f35ca6b464b97195c06623e6af3db0cd4c76, (-0x2bd7f43932716d6347e390fb91c111de9b38a99849f30f5677555f49a332d58c), 0x401572df6e7542f2dbbc2caa787e04f5799144ef460c80be3e72df9d77542b71, 0x18d44b5d053cb7818fe9f03d2040c208bf99edd9d85812dacab1dd542705e771), (0x4479d94c2f98166b4c1d24655334f9bab459cb5a6c074f1e9bb5b9ea97b6a18b, 0x62a078adf0cf64e9f1a14ec0ae8d3742c3de95d9c8838d3019f9614bae96e625, 0x1250f56f9bc0090a5305d836dc51e3fe9f40680ec79afbed8fa63c9e881374c9, (-0x230a8719be6d755deb0a1a8aa993f98da9304d2c9426822f51ae76bf78c5ee8a)));
   (Skip, Skip, (0xbe5aafdeb2f0b1599d1b413e816d0ae93363953c3d97e4fd3afed1c367f9596d, (-0x4285da49bf5468a41d4b91f6e39dc72abb96589a72fec0cc2e28fdef6d45d488), 0x8d8abd2eb30552dda136a12807e6feacf10e413ea6b6b639125ca53d523ca891, (-0x33a4237f1808ba9e406cedb0a59c1ac31d3b27a8e9e005c420d5745315312a79)));
   (Minus (0x81e3391f7f98cb7e97af4a0fef2fa9164a4eb0b9cf3e5934865673c89f2c51c2, 0x3389b626430e51406ee256c5d6ae93b83b86dd0064e613c623603f90d64c598, 0x41e6c940193350c0a89846d015554e1ae761b6eccaca7a3e2e521ee7e7a335f9, 0x50046c221f55dc1b253cb16afc6d94f29aeacf30b0bb619c0583172210ef1b01), Skip, (0xa6a6f72a0273aa6f7b6276e647117f1c0e9f5561a551c6238ec167ba7ac03635, (-0x2221c2a4666307762f95d1f4688e7ab60f2529db6fe40017c62077045982a178e), 0x6c7cf56ff44b46a99d74c57da41ce0f9bd2448b3a952547fd63066ed6ef96778, 0x76e50a9bef7676950e7d97600e37b41148cb63027b6939b7b770f18e36e8cc6d));
   (Skip, Skip, (0x8dee3efccec9fbd528bcbdfc380d106f09ab41277d36c65ed6c4dc4784ea857a, 0x7e9109f1ab6d237b52c6233d46453e5890e4548af0e459f783e8cbe2a48509a7, 0x4eb04f1ba95a6ccaa9e464453058399cba2c109870eb3bdaa97b0c93f41dd782, (-0x5e27807737148c8a1d60e704012cf7d449c4f154acda8f41f0893af414939b9e)));
   (Plus (0x35073f37d55857c8ac6ee3365bf18553b35e461b601406afa3b79997f608e589, 0x1f5448269ef651b155d4312210e49353cee6a3ef84505be2360a801ab0baa94d, 0xafc0061a300c65cbd55f5ce01867fdc3e759b1e803d8e669d42edf061f64133, (-0x1dbfb461e10daa3ae78611e114e9c7a7a1335a45678d1f823cecf626ff076d2d)), Skip, (0xdb3e8ec5d990ec59421e6569d96dcdaecb7f725432c5a4ddb78439afbfe5554f, (-0x23cdecbed11cca3538ea823a592de789c524bf2ab7af7d8e95a246c2d91901be2), 0xbbc4178ff9b36cd88a81d1afc5474c5dc2e536b9e0f0acc77f9b2426666e05eb, 0x7a549e0377c36bea062b4b76d3a56084838cb9c1278f396e189f824c9006482c));
   (Skip, Minus (0xb265b645b386cfc2cf14fa7a22f21c43e64f3d4238908de832b95857ef7d6b25, 0x4bcbdcdf15ef95f954ff9e5051d30c36468bd70efba46f9d8ec8e602b13d2f3, 0x7c5199e2426e4f88cbab5ddd8891b13f45a8f12fe7372b9344d89e7c9088434c, (-0x38de9f31bb028250a189ef78ae58bc63f5e81f7f137f842ce17087b684a61914)), (0xf18fad968cb987adc7d7c35fc6ad8974a3fcf82a55e9400e7bf3015e6b558a5, (-0x341aef8155267225b84f83c1129eb67f111f4de69d22cf122d1c900099807232), 0xe3efd578d8db5b76be90d381dba2abb6f39f69ef7b3c3e43d78758f5ad0f6f, 0x3f41c31f9c9c69fff2b320dbd3594391fd551f32bad14b8b9969d4a7703a652));
   (Minus (0x85ac39c7a7f42ce425b487ff0c7044a1299413b4565e365c8d5614da74752b7, (-0x699af52e08aed550ba5ad0e8cf653e2b1bc74da1a55d081482d56becca64fae), 0x45cc67e725d7eb42a98c1eda08d902164127fb478897ec308a306e1e087524, 0x41f20c25c73574ebce4227fe204e2255a8529d9a603987970ebb9a4b34fe2d4), Skip, (0x82cd82212ae9dbf4101c8671a40de941c0bc39b23359c41063b171fe4cbf7c6a, 0xcf560c624e549b7b75c9dfe917c089bb70899eeb05ce5c35ff039911533569cc, 0x42d55d235ad9f1cfc01eed52110f1f6251a63fe8d72fce0a0c99268ca0d158e2, (-0x3f589d84df18f008b2eaafceab870480909ef201d86300eac81c1653b4f4d953)));
   (Skip, Minus (0xdfafeec40be02ba079249b008a1b12e327f01a9a272a065e5530d52e4a88777, (-0xf9d545c9942081beca8c9f7cbe1b28a0eefc8ee0efdb8354365a881fc5d10e), 0xc373fae1db69e4b439619d1c9646c834a2afc4894dcea7f4aacc5d3849c880, (-0x3230699737688e15a45ef111213f1a3ffdf97e5d4cdb7c20f342bc40d6311c4)), (0xc5ab93dae7b4d1d3c5edfe8bc49fa6ba5566b166494b830b6cf082231fe99f39, 0x9e47335685a3f69de417a2be480ca26797fc0cf14ae2c708daf4104a53f423fc, 0x98a1848dc472f7c95a311a1583fdbe2a681eaf83c027acce20c6a2fd8b6aabd8, (-0x561c82ccb1289b0635cf65b3e76959cd0f84037300f8739a0e392c864ce97894)));
   (Plus (0x698454803570688bab88ba3b426538492bb43344c64d16d0f7ba2d93dc3ab0de, 0x41c2c7ca2f0423cdc4b743b4fbbc78628590ce03c29310d4d3048ee4c12bb4b9, 0x2b7dd1b86bf1b4f5a2eafea766731bb5318987bab4597fef5c32ebdc6096d93f, 0xc6d1aba608e5b48fd34da49ceccf1b58ab490e5ac0f43b015a3fb7a8d8a0c84), Skip, (0xde12036f73e80356f7db91954e2ca46c56dcab93ec4efda7fa9e72b8b3a2b20a, (-0x2291c946a0bf46f28fd1deb7521dcf764a2a4477da8a6e9c92db5a80b433cc639), 0xc0a33f39c8be7fa875dcdfdfb2c1d4e07c369ca29f61911a3e83c7ec9d02d330, 0x1197c34c8ca378d5a7cb32a416af77900517029730af857795a7bc9553b386fd));
   (Skip, Minus (0xc651f14370aa2708a636ffb82e7e5656a675788dc2dd62b3609607e82bbc4443, 0xc5789b849a9b8f89db80620819dfbdc0a1a93390b6ccaca335278c54c394324, 0x99a2db6ee2548bf29cba4d18b79bff2f3b95280d81fb57e875facaffb612daa7, 0x691f1d569f05bd81e31842aec0fdd85d4e110c18fd49e65944fb730f147b1f2b), (0xeaaf7c28dae8dfa52783d0b7ef5ebc91aa999f58db631588e00a05856dbef4cd, (-0xb5de42807ef7faeac174cacd6b51f3c6388e61583093b9e142b6e7ac72c56bd0), 0xd7254745ac449dd26ca852670e7b2165dc0442973b7deb7f559e4b0a505818b8, 0x5be88f160c3da00c5e65cc0efa23d8963f62f994e28b4abf41c99126f8c597a));
   (Minus (0x4c98b118d9185b13936e103a91a0c16c4204c0a395b2540177b34b751ebe02e5, 0x30d0781c9594212d628ce2d51a2a6039893468b78accb194f792436a7dbd5347, 0x16eb043988eba19ce164de98471b928f5e02a7d9c09d39aedf3e88c1c297dd4c, (-0x2977c87d59767667abf7cc4422f808d22e2488924b57a1f90b34928740e46090)), Skip, (0x27923dd35874b9d0c3e1b1930352c0c3b0d91412f38fa8c1341f5a73beb4f8b9, (-0x220a74733606e362e6d838e91131cb2614a5f6f517fb18d013d79efc2a7d9a2df), 0x61de260f8f2dc641d5671fe3e19dd05802b6d4d77e5d2dddeeb5c649563d2cf, (-0x30c020183634c80539172de50a073a35681439960889802ee4be6e4a2f2b74f)));
   (Skip, Plus (0xf627cf6a5bcbd66a2f95fab464b1563ab9d71157246843b08e660cc8c271202b, 0x9eb978405fa57ac1a0ba8f96b034cb1edbd9a72df63266884a0883693331e14a, 0xecb088d142e0e4d33246932645f0a3ad593bba3adf6d2385ae754b28c20bd7b5, 0x4b7d8b6c9d08b902ab329c307f034cfc44e67a19ce4e4f6ab0d094158857a14f), (0xd8880a7ae61955a53b91ef1d5de7f4b9646afd475edbbc8974911329e12fbdcd, (-0x1a4352b65422c6d32a060e95804f8ce58a213f8eb6200b203b728dd1bac4469a2), 0xb725d9fa874d106bedbda11a8968671eb7e0704be7ba270241a962b6cb63427d, 0xc6b0383fe88d628a967a4b3374ddf9c6a4ce776f9360cd6de8b8f97f19c9a2cb));
   (Skip, Skip, (0x8676b3eae525414b100a173e847e521f75a5c46ae628b3858b1c1fbcbc59daf7, 0x1111d10e821e5a493e5805935a47a2af94da445396b2fbe4b738f49f9018edb4, 0x46a07b6442e092ac94835b868a5632a799c50b21501075739b6b332df56e0475, (-0x63106a7d28abddd6da9a1efa65c57dd78d6be6b1defea936bbe46a3ee2b464fe)));
   (Minus (0x752ad6f1554bd0e6e9fdb99301e62957422d4a58775734d3d145caf2dd7b471, (-0xee853e9927538648bf5a65930da4afdf5e213a0ab93598aef93b1a8fcae03), 0x35a02fa3d39fa7f0141384076f19d3b1a654f893180e3492a59bb021b3a5fd, 0x9433ae296b913b98e2dfe81d2332de624b0420c6ee1ba182aa882556b7562b), Minus (0x55e388a7e0d85f081d55e2c3396ff22dd0d310487030cd5a5f3b0380bf230013, 0x423045217525c77d16007197b82fa4292b6bc3883d1d8e404ab2f3559503f7a0, 0x1cd0e2fb1dfb3bd0f09f07d605a84ee1b0479c83d0a740a3c5fae4bd030a574b, (-0xdc59786702f0561cf698fbc0800bcaa083e2ce230b52854d0243263f533d68)), (0xf53ade417a0d913b3b9e411781e6e8de0ff1a6b169ca912fe5495f51c90530d8, (-0x2cfaaed409e0aa6b343ab3719d3271b797debde12efa2a4d581de574a278bbd4), 0xeae9baf2ca3ee68febeb56ebc3c7b4f1d50b6434542093974b6ef659254cd8e1, (-0x361da5ae59fe7fe77b0926417cdb13048a8813258c1e0f999cb3919e9f7828ba)));
   (Skip, Skip, (0x32f78aa8da44cbc85c1d785fb24f0e7f0da8ec5386523d436bb3a50d1e52fb8c, (-0x29e21aa577e947ff1d8d971661e2bd7a327de2391f4b7c74d8ccd45b7389e2d75), 0xa25a186d2328b0ce0b5fbba78509fa09884c4ae0fddbac11b1aa91b1691e2b2, 0x236bd082730989c579c4a37fb62f2f63af147f2e4461ec910dc75e9264298f56));
   (Plus (0xaa0d421d5c1caea69e53a1722b2fc5fa480f1f23f89a302e3b12907481d9fc25, (-0x4490e293dd385f3380e9d0de693c5de0995a490eabc26e15f54064ab70dfa910), 0x70f59c7ec66499bbd0e5430b728af1edb3e300e0381704ceb18380d6be03ea7b, (-0x1fe44a12951dd3771cc5faf6aa5fdef81d8a6337b34273b9a33ba5c745e22092)), Minus (0xcb5cdd172bcb520c3b258b0b279fae1b49544a741e07a3cffbe8f80c02632f0c, 0x3a390ad9cfb0273be571a4dda2cc7c8542b40ac01d66593fa4fa2e828b778e4e, 0xa18c6852670cf1f85047d8dc693c38092477c5ee4e342626dfa94fb9c461aee0, (-0x6735c50e6c6efb0d17923bf1c6e71b6ff68ce3f7dd05ff147d6abb88b0173a3f)), (0x2c5edb78f874848d89ceb49fa59a1ff38ba3a6605f567ca67bb74a6e78c097d7, (-0x20b7e56b8b52477c8ed413dce38272d418486b06ace054219d3b6e662580768c), 0x7b0be977e66b5633878a63700e4b8d365b2a30e773cf37429f64aa0e34cb30e, (-0x667df3881c4e829712dbce3f84444604b9cafb317016b42f06919a510cfc757)));
   (Skip, Skip, (0xdebcd686b581f6645f94a93467d0ecdf9e4ad7edeedcfeed57d9d6364c78d427, 0x10132324aa38de45cbe6b9c79593a1e65702ca96f433c7554d533a3090f641def, 0xc1cc0f5d6c6d7c8fc5e1011431013040e05ac70f323f7c05374f90bab2337266, (-0x2a6c6d453241d117ad08179952492e90264f7d9473e67c781f7be0cdf2b1c4ea)));
   (Skip, Minus (0xd9db10b3980bb6f9ec2ed4c844f7b632c27fd2d136afaefb2ff87878b79edf08, 0x18c08acf399d5e6d97f1ccf80d4d73172c07ed33f11ea5f7530d4513c33883ed, 0xb9651dc60c20f13e339085b3bc62c3e7306dc39412074b1d80392cd250b9d7fd, 0x3e04da7780617377162908f64ca2faf198064077dda316c8c3ef0bcf55857ea4), (0x81751b61f3b4ad7169d8ac62378adc14043339e3a60078fa2bf394c804c26e20, (-0xcbe432f6b2c45b68fa24adafb3022c0c99f595d65db68931d41b776847576b1d), 0x41773b2ac212a8d589d8fad82440bc210dc692de71f45c5818e6b1e5dc2750f3, (-0x1c2924335fc07896590a25980bc056369203e56969626f062d6635cc3910a351)));
   (Skip, Skip, (0xea6ec05c50822815af2653e43c1adabb3be24e602591c72373d731cc1a44a051, (-0x111dfc880ae94af33e82c7217a6fa69125215107a19a2aed7006f49a271b0d487), 0xd6aea792a30dbb2f49d387d7012c0513c57b94ce194c58854db63d45feda9d6a, 0x80d2dcfc2fc561a802a26c9c240641b035bf2336438bb709d86f03cff162c158));
   (Plus (0x5b0f6146bdec5b82b2d88f3b54c1540bb1ecd11c4c444c3021a7a48c261313c8, (-0x3588b713af11676311aed8623d2754eb5675389b6e390e05b5662136c7840ea6), 0x2063f014d646fa3b2bf8db8eb7f25bbacc894915aa03e6c342da0b945ccc6245, 0xdf23fe9f4d42e6244c0775a1e20686fbb39d931d3307cc61efe3016eefc7886), Minus (0x8347daf8255fc375881f4514093a180735eaa4652914aaec58601e253a76333b, 0x8b49bbe18214fc98eee3d44b299bcbbc9f6f9c7e6a5e14077530434a483fccf, 0x43529e4527304d583c6533ea709adddbee656dd8c0b34ce5b9f710f5d65be870, (-0x5b2e3a16bb9e9fe09db26158129e1e47e743b8bfc37b133bf54d3526bb1fa821)), (0xe60635d4ed2d254e05003b55d58bd309cce50b703f8dbf6d4700a65d85559a25, (-0x1de5a17fd7679964f07f1944ed01d28b68944e555c146d2592809e0fde5599bb), 0xceaf28e12b7a187450995cf3fcd0e783fc8eb49eb8accd328b04975b09a395a3, 0x340890367b61b8ba95fcba53deffc80b83227fc04a4b632558df4810f42317e1));
   (Skip, Skip, (0x7471bc58c865f770a22bcb1e2465507731b3ad17d19c55c851a736531fefafae, 0x52c23fa572c43b1c14356c9b4abed3b19310be38c0e4535b4a62ad4de4ec89f0, 0x34f74538468fd762aacde1999d76caf70fc377458fba5b941d568c22034084a8, (-0x645582eef0e567ca1b23f150258a06773eedd9ba6437d82b180bd819976ce7c)));
   (Minus (0xab373e40c6c44a930be590caa157ec63fd90acf00754dce67a2b865b5ce92403, (-0x67f1e4e05a9e0727e1254573df7c9621f9bfbd6f8c72f28b99a4864dcf48470d), 0x7282d916588314a38dac8939ccd1ffe2f3eee29a604b671ffbbfee71e3e931d6, 0x555ec304bf3e181501216e99c101f2dd71bb18736502e6f9597c906584f028fa), Minus (0x5a9dda3276f5a70e220574cbee8dc171d6e8d3cd788c4c1cbdcd7aebf36337e5, (-0x488bf8c7b2a0fde98719b11958fdd11364600b458d80d64be2a5d30caf8ce573), 0x20135ec0d7849f51e70246017058cf1e57545554eefb467a274f5c3e5348aa14, 0x3dde0c2d8a4dd60f2d8740bc9fd93690731ac421ec5ce89ccade401861542259), (0xc84b8bb00e0f4407e49fe1be00895dca6d817c8ce64cfebb5d67625411bde644, 0x2c6dcafa73fe6c863e18f27415e11f0ab9ba17f5ead495848d7366326283c088, 0x9cb6208e3b58bf961b7d8fe1092825ffa19cd2b916c610aa6a7313977fbf2720, (-0x27162613a3c0140ea4b269daaa2b56dd1f7ff207a7bb1bea44a274970f419c81)));
   (Skip, Skip, (0xdfada4b2106cac4951ec538f3d828576d57426ebe0d870d5e091e5b044aa5639, 0x4e8135dd97fd642afb502064d179b174938cb3a12874597604bda1dc3a95c1f0, 0xc36ffab63b3c27eeacbdbd94308385dbfad275bbf2f1efd2eedb3fffcc4111f8, 0x47932449e2339287a45b7f4534a5c3a4becd9324390b6d64352ab68ce281bf60));
   (Minus (0x625cc6bfce7749f7887325dfa03014f5231b92005e22efc3cd8e35ac64bc5467, (-0x16f37dd31e1db171dd3e8a0937bd9a36b047d3cf8fcd996000c22eef42bcc9ae), 0x25cb29ca4e3cfd74f151b4d262e1a9418578490b712d81a0350b508c032dd81d, (-0x3cade0f6878046a3a0fff5e54e1ba0a0ceef3c60a97eff21cb0e4f86f9038cfd)), Skip, (0x51ee9a34eead0ad899a54439d004a42a2f3fa11be3c4773c1dc6457062e3572b, 0x1ed5cb67fb111b420892c7d794c43ba44634d2984517aa30b6a4507e332580e9, 0x1a38dbf8965904b741d77a73193f95c44915f3d0ca8dca55c236d04790d2c834, (-0x4e2f8dfdbe4482843e5875fb8e0b3dbd85fdb7d0cc825f5da186d116b6813611)));
   (Skip, Skip, (0x602c9992d00cc6030985312c38033bca60ce74f3a25777862a7288488389cdc1, (-0x273f7d5064c2720ac1a414d7548049caab349431925507daa8faec262d62ddea9), 0x24217af342a1e9c7948569ea3ad2a67fd008eb2226f76e30d454b42efb1c69e8, 0x268e0b9937fcacd68c0c1c4220f48e9cf647ba267cbb99f84bcacef3e4f9db49));
   (Skip, Minus (0x82d9a31988d4ea9f58d13825628263149357932da0c4b89d59a1cb8dd30e296, 0x28a776e1abee9a827b60a9255c53d33e2f86e873c475d15146b41651a190fc1, 0x42e1c2abd82bbe0abdd8b84fab1b1826ca1892ef45f7d68ea960c15056fb85, (-0x4a7c4e01641301ececdb7d5daee41a30003fe057d13baa760d43411c76e1474)), (0x2caed624594a3483ad98859bef75a97ed7cc509bd906bb2b23fbf9fbe4e5004f, (-0xd8098d8f20bf73bcfc1de03569fc924641a242782fa4f6be9ff64262de27fcb7), 0x7cc91044b3bad5df27c028d022a69bed3d1281c2de52a6b318e9e6a1142cc8c, 0x251d0fe794f8d9f24d5c2a5c5fb106e6caf8f1728f8bb3d028ae73606fb385));
   (Minus (0xc45c8157a89f368dea2312b082a29c30572092b94637ef9cd9e1c37089c66aff, (-0x3aeca1f83e8e8c5f7dabe267700b9548a7f236958fcd654eeae3151b5372722c), 0x969dc77b728e73ed04c972df46ca893663784441f89048eb7aac2731cfcf8ab0, 0x32e2d9ea00063f5fa5707bf66c944f3b6a943a9a1c3483e62229218aae84a757), Skip, (0xff486a88ac95151d852a5270924d4ccf1fff7b676398e499d324893a4bbb576c, (-0xcc91c5c267b4b96691e7cf29fd9f24bd6e72b42858154531a50d2bb846feaecd), 0xfe9158b861078bcff820c4e06d10d88eea026d7aa3efeb8b7ee641e481c7381f, 0x5a875717b25fa1d6c1d69018948f0778a17a8cd36ecbebe11028151d97c1e25a));
   (Skip, Skip, (0x8309b9cd7caf364f8a4726b848e574837a1498176583cd38a99bbf35c27c0e01, 0x8a24f50091d51cfacd01d4b39c8ee1d3d28d93a1d9c94c30a017fdb44ca5c743, 0x4312f486e4e8b90d62f2b067f9b3f3b73f94aab58fccb4d380346aa3ff7e4127, (-0x1d83c47d4bcf751ced405a6580f5150665620f03dd61bdc852dc2ddfa812a69)));
   (Plus (0xdbcb184d036230ad4e48b77c431b9e5dfbb715f1563387e61ff5ba457aee9b15, (-0x53d8bd8a25cda52fe7fa57a439aa75bb13fc60cb3532ca72767732bab9d43776), 0xbcb51cb3503be4cf2907cafdb1d072bf11c45a136b5b17fd039dc9229816ddc6, 0x15848eb9102a6977c85c040c8f0f2a6500398d152649a0689eaab09d2fa17cad), Minus (0xf1238ded3a91730465fd889c28a5f4cc66fca3a75f0790880dc49daf68e7f4db, (-0x913f51df0f28eb16d9a009b93b9b5f11644c77bb1d946879780d13fdf2ec1bc9), 0xe323f628c5d30cad72a347c8fc05e90481581a53afb5a1aa7004b784522b1768, (-0xc3488196380361b8f5790b84caae8ea26c0029924c8b4412187df277717aed7)), (0xc3a088da9a740fbef9a36dc94890489302dbf3a200c6aad18428714f41d62ef0, (-0x964d7c0fb3a0610b8bf527ce126416d45f897afa14e91a383f9f70c46b7454), 0x957df52861b6dfd75a9c9798b98626bde391b0c5b90ef9472194d803f02a3de2, 0xf21b4ea23c0a54711c056be16ec206de776d55a92758318971889262a449824));
   (Skip, Skip, (0x9a1bb41d1a00d1b60cc94b47fe3b071dd38189836c875b949a5bb1b3744d5622, 0x778a3e1c7d442d6600aee87baf15aeedf8b4fbcc6a059e55e65b853398224784, 0x5cc557b28025685b518490dc1cea9677798e17372e8edd638b53191021329bea, (-0xc8fe8f0e2c03d5e1f83927ce1a10e94d4b7945f42830eeb350a8e9b4fbd978b)));
   (Skip, Minus (0xb66b2f2e933589111406ce8ff8cbd65dc5e21c61ae113e11b1269213b2a960ec, (-0x7659e15d26a66876ef4e384ab5ed29b5f1d4d1cdad7668fa4bc2b3b972b9d781), 0x81fc93f6b2f1502bc0f8797ebbdc4ce89c9e182f3fba1294cc4080f4f729ec36, 0x835993302f3425f31ce5b535f080f4f16d176aead8c7a45c9902f6d4b8668881), (0x738fd7bbbe9afd0e286fa67c1b3d9d1d4306cf1d91327714eb87d7e6678bcdb6, (-0xe9f45b5861c8eb322816215dbb69b91e08621f30bf8fe981838e55950241f8), 0x342a8ca566cb1459c78b64608f14d738c23e82811db5a1c8489d717daa1a9b1c, (-0x560903ce46813c4e69df99656d7a6d1b5bb48c0264d487fd1602a44dc2fa2dff)));
   (Skip, Skip, (0x245df8c5a6ad254b4c4c56c0d969cacd2ea321b08b1ed4d55515f34d582f7420, (-0x2c2d3badf9cf50512a306a0da6ca9829624d1cb705114c135e6e45237aa7e6b50), 0x52a9076483b57d3b16d330daefddbd5db18784245246df99e34ce690067744e, (-0x986537a1aa744a19c5cdbb7707f824b84564a6a6154d1bf65fd4189b09b3db)));
   (Skip, Plus (0xb6a7d98af61b24d4243f46f31d33aa639bef3b53fbcbe29530f66f27790895df, 0x97fde4b0dfcfedbe209865e0572547ea2dadc9ff61491c34ea3db3b5412a6e4c, 0x8253175f2218906ff69ccb4318ebd0fd0f895f0f27d2671cec3d0da6b637c3aa, 0x5c2754a67e89e8216240b7a4f6b9700802b66f7b8dc875aabecfb0dcf3e632c), (0xb51b78655a4e5a25c8c18dd20190b5571b736e586729fe907b550841e1b6724f, (-0x18a1f274baff4637bfe39b9b6e94360db2f1e8c4f81ccc2d4a6c123ce56d27a6e), 0x801fdb31efb304ca480bc8c25e1ec286258e204764701f3ec770b0be640185d9, 0x505b12e8199ff30ed1cab364979a6fbca2a0e1bc86331565093f6debb7f2c43c));
   (Skip, Skip, (0x2e95bd430cb40948c3e3069bb698efdada1d87ac3d902f2d55129e9cbdb660d4, (-0x8e3c41f27be5dfbe684c1952181225acc1f1f91d7e5d7cde19b4612886b02ddc), 0x87a2799f4898f3a71ad4975487fd7ade180a320d2011a7099b2311fc750aae3, 0x17c391a61ae98db2ec4cf0d503dac84b4df753d5affaab28c1c82a190b6febb5));
   (Skip, Minus (0x531465735e086076d60878eaa975155060fa0518e8d4588b83bfc6f98d55a187, (-0x77d8386925c1e8d7cd04d58a391fa75dae30d2b59306c4f1aba3824fe0af37e), 0x1af63b68d1345c0c5b89867f7a8723ac56020defdac515d04614a1deda7e20ba, (-0x30fc16f15f084d03ab9df6a9bb738270c2e13f9f772aaf36c0f57c12d1b50f8d)), (0x61ff0b09e723c8829eb256b349701c992867da5babb9246b4e80f4a06a7739aa, 0x5ebfab968388ffa23571a2645339b5336bf455b29bd2bf3e2de7cb9ab06cdfe3, 0x258344747f5d717b94ec38ab3dfa5bc7509b96f83781ece63cf8650a6f7648e7, (-0x402361c9a6ae590b7bf32fce7b86297ed20307d6544c327b28ec6fe54f348c68)));
   (Skip, Skip, (0x3172c36f49857e7e10d1b5927bf54091d80521d6b2eb92a8998b92cbb2234de1, (-0x15af07584b8d0470396317ca0af1921db2a9e2791a48f12af26c43ca570bfbd2d), 0x98d22433e754fb3204c68fa6d78511ba8cf057378e3fd2c9657f5f1a47fd5d9, 0x1b16c3cee6975e5e8ad7da433cc95724fd295f9f0cb01e6d0f59daaf06a3a636));
   (Plus (0xc7574b2b40dbac5f18b4a8efb1b4e10a1a31b6037217963c82a3555323f306ff, (-0x48e5957a39e335c348d2b3f0db05515952df0a833d0a32af10514d60f70f13fc), 0x9b38d4a16c4dfa9a9245dc8b8bfdb78b56a4ef5af7f6f096c42c982714ec0e1f, (-0x16be38c2d8f19aa62aadd14748848e97737cb2b0f61c42b47807df01cb314e6a)), Plus (0x7029e1c7ec94834a93e86f7b635aaf7f72a512c55f57acda221a20afa0b98c34, (-0x4047d0191c5db7e54886df951f57bfc33fb79565f67e29770516c55e31a0f1fc), 0x3124ac69082cc472079e2029c60e5e7bba659b7b3958a5cf210e7e4c9f854cd8, 0x39aaf353ea239cfa55dd7740ba04a7925cae7844296251067137d75b541ade0d), (0xc3c8b71e8454afd4fe4ae23209d6947bbfdb44f29f3474cbf6e1de6bfd9974ad, 0x170a64f768d64a28eeee5661c4bdd2402d7053fa868e4d86af6a90b185707a74a, 0x95bb645720446d0593d6946bd4e5d290331303f95f60ba7ca5889fe27ed623fa, (-0x91ef4c498bc6e95cb76cce220a85977aa1b79b8076ce978ffff8bdccaa5ea7aa)));
   (Skip, Skip, (0xc781a37bd88a0baa945a25dcbec891a96eab33936f3ae33b924c4ebb9ccc91e1, (-0x17e1617a998721b0182e8faa597fd0df72b0aa18451fb93e3499b06939e9694a5), 0x9b7acdd0b5ddcaec8b3956ad22b3c12965ed319b036ecd085c022fbd8c16d722, 0x879391a45a6a3ce01b8de5e3671728c369c513ad0938529a31aed63f43f6e762));
   (Skip, Plus (0x5caa5fd83240284a661a42c139d9790f8eee63231fea6cf5612413ef84c5a787, 0xa2fdbe09a61ee3925c27c3921e3a8471cf662b342e6c3404e7b0185404bed0, 0x218ae646d323060b703ad0008f7dd7953e34cbe6a75eee84bd76dfb573601cad, (-0x1a300aa24f666e885fb52d9d8cccd42b9419933663bb7d3de9c67268eb430867)), (0x5e1c71fb55e898f6e64912dece2b8a3d031f1eaee2af6f37ebd48ca94c1a3624, 0x214049df73c3e469b36ea795d8cdc91d96a79c41bfcfff8c51bccbc9c6d19dab, 0x2298e6ddb4d173cfb11a3e3565ecd08617cd4e3fde4156fe4ec749cb7d361f0c, (-0x21173658927b8fcdb889b30be48ed09ad3915586d139d93fb6988ab3db2ca320)));
   (Skip, Skip, (0x5adeba52ee6ac0e141ffb884efa7a7d9a940b9950373647c8aaef60dd14e763c, (-0x41fbb9f43245552045b46931e5fce4a9ae98247c9a71531f67f237ce163cd4d4), 0x20415cc9ff152e15a3cbd49e8199b645f4d2af5e36fa89310b868f6f6bc94f37, 0x2ba266e852bd863c2132869adc2e3957fb154665a692d453097f9073d408957d));
   (Plus (0x1eadab6ac77119c144d62d6efb9e46c6354ab702c75439f3b65ea499b210f4ad, (-0x10a4cfc3c13e96db8f79b6969a1735a306b52a21874d21f94159078df31445cd), 0x3ad29fe27d7e3e0f8cbca24c54421a1477dcec7d66e028e55f4b160a63a19ca, 0x236b3b40f08ecc54735fcb50fba522c45f9ecf0ccf0292f087d0d17283d64de), Skip, (0xa478dd7bfcb0fe45115c6952feba38f9de0842736b164666c083b48c9ac6cb1, 0x73db7e66067ca1da1fccb9b2842e63896d50bab74547b53395f15f8a3860bc1, 0x69ab14d73f9efa0d418332e3e686d8a5d1a8a621cf092ba2c45e7560056f7b, (-0xd6c5040d13867f170281dc10a1f3d77088b9ff7ff920103a26af32bccb05c1)));
   (Skip, Minus (0x200627349a15abea2d7ca21553511516dfe252fe493cb203aa7277722debec02, (-0xa557a3a253245ad3ba4b3bdc065873da4a90666dffa1f2a392256d8bd323d85), 0x40189f302fdb5c02a469006c8709d8f329baf7de78c280c921d0e6105d2ecf1, (-0x48dff748f1adb01c523264e8cee6749ca39215a5ff7422caa0942932a1a0ee9)), (0x104f2aa37e05be6add58d281a2334816593555f014ce643f702814ec1391f5a4, (-0x60ce18345d1de1baa9b2177f33623a3b7323e5cd991ee5699bb7e0ae5e54c4c), 0x109fdcfc7c28d1c7d74eb6b542a00d2640ae6bea152b38be697e6d17388360f, (-0x601c59352eecce7e0bb7240508863f7b4e242a4bbacc5db463c9bc2730d966f)));
   (Skip, Skip, (0xad98ae499f8b968dacfaf69097db01061deecdd4b8b7fe434720aaf6131a6fc1, (-0x27ff65426eff22df724d7e2febfc45a9c0225b6e4eb7e52c5bd330e830d1e361), 0x75b7b69eefb8494c65bbc056da836c4543f165a10e791e0537ea9954448b458a, 0x21f9b2a89118ea0d45a65194c51595db9b838d9b7182b971ce361908f6544bde));
   (Skip, Minus (0x5339759101e203e90ba29183b1ddf231b0bc8f6a05a6c0f6f1f4e8c083a6c7f4, (-0x18540142852042107e54130ebc7758a635c4332b8b5bd501b8fa79a5c1e4f411), 0x1b0e4f2197c9430a94f196f4b2c5723e614fe033f90c363ecd2667513dbd1d81, 0x15122e155e91b12570e23ea14f20fc0f73f41acc6a8e63dc8dff75a2a58453d4), (0xe3b8c91ddd9155986dea06e85caade56b09b179572444c1c2007fd77d04d6f0, (-0x3994fdd73316b2c082ed4b0f770ce3e3de6b03d9e0aad7dae386fc41664b4025), 0xca913a0cafde282189260a17a94bd4dfca930a780b357608432d78a95cc000, (-0x4c55a80726cbb8df592223354fb49c6b09a932e937c4847958dac8a81ed0489)));
   (Minus (0xbcb0758bf09971510823925ecc5d0b60a49e7d1271b7f5324d486308d4211373, 0x1676e10cd656fcebda0b85663941151ff44d4c7d48e123f39fed3ebde74adf4a, 0x8b13a6475fc567d63db49fc46d345230d2971e163e4da5d8d5b509cbda1a5426, 0x3c4b5f9fd11b2909da5be530238f0dd8bb0902ed8756c0ee1b62a09649c6bd88), Skip, (0x6d5074103e91fdcfa4597e9b5c32b822c19b5af92207eb477c72ec4f9dcccb6b, (-0xeb9f7547cf28ce81a3475b55b813bae3ee055b181075e93af8c52657899e350a), 0x2ead9c1e940e271da349ded728010972eef16fff1c729a7484bb1f847a213c77, (-0xa5aa020f731f7bf5a0c75450ecad692c5b4a3953b570bf7585df7449c7200c5)));
   (Skip, Skip, (0xb0486abb58d31b2dc9704b8502170a38dc4139987db4802a1661a40d857824d, (-0x1b263edc42a10eda7b5fd85cc0fef21c361cb0d58ca086e8e1a35fb11f6b4f950), 0x7963a73dd003eac7f479277bf12348c61f9105686ef60abef6ba1e3008b079, 0x7ec1af00b1912d4727fe724b5073603d918d3bb13b482f3a86f407e2677b2f7));
   (Skip, Plus (0x6f0a9ab6b9ef18c3dcf59cbd3978d790bd143da8eb09cf5228c328efadfcebef, (-0x247359a5ca9aa8ee91dd6e73784e9d87c1f36a96fbfa56e2b73057e4a20c823d), 0x302a329ae904384859b88e8c59e4ad00071c439f04f67a171eb921e336637b04, (-0x16744e6ba4bab8e7423ecd74a8ee398d875b552672521a378d70fe7eca70c6f4)), (0xe6d9fa3e6518d4e9723dea425cf89cf627c6b2258bb185785b0f3d91b04e6115, 0x95d908869a9615836cca1796f817c40b7d16ef1eade6aef68aec08f8aff8fa12, 0xd02c6742500def560cd69c8378152dcb014068be11b433080bfab42ea667e455, (-0x1a6b9c58ea9209a6715cb6ae75ba645c574626024c4f2d2c03ca0526715e628d)));
   (Skip, Skip, (0xd884b65bd5b8dfcbdda21a681b317b0bcbf4d101debc21a38ca7300520334d4c, 0x18d1dd4aad1222c3d6287b31e6508ac1105fefbf69acbfbfc937bef81e4b486fc, 0xb72038878943152352503fb8af8d7ec95859ac28cfa7d980527a486222ff17fa, (-0x86fbfa2299f2e497b9fab6c6ec4cc5072fcac64cdbe58ce9d90178cbfc27b118)));
   (Skip, Minus (0x2f1c1ed180ffd492a951bdc5dd0ac0041d5168bde42b117971d5ec2d5d4850f9, 0x9c5498d905ef31b3c119e4b8b6a6327919c532a894fa3ed73e8f4fa7ab3dcb0, 0x8ab5667aee7edb432cd58f3a066d4cfd4fb19bd0c54bb2ea7d33fad33ac3429, 0x15beb29906efda17a240b07becdde9beec5b069fa7985be467b66d4d28c04061), (0x9d1540c9467d3bf99ee5b77f3c9121f1a88e1886ce5c64aa196b85cf6815554e, (-0x179501e9d0550d9d2468053524a232b98cb0c123751e10ddaf1d1f6fc696ff25c), 0x6063133a91e06d9a65e78c40ae5b86daceb88f83fcb37eda21fd8fa92d320db3, 0x6f8223b218e599b412b93e52c8402bcc951223626cb3aab2d2cd3bb4e97ff868));
   (Skip, Skip, (0xc48405b3038c03bd744a8ed8a5527cb83e8f1929b392d0a6967cbd721bae0b, (-0x224599a9fb5094922086d40cf6b79758db3d2f6118efe667268435c312ae6bd), 0x96da6ccffe2a896f63714dc51e67f34b231da646e18e744f52ec9e0501d5, (-0x3ee3441655285c8c804b56dfbc5f69b449c198f42adf1e15e7baf796ac8af6)));
   (Skip, Skip, (0xf9bd4b25fb8787ac97edb42b9bac8deb9ff7ef01b41f5d6575086f1012bf96ce, 0xfdbc52ea7fc7f6b0790c73abd565619fdd7c6e5bcded0ea380d3f4cedd6fd4fc, 0xf3a1c827ef7253102a34222ee15d034ac50087352d9054cca4b43430d68bf7e9, (-0x2299fd7fabd3b4688ce292b0bab4e31aa4a70d73d88a0077a7e41e438f92e183)));
   (Minus (0xc16590755662e36a5250e6e6cc3cf841f80ee1a312ef78f1a620908934a4d986, 0x3a2e595b358c785cb20a7c15811a3330cb5af69a86d6c82d0281e80839860c9c, 0x921a4c1c3a5b7be5156502c6ca82e6623bfb17a00bf4756f3ee676efb8ca3e27, (-0x4f336282ec6877a5c23726c1da8d5857cbd6da2979b2c700887b3a060d043873)), Skip, (0x95b144bd0405b76f012f298ce4bf1355bccb8671d21cdb26d904bbbeb3860cda, (-0x6a598853f5263be2696b8497cfe9c7d985998bdd2709cce77721c81daef85cf5), 0x5787d4c426832d20d8d489fa6aa0594149b1db21a8c61e3d4fa0b1e8a85fd55f, (-0x4dd3f9ab50f50d9e311ca7778762a712ce99c5bc759c3e5f5f1d39a301f8648)));
   (Skip, Skip, (0xcd97a7266946a362a966c2469bb3e45413110726a2c395c2bea221545461dbef, 0x8c5fbb3f12a885e4d42cc9f7d7b32451cd675b14e19ddeae726d35f5fed4b503, 0xa51c3b8a210e761e5720aa3151d54f5017877324ee06bc83129a84a054d5e41f, 0x12eb32b5a2b4bdc2c3055d959b8857ada0efe78a7d6be733ab0858f57947fd5a));
   (Minus (0xfefea5e00a33154244e74c4354c1e1e9aa9a6c920f5d19e3c54669c98a002c4f, (-0x2ae4ae8a7aeba590e5da3304705ca97a4170a4178d9e68f4042ce9cc0a6fba55), 0xfdfe4e76284c2cc563705ef6566ea4b16c8083bb2b3e61f6a8982c906c7825d6, 0x98ab47a3dd6f0db0458fbc241b9fecbd16117ac282e16b34a87c30ec5f7b642f), Skip, (0xe53ce2c798d39bef6ff55175192d6b703f4df8f610db8e47bda11627318a4605, (-0x1ccdf346c66dc6fe0cd85e4a1e3c4e765feaff4f9b271347ab832d786ddafe8a), 0xcd45fc342ddf3da00a1486bda1c824a726c4618bfd4c95cddfe037159adb1c90, (-0x62dd0864752868233cee4a7f3d8b2480526012960780a91d721f4e4aceeaa0dc)));
   (Skip, Minus (0x1442eebb5e9013f7548ffd1477cae064945504ca3dee4e624a178af1e1608a73, 0xffeab789efd50fe61401270f05ef493828cc631a35ad38d00da6d3b6444b26a, 0x19a86cd3e0432601f49461b101ac7a90f0292b4959fe354beeab4be656a6942, (-0x31ee2199219ce748e5c81d5e5115ce1b3e021c0058a2e36e674639b58db7998)), (0x18b9cd189f45726e2c6dfdc2cce38866bc945ec92113621bfaa817ce723adf9e, (-0x25933b1131466a51862cb3ca36165e6855044280169cf9fa73883d9f2bb7a6bcd), 0x2635d4eafc3a94784f2155984bb3e982cb923f6990750e9ce624db8849a01b5, 0x61925b735c538043def17debd9932a9ea1ec99618a49beedfdb2d0c6b84ed42));
   (Skip, Skip, (0xbcba2313f29e1d97551bf61072f2a6f583d17ef9378ac65a6a5a28639887beb1, (-0x134567f8f42e1a19966da002be0e46676934408e773d13cd6e2e7664dd85b74a5), 0x8b21eadc4a233f1e6a67d560a74c022b4eb3667cfe35e759451cf6f6d3c6379f, (-0x2bae76bd18f2ccbe097960f18839bf91cebf33d78e2e7a97b674a52afa3e14d)));
   (Skip, Minus (0xadcb82ced71015b42129f1f59513a315d95401898199062419878d7c53dfb8a6, 0x4614743e808f2a9c3664451555527f76fa6a70d918c0b70175647c8eb59c4643, 0x75fcb094458b8a6309192e96e845700c51b2dea405eccbfa9a029ff7893b2e35, (-0x5c3a7c8add4116b289aab639a799c8c826194de410c7f309e90f458cb22f32ba)), (0xccb0c2d5a765fae0fa90950f0ed92a38ad56207a00bd4f3ea9da4b31dfc25815, (-0x7fccfa927cfdb9671c64e37c084307dc660f581e21e5aed2c3fc84a75bbc96dc), 0xa3aa3090fcd938161215a0727d2beb1d5433c7cae994cbbf13259b0089cc8c62, (-0x97ae0e4324516b04d78a80bdd178e5ce6bc6b8d5b0d91bd2704ef792f39f466)));
   (Minus (0x7b3ce84876ad17358df22760efd9592819d39133820a9fa75dae4b9d8b335a23, 0x534c73e54af863d9bf83631301b7c8fd491cac8201b52ba6a7e6465054d69807, 0x3b5395b356c5610d09f3612e1ad8e31b5da525b0a4d9d50a3c2c016dbc7d9fd6, (-0x22c88292ba3d6d3bb186c3c34047809d52994109ef79e76a5ca1a94bd168b934)), Skip, (0xdfedec6f42f70b127c80c91fa38ee129550274bde0c96a7286b93a0f6c39dfc0, (-0x128b360260ab035ec54a737e18e29e05fc6780d161ef7ae366007bcc6b249fcbd), 0xc3e05f097709b687554ce48ad461c21369027274adb1a14cd8be0eed304c23e3, (-0x2592971c3a968ab060dfd0a8477740d3a517f147279dea214746e8c7ec813596)));
   (Skip, Skip, (0x24076fdb1fa11f74017e5c3696347308e32b3f0e740977d9c044061b43cc1ca4, (-0x22b8ac85b3ac70e22b550e8d9b10e94619b761281b21f65667820e6830a398f8d), 0x51217acefc0cca5339e73a53387db126dc3c312afcf96726a52ce815b9632f8, 0x1d83e10fbb80b98cede1db9a501919ffa989a921176b1c3c2d9b4973fa5e8819));
   (Skip, Minus (0xbc2a016406146360fea8fb3e1f53f60d5349dd0bfbf69e45824a9b58b5ba0515, (-0x89d69f70eef61b2a2a96f50abf8dbeadf9b88aa666cef90c2a7e9c634122c8ec), 0x8a4db8ef5dc1dfc7fab51c822e0c3d9c49c7378946f99bfeb5e32647ac6d1de7, 0x6e5c345edf20be33eb71baad932c2cafff36875d96b6a3ad2ac9a33695a99011), (0x38894d85c2951105037a5d11369af6d039f62d660aef1e5b13689d8a8da7b17a, 0x1de43d275b31a9f195fa24270df5f2ff26f22354cb9cead0eec95a7e4e1f93ac, 0xc7c5b8e95c537efd7ea3994c7ae78a109b3e7a267b1f15705122a65e32972f4, (-0x2c1fe1e8df7bf4642de8f86d67419b714d464671579d68921b9183b3f907ac46)));
   (Minus (0x9c52fc7a2d1a7457acb941ee19f46e7414ff15dd3485e2f680248387362c13ae, 0x51b6b49d176a3187f9cd8185c7f7e8d85bb3e30349a36144f2c72ee7efdb34a3, 0x5f753e9b9e3de5d87ce23e486ff1ea9c0a13688885141e6324525f6012625ec6, (-0x3a06c606a9e6997a625c07360587e4818ce60d839b98362823dc18c0a507e2b)), Skip, (0x43e3186271177bc3437dffd0f295e9a9b2a7a173698f8c15f747e07c7e8ff275, (-0x20555bbd52b2984b051df74468c8a68708e677080475003800730f8759b12b88c), 0x1200a837c819757ce0c2c0ec32784be67252edc78e56056e9539d8527a49d152, 0x1cfaa9a274fbe8d7e888fae6c26131d467d8cceed9928574ae1518206e3881e7));
   (Skip, Plus (0xacd254e8e77072b30d5db51ca60edf3bf2f2fb97028a5f754611660c40a5e7eb, 0x23ded2f11bfa6f3c5a93ec4ca7b559d01dd137f81b6fa88f7936c3bb6da0e10a, 0x74ab4ee861447a62e0095ecd0d064140de10a15879018f067d74ac2082eb9fea, (-0xe38e70f8361020a6b7183a50827d4245ead63e31de9deaf8d1d291a23d97346)), (0xb52c04d03ee5d1a4b1d4065d2e74ed960cb2de26a95aa21abbc0df208ef24801, 0x3219ce540d8cb0682860acf0b518be32db1f3d6c62a2146ca9126fcfd6b079af, 0x80374660209dc4d06788e2ee0eedbdc009c0fdc4d5727b6350bc6db369254a69, 0x32ec3f8abc29b506a219d8f89b29c6a5dd57666a3150b01213363fd5df65e811));
   (Plus (0x5fb797265469abf5585316ee0d11a69fd09d9629aaa9290211a630638b5559a0, (-0x13f338c4a0d2be151b03069706798abe56003a1cea8dc32b4ce33d7b33087bc4), 0x23c9c5d7e4b15a05c461f14f387c1553bf1ea7f523f2a3fdfe3efaf0e9d19ba5, (-0x11b7df666ed885e7e46aa5f055955ba6684ddfc7cd81e77d946a5aec452510c1)), Skip, (0xa25099814b5320e1032c789b522196ca8e997d9c4c7caf884c79019ad46985e4, 0x52b45c7342fc682cfe049443d210c83e1f5eaf193b000f86e1fc704170ed45a0, 0x66ea1ba7f03016e7b1e42d427dfe309e705f51be0f1a222f082ff1afc82d2c04, 0x3161c590fc281f0fd0544e76bc7e89fb339c5a190c997f8380a8912a12a1571));
   (Skip, Minus (0xdbf539be7a5f11557aac119ebfbe6ce2f290b4a94bae182bef4a8bb0e9bb4ba0, (-0x2674586172fc9adeb0ccb6137305162a8fc1d3be8a879b091aa0610eef818291), 0xbcfd7bb378fb41d7a2d3bed564b72d260e859b6aae9c4dac33d9af4f9b415ec1, 0x7b0fdc36b11e4ecd4be1088a36e0f007d3fb0bf6856ea3b6dd64f23d81c528b), (0x722376042ae0f9d2ab08571a325abc3a4436037b5b82183ef03f4c040825c566, 0x3de524559d4b8a2bb5903d65293f85beb9ddec8efc8f12c13ea8d33f6c79e57c, 0x32e39a0531bbef9cb472cdcb7326fcf0e0cc40b0f00b255e91ed2e61f42fbd70, (-0x12a156acde413de78fef4995ea4d64b5267712b3f100f615f29c7b345e69799f)));
   (Skip, Skip, (0xa108d01af8d3416aa2f0e358342876e2ba7343cd700f6c28a824e467637a1221, (-0x27fc4b54a4e867ce205cdc11269adbf6871af4d37edd9d0d3a1e5086694573d4), 0x654c160f97d51caafeadbc8733ae4f7849326a7f838cd3dffcf3ca43ba589714, (-0x6ac978843c60d841a623fccad98312695da75926a3cf1801f10228d84b6ea408)));
   (Skip, Skip, (0xaa93ae9daa82037fbb9b9ac8d39248dd36602f49c2588d2617debf0c252844b5, (-0x1bf04dc23ddc839053f93a94bc7ae25be1c52a44cb3231f4bb9afaaa5ef029f27), 0x71a8791b66a132d8fba6faa751d78e7117346ac90eafaac04fe8a02e748d95ed, 0x6b90581711036a88b9d3f62b75d8ab018e174eef16460508fbc6b42387335306));
   (Plus (0x418eb01924dfe8c1d1b5d2640f7b4f51761f20a7ed44fdd0ec228c63b32d591, (-0xe363ce264e96939993dfb5b231c0f9093dc16434aa0f0d81cdc42f8967c5d6), 0x10c9c4f499c131c4bc98ae0f05f0d4b00b74fa2de046df331909e168681847, 0x473360b2a9162947b252c194b7dfb7386c0ac91498326f466614353745af82), Skip, (0x1636e902f0379b679aafde9343d791a7ab89d449ce8432e3b716d55e3470094f, (-0x441d917262eeeed21f42d0669fb6dbd298aa3d62b05a37b6757a2ff87ac03c84), 0x1ed7bd3a29d3f793974d11c2a960fea4bb8627fa737bfd8beee428490b8b624, (-0x52062a60c732d5b241652e4640ad9ff6ad54edf34281f01c4fe786564b332b0)));
   (Skip, Skip, (0x61d87a0cfe2e33fd3d7b20932d6ec316534b451b05017d55ebf66df97c650703, (-0xaa062aed44bdd1a5e5ad58378757b59c1730b939f2aa3264550518060397d9d7), 0x2565c38c08bc544a7e31044edef33dbf5b48398d71812bac968c5b07a9ccd1c0, 0xcd7b2a6cc9432869c7b8341d2ba32f7d673cf5aa001eea7549aa82456031bd6));
   (Plus (0xaac8d08168fd5dee902229130935bd5a0ac4d379be933febd919cc0b7a2e5130, (-0x86f2be6f4917330a139cbaa5d6a19b32fe22e2a77e88232a6991200be0936da), 0x71ef5272537718aa4f39bfa6dc41ef87d877e792c393031f93373534984b5d92, 0x4f6e248fe74a6cf8aab6f7d1d93bf43c6213348ffe794f84bcd212b0271cfdb), Plus (0x4e863a782a28c9a0d242841a341b22da0aa69194d07fc3b6069dbdb88feda589, 0xc34739fa5eb1b87b75d42f135f1f821d2e2ffe3f4458c67bb3a832907b7643b, 0x181612027cd7a9131d07f4d5eb744528548cc8d61a6a67b0acbf7d0118c612c4, 0x5b6a9a6723c798bff6b36077cedc967beb34924024bb79d9cb699109af5cb34), (0x24454cfd40d319c9fe377ebae48788ea6718ae1dc023e42f98c46838dfdb2715, (-0x4a75fa21f209d865287ac4c4c52a4bbde5e9e37ef15b89b7d9b8181af5dec37f), 0x5239069d1e7aa133f5dc8b8d2a2a68a493a7a4d744a35b45bf57354a007f657, 0x7932bbcc16777cfbbd5f57cbc7b771dfdcab64c8fbabd6460ad3bfc63053805));
   (Skip, Skip, (0x717534901dbb59ab006854c068a50dfdd20232fe591a31fbd7dda12262862069, 0x80a0ba48fe10d7809e6002682fb28e671b0427fdc527b8df9831ca1e7d8f029a, 0x3248ae1050c56f9e7f50ce270961745323e43485c95b9badee7b4f513613ec19, (-0x5a7b06db34140ad298aff2fd9da4d9a8552722dbeee31fb6775778b44596f25c)));
   (Plus (0xebc6d109f72f728a610845d8b80fb19ad841db2e1c03dbcb3eed0dfee6d91c17, 0x85ff37f245ebd41b5b91bfb1eee5d7575b53a75942d93441b414e90fda95f5b9, 0xd9269e3051ecbfae053be1048b176f298e5235878a9eef6ab26624007a64f01d, 0x51c9a0635a2a005e5741adfa05ea37efbe920fe1bb2a60e928f0462ee9bd3b0f), Skip, (0x41c5c1a77b62baa51b180e1dcbff6780ece0a093f5a78051c6de090fab67d58b, (-0x2bf688bc61357f87c7ac12c53159eeeac37d98b44a67b9ac998c4029840f67bfe), 0x10e6051aaae9fe582d9265e290a533f25b3b43b831051c975afcfa307de0f827, 0x46306bcf79e6401bd6822354322dd2536f536b57eabac4524ff47ac78329467));
   (Skip, Skip, (0xcc008c577437b3b458c9b836494bb2bc62d6e64da3f0842ef710401e85163577, (-0x2330b767a4a6232f533b631fdba30cf527ecf10705b960ab7acbcd1c24c99ae54), 0xa290dfabae288b648cad6a41a581e2c2464a6422885a03902fa3619684e63c90, 0x9bf94f9ab265741dd9f65db9c434ff823dfe69943c7914a48eca57c7bccc566a));
   (Skip, Plus (0xc19a6e9c1c1fe7bb0d449bc460c66d6fffa0974e318dc5ffb2ee2ed2fdd7473f, (-0x2cb9b27e80bf698bbdc6e1543fce1b4bba6390d0f1210d5d65e7108dd75ec9f), 0x926a37f0a60479288c2b93737fa18d8de4d42b470be8fc4d243b5f7da0804dfc, (-0x6f6542107edcade196ac2a9e26e2f4c240a83002bd76a2e68c99f122f808df17)), (0x9294b9f9f80b87f9d51ea42cdc54616c6c8cacf9b6a14ad9e9bee370d90df338, 0x7dd7df98fb8f17cf7baf259f7de7b689ed0d8d23a4a8927c4435b25e600bcff3, 0x53edfa88af0f3103514150b0e2b057b6810f4e48e7adde498f6db394b794c213, 0xd6a62c65f8b50b487863b1bc79903cf90ea51746eac421e2ed06c6f23184d6d));
   (Minus (0x412d38fc410b26c292ccc8839615f93f51fa966172bd83dcdb645b00624f1c53, (-0x7e8397266ec5c771d9de7da5bb3009ec5fbd63089b9e853d1dab687990ec6a), 0x1097feed2e65dc9f6e63b347148133e88bcdb9f739fe434f1d4989110b8dd7c6, (-0x11f4f2419594d2f00c67a6819cccd7d633ab278e09745f18807549acded6382c)), Skip, (0x27b376e30f76ec47e5e68b16c3a2cf484262baa820f9d61937a65d963ba0a28f, 0x3816d9965fddeda9d51149bd47436ac6f2ccdf7a0ecf4e2cb3f052439e5dfbfb, 0x6282c08a773f7f264403528c9d2707635cbf47433afc46943a019d5e204445a, (-0xf952a242f3a83e9eb8fd8955fa5295170bf5f1a8b82a65e137608eb955f0d33)));
   (Skip, Skip, (0xf1bf5eae2a0c4c9ef23bb69797a3827927656b3d5c2e1dc0e927cc43f0db11ba, 0xd60d7d0e5aac29a5e83ab10161b05393996cbf17bb7ccbd4263a9fbf41efcf6f, 0xe449df52561243fbd126ce94724abb193a5849501c201affbecdeccb7e620583, 0x6014c03b2e4c140700dff4d4c42084c5c173d46798f76384562d1d4ea8761e9));
   (Plus (0x55d019967c231db9160140f0d2859bb44a21da42c4cf193bb4e2c533454952eb, 0x741cb3dc9523bc5823b50943b99a1e782a97ffc8fa8e864e5c6f056df78956c, 0x1cc3da278587c781c6879bf7ecaaa5e5b16442013b8703a753b2befd098f8647, (-0x2f0be09d057424061c0905de05217eebee4da12af59fdc6817f6fd7d9f66de85)), Plus (0x3d3a28047f17fe79820afd26018dc48b9da9894ba68c57c98301ddcde910152f, (-0x1334b38623135731e74e529d201509ac462fc30f705427de81cb36b95c6be13b), 0xea4c4484cdc6df0ee66e6ca973baa732368d4f42847eac5e4ba45ebaa247d2d, 0x1676f0dd6653c386b4b3bba480a4e66ad2edb040fb8d66048c9a5bb9b706817f), (0x546acca7e813b1998650b06326ef6544d2d72aa88a3413c45c35c5c3ba5cef5e, (-0x2dd8c56aaff45fb1a9bcc2337484db46b624d92d032cb409a3cfc1fb1707cee5), 0x1bd642dc4ef524dbd26a465b157f579aa935d187cdcbd4e78e5345cb15ae6b44, 0x1c99a50fcad92dbba75a01fdfb6a7fb6285682d323a3d2fd65fb6177004aa2e0));
   (Skip, Skip, (0x631098678fdb228e7be3f87f83e86efe5e8cb7d78b2be931475be0b75e618be4, 0x17d6be378b2e949cfb54590858db0f0bdc5e54a60e7567a729268bc42b8e0b3c, 0x2655d6f380f09cd7d1d75ca76b5a7606a02bccba346b85f6c46817d5fb763014, (-0x39e583282fe02d4fb19a89201046b3eac832a6612fcba2f53ac812c696abadfc)));
   (Skip, Minus (0xb44a709698daca615145ff78fd067e99dfeba191c1650b5053b609c2b184935c, 0x35e1ababf9e1d563f69716961f2dd767e9f1032f810f43e076358c3d3fecc08e, 0x7ef8c3f90f88296cc74c48333193eccfb4c65ce192b37c6118f0a58afbd1d0ae, 0x13a780a7cb82721857d112a135bfa6e8feb7ea0ad2375b3fe376e66e15a699d1), (0x792c04e8f7afd1b9a401fb8523f74d5c81c76302b10a6726b0a0b54d60e62eac, (-0x16182343f468d0ca66637786f8a1488f49c84e5a81d1c5d65af71f57a5b331cb0), 0x395aa435ea517470f1b8ed804752e10f71300cae9ba8c39566383d9721410901, (-0xb43c07ab8d5bd59c7e4768350e8dab008b5b77f63425fc688c2285049439917)));
   (Minus (0xe6676c34d310a64f909c5df7db587c0bdd60abc64347fbb4f77c90928a527df, (-0x1cd174e41830df41fa520dc53cdb0921caf932825228ceca6656a8aa38fee8e), 0xcf5e00372b805f3944fa7c4008c3ec9496914042abde6bebe86531846591d2, 0x145890d8effd6111cebc518861c0b31b6c4d68b13544f95f93f09c1c5abaca7), Skip, (0xa12d5e05dff013873b8147dae62e9e6caf91901e3e357c1cec3858f69f0d4b2, (-0x1c64ec2127b90ce08a4959a3234ffc3c4910002e73e81399618ed530130f51379), 0x657a184d9445038dc7ffbdfa1505471ab982c07cf19f9d57dd3a42bcaff429, 0x479e117b5162ce41b3c0e22beb4bb18d617ddb78fe809a45a9b484533122348));
   (Skip, Minus (0x595e43a8f97e20a985c77953039e9b47e08d0dc86543504a37aaffc2d86d3026, 0x50c92f9dc395983cfcf205b8f00d35c3c2020b309edb8a3af9f750cb7b56cb6, 0x1f32adc13f72cd76494d250cc2142d5e78bc533f3a0c96413a4656b642d192f3, (-0x30c77d65206ecaa8408a8436ea926ace3bcb9f8eaf44754d442e7314a2553028)), (0x2a2f3623eafc2706805279368e2b1c5c2afa8d5e85e53d5ba7e9d48345cf88f4, (-0x9c55b6ea0590c810380345c9488b0dc63cc8c38d191cdb9be6ff7ff6ecc944d), 0x6f38678b5be3190ef9987ad07b4e5417c203818effdc9c4c6faf85108144b9f, 0x23a5cd34604d26f5f8f98235d7c6ee0ac07d833cb17d3ddac95ca3d5faa71c2));
   (Plus (0x24e2cb465377e247e5b4302ee589f9ac6c879a693a08e42e7e370489b42a3a6b, (-0x13b1c15a2d26992a9635dd1bdb85fde9e54c1cc5909977f3c206bdfc97b1e153), 0x5509217510db301a130fa2e6c1e3a0a3df403c330df4e4bd34dbfba1ff133e1, 0xc31945bcb5d487ff3fd971872f74cdbacdb4bf59f08f0df3bddbe612b6c446f), Skip, (0x292696c573b74a6cd56a72bbb1bcc0d621fb2ff611aec55bd728a03258fa9ac4, (-0x25439964a2f78b6f4511234230e364c76f962aa1d38c70703632cd16da200a85), 0x69d621c5a7b0c270c49ba0ca7e99de18d0796bc6f8d282ed89468a38c21338d, (-0x136b068de713f863bd4563ab698839852ba0ef480e41f640f0bd45e6acafcf3a)));
   (Skip, Minus (0xcadef6880438e2b5e7a5519725991fce3b293b2199dc0ea8a75f07dddd0e5945, (-0xe41290f74183cf526d74155a5b32ab5537eb8fb597b497139db8cdd88a14e74), 0xa0c49f3f27fac8d21546f5ad898839c08b9b0fc09dfd9bfacfbd69600d2ed7c3, 0x3055a7d8dd0a24d6e97d4faefeef9add03aa357b1db00effdb550bc6eea7552), (0xaa59b2dd302ea6d3ebf0bd86b52a675096448eaee3e2c37f59fe73a32ea2452c, (-0x1a40d940c552bc44b7b02fca4c481de03513d149ccf41c2bad9311eabca6da01d), 0x715b40fb9ec1cc1e8e520e2aaed76e383eedfa9c79bf6d9dc9f3dc09bb2061a1, (-0xfdbf86982c64764665ceee09b37e2b6877990edad98e0f3cfa04c76665e527c)));
   (Skip, Skip, (0x9824e79ee39825411d7bf6454d5ed23a6453d1b81b9b3a889361ae2bb1a01db9, (-0xf6e83a9e304081e099cc77108cc65597ab03761ebe744687604b753a6bdafa73), 0x5a6bd85ea484d0621ab42b6367dc2886430b148ee5b9be8fdcd1166aa31fc5b9, (-0x15b01a303d6de17b2b744573a66cfc7ecfd1bdc16af2aff56ead5c0d7fa285ef)));
   (Plus (0xbbfcd07191b18f5a117705fce0e545982040ce1aceba58b3c845ffc73862b517, 0x5ec74e3d513bd7835452e476f18bc49b58f06b9a706c3b56db1f9ec689dc3ec7, 0x8a0b5230f428fc224973ce83a1d2a8525e214677b3e3091e71a4691e9135c39e, (-0x6c6de5423bee63b64b1ecc2369f4580bc10e5abce5b95dc5316c29010a477e8)), Plus (0xb434e1f0c35625eafc2507994e8e4fe3a7700e18882b9c4001c456ad9e5740c0, 0x207c835353c3ccd394cf591a04ff13ec293e35f074275b66f3da8b1a602eecd5, 0x7eda68a723e99a1e1f45044e05295cbb5420472166d3e2aadbcd11886c8b5613, 0x6e1bb1a524aea5875cb76a6c639cff7eae559ee935185156d4546c247d1ce0e8), (0x1410252b4cd150f805430da05be0fa84af1a95f3bda9041d49b5dac99bde7dbc, (-0x2e94be281bed14a399bb11581095cbe701170af64d95780bf7ce02f51fbb03248), 0x19286d36ecfda584698fa927a91ecd982de784031b782c33ee76a7eae61fb34, 0x2c75dfa4a8d3a8cccd0a4632606c0da8f98885c20d868816eae4448535e35b8));
   (Skip, Skip, (0xd835dfd81665457b77de5400f8e630b0f3fee3384b8a278f65ff35efbac3549d, (-0x1ce500d8d0a90aba270b773875208042c1a03fc6152ac935425682cb0553235c6), 0xb69af51318fe58995b4ebb0128d58ac886e342f5b06cc428541099c3535fc2d1, 0xb46c79b69e0c08947b138695305925d9fa600f94998ad4cc25c5f2d0d5d37409));
   (Skip, Minus (0x4c4b0c337e355e36c3a0436dacb09e06a0ae93a7d770cdf48ff33f4263bc70ff, (-0xddccbf7016c2eec579f23a25803ca8caabd54ad00cd6f2cac4405969fddb7e7), 0x16bca53eb9b08166408f07f7a6e43950947f487e831336c73d5c369b880c6433, (-0x2834c5aac601580da0c3d77f4dd7a8c92d998a37cb5b7d7423f1a286f0a27969)), (0x31acb4e1b1cf7975d68309d78e4079a67ff7ca16b70a141bca36aa1e38f7816, 0x161028e3f437f29c986b2d84ff0fe81999b303ec52b665e062509c2072d0c1c, 0x9a391c1f52684501f782ebfaf1cf8b391421a7b0d4f6cc6aa5e17033ede93, (-0x23183f28c71876d8b9c9c3dc7707fc0ff1c181c4c4344bf328c4926d34f12df)));
   (Plus (0x665a592e9e7e0e0834520299dd18932921e8b044837672b84a1d76bda94ea771, 0x14a33fa13c089091ed7274d539bfa1c63a3f676730c5f6ad9013f1a643878752, 0x28ec1ef3fa25568164a4ba743514977f8f932366d3827f1a2b4352c75a3b8552, (-0x248f09fbdff6d5811f7406c1b79b5e0380acea0362d600b30ea9be5d774368ba)), Skip, (0x9e134159fa7f342a7059c56115bfcbe4aee40bb38561a32f7d1cd882eb497297, (-0x15f04c4f851fd3d06cf3f9d036222f779859daead5158cfde34f0ec5dd8546ab7), 0x619bc61dd53f041adb08009e881497f40c7a698486c1dbbdf97c3531fbf7e62f, 0x2eb4c2ceeeeb7c714f3b1ab78cbea46338029f5f2381ccb7e75d60ea777dfa15));
   (Skip, Minus (0x49f8a768a90e210837783b30e9c7655bb140f2c877b67649e4f52fd9f092ae0c, (-0x1604e76cad6166db081291c290111adf4f1caff1c736cccca52f8d1482bb5434), 0x155fc0fe78ab5190e9c54224fd6880c055cc7aec34da5ab88a11bdbbd5bd4f37, 0x322d6adf13c6758142bf845fefbf5c205e59ac4b138c92aeb1603997f25f0523), (0xf7f95ba71f70ffae38b8afe471517eb23276f67bb7e8587cbcc1c8f03fdd8edc, 0x12f560708de5589c2ae043c9244c045714daf5eadbd8c98aa0614e470e551a494, 0xf03321bfea9774a7f16ebc1f349c7f646dcc21e6502484d0bf44edffb2afd5cd, 0x30eac31fb23f919df0b2e05df070d5350b6fc5b92e74304fbed32bc8c5a86844));
   (Skip, Skip, (0x775399578055e555c62520e02bf03e8454a29230887ca4369e4c87b9bb0ba8cd, 0x85bc34aeb5f7fa0cc635f0f1973bf074123af52ef756c48780e39de8cc7e6535, 0x379ed3dc23e6c8379aad69f0a74b6b8e34267433e27bee7f6e92e5df15598573, (-0x1d3808c2398051b042c6c1a220fc12180612f51aa1d51f2d86c0772909ac8d1f)));
   (Skip, Skip, (0x500a08279b3c953b7ea4c442af79ee4fc12bb93017e4727816b4374fcac245db, (-0x7c35f29c1b3bc8a4d69f2ffc9b445f98b3129d0e4e288598b10d0a2773b220aa), 0x1906457d64607dd54bb87aa03b9713e5b7d09d82e9234aca09ef7175d7463238, (-0x22995ec69a46033becadcf2c3d4d9bd05caf77b3c53110ad3d8e0a5142564796)));
   (Plus (0x5405a7785e36b9d167d595f723278e971d3bb97a4e508380e914c029d238e8b0, 0x26cb457bbd0c57d138a8c0fab69c91683a02f007e1ba745cef0f3e0d8a29edd, 0x1b93b606f615db988abbdeb4c017584777e4ac7a4d70b8c019e196ac1b933797, 0x5613165eefcb3ebd7cca7faedf458b09ed41205d5067fed83b24b217ce7e698), Plus (0xf04dab7be1da1cf9e1663b6cc438a70e8077de3885bbc92af42c31d00d2b0b3b, 0xceca6631fa679cd5397ec73c35f9a1d533b0cc539596c50cccf1773e35eaee91, 0xe191b918e2dd8f36268012ed7609dfc0efb5f843f57883abc494780bc5de5677, (-0x29896a1ad649e774760e3b0a62377742fc926515d96aed9737ea33562843da68)), (0x759f42169706492f4d893748465b0b891cf451657415eb8bad19754d88799bb8, (-0x19ba19264cfd6c9389ad6a3c6ce837935eca0a488f5e93bb162b1121de5c26515), 0x360af57bcf2b0091b18b1f9420c8e6f25e2a05ba8a4ec12e9675212e37c02932, 0x4b5b885971c296a9a7e8eff7bb943b4f8365fcb7a158af3d5c39622d9147503b));
   (Skip, Skip, (0x9b2f8851451a0c4a32b655df99f323889b9f437a5ac499423c383f787a29e43e, 0x93f0d17930b35150ff01563b015d9d26552b6e46481b2445ad262f56fa383aac, 0x5e1297e5c01b5daad6d9150c9e2680f6a8244fa4d9bb091049791ec19136d5fc, (-0x6c3997571678e3278816110d73f8335f349daedd0e66988bb53d4d6ea3876b94)));
   (Plus (0xd25daf2b3ec0a1fd31b026d1d4a74c5b91cf034cca47c79ba6a7f417cbb8df17, 0x1f787328518fbb203e781ca278170fd6b60854c97efad68484d5b2e16b6dd11b, 0xacddd5abb03bc8d2990b8e1401f334008ebdfe27c23952e1d638e7b56d6ebff4, 0xa8d250f9e918d934b61a43db103c68fbe47710b1b76b85255aae7fbf1de5701d), Plus (0x38efa4b28a1cceb01337d3f8b79ade8cf57b77e8b08da03f1344b86a20fd847b, 0x2a6228c594a956d0082c72a407befb0acc2d8e5c69dea9b2242a204d65845bab, 0xca9b8630bbfb9b0389066888e10426dc2ceac794d4bff67381283b8a9683f36, 0x31306258e1ff01431919da17b02bbfac933e76f072ad0ecf0662ce0cabeb5df), (0xfd694f82ce17714f7e6a833cfa028cf5206ab4c04bab17679f65e28f90487e1d, (-0x24889214ddf5e96ecc980302fa72c01919ea3c594438286a961298487c4b3fa3a), 0xfad9527add59633a80bc1c09cd3e7592a414d4ec7d5877d9688df09cba02c694, 0x6a10e6ae7a0c355bbf382c23f27a5ae640470cbb1c50858a2f82191d5ac7e467));
   (Skip, Skip, (0x6d66f1633c0ea4e3be369e04bdcfc73efac3f92d72320932c55fd0197c48e44a, (-0x1b831007207d2382aa16071eb5866c5b6fbce624e385d54c8697d8440827a599), 0x2ec0d2f3bfd451a06955487f1d7454a6c9b8fb266dad94e1f5d4c40956fcf226, (-0xa13058ac3742a60924c7a8cb34f0d4a7064fd8e1951a097aaa12bbc837b83f4)));
   (Plus (0x1e6b383d53e61c18decdfe12b494dcf476283d680b35bc7e4d5eb02c077d0c74, 0x130808b17edbe91c4fc87703a0cc2700cd0071cb3760bc19245328bd1d8f4986, 0x39d4e166f48f4571475d221b3887c31727b1c68f11694bbf036184d9dea0618, (-0x19cccd034034dd585159a305b616626aaccba211e14808872d8c8f54b6822d97)), Minus (0xb9cd1562542cf16a80bb8353148074810e80bd14bd6ac77f52028f14b6f1ba1b, 0x57af77d04692cbe169b92383d006271dadd494e3880e3a033f0e71d98c741846, 0x86da0d335eed0c7a805305197e8dac6976683d56cd6d56f01a315d9de08d571d, 0x1972ac83245184c934af216827c086eb67adbbd98fcec790e2e03f1785685eaa), (0x60fb0dd8cfb159a6cc7a0b308761f2bb17857246959617835ef54989090a211d, (-0xdfe93e25f9a5c0730e7d580c5270394ced55b3578f9fa27a0697ece46483c85a), 0x24bd4096c3ac05ba0d5303cca082457955e16a902c7577a0c386b3947621ef35, 0x2ea49002bfd29ed6fb40cbe1ac119161856afb9cdf37f953225de64a09882d3a));
   (Skip, Skip, (0x50018607e3d60e50bc5e7dd6ea0060dab9e5478b964170294f64677ef6f5adfd, 0xc03bbb77767a7ca496ac970f50d70b9fdaa4b173f25262aa3ef056efde41a9e, 0x1900f3c740a1d360e9d3255fa4ad5e78c907ff186bfff642a6ad7c93d216bc31, (-0x31c0432c5e52239b674dca9cdb769b72646ceaff5a1d2ab9889a2fb4046ecd69)));
   (Plus (0x76ad8c6a8ac55ad1b09889e9c6a81d96a91dd1bd446aef83c40f4f061310a947, (-0x9afcf99d1604a5ae0f7656dfaf24f13da1b8e949e89485a57d2d47285274ba0), 0x370473194cf2329520333a29f799bcc0a4f1fff2ab8b8a4237df20484975dec2, (-0xe45093dd79ed507c282c99eb076b36b8318e472d50836cb0a9e43121da13ad1)), Skip, (0xcae60ba240a4434e4187587e5c8846b5fb61cb5eed6df31ef65e69275e8298dd, (-0x15c15132c3388cfde23892f2d20bd8615d31e2e4815ac35bc1e588cf0a6fe93fc), 0xa0cfd914f616b9c46e07ca946cb5e03879fff07bba46eedff8aa96423cae95b6, 0x94482de376f63e098f3e148bb102e857047429389c9f3f4363c8af3e87eaad87));
   (Skip, Skip, (0x27fec578a9edadb2aa5328699c0a3cccb201d9e4c4c46c036041f20898797576, 0x63b862d71c47d1f0015581476fb72ec8e8184f46c7b5b09a64751eca379d4d3, 0x63f9db7378a8cf8ab62d0f900d1503b04bfc19af98bde118883a2ee393ad696, (-0x14bb191375bf0dc2b820bef535d1ece49581fc8a8e6a5df28e1d03feb2b7fe98)));
   (Skip, Plus (0xd49110c4891b0fe126c4be8b1160030cbf2c2e0bab7bf3200b9692e28cfb8dfc, 0x72366c34b83ab45d154a67145b3737f1fe04965acb27fe308b61447c7db915d9, 0xb08095f982d14afa821e35ed795ec4f07070a9816f01d110d6fbecb18d32297b, (-0x19d637c5b78b400c16bd1f52c5f8f03e43d3e46274cb0661f49814503ff6be10)), (0xd4f0db18fed8a66a083b386445c250011b57923062480f793ccb65d82d6f2d6b, (-0xdd7aca48986e41b1a16dcbcd39515efeef51292aeb11963ae122dc90c5091330), 0xb11fcd7cf078704f177cc3fa5493d96d22c100b379d5be92fad13d94a94ce040, 0xf63fb98b8daed0135b1c3c559f98cfcaf5e00e31794151f6a04306500651176));
   (Skip, Skip, (0x58ff873b75fe48d0de02ba7960e477f2b009a1fad79a0c13db1f838a68704f33, (-0x56316a9cacb70890c6e5ae730feb8344048e0af8387c2f873ccde94d1586a8b7), 0x1ef0ac079103a6e673206f33a47744e9779bb4463a3a92b9459b514293677710, (-0xc3404f0462304c85ba5e21ed042daafdf9e71bf81507afcf822a02baa7522ad)));
   (Plus (0x4e219c18ca5619c46eaf37fc301fe79a4dda7c44b5afe42b99f0a049e5235432, (-0x1b4ea546bcb7dd5510cb1b0678cd417859e183a92d0e2f19ef85f18af6252ba8), 0x17d87f88b8dedae5d78f88a3baac89b723f3686823dc7edb61120c071ed6a3cb, 0x1bd665b8f97bc826d81261e45330bce891bfb1d199919716fa16349ac99cce8), Plus (0xe27eec999edee2407f5bc1423692c1d52fdc0383a45f198eef5c460b003382e1, 0x6cda6a56abc9a5b16a5275487fc1f6f54417cd2fc60f3e33b01db054bd34d107, 0xc86458acfe6583fad2849cc95a900345dfd1d5bd24d1da3d1e293d196297c460, 0x13c9b39abf607937aaeeb3d332ed320d8eee7519894daaf5df2a2681fafde943), (0x4a448861c49b177bf3d75a72ffbe403636a0189476ffa033360c12be26583b58, (-0xd0b03bbe5cfe3d5b497a1099fa460a5bb8dc409c302bd24a63e90eae4163d71d), 0x158bb13142422233804b63a161e1202df118f86c7763ebb82b7ae3f62f8d0492, (-0xe38b6b8d7a32dd15b7cf7844ecf370fdbf193924ac29e8d3876729e79f72e77)));
   (Skip, Skip, (0x857ad2cd6b2921bd076754555a30fbaa46c691e4d20c90d6ea86468cd38da973, (-0x1a9772865553569fae00a81ddb53874d1963c339e5902ed64c58d16f4c4fdb2da), 0x4598d9f70ab888e6d9f1fdd04a18fbee8a6f61585609dd9d1452f8fd79769f69, 0x22e0682e73abcc81f5398d4340dedfcd0a23831262df4b1b5d2edaf81a85a94b));
   (Plus (0x3cf6d0d4f96148d20deb44279534ba464073d732225d9e675a1d81a446079a3a, (-0x18346c7d616656aeddd42d723381e78c994b7e3846b312574de3e8793eaad382), 0xe849fd9d88fa7867c9d5f3fc965b7b98e944eea8fe378155ec955a2e32c23a4, 0x5ad444672d0f7baba6739291014c19d0689b80988bcfa46b81054a215df27f9), Plus (0x1796708f1fda3c75dbd17c38e119c31cac1caf5f0d35df2360957932c6d17cd8, 0xbc023d02d99574aade50b5b031b8482cab3cb43c1a5112157bb64fefd4334bc, 0x22c60a1d0f0167f964a7e823e1389ec05e1d25a6f10e3c80f423991ef035c39, 0x10aecccac04f37e8edf51b2fec73f3eb5a15141fd73d449a140c2c78098690), (0xcfc72646669a22e13c4fa2f56147ca7fd7babf662697196e4fab511935abdd53, (-0x4b2a9d174fc00a12db59c2156ea5ea747cfc488bbb2970dc01043a682405d760), 0xa8a3aad26119c1dc8179af064489ee05e73b65e4c2a6cc237ff98ba4865aba71, 0x35aa89c6d7603f95ac6ea76ccad7e30cee4fcb231d727ef9bc2a38a9046970f4));
   (Skip, Skip, (0x8adbeb828d3955fd13580b649ec0d51cd200054e8894fa357bb6dd39dd142198, 0x989b4d6c0cd53d2c9358d62e376a1abdf929adf7d8185d7396733a3a4ae0a9cc, 0x4b51d6d58a4862a8f7dc310772897420938f4f7a537558d5b8f2a46517dc3832, (-0x15c0d06e8fd868192d36282880604791327e4f30579bd7fbab368e75c59c6a3f)));
   (Skip, Minus (0xe3df571d5f98f1d5cd28536c41801ca4f4497b6d654b62aa5716b200e3121c9b, 0x5afd32dc6144a50bddccdae3eafee20306eed312d6adfe3703982d39d4a18af3, 0xcad5d756fa5ac3af3d09eaf1f73597acbadba32488fe616a55532b65afff3d1f, (-0x8ccfb9e39296bb6159d9f9b6cd6e8d9beca9aa02231729cda45a7367c68e32d3)), (0x8fd62364fc6918a7b6ad07b7300fbb01b94e5f0fc41d37bcc1f45a015cdc44a6, 0x38535dde3a98b8e7116a21a93972f0a501ebecf45dbfdc6cd4b8f93b2fd5ab48, 0x50d0eeaa03b82e1b7e32ea9100d86cbbb1c53a4118a8905e8efd09678d4f3d20, 0x2f64b223c2a6049c1647f984a02f0c11ed52476522e7280c84681ea95e469750));
   (Skip, Skip, (0xd9a2254eb1165724d49b7f402b59327424e10d29788a1a1b00e957605bca3d62, 0xa26d4864e14a303963a646211c7eef660d82fbf632c39fbe0decd3bc0c20687c, 0xb90449f2a53fd763945a58e25e3bca8dbc38a26634e05270cd32fa9dc30e31ed, (-0xa68cf0b4d6fff23c112668113d4e5184ba7ce8993c477ccf45eeb5dd86f331b1)));
   (Skip, Minus (0x49781c528c2000088a1e48585dd5f0004be6bb64078b9a4fdca815523e63ad16, 0xff412890783bcc67de38e9d0657dd886250c277074c970fb3097e6995e35b85, 0x1515b881a46fc749f7fba95eacc94f8fbe41331051ab6d7423f63144b4673c29, 0x143c89bf29a973ad822b54610a369a68bb27cae46171ae07fc96aca5d617b73e), (0xe838298a11c6053304d86bdaf61c5c8d69f0d9a71cdac755d0eef49f886c88a5, (-0x22f2905b0a14e528212c5461e833b093fcf0185f668a161a52f75e90824b35fe5), 0xd2a5d79c735c3437577e3a976b6ac4848809719d9f289424d2fa83a30430b778, 0x8b7a9e80a59bb07a49a0ad9c6d2702502c90d31d6eafd49eeff2ac63679b9479));
   (Skip, Skip, (0xc32552ee2210231698d000b389e2f9bb93532e3f3c0dc62634ad9f14b80b3a81, 0x6fc71fb5b90fe1e0c0dc745aaa07f8037f4dcd9c42d96859ef23b5b7d2ff5065, 0x94c1e1c7db97d97442590f718363803102e838c2116da8694a152de73a10aa3c, (-0x61f6d590f5179262a58fd5cf6598c868937162bb855078f0637bdbba8636ac3d)));
   (Skip, Plus (0x6ebf84a19a4f1f585ec99df4aa77b622e9552eca039a1b7dd46fb9f924ec3268, 0x2ba1441e4e8596f9fbb17eb280f232fa77699607a558bb0966e6d39cf8186a7f, 0x2fe925420e774e25c42e8da9c87dd4a1a3143f267578c56f76b64494af288169, 0x1bd68d4c79d60c405f0158cf68c795ede3d1e04dee7de76c371d4a1bad15fa00), (0x5b992fd2d78850b42b957a04c4217803e73a2f75edc048f1fe7f5d849cd9661f, (-0x1b13e9d6fdb951c61211c038d3c4687571c01e3aa3a4d2704f170531db9c6a295), 0x20c643aa182fa31aed152d281b40a6fab06ad14cf514c653927ec4caac3832ad, (-0xe95ffdaa7b1ae25326a8facba46cd74e2b8896959c446ef101c790937f1db47)));
   (Skip, Skip, (0x33fa37f998b0740bd3d01ebf4eb5dca5fd795ca30bb2b700f6c2c5246c91c493, (-0x288c8bf4c056e3700552fd53dda00ba8428a306b08ca18c351a5f9635b198df74), 0xa8da6ded291b9d591af762f8f7950444d4ce97e8c2571af77cf6f31f08246a5, 0x1535d23fef1fb943ea7bc7a4527ce904439469af82adbb4d2a7b433ef2fdcb53));
   (Skip, Skip, (0x6c647a1f5541b1be021e4f77cd01120521d0d33c945d4d43da55868291df55d1, (-0x1ac458ab4328ca5fda95119f22090a55a0e07e855224e39c514c0f33908f6bca), 0x2de4ee7a12abea638df211a87cf3fe920bd8cb804df071fc20d8915d832dfbda, 0x2bb145247ee8783c520471d18718d9301a1e40d74d2cee42e92b502906a64397));
   (Skip, Skip, (0xa881cca3218459c4678bb25fbc018ebb7201965d2d05436f7cddc2a67995862e, 0x126cd79a400354cc5d119bff03d7499a47b05de534eee490f242d3721bc5afd1f, 0x6eea9e65fbf9e292e1d66d9b4022312e3f052cd64083d0b5d81b3ec53f2f535c, 0x1809f8252d35606ca23d2236d2672aa987a7d73d435754202a5acbd29d6e52ab));
   (Skip, Skip, (0x9176aa61da3a43f2c3aa722d4938d534e45ea3c34dd7d52d38fe3a4e4b052794, 0xd2daf5dc0fa9cb2377adad42070e595490bbf42939eea6cb393c10b9653c18dc, 0x52a7a4045cd149ec21e0a94b86c879ce087c3462ac0562b0b59fda9d1b28fac9, (-0x875941eafe105c942d93e1628a609660af23a5c2bacfa588401daaf260688784)));
   (Skip, Plus (0x67dd8914cc1f93e2d0ada1fdec9eacc43d6975b782b78f67dea3d75e80a699ca, 0x5123d4efaf2ff2df6f4e8169514926914a6d8158b430a724bdb01158e450e4d1, 0x2a240404b3911bb02d823a851a46d8c173445e0ef6ae97c41f8041b0f4bb84f2, (-0xeeb1f1d9183890794378cc7454473cd1eee41cd2bbe3372c31f5e26b1d1465a)), (0x15f335679cf24d02b0b55fdd7638c68285de4d357daa4be71b389ad9535365de, (-0x271ed82f3742c6d7c14de9ec3dc89dfd424dfd75d419e364b83013392e7b8e5fd), 0x1e1cdd16d97c58ca32e82949716599668e5b752b6dbc858467737d32c3974d7, 0x967a0a5d54f33bfb5ba0e9dce519eb05f9e0d946da16158f3cb3a641396203));
   (Skip, Skip, (0xd752c21abb9fa74c23cf9a0a508bceb1e8ebf1a05fa786e83dfcabe7215cc4f8, (-0x22d56ae3bbe6606eb4c7c8bce1776ec7b78af5bc405e7e0d914e1d6faee15a4dd), 0xb51c1cc9d372e471b06da97467c38f360e9ccd7d46e89705f00ada40d1eb5233, (-0xbe8a2d62e01cd461e9ba93e7f9f63392bdf5df971d1af8cc532c0e0162182a3)));
   (Skip, Minus (0x422673cde0acae6facded9a8ec99bdf748ecb45d35bcbc81ef64167aacb9be1f, 0x2c10018ed1b9889f176b6f38069ed4919f7f6e8fcc312de281b67b71a4177155, 0x1117d97cbd5a5aa21cc0944d180e28c75cd3b07477f5c090e0c5dd88cbd8469b, (-0x2e6deaae8fe7d38d4348179b3884d124a63b0d8cbf01b8c3864cfe6b5cf0ee3a)), (0x8b3d8da9821538c4475232b06093d3fa288c68c003427d39f1ced9e3bbfc8c3b, (-0x2a7cbc889aa55cda48db0fc0a8e3d9f04aea8dcb6912704ac067f9067f27d8395), 0x4bbbe6a2e46f334a95a3f9581c856a8fbadeb40063be1a871ad3bfceff3f5a5a, 0x6d685b760ec2a946844c3e0bd19dc06135fcc8b8307044c169e2e372a4e9510));
   (Skip, Skip, (0x4836f38b45f2a424931add7980a31bf02d932c6fc999d1fc31ab23c7225027cf, (-0x231a5a7cf753be2897daa5fa35da9d1b2cee0737660a3c737e0c82886553d2a45), 0x145ef4c9fdcbb1417e658d5cfcf0ac90940946053f159843068eb4c21de4210c, 0x36fe4009d84f37244cee64f7277e1fc578021484128548bce18872e42ab584ed));
   (Skip, Skip, (0xe8336acb6dc9e42fab137b0020cf959c58beb9c8dbd24817f0db4d4de21a0ce0, 0xcbf76199743574d1e5c111bc598fbd56cb425bac3a8e4f9b9a5ace5ca9a2a63b, 0xd29d3be47098c499cf4e61816634ac3126f883d84f8a36728c96a158d212ddf5, (-0x829d29f1723cfacf23dc556443b0b37224050b751ba70f35542a183e413a3748)));
   (Skip, Skip, (0x2ecde3a1819b7740be340e73abd290b7be207dc8b994187f22de6eae9bc0bf87, (-0x182f5ff5e285ae9789170f1a898780fba5fb1e433c75be9ce1d684a1cb482cef3), 0x88ea36465a543963eb231e925c036417a1e69fa04e5ffbb40581aff4761d00c, (-0x8b2bab53049b159e1cc315a4a471df49530f87b640a3e416e50a2ae322312f2)));
   (Skip, Skip, (0xd3eaf468a8bc9da649bfda360e58123d08a8994961d8dcc798e8f327d77a7b58, (-0x1ea5cf75d6a6a8d164c709d37784cdd677cde431fac0b91cf4a56f31c38459b5d), 0xaf6d26883ed31121668e4203d86d40fdfc19da374f130ccb15eb059ce9da56c2, 0x31b747e08813d23c2e755c0ebab44b709e58f98f238b17355381eea67c12bba8));
   (Skip, Minus (0x1426260ea27885bb3045e6a26e7a7586ea36a1877ccf42e04f9e6e50e6f033, (-0x6b3f28f88e955c37d8a0a4456171156778b1e0ffe22f656b7af846dae8bd1), 0x195fba19b6369bee71c3596700b23be65e78af7965bada1ee97c4381228, 0x11f507e8e7466188a5c40b34514dc8ed0131813006f143b4ac788181ca0ced), (0xcf169a730ff6bd430feeadfce090a00b8759d8d0bf889fc3f149e8b8873558e6, 0x3a1c5b484c848edf5d69075d6890f2137350d585a9fa10dfea04d691eae1331c, 0xa7858fc4fcc667672fac4bce7911b93fb2810eda2fff84c8befc64a8e6f690a0, 0x346cde67c25314053fba7b80e4ac2a437b64f3a29e8f000c6432368b3605bf44));
   (Skip, Skip, (0xb2059641ab0bedb3d33165cfdd3f28ea07ce982b23a5c2c28b0b13e0d6398458, 0x9c0f5638f97080489c084b8158a1520bef15a7a81d69d87b026dfddd919e9840, 0x7bcbc512889e4a4fa39d526eb27e5bce5745bd754be36cbf7973635b26f28ca0, (-0x4c2fdcb96131da984b257b8044af23a1bf3143f522abfbb4fcd8fc0fdb696cf3)));
   (Skip, Skip, (0xadd2fbf87697aae5ab2e2dcaaf5124953800e7ee86c6dac559dcf3af6cf0dbcb, (-0xf13ee9a4508d9b43e215225f874fcee253efda06ef83aa979c70d2632ad74200), 0x7606d6702becb7823012e7b60f93d12464140e4c94b5ceb9c8388986ddf56794, (-0x123f5aa14143b90e767e340e94af17165f614d57800dc113b97b9dc69495902f)));
   (Skip, Minus (0xeb2a16613a0563b797ecb9281555b632f4a6304f12a369b6689e9f4c28e2f88a, 0xc5259bc68d072fbaf50b225ad1d77c164cd4bf3e96968022ac728467338bd2ca, 0xd8064c01da61c9bdbb8a0626666446fd4730b8ed2db47f5c68e2e3fb28c528c3, 0x7dabdf354a4d4874b371fb3185be61d88c0d9d51e3140487f076277baa18852), (0x9287be7f0afa6983cd699e3214e93be3f148051bc4fb4ef320c804f4b794300b, (-0x27a9c819d5746555e29cd2b932b2a9587f55aa18df5d398ca994f98fa095c6fd1), 0x53df1d43604407cd38dbf8b51b4038098410c5a83b38662d7e079f7e8fe57e55, 0x64c9a7ff6106c96088754de7a7bd7631bcfb924fb2d315225adcb18ccbbe8273));
   (Skip, Skip, (0x9c9fd4930c70494186b5d5d9d890e2bcce7206cf188411b34d3b67ea6f8c28a2, (-0x65cf2c595c76e491212dd26640a2edaaa447375666f8e3b133ef18195a90240), 0x5fd32edcf6562dd41e7652fd567d59ef5e2b4be5a8368818e261b940f95e416a, (-0x4822cc21eff28abf316138bdf59d4ae9925f4b9f49a8e3bfcddcb287583fa655)));
   (Skip, Minus (0x5d6fb198d67f7130859e3847ec5f90179562e2f843e6c3e6fff89069cd8716e9, 0x3c379feaa8adbaded23f711a053c40042cce410cdb50a48a6e41a0d27f2c029a, 0x221a57c489974e9d0ebda72b2567ac111307cadefede64c42f29d3f5addf4c7f, (-0x3282e4be851c279150bc3a7bab23236a3ea8e573cf55492710e97f3e75239f0e)), (0x34d435f849f01d44561214651ddf3211d592d451d2a86f8735fb65f4cd4bcfdb, (-0x149bc067dbeab25194725700bf6dcb957f1229b7032591bc99f7d4600c6410a26), 0xae6e5d64ca4c100fed7b82cf7a5c7904f44f8f0ca9185ed837d4b6bf3708790, 0x1b6f404c71ddeaefeaef39124adcebdf5a2e8eb5b7c0c908846bfd8b9b9afeec));
   (Skip, Skip, (0x7b7846b99d2cb887dc01de992223a08bd13234db3fadf04f7cd70e0a52208267, 0x4357393e44f05ae96814658e2900da6ec57296f93bbbfd12ffb5c243ffaa0eb3, 0x3b8ccc78be965bc88cd4f07b6e5f35b480f06ab2a4a664ffe9f072617751e1f2, (-0x3ce6c7b895762e486561d2cd2b3193c041635883906933a9434a47fddd5f95)));
   (Skip, Skip, (0xf7a26b6a8ce590440204968eaf4da18c5dc4f489c2df35ce2ffc02fc468a6fa9, 0x1834614083c279526b4ef48dbbbd82731a6029368fe1ecf941be84b98f2915d2d, 0xef8ad253bbcf8d0eb4379dfd31b2d5e90ac4f8cfea54271caa0c902b759e7ad5, (-0xb2599659fd7795861cbe32f498fcc689a1c64359ce49e7183f45d97c1c26920c)));
   (Skip, Skip, (0x1100fdec7e6383675829d155e86ec171267c223e1af2130f62dd917a4ab681ea, (-0x2756bd3f39dab34757495f13fa38ffba5d32f3b5eeaf052d33bd874fa289992a8), 0x12121ba64a683bdb15034a33de6c1dbd32abd13bb1f714499c30a7598900af1, 0x4920288e83e87975f5a2880ecd87e0579dd1b9758acf7c9e6793f1feeeed2ab));
   (Skip, Skip, (0xa210709fd33d3229ed42eb3f8adbf0b5aa1160af5247148199a372de4e262559, (-0xaa634911c4a75ba3e24c2d00ea540ca179f6ea3595c8fa92add15e2fb26ad9cb), 0x6698cf988ce017c0f5bd491b299353cdcc2f1848cdae10b33f76814f2bf2402f, 0x37f2b94dda24123e43352f6b7764a9a27e1326e48973220b23c1a4261003f3e1));
   (Skip, Minus (0xc11414c3a1d8646e93083bb7dbfffd4108a04fa845b6b03d9ab189cc5d4b5024, (-0x3b550128b1d2a4885a609332ad6db49ce7d1a4a8bf8662ad1862dd8603d8a1ad), 0x919f48e23a48b80830a58ffe8d411bf7efe1b2d58498a52cb020024f68c9ea0b, 0x1a88b834f9da504f6edc35e5e3910cbc972f5dfd8767c5f12bf08014ffe2bbe3), (0x372b7dac49413e4c9dad265782bb7a697f6b7066a48cf5559b1227cbfb02729a, (-0x472957f17c75e4c663d2241f9644458fe9165c308eab42b1ae322a5de1e352b8), 0xbe3b7637d0c582c14f62dbbd7ad79f07526c906f28ba0abe7ff080c14fe28cc, (-0x22504dcc7d703d2e2d601d9c3609f5f5432cae75fa436a128073003c67699fe7)));
   (Skip, Skip, (0xa9587d010c296df8256bb52abcc9f14a8096637c08c53b90c2508e512193e884, (-0x27ab136cb7eba80237113b9b388b032551a25465410c15c17e71b0d6d5e8db5d0), 0x7005f3a18fd1158eca4d08be20a2e7ff3806b975585839c6be922b2b44b7afbd, 0x35a0e16daf42078edf84fe823770ba0789d3b11d37857b6a51d5f8f69a34913));
   (Skip, Skip, (0xf2eb75eec8d833de051f90e5ce580682965818417ad8deeddf4e6b867fdd2966, (-0x12d5dcd62b569fad62db35ec23bf0208518ec415bdc329689b646e2b655adc5b9), 0xe68203892e71a14eaa48ff095a56ea160668e8e1c4b7f0a14772b247fc055df4, 0xa0708b624bab83dcd537a505a337142698869585a31efd84b896b69b41d5d7a3));
   (Skip, Skip, (0xf285b9d782f0c0358d78c0660d654c01b9a4854ddc7b5cebf22e5cbfc0c44685, 0x1ae9364a41035b78de732670826cfd3b49a02213b48ce0c4ea2559dece9c45b60, 0xe5c1193614666a3a2046f1445aac5ef48c81148e6f8561d1ba16f13c7de8d310, (-0x5843d9771a135a5a901678f422de41e30519fb440316724677e000b8e5f10bea)));
   (Skip, Plus (0x138b03848038626ea7348f48b5c015a4cd972003ff0920238ffbfd27f6850c6f, 0x2a75601f32036de953012792bd94b7d990193aa08c1e6e23a4a70a5651b8e03, 0x17dee027cf7fb6d1da7e939eaf5f72ba7b7e4afd4fe05eaedc52e613c29be23, 0xc76b5fa77ac561e90164f3108f6a224e1d9bd067f251960fc05806863d4d49), (0x7200f1a08c4d4fa4b78f1a5ccf3dcd2a05dac0177c506d88589c5ec2a987e9a, (-0x111a94f7552579c0b30099170b6f0d7480d6e7beb8d26bbfa3f50abd1a55cf119), 0x32c4d733e10487c7f0f7c970b5b8c1203a7da0b64e026a3975ca8bc8e15b42, 0x30fb1aecbc00eb9e5f7c149c1e3b834631960c6e3405d4fcb29b51eccb8d3f1));
   (Skip, Skip, (0xdab54b18d28903cf90b96a82c856b347b5809ef67d80f359ed223c17009cb9c5, (-0x18d63f31c1015e9e33a26ecf4e6b56634effc0779925497d8f1815d19d77647c), 0xbad944498db29e01550fd8e4bef72cba48a671a5c737def51a62c2be46a1bf15, (-0x9f7610567de9f3fb68098a14cd0cbd99ea56d6b3bd605607dc5dadd9a029f564)));
   (Skip, Skip, (0x40f885d90dd61ea2f5659e2f2bf302f4e2bf09826f62d88a8053c5b509a23510, (-0x257a47a0ebaebc3ef2a5ff584650e06ddd508d159766ae8ee6527d5f13bed1b54), 0x107d343021711e95c802f96d770b0927c12361596df2986f6e23e22b9712cd2e, 0x10a325c5dedc135e8126a02e9d001b22cddd03f6d99efaae17a68f54f27e0a3b));
   (Skip, Skip, (0x1cc8488cc365cea31f2fa2bfdaf2cc934a7ee50cabfd150becf69e6f4461d10b, (-0x11d996302bd0f265928a4ae6f7624b3f998dd39d82aa047cb6431169039f42f1e), 0x33c6c903b3f0f961e6d2b46605540c8026601968821fac39df373dc1bd987f0, 0x7fb4492ceca28f16950aa35d7779ba646d7b6b7ca4104977146b1611c330098));
   (Skip, Plus (0x24c9a8e1bad1d60452e7f7b14659380dbc5aeecbfd522420cdb777ffab7e9b59, (-0x224c99f575a7cc6ab88f0713f5c227945a8ae290a365d70302cf1e7c35dc9ff), 0x549565a1e6b6df0a030e5546f774f2f32d5f878281e7873c8c3cd53c8438f97, (-0xc72c51f6aac17478225230c959928ddf5e8953b7e236ee3b409087a26ceab81)), (0x540888725efd001e10d388737cf1cfa7349e1f8870aa9655492e125f3f6807ab, (-0x79858d092e5bfbfe4175379bb88212bcffc4d6fb64cdd4a28e818de8eea4bd5), 0x1b9599d3de35afe9499eb18b5e5f58d75faf4cc38b53eed96f908a80fec9895d, (-0x255b84809c8cd76602150510256ab703a15d296b4362204f796cfd427a2e69d)));
   (Skip, Skip, (0xcbd459afdcc89e756164c6f50b08e8231a953ba7807175a99eeabdad06dbbab3, (-0x10a5772d81d8975ecf115b0846910af9320f7d51a4f28c6cbd94d2fe71bbe8e4), 0xa24a766192d797e7b1bed237185b4910087ce5346c4995f1da9b898a22c660b0, (-0x60c0d1335d685572ea4b706106b3836388e0b52a3ee600a18ca411ff315cb6e9)));
   (Skip, Skip, (0x5e4c5a26fd030caab23e28ab4cfd0f3bb05b85f1a3af85084a01f8e337e2c301, (-0x24803bd3c1a3f433128dbc6c7bca15bc8cc7a3f2a33a533d30773ccb40c0b7621), 0x22bc28fa48b3e6f31c1e49d9423b8ecc3f72fad7f107cbe20c5ef46d26b96904, 0x3a4431be1bd630a000c25154f0220a8d035a7b4b84100fd9034c3c0cf563bf9f));
   (Skip, Minus (0xefa9deaa879cf95a1f297cdd207cb64bb7cd1a3a937db4c58ea7d0776cff38ec, (-0x7aba8ac5f92abe93bfc50fc1d90821be52e968454d6b82ab1f6fdc5c66f80f94), 0xe05e9e7a280a5ba423f704e6fbdb47ab8a973b041aab401a14ad33bf34682896, 0x4462936c02de29ad23cef312f50ff9cff06777d800d07cf663edc1e6ff48af96), (0xd7b2ac50e5f422a44b5fa8e1e17009beea07a30d87d1a22f1b645e1a2b9436cb, 0x7c5e280d4f5e58c3bf026e6702cc347847d52354fb555141777b3c4f876090a9, 0xb5bd9a23f6bca840b8c49975e639a43bcb3aa94bdebc4600596dcf3320d86e03, (-0x5323fc1ce30a604e6cd28bf1d13115f5a065b680eef22a70f8d2ee7247fa97e4)));
   (Skip, Skip, (0x6f6f2e174458f1d58240ba2cfac0d9070d865a2d820ca850f93c92ac5eabd882, (-0x1088e9880482d15736ad2f787c2da2ca3058e19a0c87bdaff4c8d1cb8e7dc3ef4), 0x30819a412dbec5862f3ea421b36dee5a7324e922feea0a72cd632c8b9cc3c2fe, 0x316f476320b31b75fb63610e0a4de2d9a169396622bc2f42628ca549fb95dcd));
   (Skip, Minus (0x6aa3f8c2da6efeb9a0e60054d8c70a0a8f9b9f37d7718cdcb4872504d780e8d2, 0xdf78fa4a82136780485638cb3d098fb8104eadbcee9e826abd8fcdd4e37f230, 0x2c6c330816c02fd0f1c4503437d0a67cddd1de47b89040c536080809014bfcfa, 0x15beccb017a183100823886afd81e8b0fb4503bcbb5e33e27bf0fe88bb5f04cf), (0x287a0f5419f0c50b86e3d4e36a2093c4853f9fcfcd9c9918115a50d610bd0574, (-0x10282b287a9800fdf6646c577a370a57a17873a56ebdd609f5b31ddd9173d579c), 0x6665efce52eedbaa8dd55fb8001d9cad113d79e2cf7524d74cf2add0a115a7c, (-0x180910756b302640b50ad8379618d6889a0a4dadef253a526fafc4e8ea31749)));
   (Skip, Skip, (0x9889077ff7088509a52a94303f520cd847b1998c048b4457312e0c5c1a9507ea, (-0x841f33452c07199bdb57aba80fe0b1c378109643323ac209c5ca58b875dc6048), 0x5ae30240fc88c49358914f274da463018778f6247a157045dddc0b239cf9e5a7, (-0xfcf2b2ca12198af99c09875de5b1414ba93128f17cd61095f2756c83cad83d4)));
   (Skip, Skip, (0xc519b871bb990b190be26744246550363e9ccf0909487de80822bc5c0c725b3f, (-0x55c3ddc495d0286d4aa781619861c9f1dc3bd8f97da6f2d5e4d88af1fd04defd), 0x97c0987495d3df2bddb7840dd96c48acaff922fc52304655a64ee6e31abbfb06, 0x39b07a6b73a6f0a09a79daa5bfffaa2ff45794a3adb19eb92a1870454d476caa));
   (Skip, Skip, (0xc7816876ad9abbf99acb73461760051cde30b403c126a5d18def648dcd8a3255, (-0x559e318be5fef9551b36f331287be7f9f8b6064f0484c62c1dabeae84f119185), 0x9b7a71d2f4222a41b950e5b733bde06abce7c366edb7a86d4ddcbe5cfc199382, (-0x577b219ca1f760914228d1affb4a4edc294551c9016b9cbd60f9418340950cd4)));
   (Skip, Skip, (0x35ddc1c3218ad84fc1545f6ca20f19705f4cee46b36e21e1ffd9f4f28793f197, (-0x26d5fe0492357cabdaedd1193296d675e2fcee28718ea60335924fe059d9e322d), 0xb559252e9733499f7d39d43f7b0191c42d7bd6c5005d59fb8b71a19df5f15f0, 0x2f432f6fb827e330442d208dfee0a749302a023d0e63ca6a3c3de35580d61466));
   (Skip, Skip, (0x634da6c426d7e9540c4ec18599a4aac7b6f27f4541aa9c5ec26df1f1922fde6c, 0x3f65437f1c3028bedba9bf731c97bd836696b451fa5f015a9ee01a786e64a853, 0x2685268974ad5504e12f69156e4388b62dd4c0667fa4d7b711b9e99f0b3f013f, 0x1f1f70a6f784e66ce778d6eb6c7b1b3a19b70bef22711c0534e921e9b8a09b1));
   (Skip, Minus (0x53cf922728bb4d96592b4eb2ca150a2a2e8aa2f67c0776eff37a8c585d97fc83, (-0x17181dc647fb4a3f6dccbbec6c3d894d6b24e40ba8d4f403b1a977d65f758db7), 0x1b704113132e03aa0b027bdf3229f364dfe718db08dcc6ce7eb902397d4cdf4e, 0x132f4b0b92bc12cf9e58e704edfeb23896b241b17ec73beec5b905295cc5b606), (0xe8150724b4cc461557c8359ad74ec82e5eaa15d665db3306a7517390d4f9a142, 0x159a2ddfbfb44b51dc84f2ab6bffeb953020c78e26302beae4196800fae8801bf, 0xd2661eacb3eaefb0b3940e5cdd88c953f01bbeedcdbf9370952031e7b6de364a, (-0x6676c9326062476646dfec8bec9ffda4275c159f9b753a3411ee82015bd90f6)));
   (Skip, Skip, (0xfe85fc2db040e0bf7f52d908972234ce554af464e48dc688262d664d91d26ef2, 0x18172b30a9fa3c929267f5bc4064391d6e903c926f63e9491ad387883b1ebb7d4, 0xfd0e268aa9a3dc8cb243fe38e15f62cd567ef07979394831a1dd8a7630aceb92, (-0x45f93c0c7882c10b9a2bd1502e8d05c8d340fd3c95d44683d569e86f835fdf94)));
   (Skip, Minus (0x46fa077836cdeb6ddcde7247b90595c2ce54a628ec0d1e112f7660d701a46938, 0x12291e352be78aa3a26f51cbf27041ad7de34bd5b783efc9bf1a77e8501564c3, 0x13adb04854fb7262970546fee7b3f34a4f7718b67fa005ac526dc3955fc3c659, (-0x51700adad6cd9c42c6493eaeaec37bf65f53f5dcfb3aee5d16db8275cce77e3)), (0x9b3653fccbfb063809d9bd9c7697e235a29eb0e52279887b1d3729fb5b679b31, 0xab61f25602999746d261af9cc4165d72685d143e637777dac9a76afe5fdbc57a, 0x5e1ad53ba935ed557a567a301ce8055ad2ada754cdb4baf47b383dac00888cd2, (-0x4b3ae86b813f8f74c90910598792cd40aa6b7f22e1729a00da9091b78ff18021)));
   (Skip, Skip, (0x9af09d487e0b537a82b89893d84e5748912cfa7c4d1e82a889fb3a08966ec885, (-0x16e4c3880e52cb415b7b4619c2b5104afe8968f0a293adeb198302dcc06d6f8bf), 0x5dc65f628033f4ccf3cd919cc8dc9bd3ed1d6c7bc7f2122a4f7a46b1e88dc627, (-0xe1eed536e182a4e9a1fea645d6cd656da4df675c1290b2175c5a67147603aad)));
   (Skip, Skip, (0x6eaae5507193866000abd5a64adac8a3737a5dc078c8273a372cba8385e9f1d7, (-0x23ffea5e4763161dc68649f4441036271f0e902fa78c2af74a11ed31503d426c6), 0x2fd74f267ddaa3e21513deaada319581b39e3ca607e1bd8f457548a97435bf04, 0x2842e84fcdaa6feed7cd5cc73f95deb28a6c9ebdf5dc12b836bafc7ec025deaa));
   (Skip, Skip, (0xdddfc2224c76486c7cf9a8aad85abc295a5272e88b500a0a3fa5d2868ca0cfb4, (-0x9c16681b9e11356807578763a92c173bc48fcaabdcff5456ed76c810e2be345d), 0xc04c18c302fd6f9928cee40dabd9fad13fc4ea014cf1926555c818bf947fbff0, 0x16d4f078ad311c1de14c444e971ce45eb675af9818271c88d79343d2d17f4175));
   (Skip, Skip, (0x2f57949e5699197663093203346d7d5f2bec999ac95a01ab37134aa771c45fe6, (-0x3a5746a604db99619859b06b0196e5792340d84cb26894aa2c8ac8ea7faaee28), 0x8c146887db28978ce8c39ed09302bb6a68a9acb9409bd2e62fc64dd69e1ad73, 0x7d6f2116f55e0eb1cd0f788ca288300bd629926fdd5b5b26e80af4178351285));
   (Skip, Skip, (0x49129c375ba6e6bb5695fc239fa9414fc1f82bfe3acc41f1a4d2696df87f6430, 0x4124701ab8f1ae32634149f38ddb03d88d5f9da82611194f1d6dfb9ce0ea66fb, 0x14db9e71e96196bb357541c30046d162fd56f4cf2e93f39c46d7ac6f253ca1f2, (-0x295c2f1778770510f02e3a56968ca988095e09e87f941622b23e827589d8beeb)));
   (Skip, Skip, (0xfa027415863d41fa371c2dc21e44b0c9b8eba0048b2c4dd2698ed166bc4e81f0, (-0xebab3378cc98c6feb465764172af44d4235f478d5aeacedd79e4c7a74445e330), 0xf428cac00f2941488bc7aa88e22ed784fc244ffa20df8e16640052730c584396, (-0x2c21865d67c917b66254230414054b4321a5ffbe3b5da51df30ea79fe92a7d0c)));
   (Skip, Minus (0x871090a326ac7e7fffea5ae17b5faa3e9c3ef94e0e328be3b5222a4c4aec7f45, 0x7588e7962a4778c33cd16a67a68b78334e32295cc86bdd93bf287438a17cb194, 0x4742799e78e6b67723b9e9d4f1776d41b766362ab4ab032f1b4ab48cb350ea05, (-0x674cd14b5b5d720208bd1e5c90574a86a2e68e25894a62cdfb1aea1cf9755055)), (0x282ba9fe238cf4d58886ca874c29771dec3f1fe49d8d1478d77543a97562c63a, (-0x2e40854353246c7653b8ef6b4b13981ac5d66ca973414482d28ba98651012a720), 0x64dac91f75d8517a64d9b1e4b2aff5d2d6c08e0f396a509c096db44d7bd5d17, 0x2186b8f36587aef7a60b920c0e75a10f9cafe058b7b759f2e775e2f5d2ac6399));
   (Skip, Skip, (0x2a296a5b39c00f29aefb930028fb5f9a29b29d6260977e5390ecacd1b4f963a9, 0x2285311e6da6142d6ede4b837d5cc234c5a82c8b01be5d4ed6c36e8a217cf8e3, 0x6f19d992c5b30d3b0e4fc332f6eaa0e14d91086b27e0a21ee36850ee216abe8, 0x2873e4374ad52c26f49d31b8213c2e1a221f0e57747a15a0700cc2bef1d0929));
   (Skip, Plus (0xe11223fe4a74da4c902ebdfe047c2e94cbdff169141314a6312b05248b847ae9, (-0xb19ea528003d23efa30d3a52aa38212bc74a7a25ef0052043f1195771fe36916), 0xc5e0e48e13b3651d11705370f333914b87cb59117393d2c6785ff03248c187b6, 0xad98441472f4a1cfeb8036af7d061b0d8f689a48ec7d8d8c3b2fe70a8ef0c1e), (0x7f8ab1c12cc5ecd1865a8307f2fa33d5a7e43c5e2a992126e8e458e74de52d59, 0x4d2447bfe9d29ca72e32182d067e47ab3335e0c050a33b7342fb0933b983d301, 0x3f8ae781ca1d580970f019bb410ba4b42582835141126c69eca24e33d0d3282c, 0x6c87376bf94c2df60b08bad4307393b25f25ccce156ea5cc87b42d5c0f36c7f));
   (Skip, Skip, (0xd1d1154a63ffd0950b5550b0ce04673742208ef0b192ae37de10730284ce6d31, 0x14c6388a60aee8ada340fc3f21d1e363dbf3422d262d4252e552f7bf2b5e5127, 0xabf70f873c84444bdf0ab4097746554cea2f61e92fda9a1d2ef4507c332c0ece, (-0x60acb7e53ba9664b7f0b2ccc7f7d19c90f826ef0c6c9eea08a2b90348d9ec1fc)));
   (Skip, Plus (0xc97713a98f46cb70d89f1a23ad0e103afb2783360b0cde5788e921dfbeabcd10, (-0x432ab429119bb15f6809ac3de698ea84fbfdf32e36ea179010805f493b0a9b9c), 0x9e8c34438c22fadb54eec0f7e84126db0504666a7f24f1348c25f46eadae7dfc, (-0x163d0c274f9785f92c9aa0ba1703fdfb883a6964109346711f476632bb99dbe9)), (0x9e87acd4a4f9954e433d87d2c82b246380f5d49b0ade098a24addc6e6ee1de4f, 0x2dbb4578f5dd668f508435e0ddf31ae01de277fd063516ead8776d536e0f91eb, 0x622bc13e389881d91bdc0d278b4a666ba83f7fb05a83cefddcf49aaa3f09071e, (-0x20d1adfac959fd910f16d1d8a82184f5498fa19e2beab47a37a7ec9b4c4155bb)));
   (Skip, Skip, (0x4ee74fade23a01a878fb3c374df45c17c225066fcd6bde84297fcb6d0d076b80, (-0x15c147b8de426cf21c754dce3bd50e03bb0985b9c8efeb26af9c16ff2fd2df795), 0x1851c58eda76656cff1a1e8927fe43f2c260cc35e1a67affbd6ef96f73c425c6, 0x222ed93ff17480fd1c08e92f8b56f63861993bc8af414dcc4659efa555847ece));
   (Skip, Skip, (0xf6d86bf1dc1c078cbb867791047c8b5b38eed75bfb229a5c0ded069a7e8ece5d, 0xa60bedc80199f8227973db15ce88444ec7f3d83462bd01f8d69d8b563a5c5a86, 0xee04a66b28ad604ece38ec7b7dc8695370c135374973d3beba74f0ba6e164eb9, (-0x9adbac6c11f111ab890a12d65166dd71553fb0dd3336eefbed6bbc781868e0da)));
   (Skip, Minus (0x2999bf6742419c308198215ff96fc463f104cae69cb6690fc43ac3a9742f6095, (-0x1c601e5671d6f508dd9cf2a8f9482cf4204d08f5ee29f43c96182c9a64d5ac7), 0x6c29ba56bc174f8847f984b9f956d88f4553ed6e2782e50ec7568041f4105d2, 0x464b58bc066fe4c59e7c99dd06ca20f86278bb940197485c0a604926476ffa1), (0xdf71ec84c663fec05c571e2c6fc5085c6011af545fbe42f3ff693db7d801c00b, (-0xc6e16180b8034c0dcb5578ab860bec0abe52067e4c23abad68e8b238994058ce), 0xc307acc1f95e6cbf9541813a7c8d723e72a5f690eb13e813ea2985744f1ff4ce, (-0x145b0c089fecc48a97c41b5aa4d261ff85503ec373380c5da103127f24d2e79)));
   (Skip, Skip, (0x361f57ef460f29732cafc83d9eba25fe0dd319931c8036710b2a38f274f1db61, (-0x234d163445271919f08d811ca96df1f37454c40e81d7fb093aed71143dfce718f), 0xb713cef5bb5de6ad266f40a46da3449eca6f601bb60a5e1e1bf655756636abd, 0x252a464232c99fe538dfc668b2823b90740419227b4be22fc7b15dd5b39c902c));
   (Skip, Skip, (0xa4afeb28ea7f78a6c09688fb88e28a8a67d5786fa2f90dca571f6de9515ef2e, (-0x24263ccad1bbd0c41c71c6834664c99a9754d10f46c3b291334950e540b0a018), 0x69f1de2fc66811ecc0e14f0be4330c18a3c0709e8f79a6f5046f1f13f445f5, 0x19e2ea49180de97eed0c5af2d9e683be0a72a3820ab76316fa4f6af1bb2e5b5));
   (Skip, Skip, (0xff5737b636d1c1ffbe6c3acb14f153e190294a4b1510629bd4c822ab9dad3e37, 0x7e5773673ca885ed88cdde45e49a22894c6a5419f9369aa6a15806464e0f750d, 0xfeaedeb3eb2ef04d7887efdc07d60f05a0069b599fef6b9c1001c8922ceb5d0b, (-0x4d42dee7f618cfe85c789cfecb2c1cf544968ad05aaf3bf638920da5d6938c5f)));
   (Skip, Plus (0x13577b4d565c23a0f960ce17b8d7cf638e10447f7ed9f2f1632b63c0b091e126, (-0x92429b5f2c3119e0f5095c6ef3b30964cd680e191fc544a651555d947f105b6), 0x1761a3284c5c843b73a05f66c0c22d18564cfcbf3da6cc4e250a8c2ee95d2ce, 0xeaee518ed1989c75becf28ad9844844493853c1adc743f7d0a6edf1a1a04844), (0x3c8aae7b252f8ad62c5cbd47b0395603168652829700f7c1f76902d8f7ed0e95, (-0x2a190420b271f3ba3cb23d8499d360ee4ffec781ffc6c62cffb3dd3a140dcb36), 0xe514cea4d1e021f7584a1c88d12e859ddf921808f19979dbe05b35a8e0e312a, (-0x1f598a76062432225d0edd413853730b537e320b7b1ef11e5d30067be2532b36)));
   (Skip, Skip, (0xa5af926d811d13acfb2c4a8c53c007027c0786aaa9e7ca78d2ef4ce4f1014719, (-0x20024616b1672e4c07526510ac50a437374f8579bec28283cbad20c68c8edf4b5), 0x6b3bcb2aade7173a4098df95046641ee800376e2552cab4beefa0e90b0257a68, (-0x1004d12bb2f3049ccb13d4120675e27493247bb156648d7880250a696e067e1f)));
   (Skip, Minus (0x44650f52c8e2e9fd667366cfa2a1075ac9704f0fd60ec9843cfd327698b23d31, 0x3da02dfa83124dc66d3a049fc0c7abe10fcbaf2839ee6f5ff19013e51c15a9f3, 0x1245d80912f5ddab26cd14c27f9284c2c5a20c956792c272bbd64a3c24b3c236, (-0x35d74e80f48334d9643ffcfacb2534d05a44ce9fb029c398a6ac3f1dad29fe87)), (0xcbe492e4985bdd16dadef632759ded318b5927d7201171512a30ff038b505ab5, (-0x18008a081a68ce3141f51ed2b32861b528834ff5ad614ade331ffdf4b756b3f0f), 0xa2644d0c851a9e2c96509178cf7ae652f92bb45e42465a38afc8339973477e68, 0xb12e5a29b3cf7905ad09750acde15ed9dcf6291868701d4fd7ef7c794de5523c));
   (Skip, Skip, (0xc194d171091781faa47f5ce501af8b4334ff7fe52203f734ac51cb5aec54e4c7, 0x8dcd0f0ed3ae22ae806ac38da4e6cc7692644baae095ad98e0e1baf63e04e921, 0x9261ba4f45c1b7eb9f24e67e200ba479535382d402b58d66541a2a202e9471da, (-0x82ea2703cf2805c9e9203d526865e0de7698af56bc35b349f330f151b10b48e9)));
   (Skip, Skip, (0xf2da5bf72e636a9f21f40bafdc050a179de1ea73d05fe6de8bae1ac6ca80f88d, (-0xe771a8f2a0bd58e5dac7764dffe10b3d62b97bace02daa8f98acd4ea13765e1), 0xe661902015b8a08bad43fbe03c69f56d86093daeedf1a670b21f3fdc7fa3b9fa, 0xa4608399f0db86ee65d28cae49f70a1359b0ba93a7300e764bcc5b7a7a0cdda7));
   (Skip, Skip, (0xf492eaa6961c99ae817c48f8e3a99d4a2945f856225756a063f20f3021e24ab0, 0x143279eaadcc423383e9910de17e1a3ca3735f5b2644d0d8dc2eb2c1fae972603, 0xe9a8639e0b3eb4673ff0772f4aa0aab491afc69a08f71a942b2496d16260a136, (-0x3a65703bfd13c4bf942300c131e4632c6c5d0e218b515627759724e377864438)));
   (Skip, Plus (0x72f13cf0eede0d0042d979f1419e3da72166a68174ffcbeed8cfd34ce61c4c1a, (-0x3b6c6815bbe8bbd76829692e5a5ada820a43fe20f63f9d651f9183ca8f96b9ad), 0x339bbd9a60e154618b59aeacc9058cac604da5f7a79f8b4ac898b2ec3cbbb445, 0x20403c2b41fc58f59cca8690032c532c6d6e82de78529260c0af7195d324afef), (0xa72e4243dc96df2a157145e0c716cc80520155f5128cd64d74123b48359d5782, (-0x20706705e6c0079f9300b17397a10e5f871af7835cebe65d5011cad2192841fc), 0x6d2d62d06b572d1c1b37a9709e8fee6f7cc93a79228d44b27876b26969ffc4bc, 0x1efdf23655489dd428167a13526fc67a2cd24e98c4453b232688d11dd161101));
   (Skip, Skip, (0xeb7198abf8ca01eb3fac129c5a73dc3b83d031a663556a8467837511c77ce4b5, 0x8b1dd0bc1e65945a561be41d11bdabe0f222320a873b8f18797b0612c9b56cf4, 0xd889c0b3dda12cd1ca820f15b4b4a731b8be3f1c70118c8d802d02c6e315eb33, (-0x50f7990e844d04d84960cfa767b03412b8403ec992f81f3ae068b2e1eefb33ba)));
   (Skip, Plus (0x7d63ee274b6303cf6b0688cf571ee0f667d594cb83f46dcdc4e7ae65cc0c05ec, 0xc06835a04abac6f734bda0719408ebc6ba89694770b422187830663f8e107f3, 0x3d6abd946f901681aa6527628901de844b9ba2389a4c64ef28a64dc0dc042d64, 0x112d7a87fa70ffceaff4052ac5a59a8fa996cf30d44b91bb7a6d64e3bc249fc7), (0x97b46ee4200685076ddedde034be36b2906cd6bc27e4a45103dd3df11241112f, (-0x1177198ee460c5439178b6efd818938cf722aa0a17215831ba24277799404b4e8), 0x59e659fd3e9d90e88000643a1a1c0b0032e30b2cf3d8db53f7b20a63aab3e765, 0x5cc6f20fda19e02de8158c73342abbaef2e0af7b9e5d403658bf2a0e3fb7ffb2));
   (Skip, Skip, (0x2236ba67f0aed1ee74398f778818bc9190f4f60d994e1952d10793288a21c756, 0x2afcc22fed81ca4fcf577c4a0d45e31e73d3c24b7375cc2d4a7bb9d8a8aaa98c, 0x4929536c7832d757f7c022a9798439b1f8d051a43a79cd8597a3c033f326204, (-0x8f0a50192bd733048c7015068342121bfc2fb525149f9648598aaff46d47d87)));
   (Skip, Plus (0x463fbca2b5c1e70df9a89fc0e01ff233c256a57522e16270c1e1d6c41544fb27, (-0x83eb40d6933f712802780cc0c4055924b62922c797ee4c99cd481913e596624), 0x1346eb075e7ae22ab339d053b6325cf1549278a2c96ee5a5bbafc66f90469c5a, 0x3f78f790f822671b2b79d3988a16d67a940dd2f8d394ae48acce09b3c394c44), (0x8eddd290e5189e9a09c76ed6d712441b6d27664842dd8e2a2da6fc2264734dae, (-0x4e797fa89c0c1bbcb5916f2f603f5aba0ec976f4943071c0c9151ffb914f1f5c), 0x4fbad5cdf984e653a5ba54bf9c5fe61706ecf7d1f4aa97a92adbf78951d36c37, (-0x4580c4a156ef841e2bef8dcf0b1a1184c679a3ebfa1b1dabe263cce803648277)));
   (Skip, Skip, (0x5e5d9f74a69405ab738e867514ecbd088355b4c30437e68d0aea625c1d4349ec, (-0x1a55ba2fa19d7e13271f3e921e604b8ad0b6d626ec026aae9aee1d687170ff465), 0x22c8e356e867d7c949030a2858d8f16f165306237a20bdd8657eeb73843aa091, 0xc99cbaf1cc31e13c00e7194c7a06553faae6ada517abfa9d5a78da0d9f3a4d3));
   (Skip, Skip, (0x86d7e10b7570e8b0637420fc36ff4e519a6eab0b3ffc8ac280b69a1d86ff9887, (-0xec493a1e167d29e0857a5fd100a696ad013ff4b87f29c789ab7165fb2cf17913), 0x4706b5a3c6069c3346ff140fc7ed2ebb45686f1358f98a5f3b026dc7f92419fe, (-0x2644579ce815190084bda28696046438056f1339c0d9610a35484dff3735ae1c)));
   (Skip, Skip, (0xf66c18362c94a842ae9f96fd5fe8a693363e8759ff6c57cdc3f98b7730339f73, (-0x20f477d0ec61db522b7f1eff6200ac49eef8c0869744fc0db2540d136fdeae343), 0xed33ec2c8dad84a0d5e4f9dfd9779c4d335a6cb12034548d77c3b283dae840c1, 0x9116ce7ce9c6341942a80dd54c1d7f6e9e7907971e7d32d34b87fde5f317d4a6));
   (Skip, Minus (0xd3b72678868f10c1477cc40bbcca2fc0cf7215ba63e5f75475e6409d74633802, (-0x2bceb8a8ed1ba985f2d32b19b6a632720c7e235e1e5e59365614ab8f08463a3), 0xaf176c72b3e836d975ff0b75c105b050e4b0bdfcd02febb7c93ea5df2779deaa, (-0x26377715d6514940bb821bec7255d699da1b292dba5c9845c82f4127450d7a24)), (0xdbfd8bf7c3b1490a8b50e596292609b6253877026373c6a492ecdd76197b8138, (-0xe169fad0003ab7be6d5a37b161f6fbb107ae599d31e57e0c36c24d4e30b83c0), 0xbd0bc897dd111db02437bc638a4969c3190e1699a4980c2b53b74d2b505389a5, 0x808c25eba417234b5486bd25d07f9557fa44237df0f27880f87556a9ecf15dd));
   (Skip, Skip, (0xd8922062d40c8a8ad208d58d36ad5621d550e8fb087d1c34f90909dd1a2b4f79, 0x8c1a30aeb7f0c9436870d100020fcb11fe9ce589180a6d07aa2ee2fb37736f51, 0xb736ea0fbaa7e34274a807501959f51714af717091bd5f90c78cd34040d1e319, (-0x2403a9b71798405ff5b1cddea61e7fb4bc96dda16f74f9fa03605942386335b)));
   (Skip, Minus (0x48f277fa60cd16b4d2f74a8573d05d475549181ebeb4387cc881befac0abc5d6, (-0x100456fc1460fbae45516336c4ddde527d74509c9ed221a268e66079fb6a4f66), 0x14c94923e40d1b6484d0e016e590b4a7af86fec0d30f379c38cfb74f4e334c43, 0x1518f26479a95da87f73e1a5437b92a7eb70feb4cfebebede655f3639fbd034a), (0xdc1020d83e933047e2c67d95c88b21a1172997339674cf169ec12b7e79270d55, 0x1f0483f9f852c7f9cc1f4fdb0bfa2753eeddaf656f439fdc1e1de4e1c45d824e, 0xbd2bb977cacb93b00a8092acbf433019105ffeb4146cea525072f7db9472aed9, (-0x6ba376b2f96c3cd98acbdf9f52c24de9a63a93d24a0e580cff6fa5022eefd1b0)));
   (Skip, Skip, (0xb30ceb66c726c55aa8bdeef02647bed83bb630d8025e1beaa2a4659163a8f3f0, (-0x178941aa9d3e4c7ef0d891dc04eb0b3a0cf27df0eb6a296ca692711a545a57494), 0x7d3b11d8a498be83c4a070af897942ee32a5cd9ec577632eeb868a3e4bc84d5d, 0x2b1b09fb2b064b4660cc6ee93770a007b3fc34492f40454c9df763d79b6c47b6));
   (Skip, Minus (0xf3878b3e08659e97b8d3e1c1abb913af856cd5522c084e76ac40a06cf3e7953f, 0x4d72e7a6fbbff768e39aa8374188d658a63f9c5402334112e122e4c015d84314, 0xe7aa9a1beb1a3267b89f44816592da397b0f3145a949de1010b0f75a4976e8a3, 0x42942151b7947d0bde5d7909e79713ed1be488964f1f1924ddeba1f5978cb148), (0x90a197b7b8e33bfeb50cc4756bced529643b3afb182001e52b13f8336cf36bc3, (-0x79d84b9b490028fcd5dd7b638f734b95c5c971e1295233d7c01b0345b715f5db), 0x51b630aedf007145ed3bc6c0b50482f1ab23d4a3afa073c123e3353e2f0bbe6c, 0x4f7ae0d4bef3dfad34433bd45909db54954a7dd722148473969745d7f4b7ccb0));
   (Skip, Skip, (0x538642245d31a63b4ffc418923f6e47a203f3c84c89fb4291b3726d7d2c6be2d, 0x4393c476d88d03f00135addb5ec20378a901bc7b4f735ad71300a8c6fb9e39b9, 0x1b40554ce39686fc6d8fc0e84063c363a2e4ddcdd3592be8a06391764145b16e, (-0x1fdc9928db544dcc41735e893c8af7bb4d7ac12915e9c366d1607333d0026588)));
   (Skip, Plus (0x7707465353fd8379a76a6e80e3a43a178856d9ca8cc5e69169fc83508531b1dc, 0x3263ee197961f5d3b08d4e7ca33b9846255d2ebd39ec2ff393abaee3068f0823, 0x3757c39663f5f5268024414ca6aaec3b15db948f546e467d457a878286dc756a, (-0x17d3209a5525ac8b39d6382039d8324b6a70b9b8468e6073f8c1343aaa1ffd8d)), (0x29e06cd166ef787ccdee448a9b153c1f4e2693bb0de4270e420d5e1413c652ae, (-0x80b3b179031a0ea4e3a75da1704fefbb9aca36abc8a8c29a31e322088800ed99), 0x6d9a799afae31ce1e6e707b46f4af00545600a5738afb79a5f32a0fb46f9fe1, (-0x91116d01c20adbe9147a40c45e127ab75e8926eb36d1967f0099b739a626593)));
   (Skip, Skip, (0x22045e501c08e7fd4bfd5e3730fbefb93cc5ef12bac847beb4253468845106b3, (-0x12c55b826077d8f9bf983fe8e12f2d7398cb0cf388151f198c722ac4dd9c0f3fd), 0x48529205cb22b8e9b1aa21de4f72438d2fcc5bc796872f88dccd04092ef823e, (-0x480eaeb283cdf6069c21fd72d9591c8142f04cbcd302d6f9741aa19b6740c14)));
   (Skip, Plus (0xf0b06e0496235be3dba76a0551c56a91688696121125bb768d5179c628e29233, 0x89b2279a7fd419dc71b0f73f70cb3ee1e69bebd998313224e74b8b16cc3af263, 0xe24b47e00f18ae050148116fc3ac82b0e7b1bc1ea70a113fdf4c74032d93d20e, 0x14768ee44b4e98d7da7e23e98ecef8c901ea96d7be213b56fbb6c4e381e1db9b), (0xcf3730f3c43c216356e4851fca06af5a3feaec8e75aaf2a402dbc499336d49cd, (-0x50a7dce6a75b656d31cfa4104c6ca69ca420f6c35006284ab632b82eeb76a1a9), 0xa7ba4d104973e189ac4da9e70c19ae79a7688c8c985880a47f37df927669a776, (-0x16be350bd938542d17238c88a6e09071a45aa3a12d2d3f84dd73777aa1422413)));
   (Skip, Skip, (0x5a72b1347f2f36dc741c32f6d55ecc4feb41dc1d79bc84dc3c3caa4d33b31c33, (-0x2112410afc74715c22c5c810ad1ae82028a0db3f37211d8722979bef342e63837), 0x1ff4d7fb36d81b431236403507b3132936990c495461b20e70ff3e12e678323a, 0x3c43b020c0100bda47d05ed30e134d906297d232926da9dbb27a6a8142de4379));
   (Skip, Minus (0xfd31fb7d613ae12a21b92b6d67807f237d6b9415530eaf134b146d9b2653f77c, 0x19772abf6e61521bb88e9a231209fc20a7465ee463326c5f5afb2beef7ec73dc, 0xfa6bd4d80f3cb3a906bf162ba3233d5107d480049cb85c75f3409bae67cdefb4, (-0x26e8f4d303080d22d91b2aa874eb17c447ccc46cb7beb6d64b99d09a3f291d1f)), (0x2cf6e38b89eb995ff629523e4d1a1870528d114ddfac39b1848799eb9e8e3a19, (-0x12bc59588d326ea499d2d96fcfd5370d235ba67167df0b1fe8c362219e45b3f1), 0x7e5cc5211d6d02aa3320b6dba80f50b468150a28823bb7f15f7c1852309ab8d, 0x680558d4f4bae230b4e6ab2ea88b48db0380516537dc14e55ca1b354c645f18));
   (Skip, Skip, (0x4d2f7028964ab24df12ede0ebb0d70474d9d35e3fa88a6f72d0992ca075e7423, 0x7522022a3b0f63fbc00bd80019a686348dc248089ee0223cb2773463d5a0225e, 0x17459242ca73a8a1074c4aedaec3e3321f3fc756b73265706431a7c96d8fd102, (-0x2e5df0514cc554f4339ac46abb1f115dcc11db701f5c8d5b1af07a9e6638d25)));
   (Skip, Skip, (0xe7f7b5bf52677f47c909ff753e0cb6422a756242da7e9774f36f7853e8ba4548, 0x172ed1e66c9d462a1a6a46ddcc015245919fc76367548909cb64b917c2541735b, 0xd230f9af7eefe4ed9447e3185236236f65fa19bdc05a74fa1985f04d1c87edfa, (-0x62e6b1e8da92e8634218dd5cd03fd0eae2d4197b61af4812b9a558b7b3ec92fd)));
   (Skip, Skip, (0x67cf0c07b10b0e211b54630fd69e79dfea8523099792a76ee4fdf4e9f6aea0a0, (-0xe877fd97b5f859a51d4f8482c62490afc5cf1874dc7446940423369ae7cd2f50), 0x2a184322a577ee13afe6449259a22ed99291d226f5c5a495fb12ecbe2f96a1d9, (-0x2adabf12cba89440afae6d5a2920b30a1ec444ba4c7d4441b5e1d52985ee2b7a)));
   (Skip, Plus (0xc079ecf7556770cedfe32215ac8853cbb250bfc985aa0e9d7ab9e357c53bfe00, 0x82b2d124e442c002ec273e4cf19d6b5505995008c47e6e9438230534b23e748b, 0x90b71d84dd42d96b957b4e8ae347fafab0c7a1f36f08899abf8f1e0bb603989d, 0x10db90f7eadfb77b613ae2152b06e2d270240216d574e2d42bf6a167956e28d0), (0x73055117f8fc71da09e4402e46a97b6258827c6a82b8f56dd4ed293544d609bd, (-0x24a615bd24f1783954fed035cfaaa6775a24b4c6c3646dbc756771bcfefdd1619), 0x33adc6f7ce52b5f4c6f9f98b17fbc4a97db0968017f4056ef2ae1badfe7b3b43, 0x2c19e28a25a7485920da8493c0197f57b5dbaa74df6d0184cd161f56cc3d5a00));
   (Skip, Skip, (0x20f70b4b1d6ce28d3cb19b2f27a9714fe1185759ffd6109ec1ae18ba7e0b482b, (-0xfa3615fd6f942de21cd20d748eb758668602f0c4909065e6b9ef1242ae1f3cf2), 0x43eb13992cd8b52185e412201b9006f8c3d7f87ac61d1d7fe1e3638d20a2196, (-0x6ffc36297e7d29264519bc04fffd52123e97e917d739e88a42745ef41e513a3)));
   (Skip, Skip, (0x92ed0bec3174253e88f618baf673554e1329094b7bfbcd13d35dd9abf016b216, (-0xccd4bb88ca741bccaac18c48be3838bb5de22454f75307aa476407e84b079941), 0x54533d187c4a31b37ce801e46dab00190dcc320241d1231e995e2d90eff8d23f, 0x1145c0d0ba3c29af715bf17e4866c7baf65fdd3ca649e402c8a2f40210ad165e));
   (Skip, Skip, (0x2cd908c6c9e08e431bd3bcf301875953abae29e512407a57a9131c017312ba60, (-0x11037df283087462737e521502e6a0e4bdc9812a36f070877ab1d80282b41cf55), 0x7db530436b476932ec89bd4ca084bdfc0f260d528f8a08d8197ba7cabf2d1c3, 0xfbf4d7604d5eadc20547e09767737e7c6f315f8611539675a1d3b9ca6c1c87f));
   (Skip, Minus (0x45b0b9d6cdcabc670c7457fca3120e60435a646129e8b31a01e0599261c15073, 0x8d6cd74327ea9b9cdfe85494dccc1755360ec85d2a7817e5bb638adcc4f7b92, 0x12f8be2dd93269fe531615fb0c2fb2efc2f3be21ca4e7f31700c16fa101ffc65, (-0x2479b0a05d6da833092d8de2b8877b50017dfdc719fdf7411c7700a2f726aaa9)), (0xabb29926777623d00344ec00c5dd34ea088fc53e9f5ef3e6d3c7cdd083ad1676, 0xab600001f9e307f7386e985ab5492f6471c9a670fb524355934fe743d2d57e4b, 0x73281532b8b4f4b49742f09affc749e7d50be3b6f6b32519ae2035793be58aaf, (-0x54fa9b042b67a11da5e3a26447472c908c3a996ee40e2be8a43173c5b82d5a79)));
   (Skip, Skip, (0x695a461880f215df8c78df54a946d96d3d913b60d87441a36d3e41538f4789b7, (-0x148e652f1aa21cc21173cff95af228137270c9526106024c475b32c79cce1b1d3), 0x2b5b2d557632a90594b741b9d42c34bbbb2538f5bde8cda2d9829425c0901530, 0x9c17af1570884453f7e1b0fd6c24f45e9f7f43ec92f33541cf5e17c896691f6));
   (Skip, Minus (0x792f4c9400687fc2443181b616f030ec0b4195ed18afcb75f8cdbcd31608d557, 0xb3216d0cfcbefaa610f97703f69c7afa4d6b413c6306f003dbce4a4e40c3fc, 0x395dbf211da324f3127b12900e674de82bed15cb9d3a4477ea9a7057dff622dc, 0x1198338999dbc0509cb73506fbee12ba2870e0d14b286baf61e4740ce2d9bb0e), (0x779bd28859b018134c8e880d8a3618c424181023236cb8286c33e300ff139275, (-0xc977f5ac094dccfc40cb80cabeb49c8e0a31595af209d63d32bbbaaa02e34003), 0x37e23c9361a24d636a905f0f0d926c0f9b75836c62616ac9d230266b02ef4608, (-0x1c610a0cd7e292613fb6c59e4ff1ecd38248e5f5272230210766fdb2c6c5544c)));
   (Skip, Skip, (0xa35657db7e33dd28b733057677392155cc1b5230a1fe05b24ffc8e5b5198fefa, (-0x26b155c8949c51c43692b0c22d38a585acc0fd61e45ebe0d790f982769f9735c9), 0x68371100a855c272dbeb37a0980b430b1d013ef71dd9ca2496eb2d52fd0564cb, 0xf4c11b86e625d3682a8d13a7cfc4f97a8cc3cb7f7c3c8f01d6d6ae9cb5db11b));
   (Skip, Minus (0xa84ff0117fdd480ddede23d839d1988785e62f53cf32c23f30038d7274724b26, 0x319495238ec074da27ecd822cad652793cca04961671b88d480edcd367a9fa73, 0x6ea9040d03c02a15cf6dfca14767f7e674a833df6139dbdffafd89d5c0dc82ff, 0x5f6e9ed2ad8557ec67af493afba77b795b2b57d4e481a22a5e63b6067d449823), (0xd3c93a931625a689dd3592bab79729508468624abd1b29f3fc8a043138c2fbdd, (-0x14a56fa99d4c9ef17299bd2b46df8816dbcc2245a239233c5af9cae8a3d476da9), 0xaf3554bb7ee1d23247c1e6b9c810d2ed6f53b5b1b14dd9cfbf54a9dcc016a99c, 0x660e724994b658dd246028d1e839f74aa093e322087195f8b0c9be5536e8fd49));
   (Skip, Skip, (0xae953ad3269b7bcb3fc29e1dc17815047a20636d0ece8ba0dc6dddcbf615bda, (-0x63729429eebb0247657f0746a73c3f1969d8903948a1eec499a20fe3c7a5f609), 0x770f32f48fcaa8ed837d789b4702805162a3841ba7d188887a445702554d1f, (-0x3952bfdaac7be4213d94ad5325e22920c9057243368d88925c325d5b7cd0abb)));
   (Skip, Skip, (0x4fff3d2acd719a0c307986ea355754397ae1fca620951f11cae247eacc5841a6, (-0x17ecf3188e4f17465cb8cdab3aa83ef7455f982e15fd71d4d24eff794f600cfd5), 0x18ff863b54aed2749bc3119a06c6247d623a7df6ff31ade94dbffea597f1ca42, (-0x102d5f2f74bb4ac41171f7f702f8be9c13eaf1e7231907f401e605baec10acbe)));
   (Skip, Skip, (0x7a52afb302ea144dbc27ab1f0c7c9af22e769094a0a9b1eff91b1eafbdf41c0b, (-0x1c9cbe1eae7ecbd5098b7da218034bef318fa56ec0c01258a06e9851a502bd810), 0x3a72ea2ba60b3478344582d0e9e15832275f6a4892a335c1e9b232ae3450fa0e, 0x3a7ca6f7d35a67d98695d9cefd8c1d1f4bee8dba658f189ce0bec9fcda936f93));
   (Skip, Skip, (0xd81c11d09ea2ebe388858b897a2514e6c806372d05dafa3a8307e1103e57626d, (-0x7777b3803471027cab2e624b856090e4b5a1deb9133c7a9bd24576fe9f50d101), 0xb66f6123f29300c75e88456a5b9575244da53ec448f6efcac6815d37ae106f7d, (-0xfd1988a00342d151890eae32f7431cfed57ac1e660bdcf491efb0d78e40ac1b)));
   (Skip, Plus (0xf81195cd048ffe9652414cac233b794656ad7a3cc6ab0c6c89dd39500da1f620, 0x7d5a35657ad36d9f0f4a2f8613e025b38d3b382618147901ebdaaabfb0f966a2, 0xf062137275b9e3e2fc62faac8ea5a8692836491209b4ea00d5eb830a5283504a, (-0x46b6c7b65cb3e436ddaf82fdd29efe5c1e64a80bad746ca7e971420593509246)), (0xa1f316299c051adcfd77e3908b8b8e1d16a72fcd0b069f7ae3f53fb842d3ad56, (-0x85ba12b1720d77d50721cd958358d2c7129ffffe3f07858ece048e432fa8c568), 0x6673a8b36b27cb0f2fb0cd0703cfd64119ce061ae4dbdbdb0efb94c78694eae0, (-0xb2b5bd35faaf6da881e8f348f61db40bcac8f3f9a7633912293da8c70975679)));
   (Skip, Skip, (0xaee719a737ac4e364919e03e5445a0aa54749101ba80f9870cf20e6dc301ffdc, (-0x2e540bc766aef3a20a075b1a497cd3ef68db194437a0fba64f9b9ed4208a408), 0x777ef77e9e06c96047873c365cd9f305d6d344f52c29e2c9fa653e3a79cd79eb, (-0x1697b99d9245cb790a6fdf805daf784637f9740e7891fd3bf630146023ca70e8)));
   (Skip, Skip, (0xe732d14399fbeed039026f11b190354fba6434bfd8f73a24ef6362b4a0ea91ef, (-0xea0494695db0cccea8369a105a55433e780cea7ce11199cdd1e48e768a6bf98f), 0xd0ccbfbe695c42ac62a6c2dc31392aa14829c55055374711080b80df88962635, (-0x3174cecf085de34ec932eb5ebc55458c6a166464dacc99aa35453bfa9d1e3c0d)));
   (Skip, Skip, (0x2c649e1b444bfaa921f03578039be8f40e5e8ec300f40fb2cf8755a250992c04, (-0x24511d51ebfc3e90f7c37f7ffde6f6853996200a29e423b683746668a9b83e4e8), 0x7b2bde5466d24bb3b752f53603c1ad52c5ddff4fb703c11be520cfde7e06a2b, 0x25ed8e003c61a2270f74c2e987cadb2b1994fddf26c27839105e16f201b50000));
   (Skip, Minus (0x1416a959658ea3d08b0d27255fdc854a4faf849ecb06e927f1e67897180b9cce, (-0x475f882c9fc1b89172510108763bce4298989a3f2feac0d596731dac730ab69), 0x1938c778342e56ad7530fb550215db84064c1936f6f957c4e1a2052aa1b29b4, 0x3ba2749896a9672508690d0d68da974de088f7aefbd6ec2972ffc3911f8f091), (0x7f6ca70ea09ad6dc86113265e004c641fe4ade7c26f023e090d6fed00d0af860, 0x64e9d4c7ea4b5840100224cee77efec4f282ac5b458c0766cf52981dce0437fb, 0x3f6cfbdde4b53a34111b4fc7911867f2ebcb1204d0c0c195912c254fffae0a44, (-0x6b7f09a01520a0c97909dda06b9f05376fdfaf33a0ab971fd2b59db2b0abd5e9)));
   (Skip, Skip, (0x956bb6638dcfae6ed2d37ab4883e724fe35b9eef641780caac5efc9af49ad601, (-0x19ec63ffbd46c9d6fd5f429185ed5d468c4511d7cbd7f25a5d5be5f57a2d463f4), 0x57368fa1dc3e01031b4355bc1ddcec5b5c7a55f02c1d63a7fb8a9e7c0180823b, 0x1a6fe5c091ea460b15298059e3246ec3eee3e97cd253a6f0e5003d8c3e40578d));
   (Skip, Skip, (0x4ba55d8b5483fb0b4eef34a9a5f85538af7bbc4e921ba073bb4bf2b4cd7a6391, (-0x180a1095623357ecf8e094b36f47bdb7dfd067d4591f3c2e9bc82ebf186120e76), 0x165a4fa15b4ece7704739fa11d84d785e8311a9da471f7c47c92d960190477f0, 0x193de391aba2f499bbe89403fc304c348d6a1d6ba56a561e89d070a0c65655c2));
   (Skip, Skip, (0x13b8ee10d8c63ccc1406374f50b83c6235b74b6e09e566dcd2899776e23a0e7f, (-0x6d96efa76407cdcac813a6e1a1ac4d65bedac449785d51936b2bb48e3efe1b21), 0x184f8ed95c85e2a19b7e3fdd38788d444c2a4c37796bb0a951f083178c02f97, (-0x6742676e436e78507d42f04417e4e9c18cdd6feec2a760fc868421c9dd5a29e)));
   (Skip, Skip, (0xaa3e6192682f538d4b72a6099461c5e2cfe08640786f4558796afa7bdd1b4f14, (-0x18de0e274989e4d28d93528bc3b1bd9663efcf2d866d51407d157bbe88a7fe57c), 0x7136e8c9da799892fe57ad06acc22775b7b3e5619e61c8c8c0cf500cf478a145, (-0x13ee677e3fea057f5cd6207b294a4c384449264d0298cd52abc732ad554b3daf)));
   (Skip, Skip, (0x6d40f867eb9969bd1934729f2455f97d4dfc8afe1a79a60beb99bd71d438f605, (-0x16b258f46b6eff3ff98ea203f19bcbe228b8e65a4f5e34fab7bcf950ff994c785), 0x2ea06405a39ff3689127bee576c70963b283f14c3bbeb8fbb3bce7554bd61ed3, 0x5bd1388c934e3548460cfa6557b8cbc6411303ee9bff1efa8e966828d73267c3));
   (Skip, Plus (0x501fae1b80af5aa55a81514e89fa229b874472fa9067091db5329f7fce31621a, (-0x7fb883621f5701b11257a25c89fb1e80f8fdb536afa28c542e60ef3edfa8503), 0x1913d0bcd1802902118276ce11bb66e3233c4076e0574fca732a52b04730bb89, (-0x13afcbdb2b4b11642401e64d3c012aeb5f77dcfab3de01fffaaecf46faf9d88e)), (0x41c6ddf7f1d7920ac2d440aa504b65fbd35a0fc0b352cf7d2843b7f37fa68e6d, 0x590a9846cdd31888c902f87d0233c3e8c8caf987e190c020e1d6415015672248, 0x10e6973404cf9952242f24cfd5ac7ea7f250c9b69363318312226dabb48cb3d1, (-0x2ac1ec6ba0eb4ecf248d6324e51188c0ccceac04368fdd1ac8e6879ec513bf3d)));
   (Skip, Skip, (0xf717c949c00a247330d2c209336c342191c46c4a3cd7e6c574cf6d0475aa1d3c, 0x43a2709cacafa95df55c3c3373958a311e9e2e3fac9324d444bdbda1c69cdc54, 0xee7ee8a21a18f8f7d7fe5bbd1333b31e85fa9ff5b76b144505155b2decee7726, 0x1c59416888fc0c6c5ba79677d0bd17bb05fb65ece6177db40fab4f14b53ed29f));
   (Skip, Skip, (0x1bddb5e9b6dcb12288dee8372dd502b817cebcf99239560c5bb02eae1f5b8d6d, (-0xd823273fd961a5ee24a866a9c00ace930162ce5ccfaab2d179e991ad292ab188), 0x3088462e35c98599153265ef599c2d49ff73669f4ef7f5b6910195f1320f93d, (-0x35e55855b64659c937d19fd3539b885c6499ba50b37b1f162ada39d8f54435b)));
   (Skip, Skip, (0x5155e968839912f9df9c4d6591d7f05b63e0a833bfbf06859834b241f4ce2c97, (-0x14a680fb7dca446f5383340630a5b9d4b540d7ee848496049e434a5b85012776e), 0x19d77a88f77dabe08dffafc94a8e9ce237cbfe28d3050486c0582b826fbcd61d, 0x2a7b61ef598c925423a03e619fb09fbf9213b3b808d857b46f90e02685576fb0));
   (Skip, Minus (0x3c200fc4c66cb5242fc80e109cd2718af0eb4394a34523c9e6781e83a75ff729, (-0xcb68faa3734a5ac7691b2926631be207b25468277c78824f223c32acf6f744f), 0xe1f0b682f2d36976cedabfb3a434ce23ce3049b89d1dc54809fa66268d6fff4, (-0xca430f786f3b495e067140c365583c1539441724001060d302e71650affdefe)), (0xa6e9eb9d3da9c42f9aae6f283394cef1be5989de42d18f364787a82adcf070b8, 0xa4ad61346e019ce5c60c794d0a59748d49340b74f9990a1dfca29404b5e80efc, 0x6cd4334ea90c793f3a862a21c1055041debfff33f891c0f418cfeaf3813a755c, (-0x8e095e621c87348891a7ed4d816d565c8671b9eccd6f5d6a3b44c7186b00e88c)));
   (Skip, Skip, (0xbbf8483324d2a924f05c202908140e3f3fd6da9ac5f253124e8953d67d1905a2, (-0x2df4166a8fc2356c87c071a01ace5227745cc49292f3f2bc81cb652dbda12631c), 0x8a04aa46af3fea31df1862522c0ee36eed73cf53ee7c13a81d894cd396b6656c, 0xb4dd5fd395d12a3955ce4f530192934a9cb2884e586d1b88e81353e154737dec));
   (Skip, Skip, (0xf606cc653fb2edb4402ff71980fbd71223060bd7ebc89b350e2a4b367515686a, 0xbb8b7e11129dfd70121b1071bcf5831ec81e05dbd54f75a38deb9d0b0535a41c, 0xec711100ce5c62ca0daf95b9d3b7c8eb65a9ea77e81b45e2a779bca10bf8e8ae, (-0xb23b29d82b970970e2d6a6c5fad0f421e434b581b240984fd1a2b056e1076c78)));
   (Skip, Skip, (0xe0a350de580db0ef003512968ac580a51a40c6df2112239e26ad8a411bf7301c, (-0x128eed546fe55b9c458fc76549e898c2580461697e292f8aa993b82788144933c), 0xc51e35b52ec7cf36f554cd2268ecae0c9e7cb8adb2d1a09675b9e6e4d12df9a5, 0x85298a7ccaa6302b0a9574687813d27c760b20225f4eaa8ae0d89d4cbc26ce86));
   (Skip, Skip, (0xf0313f849e88f449ddecee7e8f30603b8b1fdbb3cf774d1188570c68388edc6d, (-0x11c4a423154063f086d42446670e4100a59876e784426e2693b13b371bfa42bb), 0xe15c609209c805334c08d217b82ee86f8c439865219ace13f40f4fb63895424d, (-0x7f398869f86e468f1d17e5a6cc56f39c4d1d69dca23ed0f2bb495ae6cf35a018)));
   (Skip, Plus (0xbccf74acac2a247b0946ce7d9340755a51f71c75315e7c3c97b1ae5366053ebc, 0x183df222cfe423e153f4487cd4ab4cce65a680a8a771fe943cf2ba54a3e46a84, 0x8b415b7b81494239b2122d7c53ab1b3d0cf1c61a242f94be5a44dcfc2bef5779, 0x6593cc132e7bc8a1685807610e0a2188141aad5adf43e82a719df474846f73af), (0x68ca87e5d24c22c2e1ac71fbd4d2caaf3ba53fe97f87e31de6444abafc9a1f02, (-0xa58d488f43aa7d044764240911dfa284960617f56eab2ee1d6e8411a5fce1988), 0x2ae52ea579b1ee836888fb187fbfea08c5283f8bffa158c703c0ddd9dd31239b, (-0x1199705fefabe2277e7c8754131b2bdabdb60cfdd3ab6e0ccb1452d4c613a129)))].
Definition blind_x : Z := 3448420515269444595629015729226299267452236190168662260840308547698745198165.
Definition blind_y : Z := 72526335368388584821868727824665702491313302152742067444672602243265919404313.
Definition blind_val : Z := 56198210500960124208389944407219942920129696105495196489242083001870452727734.
Lemma order_run : run (gx, gy) None None order_chain =
  Some ((100056811408208733275829432225571761443897154861420255832015183193056831248263, 55225563209553524050574769423916742683973132338171759239001668957831436739955), Some (100056811408208733275829432225571761443897154861420255832015183193056831248263, 55225563209553524050574769423916742683973132338171759239001668957831436739955), Some (blind_x, blind_y)).
Proof. vm_compute. reflexivity. Qed.
Lemma order_val : run_val 1 0 0 order_chain = (2 ^ 256, 2 ^ 256 - 115792089237316195423570985008687907852837564279074904382605163141518161494337, blind_val).
Proof. vm_compute. reflexivity. Qed.
