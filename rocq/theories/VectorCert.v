(** The nonce points of two RFC 6979 test vectors.  Generated by tools/gen_vector.py. *)
From Verif Require Import Word Spec Fp Curve Group Chain.

Definition vector_chain : list entry :=
  [(Take, Skip, (0xcb35b28428101a303eb9d1235992ac63f58857c2f631ee6936d3aebbeddcd1b1, (-0x3b04fbed296cc1277f1659ab9a6f3feba665d74e98725ee2d39e827bc28878b0), 0xa14e3460febe2c2316bfcccc1b764790c3b7d9ff92663ea740240f16b583e774, (-0x3c8b95972f12b04b3ca25330b2bd449e8e938229d1fd14f76cae42249ce0dc11)));
   (Skip, Skip, (0x6ad2cb95963c033328d4857d4f8711deff557dd9faaa673b400442833f0efb64, (-0x1b511f0c4acacddb11995426b44becf23d1a165eac933b36c0dae7f6c721d3035), 0x2c933e2a83bac0c704d83956ce68e1a07920f532e04e27ff098c8c712d51733d, (-0xcc0862604f39a0c08e4ce0b1d06b205a54268b6c11e626473e3a3a21a84dcfc)));
   (Plus (0x82b5a391701db61f5678809054594a583cc8b36b2a608ad9d28e6dc6eb6b1b61, 0x368c32d2eec6fe11c5495e598725494bc32c3f6b1793912f03d0fd6a49bf599f, 0x42bcfb006a093e6164d0e363fa4eff42d00726a82d78428a4d45660af9a2b66e, 0x25e24e4bf2c358a665f613e401aeba0e5ec0513347d2f45a5cdc20d06108e33a), Skip, (0x9693023fb325cc6c7bc993eb684358ea623d5feea8ff351df662beabd0efdc6d, (-0x203e697a2ff0b71f15bbe8e0b1128a2612545720e641a25d3f0da1b92ba257869), 0x58909b0e3b1d179e26d093a041c3e56b0e5fcd45c4d389144042c9dcfcec275e, 0x6acbca9638108e08374e790d2f8fb746c0f38f81a62038c77abfdadb56826ebc));
   (Skip, Skip, (0xbc380350880ab969e653d334691ca8c2da83b2acde59e7439ed92d96a9654a07, 0x6dd55cce46f1224cd99f821ea3a2f0a9ebe970a9b8ce11ac81430dc918b68adb, 0x8a62511fbb16418a37f7a5ead3f099487b15785e66a133e078848957eec143eb, (-0x8696444c9f994992fb103911d7efc9d6af6d7ba29b92732df8ec73823bb24fdc)));
   (Plus (0x2c71bafe34f691071109c7dfa7afb5d994fc38ddf5d021b549073f8223b7ba0a, 0x1fafc2da4b2701a6b7d663276590a99cadd19afc1784a97c6a33cacd9a51619f, 0x7b74acdff35e4e9e5138e854599c89b6c4581261fefc2180f8e9639184eda2f, (-0xf9fa5993c34caa73c0eb37ae1f948a1af6333b30e9712b00c66fcee76db3f4)), Take, (0xb68c9cb56c4f0fd3279f2dec6acae3ffbacfb8384548d24892d676cd6beacbf5, (-0x10ab9b201128ebe909e6b37287520fd58164cf175e3decaf3a10f957ce0bfa99e), 0x822c3c0dbc5c7d8c3c32320b58378c5c160825393d62371ce9fa174521d13e00, 0xd9690ecf0b9571b77cc0887ee3bf9fc63a5c7330cffad04355faeac0e641f21));
   (Skip, Skip, (0x57aaae4151a198790e40eb37fe0dad5ed4d4581b1a82c40124b58ac767ed1ec4, (-0x1a3b3ccfcc7443b593002caea6e5cc086509c6bce8bc4354465c8e5f864c2e02d), 0x1e05743c4ad91be301d2b36fafdb42772de829193a4a9e64f4882f9890335c35, 0x6cda36c32abc46e74112f34db81c84c8eede3927bb247626df1e0bdea815270));
   (Skip, Skip, (0x875978642d00b859133774fec1878f9e7623f6df9c734f7ed297e920a77b4406, (-0x14a1cfa9fea71de68e71e2ba70b5d638c74f6dd5926c1a65b4b1ea2d5127c49b9), 0x478f7c3e95bc1e51fd80a25edfc36ff0eb8d5523f1ee56a882e1aa48e6ddcd40, 0x49098a07b728aaafaff50d946bf2d2a513aa2fa43789f3e06840d7ea9bc98e5b));
   (Skip, Minus (0x22deefb231746aee9498f6172844af7d0b99d9a124c1fcf736fc0e7c46897353, (-0x181e65a442ba08a006f56d545b61d0b3fbc4e844133f293829828c2f1c420b97), 0x4bff9cfee9ee6b1045e4dc5a0d5355d040143f63ef9d12cddb66c876df99bbb, 0x5a8e726d46c32b140a270737a2262cccaf1f74fda025baec1b65766063491b6), (0xf0d3817330010db820c7710c8ee17a157984f4bfd3bafbd4a49079efd7754990, 0x8f3723c85ff3164db3a07559b4963e07950769fd94b7a173e978889b3444bc4c, 0xe28d41769f5865ab14c24658822fc9961aeadb95b0bfe9fe782f4a0efece7b64, (-0x48eac5c2254e673b8f140471c905697727cf02e9fff1852fad4e9e3e0cd660e7)));
   (Plus (0x94f0f849f5e31f8b09b98dec9045e39d362d09620d097711a4b77673a6ee93e1, 0x2cfebf80835066f1c732759e9879549845ec79bab1b4654200e4a004dc090150, 0x56a781e7ffcb081a1cc2ac07c63ffb413c31add65b0a1ed0d1933eea3e67b6b0, 0xbc4ade9eb25acef125133207685a062a679da09bc0f3a10fed12ee50b819429), Skip, (0xed7816fe6ca3e42058b150c9eeac31ef8a6bda7ee9e51a0ec33e09f96afc74bc, (-0xa6420f67637bb25071e77ce944474fe9df3cfbcfc86659791d17ebcd2533bdc8), 0xdc4792e8a5be0591b11466a7b249cba8f2a33a30c8468e1f561a5045057941bd, 0x37d37953fb0fa4bd1da2e0c78a3d18e7906ea3d2bbf400f5c11966075d72b11f));
   (Skip, Skip, (0x62f219d148d24eff34fe56735390098e29b6a2190daa3dc0fbd1d33b92531a49, (-0x104bcc3d6c16aaa6e41de7cd3a7f9df365fe8717877572d43f3d2ebbc048b91d), 0x263e40b90e093d69ce9cb94f331276dfca50fdd5d52899f82b416e3f11684268, 0xd38110e4317d0ec08c09ffd9caebca5fdbc0a7ce9f3c36d91be61730894d5d3));
   (Minus (0x65b681ac9fbd74fc3ec10ed414d59224a5602ccd5affc071aecf4d159dc2318e, 0x1438f08f6f6ddb836f3fdc469763744fda9aa0e41bb7589c5affa2cdc84b67b, 0x2869846ed92e0d155a55ddee9a39d9dddacde016db5baf9f5429ba78a0f3c034, (-0x4ebd18042d28ee7bc445c86930cbe8e79b6d380e7293eed0d0f759f09a24545a)), Skip, (0xda8eabc70379e66ae8e505f49deb2e1b4906022def4c45ec320e33aed7091903, 0x7b5b31118e706a6f8d21e90c3e5ea4663c618a515ed94cb62815179af21e1ba5, 0xba974c11f5f6f104f4a38f0164419677e70a8dc4d1e0c492b7e51bcd3a94d1c6, (-0x30a64c00ff8a9a57ae5268b8915895ffdc90bcc50a5f4835a3176aa1164c157a)));
   (Skip, Skip, (0x6c49014b33417076abaadc7958f95908e93dd2886468bd7d27d61cef7c1fdfdd, (-0x4387d42d834ce77c2bdfbb0b5c3cac71a4050b08b24c228ca392b55ebcd59c9b), 0x2dcdade930241eb3da0207e1a22e90f4e54b1654ef831673a369c13514d214b2, 0x1d7ff2dd811340b382fdc822936038d852438a2146b088d8ab34010335a40240));
   (Skip, Minus (0xfdb179746063af14a2210beef47167d9f79074f42faf1d931596c330ebdfdee2, (-0xa3a7d644946238edee6642d973b1f8efb3a5e3bde7789a95d09bac57850854ce), 0xfb684519331189ec9d20995f561c458c85fc8afcd4e1e3abf486e2fc0098fbbd, 0x580d803b9dae3ba23c21b723511958b26c9d2f8158fe78009b087692ece30e5d), (0xca43b3ab114e7c697fee873576d7b89f909e0592f9e805e00246c31200fb967b, 0x1478493006042606ebaf3a073842ec13860fe45dc5db3cdf4018312111fee64d5, 0x9fcee97180f397ef7f1ea6a9af040c9da7112c47f135895f18340817b5f96aff, (-0x21dcdd8efd150c268bede9c019716bbfa25aa10b288f800c3643785b508ba348)));
   (Minus (0x9ac01c7727ae6e584ee43191f22121e0d8f7ef696bfa0c46a860ae32e9643c91, (-0x63ad517a9531cce105d475c64e267be2c5ef855479d37df9f4fd62bc25ede8af), 0x5d8bb26a11a3aa8bd5d565c24cddd8abfa7d05d6abae200c8a5c95ae2f43aecf, 0x2c239651a5b05aaa72a2fbef205669fd7fb2a4c9121a2cb0d740c39e5e0da798), Skip, (0x1b5d9cdfbd96d7eaf397653b120ed6cb0f4bd05bf004f79c2a9fd0bcdf4929bc, (-0xbd2d5b4b69b8eae1df0bfc0ac9ec40498debeffeda634d668b3379e7187a574), 0x2ece1528caf03c02071834190fc18b0cedeea0605e73d1a35c9a08e6510e906, 0x53ff9677d1ffe6ad3a775007ddeabc1b0ff47b13574906bdb2d6d177386b2f4));
   (Skip, Skip, (0x6fedf4339b46436d0db4e1864076fe618c51a754e1c0ed5708b889c5733613e, (-0x31295687438b3691e3d17d8dafebb1045d575330197ec85036975ce382d6854), 0x30f036f2d126d8f6968324ff42731ef15eeb7688f83513e3844fc2eace0af5, (-0x18ffa9bcd5a0771eaf92f0fa74c4b5f3dc5c9f27e00cbaf762a52d5d2f19209)));
   (Minus (0x1864a0489d9a2b2e7ce85bfeac35750398a8ebd1feef5b00881e66fcc8d0730c, (-0x7fc68cb0bcc619fa881a0a6b62d8afcf676b44c8eaa75df83560297fdfb3ccb), 0x253059b3aa2e224317602df555e950404c08c45413a45f0731e76e6fa0a8672, 0x31e2539ac5b840a330ac271d8deae04bb5d9f504947c2a45873c10391c622b), Plus (0xe2cb628f8216b846a5cfedd471c25f03651420785eb04c54bf8797c5a08780c, (-0x16791d528402bfca6a123c592d604c25db57bf8deb393212d0e661f4d02e89d), 0xc8ebbb9ad73a9d70f96122baa95b439738c8b18216b41aae06b3aabe1a822b, 0x2f8cfd57c824145f991408c0c735c9b07f672423cf2e85ca1a3c13c336f00c), (0xa377ffff0b36d0535197bead9992fee7698334fa5bfc270f64d511cc9ab7c03a, 0x28cf04b1cbfe92d8768178540ee817b905160ac1eee61d1a85c9bf4546c1ad57, 0x6862083ec76250ae5213dc10e6d2a32a6ada8d51e30e61ff447fc6a4b31ca726, 0xccd96b79f4c0b76f998c898d50fda9757e88f96dd1d6b7ecf22cb0bb98ce214));
   (Skip, Skip, (0xbe610814de113647213fff8fc6378b31333e2bac4ac437ff9a702a6734563c9, (-0x2205da3da20d2694587a87007f1b0adffc57375f6010372238068eeb7d646242), 0x8d942cc619b325313df8fa55e5c71316b73c92e0c7ebbb2df4d2261a408af0, (-0x104313706e420e07202194031d638c56d395896464c74366718eaff086645ce)));
   (Plus (0xc3128dac53e993dd9e43c3f6f7ac180f5adc3f274e0566341236ac0aafd23907, (-0x3cebd98792fb29e943d49c40b5341de836c88a80739b455b7fb86b38d596cdb8), 0x94a5452cc278ec8c94879b35506aad947a63ad717e8afb4b670cd8ac2ae0d2ed, (-0x152fad5d73743fb5f80b3b41916108080ba04cdd332deb813edf7bcd06078384)), Plus (0x5d36b960a7f020fd7c7ac059ff61d7def65cf9c5c901b32413509cb8d3acdc36, (-0x75a7d2d62dedaa12427ef5f204f15dafc56751ed02d5e8ff87d9e2c47a0fa10), 0x21f0ce62f508287d8953fbd9e78911f60f9ffa0634c43351a488f38e2202a25f, (-0x1148a288b10f1afcca0336efcfefb628c2cedcd559fe2a70f71562c898b6d49d)), (0x92ebb512788e5c3c7a3baf1feaf8281104d50976aef98bbac62a97be2d8b7a7b, 0x9ac262009b89c175cbd678a06fd84f5402c686a24698d987284aca6056eff453, 0x5451b38f017ed660cdacc050a98f48958c36daae31d09e1aeafad0be1c77641a, (-0x3275e7b129800aed4a29e992243f38ac08a7ae21b931f0bb29f8348a56722d47)));
   (Skip, Skip, (0x9b0f855eb9be64f095aa255167f0f0baf01b2cd3cc72ef8f1444747071666278, (-0xecac6acdf617a12c0fc3cab2cf7b069a048c3961fe6344fb5e0e0a7396f6dafd), 0x5debcc719b81e297ece66acf5c5cd90c3479aa2d47d460e8e685a54e458b6bdc, (-0x26a27b95aaf6d1c9e9dd930d18c059da3dae6bc39e15846556d58318a76ce85)));
   (Skip, Plus (0x3092228be170fe579f9d7208fbd83c1c0cbac7bda6b5aabe9e3a30b5525c1467, 0x499bd011ffee4c7f962cbd619d1032fab0b40286ae17e41f81eda578895f0d3, 0x937205fe0c0f893929864dc27e4fcc7e2ee0b00c88d0cd8d4b7c34d5df42535, (-0x763e1b488eb28cb68f927240823d1ee09bb361cb8e4712e88783b9e92941b3a)), (0xc95c70effee378ee51d4695a7e30804db90a8fdfcca618c180cec3ec5c83b500, (-0x5f417de978a22edfa469e24dea0573f9085dfc70f76d02f457fd2960ed6ec854), 0x9e624aba3c93476a1c1ee0cb1425ac0e200806a56469fa72c409926db514d680, 0x1697f14e3cfdd54bfc46c4b390e76f70dbf980d8c8d01b56f162416b83c20eb0));
   (Minus (0xa8f06eaab4e4a9206336aa0676c75a2e2b60346da6ac21c873032b3802ea9c46, (-0x1d68e7cea28b78e29be94de21ac0cc2714b4b7f2fadb1db20445dfd1cd471128), 0x6f7c730fbd567000dfcc940143ad1a5dd4e9535222d73b9f78aa669a12f3f6fa, 0x161a9537faa0c89f4cc0520a8a26d35fd15a75f0305621af33313e6fbf31be5c), Skip, (0xec7e64a924b93bbe0b71cb15729ff63848d6104ae7d55a16ed4a41d45b8fe684, (-0x5968060be05e4550a107807a5d46ff6ef624d4321cad7992e1ba5dbad1798600), 0xda7947ff19ca40ef6caf0b245130593d7386691fe132793106e05a3dca8183e6, (-0x5a4e2d67463497086e8f4a0565b68eed5403cb63ee254077874028156d100d63)));
   (Skip, Plus (0xca4288159456fc11b9262835af66e57f17bddcdc53d94c7ea27ae497928cfcef, 0x2aec130a10a09185960b9b56324818989f01cdd6614e21ce301b6e9a2b568520, 0x9fcd100c8190b21409608fc531a7e04554bc9543c7d646de16338d0e4c62cbc4, 0x475ec82e6619c27d3f4bb49617953733dcd78df677f0af483d84dee076e67eda), (0x4a97f998b50e69d9b7f9c654687b8490e7f4a168b22ee05f0491f67c5bcae6b4, (-0x27e9fcb816f540970a38efb8f3bb1794b7b6ec1b1546063d8afd671a732062d4c), 0x15bc3684ae2c578048480c3cbe2205afdeeefc3a383c1028ddb1105441b292e7, (-0x40b14e41637f2b157c565d83e2950266c9f2b651777595e52fefa5006b9af2d)));
   (Skip, Skip, (0xc0b764bf04ae63359beb2b4fc6f722f47da0482483379a58ca50aff8c2ea4869, (-0x1aea680db6da70879fdf3fe19077a44c6c265cc2a38ba6a90464722c97c4d0825), 0x91139a7fb7c410527a5580e2a973ed19de91a4c86ceefc4df3c5d842dc61ff7c, 0xb591a58dc639cc68ee6b80d560bc0b59536beb3a30ab739ab716f9c10557be5c));
   (Skip, Minus (0xb441e1c82a91aa80f37e7bb2cb74d0a406d47661b8db9eec8be1c690f487d092, (-0x3a335a7630616bd592ca9c087beabca0083e6eaa6a6b070fc2bd0b3a228d8be8), 0x7eecb675eaa3ed14844ab883f18201f107d7e7c9e1a2bebc0174984a64a61c1c, 0x31a7fbe3434f5fed7a6094f09dc955f6ffdb49e5f56b52dca917e70266b9f1f0), (0xb9f84addcab19fb53a62e79564f6075b848477821df6d6c58668d8e9b2501575, 0xd670256d7deb08454ce883be32981339ddc4537d27c02bed4c770daef2e73483, 0x8718cd05b2926a4fa5036246d666daad8ca3b5a3c98e7d865de6e8545bd1131f, (-0x4beab7d1b16e8543048c13b33d73f80d14132747bcca21662f6dbc1acc88d7c2)));
   (Plus (0xfd2b6456ae30a6f58c388c46398e2bd7ccf4dadf38c73f431d93d837844c0a75, (-0x23ba8d8096311570baf98ea9c3c2d5b4b8c8b5d04235ff1bcd8119f88de3ba76), 0xfa5ecbae30be83c8ef4b0efd248445d41ae92fde8dc766e352efc60752cb9edf, 0x82ae8983f38c6b563080e75fd8643e9cde1b47699ad13b871abf00dc4545466f), Skip, (0xc985b179caa5bee0ef6acefc42c0dec227b196c5dbd0953cc43c5868392e7cd3, 0x54a823a57da8af30a8be0434766ae1afc6d78eb92734cc2507b3e0f6efc1a7b2, 0x9ea3368323ce7a1ff0b9f641ce3c90557704df763321e14b45e35824eaae12a0, 0x14b4404b5ceb4c2c32ff2f4c679f8ac58aee29f289033d697669b1c2566e3a7e));
   (Skip, Plus (0xe8160675628a2347a7c47de95a1ff2d543b1d0bc08c58413559d473b44d8866f, 0x3be5a99682bd930329e63d6ec8995554356d516af15e89f9de50f31f93b8aa53, 0xd267ed99def10621a23ea2e611876952c7e31c8a353ea668a849b840ad076a57, (-0x577b515b10d0f83bb6e0e2203598e993b4a40bc8f6f3b7ceb666947794314e4e)), (0xa6d04e5b19577537db75701165cc1aa476cbdc92cb167d90af93b785d698742e, 0xbdac29b962115ea33a0a115ae783fc7dee05691e6ab124bf8c407a598878b073, 0x6cb2cf1d90e23dff3d7e7e640c92991e4765d6b76b6f46cec27537b1a8c3894b, 0x2058ae474acad1d6ba1a83b0a8025efa6cdf880696de36bf4a6899e681506c7f));
   (Plus (0xdb886c21f2200e89a02ad02a6349d146188af00a2ca203bb24524ac46a0470bd, 0x1136bfcbf79b214a258e3a6d330ad100eb97a2ad0c7bab2e44299fbf8019d396, 0xbc42b1b52600c3ba47cbebc4f3a38cf5d93040cd24a351400a44393fceba8443, (-0x852de8fb3511b8a959fcc45fe250a19714dde3f8b905783c78ad85252685b3e6)), Skip, (0x4479d94c2f98166b4c1d24655334f9bab459cb5a6c074f1e9bb5b9ea97b6a18b, 0x62a078adf0cf64e9f1a14ec0ae8d3742c3de95d9c8838d3019f9614bae96e625, 0x1250f56f9bc0090a5305d836dc51e3fe9f40680ec79afbed8fa63c9e881374c9, (-0x230a8719be6d755deb0a1a8aa993f98da9304d2c9426822f51ae76bf78c5ee8a)));
   (Skip, Plus (0xa0b39e0dfe3fbba3287d8494c3aecaea212dec7d8cd08f1a7bf22db8ef5b59f, 0x1ff96625431f89c8dc79516cd2bef2670a2faba608e37eb52706b8db81fcf00, 0x64e10397e6f67e46d3608204113a02be7a94378df75ffdf844f197e3149e59, 0x3d1af7d67d2996b86b607366d43e49236898800e92f6ef8d6349638746a2fce), (0xbe5aafdeb2f0b1599d1b413e816d0ae93363953c3d97e4fd3afed1c367f9596d, (-0x4285da49bf5468a41d4b91f6e39dc72abb96589a72fec0cc2e28fdef6d45d488), 0x8d8abd2eb30552dda136a12807e6feacf10e413ea6b6b639125ca53d523ca891, (-0x33a4237f1808ba9e406cedb0a59c1ac31d3b27a8e9e005c420d5745315312a79)));
   (Minus (0x30f08cefb80458b265f363efecca6580f84f9359c99c5cf65c96079ba4108efd, 0xc780a23197c703bd4c466fda3c7c7f3df778dec135d75d7b630ea8b2695e3c1, 0x95b16e27411bb2712216a054347183577863bcbd342a4e6d715dec874fedf90, 0x15d03be6f05d0eb038c00e979f21015b9cef9aa3aacdffccd4e0b348dc080316), Skip, (0xa6a6f72a0273aa6f7b6276e647117f1c0e9f5561a551c6238ec167ba7ac03635, (-0x2221c2a4666307762f95d1f4688e7ab60f2529db6fe40017c62077045982a178e), 0x6c7cf56ff44b46a99d74c57da41ce0f9bd2448b3a952547fd63066ed6ef96778, 0x76e50a9bef7676950e7d97600e37b41148cb63027b6939b7b770f18e36e8cc6d));
   (Skip, Skip, (0x8dee3efccec9fbd528bcbdfc380d106f09ab41277d36c65ed6c4dc4784ea857a, 0x7e9109f1ab6d237b52c6233d46453e5890e4548af0e459f783e8cbe2a48509a7, 0x4eb04f1ba95a6ccaa9e464453058399cba2c109870eb3bdaa97b0c93f41dd782, (-0x5e27807737148c8a1d60e704012cf7d449c4f154acda8f41f0893af414939b9e)));
   (Skip, Plus (0x418e16080375d69f290d390636736155ff61be03e95005d74cae221d082fd6e7, 0x34793689d0fb19a2464178db3b3b9005f35e592477c3b2608806d08927ffa97f, 0x10c9760c848b0e8f63b6ffe6dd8bf22f4854bfa3e702aef7facd8ef64a0047ce, (-0x189a10cd2b62661ee42d1a218c5e8b057e5aab2c9dbd91b584ce24be88fc2759)), (0xdb3e8ec5d990ec59421e6569d96dcdaecb7f725432c5a4ddb78439afbfe5554f, (-0x23cdecbed11cca3538ea823a592de789c524bf2ab7af7d8e95a246c2d91901be2), 0xbbc4178ff9b36cd88a81d1afc5474c5dc2e536b9e0f0acc77f9b2426666e05eb, 0x7a549e0377c36bea062b4b76d3a56084838cb9c1278f396e189f824c9006482c));
   (Minus (0x37c9547dda9803b2eddaba4222ca1e0bcdb85611fb697d53accb562c63e482b8, 0x528e1573f5e14cc8bc48b762cfc36b7f3137c7a16e755fcb762d8e32e312e2e, 0xc2820a3dd71699fa6b5c6e5da436d4f71582ab3db7dee476c6af8f2703e9c34, (-0x295101408c9dc32744f027906e0a9cc5de7c6d423154d8dc5088fdb3ce2b8af5)), Skip, (0xf18fad968cb987adc7d7c35fc6ad8974a3fcf82a55e9400e7bf3015e6b558a5, (-0x341aef8155267225b84f83c1129eb67f111f4de69d22cf122d1c900099807232), 0xe3efd578d8db5b76be90d381dba2abb6f39f69ef7b3c3e43d78758f5ad0f6f, 0x3f41c31f9c9c69fff2b320dbd3594391fd551f32bad14b8b9969d4a7703a652));
   (Skip, Skip, (0x82cd82212ae9dbf4101c8671a40de941c0bc39b23359c41063b171fe4cbf7c6a, 0xcf560c624e549b7b75c9dfe917c089bb70899eeb05ce5c35ff039911533569cc, 0x42d55d235ad9f1cfc01eed52110f1f6251a63fe8d72fce0a0c99268ca0d158e2, (-0x3f589d84df18f008b2eaafceab870480909ef201d86300eac81c1653b4f4d953)));
   (Skip, Minus (0x63df745de2ccfebe324f9cab457b8adc798d0cd84696675be122e3583718c860, 0x8f360c1db9baeca1aa96d32f3cb298d81b65ba431439ee306d823578ff0f227, 0x26f6970c8de0e62343014396eb665eafae520a27a52b5ac9ac0607f01ecb5f81, 0x2c8d276738652f8da74805834773ea7e095e480e5d828da7e057f06d949010b2), (0xc5ab93dae7b4d1d3c5edfe8bc49fa6ba5566b166494b830b6cf082231fe99f39, 0x9e47335685a3f69de417a2be480ca26797fc0cf14ae2c708daf4104a53f423fc, 0x98a1848dc472f7c95a311a1583fdbe2a681eaf83c027acce20c6a2fd8b6aabd8, (-0x561c82ccb1289b0635cf65b3e76959cd0f84037300f8739a0e392c864ce97894)));
   (Minus (0x5f69907b478752b4206aa120b7e68f7311774285fc857986d12f13d60605a8e, 0xf269a07702e4f76a781ff70ddfd121e7445b589ecd442ab0204866f0e9ef9, 0x238f84c355c2083994e23005cfbcd7452c145cae686cfc80105f0d76589dc8, 0x1c0d56098c88c559f7d0b5e52a83df3a1c750795dd47e4a0533cf3f896168a5), Skip, (0xde12036f73e80356f7db91954e2ca46c56dcab93ec4efda7fa9e72b8b3a2b20a, (-0x2291c946a0bf46f28fd1deb7521dcf764a2a4477da8a6e9c92db5a80b433cc639), 0xc0a33f39c8be7fa875dcdfdfb2c1d4e07c369ca29f61911a3e83c7ec9d02d330, 0x1197c34c8ca378d5a7cb32a416af77900517029730af857795a7bc9553b386fd));
   (Skip, Skip, (0xeaaf7c28dae8dfa52783d0b7ef5ebc91aa999f58db631588e00a05856dbef4cd, (-0xb5de42807ef7faeac174cacd6b51f3c6388e61583093b9e142b6e7ac72c56bd0), 0xd7254745ac449dd26ca852670e7b2165dc0442973b7deb7f559e4b0a505818b8, 0x5be88f160c3da00c5e65cc0efa23d8963f62f994e28b4abf41c99126f8c597a));
   (Skip, Skip, (0x27923dd35874b9d0c3e1b1930352c0c3b0d91412f38fa8c1341f5a73beb4f8b9, (-0x220a74733606e362e6d838e91131cb2614a5f6f517fb18d013d79efc2a7d9a2df), 0x61de260f8f2dc641d5671fe3e19dd05802b6d4d77e5d2dddeeb5c649563d2cf, (-0x30c020183634c80539172de50a073a35681439960889802ee4be6e4a2f2b74f)));
   (Skip, Skip, (0xd8880a7ae61955a53b91ef1d5de7f4b9646afd475edbbc8974911329e12fbdcd, (-0x1a4352b65422c6d32a060e95804f8ce58a213f8eb6200b203b728dd1bac4469a2), 0xb725d9fa874d106bedbda11a8968671eb7e0704be7ba270241a962b6cb63427d, 0xc6b0383fe88d628a967a4b3374ddf9c6a4ce776f9360cd6de8b8f97f19c9a2cb));
   (Plus (0xc36830813d9a3b9e539d8cea1d0e98eb94a4674f42f6b7a48cec2ac7dd578d3b, (-0x7d21a1c6b22b4211dc502fde50907bc9620a98575b3f293fba70dc901cd78f0b), 0x9527e44c560bbc7c9ea446efbc53b2d4f22aff46f12ea480a64dba2a4619965d, (-0x2325dd62b5e43fea11ece5202ecaec46ac380579f0897c6f6d8d7d958b58dd4d)), Plus (0xbe08516336750b52f2226e8eba11df441dc737d31ce4caf3f2e951b191d8f784, 0x5234ca25b289bde5360055776e06b977fc5d50f53fc614dc94068ef32ede47f, 0x8d10591474e913090fe113ee2e2e1276871b3072e866854e9c1e7405f5014fc4, (-0x4d9fdcacd12cd3f706d7987fd0a377dab9e7a5fb4ff291c8de07b3348e3a76cf)), (0x8676b3eae525414b100a173e847e521f75a5c46ae628b3858b1c1fbcbc59daf7, 0x1111d10e821e5a493e5805935a47a2af94da445396b2fbe4b738f49f9018edb4, 0x46a07b6442e092ac94835b868a5632a799c50b21501075739b6b332df56e0475, (-0x63106a7d28abddd6da9a1efa65c57dd78d6be6b1defea936bbe46a3ee2b464fe)));
   (Skip, Skip, (0xf53ade417a0d913b3b9e411781e6e8de0ff1a6b169ca912fe5495f51c90530d8, (-0x2cfaaed409e0aa6b343ab3719d3271b797debde12efa2a4d581de574a278bbd4), 0xeae9baf2ca3ee68febeb56ebc3c7b4f1d50b6434542093974b6ef659254cd8e1, (-0x361da5ae59fe7fe77b0926417cdb13048a8813258c1e0f999cb3919e9f7828ba)));
   (Skip, Skip, (0x32f78aa8da44cbc85c1d785fb24f0e7f0da8ec5386523d436bb3a50d1e52fb8c, (-0x29e21aa577e947ff1d8d971661e2bd7a327de2391f4b7c74d8ccd45b7389e2d75), 0xa25a186d2328b0ce0b5fbba78509fa09884c4ae0fddbac11b1aa91b1691e2b2, 0x236bd082730989c579c4a37fb62f2f63af147f2e4461ec910dc75e9264298f56));
   (Minus (0x400418d65bfff6f648933daceebeeb45b0b39f3ce0a9cd36d21b057a3da6b6e9, (-0x23b56464c48518d019a1eb37d11f1da278d59849057ee109ba2d5023bd613514), 0x10020c7bf71bc038cb4aee4e5afdf915802b250fb1b2d498a821a5216bf0c199, 0x1e4e99373092907833529ac41c9c34856cd1f7c1cda03cf16275b42a8c34bb95), Skip, (0x2c5edb78f874848d89ceb49fa59a1ff38ba3a6605f567ca67bb74a6e78c097d7, (-0x20b7e56b8b52477c8ed413dce38272d418486b06ace054219d3b6e662580768c), 0x7b0be977e66b5633878a63700e4b8d365b2a30e773cf37429f64aa0e34cb30e, (-0x667df3881c4e829712dbce3f84444604b9cafb317016b42f06919a510cfc757)));
   (Skip, Plus (0x8ad87234ec3a3455365a4cd0a0900169ae8427e6bcc68d0c2e5ead46445c3e66, 0x38525d21c28a0eec6576d9dba8406d49e306b3d65f2821c25fe40b5397f65e2, 0x4b4e1221faf08ff8d6a197f1ebc911471787ec476d7320b824e426a525e5e69a, (-0x4a5739a35797c87225da62db2b894e4e78b8b3ac213930126aecf88907438e78)), (0xdebcd686b581f6645f94a93467d0ecdf9e4ad7edeedcfeed57d9d6364c78d427, 0x10132324aa38de45cbe6b9c79593a1e65702ca96f433c7554d533a3090f641def, 0xc1cc0f5d6c6d7c8fc5e1011431013040e05ac70f323f7c05374f90bab2337266, (-0x2a6c6d453241d117ad08179952492e90264f7d9473e67c781f7be0cdf2b1c4ea)));
   (Plus (0x3b8e1231ba795099528094b2281ca9d4f3a9c9eda29c299dbe92248034fdd0a1, 0xeea771f1955c655b8d20bffed844c3ee1db2fc972a495b63e0e8c3e9085c172, 0xddacb3b1c69d19e0fb9b816d476b4ef7b54d0f7b7fb34d9dc1f39372518dcf4, (-0x239597bc1207e25fb190ac89a6121cb0851ec2642b168927012b043a1abe6123)), Skip, (0x81751b61f3b4ad7169d8ac62378adc14043339e3a60078fa2bf394c804c26e20, (-0xcbe432f6b2c45b68fa24adafb3022c0c99f595d65db68931d41b776847576b1d), 0x41773b2ac212a8d589d8fad82440bc210dc692de71f45c5818e6b1e5dc2750f3, (-0x1c2924335fc07896590a25980bc056369203e56969626f062d6635cc3910a351)));
   (Skip, Minus (0x3114f9cefbf76a942a336e6bee357892e966bf25821230ee60b2d2ec77dc0ad8, (-0x50291b40e461b2653febc0c149cc8dbe1253c8adca33a4edac3c97c974dc05f), 0x9690959389062f726d122f7eaaaae149a2a21f2ca80364c2c59fefa84e643a5, 0x10a2094ca34182562957a0376172d2960a2f3d8f618db7c1a6f09cd95dbcfa6a), (0xea6ec05c50822815af2653e43c1adabb3be24e602591c72373d731cc1a44a051, (-0x111dfc880ae94af33e82c7217a6fa69125215107a19a2aed7006f49a271b0d487), 0xd6aea792a30dbb2f49d387d7012c0513c57b94ce194c58854db63d45feda9d6a, 0x80d2dcfc2fc561a802a26c9c240641b035bf2336438bb709d86f03cff162c158));
   (Skip, Skip, (0xe60635d4ed2d254e05003b55d58bd309cce50b703f8dbf6d4700a65d85559a25, (-0x1de5a17fd7679964f07f1944ed01d28b68944e555c146d2592809e0fde5599bb), 0xceaf28e12b7a187450995cf3fcd0e783fc8eb49eb8accd328b04975b09a395a3, 0x340890367b61b8ba95fcba53deffc80b83227fc04a4b632558df4810f42317e1));
   (Skip, Skip, (0x7471bc58c865f770a22bcb1e2465507731b3ad17d19c55c851a736531fefafae, 0x52c23fa572c43b1c14356c9b4abed3b19310be38c0e4535b4a62ad4de4ec89f0, 0x34f74538468fd762aacde1999d76caf70fc377458fba5b941d568c22034084a8, (-0x645582eef0e567ca1b23f150258a06773eedd9ba6437d82b180bd819976ce7c)));
   (Skip, Skip, (0xc84b8bb00e0f4407e49fe1be00895dca6d817c8ce64cfebb5d67625411bde644, 0x2c6dcafa73fe6c863e18f27415e11f0ab9ba17f5ead495848d7366326283c088, 0x9cb6208e3b58bf961b7d8fe1092825ffa19cd2b916c610aa6a7313977fbf2720, (-0x27162613a3c0140ea4b269daaa2b56dd1f7ff207a7bb1bea44a274970f419c81)));
   (Plus (0x121af2eebde1e016399015a0ade01e66f1e791eacc65ed082204f1c7cfab57b4, (-0xbe1a78f527d02d3248a41adc37519bed7a513275ce2a15a200686937a7a56e8), 0x147ccffd1ba93094d19eea2ea19ab2b09ddcfcbb0c6c7a4ae8e50d16d8456bc, 0xcbc471378798ef03fcc341a968619d1e215ef2c27d5c65d821d1604686eb46c), Plus (0xc44119d39ca607e282ebec37f287608cc22e9c3fec0ec48bcee85ef99cef7d12, (-0x38e5c03adef396a38f186afb918f47d678130629f9a751ea6b7a7738de6d30f4), 0x9673c01a27eecbe6e095bfc3ce62439da766bd7f29c94df3c594c7aca2a1dde4, 0x24bc29bda193478855806a2e55bf00db2f83499a3c4ea1c62ee0f3f7428dc8cd), (0xdfada4b2106cac4951ec538f3d828576d57426ebe0d870d5e091e5b044aa5639, 0x4e8135dd97fd642afb502064d179b174938cb3a12874597604bda1dc3a95c1f0, 0xc36ffab63b3c27eeacbdbd94308385dbfad275bbf2f1efd2eedb3fffcc4111f8, 0x47932449e2339287a45b7f4534a5c3a4becd9324390b6d64352ab68ce281bf60));
   (Skip, Skip, (0x51ee9a34eead0ad899a54439d004a42a2f3fa11be3c4773c1dc6457062e3572b, 0x1ed5cb67fb111b420892c7d794c43ba44634d2984517aa30b6a4507e332580e9, 0x1a38dbf8965904b741d77a73193f95c44915f3d0ca8dca55c236d04790d2c834, (-0x4e2f8dfdbe4482843e5875fb8e0b3dbd85fdb7d0cc825f5da186d116b6813611)));
   (Skip, Plus (0x339d86eb69a141537a59c9998bbb879f0170f2316ba0fa94ce41d4f3273d17ee, 0x1b6fa52106429066630bf43a978f68a2a263af840297aec6c488804151961c57, 0xa6824b08ff11ae14d2ad8f6c9f005e640b435c2a4c41072e29441cd2c0ed4aa, (-0x1b73405ea149b8a615b2940cc95ef03a4f9eeb92ba962c5c96ff2f01289cf38)), (0x602c9992d00cc6030985312c38033bca60ce74f3a25777862a7288488389cdc1, (-0x273f7d5064c2720ac1a414d7548049caab349431925507daa8faec262d62ddea9), 0x24217af342a1e9c7948569ea3ad2a67fd008eb2226f76e30d454b42efb1c69e8, 0x268e0b9937fcacd68c0c1c4220f48e9cf647ba267cbb99f84bcacef3e4f9db49));
   (Plus (0x2dee9aa716292eadb2d766f6b1a02d936e9a5bedd16446755b9138e3fa6102bb, 0xce318a889bf1249e1b93189310d9205490cc69ed3a9a8040a0b54fef80d4f04, 0x83dc0c2a9e522b353a73f2680f0ea3d077341934bb1cf6074aeda0d8029d2e6, (-0x1f1078fe0d4fc351b8c9b6cdfc21cadbee9570ab31a002ffdff29130c7ab3dc0)), Skip, (0x2caed624594a3483ad98859bef75a97ed7cc509bd906bb2b23fbf9fbe4e5004f, (-0xd8098d8f20bf73bcfc1de03569fc924641a242782fa4f6be9ff64262de27fcb7), 0x7cc91044b3bad5df27c028d022a69bed3d1281c2de52a6b318e9e6a1142cc8c, 0x251d0fe794f8d9f24d5c2a5c5fb106e6caf8f1728f8bb3d028ae73606fb385));
   (Skip, Plus (0xff12d10b936219e6f6d4366b363fb6597c5cf2164eb7a2bcd2beb31a38f79fb2, 0x1805e061f93002a7a94d9b169c4c3a61906621842ba1929ef6cf50ab42504775, 0xfe267dd71ff21091f1c8a2780b29e7954be0660b760eee818494182aacf68ec1, (-0x2b0a4fd90fff5f702997dfba5c967da07f38a23adaa58a00c07e98e533183b0a)), (0xff486a88ac95151d852a5270924d4ccf1fff7b676398e499d324893a4bbb576c, (-0xcc91c5c267b4b96691e7cf29fd9f24bd6e72b42858154531a50d2bb846feaecd), 0xfe9158b861078bcff820c4e06d10d88eea026d7aa3efeb8b7ee641e481c7381f, 0x5a875717b25fa1d6c1d69018948f0778a17a8cd36ecbebe11028151d97c1e25a));
   (Minus (0x1fb0f569da3c43d09b3744882aca1e1b34d2931f4419c8fdab66697b8caab495, (-0x17e1fd1b3a15bc06aeb94b0a7b59f5338115a79d0e0ac35973c38187d77c17f3), 0x3ec55c1ffaa72c5ddb46a7d763460a9821f4d336f68bbba098d3e6f8750842b, 0x1c9dea3948bed51b2bf01d4afe5ac4b8cd46c599910d57ff538d6f8d6e759bb), Skip, (0x8309b9cd7caf364f8a4726b848e574837a1498176583cd38a99bbf35c27c0e01, 0x8a24f50091d51cfacd01d4b39c8ee1d3d28d93a1d9c94c30a017fdb44ca5c743, 0x4312f486e4e8b90d62f2b067f9b3f3b73f94aab58fccb4d380346aa3ff7e4127, (-0x1d83c47d4bcf751ced405a6580f5150665620f03dd61bdc852dc2ddfa812a69)));
   (Skip, Plus (0x37bd60a00f473d4203a840355f36c9c7ecf6265a1ddddd4feaf6123993b38cc0, (-0x1723379e166796734a7f82dc786ab55997540c0db74556127532fb1d1b784583), 0xc22eb9c975f9b0b58f3344945e4b157e502fa944fcf8c27a7e889b4faf10b1e, 0xa0b8049006eed50b97dc8bbb74fe8bdd5cf6faa3d8fdaa1b155e3cef2bab715), (0xc3a088da9a740fbef9a36dc94890489302dbf3a200c6aad18428714f41d62ef0, (-0x964d7c0fb3a0610b8bf527ce126416d45f897afa14e91a383f9f70c46b7454), 0x957df52861b6dfd75a9c9798b98626bde391b0c5b90ef9472194d803f02a3de2, 0xf21b4ea23c0a54711c056be16ec206de776d55a92758318971889262a449824));
   (Plus (0x2ee12694d0cb6f21364e9f4154e5ae4d72c9f91ee7ba082502c26fbfb6c04005, (-0x23a63148ae47867292c9d108b2c5f84fa666c8dfcf15e5c374282021a93e9c47), 0x895afe25270a607c2674834f4b30400882bbd7c0b849cbd402b5f4a8ea28b68, (-0x329ad9144bac71d75f049e339d0dbce9befc7aa4a8300a5b8f86cdd22125fad)), Skip, (0x9a1bb41d1a00d1b60cc94b47fe3b071dd38189836c875b949a5bb1b3744d5622, 0x778a3e1c7d442d6600aee87baf15aeedf8b4fbcc6a059e55e65b853398224784, 0x5cc557b28025685b518490dc1cea9677798e17372e8edd638b53191021329bea, (-0xc8fe8f0e2c03d5e1f83927ce1a10e94d4b7945f42830eeb350a8e9b4fbd978b)));
   (Skip, Plus (0xaf010537fadff5ce018e9cb27a0f45966585610f1208ce8382e2ecd189fe2c52, (-0x2860a24d39e14c55fbad662adab8fb242ca82d97c1ec83a9fcaca687d73d53eb), 0x77a26523938963da136cd7f1fda157fa440ba06272d13e91ab9f1b7886d51a86, (-0x2aa93fbaeb855c2585cc55b94096e39273e55620e69b81191e3ae74b2395ba5f)), (0x738fd7bbbe9afd0e286fa67c1b3d9d1d4306cf1d91327714eb87d7e6678bcdb6, (-0xe9f45b5861c8eb322816215dbb69b91e08621f30bf8fe981838e55950241f8), 0x342a8ca566cb1459c78b64608f14d738c23e82811db5a1c8489d717daa1a9b1c, (-0x560903ce46813c4e69df99656d7a6d1b5bb48c0264d487fd1602a44dc2fa2dff)));
   (Minus (0x11b50ac4c6e6925b302f53af1cca03ce74db14e6060dc8115556c20256c596ed, (-0x89cda6fbbc56ea42154e4d60fd0f32ba63f366bccd346f1162251d5c3aa42), 0x1398b765d1fd8464061217f70834a7d3073882ebf52c4de146248e75e753efe, 0x104af291bcfa5768c185215cc2d99de72d080bc74b6a4e07955100120058c3f4), Skip, (0x245df8c5a6ad254b4c4c56c0d969cacd2ea321b08b1ed4d55515f34d582f7420, (-0x2c2d3badf9cf50512a306a0da6ca9829624d1cb705114c135e6e45237aa7e6b50), 0x52a9076483b57d3b16d330daefddbd5db18784245246df99e34ce690067744e, (-0x986537a1aa744a19c5cdbb7707f824b84564a6a6154d1bf65fd4189b09b3db)));
   (Skip, Plus (0x1f1e6c10a39bbda226607f7d95c6e704f8dd0f6417bbcee9b251371372c01d3c, 0x8e9549b2c3f46dfc8b9a626e9bc70add3e19be3e26eec4adc406fbe51993f32, 0x3c861c989241b8dfb5494602f095b3748292d81f5c13dafb2a5a24789298d69, 0xdca28168f7c122856a2f4548d185a1825b3fd49772fb3d875eefa97eba1553b), (0xb51b78655a4e5a25c8c18dd20190b5571b736e586729fe907b550841e1b6724f, (-0x18a1f274baff4637bfe39b9b6e94360db2f1e8c4f81ccc2d4a6c123ce56d27a6e), 0x801fdb31efb304ca480bc8c25e1ec286258e204764701f3ec770b0be640185d9, 0x505b12e8199ff30ed1cab364979a6fbca2a0e1bc86331565093f6debb7f2c43c));
   (Skip, Skip, (0x2e95bd430cb40948c3e3069bb698efdada1d87ac3d902f2d55129e9cbdb660d4, (-0x8e3c41f27be5dfbe684c1952181225acc1f1f91d7e5d7cde19b4612886b02ddc), 0x87a2799f4898f3a71ad4975487fd7ade180a320d2011a7099b2311fc750aae3, 0x17c391a61ae98db2ec4cf0d503dac84b4df753d5affaab28c1c82a190b6febb5));
   (Minus (0x62266a4b9ba090bac84251e9ee97ebae86a95534615858bfda940f57c52e7edb, (-0x1e2fc0e265ef5d5a8624ea8e2ef1fedc75730e68427a1adb6dd143323421ae5), 0x25a16f259dbbd5af7f5189a7189e29dd179e5a19f29e4ec4174ad663235aa344, (-0x5829a467ce20af7cf124479cdb0a604e42a1d730324413f633bdd8075b7a81ae)), Skip, (0x61ff0b09e723c8829eb256b349701c992867da5babb9246b4e80f4a06a7739aa, 0x5ebfab968388ffa23571a2645339b5336bf455b29bd2bf3e2de7cb9ab06cdfe3, 0x258344747f5d717b94ec38ab3dfa5bc7509b96f83781ece63cf8650a6f7648e7, (-0x402361c9a6ae590b7bf32fce7b86297ed20307d6544c327b28ec6fe54f348c68)));
   (Skip, Skip, (0x3172c36f49857e7e10d1b5927bf54091d80521d6b2eb92a8998b92cbb2234de1, (-0x15af07584b8d0470396317ca0af1921db2a9e2791a48f12af26c43ca570bfbd2d), 0x98d22433e754fb3204c68fa6d78511ba8cf057378e3fd2c9657f5f1a47fd5d9, 0x1b16c3cee6975e5e8ad7da433cc95724fd295f9f0cb01e6d0f59daaf06a3a636));
   (Skip, Skip, (0xc3c8b71e8454afd4fe4ae23209d6947bbfdb44f29f3474cbf6e1de6bfd9974ad, 0x170a64f768d64a28eeee5661c4bdd2402d7053fa868e4d86af6a90b185707a74a, 0x95bb645720446d0593d6946bd4e5d290331303f95f60ba7ca5889fe27ed623fa, (-0x91ef4c498bc6e95cb76cce220a85977aa1b79b8076ce978ffff8bdccaa5ea7aa)));
   (Skip, Plus (0xebea7af033611067f08bf39c0aaf451c35b33be94ebccc243fe8ce4bdd024bfe, 0x9418562b749a52e8ec891e7e7991a09b55c3473278e0fec3314108fc6c8c6a10, 0xd9685479f87bf3e9b596569919240572f243e04487fe5adb02a427eb13f4c57e, 0x2ddca9a2061e8d8fec824619998a2b46d59c0d938d7c0d5e77ff2097d566a79b), (0xc781a37bd88a0baa945a25dcbec891a96eab33936f3ae33b924c4ebb9ccc91e1, (-0x17e1617a998721b0182e8faa597fd0df72b0aa18451fb93e3499b06939e9694a5), 0x9b7acdd0b5ddcaec8b3956ad22b3c12965ed319b036ecd085c022fbd8c16d722, 0x879391a45a6a3ce01b8de5e3671728c369c513ad0938529a31aed63f43f6e762));
   (Skip, Skip, (0x5e1c71fb55e898f6e64912dece2b8a3d031f1eaee2af6f37ebd48ca94c1a3624, 0x214049df73c3e469b36ea795d8cdc91d96a79c41bfcfff8c51bccbc9c6d19dab, 0x2298e6ddb4d173cfb11a3e3565ecd08617cd4e3fde4156fe4ec749cb7d361f0c, (-0x21173658927b8fcdb889b30be48ed09ad3915586d139d93fb6988ab3db2ca320)));
   (Plus (0x122852bb52a986315c26ef44fbc420277088c45a0bbe3b0f3b05c48c4c697415, (-0x7246e3c70553109c50c247c87698a60fca7c602534070b9b592734b5af88fc8), 0x149b1fc4ce635df58b4fb301dac548e5234837af35c581d9f8eb5613658a7b2, (-0xa112fe7aa58167a0db93a52a0a95a286d34fad4a059da4efe2662ed4d8543b)), Plus (0xb933d562a36165c30285ea45797bcc81284a051aa0cdec8f92caaf28d646c4f9, 0x5b86d6a4df351aaeb324b8cf6e299742dd1b67f4354965426c297872b1a42728, 0x85fbf4e7474d27c3f786261923143499b106547317cf69d8a77ffa5191b13a23, (-0x3649ae537086cee86fad548a44e1bf48af1a05d3e98202f494e07d37fc4a902a)), (0x5adeba52ee6ac0e141ffb884efa7a7d9a940b9950373647c8aaef60dd14e763c, (-0x41fbb9f43245552045b46931e5fce4a9ae98247c9a71531f67f237ce163cd4d4), 0x20415cc9ff152e15a3cbd49e8199b645f4d2af5e36fa89310b868f6f6bc94f37, 0x2ba266e852bd863c2132869adc2e3957fb154665a692d453097f9073d408957d));
   (Skip, Skip, (0xa478dd7bfcb0fe45115c6952feba38f9de0842736b164666c083b48c9ac6cb1, 0x73db7e66067ca1da1fccb9b2842e63896d50bab74547b53395f15f8a3860bc1, 0x69ab14d73f9efa0d418332e3e686d8a5d1a8a621cf092ba2c45e7560056f7b, (-0xd6c5040d13867f170281dc10a1f3d77088b9ff7ff920103a26af32bccb05c1)));
   (Skip, Skip, (0x104f2aa37e05be6add58d281a2334816593555f014ce643f702814ec1391f5a4, (-0x60ce18345d1de1baa9b2177f33623a3b7323e5cd991ee5699bb7e0ae5e54c4c), 0x109fdcfc7c28d1c7d74eb6b542a00d2640ae6bea152b38be697e6d17388360f, (-0x601c59352eecce7e0bb7240508863f7b4e242a4bbacc5db463c9bc2730d966f)));
   (Plus (0x2bc84acd55aab9488a2fed5815463e79258d1bcfc7d38bc9e22d63d933e9cc4d, (-0x1410566378502e7853c0fceccc269264b9046e4bf86d527ad9a6f87bf79c027c), 0x77ce5d5f1788f38e2f983943cf529a80039977ddcd386f0cdf8da2ac5fadd48, 0x1d3fdbbc94d95e64ec728e07103f751e48250819b6d9101c0289355ad2ba05d3), Plus (0x3b887139550eb0156c8f3449618a5193a03b925c7e2bf7e5cc7d366a636e4b46, 0xa2b474308ed43a06b793d74d19ebf521632ae1919de71d127eff1c0d23dc43b, 0xdd82ce8ec32ceb2eb0d6f681a67e4cc9c8b7fa29a8a2dd29b1450f47150b8d0, (-0x17c0a1f854991c1b14815ad3f17b3038bdba56718857993a8b53286d2b7493a6)), (0xad98ae499f8b968dacfaf69097db01061deecdd4b8b7fe434720aaf6131a6fc1, (-0x27ff65426eff22df724d7e2febfc45a9c0225b6e4eb7e52c5bd330e830d1e361), 0x75b7b69eefb8494c65bbc056da836c4543f165a10e791e0537ea9954448b458a, 0x21f9b2a89118ea0d45a65194c51595db9b838d9b7182b971ce361908f6544bde));
   (Skip, Skip, (0xe3b8c91ddd9155986dea06e85caade56b09b179572444c1c2007fd77d04d6f0, (-0x3994fdd73316b2c082ed4b0f770ce3e3de6b03d9e0aad7dae386fc41664b4025), 0xca913a0cafde282189260a17a94bd4dfca930a780b357608432d78a95cc000, (-0x4c55a80726cbb8df592223354fb49c6b09a932e937c4847958dac8a81ed0489)));
   (Skip, Skip, (0x6d5074103e91fdcfa4597e9b5c32b822c19b5af92207eb477c72ec4f9dcccb6b, (-0xeb9f7547cf28ce81a3475b55b813bae3ee055b181075e93af8c52657899e350a), 0x2ead9c1e940e271da349ded728010972eef16fff1c729a7484bb1f847a213c77, (-0xa5aa020f731f7bf5a0c75450ecad692c5b4a3953b570bf7585df7449c7200c5)));
   (Plus (0xe8cfd12266d2f414a252a0f8a03e61fc2e3f65d442ee1086d28cb2338ddb754b, 0x675f3290642117344307fed049e40e9eb7b6243ece5c015ec562a7907b46b40c, 0xd3b953c23ad9d4100b73943ec9386d19747de0bb0e1b1f14a73510347e80b0cb, (-0x491466aeeeef739efc6ecf67b0bf4e0ae1022c33c34447c23f44cf113dbae5cd)), Minus (0x5782f1ae48f181399031c4d8485575a1b7526084a32637b180a6bffc491a8ccc, 0x87764b76ea2ef6505b5b46a890b9e488730ccb5b81d9a73556fb8047a11227, 0x1dea433ecebfd71a50db0e9995d2e7a4962a7bab870b32d9e6e8688f3f60f93e, 0x33cd027ad2be8ba4ef423096edb8fbe8629cb39fdaba10982ec61e7b580db062), (0xb0486abb58d31b2dc9704b8502170a38dc4139987db4802a1661a40d857824d, (-0x1b263edc42a10eda7b5fd85cc0fef21c361cb0d58ca086e8e1a35fb11f6b4f950), 0x7963a73dd003eac7f479277bf12348c61f9105686ef60abef6ba1e3008b079, 0x7ec1af00b1912d4727fe724b5073603d918d3bb13b482f3a86f407e2677b2f7));
   (Skip, Skip, (0xe6d9fa3e6518d4e9723dea425cf89cf627c6b2258bb185785b0f3d91b04e6115, 0x95d908869a9615836cca1796f817c40b7d16ef1eade6aef68aec08f8aff8fa12, 0xd02c6742500def560cd69c8378152dcb014068be11b433080bfab42ea667e455, (-0x1a6b9c58ea9209a6715cb6ae75ba645c574626024c4f2d2c03ca0526715e628d)));
   (Minus (0x4c64ade91e2a8d7a0607e8e4c336a3ed3c3ec54f2b43af9d04b747e7365f911e, (-0x243f7438aa963c4a353dc2543b2c86f818cb1bd15694b8a6e0b3e29454d7a9d7), 0x16cbeedabe2dbc4c6b23dcf6c56f8e449f2c940c96a0dff9f46e3c68a1bce33b, 0x4a289789f6574bd99a478b5008ff2e9ec27f35ab245d548b87f9d455144ad8e), Skip, (0xd884b65bd5b8dfcbdda21a681b317b0bcbf4d101debc21a38ca7300520334d4c, 0x18d1dd4aad1222c3d6287b31e6508ac1105fefbf69acbfbfc937bef81e4b486fc, 0xb72038878943152352503fb8af8d7ec95859ac28cfa7d980527a486222ff17fa, (-0x86fbfa2299f2e497b9fab6c6ec4cc5072fcac64cdbe58ce9d90178cbfc27b118)));
   (Skip, Plus (0x77f72ebc915d1316da6fc3c300e034f423649da52cac8223ce66bee9941be5a2, 0x49fecb78f93c71993894961209b397b18009f71bb35678b8e66f0595101949bd, 0x3837bc1e878d587d5b483d32cf17740903ad1abfd6ddc9ec50aabc422fec3a7e, (-0x1f2f8e16eee78f94cb340d8a2ab19a468c1aac6920c3b1bf1c7282f24e3ec0f0)), (0x9d1540c9467d3bf99ee5b77f3c9121f1a88e1886ce5c64aa196b85cf6815554e, (-0x179501e9d0550d9d2468053524a232b98cb0c123751e10ddaf1d1f6fc696ff25c), 0x6063133a91e06d9a65e78c40ae5b86daceb88f83fcb37eda21fd8fa92d320db3, 0x6f8223b218e599b412b93e52c8402bcc951223626cb3aab2d2cd3bb4e97ff868));
   (Plus (0x1b9b569298f2baf9bb0b01767978a22f049812e64dd7848e106c4ebdacd34194, (-0xdcf7b62e87640a5406b088885afde0eb39c72ea365a66d344182678a7860a8f), 0x2fa2284df0f3c14fdbb0456177258fec0e7371d25cded1cfc659b0f308b9127, (-0x3f31ac3b96fce802ff20205d431ddb4734bab4678ec77fd056c78d142bf91c0)), Skip, (0xc48405b3038c03bd744a8ed8a5527cb83e8f1929b392d0a6967cbd721bae0b, (-0x224599a9fb5094922086d40cf6b79758db3d2f6118efe667268435c312ae6bd), 0x96da6ccffe2a896f63714dc51e67f34b231da646e18e744f52ec9e0501d5, (-0x3ee3441655285c8c804b56dfbc5f69b449c198f42adf1e15e7baf796ac8af6)));
   (Skip, Plus (0x5471c3432595e6848a980e4f134fe20f58751a5787fadd7f58a94881b3d5d669, (-0x2c9870dafe7bddc6f2f77cbb65a1b3f545ab7e4b4b6846dde6e5e523471e292), 0x1bdadab206e0ea7b8b1f648d2dcb247b66fb59c8af79219eb9ba027fd1f1b9fe, 0x8e4095ff70680eff6418da558d757605ba556afe3f401801010c612f9cfb407), (0xf9bd4b25fb8787ac97edb42b9bac8deb9ff7ef01b41f5d6575086f1012bf96ce, 0xfdbc52ea7fc7f6b0790c73abd565619fdd7c6e5bcded0ea380d3f4cedd6fd4fc, 0xf3a1c827ef7253102a34222ee15d034ac50087352d9054cca4b43430d68bf7e9, (-0x2299fd7fabd3b4688ce292b0bab4e31aa4a70d73d88a0077a7e41e438f92e183)));
   (Plus (0x51293e187d5f8aca17f6cc81c0055c48d55fdaf2ca67d6f5d3b9f3b8a02350, (-0xefeca3aa03c543bd08b6f1d2f526f690fdc564f80583a3d9b55bc75280ea5), 0x19bb1ff0723e7d805e7035294f0b65b6a6163cd3a180617a6a54365ff6ab, 0x12f10fa1b0f264ae180ed52f65e10f68dbbe9dc50b4d13277f702edde2ce50), Skip, (0x95b144bd0405b76f012f298ce4bf1355bccb8671d21cdb26d904bbbeb3860cda, (-0x6a598853f5263be2696b8497cfe9c7d985998bdd2709cce77721c81daef85cf5), 0x5787d4c426832d20d8d489fa6aa0594149b1db21a8c61e3d4fa0b1e8a85fd55f, (-0x4dd3f9ab50f50d9e311ca7778762a712ce99c5bc759c3e5f5f1d39a301f8648)));
   (Skip, Plus (0x203cfb92dc98839bfab8a7ab244223a22c7060bd7ca882863cb58e2d9e7f1121, 0x7d826f902c310a36d5dcb81adc6e7bf2f4b2ecb0912be5219fd216d8eb0d22b, 0x40f4d6b9b36d9381dec291a18827d501abfadca22098e2c7885ea859ba19dcb, (-0x33e3d861b181fddc90cd7df8e899b92ade86c4db0cc1d8f30df69d315c7d6db)), (0xcd97a7266946a362a966c2469bb3e45413110726a2c395c2bea221545461dbef, 0x8c5fbb3f12a885e4d42cc9f7d7b32451cd675b14e19ddeae726d35f5fed4b503, 0xa51c3b8a210e761e5720aa3151d54f5017877324ee06bc83129a84a054d5e41f, 0x12eb32b5a2b4bdc2c3055d959b8857ada0efe78a7d6be733ab0858f57947fd5a));
   (Skip, Skip, (0xe53ce2c798d39bef6ff55175192d6b703f4df8f610db8e47bda11627318a4605, (-0x1ccdf346c66dc6fe0cd85e4a1e3c4e765feaff4f9b271347ab832d786ddafe8a), 0xcd45fc342ddf3da00a1486bda1c824a726c4618bfd4c95cddfe037159adb1c90, (-0x62dd0864752868233cee4a7f3d8b2480526012960780a91d721f4e4aceeaa0dc)));
   (Minus (0x613c3b6d922298875ff978e1b6f148bd5c48a861948c3276c7430d5d90b39d2c, 0x28dfe7bc5bd9ae107269ad2bdd7e81c0afcb89d9ae6c65ab13bfba794ba3e68b, 0x24eeb334f1e6680fcd5fceb7b6e8aa76c6f5fca3a2288e11c32f93338a65738c, (-0x580e39a4f368108e18369e12c3f27174229b29d57f1205838a91df34dbfdab2)), Skip, (0x18b9cd189f45726e2c6dfdc2cce38866bc945ec92113621bfaa817ce723adf9e, (-0x25933b1131466a51862cb3ca36165e6855044280169cf9fa73883d9f2bb7a6bcd), 0x2635d4eafc3a94784f2155984bb3e982cb923f6990750e9ce624db8849a01b5, 0x61925b735c538043def17debd9932a9ea1ec99618a49beedfdb2d0c6b84ed42));
   (Skip, Skip, (0xbcba2313f29e1d97551bf61072f2a6f583d17ef9378ac65a6a5a28639887beb1, (-0x134567f8f42e1a19966da002be0e46676934408e773d13cd6e2e7664dd85b74a5), 0x8b21eadc4a233f1e6a67d560a74c022b4eb3667cfe35e759451cf6f6d3c6379f, (-0x2bae76bd18f2ccbe097960f18839bf91cebf33d78e2e7a97b674a52afa3e14d)));
   (Skip, Plus (0x4295106f0a17ffbbcd586665ad3ddc8fb1da45b689b17537b394a6eb02b64e6e, 0x10a1f707423017e6245d5df7c2cbef028971caf6e7661878e14e780765b18ee5, 0x115133456384313947abbe755e668c4ee5d99f696149eba370bd77c3938efb47, (-0x82596f0d3c6213e77489b9d391d3ff0f8d9cead96f3f65382bc4b600faec7f9)), (0xccb0c2d5a765fae0fa90950f0ed92a38ad56207a00bd4f3ea9da4b31dfc25815, (-0x7fccfa927cfdb9671c64e37c084307dc660f581e21e5aed2c3fc84a75bbc96dc), 0xa3aa3090fcd938161215a0727d2beb1d5433c7cae994cbbf13259b0089cc8c62, (-0x97ae0e4324516b04d78a80bdd178e5ce6bc6b8d5b0d91bd2704ef792f39f466)));
   (Minus (0x1ecadd6b0103633dc3cfc44f886ac5a27bde1daaf01a15c847eb4fcee198506d, 0x57a7899af2de24a6a579b683a57e8cd90ad4653daecbc0f76fe1c2ad9c176ab, 0x3b42ca7409c5114c98c566ccf8ec5972d7c9051a46e9bbe09b5ee796192bf55, 0x24996bb36c4854c987b679757eba26865581591fb45e9300e83bda475b64e1e), Skip, (0xdfedec6f42f70b127c80c91fa38ee129550274bde0c96a7286b93a0f6c39dfc0, (-0x128b360260ab035ec54a737e18e29e05fc6780d161ef7ae366007bcc6b249fcbd), 0xc3e05f097709b687554ce48ad461c21369027274adb1a14cd8be0eed304c23e3, (-0x2592971c3a968ab060dfd0a8477740d3a517f147279dea214746e8c7ec813596)));
   (Skip, Skip, (0x24076fdb1fa11f74017e5c3696347308e32b3f0e740977d9c044061b43cc1ca4, (-0x22b8ac85b3ac70e22b550e8d9b10e94619b761281b21f65667820e6830a398f8d), 0x51217acefc0cca5339e73a53387db126dc3c312afcf96726a52ce815b9632f8, 0x1d83e10fbb80b98cede1db9a501919ffa989a921176b1c3c2d9b4973fa5e8819));
   (Skip, Minus (0x3d55323c1018759a389c8036f344979578402ca594d263bfc62e11dd3163ca7f, (-0x1d4bbc431922c3b3bb9828fa8fc1d38c614185bc67b5d9d05f5ac4afe52d58fb), 0xeb1b64b0569dcaab1ce9c7889e24e98d6a564fb0827c1563d83d6c8a8ce49b6, (-0xfcdc271169841128d43f6db718e38876ac816e19d3d520f1dcf82692a3ca687)), (0x38894d85c2951105037a5d11369af6d039f62d660aef1e5b13689d8a8da7b17a, 0x1de43d275b31a9f195fa24270df5f2ff26f22354cb9cead0eec95a7e4e1f93ac, 0xc7c5b8e95c537efd7ea3994c7ae78a109b3e7a267b1f15705122a65e32972f4, (-0x2c1fe1e8df7bf4642de8f86d67419b714d464671579d68921b9183b3f907ac46)));
   (Skip, Skip, (0x43e3186271177bc3437dffd0f295e9a9b2a7a173698f8c15f747e07c7e8ff275, (-0x20555bbd52b2984b051df74468c8a68708e677080475003800730f8759b12b88c), 0x1200a837c819757ce0c2c0ec32784be67252edc78e56056e9539d8527a49d152, 0x1cfaa9a274fbe8d7e888fae6c26131d467d8cceed9928574ae1518206e3881e7));
   (Plus (0xd26456461f2fdb58876a5d070d1efced709e72ac97e03dc2ce6f8b473bc9813e, (-0x9996b13a266e8d187c3853c65461232209c39b32405c6b4577428f43d83b4b6), 0xace8c4de8f061169d4ac5b2f7af2c5ba5ed57badd1b2c0f81dd60918c6a97133, 0x80017228b08c129613fa82fd40ac995deee671e13db84ff589cd6f0ade3a007), Plus (0x6e746c55e1e31cbfd978325da3a54abb181f2e312e84e7d63f51c01bddd2b425, (-0x2a2a1b6eb4412dd8d84c251724756b31e27e92ca58d1bb7da6f4f4c198289f81), 0x2fa8420c29cc75ee5524591f2d8a495115ef8a64368cec5e8e42ee758f9773a3, 0x4a72e32b4c7a536e068798c2c51b77e8acd7a9cc1fc20fc72236df190d0e8bf), (0xb52c04d03ee5d1a4b1d4065d2e74ed960cb2de26a95aa21abbc0df208ef24801, 0x3219ce540d8cb0682860acf0b518be32db1f3d6c62a2146ca9126fcfd6b079af, 0x80374660209dc4d06788e2ee0eedbdc009c0fdc4d5727b6350bc6db369254a69, 0x32ec3f8abc29b506a219d8f89b29c6a5dd57666a3150b01213363fd5df65e811));
   (Skip, Skip, (0xa25099814b5320e1032c789b522196ca8e997d9c4c7caf884c79019ad46985e4, 0x52b45c7342fc682cfe049443d210c83e1f5eaf193b000f86e1fc704170ed45a0, 0x66ea1ba7f03016e7b1e42d427dfe309e705f51be0f1a222f082ff1afc82d2c04, 0x3161c590fc281f0fd0544e76bc7e89fb339c5a190c997f8380a8912a12a1571));
   (Plus (0x36ac851c2f0bb36df7f0b8276d8aa46aca421e01121bdc3a5b95a9c1fc1b6eb9, (-0x10d293e6315a2672e9ae9d89e2a83c3c572df9158121055a228911c44394ca11), 0xbad3c6b06ee7367fc038941bd739a62044147c81bee66a556f9a265e15e019b, (-0x1744415a476f7c0338e2ebd8264b526df7149ce6fda388e3ee5ac605b2151c90)), Minus (0xfbb01bb97abc56f4291e300aa909dc21532d6783b811b83a31acdaa83f83b71a, (-0xa1011cd1262b5b04cff4fec1c856470a596c6889b2392f9262b2769736f86e35), 0xf772cf83d8b6bbc0b1bef6b74d3b90e7d4cfb0431019783d744a9e07d54f582a, 0x1a888987be2fc9a4d22bc29d3cce5ed5d82e3165cd6db1f32bf86cfa1bbdba83), (0x722376042ae0f9d2ab08571a325abc3a4436037b5b82183ef03f4c040825c566, 0x3de524559d4b8a2bb5903d65293f85beb9ddec8efc8f12c13ea8d33f6c79e57c, 0x32e39a0531bbef9cb472cdcb7326fcf0e0cc40b0f00b255e91ed2e61f42fbd70, (-0x12a156acde413de78fef4995ea4d64b5267712b3f100f615f29c7b345e69799f)));
   (Skip, Skip, (0xa108d01af8d3416aa2f0e358342876e2ba7343cd700f6c28a824e467637a1221, (-0x27fc4b54a4e867ce205cdc11269adbf6871af4d37edd9d0d3a1e5086694573d4), 0x654c160f97d51caafeadbc8733ae4f7849326a7f838cd3dffcf3ca43ba589714, (-0x6ac978843c60d841a623fccad98312695da75926a3cf1801f10228d84b6ea408)));
   (Skip, Skip, (0xaa93ae9daa82037fbb9b9ac8d39248dd36602f49c2588d2617debf0c252844b5, (-0x1bf04dc23ddc839053f93a94bc7ae25be1c52a44cb3231f4bb9afaaa5ef029f27), 0x71a8791b66a132d8fba6faa751d78e7117346ac90eafaac04fe8a02e748d95ed, 0x6b90581711036a88b9d3f62b75d8ab018e174eef16460508fbc6b42387335306));
   (Skip, Skip, (0x1636e902f0379b679aafde9343d791a7ab89d449ce8432e3b716d55e3470094f, (-0x441d917262eeeed21f42d0669fb6dbd298aa3d62b05a37b6757a2ff87ac03c84), 0x1ed7bd3a29d3f793974d11c2a960fea4bb8627fa737bfd8beee428490b8b624, (-0x52062a60c732d5b241652e4640ad9ff6ad54edf34281f01c4fe786564b332b0)));
   (Skip, Skip, (0x61d87a0cfe2e33fd3d7b20932d6ec316534b451b05017d55ebf66df97c650703, (-0xaa062aed44bdd1a5e5ad58378757b59c1730b939f2aa3264550518060397d9d7), 0x2565c38c08bc544a7e31044edef33dbf5b48398d71812bac968c5b07a9ccd1c0, 0xcd7b2a6cc9432869c7b8341d2ba32f7d673cf5aa001eea7549aa82456031bd6));
   (Plus (0x9b701220092450579e1d822aba558d4293db957138cf15d74137e0b0954ff7ca, (-0x44131ee633979a299b8e289952ddf99dc97baf8a007797f04500b9d7632bb4ea), 0x5e60e702a8627e5bcad610622bae9d0fbebdfe1bbb33a5ff916a484b49693e0e, 0x55d69e631f6f3bbd281008cbf51a9c6b9be3be00618aa4524687a7852a4e8fc4), Skip, (0x24454cfd40d319c9fe377ebae48788ea6718ae1dc023e42f98c46838dfdb2715, (-0x4a75fa21f209d865287ac4c4c52a4bbde5e9e37ef15b89b7d9b8181af5dec37f), 0x5239069d1e7aa133f5dc8b8d2a2a68a493a7a4d744a35b45bf57354a007f657, 0x7932bbcc16777cfbbd5f57cbc7b771dfdcab64c8fbabd6460ad3bfc63053805));
   (Skip, Plus (0xf7b7ce87a6014a4e6fe1ac3fa7fdddd5fe4e4ac26f5325f4fef316335836b329, (-0x6eefab1775bc2d856467b4f02eac67f384f10f362266ab4b15cfbe2b060c59fd), 0xefb43482aee46a462ca1b62fadaf286293cccf101f96d787ffd16c7b9ce9c81d, 0x81357c679976863e0a779cf59b39f3a9dde7a77e74f76b5fbfc639ac996118e1), (0x717534901dbb59ab006854c068a50dfdd20232fe591a31fbd7dda12262862069, 0x80a0ba48fe10d7809e6002682fb28e671b0427fdc527b8df9831ca1e7d8f029a, 0x3248ae1050c56f9e7f50ce270961745323e43485c95b9badee7b4f513613ec19, (-0x5a7b06db34140ad298aff2fd9da4d9a8552722dbeee31fb6775778b44596f25c)));
   (Plus (0x968778336b474faae6e0dc4e2b7dee140c435bc9761c55e0d8824af6b1222797, 0x69cf5dd34c22e685ffd77e585772025a79cfb87fc42d8501fb76667852558e5c, 0x5883088c4062f57912ddaa54e8217735c17092fdf7dfbc9a81b311d3d5828e79, (-0x1c17b8b8560b189fc6f24ec8c1138c2219f067d61eeefe23a5388a3b487aa2)), Skip, (0x41c5c1a77b62baa51b180e1dcbff6780ece0a093f5a78051c6de090fab67d58b, (-0x2bf688bc61357f87c7ac12c53159eeeac37d98b44a67b9ac998c4029840f67bfe), 0x10e6051aaae9fe582d9265e290a533f25b3b43b831051c975afcfa307de0f827, 0x46306bcf79e6401bd6822354322dd2536f536b57eabac4524ff47ac78329467));
   (Skip, Minus (0xd9818379e9e8011334eabd4dc8bf96ea0b78774ef4b6e92361291efa1c4941d4, 0xaefe85313fbdc5c1dcaf70b4301194562845d2392b4d833d35690e7027ddb6f2, 0xb8ccd26a72ef0d1609341a07d3820bd4288d7fe34edd62a2534b3fffcddf1c6d, (-0x7fcb8f9a2404faa77e299ab4235c9c931c1c48be3a12cfe909c5b0bb28639143)), (0xcc008c577437b3b458c9b836494bb2bc62d6e64da3f0842ef710401e85163577, (-0x2330b767a4a6232f533b631fdba30cf527ecf10705b960ab7acbcd1c24c99ae54), 0xa290dfabae288b648cad6a41a581e2c2464a6422885a03902fa3619684e63c90, 0x9bf94f9ab265741dd9f65db9c434ff823dfe69943c7914a48eca57c7bccc566a));
   (Plus (0x48f55a9adeb78837b67490d341892ddb7b7e30303d7212c187aca3874e03382, (-0x96ac9127b36ed19047eccdff375abd33291fddabc0af99d1afe51db1090e1c), 0x14caee1da9c6ca33d39eafba2bdfa66dbe8d1a98c2cec739a721e4b3406fc2, (-0x2cfe40548acd4a3a13ee0d4299c342dfe52e75bd08f608fa06c0e256433de72)), Skip, (0x9294b9f9f80b87f9d51ea42cdc54616c6c8cacf9b6a14ad9e9bee370d90df338, 0x7dd7df98fb8f17cf7baf259f7de7b689ed0d8d23a4a8927c4435b25e600bcff3, 0x53edfa88af0f3103514150b0e2b057b6810f4e48e7adde498f6db394b794c213, 0xd6a62c65f8b50b487863b1bc79903cf90ea51746eac421e2ed06c6f23184d6d));
   (Skip, Minus (0xb0db6a409a7d081f525520a0189834a9a27e142c00f315e6f1293a8404474059, (-0x71072533dcdee799753e3e982b116f329fc118996ab070c94ffcd0064d56640a), 0x7a2e6e27cb0dcd541d4495303b370c9a8871e058e7e060851ed854521c23b031, 0x2b2d30eabfb7b161a6ccaf0da4b86a005b50c09c1a6b2bd273ad490e7345cf6), (0x27b376e30f76ec47e5e68b16c3a2cf484262baa820f9d61937a65d963ba0a28f, 0x3816d9965fddeda9d51149bd47436ac6f2ccdf7a0ecf4e2cb3f052439e5dfbfb, 0x6282c08a773f7f264403528c9d2707635cbf47433afc46943a019d5e204445a, (-0xf952a242f3a83e9eb8fd8955fa5295170bf5f1a8b82a65e137608eb955f0d33)));
   (Skip, Skip, (0xf1bf5eae2a0c4c9ef23bb69797a3827927656b3d5c2e1dc0e927cc43f0db11ba, 0xd60d7d0e5aac29a5e83ab10161b05393996cbf17bb7ccbd4263a9fbf41efcf6f, 0xe449df52561243fbd126ce94724abb193a5849501c201affbecdeccb7e620583, 0x6014c03b2e4c140700dff4d4c42084c5c173d46798f76384562d1d4ea8761e9));
   (Plus (0xcfa72742bfcb2c630355bc7b704a7dfeee70e4ce1af595a553b6db9d80e6abca, (-0x61855eb581f5695dfacc18867aae1753d22e7bce588de9aed5ead5fae40806a9), 0xa86fbea2314634b3648cdc388bfb2d796b7ae0c374d4a55f21254161f028372e, 0x3bf97781427b39d93e1d39f13e561f3fcd445106afca2147acf995e35411858), Skip, (0x546acca7e813b1998650b06326ef6544d2d72aa88a3413c45c35c5c3ba5cef5e, (-0x2dd8c56aaff45fb1a9bcc2337484db46b624d92d032cb409a3cfc1fb1707cee5), 0x1bd642dc4ef524dbd26a465b157f579aa935d187cdcbd4e78e5345cb15ae6b44, 0x1c99a50fcad92dbba75a01fdfb6a7fb6285682d323a3d2fd65fb6177004aa2e0));
   (Skip, Plus (0xa9cdfd2dca99b5817d04a01a9120f06c89166fc4fb9c25b86fd90e8762546c42, (-0x65074ac73e39e5094fe5465c5b0462ff0b00c18934fb3cb25cfc8c3dcb32ea48), 0x70a19e05eb38f676539504276501d0db8e841fd8786cbee1d876eb110658fbba, 0x43dff81a054a3f062f3b31c2074b6f1014d5609bc85c2ef0bbad779f390c6c5b), (0x631098678fdb228e7be3f87f83e86efe5e8cb7d78b2be931475be0b75e618be4, 0x17d6be378b2e949cfb54590858db0f0bdc5e54a60e7567a729268bc42b8e0b3c, 0x2655d6f380f09cd7d1d75ca76b5a7606a02bccba346b85f6c46817d5fb763014, (-0x39e583282fe02d4fb19a89201046b3eac832a6612fcba2f53ac812c696abadfc)));
   (Skip, Skip, (0x792c04e8f7afd1b9a401fb8523f74d5c81c76302b10a6726b0a0b54d60e62eac, (-0x16182343f468d0ca66637786f8a1488f49c84e5a81d1c5d65af71f57a5b331cb0), 0x395aa435ea517470f1b8ed804752e10f71300cae9ba8c39566383d9721410901, (-0xb43c07ab8d5bd59c7e4768350e8dab008b5b77f63425fc688c2285049439917)));
   (Plus (0x14ec2747552284b0b52ed71b3c0254bc297f44da5c4d4c6737eea350e6f86adb, (-0x25d289bc22a39eb666c633b1d0f45af46369deb7fa8af553021fdf593e033af), 0x1b5bffb96d92c311c00c1f67d248f08c8115763c21cb1197fafd8bca4a89620, 0xd9427d014c2c87de54af2f119bf76512a93abf954660c264efd6bf4b2e707c9), Minus (0x7e69145ce2b4bc4ddf70d933dd436ea5d6d7b42b47f52ee1279b09ea388300ee, 0x3cf2e02c82625f36f1fc0e80cfebf7f55f65e3ad05fe5945cfb168d978bd7212, 0x3e6b9b2d24fa86bf17eb7f564bee082484cedb96344bcdc5eca089fa4442144a, 0x16683fb4cd2fefbf8fa192dd48d2cf671d0aa40a8aac98c102e16ebdd278d32b), (0xa12d5e05dff013873b8147dae62e9e6caf91901e3e357c1cec3858f69f0d4b2, (-0x1c64ec2127b90ce08a4959a3234ffc3c4910002e73e81399618ed530130f51379), 0x657a184d9445038dc7ffbdfa1505471ab982c07cf19f9d57dd3a42bcaff429, 0x479e117b5162ce41b3c0e22beb4bb18d617ddb78fe809a45a9b484533122348));
   (Skip, Skip, (0x2a2f3623eafc2706805279368e2b1c5c2afa8d5e85e53d5ba7e9d48345cf88f4, (-0x9c55b6ea0590c810380345c9488b0dc63cc8c38d191cdb9be6ff7ff6ecc944d), 0x6f38678b5be3190ef9987ad07b4e5417c203818effdc9c4c6faf85108144b9f, 0x23a5cd34604d26f5f8f98235d7c6ee0ac07d833cb17d3ddac95ca3d5faa71c2));
   (Plus (0x3b18b407cd4a21bd8ec2e24965556150735d8de7acb51181ae5a0cd9258f3b4f, 0x24bf3e9cd6bfcce80849347e7ef67346198c73e81449c26ac41a922fa1093ec, 0xda4655dd8b1a260d178d1793c05039fa8365cb12dd454c51d0148768ad2ef3f, 0x8e78b7f58b3fce57ae327c30c1890085627cfb48684da24d8c2a0a7e529953f), Skip, (0x292696c573b74a6cd56a72bbb1bcc0d621fb2ff611aec55bd728a03258fa9ac4, (-0x25439964a2f78b6f4511234230e364c76f962aa1d38c70703632cd16da200a85), 0x69d621c5a7b0c270c49ba0ca7e99de18d0796bc6f8d282ed89468a38c21338d, (-0x136b068de713f863bd4563ab698839852ba0ef480e41f640f0bd45e6acafcf3a)));
   (Skip, Plus (0x8f2a0a0bd5fa8d95f421cfcc09ed55cdef1b1d680a7ae1bd26421e0d24149d62, 0x5ac8d697bf02d830c03c08fa26e3f2089a11c001f8e34048df5a0cc2b8d88fc1, 0x500ffe2085550da7a564a808209dd0a257e7a97bff90d0b4f9e40ccfd1f572cb, (-0x58f13305424c773c910adfc5da2147287e2e7d6c90fcb57a616b999dc63ee1aa)), (0xaa59b2dd302ea6d3ebf0bd86b52a675096448eaee3e2c37f59fe73a32ea2452c, (-0x1a40d940c552bc44b7b02fca4c481de03513d149ccf41c2bad9311eabca6da01d), 0x715b40fb9ec1cc1e8e520e2aaed76e383eedfa9c79bf6d9dc9f3dc09bb2061a1, (-0xfdbf86982c64764665ceee09b37e2b6877990edad98e0f3cfa04c76665e527c)));
   (Minus (0xde9072e3fe3a941d268ff15bb0f0e92d811c4c9b60d8674571f8f93baa9f71b, 0xa7ed90ca9c5cc9704a17874c4852b909297215f8c00f548cf1b7f8662c523a9, 0xc17ed8c4e0fb744233f1f5e66fb169b71c305e3730b79528fee39452a40e2e, (-0x82c1d82966af7a409fed04e1dd0b34dbbb7564d989a2821615d6cb3680b40c5)), Skip, (0x9824e79ee39825411d7bf6454d5ed23a6453d1b81b9b3a889361ae2bb1a01db9, (-0xf6e83a9e304081e099cc77108cc65597ab03761ebe744687604b753a6bdafa73), 0x5a6bd85ea484d0621ab42b6367dc2886430b148ee5b9be8fdcd1166aa31fc5b9, (-0x15b01a303d6de17b2b744573a66cfc7ecfd1bdc16af2aff56ead5c0d7fa285ef)));
   (Skip, Plus (0x5f658f3259165c93956c843db388ac7b3555436deed62c7c9f948f834e38a19f, 0x17b51f5fb6ab5eeb4a14cf17cea8162c60c27a6d90c0c648c2e4fdf627008d93, 0x238c8891abf22dc87c840aae66cd3b9cef35fe4a4931ed43ac6f20ade28a7496, 0x15115fd654ffb5010de0f8c1104125698e52be85bcf8c8fff0947de3033e6c4c), (0x1410252b4cd150f805430da05be0fa84af1a95f3bda9041d49b5dac99bde7dbc, (-0x2e94be281bed14a399bb11581095cbe701170af64d95780bf7ce02f51fbb03248), 0x19286d36ecfda584698fa927a91ecd982de784031b782c33ee76a7eae61fb34, 0x2c75dfa4a8d3a8cccd0a4632606c0da8f98885c20d868816eae4448535e35b8));
   (Skip, Skip, (0xd835dfd81665457b77de5400f8e630b0f3fee3384b8a278f65ff35efbac3549d, (-0x1ce500d8d0a90aba270b773875208042c1a03fc6152ac935425682cb0553235c6), 0xb69af51318fe58995b4ebb0128d58ac886e342f5b06cc428541099c3535fc2d1, 0xb46c79b69e0c08947b138695305925d9fa600f94998ad4cc25c5f2d0d5d37409));
   (Skip, Skip, (0x31acb4e1b1cf7975d68309d78e4079a67ff7ca16b70a141bca36aa1e38f7816, 0x161028e3f437f29c986b2d84ff0fe81999b303ec52b665e062509c2072d0c1c, 0x9a391c1f52684501f782ebfaf1cf8b391421a7b0d4f6cc6aa5e17033ede93, (-0x23183f28c71876d8b9c9c3dc7707fc0ff1c181c4c4344bf328c4926d34f12df)));
   (Skip, Skip, (0x9e134159fa7f342a7059c56115bfcbe4aee40bb38561a32f7d1cd882eb497297, (-0x15f04c4f851fd3d06cf3f9d036222f779859daead5158cfde34f0ec5dd8546ab7), 0x619bc61dd53f041adb08009e881497f40c7a698486c1dbbdf97c3531fbf7e62f, 0x2eb4c2ceeeeb7c714f3b1ab78cbea46338029f5f2381ccb7e75d60ea777dfa15));
   (Minus (0xc97cb9b4fba98040d505cd04f4effcbe77fe0021cbbccad7e5a7b1086328a31f, (-0x32dafd0816fd5232add3c0393ec5f410cfe7f9e3ec83dfe26c209c236bc93cf1), 0x9e951862a13b0b47e6715a580f7b237ca7bfecba998a12971776d2ae37237245, 0x4ab64b24611ab67a107832e3213796ae1e9bc9cde8090bedd39590962cc735ba), Skip, (0xf7f95ba71f70ffae38b8afe471517eb23276f67bb7e8587cbcc1c8f03fdd8edc, 0x12f560708de5589c2ae043c9244c045714daf5eadbd8c98aa0614e470e551a494, 0xf03321bfea9774a7f16ebc1f349c7f646dcc21e6502484d0bf44edffb2afd5cd, 0x30eac31fb23f919df0b2e05df070d5350b6fc5b92e74304fbed32bc8c5a86844));
   (Skip, Skip, (0x775399578055e555c62520e02bf03e8454a29230887ca4369e4c87b9bb0ba8cd, 0x85bc34aeb5f7fa0cc635f0f1973bf074123af52ef756c48780e39de8cc7e6535, 0x379ed3dc23e6c8379aad69f0a74b6b8e34267433e27bee7f6e92e5df15598573, (-0x1d3808c2398051b042c6c1a220fc12180612f51aa1d51f2d86c0772909ac8d1f)));
   (Minus (0x45c894ebb43f0bc189c7cbf925cd67b76c830042b46cde87522aa5c8efe13a70, 0xb9589b370bf635bf296133abdda0453121a4e7726f7ba4ef9aae5ed04b67422, 0x1305bd701615004602ed10d3efe15550ccda8b2a1c1faeaa77f701b1c2ee5698, 0x1538ea4e985e2b08222a90729518e96f62bd662cc47c7ca6a63acd5168e73b74), Plus (0xbae95716227cb0682e7c95de1d73638f00ac73c34306c22291a54993640cd41c, (-0x86953c1ff39cc1d50d30305028123173bdc6d36c696af7a0ef215108bf08412), 0x8877e73bce0804ab332c25a747398db9cf857eda2a02bb02aa1e8bb03f9ecac0, 0x1e00745caba2a5558925b62a2b3026e47c363659be10f9a8ed1472680e405c7f), (0x500a08279b3c953b7ea4c442af79ee4fc12bb93017e4727816b4374fcac245db, (-0x7c35f29c1b3bc8a4d69f2ffc9b445f98b3129d0e4e288598b10d0a2773b220aa), 0x1906457d64607dd54bb87aa03b9713e5b7d09d82e9234aca09ef7175d7463238, (-0x22995ec69a46033becadcf2c3d4d9bd05caf77b3c53110ad3d8e0a5142564796)));
   (Skip, Skip, (0x759f42169706492f4d893748465b0b891cf451657415eb8bad19754d88799bb8, (-0x19ba19264cfd6c9389ad6a3c6ce837935eca0a488f5e93bb162b1121de5c26515), 0x360af57bcf2b0091b18b1f9420c8e6f25e2a05ba8a4ec12e9675212e37c02932, 0x4b5b885971c296a9a7e8eff7bb943b4f8365fcb7a158af3d5c39622d9147503b));
   (Skip, Skip, (0x9b2f8851451a0c4a32b655df99f323889b9f437a5ac499423c383f787a29e43e, 0x93f0d17930b35150ff01563b015d9d26552b6e46481b2445ad262f56fa383aac, 0x5e1297e5c01b5daad6d9150c9e2680f6a8244fa4d9bb091049791ec19136d5fc, (-0x6c3997571678e3278816110d73f8335f349daedd0e66988bb53d4d6ea3876b94)));
   (Skip, Plus (0x61a7bc0799f1996a418515f3dfff7ed6a12b3dafc5254015681f24154dae7983, 0x3b086b5200109a031b52e24a03ed3cfaa33b581e0a428eabc9f569dd38570124, 0x25408a649eaf19cd4f6577b3b9c3e107e290e651ecac1cd46fd5d6251aff655c, 0x22b39a13ebfae4b5b80e1ceecf6a3f3294ee1bb1a1cc4ec9c467f52c372ab8f0), (0xfd694f82ce17714f7e6a833cfa028cf5206ab4c04bab17679f65e28f90487e1d, (-0x24889214ddf5e96ecc980302fa72c01919ea3c594438286a961298487c4b3fa3a), 0xfad9527add59633a80bc1c09cd3e7592a414d4ec7d5877d9688df09cba02c694, 0x6a10e6ae7a0c355bbf382c23f27a5ae640470cbb1c50858a2f82191d5ac7e467));
   (Skip, Skip, (0x6d66f1633c0ea4e3be369e04bdcfc73efac3f92d72320932c55fd0197c48e44a, (-0x1b831007207d2382aa16071eb5866c5b6fbce624e385d54c8697d8440827a599), 0x2ec0d2f3bfd451a06955487f1d7454a6c9b8fb266dad94e1f5d4c40956fcf226, (-0xa13058ac3742a60924c7a8cb34f0d4a7064fd8e1951a097aaa12bbc837b83f4)));
   (Plus (0x2f47610f77b0a15f4cd8bd49c468a7378fc9656edffdb2ea1de300a1064fd5a1, 0x1de91b3cf13c2e4cb3c9f8753845841cab77e2c621c0b4410c3fa285a1a5ddb7, 0x8bb498aa953f8dd9a0707063815a11112a571793359d39f9850f257cbbe8909, (-0x2564e792e53400e7cb575634ff074e4d3c30477400392ac67ad51a4a28e587a9)), Skip, (0x60fb0dd8cfb159a6cc7a0b308761f2bb17857246959617835ef54989090a211d, (-0xdfe93e25f9a5c0730e7d580c5270394ced55b3578f9fa27a0697ece46483c85a), 0x24bd4096c3ac05ba0d5303cca082457955e16a902c7577a0c386b3947621ef35, 0x2ea49002bfd29ed6fb40cbe1ac119161856afb9cdf37f953225de64a09882d3a));
   (Skip, Skip, (0x50018607e3d60e50bc5e7dd6ea0060dab9e5478b964170294f64677ef6f5adfd, 0xc03bbb77767a7ca496ac970f50d70b9fdaa4b173f25262aa3ef056efde41a9e, 0x1900f3c740a1d360e9d3255fa4ad5e78c907ff186bfff642a6ad7c93d216bc31, (-0x31c0432c5e52239b674dca9cdb769b72646ceaff5a1d2ab9889a2fb4046ecd69)));
   (Plus (0x5bacea32cd984e502ead70edd016317c3707febf8e1759eb1f279276a60b83da, (-0x19839b7e0db0326be52c80955fb4f4173a5b8bc99f08ecc227756b0ad42ea16), 0x20d4634ba8af7645a0b47c09a1a06cb08890fa1d2ef02d52a210aafc9c06a1f2, 0x478b7ab1588a2bf5f1948975047510d0ef38296146153876555c08844a399c77), Plus (0xcc914222f568cc50cdf3a1e4a600fba661be7b24a13efb915c13614223235bc2, 0x9e64394ca34e21a4d93220a14ee95de4c28de81c4494e31eb1883e7c65098171, 0xa377d3d3b3cf11a8603749a370b31013afc563b93ed9375059e54e21566fdbc8, (-0x3a3db0bdb3569072ae7c6bc428ecd0ae6b6a615465d87bb444d2f14712103c9d)), (0xcae60ba240a4434e4187587e5c8846b5fb61cb5eed6df31ef65e69275e8298dd, (-0x15c15132c3388cfde23892f2d20bd8615d31e2e4815ac35bc1e588cf0a6fe93fc), 0xa0cfd914f616b9c46e07ca946cb5e03879fff07bba46eedff8aa96423cae95b6, 0x94482de376f63e098f3e148bb102e857047429389c9f3f4363c8af3e87eaad87));
   (Skip, Skip, (0x27fec578a9edadb2aa5328699c0a3cccb201d9e4c4c46c036041f20898797576, 0x63b862d71c47d1f0015581476fb72ec8e8184f46c7b5b09a64751eca379d4d3, 0x63f9db7378a8cf8ab62d0f900d1503b04bfc19af98bde118883a2ee393ad696, (-0x14bb191375bf0dc2b820bef535d1ece49581fc8a8e6a5df28e1d03feb2b7fe98)));
   (Skip, Skip, (0xd4f0db18fed8a66a083b386445c250011b57923062480f793ccb65d82d6f2d6b, (-0xdd7aca48986e41b1a16dcbcd39515efeef51292aeb11963ae122dc90c5091330), 0xb11fcd7cf078704f177cc3fa5493d96d22c100b379d5be92fad13d94a94ce040, 0xf63fb98b8daed0135b1c3c559f98cfcaf5e00e31794151f6a04306500651176));
   (Plus (0x643a5d7b7a6e3a80b3cb6a399cac4d2f81436d6c5b3df6c5884a0af1c69df51d, 0x2fef5acbe6867eaf6aa11b4201f8d8cde62ca8beb985e950340fb3e1412151fe, 0x273da656f5bc8a2a05c35cb0b47e7fcc7cd33a080086e182a48db34a993c83b3, (-0xfa2fa54a7400a7e4755596530800ee20a098ce4e8aad901242b7b01b17b0217)), Minus (0xeb1aa957e7daceae4e0bf10fcc6612d375e7b4845c05b72e836c573986cf029e, 0x3026ebea83f6e49ddfde19497a2ca775278bb76a80964645af58af35191e946f, 0xd7e9f5ae398bfe344c49008801711592396c0f95c68c069a70177b05072947fc, (-0xa3cd7c9195243cccdae62a85105c1c3ab4e90be9fd3fc3f1803ac501535b61c1)), (0x58ff873b75fe48d0de02ba7960e477f2b009a1fad79a0c13db1f838a68704f33, (-0x56316a9cacb70890c6e5ae730feb8344048e0af8387c2f873ccde94d1586a8b7), 0x1ef0ac079103a6e673206f33a47744e9779bb4463a3a92b9459b514293677710, (-0xc3404f0462304c85ba5e21ed042daafdf9e71bf81507afcf822a02baa7522ad)));
   (Skip, Skip, (0x4a448861c49b177bf3d75a72ffbe403636a0189476ffa033360c12be26583b58, (-0xd0b03bbe5cfe3d5b497a1099fa460a5bb8dc409c302bd24a63e90eae4163d71d), 0x158bb13142422233804b63a161e1202df118f86c7763ebb82b7ae3f62f8d0492, (-0xe38b6b8d7a32dd15b7cf7844ecf370fdbf193924ac29e8d3876729e79f72e77)));
   (Skip, Minus (0x7586c8aca6490ec289d87692399367cb5191f48fb856623ea4ec1ea6258f345a, (-0x13315089c8056da446477a7661428bef55accb8df1f4fd2ec46643ed6f14f1da), 0x35f47a64820b143b4ae6cbc6f46a03c656ff118a21028b4ea01495ffd85866bc, 0x60ab1af07fc6db4ffa31adb78e13401e3d5bf90641f4b004e5b2bfaa4109a660), (0x857ad2cd6b2921bd076754555a30fbaa46c691e4d20c90d6ea86468cd38da973, (-0x1a9772865553569fae00a81ddb53874d1963c339e5902ed64c58d16f4c4fdb2da), 0x4598d9f70ab888e6d9f1fdd04a18fbee8a6f61585609dd9d1452f8fd79769f69, 0x22e0682e73abcc81f5398d4340dedfcd0a23831262df4b1b5d2edaf81a85a94b));
   (Skip, Skip, (0xcfc72646669a22e13c4fa2f56147ca7fd7babf662697196e4fab511935abdd53, (-0x4b2a9d174fc00a12db59c2156ea5ea747cfc488bbb2970dc01043a682405d760), 0xa8a3aad26119c1dc8179af064489ee05e73b65e4c2a6cc237ff98ba4865aba71, 0x35aa89c6d7603f95ac6ea76ccad7e30cee4fcb231d727ef9bc2a38a9046970f4));
   (Minus (0xfef12b6dc842eee4a02b554264cf1617e2fd542a4bdf0cbd5d5a5ecba581a0e8, 0x2178321c2133fbed3171ab2875df4d12e11944dc5ce288d7c8a732ba23eb2965, 0xfde37560a575f06e1a34720a81abd7b460d9fb7edfd7dcd513025e59947a7cdd, (-0xa5ff9d444bc1d388d01909d975c747c9db3d623d74a0ae226a4df722539cfd42)), Skip, (0x8adbeb828d3955fd13580b649ec0d51cd200054e8894fa357bb6dd39dd142198, 0x989b4d6c0cd53d2c9358d62e376a1abdf929adf7d8185d7396733a3a4ae0a9cc, 0x4b51d6d58a4862a8f7dc310772897420938f4f7a537558d5b8f2a46517dc3832, (-0x15c0d06e8fd868192d36282880604791327e4f30579bd7fbab368e75c59c6a3f)));
   (Skip, Plus (0xc10ba8be3f3e623757e7fcfd665cb60d0facebd119830eeb186fe78b170caf63, 0x393328a1007e870e6d202431f68fa696fc4ab9393eec32b84884c79e21a525af, 0x919294f6caefbfd7b46f8a77c047e31cbc00e25620c8d27758ad33aa7605cc9f, (-0x3e0313d8b3da854fa1b79036026c6cbbe043b454c3ddb2ee5844bd1cf0beb698)), (0x8fd62364fc6918a7b6ad07b7300fbb01b94e5f0fc41d37bcc1f45a015cdc44a6, 0x38535dde3a98b8e7116a21a93972f0a501ebecf45dbfdc6cd4b8f93b2fd5ab48, 0x50d0eeaa03b82e1b7e32ea9100d86cbbb1c53a4118a8905e8efd09678d4f3d20, 0x2f64b223c2a6049c1647f984a02f0c11ed52476522e7280c84681ea95e469750));
   (Skip, Skip, (0xd9a2254eb1165724d49b7f402b59327424e10d29788a1a1b00e957605bca3d62, 0xa26d4864e14a303963a646211c7eef660d82fbf632c39fbe0decd3bc0c20687c, 0xb90449f2a53fd763945a58e25e3bca8dbc38a26634e05270cd32fa9dc30e31ed, (-0xa68cf0b4d6fff23c112668113d4e5184ba7ce8993c477ccf45eeb5dd86f331b1)));
   (Plus (0x955f9415aa2be6d6597b6aeaaaa477ee6cf2c674def1fe02733e574236dc3398, 0xad84bdc6c34cb5a4be376768aa277098fae6356d89b25ea3a1b546be72d7113, 0x5728661075d475e2f67a20cbf1accf33caa20b9ec5a0539da7d1bc780c068c8f, (-0x7cfae080170ebc28a12e31877b429caa21f03282e18d842b549e1eaa4e5060f)), Plus (0x36c13da080ea7d44e7f6542cae229513fc900ff75da131c09bcb5370b17b4dc, 0x167f188a2bb5d0e9d181afc68f04ab0b8aff03def11e7e2c254f9f5e98310b7, 0xbb617ddb13b307b197c6da944166970880536521b07f20923b1d9b1546240, 0x18c7c619cf03e724bd4933b935adbb6b11f63ca3ee4563a17bf070edb373382), (0xe838298a11c6053304d86bdaf61c5c8d69f0d9a71cdac755d0eef49f886c88a5, (-0x22f2905b0a14e528212c5461e833b093fcf0185f668a161a52f75e90824b35fe5), 0xd2a5d79c735c3437577e3a976b6ac4848809719d9f289424d2fa83a30430b778, 0x8b7a9e80a59bb07a49a0ad9c6d2702502c90d31d6eafd49eeff2ac63679b9479));
   (Skip, Skip, (0xc32552ee2210231698d000b389e2f9bb93532e3f3c0dc62634ad9f14b80b3a81, 0x6fc71fb5b90fe1e0c0dc745aaa07f8037f4dcd9c42d96859ef23b5b7d2ff5065, 0x94c1e1c7db97d97442590f718363803102e838c2116da8694a152de73a10aa3c, (-0x61f6d590f5179262a58fd5cf6598c868937162bb855078f0637bdbba8636ac3d)));
   (Minus (0x77216fd7f539bd49da3ae5af62ac16c18fea677209bba744d3ea79d2d0ae50c1, (-0x9549047eecd2e63bba51242eac82abcaf372cf67514087b93152f3bec8d57ac), 0x37701a58cc85e3b359f69359199d5d13ec38c12c46e232929fb035d5c3a9c082, 0x33f2f7dad87918c1975a28b2915483becb1c96fc5de2954a2a9e765b61e0c575), Skip, (0x5b992fd2d78850b42b957a04c4217803e73a2f75edc048f1fe7f5d849cd9661f, (-0x1b13e9d6fdb951c61211c038d3c4687571c01e3aa3a4d2704f170531db9c6a295), 0x20c643aa182fa31aed152d281b40a6fab06ad14cf514c653927ec4caac3832ad, (-0xe95ffdaa7b1ae25326a8facba46cd74e2b8896959c446ef101c790937f1db47)));
   (Skip, Plus (0x6f5d98c474778d91792f27d3af689b8db8ccf52579f88b4d841164295b73990, 0x66e7e4480c8cb61a34cc19f86c1fb944f65c70eb2e12a2584b983928bc22195, 0x30724cb2b6e62cb186f30796d2c57d6e0c8c478bb8c76460eb35697c7611c3, (-0x53eeef6b4c81a08c29de876b858d1faae2d7f30d2e5fb462f942f3458b7a85)), (0x33fa37f998b0740bd3d01ebf4eb5dca5fd795ca30bb2b700f6c2c5246c91c493, (-0x288c8bf4c056e3700552fd53dda00ba8428a306b08ca18c351a5f9635b198df74), 0xa8da6ded291b9d591af762f8f7950444d4ce97e8c2571af77cf6f31f08246a5, 0x1535d23fef1fb943ea7bc7a4527ce904439469af82adbb4d2a7b433ef2fdcb53));
   (Plus (0xbcd4145ae73ef88695eaca8bc60e35eaf6bb0667f910c3c8723e4257604ffe3a, 0x149130061322b67d9eb620bca1ae084d346bb5a7554df704639ed6273a25935a, 0x8b482d973bd1d1ba8b17a06b1024886e6f1d8c4aa9461920feb6ca49d5abcfcd, (-0x2988bad0267cece6786b80b5b93586e224e416bda18f9dca54681144d5cf5dd)), Skip, (0x6c647a1f5541b1be021e4f77cd01120521d0d33c945d4d43da55868291df55d1, (-0x1ac458ab4328ca5fda95119f22090a55a0e07e855224e39c514c0f33908f6bca), 0x2de4ee7a12abea638df211a87cf3fe920bd8cb804df071fc20d8915d832dfbda, 0x2bb145247ee8783c520471d18718d9301a1e40d74d2cee42e92b502906a64397));
   (Skip, Skip, (0xa881cca3218459c4678bb25fbc018ebb7201965d2d05436f7cddc2a67995862e, 0x126cd79a400354cc5d119bff03d7499a47b05de534eee490f242d3721bc5afd1f, 0x6eea9e65fbf9e292e1d66d9b4022312e3f052cd64083d0b5d81b3ec53f2f535c, 0x1809f8252d35606ca23d2236d2672aa987a7d73d435754202a5acbd29d6e52ab));
   (Minus (0x6c0534d8f11b2c24c086845d42281c12245d635c808b0b6a4579c6e3fa615e59, (-0x30ac01b92c8a708ca05b6dc179e86ab5bf15361feec930718fd469447a423724), 0x2d9464b226d1321986be9d2aee16368cccd5c4626e8ef40e10ba836719c47741, (-0xa41002bc331ba19fcf16d763df6c2eda218188e2b61b41a2139456e0450abfe)), Plus (0xa8358a13020c8b94758f7e0ca39c265594965c1cfe45fc14113ca38fab46711c, (-0xceeef3aded32851c2a8e720c676c9fdecbb68c04f647ef91fc94ab902ff6070), 0x6e86506b6907d0037a21fc6ea306d86acf7c8d39a59f914898083205adcdfcb9, (-0x96470cf16899356264faa470bfd264324032b84ffa4e3280b4742139bdb006ac)), (0x9176aa61da3a43f2c3aa722d4938d534e45ea3c34dd7d52d38fe3a4e4b052794, 0xd2daf5dc0fa9cb2377adad42070e595490bbf42939eea6cb393c10b9653c18dc, 0x52a7a4045cd149ec21e0a94b86c879ce087c3462ac0562b0b59fda9d1b28fac9, (-0x875941eafe105c942d93e1628a609660af23a5c2bacfa588401daaf260688784)));
   (Skip, Skip, (0x15f335679cf24d02b0b55fdd7638c68285de4d357daa4be71b389ad9535365de, (-0x271ed82f3742c6d7c14de9ec3dc89dfd424dfd75d419e364b83013392e7b8e5fd), 0x1e1cdd16d97c58ca32e82949716599668e5b752b6dbc858467737d32c3974d7, 0x967a0a5d54f33bfb5ba0e9dce519eb05f9e0d946da16158f3cb3a641396203));
   (Plus (0x541ae0bcaaefa018bd95d21bc49f945aaa54e61fd168accef789a7cfaad9d74c, 0x1e1fe80ef9177b326ebbc008bf3210193bf1149b378ffe47c287fb64c596fa31, 0x1ba1a64e3bcaafeb9bb2655ab885c2d040509d696344ee591eddfdc91fbef28f, 0x19a80174ec4efb37242ab01def9bba4a21967f894ac2da68e04c245d1940ae26), Plus (0xa12cacb7555f65a07c4dd436ae829c86bfdb1f3c958483550091b8f71a52d44d, (-0xabbf50168cc27955fe41ca3267e57100e2fedc2cc329da6e1c19db0f0406b82), 0x6579390a6cee34a226f00f312ebb1dd52444933eda32266322e60068a7fa704a, 0x8d1fb6e48f51d77c6a487837816642dca5e46fe74376be02dbac99903bda250e), (0xd752c21abb9fa74c23cf9a0a508bceb1e8ebf1a05fa786e83dfcabe7215cc4f8, (-0x22d56ae3bbe6606eb4c7c8bce1776ec7b78af5bc405e7e0d914e1d6faee15a4dd), 0xb51c1cc9d372e471b06da97467c38f360e9ccd7d46e89705f00ada40d1eb5233, (-0xbe8a2d62e01cd461e9ba93e7f9f63392bdf5df971d1af8cc532c0e0162182a3)));
   (Skip, Skip, (0x8b3d8da9821538c4475232b06093d3fa288c68c003427d39f1ced9e3bbfc8c3b, (-0x2a7cbc889aa55cda48db0fc0a8e3d9f04aea8dcb6912704ac067f9067f27d8395), 0x4bbbe6a2e46f334a95a3f9581c856a8fbadeb40063be1a871ad3bfceff3f5a5a, 0x6d685b760ec2a946844c3e0bd19dc06135fcc8b8307044c169e2e372a4e9510));
   (Skip, Minus (0x6d342ff0626891f4599b3c8fb8f310a6896ce5620f76b798899ca25978c63e7e, 0x5905b7ba74483a96d887fc303deecded6da2b821e2bb18bee9243e3a2eb2bf4c, 0x2e957b76366f2ca06f103627ff8ad18ca4cedc419d1b8ea5e24c727052214e70, (-0x5d8a9e48bc2b7f01f4732ac5e91491b17583c4fb5f4592eb2c4baa5caa8100a1)), (0x4836f38b45f2a424931add7980a31bf02d932c6fc999d1fc31ab23c7225027cf, (-0x231a5a7cf753be2897daa5fa35da9d1b2cee0737660a3c737e0c82886553d2a45), 0x145ef4c9fdcbb1417e658d5cfcf0ac90940946053f159843068eb4c21de4210c, 0x36fe4009d84f37244cee64f7277e1fc578021484128548bce18872e42ab584ed));
   (Minus (0x16141791223398cd3736b6d769878064a2b34de573e03570b3f8dec1bc392c53, (-0x2088a701863f88731651ff90571c5a56ba1c548a0ffdb09fb14808e35ddc5aa), 0x1e775a0a2b99cc02e07bf5ab8447aa9c4c6ff4e267d711f42078254ac40e107, (-0xbfcd2bf397a9f3fb54b9032c2fc679ad2eacf2728ef9e091d6b4e985a26cad0)), Skip, (0xe8336acb6dc9e42fab137b0020cf959c58beb9c8dbd24817f0db4d4de21a0ce0, 0xcbf76199743574d1e5c111bc598fbd56cb425bac3a8e4f9b9a5ace5ca9a2a63b, 0xd29d3be47098c499cf4e61816634ac3126f883d84f8a36728c96a158d212ddf5, (-0x829d29f1723cfacf23dc556443b0b37224050b751ba70f35542a183e413a3748)));
   (Skip, Minus (0x703ff0da76c461c2bef97b6cf119bf308605fbeeaa47cc5f5175b6b29b4c93d5, (-0x1afc2edd0d29eba1d6cc386fc0b9527719d03ee24f20e2cb419f2f66593f4bea), 0x313802b7960ca35139d191507a7f403df2af9f29c61b965d15f08be299955b77, 0x10c7164601dd1fc967dbea07d63a493b6c1afd7462b18ed0144f35c59545f651), (0x2ecde3a1819b7740be340e73abd290b7be207dc8b994187f22de6eae9bc0bf87, (-0x182f5ff5e285ae9789170f1a898780fba5fb1e433c75be9ce1d684a1cb482cef3), 0x88ea36465a543963eb231e925c036417a1e69fa04e5ffbb40581aff4761d00c, (-0x8b2bab53049b159e1cc315a4a471df49530f87b640a3e416e50a2ae322312f2)));
   (Minus (0xccd1dfe9b30641cadf2d70260fb3b08871157cc27fa796654026f2124ba7b83c, 0x17347c41c102532f1c4c9ebf5acf3daac724f9653e64c4dcf555fb78f17e62b8, 0xa3df28ebd4c1444f0625c7320bc92073da9e7815031e9c20274c84964e5d5fe8, (-0x7556cdd5a97a91e37e08a58b61b17493096b2ac1dc11b05167aad8d674611fc)), Skip, (0xd3eaf468a8bc9da649bfda360e58123d08a8994961d8dcc798e8f327d77a7b58, (-0x1ea5cf75d6a6a8d164c709d37784cdd677cde431fac0b91cf4a56f31c38459b5d), 0xaf6d26883ed31121668e4203d86d40fdfc19da374f130ccb15eb059ce9da56c2, 0x31b747e08813d23c2e755c0ebab44b709e58f98f238b17355381eea67c12bba8));
   (Skip, Plus (0x13046fb3e85c9937da946257970ca4a97432fc0b262df69b3a19f2567025ac29, (-0x2a816ee40ff0e5ff6437954da98dab52a057b9480165b90440ec1038f703804), 0x169a8a862da83922575861823f7f0aaf3afe7f6c6dabe98eb9e47e84903c4af, 0x600113e8197257562fbc644134f81024d8f9013cfd40d03bdeda99bdea40aff), (0xcf169a730ff6bd430feeadfce090a00b8759d8d0bf889fc3f149e8b8873558e6, 0x3a1c5b484c848edf5d69075d6890f2137350d585a9fa10dfea04d691eae1331c, 0xa7858fc4fcc667672fac4bce7911b93fb2810eda2fff84c8befc64a8e6f690a0, 0x346cde67c25314053fba7b80e4ac2a437b64f3a29e8f000c6432368b3605bf44));
   (Minus (0x91226b0753be228317df762038281ad4d9684eee6552aefcf2cbe9f11bee2bc2, (-0x3b8b2922842b32feaf7d697ed090ec15ff2e32e245bdf5af78ccb2d8eed8ef9e), 0x524801dee78ec1d04c81cbe43bdd2985dffc099ae19d4a0bb14aa2a32382def8, 0x5bac437fc545dc3d8481e299c59221d61820b5ffa30473b6af60ed3cf109dfb), Skip, (0xb2059641ab0bedb3d33165cfdd3f28ea07ce982b23a5c2c28b0b13e0d6398458, 0x9c0f5638f97080489c084b8158a1520bef15a7a81d69d87b026dfddd919e9840, 0x7bcbc512889e4a4fa39d526eb27e5bce5745bd754be36cbf7973635b26f28ca0, (-0x4c2fdcb96131da984b257b8044af23a1bf3143f522abfbb4fcd8fc0fdb696cf3)));
   (Skip, Skip, (0xadd2fbf87697aae5ab2e2dcaaf5124953800e7ee86c6dac559dcf3af6cf0dbcb, (-0xf13ee9a4508d9b43e215225f874fcee253efda06ef83aa979c70d2632ad74200), 0x7606d6702becb7823012e7b60f93d12464140e4c94b5ceb9c8388986ddf56794, (-0x123f5aa14143b90e767e340e94af17165f614d57800dc113b97b9dc69495902f)));
   (Skip, Skip, (0x9287be7f0afa6983cd699e3214e93be3f148051bc4fb4ef320c804f4b794300b, (-0x27a9c819d5746555e29cd2b932b2a9587f55aa18df5d398ca994f98fa095c6fd1), 0x53df1d43604407cd38dbf8b51b4038098410c5a83b38662d7e079f7e8fe57e55, 0x64c9a7ff6106c96088754de7a7bd7631bcfb924fb2d315225adcb18ccbbe8273));
   (Plus (0x588cc249ae71e113571bf07de8cfddd0fdfccf88c8e32bb2a0042d26a2d2262a, (-0x2e8c68ff37702422e79a3f224d71aec1f4a3547645f89e4cea6feeea4d8e7b8e), 0x1ea112f7bbf8d8e505fd299263936aaebe19fccf1bb278d67eae3eea4352c12d, 0x144f7e80275af3512535cfd481a3e8b21c62c5e7218372e66bb9771df0a76048), Plus (0xe3671b3ce04fd7a96d4c617da4138bd7b9bf0565955f7fa14da1f14dae6ac67a, (-0x34ceb98214d3c7aef3f642cbecc84ce65b84cdc6a1ce948b455d51d52faaae30), 0xca0003d4e3affe80c3a20f23ebf80ab3f79aa5aa2babf32b5104a1aa45108e1a, 0x59a9ba9a5c4fa6f0840c90ccb4d396da4a5da01e1fd985e29d0c16aacab7d948), (0x9c9fd4930c70494186b5d5d9d890e2bcce7206cf188411b34d3b67ea6f8c28a2, (-0x65cf2c595c76e491212dd26640a2edaaa447375666f8e3b133ef18195a90240), 0x5fd32edcf6562dd41e7652fd567d59ef5e2b4be5a8368818e261b940f95e416a, (-0x4822cc21eff28abf316138bdf59d4ae9925f4b9f49a8e3bfcddcb287583fa655)));
   (Skip, Skip, (0x34d435f849f01d44561214651ddf3211d592d451d2a86f8735fb65f4cd4bcfdb, (-0x149bc067dbeab25194725700bf6dcb957f1229b7032591bc99f7d4600c6410a26), 0xae6e5d64ca4c100fed7b82cf7a5c7904f44f8f0ca9185ed837d4b6bf3708790, 0x1b6f404c71ddeaefeaef39124adcebdf5a2e8eb5b7c0c908846bfd8b9b9afeec));
   (Skip, Plus (0xd591cba47f1a0bdefa8c9bd9b0ad0f3ea99d371ddad1f8a99e32848020758fce, 0x16115b97578da9f8af834154b3cd5c1a2155f9d3aa189364ec96fd2c7e64f4da, 0xb22befe80dd79e88e6d3801a765c5f779b2233bd575218ed6ef6871177464495, (-0x28929bafee4a07d5efbfa8ed67955e621db33963ccaba0ad72abc3f17df60773)), (0x7b7846b99d2cb887dc01de992223a08bd13234db3fadf04f7cd70e0a52208267, 0x4357393e44f05ae96814658e2900da6ec57296f93bbbfd12ffb5c243ffaa0eb3, 0x3b8ccc78be965bc88cd4f07b6e5f35b480f06ab2a4a664ffe9f072617751e1f2, (-0x3ce6c7b895762e486561d2cd2b3193c041635883906933a9434a47fddd5f95)));
   (Minus (0xdb24eb0f1b9118372dc965a9bedda633fc192e4f960c00ba4f695f858898c062, (-0x4d628bedd93406f68a3c10bc1918dafc50f250ef2b0782827d045a3f6175d70f), 0xbb982f7ecd3ebdbdd8498674370135146d65ce4c41935af89aad08c6a50fa197, (-0x43cf9f1cbe037931f8319f1f318a36c62c5534678e02862c1857aa66861aa1fa)), Skip, (0xf7a26b6a8ce590440204968eaf4da18c5dc4f489c2df35ce2ffc02fc468a6fa9, 0x1834614083c279526b4ef48dbbbd82731a6029368fe1ecf941be84b98f2915d2d, 0xef8ad253bbcf8d0eb4379dfd31b2d5e90ac4f8cfea54271caa0c902b759e7ad5, (-0xb2599659fd7795861cbe32f498fcc689a1c64359ce49e7183f45d97c1c26920c)));
   (Skip, Minus (0x4c5ccfbf06f339f8c3bea629ac59a01713a9b3961b09ceb648a50acaef949b18, 0x30872f465867c16c6eec58ebb18699cc76d53a2f524250558bbcc29d6fad67bd, 0x16c73cff6603e50615e6ff41580db3010722fd19618a28c654a58292b6f91e70, 0xfdd1450bcf2713051db63302b8f01cfb2dd58270c2cb1be4e6ebe43b7244ae4), (0x1100fdec7e6383675829d155e86ec171267c223e1af2130f62dd917a4ab681ea, (-0x2756bd3f39dab34757495f13fa38ffba5d32f3b5eeaf052d33bd874fa289992a8), 0x12121ba64a683bdb15034a33de6c1dbd32abd13bb1f714499c30a7598900af1, 0x4920288e83e87975f5a2880ecd87e0579dd1b9758acf7c9e6793f1feeeed2ab));
   (Skip, Skip, (0xa210709fd33d3229ed42eb3f8adbf0b5aa1160af5247148199a372de4e262559, (-0xaa634911c4a75ba3e24c2d00ea540ca179f6ea3595c8fa92add15e2fb26ad9cb), 0x6698cf988ce017c0f5bd491b299353cdcc2f1848cdae10b33f76814f2bf2402f, 0x37f2b94dda24123e43352f6b7764a9a27e1326e48973220b23c1a4261003f3e1));
   (Skip, Skip, (0x372b7dac49413e4c9dad265782bb7a697f6b7066a48cf5559b1227cbfb02729a, (-0x472957f17c75e4c663d2241f9644458fe9165c308eab42b1ae322a5de1e352b8), 0xbe3b7637d0c582c14f62dbbd7ad79f07526c906f28ba0abe7ff080c14fe28cc, (-0x22504dcc7d703d2e2d601d9c3609f5f5432cae75fa436a128073003c67699fe7)));
   (Plus (0x26bcb3753bdc749c52e0a725f55b0ffff764eee45cd2df3d16229743c8722e4d, 0x28aae79f49197d997bcfc6d74af4aa65442b584834aaf0a3e8c0f88ee34eaf3, 0x5dc905edfc285cfbec8f9f75faf4e0a977261d43d801ba438ccb5badf0af0f2, 0x1e36766de838b54b2801f63842c8789bfed3358091daeae177b938a8c0b4aaa6), Skip, (0xa9587d010c296df8256bb52abcc9f14a8096637c08c53b90c2508e512193e884, (-0x27ab136cb7eba80237113b9b388b032551a25465410c15c17e71b0d6d5e8db5d0), 0x7005f3a18fd1158eca4d08be20a2e7ff3806b975585839c6be922b2b44b7afbd, 0x35a0e16daf42078edf84fe823770ba0789d3b11d37857b6a51d5f8f69a34913));
   (Skip, Plus (0x958e4bdefc6aa2d438812edead744fabd502d32684136f089528b9df00bc96a6, 0x7c5754967a137af026d628d98e663b674dba25d5f1cec5196300e90817852596, 0x575ef369d3b091f8ea71ee09f503fc4fbca350f6a11dcb554000d5cb8870d453, (-0x40d88cf5271ae240deae6bc247f911eeffe23f2e3545acd5804c855e72ad4ad)), (0xf2eb75eec8d833de051f90e5ce580682965818417ad8deeddf4e6b867fdd2966, (-0x12d5dcd62b569fad62db35ec23bf0208518ec415bdc329689b646e2b655adc5b9), 0xe68203892e71a14eaa48ff095a56ea160668e8e1c4b7f0a14772b247fc055df4, 0xa0708b624bab83dcd537a505a337142698869585a31efd84b896b69b41d5d7a3));
   (Skip, Skip, (0xf285b9d782f0c0358d78c0660d654c01b9a4854ddc7b5cebf22e5cbfc0c44685, 0x1ae9364a41035b78de732670826cfd3b49a02213b48ce0c4ea2559dece9c45b60, 0xe5c1193614666a3a2046f1445aac5ef48c81148e6f8561d1ba16f13c7de8d310, (-0x5843d9771a135a5a901678f422de41e30519fb440316724677e000b8e5f10bea)));
   (Skip, Skip, (0x7200f1a08c4d4fa4b78f1a5ccf3dcd2a05dac0177c506d88589c5ec2a987e9a, (-0x111a94f7552579c0b30099170b6f0d7480d6e7beb8d26bbfa3f50abd1a55cf119), 0x32c4d733e10487c7f0f7c970b5b8c1203a7da0b64e026a3975ca8bc8e15b42, 0x30fb1aecbc00eb9e5f7c149c1e3b834631960c6e3405d4fcb29b51eccb8d3f1));
   (Plus (0x58d232930a36471908fd0a686fd5be0774ea8546fe777f538fbcd9cf1a7c5702, 0x8d8d5e68525844bed6d1cb6fbd6367ccde159568508f5bed7477c00bcc5b25f, 0x1ed12f5c1a3fd65fc9c46da011e7a1f07c9ed4d69a160fdfc7dc676257430bdf, (-0x2584cdd945fc33fa9359fb711f73373689c2e9a7617a6ecb9f95903cef555604)), Plus (0x38093ebe94b28ad5a35c6655be2db486151acb5239aad2a62a8c94e4e2fe5462, 0x460fab334407e7cfc8d2c563a1beeb7748cb9b15f94ba9330d72a341276d2ee, 0xc440bc8d9d56f32c52266905539d6d01b68f5c34b870b626f72408f4e381939, (-0x1da682047420c7324a8abe41a5fbd3ef6a8912925ba21936cc676a21174de47)), (0xdab54b18d28903cf90b96a82c856b347b5809ef67d80f359ed223c17009cb9c5, (-0x18d63f31c1015e9e33a26ecf4e6b56634effc0779925497d8f1815d19d77647c), 0xbad944498db29e01550fd8e4bef72cba48a671a5c737def51a62c2be46a1bf15, (-0x9f7610567de9f3fb68098a14cd0cbd99ea56d6b3bd605607dc5dadd9a029f564)));
   (Skip, Skip, (0x40f885d90dd61ea2f5659e2f2bf302f4e2bf09826f62d88a8053c5b509a23510, (-0x257a47a0ebaebc3ef2a5ff584650e06ddd508d159766ae8ee6527d5f13bed1b54), 0x107d343021711e95c802f96d770b0927c12361596df2986f6e23e22b9712cd2e, 0x10a325c5dedc135e8126a02e9d001b22cddd03f6d99efaae17a68f54f27e0a3b));
   (Skip, Minus (0x89189f0df5ebfd498de446382c7e7c4f136639865b9426443da185d5a413ad68, 0x4707afcfaa2a74b429682c0f3514bb9a039979394f2ad511f6cc34238cadf2b2, 0x496b5c9b26a70996427f92090bcc88d572c605e789884e42a493adc784611679, (-0x57ad08ebd9dc072e5b226cd9b201f70595177c11032592e9d1f898a0ed80daf7)), (0x1cc8488cc365cea31f2fa2bfdaf2cc934a7ee50cabfd150becf69e6f4461d10b, (-0x11d996302bd0f265928a4ae6f7624b3f998dd39d82aa047cb6431169039f42f1e), 0x33c6c903b3f0f961e6d2b46605540c8026601968821fac39df373dc1bd987f0, 0x7fb4492ceca28f16950aa35d7779ba646d7b6b7ca4104977146b1611c330098));
   (Skip, Skip, (0x540888725efd001e10d388737cf1cfa7349e1f8870aa9655492e125f3f6807ab, (-0x79858d092e5bfbfe4175379bb88212bcffc4d6fb64cdd4a28e818de8eea4bd5), 0x1b9599d3de35afe9499eb18b5e5f58d75faf4cc38b53eed96f908a80fec9895d, (-0x255b84809c8cd76602150510256ab703a15d296b4362204f796cfd427a2e69d)));
   (Minus (0x26fe88a44d14e0806571e2d0d65cd2d2d860e94bebb170fd06af2c37a6c1c073, (-0x3df3289aff08b975c93571591c00351177ae5155b5396e1f6f4d1f6dfc08236), 0x5f08da435da236ca564be6026ecbc483228f68d1403bf7d5bc0468a5b585a2e, 0xd6a21fe3291ac52f8af325f310eef4e82715f520b276dae1afbaede0f6e4283), Skip, (0xcbd459afdcc89e756164c6f50b08e8231a953ba7807175a99eeabdad06dbbab3, (-0x10a5772d81d8975ecf115b0846910af9320f7d51a4f28c6cbd94d2fe71bbe8e4), 0xa24a766192d797e7b1bed237185b4910087ce5346c4995f1da9b898a22c660b0, (-0x60c0d1335d685572ea4b706106b3836388e0b52a3ee600a18ca411ff315cb6e9)));
   (Skip, Plus (0x75545180a4f25089d23d83a43dab7a9768e8d33afff7f7357e12c31b59153bec, 0xc2beb537acf48194d236ba4cfc55c4c40ef7ee9037934ee2f388f928e4e75cc, 0x35c62e452d2465a9882d501ca23f846b7e9ee6073327eb7429c4b8c15f7a7b8d, 0x32b013ca0b43457952fa5330189500d7d4162505b87ca3059cbb04fcf6bad063), (0x5e4c5a26fd030caab23e28ab4cfd0f3bb05b85f1a3af85084a01f8e337e2c301, (-0x24803bd3c1a3f433128dbc6c7bca15bc8cc7a3f2a33a533d30773ccb40c0b7621), 0x22bc28fa48b3e6f31c1e49d9423b8ecc3f72fad7f107cbe20c5ef46d26b96904, 0x3a4431be1bd630a000c25154f0220a8d035a7b4b84100fd9034c3c0cf563bf9f));
   (Plus (0xf495f312207736f0f94b01c7714a9fb23ce8054f06ebcbc659b9be8e2c11d824, 0x18d387c36def7ef4a10f426f38da8822d3f6de2e9f7d70e48c7d7b2c0dc0aaca, 0xe9ae2f2f67c8766c36e8651c14321296cb247962d16048c0eabe158be2f26142, 0x18a0416afd931c04457271fa7e4acd3afd69ebf6de71ab62d9666dae277cd60d), Skip, (0xd7b2ac50e5f422a44b5fa8e1e17009beea07a30d87d1a22f1b645e1a2b9436cb, 0x7c5e280d4f5e58c3bf026e6702cc347847d52354fb555141777b3c4f876090a9, 0xb5bd9a23f6bca840b8c49975e639a43bcb3aa94bdebc4600596dcf3320d86e03, (-0x5323fc1ce30a604e6cd28bf1d13115f5a065b680eef22a70f8d2ee7247fa97e4)));
   (Skip, Plus (0xa15c31be0c0d35204e1e2c4fe86aebe854b186ce0cc003be37fb0de6461e4637, 0x30f102bf07ad8cd897345c7b981c2961747157d22334f37da39da2efd48d0eb3, 0x65b517c4d56b9403c3fc90f155270ecdd22b7a30f73b46ecf6102adbe6c79413, (-0x25af547da65fdf8dd1b7085d10e3815af9861bbad51787a29a7f4945548b22b2)), (0x6f6f2e174458f1d58240ba2cfac0d9070d865a2d820ca850f93c92ac5eabd882, (-0x1088e9880482d15736ad2f787c2da2ca3058e19a0c87bdaff4c8d1cb8e7dc3ef4), 0x30819a412dbec5862f3ea421b36dee5a7324e922feea0a72cd632c8b9cc3c2fe, 0x316f476320b31b75fb63610e0a4de2d9a169396622bc2f42628ca549fb95dcd));
   (Skip, Skip, (0x287a0f5419f0c50b86e3d4e36a2093c4853f9fcfcd9c9918115a50d610bd0574, (-0x10282b287a9800fdf6646c577a370a57a17873a56ebdd609f5b31ddd9173d579c), 0x6665efce52eedbaa8dd55fb8001d9cad113d79e2cf7524d74cf2add0a115a7c, (-0x180910756b302640b50ad8379618d6889a0a4dadef253a526fafc4e8ea31749)));
   (Skip, Plus (0x7f6d62bb22992694f6fa097b7192157cfacf22deb6634cf051db3f44e2f4745a, 0xa15e3401995cd5a2c8a93d8bf27bf3757bf8e0c725235606deb0e53910b17e3, 0x3f6db6b2e5c339fb79dbdaeb83d43668eb0fd6cf00f28bdb8ac023aca576028f, 0x325a61806e536cb52e6b2eee09d96114f3184c54a83b7223fef6402c19aa985d), (0x9889077ff7088509a52a94303f520cd847b1998c048b4457312e0c5c1a9507ea, (-0x841f33452c07199bdb57aba80fe0b1c378109643323ac209c5ca58b875dc6048), 0x5ae30240fc88c49358914f274da463018778f6247a157045dddc0b239cf9e5a7, (-0xfcf2b2ca12198af99c09875de5b1414ba93128f17cd61095f2756c83cad83d4)));
   (Skip, Skip, (0xc519b871bb990b190be26744246550363e9ccf0909487de80822bc5c0c725b3f, (-0x55c3ddc495d0286d4aa781619861c9f1dc3bd8f97da6f2d5e4d88af1fd04defd), 0x97c0987495d3df2bddb7840dd96c48acaff922fc52304655a64ee6e31abbfb06, 0x39b07a6b73a6f0a09a79daa5bfffaa2ff45794a3adb19eb92a1870454d476caa));
   (Skip, Minus (0x3f7ebc970d5c865d042e3e07d5f87abe04f6f12dd68be855bfea2d620b18ca8e, 0x121cafd1fffd9c605379933543499b426f31bdc7224ca73a5108392d753801a8, 0xfbf9f908832e5f6b4d08702107cd23b8cde184a3ae91b856e1f84759f69a985, (-0x2e7386129214842348b5b900c0cab05f0193981aea0506fae357845137943f36)), (0xc7816876ad9abbf99acb73461760051cde30b403c126a5d18def648dcd8a3255, (-0x559e318be5fef9551b36f331287be7f9f8b6064f0484c62c1dabeae84f119185), 0x9b7a71d2f4222a41b950e5b733bde06abce7c366edb7a86d4ddcbe5cfc199382, (-0x577b219ca1f760914228d1affb4a4edc294551c9016b9cbd60f9418340950cd4)));
   (Skip, Skip, (0x35ddc1c3218ad84fc1545f6ca20f19705f4cee46b36e21e1ffd9f4f28793f197, (-0x26d5fe0492357cabdaedd1193296d675e2fcee28718ea60335924fe059d9e322d), 0xb559252e9733499f7d39d43f7b0191c42d7bd6c5005d59fb8b71a19df5f15f0, 0x2f432f6fb827e330442d208dfee0a749302a023d0e63ca6a3c3de35580d61466));
   (Skip, Skip, (0x634da6c426d7e9540c4ec18599a4aac7b6f27f4541aa9c5ec26df1f1922fde6c, 0x3f65437f1c3028bedba9bf731c97bd836696b451fa5f015a9ee01a786e64a853, 0x2685268974ad5504e12f69156e4388b62dd4c0667fa4d7b711b9e99f0b3f013f, 0x1f1f70a6f784e66ce778d6eb6c7b1b3a19b70bef22711c0534e921e9b8a09b1));
   (Plus (0x71b742e90f3427db77eba0e9d6270f2435d488d73950295f51dce167fe96c2a9, (-0x5bee25c9c965b0f584f9fe81a79b0fe10cc45dc25a6637356f7b4fd36c11477), 0x32834c427a1cc7c44e08559036ad128e8aa3ddc821bf1a4270f97182c498252b, (-0x47b2afca5a0180975c4b8f71c3df7f25b46d51777e5c07a262bc865882aa4997)), Skip, (0xe8150724b4cc461557c8359ad74ec82e5eaa15d665db3306a7517390d4f9a142, 0x159a2ddfbfb44b51dc84f2ab6bffeb953020c78e26302beae4196800fae8801bf, 0xd2661eacb3eaefb0b3940e5cdd88c953f01bbeedcdbf9370952031e7b6de364a, (-0x6676c9326062476646dfec8bec9ffda4275c159f9b753a3411ee82015bd90f6)));
   (Skip, Minus (0x2024851ada5c8a28f09d99b411d52802ea5a5ca1db092cde8c3dd2a134c0c9ec, (-0x1c324f6c1a213962a7273f8f929bc3142a733bfa964438b111721374722a9f51), 0x409267c6b597646544769d6329c26123b318ebca27326ff976e64408f450175, 0x3a77963e5781142e63ccb8cff33a250f6166d200cd66523c89a83a4e323289b), (0xfe85fc2db040e0bf7f52d908972234ce554af464e48dc688262d664d91d26ef2, 0x18172b30a9fa3c929267f5bc4064391d6e903c926f63e9491ad387883b1ebb7d4, 0xfd0e268aa9a3dc8cb243fe38e15f62cd567ef07979394831a1dd8a7630aceb92, (-0x45f93c0c7882c10b9a2bd1502e8d05c8d340fd3c95d44683d569e86f835fdf94)));
   (Plus (0x4c36a22449de56ad02ad9cc11b98c24cb0449580d46f2fb42119d3ab7cb808b3, (-0x1cd90b7c89834d2fa00dc805250442fcd4b7cc327760b00e68f2581222debacf), 0x16b07bee59dd1fe58c201ce662033047de8a8dd6daf14d6b3b8a7ba76aa3f9a3, (-0x817a1af0335960ca4f570dac2a87d16c916bf5d2d19d5b2978e1a08da847fff)), Skip, (0x9b3653fccbfb063809d9bd9c7697e235a29eb0e52279887b1d3729fb5b679b31, 0xab61f25602999746d261af9cc4165d72685d143e637777dac9a76afe5fdbc57a, 0x5e1ad53ba935ed557a567a301ce8055ad2ada754cdb4baf47b383dac00888cd2, (-0x4b3ae86b813f8f74c90910598792cd40aa6b7f22e1729a00da9091b78ff18021)));
   (Skip, Minus (0xb6c3e09a9515629e65e2b3eccdc83fae2f006f1d399fe4b06163f86dcebd7011, (-0xb7f7933722e26d24e09ddd34ae722cc852203b43c9539378e185d4fa8070a5), 0x827b193bbc88690a974f4ea7d58d5f495d169609b3987fcce58c14c2a80d2067, (-0x1cd92347c3bf64652419d24616b0284095fdca1ae2ca00c068073421d88208d4)), (0x9af09d487e0b537a82b89893d84e5748912cfa7c4d1e82a889fb3a08966ec885, (-0x16e4c3880e52cb415b7b4619c2b5104afe8968f0a293adeb198302dcc06d6f8bf), 0x5dc65f628033f4ccf3cd919cc8dc9bd3ed1d6c7bc7f2122a4f7a46b1e88dc627, (-0xe1eed536e182a4e9a1fea645d6cd656da4df675c1290b2175c5a67147603aad)));
   (Skip, Skip, (0x6eaae5507193866000abd5a64adac8a3737a5dc078c8273a372cba8385e9f1d7, (-0x23ffea5e4763161dc68649f4441036271f0e902fa78c2af74a11ed31503d426c6), 0x2fd74f267ddaa3e21513deaada319581b39e3ca607e1bd8f457548a97435bf04, 0x2842e84fcdaa6feed7cd5cc73f95deb28a6c9ebdf5dc12b836bafc7ec025deaa));
   (Minus (0x9595f8f6e5b0c9f6da0e195a592f136da170be3f87b1cbac7016364b58793d8, (-0x28c99175cd4fd871c4cfd59d8a2bfa4bcdbaeee82347ae44b20ff0526e43811), 0x5767ebab28e6760938566e3d0813010948166150f407863281fa70cb259d65, 0x1ee96c3264ca6374e0a132855652e8494e7f496e38e0d671ecc862fc89e018), Skip, (0xdddfc2224c76486c7cf9a8aad85abc295a5272e88b500a0a3fa5d2868ca0cfb4, (-0x9c16681b9e11356807578763a92c173bc48fcaabdcff5456ed76c810e2be345d), 0xc04c18c302fd6f9928cee40dabd9fad13fc4ea014cf1926555c818bf947fbff0, 0x16d4f078ad311c1de14c444e971ce45eb675af9818271c88d79343d2d17f4175));
   (Skip, Minus (0x9a4ebe0bb0bfdb117ba042d104ddf2c3741e80f35a19ca42cd729d90ebbe43b4, (-0x52eaa7ebde920c2ff5f7b9789c1f60e48308ed27009a15442ab6276cd1621045), 0x5d02d4de6cdbe35ffb174a0f5db7c03bea20c6807243e90ef3985841ccb65ff5, 0x207c05ce6a4e50f56e5727b6eae2efa5a7748274e71f1303dcf88d3e89e800df), (0x2f57949e5699197663093203346d7d5f2bec999ac95a01ab37134aa771c45fe6, (-0x3a5746a604db99619859b06b0196e5792340d84cb26894aa2c8ac8ea7faaee28), 0x8c146887db28978ce8c39ed09302bb6a68a9acb9409bd2e62fc64dd69e1ad73, 0x7d6f2116f55e0eb1cd0f788ca288300bd629926fdd5b5b26e80af4178351285));
   (Minus (0xdafb0eb1d24c3a47aec2a67a4e4ad0ef96cf4c8c7a302cf47c8e868360972727, (-0x73ad59a6627ec7486b509dd321466ccdcf0eb2ec60875d86aa41e988e61b2c76), 0xbb508b3cabb423412ebdc9c7f718343450c0158208822df062fd7f4c82a6d0f9, (-0x263cd88b23b9d60f35aef803779a9faaca6f9417e2a0e07dd5e343a5b3212d24)), Skip, (0x49129c375ba6e6bb5695fc239fa9414fc1f82bfe3acc41f1a4d2696df87f6430, 0x4124701ab8f1ae32634149f38ddb03d88d5f9da82611194f1d6dfb9ce0ea66fb, 0x14db9e71e96196bb357541c30046d162fd56f4cf2e93f39c46d7ac6f253ca1f2, (-0x295c2f1778770510f02e3a56968ca988095e09e87f941622b23e827589d8beeb)));
   (Skip, Minus (0x40587b3ff3f60de6d392dc587c7cc50545c40d6a97b33b724de42d5800444eed, 0x4bc3106300445a9e9a51856c59aa1c6c7a4b8d99839a7dcc355b449e2e79654, 0x102c5c34f1494485656e94f1eb2221a47cc27c123519a5a40553dbdb62266d33, 0x19778158407c737469c51c726252a5e5936b4da1a96e6dc39a0d780b737ff804), (0xfa027415863d41fa371c2dc21e44b0c9b8eba0048b2c4dd2698ed166bc4e81f0, (-0xebab3378cc98c6feb465764172af44d4235f478d5aeacedd79e4c7a74445e330), 0xf428cac00f2941488bc7aa88e22ed784fc244ffa20df8e16640052730c584396, (-0x2c21865d67c917b66254230414054b4321a5ffbe3b5da51df30ea79fe92a7d0c)));
   (Minus (0x66331d7e139eb1a024510983bc1f6aef799b249edf49d3579d80627c91ed0373, 0x40da540948f7cd1518cee42044c824708cfc6902a58fdb753e543e52e72180a, 0x28ccc5b53b44154fa8b51e7a62a2e5de839d6e1243ac34392e740673e56efc1e, 0x736814db27dee96f6abb588dd89b4bd8ff29230a3afd98ccf825c7dd5ec5d0f), Skip, (0x282ba9fe238cf4d58886ca874c29771dec3f1fe49d8d1478d77543a97562c63a, (-0x2e40854353246c7653b8ef6b4b13981ac5d66ca973414482d28ba98651012a720), 0x64dac91f75d8517a64d9b1e4b2aff5d2d6c08e0f396a509c096db44d7bd5d17, 0x2186b8f36587aef7a60b920c0e75a10f9cafe058b7b759f2e775e2f5d2ac6399));
   (Skip, Skip, (0x2a296a5b39c00f29aefb930028fb5f9a29b29d6260977e5390ecacd1b4f963a9, 0x2285311e6da6142d6ede4b837d5cc234c5a82c8b01be5d4ed6c36e8a217cf8e3, 0x6f19d992c5b30d3b0e4fc332f6eaa0e14d91086b27e0a21ee36850ee216abe8, 0x2873e4374ad52c26f49d31b8213c2e1a221f0e57747a15a0700cc2bef1d0929));
   (Skip, Plus (0xf9e8a823db47219d9689456661fbc63566bbcb788c7758cd37371fa72a9fe80b, (-0x3e25801b3d9c16fd909dc43b741aeaaa895d58d6b41f911c2ae4a05c848b0ef5), 0xf3f66a86effce52489dcafc1922f19376cd99a2f9aae102f6d13397b471153ce, (-0x89c966693e182611f328a03414e6583854f8bf1f58bbff264a550e13530d56f3)), (0x7f8ab1c12cc5ecd1865a8307f2fa33d5a7e43c5e2a992126e8e458e74de52d59, 0x4d2447bfe9d29ca72e32182d067e47ab3335e0c050a33b7342fb0933b983d301, 0x3f8ae781ca1d580970f019bb410ba4b42582835141126c69eca24e33d0d3282c, 0x6c87376bf94c2df60b08bad4307393b25f25ccce156ea5cc87b42d5c0f36c7f));
   (Minus (0xde255e8fcab617cfa3d4a83ee78b4113e2023be74310f19a03aef29478b90e7c, (-0xba0ca463ee8d9846fea17f8a75d7713c52c5e6ef66ea36a199f18250653f8616), 0xc0c4d575dc125390d39924a87ae61f2d4ced61ab1f1aace335556eecca6c3965, 0xaa515474de7e8756e25eceaf6ca3a287144208ef43abab606b308dfcacdaa567), Skip, (0xd1d1154a63ffd0950b5550b0ce04673742208ef0b192ae37de10730284ce6d31, 0x14c6388a60aee8ada340fc3f21d1e363dbf3422d262d4252e552f7bf2b5e5127, 0xabf70f873c84444bdf0ab4097746554cea2f61e92fda9a1d2ef4507c332c0ece, (-0x60acb7e53ba9664b7f0b2ccc7f7d19c90f826ef0c6c9eea08a2b90348d9ec1fc)));
   (Skip, Skip, (0x9e87acd4a4f9954e433d87d2c82b246380f5d49b0ade098a24addc6e6ee1de4f, 0x2dbb4578f5dd668f508435e0ddf31ae01de277fd063516ead8776d536e0f91eb, 0x622bc13e389881d91bdc0d278b4a666ba83f7fb05a83cefddcf49aaa3f09071e, (-0x20d1adfac959fd910f16d1d8a82184f5498fa19e2beab47a37a7ec9b4c4155bb)));
   (Minus (0xa942401211b2822dc1590995b8678511ef8b1c6836d00f294fd8dd7d39abaf22, 0x650a83441fe531af747ce7de1f9f612b6d80753cba97f8179cbe0170a6ca88f6, 0x6fe889bcf4b7da0b4849a16fb17d2bf72c5fda804cadd553f7df6c126f726fd7, (-0x3df9966d08908c7d4469584b927969def8ca292ab935dbdd4cf80c274b9976ad)), Skip, (0x4ee74fade23a01a878fb3c374df45c17c225066fcd6bde84297fcb6d0d076b80, (-0x15c147b8de426cf21c754dce3bd50e03bb0985b9c8efeb26af9c16ff2fd2df795), 0x1851c58eda76656cff1a1e8927fe43f2c260cc35e1a67affbd6ef96f73c425c6, 0x222ed93ff17480fd1c08e92f8b56f63861993bc8af414dcc4659efa555847ece));
   (Skip, Plus (0xdecd4b3f88330b124875988f42a0bcd5ca0572a4556d158c3eece9ffc289b10f, (-0x89d65232ece23e9239b4ebd75c6bb9d6b01b56537db82cfc6ea8d7edcf5cc933), 0xc1e8b323ca16f285ab0670543504e8f99290a98a3535aeda1d227a7c17c0b1b2, 0x9450189ac9e570dc81486ce0b851def764770b5b1f37fca93935fb081e0a95f4), (0xf6d86bf1dc1c078cbb867791047c8b5b38eed75bfb229a5c0ded069a7e8ece5d, 0xa60bedc80199f8227973db15ce88444ec7f3d83462bd01f8d69d8b563a5c5a86, 0xee04a66b28ad604ece38ec7b7dc8695370c135374973d3beba74f0ba6e164eb9, (-0x9adbac6c11f111ab890a12d65166dd71553fb0dd3336eefbed6bbc781868e0da)));
   (Plus (0xc64607605324e4fd1b281ccc96f53aef13fa1ac05cb90dc4043e22f6236d9c46, 0x5440a1b4e002996f3d56a5b0973b8f518c8b8079f841a6befbbec6d6b056a513, 0x999066910980f32f3b9f6d9a1cae278b95af6361d091fb41133298d66e602032, (-0x27e85eb7200370cf10ed84750bfcf0b769da5cbbbcbd186dee2476c3be507ff6)), Skip, (0xdf71ec84c663fec05c571e2c6fc5085c6011af545fbe42f3ff693db7d801c00b, (-0xc6e16180b8034c0dcb5578ab860bec0abe52067e4c23abad68e8b238994058ce), 0xc307acc1f95e6cbf9541813a7c8d723e72a5f690eb13e813ea2985744f1ff4ce, (-0x145b0c089fecc48a97c41b5aa4d261ff85503ec373380c5da103127f24d2e79)));
   (Skip, Skip, (0x361f57ef460f29732cafc83d9eba25fe0dd319931c8036710b2a38f274f1db61, (-0x234d163445271919f08d811ca96df1f37454c40e81d7fb093aed71143dfce718f), 0xb713cef5bb5de6ad266f40a46da3449eca6f601bb60a5e1e1bf655756636abd, 0x252a464232c99fe538dfc668b2823b90740419227b4be22fc7b15dd5b39c902c));
   (Minus (0x6fa1833cf94dff40a757a922efe98ea78a853a6e4f51a8b61503ba038ee17ac3, (-0x330d95c9e4c94ff6142fddb906404eff921fe48539c65a1784b4f817793cb482), 0x30ad75b5362aad20c30524d0831e66daa83a6ca9658365d5cbb1a2f918a35bfb, 0x26f32fc89e4b056905ae3bac8554da66ee2866b018e250577b7da52c2bda85b1), Skip, (0xa4afeb28ea7f78a6c09688fb88e28a8a67d5786fa2f90dca571f6de9515ef2e, (-0x24263ccad1bbd0c41c71c6834664c99a9754d10f46c3b291334950e540b0a018), 0x69f1de2fc66811ecc0e14f0be4330c18a3c0709e8f79a6f5046f1f13f445f5, 0x19e2ea49180de97eed0c5af2d9e683be0a72a3820ab76316fa4f6af1bb2e5b5));
   (Skip, Plus (0x20bbb85675dc6ee525e77067bbfd696267a6a765df724ea9c830146a8b606ac4, (-0x55cb16ea9886895da1f3027601b6cb652e1f32a0727ab6be74b446e5ebaaccc), 0x42f77bc7083b26392065fd68e290eb6e3d30f2e7202f7347b0b4bac7d9113b4, 0x59380ee8b00e90908b736566db9c8a73a1d74534d043cef186889c80ee294fd), (0xff5737b636d1c1ffbe6c3acb14f153e190294a4b1510629bd4c822ab9dad3e37, 0x7e5773673ca885ed88cdde45e49a22894c6a5419f9369aa6a15806464e0f750d, 0xfeaedeb3eb2ef04d7887efdc07d60f05a0069b599fef6b9c1001c8922ceb5d0b, (-0x4d42dee7f618cfe85c789cfecb2c1cf544968ad05aaf3bf638920da5d6938c5f)));
   (Minus (0x72f3106bfb839539d328b301ceef6579628f0fdcdc37c8744e7cc82394c1033a, 0x4400f8a6b09d902599ae99188be8a32e6637f728fcdda1ea1a9553b58198230, 0x339d61685a0e59b1759861ae805e35c57f55aebf3413565ecde27ddb1eec22aa, 0x214874b13b96515a1c9a08c0b0d779f199260f5ba5f06fb175e2640c5f02b933), Skip, (0x3c8aae7b252f8ad62c5cbd47b0395603168652829700f7c1f76902d8f7ed0e95, (-0x2a190420b271f3ba3cb23d8499d360ee4ffec781ffc6c62cffb3dd3a140dcb36), 0xe514cea4d1e021f7584a1c88d12e859ddf921808f19979dbe05b35a8e0e312a, (-0x1f598a76062432225d0edd413853730b537e320b7b1ef11e5d30067be2532b36)));
   (Skip, Minus (0x545dc7c0aea43ebac07113860fa07dd360992df5aa8455ce5dfc6a5f36747b0b, 0x45c420009599ff6c2d2709868fccea15c5351e4566ed934db9dc2e39313ca151, 0x1bcdad713077cd09e90224eeebdfa76f52c560fbfd3289b10613f9ccddf7e1df, (-0x4a564fd33aefdef9f03adf92ea2913552127c5eb71fc3b6660ec0b59fa3d0af8)), (0xa5af926d811d13acfb2c4a8c53c007027c0786aaa9e7ca78d2ef4ce4f1014719, (-0x20024616b1672e4c07526510ac50a437374f8579bec28283cbad20c68c8edf4b5), 0x6b3bcb2aade7173a4098df95046641ee800376e2552cab4beefa0e90b0257a68, (-0x1004d12bb2f3049ccb13d4120675e27493247bb156648d7880250a696e067e1f)));
   (Plus (0xe58e8b05715e5a4f3e21672296dbe1216e8695aa14a12f2c964dfddc06b12e04, 0xd804a31eb18c2f8c8437da34633e2932784df19efc0e846e46e3263d8c772b4d, 0xcdd85416425b7b780b06b2a3667941ab66af9059d90a7b5e6fecbcd77771e8f8, (-0x6efd91dc82994e4b8799ed510319627e03316c6b28faaaea743137743932ce38)), Skip, (0xcbe492e4985bdd16dadef632759ded318b5927d7201171512a30ff038b505ab5, (-0x18008a081a68ce3141f51ed2b32861b528834ff5ad614ade331ffdf4b756b3f0f), 0xa2644d0c851a9e2c96509178cf7ae652f92bb45e42465a38afc8339973477e68, 0xb12e5a29b3cf7905ad09750acde15ed9dcf6291868701d4fd7ef7c794de5523c));
   (Skip, Skip, (0xc194d171091781faa47f5ce501af8b4334ff7fe52203f734ac51cb5aec54e4c7, 0x8dcd0f0ed3ae22ae806ac38da4e6cc7692644baae095ad98e0e1baf63e04e921, 0x9261ba4f45c1b7eb9f24e67e200ba479535382d402b58d66541a2a202e9471da, (-0x82ea2703cf2805c9e9203d526865e0de7698af56bc35b349f330f151b10b48e9)));
   (Plus (0x4845aca7f6fb6025c3b73e3a7c868ef8c0ed228455200994fcf726a4f9e08b11, 0x13236c561294cf3c45b6240ce1daf915fe97fa68bdc7e1d14307397034ad7060, 0x1467441501eaabad05e4d7aa4892e5e04b917fefe0221f81eb28cd9dd140c765, (-0xa3d252e152e8b3a0b0056979a1be81372ad10f2f8e3ea8aee7127edfc200c1e)), Skip, (0xf2da5bf72e636a9f21f40bafdc050a179de1ea73d05fe6de8bae1ac6ca80f88d, (-0xe771a8f2a0bd58e5dac7764dffe10b3d62b97bace02daa8f98acd4ea13765e1), 0xe661902015b8a08bad43fbe03c69f56d86093daeedf1a670b21f3fdc7fa3b9fa, 0xa4608399f0db86ee65d28cae49f70a1359b0ba93a7300e764bcc5b7a7a0cdda7));
   (Skip, Minus (0xe9a1a9a0703a154a308264ee987fe64e552071ff3fd61cf1b6b1e4f72c8c05dc, (-0xc13ad38e267b8eb423e51e304c304715fe40c237bbcbd49e2bd011ba0a6a1b7e), 0xd537acdcd87c1c88fd87d054a3cb268dbe1f1b537356a0d3897d2b891e5c548f, 0xa4826ca3929822c2cd9a371a7c4e10044a0c1e07f1ecfd9b72e6d65da796d057), (0xf492eaa6961c99ae817c48f8e3a99d4a2945f856225756a063f20f3021e24ab0, 0x143279eaadcc423383e9910de17e1a3ca3735f5b2644d0d8dc2eb2c1fae972603, 0xe9a8639e0b3eb4673ff0772f4aa0aab491afc69a08f71a942b2496d16260a136, (-0x3a65703bfd13c4bf942300c131e4632c6c5d0e218b515627759724e377864438)));
   (Skip, Skip, (0xa72e4243dc96df2a157145e0c716cc80520155f5128cd64d74123b48359d5782, (-0x20706705e6c0079f9300b17397a10e5f871af7835cebe65d5011cad2192841fc), 0x6d2d62d06b572d1c1b37a9709e8fee6f7cc93a79228d44b27876b26969ffc4bc, 0x1efdf23655489dd428167a13526fc67a2cd24e98c4453b232688d11dd161101));
   (Plus (0xe39c81fff93a7bb5708a21606dd8994702e02c25abda326187306ba0c11af99c, (-0x4a52e35f7007ef3bc4879da4c7e9fe40bf340f14822f13685845852f32406b3d), 0xca5eee3aa5f96fc9f088406e58113adfa3e01fd5b38aa46f310aedd0665db1af, (-0x211461b58a8597522b7d43f7d31bb6cf04b5ba41f0e0ed430218563b9974b358)), Skip, (0xeb7198abf8ca01eb3fac129c5a73dc3b83d031a663556a8467837511c77ce4b5, 0x8b1dd0bc1e65945a561be41d11bdabe0f222320a873b8f18797b0612c9b56cf4, 0xd889c0b3dda12cd1ca820f15b4b4a731b8be3f1c70118c8d802d02c6e315eb33, (-0x50f7990e844d04d84960cfa767b03412b8403ec992f81f3ae068b2e1eefb33ba)));
   (Skip, Minus (0xaaf60283c8d28e3bd6161a6fa16a074864059a49100d4cc47524bac7ceaf47bb, 0x4c9d6cc2c023a1e5dcaa3005cbb1d5bdecaf2a7278e4d37a07707952584cf523, 0x722ba7bfdc03ec8b4294f997aba80b45b07fbb4a47a9f2ffe384f3e1f16369cf, 0xd5416515a921813ce28f3f52c1cac2bffb00e30b696703579fcec938d209912), (0x97b46ee4200685076ddedde034be36b2906cd6bc27e4a45103dd3df11241112f, (-0x1177198ee460c5439178b6efd818938cf722aa0a17215831ba24277799404b4e8), 0x59e659fd3e9d90e88000643a1a1c0b0032e30b2cf3d8db53f7b20a63aab3e765, 0x5cc6f20fda19e02de8158c73342abbaef2e0af7b9e5d403658bf2a0e3fb7ffb2));
   (Plus (0xe7a736dba9ea6951b8f59374c33a876087080820338d6c7bef3e8d6eb60d3137, (-0xab514f3a1180b5932dca66c22a499f58c5c4292903200f3c760153ed89c24874), 0xd19f32390afe2211f0b0820fc3f864414a1838950a1f667f1423357f91a02f39, 0x57bbad82c989e4415a42163aeaee09f51c2ca67fcd27056aa0b5851a7992e2d), Skip, (0x2236ba67f0aed1ee74398f778818bc9190f4f60d994e1952d10793288a21c756, 0x2afcc22fed81ca4fcf577c4a0d45e31e73d3c24b7375cc2d4a7bb9d8a8aaa98c, 0x4929536c7832d757f7c022a9798439b1f8d051a43a79cd8597a3c033f326204, (-0x8f0a50192bd733048c7015068342121bfc2fb525149f9648598aaff46d47d87)));
   (Skip, Skip, (0x8eddd290e5189e9a09c76ed6d712441b6d27664842dd8e2a2da6fc2264734dae, (-0x4e797fa89c0c1bbcb5916f2f603f5aba0ec976f4943071c0c9151ffb914f1f5c), 0x4fbad5cdf984e653a5ba54bf9c5fe61706ecf7d1f4aa97a92adbf78951d36c37, (-0x4580c4a156ef841e2bef8dcf0b1a1184c679a3ebfa1b1dabe263cce803648277)));
   (Skip, Minus (0x65540bb6d257a641088c340e90c2ac9415fa0949739be4799bcff5b23fe0f98c, 0x431cda0000dde43f498a3eb126d9388c355834a314d6f5b7deb84f7eafb17944, 0x281b6cd5f27c6b57b52a230ef9ce1d631c8bfe7ce8afa7312b42420c7e3d5392, (-0x9566b18c78497ce46fc739344cd049e800991e6372f898c8f4ab9a60aebef09)), (0x5e5d9f74a69405ab738e867514ecbd088355b4c30437e68d0aea625c1d4349ec, (-0x1a55ba2fa19d7e13271f3e921e604b8ad0b6d626ec026aae9aee1d687170ff465), 0x22c8e356e867d7c949030a2858d8f16f165306237a20bdd8657eeb73843aa091, 0xc99cbaf1cc31e13c00e7194c7a06553faae6ada517abfa9d5a78da0d9f3a4d3));
   (Skip, Skip, (0x86d7e10b7570e8b0637420fc36ff4e519a6eab0b3ffc8ac280b69a1d86ff9887, (-0xec493a1e167d29e0857a5fd100a696ad013ff4b87f29c789ab7165fb2cf17913), 0x4706b5a3c6069c3346ff140fc7ed2ebb45686f1358f98a5f3b026dc7f92419fe, (-0x2644579ce815190084bda28696046438056f1339c0d9610a35484dff3735ae1c)));
   (Skip, Skip, (0xf66c18362c94a842ae9f96fd5fe8a693363e8759ff6c57cdc3f98b7730339f73, (-0x20f477d0ec61db522b7f1eff6200ac49eef8c0869744fc0db2540d136fdeae343), 0xed33ec2c8dad84a0d5e4f9dfd9779c4d335a6cb12034548d77c3b283dae840c1, 0x9116ce7ce9c6341942a80dd54c1d7f6e9e7907971e7d32d34b87fde5f317d4a6));
   (Skip, Skip, (0xdbfd8bf7c3b1490a8b50e596292609b6253877026373c6a492ecdd76197b8138, (-0xe169fad0003ab7be6d5a37b161f6fbb107ae599d31e57e0c36c24d4e30b83c0), 0xbd0bc897dd111db02437bc638a4969c3190e1699a4980c2b53b74d2b505389a5, 0x808c25eba417234b5486bd25d07f9557fa44237df0f27880f87556a9ecf15dd));
   (Plus (0x4d08b663c340fb82312e023db640f2c14365b0aad900354154af269887f2b9c2, (-0x2222dcededd7c47dc02965bdf9df080dc55be3e76e89147e4943e7abae3eb8bd), 0x172e3e03eba34bdd0884747fc7612e081519f16d3a54c729d462465b6d8207f8, 0x4b6e40e8f6d9ad14ae46504aa38b7cabc97cbfb00012d8f3a838cef6602f133), Skip, (0xd8922062d40c8a8ad208d58d36ad5621d550e8fb087d1c34f90909dd1a2b4f79, 0x8c1a30aeb7f0c9436870d100020fcb11fe9ce589180a6d07aa2ee2fb37736f51, 0xb736ea0fbaa7e34274a807501959f51714af717091bd5f90c78cd34040d1e319, (-0x2403a9b71798405ff5b1cddea61e7fb4bc96dda16f74f9fa03605942386335b)));
   (Skip, Skip, (0xdc1020d83e933047e2c67d95c88b21a1172997339674cf169ec12b7e79270d55, 0x1f0483f9f852c7f9cc1f4fdb0bfa2753eeddaf656f439fdc1e1de4e1c45d824e, 0xbd2bb977cacb93b00a8092acbf433019105ffeb4146cea525072f7db9472aed9, (-0x6ba376b2f96c3cd98acbdf9f52c24de9a63a93d24a0e580cff6fa5022eefd1b0)));
   (Minus (0x248b67c8977c82d63e1f7b88799d16d03069f8f9bac2fe4026a56429b6d033ae, 0x44c1397a7fb849172d670e7d61232903aa5267b2f197047d9f77a0728855c30, 0x537811a48828d1593994494aeb4b2ba525b15d759d11a11fe8f711696dda120, 0x7f9a7ffaff92792e2fbd86ec4eeb0a4b5bfef881d80ee8ff5a07496c383e167), Skip, (0xb30ceb66c726c55aa8bdeef02647bed83bb630d8025e1beaa2a4659163a8f3f0, (-0x178941aa9d3e4c7ef0d891dc04eb0b3a0cf27df0eb6a296ca692711a545a57494), 0x7d3b11d8a498be83c4a070af897942ee32a5cd9ec577632eeb868a3e4bc84d5d, 0x2b1b09fb2b064b4660cc6ee93770a007b3fc34492f40454c9df763d79b6c47b6));
   (Skip, Minus (0xdf5d75e78b347119cfd51e08b21da7a558941d8788faeebd0b7241a94556a35d, 0x4f0cd31983a1db979151c5ebb35eb9cb4b79b98eaced5940e3354f9eeb5f5223, 0xc2e3f588450df7cf988dfd4904d6e36475088974829bcf498ea5ff86f18f4ccf, (-0x913303729873c68ecba6a7ee02c365fc4fcf373ab644975d25348cb6a36dfe22)), (0x90a197b7b8e33bfeb50cc4756bced529643b3afb182001e52b13f8336cf36bc3, (-0x79d84b9b490028fcd5dd7b638f734b95c5c971e1295233d7c01b0345b715f5db), 0x51b630aedf007145ed3bc6c0b50482f1ab23d4a3afa073c123e3353e2f0bbe6c, 0x4f7ae0d4bef3dfad34433bd45909db54954a7dd722148473969745d7f4b7ccb0));
   (Skip, Skip, (0x538642245d31a63b4ffc418923f6e47a203f3c84c89fb4291b3726d7d2c6be2d, 0x4393c476d88d03f00135addb5ec20378a901bc7b4f735ad71300a8c6fb9e39b9, 0x1b40554ce39686fc6d8fc0e84063c363a2e4ddcdd3592be8a06391764145b16e, (-0x1fdc9928db544dcc41735e893c8af7bb4d7ac12915e9c366d1607333d0026588)));
   (Skip, Plus (0xefc6e4206a0867c50df246ab1bbd1c57ee51df18847e5b9ffe8530c6b699297b, (-0x6f4f0bcead216f55b90bf8a04400da35539802eb600039d6a724ca83759b2bd9), 0xe094f87a336977bc1bb7db09aeda22355af0871ecfb7139997e69584e680d696, 0x3666c6ef7d6d90f9876f57c5167eb9e47aaf3ac59f5b1d53996392ed172cdb71), (0x29e06cd166ef787ccdee448a9b153c1f4e2693bb0de4270e420d5e1413c652ae, (-0x80b3b179031a0ea4e3a75da1704fefbb9aca36abc8a8c29a31e322088800ed99), 0x6d9a799afae31ce1e6e707b46f4af00545600a5738afb79a5f32a0fb46f9fe1, (-0x91116d01c20adbe9147a40c45e127ab75e8926eb36d1967f0099b739a626593)));
   (Skip, Skip, (0x22045e501c08e7fd4bfd5e3730fbefb93cc5ef12bac847beb4253468845106b3, (-0x12c55b826077d8f9bf983fe8e12f2d7398cb0cf388151f198c722ac4dd9c0f3fd), 0x48529205cb22b8e9b1aa21de4f72438d2fcc5bc796872f88dccd04092ef823e, (-0x480eaeb283cdf6069c21fd72d9591c8142f04cbcd302d6f9741aa19b6740c14)));
   (Plus (0xd8790e1bbfbc42807be96f3329408b412c5c964ec55fc45b8315ebfd10592250, 0x3bb9fa53ce843773d37935bd2dc5c2db7d3b337b4613b626580a2ea1077e8b76, 0xb70c810d2a8ffc2a472598a69643ca798ec34e8194d733b61c158516aa27cf4f, 0x3b87ea14e4e5d2bfc91536d430292a517368ae3974dfc155da9dd61eead336cc), Plus (0x9f8fbc5b8d63a48e9af25f9c76d8ef6ac189ee6bf2323f9da3e62428ab96d8a, 0x11cd51f4370082b6d1acfd2df6121e95dffe327be954555994bef8a231b20ff, 0x6373dcadb28054232869888f17ede24c4ea67e4a59624160c796cfc1f57e85, 0x4586ed4f70f62f39420a92bafaafe2f473af30c08e59f7b8f1da256eaa84f62), (0xcf3730f3c43c216356e4851fca06af5a3feaec8e75aaf2a402dbc499336d49cd, (-0x50a7dce6a75b656d31cfa4104c6ca69ca420f6c35006284ab632b82eeb76a1a9), 0xa7ba4d104973e189ac4da9e70c19ae79a7688c8c985880a47f37df927669a776, (-0x16be350bd938542d17238c88a6e09071a45aa3a12d2d3f84dd73777aa1422413)));
   (Skip, Skip, (0x5a72b1347f2f36dc741c32f6d55ecc4feb41dc1d79bc84dc3c3caa4d33b31c33, (-0x2112410afc74715c22c5c810ad1ae82028a0db3f37211d8722979bef342e63837), 0x1ff4d7fb36d81b431236403507b3132936990c495461b20e70ff3e12e678323a, 0x3c43b020c0100bda47d05ed30e134d906297d232926da9dbb27a6a8142de4379));
   (Minus (0x259ae1f3957f96fb4d0f28bd57a61efc0d8189c1548d6edee4fc0ead86a10060, (-0x361cef21eb246f5abfb7621be355ec1b74341e33722771bf2fa763e5d93946), 0x586230509b4d3b5b98b3be45d9d33cd558bd0375c60365eac16380b04272db4, (-0xaf45386b329325c31413e4cc0df30bb90bd18ad748562fae0fa8ee1fe0a0f0b)), Skip, (0x2cf6e38b89eb995ff629523e4d1a1870528d114ddfac39b1848799eb9e8e3a19, (-0x12bc59588d326ea499d2d96fcfd5370d235ba67167df0b1fe8c362219e45b3f1), 0x7e5cc5211d6d02aa3320b6dba80f50b468150a28823bb7f15f7c1852309ab8d, 0x680558d4f4bae230b4e6ab2ea88b48db0380516537dc14e55ca1b354c645f18));
   (Skip, Skip, (0x4d2f7028964ab24df12ede0ebb0d70474d9d35e3fa88a6f72d0992ca075e7423, 0x7522022a3b0f63fbc00bd80019a686348dc248089ee0223cb2773463d5a0225e, 0x17459242ca73a8a1074c4aedaec3e3321f3fc756b73265706431a7c96d8fd102, (-0x2e5df0514cc554f4339ac46abb1f115dcc11db701f5c8d5b1af07a9e6638d25)));
   (Plus (0xc943005262f75210a0f8210cf4e89df6d7cc2937fa617a93c2440de6d1593825, (-0x514d80f4413b78283e1973e758801511f3fbc3b6c8869f50e9c164339e45c80e), 0x9e3a480a8a8846d69e2cc232f5f5e66e5f02f9df6a98c5f13553e3d025661b38, (-0x3f4734e91c0fcec2dd357744579c5f4e0efe0b70f0bdd2d729c42c490fa67b56)), Minus (0x7ae292f1ebf86b6397fde9d89dfc4fac63c31b903b21bf1b0d6701ae521b3437, (-0xe49a26b342c1fd295b3af542eb38607dbeb3f1b7acb4aaff045da27dca44b72), 0x3afcbc965c663ebe0670304e3ae7da902b3f899212dc25aa9abdf9fc7c9274ad, (-0x40b5f33c5989366d416205611b36aff7ea62a51aec581d5ce6a90d258b579776)), (0xe7f7b5bf52677f47c909ff753e0cb6422a756242da7e9774f36f7853e8ba4548, 0x172ed1e66c9d462a1a6a46ddcc015245919fc76367548909cb64b917c2541735b, 0xd230f9af7eefe4ed9447e3185236236f65fa19bdc05a74fa1985f04d1c87edfa, (-0x62e6b1e8da92e8634218dd5cd03fd0eae2d4197b61af4812b9a558b7b3ec92fd)));
   (Skip, Skip, (0x67cf0c07b10b0e211b54630fd69e79dfea8523099792a76ee4fdf4e9f6aea0a0, (-0xe877fd97b5f859a51d4f8482c62490afc5cf1874dc7446940423369ae7cd2f50), 0x2a184322a577ee13afe6449259a22ed99291d226f5c5a495fb12ecbe2f96a1d9, (-0x2adabf12cba89440afae6d5a2920b30a1ec444ba4c7d4441b5e1d52985ee2b7a)));
   (Skip, Skip, (0x73055117f8fc71da09e4402e46a97b6258827c6a82b8f56dd4ed293544d609bd, (-0x24a615bd24f1783954fed035cfaaa6775a24b4c6c3646dbc756771bcfefdd1619), 0x33adc6f7ce52b5f4c6f9f98b17fbc4a97db0968017f4056ef2ae1badfe7b3b43, 0x2c19e28a25a7485920da8493c0197f57b5dbaa74df6d0184cd161f56cc3d5a00));
   (Skip, Plus (0xa839d66571d774a6b51f9d61dbb0c943295b2475a0e088e8a237362b633154b8, (-0x1f79c7dcf8a597010d6a26ca99cc18f3a8a8a521688bd0a71b5a315aed0f1e23), 0x6e8bf67652253d93fd9ed3509d0f4c237a42b9a7fa7ff19ab985bc7dd283794f, 0x693d044623d2e27b3004733c2c35cbd1846db09a85510be3d9345040bf4ebe84), (0x20f70b4b1d6ce28d3cb19b2f27a9714fe1185759ffd6109ec1ae18ba7e0b482b, (-0xfa3615fd6f942de21cd20d748eb758668602f0c4909065e6b9ef1242ae1f3cf2), 0x43eb13992cd8b52185e412201b9006f8c3d7f87ac61d1d7fe1e3638d20a2196, (-0x6ffc36297e7d29264519bc04fffd52123e97e917d739e88a42745ef41e513a3)));
   (Skip, Skip, (0x92ed0bec3174253e88f618baf673554e1329094b7bfbcd13d35dd9abf016b216, (-0xccd4bb88ca741bccaac18c48be3838bb5de22454f75307aa476407e84b079941), 0x54533d187c4a31b37ce801e46dab00190dcc320241d1231e995e2d90eff8d23f, 0x1145c0d0ba3c29af715bf17e4866c7baf65fdd3ca649e402c8a2f40210ad165e));
   (Minus (0x2bb885480ef0a1d3327ff0089575bd6fd460c0149dce8fafab3078c1be67fd3c, (-0x756b30499757aefeb86f850fa953167ac6d68aaa999e4eeb561eb7240127c7e), 0x77781c611fe441402ef3fb431bc58e880625e8251e3d0013c41115221ee78f9, 0x28a0fc64d5e1dbf6df5b89a1ed697eb04dafd7466500294b37eca455a6f6501), Skip, (0x2cd908c6c9e08e431bd3bcf301875953abae29e512407a57a9131c017312ba60, (-0x11037df283087462737e521502e6a0e4bdc9812a36f070877ab1d80282b41cf55), 0x7db530436b476932ec89bd4ca084bdfc0f260d528f8a08d8197ba7cabf2d1c3, 0xfbf4d7604d5eadc20547e09767737e7c6f315f8611539675a1d3b9ca6c1c87f));
   (Skip, Skip, (0xabb29926777623d00344ec00c5dd34ea088fc53e9f5ef3e6d3c7cdd083ad1676, 0xab600001f9e307f7386e985ab5492f6471c9a670fb524355934fe743d2d57e4b, 0x73281532b8b4f4b49742f09affc749e7d50be3b6f6b32519ae2035793be58aaf, (-0x54fa9b042b67a11da5e3a26447472c908c3a996ee40e2be8a43173c5b82d5a79)));
   (Minus (0x554274bfbed6a5d69ef0b57173dc55f06d7a106d9543e3c20ae63c750cb4cff4, 0x2e6d3b35b5a4225eee1bb8224c0dcc838add0571ccdf578e26d6a1711551a3b, 0x1c6532c7bcd7455ee10f150a773b038cb2000118449e89ea0770c28cf65f8321, (-0xd703a4c57c4def8399444e82c7df311a542548c4a960851fa00d34d5b6e329b)), Skip, (0x695a461880f215df8c78df54a946d96d3d913b60d87441a36d3e41538f4789b7, (-0x148e652f1aa21cc21173cff95af228137270c9526106024c475b32c79cce1b1d3), 0x2b5b2d557632a90594b741b9d42c34bbbb2538f5bde8cda2d9829425c0901530, 0x9c17af1570884453f7e1b0fd6c24f45e9f7f43ec92f33541cf5e17c896691f6));
   (Skip, Minus (0x87d07436c5ba48ae5d5e6f78555af50ee270f52836601c673deca625eb4e0eda, 0x4f600289358e72980ce3493085785e1a7184973654c0b385f597e70d85c31c71, 0x480d844ed24d7646d6fe3c9d14224673b6d2f65c5f1254de5ca31e899b29c07b, 0x4b0dcdd6733cb8918e618822f72ed19dc1f5b76bb5a07e3f52fe71263ad0d4b), (0x779bd28859b018134c8e880d8a3618c424181023236cb8286c33e300ff139275, (-0xc977f5ac094dccfc40cb80cabeb49c8e0a31595af209d63d32bbbaaa02e34003), 0x37e23c9361a24d636a905f0f0d926c0f9b75836c62616ac9d230266b02ef4608, (-0x1c610a0cd7e292613fb6c59e4ff1ecd38248e5f5272230210766fdb2c6c5544c)));
   (Skip, Skip, (0xa35657db7e33dd28b733057677392155cc1b5230a1fe05b24ffc8e5b5198fefa, (-0x26b155c8949c51c43692b0c22d38a585acc0fd61e45ebe0d790f982769f9735c9), 0x68371100a855c272dbeb37a0980b430b1d013ef71dd9ca2496eb2d52fd0564cb, 0xf4c11b86e625d3682a8d13a7cfc4f97a8cc3cb7f7c3c8f01d6d6ae9cb5db11b));
   (Minus (0xcf71a1d651fdc3251cde030c757065a68a44b4f3eff05610d94120c0415fed06, (-0xf0e09de8d1d5969921babca9609c36ea739b9cbd8229fd0aba2d1a055ba8ba7), 0xa818f628de1c0a2aa96c0651224f5244456b07d75335489dedb0ad4effb796ba, 0xadb87eaf4836a00b638647691a1f865632a758a892fe032308aee834b387da26), Minus (0xc8d4a4ad2ae336944c3470106bdde0bc2634f5e8a2abf76d41b1d4315220506a, 0x9926b92273945532515d181bc82a22afb493dde9481d5514f20e062189211153, 0x9d8cf1efbbc061b038e54397f1d516dab8409e325b76d78e7ae95e55414702b4, (-0x844e078768fad48750608c57a30fd9c46b1c622c9fa6eeded34bd71cadcfdddd)), (0xd3c93a931625a689dd3592bab79729508468624abd1b29f3fc8a043138c2fbdd, (-0x14a56fa99d4c9ef17299bd2b46df8816dbcc2245a239233c5af9cae8a3d476da9), 0xaf3554bb7ee1d23247c1e6b9c810d2ed6f53b5b1b14dd9cfbf54a9dcc016a99c, 0x660e724994b658dd246028d1e839f74aa093e322087195f8b0c9be5536e8fd49));
   (Skip, Skip, (0xae953ad3269b7bcb3fc29e1dc17815047a20636d0ece8ba0dc6dddcbf615bda, (-0x63729429eebb0247657f0746a73c3f1969d8903948a1eec499a20fe3c7a5f609), 0x770f32f48fcaa8ed837d789b4702805162a3841ba7d188887a445702554d1f, (-0x3952bfdaac7be4213d94ad5325e22920c9057243368d88925c325d5b7cd0abb)));
   (Skip, Skip, (0x4fff3d2acd719a0c307986ea355754397ae1fca620951f11cae247eacc5841a6, (-0x17ecf3188e4f17465cb8cdab3aa83ef7455f982e15fd71d4d24eff794f600cfd5), 0x18ff863b54aed2749bc3119a06c6247d623a7df6ff31ade94dbffea597f1ca42, (-0x102d5f2f74bb4ac41171f7f702f8be9c13eaf1e7231907f401e605baec10acbe)));
   (Skip, Minus (0x7319b7e37eed998ef388b2c492012a2e9e32086cb49b3583ad9ec9cb267ff7d, 0x118d08d36ddad36c33353cb5d7cba1b126d5742ecc22be05010452a03a20782, 0x33c01dcbd28f4c00768fd4af40194b79b04cded45ae50a6bb1ac053d4f71b4, 0x139fe65020a9fa7924d4e83411d042d6813fca1be725c928adae93c4c9010d7), (0x7a52afb302ea144dbc27ab1f0c7c9af22e769094a0a9b1eff91b1eafbdf41c0b, (-0x1c9cbe1eae7ecbd5098b7da218034bef318fa56ec0c01258a06e9851a502bd810), 0x3a72ea2ba60b3478344582d0e9e15832275f6a4892a335c1e9b232ae3450fa0e, 0x3a7ca6f7d35a67d98695d9cefd8c1d1f4bee8dba658f189ce0bec9fcda936f93));
   (Plus (0x61c104976f06a9fcc85d3f23bb0cd00304c555a89e5e4db31d35f6aa4612fd95, 0x20c99b98e590a061e75c6c94a4f87f3c63657509845c2d44f543ef17cd9668be, 0x2553d702ae8d89ea3e4ffc7f2e135439216d691509abf617acec8e4b38de4c77, (-0x10fd58d4628694949a433e517ba24043439067f0be6974f8e669b9235c218936)), Skip, (0xd81c11d09ea2ebe388858b897a2514e6c806372d05dafa3a8307e1103e57626d, (-0x7777b3803471027cab2e624b856090e4b5a1deb9133c7a9bd24576fe9f50d101), 0xb66f6123f29300c75e88456a5b9575244da53ec448f6efcac6815d37ae106f7d, (-0xfd1988a00342d151890eae32f7431cfed57ac1e660bdcf491efb0d78e40ac1b)));
   (Skip, Skip, (0xa1f316299c051adcfd77e3908b8b8e1d16a72fcd0b069f7ae3f53fb842d3ad56, (-0x85ba12b1720d77d50721cd958358d2c7129ffffe3f07858ece048e432fa8c568), 0x6673a8b36b27cb0f2fb0cd0703cfd64119ce061ae4dbdbdb0efb94c78694eae0, (-0xb2b5bd35faaf6da881e8f348f61db40bcac8f3f9a7633912293da8c70975679)));
   (Plus (0xa7d41cfbd0c56ca9348311cc6b3d4bb437c9e198163ab7efbcd11495b89e075e, 0x32fb685f394adf93e434981b69c9829ea0b6b585c4174a6338af6a40c02162c1, 0x6e066d908ebb681ef7eb7a6b33443764bfbfce5e90f6719a1fa6723d9f2fc61e, 0x2d6b608b4191325d15d876e45bc580e8b74dc5df988411abff6785078575686f), Plus (0xfa37ddad936fd4b5a5dabe837241ad8cc165f676dc67ccf150ec0e28a60fb4bd, (-0x33fd38ddf4f15d9ccd7f4a51e3cbaeb98f7e48c38379408fbe96d13d8e20086), 0xf49129280480ebbfdd4d3d1730f4362fb8232736724fc18fb9511b5f0667b247, (-0x228bc8aaacbc3911dcde000b83ca94b35fab52e1df24d07feb48ab0ff22c2e4)), (0xaee719a737ac4e364919e03e5445a0aa54749101ba80f9870cf20e6dc301ffdc, (-0x2e540bc766aef3a20a075b1a497cd3ef68db194437a0fba64f9b9ed4208a408), 0x777ef77e9e06c96047873c365cd9f305d6d344f52c29e2c9fa653e3a79cd79eb, (-0x1697b99d9245cb790a6fdf805daf784637f9740e7891fd3bf630146023ca70e8)));
   (Skip, Skip, (0xe732d14399fbeed039026f11b190354fba6434bfd8f73a24ef6362b4a0ea91ef, (-0xea0494695db0cccea8369a105a55433e780cea7ce11199cdd1e48e768a6bf98f), 0xd0ccbfbe695c42ac62a6c2dc31392aa14829c55055374711080b80df88962635, (-0x3174cecf085de34ec932eb5ebc55458c6a166464dacc99aa35453bfa9d1e3c0d)));
   (Skip, Minus (0x28ed2e1712cd47fa206c355a26262d1269081d4fde22da05185bfa450db30bd8, 0xd281ab67c7c9fcec68689d05cc7bd98ec1df60277a63cb2109c98d0e345c875, 0x68afa2594e5436b97642e5b32d863db44c1a10713d3f132cfe6638c4b159028, 0x741464a2b7b9a343140259e7e1d3de044f31cffcb8c839a32c251dd6fa51e08), (0x2c649e1b444bfaa921f03578039be8f40e5e8ec300f40fb2cf8755a250992c04, (-0x24511d51ebfc3e90f7c37f7ffde6f6853996200a29e423b683746668a9b83e4e8), 0x7b2bde5466d24bb3b752f53603c1ad52c5ddff4fb703c11be520cfde7e06a2b, 0x25ed8e003c61a2270f74c2e987cadb2b1994fddf26c27839105e16f201b50000));
   (Skip, Skip, (0x7f6ca70ea09ad6dc86113265e004c641fe4ade7c26f023e090d6fed00d0af860, 0x64e9d4c7ea4b5840100224cee77efec4f282ac5b458c0766cf52981dce0437fb, 0x3f6cfbdde4b53a34111b4fc7911867f2ebcb1204d0c0c195912c254fffae0a44, (-0x6b7f09a01520a0c97909dda06b9f05376fdfaf33a0ab971fd2b59db2b0abd5e9)));
   (Plus (0xecc679dd0bbf5675018e005be68e59e61ad02fd07db132112e904ab0f9aeb653, 0xd6b1038ca11d115a5ca567ca92f364f85aca35679e2ea807b1ca4b16fd9531da, 0xdafe8a904999a759a07c1a3f18aff1043722d0a6e2d677ec8c5ab3f2ad64ce16, (-0x3d48ced4f2aba1891fb7f07512f6c19556259c888770c365913754445e7e851f)), Plus (0xce4965e20077e88a39a62705f1129f12fdd12f8dc1d00562f0b39377cc75f7c4, 0x64a9ebed4908802e8e349171e776a7ccc8533e987237563ae29f0753c01e10aa, 0xa63a3502fc315a8484d02544b94176ef4215a3854ab0c61962b8a3483343acab, 0x4e84f5a74d6e08821ecaccc74e22cb34432576043e574913a152dc4ea44984d8), (0x956bb6638dcfae6ed2d37ab4883e724fe35b9eef641780caac5efc9af49ad601, (-0x19ec63ffbd46c9d6fd5f429185ed5d468c4511d7cbd7f25a5d5be5f57a2d463f4), 0x57368fa1dc3e01031b4355bc1ddcec5b5c7a55f02c1d63a7fb8a9e7c0180823b, 0x1a6fe5c091ea460b15298059e3246ec3eee3e97cd253a6f0e5003d8c3e40578d));
   (Skip, Skip, (0x4ba55d8b5483fb0b4eef34a9a5f85538af7bbc4e921ba073bb4bf2b4cd7a6391, (-0x180a1095623357ecf8e094b36f47bdb7dfd067d4591f3c2e9bc82ebf186120e76), 0x165a4fa15b4ece7704739fa11d84d785e8311a9da471f7c47c92d960190477f0, 0x193de391aba2f499bbe89403fc304c348d6a1d6ba56a561e89d070a0c65655c2));
   (Plus (0xaf137b2dca58517622c3009ffb9c360606ec57f72e7d34dd822b872fb39ea198, 0x18092e370e3ab10d090d6910d37d343ded9009b25f2afbdf3d7e6428076e643b, 0x77bba3e41eb5d11d3c536bc2f6e67aa33122a22e73b115fc44df773551016ecc, (-0x3b1eaa97e75e13dbe1af6962742f998c22ecf4cd2cdd796aebcce089cdf12ae4)), Skip, (0x13b8ee10d8c63ccc1406374f50b83c6235b74b6e09e566dcd2899776e23a0e7f, (-0x6d96efa76407cdcac813a6e1a1ac4d65bedac449785d51936b2bb48e3efe1b21), 0x184f8ed95c85e2a19b7e3fdd38788d444c2a4c37796bb0a951f083178c02f97, (-0x6742676e436e78507d42f04417e4e9c18cdd6feec2a760fc868421c9dd5a29e)));
   (Skip, Skip, (0xaa3e6192682f538d4b72a6099461c5e2cfe08640786f4558796afa7bdd1b4f14, (-0x18de0e274989e4d28d93528bc3b1bd9663efcf2d866d51407d157bbe88a7fe57c), 0x7136e8c9da799892fe57ad06acc22775b7b3e5619e61c8c8c0cf500cf478a145, (-0x13ee677e3fea057f5cd6207b294a4c384449264d0298cd52abc732ad554b3daf)));
   (Skip, Plus (0x57ea187597a6cc9075ae36763520a7e670e9dfa427b28279efee44284a7f88cf, 0x4688ac62eb631d9cb12825e909501690c28da7f231666cf07f0046775ec2ad4f, 0x1e30f2b0a662de6b66bbcf9c7d4bf3149635d9c70401bdb4494fc9d2f2df20de, (-0xbe3d8743c5ab11d1c53c98d9234d4e03fce52853befcd2cbcc868d9a066a917)), (0x6d40f867eb9969bd1934729f2455f97d4dfc8afe1a79a60beb99bd71d438f605, (-0x16b258f46b6eff3ff98ea203f19bcbe228b8e65a4f5e34fab7bcf950ff994c785), 0x2ea06405a39ff3689127bee576c70963b283f14c3bbeb8fbb3bce7554bd61ed3, 0x5bd1388c934e3548460cfa6557b8cbc6411303ee9bff1efa8e966828d73267c3));
   (Skip, Skip, (0x41c6ddf7f1d7920ac2d440aa504b65fbd35a0fc0b352cf7d2843b7f37fa68e6d, 0x590a9846cdd31888c902f87d0233c3e8c8caf987e190c020e1d6415015672248, 0x10e6973404cf9952242f24cfd5ac7ea7f250c9b69363318312226dabb48cb3d1, (-0x2ac1ec6ba0eb4ecf248d6324e51188c0ccceac04368fdd1ac8e6879ec513bf3d)));
   (Minus (0x743590e99f2a956b964ac90429c6d0818fc18bdfd4e91e5984cb8972cec4a9dc, 0x638f810cb5d12045c66bc1bdf1a5ce866570d7b319b509368fb68d7c0c6be36, 0x34c096890b02274e6552f4bfbb10b242a067823b9a813adad4417d1ea8391042, 0x436973deaedab2f216fab0c958e83c0d0edd6b0063086470bfd489c50cc1925d), Minus (0x4fe3fc9e6fa2ade5f4be56ee7e18edcf9681d1a2a6a00b37578d53c856a001bc, 0x26154b25b79707f857cea0efaa22981138e620ea6df51e153ee0408469c04786, 0x18ee80f3c328afaa96b75f142a4745427731bc47976c27b4130aed7355d277e2, (-0x1d16722da43edd83333f04cb5dcac9304f0c0f798562f35660ce926e385a0093)), (0xf717c949c00a247330d2c209336c342191c46c4a3cd7e6c574cf6d0475aa1d3c, 0x43a2709cacafa95df55c3c3373958a311e9e2e3fac9324d444bdbda1c69cdc54, 0xee7ee8a21a18f8f7d7fe5bbd1333b31e85fa9ff5b76b144505155b2decee7726, 0x1c59416888fc0c6c5ba79677d0bd17bb05fb65ece6177db40fab4f14b53ed29f));
   (Skip, Skip, (0x1bddb5e9b6dcb12288dee8372dd502b817cebcf99239560c5bb02eae1f5b8d6d, (-0xd823273fd961a5ee24a866a9c00ace930162ce5ccfaab2d179e991ad292ab188), 0x3088462e35c98599153265ef599c2d49ff73669f4ef7f5b6910195f1320f93d, (-0x35e55855b64659c937d19fd3539b885c6499ba50b37b1f162ada39d8f54435b)));
   (Skip, Skip, (0x5155e968839912f9df9c4d6591d7f05b63e0a833bfbf06859834b241f4ce2c97, (-0x14a680fb7dca446f5383340630a5b9d4b540d7ee848496049e434a5b85012776e), 0x19d77a88f77dabe08dffafc94a8e9ce237cbfe28d3050486c0582b826fbcd61d, 0x2a7b61ef598c925423a03e619fb09fbf9213b3b808d857b46f90e02685576fb0));
   (Skip, Plus (0x22891be8c41a2857c2b26097604a0887ea6edad310cf14a38d100e496388f6a, (-0xdefddb52f4a2001b66e273c41b2097c34687975d54785b7d451b3d7e52f3f3), 0x4a8b4d8b643c3b807c97728b597f540716b3656e5e9c4116cd1fb5566c07e, (-0x15f826896bafea4e3223db271b3e35a53e78de3380c9c9e4593ed235147b77)), (0xa6e9eb9d3da9c42f9aae6f283394cef1be5989de42d18f364787a82adcf070b8, 0xa4ad61346e019ce5c60c794d0a59748d49340b74f9990a1dfca29404b5e80efc, 0x6cd4334ea90c793f3a862a21c1055041debfff33f891c0f418cfeaf3813a755c, (-0x8e095e621c87348891a7ed4d816d565c8671b9eccd6f5d6a3b44c7186b00e88c)));
   (Skip, Skip, (0xbbf8483324d2a924f05c202908140e3f3fd6da9ac5f253124e8953d67d1905a2, (-0x2df4166a8fc2356c87c071a01ace5227745cc49292f3f2bc81cb652dbda12631c), 0x8a04aa46af3fea31df1862522c0ee36eed73cf53ee7c13a81d894cd396b6656c, 0xb4dd5fd395d12a3955ce4f530192934a9cb2884e586d1b88e81353e154737dec));
   (Plus (0x85449b1101690e7086bbefa314ec04d442d4bbb8a44a00a7512ba25c9d5e004f, 0xd4f67e8191bb74c498049c540b29a71cf72887a776a7a6c49a2ceb280d5cea, 0x45605b826a6d81a6ff390629f5b227a246e808a880882d4a6a9d816400403a55, (-0x56868fb50afdd8bc8cdac483e16f390597c106595cf470922a692fbb595eaa19)), Minus (0x32dd96d1c080c4f7b987e6fe897abe0ae113cf1e44706d4d85adb9c27a8feea9, (-0x1c353167b49f557f7a5f3d006955e537851d8826bc7015a8d75870bb5a8d5a28), 0xa1b4eb7ae3324b7a204bd0199586b152100342313feaacd7db05dda26223124, (-0x3e87cf3839273ddff6fb0780e03ed15a0981eb3bc5d5b5e83e9868c7d0b1bc9)), (0xf606cc653fb2edb4402ff71980fbd71223060bd7ebc89b350e2a4b367515686a, 0xbb8b7e11129dfd70121b1071bcf5831ec81e05dbd54f75a38deb9d0b0535a41c, 0xec711100ce5c62ca0daf95b9d3b7c8eb65a9ea77e81b45e2a779bca10bf8e8ae, (-0xb23b29d82b970970e2d6a6c5fad0f421e434b581b240984fd1a2b056e1076c78)));
   (Skip, Skip, (0xe0a350de580db0ef003512968ac580a51a40c6df2112239e26ad8a411bf7301c, (-0x128eed546fe55b9c458fc76549e898c2580461697e292f8aa993b82788144933c), 0xc51e35b52ec7cf36f554cd2268ecae0c9e7cb8adb2d1a09675b9e6e4d12df9a5, 0x85298a7ccaa6302b0a9574687813d27c760b20225f4eaa8ae0d89d4cbc26ce86));
   (Skip, Plus (0xefd684d95abbe7ef7daa882e8cf1fba59af8ed928eff77ce19cc5301e8b15d1b, (-0x77db0edab073d2bfedb5e92dd8d455f7ce31b913d71f78b9cd14ce612aad54d0), 0xe0b23fd037bf6b55aaf159fe8ee9ec6dc0f59caad7d325b1bccfc88b61aadd6f, (-0x4d8f3c74790206b6c3fe186060dbc694a04267b25942505507a8df0025934d77)), (0xf0313f849e88f449ddecee7e8f30603b8b1fdbb3cf774d1188570c68388edc6d, (-0x11c4a423154063f086d42446670e4100a59876e784426e2693b13b371bfa42bb), 0xe15c609209c805334c08d217b82ee86f8c439865219ace13f40f4fb63895424d, (-0x7f398869f86e468f1d17e5a6cc56f39c4d1d69dca23ed0f2bb495ae6cf35a018)));
   (Plus (0x4439107ff615b4e4a78ba12579353ba2cf55b0e381f7741e0c48601ea00be0d2, 0x13fd4cefde99ef99335e2317ee5879aedb6720631d4f7ad148e3256241746f9, 0x122e5d7c54c75c7cd3889317fb19022ba4fec688c9a065000787238cf275ed87, 0x6fdde1d75dc9f8879b5866aa7676f172e8465c324f9405d2c23fb88335961dd), Skip, (0x68ca87e5d24c22c2e1ac71fbd4d2caaf3ba53fe97f87e31de6444abafc9a1f02, (-0xa58d488f43aa7d044764240911dfa284960617f56eab2ee1d6e8411a5fce1988), 0x2ae52ea579b1ee836888fb187fbfea08c5283f8bffa158c703c0ddd9dd31239b, (-0x1199705fefabe2277e7c8754131b2bdabdb60cfdd3ab6e0ccb1452d4c613a129)))].
Definition va_k : Z := 64924834324861491611287137376651443740140697549795241003556133838654234778901.
Definition va_x : Z := 66622713665624427733710315200720396955896638749566533714623508373930515555288.
Definition va_y : Z := 5951082659139552264931445126505688303824635670740611187199882604331224992704.
Definition vb_k : Z := 23353490037854490914269644408047295748724802237888307206247513156372757376912.
Definition vb_x : Z := 114587962745838830171448197200444659591387908870320524443108372009107275313872.
Definition vb_y : Z := 20311001561407482133636670843828125449121465576366059274110098949783151304161.
Lemma vector_run : run (gx, gy) None None vector_chain =
  Some ((100056811408208733275829432225571761443897154861420255832015183193056831248263, 55225563209553524050574769423916742683973132338171759239001668957831436739955), Some (va_x, va_y), Some (vb_x, vb_y)).
Proof. vm_compute. reflexivity. Qed.
Lemma vector_val : run_val 1 0 0 vector_chain = (2 ^ 256, va_k, vb_k).
Proof. vm_compute. reflexivity. Qed.
