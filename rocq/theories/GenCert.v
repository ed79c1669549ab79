(** Certificates for the generator table: none of its 64*16 entries is the point at infinity.
    Generated by tools/gen_gentable.py. *)
From Verif Require Import Word Spec Fp Curve Group Chain GenChain.

Definition nums_x : Z := 0x546865207363616c617220666f722074686973207820697320756e6b6e6f776e.
Definition nums_y : Z := 0x28ebb7e4e1f6a12e1c0faaf47e09c33305d50890856930e67e5299348ff7f20e.
Definition numsG : Z * Z := (0x3a9ed3736eed3eec9aeb5ac021b5465256817b1f08de6cd0fbcee548ba044bb5, 0x7bcc5928bdc9c023dfc663b89e4f6969ab7517988e600ec1d242010c45c7974a).
Lemma numsG_step : astep (nums_x, nums_y) (gx, gy) (0x9b9036bd9012af4204fb1edc4790c9c0aebbcc6ee7f18c80b81ceab5a3a43d58, 0x16b01b30ca632b6f0d922241e972254714a4e9824882f18ee16c8054c4ef3f1a, 0x5e87f3872d6d3a650ae959fe2528e0831a86031bed409ead5a015f63fcbb9a8b, 0xfab9219501458c8fd4bbc136ab641786962c2ffb45d3460b0c3e213340190c0) = Some numsG.
Proof. vm_compute. reflexivity. Qed.
Lemma nums_curve : nums_y * nums_y - (nums_x * nums_x * nums_x + 7) = (-0x92d2223508ed88be72af8f9c52e15e6f86d13d4474195f0b884887c150665ebc1ffee6ac8c0c59a92f21189fca9dd42bdc81401e510296905dea93dc823e775) * 115792089237316195423570985008687907853269984665640564039457584007908834671663.
Proof. vm_compute. reflexivity. Qed.
Definition gen_chain : list rowcert :=
  [[(0xcb35b28428101a303eb9d1235992ac63f58857c2f631ee6936d3aebbeddcd1b1, (-0x3b04fbed296cc1277f1659ab9a6f3feba665d74e98725ee2d39e827bc28878b0), 0xa14e3460febe2c2316bfcccc1b764790c3b7d9ff92663ea740240f16b583e774, (-0x3c8b95972f12b04b3ca25330b2bd449e8e938229d1fd14f76cae42249ce0dc11));
   (0x342119815c0f816f31f431a9fe98a6c76d11425ecaeaecf2d0ef6def197c56b0, (-0xf8819baf19538f6abb328694df01e7f3a13331aae64135353dbfa72a8c09fe2), 0xa9d76a4234a8ded7af964ec3f6f871ce09d7f68349a3bc2d7d569cb7f027896, (-0xa6b8fe4b50a031c6b95e6a27eb270e940a444b7e1a6a43c3d59ce63ab90a164));
   (0x6ad2cb95963c033328d4857d4f8711deff557dd9faaa673b400442833f0efb64, (-0x1b511f0c4acacddb11995426b44becf23d1a165eac933b36c0dae7f6c721d3035), 0x2c933e2a83bac0c704d83956ce68e1a07920f532e04e27ff098c8c712d51733d, (-0xcc0862604f39a0c08e4ce0b1d06b205a54268b6c11e626473e3a3a21a84dcfc));
   (0x82b5a391701db61f5678809054594a583cc8b36b2a608ad9d28e6dc6eb6b1b61, (-0x368c32d2eec6fe11c5495e598725494bc32c3f6b1793912f03d0fd6a49bf599f), 0x42bcfb006a093e6164d0e363fa4eff42d00726a82d78428a4d45660af9a2b66e, 0x5c6e811ee18a56b82b3f723d88d4035a21ec909e5f66858960ad1e3aaac83cd9);
   (0xa69c17c116bc196cf7eeea54e921c6c8a847cd1fce7830438b85c5d11d8edaa9, (-0x28e0f540c43273a88c53c8feb4fb8a4365c9ea85df48b39f24d63b12acaff5221), 0x6c6ecdfb5f03e9f1648ccc828f5c32dfa5b16a6e08dcebc479b4dd6fe2fb7507, (-0x46a6fe3ee26f32e7130565f18f7f196c3add4756fa352b5291715b34db0cef2));
   (0x9693023fb325cc6c7bc993eb684358ea623d5feea8ff351df662beabd0efdc6d, (-0x203e697a2ff0b71f15bbe8e0b1128a2612545720e641a25d3f0da1b92ba257869), 0x58909b0e3b1d179e26d093a041c3e56b0e5fcd45c4d389144042c9dcfcec275e, 0x6acbca9638108e08374e790d2f8fb746c0f38f81a62038c77abfdadb56826ebc);
   (0xb965858248a62719853cd905e78f6d2233ff358510ea0ea5b943889751daf201, 0x361fdc4a9c72140274990eebf278e92277f2810379f0bec26c85c874f623a81d, 0x8643e338eb6e19683eb32fdf68a65da25c77b68ed2798f8257d5687b0b061b14, (-0x211f06a2d557871cf8ee7e9edd31efd5f2db6f7c529541c1dfc12d5b05c1c2b7));
   (0xa49d8a50ec830146a99bc749412a777a3b61ce129ede85c6e0efb3ab786f0b5e, (-0x777adb58a0929912ca9419b4b1068ef88130ed1713de86658812526671780ce), 0x69da3a2aa1054ae403be68d2d69a4ce7199a32a47050300ee37c8f19417ceea2, (-0x637a0add61304922ba9384c35cf17ef5718b22d8473aba8d17987b5d9e887ed))];
   [(0xbc380350880ab969e653d334691ca8c2da83b2acde59e7439ed92d96a9654a07, 0x6dd55cce46f1224cd99f821ea3a2f0a9ebe970a9b8ce11ac81430dc918b68adb, 0x8a62511fbb16418a37f7a5ead3f099487b15785e66a133e078848957eec143eb, (-0x8696444c9f994992fb103911d7efc9d6af6d7ba29b92732df8ec73823bb24fdc));
   (0xca32b832ffca161eef5c92853329f931b1d18dd57a92d1c9e405951b608d9573, (-0x90953e0aa3cbf31d673a4a7391588daef53ba06ac31472174ae974dc91595572), 0x9fb414bcf4202fb4e024eb268f246e198f768476cf0a3e9c48065af44fcaf430, (-0x1342eab16df64f5ba9b6e88c12ba3631e73e06f0d06f7ebb599fd992fd85bfd4));
   (0xb68c9cb56c4f0fd3279f2dec6acae3ffbacfb8384548d24892d676cd6beacbf5, (-0x10ab9b201128ebe909e6b37287520fd58164cf175e3decaf3a10f957ce0bfa99e), 0x822c3c0dbc5c7d8c3c32320b58378c5c160825393d62371ce9fa174521d13e00, 0xd9690ecf0b9571b77cc0887ee3bf9fc63a5c7330cffad04355faeac0e641f21);
   (0x2cce081cdcd8e1ea748567d904a0e54aceea608339ca33a0fe77b27e92dc07b0, (-0x1cb3efe390bbfdcf819c6313ab6c0fd5d5b0011a265233b9dd3aea096555a7e5), 0x7d7789afa9fcbc2c976f10089ceecadc4af3fc8e13d7a06bd87f12935e456a1, 0xb6682da944ffd71cd98d8e92a8d8ada3921a6e3e1e755ed2e4c62cfa9c7fed2);
   (0xce53e237a4383e43d2cf63293e27bc751dd5141d812da986a075ae18d99793c4, (-0x24e8fb3a0b6a6ea6908cb7344acf4817859d5820c0702517d5743696cba87516c), 0xa64b1b8e04454ab8ceb3138d9fe28c6441a2eac506ba0e1cc417de7ba3615f1f, 0x73c8b7268abd10f85f305ea2816400f5b46d07fbf6090801b93354768856a8cb);
   (0x57aaae4151a198790e40eb37fe0dad5ed4d4581b1a82c40124b58ac767ed1ec4, (-0x1a3b3ccfcc7443b593002caea6e5cc086509c6bce8bc4354465c8e5f864c2e02d), 0x1e05743c4ad91be301d2b36fafdb42772de829193a4a9e64f4882f9890335c35, 0x6cda36c32abc46e74112f34db81c84c8eede3927bb247626df1e0bdea815270);
   (0x9a036b1e41c40153b237159c6bb3d2a5b2016404f4873379dc2caa9a6709bfbd, (-0x56b64ab7d35e3e0c4676e204c76dd6fe8d68c67250f08f7001ffff75cd4602f1), 0x5ca81cec16a7aabe0e51d8a10ce3526bda71d880f16c85df21aef67131ed9ffa, 0x1586514a896f918318d472a358ee06b23eafab1d06d78cc34da352377bd187f);
   (0x2281ffa80fd740c2bae31b9dcc726c4b75337eba147b4837c8e75ae398d73042, 0x11dcf2eb1fe38bd2bd358ced3e8a6144c5b8d93d9a2094b6138b5c50f4895dd9, 0x4a6c9ec4ae562069c688ab223cd84c3b090a1f6aafcb1746039cb0dd502f83d, 0x58b28175e316c5dd071f3de544fa982adc1ba84081a11476ecc950d7ba2f416)];
   [(0x875978642d00b859133774fec1878f9e7623f6df9c734f7ed297e920a77b4406, (-0x14a1cfa9fea71de68e71e2ba70b5d638c74f6dd5926c1a65b4b1ea2d5127c49b9), 0x478f7c3e95bc1e51fd80a25edfc36ff0eb8d5523f1ee56a882e1aa48e6ddcd40, 0x49098a07b728aaafaff50d946bf2d2a513aa2fa43789f3e06840d7ea9bc98e5b);
   (0x2c91c953b1c4bbca3c6ea889bfecfb14b8b38c42726cd4181241919036dfede3, 0x180cf242b242782b6ddc768c73161999822f322b86935644713b86083ed0530e, 0x7c2703a743f89edefc57a30f96d1c05c85b29c580850bc194dcf93ac3ddb642, (-0x1c5064ace41d0d52d0627dd645af1acfff57391f8dfb0db7dfae6aec77e0cc86));
   (0xf0d3817330010db820c7710c8ee17a157984f4bfd3bafbd4a49079efd7754990, 0x8f3723c85ff3164db3a07559b4963e07950769fd94b7a173e978889b3444bc4c, 0xe28d41769f5865ab14c24658822fc9961aeadb95b0bfe9fe782f4a0efece7b64, (-0x48eac5c2254e673b8f140471c905697727cf02e9fff1852fad4e9e3e0cd660e7));
   (0x3da2b4137c5e816cb05e3156308a1fe69a2ab2959c5d7dbf7e4266e00e616f73, 0xe990ae18a6113ee7745a636a3d1993460f515c9944dcd88a8c362007bd19267, 0xed6f139b099d9aa320fd924bfaf45eda7b614a60246ed8c5023fab0d6ac9698, (-0x1dc24da909347e11a3224b194c300fc89b725d054eec0e8d6ecc4413a1e57a28));
   (0xfa0afbada0a9a6423d38d9d976a7c41c9b39a2aaf15ea21164d2f6db2847b11f, (-0x105513e852af336d7567a3cecce1e942cadff0f3ce85f4552c889d413e14c8e8c), 0xf4397407bec9d4c992e4ebc1b6b9aca35aa2b65c815e3683e2730baa7724b8e8, 0x9f90065d971bc3b125316059b415ad8a3ef6f94f39482337e79eff1bfba52da9);
   (0xed7816fe6ca3e42058b150c9eeac31ef8a6bda7ee9e51a0ec33e09f96afc74bc, (-0xa6420f67637bb25071e77ce944474fe9df3cfbcfc86659791d17ebcd2533bdc8), 0xdc4792e8a5be0591b11466a7b249cba8f2a33a30c8468e1f561a5045057941bd, 0x37d37953fb0fa4bd1da2e0c78a3d18e7906ea3d2bbf400f5c11966075d72b11f);
   (0x6e90b9e0756852bbd68174105e34094af15f125623b67d2a410d6846b25c4d52, 0x342dcf8b47f6af3e3c98cd6d1ab5f528cfb1ac940fd25518ffb81c887ca736c1, 0x2fc0b18e885feaf4f3a55c422516f3d632daa9430494f7be45a2260c82620cfa, 0xb3973311ebe27e2fe8e7e26c4691f8bb05d7a271d1c18310d27a2be8a0251b8);
   (0x7e8ea1a8dd5bb13a7febbe687540a2aa97761083dfc4fc0b67507c3c08bf296a, 0x5c96af896b670269b423988e73a74796ceb7e9d28d3f41aa6bd2e2efa93d29a, 0x3e90b699f751a9fecf7d9b7af55ceb058087bfeee50d731af382c67bcfa0fe72, (-0x2699f4ef25be56bc13694afd55321e6efe66236fc2bbfe9000e40824272e89e9))];
   [(0x62f219d148d24eff34fe56735390098e29b6a2190daa3dc0fbd1d33b92531a49, (-0x104bcc3d6c16aaa6e41de7cd3a7f9df365fe8717877572d43f3d2ebbc048b91d), 0x263e40b90e093d69ce9cb94f331276dfca50fdd5d52899f82b416e3f11684268, 0xd38110e4317d0ec08c09ffd9caebca5fdbc0a7ce9f3c36d91be61730894d5d3);
   (0x5dc73fb2501dc843956a80680cdfa48134471f322d5bd76fd9bab28d89992473, 0xc8755dd8f6763ccae1800119273c1208b463508ff54d95cb1860b451643b64d, 0x225a5f5ba54771709eb00f06a7c85defb008f07c92d4d234243de08d290a9d9f, 0x50df195688f3cd4ce03b5d5f9e819e953d999970c8e2fdea10f55b49cd833e1);
   (0xda8eabc70379e66ae8e505f49deb2e1b4906022def4c45ec320e33aed7091903, 0x7b5b31118e706a6f8d21e90c3e5ea4663c618a515ed94cb62815179af21e1ba5, 0xba974c11f5f6f104f4a38f0164419677e70a8dc4d1e0c492b7e51bcd3a94d1c6, (-0x30a64c00ff8a9a57ae5268b8915895ffdc90bcc50a5f4835a3176aa1164c157a));
   (0x9d8b0888f9bcc08b82b0ef0ec957cf46ed0d13585e172c0202853ac721f68bd1, (-0xe0548f6129af7ad808c3eec5ca6956be74b732a9f32fe89316f2a70ebcbf4bb), 0x60f3d3fa4759900a4e02f77c69e8faddf6de9f71721c6666a9f3336b8c032683, 0xd6d615abc10d25d79d62b20f8fadd1ed7cc4adcd1972e610b9db0dcba38c65c);
   (0x628a250c32e272b2794c2c98cbb9b17e4bbbbe3e49e114ffca5a57193518097c, (-0x35cfc1360be280afdb778eaa05ec6ffa26e5b529e2ce87b520139929a94e268), 0x25ee0ee94d78c33e91c8ad2ce2a185ae0157f9be8645901663744a1940a7ccc5, (-0x493f7d31b8f78fac89c4032a394cf42509df77a4ecf393a0eb985bf95d964de5));
   (0x6c49014b33417076abaadc7958f95908e93dd2886468bd7d27d61cef7c1fdfdd, (-0x4387d42d834ce77c2bdfbb0b5c3cac71a4050b08b24c228ca392b55ebcd59c9b), 0x2dcdade930241eb3da0207e1a22e90f4e54b1654ef831673a369c13514d214b2, 0x1d7ff2dd811340b382fdc822936038d852438a2146b088d8ab34010335a40240);
   (0x8762ae952e5bd5bdc9316e650a14181f00e4cb3599fe8e85843117f572521c16, 0x18d57cfa0ea5cf7fb042b2dbd6047109dc50de528e7b620039dd7611f3b15c8f, 0x47993a2b782b7bb1a55a1a745748ee73f520669ce44e4201276378f3e1f614e8, (-0x2d281c7b5cc2332bf60ee9702d6c1021f7e389eadcd36c67d7a3aab20aab2c00));
   (0xe68acf3eb9f837fc89edf2ce86d32169228b1c8250e62ede09c7defb08a5eb72, (-0x1fbf47fcc5ce3286b8d6899843d011336ecf3a749bfa80a08b439e03ecb335ed), 0xcf9db7a8cd91045429fa7bce03bbf814b1d518edf5fd0d171f621e432c59ef6e, (-0x365df03526204ca5df090ce278bddd8657aa6696ef30b7519b42839620a90e03))];
   [(0xca43b3ab114e7c697fee873576d7b89f909e0592f9e805e00246c31200fb967b, 0x1478493006042606ebaf3a073842ec13860fe45dc5db3cdf4018312111fee64d5, 0x9fcee97180f397ef7f1ea6a9af040c9da7112c47f135895f18340817b5f96aff, (-0x21dcdd8efd150c268bede9c019716bbfa25aa10b288f800c3643785b508ba348));
   (0xba893b5329aa5648b63c21b3214d40a41e37e6a0566848b5dcdcfc8a25ffb38d, (-0x1f3ac2d1a3a7cab52b1af0c3fadec73303b02fac0b3ff4a32fbae94e73084b46), 0x87ebb3c5654d8dea91a3e57440aa8bde6c38f9cac40343db90ad78ab28fc48bc, (-0x6eec9bff9607d66ec3b7f6de87a7236e34f02e6d8c0b844f8421ddee0b6a41fa));
   (0x1b5d9cdfbd96d7eaf397653b120ed6cb0f4bd05bf004f79c2a9fd0bcdf4929bc, (-0xbd2d5b4b69b8eae1df0bfc0ac9ec40498debeffeda634d668b3379e7187a574), 0x2ece1528caf03c02071834190fc18b0cedeea0605e73d1a35c9a08e6510e906, 0x53ff9677d1ffe6ad3a775007ddeabc1b0ff47b13574906bdb2d6d177386b2f4);
   (0x6fffce26ab9b3ce07d3c4c9cdd3a19704dbc6a95f1a22c054210aa5f5a81e78c, 0x2bc49bf97220d811f26f614d133a88ed843670f5ae586b7ae434016fa1f0941, 0x30ffd461dfdcc0132eebe6398f2c83573f8799cf15abedb73079263a6074d3b3, (-0x4f4e5cbbf56716e444bc2a883978004256a637420dd41e56d797f559d9fae43));
   (0xa21dd47acb2ddfc050df9761631c3fe622aaf7e8846284a23ed2ad381d3733b3, (-0x19c61b813090d31eacd85e2436c910dec28df00bf56da09a34350b6feaa9eafc0), 0x66a9c4653d53b2fe5b7ee09262c5704d9cdd312dee7e8d0f41a9c4b0da856353, 0x2bdd430b65bc51a01d5a5a90048e8d4e4721fe640f7392154662d2fa7e7ba309);
   (0x6fedf4339b46436d0db4e1864076fe618c51a754e1c0ed5708b889c5733613e, (-0x31295687438b3691e3d17d8dafebb1045d575330197ec85036975ce382d6854), 0x30f036f2d126d8f6968324ff42731ef15eeb7688f83513e3844fc2eace0af5, (-0x18ffa9bcd5a0771eaf92f0fa74c4b5f3dc5c9f27e00cbaf762a52d5d2f19209));
   (0x40e29770b3c7c411704888b322ed84fe8f1ed3febd77f9b313d789c587b5b0e2, (-0xce828d02a54b167a3489955d47b9aba38c60d3ef8848873b89e952e9da38bea), 0x10721448167774725d479e358ac812df11493eb248fde6e18c02ffcd66811e41, (-0x23feaab8bcb4c732a7b7a21a60041270259fef8c17fc0750fd7c1769af5cde8d));
   (0xe731d64da4945a1cf77274eb0ec42340bfa0c58f219185f7c0453ce0747d6b8b, 0xe26e53a62ded48e383d4b750729417ac2f708ee52b6a8e4ce097ec35f37b773, 0xd0cafa73dc22a21f375c555e9b3614330aac3ff2c9b3e98ade46d2c35aa140c4, 0x2111d5e126f30e70e074ebe0f32554e4ba78dc4765061d69652b967dad1a93b3)];
   [(0xa377ffff0b36d0535197bead9992fee7698334fa5bfc270f64d511cc9ab7c03a, 0x28cf04b1cbfe92d8768178540ee817b905160ac1eee61d1a85c9bf4546c1ad57, 0x6862083ec76250ae5213dc10e6d2a32a6ada8d51e30e61ff447fc6a4b31ca726, 0xccd96b79f4c0b76f998c898d50fda9757e88f96dd1d6b7ecf22cb0bb98ce214);
   (0x91e807853f048aa02951907b0d14e357cb0c027d7ce98cee84bfad1fcd632ade, 0xb6d7565e9cfc446d7d95db560b85c89689dea1e7629a1c8a334abdce15ffb2e, 0x5328aad2931dec117ae9527e1ce8ba60eff3d5a5a70f2455db452ccdeac3e37b, (-0x2f4cd8ed0623cf25b7caeee67385876cf4af2a5c007e01afa3bfd89898ae7826));
   (0xbe610814de113647213fff8fc6378b31333e2bac4ac437ff9a702a6734563c9, (-0x2205da3da20d2694587a87007f1b0adffc57375f6010372238068eeb7d646242), 0x8d942cc619b325313df8fa55e5c71316b73c92e0c7ebbb2df4d2261a408af0, (-0x104313706e420e07202194031d638c56d395896464c74366718eaff086645ce));
   (0xd423ccdf55b592eeb92ea714083679ec49b74f665d350d55c68ec67e5d2c0c09, (-0x18178577a628529e3eb1b6bad61e03bbdacdaf1bb844467acd43a22943e99d7), 0xafcb50538efade7161306edf77837b9370fa855df9d1d6ecbd5a5726f4d91540, (-0x8c0839d052a1ef56ee80215df820019fc0ad23888b287e495916d829cacb4920));
   (0x7596abcb111f6733bbdc01f955f93170e303c82436dbb0fde28ec3e28d3c5bf5, (-0x1fbadaf4975d8e0c913a3c7ace746e643b12fcb69469535a42841a0101127bc6), 0x360311b562e7af1657293833196a24ab65f5351620aea126f3c9689ed3731f53, 0x1fb6277697e82f3d6e94658ce4115aa8994d7447825b4ae5ca3e1ef9965b8b7e);
   (0x92ebb512788e5c3c7a3baf1feaf8281104d50976aef98bbac62a97be2d8b7a7b, 0x9ac262009b89c175cbd678a06fd84f5402c686a24698d987284aca6056eff453, 0x5451b38f017ed660cdacc050a98f48958c36daae31d09e1aeafad0be1c77641a, (-0x3275e7b129800aed4a29e992243f38ac08a7ae21b931f0bb29f8348a56722d47));
   (0x5a204fe5767be8c7a18a158caff6c60a9ec57dbdb1358bba3870d26f350e4003, (-0x1f980cfc9a0b05f60a24f53b2afe48818d310943b355308540efe3d7d6e0b372), 0x1fbabc41699c2b7439ad9b1815a7da43511779b9e4f43fb0bd5e8de9fac4c4c1, 0x2d26812107daf845ed6cf7d9b6090d273cdd47347275e879a5bf15f00f24816c);
   (0xeadfea0718b376653f01495ab32ee7ae5bf151d6a1f723357d7dbafaeaf409e8, 0x60b689822e38d39abc3f850bf4530e66c67f5ca1c9321332cbdf9ef24dc305df, 0xd77e1bae87761673cc35d3112be995777a89438cc06988a25801eddf61502c95, (-0x3f5cbf298964055465a7f3d480288df27abd33f2bce4d11039a44d2d7496cbb0))];
   [(0x9b0f855eb9be64f095aa255167f0f0baf01b2cd3cc72ef8f1444747071666278, (-0xecac6acdf617a12c0fc3cab2cf7b069a048c3961fe6344fb5e0e0a7396f6dafd), 0x5debcc719b81e297ece66acf5c5cd90c3479aa2d47d460e8e685a54e458b6bdc, (-0x26a27b95aaf6d1c9e9dd930d18c059da3dae6bc39e15846556d58318a76ce85));
   (0xfdb581b7176c1b98e7b283b932a7cc3d388da3f3a3a4b97c01de8c05c3ecd776, (-0x3f36bb616fd840e03bb7eaeaab8b60cf022322a5fb6abb6ef7d609d0aa8806b), 0xfb70431492ecd5f8b2b2a3844199714960eba7f58c99e027000285c5996556ed, 0x1436198436e63f955209f9251810d5844feb38e8a282b8c7a8056030e515f332);
   (0xc95c70effee378ee51d4695a7e30804db90a8fdfcca618c180cec3ec5c83b500, (-0x5f417de978a22edfa469e24dea0573f9085dfc70f76d02f457fd2960ed6ec854), 0x9e624aba3c93476a1c1ee0cb1425ac0e200806a56469fa72c409926db514d680, 0x1697f14e3cfdd54bfc46c4b390e76f70dbf980d8c8d01b56f162416b83c20eb0);
   (0x63d7ea2ee4a031ad8672229ac8cc40f99d6a6bd993bb2c0de70bd8a7958f2439, 0x9a5e54c5e4a209efd50d26d6e5b65893e751550e9fa10834526dd112ce6d1c6, 0x26f0b53b75d1ae0b7804eb5a0999e771687aede2dd39465985b37c36a6999fe9, 0x1985ace4dae13a94f8a94b1cd65fdc6eb40779087edede808a6292d7fcb2c9b1);
   (0xe138738f4b49fa2969a9695a63477f97d2ce0523536f95dc16875715ab6ad6ea, 0x8867f0f6de016b06f074e947321558a08575fdbf864cd266a6a173e8c8d60c2c, 0xc6244794a53307f3e76522761df67528cada871a893f77f50d127cb1408c68f7, (-0x5d630fb59d28b622120326e205bb5b5238fbcb318470dd88a13f2e6694068407));
   (0xec7e64a924b93bbe0b71cb15729ff63848d6104ae7d55a16ed4a41d45b8fe684, (-0x5968060be05e4550a107807a5d46ff6ef624d4321cad7992e1ba5dbad1798600), 0xda7947ff19ca40ef6caf0b245130593d7386691fe132793106e05a3dca8183e6, (-0x5a4e2d67463497086e8f4a0565b68eed5403cb63ee254077874028156d100d63));
   (0x6d623c4ad27d87a850b87e2e4a0f50bf6bb1a7996e6f106a517146e0a4f3fe0c, (-0x1f32c84abb0694a670caade4cfcd1cb03a638c351c2acc30743558c1bdfa8a0c), 0x2ebccd09eebb362a66d66bf71300daf29e5bdc0154b014849c80268019012853, 0x1e785b0a126472d4ce70d4f339f0b6ca729c1320c80c2752b78e81b7d5666ceb);
   (0x2fa83179f09c48753a1a0989c8bfa7bcaa07789b4172dfbb9e127d95a75109d9, 0x21375699fb36033d76b3bc5fd001d67858d8f326b9bd862f0a2e6b6703400404, 0x8df30abbff517eb4ed0980031236637581ebd72be9ecd499cd90c1b16f258ab, (-0x1dc475af5a9788493b421e82879e56362b33d6968273a105ff9fe0a0de002b3e))];
   [(0x4a97f998b50e69d9b7f9c654687b8490e7f4a168b22ee05f0491f67c5bcae6b4, (-0x27e9fcb816f540970a38efb8f3bb1794b7b6ec1b1546063d8afd671a732062d4c), 0x15bc3684ae2c578048480c3cbe2205afdeeefc3a383c1028ddb1105441b292e7, (-0x40b14e41637f2b157c565d83e2950266c9f2b651777595e52fefa5006b9af2d));
   (0x8cce7e98a43ebb927256095ed245cda7f4ddec6b862235436716488c31e091d6, (-0x7a1dedd42f6b92684c9e2128d74e2fad5ba321cf9f9af938db7025815b72cb3), 0x4d728106efe78ecf414172de48d81d5b6db19a26b48006b7f61d08cff9da8c97, 0x3b6c9cad464b87c96bd28e4b6b2b125eb618572848efd0a3c2db3e80fdc42f7);
   (0xc0b764bf04ae63359beb2b4fc6f722f47da0482483379a58ca50aff8c2ea4869, (-0x1aea680db6da70879fdf3fe19077a44c6c265cc2a38ba6a90464722c97c4d0825), 0x91139a7fb7c410527a5580e2a973ed19de91a4c86ceefc4df3c5d842dc61ff7c, 0xb591a58dc639cc68ee6b80d560bc0b59536beb3a30ab739ab716f9c10557be5c);
   (0xa3c1cd6dbe7d265ac253a11905b9797dc3159e0b06d69f1ed4557b410f8c657b, 0x91688c93a0b41c71f52a5895b8df31b3ed88efe531f3418e586e7929408f7c72, 0x68c05e5124e589ab9c0d87df63130f83c3a503a1480286add3e97e5ab7d86cf3, (-0x8a951fc6e7196d5bd7b9c658083e4911dca8527b958c43c31f07cf6abaab1bc3));
   (0xecb2b47c0a53cbd8b883c9082e22ffbfa4740065d4f8e6c4b1d9d952c1a87d9b, (-0x21936404a9a6085ecf1c0156a0851bb54b374e829e142fd5c53a939f8fffb42b2), 0xdad9f9842ec786fee5d476b176124e44ca606570098d3f60b4c76f8676d4fab1, 0xb2c8062953910ff70aadc377aa96b8be5514fbe3dca834655d7d1090765445f9);
   (0xb9f84addcab19fb53a62e79564f6075b848477821df6d6c58668d8e9b2501575, 0xd670256d7deb08454ce883be32981339ddc4537d27c02bed4c770daef2e73483, 0x8718cd05b2926a4fa5036246d666daad8ca3b5a3c98e7d865de6e8545bd1131f, (-0x4beab7d1b16e8543048c13b33d73f80d14132747bcca21662f6dbc1acc88d7c2));
   (0xb85f00972be3aca06a4006fe25944a7b97d92db2916191f8279dfac008358bc4, 0x5872cff2472d9345fd69eed5a3d50e49fdad0162208295b3b9a368f98f0ffa42, 0x84c8b41abf4a346585e6d1495ac3322213d08eab8dbffdd65f71f152a23b69b5, 0x38ce50ace579c3d569266a718da78c5f98bff14b165255ab9dfcd4dd853878fc);
   (0xb8da1c1b8290384332fd595699134eba4c3656f5b3757b978cb2fc1a9d8843dd, 0x2828e0bf1e9d1fe8984eed69bc8f9b6bd34b8c1eab9eb61a5b63c26e57c426e4, 0x857a423b6d9fb604c51063a0684463816ce1af1f2497afc9f296bde394ccb295, (-0x179026227c9aba40e382b7db4aa22a20d9788a715f4a34690458ef76864657b5))];
   [(0xc985b179caa5bee0ef6acefc42c0dec227b196c5dbd0953cc43c5868392e7cd3, 0x54a823a57da8af30a8be0434766ae1afc6d78eb92734cc2507b3e0f6efc1a7b2, 0x9ea3368323ce7a1ff0b9f641ce3c90557704df763321e14b45e35824eaae12a0, 0x14b4404b5ceb4c2c32ff2f4c679f8ac58aee29f289033d697669b1c2566e3a7e);
   (0x763e5105893ee9da8d95edb04989f5b32792a272d4bebcf53e8945d7a87ac229, 0xc25edcea1680d572280c04d9ee7069149e29c71b94a895c0c862c455de02ab4, 0x369d81dc72d8fb073668a1a2147a4216848cce5cc2860a8e881f6d384b0d119f, (-0xa217bf0af3db4dc1b2118bad40e1a4c240ff6cd44eef98c6ce89fbdd18f2e52));
   (0xa6d04e5b19577537db75701165cc1aa476cbdc92cb167d90af93b785d698742e, 0xbdac29b962115ea33a0a115ae783fc7dee05691e6ab124bf8c407a598878b073, 0x6cb2cf1d90e23dff3d7e7e640c92991e4765d6b76b6f46cec27537b1a8c3894b, 0x2058ae474acad1d6ba1a83b0a8025efa6cdf880696de36bf4a6899e681506c7f);
   (0x38d1f280fdddd51e67d288f0c03704cc69be8ba08b2bf7212ef939c4530e14d9, 0x10daff1cb49cd2c3726be10d3f1e53b29018ef491776937bd71c2c06ba79ad41, 0xc9c86464b67b269899473d68bc308a4a30bb8a5d3486b2e603e3f6b272e7613, (-0x793dad42e065a014773f1cf25b35d551bbf51590d57f217afb5c1d1f8b9716c));
   (0x4101e2d2eba00464bd883bc0e2340ed22811cdc176152f849ce5d685a319e62c, (-0x438c44cf7fedf0478e597dc32da0d41b8db9dd167c58b2c88675b80102d1972d), 0x1081f532aa462f492430e96a595b21558e9634ee14416e6b399341104483921f, (-0xaa6b2e34091b5ca255758f374fc77824f5b4cc589017297cc3da260e04ce822));
   (0x4479d94c2f98166b4c1d24655334f9bab459cb5a6c074f1e9bb5b9ea97b6a18b, 0x62a078adf0cf64e9f1a14ec0ae8d3742c3de95d9c8838d3019f9614bae96e625, 0x1250f56f9bc0090a5305d836dc51e3fe9f40680ec79afbed8fa63c9e881374c9, (-0x230a8719be6d755deb0a1a8aa993f98da9304d2c9426822f51ae76bf78c5ee8a));
   (0xa7b982362227f242f3344b52486a281e482c1adb47a50cf0ac8d31253d008d9a, (-0x24131e8be5ae3a984fb792ecbafcab136897789c0bd26e118febb6800ed50937), 0x6de38e50150881f27d8691af6c392549d62e84df5a54d5820c6bf864a88ef766, 0x5705e236f9c47c68d44241626d2d3219c371f0a03571a4f5d48c45a22455e503);
   (0xdc7a9fe987b3daaeaf3a96bf4b0caec9b526349599cc408053b6559fbf9ba577, 0x5f522d0e91f12a9d719972662dab0c5bb2e9862efe52a3b4848e002e4a680fe5, 0xbde2fd962fb662e262a3f595ff202c80aacd406f6de8081d43d8b504c213f60a, (-0x982c728d661a15be5a246cd05e8d6ba73095e7281270cc32e95f52bfe104f725))];
   [(0xbe5aafdeb2f0b1599d1b413e816d0ae93363953c3d97e4fd3afed1c367f9596d, (-0x4285da49bf5468a41d4b91f6e39dc72abb96589a72fec0cc2e28fdef6d45d488), 0x8d8abd2eb30552dda136a12807e6feacf10e413ea6b6b639125ca53d523ca891, (-0x33a4237f1808ba9e406cedb0a59c1ac31d3b27a8e9e005c420d5745315312a79));
   (0xc4501fbc8674b584bc484cff7d1719196f5e4d545acfcf75cc1581a04051a87b, (-0x3541f962a0fe7d9b48da21719e39c6d7c440a681f29afeac833e221fd30b94cf), 0x968ac9ac87a5f24ab94386e15a2bcd9c24d786c1988f74adf7a06b4e64a3bd73, 0xa1abd46791410afc3a434261c75c0103b3c235bba9e5f7140283b4a9e6e5067c);
   (0xa6a6f72a0273aa6f7b6276e647117f1c0e9f5561a551c6238ec167ba7ac03635, (-0x2221c2a4666307762f95d1f4688e7ab60f2529db6fe40017c62077045982a178e), 0x6c7cf56ff44b46a99d74c57da41ce0f9bd2448b3a952547fd63066ed6ef96778, 0x76e50a9bef7676950e7d97600e37b41148cb63027b6939b7b770f18e36e8cc6d);
   (0x191045129eaaeee9bb7af8b817d2cdb2add3863843f4ba92e0bc017ba76445a6, 0xb14e41d5e8d04fa68b14e48a539a1b38ca09e746769d44adf0f128e032e6a3d, 0x2742e8657f442ea5b007cec63d89596a05411344464009eb47fa5953165edb4, (-0x3113858129efcad40898cb06bc335be76df19f1181d0f51f6060a49534751d4));
   (0x661e9438b3d5d98876cd20399e3f734a8cd906425502ccb22f927eea722ecdc9, 0xac3db2a808970e34554f42f40216660e565861741fab2fa56fd3ef19b5ed20d6, 0x28bc61c4426a2bf62a1103ab2aad8d7b6baa51b46f96bd683c2df5bdedd605ee, (-0xfc7690030a70a2a61e8aa14d61bc5e04f49ac9e3fbf24ba7b716717c1d49e53));
   (0x8dee3efccec9fbd528bcbdfc380d106f09ab41277d36c65ed6c4dc4784ea857a, 0x7e9109f1ab6d237b52c6233d46453e5890e4548af0e459f783e8cbe2a48509a7, 0x4eb04f1ba95a6ccaa9e464453058399cba2c109870eb3bdaa97b0c93f41dd782, (-0x5e27807737148c8a1d60e704012cf7d449c4f154acda8f41f0893af414939b9e));
   (0x96a5f58e7ba943eec9611562c1ed2e9329601fd84df569ebda0afd855a5bea82, (-0x21546b3400e07415ac3ca2dc72b81bc0c792f2aa1714f34c796c768b3b4e8a53), 0x58a6e7596e1fcbcccd57ddc2c002b7f09f5257205a60d340a513ab58a91187d1, 0x3eaff8c2532900c294cbc39f01938323bfc886ba35d3a3a5cc1322b64f72d6b);
   (0x2e7e56aa3c393f31512be7989a08931dd9340c038a293129f63ab789a1d796e1, 0x1e631bd9e9a63b830ac45020352d6819fa7274a817f58b14b61d8b7ba57072b6, 0x871a57e9a8eacba6e5fa0e87118dd0a545d26396b6331cf7b8cef78ef4bf025, (-0xc028854c21caf6e7aec36c88011c60fc0a7a03e239dc6593a1e17940e2899c4))];
   [(0xdb3e8ec5d990ec59421e6569d96dcdaecb7f725432c5a4ddb78439afbfe5554f, (-0x23cdecbed11cca3538ea823a592de789c524bf2ab7af7d8e95a246c2d91901be2), 0xbbc4178ff9b36cd88a81d1afc5474c5dc2e536b9e0f0acc77f9b2426666e05eb, 0x7a549e0377c36bea062b4b76d3a56084838cb9c1278f396e189f824c9006482c);
   (0xb01bf3ee80fa79b52e5f22cadd34cd0ed24dc6844227724b66fd898810c45e8a, 0x62433cd4031a2dd0b7b4a0775799239605f006399fa771705a98aac5019040ba, 0x792672754e16433e61be499a39ff8ee88900dc3032e48f8ff3782e75d049c5de, 0x1ed433433eb1b3f9e407eb4799205053b84444f48bb121493784ee106f4e785d);
   (0xf18fad968cb987adc7d7c35fc6ad8974a3fcf82a55e9400e7bf3015e6b558a5, (-0x341aef8155267225b84f83c1129eb67f111f4de69d22cf122d1c900099807232), 0xe3efd578d8db5b76be90d381dba2abb6f39f69ef7b3c3e43d78758f5ad0f6f, 0x3f41c31f9c9c69fff2b320dbd3594391fd551f32bad14b8b9969d4a7703a652);
   (0xe717153db31308b34f0cd91123a43024caefa5c13fa07b6d1269fd8fc7017d9, 0xbd74761b6bac806d42fc0597d06f869c98d1747b4959ea89271fa6535125fb2, 0xd09aaa6a2c05b55f1ca4940cc2985e659b526388ea7b5e4c9dcd0e75b1aded, (-0x112c93fac30f95b545cd9c415f837d178cd32e6731f15f9bfc3967d9eb03a44));
   (0x97b328bbef5398aba298104a8d641799811c9e6e7544bfad633086efb4036db7, 0xaa2e36a33af7533e58a6a7f8ba1d2a770f1d913fc7595a9923c0e27bfb97bab4, 0x59e4d76fb1a091c39d68a3ca9e3c8816e4b070f0cf000729b5612f29efe29128, (-0x4f071349894967ed30babc763cef286d37c4a6300f0c104ab23402adb104cf6d));
   (0x82cd82212ae9dbf4101c8671a40de941c0bc39b23359c41063b171fe4cbf7c6a, 0xcf560c624e549b7b75c9dfe917c089bb70899eeb05ce5c35ff039911533569cc, 0x42d55d235ad9f1cfc01eed52110f1f6251a63fe8d72fce0a0c99268ca0d158e2, (-0x3f589d84df18f008b2eaafceab870480909ef201d86300eac81c1653b4f4d953));
   (0x8825d32d6f935a60a307cc60f476aa41f183ed43261ea1e1fb9d4b5957415322, 0x2daefa8cd015361db940729686190ab737823691323cdde955b9a366d6af7875, 0x486835f6ffe2be9c1e919950fbae8191cac496901710a578132f35c1baae1e78, 0x27eedcb35c1aaa4871519c4d4c5afa186d62902dda4e0ece2a2607952e64fa04);
   (0xc1f9f955ba70f125a776cf539b4a1a4568fb3682b8ac4f16df631f9a80eeb1ff, 0x3db0f3ad98564967c5a4d9efe2692b433153a058311be09297168ef80734056f, 0x92fade0a3ebadcb4eda49cc050733b7178b09a64ab5ce245d545862ad1097110, (-0xfc50b74765fca418dc06f210f17cd750471725ca01811f625c180b32d8206c))];
   [(0xc5ab93dae7b4d1d3c5edfe8bc49fa6ba5566b166494b830b6cf082231fe99f39, 0x9e47335685a3f69de417a2be480ca26797fc0cf14ae2c708daf4104a53f423fc, 0x98a1848dc472f7c95a311a1583fdbe2a681eaf83c027acce20c6a2fd8b6aabd8, (-0x561c82ccb1289b0635cf65b3e76959cd0f84037300f8739a0e392c864ce97894));
   (0x8677cde6d434f26e964d032b4c129cc93d5af4283d25ce229c2d49106d6fddd0, (-0x3a9417aebf3d54eadd77d8ef64944883ad78e9b5001a93b48175593da95191bd), 0x46a1a39eb85c3703f378d2d23acb1f8b0bdeef2e3ce9fb7e0aa1ba3054b1b013, 0x242c4a4051ab0892a068a2dd16acba5b717418627f7e9490352a1d0837bb4588);
   (0xde12036f73e80356f7db91954e2ca46c56dcab93ec4efda7fa9e72b8b3a2b20a, (-0x2291c946a0bf46f28fd1deb7521dcf764a2a4477da8a6e9c92db5a80b433cc639), 0xc0a33f39c8be7fa875dcdfdfb2c1d4e07c369ca29f61911a3e83c7ec9d02d330, 0x1197c34c8ca378d5a7cb32a416af77900517029730af857795a7bc9553b386fd);
   (0x2c1e8accd8dd49441ad2c00b52240fe827fb7b43f3d028a9df785d3f91e710a3, (-0xfb97bcb5435249906eaea69cfe92841d4acb6db5954f27b637bd43e9d351762), 0x79a835b3dd062c5808f17c95fa3c9e2753c1ae47749be60973391eaaa9ce910, 0xd6990fa0ca87fcbfb08a6d5cf4e95a03a4ec1f507aabf8a8c15c5be79f6570e);
   (0xcd7ae0cfbc4336a9d797af31b1c808f37f0cfbe022ae778efd43b88fe030ba, (-0x1858f30bef70d26e30b496c7c44f84143baa0a23ab4362b829150988ef0c4499c), 0xa4ee0707beef47a3bbf8d50bc935d4d31d97c0804608dc7b35df300fc1b0, 0x67a0ad8808775d882f47943b8157a1f5079cf6a3eb6120669a6bb9651bdd7d);
   (0xeaaf7c28dae8dfa52783d0b7ef5ebc91aa999f58db631588e00a05856dbef4cd, (-0xb5de42807ef7faeac174cacd6b51f3c6388e61583093b9e142b6e7ac72c56bd0), 0xd7254745ac449dd26ca852670e7b2165dc0442973b7deb7f559e4b0a505818b8, 0x5be88f160c3da00c5e65cc0efa23d8963f62f994e28b4abf41c99126f8c597a);
   (0x88bbdb37a63b2df0aeee6863918dba600bcd52adc318b8a443683074016e0420, (-0x2d62f098d94e94cd9e429f9ad8e55f2cf1bfd3e8b39716a41a700b220527d7b5), 0x490822c51fa3fdc6f175352fb534c1f2e28a6418993b66ba55b8c27bb73b5ab3, 0x9c3773055f981aed08da6c4dc105c995058e658783eb3c8b52cb662a25cab9e);
   (0xe24dd5bea26407ad1269bb707627ee980544cf52ed946ef952343ada82da93d3, 0x93171f0914e4f3c9201e85c82d1f2a7e8a838c398533b8ff4557b4ed68343aeb, 0xc80d850edddd15ea1ae3e8e5a3e014b038f12b874110c3e9796d3233f9977a91, (-0x84f35c4a686d9a94e24b88afc89c020e27b80d810a05acd20f8fd3f5f3129c1f))];
   [(0x27923dd35874b9d0c3e1b1930352c0c3b0d91412f38fa8c1341f5a73beb4f8b9, (-0x220a74733606e362e6d838e91131cb2614a5f6f517fb18d013d79efc2a7d9a2df), 0x61de260f8f2dc641d5671fe3e19dd05802b6d4d77e5d2dddeeb5c649563d2cf, (-0x30c020183634c80539172de50a073a35681439960889802ee4be6e4a2f2b74f));
   (0x7582ca93e9ef21ff43d542f9fd4486770f1dd809ec21f1ac8f0d5b3ef26a1f5e, (-0x90c503337afeb479b22e2daebd0df5befa1e8ec4e38b38db6aae7d73a717038), 0x35f0cffd925bee95bb4ee14824a1f56db389c9205638ea9d4323431cd8a379e2, 0x23410ea248a9ffd91077e1c180173a5154d6d928e7ee9d4d0ec079c8e6c9680a);
   (0xd8880a7ae61955a53b91ef1d5de7f4b9646afd475edbbc8974911329e12fbdcd, (-0x1a4352b65422c6d32a060e95804f8ce58a213f8eb6200b203b728dd1bac4469a2), 0xb725d9fa874d106bedbda11a8968671eb7e0704be7ba270241a962b6cb63427d, 0xc6b0383fe88d628a967a4b3374ddf9c6a4ce776f9360cd6de8b8f97f19c9a2cb);
   (0xda9c4d27a04e8042a770187ed490b13d0136bd057b489c70c1e5d35afeaa4459, 0xb7c37bb7cfc041da79dcb13ce0c144be41651849d1f71bbc08e1fb2805f87cbe, 0xbaae92d59c91eeaf4bdc5fc409aa207009ecb4ae7a39299b15b46b17ffc215c0, (-0x45a21cf6dbcf38bdfcba45bdb9068bad194d28c9b32c1d168f7b768741f20140));
   (0x71a18d0e3089e59e4a694c816076a9537b45ebe52bc9b8eab3080bae75a53672, (-0xf36cf12dd8db92f353df4dc84d2dd18da8b808e3ef9d87872ab9f8cd971d59b9), 0x32700479406b6c69ce0409a780f6ad8aaa75f3721428bd0e7149b8d91ee5d977, (-0x13d1fe8ff463fdddfb8ed13bda2c915c4b29a7b2cff4483f22eddac563b1cc73));
   (0x8676b3eae525414b100a173e847e521f75a5c46ae628b3858b1c1fbcbc59daf7, 0x1111d10e821e5a493e5805935a47a2af94da445396b2fbe4b738f49f9018edb4, 0x46a07b6442e092ac94835b868a5632a799c50b21501075739b6b332df56e0475, (-0x63106a7d28abddd6da9a1efa65c57dd78d6be6b1defea936bbe46a3ee2b464fe));
   (0x4deb10d2973802a2306e9d3ef2b03147cc948a079b136b580e01690ae356efeb, 0x817c2841cac9f84aa1a064c963635e1c62abf4faa6770e1e759f2dc0e58c724, 0x17b73ff692b4528dd8732d2e54d00423f790788d7a68ed05561048ba5c251538, 0x3b0b488dd030ca0c368432dba04288407ea840511c4a8703c992f03d512b370d);
   (0xe784b1c5995983fd9be91fa95646add76dc775c02be52d1f86ab7eacffc380eb, 0x7e6eeb487208b6ee44ab5853636ccfbb167facb50beb5f7c2aa802fc7378608d, 0xd160bd9a69f88716f50d7488c1a8034920751c21f677bde80d15eb4302f9f3be, (-0x4354c284ba9d65f10de0a3e01c25de0d882d207e1b44438d0847eeaf8226cb5e))];
   [(0xf53ade417a0d913b3b9e411781e6e8de0ff1a6b169ca912fe5495f51c90530d8, (-0x2cfaaed409e0aa6b343ab3719d3271b797debde12efa2a4d581de574a278bbd4), 0xeae9baf2ca3ee68febeb56ebc3c7b4f1d50b6434542093974b6ef659254cd8e1, (-0x361da5ae59fe7fe77b0926417cdb13048a8813258c1e0f999cb3919e9f7828ba));
   (0x81226e9691628e46e83fb1b34585d473b3e47822a8d48bedf5129cdb5903eeb1, (-0x1c7f20a9cadbaab32e8207bd878dea15a04e2ba100820ae09b2121bb5adddf47), 0x4123b8154e49af10a53a57ce577e5ad9261ed62c152ce1a83459ab3b3f330eb4, 0x77a87807688e7a11a51087e4d598e44f82dd9b72f2fa531844d47bed8dba4e79);
   (0x32f78aa8da44cbc85c1d785fb24f0e7f0da8ec5386523d436bb3a50d1e52fb8c, (-0x29e21aa577e947ff1d8d971661e2bd7a327de2391f4b7c74d8ccd45b7389e2d75), 0xa25a186d2328b0ce0b5fbba78509fa09884c4ae0fddbac11b1aa91b1691e2b2, 0x236bd082730989c579c4a37fb62f2f63af147f2e4461ec910dc75e9264298f56);
   (0x1b5488dd84a89602fd884a417f66a13a5a77343b9cf68ab270e9c61bcbb9f7, 0xcf684b98863b516256b0d0aa9030ef4bbc8c7f5b01f4e05d96795631d7f16, 0x2eaf0c8d486bae882a5995d6959de68c97684bc30e94020acadbdb19964, (-0xdb10b6db2268f06cb7a675e09066250422fcb811f3eaacd7596bcac6b6cc4));
   (0x6ab2bb553138108225809e64cc4d559e676760acf852479cb7baa87de66541ef, 0x50af8ef4abff4061fdbea9df6ed500b0fdb6fd6055a81146e740abafb27787dc, 0x2c787feb985071e45cda45d79888c39cf69491008c0d295e0a99943f65716812, (-0x1a2e630a7d5c5044697d2ae223d464bf5ec9dec96f7dfd78741ff4848d3e8e90));
   (0x2c5edb78f874848d89ceb49fa59a1ff38ba3a6605f567ca67bb74a6e78c097d7, (-0x20b7e56b8b52477c8ed413dce38272d418486b06ace054219d3b6e662580768c), 0x7b0be977e66b5633878a63700e4b8d365b2a30e773cf37429f64aa0e34cb30e, (-0x667df3881c4e829712dbce3f84444604b9cafb317016b42f06919a510cfc757));
   (0xdf79e338ed960c908a706e2298b222366ca21e269a9f58d5229c7398c2973db4, 0x49bbcc25394ea609928ba744c4c4a22f61cd406b7316d1d0b820c150cbf44d40, 0xc31593e5c36a03bc9a3fbe1eb19080319241efb1fd13e85e5e4f9fcecc1d079a, (-0x26f040f75c3215460569260885bdc20f9edabc4b082e2e88900b10299b606255));
   (0x192fab56a41ed0d5732786d39007cbd6bf9277879584b3f5291748a8edd76238, 0x571c34defe750ecb2430be61ac8ea0fd1950a8247fe63384b305661a90a19d4, 0x27a5857488b24ae37c6f760186ad057b29d39ac73f209fc2dc1ecbcded2d7c2, (-0x12e5ba4766ce700250641b1369b45e98c3551dff787d6618b79366040b43b0c8))];
   [(0xdebcd686b581f6645f94a93467d0ecdf9e4ad7edeedcfeed57d9d6364c78d427, 0x10132324aa38de45cbe6b9c79593a1e65702ca96f433c7554d533a3090f641def, 0xc1cc0f5d6c6d7c8fc5e1011431013040e05ac70f323f7c05374f90bab2337266, (-0x2a6c6d453241d117ad08179952492e90264f7d9473e67c781f7be0cdf2b1c4ea));
   (0x6869e9c513e7e7c1171768c200d3da712385cddef7d8f359ba78ba0fdbeab727, (-0x13e317419c22165761a5234f4ef73c0c211970de3ca10a1363bcbd883fd4012e), 0x2a9639c1b94f167cc77c6002703c5e77f408398db7f23dc187bd5391963e02dd, 0x19260df41ac8cc65d40fa977722813aba87e6be11e3d21372a06f5d0055c6b88);
   (0x81751b61f3b4ad7169d8ac62378adc14043339e3a60078fa2bf394c804c26e20, (-0xcbe432f6b2c45b68fa24adafb3022c0c99f595d65db68931d41b776847576b1d), 0x41773b2ac212a8d589d8fad82440bc210dc692de71f45c5818e6b1e5dc2750f3, (-0x1c2924335fc07896590a25980bc056369203e56969626f062d6635cc3910a351));
   (0x3e4cd7ae1782e623ce78a6a413075d333fd2cfff5ce525f1e495864080358284, (-0x196b038be29db39cc86490122d00a8c17be15840fb5df6f82c8bd1e014c0bc57), 0xf294f8918773f13d3eece1eb8e8b90206e8371f0e7afc840d7e5dbd08ded93a, 0x1d4ca5b46188994ff5c6093f2a0530a8b416081aadee950053ae7e17695f9eea);
   (0xcf29c3e4b7fb38366f57ab98860cfae8b0a2adf02eaee94d4a7b6ec3b5bcb545, (-0x6a253805ad3294edc3c2e360876443b9ec1186d4a040adc81074df22a4ed3f02), 0xa7a4919c36b17000fcd7a1109d7d7b5b4ac6c4f7de31a3c0a0c865213aaf2d63, 0x10a006ca6c455107868e31461148c51dd5fff189e7e8f8ad29a46ab61331bc41);
   (0xea6ec05c50822815af2653e43c1adabb3be24e602591c72373d731cc1a44a051, (-0x111dfc880ae94af33e82c7217a6fa69125215107a19a2aed7006f49a271b0d487), 0xd6aea792a30dbb2f49d387d7012c0513c57b94ce194c58854db63d45feda9d6a, 0x80d2dcfc2fc561a802a26c9c240641b035bf2336438bb709d86f03cff162c158);
   (0xc26ccdb84c6b484ce96f211f74856e0d322413d725ea1cb4c0842dfea59c054d, 0x1b83d5d0043eb89175f97fd36709572fb31f16b4432d8c2755237a39b4980a91, 0x93a916098ca3c32b55846046594102305c23c96bc03b10f54c2f6c0511a6d301, (-0x7b733c591ab838068f50c9248b47981c6499e1266539249506c5b94ee5669573));
   (0x70dc5ff773499b239c063c53af464fe5b34efe418461a030cd0a4feba464b70a, 0x86cb079c71e4aa17e6b863aa82d49f3e5c7bd020b2f258f2999b15bb111de41, 0x31c191ad9a2825021ad2a290748205f9e5b88742d968b04044b434f19510dba8, (-0x106999a7de46c8815843dc47258f28eea389321a8d2e84ebec1ab14459743c3a))];
   [(0xe60635d4ed2d254e05003b55d58bd309cce50b703f8dbf6d4700a65d85559a25, (-0x1de5a17fd7679964f07f1944ed01d28b68944e555c146d2592809e0fde5599bb), 0xceaf28e12b7a187450995cf3fcd0e783fc8eb49eb8accd328b04975b09a395a3, 0x340890367b61b8ba95fcba53deffc80b83227fc04a4b632558df4810f42317e1);
   (0xe48219cefa488213887dea6974a97c57bd421810366359619e2b813e4d94acc7, 0x33b0c5084bd68374d9f4cfdacd90ca1bacf6f10db5636cd9adf5388a90267571, 0xcbf80016e6a16d90d1c1c41dc100c8e6adfdc57c60702c956a1b3377b9a3188a, (-0x9aaba95bb582ab852e25072f3de55c09b03b3a87405b1703b42c6c7063addff8));
   (0x7471bc58c865f770a22bcb1e2465507731b3ad17d19c55c851a736531fefafae, 0x52c23fa572c43b1c14356c9b4abed3b19310be38c0e4535b4a62ad4de4ec89f0, 0x34f74538468fd762aacde1999d76caf70fc377458fba5b941d568c22034084a8, (-0x645582eef0e567ca1b23f150258a06773eedd9ba6437d82b180bd819976ce7c));
   (0x1a324ca2f470b18a0f724f130f9ee7a42bcc07cf605af921bab0878cf8ce2f23, 0x483de1d8cb5d3849bc68a9eb82738bfcff1a3b9d351e6d5338ae452b00a7bb9, 0x2ae4173203f88f29682f0a92f9d651833a5fc22b772728492e9a92a54a2f8af, 0x1dcc2ee4f23c15e3f44e98d2280a492dbc20ecefb8e3f3cd56118bca2a6f786);
   (0xfc8b77c63b617183a057724841ac01da6f529c5725fdd1cd5758c3ffbbc51875, (-0x3a38b16ebbb721230c2e5f9924a829ae09b2c3f5de4736c263c6d98452dff7a2), 0xf922dfc98e363800e8a64e0b934331702802b2beb34f136ad99f170055667ffd, 0xa8ae2f91ad01f31a7b47eab413e97a675d1644990b596dccaecaca29e854cc87);
   (0xc84b8bb00e0f4407e49fe1be00895dca6d817c8ce64cfebb5d67625411bde644, 0x2c6dcafa73fe6c863e18f27415e11f0ab9ba17f5ead495848d7366326283c088, 0x9cb6208e3b58bf961b7d8fe1092825ffa19cd2b916c610aa6a7313977fbf2720, (-0x27162613a3c0140ea4b269daaa2b56dd1f7ff207a7bb1bea44a274970f419c81));
   (0xbe816b613343b67ae23d0d58ea68a6673d0814e372e1987e9b5ccd04527e15ef, (-0x45769db0a37323981292113122e016bc393d5aae968839d3b670b191d475cb2), 0x8dc45cd1ad1892decdc9b033e785b9bfb4174da87cfdce36af52c78a1cd43ef7, (-0x1b4ac049d3a8e4ed1fe49f2d1c75dcf91143ffa1408f2614161e6483cd80f86b));
   (0x8e2807b19d1c8752068744b8131e3b3dcde083202b7b673ce048c5dd085cb289, 0xdd9d9619be2877c436a484341086200bd1667a11bedd1c8301c9bddb6faf6ab, 0x4ef06ecb7207f0db7a25b77299058fccd3c4c068b54b01ce6bd0de4cde36997f, (-0x65dd11205e1e38caf959f95d4fa0944b6c9850465c91256fcd28a6af57da54ab))];
   [(0xdfada4b2106cac4951ec538f3d828576d57426ebe0d870d5e091e5b044aa5639, 0x4e8135dd97fd642afb502064d179b174938cb3a12874597604bda1dc3a95c1f0, 0xc36ffab63b3c27eeacbdbd94308385dbfad275bbf2f1efd2eedb3fffcc4111f8, 0x47932449e2339287a45b7f4534a5c3a4becd9324390b6d64352ab68ce281bf60);
   (0xf0b3b66a959fc7bb49adf2d28fdf865989c2047a537b02eca98551e7ca4dd1a3, 0x4d05adf04344e3bd9729a52b48ac1b3208454009214487d198233f1aa3731dac, 0xe251743073948d0fe9d246a273c781bca186afc4909a2ea2538999225055e24e, (-0x5f7fe1961e8a192794040f8cd90b71498f490e145fe350ab972f95d763fea36a));
   (0x51ee9a34eead0ad899a54439d004a42a2f3fa11be3c4773c1dc6457062e3572b, 0x1ed5cb67fb111b420892c7d794c43ba44634d2984517aa30b6a4507e332580e9, 0x1a38dbf8965904b741d77a73193f95c44915f3d0ca8dca55c236d04790d2c834, (-0x4e2f8dfdbe4482843e5875fb8e0b3dbd85fdb7d0cc825f5da186d116b6813611));
   (0xdd5ba7bf08c496b7dabd77a60f52f3a90ca2b23e1b2182768554b298d0d2bb15, (-0x8c677f8e01c89ae9be06bbfd40038fc3d8ffcb449fa0c8f3943a357bab388e93), 0xbf67607084de73fb28aa4965ff46116e46e993c69151d557d11d51a7ace9fd51, 0x9a6100bf0556441859b396ef65eddf6f8d177c9e43351b009d95b9f72ab26e13);
   (0xc5077e0959a798b3ea99132efbaccfc838c1ac524933e2e3f2834641734f64a4, 0xe35c8052fc6780ed1df0e666be0cbf8b200a5908d55ca64d59c1f9a1aaff710c, 0x97a48832868c0cc7a8663960387ffc5eb51c36dc0132c82c4fe28a85fb720475, (-0x2698557e686193f20cb0289e5b4d5066f2462ca4d1b167b92108545afa1cc72d));
   (0x602c9992d00cc6030985312c38033bca60ce74f3a25777862a7288488389cdc1, (-0x273f7d5064c2720ac1a414d7548049caab349431925507daa8faec262d62ddea9), 0x24217af342a1e9c7948569ea3ad2a67fd008eb2226f76e30d454b42efb1c69e8, 0x268e0b9937fcacd68c0c1c4220f48e9cf647ba267cbb99f84bcacef3e4f9db49);
   (0x47af66545af73b37ccff41c7bf7ee848e810fce6e9942df190a9f29382f5e94c, (-0x10bb38ebb2337cdd19bbd5c0f8b2b5cbac5b7070de8206ed35d14441de7e7673), 0x1412c2efdab0d524bfc1f3d93ac25f81950a23f26b6f7cc4c5a8e3769de0a483, 0x573ee3e6f6b4c93fd379855474ec343c585b605f86a1e5275bca465f0aab201);
   (0x7158b288a3c1adbae3f63fb92d7fe2f831b017fa6a85dda1b9be14810649e539, 0x257fbdcc45b0d59b77940511944469a5bacad9a2c6b8cbd5e479f16cdf09d037, 0x322f6c57db03dd2e29dccee557b8d54e1a1ce35b69307665d4e076a8a0d15b09, (-0x2e27126e465697dfb0dc88da9f0cf2657c15882fef9b47ec74757d7352c1c2f2))];
   [(0x2caed624594a3483ad98859bef75a97ed7cc509bd906bb2b23fbf9fbe4e5004f, (-0xd8098d8f20bf73bcfc1de03569fc924641a242782fa4f6be9ff64262de27fcb7), 0x7cc91044b3bad5df27c028d022a69bed3d1281c2de52a6b318e9e6a1142cc8c, 0x251d0fe794f8d9f24d5c2a5c5fb106e6caf8f1728f8bb3d028ae73606fb385);
   (0x546d8e3425ebec4f880b031ceeb9ab35fbd498547c3121539cfa4cfee74b6d0a, 0x462026f51a92d55f779143650e40f77e2ad2c927b75b18c043282bdbca2a4d, 0x1bd81434a04902ac949f5a61d0b42db5cf8e5476ed24168335ae399532847eb7, (-0x12bfafc1545f7c3658724a079c565d9af34613054adbae142bcf993980f87ae1));
   (0xff486a88ac95151d852a5270924d4ccf1fff7b676398e499d324893a4bbb576c, (-0xcc91c5c267b4b96691e7cf29fd9f24bd6e72b42858154531a50d2bb846feaecd), 0xfe9158b861078bcff820c4e06d10d88eea026d7aa3efeb8b7ee641e481c7381f, 0x5a875717b25fa1d6c1d69018948f0778a17a8cd36ecbebe11028151d97c1e25a);
   (0x23d90e37a416091e39ad7f86c855a34266f8233df2afd80ea99b6d6e0a37f419, 0xcd426e23c53bab0b46243e08c270f085589162af00045e57a2bdbf9b50bbe05, 0x50511ec51fc55e40ca6afe11b31ee7cc1da120bcfa7e52258a87d6374fd19fe, (-0x1842a02b17094023574d4f2a29d7aac7d86eec92ca6dbb86b2514cac12e758f6));
   (0x5d5e3fb5b3aa497eecdfe2df07d697c3dc74a6ffc2a589dfe6718fe47a3bf770, (-0x176d0343dadd51d2d7bb7e0810b4cc76bf001afd0b139b8db365ca6c33b4f506d), 0x220d9cfcddd499d98e60995efea993bb62483dd16eae2006b781fb33234d985d, 0x2c0b84d2ca236c1b16d531e5fd7711e9c94f236cd0d8e18e9aa9d336e7cb2ae);
   (0x8309b9cd7caf364f8a4726b848e574837a1498176583cd38a99bbf35c27c0e01, 0x8a24f50091d51cfacd01d4b39c8ee1d3d28d93a1d9c94c30a017fdb44ca5c743, 0x4312f486e4e8b90d62f2b067f9b3f3b73f94aab58fccb4d380346aa3ff7e4127, (-0x1d83c47d4bcf751ced405a6580f5150665620f03dd61bdc852dc2ddfa812a69));
   (0x6a01d9dea429cbdb579fe5321863cf5611b2f8a8cdf02bd44765af5cdb903309, 0x2471ac0fca1d0d709618f8fdb48fb3e5439440cd9702c18b488c97fa57e724f2, 0x2be5886fcd1b191539a4180a4953d07ca04936431ba8f5aaad52f822cc40c68c, (-0x12bac03834b1d696ae55fdc8ba13c7885623e46d380395ec20a2546ee46caef1));
   (0xab261cbd8d63194a425ec68f2b970971ebfe8574bc59dbcdcd9f0126515204d1, (-0x23787310cb8a98153d23068e87152b5458d603737d437dc1958ea91ebe20481), 0x726bf011c662607c76a837c951288aeca1b4cda97226d4fef5a70fd77faea1c9, (-0x1bc1e3c3e35645ada25c2b7de13e98b8756f0820491d7d84581a8ebb14780fe4))];
   [(0xc3a088da9a740fbef9a36dc94890489302dbf3a200c6aad18428714f41d62ef0, (-0x964d7c0fb3a0610b8bf527ce126416d45f897afa14e91a383f9f70c46b7454), 0x957df52861b6dfd75a9c9798b98626bde391b0c5b90ef9472194d803f02a3de2, 0xf21b4ea23c0a54711c056be16ec206de776d55a92758318971889262a449824);
   (0x3b7cd3d75b5743047e4526cd39610e88185eedb55f495ec82d06eb09d63cd4a5, 0x499f1632697f05e336ac5f6ff597178d458d58a640528dee5e5be8936ba2490, 0xdd2c6832c076b29643153f615be22c7d716e5ec7c622b319c89e7edf220ad65, (-0x6b43a08316cb146382da30ede01a01fedfba9f881236afae4fcf8a47d88b49b));
   (0x9a1bb41d1a00d1b60cc94b47fe3b071dd38189836c875b949a5bb1b3744d5622, 0x778a3e1c7d442d6600aee87baf15aeedf8b4fbcc6a059e55e65b853398224784, 0x5cc557b28025685b518490dc1cea9677798e17372e8edd638b53191021329bea, (-0xc8fe8f0e2c03d5e1f83927ce1a10e94d4b7945f42830eeb350a8e9b4fbd978b));
   (0xb683c1f19b45e02705cdb768c34af15391c47f60a21eceaf02df0e2810c3cd93, (-0xc2a174c5796ed95bdcb25af3c45fecabfacc5865665016457c0044420472b5), 0x821f9b9398fa745ff7e9020da11a44a50281e223c8fa340e3275afdd35ebb7bf, (-0x4b1075c7985126b7e9e91a93dd01872e5893a4fb3957a9ff650c8a2d72a0fe77));
   (0x1f5224d634e862e84cdff71708c9599bf0e125e385f6bb56d8c97824edba5ae9, (-0x278759e368021041d0fd1044a738562a4a4be0b8ccc7b8fce75f77ac5a4f002), 0x3d4ff477f571ef17ab56a732d4ef9a4999778595b2b19105154c82602985d92, 0x5d3b1e23319daa386e4cfa3944c623e9ade8256e2021118ab1ec47d82adee13);
   (0x738fd7bbbe9afd0e286fa67c1b3d9d1d4306cf1d91327714eb87d7e6678bcdb6, (-0xe9f45b5861c8eb322816215dbb69b91e08621f30bf8fe981838e55950241f8), 0x342a8ca566cb1459c78b64608f14d738c23e82811db5a1c8489d717daa1a9b1c, (-0x560903ce46813c4e69df99656d7a6d1b5bb48c0264d487fd1602a44dc2fa2dff));
   (0x68392e8735641472f63ea99a6388958803a2ec31c994240559735286c6fba6df, (-0x4e0724257ce37ab86f7780f7f7f9c6d6ebb7de30dc8f192c47d4788042a203b2), 0x2a6e82939c0bf5c7d54e0b0ac81226339e50903073e1c70a21f1b2813c415ad4, 0xea379bfa938d5d01f74f3e2f75cd4cfee6c805189cb6a89591b55154d608d0);
   (0x82ed245d9daedece3b205ec7537c9c4c64202eb78b67ad969ff4bbf806b03f6c, 0x6052cd7c7788a4395863782d294796651a83081cfbb20575ec9d05fbf3c76d84, 0x42f5b49b6ea606a71ebe316694d078b55d1fa12b11a1e42f1fcc67610b62c577, (-0x44e6c8563432e851f6a41d4595048938bb79e5cd0bcb4a25cc0d50779225367f))];
   [(0x245df8c5a6ad254b4c4c56c0d969cacd2ea321b08b1ed4d55515f34d582f7420, (-0x2c2d3badf9cf50512a306a0da6ca9829624d1cb705114c135e6e45237aa7e6b50), 0x52a9076483b57d3b16d330daefddbd5db18784245246df99e34ce690067744e, (-0x986537a1aa744a19c5cdbb7707f824b84564a6a6154d1bf65fd4189b09b3db));
   (0x97cb947041dbdbaed952976020a58cb27c14560a37b92f05417f100e464788f, (-0x27c1827556e4f4ca34dfe2957c8be87e81d497bde709ccd65c54163f94429b), 0x5a01cb012dcbcd3692ffde35844b0fd0efc78be3ddcf4d2007a2a8175deca5, 0x4577303764af07aecde8a96dba632669987e0c36b6b604b79e84d5ec492a7f7);
   (0xb51b78655a4e5a25c8c18dd20190b5571b736e586729fe907b550841e1b6724f, (-0x18a1f274baff4637bfe39b9b6e94360db2f1e8c4f81ccc2d4a6c123ce56d27a6e), 0x801fdb31efb304ca480bc8c25e1ec286258e204764701f3ec770b0be640185d9, 0x505b12e8199ff30ed1cab364979a6fbca2a0e1bc86331565093f6debb7f2c43c);
   (0xa933aad6135b07dcfe0a22e69e2dea155695dc1ee506603674174f1d490da841, 0x484dc0ea2068c80c13704f3704879f2e7ab3d066534403d934aad0d2a48dacc3, 0x6fd541fc28daeb602d8fe485f9183a0e17560b14a1fd8de320e3227081389fb5, (-0x8d5383244500e5f76b60622d868d4c8daf47e355884300e731c55e7557e8bb3));
   (0x4e23127c2117376b35f12634104c8397ddfa8a582c1b6624f05faca647375b47, (-0xab64e5702c7481cf03839d1b1d555025b45314e5d3c517ab345ac1c76443f72c), 0x17d96411b370e2f5d2bf750efc5285191e58e853a4a6c859d09e94ca63c50443, 0x426e0186ece9ada076554fa6d258236d71fbc78c5738feb67e29a622e436795);
   (0x2e95bd430cb40948c3e3069bb698efdada1d87ac3d902f2d55129e9cbdb660d4, (-0x8e3c41f27be5dfbe684c1952181225acc1f1f91d7e5d7cde19b4612886b02ddc), 0x87a2799f4898f3a71ad4975487fd7ade180a320d2011a7099b2311fc750aae3, 0x17c391a61ae98db2ec4cf0d503dac84b4df753d5affaab28c1c82a190b6febb5);
   (0x23e006a1744e67063bd4e08ed7a40124e3b75683068d00d8a00040c6cb21eb85, 0x21a180d9827b49a2ce12c24c73eb6a29a8e90f19790eb90f934a576262b4a8e5, 0x50705dbc084f0a72b8deff5dcb4c29f764b1f4afc28aa6d11e0ee2e2cb0cb13, (-0xc3d95ff7c36ad64bd4f8d5ce4465442d9a0e70db32643fb513da3319e864d67));
   (0xcd8b6333173b64c251eff72eded252c36fdd713f584e0150dbe758573ef09b3b, (-0x29773a91c8935f9c84cd59a40c2d698b4282be1352eb46e6c804886f466331b0), 0xa50888c4b320e808d5f377264080d48073e1c086b2d70a057a338fc6accd91a7, (-0x95859ac4f406eed6a1a28a2e69f5f7910649ae433391368c76699601238f1f13))];
   [(0x61ff0b09e723c8829eb256b349701c992867da5babb9246b4e80f4a06a7739aa, 0x5ebfab968388ffa23571a2645339b5336bf455b29bd2bf3e2de7cb9ab06cdfe3, 0x258344747f5d717b94ec38ab3dfa5bc7509b96f83781ece63cf8650a6f7648e7, (-0x402361c9a6ae590b7bf32fce7b86297ed20307d6544c327b28ec6fe54f348c68));
   (0xd03cd8d63c1e7e7e68fe0bd992f689e6a8d246b78606a38278eb11912ee5cef3, (-0x884a7434f3ed757a2095fcadcdb275fd05d6d05219ebc330ccf7104ee539850a), 0xa962eed27dc7f494bc6d25c87ee0da479007df008e0ad64c702c98b3bcd4a5ff, 0x56d2ab4534a52df9e17b6f14de1fc7365f416fe3e29618cec4909b00a3564b7c);
   (0x3172c36f49857e7e10d1b5927bf54091d80521d6b2eb92a8998b92cbb2234de1, (-0x15af07584b8d0470396317ca0af1921db2a9e2791a48f12af26c43ca570bfbd2d), 0x98d22433e754fb3204c68fa6d78511ba8cf057378e3fd2c9657f5f1a47fd5d9, 0x1b16c3cee6975e5e8ad7da433cc95724fd295f9f0cb01e6d0f59daaf06a3a636);
   (0x9b678be8e739a555f8c6c5a2c7305d01907c4461c7d448b7f1d4d17cb80f529c, (-0x1093d726be8e5a706e099963b8b23f1e13ee5211f7ecfd8864d334b343c36f0b), 0x5e568d4de9e09d95a94f009d1b1d45a16f5bcc0acfea203911220608dfce7c31, (-0x4a08d03ba34f96ba3f8b69cbd0cfb2637662f88ed69badd618e8f3429205bbd4));
   (0x9b23ea324d45f0a9ebbd24319c8f26f1c735ae324df42f6f08aecf021d50a25e, 0xd5e74b23e282b89be41edb31919f1d427f2d132f69cf7a81fb95acbd3c830adc, 0x5e0482a2c993d1b3b4894ac3aadae46b600cce1599936d5b12b72fa3c0fe7357, 0xb9604f501b10728bcb17685c00a00edcfe9283e8e4c6de7d19428b2086f2a44);
   (0xc3c8b71e8454afd4fe4ae23209d6947bbfdb44f29f3474cbf6e1de6bfd9974ad, 0x170a64f768d64a28eeee5661c4bdd2402d7053fa868e4d86af6a90b185707a74a, 0x95bb645720446d0593d6946bd4e5d290331303f95f60ba7ca5889fe27ed623fa, (-0x91ef4c498bc6e95cb76cce220a85977aa1b79b8076ce978ffff8bdccaa5ea7aa));
   (0x9dbaaf7c016f6ee7fb3196389b54cee423a59be31841c61009a36b27acd2843e, (-0x86650c2fe88a384b74f686826246b43d2b785f712324b61e2d98b6c111c0e2a0), 0x612e8361923f89fd70ca7fd809610e77819ea69646b13592caa25a2d0c3d40e8, 0x511fd1e8df88d33368beac9b3cf0f32133017f620a66ab0ccdaada8895f24337);
   (0x44133fc64d8bdc6eb5f5732efa3d63bb36c97f85420de27967f2b65c8d768c99, 0x2c4559b94558dde6de023efac81bf42a6c1103da2165e0fd1975d514e157b400, 0x121a3b53e08503a46b6e4f740bc6c661a6baff8f3b5b3d92d70ef53fbc47a560, (-0x221c87dfb3262a6ae9f84b2bfa278624cf1df61f848a93a27abf4ac16a8c3d4b))];
   [(0xc781a37bd88a0baa945a25dcbec891a96eab33936f3ae33b924c4ebb9ccc91e1, (-0x17e1617a998721b0182e8faa597fd0df72b0aa18451fb93e3499b06939e9694a5), 0x9b7acdd0b5ddcaec8b3956ad22b3c12965ed319b036ecd085c022fbd8c16d722, 0x879391a45a6a3ce01b8de5e3671728c369c513ad0938529a31aed63f43f6e762);
   (0x43a059e0311549b63655d3325258aade66f9593c4f812369a7574842c2d6fb60, 0x2df4c5276c652ea4b79eae5200f9aecbac5b96401d7bcdae24185bafce82f068, 0x11dd537bd17c25a8401fb07806f71f33ebaba98aad3b4b6891f5ea0a2e81f9e2, (-0x2f065ac473df7c71a4c3bd0c1b372225fb5bd6ba7d4b3020f691554132a49678));
   (0x5e1c71fb55e898f6e64912dece2b8a3d031f1eaee2af6f37ebd48ca94c1a3624, 0x214049df73c3e469b36ea795d8cdc91d96a79c41bfcfff8c51bccbc9c6d19dab, 0x2298e6ddb4d173cfb11a3e3565ecd08617cd4e3fde4156fe4ec749cb7d361f0c, (-0x21173658927b8fcdb889b30be48ed09ad3915586d139d93fb6988ab3db2ca320));
   (0x19e9068d47c7e9a3ca76a362b7a95c5f813b8a7689832e0cbcefd7324058b2b, 0x87f472121a947cdd7a7095dfb3795a27ae495c911913e6b7d960380b6be041, 0x29f5764855ca2decefd437f341824193bf1c815ebd0e2e4963bc17496d115, (-0x34bd46705a3031010750a09447df21e010238bf96cd47dfa6c18d520586703));
   (0xda015d5dfdd88bad71b946dd5b0ab165a82d085fd905a655a62d4f9b1cf6d6c0, (-0x1d841219cf45ecebc3a29faa1fa2e03ad75f685b737633a052f8d0a09da3a6b34), 0xb9a65305f11e36863d91ac099e912aeba540c60a1422d4790a8da6f4f117b6cd, 0x5c5408be96a435292932127ae2f0cf53528ac395137d75a90d7b92344ec7f1b5);
   (0x5adeba52ee6ac0e141ffb884efa7a7d9a940b9950373647c8aaef60dd14e763c, (-0x41fbb9f43245552045b46931e5fce4a9ae98247c9a71531f67f237ce163cd4d4), 0x20415cc9ff152e15a3cbd49e8199b645f4d2af5e36fa89310b868f6f6bc94f37, 0x2ba266e852bd863c2132869adc2e3957fb154665a692d453097f9073d408957d);
   (0x1f71f62dea037e27c636c41161d9cb3af327c5194278dd623d7dd6bb2872ea1a, 0x19696c960936fe7bd2cefc2fe9448ffc955cc872db12804b43b07a94f51828e3, 0x3dccc5a5ff1b59dd2b76d6f269368acf0891824f65af2c97c5af59ea563f0a0, (-0x139f0677ccfd0964d28d7b7e19949ad1852cc0d6c39b2ee83f312b9c634a12be));
   (0xf4e9e46641a1e7c0e3d8c03dcd67e4be81c1a8556652022146dbf7feaa28eca, (-0x26a6330b787127bee4d41565cb85127df7162e999a2b0e76fbfea96910f90e1), 0xea4eb1147b066840521bd0a8ad558f1333441b0633c2f2a9617af823f3d4aa, (-0xb069f7fa26bb2969a604805b972c19a11ae45b18033539525bfe3ed246153e5))];
   [(0xa478dd7bfcb0fe45115c6952feba38f9de0842736b164666c083b48c9ac6cb1, 0x73db7e66067ca1da1fccb9b2842e63896d50bab74547b53395f15f8a3860bc1, 0x69ab14d73f9efa0d418332e3e686d8a5d1a8a621cf092ba2c45e7560056f7b, (-0xd6c5040d13867f170281dc10a1f3d77088b9ff7ff920103a26af32bccb05c1));
   (0xe450014dfd75d348f457d107bbffcfefdba30c28fb9a88bb63a9efab09f68e20, (-0x12a22134b53ef7538afc7ea387df3156b0daa49218e9c2014a875b5b7c7f3d22), 0xcb9e9b53bc39fdbb604ee8dd1a313b65c47ffb3e164e9842527d5d191ed30a97, (-0x568b036a6711096fcb6e2fc993f0c908105714f9af40ace0b1d23a5133751800));
   (0x104f2aa37e05be6add58d281a2334816593555f014ce643f702814ec1391f5a4, (-0x60ce18345d1de1baa9b2177f33623a3b7323e5cd991ee5699bb7e0ae5e54c4c), 0x109fdcfc7c28d1c7d74eb6b542a00d2640ae6bea152b38be697e6d17388360f, (-0x601c59352eecce7e0bb7240508863f7b4e242a4bbacc5db463c9bc2730d966f));
   (0x81e3fe8798452882bb4471320d936efdd473b98152058fa883c7a9fc003da7e5, (-0x3a70f91e41800f04efae4720ace580bd9b0afb984240fbc55b5f8682f30a8341), 0x41e7919208ff1774c8796dbc9e84b5a61afc3781982f28e6e6bc269489875eed, (-0x3376a9dcafff3060b5f44f53c0b66f10a7620ed14116ae62b35196bd03a7dc68));
   (0xf18346862c181435d041f07fd30efa59788e96412ea973ca4d6ef15a72711d20, 0xbc9e927ec2f95aadf2b5309d5d5555148f79b2aa4c674da88f01b10c54cc7ccc, 0xe3d86e19dfc41d215d0a29bd2e080cd10bf65afdd75c717163f226e7fe4a5562, (-0x42912a88f53c157a07b901aaf68db626d7cd85033035834f9b4e584f13cd0a76));
   (0xad98ae499f8b968dacfaf69097db01061deecdd4b8b7fe434720aaf6131a6fc1, (-0x27ff65426eff22df724d7e2febfc45a9c0225b6e4eb7e52c5bd330e830d1e361), 0x75b7b69eefb8494c65bbc056da836c4543f165a10e791e0537ea9954448b458a, 0x21f9b2a89118ea0d45a65194c51595db9b838d9b7182b971ce361908f6544bde);
   (0x4d55af4cb70a5e6ef8b5a2357f3c6c9dcfe0de5ecc39e7894dd717eb2bf8c3fb, (-0x13a8d0b8e0aed5774691d6f3ac44ad604f53f12fdbac75a411f75acbb09e4f25), 0x175ca8220717c2eed572098c10c316087126ff93cf83cd1b388515749ecdc269, 0x16e9218e6237333f383545662254598b60842b6550685ee25ed79f727bddb23f);
   (0xa6269adf11d5e47763d1785c14301b6a391cec69d71261f60d8a2e32ab167145, 0x10048a2464fee9e52ba8d3defed83f0d414a0256068567cc1c77429cb1d1b43c, 0x6bd616aba30bd3a013a7116ce715a894885b9ab4e59f1b779cab0a49012fba49, (-0x676b8d3aa9614a89c9345dc78359436c6b94c2af14d290a82fac187c6f488066))];
   [(0xe3b8c91ddd9155986dea06e85caade56b09b179572444c1c2007fd77d04d6f0, (-0x3994fdd73316b2c082ed4b0f770ce3e3de6b03d9e0aad7dae386fc41664b4025), 0xca913a0cafde282189260a17a94bd4dfca930a780b357608432d78a95cc000, (-0x4c55a80726cbb8df592223354fb49c6b09a932e937c4847958dac8a81ed0489));
   (0xdc83c8f5343e5a85942da4b25cb6406906cdb9c01b7ef0c2576397e699eb591b, (-0x49eb31a95e2541ed05e8b46593f074559f274ade13d93e53441ea74ef2325a00), 0xbdf2c53cba7eafe4b2d778f44b80926449b83cfea6080103c92df7b06f229530, 0x16e4e20b3d287c3114051d100caa3a6a84429b34c7db33e51a17f10396c33af9);
   (0x6d5074103e91fdcfa4597e9b5c32b822c19b5af92207eb477c72ec4f9dcccb6b, (-0xeb9f7547cf28ce81a3475b55b813bae3ee055b181075e93af8c52657899e350a), 0x2ead9c1e940e271da349ded728010972eef16fff1c729a7484bb1f847a213c77, (-0xa5aa020f731f7bf5a0c75450ecad692c5b4a3953b570bf7585df7449c7200c5));
   (0xb91dc7a8c88d7b0e377c4f8c86cdaa80501703e0d21a67d5d571206b3152f2e2, (-0x4f962d006e1e8838a2a77f1638913f160e15cd4aabdb98aba7c5420a756dba0c), 0x85dc0e08c9d1c2fc398938863702b2618754ea28f06f8306c916dc40aa93f45e, 0x7c58cb5e55edbde62ac8cc684e69b6de92a6669f71e4c4d998fc66e1f6a31759);
   (0xfbe3315c92d5b606a2506f40387f355267f85495e607c3d04b3b4793b88a05c7, 0xd62e9f20671b7c17287fc7c3678ea5e2334168e6283b0613b2ef6ad0a50854cc, 0xf7d74c6c1ba00ba17f8f69bca8af77a6380ac136fd44590df4982e8983984a23, 0x795ae91c5c14b2276f3ddfff7e9eee6a3697946cbcf91065ce4a4621b3ec57f8);
   (0xb0486abb58d31b2dc9704b8502170a38dc4139987db4802a1661a40d857824d, (-0x1b263edc42a10eda7b5fd85cc0fef21c361cb0d58ca086e8e1a35fb11f6b4f950), 0x7963a73dd003eac7f479277bf12348c61f9105686ef60abef6ba1e3008b079, 0x7ec1af00b1912d4727fe724b5073603d918d3bb13b482f3a86f407e2677b2f7);
   (0xb9454c24899f1445c0ce620c393121fb0e339b311e0f09b0071e513f503922ef, 0x3590f89cc62c70a4a9f10526a2473db07cdeb32b82fad2f1ba4a358f8597f10c, 0x86153acef13fd1fb3106fd9c22200b6f0e097b8afc7245f263283e8aed8fb73d, (-0x7ce6260ad08f3072a740d3922061720a54739512a6d597a6bc77ae86d3287170));
   (0xeaab80c8571da966725234e62a45fe6bc9d7c215d5c2f692f637521dd450dd12, (-0x2d39bb8ceed5fad57087c98cf27a6710416bd31ee20ad2f9c64e1e0ff2674ecb), 0xd71dfa538baf8f357d3f517fb91f730b400fead6447e3fd6f90030a53d515fa7, (-0x66bf15e88f1e5fd3e2f2b6c5ddd86878eed4a61f126f2693cf1d1258ddc6059c))];
   [(0xe6d9fa3e6518d4e9723dea425cf89cf627c6b2258bb185785b0f3d91b04e6115, 0x95d908869a9615836cca1796f817c40b7d16ef1eade6aef68aec08f8aff8fa12, 0xd02c6742500def560cd69c8378152dcb014068be11b433080bfab42ea667e455, (-0x1a6b9c58ea9209a6715cb6ae75ba645c574626024c4f2d2c03ca0526715e628d));
   (0x828e77c0ef74ff466ae3939235df8daf5afbbe741409b6f91192904fe7fb4a61, (-0xef11d725be0fc92a891291a4df3b8685c7fb62248f9261d05d5d2a44841a101), 0x429500e9054169158b7bc175ef6d4166aa29a3467618ef6e5de93782d91daf32, (-0x3a7d77dc66da30ec156e369ef6c05b0216918849df797ef44755c1ef175264d1));
   (0xd884b65bd5b8dfcbdda21a681b317b0bcbf4d101debc21a38ca7300520334d4c, 0x18d1dd4aad1222c3d6287b31e6508ac1105fefbf69acbfbfc937bef81e4b486fc, 0xb72038878943152352503fb8af8d7ec95859ac28cfa7d980527a486222ff17fa, (-0x86fbfa2299f2e497b9fab6c6ec4cc5072fcac64cdbe58ce9d90178cbfc27b118));
   (0xd72d66e5db8b7352e5e703b35e29d705793f999c0f11d821c51569b9f4e683d4, (-0x9ec6541e08fefb59142215569195eefee6a7e0cf3967d1b12ab7c9471b2ce1f5), 0xb4dd4ae36cef64116cf9203840cb6e692374fab517f814ea280e861a1e2cb72a, 0x831d2faa19795db68a46d99ee689bc6a6289ebfdb79b661351aa1eeaa7cb3ca5);
   (0xe95e0265e0ee0f2b97b6c6b3574560fa9ad23dc9db5bb74a11f4ac682f1fd999, (-0xa08e3109bca7608d7f90c16550505949fa1f5499209eefe9382f8567457235cd), 0xd4bc42e33648467f77e43e9d71580f2262e76b1f4a2788c4bf24cb8b68a85d21, 0x80564e17697cead34b2a561e177c45d1e8776242a28e9092a08502a886461fdd);
   (0x9d1540c9467d3bf99ee5b77f3c9121f1a88e1886ce5c64aa196b85cf6815554e, (-0x179501e9d0550d9d2468053524a232b98cb0c123751e10ddaf1d1f6fc696ff25c), 0x6063133a91e06d9a65e78c40ae5b86daceb88f83fcb37eda21fd8fa92d320db3, 0x6f8223b218e599b412b93e52c8402bcc951223626cb3aab2d2cd3bb4e97ff868);
   (0x88f155334ceccdc1b5dba3f4890a28d9dfabe1026df00d3c16ff589ba6db010d, (-0x3d5efe496f434e8992c028b1138a5bac00597b1acb1137355cb227e861b43b0), 0x49414e0808ad8bd6360bd8e7daea0d1cb838957ec9b6707d3f171ad99a82d7e2, (-0x26fe84952d1af60900bdfce62b69174ef4c16c37c3a829b3f63d87475e5da853));
   (0x533258e302f7b9f07fe4e4033f3b1b86caf1b86aea17f2a5685397d4192a9ad7, (-0xdb40e424a59bbad5f1d5281cd49d23228959c986030d02cc97d628c0f1d4730), 0x1b09af8a0b76a6af2812485370177a33d7dd8f6cd48469e3acc79e5db91899e5, (-0x23b1b6e58246d48459045bdaee067b5e480f80452f986e9e6e378b555ec95e19))];
   [(0xc48405b3038c03bd744a8ed8a5527cb83e8f1929b392d0a6967cbd721bae0b, (-0x224599a9fb5094922086d40cf6b79758db3d2f6118efe667268435c312ae6bd), 0x96da6ccffe2a896f63714dc51e67f34b231da646e18e744f52ec9e0501d5, (-0x3ee3441655285c8c804b56dfbc5f69b449c198f42adf1e15e7baf796ac8af6));
   (0x76bda12c89b9d32557d1de748da052ddbed2057cc8eddd02e0e0c1e6cce08ee7, (-0x25ffa9ea20d03747214966fe0f7713632837c1d8e49b591dc08abc8e977c02d8), 0x37135d0c7033b8038fa71d22e6ba1ef5d835d0396e217376d79d2058e831e531, 0x1cfecefdd2afe99342dc5af6df118e24355d70b4fc8a00d274801e5533fc2b25);
   (0xf9bd4b25fb8787ac97edb42b9bac8deb9ff7ef01b41f5d6575086f1012bf96ce, 0xfdbc52ea7fc7f6b0790c73abd565619fdd7c6e5bcded0ea380d3f4cedd6fd4fc, 0xf3a1c827ef7253102a34222ee15d034ac50087352d9054cca4b43430d68bf7e9, (-0x2299fd7fabd3b4688ce292b0bab4e31aa4a70d73d88a0077a7e41e438f92e183));
   (0xb448d8ebce3289c992e9bedac129188e4b5e2a0db80435a473ab6d987b85430e, (-0x52ac0d7ba244a79647e3f78d3e2306abb14b9b01558275824adb75794614c110), 0x7ef685c65669d35a775dd797ab3aeda6b6dee57a9cd7908f92fa235b11c420db, 0x519c4a1e25ab72300229ef73102ef40349e0cb359fbf95e29b6290165063f955);
   (0x9f19e40d7370ea03860a87401115b530e5ce18436f12ede56e92bf3e9fa79ee1, (-0x8a3484fb8447a00e833398b589401715b6ce5f8dbe8b54155fc356130774347), 0x62e12be70b2ec514238df13b21255812190e293d6ca45cbb375087a6216826af, (-0x3e1e694c8892b21c8cc1dbe9551ab14f01a2eee118fda75696a0cc7ffe122e94));
   (0x95b144bd0405b76f012f298ce4bf1355bccb8671d21cdb26d904bbbeb3860cda, (-0x6a598853f5263be2696b8497cfe9c7d985998bdd2709cce77721c81daef85cf5), 0x5787d4c426832d20d8d489fa6aa0594149b1db21a8c61e3d4fa0b1e8a85fd55f, (-0x4dd3f9ab50f50d9e311ca7778762a712ce99c5bc759c3e5f5f1d39a301f8648));
   (0x60d93d741ee03f894150da065f2858dd50e0531b36afd444b370caf606b4f910, (-0x2f8ef3e9b3c71448889d459c9f9c148e2c4ad28a7c82ffa9e82c0a14d7731054), 0x24a3a67054c5133584e7af6d8a9e4c7fe8bbfd14d137d54ec4ffb18b8385c65d, 0x1fc629099d23f59664e6fa6b4d97d4164e1fe2e73747e0ff5af392b591ad35df);
   (0xd53a36b10735765e97996af66bbf94b71702af091964829eb8f7063795ba854e, 0x459629e6960974094e64358bc341aee6f1cc1e4ba9cbcb7cf4c2fee40f339bae, 0xb199ec3f69e564a891338be8486bfe92c1e2ef4077241b6ad4fd36f6c3fe3196, (-0x6ee22631b0a5a737b1a7c94490404348f977d6d4c466e491428cdf5fccd54a22))];
   [(0xcd97a7266946a362a966c2469bb3e45413110726a2c395c2bea221545461dbef, 0x8c5fbb3f12a885e4d42cc9f7d7b32451cd675b14e19ddeae726d35f5fed4b503, 0xa51c3b8a210e761e5720aa3151d54f5017877324ee06bc83129a84a054d5e41f, 0x12eb32b5a2b4bdc2c3055d959b8857ada0efe78a7d6be733ab0858f57947fd5a);
   (0x4d4a0fe1e381b14b69865caf59de7fe6416d722518b60d899ba026af8cc73512, 0x71cb9d9b533d73d34f339d681a43bcb60399c27fe927618bcb23cac8acbb91b, 0x1755a2fb126fcb9cc403947c34694641af10e8fab83d462a925945ba832648b6, 0x1f5ea98b9f8bdeb0ce7c90fbb9b1478fd372d0c05a1fb9022f9c6022c1ca51bf);
   (0xe53ce2c798d39bef6ff55175192d6b703f4df8f610db8e47bda11627318a4605, (-0x1ccdf346c66dc6fe0cd85e4a1e3c4e765feaff4f9b271347ab832d786ddafe8a), 0xcd45fc342ddf3da00a1486bda1c824a726c4618bfd4c95cddfe037159adb1c90, (-0x62dd0864752868233cee4a7f3d8b2480526012960780a91d721f4e4aceeaa0dc));
   (0x92b344cf0204eadaed65eb6ec57eaf6794600b54588a30a71674b36d46e13754, (-0x31c49a390e9f519610c8eb1b595b54450307980c39d03803fba179f6ec15d1da), 0x5410f8056a490f3905ac6cff40143d5eb6d33a76cbdbc24644a0696d41fb04af, 0x18c25c94a03bb7bbd24d3b27568a5f7e23c560bba58863692774fb28b23c2053);
   (0x63fdbaa90bf4d947379e513d3454ab4bc368c722f3befb779f52f72bdfcaee27, 0x3e1f20755c8dd0b39e1e77a0cb9f85c4ea3fa83acccc46d65f926ad1c0a09a77, 0x270e39d9397b17032159b3766d7a8f91b862ccb52fb6ee57177601281119ce8b, (-0x7ff0fb0cd302e0882c364c82c9aa5c1297d8b7cc38c442b17c8af2406fabaf3));
   (0x18b9cd189f45726e2c6dfdc2cce38866bc945ec92113621bfaa817ce723adf9e, (-0x25933b1131466a51862cb3ca36165e6855044280169cf9fa73883d9f2bb7a6bcd), 0x2635d4eafc3a94784f2155984bb3e982cb923f6990750e9ce624db8849a01b5, 0x61925b735c538043def17debd9932a9ea1ec99618a49beedfdb2d0c6b84ed42);
   (0x7730a93c4855d359ce990bc82f5ccc647de283de84dbbb3120cc371645c9568e, (-0xb09ed5a5b782d26627784a9fa29ef005889089a9e8b58c1457446b2c2772de8), 0x377e4695f1bb90600d77cadffcbc4f84d038c92bd24b449bfa7b509376503919, 0x1556f8ecb762df393b966fdb513af88a0335ddff510e6085645e3f318e13790a);
   (0xb272c5ed778ef3f328e0fb6febb85108348638d7c32d92a21a71e4440bb528c8, 0x4ac3706ea63ddda87cb663c9642aeb545d1f522240491b0eb30ef873e01e9a12, 0x7c63ceb31ac89cd8036369cb214018c6709fd8b363bfc277c94d78fa63173158, (-0x64006650fb2e240ffa38002decea3a8948966e24f86e93db8eb61cdfc908d25a))];
   [(0xbcba2313f29e1d97551bf61072f2a6f583d17ef9378ac65a6a5a28639887beb1, (-0x134567f8f42e1a19966da002be0e46676934408e773d13cd6e2e7664dd85b74a5), 0x8b21eadc4a233f1e6a67d560a74c022b4eb3667cfe35e759451cf6f6d3c6379f, (-0x2bae76bd18f2ccbe097960f18839bf91cebf33d78e2e7a97b674a52afa3e14d));
   (0xa576cd7c667c31a7acb54e39650c65b3c4b31ed0148264fe6c94d2737af07b97, (-0x264c1515917646cf325d454048e32af4af603b9affed3a0ae0202a5bbdcf143), 0x6af25c046fbb0b164412c6d589c83de0f14e98293ffb775fb9e558718bb15293, 0x6d14fedd4c5ab6d4454663e6199a9439f9bfe81e8346e9213fcf075e45304c7c);
   (0xccb0c2d5a765fae0fa90950f0ed92a38ad56207a00bd4f3ea9da4b31dfc25815, (-0x7fccfa927cfdb9671c64e37c084307dc660f581e21e5aed2c3fc84a75bbc96dc), 0xa3aa3090fcd938161215a0727d2beb1d5433c7cae994cbbf13259b0089cc8c62, (-0x97ae0e4324516b04d78a80bdd178e5ce6bc6b8d5b0d91bd2704ef792f39f466));
   (0xdf434ddc43c36cc4612aea3c27d5bbf09dddad7c12159b995a4ca4ee13aad629, (-0xd91e0d44fd6d8ca1f0ffc5c7c8b2827a60f22d0d3bfa2db5a8448dcf830b829), 0xc2b6535797082e11295494a3e7ccc546161e2536871e5432252e424435c262a8, 0x6b03eb571aae712c3eef0bd889b6e795b707d2919042eff0410ce6d3a633c4b0);
   (0xd7c03cadbd18696612d6e519cdc1c5c4ab5dab8b51ccde94ad7f6fe3af9dc9e8, 0x11facf1b57be0218e9643b94994360597a55dc4b41d2a84154ee96ba0d85f68fb, 0xb5d47646e69c8c341cd491e7d67f94e646a93916b30bc47445e1b7b1f053ecf3, 0x428769662042b615f007b40e3ea12bed12ddd74f9c3ad037ef0518560b0300);
   (0xdfedec6f42f70b127c80c91fa38ee129550274bde0c96a7286b93a0f6c39dfc0, (-0x128b360260ab035ec54a737e18e29e05fc6780d161ef7ae366007bcc6b249fcbd), 0xc3e05f097709b687554ce48ad461c21369027274adb1a14cd8be0eed304c23e3, (-0x2592971c3a968ab060dfd0a8477740d3a517f147279dea214746e8c7ec813596));
   (0x94aac9770fb03c73fe22a3f4fb23c76dc66b2131ace97d043246080a57963780, (-0x21faffb8bca56b3e9888183fe007fbcce382cf95415ea275ea885365f4405cd9), 0x5655eae1dad0c9f8bda20ce672f61cc2282f96b9cbe216ae4ee534dc52613e7d, 0x64c4f81377f4f45ed98ac675d4a1bf6e7679f711d126bc82049ea0a4a56894ee);
   (0x3eb9886b7c4c1637434622e15f2a01d88366a5a78a7a6ac380b4a3953b5a5388, 0x289dc1fe081b27e6967fd537f11af23a2e8a46b1c6e9330716757a837bb6f9a3, 0xf5e648a8440e1ecdc044a13116df00acb77ee997f12107f83c5d2ff73745454, (-0xeb7807cad77782c220f3a45e43b0fc9ee5287872526194ecc5ea759b5a9ccc3))];
   [(0x24076fdb1fa11f74017e5c3696347308e32b3f0e740977d9c044061b43cc1ca4, (-0x22b8ac85b3ac70e22b550e8d9b10e94619b761281b21f65667820e6830a398f8d), 0x51217acefc0cca5339e73a53387db126dc3c312afcf96726a52ce815b9632f8, 0x1d83e10fbb80b98cede1db9a501919ffa989a921176b1c3c2d9b4973fa5e8819);
   (0xd5e8e1aff6185860f1b380ba9e777949d1ef3b29072fae1ae3e935f00068bd8d, 0xaf3c596f3c738b2d8829bf6933e40d2aa36869e840a8fe411bf30084ee7bd9fa, 0xb2bd5b68a56956baaf20d322dad92a03b68fd2a749c1ed108c51cbb73f862ee4, (-0x9982f3690a4ee7399458d6f7068e243a9b31efa9aa73e99bf235283261f7c6bc));
   (0x38894d85c2951105037a5d11369af6d039f62d660aef1e5b13689d8a8da7b17a, 0x1de43d275b31a9f195fa24270df5f2ff26f22354cb9cead0eec95a7e4e1f93ac, 0xc7c5b8e95c537efd7ea3994c7ae78a109b3e7a267b1f15705122a65e32972f4, (-0x2c1fe1e8df7bf4642de8f86d67419b714d464671579d68921b9183b3f907ac46));
   (0xa146d5c2f34d24a563a613f7982d4434f9b8b50006a4245b53f640f5ed75cd9f, 0x63f7da64d16f8bc790d00bc4e94e1edbb7ceefe735fb45e6ae15c50b56c4580, 0x659a2c78cf22139c18ebb13ec9aa99ba45832662c3593759e83da802480ea13f, 0x190e7dce71d879d9c49a9029c533804e892f0312f1d5ccfad6a1f43abd335ef);
   (0xb4ad8aaaadc03b8d1a5c23f2e6dbeedfe1264986475797092cdda530451d0dc6, (-0x184f7c3e9ca5fb706bc5b4f852c557c6a376a35b09d86cc4005ca739d92249d14), 0x7f8480a4ba219ead6337cbbe9b35576425feb86c48f4bd6e3e87783538eb8760, 0x6ef6951858e109f8746e0e21c2be461dc13ac5a99eb1825fa2e6b6c2204ba900);
   (0x43e3186271177bc3437dffd0f295e9a9b2a7a173698f8c15f747e07c7e8ff275, (-0x20555bbd52b2984b051df74468c8a68708e677080475003800730f8759b12b88c), 0x1200a837c819757ce0c2c0ec32784be67252edc78e56056e9539d8527a49d152, 0x1cfaa9a274fbe8d7e888fae6c26131d467d8cceed9928574ae1518206e3881e7);
   (0x65ed24aa3676409de0152261287111b886c470403b0521ec93e9bb930e581e39, 0x2f75534ce233ea583bc064a0d19a78a46927bfeebd9479e85ccc5f3305dfbe03, 0x2894fa9b3762766dd9f1e6d81bede523cb0ab047c3ce0b84f3301db329dd9841, (-0x2326b4780e59de11e63496ec52c33bb0c4372854b8e8befc5d6d22e33a2ec52c));
   (0xa9ede7f306777f926a79758cf4049a80b43681974cd2202565b89de882d968f8, 0x1ee9c4cdbe842525775a08d7b8b7d8e65ed49a89e2b0fc92ff3aa471fa3286b4, 0x70cbf95628ac3c1274edbff7cc92b64b95bf0af7d4dd64afcd3eb77d1a24fd8b, (-0x49947935af63d63c6f9f7a2d016fa5bc1529c69a4dd2bd740d6df06cfb4fdcfe))];
   [(0xb52c04d03ee5d1a4b1d4065d2e74ed960cb2de26a95aa21abbc0df208ef24801, 0x3219ce540d8cb0682860acf0b518be32db1f3d6c62a2146ca9126fcfd6b079af, 0x80374660209dc4d06788e2ee0eedbdc009c0fdc4d5727b6350bc6db369254a69, 0x32ec3f8abc29b506a219d8f89b29c6a5dd57666a3150b01213363fd5df65e811);
   (0x2cfd90c829f483bcf62e0fa3d457aefda62a65f9100c04cf2e47842c38932c0c, 0xca54bbe2d03be7fff772b51b3359ac045ecdb6fddaeb33d17213391b1f15468, 0x7e824ec4bf0c64a0141145d9f3b90936f0dd99b6d51c243aaf4ded10b0de9a9, (-0xd7624c0e2f4f914a7558c61f9fde21d79d55bcfd3bb58f1fbc4c7854180dca3));
   (0xa25099814b5320e1032c789b522196ca8e997d9c4c7caf884c79019ad46985e4, 0x52b45c7342fc682cfe049443d210c83e1f5eaf193b000f86e1fc704170ed45a0, 0x66ea1ba7f03016e7b1e42d427dfe309e705f51be0f1a222f082ff1afc82d2c04, 0x3161c590fc281f0fd0544e76bc7e89fb339c5a190c997f8380a8912a12a1571);
   (0x5d1b86bb444d79a14d26a1a96789602730559ffc6af06858b0696a510ee1f1fe, 0x1bf0c9c954fa6ca8e56ac2b97615284f408791a363a816b4c8910f62316ea0dd, 0x21dd02d9c2094734d0d226166c71fc67ba50e9e8731fa7af35d6eba9a3aed99b, (-0x39803f53b2ecc92e05b719060c1775425f7ac441881bbcb9aabb05314af609f));
   (0x42e7dc56a6ff0398f90047f532674c6a1ec63583a696010aa959096f6e0ca7bb, (-0x2acd21717a6a90e6e267908bb7dd112b233f9e2eca542621c59d751e41c53056), 0x117c5f9c1021ea6e4cea910ea0155e52042e98b700b0ac7ce7f8d00795bc5287, (-0x13984252028b9147e09ed8b1c5f96ddecd9a8dcd1bd761250c111d37a8afce9f));
   (0x722376042ae0f9d2ab08571a325abc3a4436037b5b82183ef03f4c040825c566, 0x3de524559d4b8a2bb5903d65293f85beb9ddec8efc8f12c13ea8d33f6c79e57c, 0x32e39a0531bbef9cb472cdcb7326fcf0e0cc40b0f00b255e91ed2e61f42fbd70, (-0x12a156acde413de78fef4995ea4d64b5267712b3f100f615f29c7b345e69799f));
   (0x59a11c84f12fd32a107e524247eca6682c02d8cc1be2cdf7655e39b22544452b, 0xc445fe670c886f46700dbe6a1ef89042c829b82fa31b9a9134cd6f259c4e5e3, 0x1f616b395217f8c6ed1e9f969c529ad053f1fe82ec39c008173fbed49e34981b, (-0x1e4c2889fc1a4a4cf8b1ec1dcd164ada303c5f52f78d1b94b41c63ad3b34e67d));
   (0x5ca189382bf3dfb37ee0d3821abfa1c81ad4510ae0cff6fd2eca3907687a769d, 0x42c5e47e45ca0e75e56fcecbabf25a31a70361ba15490c891272b8c8d35c8bd, 0x2184808e41cbbce6aaa3009c7079c5a3bbbafde94065a42dac67c9f3f8c8ea31, (-0x2cf86b28d559ed3a73be423752329c056b7174e8143f9d370c1be7975aa2b914))];
   [(0xa108d01af8d3416aa2f0e358342876e2ba7343cd700f6c28a824e467637a1221, (-0x27fc4b54a4e867ce205cdc11269adbf6871af4d37edd9d0d3a1e5086694573d4), 0x654c160f97d51caafeadbc8733ae4f7849326a7f838cd3dffcf3ca43ba589714, (-0x6ac978843c60d841a623fccad98312695da75926a3cf1801f10228d84b6ea408));
   (0xd6b4f46e139f0d14179211c880d9f8af1da5701934ecede8d944979df5a76a5a, (-0x8e60fdc2c2e354e2a797d8bd6a6cc8ff21167551b3ace8da5700cd6c45740cc9), 0xb4130890acfb86440ac7e41927ef1e471a2eefb21e1f55770fbf95d53d4b95de, 0x7a07c0566b74003f179a157ce3f1664c14bfb0f60d16e5c9061376a576bf2e64);
   (0xaa93ae9daa82037fbb9b9ac8d39248dd36602f49c2588d2617debf0c252844b5, (-0x1bf04dc23ddc839053f93a94bc7ae25be1c52a44cb3231f4bb9afaaa5ef029f27), 0x71a8791b66a132d8fba6faa751d78e7117346ac90eafaac04fe8a02e748d95ed, 0x6b90581711036a88b9d3f62b75d8ab018e174eef16460508fbc6b42387335306);
   (0x63f61a908100678d68fa65a66b890ecc10b26a95a76042dc4c32925b7603ef4c, (-0x340c6444848e605beae56abdf9543b32a4485d177ed8e75694d5445542a4cc4), 0x27084522d43fe8a3d9760c9fb70a48f31b589a91edece17801e80343a656a5c0, 0xd3612499dfa11736efaabeb2f9859700e9108264899b925b80811c8a2af234f);
   (0xa8cbea1b643c6ec9b65437c2305dfc8b041dcd61b084b3a990a4ae0ae188bdb8, 0x97d0b70499b3e4d516cce332273d583eef2d2a2c4dbded0fd2acdbed3be47f73, 0x6f4c45b111165f6d39bd176f6e180e910a377285bfb5acad1b6140b88af04645, 0x7da7230f77329af7592c958e6fc8b9647e02b703ef753d3ee3ab8e18d306ddd);
   (0x1636e902f0379b679aafde9343d791a7ab89d449ce8432e3b716d55e3470094f, (-0x441d917262eeeed21f42d0669fb6dbd298aa3d62b05a37b6757a2ff87ac03c84), 0x1ed7bd3a29d3f793974d11c2a960fea4bb8627fa737bfd8beee428490b8b624, (-0x52062a60c732d5b241652e4640ad9ff6ad54edf34281f01c4fe786564b332b0));
   (0x7f42398084353250ab86ead5ce81d7d4003e901d6f57b99f3c0d3121bb1bb6d1, (-0x21825cca8cc72cbf9ee00998566f16a3b25acc41b30dffd1121b9f5f03c1e6ec), 0x3f42c62f365b6ebe25a9728fe4cf1f5209fba6d1b70335e48df47f9f49b5b045, 0x8531519e31e6741a7eab97d1de3159dd40f17b6f9a141f2c009d88119cdb45);
   (0x1544cd0757b7b62b4b0ace3a134de285b62fc5fa45d0510801151582abf8ffb0, 0x68f01e8927bcd92c438c0f906a9940efc6205e103050205c4411c6a740baa91, 0x1c45c20c47f802e052b51c7df6d8a460afae2857752bd583ce9c3ff17068f18, (-0xdc89b9a8a843acb78f40d082a3446ed395ee2d1ee6d1c8ca007f2d0d24f03b5))];
   [(0x61d87a0cfe2e33fd3d7b20932d6ec316534b451b05017d55ebf66df97c650703, (-0xaa062aed44bdd1a5e5ad58378757b59c1730b939f2aa3264550518060397d9d7), 0x2565c38c08bc544a7e31044edef33dbf5b48398d71812bac968c5b07a9ccd1c0, 0xcd7b2a6cc9432869c7b8341d2ba32f7d673cf5aa001eea7549aa82456031bd6);
   (0x17a9ac063f8ad6dcfb5e42b82750521b58130f2afcad7def2a0e2836070a0cee, 0x31b170ee00029acbc1a04845fdbd863bb20570809da971145ddd6a8a9cef6c2, 0x22fed5db3433d74ffef77a0be9485bc424ac04f814e483cd822d9ad414c3db9, 0x25e96a7d4f77a613f17efa491108da12021b6f13ce56164bdafa557bcc13091);
   (0x24454cfd40d319c9fe377ebae48788ea6718ae1dc023e42f98c46838dfdb2715, (-0x4a75fa21f209d865287ac4c4c52a4bbde5e9e37ef15b89b7d9b8181af5dec37f), 0x5239069d1e7aa133f5dc8b8d2a2a68a493a7a4d744a35b45bf57354a007f657, 0x7932bbcc16777cfbbd5f57cbc7b771dfdcab64c8fbabd6460ad3bfc63053805);
   (0x508bac4622a4da9643cb0e8f4248bd9c1e2872b2c4a8a70c7571b68159c062d4, 0x1b64adaa6ded784ec66cc0f4e07ffa10a4cf1e2fddc0f6558c2f81703fbf942e, 0x195797e05dbef967c61e3119fcc8f89b86d0b8882e3890358a35d7667ea026d8, 0xbd028a3f6250f489ee65d78ae290405ca78058364ca6dc54678ee3715f3c8bd);
   (0xab675647ff364dac1ee3080abc09213e9aa6ad7d5606a35a594909f37a9cb04a, 0xe09e8e09446fe73546084aa3aabb526e564376a8b21df93d5f1eb9d29126a5f3, 0x72c336fab9f65d2e7c801bea3ce37e27b126655f80ee722cb8300689ad07bc69, (-0x55aba7d2e44040265b82c272ee4a75727d3d97a200561944b28d037d9a750055));
   (0x717534901dbb59ab006854c068a50dfdd20232fe591a31fbd7dda12262862069, 0x80a0ba48fe10d7809e6002682fb28e671b0427fdc527b8df9831ca1e7d8f029a, 0x3248ae1050c56f9e7f50ce270961745323e43485c95b9badee7b4f513613ec19, (-0x5a7b06db34140ad298aff2fd9da4d9a8552722dbeee31fb6775778b44596f25c));
   (0xb03117664f01694313514b3e667e093fa82defa1d788bd232fb5a001fd38bd23, (-0x509669a6aace07f3848649f7375898cb4ddaea217285b2a7639fbaddccb8b40f), 0x79438996a3efba5bd4a8fa79fed81f9a4b30ae70e6a67a0989ad02e92c37fb1a, 0x4a046a482ca9c40096836baee1e0705e70df03f0468d327ec5b0716ade5b40af);
   (0xfdac647bf29d01621fef704879145a5474750dc709695dd0a4c8e223592bd4a8, 0xc24063feaa5b62d1108286b8effb024a888f720f1342acdd5f8b71763a0155ed, 0xfb5e32b42b89694380db61d4174137f5a3ca05fb01401d2a5beb3f8782aa4cfc, (-0x279e3750182218914a766912583265c62d51871aa97d6468dfff992a8d441214))];
   [(0x41c5c1a77b62baa51b180e1dcbff6780ece0a093f5a78051c6de090fab67d58b, (-0x2bf688bc61357f87c7ac12c53159eeeac37d98b44a67b9ac998c4029840f67bfe), 0x10e6051aaae9fe582d9265e290a533f25b3b43b831051c975afcfa307de0f827, 0x46306bcf79e6401bd6822354322dd2536f536b57eabac4524ff47ac78329467);
   (0xd9f61212fda588184f397936a710e9d54c78c1ef4974786c6d00721a0a88c0d8, 0xe898f1239a39e781a4ab17549f1425ac4f29e85b82cce5de8c23f268de4e8c1, 0xb993172aefc8c7eeb2c2da8b99ac0c432b96ad115f3ad3a83c37dde36ec7c0b0, 0x65a7fb752683403cddf59c1976d3c2a3814dec37acedf802e1d1e7f09643b0b2);
   (0xcc008c577437b3b458c9b836494bb2bc62d6e64da3f0842ef710401e85163577, (-0x2330b767a4a6232f533b631fdba30cf527ecf10705b960ab7acbcd1c24c99ae54), 0xa290dfabae288b648cad6a41a581e2c2464a6422885a03902fa3619684e63c90, 0x9bf94f9ab265741dd9f65db9c434ff823dfe69943c7914a48eca57c7bccc566a);
   (0x5448ba7d130611be6bff704e55793c647dad45c4e89f40d5da13049b5b3c1cb4, 0x461003f7408bcde5c135f74abaf3f3e4a9f80af8aecf9666730783891dccf532, 0x1bbfcf0b82b0abcf591c510e54fcf728dd280b0c1e227d8e0de127f527bf01d9, (-0x3ba6976a3cfc3e2a106be1f403030336d5da05966255423e7d26b84545984bde));
   (0x4e69e089348473348a87bd07ca1e848e7cb5bf3ee6f19ff3bd9c1ddfe6c3aa50, (-0x2df52745b66a5212c00da07415618f2b4c221f2f91e91e45de9f8df1cc570194), 0x1804b09d917e304b8fa9ae87f9f299dfed99883a2c5657fba8123cccf66ea94c, 0x12d37d1c2798f4562387f1cc60471723d30b99aa47865a938665901e46a9cb92);
   (0x9294b9f9f80b87f9d51ea42cdc54616c6c8cacf9b6a14ad9e9bee370d90df338, 0x7dd7df98fb8f17cf7baf259f7de7b689ed0d8d23a4a8927c4435b25e600bcff3, 0x53edfa88af0f3103514150b0e2b057b6810f4e48e7adde498f6db394b794c213, 0xd6a62c65f8b50b487863b1bc79903cf90ea51746eac421e2ed06c6f23184d6d);
   (0xd55e1e8b3a198a338bc556620d18f76d5cd4133dd80aed7acb8717cc1ac17b7a, 0xc4e4be3d0a147d5ad00ee4e4fa8b475147945470a25c634c64adbacbd7ac4b7b, 0xb1d5c16e2092181165c0c492465a485ecf0b4a621c243e43b0c00e1f2548d9da, (-0x755f74a7a2679c38c65cf6c2b2aa043048f46ad4c3319151cf0d2f01cfe0a5d3));
   (0xb312630522832ee162e23155a3bb048def6dc88b8876e27d7294b88f0c56544c, (-0x1c1ee29e77474d76559c8305828df9dad7cfdae24ecf8f96aeedf4e1fe9a7b36), 0x7d42b7cb414946cd9c037bc26385c737aa47da3baf2a94a1a25db6640d3be7e3, (-0x7c346bf26008e6a178904c180f07f2f550efb6772063cbcd820c09c3af17b5a7))];
   [(0x27b376e30f76ec47e5e68b16c3a2cf484262baa820f9d61937a65d963ba0a28f, 0x3816d9965fddeda9d51149bd47436ac6f2ccdf7a0ecf4e2cb3f052439e5dfbfb, 0x6282c08a773f7f264403528c9d2707635cbf47433afc46943a019d5e204445a, (-0xf952a242f3a83e9eb8fd8955fa5295170bf5f1a8b82a65e137608eb955f0d33));
   (0x467c7263a9da67812bb2577134d89cd5bf18d5dd8f5b7f2a2b41155f17a2f5f5, (-0x1baa7437565733653ca3ff092972635cabe9504b97bcd6e8cc060fe9722101a5), 0x13684b0d848ce6423cd50c663deb31c396ecfec0e69e5cf8ca72ba37d94279d5, 0x188a3e0c8e4415fe7c0ad4386d2967c3d436a9762136b3a446ab4296521aac9a);
   (0xf1bf5eae2a0c4c9ef23bb69797a3827927656b3d5c2e1dc0e927cc43f0db11ba, 0xd60d7d0e5aac29a5e83ab10161b05393996cbf17bb7ccbd4263a9fbf41efcf6f, 0xe449df52561243fbd126ce94724abb193a5849501c201affbecdeccb7e620583, 0x6014c03b2e4c140700dff4d4c42084c5c173d46798f76384562d1d4ea8761e9);
   (0xbe0c1ca2b8e67b43bd4e5ef756f98d9500495855adb10a014e47f2ee708f8844, (-0x45df72733c0f63226a72ee2d371a36180c1d164b6f32b3fe4177665d3aa2612c), 0x8d15fb143ceb74750f910827e173dccb40efe5d70334e8e473c9f9a28f4fbc51, (-0x50dbba493cbc6ff5232e8cc88b4b7921a3f7ee7867bf69e10f8584796053cb5e));
   (0xf3e8f41825dae6dd7c52b545e51898a1e8a1bb83023bad823be6dc5963aa8173, 0xf3bb5d57bbd2bb1418e77c004c56fb41c57ce39d856716bbb7ed8b3509786de4, 0xe86413612c60397b5230da7a400588714cd4079b564226401ad9cc4b52dbb24c, (-0xaa57311849050194b59f85607665c890aa7c696174570a7761b54397f02fe66d));
   (0x546acca7e813b1998650b06326ef6544d2d72aa88a3413c45c35c5c3ba5cef5e, (-0x2dd8c56aaff45fb1a9bcc2337484db46b624d92d032cb409a3cfc1fb1707cee5), 0x1bd642dc4ef524dbd26a465b157f579aa935d187cdcbd4e78e5345cb15ae6b44, 0x1c99a50fcad92dbba75a01fdfb6a7fb6285682d323a3d2fd65fb6177004aa2e0);
   (0x40f8dee312fe76954578d7d8d4ee9cf2ca7ed2be6a1404e258a90617ac3bcb7e, (-0x1e019dcfd3cb16bc48b03d92088a0e0c8a0b11f5ee2825443c0598ace6c5650), 0x107d61622382a6ac6a4cfce1ee2785dd1bc0c889f927e31de9b2a242d2f5f838, (-0x96e395beb715e6e14bcc18ee0195ca02174e013aea8a2a450451b7cc14f51d0));
   (0x961e6b646353c17cf836510e58776b4067cb076a1c3d0f0459aece237a341c2f, (-0x133daa1303eab514ff52c74d85299edaec1637a830d9496d6a1d1390b6dd7acf), 0x5807a976fcfa80c58fe157e4d27aa00280e70b9a1b56c9a8aca7e9aca8f5b143, 0x20f88e68f016a3c6af7c6af970eb5733e70ddb45e135e4b910b30a73d3a8eb7f)];
   [(0x631098678fdb228e7be3f87f83e86efe5e8cb7d78b2be931475be0b75e618be4, 0x17d6be378b2e949cfb54590858db0f0bdc5e54a60e7567a729268bc42b8e0b3c, 0x2655d6f380f09cd7d1d75ca76b5a7606a02bccba346b85f6c46817d5fb763014, (-0x39e583282fe02d4fb19a89201046b3eac832a6612fcba2f53ac812c696abadfc));
   (0xba282f8db1eac9e4dda5b6b7ef2447d593f64d6dd78619b687c2c34252b45384, (-0x6ccbbdd186288002cc8bf17f2aebadeb116f714078bfd2290251be55f6235350), 0x875e6b68cba61c815805034f92bbce6bb70ae2a57625388268cfc483299d99ca, 0x403beb9eb4d85cf53394f1d3c22d27538ddb61855500e8b24a77d267e5c6650f);
   (0x792c04e8f7afd1b9a401fb8523f74d5c81c76302b10a6726b0a0b54d60e62eac, (-0x16182343f468d0ca66637786f8a1488f49c84e5a81d1c5d65af71f57a5b331cb0), 0x395aa435ea517470f1b8ed804752e10f71300cae9ba8c39566383d9721410901, (-0xb43c07ab8d5bd59c7e4768350e8dab008b5b77f63425fc688c2285049439917));
   (0x5df24731a64c35e13ab6d79183ee5244daa77bcf9081a55ac6857c9e52ad14f6, (-0x3fa389b75a6cf075965da92bb85a3ed7657e474dacdef87b896ab0bcf7bd24df), 0x2279ed04c07e5b1add9255a94fc0d7d4f188b72161db68e768a8e579105c04f1, 0x151796b240470e9a1cc5fd09627d2dff3b1f5574beb3fa92f0e54cb5d409c757);
   (0xf64d8fdf37303678239e6558289c2321b97df324bee1cfeaafbc374723913c35, 0xcc521591eff76cfbf12f6b3057a84955cd0d0e1c1b175f78fb038565c86017fe, 0xecf92800db32fdf8b778b5a38033e0c140c3be2fb99dcf04aceb415ed29b5ce4, 0x3087656c73f517bea7b63ea20cffe3eeb9f2573d38e6635393830d27b4df7616);
   (0xa12d5e05dff013873b8147dae62e9e6caf91901e3e357c1cec3858f69f0d4b2, (-0x1c64ec2127b90ce08a4959a3234ffc3c4910002e73e81399618ed530130f51379), 0x657a184d9445038dc7ffbdfa1505471ab982c07cf19f9d57dd3a42bcaff429, 0x479e117b5162ce41b3c0e22beb4bb18d617ddb78fe809a45a9b484533122348);
   (0x4e4e2996c35edb4bbe6394143dbe5abfa0927c15f86c9f8c76e45e5220742b9b, (-0x123fdca92fd356109fd91c9911c6812406ed7f045c6783eba8a6cb7933827774), 0x17f3b9353dae7ecdb4ad97e4bf9bd5aa76fb88f47149dd487b4b6ff3dbc1c91e, 0x8a8445e255d4015eeb4d4dac3084b928380ebb21a316681b056f63a97883ea4);
   (0xe844cbf69523ae8e89b8078afc614381583dcc30b495a8d22c480f55a90757a3, 0x185c7f8cc855983a42fb82fad418f367df4771a847c4fdef461ac7c2e06366c5, 0xd2bcc42bebd0e560a3a2cdf5933b3d12aeedc6432dad70db54aeb4b34096423e, (-0x5cceb10261b67d60cdd3c20b8eee72e7c27d7804155653ff70a3084317579a67))];
   [(0x2a2f3623eafc2706805279368e2b1c5c2afa8d5e85e53d5ba7e9d48345cf88f4, (-0x9c55b6ea0590c810380345c9488b0dc63cc8c38d191cdb9be6ff7ff6ecc944d), 0x6f38678b5be3190ef9987ad07b4e5417c203818effdc9c4c6faf85108144b9f, 0x23a5cd34604d26f5f8f98235d7c6ee0ac07d833cb17d3ddac95ca3d5faa71c2);
   (0xd65178f0bd3c2d8f2af0dc57dc37061e8a4a58f0986b5dab6a975c9fe5a9f095, 0xb51bb384850c82ebee547ab96170501243a413bbc0f8f3ae96ea79c6e7aa4de, 0xb36c50203ddaf00bf7d16aeb6e9447a81d895bf990a4894b5df5ba5d0d515cdb, (-0x1d580c5a0c6905901c61ba34ffa6d4b0e92312154ffda80593490981d2f72ecd));
   (0x292696c573b74a6cd56a72bbb1bcc0d621fb2ff611aec55bd728a03258fa9ac4, (-0x25439964a2f78b6f4511234230e364c76f962aa1d38c70703632cd16da200a85), 0x69d621c5a7b0c270c49ba0ca7e99de18d0796bc6f8d282ed89468a38c21338d, (-0x136b068de713f863bd4563ab698839852ba0ef480e41f640f0bd45e6acafcf3a));
   (0x36c8f6cc8ee5f5286c23bc6f3b8959fc5b843ea5a738f5eff34e185b4bc33eca, (-0x16f552069c3c4cd0bbfcc6742842990aaa18b56cbe155af13d16301935dec994), 0xbb965e0d9d610d21e345e1fbf14929ed1560d652810d7870377205a345a3f4e, 0x1cb6cef8e0c2bce27dce4e08eeebf1bf2d0f5b6d45cd4a4bab5184055ffc74bf);
   (0x3ad081f67ab3585732b53f5d0060f3d51db3abe4f4027339ed0b4e6b8094be0a, (-0x67ef808df7e4b4014a50209daf391d12d65e611db79ee943c5190834b4ecdfcc), 0xd8324b7221afc6fdb319dc4fe3fc792990e51e73e5f12d044d656255759174b, (-0x14436ff1df73ce6bfc897dd7cdd0ea73363a6d4a9026f3f439bf937d93e551cb));
   (0xaa59b2dd302ea6d3ebf0bd86b52a675096448eaee3e2c37f59fe73a32ea2452c, (-0x1a40d940c552bc44b7b02fca4c481de03513d149ccf41c2bad9311eabca6da01d), 0x715b40fb9ec1cc1e8e520e2aaed76e383eedfa9c79bf6d9dc9f3dc09bb2061a1, (-0xfdbf86982c64764665ceee09b37e2b6877990edad98e0f3cfa04c76665e527c));
   (0xa93489c9167fee6c1f3027cf40740fb1e32c5d8797fe654e33698d5314d53969, (-0x56a8f700d0ac5786ce15c85b8de8743227a23733ecfedc5b8f77cf25e68e5c80), 0x6fd668b3c38ee4cce1289c3356363295aa6b7342b7b5bc0b43fc58ca7334d8de, 0x536978ee4b134baa519bc387d542ea41ececd9b8b1ba27bb77980d093f15d9d1);
   (0xe52d6ee64f0c396bbfb9cec5c9d1c513571e6f5d19d3af56257b4180dc08ee32, 0x8d6996a3860b28e35bdf7a9803d0e87e1f23bb85dfd0ada83608b4120f1d2d39, 0xcd2a5078366e6427989c25a6ab7b92eed50beb78960dd703e52b3e69cb65dcaf, (-0x509ede4a214e2782adf6370f5fd278e2104e22c0405fb885d3ed9b0ab7c70c7e))];
   [(0x9824e79ee39825411d7bf6454d5ed23a6453d1b81b9b3a889361ae2bb1a01db9, (-0xf6e83a9e304081e099cc77108cc65597ab03761ebe744687604b753a6bdafa73), 0x5a6bd85ea484d0621ab42b6367dc2886430b148ee5b9be8fdcd1166aa31fc5b9, (-0x15b01a303d6de17b2b744573a66cfc7ecfd1bdc16af2aff56ead5c0d7fa285ef));
   (0x7bf19ea363d869e31db321a7f761ba678a1237cf0e43089fa8602a75b9c142e4, (-0x11ab014d517b8719c729ccb5d822d1b12ec2ac460445235bd186bea7fec7fa2e), 0x3c02127d13e20abf0b64565639a6a28d73ad3d1404bd5772b5a10f8520356ca5, 0x457d4f8d7d9446e4a7aa28131abd5fbde4b5ab30c76fce2361d2d6af9990edca);
   (0x1410252b4cd150f805430da05be0fa84af1a95f3bda9041d49b5dac99bde7dbc, (-0x2e94be281bed14a399bb11581095cbe701170af64d95780bf7ce02f51fbb03248), 0x19286d36ecfda584698fa927a91ecd982de784031b782c33ee76a7eae61fb34, 0x2c75dfa4a8d3a8cccd0a4632606c0da8f98885c20d868816eae4448535e35b8);
   (0x759364beb6f2c750f69f30d2df7d9165d900058ef2c07580fc1cf9bddc91af04, (-0x79c9e2996ca684c69e05c20ce94ea586090e40533899214db764a61121c084), 0x36000ef32de59202a73df3f1d3d240249ebe6408bcd6d829d357ddc055680821, (-0x858a893a2508788a1a200dcf4909b5a029710a551bb2504c1e6bd5f63878054));
   (0x609bd900b9d366d6dad8ea0a58954996dc58e30f51f771de2cb046aaa5f68243, (-0x18a47cb05dda5618ceb0dc359ac1efa406db197d6d7e606003222a49bc45635a), 0x247541a10a31ce28978b2a6c1f86f4b19206b838f2a46a1ebf914a970262c22f, 0x896d63a9899ddcfbaccc166f67f87206e468321be7a12665887943614d11690);
   (0xd835dfd81665457b77de5400f8e630b0f3fee3384b8a278f65ff35efbac3549d, (-0x1ce500d8d0a90aba270b773875208042c1a03fc6152ac935425682cb0553235c6), 0xb69af51318fe58995b4ebb0128d58ac886e342f5b06cc428541099c3535fc2d1, 0xb46c79b69e0c08947b138695305925d9fa600f94998ad4cc25c5f2d0d5d37409);
   (0x79cd6d0bd71ed0d29add78e803b0817e5a16ff099e605a77db2ca34ec690f0b3, 0x65262c3e8dc02978154444077bf1242c0693cd19fa6e0285dd071c2615255ff2, 0x39f3d5ed04c4be7df6ef73703ae3f015d70cae1573596b46b6d20f3e0d5529bf, (-0x6ce62e58cd05c421858c6374d2ca40a2a783195b05069f6f1408ff4318095f61));
   (0xa872ba834aef314c4b4d4146778ed0786c249e76f2e99351955b218c2af58ebb, (-0x23f20fcd482de9607073edc0b84d6e933b03751c59e956ab44e3b2e7d42d14b5), 0x6ed6c836f72bb9f56526eff92514b03699fc9d574b915f29465bedc6181d9881, (-0x464f3c71a81fa8aba2296c38d8da98f405d3bfc12512c6d8bb4f0e58e146a106))];
   [(0x31acb4e1b1cf7975d68309d78e4079a67ff7ca16b70a141bca36aa1e38f7816, 0x161028e3f437f29c986b2d84ff0fe81999b303ec52b665e062509c2072d0c1c, 0x9a391c1f52684501f782ebfaf1cf8b391421a7b0d4f6cc6aa5e17033ede93, (-0x23183f28c71876d8b9c9c3dc7707fc0ff1c181c4c4344bf328c4926d34f12df));
   (0xab6d0cf159b0f1e2e00cc9fe4a954600e1fd71c805bed82fd443fa0913e3dba2, (-0x791c6bb804ffb369b306f66026a8ac1be271cc4afb677ec6641e974f8a8e60c1), 0x72caddbe740047c5a7c51566017cff5a32c512238b5093570812d799b91b31d7, 0x2a0d71caa7914603b566de4e95ce4466f34c7e7e4c7a8d90580c5c6bd51c7c76);
   (0x9e134159fa7f342a7059c56115bfcbe4aee40bb38561a32f7d1cd882eb497297, (-0x15f04c4f851fd3d06cf3f9d036222f779859daead5158cfde34f0ec5dd8546ab7), 0x619bc61dd53f041adb08009e881497f40c7a698486c1dbbdf97c3531fbf7e62f, 0x2eb4c2ceeeeb7c714f3b1ab78cbea46338029f5f2381ccb7e75d60ea777dfa15);
   (0x7e5de1d240bc052684d530f2e616876a294e70326b2fa20a397189ecafa0204e, (-0x33f0948d87976da52d36b4f968c251506915491de4336df8e4ae932e1fc08709), 0x3e608cb8d1af60266ea314702be0d9355ab7c620ef71cd91c9b3c9e2930f7462, 0x1754a0a44841b20ce0744410eaf291fbf02add9d0224eafdf4cac2bd7f05ea09);
   (0xa462e3c315d57f5e65a7c95afaf85ce057e6277005f7e28638c86d8277fb75b7, 0x38f1b072c3866286925bbc13b6b9323e15ae15b1fdb7c9351850e0e39e69022e, 0x698eda051ff9d0095b82f97bd70bf2be9f65df99ff5f2672a4fe044ffcd8dfe6, 0x4a29075bf6d217c34b96107ba11d6c07833e20c841e147c2fbd18eb9e0df0e8f);
   (0xf7f95ba71f70ffae38b8afe471517eb23276f67bb7e8587cbcc1c8f03fdd8edc, 0x12f560708de5589c2ae043c9244c045714daf5eadbd8c98aa0614e470e551a494, 0xf03321bfea9774a7f16ebc1f349c7f646dcc21e6502484d0bf44edffb2afd5cd, 0x30eac31fb23f919df0b2e05df070d5350b6fc5b92e74304fbed32bc8c5a86844);
   (0x3bf5024c1a3213b3ca36d641d761488fdebb29b81b7081b3da5cd1761ff7fb3b, (-0xcd0f67acb78e1684026719b720abf81c2336fb3d047dd11a655235220e2491a), 0xe0ad98c79c27ff6ee0f0b6d9807a556389fcd08161269498b431152afef4f25, 0xd2a7beeb737575c0d6a072d1eed89a1a06f2043e45c01e43017afe0e56c459d);
   (0xa9713c6cad544c1f786ea65bf59d7e9b4796e3077ab6e320e5565e718cb0a170, 0xfd4567cb8994d29868851529ff5aedb7f2df589a420299c284dcce2f90349, 0x7026b3dde30d704ef8f46efa56df87c16660e3e4fbbac0c06717e4d7fd44a9ad, 0xe72d86799387aef9b87f20e55bf7b2d7583b6992905d6d5a375c2c1b6e91df6)];
   [(0x775399578055e555c62520e02bf03e8454a29230887ca4369e4c87b9bb0ba8cd, 0x85bc34aeb5f7fa0cc635f0f1973bf074123af52ef756c48780e39de8cc7e6535, 0x379ed3dc23e6c8379aad69f0a74b6b8e34267433e27bee7f6e92e5df15598573, (-0x1d3808c2398051b042c6c1a220fc12180612f51aa1d51f2d86c0772909ac8d1f));
   (0x19bd1ac96d35c76ec0fa361752f2ba0d4851674b54f247e34dc22ca15f258005, (-0x64d70b94a14d3bca05814836e97e669959a6419d9f8aee0f21884cea4d1a5c9), 0x2967aebe78d4b07b4c65242c817e9d08991998d00f8011e7d59f4a8d925b8f5, (-0x8b9fc307dbc2308d983051cc1fa183ab5240a6895e90368c29bddf0c6c70584));
   (0x500a08279b3c953b7ea4c442af79ee4fc12bb93017e4727816b4374fcac245db, (-0x7c35f29c1b3bc8a4d69f2ffc9b445f98b3129d0e4e288598b10d0a2773b220aa), 0x1906457d64607dd54bb87aa03b9713e5b7d09d82e9234aca09ef7175d7463238, (-0x22995ec69a46033becadcf2c3d4d9bd05caf77b3c53110ad3d8e0a5142564796));
   (0xa35464e7d3f5b438d77dd9a53e0bfd3c3bd5b6633aca6b77e7117437093ad309, (-0x6e98ecbaed455123bcba5e25c8e4e8663ab997cc540b8a59b07325593a21c821), 0x6834945197d3ec46d16e47969f81c4592c483b56d4119fd2ae28ca6845767b0b, 0x8864e87a6a9330ad3ef4a0c83ca34a11cff97b4c1f95cc81fcb6b4169050f6dd);
   (0x755fad7b688baf7389a862664254294cf1a056a2641f90336c9c5af1034cef84, (-0x1c00ce9403a947b121f24911ee5a80a70e165ab9ce593a3881e62a0b8f3c4ca75), 0x35d0985504b74cd63fa2a0c43ce26347976fda48663272e32457e60cce9ce3d6, (-0x216c753b33c0acd7a0f9285febdab772f62ad3171cef4ac556faef33f1b429f));
   (0x759f42169706492f4d893748465b0b891cf451657415eb8bad19754d88799bb8, (-0x19ba19264cfd6c9389ad6a3c6ce837935eca0a488f5e93bb162b1121de5c26515), 0x360af57bcf2b0091b18b1f9420c8e6f25e2a05ba8a4ec12e9675212e37c02932, 0x4b5b885971c296a9a7e8eff7bb943b4f8365fcb7a158af3d5c39622d9147503b);
   (0x4a599e6b5d73ddfa68f0b1e6c6970a8744f67947566c8953c8d3daf344284724, (-0x2b6188fb1fab12a7c9251c509d6e5df40e4d7dbbd99e126e837acc210b87d72), 0x1597eef59ab6ab4763c22acb11c672ca2f16bd8167cf706721f4682991096bb5, (-0x9ede58ce54f5e38a52c398b57a284f90febc04254ed4df7c46090b220b4eeed));
   (0x5a7dd548040721fa6402ac4e4e2a8d9af76b13e2adca7bab365c543bc984128a, 0x3553d10d414ebaccee8ee9cae3126bd7754d55ebdd0fdd580785f4e080295b3, 0x1ffcb7d09cd9ddd15f758c4abafd8b761250d9ecb4f9aa9d0eff981ba7d2ea69, (-0x34d02cce9e2de3ea6c7568358378b44e496ebcb952b86aa4c5d5880b16ce1f31))];
   [(0x9b2f8851451a0c4a32b655df99f323889b9f437a5ac499423c383f787a29e43e, 0x93f0d17930b35150ff01563b015d9d26552b6e46481b2445ad262f56fa383aac, 0x5e1297e5c01b5daad6d9150c9e2680f6a8244fa4d9bb091049791ec19136d5fc, (-0x6c3997571678e3278816110d73f8335f349daedd0e66988bb53d4d6ea3876b94));
   (0xb5fa07186c3b26976e4131f4b40c24a1640284a5cc5eb04be1f84eb5bf3c8ba4, (-0x7ee8a36f4a7f702b5207e8730728f19dbc22ddce068fab10ff056d65f0bd0246), 0x815b823a64f1605936a102a06a22b5c048d97e622d41cc228c0d1cd189b5b264, 0x6948e76047481d9cdb0c02511fced58c186ffde72d47597eab14e8b7b674d9fb);
   (0xfd694f82ce17714f7e6a833cfa028cf5206ab4c04bab17679f65e28f90487e1d, (-0x24889214ddf5e96ecc980302fa72c01919ea3c594438286a961298487c4b3fa3a), 0xfad9527add59633a80bc1c09cd3e7592a414d4ec7d5877d9688df09cba02c694, 0x6a10e6ae7a0c355bbf382c23f27a5ae640470cbb1c50858a2f82191d5ac7e467);
   (0xe3220c87b447c964b00414e9b516d304761730005d78b6faf4cd9b5107b2b6ab, (-0x3f554bdddc0f2cd57a964cab7b522296f7c467154b593b365d595bfa2602237b), 0xc98566bffe6033106c72de34f74d2f6dbdcef43cc48fef84cd8b84c20b258989, (-0x4019d72f9f68873a01e874ccc244bdd940f14f347c973c2551855c49f231848c));
   (0x253c2d00c0392bd96ed71bcbc06c0a6117653544040ba2363bd9c0cedfcb2457, (-0x333f4456547ac75e7178671b4817a0f740fa1a7a840958947b15c150ee4b4a1c), 0x56a732757d3e50e11b66260417fd8b0474b3d71c76048579aefebdddfe83379, 0x778e260bdc16ca157449146909fbc66486eef847ff626328f4108f9ca43f3ce);
   (0x6d66f1633c0ea4e3be369e04bdcfc73efac3f92d72320932c55fd0197c48e44a, (-0x1b831007207d2382aa16071eb5866c5b6fbce624e385d54c8697d8440827a599), 0x2ec0d2f3bfd451a06955487f1d7454a6c9b8fb266dad94e1f5d4c40956fcf226, (-0xa13058ac3742a60924c7a8cb34f0d4a7064fd8e1951a097aaa12bbc837b83f4));
   (0x73eb6618a29fee74f55912be7be2991cea91f83b1bfeb0ce60084a07260b4703, (-0x2aff46356d1f864acc73036df401b6163783112baac11adea9ab0b017a98af64), 0x347d562ebc0de5d336792f86a2938404227502762ca3b7772d70b6f3d81a61cb, (-0x15a4c274d676270d1e4e8d25c87566912adfb975f1f5e2512e1b5c29318ec0a7));
   (0xa62bcfc8e8c1b3780351625f5f3e3bb2e9639f8b93b2bb83ed96f0f8db9bb21, 0x43c1ca924fdab2fc7408c8191db7257452388202ccd6822fffa3f07b769797c, 0x6bdcd8f803ffebe7b122d1a726983549a6e73a2ea31bf2e705a5e40b32d57e, (-0x49b0a5f5ad2037183b98117af5da6c0900903d41c8c8c61f023bfabb8d61f63))];
   [(0x60fb0dd8cfb159a6cc7a0b308761f2bb17857246959617835ef54989090a211d, (-0xdfe93e25f9a5c0730e7d580c5270394ced55b3578f9fa27a0697ece46483c85a), 0x24bd4096c3ac05ba0d5303cca082457955e16a902c7577a0c386b3947621ef35, 0x2ea49002bfd29ed6fb40cbe1ac119161856afb9cdf37f953225de64a09882d3a);
   (0x4e6a224a7c90e9d0874cfbe54565f8ba73b71c14aea8ca60ddb3cb537471f9ae, 0x25b6a5b8852b01d6efb55860b8fa21bf3d639b8a27b607d55c041505e49ca472, 0x1804d8e5ce2f553f71a23a48deca2dc6923c8caa92628492ef87beb122c78bf6, (-0x15a26438da313f58c1cc044b44b073f89e697db064152e69603224e2dbf9860c));
   (0x50018607e3d60e50bc5e7dd6ea0060dab9e5478b964170294f64677ef6f5adfd, 0xc03bbb77767a7ca496ac970f50d70b9fdaa4b173f25262aa3ef056efde41a9e, 0x1900f3c740a1d360e9d3255fa4ad5e78c907ff186bfff642a6ad7c93d216bc31, (-0x31c0432c5e52239b674dca9cdb769b72646ceaff5a1d2ab9889a2fb4046ecd69));
   (0x1edead395ab734eca11f1e06aa99d711fd2e0221d90d3d204005806f9c76e599, (-0x4596c5c3e18dcf886108b69dc969aea0360849c57bc61eb3a5328b6a1506dd5), 0x3b8f24a55f2d79c636d747888858a8cd83046ce676acaf3ac449b1eecada214, (-0x60f2df3b8f42a368783262ae4a33736cf7eb489b1f0b14bd298498ea9f1e6ba));
   (0xcdbd7d22e46c1dc7a13dd2d4f26d7dae78dfc6f15fae2dbd72404ea370c0ef0e, 0xa78bee0c2b95b1f22c9355c14d0a0ba3c710936cee7b987f3bf92213edb71544, 0xa55906abe4858728be9eb8244a1e482d9bf70fc97e9f9ef049027ac5ccda0a12, (-0x2c54fe004ba772644a89a09ab2a0fc68d72c91dcb029a5c82d8548506b52a673));
   (0xcae60ba240a4434e4187587e5c8846b5fb61cb5eed6df31ef65e69275e8298dd, (-0x15c15132c3388cfde23892f2d20bd8615d31e2e4815ac35bc1e588cf0a6fe93fc), 0xa0cfd914f616b9c46e07ca946cb5e03879fff07bba46eedff8aa96423cae95b6, 0x94482de376f63e098f3e148bb102e857047429389c9f3f4363c8af3e87eaad87);
   (0x2dd8a26733dafeacc430e4d71f6c4a925fd5ea239c61782bc5f8a72489de3e1, 0x1b0bbf040553a0ed520cb467e0ddf05219136340a354e1bc013b41a10e8af50, 0x835e06abd6946526f90d7191ece6a32574825b1f1dc4152633cf161647435, (-0x185c0e320b20f15cfb9a18b1b155aa2279e0bf7569268a22dc3a9a7b223aeac));
   (0x30cae755b38e5b5a840715458900883df91c33a324f776c3549a88257df72f77, (-0x8e37d502e60bf9294d5cc6f93ad78a25c5cdbbe053210bc1b98e825eb34912a), 0x94cb79207a085a5bfb16a7227d9ded3285e72216272062f0a1c17d17150841b, 0x98426da08ceb8f4572b39e7dda35ef2d8751ebc164079bdefdd1858f3b734b1)];
   [(0x27fec578a9edadb2aa5328699c0a3cccb201d9e4c4c46c036041f20898797576, 0x63b862d71c47d1f0015581476fb72ec8e8184f46c7b5b09a64751eca379d4d3, 0x63f9db7378a8cf8ab62d0f900d1503b04bfc19af98bde118883a2ee393ad696, (-0x14bb191375bf0dc2b820bef535d1ece49581fc8a8e6a5df28e1d03feb2b7fe98));
   (0x87f9c77da6bb968c6e1660b0dae49ac4f8242d04ca410c02abc9f03b80c25d90, (-0x467b12e98112c24a10bb5da080d1ae80ab97bd03f33c1ffb60cc6d9b8c9b371e), 0x4839641c33bcc896dd20ea80538b05176c1ebdaecdf4326da2de2654398e720b, (-0x15a403eab7cdd4451dad33d0675904ed42ee7b722b3187acb9364a47d6cc67ab));
   (0xd4f0db18fed8a66a083b386445c250011b57923062480f793ccb65d82d6f2d6b, (-0xdd7aca48986e41b1a16dcbcd39515efeef51292aeb11963ae122dc90c5091330), 0xb11fcd7cf078704f177cc3fa5493d96d22c100b379d5be92fad13d94a94ce040, 0xf63fb98b8daed0135b1c3c559f98cfcaf5e00e31794151f6a04306500651176);
   (0x791c50459f799a87e4ed9644e57ee468ace661c260b2d40307cc29885bf47100, (-0x3605b300d5dd3cd3bcf89968908c74d07f2a04f490b6625b39c2ad90ae49dd75), 0x394bc70379276d499f9d3014261f8912a9cc29eb48249bad54022ca5518f1a19, 0x125850c3b5421896896494bbf814e5199eb1195cf901211c8c18f4cc4b2ed10a);
   (0xb1e37e0c64cda2f2f7c2ddf58017d76ea297db370c0aa2d2c7ed970d20f16a42, (-0x502655e61f50871557656f7f24da7bce43475e5f022ca1507388b092ed847264), 0x7b9c5e75eb6f53d6fcde99aa5bae0ef5c9b92e4451f51ae51cc841a9bcf3a2fc, 0x6fde3d307de977cc77aa5cd68a173823b025b86890c4de9ba3ab0223989d6f1e);
   (0x58ff873b75fe48d0de02ba7960e477f2b009a1fad79a0c13db1f838a68704f33, (-0x56316a9cacb70890c6e5ae730feb8344048e0af8387c2f873ccde94d1586a8b7), 0x1ef0ac079103a6e673206f33a47744e9779bb4463a3a92b9459b514293677710, (-0xc3404f0462304c85ba5e21ed042daafdf9e71bf81507afcf822a02baa7522ad));
   (0x52e00e3ef2345a8761df71e96329f4420533395148744770a1446eb54d220406, (-0x3054aaca2d0fc63330603192a760cf781059c26f96c890bba2e86707f609b894), 0x1ad44d39421c579518081a2590b2cc575f6062fb26d35b85b8421f1714e19b96, (-0xe28afdbec181c818c6310f5ec700c4eadadf8b6d8d075907b3e14ad7be246ff));
   (0xc5238da93acbce31bcd74da43ba95e3cb2de7af07eaf9075ea953d6245ad70b7, 0x4f0da3b615cd949956c0247825fcf0df7950161bf25698652e527d0f8ee03292, 0x97cfbcf67f2799b61df703bdb10d8a206b7cf08816c18337f051025899e5f35f, 0x22b818c2d662b5df7f20f17c4506c276ffaa21bdb4be3c8c592f7666b8c4e71d)];
   [(0x4a448861c49b177bf3d75a72ffbe403636a0189476ffa033360c12be26583b58, (-0xd0b03bbe5cfe3d5b497a1099fa460a5bb8dc409c302bd24a63e90eae4163d71d), 0x158bb13142422233804b63a161e1202df118f86c7763ebb82b7ae3f62f8d0492, (-0xe38b6b8d7a32dd15b7cf7844ecf370fdbf193924ac29e8d3876729e79f72e77));
   (0xdd1c1638049a13892014d1de873d131808b595b86dbf056cf45b37076f208f2c, (-0x2a5720c9f2aa4f98ef24297aeab6c2da68135e816bde288865b9a58146922ac1), 0xbef981719620b47b863c41c186d3fcbf3bb564b8d506ad6fde9c42ba81882b90, 0xaacabc605f0e3d1d81cef0c744504549ff90f87408e15e8a917f1c1aeee4660);
   (0x857ad2cd6b2921bd076754555a30fbaa46c691e4d20c90d6ea86468cd38da973, (-0x1a9772865553569fae00a81ddb53874d1963c339e5902ed64c58d16f4c4fdb2da), 0x4598d9f70ab888e6d9f1fdd04a18fbee8a6f61585609dd9d1452f8fd79769f69, 0x22e0682e73abcc81f5398d4340dedfcd0a23831262df4b1b5d2edaf81a85a94b);
   (0x9471dfb2da11fe5d2e7a886490dd2c133d3576f89d4eac3f365f96797551966a, 0xa5c6cfeb353a62140309ff366f1ad32abc88104cb1bfdf44bdf3a38c0419e66, 0x5613dd4e0b8266dd9fef6ce944926529464f82c9f0865da22bf4d80cd754fd83, 0x4eb76779b7b3a8c141eedba84a690d582f3fa3ddd67bfcf79b93c3352159a701);
   (0xb6c8a7949562a9c13c449cdf06d211b1588d3740417adcccabfadc20c87d14bb, (-0x9a844ae072e600617fc0af4d907928917141f09383405760d41aadc63e686da3), 0x8281eb8d8a44e4abca5a1df2c6d86cbc0271fa7035a466e88735c372aa410f47, 0x1cbff2cc874bc0a6472d4c19a7818a1b6636f513d25f73d072df6545c225bffe);
   (0xcfc72646669a22e13c4fa2f56147ca7fd7babf662697196e4fab511935abdd53, (-0x4b2a9d174fc00a12db59c2156ea5ea747cfc488bbb2970dc01043a682405d760), 0xa8a3aad26119c1dc8179af064489ee05e73b65e4c2a6cc237ff98ba4865aba71, 0x35aa89c6d7603f95ac6ea76ccad7e30cee4fcb231d727ef9bc2a38a9046970f4);
   (0x503502588edf305388ed660539a4d821a9bbb2ce37e51394806de385a6e2a0c4, 0x1a508a1fd7294f3f27253dd81a2a6b8641cf3f4acb89c000639fb4aa38651354, 0x19212c7151fc277c3e19f5d3418e77355f3737c73c9f377c45ea37c7db2c8c72, (-0x89e8027da58b436d62663ba32f18be390ca00b98dd2f227d25244103e6dd6c6));
   (0xf4e073e3ad689fe66182954d598754ad66352a40440bbddf0f71a6b415b0153, 0x11db3733047dad74d17c427275c44758156664e02ac0884ea6cb0ec47d2a671, 0xea3ca1b50575402ff9b6b22ca898a03281746546334931a38241f804011359, (-0x1fe885c44d82e9aab1983d59ad563ca4c51dbea94e2211fb80227007c0459f1))];
   [(0x8adbeb828d3955fd13580b649ec0d51cd200054e8894fa357bb6dd39dd142198, 0x989b4d6c0cd53d2c9358d62e376a1abdf929adf7d8185d7396733a3a4ae0a9cc, 0x4b51d6d58a4862a8f7dc310772897420938f4f7a537558d5b8f2a46517dc3832, (-0x15c0d06e8fd868192d36282880604791327e4f30579bd7fbab368e75c59c6a3f));
   (0xd0aca442f1d84a5d919b94df5f60533a72cc06e189e70f7508e2753940e387f9, (-0x20b0b165056b4d78c4d7fdf62aff368341ed15176e0b20a9b52c5aed94578a95), 0xaa18ff59ec5a4adab19fa88b31c2854843d4d4727b2912c765825891cd4ffbdf, 0x8f5d161569d76780f48e95094420d048b5df0fcfaef50547d92c60b72d9d735);
   (0x8fd62364fc6918a7b6ad07b7300fbb01b94e5f0fc41d37bcc1f45a015cdc44a6, 0x38535dde3a98b8e7116a21a93972f0a501ebecf45dbfdc6cd4b8f93b2fd5ab48, 0x50d0eeaa03b82e1b7e32ea9100d86cbbb1c53a4118a8905e8efd09678d4f3d20, 0x2f64b223c2a6049c1647f984a02f0c11ed52476522e7280c84681ea95e469750);
   (0xd2053740ca09fde7d8c00ae492b24fc9eaf7bfeeca9abc1bfee7972662eadf58, 0x244cacfd7b8e67fb3f43169ddcef8aa7589628cdbc508471b24ef6a2f406a30d, 0xac4c8ec17fed302a3a35e1840a7e52464e0617d8b5748be91fcb1871862d323c, (-0x49bbc39d75dd5f25a054688d70e6a33e508c818cec4804fe0033ccde01b48cae));
   (0x8078676104c19ebbe7c8dda69ea4d852a1edaaa36f12aaa7e50fadc1cc0476b3, (-0x3fd000c7da5ec56fe9ba2be58cc33f3bda46fc134d013d5723c30d8d6a85ae68), 0x4078a00219754ad9207e48464c6bde9e1b7ddc8d25c5b7ff489cfa94d15183ed, 0xa8896fda09896697731c47f18c3940965a2062ec43834486f02cd99d4a90622);
   (0xd9a2254eb1165724d49b7f402b59327424e10d29788a1a1b00e957605bca3d62, 0xa26d4864e14a303963a646211c7eef660d82fbf632c39fbe0decd3bc0c20687c, 0xb90449f2a53fd763945a58e25e3bca8dbc38a26634e05270cd32fa9dc30e31ed, (-0xa68cf0b4d6fff23c112668113d4e5184ba7ce8993c477ccf45eeb5dd86f331b1));
   (0xd176c2975ce8fcf3e604b690f8da8e8abd52191520adfe1bfe262496479c0b9e, (-0x7c1863d7069d8e057544e2079d387f1d7a284ba9760b8e3df631286a33d18630), 0xab6320d31d27d61f4a6018a44392bf659f919f1ee4acaf9b552d853f092c16db, 0x6cafcfcfc915905584d5c617dd9d61891bb6da7c1a352d47b43f530c99e07cf5);
   (0x7543f05ea5d7f11f04be316eb1768035e574015d83dac2b8a98b7ea4c8359f8a, 0x4e061f4c126a101ff30c670779b5f9369b45eb4b036f0fb9abc1b152331bfdba, 0x35b72bbe36d3cb61aab1a36207d59d20db4711e001077bc8e6357a2fa189cf9f, (-0x151b0bcf0bbbcc5b48c798d449b5742522db6626492a58710900ccde5c1896de))];
   [(0xe838298a11c6053304d86bdaf61c5c8d69f0d9a71cdac755d0eef49f886c88a5, (-0x22f2905b0a14e528212c5461e833b093fcf0185f668a161a52f75e90824b35fe5), 0xd2a5d79c735c3437577e3a976b6ac4848809719d9f289424d2fa83a30430b778, 0x8b7a9e80a59bb07a49a0ad9c6d2702502c90d31d6eafd49eeff2ac63679b9479);
   (0xf31487dd95ca654d7932d4d3bcd027b2f08212f65a007a7ac28ab8a47d790549, 0x92009abe02bf928671b9aa9bb35b8256fc611af4ae65cdb2ae96c54ac2743023, 0xe6cffb942d1917b8562147824d321ba607a44147d8f77a504ea82f7e77677035, (-0x4161c8049fabe2b2fba1c81483e10d705b93d58afd3e55fa8469ccd5742626ef));
   (0xc32552ee2210231698d000b389e2f9bb93532e3f3c0dc62634ad9f14b80b3a81, 0x6fc71fb5b90fe1e0c0dc745aaa07f8037f4dcd9c42d96859ef23b5b7d2ff5065, 0x94c1e1c7db97d97442590f718363803102e838c2116da8694a152de73a10aa3c, (-0x61f6d590f5179262a58fd5cf6598c868937162bb855078f0637bdbba8636ac3d));
   (0x1d23c607b24ababe1386f69bc243d0fd193e2304724429fad11b77ebd5959ebf, 0x2dfc0b80e262f89e02328dd1888746c48feff10c3653c970d6032c6223f0c02, 0x3511fdd7daf96c4f58628e160b8a3624c4a3ee5fde7a447b11cf83fdaaf004f, 0xce14078965b7f3b2919867ccd9db257b41bde6fb31cde902b775672b798c5c4);
   (0x5cf32cb393ace64b7685f4f38d2ed871bbddd6da8d8f0aa26e32259f79a187c4, (-0xa497b3135450bebe491b8e01f5fd013d2a21786a53e9a9bc151eb8fa77a5966c), 0x21bfaf1ef6dcd87eb8974de4ce10c22869c85107454a9998d8511bba5dd95b99, 0x2518f9d697158f826692d9e2f747911f1c90e07710889a2078b2f47d6b809ca9);
   (0x5b992fd2d78850b42b957a04c4217803e73a2f75edc048f1fe7f5d849cd9661f, (-0x1b13e9d6fdb951c61211c038d3c4687571c01e3aa3a4d2704f170531db9c6a295), 0x20c643aa182fa31aed152d281b40a6fab06ad14cf514c653927ec4caac3832ad, (-0xe95ffdaa7b1ae25326a8facba46cd74e2b8896959c446ef101c790937f1db47));
   (0xd7cc5ca8e12cab6f32265dcd7429865a88ba0bf59f4c7a21fd4c399908cc2623, (-0xd144796d19d6b4fb37295f0c87a8682f6921c700f6aa97e133799c0accb4f3d), 0xb5e8e6c778e9b8666b5cd9d6d584165fae3d91e29383b22570ac086cd7a9e483, 0x16f25deec61f8e36aac08d1ac94c431e8025f338744030965ef4d8bd792c06b8);
   (0x908f88b9e4aece6ded2d7f9fc2329c7f9a7d4949504ac9c79ced69c3554a61bc, 0x68f25fb1faa939b224649615888f1223a071841b314db0df10af678942ea41a0, 0x51a1ca4b29f82d7c55e5265a84aca5edf4c08385882557e935b6eeec8110efb1, (-0x26f163cf257d663309476e717e08c8aded8cb10c1657874b7fc514c28f2ee735))];
   [(0x33fa37f998b0740bd3d01ebf4eb5dca5fd795ca30bb2b700f6c2c5246c91c493, (-0x288c8bf4c056e3700552fd53dda00ba8428a306b08ca18c351a5f9635b198df74), 0xa8da6ded291b9d591af762f8f7950444d4ce97e8c2571af77cf6f31f08246a5, 0x1535d23fef1fb943ea7bc7a4527ce904439469af82adbb4d2a7b433ef2fdcb53);
   (0xc60b7ab467f2af4ca2a6d5b5dae540e2cc8ced0b9a0c51b72b0355701410ed27, 0x50d0c18ea1c082832b8e76d1f3575ce5d46a9e5916b981aedeaa1de6e5ae2375, 0x9935c252d71cc83b42c0cad6fa58ed2630ae68c8e0e994fc4d7a294072479f73, 0x4bb95a8915efe8588b54794c40dd48aad218ba01a27565ced8b6297528807dd2);
   (0x6c647a1f5541b1be021e4f77cd01120521d0d33c945d4d43da55868291df55d1, (-0x1ac458ab4328ca5fda95119f22090a55a0e07e855224e39c514c0f33908f6bca), 0x2de4ee7a12abea638df211a87cf3fe920bd8cb804df071fc20d8915d832dfbda, 0x2bb145247ee8783c520471d18718d9301a1e40d74d2cee42e92b502906a64397);
   (0x15eea020f3796b3b7c0717ffff2a7cd6304b5814c57d9bd571506b98ff4a794f, 0x11ca5e046dcbe3b5d8e3cfde141afe28c12e6f5fd0543ac941a3d293ff18bd64, 0x1e104b3895fd5f0b0e8ac31f83ce8352caee85d858031d1627b40032ba5f0c0, 0x2aba5dcac0018c16aee275b13064687f86108b63261c953ed8352145eb38f3f);
   (0x81f922462ec40f0c138072cbda6942c9a2dbfdacd4905602aab4c0f2c7046d92, 0xcec8a41b5a1f0fa8dfe77c9a804caa0811c58fb6760e2b837cc6898e040ec050, 0x41fd06fe6c3f483920e7dee8edcc545e774dd883f4da287ac4f7d76bf56276d5, (-0x6238f8b72d133aa977b3cc052b1c1a87ae1b3038689108aab5c558679863126));
   (0xa881cca3218459c4678bb25fbc018ebb7201965d2d05436f7cddc2a67995862e, 0x126cd79a400354cc5d119bff03d7499a47b05de534eee490f242d3721bc5afd1f, 0x6eea9e65fbf9e292e1d66d9b4022312e3f052cd64083d0b5d81b3ec53f2f535c, 0x1809f8252d35606ca23d2236d2672aa987a7d73d435754202a5acbd29d6e52ab);
   (0xbfebed0e1a40b3734d6bcf13d1cd38f7cdc191eee1c1dd11e3d0b695c7a6ece2, 0xb70f006f064f7da822ff27c00a8fc7ec6189a56983dcfe2d752225aef8fc1560, 0x8fe1e5281e93dbf2313f55b179d3d094444a089246d7d560a40ece3cebf9092b, (-0x3e3029d3bdbbc9b93b4b24d2268cc2d0e6909b1c8c977009adff49026e487861));
   (0xce63d835bbacf863048f9abdfdc93cc68025cabae3110ce735c01492155c38fa, (-0x2f069d2a1b3e5ea1695f4a77f2611d34e799afa8842d985a8565f7d5df29fcb6), 0xa664d6e76a343f829a48bc8d0ab0c28f66adaf306ece565796a96a81b06d98b3, (-0x4a00ff037255a481dcf9d5e185a9a71e38519dd3fba84b01087dbcca9bf59cd))];
   [(0x9176aa61da3a43f2c3aa722d4938d534e45ea3c34dd7d52d38fe3a4e4b052794, 0xd2daf5dc0fa9cb2377adad42070e595490bbf42939eea6cb393c10b9653c18dc, 0x52a7a4045cd149ec21e0a94b86c879ce087c3462ac0562b0b59fda9d1b28fac9, (-0x875941eafe105c942d93e1628a609660af23a5c2bacfa588401daaf260688784));
   (0x95e466bbc375fc75faec0c746d68c4ac8b04a38dccdbb71bd8217ab263008470, (-0x8b78288c663c4fbb740e6384a122d8d43b25fcc1ae50e8786ac0f0ca00a728a4), 0x57c3ab5db935ab8431078842de9943f34c47f2b07395ae3d71d277d6d640b266, 0x3c3eb4d3239b66c597e47be2d8bca1c8a9abbda3525ee8c41dceaedde2437dd5);
   (0x15f335679cf24d02b0b55fdd7638c68285de4d357daa4be71b389ad9535365de, (-0x271ed82f3742c6d7c14de9ec3dc89dfd424dfd75d419e364b83013392e7b8e5fd), 0x1e1cdd16d97c58ca32e82949716599668e5b752b6dbc858467737d32c3974d7, 0x967a0a5d54f33bfb5ba0e9dce519eb05f9e0d946da16158f3cb3a641396203);
   (0x42c19617f71b719dc4aae6273fb61a3316502533c91c6c71574823d5bd743f2c, (-0x3c539cb1564fc2e9deda704fef990a88265aaae8a480896125f48d6006b04e27), 0x116863c8038cd5c927e3ed5c7ba93cd2ab11773852b3df4802acffb7cf9032b2, (-0x60c02bc5eda40d1f60545945348f9dd5ae3b0ad339a8a55bbcf3a09e9caa021));
   (0x471ffdec4602b478d2e10dafa81e3329a5c473ce152c3bf31f58272623ca5158, (-0x5c28b5cb2e96ac944a576f9eb1afe8aafcd8027095c180d49d1da1f982a8127d), 0x13c2c2d889eb51353b14f267c83a666e4978c21931a572f6a233fb89a45f5ffc, 0x1628994edd97b51bcdd2e615cadc76138dff109517002d76afb394fa113dc9b8);
   (0xd752c21abb9fa74c23cf9a0a508bceb1e8ebf1a05fa786e83dfcabe7215cc4f8, (-0x22d56ae3bbe6606eb4c7c8bce1776ec7b78af5bc405e7e0d914e1d6faee15a4dd), 0xb51c1cc9d372e471b06da97467c38f360e9ccd7d46e89705f00ada40d1eb5233, (-0xbe8a2d62e01cd461e9ba93e7f9f63392bdf5df971d1af8cc532c0e0162182a3));
   (0x13f1b60e4fa8bed333f583e70aee6b2f9b7e8409e01b9fccede3e2b1b306585, (-0x132055db51829ccaefcf16b268ce8659dca05d5086a4a3c8f168c5b1e102dd7), 0x18dc53e683d621b61f107d2c88cd2a3ec3e9648be90410f76bbc971dbafed, 0xaf095c33b149e0f2fd46168cfdda8127a80bc2b712cf05c630862d77bd753f);
   (0x31eb519bcd4883aa9b884f2bb4efee7387e25b20482e56ac429d2c0d225dc800, 0x247f80b772770ec4141c17b9944a6e7664d32cfc9366ca3e1b66915a506775b2, 0x9bbed8c92a49c43288258fe3f73698dea7c40e19c01b79c83537b84d3ef932d, 0x3f721c6432a8485592ecf5fb646292585f6a6762f9702494b105a35160147c8)];
   [(0x8b3d8da9821538c4475232b06093d3fa288c68c003427d39f1ced9e3bbfc8c3b, (-0x2a7cbc889aa55cda48db0fc0a8e3d9f04aea8dcb6912704ac067f9067f27d8395), 0x4bbbe6a2e46f334a95a3f9581c856a8fbadeb40063be1a871ad3bfceff3f5a5a, 0x6d685b760ec2a946844c3e0bd19dc06135fcc8b8307044c169e2e372a4e9510);
   (0x4b8f1ea1bc042b93a39a4e8979c5cca1baf0caf472285004443479964ce22187, 0x3b5ec845997eda01a4de977bc85e4ee0c2548caca85f7bb28b618c07e4ffe88, 0x164d2bf60084cc703258ba8679c1a09e6845cbb76c8306e4212e44873d529dd2, 0x2b3ca8d42cc239c434ce5bf5590ca13cf44eda6057f147556391c6f95c7df212);
   (0x4836f38b45f2a424931add7980a31bf02d932c6fc999d1fc31ab23c7225027cf, (-0x231a5a7cf753be2897daa5fa35da9d1b2cee0737660a3c737e0c82886553d2a45), 0x145ef4c9fdcbb1417e658d5cfcf0ac90940946053f159843068eb4c21de4210c, 0x36fe4009d84f37244cee64f7277e1fc578021484128548bce18872e42ab584ed);
   (0x5b09e8016efde0a8c4f8ea54e88a15037b16beffc9ce02a8b6320b440ea79c31, 0x49cc87f517b9e5e2c5a90a0fb1bc25be740f7023463962bbc0fe4c89796c2ac3, 0x20600b532744e4bffd339f4465f94420e6ebd6bbb7919633b46a77d820c0738c, (-0x3356168ca3e15cd9e0babfff3e461616821614ed7b469f67fb98f222975896cb));
   (0x3d50346c334b78356504206bd8efe92318540b860cb904fe02d624be8ae47690, (-0xb3acf272adc893c42b41f2e535b7c62ec9a4134cb4769131dd27cfc53c2318d), 0xeaf521c5ece29068e4d60437f6c0559c241b6a93640b4971e6d500beb184b31, (-0x163df3bd655b12e7b62c4f10f206541ee33f3e8394a97ec739dab3502975f216));
   (0xe8336acb6dc9e42fab137b0020cf959c58beb9c8dbd24817f0db4d4de21a0ce0, 0xcbf76199743574d1e5c111bc598fbd56cb425bac3a8e4f9b9a5ace5ca9a2a63b, 0xd29d3be47098c499cf4e61816634ac3126f883d84f8a36728c96a158d212ddf5, (-0x829d29f1723cfacf23dc556443b0b37224050b751ba70f35542a183e413a3748));
   (0x715a147db7a9e226ccb08428b28921bb5182a583320d1485812b8387d0f17f42, 0x1c2037dfba39eaab2b74ada4e8965fa78c727b06457b6f179cc104b39b0142cb, 0x3230a5c9662cff88aefcfcb82ae929209b3f869286ba0ececb4cb195ec346e89, 0x24be3dc7317c4e17ac653d7d6c91dcc60d87e85fc17e8fbdc6ad5d088099e807);
   (0xfb5979e5a7ae67906516d509b57ee1c06a1d6dc29370c58feec9191559a0273, 0x7967c0839e32d3e3a020ba7963336fa3958e4e40c452584843d7e3718fef35d, 0xf6c8944e52897ce17261d974f0f6099f734e085eb565e0b22731aebc74f2c1, (-0xb88ed8fce98f97bf451c775630508fc3993dab2d40991c7e3644670811f8713))];
   [(0x2ecde3a1819b7740be340e73abd290b7be207dc8b994187f22de6eae9bc0bf87, (-0x182f5ff5e285ae9789170f1a898780fba5fb1e433c75be9ce1d684a1cb482cef3), 0x88ea36465a543963eb231e925c036417a1e69fa04e5ffbb40581aff4761d00c, (-0x8b2bab53049b159e1cc315a4a471df49530f87b640a3e416e50a2ae322312f2));
   (0x3694e372043945708c42d100f846f5ffccc08bb2702ede79b47c329531a1ceb1, (-0xa24bd37c052dad7c1806fc2762050889b75af9a2a3c3930aa8495dabdec8a24), 0xba3268bdfb071c91987a564ff5d485f77c80a832892e745c83450896df812b6, 0x2a468176ebc69f755c4b7f6add2db61b5b0597e7451955093688a935a576b43c);
   (0xd3eaf468a8bc9da649bfda360e58123d08a8994961d8dcc798e8f327d77a7b58, (-0x1ea5cf75d6a6a8d164c709d37784cdd677cde431fac0b91cf4a56f31c38459b5d), 0xaf6d26883ed31121668e4203d86d40fdfc19da374f130ccb15eb059ce9da56c2, 0x31b747e08813d23c2e755c0ebab44b709e58f98f238b17355381eea67c12bba8);
   (0x5d9193ea3b8477ac1dd0ac23d0dcf0b20c18daf39f56c8eedc3691e47ae8feee, 0x48ff30ab3bf7f9afa9702debcb80f320d8d9868557fac399b3f4b80a8389a34, 0x22331841140c81ad9c14280e24ad5a7bb1ef0ad057c21cf2b5f3e9c05dde5e4b, 0x36e0eb132180887b0d63ed14e74485c3da900e7f4cd6ba1edb62f3e69e225a0c);
   (0xf091f422a11aaf5f7d97b8b941fe100dcc55c9933f72ab4f98273472908dcf20, 0xf73475e5c5f8a1b4291f86b4bc201c88d184ec80c640720e52f0255176acec83, 0xe211fcf7661e90d7c46ff05f658961685241c2258b6c180fea9002c223b8c1d4, (-0xa5f80f2f98acfb0645da8dc408770b6f02f3c327279dab6a46de83cf8df6b1ab));
   (0xcf169a730ff6bd430feeadfce090a00b8759d8d0bf889fc3f149e8b8873558e6, 0x3a1c5b484c848edf5d69075d6890f2137350d585a9fa10dfea04d691eae1331c, 0xa7858fc4fcc667672fac4bce7911b93fb2810eda2fff84c8befc64a8e6f690a0, 0x346cde67c25314053fba7b80e4ac2a437b64f3a29e8f000c6432368b3605bf44);
   (0x237d31f39dfc537db930ab2d629dc152e5f34a2554b48dc6abb677c5b5d699ec, 0xab6f0640996b15b9bc877b2b78708475b1f22d20073c2f62dd0765332255d3a, 0x4eb78e26eda718dcfe64104771ad66fac2173e56a8d76bbaa395c8d44b704b6, 0x1060dc39ffc2bed1fd116112591e4a3abb5d985522fd50a7cb5911460792769);
   (0xd97c83ff4bc9aa8e07a8d4281155c2dd9972a5f7dcbe402cbe4f794b86632a6a, 0x27630ebcdb7629239f169a98d095f95e045519ed0728ed1413163a5b25dc981d, 0xb8c45456f1dc94aa79528ecffcd1bd661d78bc3653cd25ec30d04098ee41de2a, (-0x7ef20813115273b38dfb33b8e3517696de8f5ac85fe669619e5444fe78b962f6))];
   [(0xb2059641ab0bedb3d33165cfdd3f28ea07ce982b23a5c2c28b0b13e0d6398458, 0x9c0f5638f97080489c084b8158a1520bef15a7a81d69d87b026dfddd919e9840, 0x7bcbc512889e4a4fa39d526eb27e5bce5745bd754be36cbf7973635b26f28ca0, (-0x4c2fdcb96131da984b257b8044af23a1bf3143f522abfbb4fcd8fc0fdb696cf3));
   (0x11665a1d57ace482fb8684ccbce4a3523ab3518225c9d3ab720faf37b373b217, (-0x7724d94bb10e0e6518ae81f01e46bb15075823a419a61a36f2945fbf576dddf), 0x12ec0e3d4bf792209a723717907ed2843c3435cd9d1dd968796d499db277a0d, 0x32cdee7e10dd2f2ddd1cb41d36d2903c678ea89871b57a426f2428ca4c5c38b);
   (0xadd2fbf87697aae5ab2e2dcaaf5124953800e7ee86c6dac559dcf3af6cf0dbcb, (-0xf13ee9a4508d9b43e215225f874fcee253efda06ef83aa979c70d2632ad74200), 0x7606d6702becb7823012e7b60f93d12464140e4c94b5ceb9c8388986ddf56794, (-0x123f5aa14143b90e767e340e94af17165f614d57800dc113b97b9dc69495902f));
   (0xf43ac8aeb465c68529a98111caaf9c2b508e2e5b6a519cd30ea7687bf32cc916, (-0x8228f175a6190f3476b89b990d729088e365002e4995568e30a301c2ee6792b7), 0xe9001c0c945d31a48b6b34976421591ea18bc150aecb2cb3ccd0dba5020beee9, 0xcd23195aaaa1a2451c46cb2d1bbe35b93965b7e0645295b35bd62db47114b6de);
   (0x21ed99725cebc0a416d01645abfc74b7721fe90359bb21566c41f6c5a7dec576, (-0x12fe9a24844da41ba8ea1665f3c715e99cc4d229040ac5b6a2763c5fec05a9ed0), 0x47f1e14f5aeba55ada9e4016de8a298ad05708d705a026ea4e5e1d56eaa29d9, 0x653a934dc0ae0a07e20cb6523f66e287ee3da262867db6af39fd89a639e908c);
   (0x9287be7f0afa6983cd699e3214e93be3f148051bc4fb4ef320c804f4b794300b, (-0x27a9c819d5746555e29cd2b932b2a9587f55aa18df5d398ca994f98fa095c6fd1), 0x53df1d43604407cd38dbf8b51b4038098410c5a83b38662d7e079f7e8fe57e55, 0x64c9a7ff6106c96088754de7a7bd7631bcfb924fb2d315225adcb18ccbbe8273);
   (0xf432054f3e7e07658fa48a596abd79e20c5a30a7ec7ccc4112ccd850959df0c0, 0x25d2ab07024fdc117a89a36a053e276ba5887c49fcd4b164e49cc4c7628046d7, 0xe8ef63e52230d84d0ad195ec0d1f92d6f344f23dc338359ef303c010cbdbb8eb, (-0x1913bc2cf3e3849c5cf70103122be765690bc47d06692119d4eeaab9cfebfe2a));
   (0xf7b6bbb8841a4c22c20fe6076de9fde8ec65139da69acdb07d0ba5d5b08f7476, 0x67e46df200c8eff2a4300b82586906759e1ba67bb37d43f43fefb498b43bda8, 0xefb220ad82edaa4be919f72eff67ce524b6fb1fd85c500027b6a808020348656, (-0x5ab15f080fcf65e5052ce22a8727912ecc2a9c36120019cb7c7f8d0efba3f1b1))];
   [(0x9c9fd4930c70494186b5d5d9d890e2bcce7206cf188411b34d3b67ea6f8c28a2, (-0x65cf2c595c76e491212dd26640a2edaaa447375666f8e3b133ef18195a90240), 0x5fd32edcf6562dd41e7652fd567d59ef5e2b4be5a8368818e261b940f95e416a, (-0x4822cc21eff28abf316138bdf59d4ae9925f4b9f49a8e3bfcddcb287583fa655));
   (0x47ba83553a175316b3f1b2e4b6b5140afc2ada5370568080ecb6e9642c7da96f, (-0x210928abdc63a7870635a1f0a1beceb7238679d8585ff964fdc1e73c5b6a4311), 0x1418fcbc6171afced4828975ffde644dcc82948466f4fac4689362e793149644, 0x3140dbcbf83201ff855c1cdb83e416d9c4996418928f875a50ba92dd9dd3e389);
   (0x34d435f849f01d44561214651ddf3211d592d451d2a86f8735fb65f4cd4bcfdb, (-0x149bc067dbeab25194725700bf6dcb957f1229b7032591bc99f7d4600c6410a26), 0xae6e5d64ca4c100fed7b82cf7a5c7904f44f8f0ca9185ed837d4b6bf3708790, 0x1b6f404c71ddeaefeaef39124adcebdf5a2e8eb5b7c0c908846bfd8b9b9afeec);
   (0x9bd6f367a31e868523881c731a4998ff377c12872febf826e6589deabfe7b134, 0x9278c48f0d928640a22e8d1fbaefbe157c4a0723a132e78daf73bc1118cd66c, 0x5eddff3b5839978ebd7f1d8b48f1c969642713ebced2023fa09ba67edcc61c98, (-0x24fd0f777a7bd74195c7be42eba1b979beb9aaca0bfed853f0b5e4b152a00388));
   (0xe77ede035067e5ad6eecde1be13494a10801b49a6decc948d4f3a4fb80a65d2, 0x1c049b6f5227c21292c3cb4373e694ce13c039eb08bde4eb00f95c085ebf49af, 0xd156338946e8664442f1f22b63972e9a6cbc4d1a8adedd2171cf869e7b5a13, (-0x73ac4a40329ba91fae14826a4ed476e1e8746ca59856f51e143dc6ec34732aa));
   (0x7b7846b99d2cb887dc01de992223a08bd13234db3fadf04f7cd70e0a52208267, 0x4357393e44f05ae96814658e2900da6ec57296f93bbbfd12ffb5c243ffaa0eb3, 0x3b8ccc78be965bc88cd4f07b6e5f35b480f06ab2a4a664ffe9f072617751e1f2, (-0x3ce6c7b895762e486561d2cd2b3193c041635883906933a9434a47fddd5f95));
   (0x26d205de7c4146dac35c95fff8d8a6a4f61fc9d2d1b2f2a7f040e450670eceb8, 0x234a40e5f41ef4eec295af5a814fc53f582bd798c0f86664676b9b4175d3549, 0x5e3060bae09ae577b32bcc3843a00b283d49548a8701fdee869883f6c53b15c, 0x2442f6137b724b14228624a11855ec116214db63430329b8e8b13ff7f111b60);
   (0x1302bdc8ecec9e424ffc7de7d4c67750cb5b9237219d41bb019b7221a3a3de2c, (-0x94f060695afd0aee6ddaf9c11382a71a8fb299a40d460e98b75cb96fde0227), 0x169683357011eb8bf930ad89d34c0cdf4119e7a46025f30e55db5652857fa40, (-0x58a74c3f0661a4ed1049d65d8c9b009075fb4f871b3248681f6c0d17908044e))];
   [(0xf7a26b6a8ce590440204968eaf4da18c5dc4f489c2df35ce2ffc02fc468a6fa9, 0x1834614083c279526b4ef48dbbbd82731a6029368fe1ecf941be84b98f2915d2d, 0xef8ad253bbcf8d0eb4379dfd31b2d5e90ac4f8cfea54271caa0c902b759e7ad5, (-0xb2599659fd7795861cbe32f498fcc689a1c64359ce49e7183f45d97c1c26920c));
   (0xa8ac3aeedf98436bdd3dff86b669c3fe924d29da0b3f7417524490eae7e9f22e, (-0x797b0861f11de77960d017ce2111b01a139d2b66846e2ef613cc87669e181671), 0x6f228138c405694dac478785b0ca788dde1ebf99e097772da5e9d41e3f8e279b, 0x821fd2f791de0d034a8b14eeac78a402f086f783ef2dbf93f91b6cf3daac5b72);
   (0x1100fdec7e6383675829d155e86ec171267c223e1af2130f62dd917a4ab681ea, (-0x2756bd3f39dab34757495f13fa38ffba5d32f3b5eeaf052d33bd874fa289992a8), 0x12121ba64a683bdb15034a33de6c1dbd32abd13bb1f714499c30a7598900af1, 0x4920288e83e87975f5a2880ecd87e0579dd1b9758acf7c9e6793f1feeeed2ab);
   (0x31f77c2ffd0e6d5a5d6b923ced0cb763274f0f1d5cbb864918e60eee0f831445, (-0x168e7b4f0d15e561c23597d6940a948db712cc9ae7b0af968e32451335af787c), 0x9c0accb3fb85dd87b84aa32c8b9ef050a2c9cdad02d9e5b4c9492bbeb185336, 0xd3e0717380c21e572bf222e966b8b0eb4d236fa66d11ce7f44f2561eb069515);
   (0x9f39e629e02cdcd41950a9cc88780e5bf06e014a7e5326fdd3808b1b4ca3816b, 0x120f3da1c52b7d93a0b48e8524fe7c06b84337483b515114f043244498152672c, 0x6308f900520cd3f3fd5fdc948f3ee824eaee265a80a33355db035d3da45a64f5, (-0x82f051629726c6ac114ade0ff7e5f4354c8cee40c43879d0ebfa3665757cf730));
   (0xa210709fd33d3229ed42eb3f8adbf0b5aa1160af5247148199a372de4e262559, (-0xaa634911c4a75ba3e24c2d00ea540ca179f6ea3595c8fa92add15e2fb26ad9cb), 0x6698cf988ce017c0f5bd491b299353cdcc2f1848cdae10b33f76814f2bf2402f, 0x37f2b94dda24123e43352f6b7764a9a27e1326e48973220b23c1a4261003f3e1);
   (0x33820d80ab63c7b245d0ecece85407e6db4bf2549a3c1b56ba2a099eacf1bd07, (-0x5787c69c90bbc9720a3922d8b8ad4144039e461abff1a0d5122e402d3289515), 0xa5d1372fbae24fbd1ae67a047182dca96345d3ca614f90f8ab00087c3f99813, (-0x1102d3340b0385269e9e592c8ca972cfec3a845c9117d7e6720ae2b5c6fddeee));
   (0xfdedf1139e6859758f432c8ce1ca2a78f391a98dca11a37e24409b5ee2007b30, 0x1332da746e4f066f2e6647d72af689424b4369888d420680032a9ff31dd45a73, 0xfbe02ba908737fc95ec7a0949c9bcb78ef14b93d1bca894a899d5df40911a998, 0x30e3ca0de79d237c537b0381a63e3252a7af69063627bc021a95f006e5b60a51)];
   [(0x372b7dac49413e4c9dad265782bb7a697f6b7066a48cf5559b1227cbfb02729a, (-0x472957f17c75e4c663d2241f9644458fe9165c308eab42b1ae322a5de1e352b8), 0xbe3b7637d0c582c14f62dbbd7ad79f07526c906f28ba0abe7ff080c14fe28cc, (-0x22504dcc7d703d2e2d601d9c3609f5f5432cae75fa436a128073003c67699fe7));
   (0x473e1798c83e97f2e7adba37443e8d9bf8a1a0bcab351813b55b26d4d12703f7, (-0x2c4f702453628631d6d848aeb069afe128eede1da644f3349c23784fd4042891), 0x13d380262f4085c3fc6e883eae3aefa3b8634fdaddd556b6fff7670ca4cdc386, 0x14031b18eea73cd622d0f6f6620f6ba6b18cad310831ea92ed84a0b5091654e2);
   (0xa9587d010c296df8256bb52abcc9f14a8096637c08c53b90c2508e512193e884, (-0x27ab136cb7eba80237113b9b388b032551a25465410c15c17e71b0d6d5e8db5d0), 0x7005f3a18fd1158eca4d08be20a2e7ff3806b975585839c6be922b2b44b7afbd, 0x35a0e16daf42078edf84fe823770ba0789d3b11d37857b6a51d5f8f69a34913);
   (0x115ecb2852df770134edd8ada6faf8a10c65e2ea4a87bd998fe3299f1b382bb7, (-0xa75bb8aa66079d2186f6be612b599b60e905eb865c3163e50e25fc02e2cf1a9), 0x12dba152dd783b1f54f7b1140ffc6cf80680f11a20e6934d7959d81d47af0d5, 0x72b4973ab91d2998dfd467dcffddc5af2407c254fec3fd630db9db93427a0ab);
   (0x37a539deec6e217aeffc27d1a5114e6ef207806b3a011b4a5e401ce4454c3852, (-0x10b4a3c8f38b728725dee373e278658455666ca99b5fc02c209c91eeb058fbe41), 0xc18698170091fc1efddc15960bcb624260935a056c9bed0b0b71c289180de70, (-0x372b9d7cd1cfc89f746af6208ea6f27763044612e577e223a269ed45e666988));
   (0xf2eb75eec8d833de051f90e5ce580682965818417ad8deeddf4e6b867fdd2966, (-0x12d5dcd62b569fad62db35ec23bf0208518ec415bdc329689b646e2b655adc5b9), 0xe68203892e71a14eaa48ff095a56ea160668e8e1c4b7f0a14772b247fc055df4, 0xa0708b624bab83dcd537a505a337142698869585a31efd84b896b69b41d5d7a3);
   (0xc7ea322daaa401e185dbd5e701175f199c8c7d9be397a5fb427dbe703034ab30, 0xba74624cc08c9abaeeaca103d1248a25bff0988735e6ede3abc54a510a1e555, 0x9c1df042c49ccd8d8e8779950b96c7b0571673a190edcb20c1b7d54ae7c4f678, 0x1671ea3c7d7346d6291ec10e7a3e058dff478d7e3aede327fade359fbad5c250);
   (0x81445fba5c5d773002c5195c127b94050eca0a4ffe625291d46682a8da9104b2, 0x23cf8d78d108228ac0e8f042f3853351e29207a104fe86940216e911307b7b2, 0x4145fabccfe31bfd6be63fe0e522e55930b95a1604e03f9325150113ac488833, (-0x2b6cf82eb5de4f55b685588d229ef86f6c68a90051694ae5f0f961f0b43e4470))];
   [(0xf285b9d782f0c0358d78c0660d654c01b9a4854ddc7b5cebf22e5cbfc0c44685, 0x1ae9364a41035b78de732670826cfd3b49a02213b48ce0c4ea2559dece9c45b60, 0xe5c1193614666a3a2046f1445aac5ef48c81148e6f8561d1ba16f13c7de8d310, (-0x5843d9771a135a5a901678f422de41e30519fb440316724677e000b8e5f10bea));
   (0x45d20e890db7505b6f092de2e93ee4bf0191c46b4d6a52227f46a659e9e77b14, (-0x196930dbad5d11fde219064efaadbf2ab9fe7c62674bd48fc74e561885f02f03), 0x130ae831bb1298f0db97413ab81374b54a04220250a3d710426bdbaa007f7938, (-0x8d74667a4801693e79fbe5854c5037f44ffe758204da5884d97d6d80c50c6eb));
   (0x7200f1a08c4d4fa4b78f1a5ccf3dcd2a05dac0177c506d88589c5ec2a987e9a, (-0x111a94f7552579c0b30099170b6f0d7480d6e7beb8d26bbfa3f50abd1a55cf119), 0x32c4d733e10487c7f0f7c970b5b8c1203a7da0b64e026a3975ca8bc8e15b42, 0x30fb1aecbc00eb9e5f7c149c1e3b834631960c6e3405d4fcb29b51eccb8d3f1);
   (0x9a7f7495f7b114abe746243bd9ab882773bd6c085bc15da29547610253bbca10, 0xa26693cb9bdd7a8fe74aac0896e9d43ff0ed44bcf170b414c787c77e3caf920, 0x5d3d97b94fe50ee41354e5440d6b3b6aba8e653d7c1a2152404d38b4ba534934, (-0x68349adf077a5e11482222b11ead4fe3acb72e9f13a6ecf9382629a81cea75f1));
   (0x936503880c2dee03f5866e69f7eab48e76825069e503e5f7fa260fd4a31dac4, (-0x19ca0077a98917deab97e6498314d6080470f8d6e1812e9fec25bebfd6e9b26b5), 0x54dd29ea0762d42c600d7164c1753f27608bb825b06a2053a783b16ff8caad, (-0x28e6f0ff487ed095dfafbbb52d2bbb124633bd03e8f5794ca7de4126f8af02));
   (0xdab54b18d28903cf90b96a82c856b347b5809ef67d80f359ed223c17009cb9c5, (-0x18d63f31c1015e9e33a26ecf4e6b56634effc0779925497d8f1815d19d77647c), 0xbad944498db29e01550fd8e4bef72cba48a671a5c737def51a62c2be46a1bf15, (-0x9f7610567de9f3fb68098a14cd0cbd99ea56d6b3bd605607dc5dadd9a029f564));
   (0xa421b486677f2fda61fc77634dc695ecdaf814f9f95adfcc79773c8f8fdfca, (-0x6ce2e011018a897e02ef6895d47ecfebcf2d52ade65e98c5442dd3a458ceea), 0x693b33bc3e8eec3582218629dde96974e6c8658907bc7cbf07f04810e885, 0x1383f7cc90c14e7aa48c71fc62985528b054f373041fc8bd81f5bbf98d933e);
   (0x1f9e97ad2216969bbbc2548eed392a51e410fc44de3c52eb012044f5976b0b13, 0x15862b25d6e93799d2c4826b2310899cb4fc58a5602c7b080c228973bdcaf35f, 0x3e7cafb81d53fa95c721c559b8652774334c2fab5fb3817d916f9a34cca1ca9, (-0x5c96be43673a098866f56ca2ea209ed3171468192e4a020230aab84bd947875))];
   [(0x40f885d90dd61ea2f5659e2f2bf302f4e2bf09826f62d88a8053c5b509a23510, (-0x257a47a0ebaebc3ef2a5ff584650e06ddd508d159766ae8ee6527d5f13bed1b54), 0x107d343021711e95c802f96d770b0927c12361596df2986f6e23e22b9712cd2e, 0x10a325c5dedc135e8126a02e9d001b22cddd03f6d99efaae17a68f54f27e0a3b);
   (0x2f372cafec7eb6542c81480a2d400d06031772130aed2a1476fb05fcb380bf0e, 0xc17345b8e62503363c4bf4e0b59c6a5e645bee1d97863ff6bbecc38340e2485, 0x8b54e4cd43b1795fee6ad452946ead06c38e36025b6ffc79d1efbab7724fb3c, 0x164c73a7999d3fee2b16f78bdeb9701072c480dc0299bfa779f6c1dc1b7f6ccb);
   (0x1cc8488cc365cea31f2fa2bfdaf2cc934a7ee50cabfd150becf69e6f4461d10b, (-0x11d996302bd0f265928a4ae6f7624b3f998dd39d82aa047cb6431169039f42f1e), 0x33c6c903b3f0f961e6d2b46605540c8026601968821fac39df373dc1bd987f0, 0x7fb4492ceca28f16950aa35d7779ba646d7b6b7ca4104977146b1611c330098);
   (0x80873864aa737c00d0e3b822d87201127b2077738c618f2316cbbaffdd9c9278, 0x448de54b807140e7f9d9dea285d0509f0d186d4d06cbe6c16eba61cfd5eb569c, 0x40877fd1310b73f5bbb6d91f99e44abd91c1b75093025a9eaa4d212d1f0dcf99, 0x29f9c0fec91ce8e9e8c5e542f56c36641cb3a19e7131532dd004fa68be3d3551);
   (0xa791aa7c50bf5d6a1e72f200ab68fed512ea0aab028b4a25dceff95ed0152edc, 0x7fcd636fccc08340473c507d65f39b3d90ed1a41dec3d35966ead58422240d80, 0x6daf5f50c3b67c44c0dc0ea006a00a9a72fc11f29b58f2fb37a9672bbf2e95a5, (-0x68dc1783f5db796b28e727e770505870f7ccb9974bb2f62fdd3dfaf86e20b410));
   (0x540888725efd001e10d388737cf1cfa7349e1f8870aa9655492e125f3f6807ab, (-0x79858d092e5bfbfe4175379bb88212bcffc4d6fb64cdd4a28e818de8eea4bd5), 0x1b9599d3de35afe9499eb18b5e5f58d75faf4cc38b53eed96f908a80fec9895d, (-0x255b84809c8cd76602150510256ab703a15d296b4362204f796cfd427a2e69d));
   (0x5586157eb16331d0eb1e9b759fd9b4e1d6a80d96b8d70af7ef436c2663b24ee9, 0x2b3d8788965f32d7753cbfbe8d6671898dc0995d34dc486a7ab2ebcb7341cd7c, 0x1c925080a43b9aba419418d3c9540f2fec28f6653c2803c19742a56bb966f755, 0x132ce76bb0869cc01f0e4b980abeb1b9f704a97e9a66ac82801e156c14d7a725);
   (0x31b642c73a430700fb3d206c473dc0668bee37fbb7d0bd550f8ac96fe2d90da8, 0x8b4b84562ca8ad8899be8ca9f4899e2bd2309c1406aa648f59243da09b2840c, 0x9a7475348ffd51286a6771ec7876ef5c3e2454db0832f6ff8731c3e1da159a5, (-0x321d5091098e78bf2a4d4d021b8171466902cd8a342f7d6e42466cbaa007c8b))];
   [(0xcbd459afdcc89e756164c6f50b08e8231a953ba7807175a99eeabdad06dbbab3, (-0x10a5772d81d8975ecf115b0846910af9320f7d51a4f28c6cbd94d2fe71bbe8e4), 0xa24a766192d797e7b1bed237185b4910087ce5346c4995f1da9b898a22c660b0, (-0x60c0d1335d685572ea4b706106b3836388e0b52a3ee600a18ca411ff315cb6e9));
   (0x31a26f5bd933648e6f5c4b72089f620b3dc512fa6456278ed16d688a00da97f3, (-0x178f7423afce1fcafe49b1678d1ff63477b0e6bd106565e7a1756a34db3d931d), 0x99f95b249d558d87eeb725109b4e0b9f408a9e818294a0e9d232cdc5878d42f, 0x1eeb424ffb913c2d326a5876eb57d9303453054dc694a9ff0f76235d60970591);
   (0x5e4c5a26fd030caab23e28ab4cfd0f3bb05b85f1a3af85084a01f8e337e2c301, (-0x24803bd3c1a3f433128dbc6c7bca15bc8cc7a3f2a33a533d30773ccb40c0b7621), 0x22bc28fa48b3e6f31c1e49d9423b8ecc3f72fad7f107cbe20c5ef46d26b96904, 0x3a4431be1bd630a000c25154f0220a8d035a7b4b84100fd9034c3c0cf563bf9f);
   (0x928ccf2f2496e4ad99b56281c0ff06a95457765257f16995141b502368139d81, 0x14fd10c001b177e4f96acd23eb085c9a81410703f63beec0bafe90c2e081a8a2, 0x53e4e9c508f967ba9ba682531ee6d011d910c355d49d8fe8f9743f766bfc1adc, (-0xc7309979e24e894c481954a47ad8187ee1a7c46ef5f69d92dde68abfd315ef3));
   (0x26a7ccb0f29bd7233b52605f23b2bd0a12c18d2b0b26bab92c6789a6dc9a9b40, (-0x319bc8151b6bb1d5d8aeae8a0d584b33c7af7a129c1b807e73eaeac620fc4f05), 0x5d63ec13a8d482800a6d2afab338d79ca9a4cece654c23985619cd91229b78c, 0x4bdb65dca6eaeb35932b892a4db8dbea548a6298e017594bf4b5eea3c164092);
   (0xd7b2ac50e5f422a44b5fa8e1e17009beea07a30d87d1a22f1b645e1a2b9436cb, 0x7c5e280d4f5e58c3bf026e6702cc347847d52354fb555141777b3c4f876090a9, 0xb5bd9a23f6bca840b8c49975e639a43bcb3aa94bdebc4600596dcf3320d86e03, (-0x5323fc1ce30a604e6cd28bf1d13115f5a065b680eef22a70f8d2ee7247fa97e4));
   (0x778069213efb518e0b25ff786ff7a17c7be76c9b94e19dfef8fd44e97840e776, (-0x1cf27208477b52dc3216d213b98846b942b69e4bae1ccefc93865038c1e2fcba), 0x37c8a22634f8eb1f1198b77f4fd04ec8eeb239ff1b280cd89a5c486e545ddcbe, (-0xf0c5601966d7898c4adbd2a63ca606ebfa5f7feeb374aed1e905ee2b0ce534));
   (0x27da0254855ad0af44295849e7e23a3e5fcc46e179fda6a2e19b9f03e9b72888, 0x10a1e6cb56e983b4f947d3c76a093a6fb1de745bc99aed266e17d4466e4cf596, 0x634265db89a383e0597dc73c5351cba39d77ef48cff0b09e2f18d74ebbca459, (-0x96d872f6ad734b47c1daa3564910a5b6f4726374e51709912c99c96af8120f1))];
   [(0x6f6f2e174458f1d58240ba2cfac0d9070d865a2d820ca850f93c92ac5eabd882, (-0x1088e9880482d15736ad2f787c2da2ca3058e19a0c87bdaff4c8d1cb8e7dc3ef4), 0x30819a412dbec5862f3ea421b36dee5a7324e922feea0a72cd632c8b9cc3c2fe, 0x316f476320b31b75fb63610e0a4de2d9a169396622bc2f42628ca549fb95dcd);
   (0xd90e8e7934e837f5f8432b19e106602d1d377ba7af4c59e217421ff7fb4d8ca9, 0x604a891f0ba2ca5dbfdabee2d5b4a36f58c8279a13e8390123bbb2cdb5347d3, 0xb809ae5d603e2859ca51f5bb3089c01b6b5a7ebecd1c574f2a18da9cfa911e6c, 0x839941f75ffc13bbd81e2467176e7ec870d228b7b0c2f10e7bcbb43ae291eca6);
   (0x287a0f5419f0c50b86e3d4e36a2093c4853f9fcfcd9c9918115a50d610bd0574, (-0x10282b287a9800fdf6646c577a370a57a17873a56ebdd609f5b31ddd9173d579c), 0x6665efce52eedbaa8dd55fb8001d9cad113d79e2cf7524d74cf2add0a115a7c, (-0x180910756b302640b50ad8379618d6889a0a4dadef253a526fafc4e8ea31749));
   (0x6a2697e473eb08b838279ebd82bdcfb333a1716f87bea4699d773b7bf48f2747, (-0xff139318366b25d20c0a8f36e08b72906591c5728ea33a6de583d32df8550c), 0x2c03fb9aa1f0599d189f573959550b95cfaa593d3f82c31207c90be8a0ebe95f, (-0xff0b2ccee7071c5fb683f9dae00efafc30b5476608b52baab0ed2de09cd4201));
   (0xd5db7acd1a85a3e52b5ac9c62cb31a95ac54459bd4e0fec0887697cce972b32c, 0xbdc78a3e81f4ecf743ea87454e3463fe29589f7fc907e2e5c22078f6c6d3d343, 0xb2a6f684a3f5e4fca13b96813905ae58f6be1cedde5f5ebea3f3e690031adbf6, (-0x551e9ad0df9c044333bb7e03d7791bb1c8d9191adc96faef170f29367aaac0e3));
   (0x9889077ff7088509a52a94303f520cd847b1998c048b4457312e0c5c1a9507ea, (-0x841f33452c07199bdb57aba80fe0b1c378109643323ac209c5ca58b875dc6048), 0x5ae30240fc88c49358914f274da463018778f6247a157045dddc0b239cf9e5a7, (-0xfcf2b2ca12198af99c09875de5b1414ba93128f17cd61095f2756c83cad83d4));
   (0x579b864d1cd927b9fcd6a88702618f0a552dcf7e94fa9d77a1340566618eb04e, (-0x9e6fabe51097c89323dc4dbe4559664144168b08fab8821d9af46960a5e8596), 0x1dfb13c451715964388ae5f3b771b401d98e8c366967eb998c4912406e269986, 0x27ebd816916713486bf500ac5f08281816eb74d4277a089a227e505d1751856d);
   (0x54817492c9759a97fa60570fddd6eea5dbbb985846026305945a9b4bfdba33c4, 0x2cd22555c260fb4cb7b3482bc4b05a97e7499fb078a858bf5a109589899e2092, 0x1be535f7053990b6864181445fcda698e6eb767b63105b5305d9559ab2b5a030, (-0x22d0acd459465d2b9b7b87936c0d8068714fd6d731a6c416be254b0430ea86a1))];
   [(0xc519b871bb990b190be26744246550363e9ccf0909487de80822bc5c0c725b3f, (-0x55c3ddc495d0286d4aa781619861c9f1dc3bd8f97da6f2d5e4d88af1fd04defd), 0x97c0987495d3df2bddb7840dd96c48acaff922fc52304655a64ee6e31abbfb06, 0x39b07a6b73a6f0a09a79daa5bfffaa2ff45794a3adb19eb92a1870454d476caa);
   (0x295ea31c56ad31be57033b8e045d8fd37b11573faa083a206c13f577a4b8261f, 0xc1bc677cc61a05ed2fa76d716c16f5be4107e8af8f045c4f5ef6b6e596dec12, 0x6af733b44803aa3203b067c879f3e9de2656dbf38b88ef1d671bf81d1fb4052, (-0x124cb920f25dce9d159c9cdc697a1fa044e3c9e7195667316826edc229039753));
   (0xc7816876ad9abbf99acb73461760051cde30b403c126a5d18def648dcd8a3255, (-0x559e318be5fef9551b36f331287be7f9f8b6064f0484c62c1dabeae84f119185), 0x9b7a71d2f4222a41b950e5b733bde06abce7c366edb7a86d4ddcbe5cfc199382, (-0x577b219ca1f760914228d1affb4a4edc294551c9016b9cbd60f9418340950cd4));
   (0xe36e99768052968e9e7bb79c1561ff7c36471b26fbec642d5e02d8aa29ecc45, (-0x2128caaf633a6cb871c632a8f919a7a09d9c2e4b4aba984c9921ba1f40fe72e), 0xca0d53f065679a37940b900dfdf8b0cb94a1fd8e9050414045d21d3ae0dff4, 0xb4561bf860a1266c14ce93280fd83ab0b89ae14ee97ac65f2933db7cb49b2a2);
   (0x664598798e2aafbbe2627906016a54f860964d55efadba580374f6a5ebbdc087, (-0x22e8bd33fcd59d60bc343576bbd7da19011968ae9b9e8387b96b02c5844599adf), 0x28db886c69a13996d7ab20098898f85cdb5691904fb672f0f321b143ecadace6, 0x49c139c213b1bca8afff83e8238af53e6bfc32cfe7508586f7236f9b63b15775);
   (0x35ddc1c3218ad84fc1545f6ca20f19705f4cee46b36e21e1ffd9f4f28793f197, (-0x26d5fe0492357cabdaedd1193296d675e2fcee28718ea60335924fe059d9e322d), 0xb559252e9733499f7d39d43f7b0191c42d7bd6c5005d59fb8b71a19df5f15f0, 0x2f432f6fb827e330442d208dfee0a749302a023d0e63ca6a3c3de35580d61466);
   (0x384fc30d90a1b7a2d51cac9c116950375f883c9f7abc20b272cfd9a9d1000861, 0x2932a45fb8c48719a17402866468730d66fc0f8475da6cce95a3f9bb37576e8c, 0xc62fe2fe643af34f3a11f29d21aa0fa093dc35626e86ee11976a7c991acc459, (-0xedc7d1bfa3a2482de6e0675951357c73c8a9c99e54ae065d37a72bfb285a408));
   (0x6efaef4d34f90607729de0eda64978f7bb24dbcabed1986d529fb81ae7c3e61f, (-0x1654bba9e95499e33ce848e90f2e65d60fab41aee446ca7b8acf228cb1ec833c), 0x301c9b9e9c02b7c00f112ed509366aff591847e2bb62ff6697bd9302ab2be466, (-0x55ba279baf507902ef90f5bafb3267167ed4ee68a4488e1ae3a7e1a72d2fd59))];
   [(0x634da6c426d7e9540c4ec18599a4aac7b6f27f4541aa9c5ec26df1f1922fde6c, 0x3f65437f1c3028bedba9bf731c97bd836696b451fa5f015a9ee01a786e64a853, 0x2685268974ad5504e12f69156e4388b62dd4c0667fa4d7b711b9e99f0b3f013f, 0x1f1f70a6f784e66ce778d6eb6c7b1b3a19b70bef22711c0534e921e9b8a09b1);
   (0x31a4a090ff3e3a04fcc9ed4eb3eaf773dfa7163fa0708f155757e6cdf235e6e1, 0xf8f07eecde498fa504c9c2782438b7dc59f78e0a6204170dd2c4b2cb008841, 0x9a06f55a0326b1e2c2db7df10aecc6da1be3bc393a896ced0169b07c8e24ae2, (-0x153872ca53914f6ef14915811e92ddc3a21d6197c01eaff7b33422db1eebe5b7));
   (0xe8150724b4cc461557c8359ad74ec82e5eaa15d665db3306a7517390d4f9a142, 0x159a2ddfbfb44b51dc84f2ab6bffeb953020c78e26302beae4196800fae8801bf, 0xd2661eacb3eaefb0b3940e5cdd88c953f01bbeedcdbf9370952031e7b6de364a, (-0x6676c9326062476646dfec8bec9ffda4275c159f9b753a3411ee82015bd90f6));
   (0xe64b664a9c868d00ce7f11951b2d7c96c4fcd5b88b084ce5245a4141aa1dbf1a, (-0x1d7f70378ece844a51249745aa3c8aa093689824151a6fcee25cdfb7e99e6a9), 0xcf2b920329d906ae275fbda1c3d9924ea108cb14e47ac0c3e6b983fda924d25e, (-0x9a07e81b2d508408add50715ca91e5004bfde2cff098ad552faad2346c5dd5d9));
   (0x50b0db07bb80a7a0f5755376c3a31cabf8eea598f927ff0850c25f3281bff026, (-0xb740e26f56e43eee1f4a3b4c628ec55ed9eea21838a0ed1418c7a4f1b56de8d), 0x196f0312bb3874b4ffe699ce5c1cf82077803b2d379d6b4b9be908ec421026df, 0x14268eef12262b54a8d85c4c39c55c5d383b93ff01bffd1f5d37bbaa8c2638c6);
   (0xfe85fc2db040e0bf7f52d908972234ce554af464e48dc688262d664d91d26ef2, 0x18172b30a9fa3c929267f5bc4064391d6e903c926f63e9491ad387883b1ebb7d4, 0xfd0e268aa9a3dc8cb243fe38e15f62cd567ef07979394831a1dd8a7630aceb92, (-0x45f93c0c7882c10b9a2bd1502e8d05c8d340fd3c95d44683d569e86f835fdf94));
   (0x36ca9f06d62cf25287a8d7a5f68676ca34ae1018bc9699992434a6eee037d05d, (-0xf807d0dab80d7d205b1bb2dd2f886c6e3b909dd7399362e441cd53d86a2156a), 0xbba1b763bee7363cdc65ed69a4117fd5c2a4c6e5c8db73763c4aa226c01d2d7, 0x31759d9d430b8a1e9ad2774f3637729b861946c1c04446d1ac17b2b85ed82df);
   (0x790a643d87198932898c869b907abfb4b864d0cbade3112a8c6a9b87fc185a, 0x9e3e231fc2e4cb43e02f18009070ef07b797c0ff9c483d4c9feba0e344205, 0x393ad32e25c4d2061aa065044b55366f5a54ba375bee25f73d9d6b9c1ac1, 0x109b0674169a6e5e4299fd63601cfa215a57aeadc7f38b9f46248231887e68)];
   [(0x9b3653fccbfb063809d9bd9c7697e235a29eb0e52279887b1d3729fb5b679b31, 0xab61f25602999746d261af9cc4165d72685d143e637777dac9a76afe5fdbc57a, 0x5e1ad53ba935ed557a567a301ce8055ad2ada754cdb4baf47b383dac00888cd2, (-0x4b3ae86b813f8f74c90910598792cd40aa6b7f22e1729a00da9091b78ff18021));
   (0xa5b2a2ea1fd19bd4693598a923edf1f91ca8f40a0dee13ebbede7bb9fa3c0400, (-0x504ff86f35db82b7bfcaa5eb0fa0ef0dee3e75bff3d8c138c5903cc5d67a6394), 0x6b3fc2a8c24598bffb5f8a27bfe183a0005a406ef104a078e6aa76eb859c230c, 0x5ba04c82891a47fe65918c4b8bbe53c5a9999e29ba980352211ddd248bff126);
   (0x9af09d487e0b537a82b89893d84e5748912cfa7c4d1e82a889fb3a08966ec885, (-0x16e4c3880e52cb415b7b4619c2b5104afe8968f0a293adeb198302dcc06d6f8bf), 0x5dc65f628033f4ccf3cd919cc8dc9bd3ed1d6c7bc7f2122a4f7a46b1e88dc627, (-0xe1eed536e182a4e9a1fea645d6cd656da4df675c1290b2175c5a67147603aad));
   (0xa434bc2574e9b2d35265d6b8fd3845ff22112b662bf88fb7794c595c9e551ac4, (-0x5e8dfb503b852362b4a681eb2dd881e69690ce929c75f16d0465bfe694e55496), 0x69539becf749f541a704a5fe28a992ee3b9557618c3c5a089ce65ec2f6c26348, 0x8eb9855d0e9e381b5f62b285469042eb04f45a8f978442cba05b66f5b7932bed);
   (0x2f4dc0e8c66d047a7f45e2d6317947971c4122152d16ddf746775b592c1287c9, (-0x192182da08693bcdab4036c865fbfc94b6fd5b46c4ad7adcbecfb7ed346bc0c7f), 0x8bda473164162857288e79eeb3544ac606261d36e3cb758802a5bf5eb226334, 0x17a2ab0ff4d72d2689ed9fd78529cce8f185b5e293d21c1600f321b8d31f1ac0);
   (0x6eaae5507193866000abd5a64adac8a3737a5dc078c8273a372cba8385e9f1d7, (-0x23ffea5e4763161dc68649f4441036271f0e902fa78c2af74a11ed31503d426c6), 0x2fd74f267ddaa3e21513deaada319581b39e3ca607e1bd8f457548a97435bf04, 0x2842e84fcdaa6feed7cd5cc73f95deb28a6c9ebdf5dc12b836bafc7ec025deaa);
   (0x3f87409213a1678fc1cfa2acc5e6663e60670f9586515eeb6f1b548315d11558, (-0xd7836447a9a717af1b162dc2e654be5c4104876d6c62fb44bc56257a9cedab3), 0xfc3d93d1003825f1465f7124147a756e772d4a6dcc5c949d52d6acc7feeb518, (-0x3e5071f32cc14c8c75d4af7f16fb2e93256c356cef3da4f16fa68c286d2b6e6));
   (0x1ffe885ba9aec51c996914e9d8b516a7434256c12c92684f178b5bf662ea4008, 0x965d7194c784152ef18bd6cb20c799e77c0dde23a462d77540c94d99dd217b8, 0x3ffa219119e8fa7d60e9c7b26a58718c22049eaaaafd4682f44c51472e84398, (-0x104f217462da1f5efc4f6da11bd0ae88c561f5fa20bf537952605162dde5bdc2))];
   [(0xdddfc2224c76486c7cf9a8aad85abc295a5272e88b500a0a3fa5d2868ca0cfb4, (-0x9c16681b9e11356807578763a92c173bc48fcaabdcff5456ed76c810e2be345d), 0xc04c18c302fd6f9928cee40dabd9fad13fc4ea014cf1926555c818bf947fbff0, 0x16d4f078ad311c1de14c444e971ce45eb675af9818271c88d79343d2d17f4175);
   (0xf0c367f15e970721e2f9cda15b59ff07dc0e8faeb9c18a3b0c06f70bb89f18ac, 0x18c68c5c0b264bb6571afda78a1e55d0436c21a6913611441dfcc80cede0b0ef, 0xe26ef80c154565252a401ee679c2ff32b792c05633e3e69a485b48ff6696f0f2, 0x301fbc94334874ec53660ae62e98e2ef96b7b79a384de5b7576faf019c2f54b1);
   (0x2f57949e5699197663093203346d7d5f2bec999ac95a01ab37134aa771c45fe6, (-0x3a5746a604db99619859b06b0196e5792340d84cb26894aa2c8ac8ea7faaee28), 0x8c146887db28978ce8c39ed09302bb6a68a9acb9409bd2e62fc64dd69e1ad73, 0x7d6f2116f55e0eb1cd0f788ca288300bd629926fdd5b5b26e80af4178351285);
   (0x3bd95b53b892c96b1b4018fb4b3bc4721adb5b8198f9ad7e9a414e30001097b2, 0x1011c7350f6d163c9f242c0e805e6c386fe899a7a7ab915391d4367caa3e932e, 0xdfde8a48b97324a6597d4b5bfd688ef14baf33a94ab8f72e09fe814e614dffa, 0xa51b35a58bb46f84c8ca030283e156c0ed055f76e121da9686da5b75a1d1908);
   (0xb596e93c9673a54e559869c874cd30733ec55737d30cfd4a4ea2dd5fe90eb435, 0x10bb5389578f83a9e742c28f031f9e159203d5dbd8cbeef5b692cfe2b01835e8f, 0x80cebec5d43f2f7bde5fa2aeb78116c0b105edb4f508f0fffbc6d0a28c5ec4d4, (-0x3a16607c3ccdee6e4e4b6f63cd0de60e4957708a26d4128709763fe20d8f224d));
   (0x49129c375ba6e6bb5695fc239fa9414fc1f82bfe3acc41f1a4d2696df87f6430, 0x4124701ab8f1ae32634149f38ddb03d88d5f9da82611194f1d6dfb9ce0ea66fb, 0x14db9e71e96196bb357541c30046d162fd56f4cf2e93f39c46d7ac6f253ca1f2, (-0x295c2f1778770510f02e3a56968ca988095e09e87f941622b23e827589d8beeb));
   (0xebe64d28556c52f6527e7ab094072678fd8f07da6d942e5449660363b9eb77f1, (-0x462eec02bb13306e85a6dddafcdba5277e8f1f5488f66c4f405f64d74d519574), 0xd960a0d6c88fa8b34653a80c2fe3ffc245d8d8a069643eee0efff45a9317f369, (-0x174bf2a59fc43bc97601ebdee4593b3747c96d60b48bf5d2b44f298f3786a299));
   (0x9671d2a7747fe2c10c6fa9db6dd2c1c540b873ad605dcf4f802192ddd7afd793, 0x58f3350e2ead90da4b743e186ff5ff96bfc2a4fae003a5dd41301233da8828de, 0x58699577e1b1df4b6ce28b483c6e7fdb92f9e20a63faa39cd93b10762f599bce, 0xcd78960f6615256808dd70b29ebfc3d668149ae06ec0efe92308753c164bd2d)];
   [(0xfa027415863d41fa371c2dc21e44b0c9b8eba0048b2c4dd2698ed166bc4e81f0, (-0xebab3378cc98c6feb465764172af44d4235f478d5aeacedd79e4c7a74445e330), 0xf428cac00f2941488bc7aa88e22ed784fc244ffa20df8e16640052730c584396, (-0x2c21865d67c917b66254230414054b4321a5ffbe3b5da51df30ea79fe92a7d0c));
   (0x8f69111632e6f2b8e10fc1403ce491efc388297670b6ceb48a177b790f276893, (-0x19507b8a030021968172379404fcec6af6a7d1bc80607cd7e69f51d19ca3b9d4), 0x50568c35d237b94d1d2585a65359ac7cd2e2170cb82002a9e4d72d32157b8e62, 0x57b5b7294268a4316e1acff005904230b6ad4de18f27d8e72fa45dd3654ad09d);
   (0x282ba9fe238cf4d58886ca874c29771dec3f1fe49d8d1478d77543a97562c63a, (-0x2e40854353246c7653b8ef6b4b13981ac5d66ca973414482d28ba98651012a720), 0x64dac91f75d8517a64d9b1e4b2aff5d2d6c08e0f396a509c096db44d7bd5d17, 0x2186b8f36587aef7a60b920c0e75a10f9cafe058b7b759f2e775e2f5d2ac6399);
   (0xd27de0dc94b9c64ac61e394b27ee334551ca29a2fa7e508d7774f772cae8d240, 0x8a854103a49554c85f17c4de6723aa18f2b84eeda8a7f31fedf8fd6256104eb5, 0xad12c2cf40ecc91362c60ed34fdad404df3a40f9f26fd7e6b61215e32d1dd303, (-0xaa05787c4ad0c6eefcd537dc4058369afad8c556ffbe6e392ce16eb9d492332));
   (0x25eac3d8bdb8208ed1c4122e8805ac6b7754d828cbcdb5469a69c4bca3a22824, (-0x49f0c4b52dceac3484f7d336e508c833db77f218a7323ce1bc5f0fa44bbbf775), 0x59db3e744e5f68c02a410c71220f0c5b0e0ccf642b20bc71eb365c7103cc1db, (-0xee94b25e322463171ab4479e00c8978f223f40f7b5fe967568c866da8806cbc));
   (0x2a296a5b39c00f29aefb930028fb5f9a29b29d6260977e5390ecacd1b4f963a9, 0x2285311e6da6142d6ede4b837d5cc234c5a82c8b01be5d4ed6c36e8a217cf8e3, 0x6f19d992c5b30d3b0e4fc332f6eaa0e14d91086b27e0a21ee36850ee216abe8, 0x2873e4374ad52c26f49d31b8213c2e1a221f0e57747a15a0700cc2bef1d0929);
   (0xb144fedec49539ebd73fecadb196ab8ae4172228289f85aa004ecc7a7733b582, 0x7f49b1af2d41449e53d3c7ab1448b03c4fbaec06202ffcdc4d8149b5e3d3958c, 0x7ac07b086fed99508da60b17b39d2cdb04c80a92c5f605366fe1312b9d315ff6, (-0x1c8a98452a19196e0987c4b3ccd1fa6fad00d352f71728faf1bdd62d5ea24ea5));
   (0xbe62dc89a4e1dde27bb4f19539bca030e3abe3f374f6cfd0c80a3223d5f12304, (-0x18241012a7f9d4a575b59f40fb43dde28030f71847f7744029db1d1f55b3102d), 0x8d96e589e81e5fb02a5639bbd5c55ab4213fad9ee05ac58d74bd9c15d30976c8, (-0x87c5050bf13fd7323b97c6d8bd112ffec38e73c9eb4cdaae9eef3c91acaeea87))];
   [(0x7f8ab1c12cc5ecd1865a8307f2fa33d5a7e43c5e2a992126e8e458e74de52d59, 0x4d2447bfe9d29ca72e32182d067e47ab3335e0c050a33b7342fb0933b983d301, 0x3f8ae781ca1d580970f019bb410ba4b42582835141126c69eca24e33d0d3282c, 0x6c87376bf94c2df60b08bad4307393b25f25ccce156ea5cc87b42d5c0f36c7f);
   (0xdbb6bcc7fd4cb44d6592aca33d1a069094443380d09a25fd89d2a51469a0bbf1, 0xbaf59ff359d97a137a8802168297e513db6f4158e89db9963a87cf5ffdbeca3, 0xbc92296f22f3bdd13a8810cca1f2b651985a4071805bb3a83875778f11278a10, (-0x42bc42de6ed2a497393e12cc506f78af31a0c2aa85d6869ce11be9737a82bd9a));
   (0xd1d1154a63ffd0950b5550b0ce04673742208ef0b192ae37de10730284ce6d31, 0x14c6388a60aee8ada340fc3f21d1e363dbf3422d262d4252e552f7bf2b5e5127, 0xabf70f873c84444bdf0ab4097746554cea2f61e92fda9a1d2ef4507c332c0ece, (-0x60acb7e53ba9664b7f0b2ccc7f7d19c90f826ef0c6c9eea08a2b90348d9ec1fc));
   (0xe17e67ab34bf547d68bd058f4b38623e8d2dc05d1037cbe9ae2883e03fb1bd5e, (-0x5be7d7d9d117aacd3980adce969f758f754125b3c7c28af9598832bcf9ad5b63), 0xc69f70a5293b75cd160570fb83d782a48797b7c67913f31e032ad2e0a6566192, (-0x6f3b500d350f74c9bbedb40f3e942b736f64b84bb055c4fa6e565d52dddc372));
   (0xe1f87c01cde61bc5965580a02525d88214aa2ab8eb9ad5950202c29ce9740df7, 0x73e8d2da6d6347421983b7b307ff99675f3dc8f212fb4abd0fd4c5db3afb1433, 0xc776bb2bab7f2a214d638a4115acfcff74a8482fb468020cb8aeaba705bbedb4, 0x373a406bd32e614bdebbf8d99483d58c271340a5a4f78d5ec74d970ccb96fd4f);
   (0x9e87acd4a4f9954e433d87d2c82b246380f5d49b0ade098a24addc6e6ee1de4f, 0x2dbb4578f5dd668f508435e0ddf31ae01de277fd063516ead8776d536e0f91eb, 0x622bc13e389881d91bdc0d278b4a666ba83f7fb05a83cefddcf49aaa3f09071e, (-0x20d1adfac959fd910f16d1d8a82184f5498fa19e2beab47a37a7ec9b4c4155bb));
   (0x70daa3af6584256936790c7327e37c0f0507d957ead16391c9b6af25414ef7d6, (-0x455c13f4269d39a433ff746d6e4d6d80eb9ef08ec403ec24b8d4e50bc27a715e), 0x31c009f4a835593e016b5c003553ebdd13b1997394ec694087a04a17ff16f17a, (-0xe7925c9e542b1f809acf348d8f2719a04f3fb44e76716943480aa8ce5b988f8));
   (0xea262e1ce8244c2208460ace6e126c13532cbcaad699681d5c494b60eade98c7, 0x7237998db36c6f1ccd57bc43e96d55bfd60cd1a2cad509c279c50d68d8fa9873, 0xd629d1fe9145aca57709321ac0ec687b17834d6702199b511a803bdcb2ec162d, 0x29f17afc17e3682d1733784eec9eec4aaeb4ef6b0da5fb2b8d64a96a0f20279d)]].
Definition q189 : Z * Z := (0xb77f12a7dce56b973e2d7c8d576e6b3660470a9218b87461ef6e44b70cb1815d, 0x4b6f85b14f86acc43f0cefb373cc2e654c42f0f91a44816d6ba3d2bc8e57dbc5).
Lemma gen_run : rows_chk numsG (gx, gy) gen_chain = Some q189.
Proof. vm_compute. reflexivity. Qed.
Definition q_chain : list wit :=
  [(0x4ee74fade23a01a878fb3c374df45c17c225066fcd6bde84297fcb6d0d076b80, (-0x15c147b8de426cf21c754dce3bd50e03bb0985b9c8efeb26af9c16ff2fd2df795), 0x1851c58eda76656cff1a1e8927fe43f2c260cc35e1a67affbd6ef96f73c425c6, 0x222ed93ff17480fd1c08e92f8b56f63861993bc8af414dcc4659efa555847ece);
   (0xf6d86bf1dc1c078cbb867791047c8b5b38eed75bfb229a5c0ded069a7e8ece5d, 0xa60bedc80199f8227973db15ce88444ec7f3d83462bd01f8d69d8b563a5c5a86, 0xee04a66b28ad604ece38ec7b7dc8695370c135374973d3beba74f0ba6e164eb9, (-0x9adbac6c11f111ab890a12d65166dd71553fb0dd3336eefbed6bbc781868e0da));
   (0xdf71ec84c663fec05c571e2c6fc5085c6011af545fbe42f3ff693db7d801c00b, (-0xc6e16180b8034c0dcb5578ab860bec0abe52067e4c23abad68e8b238994058ce), 0xc307acc1f95e6cbf9541813a7c8d723e72a5f690eb13e813ea2985744f1ff4ce, (-0x145b0c089fecc48a97c41b5aa4d261ff85503ec373380c5da103127f24d2e79));
   (0x361f57ef460f29732cafc83d9eba25fe0dd319931c8036710b2a38f274f1db61, (-0x234d163445271919f08d811ca96df1f37454c40e81d7fb093aed71143dfce718f), 0xb713cef5bb5de6ad266f40a46da3449eca6f601bb60a5e1e1bf655756636abd, 0x252a464232c99fe538dfc668b2823b90740419227b4be22fc7b15dd5b39c902c);
   (0xa4afeb28ea7f78a6c09688fb88e28a8a67d5786fa2f90dca571f6de9515ef2e, (-0x24263ccad1bbd0c41c71c6834664c99a9754d10f46c3b291334950e540b0a018), 0x69f1de2fc66811ecc0e14f0be4330c18a3c0709e8f79a6f5046f1f13f445f5, 0x19e2ea49180de97eed0c5af2d9e683be0a72a3820ab76316fa4f6af1bb2e5b5);
   (0xff5737b636d1c1ffbe6c3acb14f153e190294a4b1510629bd4c822ab9dad3e37, 0x7e5773673ca885ed88cdde45e49a22894c6a5419f9369aa6a15806464e0f750d, 0xfeaedeb3eb2ef04d7887efdc07d60f05a0069b599fef6b9c1001c8922ceb5d0b, (-0x4d42dee7f618cfe85c789cfecb2c1cf544968ad05aaf3bf638920da5d6938c5f));
   (0x3c8aae7b252f8ad62c5cbd47b0395603168652829700f7c1f76902d8f7ed0e95, (-0x2a190420b271f3ba3cb23d8499d360ee4ffec781ffc6c62cffb3dd3a140dcb36), 0xe514cea4d1e021f7584a1c88d12e859ddf921808f19979dbe05b35a8e0e312a, (-0x1f598a76062432225d0edd413853730b537e320b7b1ef11e5d30067be2532b36));
   (0xa5af926d811d13acfb2c4a8c53c007027c0786aaa9e7ca78d2ef4ce4f1014719, (-0x20024616b1672e4c07526510ac50a437374f8579bec28283cbad20c68c8edf4b5), 0x6b3bcb2aade7173a4098df95046641ee800376e2552cab4beefa0e90b0257a68, (-0x1004d12bb2f3049ccb13d4120675e27493247bb156648d7880250a696e067e1f));
   (0xcbe492e4985bdd16dadef632759ded318b5927d7201171512a30ff038b505ab5, (-0x18008a081a68ce3141f51ed2b32861b528834ff5ad614ade331ffdf4b756b3f0f), 0xa2644d0c851a9e2c96509178cf7ae652f92bb45e42465a38afc8339973477e68, 0xb12e5a29b3cf7905ad09750acde15ed9dcf6291868701d4fd7ef7c794de5523c);
   (0xc194d171091781faa47f5ce501af8b4334ff7fe52203f734ac51cb5aec54e4c7, 0x8dcd0f0ed3ae22ae806ac38da4e6cc7692644baae095ad98e0e1baf63e04e921, 0x9261ba4f45c1b7eb9f24e67e200ba479535382d402b58d66541a2a202e9471da, (-0x82ea2703cf2805c9e9203d526865e0de7698af56bc35b349f330f151b10b48e9));
   (0xf2da5bf72e636a9f21f40bafdc050a179de1ea73d05fe6de8bae1ac6ca80f88d, (-0xe771a8f2a0bd58e5dac7764dffe10b3d62b97bace02daa8f98acd4ea13765e1), 0xe661902015b8a08bad43fbe03c69f56d86093daeedf1a670b21f3fdc7fa3b9fa, 0xa4608399f0db86ee65d28cae49f70a1359b0ba93a7300e764bcc5b7a7a0cdda7);
   (0xf492eaa6961c99ae817c48f8e3a99d4a2945f856225756a063f20f3021e24ab0, 0x143279eaadcc423383e9910de17e1a3ca3735f5b2644d0d8dc2eb2c1fae972603, 0xe9a8639e0b3eb4673ff0772f4aa0aab491afc69a08f71a942b2496d16260a136, (-0x3a65703bfd13c4bf942300c131e4632c6c5d0e218b515627759724e377864438));
   (0xa72e4243dc96df2a157145e0c716cc80520155f5128cd64d74123b48359d5782, (-0x20706705e6c0079f9300b17397a10e5f871af7835cebe65d5011cad2192841fc), 0x6d2d62d06b572d1c1b37a9709e8fee6f7cc93a79228d44b27876b26969ffc4bc, 0x1efdf23655489dd428167a13526fc67a2cd24e98c4453b232688d11dd161101);
   (0xeb7198abf8ca01eb3fac129c5a73dc3b83d031a663556a8467837511c77ce4b5, 0x8b1dd0bc1e65945a561be41d11bdabe0f222320a873b8f18797b0612c9b56cf4, 0xd889c0b3dda12cd1ca820f15b4b4a731b8be3f1c70118c8d802d02c6e315eb33, (-0x50f7990e844d04d84960cfa767b03412b8403ec992f81f3ae068b2e1eefb33ba));
   (0x97b46ee4200685076ddedde034be36b2906cd6bc27e4a45103dd3df11241112f, (-0x1177198ee460c5439178b6efd818938cf722aa0a17215831ba24277799404b4e8), 0x59e659fd3e9d90e88000643a1a1c0b0032e30b2cf3d8db53f7b20a63aab3e765, 0x5cc6f20fda19e02de8158c73342abbaef2e0af7b9e5d403658bf2a0e3fb7ffb2);
   (0x2236ba67f0aed1ee74398f778818bc9190f4f60d994e1952d10793288a21c756, 0x2afcc22fed81ca4fcf577c4a0d45e31e73d3c24b7375cc2d4a7bb9d8a8aaa98c, 0x4929536c7832d757f7c022a9798439b1f8d051a43a79cd8597a3c033f326204, (-0x8f0a50192bd733048c7015068342121bfc2fb525149f9648598aaff46d47d87));
   (0x8eddd290e5189e9a09c76ed6d712441b6d27664842dd8e2a2da6fc2264734dae, (-0x4e797fa89c0c1bbcb5916f2f603f5aba0ec976f4943071c0c9151ffb914f1f5c), 0x4fbad5cdf984e653a5ba54bf9c5fe61706ecf7d1f4aa97a92adbf78951d36c37, (-0x4580c4a156ef841e2bef8dcf0b1a1184c679a3ebfa1b1dabe263cce803648277));
   (0x5e5d9f74a69405ab738e867514ecbd088355b4c30437e68d0aea625c1d4349ec, (-0x1a55ba2fa19d7e13271f3e921e604b8ad0b6d626ec026aae9aee1d687170ff465), 0x22c8e356e867d7c949030a2858d8f16f165306237a20bdd8657eeb73843aa091, 0xc99cbaf1cc31e13c00e7194c7a06553faae6ada517abfa9d5a78da0d9f3a4d3);
   (0x86d7e10b7570e8b0637420fc36ff4e519a6eab0b3ffc8ac280b69a1d86ff9887, (-0xec493a1e167d29e0857a5fd100a696ad013ff4b87f29c789ab7165fb2cf17913), 0x4706b5a3c6069c3346ff140fc7ed2ebb45686f1358f98a5f3b026dc7f92419fe, (-0x2644579ce815190084bda28696046438056f1339c0d9610a35484dff3735ae1c));
   (0xf66c18362c94a842ae9f96fd5fe8a693363e8759ff6c57cdc3f98b7730339f73, (-0x20f477d0ec61db522b7f1eff6200ac49eef8c0869744fc0db2540d136fdeae343), 0xed33ec2c8dad84a0d5e4f9dfd9779c4d335a6cb12034548d77c3b283dae840c1, 0x9116ce7ce9c6341942a80dd54c1d7f6e9e7907971e7d32d34b87fde5f317d4a6);
   (0xdbfd8bf7c3b1490a8b50e596292609b6253877026373c6a492ecdd76197b8138, (-0xe169fad0003ab7be6d5a37b161f6fbb107ae599d31e57e0c36c24d4e30b83c0), 0xbd0bc897dd111db02437bc638a4969c3190e1699a4980c2b53b74d2b505389a5, 0x808c25eba417234b5486bd25d07f9557fa44237df0f27880f87556a9ecf15dd);
   (0xd8922062d40c8a8ad208d58d36ad5621d550e8fb087d1c34f90909dd1a2b4f79, 0x8c1a30aeb7f0c9436870d100020fcb11fe9ce589180a6d07aa2ee2fb37736f51, 0xb736ea0fbaa7e34274a807501959f51714af717091bd5f90c78cd34040d1e319, (-0x2403a9b71798405ff5b1cddea61e7fb4bc96dda16f74f9fa03605942386335b));
   (0xdc1020d83e933047e2c67d95c88b21a1172997339674cf169ec12b7e79270d55, 0x1f0483f9f852c7f9cc1f4fdb0bfa2753eeddaf656f439fdc1e1de4e1c45d824e, 0xbd2bb977cacb93b00a8092acbf433019105ffeb4146cea525072f7db9472aed9, (-0x6ba376b2f96c3cd98acbdf9f52c24de9a63a93d24a0e580cff6fa5022eefd1b0));
   (0xb30ceb66c726c55aa8bdeef02647bed83bb630d8025e1beaa2a4659163a8f3f0, (-0x178941aa9d3e4c7ef0d891dc04eb0b3a0cf27df0eb6a296ca692711a545a57494), 0x7d3b11d8a498be83c4a070af897942ee32a5cd9ec577632eeb868a3e4bc84d5d, 0x2b1b09fb2b064b4660cc6ee93770a007b3fc34492f40454c9df763d79b6c47b6);
   (0x90a197b7b8e33bfeb50cc4756bced529643b3afb182001e52b13f8336cf36bc3, (-0x79d84b9b490028fcd5dd7b638f734b95c5c971e1295233d7c01b0345b715f5db), 0x51b630aedf007145ed3bc6c0b50482f1ab23d4a3afa073c123e3353e2f0bbe6c, 0x4f7ae0d4bef3dfad34433bd45909db54954a7dd722148473969745d7f4b7ccb0);
   (0x538642245d31a63b4ffc418923f6e47a203f3c84c89fb4291b3726d7d2c6be2d, 0x4393c476d88d03f00135addb5ec20378a901bc7b4f735ad71300a8c6fb9e39b9, 0x1b40554ce39686fc6d8fc0e84063c363a2e4ddcdd3592be8a06391764145b16e, (-0x1fdc9928db544dcc41735e893c8af7bb4d7ac12915e9c366d1607333d0026588));
   (0x29e06cd166ef787ccdee448a9b153c1f4e2693bb0de4270e420d5e1413c652ae, (-0x80b3b179031a0ea4e3a75da1704fefbb9aca36abc8a8c29a31e322088800ed99), 0x6d9a799afae31ce1e6e707b46f4af00545600a5738afb79a5f32a0fb46f9fe1, (-0x91116d01c20adbe9147a40c45e127ab75e8926eb36d1967f0099b739a626593));
   (0x22045e501c08e7fd4bfd5e3730fbefb93cc5ef12bac847beb4253468845106b3, (-0x12c55b826077d8f9bf983fe8e12f2d7398cb0cf388151f198c722ac4dd9c0f3fd), 0x48529205cb22b8e9b1aa21de4f72438d2fcc5bc796872f88dccd04092ef823e, (-0x480eaeb283cdf6069c21fd72d9591c8142f04cbcd302d6f9741aa19b6740c14));
   (0xcf3730f3c43c216356e4851fca06af5a3feaec8e75aaf2a402dbc499336d49cd, (-0x50a7dce6a75b656d31cfa4104c6ca69ca420f6c35006284ab632b82eeb76a1a9), 0xa7ba4d104973e189ac4da9e70c19ae79a7688c8c985880a47f37df927669a776, (-0x16be350bd938542d17238c88a6e09071a45aa3a12d2d3f84dd73777aa1422413));
   (0x5a72b1347f2f36dc741c32f6d55ecc4feb41dc1d79bc84dc3c3caa4d33b31c33, (-0x2112410afc74715c22c5c810ad1ae82028a0db3f37211d8722979bef342e63837), 0x1ff4d7fb36d81b431236403507b3132936990c495461b20e70ff3e12e678323a, 0x3c43b020c0100bda47d05ed30e134d906297d232926da9dbb27a6a8142de4379);
   (0x2cf6e38b89eb995ff629523e4d1a1870528d114ddfac39b1848799eb9e8e3a19, (-0x12bc59588d326ea499d2d96fcfd5370d235ba67167df0b1fe8c362219e45b3f1), 0x7e5cc5211d6d02aa3320b6dba80f50b468150a28823bb7f15f7c1852309ab8d, 0x680558d4f4bae230b4e6ab2ea88b48db0380516537dc14e55ca1b354c645f18);
   (0x4d2f7028964ab24df12ede0ebb0d70474d9d35e3fa88a6f72d0992ca075e7423, 0x7522022a3b0f63fbc00bd80019a686348dc248089ee0223cb2773463d5a0225e, 0x17459242ca73a8a1074c4aedaec3e3321f3fc756b73265706431a7c96d8fd102, (-0x2e5df0514cc554f4339ac46abb1f115dcc11db701f5c8d5b1af07a9e6638d25));
   (0xe7f7b5bf52677f47c909ff753e0cb6422a756242da7e9774f36f7853e8ba4548, 0x172ed1e66c9d462a1a6a46ddcc015245919fc76367548909cb64b917c2541735b, 0xd230f9af7eefe4ed9447e3185236236f65fa19bdc05a74fa1985f04d1c87edfa, (-0x62e6b1e8da92e8634218dd5cd03fd0eae2d4197b61af4812b9a558b7b3ec92fd));
   (0x67cf0c07b10b0e211b54630fd69e79dfea8523099792a76ee4fdf4e9f6aea0a0, (-0xe877fd97b5f859a51d4f8482c62490afc5cf1874dc7446940423369ae7cd2f50), 0x2a184322a577ee13afe6449259a22ed99291d226f5c5a495fb12ecbe2f96a1d9, (-0x2adabf12cba89440afae6d5a2920b30a1ec444ba4c7d4441b5e1d52985ee2b7a));
   (0x73055117f8fc71da09e4402e46a97b6258827c6a82b8f56dd4ed293544d609bd, (-0x24a615bd24f1783954fed035cfaaa6775a24b4c6c3646dbc756771bcfefdd1619), 0x33adc6f7ce52b5f4c6f9f98b17fbc4a97db0968017f4056ef2ae1badfe7b3b43, 0x2c19e28a25a7485920da8493c0197f57b5dbaa74df6d0184cd161f56cc3d5a00);
   (0x20f70b4b1d6ce28d3cb19b2f27a9714fe1185759ffd6109ec1ae18ba7e0b482b, (-0xfa3615fd6f942de21cd20d748eb758668602f0c4909065e6b9ef1242ae1f3cf2), 0x43eb13992cd8b52185e412201b9006f8c3d7f87ac61d1d7fe1e3638d20a2196, (-0x6ffc36297e7d29264519bc04fffd52123e97e917d739e88a42745ef41e513a3));
   (0x92ed0bec3174253e88f618baf673554e1329094b7bfbcd13d35dd9abf016b216, (-0xccd4bb88ca741bccaac18c48be3838bb5de22454f75307aa476407e84b079941), 0x54533d187c4a31b37ce801e46dab00190dcc320241d1231e995e2d90eff8d23f, 0x1145c0d0ba3c29af715bf17e4866c7baf65fdd3ca649e402c8a2f40210ad165e);
   (0x2cd908c6c9e08e431bd3bcf301875953abae29e512407a57a9131c017312ba60, (-0x11037df283087462737e521502e6a0e4bdc9812a36f070877ab1d80282b41cf55), 0x7db530436b476932ec89bd4ca084bdfc0f260d528f8a08d8197ba7cabf2d1c3, 0xfbf4d7604d5eadc20547e09767737e7c6f315f8611539675a1d3b9ca6c1c87f);
   (0xabb29926777623d00344ec00c5dd34ea088fc53e9f5ef3e6d3c7cdd083ad1676, 0xab600001f9e307f7386e985ab5492f6471c9a670fb524355934fe743d2d57e4b, 0x73281532b8b4f4b49742f09affc749e7d50be3b6f6b32519ae2035793be58aaf, (-0x54fa9b042b67a11da5e3a26447472c908c3a996ee40e2be8a43173c5b82d5a79));
   (0x695a461880f215df8c78df54a946d96d3d913b60d87441a36d3e41538f4789b7, (-0x148e652f1aa21cc21173cff95af228137270c9526106024c475b32c79cce1b1d3), 0x2b5b2d557632a90594b741b9d42c34bbbb2538f5bde8cda2d9829425c0901530, 0x9c17af1570884453f7e1b0fd6c24f45e9f7f43ec92f33541cf5e17c896691f6);
   (0x779bd28859b018134c8e880d8a3618c424181023236cb8286c33e300ff139275, (-0xc977f5ac094dccfc40cb80cabeb49c8e0a31595af209d63d32bbbaaa02e34003), 0x37e23c9361a24d636a905f0f0d926c0f9b75836c62616ac9d230266b02ef4608, (-0x1c610a0cd7e292613fb6c59e4ff1ecd38248e5f5272230210766fdb2c6c5544c));
   (0xa35657db7e33dd28b733057677392155cc1b5230a1fe05b24ffc8e5b5198fefa, (-0x26b155c8949c51c43692b0c22d38a585acc0fd61e45ebe0d790f982769f9735c9), 0x68371100a855c272dbeb37a0980b430b1d013ef71dd9ca2496eb2d52fd0564cb, 0xf4c11b86e625d3682a8d13a7cfc4f97a8cc3cb7f7c3c8f01d6d6ae9cb5db11b);
   (0xd3c93a931625a689dd3592bab79729508468624abd1b29f3fc8a043138c2fbdd, (-0x14a56fa99d4c9ef17299bd2b46df8816dbcc2245a239233c5af9cae8a3d476da9), 0xaf3554bb7ee1d23247c1e6b9c810d2ed6f53b5b1b14dd9cfbf54a9dcc016a99c, 0x660e724994b658dd246028d1e839f74aa093e322087195f8b0c9be5536e8fd49);
   (0xae953ad3269b7bcb3fc29e1dc17815047a20636d0ece8ba0dc6dddcbf615bda, (-0x63729429eebb0247657f0746a73c3f1969d8903948a1eec499a20fe3c7a5f609), 0x770f32f48fcaa8ed837d789b4702805162a3841ba7d188887a445702554d1f, (-0x3952bfdaac7be4213d94ad5325e22920c9057243368d88925c325d5b7cd0abb));
   (0x4fff3d2acd719a0c307986ea355754397ae1fca620951f11cae247eacc5841a6, (-0x17ecf3188e4f17465cb8cdab3aa83ef7455f982e15fd71d4d24eff794f600cfd5), 0x18ff863b54aed2749bc3119a06c6247d623a7df6ff31ade94dbffea597f1ca42, (-0x102d5f2f74bb4ac41171f7f702f8be9c13eaf1e7231907f401e605baec10acbe));
   (0x7a52afb302ea144dbc27ab1f0c7c9af22e769094a0a9b1eff91b1eafbdf41c0b, (-0x1c9cbe1eae7ecbd5098b7da218034bef318fa56ec0c01258a06e9851a502bd810), 0x3a72ea2ba60b3478344582d0e9e15832275f6a4892a335c1e9b232ae3450fa0e, 0x3a7ca6f7d35a67d98695d9cefd8c1d1f4bee8dba658f189ce0bec9fcda936f93);
   (0xd81c11d09ea2ebe388858b897a2514e6c806372d05dafa3a8307e1103e57626d, (-0x7777b3803471027cab2e624b856090e4b5a1deb9133c7a9bd24576fe9f50d101), 0xb66f6123f29300c75e88456a5b9575244da53ec448f6efcac6815d37ae106f7d, (-0xfd1988a00342d151890eae32f7431cfed57ac1e660bdcf491efb0d78e40ac1b));
   (0xa1f316299c051adcfd77e3908b8b8e1d16a72fcd0b069f7ae3f53fb842d3ad56, (-0x85ba12b1720d77d50721cd958358d2c7129ffffe3f07858ece048e432fa8c568), 0x6673a8b36b27cb0f2fb0cd0703cfd64119ce061ae4dbdbdb0efb94c78694eae0, (-0xb2b5bd35faaf6da881e8f348f61db40bcac8f3f9a7633912293da8c70975679));
   (0xaee719a737ac4e364919e03e5445a0aa54749101ba80f9870cf20e6dc301ffdc, (-0x2e540bc766aef3a20a075b1a497cd3ef68db194437a0fba64f9b9ed4208a408), 0x777ef77e9e06c96047873c365cd9f305d6d344f52c29e2c9fa653e3a79cd79eb, (-0x1697b99d9245cb790a6fdf805daf784637f9740e7891fd3bf630146023ca70e8));
   (0xe732d14399fbeed039026f11b190354fba6434bfd8f73a24ef6362b4a0ea91ef, (-0xea0494695db0cccea8369a105a55433e780cea7ce11199cdd1e48e768a6bf98f), 0xd0ccbfbe695c42ac62a6c2dc31392aa14829c55055374711080b80df88962635, (-0x3174cecf085de34ec932eb5ebc55458c6a166464dacc99aa35453bfa9d1e3c0d));
   (0x2c649e1b444bfaa921f03578039be8f40e5e8ec300f40fb2cf8755a250992c04, (-0x24511d51ebfc3e90f7c37f7ffde6f6853996200a29e423b683746668a9b83e4e8), 0x7b2bde5466d24bb3b752f53603c1ad52c5ddff4fb703c11be520cfde7e06a2b, 0x25ed8e003c61a2270f74c2e987cadb2b1994fddf26c27839105e16f201b50000);
   (0x7f6ca70ea09ad6dc86113265e004c641fe4ade7c26f023e090d6fed00d0af860, 0x64e9d4c7ea4b5840100224cee77efec4f282ac5b458c0766cf52981dce0437fb, 0x3f6cfbdde4b53a34111b4fc7911867f2ebcb1204d0c0c195912c254fffae0a44, (-0x6b7f09a01520a0c97909dda06b9f05376fdfaf33a0ab971fd2b59db2b0abd5e9));
   (0x956bb6638dcfae6ed2d37ab4883e724fe35b9eef641780caac5efc9af49ad601, (-0x19ec63ffbd46c9d6fd5f429185ed5d468c4511d7cbd7f25a5d5be5f57a2d463f4), 0x57368fa1dc3e01031b4355bc1ddcec5b5c7a55f02c1d63a7fb8a9e7c0180823b, 0x1a6fe5c091ea460b15298059e3246ec3eee3e97cd253a6f0e5003d8c3e40578d);
   (0x4ba55d8b5483fb0b4eef34a9a5f85538af7bbc4e921ba073bb4bf2b4cd7a6391, (-0x180a1095623357ecf8e094b36f47bdb7dfd067d4591f3c2e9bc82ebf186120e76), 0x165a4fa15b4ece7704739fa11d84d785e8311a9da471f7c47c92d960190477f0, 0x193de391aba2f499bbe89403fc304c348d6a1d6ba56a561e89d070a0c65655c2);
   (0x13b8ee10d8c63ccc1406374f50b83c6235b74b6e09e566dcd2899776e23a0e7f, (-0x6d96efa76407cdcac813a6e1a1ac4d65bedac449785d51936b2bb48e3efe1b21), 0x184f8ed95c85e2a19b7e3fdd38788d444c2a4c37796bb0a951f083178c02f97, (-0x6742676e436e78507d42f04417e4e9c18cdd6feec2a760fc868421c9dd5a29e));
   (0xaa3e6192682f538d4b72a6099461c5e2cfe08640786f4558796afa7bdd1b4f14, (-0x18de0e274989e4d28d93528bc3b1bd9663efcf2d866d51407d157bbe88a7fe57c), 0x7136e8c9da799892fe57ad06acc22775b7b3e5619e61c8c8c0cf500cf478a145, (-0x13ee677e3fea057f5cd6207b294a4c384449264d0298cd52abc732ad554b3daf));
   (0x6d40f867eb9969bd1934729f2455f97d4dfc8afe1a79a60beb99bd71d438f605, (-0x16b258f46b6eff3ff98ea203f19bcbe228b8e65a4f5e34fab7bcf950ff994c785), 0x2ea06405a39ff3689127bee576c70963b283f14c3bbeb8fbb3bce7554bd61ed3, 0x5bd1388c934e3548460cfa6557b8cbc6411303ee9bff1efa8e966828d73267c3);
   (0x41c6ddf7f1d7920ac2d440aa504b65fbd35a0fc0b352cf7d2843b7f37fa68e6d, 0x590a9846cdd31888c902f87d0233c3e8c8caf987e190c020e1d6415015672248, 0x10e6973404cf9952242f24cfd5ac7ea7f250c9b69363318312226dabb48cb3d1, (-0x2ac1ec6ba0eb4ecf248d6324e51188c0ccceac04368fdd1ac8e6879ec513bf3d));
   (0xf717c949c00a247330d2c209336c342191c46c4a3cd7e6c574cf6d0475aa1d3c, 0x43a2709cacafa95df55c3c3373958a311e9e2e3fac9324d444bdbda1c69cdc54, 0xee7ee8a21a18f8f7d7fe5bbd1333b31e85fa9ff5b76b144505155b2decee7726, 0x1c59416888fc0c6c5ba79677d0bd17bb05fb65ece6177db40fab4f14b53ed29f);
   (0x1bddb5e9b6dcb12288dee8372dd502b817cebcf99239560c5bb02eae1f5b8d6d, (-0xd823273fd961a5ee24a866a9c00ace930162ce5ccfaab2d179e991ad292ab188), 0x3088462e35c98599153265ef599c2d49ff73669f4ef7f5b6910195f1320f93d, (-0x35e55855b64659c937d19fd3539b885c6499ba50b37b1f162ada39d8f54435b));
   (0x5155e968839912f9df9c4d6591d7f05b63e0a833bfbf06859834b241f4ce2c97, (-0x14a680fb7dca446f5383340630a5b9d4b540d7ee848496049e434a5b85012776e), 0x19d77a88f77dabe08dffafc94a8e9ce237cbfe28d3050486c0582b826fbcd61d, 0x2a7b61ef598c925423a03e619fb09fbf9213b3b808d857b46f90e02685576fb0);
   (0xa6e9eb9d3da9c42f9aae6f283394cef1be5989de42d18f364787a82adcf070b8, 0xa4ad61346e019ce5c60c794d0a59748d49340b74f9990a1dfca29404b5e80efc, 0x6cd4334ea90c793f3a862a21c1055041debfff33f891c0f418cfeaf3813a755c, (-0x8e095e621c87348891a7ed4d816d565c8671b9eccd6f5d6a3b44c7186b00e88c));
   (0xbbf8483324d2a924f05c202908140e3f3fd6da9ac5f253124e8953d67d1905a2, (-0x2df4166a8fc2356c87c071a01ace5227745cc49292f3f2bc81cb652dbda12631c), 0x8a04aa46af3fea31df1862522c0ee36eed73cf53ee7c13a81d894cd396b6656c, 0xb4dd5fd395d12a3955ce4f530192934a9cb2884e586d1b88e81353e154737dec)].
Definition q252 : Z * Z := (0x8ea9666139527a8c1dd94ce4f071fd23c8b350c5a4bb33748c4ba111faccae0, 0x620efabbc8ee2782e24e7c0cfb95c5d735b783be9cf0f8e955af34a30e62b945).
Lemma q_run : dbls q189 q_chain = Some q252.
Proof. vm_compute. reflexivity. Qed.
Definition n_chain : list wit :=
  [(0x57f152e00362a0ae8bf1404b74e18916fb3f832a37689987f0a8d57ea650aab6, 0x2cc93c73237d067a8a6b4433ef0d84616177f01ae415f507a8eb5b4bdbfe3543, 0x1e35e9d166e7af1a4755eecd4ca9a8e5d9e137a462e5bbdd5102976f27b829d7, 0xaaf4e33f3d55d33022cac472e4156b83ee16ea3a435138ed2907698a9876bc7);
   (0x53101aae07f48ce14dd62d1bdaad34d8a82c6ca0f19aecdcef00ce9de3939947, (-0x4dc0fc2ba9a80080243a4fc5ccd2f0574784cb6fee1744fd9b43b15632bf913), 0x1af3725031b161d831ef2b6c30dbea5d38dc4c3233c47d804985ee0a1b148324, (-0x19c2ccd1f6b8632e32df3e0094c8c006978b9243f1b56af7d7c79efd2af686be));
   (0x549dc74f4670e97c16cb8041211808612d97aa85bcb90e0dd5779835540db203, (-0x320e16ce70e18839284be5ad55f34acdb799df7561fd52097ee9f3273c62180f), 0x1bf7ec0a18a2d7c7e93a79497e97207834b2378cfc55be76ef7e7ae3e5032633, 0x21ced34d9ebc98d22d8928dfaf0f3f3ec15bc472a24e4394b483944337ec424);
   (0x3b1498c64edaabe6abf71903a102a5dff8c994979b6de48342a90d6af3ad56d9, (-0x3d0081d653012e304bad1970f3fbd8b625f88e999abc3baa4a5a1caec9c98dac), 0xda28013a28134a8edfc94b4cdcccf59bbfa030349909879ea844147c8de7f28, (-0xa836d693e85db460264dd3dc15c1a97035f508e58a6854cd9e4e05c36757f96));
   (0x4ce96b9cd8ae3488b2bae80cb066a409a04053d297c3f10bcb3660ca44b079b8, (-0xf6d884b19387000190a1bc94ea7adfe7cc6f82ddbec370b6ee0aa77b4880df85), 0x171b6cba3166598736950d3623d1a66c47750732b937772b1089d756907c41cd, (-0x8808316215b8fe7b539cf0d1dae125ac0645047314a73470354151f0fde2adb));
   (0x17c21cfff109201a4200acbe85905d4732c4142f10eb066b767344b809bed831, (-0x1395efd6f9b396a387dc4a0d6f618a7946b7bf4f8e45e008c5c6e172b05bc0481), 0x2347465f481f23571ce09946608acd2563fd8b19a14e122c14ea8178d364060, 0x5079dc81f0e780cdc0c56da8bb7e5f2958c0288be09266ae2525bc3b5990414);
   (0xfb89d885a233fa1107aec0c905de959f1e580b3be7b9c6ec943c7dfa89f199fa, (-0x5b2aec2ede58dc6f40a731c25253b1f72cb6808c2067e6807c174440ede3935d), 0xf72798cf823b4f78b20f4cc88e59cc2c711266d9bd518d4f93734b23d224270d, (-0x71901657d97ced63dc882d6a3045c424a275ffcf0a8490af6a46a8cd44d1c214));
   (0xf62718f45345f0dd27f37e5d77ac5021ce3f6193ae9b7721b6bd1162ede50c16, (-0x25cbc3f7e0500d4967eed928e537de44d2dced85b1e59257b5e6e10ec84a4478d), 0xecaf29ee2cea830461bd2d691412e04719bd82ab0baf88929a6cc71ae215e590, 0x2da209ed9297fcc446d703cac7861537f980a0fcd5f7df1e68de671a7098ad7f);
   (0xff51bea8e412edf4e430a1780d62eb6b3e2329e11987bc5d2612ed44b56e760e, (-0xe5e092a144f93078ae18d9b8ec1b8d4be55fc1081dff8f41ef5bc91004b155b8), 0xfea3f3eeab3d2c00b0d2d5d9923bba4366bc606a4a8dd11672b403079d79cf68, (-0xc9148613ca20fa52626797546ca54afe9d4eb9eac1194dadbe6309154dcbeb7));
   (0xd3e4db64aaf4ed92c73df23304d0e76ab4ce6667178f34a9b7d89cc9c4504002, (-0xc28fcfa502b9b98d37df62aeb912cf5e441c27ea2c5dc65184e88cf6ba57cbd8), 0xaf630e3f7925a7fc31dff503d67ca0814f166162862c4f4b92fd0d342c44c714, 0x691d25ed8dfffa8e1b56f0c5cce79bc068b8a5b1f078ed8b5e5e5cb22beeae95);
   (0xd424a13c8b96aecbdaba537f96c493902987856bbb27f2220ddadbc3d62d4dec, 0x167a6537fa48c1398e8198a33e74e200de16a5917bf86e6a60a87354a949de918, 0xafccb04a05c609c80e3571e25fba03d2823684a26d6c8948435375f424d3074a, (-0x4278932f0bcd68d1ca695cf9932aef091a24990d808d1f95c32ca9ba7a106f67));
   (0x8a89cd9d16a2258c75289bd20156c622de60e10ca25e63229610ca9a54cd1068, (-0x203b2e15e4a26b90845122bcfa0b3f12f0d87b1d7bfd094e3ee8ec98e89ffb34), 0x4af8dbdb13ae00ac13aa74879cfd9b53abed3812be106b4702ba5bdacc754994, 0x27ace1311a7b11f2d70573e4314f06a420cb8195ab4c16be2d29e602a7b516ed);
   (0x2f3344922550d0680936b6e8b803cb820c66c40a3f15d37735dd624fd2706921, (-0x476a237996a5ee9580b4e264f59a858a2bd58b75c644c44c31cf5723b6df6356), 0x8b3dd720e4c81fac12b3446e537c5c2bb77abb71d0ff55e9376a39648624946, 0xeb09e49100e5b086b77978aa382d7d298bbbcf16f80b9d9fa0ab6f1fe59dd5);
   (0x70cbfd6ee3eabc424aba1cc9221d6bbcf45a623a29656dc54ac816f655b0eaad, 0x4d7fbf9d19c5af5f8ed2e815e1766733a373912af4ecd62159d43034185b1075, 0x31b3204cf02f398733444e1ffdd43d6af5f79b444bb50cff0f3b45f6686f05a4, 0x207c5b926a8f754fece416819a3d97dc9d84ea1591149723ae135533f2ea8d88);
   (0x391107b7542ecd87b98bb7933a06fb3ff24e6922981d31e3a5112712769c04e2, 0x58e28e20253c1a3106ee426bef85ff4c196b104de9fa64dab5a59773bb9da95f, 0xcb89691aa118fa1c27cdfee6ebc5846c2f3e1165f5244e7a1930a812aa36640, (-0x19dcc97012e4b0013e97d327de1fe9e245e66b4eba94e726024ed979ee2a2d94));
   (0x74d32a213568d3b2c0a10e886001c7064754dd8a4ef3f24631b7a177ba772c61, 0x387c7e358e60c3b0b7c1230f60a0defec2e5ab28a3764967f3c5064595b9136a, 0x35500c5c9213f47c2cdd4c88c229b72f502f9a935dac902dd7fd9942d94a1b35, 0x9c6e2350b5a21c90b05db15afeff00ae059bc9d661f5ad63278c3bf110a97b0);
   (0x3e319371ea41913dab4758bf834036646014f57d5623fdd0228264cf3b6d5bb, (-0x6a915bb931e965991e0e61ffa9065bce98fd7a2a0ba1955f196d8396bb63ac06), 0xf1c0d04f3ff752b699d19c1b2a1f6162071e6542f509e3035663ae7d04bbb, (-0x1116e76e2155ba7d3dcc288402ba9248ea241c4bbae651310c7a944ce3c0761));
   (0x64ecf5252c52238c21dfe0db7e9741bb22134f4a7cab7d74059c3ee411407cd0, (-0x876b9e12732ec4bd4a4d52a874ffa3456f2a3d1c14c888614abd67186574fe40), 0x27c9fad9f1ea0f72144a325d550cf8ab4825a0cd8da1402a78982ffeba525298, 0x1617f009566b2d2b65a7d239cea94a84a76d86671d87405a5d2855a46e94a359);
   (0x7ceea2531768b2b1f3f9a7ed9d1e59867a0a60a542c8fb9c22d18e392a477c15, (-0x1e7bc675569acd5195c3b8a4d91d8decec26b368776c0702076d80fce64e9126), 0x3cf80bb2b81a3861596c91fc419a34169fd0e2a9a359ab23848ce7ed7d21a0af, 0x1fbf70a50ced59596f9bb40bc9f760cee3777ce702992a2c1e660bc82097b163);
   (0xbc4f4199d095173b3bd8242d3d236cb2601d823a295ead0e8bcbdf861b9a1b3b, 0x7bebd31ccafc06434a29ae1a78a641451f582cf94565433d0bce02306a209038, 0x8a8480e378192e7a0868da4e5ec0917b3eee0c60876207ab92388671d4d081e1, (-0x4d4cf0bce8786e933cf7e54a805e42d9c10bd29675718ae9b6472aa363494956));
   (0x982192dbccfd93c63c377a30507dbcde9d1e036e634d64125a3e243cdadcc549, (-0x20d88231a13602cf3be8144484254c5ab5d7af6a89d5e979ddfa8c0ac723f504), 0x5a67e2cc34576b651b2b77f2896cee399c9d3fea6a4718e79f0c522ea3d489b5, 0x2393c0f282a5126847bade8746e0c332f2f6021ece8079aa9d88e37ebcc6fe53);
   (0x46d6e0fd6ffda713648313dacb211d3897dca6c21c997cf3f01755e1f17353a9, (-0x3f8c07d47e03213bcc90e0c576f77fc340a9eb72f75bf1b80c21736c7d0c32ca), 0x139a376786b27254601fd871613e7e2f51b0a4a1b4e0b5cf6c732dd1a44eaf42, 0x22b3c7a3681e5440d2851502c3c9141c2703c678403e78a6529a36c7873243b);
   (0xd223d1c91730db05f170df6ef782f8f068a98e80d76b5b9de0a514196a07e9df, 0x127480feb79c38ccabf9a40c38611665f38d4fdc6f2cf26310cc2f0f2ae3def9, 0xac7ec930f2f27484d62ea7ac857c98532e12e6ad0db5a1feb45794274c7926e5, 0x401e1a9ab84f5148dbe9353f2efeea355757379c163d68f22117df6da764ed84);
   (0xef76ce2d981768a7ea956573a953e0c173520290c3c551208b72e9d37ff0ac2f, 0x1acc3764bd64819af59b575f3f821113e57331e761028fa7f68615fe789977034, 0xdfff0c1bda1153e281d40c23c41cf237c9079d19121a399a6e99115126821640, (-0xca4833c8e8de9e027e4cb6e9a613b8c10cdddde7a3ad124b676fefa10c54b5f8));
   (0xf1b9833d46104048bd9ca5c92845b6cb8297c87f71e99711bc29987ed3ba5f77, (-0xc018d2af6eda4faaa948d075afc5cd63b73b9e105219b10b33f9b00d9009454f), 0xe43ecf884fc1a0e4f6d8f574e9d029ba2aef962075a9469a99fd6bc8b17f067c, 0x143242462b127d3fdbc537825476c483dede72ac3c70af85aced9010dd96114a);
   (0xd2ae521687c08a9a396fc37a46052a21c52511e268ae377a0c37d7ad5ef24bc4, (-0xa766c7a79d88321be8bf96f5931dfb8aa4390c4352760867412a83ed7d31ba2d), 0xad627560a7aade1465c0b2eea87c40a9d8962275920aadc646ac396fbb9222ec, (-0x1a4715f93a03be6808253bea5e8db404f5dfc05121c51ed5cb2dc21480a0da3f));
   (0xfae66249bb170fa66d5d00cac7c2b8e2425818657c2705e05de5ea92e80fcc1, (-0x263cc99d41258c725716fd0c7a4a34a9039155c28ac6f23afb0bc84b75582fa24), 0xf5e6c74cc3a1c07b1083344002cf6a7670716fb93efb68bf5417104abcb509, 0xec233845269fd4ef345c1b5499c0fbb402953d45b9dbf3ddfdba22944af85e);
   (0x3e78fda4280076dabbb7eed032b4cf07fd25a3f6b8b361d0aaacb8a8c713de33, (-0x20507bbbb56db9352796c8025ded17194b7f64bc27ccb8df5fd1065653320e308), 0xf3ed40a48939a5591c1d88b5f4877572de40060f77fef83368182b7455e2502, 0x396ad3d30afb60f95dcd302f21da1087dc80dd7f6f63e737db9d369634c1fe3);
   (0x12f88576814ae4418fa6a21b4b69fc0029818337b33e5106d03e9b74268d5eeb, (-0x1c69c58c14d46f7ba9401e9d49d590f2bc1cb4532760acadd5fc97daad2ab6359), 0x167e407855d6266babcdd4c51bca6ae39760ba8f5c86e31d48f7bba2549bc79, 0x4bcc0c67252188eb284f6c25bf38a8d118a795e1f9640ceeb78c82a1b59439d);
   (0x5a46534992df98e0341a8fdfc08478c82e8b10a1d86fc07d82ba44c0d69a8f4b, (-0xdc4b26de147c01165ab74280c63d94e3c72b7d2082a9e51a39d94a7cc17d9d48), 0x1fd585e1629a542754298b025f7fa66d236ab6090666d2906922748943d1f5c6, 0x183e0bb3ca9dff5391a0f871f99ac3a297325e5b97d0c320a250d7f3d57de2f5);
   (0x44cc3a9d745ff1bf07487ebb77de29dbf23daa91ce7746aaadc5531ce277f197, (-0x9ed5c927bb0fbd7850f9de13bb65161d3615f66ee2a8e64d65e51604e46107d), 0x127d22111e302aea30724983c977c97b91754225b4d49b358003c31dd88a74d4, (-0x2602b158decd4932a5dce2132048b5bbb2f0469de7aa7406c9a87c8f0946ec65));
   (0x784434e4675cc7832d7901454d671192a0a917eacffbc658ba64eea550a2f4f2, (-0x16bf6ef409bf0f88f0ced695b78e4efc2fcfffb7ad9c86d2c26ce0dcac344f889), 0x388003c2452b7a1af05e0fc75dcd6c06eb3c1fd45ad9080e8b7fb9f9b0bba8ea, 0xeb35a10d771d1556c1bdb69f2c1cda3cc9533b03e4f04a7b32cb6c36fd026b3);
   (0xc1473e8db61439729da1a9d75e3f1c0dc67240058d9d34b4e70f97baae21973a, (-0x156df8048a22c79c7c95ffd703072cf012e8957986f68c367afa886cf46e3e978), 0x91ec80256e6e707a8edcc1a6e2d994763e4d3d2511a964509c67f7ae53b17d3a, 0x64f17c156fa06f6d622a2f592f0d77e1e9531692300f3ec74f7751b26e8ce258);
   (0x97a2d595b360a170741370d2652ac81be6ff4467ccd2d55f7494893028a1b362, 0x10a502932e3f7c29f21ce0af763a9d4b32d8ec3d44381bf6024d0099539d99374, 0x59d17f899d4578c814132bff3278d53a336f8ba2bfb5476e2541febe72e8ca1e, (-0x3bfcd3fb6b86241eeb2b60a2aafea75380dec5680d7607d5ccbfe0a04c6ecd5b));
   (0x8df869e6f0f75af5c43e6ce4c6ef92c95e11e69cf7e6cd8e6ac1522c082be036, 0x14d5486511e9947e4d347a0f93e67747f518b049177a8c347258f61fc00be218, 0x4ebb95b5c0b29b73be3ec30c4a6c24b465a0f0fab9065ea66fc4b13886e1f2a3, (-0xe27e6f8d5fadb60d417e642130a5db733ec79b34838e01e374ffe287abba3e0));
   (0xf7a98865698ffdfb2a9965e08e9dcdb2f7ae498eefbdd2324a0d2446daf163cb, (-0x3f9e6b5234ca37e0bb9f23b118bb5badbd09d0d0a9536621afb7622e22dba327), 0xef9895791045248d76d2f5e8327f9f92ec6ee50c5beabaee09069ceda14e1a9f, 0x9d3afb6decb0d1f404e4b7b8b298dc0e11487ebd9ca82e997da19df793a74141);
   (0x169747dbfa8982b5e944da01a8b3c4872a631f4fd3e7beaeb222d93f6ac6a6bd, 0xc8fd6d4722b3ac9afabac329d9958c98f06f4451d3bb9f036726671987efef2, 0x1fe59bfa8bcf2ae59a86c7b38b93bed9dec4c61326f7e497a8331cc87525dcc, (-0xd9ad396be8095b42d8be6e0f49f7abc78a45bb75d43c78e505b1f4623b06570));
   (0x239acb0ca36d23005dec54266611c537f9b34a010d7563e26fb1d209b50596cf, (-0x127e4950f98792d3b07bcf7801b72f09046ed6618831ed37de0d884dff2968575), 0x4f3b11e60f182af0631a56ea46c7adfa63650b2514f79fb52aed1cac2239211, 0xcf01f1c32f600c63a7cb00461a6330265df0d67fb692e76c6a081635100bbff);
   (0x89e480caae5333ef9af69372878ecc42ce337b4b8f42132df2b551366c8ae9fb, 0x4d1abc53d2b70c9300446d80e807f92938529034f48f84a74c1b2cfdfa89dd54, 0x4a465dce9866e095bc9ab7c2c83a899c52ce1a50283acbb7a2146ede9713f4c8, (-0x44950e084d77510967d70bbec0c008b2ba3bcde26999256c84b4738048a4174));
   (0x35235d5d049ba13026746f53298cf4ef6d60561b6ce4487f8b1510843491755d, (-0x42ae626a45a43de1955091e9d1934e005b0a552e839f0b7761fd12a293c4e933), 0xb07a98b2d646a716f5c0e81806cd67904998f39178bf9b2300c814f8d6adb1c, 0xcefed75ee5e9d790b0b473bdaa3208d39c6f0c0e93f5253d631c48b733649af);
   (0xee6b72b7fcc174ebee21900a6bb4d3a31df50dbf55774654e2086f9b46200b85, 0xa564b42215068df3e52d942f40f80730b8f0a3aefd2e300633cece8de5618cf, 0xde0bf667332d60760e4431a81f3544ec6c7f42940628ff0d6acf2e1bb1a4e988, 0x852a7fc821b9f016fc4685dd40a3094bb1e2fafaedd779cccfd09298f3d70e9);
   (0x379c46a6709e4847be93753de8cd783e535004555b971fa90705e43cbd3aa25f, 0x163a4f8f8280bc3276779e9a38fb7b98fb459e8fd6f98bc19d62ffa32d4bac91, 0xc1485c1b2bcb5c3b9ab7a775c8e9f98b5b82adf2f5378cb176e1472b7ac9058, (-0x82e72af506a35492a8013cb71e7ab4202184e3cf27bd7087276b69e49bb649d));
   (0xb04b784370201ad720382b84e32ea80f3e33dc9a5438e6eb78a8b49ecf9c5eaf, 0x979e4c3119a5f85e3b6fd35ae9b202915d8bff25f0693cbee88f2a155bfd360b, 0x7967db9c6a2f2299816df312b33a3c67c9afd1495b45068dcabf6b314ec62fb9, 0x1371523735263ef31d705f7947c7c60721fa07cdb124cfd740cd826b1ba53b81);
   (0x7acd9b90ce73eb8637cd978be8d4d464d7a027221e8d5252a6e5aa79e72040ea, 0x9932f7f1c61388efb84ecfdd7bc94cfe1ec1d93c87febdbad66a87824fef7bc8, 0x3ae89d688939ce0c6a4195d141e05c112db03f8b7d869fbf310b99c16719664f, (-0x21186c9c4e8744e5220032e7838a9e8816d02215764f28ef810389d71af051ec));
   (0xa04b8fa653ecb6158cb5e5c46041d212aa863d4506800475b5312fe791e7e061, 0x38805623d177068cc483b191d198b37c3341586589a4de528c5b3559a1127423, 0x645e89dd64f84e21066f61e1fe76139ec883892b9ac9e1d088ce963f433f3430, (-0x1793f47216b516168cdb7dc24a0ac4d9ca8551503015b49c2457e573bec75f70));
   (0x590fdae1fb74b7492358821416abd8ed98e54819b1c2cbd1364ddfc7398ad3b4, (-0x5c66738460b5801dff66520d519411448d29aa62be4041316664355c3247ce45), 0x1efc072c827846dd177682341e0e3f9c25ad1235dfd555ca7fdb085d7fc38b14, 0x1ca70ff63730388db7cd024a69ef994af6799d850ca7762bbdec264f3336d719);
   (0xe00c0b0828f4ed2e1186c0cbd9b7d88e040038a59607a87eb40ef859f8275b1, (-0x210a8952c5303bd1567a469d01d09d8879ff59e628cf442b832e50f68c610e6), 0xc41513df50ea29ce7d3bb2dcde258f8543a4e16aa97a75857c33b61af931e5, (-0x44dc8bad4a1d17c26173b8b9c7c85e5a1dacfde66b8a06fa07491c4c36a3634));
   (0xe8d05126ab336bde8c9ba52cebcd8b17fc90c7289316ab9b4395101c8a38bf07, 0x6aa753195b35653dac4cd664a902a7073d919900bb3ea4b94936f59eec07c52a, 0xd3ba3c9a0edce54078832fc98916f05badf67b3898278a5c72d15b4614311393, 0x69d83d6a8d157ee9f12f2ca29c641d413e17743c4b6db7bd1efc30e7c0263c0f);
   (0x2fc6b9c26e5fdc09e8d35be7c0b9a3258461f6e83ca5a36a1cc2dfd601113cd7, 0x1e4971cb05e39a668c496c0b8caead602debfe0b229f39affec6eba331d525fc, 0x8ea92794414864607b819352f00014363ff5f001041a575dd8ed421830dc2e2, (-0xbe20a9e6c1f996c431479b260ab4bcb958bb3392b709ecf7304b2f3976f919f));
   (0x305ca7f4756d713ab0924b5fad880b8ce62d6308f91df5cb5386253eda96f01f, (-0x29f74220f60d67113345beac82b9b539c12b266f558e9dd985438a61a8085459), 0x922e084d1ee4bc43c9d67f2c68333b6b4b488db83c0188ca92db86a8a75a282, (-0x113d5125d9a3e001e312eebfb3e5a0c2a2b2c810f8078456ab2dfa4b33a3124b));
   (0x5d07a4ef7572aaceedb232a6c6c72ab2d6e3e31efb288e31261bc102fb9bec94, (-0xc7a2a13c7cd8d454d2df1adc776b462a21488a935d7d18884401a423edc558fd), 0x21ce8e106ab16ad71cda8af5ccb3e5f63d7db961599fab4835c0da2e2a9204ce, (-0x763890286e632584af418ebcef52d480b1a6927fdde3e065a381bddd41a1d5f));
   (0xc971de368e809114122c9860d22ff1f90e72eb32e299b9c745885f1c55da0f26, (-0xcdc5376c623ff43c1a1d2a275ac5976dc9a2ba2ddd0a187c27d091721541700), 0x9e84019798d25c190170f8273d14717db1546bbab962e9c4ae5a1b5ffc6e22ae, 0x61069bd78097f2ccde90058c3a54499534439868ac6d5040d3ec6aadcbfc63f0);
   (0x70d77f4d91a964f7bfd2ee9b5bf9c639a2cbe4d54b2cef897cd31a063f94fcf4, (-0x1b92fccc0a30fca6cdb31bb5f7b3ec7e59f220b65b28bc73e1e675c7bdcfdc54), 0x31bd44caf30cf0e764f2a6e8854b6e2014aee8bb05a32dadcb6b54023d4ed056, (-0x46e148ca1e164b2b019d1bec24aba620f893fbe9f6eeed4c036feff6cde7cf67));
   (0x5ca0a78ba424623cfdb92bb3c641333c9e0657a7d77b4f566aa81511eab92489, (-0x1812c589ca9436badf1f4c1650c7d644dbe9e3b4068bb8e1503a22e3943ce6ae6), 0x2183dd3e3a2ed069c387232ce1400d12494dc34a8a647269695b165f4c6eb3d3, (-0x9d86f9ac95724d820c0e41bc2e5d0aa315ef81a36157bcb994bf6fd5680784e));
   (0xfe7ee1d8ba1e043c04cd039b2caadf1318085fcc59ca3297f8faffe8b46d566e, (-0x1aebb04b6402bd37903c71f8cd1c306491b79e1eba300c664d070bf3bb83ee0d4), 0xfd00070d29e97496a203d45c28ccdcc03488a171044b56b83c5e5957d7c30dd5, 0x8b845fc5d9dba7bfd5abd8af0dfddb0d37751c2e47cedd4bac9f00ce406e317b);
   (0xea00cfa838df378221711bcef4330157ee297bead59b55c398e8a6c911ef6132, 0x108fcabdef008b5805aedf54ec778cbfa700bfecb7862325357ad344290d69c9b, 0xd5e57ba030698bfd92827ea1d53b58bd511714cea3caa4c40267fc632a5de119, 0xf7ed75645fd75ca7922ceebf726bbdaceb669fe6df06cf87488bbc7774e128d);
   (0x9f969192aea7169e59019754313f00ae27877a6981e2002f2605af839d0104d8, 0xb2b6cdfc04ed91747c53e636c4481ef4f69ab6382598034810d6fe4678db364b, 0x637c61631f9fb7cc297d051704a9d786d187f0fd635f3839ef6cbc10f38f552b, 0x178cfd395b8a224c60e29910f36c1e7123cccaafc385ca332d561fd00a9aff9b);
   (0x1aedb2d53d9a2f1f788902e6214ad47d4329d3dff189c99c271f48ecc5c9d796, 0x455e56a4a28eba8f83e84e8cf30b37e281df9ff6cc0b3b1f4edc0ee370c000b, 0x2d52507ec449c579fae0794f2de935039544ba0745d979bb0567df5b1805835, (-0x11cb6e5d11a0464b7f02599898dacf214c98292fed6aa52847b7837d0ae54426));
   (0xf3920cf220cf27ca57a85889f66cc06e566daad431202efd4e20e3c16eb28f3e, (-0x20950e47e7aa8b0a1a938ba4d40fc0a95f24c97edd93a7de31f491c3934115f65), 0xe7be97e66f1e49e8fccc38745f16fc5278f641c64622f9838084db58ace8f3d3, 0x2fb70e374320ff3930f4ee4e1bc66c5fdac36a5263e990e00559597249daf074);
   (0xc5dcb047f34c34d700703f7fa147df101636fafd81f0d75cb93f37ada83cdb24, (-0xde2b35f4ebd3d61298bc00f9607902b54149515e566bf5238c5a4fbeb0e964ad), 0x98ed658e3180770f5c5c3583bc8def55c4b78d842dcdc3c4027dbeb3afd94fb7, (-0x9221247488d673fbcb4960daed313c9f7c1ef6105d530966806f1e9ff7fbaf2));
   (0x10d1ba8b67e28575a2ecada82fee032554bd63ee3e8e5feba2ee2a804d83f889, (-0x15f22abac0360fcfc936e832ffec575ec897325094954d0f136c44d7c8a0520b5), 0x11ae3238c8acf6bc2858a7bfe5a8c47ea93be506530b126f8be11cf1248147a, (-0x2dfaa0b7f2ffcba53a56942803234224fcdecc901d691412ca183a06534a71f));
   (0x344683820e1a3bd2ca27ab4aa41dba58281b0938f42ef27346a902c00da209f5, (-0x22c176a86c3e244261166a2ea8a3d6e5b08f43f9f1baa2c85e0e015626e363e2f), 0xaacb8d90468bb27860c097d2bfe6d445a310a1a768d71aebbf020871b48f3a1, 0x9bf7111ff90628f12694310a92eb975d819a0b05f7a0bc1435e25695a1e1849);
   (0xba795fec52acaadf28ad5108896ee298aafee913455494af4dcb1e9f672363df, (-0x67fd373e278ba65eddd4273610aee49359c17c8d97b1d8fbde88db3517314b2e), 0x87d498ef397a4f0a7df00b27a7739f322cf8004714e5e5dce8e75bb277c5689d, (-0x123d522471d60e0777628a40fe9953dff006b74a32cf0c7e0920a2e8c70dd47e))].
Definition nums63 : Z * Z := (0xc8e9e9c655d9d7e316a16971f7b7ed06fa5a2ddb56288169ea96c4396a53e01e, 0x3bf36e6e8cb2f52d8a7a155d1b3e4a17e06ae0cbb1dec52a09b5fbb29f0b8a1f).
Lemma n_run : dbls numsG n_chain = Some nums63.
Proof. vm_compute. reflexivity. Qed.
Definition last_base : Z * Z := (0x53d772b6b18211f71478e9d33a0c061e2d23235844177867af91508de014f22d, 0xb2e85a078160d31c3ca32d9cba0259041bea0368d9eb13de8af8f50573142ed8).
Lemma last_step : astep numsG (zneg nums63) (0x59c3ffdb8ac353040638eff47601acd99fa95ae2fcdcb79afef17e315235201a, 0x31e50c2ba607dfb6b406fa09b4859a72749a9b642a0a4e775579a34da336f95d, 0x1f79ddf66ea85001193e496585aef9a01cf09696e3a4ccf5ec799aa83295c89c, (-0x8d7feb4ba2176c0ec06f321aa6d9d4b2f1b46172d73e619a25a5c27db2aa84e)) = Some last_base.
Proof. vm_compute. reflexivity. Qed.
Lemma last_run : exists r, row_chk last_base q252 [(0xf606cc653fb2edb4402ff71980fbd71223060bd7ebc89b350e2a4b367515686a, 0xbb8b7e11129dfd70121b1071bcf5831ec81e05dbd54f75a38deb9d0b0535a41c, 0xec711100ce5c62ca0daf95b9d3b7c8eb65a9ea77e81b45e2a779bca10bf8e8ae, (-0xb23b29d82b970970e2d6a6c5fad0f421e434b581b240984fd1a2b056e1076c78));
   (0x3a24cc96368aa69192b6278fe80b0b2055f7dfc4adaed408d78b8e65f0eff45c, (-0x2a1f1f174f4613d386b6f0398224aa75a88314d36f3922fd22acf7a2a4ab7b72), 0xd34b1fe3e75e989befdcaeffd5a1cba6d7f9f4d16993e4a015d4249c0fa3160, 0x1f6011a55ab393824d202a26e47c909c33b814f99f589287dd060d31897f3c41);
   (0xe0a350de580db0ef003512968ac580a51a40c6df2112239e26ad8a411bf7301c, (-0x128eed546fe55b9c458fc76549e898c2580461697e292f8aa993b82788144933c), 0xc51e35b52ec7cf36f554cd2268ecae0c9e7cb8adb2d1a09675b9e6e4d12df9a5, 0x85298a7ccaa6302b0a9574687813d27c760b20225f4eaa8ae0d89d4cbc26ce86);
   (0x2aaa7ce33f9615029cbe67a65f967f77ea6bafcf8fcc2a6710103107854f3700, (-0x59df89278b011397d79cb54ae9fc99d16ae43a79f37f02fb0afee00b23011ce), 0x71c6284ab9aa18bfb35a7b29858273f5e8883cb06bcd35304fb8c3d2c582ac7, (-0x1f50cf33eec9f47e8ba1124a86d2a6a644528c45a37611daa2c9bd948ffb52b9));
   (0xc74bd13fd46984ef019fa6e557d382c3d54ec29f128f2f895d355cb8f53340ec, 0x5efef36e05828b497f06bbd2d2525bb0380cec74ffbe8d0f36846ff078af069c, 0x9b26f5c582abcb3dffcdc6f7ffca03b717ceaf2730b388197988058cff7a83da, (-0x48ebb11a567e4c2c7b791adcd148f340003aaf95356bebe142179555a72b589a));
   (0xf0313f849e88f449ddecee7e8f30603b8b1fdbb3cf774d1188570c68388edc6d, (-0x11c4a423154063f086d42446670e4100a59876e784426e2693b13b371bfa42bb), 0xe15c609209c805334c08d217b82ee86f8c439865219ace13f40f4fb63895424d, (-0x7f398869f86e468f1d17e5a6cc56f39c4d1d69dca23ed0f2bb495ae6cf35a018));
   (0x96b10fb6757cad01a036c985186758d8a86b9cd11f23af215760927e65fc02d6, (-0x63a8333d944480db44c14a45ee9c3df7990386ad18c5b5acc62a1b275121a24b), 0x58b3f8e08cf374f5037721dc671978f522a0d159fb1126a87cc1369ffc993acc, 0x472329b2e94f2587791f8150f34096da6f00e29689beb38b6ac7e30ac30f058c);
   (0x28f15f7a3103aa139f667dd3666df401a63569f12d22b45f7b5b6522943e403d, 0xf18005bfeab02588ea6639ddac399256fdb69c3ad5dd631a401ace1880df58b, 0x68c516b16fd58bfd3dd3875e795149036afd5579754e33285226cb76482e4bf, (-0x4d4b863f3b1083c4faaa52ae6afb7c5a6e2cd4b441cf1ad63bea255fae8cc12))] = Some r.
Proof. eexists. vm_compute. reflexivity. Qed.
