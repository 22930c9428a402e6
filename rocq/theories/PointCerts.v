(** Written by tools/gen_certs.py: the same for 2 G, 5 G, and the key and the nonce of the
    example in EcdsaVector.v. *)
From Coq Require Import ZArith List.
Import ListNotations.
Local Open Scope Z_scope.

Definition chain_two : list (Z * (Z * Z) * (Z * Z) * (Z * Z)) :=
[(0, (0xcb35b28428101a303eb9d1235992ac63f58857c2f631ee6936d3aebbeddcd1b1, (-0x3b04fbed296cc1277f1659ab9a6f3feba665d74e98725ee2d39e827bc28878b0)), (0xc6047f9441ed7d6d3045406e95c07cd85c778e4b8cef3ca7abac09b95c709ee5, 0xa14e3460febe2c2316bfcccc1b764790c3b7d9ff92663ea740240f16b583e774), (0x1ae168fea63dc339a3c58419466ceaeef7f632653266d0e1236431a950cfe52a, (-0x3c8b95972f12b04b3ca25330b2bd449e8e938229d1fd14f76cae42249ce0dc11)))].
Definition chain_five : list (Z * (Z * Z) * (Z * Z) * (Z * Z)) :=
[(0, (0xcb35b28428101a303eb9d1235992ac63f58857c2f631ee6936d3aebbeddcd1b1, (-0x3b04fbed296cc1277f1659ab9a6f3feba665d74e98725ee2d39e827bc28878b0)), (0xc6047f9441ed7d6d3045406e95c07cd85c778e4b8cef3ca7abac09b95c709ee5, 0xa14e3460febe2c2316bfcccc1b764790c3b7d9ff92663ea740240f16b583e774), (0x1ae168fea63dc339a3c58419466ceaeef7f632653266d0e1236431a950cfe52a, (-0x3c8b95972f12b04b3ca25330b2bd449e8e938229d1fd14f76cae42249ce0dc11)));
 (0, (0x6ad2cb95963c033328d4857d4f8711deff557dd9faaa673b400442833f0efb64, (-0x1b511f0c4acacddb11995426b44becf23d1a165eac933b36c0dae7f6c721d3035)), (0xe493dbf1c10d80f3581e4904930b1404cc6c13900ee0758474fa94abe8c4cd13, 0x2c933e2a83bac0c704d83956ce68e1a07920f532e04e27ff098c8c712d51733d), (0x51ed993ea0d455b75642e2098ea51448d967ae33bfbdfe40cfe97bdc47739922, (-0xcc0862604f39a0c08e4ce0b1d06b205a54268b6c11e626473e3a3a21a84dcfc)));
 (1, (0x82b5a391701db61f5678809054594a583cc8b36b2a608ad9d28e6dc6eb6b1b61, (-0x368c32d2eec6fe11c5495e598725494bc32c3f6b1793912f03d0fd6a49bf599f)), (0x2f8bde4d1a07209355b4a7250a5c5128e88b84bddc619ab7cba8d569b240efe4, 0x42bcfb006a093e6164d0e363fa4eff42d00726a82d78428a4d45660af9a2b66e), (0xd8ac222636e5e3d6d4dba9dda6c9c426f788271bab0d6840dca87d3aa6ac62d6, 0x5c6e811ee18a56b82b3f723d88d4035a21ec909e5f66858960ad1e3aaac83cd9))].
Definition chain_web3_key : list (Z * (Z * Z) * (Z * Z) * (Z * Z)) :=
[(0, (0xcb35b28428101a303eb9d1235992ac63f58857c2f631ee6936d3aebbeddcd1b1, (-0x3b04fbed296cc1277f1659ab9a6f3feba665d74e98725ee2d39e827bc28878b0)), (0xc6047f9441ed7d6d3045406e95c07cd85c778e4b8cef3ca7abac09b95c709ee5, 0xa14e3460febe2c2316bfcccc1b764790c3b7d9ff92663ea740240f16b583e774), (0x1ae168fea63dc339a3c58419466ceaeef7f632653266d0e1236431a950cfe52a, (-0x3c8b95972f12b04b3ca25330b2bd449e8e938229d1fd14f76cae42249ce0dc11)));
 (0, (0x6ad2cb95963c033328d4857d4f8711deff557dd9faaa673b400442833f0efb64, (-0x1b511f0c4acacddb11995426b44becf23d1a165eac933b36c0dae7f6c721d3035)), (0xe493dbf1c10d80f3581e4904930b1404cc6c13900ee0758474fa94abe8c4cd13, 0x2c933e2a83bac0c704d83956ce68e1a07920f532e04e27ff098c8c712d51733d), (0x51ed993ea0d455b75642e2098ea51448d967ae33bfbdfe40cfe97bdc47739922, (-0xcc0862604f39a0c08e4ce0b1d06b205a54268b6c11e626473e3a3a21a84dcfc)));
 (1, (0x82b5a391701db61f5678809054594a583cc8b36b2a608ad9d28e6dc6eb6b1b61, (-0x368c32d2eec6fe11c5495e598725494bc32c3f6b1793912f03d0fd6a49bf599f)), (0x2f8bde4d1a07209355b4a7250a5c5128e88b84bddc619ab7cba8d569b240efe4, 0x42bcfb006a093e6164d0e363fa4eff42d00726a82d78428a4d45660af9a2b66e), (0xd8ac222636e5e3d6d4dba9dda6c9c426f788271bab0d6840dca87d3aa6ac62d6, 0x5c6e811ee18a56b82b3f723d88d4035a21ec909e5f66858960ad1e3aaac83cd9));
 (0, (0x8007d5d6d043a3dc81805c43df96e3a6b763ca01ff69a82935f10751a06d7006, 0xbe3b6d67bd2bb46e8d2a3138f47d0b18c1db1ad60652297182db5722ed3946a8), (0xa0434d9e47f3c86235477c7b1ae6ae5d3442d49b1943c2b752a68e2a47e247c7, 0x4007d61434a23260e0c05196882f3b68f415b503057cebe56cf20069d52e727b), (0x893aba425419bc27a3b6c7e693a24c696f794c2ed877a1593cbee53b037368d7, (-0x385f2ad3d6d7010c4bfd895b741412503fcb5d28fd8e4ede412d272b79d3fa31)));
 (0, (0xcd279959faa1f37ac77afa80a47fe3fe552081693944d70f6b93acf808d8954e, (-0x510a158b11e5012c94def0d6112e450f1bf7092cb9c7186eb7c7a5547704a521)), (0x4ce119c96e2fa357200b559b2f7dd5a5f02d5290aff74b03f3e471b273211c97, 0xa46871ba30ae6a80a1e8807a03344fb89696a15acf7148f8e06f5dbf38086f91), (0x12ba26dcb10ec1625da61fa10a844c676162948271d96967450288ee9233dc3a, 0x42d2896a579020601e858b329c2107d44cf440adf8cb5deb17aae240d069e6a1));
 (-1, (0x25b835c2dfd8e36defa641fb5a06d8660dcc066d4d230211c9cf2a706db30f5f, 0x69c4491577ce8d2da4b26bf32f5cd8b8647029d361ec3f3e5b8c96143a2567f), (0x2b4ea0a797a443d293ef5cff444f4979f06acfebd7e86d277475656138385b6c, 0x58ec417a820be8c8bee59e5abb9ae59e69ab0f6f43b22d2b2e0c935200fdd3a), (0x85e89bc037945d93b343083b5a1c86131a01f60c50269763b570c854e5c09b7a, 0x4f253d5d5c32ef83a8e21a8781036ff23e9ac1eff11dfa5767394350240828f));
 (0, (0x50237b0125c924634487c225d2002b34588f2a295dbc6c2e59da8ba56f9617b1, 0x3ddbf945aaa4fdde860379e1f3107640e1b1051d1fabf3444d5adeb2f85a413c), (0xb699a30e6e184cdfa88ac16c7d80bffd38e2e1fc705821ea69cd5fdf1691fff7, 0x191631cb9508260e981705a69214503665395935864cfaed46f402e2182ce90e), (0xd505700c51d860ce5a096ee637ebed3bd9d7268126c76a16b745bc318a51ab04, (-0x2b9abeef2115492c396707c0db2df0a24ab736c4b952238152b49599a01f5eb7)));
 (0, (0xd76cb9facc1c1fced21fadc2aac49d5a3c24caf6ff08d6b07a8502dd558eee0d, (-0x20385bd800d1f5dcb011c40950195c97fca1540502a95d7ff1e951a9927b8c65)), (0x96516a8f65774275278d0d7420a88df0ac44bd64c7bae07c3fe397c5b3300b23, 0xb547ce90b58fe5dc2b1662045e2d430ecedfc8905f5eef015e389c1daed919e8), (0xbdacd9a05fb9fb73108c0a99d567fba9b2f75ab36207e1557f6bf255f1337ff0, 0x1b2a5d5e56eef5e8e147fb95acc21728f42ee656da464ae5c7240ccf87835d30));
 (0, (0x4fad5c2984bf917ca343d2480c4f5b73a8a323293262822cd85a1c79b587fbcd, (-0x92b8f5cd11add26c08f2ef91ab565690159a95b161b6e90344a990814860dbf5)), (0xe19d8d416b28eeefb603b7d5153773222f127b76ff24d7b8419eb6997dee8d17, 0x18cc7447513984db09fcd21aaadebf4f71ca00a945630a21f51e348672a0fef4), (0xa54b0056fbeb471b0fc534d42aecc4590e2268c7d1679757266e2d163fc83d99, (-0x176f7c43f4c4d0569a887c69de96413bac13c245bec7d9a5d03edf73860f08a3)));
 (0, (0xa0c124331c40b368f08d721d705d55c324fa5ed10e3075fd535f6829520b671, (-0x247898726863d46e4e982b6ed56282ac36102bcee809dbb1c80509f336250f9af)), (0xf9d8df5e84d139b79741bbeca9aeedc02ce7eccf5ef163328bc63d79ece7a90c, 0x64f1fef77d7fe3f82846bafba41efa5de59dc6c8ecc9651d4d7985fad35309), (0x2dc383426073982eda76ef8c85a7735f9e7d9f953f8135f1cab284022ade206, (-0xf375b78460396d033e01b46c7c3ec0c305ba08770a5789d654febe1274e27c)));
 (0, (0x8c5005032e81d4654f9e0376488a5dae6ab90b4d22038d014027045af4cbaf96, (-0x2d8642785dbb9c3e5dc74250540b12521dd52146cbdef2c402a7abf6b101381d8)), (0x827d6a36697cb2f1cf19e27aac30c06d20d818c9fe8693096435f1f2171c9b75, 0x4ce79e7e9cf4314ec0307033ba0a5b000d187a87ef7c337bb6b2dd4c54a6ce59), (0xacdc82bec87e5e202f26883d696f2b774fae23d57be45dd93aad33d6ed517f80, 0x416b52fcd085e349773c13138d16a1efd1dc4b76bd95bca4f6144312ddc0104c));
 (0, (0x471f186416096b570c1ac7deee721246cf1562772c91c8132a83fd8eb234c7b, (-0xc18a13029904da4a869df52734ebd85ebc168f7b1f215650fdb7165d9e4aaf85)), (0xa421d0ec51322ff724177782cb922ec4649473c2c113ce86550645560229d75a, 0x13c2434e6ec97b15452d966c39dc4e975d12ab7ebbd2412364aa4d99a4ca3b), (0xd25157a9c38efe1484e6ecf97247a08c41fe900c0742d4ab1fb6e013e32b08a5, (-0x958ae997408ef248a87dca8c737a3d4721cda4017092522cc588637e468094)));
 (0, (0x722ea7757b3b822cb823d5f2a86bbff86ada57e07d51794d09db79d31e4e1240, (-0x8014edfd11ff1dd698e6460341298f5dee3a9903777b74147aaaab189312f354)), (0x49c7ea9e1b70f503c17df45c871ba6330d5aa14b065303cfb177c6b6a317e4f8, 0x32ed95a53d83c6041f9fa9784ed9682cc52524619af8ceb582e5ac074df5cfec), (0xebf761335c66c8ac6bfd7f081d309dfeb36cd42206e6829825c367722281d3eb, 0x284c7fd051cf2e19afa79578d8113d794e5f6c563ed56ca1246fd638693eb310));
 (1, (0xd3784993693cb9a2f5d5380274594d1e19bb387397170b6229ec71c730ba3c1b, 0x279eb16d504ed22a702407efc0bbc83039563273bf762cd0ba0388394003175d), (0x78446da4e869a9cf8badfcd1b89c135db5422a682a9ef6b7419a914e3d59ab2f, 0xaeaf81ce0ed229d752e2f241b39114f2f4a482ffe75ebfc6a01cf50a92da0606), (0x4215b131db7e46c19e03c051f33bebde3f5f31bf2d42898327d2b5865a8c9ce3, (-0x266677b84c19579567530d32f60acee61a016870d9c434c99b40f8a3b9e84f55)));
 (0, (0x84cc74a5da998a1888964fdae1572fc4341a46218ae46a8339c2d28ec0b76fab, (-0x64f0bdb7fe254401851a7fac22e995f4295e12d0577284d0f61f5a752929662f)), (0xa691b338f4dedc0d8df014779a62092e9b48b3ebfbb5c0b00ff3435e39c99aa4, 0x44e37b9526e974ac0db0cc996bcc11dc22ac5cfd140ec1f0fc7756e25ac1b779), (0x3e2bf84223d4a5cdeb47225dd09262ef5b730c1057848e2ac5a3cfc51676041d, (-0x1804d28ccb44dbc5e46d2bf4cf5d57b7a4da67f6b794686fc3346e372a0cc689)));
 (0, (0x1509fa30afbc5acaf7d7f68d36105d01a40eaa71c23415397ace48361dc5f0b5, (-0x13aebc6b74f6c0dcee98ae69b46d46a99e9c8f8e9e82baab8122e787358e49732)), (0x596e12b8b0ad4d2beb5128c86254cf7abad79fb3aef05006137177ec169a3282, 0x1baa36f88c462a1ef886288387d5e6c2442a20b0927525ffe487e46ef044401), (0x95e7bd546273aea421ca72da06e05e2e02c3cc9330669352b3ee5e947f0a7ab4, 0x656edcea079ed58f321095c1695ad95aa1807b703bffc945f5f41160b13f717));
 (0, (0x1162d1214c25e83b970bccbd48bde230ed5c66ec1c6f9e84711e6cd257659c5, (-0x5c7360f1b01082cea0ffe5d165c51443a3f87dedc7bc125c96551890b8999e3c)), (0x86c5e3436fe5feb3bfd2f4a607942d59a2faf54f5160f5cabf1a9d1413937dfa, 0x12e45eb3472b888554ce9b86f817d9c66d258f2e2d18b71a40e6152637d55), (0xcfcee030429c92be0ea06d45ee3a141f219d49054b71dfcc01557fd46dea85ef, (-0x3145581a2dfe83a6228e770db5078a7eaa5363e5345c3837c25c6ed67efdf5)));
 (0, (0x2f50259a48372c5baeb09b24c7f054063889bffc9efa54bb24ce7e68fcde7b7, (-0xd00e475bd835ee9a51f1c360e8802bfa25e0eeefe9529db3f90fe56789c70066)), (0x41e8e8abe48de2f47b1c3e1279ce72a572c41f3726c65950ffd24b3d4d0cd003, 0x8be86e62c775aa04d04fafd5b128b248a71648ea4181c914cf4fd97bc3c46), (0xfa31d04665f9bfd4dfad44167174d30e6a6c9a8fe7fbc965f9b5c7b65d24e4b4, 0xcba212d92845cd172c2e6244b6dc167c76413fd7ebb265d30d75ecbcf08b72));
 (1, (0xfecb07f6efbcf4a9e888616181ccac25bc514f71198fcd1d6353892b18809ef0, 0x37921adee7675594e8c7663b2a23ce47b85106ee8aba8a1d1445bc2f62dff214), (0xdafffbf16f30fc9955fd68e34d34c00a7174d914ff5372ce321467f04affda65, 0xfd9784d3a59a9a7b23ef4717cd34fede74cba4c9f80c4f6420b80fa8161ad100), (0xf2e95df7ab336cf0caf4635a9361bf8230a0348b30a1ad167f0b1a1141332902, (-0x985e4f2e94c3b8a4427bad27a9a822f3d902c22b8eb057f6a7c5c1283462a04a)));
 (0, (0xddd266d6a2790595ee9584e2e861347c69a2a0484b243217edb7dced8ce1420e, (-0x8d14b4e82b9fa98350337cd7114d6200c19e3f570101e17ba15b7767fca3f21d)), (0x226ab6ab60e5d15826e30d4b8ef778196ac23abaadd1df2cad84e341d59d8df2, 0xc034f27b75f73f9e81cfc9cfdb2c094b1f0995ab39a905aa17112b375d004078), (0x5812e6fe856483687d4ea06b2eb6c7ea377a9737279edb1db12be40578c24dd1, 0x9ff09166895628adbf9f1e00838f38a9b20f5b304a018eda5b7fa264759e7939));
 (0, (0xc5dc3d67a950dcdea0fed46757bf7668ff19bdbf3f9623c56f84b3192f2f8101, 0x7a43133d2a897cdd93a8f97194370ac2812c453b7532cc1db8e2724e63a3be8a), (0xc7548b053c7158e1190ca3c6f1423435611b2c331bc451a788724aa97793afda, 0x98ecb3fb237c07947abc99ebd7382251c64e8f8f44b83978e695d2bc4c49be2d), (0xed930bf5373da76ea1840c7a1ece1c751d30fdfe3b039e45cf9bf937cdc5e618, (-0x7f75d0ea21eb59367b76aa90bb39f84415caaf9dbdbf2c836a41e8327c86e5ff)));
 (0, (0xafcc1651ff744b96a4b9ab9fb9bee39573cc58d8bfab75f4f7e01769047c4761, (-0x8b53ce07391edfb3995d79729c7d6995b994577bad14044d19bd9d32f3f6ee04)), (0xb0b207ba4e54eaa824d5a48e4acd7db04e07bf57eaabd3768c1662642894a073, 0x78b8a937afe252dc10cafd9cc081dbb75f596293fd277d1b1e2f92424ed3ae86), (0x8bd25fe08e27dc3ce1fd2d3c82c53f40299eec6a75a15ff4a5ff855f48193f04, 0xf8b233a0fc552469c2e985d2f07f66e52fde7e07e0399ed9c9400f90597bb05));
 (0, (0xce4fe400e4faedb6f3837d26322f0d6d8e7079a9279a84f16aea37f320c87c37, (-0x8c81fc187ac7843ab5f9e854934a4cce5b7fd95e3378cec131f87b06f771dd2d)), (0x429f6be9980233cdb2627f25a2c5a888a8c5c0ae92657322124227f5458d7bae, 0xa644abdff422c150eb0fb7b5f514d1677f15751b59d9ee1e25706d1641a46c53), (0xf89c2bfc2806d0350bc0e4f9ba5d84372e6e3030ab5eec78fc20803e249e1e8f, 0x58b55328fd592c33d0bf719afc75a2232965e3920aae0e24652c0c04d25d6740));
 (0, (0x702ad05f795c7e2c80e9a522d8cce586911ff2836dce4d7c42d4f16b0d83cff8, 0xa5d809af44c19680bc522becc1b817eb0630ca5143ff532c02212dcb3e74e6fc), (0x7fbbdc2c0dabdcfa77ae039a8a109a6c759219dc1f67a6725e8ae67df83b6326, 0x31257d7c93200991f09d445d06ecf8e71df7a86576097583943b538aff6df0a2), (0x295b423beeef107423f7fb1a9181614784962fa260b0ad022030b34947b90419, (-0x1ac6a985641db5833b7d09f52ffd27d170fb36a4275d843965fe11ee76854598)));
 (1, (0x44878cdcf305394bd6c79664719657f74c9afd4259494ca2334e4919a568fd92, (-0x19a7f36cf63f4a369217c6aa4be7a6b2fbd1847bc32ce1e3fc0f080e8f81e55)), (0x7a15a4a12f29d8f8164a327bd1cb30c83ada3099dc292a4f488b69599f360846, 0x12584a9b3fa57e73066ee68ab1582b96cfcfce310d91ace7b74e3896248b8fc0), (0x8683541240dfff7fbffbda917807a2ba8cc82952c1c2fc8bf603c5d026d30fbd, 0x1832483f3ea70e2a6c5ec0510b1e18fa4de6ddf732928c466ef3762680b7236));
 (0, (0x2cd0677885a291dea99323a86469f22082d70865aa2d3f7d5e9e0a131103aa0, (-0xabb865c9743ae91c10fc185605f2dd399872fff153ecb6d1be24797c02ec2294)), (0xaa58dfc96c0ae848ac8d0c46ebe9850050a012bb2d65381ff3daf0fd53a76d69, 0x7d84d39bb9b3e97f3aa635d81ea051959570f34fc1e3ea8e87267c82c30e5), (0x1273fe908027ffbbdc4ad92d3aa10e1c1ba2bde6faf143d77d1b78598b43ba7e, (-0x872d84cc0aaa4a0c7d4d81d7ed013ae67606a1def9ddb442763d8921c0d5d5)));
 (0, (0x474887b2915fad40b4438be8ea9842aaf6bf75d4739155798f415ba8ccd636dd, (-0x149c7ac32f7ae063afbf289898ee4a63000914105da346f0f1ed8eec906b40409)), (0x2a5de454642d3d426fc7dff407dc78cc4d5a3dded87243c4d2c8225aaa83b887, 0x13d94fd1a902a9ccbcb78fb9281d7490c3826dab7f0da52a777ff70820d70390), (0x97360d71310fa4b4b68f02ebb5b43126d88c8f171f27e40b52d90ea87b20cbc6, 0x23a2de2acde33c79c09aa545442f5ea539db930e83c1f7374c8306041438fd0a));
 (0, (0xf34d3cb3ce14fe7ad3ba9c6835bda8d0730d07ac0e5f1d88bf4d5e42edeb3451, 0x10a6307ac9310ae665e76084b0b1af9b81e1130639650f1b43aeae14377c1c297), (0x5a956308e32a7fc4470dacf2e46667bfae2e849979fdaca1fd483cbaf199d479, 0xe73bb88aebca9aa1f262e179e9e75574484a60fb1dabfdcb73a15ee0bc739d06), (0x2d781df2cbca73eecdfc6fad66168d19e0d45c81c4e9dde8b1831b4188ec0307, (-0x2dd3396550251a7fbd65035a3596859c383d93b525f737c9233e56d042e5d4d1)));
 (-1, (0x528f2b57f5d0946bc685aa459adf9141d4d49f28785cb58ff012b7e232c66fd0, 0xa0c904b5aac6b6519e731c75e18a6fee19f26963b4462855a7e7ad7b4df5641), (0xf1e4ad5d57c27b88dc2ad3b8470434a3394a44fd9af927053a6f363b4090778e, 0x1aa007d5cd14e8e7ed3f666276329830d8c04581dea344b465465ba6f29b436f), (0x2a78d8805a669e7ef2606e2effa894fd8f4d5bcdc4404bd964aac044aa550e9f, (-0x30cc04b7e13e6c1c842a9f057b18fa1882685c637068e74af6f50c71a251122a)));
 (0, (0xd3c5441991bc0361f63a190a5deda92ab069d6325d08026300f3dbbbb172a4e0, (-0x2676c66938f2d50d04b8fe47e4f4bb7ae717daf1969b2a642b326bf262cc0f7b4)), (0x8a86e8083de60ffd5de0083bce026a01a169a06fb28ced86a277c3e0194c31c0, 0xaf2ec64407b3d0ea5c23f48c864ba183bbddce1a379b83abb5d129245444521c), (0x7ff88202595f6c1e7af90998db2d6937b3d6a3a69f64aad7b7c2cc44fcc7834c, 0x5581f04d3a387a7093ef8fc1949ebd24c4584355692374d754dd7edf7177fcbb));
 (0, (0x37b6cac21cb2c2013bea09778c727fb25a573f6db50ae9a992522e4ed943b91b, (-0xa92da3d5bcc36ae863345b4cb1d4c23f53c3a77a767b82bf63e4a131a87ce388)), (0xb3cf8ed8ee94ab9b23a1917f8429735730c40402c1b8c0287486588d5735e0a, 0xc200da454ec8601fdcf54859bd44ad950a4477993f88f4d706c17fcea35fee1), (0xbb8e1a5ac0765dbabad9195ea026cafb90f458b8617e9af31ce897d95211d9ca, 0x1bb3c5bf9387ee67a72972814478e099405bcfba48f8aacf07db269cd86041a4));
 (1, (0xe505e0cc269b15f42d6f1f6cea9a6b783f485eda99e8d78341c22bf3192b24f5, 0x62dc5093982f905b6f9bf98bc764b951ba3f4090fe13745184933698a45bb788), (0x1cb629619bc33d7f7c2c1c859987744a43ee360be801817efd89a3bfa19ea7cd, 0xcce3844fca70ddb2a83b49b30b2018b0b8ad9f353e684ea5eec616e2e6a74716), (0x4d92da0485609b67bf0ba13efc82cb1212e6ceaa0c21658eaba4deab1f0b0668, (-0xfa1cf0dbb5df136c95eadfad137e9ec51632095577a508aadf474d4b3eb1fff)));
 (0, (0x779a168fa5b161e6713b571629245e59cc610f434d2d0837ed9da769bc0c050c, 0x3ed2d90626bda59d7464e88bd42103f2bea68bc6d83bd0d476e0dd3b7eb33ecb), (0x3f8c2d2329c81b583cb103d54b317040f94fc9b391b1087bbfbe4a8b4eb27cfd, 0x37e09db8b2db43830ac2845fa83becdcd54775f67a6bcc57154040dfbd4e8857), (0x13da744ec3a374146dfa980fb310f1d145e6f6e19b25ea27e77891fccc63ce83, (-0x1046738f2bde8116c222b9fcbb965e4eb74b782d58223c7717d2cee4df55bdc5)));
 (0, (0xc76e740cc8dc7b0a02153b2e811bbb63ca9d82c30380ff3d6cf8015065b013d2, (-0x10641e5bc210a5a1fb507fc4804468023de3b68957d3c6488aacdffd66ec5701)), (0xb2ab48bb253ee64b687d7b861a3dec27d5812d35fc15d9d0a89d771c2a4a9ca7, 0x9b5ce813cfdefb6e8d9ca537efe721e25d63e47985f9861a753601d02784b0cd), (0x4403ad2bba0bd6d2e56c359d2a7f89baed6cf0034b7e4229d3ad35938a6a9906, (-0x59aeda00d811017ebe8a42ec64863a9934bde27e40da0bded10a13027f72d093)));
 (1, (0x2aba35e419165d46e9caeecef83e3e3becf2cabf43b5947243cf11c97baa2d77, (-0x98045360239ae142b47a20d5e0984a8b37998f917b46885aafffe6edc7f4045)), (0x5b0db714c2876afa9ef47ec6f7bdd1e44d0c12d65b7586a64e7910a5b00141f3, 0x721a121330808bac4ad34896a66a559a7867a29d7ae93f8abe1494a82cc2811), (0xa69c94cefd69e41814e2f0b021ffb9c4a856b62a1708fba837df9ba8e6ec3a7d, 0xe9f94d2cf2908db08a7fe77abc13fc0a621aa728d9e600a54f7691a2ccda127));
 (0, (0xd4641db763b057139b1032e0b26897cd3d1443a5050434cb247c8bb673d38655, 0xb34d64caacbf7ec42c2806a010d05d062046dcf6d34f1aca5d94afd56d764ea9), (0x864c19ae6bb214f294f2effd86c6f9ca98df10adcb351e0b1f5a417397bc58ae, 0xb035f85ef7d501f220ccc4e6463a55526d49e99b9bea2bc25f2a4139e8a66c6b), (0xecc82ee48fbe4149f7b65c325928cea073323a5f86d120e544b96d125b48b176, (-0x23e0930acfb8372838b83d6a3704b426b872a1d48c4d9f1356505eff849eb216)));
 (0, (0x6c4b750ce40259102c2202642a47665135105392c38c39c1f0a6df35e7e81b0a, (-0xb06c7226a06b9d23b9483ac5dcc1a1261dab84fb4668da5fb99aa1e7cc48eac)), (0x5f3f61e72ce4273560e47c4fa5a950c2265e8d8ed2fe195a5ac1abffe24d2d1b, 0x2dcfc100ab745d96256bde77759650b358f82ed2f1ed898df7903c78c3bc14a3), (0x554204eb217aec4440ec7f4711296ea5079fdb33092ba07ee6a830f38b2e7e14, 0x1084e01cad3ca3084e9bfcf834ee53ea95ad017da5c11636610c1f51b4863d0c));
 (-1, (0xb88b6292b90bde2d41bddcf6e5793d9c390c481d79467f8eae7a38a654db86ff, 0x1319b8786918b57de5daf0468c0fc74f2ca2b0bea49bfd5fc6572d33170ab2e1), (0xf6138e697545e1bbdb831030cd73c1c7f9f716b72ec2cbedef430246300361f5, 0x8508a9971b4aac09010c8b6f7973213b58dc4c2694bace5e9746344cce1a26f7), (0xf13f20aa5f1b56fef823d668ccea3a8e34e9d06b1184764c43960e5ed450270c, (-0x6cba9f4579d51f5258d2afd22c1f1fc173f957709a67ab099654e3aa008cee9a)));
 (0, (0x4a5424b2fd3a80a80970258cb17d4fb0c99bcd6bd33347b9456997555a1a9ce6, (-0x23985b01857c005ae9dee8f9e8a914989aa597e8f7dbced191a401ddd8a3efc15)), (0x56270bfc8ed48f49e6b3beeb98a5725eee957ccdcf8dc5d7415d35ab7dad64a, 0x1594c0df951ed52327c1e34d54e91ea634e815c3e727029be96f179e667c7690), (0x1b92953d1cdfb1eb6eb5b87537eafb4f062424a838463dae390ae165f94bbb01, 0x45e24f31f8e6b0d9f7d3c1b75137b15f7867ae93af5ebe653d135dc07664cd7b));
 (0, (0x3446fd96def1ccfe8e3bc9d79a9b51e66fa8d6125b9545913e258f6f4de6bc1a, 0xaebdca4a4e83c40f0c996aa52023c8ab3bdeae988aab2fd591d0987e4b80a78), (0x23791eba4f9541b1b882f9065e9a5d6f9c5090f6c83a0aadbf54c8247ceec0b9, 0xaaceab4f447b51779b1b60fedda84e864b81ca724888fa351aeaa6e88733759), (0x7d1c2b7263fbabb4bfa06e8de0e21cb5ba9e131f3ab6fd8ad1532eb35cb7247d, (-0x624f3589b498ea45bbae1a6128d1c370f450312c4ac59b781d94ebc91f3b47c)));
 (1, (0x4c99d4e11c8ab39b070e907d15fa17774776636275734eebe4bb7e60245695b4, 0x19d0687383083f840967c1bec9159d3edd151fa8d9f74019f48121a1d347e03f), (0x3b2bf3efe9ceedc53592ae7b61ec81cf143e532b1bf8ecb1f99abf7c4d992584, 0x16ebb2d5cf0c15a7a3f631d58c2ae034c50a9c3fa875d48586d66d21a41d9d35), (0x2e7a5a5ec51180eab3f8358e71751c76818f358565a4c9bf8a2c5d9209166d8a, (-0x71754e2463479bb20bd0a2401d9cb21c024d30f59bb0427b94009b6fa5094ad)));
 (0, (0x98f1536f300508115311191d9a719a94921a2fdf3772a485b2a75d981c947723, 0xe810e0514299026a34c73ebf366a945c117cd75ab260787fe6f6822049ede34), (0x61ea54d8c60922139a5be2d2cce27dc4da3569039411978f97be36742ae1ed68, 0x5b5f76923b8fac7bb3dcd207605569ba5bd87b25c9c11b7efb894071a66d0bf7), (0x825efcd46bb2045fe81bf8dda3f9b1d78ba5273995f461078ec25aaa24521548, (-0x17258f640b35db5445ebae504836554a0957ccafad713209ddf4a1c4143d0762)));
 (0, (0xbeb901698fb058743faddc956bf039a5ae2fc47dc26fa3061bcc754e8d09a299, 0x51e72da281aae5eb4b06562b639dfc1d62bb97354816dfabbd25f8045238cfb0), (0x502e957f2125152c5f1440254ebe81bf717a9e33f767cbdd89d7ae3ac69dba81, 0x8e1723cbbbdd6ed2f68a10ddd212a03f349fb2f4adfd32e799598b44028d0fe0), (0xf8474e75f90b6ed7f82b9eaa547c53d9157f19016e5234fd25e69ecfeeead49c, 0xd3628cadbde56e1aeaeb81e21387120f8cfe86c283e2d4705b5cf2ead7460c5));
 (0, (0xae6cd44f31e6f1803244d43375e46656888eb47e544c2220291cab4d42573720, 0x106fc94e5b7b9c76394c66c18650bb2a0c2adce8b3bc1b01bd791bf19b4418f93), (0x6559dd28da146cf5db24179861f83844eebd2a6230b35c27929514f58ec6b649, 0x76d81edf7abb4e4c5ebf93b3ef097299ecf103c11e55a44b3471e831b3404c5b), (0x1d324f35eb458e86a9cd4314d847f62624f0c0cab0ee3968bb1a36b5cb8d2891, (-0xe6c6a85fb20bebc7906c4e003ec8d49826c4cdbe422359d94520d8b11a39863)));
 (1, (0x83ce27e1a80c5c3c451dc6e29b94ed2e2c80fdfb75e6365e705a32dc9d771b10, 0xa7fde5ae03cdd300de0b25512017890a85ce69bc490a07ae71845ce80560f87), (0xa3457702ae7ac078a39aaabd8fbf83da6b5e31730a1ad4bd8658cbc2279599fd, 0x43dca2d5275da266b7e06e20727663d9c4ebd83d443b1c030861f75ce19b467e), (0x28d70d468de11c762802a4bf0c368a7ef444a16bfa9c3712c8cceed60a5670df, (-0x1fe16cf5be214933cd4d7672273234ec4908f87121c937f3cabf76d2dc829e50)));
 (0, (0x9a29d6bbf012ad5fbd2cdec58283a22a296b353fa066bf28f7811ac444644c7c, (-0x1073483d5b69cc773cf24038c09b184847cce46c0d0ae1ba024c017b9b2ef615d)), (0x8f2db27ef91c97af3892705e1e6d8991d747f3dbb66a05341e77492f4fd87bc2, 0x5cd65d3099281dea8e8cf4fab9df1d83ab70639af5efb9a77de04aae3dd01fec), (0x70f2f2787bcb4d1e16bd2dd77d7a46beb1ee1169dd6bee0b6d50cd579703b2f6, 0xc1994e052ad15f2c34848fc95c1e820a3bb880263b9aa56034177aaf8028c71));
 (0, (0x264d77533471d4beb0c84ad86a14972325b4cfd3ebc666657631b9000793f834, (-0xce6fc5495bbbcf9cc5a35986398bb9c24853e920a8e26418f49353e99a16d5a4)), (0x7cc5a79929ce065c15d87457b7bdf36078bdbc9366154cd30dc064e66657d4ff, 0x5bb16ddb33dcd6f77897bc116197a45e5b29a725b0fb54da04ac689bc72ae83), (0x8fbf03f27874111b76d98d812844c9601752f31116ce806b30cdc361bd469365, 0x2c1037dbc76b18325b09c0a91a79b49f95563f744a6322f345ba6f95ff2cd8f));
 (0, (0x109524751811c5cb579616949650f248c54e18b8e66ee5ad242e72ddfcdacfd0, (-0xa3d0db1d1fcd0b47f2ef9adff3e79a0fb5be719a5b77cebd689d1edbd24c5e8d)), (0x3bdc9f45eed3976dd5d6e9625a23a40cfd2e2eec96cca616cfcfff9604f99caf, 0x112fb72188161bdabca0a5b1f8be3172c2c5c867696d7515495a47280d89f1d), (0x1a5a0990a6613213f1d53785d169484b9f75f4157db639eee3a4f26ded490cf0, 0x434616581e7d76ede2ed8fbbc0a8923bbe385ae71382ebddac7a7a7a327a845));
 (0, (0xea69b54e9c6c0af24c01cff889adc015e5bf20c266010387691caedb296ed5e1, 0x6440e06ab4aa4d89d009e84d2b27b41c0739c32e418f85aa09676827425f093), (0x3e05ec0b93c26b84c68c7337b0cfdad50d9b7547d5235fb351efe8624507692c, 0xd6a56b19f0da15f8669acfc0604cec1581357fbe035c27e06d00ff6f00749579), (0x83aad15ca4dff8f3b12e85f8ad1536e7cfc46d1b0eaaca1b64c9ac9ce97fc3c, (-0x1faa4a5030229f38eb9319c65e3a900a43c1adb3267de79e4eab7da4a0c9d47)));
 (1, (0x6ce681804cacc25cfc98138528b7682bc0252a1210401c4825fdf677a2d9f783, 0x1967999c9695473f094fe8b7a2633d6914b109fc140174c3cc0ca12f93de95b8), (0xa84d3d384ab3203140eeb6695ddaa397b9a8ef9b2935d12a0723c66c5ab5bbe0, 0x2e534cd134be17fe93d14d463fde6a33f65c182afa177b46a374f62e14cc33ab), (0xa55af7ac04511e740f895b739a06e87492986e1cf78c10ce212a5acea01711b6, (-0x2d35c814febeebba50596cf591df059ae8a4288aab770962ca63f31b0ca5cb52)));
 (0, (0x7ee85f28346d61d72bfacd5b2c641a83ef27c7d6ea47a7304c0a99a84ed55dc, (-0x141b14b3d92a3aded6201a3148acb68dbe725d42532279333b0b895ce046977d0)), (0xff6058a2feedbd42a60c3db16fc6ce11964b7de65d42bb08f65ba97c5b0f2596, 0x3ee990982fd98fcac0d37d17b83af228f9a18b0afc5cef6152acad6030d366), (0x3f9108028466be4178aa1cec082dfa7688d2af7768777909a6d369a14590dbe1, (-0x2b2a712d216625f69769c876d1f54ae3703a85c337f10ab92e8853499214131)));
 (0, (0x15e6ea13b9fcfa5e5d3e0063d0edc8d1ccc32e3eb45cf0d7c83843ffa96d54df, (-0x2f162c65c35a00b79c9adec21b431bc9af8480178e899e7674b40d01a369947b2)), (0xaa2f6995a0b50b7eda858d02f016f5c4a6206ea4a73eaddc33895a6db2139ec8, 0x1dfb2b0adfdc52cf93cffca84f49681b7bba6d3bfc36aa71146a74f6daed043), (0xff79978f6fee83d6dee2d3d1c8494ff9aea03c9a2d2f752081031f829decf78e, 0x749db7829c5cfdfc0ff0716aee4ab25fab18d7a92d2cfbf5787bc1978fece6d));
 (0, (0x54fbb1bf76e06e28bd1bb22f5f9bf786ac2eb70d1918b5d2de69598457d12e1d, (-0xa9cadc5e60c613ab63e09744d91b67ab7c44d87ff771679110eeb22445cfc9ac)), (0xff8bbdc07b8e1cdbb49d41f41c57a2c0503beba9cf4706ad27059c284ccad764, 0x1c36241baee0b5f7b26961d78064bce90a9d46fb540a88b11d8fedd37c1c1cbb), (0x8ced517d30a361d026cfe34d9fb140fd2f39239c884080b58a47dcc5ffe33e2d, (-0x1c563869438b9e20829446a49e5e957e0323a0c929f2b0d81e8aaaf26f8ba249)));
 (0, (0x75e5494d87635eb8bab2b98e02bf78b31a6388eb27a769d207740bf776facb5d, (-0x27b79b32248b8b864e2d7501d6d1cae9a80cbf330c1b8b5a4f6e393d3828d9fe2)), (0x752224e095b798ad108dcb7c5acbe995d36c8a8e40cc18eec3357fc99264c524, 0x364b625d17725b0db68bab6f3ebfa037f4a43bfa471f7af377433eb32a9bd9b3), (0x3b31fbd3233841174df43d49169ca6a3046d9c397ecc9013001b13d0c4965327, 0x3fbe3af61be1e0dab3ae5597337e1ec31f9dc3197821baac4535fd0c7f8d57d4));
 (0, (0x6e8bf1a1163c07927764541b41aca0b11637bb5b3f55029140d2f02fb3349924, (-0x6da90259c89d573e760d295f822236152f8e3617a01ee610c32326f8a393f748)), (0x9c47f1e3a81326cf99be4576f725afae2d5da4a1bc98d97ffb5aa78a49412f61, 0x2fbc9026b81a6cec175989a08dfd534e4fddded604dff4539c65c5ba7867b649), (0x64540be50d34ea8c01eed56fa706dfaa114f6c97c25b268dae6dbb3047d2b201, (-0x10e7a490daba8fa27ece4f752a97ca2956eb2f40ca00dba4df1d0e1a4a7ca604)));
 (0, (0xf6e3da9f18b130d47bafc75d1d3cca434af0fc5b5a1a2a1aa4c876ab153a9506, (-0x5cb329cb6b6c582148b77d9874a5a6ca4abcb73f559f4a934cefea62bc73ac79)), (0xd4bbba97403bc4ada71dc082f98e0b8883847401cc9907d11c8e4141dbad8ed3, 0xee1ab2f7344dad026c2f6b47ed8b473007413b09ce9c7728e71d561f23869ba1), (0xde933ac37d604196693f0c37957b102404c63625c3adf94d2df4c842a86a19e4, (-0x367181bd39bb78789fa308e3e07733ded64f59f4785678d2831a32b7bee81d3f)));
 (0, (0x9c4df414dd026c58f8dc1800e60589db6893fa8eb84313e5b2c91593c5fb84b3, (-0x1028b67816055ebc2aed69264186789925c18cdcc5f67d2aae79a67968cd9e58d)), (0xae59f68879ec0d2a4d3c817bf9e071f803cb5a1500e13b2049426e0205ae0262, 0x5f6f19362a9fae818289a90975f1abbe7fbea28de2bf15e58c408230b75b3faf), (0x2fd30b85fee9f1a54f8e2bb3d05534a0b3f55df1aebace6a6013d64cc4cda4b1, 0x176f437948ee633c955c876ba8b2a2dfe1de344cfd1544276dd6982798dbecf2));
 (1, (0x3518d889cd4e9147f1c67f59dced75bac4ab9ad7ea713273f84e48180d50604f, (-0xae94fe70b5ffe0990e2488bab157754bb957ae69eb0f7e605dc496b60c28933)), (0x865125247412cfe21a61fc5a6c3d45c0edc6d30be83f0bb7d428f35cc06231fe, 0xb034c126001db84ff8159bce731834af893d1215cb99983cc46cb65671be2e7), (0xe2eb5e2d8190734d3298d5d53fc26a9d14984b2c39b6e74c495de8a6cf8baa60, 0x84db60a54165299424688c4b6c826d68c229a4ee80a1fd4dd1edb1e2d7a8325));
 (0, (0x526035391cd4c32db90f4c2d613da15298682fc39f44b29ac6de4532f02128af, (-0x4161ce9991dcf2449fbf5e036a441a6d1a0be29c2a00be45d1266126da5e64f4)), (0xaf912a3ca27a35396b172473bde68d5ba26aaa0cd1e2db932acff52bbd1250e4, 0x1a81c6408c5e9f499fa7acc8cbb3aa22b576a7191704ef64e29ac06c30e5140f), (0xec9fdad5fdc45443339a8033adc358f3c2deba6dc178391969df3f5afc1ec72d, (-0xd4602371ce2f23fb4a6b6f11a2db0b09ffdeb6b039169138b55c2ca6b4226e9)));
 (0, (0xc582b3048f2455136cf43dd3c04ed9d672e98d8610d5d16f5b4f1dfacf85c7fd, 0x3e845e8422878b7cbd1925d446094ffe4600b5c6e5a07b30285b43efcb85dde), (0xbfef8cb62e06bf730bf66940612d079b1fb2f5a6efb78619b0db03d14f39c105, 0x98626a3f521eac17e58ffe636496227d11d5d2489b2dc811b45c30cb1dab2b84), (0x4d89b12242f4993a26c15576fcba5df45ff2821010c60ec9b98169f19d25ce5b, (-0xca0fd27d39795ee4f9e307edab94bfc449b5aedcda23db3c6f7d1b16eeed2eb)));
 (1, (0x9647378baf8f220bcaa23c73fe93053855cc8b0a089252e3dee5a2a86558dff0, (-0x29345340cde889f5acd0d1041d41c0ae4c7bd4a677d402554063e96b52a81503)), (0xd7b46474d411a51d0b70a91c31f65a199fe7d5598be910a436b76e21d6d7562d, 0x583788e78d446ef252758f4865904f48cbb903a158913b5115f37713efca95aa), (0x58e669eed6d948f185761621c74ac9e6a6b982bad4978d7dcc99556b0f7d870d, (-0xdf3f329cdb26360e106e2416f42b7ce80d54376531da384bb140b89dd606998)));
 (0, (0x5f2c02a87e88a350e62852169369e52424b09529dbbaf9555a7235ea6f153539, (-0x1df27ebe0aa3e6b41edbf0c45892bf9b7162921706281d63120934b10d6ddb7df)), (0x968c9af1e2de6f7f08b04c78e9c7bfc27b9641d395df4226a8adf50b64346730, 0x2361b189f7dbf90ea30f72414013b6b42bfa612d9a5398b7ebf492ac0ff2c289), (0x3ec7959d37f5aaae7cba1c7b0da9b1bce622e8b898786f91d104771e25f4416d, 0x1838f74b6be71565f6ccf966ade606f49ebf7f4fe4a9f72e572fd2bbbc4e1115));
 (0, (0x86f50036e9bc9a377771b7100dd163dc4cefa42ee9a5ecb621a7fa5b809a5c5e, (-0xc76a1da80044edffe20f5b7fa81bac256d89a7a417d9f689b20da3f38e62974c)), (0xc6ecf5aeded106a6d09182867d40e666d9073b24df9608fab5c627b5395f693a, 0x472566b2e5cce038b02f965f6cf618130c1e9b0d6b262fb44c436b7210710736), (0x29ef92442c2ae3618f663e476619697d1f079a9bd8ed1f47368fa989d528c02c, (-0x1980bbc0233c94a3b6d2566a15e853cf8a10d27538e17d7d401e33b7fa83a0cb)));
 (0, (0x409db91066846f4629cefed8725f6fced30cf5259f0efc9e69dff6b20caeb735, (-0x1ba8ec08415f846210a99ac36d41f42caf0e993365c214edd96371efc9cd9190c)), (0x9bf4100374ac5a3b69390572d14737b7c5d9c954a89b3bd7fafc3a747252e63a, 0x104f3db4b728ab4bf365e5b20eeaad5a781d456c7ee6f17ed1ed148028b5d2a5), (0x999f67263aa67bb355491afe9d46cbf836fc0445c90b8e0ad792003a67720bd7, 0xad8b3205365e48a25eef84834562f6c214400467dbbb78d9382dbfb3e5fbc93));
 (1, (0x2e3f14e352854754f09feb5a5c8962cd08d1236124d76eaa9eef82caecc907a9, (-0x62e12751786315c9629601cffec711d074a152e71904fd9ef9f7c275b32b99d)), (0x6a5e0b85c55f7064b66e5499a35b722e7064a84c29ae0835a8e997a12cd08c8f, 0x85abb0cfb3ed1fbe863549ba4651e6dd201ba813540c0f42a84a2751c0f53d0), (0x21385c4379c696094845a4848bd8b91ba8cbba0509517249c11350050fd64a63, 0x8f52cc570c9a14839f533b1dc56fecd373954af0fafec93579edb479ba2daa7));
 (0, (0x8026dc33fee90a27d4bf7ab5e310d71c3657daf9d227e3ef776fca9ae95f017f, (-0x63539a207f9e749636016abfa575550d79805d61982758c2b7ee757f3b890be7)), (0x1d0a0cb0c073ec561c20981a97eb495cfac0a63b03bd4bf6702dd2851453e30, 0x4026e21a1bc22006f0b46960b75821b9438e3ad51f207edfd43022010599f9bd), (0x515bb96694a4668ac461384f3f5912ae69b2af855a0c90c2836fc44b07320458, 0x34569449f863d322f1a596d4f022dc8a4627c4a8bab76d4c48338c32cb17ad7a));
 (0, (0x8a4ff230305ef0e25ab7f1223a8fb62514b3f3761d149a6907974c2f7720504f, 0x57dfd299421d1277e51cbdae3313734a6213e452f8fcf2ca1bb0350a3154fdb0), (0x554024b36bdc59313e7e5c6beed1ac08593340cf584e36d4f6399e0d98424aba, 0x4aba4a1353035ad261ac53702e0b045f2b9be062cf86d0921c9c71db5f035e69), (0xf4bf2351a6bd20f260beb5fd33cbd7de69df1fbe702e4c3653b90fb091c126f, (-0x2d142b7417bcb35b0a2e2791b920bc8e2c00547b457f8ed111ecb44a5c8ea833)));
 (1, (0x5ffa2b2b6dceb7d2165f64533262cf82d8e54146fe0b3cad1630f251aa4aea0d, 0xdae83de306448c79572cb9ca9d5095466656f62bbb75455c470a33bd9a9de93), (0xe902d18204d137303ad8b3f7c961eeec6c718bb1e97540696e609298a1d39a7e, 0x23fba0829399826e773a825282caab39ee22c0154bf196e29d391f56df7bd277), (0xb615a107cce75f500cc27e3db1894120b5178e271217464ff5011a8b5e1b1242, (-0x3765a328309f2c3bae95a74e9f44ac2a76c94c4da0913fb7c26bee03bcadae6b)));
 (0, (0x4fd1e745512f939c13493a273f1958b4c5a49925a09cf999b08c6878115c7a64, (-0x20ab6728277d1c875811b378c9491dbcb076fc0aa5f6433acde12750d3be9c644)), (0x4e14c69ba867ff9c34e7bbc7751eddc0f9c415fc52af31e3a7c9b72eff59242b, 0x18e338d838381812128710a60612e227f6b976b9e4d999616cd296836c290967), (0xfa9db546572d639c7a0599ad0e8682541e9a9098a0bf5f846e7f371fbd4d955, 0x304e7daabbb6d402efb5ebcd3bea20443c8fcfff7985f2cb413490735e32043b));
 (0, (0x66306fb7a4e2df7358fbc3b651a7fc2c97d612ef0fe74a2ce472557edff3928a, (-0x3af0b7fe315ed0cfa8fcf53a3f61a859fdc0043c5f098d2568e9b53b469b91a9)), (0x9b44918fd80d560e363db86e40c534746e320f242119d7bca1084f06bbfa147, 0x28caa2306d0363dd9a7ef3cd4dd03db15b2fa8b36f9c25434690d285810a5ee9), (0x99bcab5c02f628f14f87821dab99ecff3304eab90e1dca9b22348b7c3cc98427, 0x1b4b61f07c07eff35371528cd1822ab3859b3e133e477622cd0283d4b281a654));
 (0, (0x677e2e2515ec607bdfcf1efe0875b9bf24867a266bbc06eb00539eca40b14edd, 0x7b32dab92be4073488d1019cdd98540e8e4a20835b5b7eadcbbe911112ec6a2d), (0x2977478070ba7bf406796822ead20699947cfd10dda425ef3b9ad954f93c237d, 0x29d6c7534c772392f2ea0526695b14966608449a01710795dff40d8ef483c1a2), (0xcc39b686743569b70d81a902da0e7ce9180f5e50096c4813b6aefdc30bf1f554, (-0xcd71c0e79e496a6b479fc99baf02f735000209cae7a243d8f333ec849655837)));
 (-1, (0xf5c9d00922bb38736963c58bd30f8b8f18b83f0412df43a8eb02368707386cf1, 0x4d1359bd95aa8103435c391120ca63d9b95a766de1470c9dac51c5578c973b39), (0xcfc3cd16ac9b05b2f252d9cf39af6fdf02e63db734db039d362564aec265dbe3, 0xebfbe749d3e1bccf3e903e138ea174b665aff2d94c3d900dc96c784f7f4ae367), (0x9c40b82e51d3bf4f727957bcb61a2eea13ffd1a4a5dc562c3e9a05717660e2ae, (-0x9faa5511c60d725da82ee0771baa2e3e3d5c0a7bba695b53ce3e27ffbb735e78)));
 (0, (0xd6853026b068726ae35df5cc00405f8ab5995108287b598685783c46354cecf2, (-0xf3fbe851ef6159aea610e934df97e3c137d8b3bb9cab711f95f541db7c84b58d)), (0x9518710741988d955965a0518f4c8b0ce25211d7ea149e7d5b5ba75cf27221dd, 0xb3c2f1cbc03073d19aab2b815512a8b85d6f1f496d86df4b36d743c4a500d9af), (0xb06696764f7772d2381f7b99bc687c917e64ba464571b5050ac3d5af78e1a541, 0x3129c504b696f62c4bfdc53483965a59fd4a7829ee13a0a8ded2b8ada88931d3));
 (0, (0x79b25683a2a969d93bf2d3fd0eda375cab82d3e3c3cf32b7122a624898f4124a, (-0x5cc9a19816f7a5b74719b2fca0b7cc28c16116a442582a47aec75c15ce6ceae9)), (0x2cf4a83a47b4b212b44f0625c37ab8974a895f76b15f1da3ddf3104c101951dc, 0x39da1204dc0f0ea0409e0cc2615a512e740bb1bc15b3be28c3bc66e5e7affb92), (0x1b98935138d97991c0300e25f2d28d6d9e9a95684dd0059c617edb5ffb494db4, 0x318175fc12929fc61dbd27d0544f4baf5f820b68bbe4e7020389b991738947bb));
 (0, (0xffaf98e3182034397b36be8539ec6310441f17c4ddc489778057021a999a6fb8, 0x1f70c61bea2430f53b8ba36b7137c764166b01efc79dd515fd51ff1c54fc1970), (0x47e97e49a415e19a468bcfb6c007b888974c0658132dda8db0f4826340f98859, 0xff5f4b06cbd99a2bf374727f48feabf63a0d7eeb0453de6c0f3e2a855842d401), (0x118233ef8ca0c2135a474ba9328234a798b0ec99bca58663fa4da2b40e732aad, (-0x1aec5eb0ea423b6c2249ffb8360134e91d4b7f8b1075da51aa0c967126d06317)));
 (0, (0xefa51f871f7f787e3b31e7fe0b9821cb2e75a150eac104234798e7c4d1523339, (-0x1bd257ebac82fc77e04fbd17044a05b7d0b865076a40aaa27538b430c0deaf87)), (0xb66c1ff78c071557338555e90f005d74f5a2ab18f0b354341ca58f6570c66868, 0xe055bb5ff4e09e4020bf43a1443e9d64d4794d1f06e218eb5c7f326381f8a719), (0x35dd7523e058d4c42a2d5308e72ce6f33d4824b1e5c63623b5498855c7dd5869, (-0x67733cbfb6b0d7f53d76df16faa04d753b3cd66dfceba07c767b7ffc46676723)));
 (0, (0xad7c53e56da7b6df8101f68e0f59a84254e155b98d78820333b546475b4a06b3, (-0x13cf81f32c99aede51e55e445cc226040f824570a7bce5d6273705b9971e22236)), (0x876ef5d835cf536386a0903223938bb7eda30d0cf7b63531c2c381e771613457, 0x759145c577f57a5b5a7bfa415bd9cf75b3e7b5f10ffd800327bbae344e65799e), (0xd33d98f2a9701f45f05ab0830625872900c1a6d73030df7469ad7594d7052793, 0x1fd7e77dc5b0dbb6a5efbb7889c4528e11897e9c0e0e2a41149e946ce3da43c9));
 (0, (0x3b6083e1e7b598ffe3c2d9ee681e4deb5e929658349a08b764ca43b7c4736ed, (-0xd0d2cb61293e940771f1a2c47e1df62c1a436180f2247431b5e29123b98c278b)), (0x3b115cec8ba5676fb173030388ed88b86ae3cc6db0bbc7bfa067c824fd531e12, 0xdc5a12d4e2c7735ac6cb26ea0abb75a4dc4ac9fddd998e415264dd4f792a7), (0x9202fbfda959ee40de673e8336d2232748270b58698406f5a84f70a3d1ae5778, 0x11b65caef13a191b5d4b19e0e72ff0c2ecc0402c8d79fbdfef75ae8f6bc9d0a));
 (-1, (0x6ea8629c5536c89292e3acde91b200158634e7a45d8e450a75087b64b7acf437, 0x1b1793cfb76cdbb663e9b01eb8a88a8e29fa2acbf327c351be2e9d1e66fabf26), (0xf00da074645369ebf465e33a769fdc76473925e8d18fb8725baf7abbe28fa56d, 0x2fd5237fec66fcfb1f4e8b660fafcac8cd5149d1e2f3ef74114e929f8a27d266), (0x897916f08cc8ad063a299c26bcabeb2e9dde8c5d025790133884f0a1c763ea7c, (-0x4e3b7047c8129c6cbb6055c803ce77231ce1d7d2125378fc8a0ba00b6868c04f)));
 (0, (0xf2f6f9b392f5b5e5d11fa9095b512e9e391b5094572a32914614cbfe7805f85e, (-0x19e5a7876793ad9d7a4bc66b7696a10f3d324c727652536b0327f92cbf491d2c5)), (0xa067176cdc930719cf566ad73b222cc1bd2b83238d40ffa16b22a6e0df3defa4, 0xe697de5c5a85cdf8e8e063f06564be5126d61f8bd6f82e6a6ca3a5d3734238da), (0x3771c6827b193320e9a851a8ca77251c23e7439e886e90916376ff56b0c10189, 0x4b984541a603e0b75828157aec30b188bf24a401a32a71e2307fd2bab674a187));
 (0, (0x954d6596143e6417fbcf5cee6115dab6ef465fe0b0235fd982753323beffac78, (-0xecd71cddb7dc4924b74319bb1dc1c25abbd2f44a5bf34898f13d00681c51e140)), (0xcf3828b7c283ab31cfbb0affadcfb726cad1432d115bf1baaddf7bc9a0cd6fc3, 0x57132fa6f8289201173ee4907cd7f5a302f42ac310bbf5ff7f652583264f23db), (0x691616690ad672d2de1f49f719c02d690ac41b2388b92f3a85b7944fa71fbe60, (-0x1b4dd686b962a5c816e1825a10f8735226da632928ba174c2c5656658cf0835f)));
 (-1, (0x8145322a69619b1c398bc523cec87a0f10b2d572ba8cb32cc8ac80b7603226a0, (-0x2b29756fe782afc85e9d9c2b41e99b511e78bc606c929f49675b9028a682d8b8)), (0x47a7698906fe5601190a7cbda1434b7e89acb465df133421e77e88d50b7d3941, 0x4146cf42d2e5c520ef350437e725a409cd68595e7f777863f79a4ee741f085dc), (0x3165e8629a6ddc26c231e23c62ff1773c37c07b024afca00d26f8ba40a19254b, 0x447494eacefb478e8261e39d23f813306d9c0e8aff32a2f194919df8c50fe17b));
 (0, (0xf01f7da000e1b1521cd5c6b24c4a17f8d42b835efa9ab117fa0826a9813f13a4, 0x20805cd3d39b952b980e075f86feb0d9ec87174b1117388183fdc0e3ee30c87b), (0x28a4c0c8e88d0dad1f01930dbb58435a95918499ebbe87f4edf824d9dfe7cacf, 0xe13b0f6bac0d0800693c6e1a6aa53a41727b5708532f8cfc4cbf88f7ab5e3d71), (0xbfe1bb2a983737de7850738002a38956f313617d0958c3c6829ee2f153a86a70, 0x1d164ebe39f88147ed91ab9f8b6985f7230921925f02ec604ab65c7478330943));
 (0, (0x4ce96d54615fbeaebff6749a9607b093676f212d401ec1eeb01fbafb23acfa5d, 0x5ff04119a39b83fcc2a3f41624afd17f4973a630a96c28134149943d64fe2853), (0xf18f6b77d464aaf5a96a7c420e31853249414b06a7054b95006bb6f4c56e063b, 0x171b6dc24c1b103c7053685164b4ed8efba0806cde0b608a9db6c9341d454910), (0x2eee7fdcb46602ed21fb443be8cdb6577cf2ae908e0e0476aa3ae5e31697f4d5, (-0x3c5cde0f6b513528cff12d5a3ae387b1f961070ef29880d04ffe7d501cef554f)));
 (-1, (0xb755478ba04ef98f1e5878e7042297076dab4a6cb4b992268028e6be263fe156, (-0x55ce5470dcbe0c828f9dd31032f82f7b46becc48e55de41d618dbf8d499998db)), (0x80c4b21f1912b39b1d47060dfe12eb6589eb0cd4094be57767eef03b0586f209, 0x834b08b235e81c4f9effd82a84e270240ea2edf5a8cee70cb890858d626f6d78), (0xb8db45f9ba3e343d5109c3195d777b49b83d7a55b4fbd7af7b357ee8c3108c26, 0x50c67d53b67988ba77592d4fa17b31ceef1a7fc4dd97ab0ae42f5083bca1a9ff));
 (0, (0x1c200c97c96fc54b7722fa8d711c933ce6d99f53d9fa31fc9f8965095460231b, (-0x99b19b711a8f30a85e0c7978eb0fe8349a767af2f716827121557336c543bf41)), (0x529c58deb8bab060ac7e7e3805dce6e21d498ae795d21c56bef1683acded2ebb, 0x31706c45aa163fb8fc7f65c976ed6327d11b7697cee2445bb73ee912632cfb4), (0x7662e48e9f4cb6261fabe27967df05c0c6ba731e836a08e0b87b91c88d4f03b2, 0x512311374e329fca63f4d663ad10cb111095b59929dd364cfe59142a4b5603e));
 (0, (0xa7e02245e5672ab2c7363e765b149e4314cff79388b172951ab117e7c8db9e9d, 0x4b4ab9b3a1b673312c48655fac0e94701c268c5a4682fc31cd52e208035d9ec7), (0x22caab06f39a1583fbc082b9a27caa4fe1fd70128f1a97f46928512c690d73ac, 0x6e1630f33034b244d74ba1acc12be62c7ed6237368fc4dd75c49731be9307a89), (0x7e650918888648f5d45be3835face47e1495ff33a52977acd59bd42076f18053, 0x1f5ba646c5d91abcaf6e834ccc82f208772fa1acedb1085b0cf1204e7e1edb32));
 (0, (0x632bad94f80fb5551562d3aa5ecccce19867d6ce7befb5ff5b628e90ffe239be, 0x53bde4c11a17b76fee632a81cb8028e6c02bc648b34ea780fa2750dac05b74bc), (0xb97f9760630272e2ea1fe106320943d2077afea60e44a2284d2e7632b24ac7ea, 0x266acfb4fd9a297bb6bcb87cc6c0a89593bc0ee0c60d0f4ab934d51f2d1187de), (0x7e54c600a50c4481511f73ea8d2354b9fd1830019d144e2e619eb70cfd68ac7f, (-0x3a61adfa3f74aaf1d37f69be268516a514ad94d645c0372146cd613784b1090a)));
 (0, (0xfc9ddbdedab31dc01ec22cde37bc7ca0647baa64e326962bda3bb46c4e2f174f, (-0x99ea46556f5b9a25105d7f2132edb9f6d22f34d65ad312d7313d6cc0c2ba92d6)), (0x48e1353b45377ba0ecf0d8841d5ab35bcb8c60dd76abe64428afc619735b9e47, 0xf9472a362abfee733897dc53ea58466d257ffad75b16ee0759df9ed131d2189a), (0x4adb50ffe213aa13d838295600de6d53bbc05925d751135d5d0e3bfe6a6691aa, 0x6f215a78419b98f3c0fce7fc2e87fa6157d982048a4ffdbe1ba88190691f451c));
 (1, (0x838de37bd5a6af983be6de96c969ce505664f6ddc4ccf828a98dc2671c240919, 0x191c45758d789e6ffab09557c1cee443c29e557b11b8d927b5419bb4221b7115), (0xe49db60ea9bc6ae93a156ed687696b506af23bbe81b33377f202922e168f2bc9, 0x439a85751d36ca1fd6e3c7600862d00717af360e4984847f52574cf8e80cfa87), (0x3508c1db8e6f022573f4ae12b440b1e0a0e329e1c64dcd4c5501ab872a083fb8, (-0x5007c7229ca4f99ada7bf73201e454ed8f8b2d3a2089e997d68330a89eabb32c)));
 (0, (0x4fb08a68271c35847e7dd7c46a14bb9a84036a414d16f2bd81bd30fc77d42efc, (-0x243775b5021470e1b235dfe84f490f583e466646106ed341a01878c04e1d2de3d)), (0xbe9102dadfdc2d88d76a44f1c5f6826478c4a404b3e80fb6dd728a6694795fca, 0x18ce6f2ae22da45b92d787a4791fde77b3f21e9335dfc47789f36dc63be7c98c), (0x249b234adbd1a003951430a9e54b581b5c2b576c0edff0b8d766e02513c83f77, 0xbd8289a8279d59ca4c3ddcb82a13c4b3443ad5f9f91a23a039c0008da376d3b));
 (0, (0x98fbcb846637e1c4a866ba886ac12f287dc8cdab0500e6f8990ae630c025ef77, (-0x17dd27acf5fc900ad95993c203651f10c229cbfad1d26c66281bb7fed52601496)), (0xce0537663e07710406c155fe8c207329ac21e2da1d54b1d11872bba4067714d6, 0x5b6bf955f0ce0c44721b80efdbd8f4aec270306a5da2cb4a00993382cea1acc9), (0x55a8b3fcb66fe572c713408645759d532bae61d87270f81bf5f0d688eba1a66e, (-0x93c326b68504c8cfd7c3d3d840ac66a665cbb3b3a8fc7eefcd6dc2fe58839d7)));
 (0, (0x4a66ec91aac8908e657dd18dd9ef9cc18d536ba1556d7f7f78c5458b7cda4c8c, (-0x1bf9ac6fd37544b249e92272b915682339a6a5a3b8411ef1be2c0a7151e42d264)), (0xb8320536e05f2da36cf5856592d6e9fc46dcd347e9aebc958bc40a619d1cca34, 0x159faa25956cf12a37cee6f740d74e5d990c9ed88336d85fdfa6325fa4b47650), (0xc37f2f9ee9c294d987849b6a6aedf8d38ff16eafb3f0a60bf1a3702a8b9b48e3, 0x657d2d2cd6464558897d8f16d89d79f70e7e291136923603fcd779695e29669));
 (1, (0xb34ab163327ad27ed0c4811ce0eafc1a5ac6fa77965565f6f22fbb46f2baea54, (-0x2bbd10ac9b19ea5662ad5ea47fe63afdc53ac6bc235ffac1c8a4d4123f9c670b)), (0xafbd2b64b9b8e7db2b3b19c4c2fd918d079629569fca2324d5add21757306a89, 0x7d9189dbc0db439cf549de1511407ad0676eb7bbc9f1721f8cf29ecb3fe78eb5), (0x28ea56f1d4253d26aa3f2303bab9029cdc53fd5c01daac417bf41984759e89e5, 0x5ec2bf0f93ad907ff2eb7bf00f2a11801240062d8058cdb13bcc1e5f07fdcec));
 (0, (0x2fb2f0671d6be291d8f7c2b78dead253c87de2b2d8c43a0f0ad0b76bc810546f, (-0x15aad48b062d0697d95f6f9119c59c94693b83808e292dc744cbda7855fbc4233)), (0x3930ca050abdeb9f5a8f2c7737c73d5c1f13ddf5805aa96d77a6101210457835, 0x8e331590df407eb998019038b6dc4fb0d64e877894864cf62505cb4db391a46), (0x8aac0e7e21eefcc9ba91330466b34995ca6c128bafc65b557a8001b1a8932ebb, 0x1616a2cfa10c7cfd121d96ba536a161d2ef2c3a77f8c5b4f5bccc71e498003f4));
 (0, (0x644dc61ee020c9813d3e9e68df0306301d946a238f8746ebc534bb681c61a6b8, 0x465663aefba892667a30d1aaed7a9c825ecb42ba239d78af9dda4fddf7fc1c2b), (0x9a16ff6494aec67c8ecd2003ee605f2fbf0d4bcb9d079d2e038e42d03112c253, 0x274cda68e700379233344d499b20f67e7f55e5847c25e7950164547dfc2626ed), (0x450f6aca8dd9e372b4333a960d721d17dfeaf0fec1fcacdea8a788fedf40d77f, (-0x25f75d151cb69092a02d1a9741bcf14a12e4fe8c2e2917e60dfcecb1e8867856)));
 (-1, (0x5955edb7442e15418920fb7c080ea96b54c11733a28e1031bdcf2c0416c70335, (-0xb49a89bc48ea52e1deae2c6ca35099fd97de165ff2ddae721b6f6f11cea1a80)), (0x72c072beaccbc451c0bc14f1f08816528de3306b8dbca84e90f61e46250efd73, 0x1f2cdc2125d828d18e443df2d2ed5c82672c8bbafdda576b0f18dbfebd882a55), (0x24678271822284066d32db2d05df5e4d1e190995b8adc75bfd17fb0da4e748f8, 0xdba4b29aa421e940920321f8ecbe233d9933a719cac93f40eaddb4d72f32567));
 (0, (0x9e5f064b7079acc9f1ec80eb1bbe1731386a8568e8c5eb5111df03745524926d, (-0x6d4518f92e6306ea36eb9fc97fdaa70eb3ef9b9e95317284429723c084bf2125)), (0x26bc39f136139d3fabe632466a3e6486f4cff8604d7abb7a2b2ecae2833fdebc, 0x61f96f0acafb4b185150e35a3a916988506752e72a0e42157ec7f10ebf417ee9), (0x2b4f950891f51ae58c8a586014c40becf0f846da181741800494e42b9486cad4, 0x2f06d27e637c25954bce22ec20b29076de6157a196485c2ef96e64fb99949111));
 (0, (0xa5b6474a712ff378be68d84e2cf37b10ed173b75a1bc80216364ac4d39acbc09, 0x267d0099fef73bb8575c0d57446bb044b1dc0090522e0a1f579757e2c93c30c8), (0xcc77895dba27815c8c4707df3a23d3e807eade6aaa9d3df4f61cc8af89c51049, 0x6b4479af679b20760ff2fd4077af1cda63aa0bab24959c22c1e7d4c38e1bca70), (0x8edb9cafc47ea1a5e7c759b5203bb2a773024dc120dec4be2a808a39109ef62c, (-0x6b47bb828cb97f3bedd909bef05c14525d5be32c3910801f8123e05a8c9c2e1b)));
 (0, (0xbf5253a9628acac54177871d87d06ac71eab3359fb3e21adefae4dd985b72ccd, (-0x114649a5d033db48397f911c6774ba051a549adbaa08007cc54c6ce1ff7f68df5)), (0xce54bdc63afa4c01a8f1c013fa283898c888805277747e3f55983bb2621d2f48, 0x8efbf35074e581757eb87b92d4678786b97dabbe110cc929036d7fa558ec89e1), (0x88ebea5f6995a45651fc4a2cfa27d431c8b2f9e33f976de3138306bffaaef5e8, (-0x164a390b553b43fb8d5d3cd4da524302e075b5fa758c5f75a1a25c47ecd4d69)));
 (0, (0xd05ff3e2d716c8843ed31dd2264bc52cf2500437d7266755dc2bddd21302f307, (-0x113ff7792d51c5bc0ddffc39ac397569c3e80e447c2a256765f8516fa986022f0)), (0xb65abdf17d1d29886756e90bc4bdcbe3bc91d567f2b1fe8244cd91c9d53d5469, 0xa99c10478839161571da10be8ce1773fab653ceed7c046dd3fbfae12af427648), (0xc1e1cb846752f83784fc0dc7e4ff6367d14d109a02146b3296e91009026d07d7, 0x13841c7a56e6033a2fa4284834b350c37c9f7a886d0042e83fd6ce4f658191c6));
 (1, (0xc3a20fbedfa3610253442912456bc13a046cfded438f178b0942602d7b3d896, (-0x2e517545ea8c9dd28f53443f97a0a1c6e32eb295c6770341b42893663d9d559)), (0x1e1ad326a61581949d018108d334f4e741a87215a091eecaf4bf33e38809fbc7, 0x95804a94b73ddd16310b895221a8ab79ce3f26f3bfc45698aac537c9791ea4), (0x7adffc8b3e652fa2d0d36e11182cd022e1f89cda50c1fa12eb2913c13ffeafb7, 0x745911a85959e4d6d05d90d55a7b4458e08ffe0564e91396152559b251f4102));
 (0, (0x65aa62c17d127d5ce254099f7bd51334e8d44a3691681a75965f30d585c94dd7, 0x56f968a8a082111bb1471ee85b3982d2ef9bdc8af153dd22675a119ddaac68e1), (0xea58ef9bf04e731194078ae031fc38cab376ec024b0b6959f96bd098dc3936e7, 0x285fe353fbc36979c4ea1a4ccd14f15dbb38d96694808c4752852154d72d12a4), (0x472686f86b923142afab6b713b3ff79eb72c82eabdb7922e2e79e7bf0de8bab8, (-0x511c714351ad30352017b828d4e5cd85a438f83bfc65989c61fa29034c2e83e1)));
 (0, (0x671cc660c6122aa1227ad0269394fb49ddc57d6ff20524f6335dcb3686c44b, (-0x2835acdccbd8acf9193a9b01f5a41a3a5acfc14f4b7470a561bf16e442ab832ed)), (0x7757dbc2237e21ac5016893850765c47363261728d44e3467a945ccfd49606c5, 0x29882addde47c9403dcfb3c7b0620c032e32b168c1e4431198dead6aa57a), (0xf1f35f508f1deef5bd47f1a7feb8b598e9bdca0e4358b48908928a6df163a946, 0x2e525c391bf71c32fca24c633b60b48b09de46b4ef96a4fe98b246d8074b88));
 (1, (0x4d9cf83cdf07a9c395294147accb9e859a27b4d488effa26789cf19a9b998566, 0xba508b4013ef258e08a1a1399e8727121c6ddec2e71ef7ce45dba5e0c64a60), (0x78db5c032dab93228c117ebd9bd86fbca3515a050572f5a9177468a7522fa471, 0x1787cd9419106c0eb4e97a37fe426642910e3fc25a7f27bd985a7e6da5dcf80a), (0x37032bb2262be1f7d35d28cee6de200c1d8986d3eb99504bebaeb46d51662617, (-0x757b2d7814883e3e047106eff68e99bdd383827b0ed857e91973e11cb1fe2b)));
 (0, (0xba4f62c155ad050f609fdc3d394445d166c570a1f5d87d94385cb934dad91be, (-0xa629fb0e463231e677b8480724fb3ee5016dd1737154a30e8b83895eeb6157b1)), (0x671f4c99d0aaf391394ad22e65be4d29f259065abf75306b09035260eb82158f, 0x8797741f09eae3be3b53b02907b5dcc3078f2701059c26f854305109292add), (0x1df9f9584ac58fe133d8c54d5d871e6adfb5768a7d61cfdece016e2150deb877, 0xce82312b1b388b851a3702a3f868306fb9ea8a8475703873d3da61b6c97232));
 (0, (0x11a4334fdcb543f6b682061b9fcb34f28ee42a2ddeafd7dfee65a72b07dc5a, (-0x7c9a78bed4c0fdeed6df5815a91d69ff0f5ff1fd4fd1a669ebfe0336521ea8b9)), (0xb5de02c926d83921e97f199b7674c111387a3a988ae0854f5ba29c7f471fb58e, 0x137382263ebc6200793678d27e51fc3152d4261f438733da5e9bcaeea88), (0xb9e8e93aaac1ae3c752bad922407d677b507ea80bd4fa87643a842aaa05af7e7, (-0x56d2c0e6a1583b513d484111c9e0b30e71165d28e9ea86a2274d3fce7573c)));
 (0, (0x5a75e6e2946252150f12eee695c3a79d993d36b8bbc709253686e30619ee27e5, (-0x100380f31c7f91237d96424547437fbeb357b8a4efd42e309f7d2e7938b1f45da)), (0xe63a7d71f80bf5a64017f180b878e69b883adbd00608ec3666e6c91d43cb0311, 0x1ff71ca42bacaec0d4f1b0386ea5890b252f44d06b8a416cd8d333f3abdc5f14), (0x21ec623edf63cb10cf030beeef4bb8ca061ab5e3a93eda2712ca98f02c52b4ff, (-0x1116c9014c93cbbb0143c2db7fc83e0fe36a7d5571fb7d5b29785da4ff892afb)));
 (1, (0xb755df7226ae79b50db1a5dfbaee990ea68c098e107682ba6a3a91625e7f043b, (-0x4db1184bca0667134665454c797216a91f28c3144b376b8c5c6600460e7ece24)), (0x752e9a1d33b2ae67f9396f900ae2f6f8ad52bbf00512fd90c92ebbc21fc706b5, 0x834be243582334281d1529452112c5ecf55d2ad7908586236aae7dd3407239b5), (0x2335368042a918674c96705b2672b0148e5f98e3a40ddc7c5f9dfb1d4d6e5315, 0x50f56b1fd6e7e5ed0bd11e3d34ec4a12b9089c0245d621b7db90ff96dca998e0));
 (0, (0x92a1f0bac1020a25da1c9f02729b8231c5846866880e4d6d5f8901d9846c0062, (-0x7895a6bf539df3cb14deb3aad5ad53c2dd10df3842b8debad181287ba673acd9)), (0x5b430d08f28f7ade446cac9e60b66a53de231192a23d5d4c3cdd9a2642edb3ad, 0x53fd1d05b16bca44cbe6c8a6a366b963d55b28b53e859dd8be6d590f4f6d3623), (0x798fdde275f27d1010a24750eeab9da0c5f8189074b60514abeb80c1d4abaf0c, 0xed8bbf903d5528aae83be1bfccda9dd10badba84932f42dac0aebf6be587141));
 (0, (0x6e03f5a588f4c7deea2d0276307ad32f5b14ee92716d5b30c1ec934c5ff82231, 0x6e12edbd5835272fbbc37f7d7784e961a6b4b85ff480ad447bb62e3fbd25bb3), (0x24f69abda49e8554507a00640846dfcdf47c0ad2d4393632aa19be2c75349fc3, 0x2f476729ef49d4ae9bd77b2a1af4a01a76d83e2ec521e081eb0e968c0e3db8fc), (0xa6cd375b7108991542eda679bfefaa1e61d2d6e9a23848818b4a3dcf256eb3b8, 0x1755b01bf813b76ea4b8c9a85eb903e4f59f25be13f3862d4f0fa51d755c0fda));
 (0, (0xbbb267c36a6ab536def945fc81033943dc16bff7c42b9e16970cc349bed17039, 0xe495703f133da3b2d75866009f4e3084b163f4dc23c4a8f2ee27702835527abb), (0xb43628e0510c783d00a7c40c10cdeb1039d1ec7ec715782ffa74ab48902bcdc8, 0x899e1febf346b5ef52ad0274800da414492c83ba492836c70c64cd2bcbf8bf0d), (0x115eb44b02f2c764683d34914932d108a6e60c0ef260e558b1ab306317999de2, (-0x690741141335733e4c6398702c3205c3dbc146e5d40d84618635df785fba39f9)));
 (-1, (0xa007b49d2eb772527433523cf9cf850d76e101a858e8234b1456a7e938657a61, (-0x248c9c0341f149ce366b26d2bf670e5c589900d6ac7ac9d9358bf9c69c33704a)), (0x1a9acaa30497d83187a0371d4d110d11cc8711c7f420aa7e8a61659f83a65ae1, 0x6409a1ffda6b4723a00f1eafb0e3caba2ecb28efcd2c92eee7877396c6dc8f80), (0xe51cc62e183ddee59939e8e28f55d26a41b32c6f334a39bac7e820070e38e308, 0x6005ba857209de297b06893b698363ffaf0c5ec7e96f8d5f0fbc1a4936bfa2f3));
 (0, (0x8b6ec86e5b3589e981c098a9b65fbd9e6854a9eff3f18f6069faaf7073e644d8, 0xf1481e6e3f32876608e9d7d3871450321af3943891f540b4ddbe4deb846ee353), (0xb1e2da9a749a623cc17fbdce255781510463f03a23228650f97b6a2f6e71181d, 0x4bf17d98b2cf23dc419121f2552b7924bfa8d9c687cd0c568a9aa0f50029b06f), (0x630bafb608d4aa3e2866166c756f41e35911b2b1af7a9dbbdf08747b240cb4b7, (-0x52659813b979eef757097d45019edc2795325d6fa02b66b3631a08dd031cb0d1)));
 (0, (0x3fa90b06e2c750b1a28818b78b63eb398bbef1d4aea062b828eab16dd9805c35, (-0x1418fe37eee0b45e74a21b7c757e5326a1c60a02541b997bebc9032b2eb6504fb)), (0xe2c5d0ef0aecdde178acc2f0b25098f2a49743eeb46930423a235a73d96b69e0, 0xfd4a30cf32f1c8c83b325ce7a04a259b9f5031001b23daf1850e218cfeca251), (0xd1528bf76b415a69805a0d22c08534ecfcbdc407420b1ecbce459563a7e89a7, (-0xc28228e800b5e9f3b76029f133673d739ab75e93e4704d1ef3fcf7ea030abd3)));
 (0, (0xc54bc33035736d541058eb257102243e9adecd50526eb69fdda4b04e73ac112d, (-0x2467b4a3426c8cf493e9c06f9fc0e5cb4b96bae78a4ce45ee80a1d3fa92c2f6d6)), (0xdff97b1a22a22c77e58de7ca8147c5affa46541ed8079d045daf5b68df53e41d, 0x980db0d4255572675f6a7dbf366cee04732077f714c444c03f5308bc29ad57b4), (0xd23dcc817aea1c86867bf14ddf4d549ddf070ed3cd2020526308a0a362447500, 0x228120c28685e0639cae6c40dd590d5aa8085696bdefd78de98c40075cffa60));
 (1, (0x6045e6025b849cd55da66a964b6bb3d5b82ad26e98558087dffe2621edb8a96c, (-0x26721180c2a18cc66e54741327982e3297b798f5d7c81a9d46e008e05293bf6c)), (0x7b742fb40d39164cdb0bc2091d621a66cd306f1bdbccadacea8974b1a277e6da, 0x24347f979091079469daaf747866c82a7fdb73bbf87938d5a9f05388c10557cf), (0xc4ca5177cfbc222d115b6a9f2024321c4cbd3da90c5ee9099de6c1adfd35272c, 0x25cd6e844942efc8de2695bd794e4c6e9b323aa4bc350fdf4fd3e57f237b3c68));
 (0, (0xa4e9d92c034d8861c63d5c5e09b1117cb2cd86117121c01641ca6ecd3a417e38, 0x4af02ed59cb0e8f08a9de004e5d0a4ece2f24af100769542aa5d5bc60d1fcdec), (0xcddcbfc598c9ebae24038c33c8c8876399eead360c499c79b4e81d59bf5b4925, 0x6a3c73dd6e94ff0a1be1066869666887e98b15f5d1bd3388d26164fe614a9449), (0xc10b679b995c1fc3580d0b7e14feb3ca9d88765228254475bfc9b83c0651d1b4, (-0x3516435f2a88a0e0d9f0808bd05d1353b7aa0410f4c64aa237d39be85e471738)));
 (0, (0xcd338c0622672ec389d64aed0d4a54db6f75488b447eab8e619b7b965212971e, (-0xbb27dacdb094fd362f8387d520940d5806afe4a21fa996a6e4b4d9131dd9d015)), (0xa2c153cc2a409e9484e60f4605185540ec1d9ff91cc592ed956922c21a169acf, 0xa47b98a2ea21abc84945c150f43bd266b81f10f20e6c8af4c72d7e42faf6aa85), (0x7be016f1d711e315ac8ce9cc7275d1177b3b2907c20983e9d98833e6a7da5bc9, 0x228da38147b0eca2fa70aa32057627020d8b8afab22fc37287bc4a7ad15bc619));
 (0, (0xb9ee2e57aa16a0f0dc4a4cdea26fc3d6d46fc5131e9718a1588f7051effde0b5, (-0x827b5d7bfe90c7348615db521f74101dbb494b9889b6c6d85dd2d812a4973767)), (0xcc2e2b9893583b66790c17929062997a9195a6c7ceed2b478f2a5f846dd70b98, 0x870a1c94e73895d48c76ffe116025366c3cb6c7f10f5b91c53e3d4073307ddad), (0x63aa69e1b64f2b4da0bc9ab2592cacf36e8d97d6c49265bb7bbf8ddd909d3a87, (-0x1e1632a31645c654c3bed36a66b2ac1777ff6f343ac63522e555aa86823e6623)));
 (-1, (0x966b86266c0144d3e3d73dad779a81f1fcfab55b2921657adabb4d88fc5a4942, (-0x30701d67422bbb595e70adf970f38d61473a3d87db734e0ccf080b4c15b18e0f)), (0x7cd9ab74ec869cee680484a60958bf39e417d845851b734b278da95ff6be5558, 0x58622e5e70fc048d6a2005b63409984a0747bb78b81a19c06ff47751f581c044), (0x42b496b9c0e14789ac46de3fb2d7e024871ffd89c152aa6ca7a3ba28b4f8a33b, 0x2e9cd4f895bb45cbb807b9100f18d25d306a1102cb468be93b602218e06987a2));
 (0, (0x8024d1a1210bc285c3bfc27b1741bac27f9de82ee7e6cb2ab44ef2bb87c78be7, (-0x73e2fec530f94fa5a265c3aee99199a2392ac42abf156d4ec4fe907e3bf6b09a)), (0x124bc7bba122bc7bbaed1e28fefdca8757bcb8c343a20a6077695e067c2a4473, 0x4024d6ecc2058b34420beef9e465253daa339079d6a4cbb4511ed3962d100012), (0x8332cf12203fb1dacfba68e05a08b786d0a0719a363ee76d4edc30812d3a2e3a, 0x3556451193a837c4ba2b8edcfb77b40fdf3245da5a7e78be19702932cdafed32));
 (0, (0x89ca3cebf2c52013d1b7b8d22afecf642f16185f8affcc3b3c6043c4fe7c73c7, 0x894f70b2c5023729f91f1dba6713d270aa6757d078d42d5e6b1f648456096a9f), (0x66204c4e43be1a6716913c603a01cd8273cd3d00c353fca4827a42b20f1d0bf2, 0x4a2a14f8bcb18eafd8e910e19ea57e416d8f12cd228910d86830595de3614a77), (0x95ee1393ebac8c0c95c98315aaab6f85971017ecd2efa84e0ccda7ec38f05614, (-0x2d1ef4962760f6f06ef6596c4a2ffb7e369a1019bcea2c729007a13b27bdf6a9)));
 (0, (0x47ae53249123da4e1ff46a0b5268b6e11d2aace12fe2f16c84ace8205f03c6fe, (-0x264302c2b969c47f7ccc8b7029bb0acb77098c616466c3c9bcdb6383ad0be424)), (0x7d0f1d1aa619603ed947fec3dae1cea6e720efc29d59f74c0963baec60a1054d, 0x141228d36937eb2a7bdab415d45409a22036e4386e1e9bcfdce8e762e74b429d), (0x5f194dc17c1f108264df4554ecbceb5e4190b01ef101f45712c7d7c4b76cdde5, (-0x66bd9ad4e7a458269376e137ff1889f0e2576906d4e5e0a4309717a4e31762d)));
 (-1, (0xffbc2f07b5e2d45acbad3ebd55229e5198437c68c6a42a6a19dea891ce1e8b61, (-0x34fd5c715f97874ef0d54406e1c607f82359a5bc82cdf9cb69846c4d2d0e388)), (0xc2136ad1ce224a7ddbec1cdc0854fbab47c1d2767080de440afb6446573a35b5, 0xff7870067850dd3984b9c6761aac1001bba7e134cd37080e6f30d9392b2a3d89), (0xad7f68182f1592de7a100e75feec388075a93c2014c375a6c0fef2cebc888a22, (-0x44f2054061ce3a3baaef2731081fe2ae13f631d5cf7c26749acb8cb1e24768c1)));
 (0, (0x8e9b86da195c4649433a4bebdc5e83b5af2c9f94d0a84676c5bdbc691f01d42e, (-0xf81827912a8d73375a61ada581882b0231cf12d9df98c344ad128b684d093dbd)), (0xf694798f7cb6a210327d2c62cdb2b467b20b0d5916882d63d0b59bd205fdee44, 0x4f70e81687462012308ba2f605efc76d3c2ed996dc3766af2e671afc945d574a), (0xf5b2ac0e5c594601ca71b10b3d63f5b70687bc6ba97a038c55bb51557aa3ab37, (-0x1d3f7bf96c805a88a49e13ba13ac493429e58dfccc0f4025b658b0e66b3cdbe5)));
 (0, (0x307f1d110b2c07fab8d8fecb96b0227acc97dbcffe438e4fd81a71e5f75e952c, (-0x26b6e0f9e56e75fad23c76c6d151bd3d9144d23468035720aafa3a3d921d67538)), (0xccd254f1000818f4dd5c4cc7bebe8a4a5ddf37d5f5e5cc55f3d49c0d55a87094, 0x92fea043e66765866397449275f6304adecb559a32579781b3a04af21f493cc), (0x721ec5161d004652b87969a87a624f67db5c804ebfe704aed6f34cda15058f61, 0x7e922eba7dd7d2f80fc8e744bfdb80a6549056ddbb470369c10c5a937f378d8));
 (-1, (0xf1859005cdab6b66d72dec97cbc76f230020ed1b8fe4a665e576a471c087c0b7, (-0x4e611b91514e6a278b52321552d420fa2f0ea26575f9a1f51b3c13791649fee5)), (0x1337fbd7dcf8feeb63479fad4e62cf417846a9b663be83e24b36fb20b2e0ebc9, 0xe3dcbed9e44afbd7c0c1ee11126f651d73d31586f0b1de13baac3e39a7621be4), (0x4767839b0e1c20d7c4da9eea01f9d08103685d1014b7754b7881fd2ff9c7bd87, 0xaf1b237bfb4f30e258672ba8370efa8f0d432f49d4fb7c7b96fe90c67dfa1cdb));
 (0, (0x50c33edf6d258c57ddf674327657399633f1f832325e724cfeaa3ed4acfa927, (-0x1833910490c9592dd9a0bde55ea1f13dca0353cdd344e62889782895a819d7f)), (0x3b2fa1de51b76ba7906b51ce3ea0a6d3ec71d2853f1bdf9bf3c8c8e3feaf12ff, 0x197a9c347c08bac83e843db153d7ef3ac38f8c7639b2c7a1b3062214ecc4a0), (0x701904b92bd9c2fa23b6a29802e1fdebc545840b7b74c8ce6210bbc35abac4d6, (-0xc9bdf56575fed5256e80101cd0ebeaeddface7ec5d16eddef432578d6b4f19)));
 (0, (0x99b3eb132a45688329e6c5f06bb14a25592640e1167a44088ea5151189af32e6, 0x5d8e8014b9d373aa8e003ffc7333363964450d87c2c4ff4fcde0e451e215c38b), (0xd42dd6ad375010a70bd211475e352b1dccd19857fc3152f1518045be9346cb5c, 0x5c488d6f7d304507aaab9cd4a1b8708ed009d927030d7f667b9ac3926945fad6), (0x13fb956a44455fb25e1d31e881fcfd3db29905fd3c2a47376965638bde302d8, (-0x5bdb73cb627dcc1a0f311804852d3b385b13a8494da5191cfba19038bd700384)));
 (0, (0x87873166f5f32a00bbbda900c540778498176fd64135d6f1c07ebb9e776447c5, (-0x20e415421f0d5cb67552d4a6ab2e355af5feb1ee416dacaaa4962c930babf5140)), (0x4874b0fff7533192446f760246cee7ea11a7102a07dcea9da2ab6ca0e6621fc9, 0x47bfdd7fbb86705312ed20197050ad50d987dfd80b2b41e03f35d3e2cb018c68), (0xf8651906965474430b40b7c0fabc3c6f3f785ec8d293394b11e4f8e44045dff6, 0x49f86c77dd532cfed6e4eeccc61a62ae48d671c0cdeb2a896fa11f0de4cb617f));
 (0, (0x600445e169161a8164b167f529875409d6ac4a8662e0d3832a3ff12b795411f0, 0x7cce93470dadbdf24ecfa12de30b3b5b605059132aef2fdf04d5bdf6af19c2c3), (0xa8feab7734edbce8eef846d324e2296b09c56acdb448a9c0b075992152493c36, 0x2403347b50ef25b1add7aee4764710379a36c029a84e6c71b0b27662c3122848), (0xcd6b69a62cd3cfff5bbc7e0db0f54e1f930aae6fffab7a15c58a72eb96e7fa83, (-0x24355a6ed25f1ea7b72498cb537c1371b21011236955a24f20fd080408dbb5a7)));
 (-1, (0x2f982b506ab07d56ef53d46ce81f762e6ee70d11cc8db80a9e61585de8cb49fe, (-0x8c8e2d12997a0b1cd363fa6fb3f30ebec95fe6d85b63fef9079344a768765c7)), (0x3ea1900478ac9c82c0189298d7e58a0f7d83a2b70d789657ad206f8d8d734da6, 0x8d93a5afdff9cb4e7fd27c08f690f38d8b5ee8567957d94e0fa3008c7f7be70), (0xbe49bf7b1a116b39519d7bfb737aeda5f931cc22ba0a51a2d35735ce3eed839d, 0x13c6515169b8768bba049471eeb1b7f4b5160c63f9cf826ce7a6ad79bb931740));
 (0, (0xdcd257414dfcffa498a47abc90de8b752d1f47cebcd4e71e2fdc5e68602b0d46, 0x11a4f7ca70d04d13f07611929e20be91e264482519e8f3e028b81bb97a0ca4e10), (0xbd87d326e803b0d24711ba5f4e8c1b001d9022c68b8354075ee36be8fc969dbc, 0xbe7a32cb82ec3e20f862fdf414777299b23ffc92bbb2a260903573bbf3fb18a4), (0x7815d1663ec1c1b4f2d889c858bfac659bfcc4213aaedd3d5e58befd01e2b62f, (-0x6d7625d549de960c43ad5fa2c484a24b1b06ca0c714a9b5f1653c4326ecd1b30)));
 (0, (0x8b2f8bee01161130542879165ab5ad32f1cea152c028025d069655c2c5c8202d, (-0x1226134d894a938ca8ae9276623117e2ade4b043c46dd1aa64f4062e659b06476)), (0x7a1b926ff81b4c107aea74fc06a8300e395efd10991242c78226b03e66924cf9, 0x4bacaac9230eaf38c6d679a481944110e6a8833e24026dec229b40651b348208), (0xda279f96723c45dfe08f82f119536f35b6e1d7e668fc4e65f26622ba0599cd09, 0x24a84cddabe9f4cb239bb08aca3f7fadbba9fa5643cfb4642bb94d5228de0321));
 (0, (0x94681de7c0e2fe27b051c41ea54933b3c308b8cbfce7a913858acca5736391df, 0x4e34640ec52620fb35d72a39612842f015917b9a17dd37e6f525cf2becf1aad5), (0x6eaf714dd8dc9efb8572d4049d0e52a21322d6bfdb39fe1e4e87e16277bbf30f, 0x56088cec46d181cd7caebd46c4e28e986cf35144578527b6fa81e581abd450c0), (0x95db8a8c9f0886d70bab661c5abbe008ede9807515da402b2bf51f11f3eab0ee, 0x69f286ac6daea809f5bea760950a80cc58b402852ccda61c3e153c80f9fac51));
 (-1, (0x2e19f0b0bc52238c99a95e360d329258358399d5187d709b40d56aa9831e85ba, 0x1fdceea6e03674519f5b7c2ff7536f70a420a17e6d7c92a39e57034ee1d28d0), (0x9cf1c263c6244d34cac08d994c9321c78390ad786ae5160a52f3c4927fd491ba, 0x84d5520687e27eef6d020f1f98695a5bba4cd58aa0e4e0e13a46591d54fadad), (0xed68cab0b73ab945f919c5df63462acbfc02e30ebe493b831dac6c9aaacef2b1, (-0x8549a89f76ae60b2f0e6de2882b83a69f20a7677adf3b899627eecee28cf2b3)));
 (0, (0x25488ce840c57076d2ad1a1ec171ba5e48555e58e4d2816efda652707dde6df1, (-0xdb7fc0c90ab6bc678e1d379c7bd3606f8b1cc24d4c874a0af1fb016125b51ff6)), (0x9c0a5e493ccd100707a2b6967e8d78f02afc535e5e1135212519252ad3f2b448, 0x56e0d4ab2ec5b1f04fda9387527a62307c84f07d4dc68727c20435846621aeb), (0xb261a81bd342092fc0134f44a0bd7b32da55a6206479dbaf628331f6b0653d07, 0x21b30b59fc0305508a54f809b9a0d70bf1628982cb39fd056309660809ce86));
 (0, (0xede205ff5000f9a9a0bea10227686f38dc3736202de6f096f9199496027aab77, 0x2e2de40dad400cd166d43a8554925d7f3198cf76a2bf7baaf6b07bd62129e7de), (0xb4be719d2390500518a03d731ab05ff53b04ba22c12cb540e672252d888c8717, 0xdd0c46a9510f07bd67d362f2eac659e20cffb9ced384720b3b66eae9c3973c76), (0xbfc0624e52b4d3c3a99d140abdc9d5e8ffcc69edefdf7396b587d5d95e93c39d, (-0x16f48571e42cbcd31e0fbd2e0ec91d66ad2430bc02fbd0b358ca3097050541b3)));
 (0, (0xf92836c5d54f8d9a904394d8e8cff4f6b5a1512c222c27968e1db5b3ddaf22bc, (-0x9949aecd894396f1bc8be1a5c42e6dfd1cdd8e3a800542ee8d6eec4ce055255)), (0x9548cfda3f3c28fe1d8044a560de46976a0e9e259f0cefd64252bc4ffd9d246, 0xf27f40de027f79327adb2bc6eb450335abaf8758ff567c1a2722434ffeae4d24), (0xc97a874acb86da7b98e49de5888e30f1a67e36fa35934956e3931784ffbc3331, 0xa6d4ec97a996296c6986b8dc2889482b4c54c74b7c7093f6da97c2475d5684b2));
 (0, (0x37186573ceb9c81988cb65608c9aa7da1de31b81f8dbe15ff97ffa62ae963057, 0x55b3e3487cd2e5ef3efc952b379c02b08d165ef40af9b784063657d8d9f5f1be), (0x58c0d5b6c1e1a7a58c71bc8ba68b2b995d37c78796f4d9d6304bb03062b0cc3a, 0xbdb7deaf0bf2c52774e7d6fccb70a39442f9d7a518755fdf19e35032f044625), (0xf31ee458299714b25b28f86e7362ae7aa737a629eea0e69cdcf31fb6fda4ce84, (-0x1117d5403d416456779ee3b509eae6718d60d1e3120faef0fe1420d94c33492f)));
 (-1, (0x60fcce0e1ea245a76c9db2426fe651fc375b3764ac8d6596e7a1093ecebfb028, 0xc7faa737666eb105ca9a4ef95142835c635e96e8f855b78c22fbaea6dc83dd4), (0xcb8f3102adbd948216d81564b1d02d0fe3976911b919ace0fe8e831578a3f498, 0x24be9430e8a0bdcb38979c75eb2991b28f6fb310a1a63f2442404059a911ec0a), (0x5f19d6d70e66f02ed40759a692b3a053d85ac812bfb71c5d7449d02d5e42ed54, (-0x2b7ec1c6b9abafc71b3cdc88f1fc88e2eec0219738092c71d31c37e311a133f8)));
 (0, (0x168bc543badda9e0c563b7b1e26bac6a11c54612c5315aa93e640465e9b09f57, (-0x1d4d4ede9c2b95ac28744d236f3c44dcd25899682c784af5a34e13278f70820d8)), (0xde75f67d8e75b617cdbc5205ee1ed8439732eef0756a442eed3e2898534da76c, 0x1fc523773ac556d9be5341836a48f3707570b63d247f1f5f59e2e5a2a08da1b), (0x67af8d40984c1d792c36c6126129571bca7b4604d351d5fa30c9a6afcc55d430, (-0x1aa26d65f311e324f428f0f426c0a0701d47e6849d6eeb1fb14ddafe9435170)));
 (0, (0xd86b473bd837e7372182ec60c67f71b372a2250c58197499e172f3f9a1133e5, (-0x238fd7749ee931ccddcf5b70b08c019b622c13b0e0d88faa61b7d0572c128e630)), (0xaaf57a70dd111f24d96b456fa7e0e0f5ef7926ced5784d2788a4330677fb4879, 0xb6f535299cb754d4b3467cb72c65809c9f0afab36a812216b0ee4d487ebaf8), (0xb88194ce506d7af5ecebc33b56af23a91f17e5097685710f50ac7496e8b9606e, 0x2b89fdb33b7ec851416ba9cfb03109c1c812248465850759dbf4e1b2990330f));
 (0, (0xbf0abde369f7ad032103cd01a97abd74b9c0cb51abfd4725b20cdc9fb5d92b6b, (-0x431ffe21d42d6f9c4044f583d1261a11c0a2403aa2ef4fce8e89eb2c00779b91)), (0x8920246ab163e902ff78a11102a41c8d3eae5fb6608fb8ad5d18924c784f4d68, 0x8e9107ccbabd7000fe12ce0c8a8477a6a95f4c01ed9a9e84f01181c8b5f802d1), (0xcc1cf453bf96d9961d1801e312aad74129dc3f4dcd72e8085c4a13771df54f3e, 0x193f969c858301db1759e7a1f7f8e88af8e961d5fa05464ae3b7a29507f9c4c1));
 (-1, (0xbf8418e9942c093156fc240154633f46f1f7dcff32b1a72dde7bd1d2df4225b9, (-0xb81dc97fe23986c10ea9f1cbc7be7dfffaca7cf647afac49ade24f63e62adc6)), (0x8a0c182e7b00637feab82a7f9fe8b329ce6a8dfa49bd61e37ab0c36116c02a62, 0x8f4661563e6724086a52e012f0e2daf16563e424806dad43756b22b2eb4425e1), (0x2632030386beee2378d3556f0d1042662f15051b15784d5f3aa40d3969350263, (-0xb0849fba837daf1615ba9abcc703780884472764273adef01dc954f2e086a5)));
 (0, (0xc1d1d63fe0c08d5f66a50e2d9095e293a104c4ab3fc5b56b59159eae7226e50e, (-0xa57d19ca401bd61f227519657eb1f72ded851d8ac1096821a16820c79a4dedc8)), (0x20cddf2c8eaf1910e5103e12e33fff144343c587ebdb0967e414cfcded360776, 0x92be110bd87e2b42fefd15ada426478a79104654c7b8d539b8a134c4876ca396), (0x6d2c587cf4740e6e7e3fef49553696db6181092e3903cfd8bfbffb390030ea13, 0x4fae2cdb4418752b82099200d83caed5d92f689ca2edff6afb5ddf0ed494b82e));
 (0, (0x6926556c700185ae0e2eb3d8da3ebd06f945e70e3e612e483362c1994909ae5, (-0x70166e52f6f80dcca2ff405b29179f57f6219f0512388d69842b1590910a432)), (0x80e59545b2ec221666fd2aaedc280c82d811b4e22e90a23198945ab64f15887f, 0x2b3077d06c93b06c2c5e3aa6dfd14c649ad103574fd43b9556288cac9cbbf2), (0xd5cbdeb0adf6909ac6d4c5d01ebe7dc422612dea9473e697c89fd0cdcf1cf0cf, (-0x27781d45eb1a875683d999816e8bb3dcc6aeeef64472339783a807729817641)));
 (-1, (0xd51678e7c3b0ebcbf22124306595f8d04b2b4e18c1b24a8daae5efc28848f901, (-0x5f43aaa34cdddc174d342a608b3669d42636a409c6136859c2faa78a920d3a0)), (0x11582b1d71ca67fe5a48b24c64cf0a9a8020bd07373a79b751647d81f317e015, 0xb15e672aac94241283e882768f95301b8a1e5d029d2bdaa377eb703db2831d3b), (0x806185cdb36d80d34613298400d2988951dbc52d4b8d8ae83d561bea2059bfce, 0x5cda7429e54a216be9af2a53e94aee1e82caa930af1a6b973773a503f76626c3));
 (0, (0x75dde10e2433399dc3a4f29b477042b5f7c4e14258dffb4e9889402cc3ffc2cd, 0x72b13221e97cdb41ba6adb24ec0bb0aa1bed5c7af01c99eda85a3c853edd640f), (0xe1b28503173f00f4d1d47f3ead461aff1593d9e22d17fd1102a3fefeb5b3766a, 0x36449005455b2f85b538a22a88bf6baa00085ee66a92e3f3af365fae301eb97b), (0x7bb1cf84a115288a741fec58cae76253813432914267c59c1beca349f2fcca96, (-0x5fede0407b484613f0e5c620ef810a139e1951c6338677f12b21bd88b3ab3a9b)));
 (0, (0x41c62ecad0a6b6d6f755dc344bcbdd737d0368b73f7870d907a374f3dd3137a4, (-0x215620f3fc508bd720b67dacea361628aa2ba90cf5b531a23647225fcf6ee4544)), (0xcc9ea4c2e6245e6a5e4c3d949a8995892312146b102236cc98931d80d80b861c, 0x10e63d2f683cee65d8fd5473514fb8f32c0afacde3be38b2d769b3e46ba14be0), (0xdae5a143875f7a3e6877e462d659cedf3b2619e1896c46b37a5a662468b533f0, 0x56a5d2a0346197dcc91e91144c3fc70c142d8a5cd3093c0cc47f479f000ab2e));
 (0, (0xbc098ae79c9aeaf1e30328dbb8aaca11926a093943b28fa40aa94e8369bc0666, (-0xa91614270e8ea32d942db277324f42d6be8dd8d05c4e995d37a5bbb5417ddd10)), (0x588d40d88c8104a0ffadd055e9eff86da3eaf8a7b580a70ed1c072263ce1fc73, 0x8a1e045f3dab125acf1c8f98fdbe859357b9301b667bfc12ded9474f27010c57), (0xa40a377855585ee5a2c32b0ee013f89462244a4a1504d799f775fdcd368e60ec, 0x554118f6ff9f6f557496d45d63d45c77fa6f1c258e82e98f4d44af6eddc88ca6));
 (0, (0xb92963ac9f2b198cdf3520cf1ca14d3b805fbc0d6ce46f480df1bd6485edba9f, 0x91678f9eb1d1340ce09d610d3b7a90b26eecf03773a388207243a2ae25e1c463), (0xabe640339757e07a43f640aea21ba0da8320ff0ea30c13d0da3b423d6eefc174, 0x85ecd8c092263e3d645e235d75a05f75875b36224a93903d072129ced5742549), (0x4ca8928d01fe57285ce8e7ef04f95cf273337346c9bcf72df70f7482084e1f53, (-0x3c48ca3d4ec8168395d2a53381c942f9c150979d2209ddc2e8c59b9f4a9d5a82)));
 (1, (0x3ef56b290771b08a177ab209b1d4e604fcb8e317b3a23cb9c9dcb50b98dd2173, (-0xc55bbdbc9d442a546b1e2fda486012af9574ff33c17f4c4fdc46a1f5f34f917)), (0xb56030720e7127bc4debdf4d7749fe4873fea34567979a7ddaeb846b87698c0d, 0xf7bcb2e28fea3eb37e5c5166fc23d8159f451095e7a442006fc3770234ce070), (0xb2515e223628fad4204457c00484dbca2ec3eeef299b4db1c8966ac8e0858062, (-0x2549dd988d83b29870b3e2a9db210ccb06746a515056d896da148cbedd44f90)));
 (0, (0x972a400bc07dd8aa6b62cacbda15cbd3f81fc610f12e89f11b49fce433d6c02c, (-0xaeeca0f8a80ebffe77f412f92857c2822ca1242709cb7d9153376e8d729e62a5)), (0x2474624705a382c832ac4a36ebd5b2fec4cfe9098aa008d287af10124195728d, 0x5942de86f0f57fad2a7c9eda94edb57fe8b923cbeaf76ff8ecc10f78a445da67), (0xae4773071b6a68a0ab76e6adb72689cba75a8c884101261ff18477791698c78d, 0x5593018ccfe574813725530c2e9aeb4f4a3f0a4774cfb2367fd7e052628a7dbf));
 (0, (0x11d20f5e4ebe34be24a086fc3de05989a9c6f9ec6831089fc294bfa5d72cfd00, 0x8b0adc4e16e47ea28ca9d718261ce9aeef1ea7e0b02fca4d54709301929790b), (0x10814107382d83f34b46ff1481ee11668d411c7640db7a0ca3361c695527206f, 0x13d9267be1aa307fee6e2aedf2ffd1a9823cc652a2e4550e678ddf560ec6c39), (0x327896b2048fe679f0f33190ac384bc6d96ffeaf867b48812a11d573028408dc, 0x16383d91b5739dedb485e45f40a643e762847a959f7c149db8d089f0639db19));
 (0, (0x8d2612ef65cd4b36f93af6e70e160210b58a590595b2ba1eb49a335b266b35be, 0x34769d19adeb760bc597233f80d1fb4e03993d24949ce1abfdf8881693b49863), (0xfb8d9bb0d8af904696dda6962777333d840f14ac3446bb4c1d52492444b8010b, 0x4dd2f685569ce7fcff3ebf2865badf4ecdabba5a9e20f86684ba9149f1bc1cd5), (0x6ebafee6973e70ce0e599885820c2f45cc228b72f043d4a76478aa9bb1c9d4, (-0x8198c3278ef66376516f602fab2a1ec817553e64601c04f9ff69e239b07cdf08)));
 (0, (0xe1093af6a93c0ff8d105e1712ac6be3b42398e84295f9a22e6d8b66738878a58, (-0x2e4ca4c34bfd468fd6b24aa044b2486b5d1cd775a42a6326b878e37c813bb5745)), (0x1f4b33652a2417a2f6f88a7d028721d15b9d762687eba5023e4f4886513ae531, 0xc5d139fac8682ca56576d4c92a35c1fb3cbd654ca29599b9b60cef2bdad50d57), (0xb6d6b02b3e80bce49fae5c5f399a74ca3c3711ad94d23d316fbd4e12e3fcc764, 0xc19e4ebb741e9a5cc0e3b67ec1b8e495fd0d52d331659e5a1bee329c12134fc8));
 (0, (0x75fe0ada55fdd8f7a8f728aae0fb1e1fb32116e7d905f73ed9d05a304d9fbffd, 0x9d1138f0cbc798fd5d258dac7b5074bc0d7b6ac4af40fe5dc09c69e5d410748b), (0x8e61bbb4ade9f665d494f53c0156c9c07b610378fee218f25e272af68bb13da1, 0x366232051c5274fb5210a26b00758eb3f6eb1855511a7834af1a76962b37c8da), (0x28edd1ecf34d8075d72f29943c51b8299c2ff043ef23a5892def521194b6d429, (-0x3333895d35f1feab9e3c3fd65872015691dc45e3bbd9063de9ffa2e10dd86153)));
 (0, (0x7dccb59f91bba13a3122525d019a4ae1d22190d6c3e216e4b250fbb862da5674, (-0xc5580089645bbc9517375a34ac98afaf0aa35d2ad5fe8f84f196c1adbf89ff55)), (0xab8c5c09131954ea8f557f85911c282bec10bbed87f7e488108ee6e80e446a3f, 0x3dd18d0fcb7c860574be790e851bf74d32ed9b1ea5f2c6aa856577aff68fd321), (0xa98871781beddd6b17cd7f6e7feb56c614df817dc4d2abf57e477b60e141ffb1, (-0xe5522f24a18882cd240980edfafba775783461df3d67aa953f80de3ba6b612e)));
 (0, (0x600dc5d7cb5b599c1c3443e3eaa21e15e404fd3c723185a5ee8d11af3776aa24, (-0xd9a5dcbb5547b2ffc58db84d735fdee2fac5fd391d4c3d5f976b6234d59eb135)), (0x7f28a498e9b5a91304cdc1f7438d907246077c9b0926a333923b97ea30f60fb3, 0x240a551f8954ff5dfbe6d8900e7b169b8c01bb8c0784e91b21f396f22234ba51), (0x4106bd0b244da0f0a2b5c42e89b7c2ccdc1694c681c37ac8cdd7d915a3f5baf2, 0x10a7c8288762c2fee5f59e1fcf8d39b95f37bf4ec04ef236dc4ba76d01faa383));
 (1, (0xc02974603bbb41e8150d5e0ebe4e8aa165c6b0a27686705155ef86c3b8ca195, (-0x4108f0d934898837f77b2bdbe7d9ab72b1ec4b860fcb820a16aba355a84b13)), (0x2b62d164e5f83ac422597e3aee35f2b9db42a1408a041c89dc95977bde708bd6, 0x903e3546d5535f25ca0665dc792d449991e2440383a7e0089e55d8037eede8), (0xad9a029cf336012c808e672f763994725f46613bed92531e226cf4bb99641f64, 0x3ee1ef2af791500482252da6668c3b6c2660e3a62c346c3d3733a02780f28a5));
 (0, (0x6ebb77265b5bb29d094cce76479d5e9d3edbc76fee41ad04e7891fe9fda769d0, 0x801f916141062f08f7bbfcd4354897e349c83681a74bce0404796a3c907d3e6c), (0x64f0d459e23e2b7931ece0cb86843e63990800576bf1f82ade789e4646ae751b, 0x2fe5a3ac4000f424654aeebb8df7178f0315fcf7d5c999af77881ca486db2c17), (0x4af228b7c3e985c04c100657d072ac72635dff05efbe83590167b4d6d4a8dd7f, (-0x18e52acb1058bed6c5398de39474cd99518aa9870fff954e3b13a706d057817d)));
 (0, (0x735b487ae3105eae81f7e6d64b520d25047b96c5d5f3410a269f6384ec0bed0, (-0x732e692c50d42993753b19b2664aa6ad7970cd46f31b37a11fcbcdcffb6170c5)), (0x954ea0dc9ead8ac40b1e72e6319f26c91c2aed611431b1edd9422d540d77b134, 0x33fb23ab03e37d6a83179007697853866ccd7203e2d23b08c8259e5076984a), (0xf66e0de79573e0e6bc7bb75b540cf4d76e6eb8a1f107bc4d2285a49372dff517, (-0x15cb61e8063d82cabdb694af9e7d2692bb27b2d21df62da805618fce6a041fa)));
 (1, (0x39423eb5ebfc5b7a6ca1a9935bebb9c0e75897cb5b99098eb119a8e73a6daeeb, (-0x62a3eee6a5b7f78a2f74c4da39c2586065f9e63fda5c6bd8cd25cf46b5b253b)), (0xb6ad9a1a530b2767c04b47ba9b33b06633e1f1474c75014354a61d916d758201, 0xcce91116840ae717831f151f6ce788ae367c83300ef3bf2232b1f66bb85f6d4), (0x95cb172bff2eff121091ee002db768a51322b2e47bfe4b83543e036ea8c39b00, (-0x776c827b6579687bcff6c038238d20f4cf8e9530605868c65fa6ccfa487829a)));
 (0, (0x3cd290154c496e52aed079fc6b96e5d94bdb9247bac2d64baa65c8db626abfc0, (-0x13fe449d92cccd58335801a026f8dfdb75cbce3cc2abff27e9da461c2597f946d)), (0x89b9cd1de1fc37cc0ef392c0a0441fd38c2fc699f9995e7688be10a54cafe11f, 0xe7360baafcb8bc7f87d5402de7de0056cffa2175f8a98b5b708444f09e7a051), (0x258832a270a3ca1cec5a4f2726a38f47541bf9a02861604b97373e1fe339acb8, 0xaae1d563247547664b4628ecc6138b056b9ef5148f7b5aecac862593acba2b8));
 (0, (0x1dedaca242456f4920fe21e5d563eb801302c8c4da1e96b7ed8373751c9f6ff1, (-0xd582a0e71a19b6d9e1e30689692f0aae5291ff665ca3049913ff51295279069d)), (0xb62cfd7279880c2ae6a710cf5c05623a877da3b4b63762f4c090d8fc5b24ea7b, 0x37fb5c5dbdcdfabdd73a752f7e4cdf664ddb274372bf415722235c00755bc58), (0x1af6a34097c734b663a984a081c7c563cab8151e26ecf0883086bd2a6495ac0a, (-0x5325116e45a4fb0add004e14883a57f1d85e5fcda08f6c33d163d9b0ba82c02)));
 (0, (0x30e6dc102ae050e0be4e62e9a378c3832aaae9b49854652dea1a6c264d0a106, (-0x184472ee88f211ddb9b482bbe1bfa4c4b4b8d0eba4c18c5a22828432cd708889d)), (0x45c2c879e0a452fe907dc82b559fe51ce105b74351a52152723e6b59f4d455be, 0x95762b63a4cf41c896e1c373e38f25cd5cbe9d4b8fe702a211946b4c72990), (0x52dae58dc63ae38999e1080dce6827933a7e5bb7fa8ed0d3f0d0174ecf19128d, 0x157949fc9300ef60f3033f930591f31f9e076bd48edafaa2e1cf668b9a1d9d9));
 (0, (0xb4072a9089e59d4782051600332106b4099fac75861c15dfa1a59b935e6b0384, 0x3b80b982d4ec3265ca378884ac925952d1049fd914c4e58f689b1d70ee5ede64), (0x5af24c28f8888753e5b2bb04efdcba5b5246c319148abb02ed528382cdcec9e2, 0x7e9a140e9ce62e95ecf43a9cb892e65517a81e7b8c01a5521c632dc7c32afdee), (0x9ca4bcca0849fe953ec90e8782c18b123df569bd31d681240ed098eb391b938, (-0xee600697854566fdd4df227e7714b8e1a695ce38981dd5efcfab638ceb75cbb)));
 (0, (0x6470143da16a72978388174a3b129fa288674c48b056eb4579cfaa5b1621ddab, (-0x593f2adc258df0fe35c8caedf8adf803f5c369040e4c779a563b264c4c9fdf04)), (0x57c40f69581da982355b2141f761744c83fb9f9e2f8ee8d3cc5cf70a53c7a346, 0x2767c0e1dda216b997bec26dfdce546e033e055450462012c74f9ee327361301), (0x515397fc3ced1b661329cca02d0950e1a931ceca33f8267c9310937c576632a5, 0x13f7435cf44c65eab9bc149a23ca1acdea3122b51de98e31c900c36499f8259));
 (0, (0x256e7a731b48771dd097e59aa97b713d754c48756a95602399e225c60336deb9, (-0x427c2e5146b445c9ac9d0a1952093131d854ff149700f1e09d052580267d51ae)), (0xf97743d494e8006972e33742099e2a74760c62db70bbeaa5547434bffc09f0c5, 0x5791f12bb604e779376f825b7692294ec2588ae1da93eb2b683b47b2a9a03a0), (0xdc78a172509a5d6ca65d0d6a8bb3cd996d7313a9067df78cf33477598af89a16, (-0x17a4aeec2194b0d0af8f1ea7c684839c34400bb055eb377fae17b597620c3e1e)));
 (0, (0x85b38d6c31e8f769e33493fee12df64cbde65adef0b6bf6dde2c88b87362dfff, (-0x1f3011081369f70189bf8bea60af5cc8a7fa311cfc8b75b8fc8bb53fef9a433b9)), (0x2132f58151ccc1cfc1a260c5f7ca7865968d69303e89ac69997f8f7f79c9a55c, 0x45d40ee17f4a3992cafec5a553cfbb7c3d4486f46190f7472a30e3fbda06fad5), (0x3db17780d505b30fa02e773bb12fdb9c820410f8653cd992462ed443c192e944, 0x70f32bed0c33dc91365b292829ae74ab5f3ccd7d93c4e038e34ef80f5bd81253));
 (-1, (0x927943ba62315786a7273ea0c5114737149e73571eeae31716f78602d700f549, 0x32a977c60796798ce0c0404c1ed56c89ba1ca67906034cffba3109304b18d668), (0xa499acadec10a7c330971c00870b2d6281ffa016a349344412a688f04df47fae, 0x53ce8ab1b01c3192fd204237bc03fdbeb530454aaf066715e0fc0eca73e74a01), (0x9d79b38f13cc2e9736e301fd3823bb9a4fac2407f053df7488274eebbdba6232, (-0x4b2ed2c791080bb988428271fc16fb693fb402dc0ddac4ea55c87c816cc5f8a8)));
 (0, (0x3b1ac05e35c8fed6bbcbb6f59f24ea19a739b5b39b670111e46eb4a8d1946d10, (-0xf4c8c2553768c0ee3f277259d09f5ef2827fd4400dd78ad0ca8af64df95db534)), (0x4049debb838a3b3990937cb31d5ff4b652b90dd084a72c8110da6a999aabdc81, 0xda55777107b05a3c758226df440bb55f3a3739d4d6ddb0cb3a5a990e96a054d), (0xa39493c7923ade55d89649b13452b424c8139ef8c6d86319eaf6785ddb1362a1, 0x1728dff28d8c4de9584670dfe47454cb359aca2ba34d0e1ddaae93689af5b893));
 (0, (0x4080a9034af6dab136e9ae69f0a3a6bfd5905e2e3622fcb7b6a1e50ec727897d, 0x21ffa86a519652701a5cf3ce3ac98a1d21bc335dc5537b9277390d923f065a79), (0x31036b3ebd67f2d637e3b60e67401ffd58b9db819cd234eff72224f4712c7e7d, 0x1040952b185bbd3811268002af2b5b5dcb4d0e1166a552032a13bec8b906b496), (0x589756d8e66fcca95359d31381ba28a43629d95b4b664cdd9d6800549926a8bf, 0x3d94a2ea47574a19889ee02ada351314c2ed4f1447983583b0d6276d20a3fac));
 (0, (0x77eacd2f4ba792ca6cb0255336615c4b7bcce2b0bc137bd4855bf3bf29e5f92f, 0x36d8481e690fe9f9b54cf36131ab97068c92d76263584e8f30f4613bc92932a9), (0x8f7ef06add7fda4783c298be723a760529a0277cfdbc8877e15fa149971d9f05, 0x382c221db740e0b7ca162ad111176f28dfc87e7163eba1d5a6453b6c20ed9cfe), (0x2f06ae1812c6f89fb207b95ce948a63ea6f46ad2cfd7b2c30e414585588dd2d, (-0x2c4213899b7e440135447b0f50b2b660f9a378350720b2f4002cb6457378ba5c)));
 (1, (0x775ea498cb36a942923b76caba341264751e6de02174b9bbc570c33fda8660e0, (-0xa248acb9f5fbd5ff043ef53421c433a888bd26aa39bb982a79e131266d4b605)), (0x9f7792dd772b8764fe9c2fbcf306262e2cd434e9b005193859f03e90a1900801, 0x37a9200356f62d102becb2a0f8b6ec8499ecc8ac2cd3421e12ded1000ca4ae3e), (0xdbd47183bda1c1c57429853df0bcc6132e89bcaf43e35d2a87e02576c88c9175, (-0x7727b13bbe2aad1ec428520fa2871ddcbd474a82ca406c8a4ccf24f371a147e)));
 (0, (0x8ffa16c494eadc028ce05eeebe21b20bec54c380cc1f6b144abffb0b03b9e2ac, (-0x32bc6801e4d01e4f42ce06b7bf9774387674d26edfc8e99948702b6a84498c25)), (0x95798f6ba0bbdf46931a6e4786a235742605261e5c32901bda6450df4f2ca23, 0x50f959c018579d0d4a6f8a404f38bf13bbff814fbd8e62aaec71fa0e915ecb85), (0xc335ecc9a664374b68fee5c8f8238fe82fc830a024b12be245d8f9863c5e01e1, 0x546e852bf642d232eeece1acb82e29f0144ca6d3ea2206b4bed3d2cd74d7b4ce));
 (0, (0x2ceec9e369008d91df5aaf1bf59d53d56a537b8bc69f3cd7bb5cd284b91435da, 0x4380e15f1335e8398152100cbb3fd4c93407df2439855128dd05d9bca2026f77), (0x26ed0a8326510540dc0519846136ba8276c7644c91ebb7a66bc604fc1c1065aa, 0x7e2f4222e265297a05e0e5fadb99f6d7bff8956555d368a3bd1ae47e029068c), (0x6fbee2e0bb69676aed4ee09db46d62cca3c38097c2c841cd65fbff5c625b91e5, (-0x53147c850f5dd1e96a012535b39969eb1c9e24e3f121ce9ac7ed98b1b0ca904)));
 (1, (0x928b05afa8d41d651b7081dec8665167ced6293d287e5e5550ad207f9f7d90dd, 0x2f685ff97ae95a6c8b0b8edf0832d14254afa4511ed4ab3fc88a374877369acd), (0xc70f3a1fb5619737b8d640f5be36c71c0536e8b8f86d49575f27d383c6b3978c, 0x53e2ddfb89739cffc99559f2743fc35270de51f2f6af822ac6bab415c57adff5), (0x2598e9b50afb389cd7f2cb6b816128ff92cb19aee5685b8fa569d4ec40d95903, (-0x5baa7545af80da0073bba1d33a549a433458c0fc9ab2ac2d29791f0b0f996a9e)));
 (0, (0x6667d2b6cff85395360b2392b6ae75001eb7945cf07cf0ec7ed2d4fb4caab05e, (-0x1b245aea2945780791f5b7c07a14d9cc29f9d521132135b42198565e187b78d44)), (0x8e4fe1901688036d3649551fb96981312df4455dc1f8174703e344e8c2b1b827, 0x28f6e604ea45ac2df04d8a30019e1f0f93b6e278f055ed487d7bafaed92a1ecb), (0x1b628ca84707f13176347f16d23cb6393d8c1cd4fa63834fa0d0c569b8a18e73, 0x16b340fb57dc25579a0d9fe4465f9d0ce19b83b2f6db8b8d36fcaa6b9cec6260));
 (0, (0xafc4a5cffd8a228b9d9626a617f3292f7d34fda11fe114ef6c116f2b68d50fd0, (-0xc7bb56cb8849d214c6edbad2a6ade0ceed0cc3d1a2207123f247b34e8438f67d)), (0x8e5a1493184f70e517d6d82be9efa952368897ff604cd9c67df08bb1b8d4a873, 0x78ae71c0ae84dc8fd842c07fe261ca6686f609dd5a79868ed2081cfc34e8f8f1), (0x8bc416e5e91a207d31fb981cde1be95954375bfb289c078fa386cecdba2414d5, (-0x700b4b7aefa03957fa21077ca4e97b67a61d2214132970ff98df4c6041178)));
 (0, (0x27ddab63600bf1e303c98b6bea24d20431e8995a3955d3c15b62808c7ef398f7, (-0xc1f060e2e90a37ddb18b844addaa8766875beb73e6bfb2e56a1c766b4811811b)), (0x9bbd289a7ba72c2acf336f90b896f9d1b43c836279ee545f00cce4b931bf6b1b, 0x6354a29a39561362f874512b8b42e28465d99161f6847fe43b44ace30257eb0), (0x64749880c61519a64c253d57dfc20050aa77e3f0cb16b960af2918f3d9225ca6, (-0x215af8bcb3a95e6159df8d2eec8f63dbbced3b22868d0389e74b2e3ecd943dd)));
 (0, (0xc3e976412b4f1b60ad5568654bd616e3cfbf8a55413c1b402dc586963c2ad2d, (-0x1129fc33a1e37968e478880059afb5eace7f690b907926ffed2856ef9e13c6c01)), (0x9a0757bf6a289afd4354cd56e87ebbceba18bb322fb5fbe72c3f5b18809d639f, 0x95ed7f0fc13b7e3910c855097e5bccc9886e89fddb7d1e881fa090802c382c), (0x315cd1cbc0b43dc5b556f6cc725e1a5b7e0eed2c474ce591ad403ec006134a2, 0x14f0d5c336f67d6adf543e21c66f0ada4bdf4856ab67c77b1533f3dad0f7bc));
 (1, (0x84a3ed38c044aa3589efd61baaaa1d348073d1d03713f7e174181e7cd8fb07b6, (-0x10ba48c1857b6b4b5379e772648f7213acc7b9e1053b509544776fb670a82ef0)), (0x7f1c6094662dd98571c734ef2fafd8d3c68139a88753b8991f2ccaf59160ea84, 0x44b9759a785dc78bc805a6c4c71bd7d12882d0d2824ad7ee9a5f58065c7903a7), (0x8c507adf6303619bcc46830e532dfdd18cf87afe2989ea8b928d39e475269c6b, 0xdf263ff0ce12a328eff815b246a0b2a2e13c2feeee667ebb1da6c7dc3865aeb));
 (0, (0x1957d5a6bfce9b5cd516d1b4d73466b5e475766e33113cdae26732fbcd9c758a, (-0xa18f8001aa90d284eaf77c97b7aa5110f73df69603282098fa04ae0b9db1c96c)), (0xb9338e71f6385f6fd64d8140e77c94d7483db2e4eeb903dca01787ba59323a3d, 0x28245dd7b1ba090d8e734071b29efaa7501563442f10bb3bdbee5a387fe6011), (0xb34946ab788cfaed480661acad9983e76b37f70e49c6ee40c39383f11ea14774, (-0x5c031d659143e4bdeedfdaddd3eb234e467e2aae87ef9c004ea1bc45474ebb7)));
 (0, (0x59e31de26486a06a4556f3e49440acbb7f361435611c1765c0040c07127bd912, (-0x1140b99d6117d5bab51c4e23cb5e53d01a69d042aa5c9a765ee06d19da23577a5)), (0x40961b589da0a151b9780b671066da4046d94bc7dfb8e41b180dc2a1cf9c82d7, 0x1f8fb4456ce0f54686323140f12dd45533101418bb3e9322302ddebf1028857d), (0xf48a7d714f4f8e1ff635225d2a13f69a4c2ee958e98a9fb4f363ab35869710e9, 0x2a59beb55facba0412e5947c5123bc3ee71eaf9cf20c7eb75160209ebc999b61));
 (0, (0x7bfd1dc87b1f99df92716f94f5fcfb29586b07f304d9b392bb70f10dded5062d, 0xbbfe761c1f77cc6be4d98b4d37ea81f702f4804ad71edd627440c617e249a679), (0xc7c4b42b2799122430682abcf43dbd562cbc4c4d8e0252435d3852180de3e169, 0x3c0d34e2880ac338c014ebb5acb0e0dc0e1a2188c0b1c0c3e28225d97c07e1ce), (0xcced09e89a5bb69d56c3578b1e3bd2af9da07d40346bb7421b011ef43f314709, (-0x41790c3455180a2c200f670f33b0e03d3b078fb3af563e5435e505edd3cca324)));
 (1, (0xe74cb775766be572e112bae915b8876bbd6f223c1fc2a38777303abe7f9c8cd3, (-0x467f11dfbae1e4b0d5d133ed2f4a0f2e0b05bb5b832645fc926c698c2fb987ae)), (0xb75c81589c73e683c738e84d8cc26becfe15841929f250d05c03d59d91e7447b, 0xd0fb8a136cee2d5945d70e39a51c24405ff2868d6a4a7e2793abd922eb69a223), (0x4b5eadd9b4e86ff76d2b735bd1d09fc5631048a0446a5621374a9d9789351a1b, 0xed2f08d159a86c6b9228553c1e6b8481e1aa4894225ee94d42890650356d1da));
 (0, (0x43254d05570ad10c40e3658a916c3f2d1202fb5dc186bbe53d00e7c83a47729e, (-0x16276a1556b0149dc57713e7857edc7254811bcb19e18e3ba98584a2d0ad8aab9)), (0x52239f257da15647c9d7ca838a88072506b199bfda120474d763e7555d9e424a, 0x119c8bc026470905dd47acf089e8a89235eb8ba0b3864967ee299b5e48e0f0fc), (0xa1b90488cb4ee0ae06b9df87a45149c8fa69dc7660c3e5ff11d01bed2a5abbd2, 0x1a8ca2e04b04f733f9f222284b27ae9b45626e9ce3ce22bbd5a45172054bb57f));
 (0, (0x90f1e726fdf1ce3ed27cd3e4483e15fdafbee3865e05592795306e47ef932053, 0x681142c6d53b0de2ed2f573a348bbb1dea36a4292fd99b533e579867ac6b0e00), (0xe99b94ae6b5206a19017efae0e2968504bb647316dd0fcf21ccebc09bcff1a98, 0x521108a0e5d18d87c0fb2df9ad06f3cbfc9fcb8e719427a8e1a11a26c30a6fd3), (0xfaf39e49f13f1b6de7ab104df760c794ea44e02611675cb30d1c9f94c946d80d, (-0x55c29acf7c38c6f4675e3172e486a248e9437d76fd9e05262635738ca4d01627)));
 (1, (0x32be22c9c2f8302398b68089f646e05e5acfa2c08fe5966067555f7d5d0af70b, (-0x162c4861155cbe50e90b3f9f1329a95bc9aaddbf4ccbdf4ce4d1abb8e8e2eb45)), (0xef16badb7e8f4d68fb2e0c1ea982a3256fb2aa616830e34f75bb04fcd94e2d32, 0xa0ed2ce7860920307801f263b31998b2831fe470c73f8cd2a12715852eb4d99), (0xf0db0c04aa2263abc02e6b7138e40e4da05d29522781a6a6c30d6561885c1d41, (-0x1161f99d025d882b7f1a0805bc67591fa2dcee01ed9da5e1779125155d04fd4)));
 (0, (0x28119cf248cbd3fd29e5d1723470c216d9e93ae3d3b748f69057987ff8075d22, (-0x2527cc09389ba88e065c58de9f7d7fe8042cc1bdb444faaa2e87c39dc587a9c78)), (0x8717d29f615f71da951591385eee0e56210b560a65c4b4ebfc9bc62251666b05, 0x6458241ef258b576524013519ee652c93d8e1be694017c68a8a8d33d9fbe0d5), (0x5399065857a215ffeb3284483b2de9f5651e1f33bbbde0bef191a197773333aa, 0x1046fbf8929c13a996abc71ee2bbba3b2935a9dfa58e149735b7560783c2b021));
 (0, (0x299a8aea700e2d75678f7f686c8bdb565a3adaf7b5921b1d0ed35aac60a42eb2, (-0xbab27434d5bebe9d2f5ab8a80c2adfb2aff01b553a726c1e5a5a18f741818c8d)), (0x26270d0f70abd5393a28bb704cc93e2d6f4d521085444a272b585ce794d59d79, 0x6c2ddca8554f31ea066a64c7fa043e05931afe0be9d68cae925b981783b7e8f), (0x3f9c6c689449cd79fb399e92ad48da46213e22a697a1bbf5432a8386481d34b5, 0xfc1151577267245766653e26c6287b88ba7326c6eaa81fd83acd5e2f40fb957));
 (1, (0x192bdfb7b2f8584bde750e48bc87646a684ef085d28b40e17b4e692ed4dac90f, 0x8381b34bcab3c979be138778338165b411f73ec97429d028860df70cae5b492), (0x2100ef3d139c90f1089b03d973b2868ee177871d92d59e225257c20bf31e8b3f, 0x2799936cc2c2e4a80f04dd9ae4cf59f55728fd7e1d1fe44afca5aee5caff13f), (0x56f8edcd92152e5a9fccd4e63f95cf7e95430aeae6c00a605be5af522eaf9c1a, 0x819ad0733f2f1c20bf15f5e6171046552d6453df8a66c7729cb06eb474f619));
 (0, (0xb126339b7b64f1d578782abc6b8134c9cad9ae815f81d219dcaa9d247ce72282, 0x6b9a74c1d52bef28f9e612994c6c25248514eadeaf6cb88e7b151dd3a5c4762b), (0x44060c9172398883b32ec562f369d35b8b0bdec7b5ca8dd2187028b237b5b2a4, 0x7a95d9105d3189f9dc07fd75f4209e20c3887535212473d6b6f8c1924ed70abe), (0x2cd90bd352724774f1aa29fd0920569572ce8455e01c5186326a3585f61d6ae8, (-0x183bc318f9c26793b8d4a30e16d2127d287fcb878c00cc7b509a13a188e76374)));
 (0, (0x16e83d439cf8db176e87aaeb547486ff0f155fa6b0c7e5b5f756865dcb38151, (-0x35b939a74642a6a0bad4a42356bd74b3618528a8e7bef1319f5773a6da8459a0)), (0x4fd92d80e9466eb60978174bd294a4b754fca4f8d98acf7a9c1912c01307648d, 0x20cbd36b830935f4463bd248721504163a117bd00a4ce53ad663365317bf4), (0x1772d42e75e4df777bcf2e5bf492027e42ae038b8e6c3e3bc692bc645e70b7a4, (-0x10edefedb99d43bb309babc0a5f1980a003a886958a079085da7ac4509b3cb)));
 (-1, (0x3b53fc48735ad9aa2e3671f5ec72c7f28a1fdd70e1459883d73b5bf30995300, 0x9b592bd87a4fb0fa74cba15c3249b6d9efa2c21c95a48853c95e1203495564), (0x5238a1115a8a6ae24b7aae769c5fa2171f7d749fd08a225339b98f2cb0e7a0c1, 0xdbfd1d6f4c564d989434a5719afda9336597b71d26b7555422b0bdedd2606), (0x3a35773a837004f7aeefb9a647d5afc5db0103a5cad7140d1557a7afa6cb2d, (-0x8cc6eb639bccc4bd59af2c1c66b5d2d07054fef26a84af72312e0786794ff)));
 (0, (0x38ee5af0e0aacd34fb7f89bfd1fa0df10d11376493eef17c201c76124a055da0, (-0x4f1f17590260ccef6354d211e795b68cc91fccf5d2aa7d9dee7191e45a6a6a2d)), (0xa1489a33d7ecdc5b749c049f53e19434c16fe3d63aa6cbe7dda1847c1f20c249, 0xca925b69a7ab7fada40caa72f80168cf04c71c7da14ef1a4fe6340378105cdb), (0xff097af163992526dbc145643618f319bdb94e4491a6efe0fdb365d25fd79cd0, (-0x11951b6f2b7084bbeddb2eb227fcffc237ab7ca62463cabf4061e38f09c7ea93)));
 (0, (0x42bbe508e3907ef66efdac7123b85e43cc7b312bd75a8df332bccbec8ebff655, (-0xabddf00e2ef2aa39d67e72f166be05b2b565c5457234012b3288fa73d6eff91d)), (0xa74c99accb3a83d5253dcb3a28395b440f828288699af17a8398a48471df6734, 0x11656c00fd3bde0013b75835271cb09c9aae5c259146825073a041bc05364efd), (0xe14f8ad73822f4165f12bce66fba395740735bcbefe9a07854c74c2c7198c42, (-0x191722a9513dd167ca23d1e2601cec87584acfa5720034d9aa17308cbcca137)));
 (-1, (0xadfa54c9d3446d6759faa8360dae4b593b9175fb51b1199b1110a394cb08041d, (-0x1ef5a48a84446ef18037b8a8bb812499601db3e615d648792e95eaaef78660ee)), (0x5657b63c1bc10263bcecf6103c95e89e5f3517b80406965677d2e4173d077557, 0x763c4b627dd02f45b51202e40e0c12e913c6091c36be0f3c9b63a2ab58f6d3ba), (0x3c4c91424159dcf6f96e4f8dac32d93bdc9b102805fe62a59bcafa08022d9727, 0x3704a7a97057814aef80fdb133fb79f1ff3c746fb6630b2e37f4ce1ab46feb60));
 (0, (0xf048c3493a90daee689a2b601c30c195bbee5f42084dc34d884b4ffd3090d537, 0x19d4b1f3d0abc6316adae8fd7c6d615e7f307ca7a86daa969ba72a8aa0915421), (0xcc5717578a40e0ab2f227cb0fdd1e68b855033fbfa89ab6bc3a6a28b26f8cec4, 0xe18882d7bbf930254bc5ec8a2fc2df6d937cf1c31ba0c18f0819825b00a3ead1), (0x2cd5b4cbd243ff7996308ec9d4b2763d16f82fe7e74ba7b3e61af09bcc992e18, (-0x6ec0f4e04f182ae79abcae9780df230cdceca6be52386cfd3db1bcf2ecb5c176)));
 (0, (0xa39f1b14d307d2e679ac4d93f61d84b54446f0035f2923558ac65d682e0129f7, (-0x1b000e14ea984993ac0023cd04ce1d687ac63f587e48e819d7325820bd6bc3620)), (0x70fe1064a3843b8ae312b4bd857c9ab6cf9016ccb2e59504c81d9389d304db31, 0x6893ff5f2b77807ec6e80665476a431e0d3ab7d1014c4aa4219d60948e0547e8), (0xe9521c9f542c4af535fa78e6ecfa00b6c340928a6baacf3eb2ca02821b49d602, 0x3a627561cbc4c108b59073350df69b68954f271a3ead491e0adeb695cfe8ec35));
 (0, (0x7c4ecc8c3da586ba2c1feabc875730cc3aa5b4fd06b403ed9cdaaff3d613a437, 0x4cf94f2882ef8b96ee613b3399bf9162ebac81572f7b3d874805b2eaed098997), (0x69eb13d8450cf201caf1e2a2662cc004b731bc331b4746999c454af01c6cc22f, 0x3c5c6e69249dba75bece2e087aefaae691a6991d52caeb1bdff802e5be7f98c0), (0xc3a892ef3e6ad536a3482442875a332e8e01053cb1e8a98cc4ea9668ff16bc52, 0x36f5fc3f1dca124d57b2200e9d76dff2df70b49217f282d76d63d1744e39406));
 (0, (0xb3a56094ee716be11f9ca5dee0aed55555970be9714d1b99e9656e40ea2f37fb, 0x8f227dfb839060844074389fd903a93c59452ff245911a7c67536e53092fc067), (0x7cd504ffe3ffe347f28b084539863b42edd5d2e19b2e4d72d11dd58fa4d5e440, 0x7e10afe5e9de048b848c7abc8a043505a04adadcb69ab8596f06da6fbc80ba75), (0x662816d80338075ccead90f5e0879c30c01b2d116a035545b2397537a435ba0, (-0xd45cb89ddf9773b40d6d64065d266e1f455c06cd61db2dcb69ea3dd1fcf4bf3)));
 (1, (0xf9468953c72f7df0c68c015d6540fc695c0e804110aa063acd09a377ab32cf6f, (-0x301da02d88bc01e2c704c25e2466a0c6c663078914278cf78bf2151c635a510)), (0x4f1235d408ab8fcd814d7a27567e7879372f18ee2ec1e06501c0a271c10e8c37, 0xf2ba4a945cf61792da7b2c76d756395f8289d73baf9c4fafe10c006da254388e), (0xe84f8071767011a0b69f5d3b0549b581ab8fdb4b925230fe4062bc59f7fa0a56, 0x2c8f175288f58e2b727794f58fa175a7d1eef1c2bc2493bfa76cbc6a50c7a0df));
 (0, (0xda965ab1f147d2fb6c7593fd2ab1661b8a7f6ee4b191481fc1e13f25d0b82d5d, 0x143738cf92d5f561d3410af80dde3df84060323917203e45398036135517e6e47), (0xc3070d7136bd4dedbfbc9c138324709c97d38f460ce0bd7a8892784887d46cb6, 0xbaa46ac57796acd57c6e31275795ce9dd9608dac09054296c515d5e1c687c96b), (0xaf758bebb6e77adbb367037c17c1263251f24df8143a59cac0b73a217f91b001, (-0x63029a26dcb4779f733060f328a32f25f7d1f887ab3707f0bbbb1ce4fda3fba6)));
 (0, (0x20a2e27d4d7fb539a5dd130e71c6d33a84a62a2a22f6f2e9bbe90ce5cdc7481c, (-0x190fe91cd50be4a118e2be7bf65d30ce5b889dd36fead397fc75d9a9d7eb29a4c)), (0x58daabbbf256e6d6ae3f3221048a99b5fd55597704e18ccba18ed476f0e4d4f6, 0x4292042c2577d1a089406700787f1c59df92755f2e5d54b8b01bdcc8b6404b2), (0xf5acbeffba8a62065c673e3a93991ee862335af329232c47c128710d4a8abb6e, 0xd891a3ba3542226340c6408cae0b6de25b7e5f422383b5de33d936b2e6d423f));
 (-1, (0x131637878125e5a2b67a1289bc94cead5d7039a9099396cf03e3c9549bc9c890, 0x273c190dc209749c0ae7e003e8374d5b2321b838282a979a16a701b88bdc99a), (0x280d3b20356aac445726bebd394700bb76747eb3b9df1951b91cbc74eb139663, 0x16c4e2bb48153d15ed8cecab54d84681d055a6ca6bfd59c07ac8276e3b47421), (0x8d7bee73f0eb10a79f084574aca0cce47da98e30e40da9cd639876dbe0bfafc9, 0x3a37b99348e5b93d16dde40aa9c155de7d42d3e589bd882b9f3f4851a8a6cd7));
 (0, (0x4a6f532de28d464d50d10e97fe28ce98105ee929503e208bd77b21fec76e2021, 0x3f7a49c98592efacd3ee71036e006d53f8a52011ef88ab096b96604095513bb9), (0xcd477af8f0180fa9dd185f075d37a98e06ea0042028f7da2aa3792244227dce2, 0x15a48c7fc3caec48b383896786de32ab5d138d2a7a92c9b1c02c824ca6b11bb7), (0x5e0ddb9dc972a09b97d678f09db633d92b0dbe318c3c9e175eb86bfb7b15bdfe, (-0x300ab065d518285accc0cbc7e2a356090039bc01d3a2c2543ef2ef47e81ef6ba)));
 (0, (0x934e44245e3b80210bdf43d0de369e0cfa0a701a911c26fd35016d9350ae1b20, (-0x181953ffd45b9e483d5cbc7ca30ef54d84123b26e260dac22446098667dae5eb4)), (0x5e5a48dea5262edeaf8dd9c38f31992aa43faecac02913de588a1a6229c553aa, 0x54c2fa2f5c8518a24742fb75b960aa70b3c789702603de7b4fdf5d365eccd40e), (0xaa934d76fecda84024de8ac4fa9034bbd4ccbe6c58e63f4ee68d6237a34e5e21, 0x3fd41d91208aa1f711219fb41b358ea3842218a1dc09f2b7eef912fa9b9eedef));
 (0, (0x85161b2a168a68d9034b13dcf6c7118248d06e5356409e92dcfc15ff7a9a93d5, 0x49073bf1a6354d68f590ad098e14ff78c18bd8eaefa73ed45b43621fbf273c22), (0xf768bf34742ed27c18271c6ba20ab615bb49e7b7e8cdad1817493f55991e6cfe, 0x452ffa22698998681c3cd64c6eb1e1f6532aa3ca9d176b87c9dbf12b6db6e6c9), (0xf1f5adb866944ac5c6021f6fd71d5ad96fa0b13e10a06bf327b64586c5918f4f, (-0x4f91baf67043bd4f80e4a0b7f55d017d8d59df132af6fed44a1112643a4e0fec)));
 (-1, (0xe8c9b3c13ce52f594af1e6a8518f8f9d482ccc28601b033468553131744cb98e, (-0x7245636114afa1e2cd8e1966e1fa2f19c74f7a791c533a52b73c50e8cd810403)), (0x24acef3b0812c88e56c024de801099dfa2b5cee2132723af2b257d4c46fcecff, 0xd3ae34ba0208d2bb9252a0be2b14d525e94b2988bc4d57c1f454cef1732e7301), (0xd32b682e40663ced376b2fb0b0a43f6464c14e874786a001dcfb40453f97f518, 0xbfa03de8b8f32a5edaa6af6e9733f26804d761abd1afc91d71d05ec6c7d994e5));
 (0, (0x7bb3f8a815d37c95d678afd675519f355cfa35516203df53ae3e7e28ccb035f5, 0xbc5156b8b5ee742e5c24bbf6a0c021b060ecb0ae1efe3ece6bb30ee69e35b4a3), (0x302bac3e91283fdded79e63f96f3e77d421db23aec291d1a509713671778ebc, 0x3bc66f77318dd81e9e741b187e8ba32d5cd80828482324e126c0685bd882cd71), (0xb6997ae1dee5f94201f200c376062dc4a3b614dd9cc258302232f42d436f543a, 0x104471eae894684f1ea179201bd4f7668abe67641cc96666a32a3c360f078cc3));
 (0, (0xccc89cfa0566f706c151995ed9f02bc5b57d503f68bc31befc631761d886ddc9, 0x124079a5f9510eeed63cc5dc440b8bed74c201f609d5c382d6a942f901b31085c), (0x239ac0befb155af5119a3897f0419a5d67b67d2f37a66342beae7d95d540f612, 0xa3d057641f863558c8efffcbe123ba22e0772865596f3ef0713273a8bc8deb69), (0x26636885c4e320d550cc5c072a09fd83e998e27b92ca1ff7a1751382ccaa170, (-0x1a12af85374b3fd212ace8fac969d12032008911aa176f41a6ee65f135a290d0)));
 (0, (0x61e6e64096e7c8eb7699d55936d2607b3f80b4ed62b1f6fdab8ef8e14d58ecf4, (-0xd054173dbc1526163628cee393a784e0b268290d844d8619547ff8ce91a0774)), (0x3b63186f8407145b126f3d47d1a56cc8678448ec4a5bf1cf68174e8aec815676, 0x2570cabf7d82ee33c0d9b040d5bdfbc7181e1568e39d6983c21bd6dae9bd6dea), (0xa2aad8b3265b9d342672ff68d4e4f0e20da92aee39964fcd3639e3883cf27379, (-0x9185c9cab62136a95edb62cd27c652c646b0b53a2a8aff8f145d526cef74417)));
 (0, (0x5d8e08a43aee4465f7042f112b282d5528a34e5b6b87efbb3111af5644d67896, 0x4d90271805a0bdff2e623149b5f566f024bc76e1caf019b8532f720209455b60), (0xad3f537992873461d69233d06f09b7cd6c0705be5158bf2f1d835b96b27e65e, 0x22308114e94d2b1069b5e9ace47ff7265470ec5c88b0ec816e0048a3f78cdc86), (0x6347bc993f32f1626629e2520179abba826a547ad019e3b2e20ae17718dd6f33, 0x11bef0d479511732282c6afddd9c2f1d6adfaaa94702eb373f6156fb526b1ddc));
 (0, (0x7ebed5211e95eb976a8f5c04f4fc92f3c78380687df738015180edc5e6be5282, 0x60eee57e683b659a8f9560b78b7b0bcb3a8aae4af4d70a5b007471c1328cf7c0), (0x5c296316afa813bfc4aeb31d9fcb6c136af245405ead9f0e8f30e707efbe1d6f, 0x3ec0680da8b51ba121ff7ac114a53c29eb843704ae77bbbf36b0786e9fbb7a77), (0x79f7d0436d6462482464ab9297c3a4c756fd814551b4ed296d2353f23a0199c7, (-0x2844ad31f2caefa1b02cdb13e0305faa75434d9db13ac4058a112eaf4ff0f524)));
 (1, (0xbddb04a61415ee42dd1376a3487c87f4d4b08a993fa11e0969a473d7648b2728, 0x15f052876e005ed3efa2effcc7d2a81ef4da8ab57ac58b689e18c00d4f1e4c39), (0x7884a38f5eac6fb26d465e9d425aff4ab9a67ee318da8a3c3ce2a6c774ceb388, 0x8ccd203e2de45bb31e4b8134cc9c9017ec5947d2fe35d14489ce58ca2fde7c1f), (0xcd106cc05479234586b7a3ec30a19b775e7c06e661644ecf8d73742e398dfe12, (-0x1507a12d12db308452d810486ccf228f1974316e94430a39b6f7f70ffac02c0f)));
 (0, (0x15066ceb132deaf64ce2b4180183bf4a89cbc84079abe6487933b2c9ff2054e3, (-0x8886dd1359cdc1ff1bcc27050643a13f14791c021265afea5e6a8e08af312f6c)), (0x56f80581db1aa271b6efec5249c49e0e9488b08df435516a1eb94eb8904591a7, 0x1ba0e07da819ebe6225d659d33274de501176d3b19f37fa00c663c9a5d7620e), (0xdafc5182907d5fd4da8133036a27c8d2bf658f4514b5ea78df714c397052356b, 0x2c16088f162496800b7b780d2da21cb9cfe29be5b6317bc1d7dd80dd68305da));
 (0, (0xc48a50ca2c4285a6497125bdd00e650a6ef996518df7a88aa0c127538a427c08, 0xf79c4315a21851830689007d9131cbffc8ee041174496abb3843cf3468f677b3), (0xad195c9d89db64353ba8feb70e977f4f93663406ac245ac8c569ee9909f657bf, 0x96e41670c73c8fb22be637544e238375d975ed1f201dacefca91a32cb56a323d), (0x653e87a8cb01d548f0ddc99a221c77345f51d2e5ca7d4a8b5fec04536b37d6ae, (-0x42200fd89723473ec16adb97abed2764bf4cc49491dfffffb44cad5bf0fccd77)));
 (0, (0x17eae28ddebed482e52bcf9ff7052627963ca844909c0e0546e74e599eebc2b7, (-0x14c36d72d7a26dcb7a9d70c9b74538c6e44680cd11ad2fc1ed41b7b3ac23c9471)), (0xcdb7c04179f8cc80801dda92d10605d2ca6d57e6b8fde0ac5dadd5df2cd01b5d, 0x23c0c3871e04af413b58f0b43d8e03fcfce4c5ad30fa0ffe4770e53f6a53fea), (0x80c07e45f7a96b5f0bc692d027f2f7cf494efa861f87cc313df98f0376d8baa0, (-0x30c2898b601658f44434d036112c067200b6f0da1db4e54d009df5a58da00c0)));
 (0, (0x6f594c83eb5eb4943a9338cef137e702a580d0a5ba4fb62e7606dde8cf21f759, (-0x17feea9186bded2657fc2d011cf10921cc9910df96db4390cf8deae5f526067d5)), (0xe85af11f8ed6380a037e433a4ce122b77f6c6f34753705d83af6f4cb2b7d013c, 0x306e8f80b0b4602d10683aad913f4cd372164b8cbf6104cd06e135c7567074f5), (0xd00292c4d6398c229be0af8492de8ff6ee24302a80e2013a7ee1749f40f702a9, (-0xb960ce274c2db03657ff108ed676f66c794481527a9d3345bf5ffc3c658f830)));
 (0, (0xba934925e36a6a0fae20442cc150a4c90717f89a3ee4118a310d7884df2dd57d, (-0x1497bc8ed4135957c2ad6e3951d1694a7256b45011d7ca34df93104fb7fce8bba)), (0xeaeec4f121a12bd1d52c6fa12d9fdf6377ec36faba3a7bd14b328923d8eea9f1, 0x87fa5b0824e06fa2ce4e5a49e03ed609a7094c07ba5766b7a301b3553cf6cf60), (0x2c640ab5d44e18e8e8391947e1e6ac74cb9983d14db9317689b3169c3d7073d2, (-0x1e0e3856f0d46e928fee5579d494d34844487f747463df3f7eb31c010c00ae4)));
 (0, (0x884d9d6e443e44687b5eba86811aa33e4d2f3cd3b385a714c18be53f8cd714fa, (-0x25786e60a364a353cc36108a6056f6155130c586d05487784170a134d7abfb975)), (0xfa99935d0aa0d1558dfdeed08a6f216ec3b04242982a95a9d097fb9c248c62c3, 0x48928ecd3da7a557418af1c40ab4fe929ddb2f0bc596499260a951a85a70dfb1), (0x1a86a6dfb0a09857f13ee4120c85e61265388e9808d3bbaf5ef5c62a46058803, (-0x8577dabea66f37814f48271ec3de457a45a5633412e21b3396d9e906f6db667)));
 (1, (0xb561d1b95dbb7fa07826b37df8b082623664e7cbb98da443c32db15e67662b4f, (-0x5b4c33553f31b56b006136053af8fad30f724eafe94b7bf768ea6b2295140726)), (0xbb9c0125a2d0a7ddc6f48814e82faee7bf9435a70bfc66d2e9ae1700caee97ec, 0x808377f0b8d45bd46336054f4b7f6d03e2edeff0d27c7c00f34854aaa8b90906), (0xd3edc181146735ca0bd417d7dcd60d0e8b61de5e45c7e5e6f5fddf35a0e2bb9c, 0x2ca15a103412a9bb942986d807141ae5d856a486e7a5f27472768b62ee07b966));
 (0, (0xcfa0d7cf8d5f0ed3b01514369b63272d0f596a542a2d6625eaabddbc0d0c6887, (-0x44b30cc9854649db6c884758aa0e6a07d1c9cc46d7070079176cb1b271126a58)), (0x30ff608dcfcb45eeaee24dbbee51b4f8989efc60365d99245f4e196386cdb5b0, 0xa86582101ffeb888781196c4ef86bcd2df11a9a924e94467fa9e349bb52ca1a7), (0x728374c93cc4c3523cb31dd40b8c82ed33e3a800d7962ec25253ada3e62e02b8, 0x706bbc990e9657251748ceeecb6b98352df52e473d7c306e96b4543ce918a1b0));
 (0, (0x4e9c60b74cd846efa138939f9cc6345b6ccddf33b93cf4d7aa705496c5908ef8, 0x2a31b9038400d3fdefe47b4f1ba80c25d266c6fd2b4acd5375de9961b5d55e80), (0x9974cc9141aa8173c3f482cdb25511b53040e3ad399e389f984c7ddc2b7f921c, 0x1823aa75b6c36fb1a3c53b422b6c30d790b2dcbcf166fea5206a8b562b98d47c), (0xd5f18908d567cf9a4f12d9c7722f43e0a727ff615ecb61f96618931c8416e50, (-0x201395edb298056afa11e88711fc016d7a50b86e4a0d64ef712e8c4a741506d8)));
 (1, (0xd7578276210f3be19d316382a3e32c7c6b0679ced17cd4a394c4d0a9615c5e33, (-0x1aad06df4c84f32f9e5a389ac2bae6d4bdc837548afaffa2e57666726562338c)), (0x341d1d6fb3ef502d89af4deaa94e2334891e1fbfd3aa3f3c83869430f71d9b0, 0xb5241b0c5a4e3f05a08312b261a450bed3b58540fdd7d8961ad572fb51b5374b), (0xc1c026fe62943515c27742a417721cdd37b135d1cf88cf43c4dca6556523e704, 0x7e582870d8a9ed8f75bbcc75ffca2dd8345416ccd32308e14b8744289034f6d0));
 (0, (0xf372d145c15952b876e8ecf45feb06b62d07cef0c68af7aa67e77b7e8caabf24, 0x17060c26930711b05d2973e6a7eb8c5dc0b3f97fefddeb1491b45cddff40ad3e0), (0x45d7a852e3e1981247ace2b63e7d98326a355821c4a02a8d85de5d6cc3c9281c, 0xe7832cc97a42bf4d8347b0c8267cf0bee1cbce31d8dcc6671af0d37881342eac), (0x11360911376074c3d0fe967090ba8c598364cf98a649fa1180e81ff1865c73e3, (-0x3f5217bf99c823d5b30d04ebeda552742d3b948f37efb874d6c093b0c95a2299)));
 (0, (0x1abaad4b143289cc230d32095a85667517a24120113a6839f50906003b3fafda, (-0x3591cf90bd57f2a4b1adf399295b57b6519e2c56fb07ca3ce548c0bc1d0fafac)), (0x62e981a3c5855071bfe2755e27cd83c8bac2fab6c8f82776bce7b4e3a7da545d, 0x2ca735386822cbed93431d4feba79c104c629d4565eecda105d0d6caa3b9121), (0x5dfa640f2b58e849efc186a29930ef85668ca971a386d7b039e697e6a43884c2, (-0x30902b7b21006f7e50f91e88ff972ed1708f722c868bb00db928284f329ce31)));
 (0, (0x9c7f92b05ec35f9457cd6b2da7c57c1e13ae15cb4574f6a26a0ba4a25800d153, 0x3fff58f8e5566ee8502807a03c5e841d35a18b4e5817ff8ab0a251ae4ee95f), (0xd5500633fb2693da902d19898a3f92d0081cb0c2c50c0908f6ced55b802b8de0, 0x5fabba59d289c7eee8ee27dab4a0a420a6e05a14935110fcb9596d4bcdb64be1), (0x5a0ae748c4bbb97686afb8f9615dd79e50b01ea23a1deaf99bdc88936be6da78, (-0x45ef7b30eca735496a79cad2bf215762593b7ed70ac2ec1dce24a22023c187bd)));
 (0, (0x7267f9ff9bd2230eb6053b239342877df97d1070b22beded970a5a7aaa25e75, (-0x210331c5922a47fe54ca1de77dd8ed564940d0cf0fde4af4d20044d75cdfcc6b0)), (0x252cb2a65b0cc29a1de94b4f6130bea13cf113f38c43ed66d1d72a2fcffcb56a, 0x3320c4e2c699c6a7e39fb9376a98c25bf688ed27000e458711e739e46b45e1), (0xeb642b3bcfdbb27c5c042826925c0add2e715e135cd2d9c07751271a7807e41d, 0x4eb7456de9f1dd0db7c3e5bd89e0c2cb5896d0567e4ac18772e0deb38076ef7));
 (-1, (0x882d149f1b5188685f52d000773368a71c7cf92c713b760cfc8dc569b55cded7, 0x2cfc4bf7a30453f4faf1eec8ad4596b44768f5a305acd9a5d64f48f02b880539), (0xf9f9e00d2c6d19c9aff348f9be183ed9bbd9da7cdec1dd237c1f1bfda1faeb2f, 0x486fedd94e9f7ac0897b8d669705d495c0733f84f099b33b0f455b0a69c02da0), (0x410a83febe91fadcac4f3360943024550bd5a0a2ab4f905ebadba6c0cd7eeac8, (-0x71327953e3fea19122eb4c9f36d798022ab9bc0ca88108a97dccbae797cb7a28)));
 (0, (0x3e85f0983083ccad4b1090be2f2d709d510df503737acbc3984333ee7239e639, (-0x2bc82f62022c91d2ff04094efe2eeaa6e92b90ce156989909fe5f90b22f833e9d)), (0x2ec7a8002e916483b74765555168749feb4e161e6d51fc839957ad00ca7ec211, 0xf45269d97bff58761e5b076d0ad303cd54072d2f50b0ae91f0c86f73896695e), (0x1430826e1ee6e6093a84e5efc9e77f716765e33cd9173a761e152899757f1314, 0x31a079a2251a966b83673e0be90284b1a463b18b86df221f6768d20d930dd0ce));
 (0, (0x6c03c94b2f5a775874b9bc2743cbb72105979c4733555633876683eddc9f7bc4, (-0x89b8d540c71b07855358c534e9ca9de2806a3f78a91807cb86469f641739bad)), (0x673084a0f9b667c151996f3548fd675505a52e22bbc1730ef648bd1a32d8d65e, 0x2d9331e5c5fe974245bca006351b01859ec463510b4714eff10a33da72bff170), (0x12d976fbb260c2383fdaa20e2f8a0375f4568b0e8e08ab360a0f602b45e6c12c, (-0x17cd12a951f81113ec5cf9dcab4425da2804481ab2cd532edfa722ab14c8340c)));
 (0, (0x6fe3a135db859c7c02adda706cf03c88d571dadcdcd91fbc4523445dea7ffa55, (-0x6c4e212de0f89eb6a7f078001dbe5384d9e84beaa1c0eef8c659459ad5bd63ec)), (0xabc632abdf22ece266b11c034eee9df591f4e87ef4b6dd32fa9fc10cf085bd0e, 0x30e73033ff65f619bea429eecfaefdd5194079314f8d05d187fb28d877a519c1), (0xcf556636c1297dd62b4f27434c02dfccc3ae103604bf89d64f1d1857061c1874, (-0x1df9e2609d65371150e00d6ad1cbe073293eba34660149424d44ee4fb20ffaf0)));
 (1, (0xeecad21d23e71b9e382bf559ee7da4f728d66484af9f93aaba5e2b4ac6f95509, (-0x2eaae308eff75ba5c4077796a0d4d22087b4984eee882150a5acf82390282eb6)), (0x2c649a832371b87bfc3711d4363c6d4ffe73ab4158fc3cc4297594d404f024e1, 0xdebdbf5e7132324a16d739c35fbb44b818f1cc4c343ac32721e4912938c10756), (0x26626ec8e8b7162f4bfdef3e735ebf295a347be069c499f438e321bbd83e5d43, 0x76d1a7047d5fd5bb138271786d49439738bcd02bd7808c4a082ccf4923ec4b82));
 (0, (0xe2d99b91ce55231638eb26d5353b8b8197b1edfba9861aab9b525fcb10e8c33f, 0x2ceed72eff580ee458679b702aaab388521a49c5bfc665b0948f090128cf5af9), (0x925566443ac56439c73741df07d12a0ebd949311b0fe91e2278b92f15442c362, 0xc904efa68c08012f336778199804e164c6de2a9554e4c9728ad791f0a83a7133), (0x4591cd35e75ef4c19374affb763acae41086d9d7dae0af9b6aa2aed1e7ff58da, (-0x5a553af0082f9fe9cd90b9d27b92743d8f36e51f7ac0a56c85b42a4240be6fe4)));
 (0, (0x94087d95882049a9c482b95a66d05087e02a99e32c7e12852b1e914f7f9d0bea, (-0xaa7b5cc3e0979f19e9ab1e9819bfcb705c1457e86905cc634dd66bda3df3213c)), (0xc2ef7ea9729a7f9ad5322cc61ff7ac070c1da31576f4db3b3c1d300e85d268b, 0x5599d17cfc5935782bbb4a5966239e0b3dcf73e31613d7fd888207aeb9b8067b), (0xb3d334cf41cbae003efa78230659c39d2b9bb74e535ffc290ce232fe8ab5573e, 0x4d92aace64f87ac98b78147b0590f0cbe5c8e3cedb5bf62fe9107c47aa158bf2));
 (1, (0x64d6739a7a78c6d1d8e91abe0847e6fef0f60846e58d79fcb748ec09d1265865, 0x2b27ce91f1f7ae035db667ac25d7d318c968da969649a768964b116b9c027909), (0xdd300078d5339284de4fb30b2a21043053f2131ae160ce890aa181fef098de3e, 0x27b83df62a2744806ed3d672948bbc529a582512d765765b9fe97e9f9cdd8608), (0x98d9bb89b1bf7aeb9ccaac7092fd73c95874efc0ea5c38b33389ab97e4556bd2, (-0x52537c964c97e03a219c37bcadaf32fbc5c756bfd1af43971482639efa561f81)));
 (0, (0xe2ffcd379fd762709dc45590041d76d1ce0171e2742faf43af61536cbcc694b8, (-0x12e41d7808b52af799ac3c44ac4a5cef48c1faecce729873b39b0c05931e89494)), (0x9c83a504e8bbd3145eff141ae0678a7a8708bfa0b08f1c48990082750ad8c934, 0xc948a5f0af8adaf9f8eadec35a8eef5b763311cfac8515a262e581e665bdb670), (0xdb14a954aba9d4efc8ce764220f1dc032510ecf0ee60eecb2bd8c1b0ba350f93, 0x3958c84381df32f8effade1d07641d0556e13af35622ee658bcca0502bf95725));
 (0, (0x7f585e88bb9c8944c96a7af7c0f93d2befaf5ee397932d32f90eb5655acafd52, (-0x451c5e6d3b2c8f2de0abef56a747a3d668c329936c8afe19a21e38b2a14533bc)), (0xc72cdc29e2479234ab42131f050b321d9ccd73219c0a79b8b9fb2a1647320663, 0x3f58cc4ccb0efe9f73c08c78a2ee4a7b20483c17a3bc4d8f1cc1a194257556d7), (0xe22b301d78057e89ccf6b004a4be8dfd2783cb37cdef0daa1f5698d354ec76ab, (-0x1538ac4737eaac663d3208b1c191913d80b59e9304186124959df1d8819a4374)));
 (-1, (0x9fa915ef0d69761d3aa1146a51a657d58d83dbae6906925be8568e927e688d91, (-0x304abfa332032b67beea0832f8e6536f15355cabd596d8fdeb61b830c05ee6e8)), (0x95ced60dd1c90a4a5d2a7332c49a21fe39d239cf2a6d1de422e0785f8c3836ad, 0x639378ecea29cd639a6ab7abfe57683d5cff9247038cbca1149e8dba2d8dd4d7), (0x84565de510fa4a7094dc69ae9dc0d36e44d6147cd26707bd0d691d970b3f10db, 0x1eca011846a39826ef94851c09c0a9f827b5cd969cc56f16a03ef352456a7870));
 (0, (0x1f279e6f260647c9d0cb0361dc0eabb16411db2ba4be817ded9166df3b643701, (-0xe6c964003a4228fe105bb51a21823deef4b664bceec8d4e6072a753bfb7a8f0b)), (0x9013798946ef7384cf5f5989d75a7e23a0973b83736f38e18458ae7b20ef98f5, 0x3ca9e8093207e7e7fc404e1bee9f3fb91d175c1f65a8b69a5c33223a0d14cee), (0x7ecc8c42a7bae50108fb67bd7bd018be8930ebbb9697f3ff71659d0077811fdf, 0xb2934b45325f4db6d33a17dc9eb8b43b91072538a1b6e70827acad02388562));
 (0, (0x1ed7164bfac6416f2da4ddc6ca96768691b4c594786f92df07a70a72f0a9ec9f, (-0xd4b4bc1777fbd3db49379f72f342e63cdc4984df25fb9731bbb0d53cd26f5ee7)), (0x4056b54c732a8bc5a1aa987d6f22c899d225d72cc05fb6aaa79f1dccc5c56dda, 0x3b71df04456d5fef082933a9df5eb74d9a1957e2af49a57705f10abebfda493), (0xe945c39ac38228d34c5b9e1ed4bec0b72ab29ac3b66d7e1eaa2866f3d07b940c, 0x99b1d79d32dbd90bc43099e8c98f395d1dc547968257de46e930c38e115cf46));
 (-1, (0x3e24d61ebc2cfb7a82eccf2e47b04c72bb2e0ebbe3a50338783d3197b8fa9b6e, 0xdef5f82ba3355850c100cf5a9eedafe1a8e9709762b4474e0d016030552a218), (0x802e22fbbc821d051737a9a3bdc56787e67bff0dde2eb23e2edbb1d287f7164d, 0xf15dd03cee21cc1eb2d63d2a311c6613c33daf880a67977aa9de40f2ca1468b), (0x6a50ef818687c8ee4d7c29696e7f8da45b576614a92d17b365bb43a63dafedae, (-0xf7f5c41a04653a1f0eb43d1a0c9f3cc4717e5b98f7fba9d30fa07ef731a411c)));
 (0, (0x2e0563ebc411cd6eea1a01c5e1871157d08d918ce7248e8c2a8fcf7360017d26, (-0x9a50f1aaa72c68b26f7d683b0d8d9945e60a17d0184c9c04e5a4fa6fdee93b9d)), (0x106c52d5493ea269ad1cfbf5abb60ddf30612db6642f828dd94dd17071373f16, 0x845f005c8ac414d3634b427dbf36463aaa78dfdb86a43219d5a22349bd9a84c), (0x9ed94e0db6cc90cbecc3f9ce613b31ef7ee458253e674a023f6408baf1061e5a, 0x14172dced9777b231b6b935282b57d5c9533ac4f1a87d6ee4c81e79c71e4fe7e));
 (0, (0xed513014ac08257adc5f3ea0a2c88f96775d213f18f4b7e375dded5aad1e2a2f, 0x12359f321f61b03e91140d9a96670446d3d61d50436bef05f994b56a7d45fd2a0), (0x90c805e3fa4286cfbddb239c0448986d73036edba1fbdf83125da20406f1da70, 0xdbff6cc5bca3b4bb96b6aeb0aab6e3b230c6797b5df27242f5d1546ccd8d9a0b), (0x263e9bca44213c2a708e37377f001a1472eb604b33a130a016365633f12ceeba, (-0x76fd99e3d0850cfaa3637b74f718f39b4d4b40c4753d0190c247485154a18a86)));
 (-1, (0xe889ebcdf11e6993be17aec37650394e38044dc88767437ed914f58f45e83da9, (-0x14ed21d233229d7f909d4c9edb01717a36146cfa0b0bc95ec0682a3998cfd5ba)), (0xb20684f904fa8774c6bd72fc2742f20639740fe8ccc344e4dc04d2a01ccfbbc0, 0xd33a45b380a6f042ac50fe1e568275ca253a1f89b8bca9672937716124c3e187), (0x58760950cd624b5bb33de81bd255511bab31a55d2a0103a4c607a8d5e742f14, (-0x1e328c3c30fd5a69eb8f66a26c0d6acb362a456d832e3a7fec8d4be6c70b30c2)));
 (0, (0xaaf8a1ef9237f4eaaa0ccbc8384e490bc025dd9de5a0bb6b4a9a7932e916aa9, (-0x172f10aa567989f9d02b25c54f5b4dbed37b0a84a8ff8b41c53551d4a8f93a3e8)), (0x8c10d62bcb303c6fb1003937e127a6c907bc15249e98bb4431e0701cd6cb0e0a, 0x722f288c54ccd3ceea90cf152c073c90611470ee1ab2df0bf71c2888140da9), (0x1bbf3ab3fec8dc5a28967e9eab97b4dc2fbcc896883c8ec0b0a2dae6db785eb9, 0x195a0418a82bfe85c9d82bd23c7c1d161f8aa86965c1167f606deb95fe4f6f7));
 (0, (0x83af70cfc579d46857ab1f1bb552b7f9cda32b3e8100b49843db5b9fce563f46, (-0xc95b8417466526ab91e532f5397b4546b62181214ccca17d85efc0510740f200)), (0xfb993aab0f362ea54029017f2a81480a721f290919a8f904e1ba9462bac56f70, 0x43bd05b011e1215ebd968621773656379e93e0f487c8a291bc89411a9178b660), (0xf1ff9f0aed4148e66c3e9cc2529a767efcba5df6c5331029438d54b4a48f39b, (-0x395f3ad0041885046df8dd593604e112121504856abc4a965bfc3346debfaf48)));
 (0, (0x58ed41cd0865c39ef34b208ca07407782545684155270b1cbb91dcd19c1e8db9, (-0x2db4f797722451d419f0ce54a445f5e576c6c14620b3341cc6afc393d81045026)), (0xe075119b1972ed4416316ee00183cdaab24771d084860636401f31abdc061bfb, 0x1ee3f91fdc5145639c2aa8469fa69b52783baf6c2c7e67b3fc32de44e731750a), (0x146d22504956fb5f5232d1f1278bc4f3a4178e745ea8a42be9112d6bb9619821, 0x96d95916b877eb566b3d536c4c04156314fbeb7eee15271a01077ff3c6b9eff));
 (-1, (0xf0d163089d9437e37735618ba5e5882bb9cb0d34e3bb6c108d9ace698df06119, (-0x609f434828ad502c817de69d766946e6ded5cea609b2a5390a52948ea9ed4ace)), (0x270686d5e4e52998760481584eec7c10ed5d7360f3b274f12e476fe532d35b8f, 0xe28944f301d6def89e694ad7854831d7dc776feaab805bfa1ce0c7399c4640e1), (0x219e36f305033b8924d3063bbb8c18d58691111438aa2f9a79ac742933ef3604, 0xae6f4d1429879028cacd2ad563b273d74786b5d0d2c77fd0664e7408e3c73149));
 (0, (0x4a9d37b58f54cc8b83d5c5dd09a83360b6139d0207acb062f9c1c8f3eb49fbd6, 0x1bfcab64199a7dc22cc0de23f9e1e63fe40ac58da7808eec7f61008173d6383), (0x877448d0ad73af6bd2bfd9d7c688f25cdca205c8f6bf5b1272db0b383b94ab8b, 0x15bf44c257ae589df96453217e47d834c708c0090a2d9da1ee55e49e14bd09b5), (0x55ddd56bf3eab632f23098a1286b8d3b896937d73b4514eb88ce70ae3a62bee9, (-0x1c1af25e6d0a79e857195475d45a2ba24b00bcd4517a65901337473e5831357b)));
 (0, (0xe6bb6a3c3316554aff0875a9552ad78465eb5fa0cc25b9eb79fadb1a952fe2c5, (-0x3c3b38029d4ad74e8334f342f67e138b8738ad75f7abd32aa4e1cf2b5630a1ff)), (0xe46466c584d592406561c09ce7ca338acb82a18e4d540f89750159135410737f, 0xcff54c188bd4ac59d91fc8115ebee169e7408887b8d8ba495a9da025d1bb5a3c), (0x9c4cc7a02f0e2d9e4b4b211196b9a8c5fc90fc6e782483cce4d8c4169b0770e5, (-0x53c3c4e122959e6dfdc5f714b8c7d2dfa115720d1b532a66dfed5345b807140e)));
 (0, (0xbf41231470ff77f68153162320f033aaa54d6bca768ba51285f0e7dfb83f7747, (-0x179bedf9c7e6b678dc069b47bafa1bc671ddbfd818846c8604f4d196bed51f993)), (0x3de5e696cf634b113a91f7759ecaba6ac030031d1c141c29f8718eb299b1591b, 0x8ee242eb55cd2f4474c055027c7ba80e95600b2b796f45c88659b203ae94a5e8), (0x8d899a8a0a370143401328ef4e609e220f5104cf4e2bfcebd26a5b2acd920c8d, 0x7c62be91fc2239b04dbd4f94f919179c3e787938419dde71628eab7002a84fd6));
 (1, (0xac82def6480e1ae7551a23b161140edc68d59ac00f3165defdc812b21d53e59d, 0x28540e00423d975be12c9bba1cd50ca41ecd2f7c6004994855da9b28cb5ee6e2), (0xba7988e59e9e97cb481b2158d85ec96d6cb3d3b57be5a9ec83a6e9a5e401d7ee, 0x74401e8225243461335a6a9c92bd9ae04fc50d1122288d63c69707df40046ed8), (0x838f5c0104c7e5a6ad86a9d287a50bcde482993c6ccb95c9e4d12c9622281897, (-0x53f2e0853eefc5eb22cd508e95cde4ad50865aa1ec32e0d1be7519cb54c16365)));
 (0, (0xd016e39998a025b66a87a4dc397495030533b90f49f333d04a99a47a46f3c713, (-0xc19e01cd82f34081fb0083bc4ac9b700bb5c61de2cc7c7da9e4c2c066013183e)), (0xc6fb9c5adc9b0c81205e686b717d925d265e4b175b77fd26e2d3a375f8ce5081, 0xa92533e580c439a2b5c3e125dfcd696a64f35b43819ef30cbd4408b69db1e6b4), (0x60b0eac0ef4fe83a0fca64997e40a90b98dff7a2ba9c6bfe6bc9e27d8d23e589, (-0xa2ace1bc6e418402b4926127e32370e68dcd75836a7c83cbede0ad3b27ccb47)));
 (0, (0x51058b3ecff68ddc3029cf039ec953158a666c5ea9b9db9f854a468a930cc78f, (-0x192ca62d2c01067445aea469c26c45308e299b05eeb03b8da57d6be559fb7f31b)), (0xeb4db55ee3ccfe33a29c2dd145730ca61aabd4e2c6a441e9860096b328ddc227, 0x19a4823c7bcb6aa6037ed076235a4632fede1a2eeb44e677014bc43d8972e6c8), (0x465606f7acd0c9362e72c87b6fca367e95ef8d6b07208d22980a90422b349b92, (-0xb7ec34640538d93d0e0e3ad1acc563783bba9614a1699fe18d4cc0d5e02983b)));
 (0, (0xce39dea142c4af28504b83d035a7cc9784d1ab1f3b41c9b98025d9d77f0596a0, (-0x2178507dcf006644e97917de0ea22834be1c47cabd2aa684071dfc0a33a9a9a1d)), (0x2ff9455a63de690ece06ae1c88a74daac49e264e1e6641444cc0c8a2adca1a5b, 0xa6212f606ce05add0dc5872937a4e2a91a9c873963d750acd8699535cfcab759), (0xbc9904cc0b09b5547e9f56346c0ae0badd16b258f2bffeaba4d756b9c8de3128, 0x96e84ad9ca0c839b57990d08c4a7718160be5031ebe9f0c4fd619b669626621a));
 (1, (0x75f8c3da315898a7dbad529c9d65045418613e6bdf75ca41328488e6dcace78d, 0x21fec78ddc53e4a34af21f5b2efa50abc87e30516a3b953cf1e39077ae4cdf47), (0x2e3c2874f2e493b75a1ce9af679113e6132b27c3e85bc70eac6fe82a12846cee, 0x365d54c17db0b85640fcccf8f6e1b7e8208640de67af093da1f69bf05ca28db8), (0x678e8bd61c91f24ec7751f4b117368874a24058a7dd7cd576bc62ffc0f15eecf, 0xcd1ebd634acd8b6d761c8c7eb1219947dc9d9b1f308e6c14a7e1c54368828e));
 (0, (0x3481930a5becdd7ae9f932254be1b09f8a1b75759e440071e462dc425da02dd9, 0x116db766f1fb9bcce37c3d77997aedf73f091921e531574c821582ac249ea67e), (0x3d3c96f1473fd6672f9b19fe84ab3724e5a195341652e6b75aad84c11e67a465, 0xac4e551ba3dc4ae7acbc070a40ce95b0003789006c65ded9636611b143e5b50), (0x4759803ec2f43214c25d505a56ab5cecc54254f97c98574e3632b6d0912f1c40, (-0x313ae46c8a1c97aa4b9f8b0124a3fbd18a54dedef394d62d0572d2b710de372)));
 (0, (0x713535a41e1f1a6a228ac0662c2c572efe0f07fadceed2cdeda7f447a907f0d6, 0x1328e15aca808bebef1c38e4de27a3b86a2c3db14e7ccf60479ec7a0bca9159b), (0xd96cc172a4e4dc94db17d9b3ef2b584f150f4e6b6f8f5d31fc3bcac366d58303, 0x3210046a23c94be21ec5e38fdb44de3de465f3bd5b5207eb6ed637d3e9bcc199), (0xe3471ae8301a9958f4fda14a9691567051091e40767f142d8a26cc5298202c1c, (-0x4511b9760126dd158c1f72fca4f43faa7267b1884f8faf25deb65cf421833a90)));
 (-1, (0x37cd0018098f07d17784f646d30d7fcc7808c23d180af262b5be268c3ab74f5c, (-0x14db14322ac9d1efc5431c96f68d527342e469a6444fb363aec948c021268360)), (0xdb28908018eecd2b6da26a5bac80da08618299934321f117b96209f1cccc944d, 0xc29ba337a9ac6b052016281bbb3fd99dde9951915e496f2d08c637491b31658), (0xb8eda6c7125bbe4541e9b58782fbe348f93e0ea1802de54d00bae0f44670d30e, (-0x60bce0db600a26926273134591b1b20d70e64bd0705f0f7d6ef062b59d95de)));
 (0, (0x6e68b55772a834ac07ee30fabf156916acd870c74a93d6aa08a93bb7d68deffb, (-0x19357c690f238e38a6f11e1652c78c3de09fe0c3afb52ba547ffe897ef8c8efa9)), (0xde5d90283f905db7a63cd080b3ad79d1607c795d8a81e6671936e19b51cb6d50, 0x2f9e26aafe0a7bef9ec07131e0ca676a0d9e5f2ad9d19d886bbece46f0075201), (0x9d6959a2d6d9d39bb0362b0bac3e1bc9f298aa37462db89b21381832adf553df, (-0x16215a7ae1d987de89542623d6cd1fade515c3509260ea5382f8ce71ed67682)));
 (0, (0xdba0bf2527cd29dcb5e9c6e7e563bc5666550a5651f2d40a885a5b4173e9a219, (-0x1355b4a8a09b1104a77a9fcca94d62ad55064c186bae29584cab6cc29a661d32e)), (0xfa7755f0621540a054de7d269cdaab1f1c23cead49d097b9286a2c0166a12df8, 0xbc6c6bf90f433cdc9f16f6f62279ebcba5051b92d87500f4269859275b79dc77), (0xddc26ee61037e2f918f08bdef33b6f9bf966f5111bc793a153c6d6c88e198709, (-0x181bb14921459b363aa2a44ab3c9814d1d784f1e7d3f52bc4ed51efbeb7855b0)));
 (1, (0xe4ae792d2c6730589605840050c440bbc7babaeac1f8875f5eae103a0efeea96, (-0x72fc6fe1dfe989e4c262d8cdbd68c065283111b3cf20839d006fcdff34607e41)), (0x5388397569445c1cb0dac92c1229b3722af16683a20255ecccd83fba84334a0c, 0xcc473ec169dbe655b35421cc5900074646722d178aa94c328b52146de5570a38), (0xb0bf2291298392f76f44248510fafbcec257afd48a67dfd56cdb186cc9be03aa, 0x951ebae75aa1ad5939e1ba276be22857b5a0628fbe640b9889dbc3ff8b2ea17b));
 (0, (0xf10e3a9d5218c45f565aaeaff4ce220efb262d65cdff042f70e6eb7af8e15cb9, 0xfb16abaf3bca15d75e84cdf8d86d6b797c7c2534edaff31399e218d7cefaa13c), (0x42eb16cb4b1384d88065e6633170acc0b16498450314e0e60b3555aa6353138c, 0xe2fbcb26ab33465200b41f15e4614a112484013cd2a08b756cda1798d3285683), (0x5358adee6225f9815a6912e752aadf870c4833791accb6db2d8960ae3fd001c2, 0xfa4da07db465f12c82569afe345a2868f0f7d3482440cc5686dda3ec8660b2c));
 (0, (0x21ed49b426e5147f71caed32482693e582acf28085fdde3942bdf93b42c037db, (-0x1e62cfe3a802dc8d5317992fabc10e1b3ef8a455614b85ad9b3a52ccff90977c)), (0xfcc4c11e73e90361b711e6a34988ab61dc2159e44ca3f34823a217d659587ba7, 0x47f08f1fecf50662d0d541369c5c21b9199ec5c75a1a6f3d2f8d6d4ea596e86), (0x17797a50b788a4c65bd8baa612f1072443d427191d9042f0fffd705989d199d1, (-0x18a152f9421a69f2a79f7eac9853b827e6e8404cd054bc617b0fcc1d2a977c14)));
 (0, (0xaf124581b50b1dfbc8be0c96f34b3420edcc0dbde1fb589a009328bb8971938d, (-0x2cca06b35e1b243e175829b337bee950a64bb288856ab5b32b72d9b27cdef57b7)), (0xd4187b921aaccacd65356cfa147acba39e9fb1af4df480f9cc115184fa1401b9, 0x77b9fc552ea1d5de6742bac889301860ef9458eae7eb6dfa5d4e3ca2f3fdb4fe), (0x9d74c9b2c19cf04a75f57a40aa11405ba32b21ec82dab22334d46847d5a4fa48, 0x1bd0aab2df2fe2064dc93df8d57ee1c326b00a898347b26a2b28899cbedbc193));
 (1, (0x744663779167246cd66571683de103a97906ec39e325193786a0440b46402727, (-0x2909a9497770de5d39955900ee28a90ea4f22e1dd59a3dca49cc13db9ab67a39)), (0x12b9e72509a2603a534d84b26eea4f50fe84c43df8e74d8b40a1d704f74dfeff, 0x34cfdd7ee7ceafb8d4773a13e4be0bd09f686566e6f46d96e99e52abdb14ed2f), (0xf378f2e6dd833792aaa360545e0da2085edc6a9e966aabc26d0bcd91311a1f2f, 0x57d4063fe5bd0810bca2caf809e3fee58b4409354e5f25b68510067f2dd3e451));
 (0, (0x51f18cc08fdbeb40821fa0b35e544b0780519cdb19cb7f684603b37f60267926, 0x97c1fca6b2d289b32f38c09d036b6d8cb716e935b9c366737df4b832e3db93df), (0xebdaed36be2c200c1b9bee6b4e89322f78b05104949cc5353b9e2a8587559c80, 0x1a3abefc2afb352065d3e012448ba5366d175a8ce1096f0c7c43c3c787ab73ba), (0xb5c7b1d1e1669b7fc435e8495fe3bdd1f3ec61b94ccb1a43d3cc926453a9a7df, (-0x45805263b2e4c08dcd44b9ac7f029cc4f5fe04f1aa543d68d178cf444ba8e10c)));
 (0, (0x3617cc5d5abec287a20cc56d5b3f6fab088260dc850b3157be22d927fb2cfd46, (-0x23f10f510c4631bf3ed3474174b35586c882db7f8e06daaf0477005bacd3715b4)), (0xa4286e75d8491bb33acd7673c339c789495ba34cd117ea55c1670c4a5f8bdf42, 0xb6e0c6dbe33b3034188b152672a42a13c246ef050dc166f312896d9aa9c94be), (0x564ab31f4ad32c094916ca947b70e64417f08c73759264bcb72871588d6fee42, 0xf26510276167b19b2e5231becda40e7b16f90fde340b1f13dbbb344a41c1a9d));
 (-1, (0xb5f0dd4171707023af2e59ec7d13ca5da99d98871378ba05559007038274c331, (-0x1e24dfb1634ab7acb01a7628c5570274fe4611b3abbf7d1d5e62e63f6bc3c270)), (0x3462bb70e9e1e3afcdbb09bc39970adc6eac6cc78e7c29f039bc24186550c0a9, 0x814e7b7e2457bffba79b0507d213ed82f37e310043ef0569094645301ae39882), (0x20421a71daa791d2a99b3ccd5f2b7bb634b2f8648ab6985d649a5f338444cf42, 0x4f6ff1848f738ce8251e573095217853bcb698eb380a1a0cffd0e8888197e94b));
 (0, (0xd15ab4c00147480e65a5a9b0caaa6b1fb2ab3cf41d6933674d384cc61c048be5, 0x149a0488179ea46acba18f55969ec56de5a38bcc35fa5d732d91459dab077f6f), (0x3e7864f0ee253cfe87dafe68d7142a77fef4fbeb6463dc55eb78b08a5040e7a7, 0xab353b4518b5db945459ee809367b020b1de6087a267c6bdd981ad4e43b13420), (0x2875240921dd7a97c853a69d3489bc8fca3e4e515e338dfd310e08429bde80b6, (-0x83f421de5f6831b6451a6a646975547cbeae660dd4118ba11d0ec6f77ba4632)));
 (0, (0xdd4a3d53a02a8efae9fde13f9448e5d0df6c6f01434936fd43d212546089b6ef, 0x18361ac8646e56ae17684553f9f05c2d56860574654c797a579746f649784bcf), (0x4fec361369f9a4591dd0194181a63f84c3def0a7f7aaa028d64b3cab1308d333, 0xbf494369e593091d690121b1956d6535452351ee9f0bef2d2df1b3ee3f2fb160), (0x9056228bb3b9abb9651d6164e3a560fd395c936899ff5505d5468919cd3ef139, (-0xf160b33852b77c40c3e2f18574a1e5fc84872edd8f1e5b7876e530a17dc10cd)));
 (1, (0x99365b980d6d5b1c537d19cf36548429bc237c90008eb8e69762734da0d2c90c, 0x1907803d0de398b13bfb99588a983b05a311be1d1c9ae901b13ccd7215fc1553), (0x9d0b4b50488be173979e9eafc1383c52336b8f772c0b2087dac563bd1cae29d3, 0x5bb2050684f7d4e5fd1560963e4adbf693ba9264a76582f262f20858d3ab64ae), (0x5785debd99fcb193d2495f2a8562b1a3e4b6fec43f30d5ebcb15a595d540f20f, (-0x2e27f3d7b6e91e629040bb4f05eebe81f7e59304c1683b32bf855ee44c857fb8)));
 (0, (0x7a6391ec251ad55bcc2e14a07df7d047f54ea604f3ff715a361da320ada0eac0, (-0xcd54e301fc2f62879fad20b0fdd6b49642835f7bbf80af8563c03d09cd84c4b5)), (0x1bb5bcb3e76a86196067af9ee99af611afe232e1a314c8e63d24dc1c96f6b37d, 0x3a830dcf432fa1f95827fa56260224ccb742a70ebfddf7c7479000a8ddaf0cb3), (0x70a4c9353737802706157bc2c3f1d8351ec271069cf027aee0ab734d89bde2af, 0x3dd513c570286cb467d6cc0c1914b39e40c2534f981c3944d3d16878037cd9de));
 (0, (0x974f6eaa5a8be3bd076719878964672df4a5d847c265d01dbfcb1e696c5cde01, 0x7c28c7fd80842eb00c5dce07457647c800348454f22e666daeda138077f46c2d), (0x323be00af31dd4e4b3da055698238eb934130c227d47d44fb9159d9762ef75be, 0x596ecd3273cbc02c26edc3bc17acee62727fd30fd606efa33de19c859fae2607), (0x26a06a5c3a958bdde21fee59eeb4a7a9c1b77b5c16f4b1459e50f470872f1ba8, (-0xd501bf9dffdb5ef6d4a4999dbfd9d37f6683792882a9bafb39274a33cd6ace8)));
 (0, (0x8e351f8ae4eaccb3e17645e3f0bfd938f6b8a5dfa63ae86ebb97157255e1014c, 0xd57a95f2eb320b16854bdf2ad16c3c6c306c754145532b3b09713145625898c), (0x68927113c1c7724fa2a26be6fedfca6cd03b4f9a8125c052a1be32564776d495, 0x4efefa04295a331cc805e706ce0918e883a0f93db2c384f4213c27732a440eb1), (0x66444d039642f0e9b2721fafc1bd99c620c7ca07c6bd80bf6c9990bcc26b4b6e, (-0x1e2f4b10e0460df46d26fc3a6a6daba79f654f478dc7376c3fc59444dee10c36)));
 (0, (0xfe092deec381ae1508e00f5862fc725302b39a21d23a34f0241f4e5b56b3e8d6, 0x4ad0ef63a0eaf09bd6b017df28b833124638620c98b6ce3dd7d77ba9c012cbd3), (0x73dfe525d4abdecc528643a7c2488669ff975934d21020c2fdc7b055a22ad4fc, 0xfc16377a0efce3fbacb92354b1be66bcb896207d96112e161969db564d4ab1a2), (0x7b6ca6ea5731c785c86129f93618cc5b8f727267604dfe4fcbc4083556d40298, (-0xb3740ea2b6c1cec1277a80e6ee481ffc50a19ded509a27ba1c53afd5b341de0)));
 (0, (0x7d115f878f755c2285471635dbcf78b2f8a63f80b48ce72b6d7e5476cfac458f, (-0x24bfe786a7322f0f5435a13d8617f0b89f993d9a35310ffd7910600f23627ba0)), (0xe6846061e9b0bb888790d7a691cb03faabc80749ec9a80fa838e749b9c90d2f4, 0x3d19f87835bf8dd1ab4a3d30c8e1459bdc05c2fed35296facf0dcf08e3b8b01b), (0x929ce86c7c53dd71a83b3e326eb1dff2cb6d6ddfc21d0e7a26790160bc538d52, (-0x380217e043f77cdbe5e4808b5805daa9b6d4f0d551ee88f4e18769ea1c241b2e)));
 (0, (0x4e959f87a931a525e1ce73c81d830b6b85ef5cd10542c6bd1b02310a82cdfc49, (-0x214b365e77578aa506340faa1f738797c29faf412dd5353c4442bd39cc99956d4)), (0xebd67875f64233edffda89eb31a5567df8ce4974a8f4e074caa1afc3d1f0b832, 0x181f84a9c26f007ce1067afffbabc7ce70d9ae1e1b2acfa7189570fa52c4ebf9), (0x6826bf87f6ee3323b9da353de611f2e8ef7e01f332db41465f844dbc498f2f34, (-0x1a21f6eee4303c583694361836e79d3d2673076864e63d534fdaccd7bc17f0c)));
 (0, (0xe529a527c08834f57b4324a31a0fed839fe73c5d7764e7d004268fe3203fab36, (-0x1d153290dab5c5aa70d97b0a0804d149b8d75ceeaacf7c7bbc2726415bd707764)), (0xea1830aa316976127477a54e69e078aaaf906c2d290582f65c11b5494f52b423, 0xcd23883f6fbb9ebbf3b8c6a62d3a95160e6683146e27b662af6f71b68ebc2ab3), (0xfb4c6b25435ec678afd2c9ae01d1a4999a7008f25a78f982b85be04799f00bcf, 0x18f7ed2b04b51c1c5a653b454b9f2735081e6201d4e3c963226660353905089));
 (1, (0xb733729a283cafeecbd0051aa49310e941238635df2092d0306f6f64d542059a, (-0x5066c3b3cf0530dc88fca083227f5a70ffd976fb80d41cacd04e761268023829)), (0xb5559b143c205c60d3836fc11bbefbb37da0d3f223101680c6c265ecfac069f3, 0x831a982f4240745ffc8ffa5e2b4297e7ec036a92f167a0c60758224d4bc8d8ea), (0x53f243f7ee870d2d99c8e65e48d3e99c42b10dea9b0c8ebcc333fee0b1356276, 0x25c1b3506b2ccb9aec7eda77c8022f67fcb5d436387326c2af4dcc0c2b1a4955));
 (0, (0xb2a0d2e5c9e9f067a5dd29d1b47f5ebe3d242c13235d4881194ba31643ff8de3, (-0x10c301e16fa3b68253a2a63e9a86b71564670db4d626e83748ac2897bb5d09df9)), (0x5142e7195f4233774b1a520f3663e644e55ae29ddcb34254fe11f272d0f9dd18, 0x7ca40a4fd9c384434e6a3973bc4f557bdd2499f34023e21b995db741934124a5), (0x22a10158d5d0064141903f83cc28b42679efeb9635937abf9e1642668369c7a, 0x45d3df4615a96e3196ee12f646042c22f44011144dc8f935734e72b2e119d88f));
 (0, (0xf527772db123bf7feb2c976ba8868a73a6d71cbe8d52a10b506dbe4cb204d7d2, (-0x493d09901011e252c3c63906eceab0e126d070a76925c7b8ea4b82fad79358e8)), (0xf0fc9ae5054bca09441656f1dd1dc43ffa44ecc91d44c23e25153a71b31ff083, 0xeac49032fc75e8462e49b4d3254048f1df4eac9fef4c9e980ed0c64f2e99b23f), (0xe9f719f702fc4a956d310b7851c3f43bcb980808a88cc8b89c4095e5e3d96470, (-0x98f558b81eab70b907d8333b2919cf9db18649f0fbba5f14d78ea38a8cd79350)));
 (-1, (0xda6e8d56d071994d4089ef09bd88d6a0ef28ace0454c00020d4214a78ddb1bae, (-0x65be772f1c6ebef784a2bf4749cf0685086dcd16b2055fb5d9b79126f6f7db0e)), (0x3d49411e05137861b103477e6566b5667820ef561c990e4c9751259eccec4307, 0xba6078759fa559c52939462b8c09d1203b8caac92e7b5de5e3a62eb3b89c407e), (0xdce1f255755fdeed391663d85c334d795dbb942af96620b45854fec277ae0d1b, 0x995454bac2b6486d9d109c0ede65d64698b988673a6e317f7e2e8fda26f8eed3));
 (0, (0xa3be1679357eabb3e3477c0abef0bc6709832972d9b7aa19ac2adcd6ecee9c75, 0xee8bc6c90390ee7dc4cecbd9a0e1fe03128e6966a93d57e89e1ddb99d9adbfd5), (0xe23965b546901cd0587c78eb365d49eeb7a23f9ac59440053c39909b6d7ffbbc, 0x68bb9dc3b803c54354e152f4e6583c006c1c438d293e07615df7c2f926c94881), (0x42e8a23812fbecad0de7d94c589c235779fb3c3ff0e0bf1c50db08980b676309, (-0x697f6002321296b8ca9857f8f09becc5d12d1c51a84402120e5b0b811b1eceb3)));
 (0, (0x2404c1dc9b181ae5c6a16341d3153d4bbdcc29b1a2e45bc7aae06e536690bfdd, (-0x244e8431c9e901db78d4a86889f2ef58a1c93a2e5919fce60f70587ea14b7783a)), (0x47170d8784730286a7384fd201e158e55f98429497a58fc56a1184bd4baab0c0, 0x511569cad520046befe7c39a6e8925a1ba332984d6b046ad49149134d76c33f), (0x3aa34cbccf41735c3750361924caec0d44d269fff9c56ec9f11827aecfb99362, 0x15d3b66a63fdcdba3bc6360e9bec4f3854e259f1685ddd95b26c2d93445eabaf));
 (1, (0xca968f1c8b503f865c626ceaabce6e6c0ab9d820e2a7f1ade915e23f6580095c, 0x2815d6928434ebdd0c88c9e884dd906772b73aa13ca9f83d561aa83cfd0d13d6), (0x35f054e35decc0858e61fc11c0ae94f0b61bb888d8b730b97aef8c18890d8395, 0xa051f265114ecd1ce795d5f7d169233a4f48adc52f76b75b464790b4d8f2fd4d), (0xc9d2ca608b88f1825d13ff7003a65addb857fc623cd7869c0e916f92baa2a04c, 0xd92a3f84149ccd51be7fe555f267b4148822a80bd3d6bf8aa95af310736721a));
 (0, (0x82465bb0a01c45f6cbc27d49d24ad1ce596b05d8097e70374b7e5d38fbc3d452, 0xab50d712d29ff3eb5ab82cbb752412df79cd06838a4c7f45a24f6d16eb14eb8b), (0x1e7be97f0f6447e33fdd16d8b05e2182fa33cac69a8a5778479b9400018b5851, 0x424b8875a80b52358ea9f863ce4065ed6a36ea152b9d9533415e4e4a524fd287), (0xc2ef2af3dd332c43a99fcb90ef33fc2d8e0c567c0f37187e9429f8496e4b4d20, 0xbef90c4de309db7567fd6fa4b68319289bd026e89927bb1051d7ef9f59b0464));
 (0, (0xa8f94dd0bdbe45dd0bb0e0802fdacd9aca93918be490f710626e9ef404580431, 0xf671c007702464f112ac885a998298341c67b9375ec628526b38e838c673d433), (0x7a0c8d2bdb02540a718737c89e17ea82276ea574d0cbfb091cd06ef5944d2d80, 0x6f8828ea70c2142f5f33e58c89179fcb921e7c7d8039c5f77773d39cbfd9a5f1), (0xe09f35a528b6067a17c61d1b40730e9e5a7dbfbd8effe23b1b306444197ac67, (-0x3c7016edc34f91849d84c5f8b52e385cbc6a5baee2395543f0589ff7a025155a)));
 (0, (0x99407ce1b537c9f7c6e32f6908ab6dc310940d0e26910b45bf21e01c7f8ae57c, (-0x9dc0edf3fb2af10dd3cd2989f61209b47eba6cfb607b41712eac3e2f5730c748)), (0x68d855c87780c26affb45c7d659ab1475ac0bd7c2c1e389de4afb2a463f148c3, 0x5bbe25847862b9dd3f9ffe3bb93412bc65c5f0b284f432d6dcd3c539f09e9043), (0xcabad6ea81e5827b01be92b5906719f754a2c7c3359334de229fdf2a030d0398, 0xa4c8a8cb537cdedbc3ed0315773ee14ebcc74ce7fb9faf02d76bb89dd904803));
 (1, (0x6cd8a8b575787a0e21dbd5e01d80f5831af429f25b089756b60e93b7cf246bec, 0x72f5c4e0e5f7ae237e36084c78ae8712b18360223198a92d206042a7df94684), (0xec7cfd9fe2d6036281b3e4da0b4ce953c7740d9e4ec4e74201d2490378eea926, 0x2e4785b63c828d1756e11c1dff0d570c8405b20d677ef8e32ab575e6427e4a21), (0x296bce63553bc43c151cdc535c1166867bba7c12d186b11b14ef95018589f947, (-0x37f8e07ddd02c5bdef063c806a4d4e8b720175d05442c38f4f8cf682b080d14d)));
 (0, (0xb12e240e4896d881d9aac2451449751da56be229fdc590e7bc49e1e8ca39f5e7, (-0x2560e1021f048012cfe0f67a852dc099a967853a9752b869c82044d7a02bb3756)), (0xd2f22ed7ec39c8037643b6a8000dc5c8ce71e35c4fdbc3d2d7ccdd7a7cdca188, 0x7aa0d62cba96b2cfcfa1c018a5e80e2bb9bc2a57ce6fc98258de639d21ebfef3), (0x114c2f636bca8cdf61ceb658f0fa1483a5317a5fb055b65d46ed8c2bc4bb8e53, 0x11ad93825b59d9d4508a48d2cf183dc85d83dd44ece622b9f2a3293dbae17b88));
 (0, (0x18061400cf1e59d22d4c35f2eb5f36410177cda3c67dc3b9b9bae0936bd8d570, (-0x2063792bba8cf49d44bf465c613d7f32bf398f2e03b1af34c6269b31fa89a97e0)), (0x136858502d8a6fcbaeb2022ed40c21c43f79b632cd37a10f463d661db020362d, 0x24123e5186f86a103f3599f0dfa84926fef204ebeea7b7cbf06588d69e714ad), (0x9f4127dd152b003ad8663c6e4be66033a63b797199ff142b3385d2b178730dea, 0x11f9784f20c8ad1a128c3f72a21db70860cc6e45200098fb2de4b0a5967a02dd));
 (0, (0x33fc55c6351ca5cf3381a8ab2ed22ea20991eeb5f41cb3f442207669ed6d7dc7, 0x3c43f1f51deb975d07fcb03a8a8023bfd8e1575fc5bdeee0ec99058fa79b7dbf), (0x969e94236820a8a29c180cd0bf5df1570b037dc5937fd089e1fdcd9fdff866ba, 0xa8e82e5f41f333237e4050c884a36919f3858c5bf78fb3e6f668919aa6ed3f3), (0xd7cea2218657215cc1072bd57116bdcf14b631d38d9103b828985921d7d70f8a, (-0x1aa5234491a1ea5363f7a113af14021e290e43ba6d9458ad00ef395ec3666e21)));
 (0, (0xdef6ab42ab7a9b862d38cce9f1f4fe6ed89def36b81c52ce525d509da886eb72, 0x6e0f9b9223532a26111f1546ed32b43e8e4d4b2fbd5dfcf0092e3fb9f2b45744), (0x883c9f92d2038ff34ee376a5a7125cf190e7eee2bf462677dde94acb3dff62a3, 0xc230beb5381c57d24627e4a69f14daf94ac43eec6c8b1eb9f287c52479541fe3), (0xa36d1748632daf74f239e1a684a18c7c16ad66e6545a8cf75c225b4cc4f7b76d, 0xc86cdd5925d6eb1da763160df491c579c56dd67e98970d7b2b018d4e67e9769));
 (0, (0xf6de67ae1a292b97b47d5e8027b07b2de97f01ff265e5356908cb30198d6ea07, 0x61b0369e044ca0e33cd57b99be47ea4a58fc5601b2aaa340da5e26ddc94e1b55), (0xc737a89be59e67c6e98dd69d93ad76fe5a06bff0114f6176cac449f0f72b7d55, 0xee10307a963a0ea3ddb5b3fe3db130daad6916c5f8147c09b988587e85619c4a), (0x360bb662ecc5e0dce388221e47b3bdcf00482db6da96c61b7ebab16e8336415d, (-0x3cbbf1e264683693fba4bf9043c6156ed37c708c4c73f9ca25a797dcd0a960d8)));
 (0, (0x51eb310bcc2f2b6800dba854e6acd960d6f0f07d631ee15b375c752c03a0ad6a, (-0x1ae800513d893b71d9e3aed6abd0eb33734514deb2ef365ece8b075ff8df57609)), (0x83501f08cfb0d98a7b6939c4be1f9b9d965c88ab328add581be740fb97dd3159, 0x1a36ad1c8c443cc6bf0354efa81459f9f9b70c00a93a795080461dcdd7dc6cef), (0xc50c7bef086809a7ff9541abca9e7f5622040e2aae4cf88d560b77a149f46344, 0x15baa5154666603e0ba18f0890beca491bfe409a87f5048da108cc3f65666cf9));
 (-1, (0x67cbd04f7b7d7e7204fae82420f0f0628058a56ea6119519dea0a7caeb724ec, (-0x3e13f9628da8c08b6077a81141fb7bae6c163966d9239b4e6ac88e177cc910)), (0x9472bdec00d26f8c42ee5f4ccaf23953adaf7e56e1a29a73d4bd5e58ebb0f670, 0x2a15a3e3fcee161fa954f436527a832931d61f1fef7e60865cd87383456201), (0x15acb1f6c9f41966f4c6273e5d11c4f4fdeca0bd29fc77de6fa3b1310ab47828, (-0x6f29252d9f821b9876c8eff44d84beec0b992a5f048fc8dfd5f431ea467960)));
 (0, (0xd7f3d9317fbf6507ae9a9116d229c83c1ade726085146317455e2c9c4974f51e, (-0xddad3f8632f1713d01db4baf0aa6dd7ef78759ac1eb4a8b2a732fb2e261b7860)), (0x1ebeebe78458e245d54899960665e2d41b7e01ba5e3278906887a8930ab2ff3d, 0xb62b7f1730d0f5315428416c300c5b487f4aada173d5fe2ee25a467639928649), (0x66fc355c4df623ff785ec93dcc3d54c2f2ca44af3d7634dc12b54859b6264a08, 0x634a22ee4df97233811c03761c38b2923e3860e646406deae26870374cb74356));
 (0, (0x923b0674902b022e34c59271cfd547c2783afcc5c11071a7254b8b8a3d00158d, 0x6a934147a457405a72c17aede8129f93f4bbb911a0c7d70c6dc9cead32240ddb), (0x1ce68ca31be2530cb7ab575617507cab84b7239710afca234a459cabd8e22f2d, 0x538760f8ee552e24b1c23c221e57df5491a3dfe1a866327e259a42b54cf6f39e), (0x399d87520c523bd7a6b612e3494baaefb0fc4398b3fd1c5b531dfe3803c36eba, 0x10dd33ee1a87b663363031924c5779eb40f55339e12159275e1b77bd6f3e752));
 (1, (0x34604f337422384b195e8120315679a62548fb479f6d01bdc244367a710c0b00, 0x12fec5eba0e393422afe54b8307bef6608475f1c37e41c3db69383f1f7d9d29e), (0x347c011dd80ba5948c97b1a67f2f7b8224d77e5b0681ba25e0031d9b4fa873cb, 0xab744686645cc8d53b13a816adac6ce74ef6fcc72dec533eef8a29ca34c8590), (0x48a0a085371547ce8f1ea59b0dbd751c67a3229b5b8c7de894bb23ee8a141e0a, (-0x4d33b0078a9e897790d33e543406d3ea8e48534a9fa877cf4c48222b012d07c)));
 (0, (0x6e3a785e6531efe372f4eb3f407dce159cfd3a9fcc00a1b78b784827651052fb, 0x1e436177bf8347ef79f66b2425826d0a1b9e461aa5a3ac23ae70f535a909d31f), (0x33c14ed80b410dc94db77745a1f18cedda7e8ab38043f830d9470418da9c96be, 0x2f764ccbe2556675736c68fa2b0f23219a9ea95f6ae3c1e90f5560db959a3e4b), (0x1585c6d68bcbec8114bd6c1f78fc0b5d716b7c7877ef3a26ef76da0d1e7b41e1, 0x50633e2a376d807e12cebd9346cfdedeafcab8a8eceb5ebb9e16a1badd7e6c));
 (0, (0x13edc8a6bbfad547534690347cd31ea4a32ab843f0c47f764acf0ea19a4502f6, (-0x1c09ef3319c7ef4d7f10ce6b31684c9ac3a3fd1f24622e7716a8d8715adba360)), (0x577fd9e131d54f338c176b096fe778b822634b8736d5629aafbffd09424866ce, 0x18d28a5e1e43c67bd011e088132fd7ffbcdd5cfc3c2670d8dd5c5461f8c6906), (0x87aafe3a90a22ec9973f6efe924c6d97bbbb00af2b1a3e1447d97122e4d7af78, (-0x2c857bc89c23b993e80100fa66e49271aee0233a4cdf692e118cd2c824f8f97)));
 (0, (0x500914d4cab2e8a39d04459ea7a2449e193ca71b51d58abd8c06692c59e12829, (-0x4e3f2d427f0b45a2a98200ccec15e4655225c22fbef6de8880010fe8061d5e4)), (0x6cebf17d8688dc4470d0fdad23d794428db192460b17e415ac65fb9835dc7d2d, 0x1905ad5777580286eacd697f529b5a3ae579afc773d42ed19468970536ebd6b8), (0x460948ef9bc117c9f646c26d8fc5e1e165b7424904b5f8e285cbb60040d0d1d, (-0x6b289ebef491dbad4ad19a7f1006aa108e69c035ddc101c2303611a065ac3f4)));
 (-1, (0x5c28a799e173a1b44c949921e99d4ee52918d4cbd148b6b0c68d4b71b027237c, 0x49dab53cd12ccf81bbd34ae7c8e40be7106af1844a4a129bb916c078134f4a7), (0x4921a02d31b0cde9eec0c51a2f5086798747618102a17611d97f8fb4bc40154b, 0x212d3eeb67dbb1003f1fb86740a9a52fb9b8f2f82786c57d0a3650981568a600), (0x434b3785c836d2a313ba64c784e31b78871316c5ee00d0165f60adedd021b268, 0xce264441185e33bff214fd50351ef31c3b200ef81cf52e5eb79264edecfbb7d));
 (0, (0xfd87fa50c5e6426f42020223d641033d0c615a8d841b57ad00109b0c30bc92e1, 0x469d935ef9b1d50598bc1bee53ab3a375aedeede42f408b353f373d2d444bd2b), (0x90b99af7405bb040603bc40b47d83ff7a06778b9c47653fa69b7df8693719461, 0xfb160cfd9d1bb42bfc769a28f1770f1f4fd32878b5ee2f46aa1f862989767d56), (0xfa01764f63b00c682d59e9b1839cb6112adce38d95d179889fd3e8726245be60, (-0x46e739fff2cca8615b01cd2fd63d7a2ef9ac855433c2b86ac78728cdb0dd4542)));
 (0, (0x9ed997fcad182ad6c8ba7ae6fe62f41d1eb36b5270bccb73d1518f18f370abdc, 0x40cecea9517a586adb5c9c0aec0bc14283d06031c4ddbd8f8c847d29a17a8cd3), (0x36325588f63eb46853070a489a15fb6545af4f045c1ff251ba158b1e532a895b, 0x6291508eea4355717f0ddfaf0478bb17fead16387565e610ecfb5bb5bc65307d), (0xa28083d4cf16d68c71cfc65b8b6810cbf404d6e3b01abb1f3082b9916539e256, 0x382c6f43108d12090f3e600ecc125a96276a9cd6b5f81e05b421e79d01b8962e));
 (-1, (0xeb863db9bde2bca85b5793a9d3bd767b6b2b32d91fc383a65862fa3b52da10e4, 0x3e24ff2c187511fc633f23a9035ff758f4670d584f0676d8e4f043d8dafb7e3e), (0xe48b55c2501a8256834ac697e270c4552a64102146f5dd2734f71fbb5440f2f0, 0xd8afbbb7aff31afca467e3065ca227c5112bca5362440ae9e4cdcbdd30b69f63), (0x6ec947bed41ecb23ca276e914d2198a7fa0bfd79aceb7cc42064d44f378e33af, (-0xa0671fd47832c32b4fa52a8ba1a5010834dd94f8ab194ea2a963e21510588197)));
 (0, (0xeb47136f681a6a5544a34deac05d2a4e88b528bee0adb06d8f654cb76fe244de, (-0x198766798a2af50b13b5ff8e800217675460130f4ff4c7f60fad431b3863ca544)), (0xf30470a0e194dbadab88b73f31ab90a2c2565522f86d4f9edfd53e0ce3986c04, 0xd83b916a5265f7cee4563ae305d18332bef8d9bece4cc87fab29764b3612c360), (0x75b67ccd47e101cc3d5af11212c48b6019ea7cae3729a3e71ecdd0d05e7ac743, (-0xd4d305a0ca985790eb72f60bead714dd5f0d741bd0f0c41ebbd48d6653975d6)));
 (0, (0x62dc2c005d7a4f562dc7370a9cf40fe1d4424af0925d29ce023f5d1bf72b4206, (-0x2592a1804abc4fe2bec2e37ea32922bd4a351a7ab6ebfb24b8d8ff17aca1cd4b4)), (0xdc830318f3d0e513215c1b20f192a7b4784d0a03e35124f2541950fb0c4ed2df, 0x262d4f0befc26f188492ec5b8950f2ba02454cd16e0f7db6f06f266664e17653), (0x152f2ae472b798f020c4c81c37c0b15532d60699a142cc02d041f525e448ef2a, 0x8b0e70670e07b1edc8be39032fc7cb22a5ae0db8a76c0afc18a979d1f653b5f));
 (0, (0x9fe6fecb121b89f3c8c3578f52eb52f843a8dbf362c91ae3244993b892aefa2d, (-0x21f5d7ee91dfdc0572b25e7b505318937f671cd57d4a0c48a1d4496172511d731)), (0x8e9efe0d5d9a6c01c1362d785e718d2d0539d134c30f1a7530d9f478e42946fd, 0x63e0c0ef12fa57dd1423d32612153c4e67e594a617991bce00d11bab4274a232), (0xca813db6aee86c3f7d5be4fdc73c9a03cdd2ad1d2b65ade7d06020dca50aca78, 0x30a6e784c108b2bd45a76bc5d14bdb4e16d1cc31280ff608165e6e6dfea64268));
 (0, (0x7119d3216ca8b42399b8251de50753603a53a4cb1698c3be0628bd227a9a437c, (-0x3b6f5a00f853c98e642265dff6cc650ecdcee9b4040fcb332729e60e6aab0215)), (0xb3f008c72a4f9effa429710c493338446f07ad50c1f2dc46ff416be413aba43, 0x31f7cefe6c944575e7387e79c9df4268a4f1f3cf0db56d4b898ab84b6d283d9d), (0x25a3a4922330efe95e9562fffa18b1af21d3da3d3c22f6c644a264f0eff75996, 0x3a0a9f9eee614afb163138065ce4ea6baec95e1ba693ec9b22b0c0e0a9837816));
 (1, (0x63addd6abc87357460d4965a3f4dd750dd3a8b9a2b8f3de399f6de9401b6e3f7, 0x2b065016bc5270e05cc80827107bc5a7308bd3340e2cb06cedf5af8226934fef), (0x4babf2886eae1f22ea96ba70fb1ab872ae7afa68a833eb0e0c6c74e31b55f500, 0x26cfef558f94d8185f495d1898b3d9d16c510facb8be7e6e882dcf4593f01a6a), (0x5839a480408b63943495c363ccba63e56432d749c96d81aad110983997e944bd, (-0x1915e2ece3359f1798111f67d0e42861be5632b551d592950bd921b8d0acc7b2)));
 (0, (0xb63b569672736ef4baef18c6c0b92ff6ff0fcb8776e7b913ff93e4b06d5a6bda, 0x3a804159112d73cd0aab383c4a96c38e3179aecb3c2446c34efe4e31fc06c15c), (0x3f5e13676a330ebcc252c2a8f4022520ad7790d54a24b962c4a3a8b8e81f203b, 0x81b86cdef15e5048ff9798b290eed771338a9c659fa18e03f38206fac6bd33e7), (0x5471d03e8f441613df0da9c362613b45628ee2cb7c96419f46512987acd8507a, 0x8c236bd49e1948c88b24531e6dcf1385866593ba06aa94a8ac0eec14cc9fd65));
 (0, (0xd36fe21cf3d9fd149aa4cee38f5f6ebdf9ed585cd9e20889116db94dd45e42c, (-0x2656798b1ad1010891c2ed71a2b1da71694211340e10112eb3b863a9458f7115)), (0x60dcdb972a8d0f5707c569996c1cccb02aeeaa17a494dd2d9676e10271267d, 0xaea19fa196cbf00c919915977db977b81734ae4c5d37716df8c35ac87760f3), (0xe9c39e7a7a441178446cbd5c3f53bc35633c63b3bc53008bcc4f502cfb08a1c0, 0x34063b628f69e8da079de3a731cb544bc0f521761432d80d1c106d2584692f2));
 (0, (0x4ec2f0c14402fa4d1e1ce4ceecd92c9ed0eae7e461d3dcd9786667788119c9d7, 0x8fd6cacb68c027d574626d0da42515e42bac5712c71928f0e1963e7b201ceeab), (0xa5d3f685eee562024eb408fa13da8d217447e8827938b548348a339398ec21fa, 0x183b5f278cc7d6778f1ad4f84c76d47dcc027f95274a4705481bdef9ec51edf3), (0xdf1d450b37bb69e65757f5e51c2cfdbb8e95ad3975ff3e26501ad951841de4c, (-0x32e70ea4299bf39e63dc0be77f4e26856357633e77767fb74afc5cb72fcda0a9)));
 (1, (0xc74ce0a09a2a07efe27a5ad53196ddea295054d509a95c3ab4232d118748dcb8, (-0x2252000ab096c82aa3b4919849d859f703f76040f2d78e3eb54562d2b9e0e5e4)), (0xa9d204cebd4b427109763cde278e95f940096863d1bae3db2d55c5b00f5c100a, 0x9b289c4fd42253d647cd0281d10524757799e6b84dbd7f14c0fee1563804929c), (0xcb833067477d26a3eea668c148677ad29b9b3022cfb1e888b0130889fac0939b, (-0x31bb007a3be9634ac503b0cfba7948c2261ddde3c44bf0c6b97a168186cdc49)));
 (0, (0xe337b9225608dadeb0df51738fdbb93b0dbc1903587d74875d523e7046f9da80, 0x174e5ca19d27e58fbb19c8a578f42018d9b2addefc89082f93ab09b3f4552e6c), (0x2e20b2b8df01d494156fa554478e0c7b7cb14bd7081c3cee97e6c226d0d79dda, 0xc9abde73f73750e8bcf5fc8db7b3432869ee8f251102246a752302ebb9d1608e), (0x3e47057bca033bdd4798b130bc83566b16c5cb2ad3dcd4b4dd34abb7f4773fee, 0x6dc92855c23e6b9a9f7cc4306bc1c17048ab655d5f51d32f67b63f6e15ab6239));
 (0, (0x602e172e0ef56f86c245510b67a4594958631c0ef58b140fc8b8e73f4243f422, 0x15dc63b32a625e3720157494708e7c6828561aea1983b11ea8c267758e3f8374), (0xfb484e452388965733841363a4cfe826b14bef108b1607b998146eee93b842e1, 0x242299aee1dec2d2a13fdc8959133fb24f3194a8e49d98bd777602297c751241), (0x5608226a40e7ed647fbe6093f9ac8a2851506e6a15b34470bdd45885736025e0, (-0x4d13ca0604fb41061bd02ae713eed6786c655932fb80f68f93cb1f775444b404)));
 (-1, (0xead18b41d78b9ed1877b2d5520a38ec10694b03394a6ab73b203259f1bd19c39, (-0x76d215e88ccd050401771b3df45951ccbbb12d76106e419b5a8a7a534442fea7)), (0x86bef7c2ecc504b45b82ec6c33c1044b62703bc45b05b4fdd1f5db95835c703e, 0xd763be190b4dc15126a6667000131756e95515d39d040f6f2686f811a4ffa526), (0xc397d517b610dc9e3f42abbf64b7c6083fee17f1502413dbe44ed450ef3c6c32, 0x6ae4ec9731540a1a51014509d64a7e211ee1980bad1470b23b3d819de0fc0017));
 (0, (0x14dda47ef2c58a7144c7ee6db5cd04639f3344c7e6fde2644ecf813da4fd9d6a, (-0xb4e304b02a2641c10898359d5cd7e65672f6994b2387ea5470feb7a1019f1d9c)), (0x212a652c0a040bc129faec21b2c8a6deff5104909a362c4124530d68f0390bc2, 0x1b3619942d0ecb3b45f783f2f5b5c5880ebd8cddb13491c1c96e1f2df26af3a), (0xaeed99fb5b2b52a040d75a0a87723e329e13d3a900c7e9f1b619d7936aabde29, 0x8478dfbe35678679da27690d910e38685b826b8e62e3ab4985ba68d2921d293));
 (0, (0xfeedcfa643faf6eb6430e3168587b6652be08f7162b0a8f5bbddde3832142894, 0x14f809df53d53fa310d22f13df9933c44e2709f3aceff5d8085462d4760369064), (0x6a4d4bfc4b290e41d9955e3b8aa916501189ebac88a1da7a0d031325af70d713, 0xfddcc4f8112e2e94617ebdb88fabfbb77ea547db5d7446f321de1488e4967d57), (0x20bc980cec18cac9dc8afb64cc2d885b063ea8c0301718ffb11b02d1787ed8f0, (-0x48d491a5081eec7edc4563c785d75c3b66bf726d4e481924e3fe5ad33de028a3)));
 (0, (0xd4dbfa646196c2f8c23679abaad8f7c01b14d325e74eff8d901c9b8f7afa7692, (-0x4dfbb03f9d4885f211795489bff7db89a83acfd256c7a4e2eb27f3e495266175)), (0x531712dc61ee29cbda7ca978b9987075574ea358bf2c76fdcb410527eaf7917a, 0xb0fd13bc9e48e0d46f1048ec320ed97966dcbfdf6154ed1f5dfa02e423b9319c), (0x9da817fc9d7aead1c8adf4604a7eed9320b7aaec181b66396bc3eb9886f2a05e, 0x134cd9655941fbe5fbcdaf875021d0b3e1a96508c3d918deb24cf8943eee204c));
 (1, (0x83dbaee99715dd4f77b8d52942ef366bfd7c804c2d4d6a1cd6cdee57d29947ca, 0x13e8cb59bfcaaf7650340392f4814455ce0c85541ce986884bd6d7d2d086d54e), (0x3a2bfa2a9134248602133e6f2a9d3dec148259a4244cba4c8b99435456428132, 0x43ea9187cbcb3e6e124daebdece9703c89725194431ea1e24a39961de698a8e0), (0x112b76653431f4afaa2363d7ff28da94db2189cde86aafc04f365a95ada7ae16, 0xcd5afc7a563e1ef429b9840bcebec3e0294c58604b0b71934edfe5e79ce0064));
 (0, (0x95035e05313b56623f10fb0cbfadc21e671307983d2eb012bbdc9b27c9284b2a, (-0x13aad348a74dcd01c2907ed550e91f1340768518859f3b64c889f7626340722c)), (0xf7d6c1d74da598384fbb36dd2734e96271e39c55733669844681f5537e2d0d55, 0x56bceb7d61f60a34ecf0899c3307a74f62817bcea02b34e89482d1c056e5edc5), (0xdd4503aad6b3550f0596260e09c2ebc3095860697415daa852762811327422b3, (-0x6e66e4e06ed537d0b70ba0180b0648b4ed25591950ee2784f0b180cab5b61429)));
 (0, (0xd28de2a81df2791800eed0bd56ffd2b54c057b3028d645d9e823e9763891b625, (-0x163d5dac79073272fecbc5930c197e5de7957cfa0743421c82361ff01eb1a73a3)), (0x7ca1f1fb60375ed3c477419aef5898add07a82572002ad3840d352f3104960ab, 0xad2d167f47000f0c3586fbc8102d638ce604d4408c251728b20b65ab01d6e53c), (0xd3217827d6c6d946711180d3678627580700ddb83d9581051dec7b72fa404c51, 0x65559bae6d786e7921102ea511e6e73103b15b30f64011183fd34a804656edd2));
 (-1, (0x2f6fec95db30b4feafafc6f57b23269987a5081bdbf73708e998653821a56d2, (-0x8909f0c73b180c8d51f259ffd0cc837ac929eec9c90fdafde4e1191f72203)), (0x75e0094167309fee3bbf69bb9ca8a234a25873dd6765d386362d190827ecddef, 0x8ca49ce0b149a8d297388d16599aa34e4ee5b1f9c451c74c80100308c348e), (0x7cc53e58b2671acc463a31c5926026e33fb79282aae64ed12f6ec857885688c3, 0x1408e0cc48c4802de1b12104f1fe2cfda029f60dd2a2a4925da4ffc984c41c));
 (0, (0x2d40c3e82e32708b958f955a386a62b6e76a6374cbfe8528ca9eef1eecc66138, (-0x76b72c10c6c0730d5755fd82996f6f5314771458392fd76c619d7ac2a233595d)), (0xcc81fce027466c157bcb3794e14d1a7cab62b980bb0114542efc5aacf05b42f7, 0x7ffd5422a405dbdf3960f868878361a238486fa2a928e2e5f2972c44a03d785), (0xdf31fc44b977568c8b72539a8ebd4c82a7b726304d4a1ba81afee2165bbfed3e, (-0xf50629bbe6cba02d0fc0377b8813a6fffa866d0ed60d96f88e5c02e651eff0f)));
 (0, (0xfe5452e5998e91ae1213ccdd4bad98617260142f22cb40dc24542e52ba95867d, (-0x2ea40d1fe8ef6f9f95efd9d54b94b60878c390e8872e060513abddd7c5edd149)), (0x32f757aa0d3071f239b0177272602622fc957f9511da2f9d041623c7c6078542, 0xfcab70461e3b92f0709b060e9baecc60c5542e552da6d08fa898676dbe476c77), (0x5b092e2b9b0d7d5e91594a1a7beff31751589cafc676c4647d9931562db1d4a9, 0x988a232201acda2a5731d182ce2e1862531fc7e89c84bcb9750421c9ce3e99a6));
 (0, (0xac1ef1deaf007ed3a44c2f6a28bc5c403ccbc08b7a9a31f668dad8eb8765afa2, 0x5bf9b08cf3ef5ac31d12dc942158c788ea725604ca086eb3d695bd6fd5cd1aa8), (0x4e3b81af9c2234cad09d679ce6035ed1392347ce64ce405f5dcd36228a25de6e, 0x73b998c0cfdeb5bd09a9015fc27bf2739e86df0237c80a05438f4d1a5b7e010e), (0x47fd35c4215d1edf53e6f83de344615ce719bdb0fd878f6ed76f06dd277956de, (-0x125517fb8c0081ddccf26aeaeec592141a024a3fedfaf2ab5d3044cf8c8f25d1)))].
Definition chain_web3_nonce : list (Z * (Z * Z) * (Z * Z) * (Z * Z)) :=
[(0, (0xcb35b28428101a303eb9d1235992ac63f58857c2f631ee6936d3aebbeddcd1b1, (-0x3b04fbed296cc1277f1659ab9a6f3feba665d74e98725ee2d39e827bc28878b0)), (0xc6047f9441ed7d6d3045406e95c07cd85c778e4b8cef3ca7abac09b95c709ee5, 0xa14e3460febe2c2316bfcccc1b764790c3b7d9ff92663ea740240f16b583e774), (0x1ae168fea63dc339a3c58419466ceaeef7f632653266d0e1236431a950cfe52a, (-0x3c8b95972f12b04b3ca25330b2bd449e8e938229d1fd14f76cae42249ce0dc11)));
 (0, (0x6ad2cb95963c033328d4857d4f8711deff557dd9faaa673b400442833f0efb64, (-0x1b511f0c4acacddb11995426b44becf23d1a165eac933b36c0dae7f6c721d3035)), (0xe493dbf1c10d80f3581e4904930b1404cc6c13900ee0758474fa94abe8c4cd13, 0x2c933e2a83bac0c704d83956ce68e1a07920f532e04e27ff098c8c712d51733d), (0x51ed993ea0d455b75642e2098ea51448d967ae33bfbdfe40cfe97bdc47739922, (-0xcc0862604f39a0c08e4ce0b1d06b205a54268b6c11e626473e3a3a21a84dcfc)));
 (-1, (0xfe189b679dc3640bca65db09557ee88478336cc1da0e974e5a177cadec9081f9, (-0x6a0a0f65603a4377c74cf9b0926dc187a2aad53f22bfd3221d9b3ed937f5fb87)), (0xf9308a019258c31049344f85f89d5229b531c845836f99b08601f113bce036f9, 0xfc34d6bf1ed3f2251772182bd3ebe8bcac0705ee8fa279c1ba1d894b07a46c03), (0x388f7b0f632de8140fe337e62a37f3566500a99934c2231b6cb9fd7584b8e672, (-0x14756fe73845b8e320a6a53cc559ba345f9076d3daf7519595aa65519eea19d6)));
 (0, (0xa69c17c116bc196cf7eeea54e921c6c8a847cd1fce7830438b85c5d11d8edaa9, (-0x28e0f540c43273a88c53c8feb4fb8a4365c9ea85df48b39f24d63b12acaff5221)), (0xfff97bd5755eeea420453a14355235d382f6472f8568a18b2f057a1460297556, 0x6c6ecdfb5f03e9f1648ccc828f5c32dfa5b16a6e08dcebc479b4dd6fe2fb7507), (0xae12777aacfbb620f3be96017f45c560de80f0f6518fe4a03c870c36b075f297, (-0x46a6fe3ee26f32e7130565f18f7f196c3add4756fa352b5291715b34db0cef2)));
 (0, (0x5eca0efe025d8536ea0175971e0fc6a45abcb4beeff302d0908be9f5094696a6, (-0x27ef08e3a0958f6cdd5976ad18268f187b5ee22c69042d84b73a539a62c24a4a8)), (0xd01115d548e7561b15c38f004d734633687cf4419620095bc5b0f47070afe85a, 0x2319027e33792db57aae4f77fb310bc26e01512283ceb033e897ff07dfb70bc2), (0xa9f34ffdc815e0d7a8b64537e17bd81579238c5dd9a86d526b051b13f4062327, 0x11bd25a2cb1188226936229add2ac63340fea34326d23af3e9ae12e797614076));
 (-1, (0x5f5f053823f2b2a8b6082f9b46d00d81b489c6f5052d055a9afc60e7139f516d, (-0x2028b982a3fe730bd5b0168a78812191451ee08327cd9ee0c3c0938aaccf9935)), (0x774ae7f858a9411e5ef4246b70c65aac5649980be5c17891bbec17895da008cb, 0x2387a9248a740c710a863144eeab4df4ab200cfcf16d9b5d6fa3c9a070cb5414), (0xd984a032eb6b5e190243dd56d7b7b365372db1e2dff9d6a8301d74c9c953c61b, 0x21127e5f58dacb6a32616145c97a41075dba92cfb9454c158563f6067e12172f));
 (0, (0x3523b9c66c9cb3806fe4df2bc9d3af1692aeba5755cc40153ec88751b17c5be1, (-0x4c768c6fabedcac4569da8ade8302580c5f01ae82b6c55de97c0697c47563b9b)), (0x421f5fc9a21065445c96fdb91c0c1e2f2431741c72713b4b99ddcb316f31e9fc, 0xb07cfe87c0af7f2ef5d40c2a8efaff874f12fc11863bf5dbb3272ba25f77c01), (0x2b90f16d11dabdb616f6db7e225d1e14743034b37b223115db20717ad1cd6781, 0xb096ebaf5d49bc2b1201e2c0991a86df5d5f201cc6c2716879ef145f4b2361d));
 (0, (0x19c549cc211d942f266e530f1c583e136b51fc24c93fc503b27c172465873ab, (-0x32b03c5f5a81e203ae21676ccdf36d4774f0d4e8f6fbefe2723d99a046ef4146)), (0x5d045857332d5b9e541514731622af8d60c180165d971a61e06b70a9b3834765, 0x298207487e8cc1ef00264b4045b8db63def461a86fb145c86b00bcd83d1e4), (0xdb2ba972802d45fd2decbab8d098a8c2a1d1f34761c6cf261879a7cabf06fb68, (-0x2b51639d4ed8e14fd3df5715aadc1a9316d13d8ab353e18dadcda7a078feb4)));
 (1, (0x867865aaa9896cc9faeac140476cd72246da674dc68a590854d41d4afaa65661, 0xf16e60802ce45687a63fcffaf72e1e8c71f0b79e2dcd0662b2a03de2ceff46d), (0x49370a4b5f43412ea25f514e8ecdad05266115e4a7ecb1387231808f8b45963, 0x46a2430e21daea457aab960b3f01d678135908c99de79d9df9e44f69cb60c06f), (0x758f3f41afd6ed428b3081b0512fd62a54c3f3afbb5b6764b653052a12949c9a, 0x2e74b1538a2be862739f68c6bc1872e58e1e8f5a8203a138d2ca736494e47940));
 (0, (0x89ade46f41608a33fb08a1db0a2a32beedbd1d5df40ab2f5be5cfb3c35ee4eb0, 0x7e3435ce06b1934d13dc6c3a94d540565c9d7a1e87efa3f31ee022910e1c152b), (0xeb49fd9f510469f4fe540e4b0664410f216cbbc90d97aed62af2e606110cc919, 0x4a0b949d9e2e0d34258721b89bca2b44d5097367dfe523a8f9e5303b15ad77af), (0x6e638df7a9105bbc34db14f93706891d5d6406cbfcd76e174c481324a6c8912b, (-0x7c1468ae3bf8245bd28c3ab75ed0ed26b9ac7fc6fd5944f8029f796180255d2b)));
 (0, (0xad7cf4212545e93795c594012a3ebdecfc29f57fdde3ae594f77eb3dad0159b4, (-0x1f3247632bdc01f32c4076181d895679d0aa576d1d0f8d57c8abc575c449e5d15)), (0x8267f5f35e78f30dcf58f7bc65a2514d0c8c0ac8d1f6b99374818ee88f5e524f, 0x75921ef2354bcc46f44b7fc7d1042e4c4163ed235e6e2d14f04b0413dc84c021), (0xb5cdcb48ee2cdcd68ecc5e35e976f77ec67205e31e72c17021ab2902da0ff381, 0x4713f0afede9ead36e574af452fcbb2ad71a9adba95bd94c578b6178c0c59764));
 (1, (0x7ec73c240e3b273b727248a4b7f8dedcc832eb72877b3b77b0b7db7348bcab25, (-0x44a3272c2f1d2e40ec300295ead4cc68ae49554b0b958ea12273276c8583376)), (0xb4f9eaea09b6917619f6ea6a4eb5464efddb58fd45b1ebefcdc1a01d08b47986, 0x3ec8ba420c3146553ee5d982734f10287ccd37a7f18e417054c30ad655f597d4), (0x39e5c9925b5a54b07433a4f18c61726f8bb131c012ca542eb24a8ac07200682a, (-0x190b31e828c75e78ea5de79c5649202e2b0b8654cf82e5c8c1a5f2dffdbbd8c2)));
 (0, (0xa249247d66a785fafa335592d62bad10dd6b7771d8edc6326f2fcfd7eaa011c3, (-0x136694a5046e3a1eb8c02ca091c66ca265071b328bfdad7f919f54f1848e7c890)), (0xd5fb3642dd34f7713ec01a72a2b48542662967e3b8fd89f6a675756d4c913fdc, 0x66e0a7148aa41368943d036f7df25ec51b2248db9502dae827ef83f16ca7f52f), (0xadf1024980d25d7ce626a629ec2344afb72392d1b4caab616380451a6bcf5a43, (-0x14ec3fc10ba0b0d49fd4db262207126b1b6413f15097e83b366993dd585bbc41)));
 (0, (0x57b949ae77f9ec0a856c613740604d36718a5e5d373ffdb8c6c9fa4b1d0c09b9, (-0x1a15e62685666ae87e8a6ee35870b6b64ea59e6cd816ee7eed1fb2b713a6ba8c6)), (0x8e5bda84c70b6ffec1b5b3d0d336d0dcb8e227bb80a091c33b77698ea95200a, 0x1e0f763028ea3cfa2679ac8c0c87df2209622de9fbf801d98959632d56a62041), (0x93c1631d4b3a4f6bc1231d22351b1b28d4c346775f421df757e31e941a6d71e, 0x4646bb8792fe8e19d1490a8f0d0c21b341c4162140d3c221ad73cfa3f3dfd96f));
 (1, (0x7302ac3f8d3e2c4c3b683aa85360432ab0854cc4e7a3b8e89043f2d94af1d259, 0x32b2817756996748b681f7b9c553d2aa26b597425bb0f51181da4b35c1a4187c), (0x16a1a7180855a212c068c095d930a2709906dd22e7db3f4d4ce2f393d572827e, 0x33ab66c83dc986578c9e5b92e7b0baf4c81b43f58ff6cda7f85c908e711baaff), (0xd389d64bb30ba9eb6ce80335cbe8f7ddb1ef3016a8b746602196b724d115605c, (-0x62b8e92adf0a795cd6fec128bb2b25626c9c15c9afd00364f0cab8bbbbae992)));
 (0, (0xc31bb54209e0cfc943daa8894805d43e1347064999963ccfd78f61d6b879d7a7, 0x13c713ab562fb9b2012c088e85ffb6345b7b3e1ff1f90f3a47d480147300f96c4), (0x3a1d8462529678132d7755a7e1e0975026f0549db29baf4bd3dfd1917829575f, 0x94b33922575104f96ff2bea34f6251aa8accc7fb77db2e0631df53f163b3e34a), (0xc0e06a6dc2be321dd95508eedbc3344be50c824c27b3b541b4c3de304b3d7b97, (-0x1b0b30bfa8284f762c57e0af1404752c468bbc2c92969253b0a037f742c77966)));
 (0, (0xa2d8f4f7cf55b411cde7929e15c5fdb65cf2b47f94a866d2e08f7b7eb33b7744, 0xcdcec85c4792b59a17af42821288a120b27ceead983c136a838babb96815e69b), (0x7e7d95c3c19dd1e9b434a50221a89e5cfa69524d8a1e093b8cf326f1e17c16bb, 0x67974de7eeffaba38533ad1a2025df7409d05cc7e67cf3fcc5d5187de3d75c19), (0xff7a90cb0af7861ba81847b6cd14d1137c313360ffc2621e9cce1bdad9f356b9, (-0x2b7ebd7c131a89ee8bb6e2bd0e7ab94138e5ad6b451dbf1551e0f335f92ed140)));
 (0, (0xcd75790d999dc4b6a984d1dc094356e08d17d1247a7e5a8832c42869dca8cc03, 0xde952c71a8f6d294a866623f796cfda16b775f6ffaadd64ce7621922b78c6465), (0x2f4b0a1ca23645f59b6113a785d998a114337e70c22aef55503101f7f4c65ac4, 0xa4e559c7a7b2f332749e48ac35aa8776e99a04634bae6eebed45bd52d1ecee61), (0xca73fc70fd4a5781a4f2e7a04d464f00a9255a8dfd05c93abd3d37e11c32e487, 0x3f8fd161c0a05f0bb46916673e26ddad7af6d7c14a0cdb0236bd380957b6ab6b));
 (0, (0xcc95327d271f87fd4e1300a76c2c9fc3f4631dc9a3ef164548968d9285cfe0e8, 0x1295eea12debf874982da5c22d77dd7d6dc6c871d2caf2b98c3ad0d30001dc580), (0x9b33b83997859b04ccb865b2f5fddb73f3568e89f8fe92092512186040c6c93e, 0xa37e1f6b45feebe78d2f8a58a77aea1bf92643fbcfd14061809226262302c3a6), (0xb45adc93458ee2082121fac2635894718631764418998be0f2f5635017f45812, (-0x563c4e749d726807dc11d7663792be6f7c1b659ca36cc8ba2d5698ed7a525027)));
 (0, (0xa23eb3a70b7fedf9b2c46cedd90a20d7f7c8d306d7fc4225aa94b030907a97e5, (-0x35abaa4a506eac0b77f986594ae519bba88808b7c910016966734ea13124eaa8)), (0x75ba6f151df9cb5e469913806800f341d6eaeafd949fcc913f2d14fd8f4888cf, 0x66d36abaed8a823c336b1b2926d5371c08a14e40d841a078d840d7e564b357d2), (0xf3ff176e6444039a34b679beda0acbd1a2aadb74b8858d744c85d890ca854cbf, 0x17bfedf50db2113167c57ff576f415aba2b830976e507f92ade29e4bbbbddfa6));
 (0, (0x811cbae617fe56b7c9d8912f7cd73c5e7cd91ab9b3d16d842da2c7240a69c383, 0x53b205c2f27e0a728775b6d135743a9774af7325954cc8458f1c328eac7c5d59), (0x783b3674b8d36e270772f0dddf72ad0d7bdfe77ee1a4ffbd91560cedd049ba91, 0x411df7954ef6bcb4e6e6fd843aab900fdbf3908c93844dfe8352599a067b2c46), (0xb82551222061572a009f7d45a93e95ef8f807785fc0dc473e75dcb7a8dc352f4, (-0x1432c60cc473fc4adb80c65e9cba82e7da1b30e325348bf4f68925fc1815857)));
 (-1, (0xce52f4a340bfbef26d4b44455868fe7da2edecebc8ceba0235dfd6257bfe8848, 0x1380e1fa4519be494a43307c54aff9667e3e16127fdbeabee5107a5f4cf339c), (0xebce6fad9bc488c28b304a55239c2d0c269602ec2442c31a9290ed993c71f8f9, 0xa6499c985e91adad83bede3db18435ed0b8278cff62a5bb1cc631e5a9aa84b42), (0x2eb634966960be4c5d76256084a1656a380e0458c62e7b4590445109d7980c61, (-0x5d25eba62159bb8497dc4e4a969ac19254d3808a9bca1cd378038212716f9e7b)));
 (0, (0xe8b6cb5ec46c7edeaaa9fcca05891376a2d0f62e2c1b6c618879368bc9bc4608, (-0x236b101e7068ba1f7afc322a06ceb2db1ccd7672b413c2ee08727c4b6bfffb3ed)), (0x35f8977a83e8c124c43d04ed5b79aa9dea0a52d68009a6416d30cdf00e761d1, 0xd38bd32190535ed0e1876250c51a978091b0c28f5b7e09c120f310a7a9c9bb13), (0x40c60c2df6c517b3354863d242275cf3a959ad75e6d93277bc02ec5ac106a155, 0xd34a781e8aa948673689138e263beb4c59c666e441415ceb3e8db6e244804896));
 (0, (0xf9f47fdae7fa63358d2a3dd812d91f0e74e8939e134adfa335498f2f5ceede5d, 0x7e5adb4b8cbb68cf1a67e6a24109eaf3514503902187b6122317fa2a813bbd51), (0x91f424cbb11eb4cd1ad1835d93aee317b55530c35553bc653d3d0375d0e31bb7, 0xf40d8a3bd06a37a5a1c732091da86b8002c776619f2cd4023a52c95b64088c90), (0xb92214d36cf31707f0436df588d86e450d63dde8ee19befe6c807855b2c8c7cc, (-0x8b36b7ee6d88ffc5179405a193dbffda219579c81f1aaf74d5afa5359c394e81)));
 (1, (0x91ed781244cab0948401dcc4a43753dbda6b83feab6be9794384ec766b17a172, (-0xdcce5e58c4ecf228a0b08920f18430ada551022afb9f445908bca78a47fc966)), (0xd8a909015147f6fce4b8070f25e6ed08d90ef56f8bab90e0b6f5c665946624e6, 0x532ede4c3c121d1ef50ee677dfa7fcef9c3e3afdbe20ef5741008d41993a6ba1), (0x66d0facb8dd27e9b631a5ea8cc6c3a7ddceac5a5ad3926b68248081322dc826, (-0x284e0be37c0ddba7a4507599ee9b230c5ac9157d18fa5086a673d127d61e5020)));
 (0, (0xc3645facc2c2f3b5a90d82109158d77fa9bdcee662ed14a201f70ed49cf42660, (-0x21c49dc8a591fde6b7b696469e6b60caf9208fa0ecfea1014eb2b104c38db2854)), (0x72cfe89d91c20093db278c9cfd049de14324e05128956bb4389447ae89e95d57, 0x9522111c136ed4b8207b041ba69d094a76b54014387865ec1b5348b3879ad8b3), (0x8fe1cd63d2ad353c1f1e37651e9d54ba33dae3aa5c52245070140fd2730fd891, 0x4dbc528cf03cbc292a02468e140ccfdf5b522a4d18b3e5909c172e70594f8867));
 (0, (0x47d3479e7ec0b53c983f483fdf9f11400aa210a02ca80199cd0d47e929f39bc4, (-0x49bcbd6bad76448810a0b1227c875f91645fcadcc1c149171a896609f5e89245)), (0x34be84af527c9da93a0e7d07f9bfeae184cffe07a0f938554fab56bc9a55855a, 0x1426e0190d9d22a1f77fa91b9096e056adb1a6806ef13f56deb8091585d90878), (0x73e8e7cc8fcc5deb434b6a8408ac31f8a8bfdd42a8abc1d48a100cf96ea9b982, 0x116a0c69b1186d6217cafee588c701c40fd177a517d2cd692f30c1037083b22f));
 (-1, (0x8a666878d2676588a6d7c704043c8a0d36c78ed5dc42d8e767a2b6d74a6aaad3, 0x254d89d66d5a7b5d1e311f23dd3a715fc8ebcac69b60142ee5af1e4659fcb8ec), (0x13d1bd6e57372c8cc65c5e2266fd75772a92b0ab31a6f37c0ecca810316bcf85, 0x4ad29199adc187d62d219a85b5b7dd061bbadcb405beb821e10e6b4113a6632e), (0x57950dcc7937f906805d5f848fd263410c8e747d6f67bf396b01177e0d47bdf1, 0x11cccf302656e0f4dd54890072243225cd021551b191994b3e70bd6b2037a5a4));
 (0, (0x7ef5f69660fa42b202aa633b3b48806bec0051d615bdcbd6b61f154e3972e42e, 0x52449bbb5a652ad71ed95394a8379b1e49c8b5fea04ed17520d9dfb8a0e8027f), (0xe08e5c503e4f0eeab166c8c5c5d18cf3f3e4baf81b53da31141a7db0cff72ae6, 0x3ef70b0df0d15361a589c036ab2a3ae6a6f1bf0503b5f03936fe524dbda0bdec), (0xfc002df14065fb07d7715fb2dc69f555d0fa6976b839b631138bb1dda7d14016, (-0x65898becc2b0f8d316990b10e691bde1b441c831237695ddf67e6022da5f739b)));
 (0, (0xa486b80b0eb3cfc419b3ffb41102f2f1b8128c1588785537cf0fd4fb5802ebc5, (-0x10b02dcc1abf8e53948e175adea812205e0c7d6947d4457f89fd9c7be7d103ef0)), (0xaba7f1ccf9176bf6ad9ee17581682bc2579fa3d0ab1cd4dbfd026f976da23ab, 0x69bce2b35ab9ac0d812f70e10302c1c179c652b67876fa6049cb8d65849de37e), (0xf136f534630c1487d4afa6cee9b736fdfea2c437613aa834ffed2a94dfadca4a, 0x896c40543f3cac4dfdec9685776fcc9b448cadd986e8542860b7aecf9caf0ca9));
 (0, (0x1b3adfafc544bedd1d48c41ea3f14f2435b1d4423edbca7c05a33576f9c987e2, 0x31f73cc7851e50b7dfb1c6fa8b91d84b07c59e2bf2ca70a800f990260ec62593), (0xb82311daef35f33d430260b02acf10951912e9fc96e42989b1e085936246bb7b, 0x2e578b932b595c630e3a9e06677367efa3945c63ecee22137f407c41d9caebd), (0x45df29e6da3ed00202c043a21f100c607b1fb03b3ab718bed7d1f8bc0c34b969, (-0x1271e8b074597bea1111de8f03326a28683fdd9e724d4cf1f2606cb21c28d81d)));
 (0, (0xaa194fdbf50db3f02f22f95b9b6253a0a71a75091fc5e1cabf238ad5b598a648, (-0x1307d16953a8876f34687ed636e68d6ff18a96b5d7d9aa874ee7a91fa56c76db5)), (0xcf05f41cbcbd7ae55355177794a72415ca2fadd052ec85534a9460beef4b980, 0x7105a090d3558de3c896fd3019179b023ad7820edf3aad3bd952765308e93456), (0x5463659c278478b4a21eff57e355e0dd904f68a0785abc306b171256d5d874d2, 0x71c097f4dfd5a56d57bfa228d59d171fdcd8c098bd1871a1e9aa62b945572b33));
 (1, (0x9579942f1cf52b81c9619dac87775fd6ee1bd8e93f9b2e490c0cd0eab6a3b3cb, 0x3f8796932a0c0a01356c53e0353b61e5623c3f4ad0f46dfdb4b261bcec5efa7e), (0xf9131533aef07ea7fea96c9314d5bf237e70616ed198a1c55aa8bf2f2cff33b4, 0x5746c03c4205468f54b696a364ce112d769fe8b7121fee81f74e1efccb5c8863), (0x1c42e2ba922276a3c988267c6b75b99fc1bd107d0cd7152065c268af09852c8, (-0x89e058fd4ecde17c4109a9492068543a8c232a05a5d0f8489d00a96a08e39f0a)));
 (0, (0x9fe2e9be6d4aa7ecc6cc455a5a046952bf9a7cada41d12b894bb78a7ca5976af, (-0x2d4cd8f0a9746d2a8ce3214c24804008510085dee7a31d5460e03049ac5c67dc0)), (0x4900a7a8dee058a48a4199b9abd9093706d8074670a5cad65983d03c73aec2ce, 0x63dba77c1567e500ec27acecc1217c1d14c155cae74b9f794b536d4d59d8f385), (0x20330eb3742c0be379da63e2bc213c2a92b6a508ab7b5e635e64df0a40ff36f7, 0x6df78311aa518bb976d2e8c8a0cde34c679de8a7fb8f84bcff24c0943a177a75));
 (0, (0xcf9990ab9799b36c33522a20ff73cb9aab73435ee467b86081f02d8d34982e4c, (-0xa3aeba9d37a9a62bfb313cdfb5d310a199e3061180b756380b58af95ca15a9c)), (0xb66f1dcb388a1bd70b02d2bdcd61ed8ce552de0f20ffdbed12ba239a0a6b77aa, 0xa859b413be0743723d4a52925158c68e9138d3122bff22c583e0d66d977786d6), (0xef5258949a97b9d413e2e0cb5a3734984b29449baec2492369c520cd7eed0a6a, (-0x58bdf661dd11f2123c0bb072ff35321bdff500c13e28ba6a61db06aae5abdf1f)));
 (0, (0xb5cee9c2a9b8bb455a252b1e09190217c2e58dade8200b73af661d0cc854b5e6, (-0x32193ceedd210164c82a223801975ddb39ec64c3514f2367299fa59b3e22160c)), (0xba8ced2a14804c3f8bae4635768c88f13c16869f3487fd573df66f69dc67b185, 0x811e3dca4ebc4b15667b228d73bb1421ef8210799c4c97bfb59c07b14dbdb925), (0x5b0593e8e54d606f1c7aa6368e64c8ea50630bcb0e73a566d882c1c7ef44c083, (-0x2ec675d32e932c0290a70f5c932bd4feecb5ef84df199e21844d3ab3c65c781)));
 (-1, (0x5d7106aded91b5ed789cb69fde485d295f852950abbb30bbc8ea204e8a4b70d8, (-0x17a7a3c6791147adf30fb3826056bc33a187a5434adb6f49eec20d527c1be0d3)), (0xe5030c4991b4e05e1a88758ae695a4ec101229ba65562c81c9fa6a9f30fae0b1, 0x221b50c14454361eed34796f069f9691280037e96cdd7230c2b53e24146d042e), (0x3817e6394280e26b56ef7fbb4de0b2af17cfd169e64fa094ffe0616e6c0950a7, (-0xf7fa88dcb57a920028029f2132a7bf26127176371cbc032f2296e7f150de1d6)));
 (0, (0xca6b5c606ff25feebe5efc9f1e6d0ed078d8a4e28a1c1a59d045682efcdda0f8, (-0x20de6984679b43aac85670a372f0696ddb323e1d95bc4d7542a59dae82b7fb9dd)), (0x4c8b5696e4eaa6a7caeb55b15866e4ffccc9cd92bbfce062b854dc3ea529c0c8, 0xa00d9ace8a9d88cb51b0aa9fe240ba593450e83aae56c90711c50ddbc95b5fca), (0xa082d524c77374b6fb6b231d1362daf7800067b38bd31d78fb8432130ca021a3, 0x788e666c62e2653e4b85167885f464466b7d15f8ca83dfc036ef4ad6d177bdf2));
 (0, (0xccba66ae956cd40186df2cbf2b45c5445ee61c9bf6fcb7da7f9987f32672c8a3, 0xbc112cd14f30b989a7e1d9ca984f5e34f4df5ac3d37e156be5023041b329adce), (0xf3657af9d115de9a5bcf60fefc016c44f1e4f07ee8c46177dbb93e6c988f61b5, 0xa3b99b5f9d062a28b144f23839a75bea4b38619b8f7a43f2eae5deca34fa9ebc), (0xb1375c22a8067d59bce790c6a426701059718f8c825bef28fbced2abfdf37ffd, (-0x856f5269f83a12b4417229497c732f8db6172b89a642e2555adf09de5948b329)));
 (0, (0xedce3021bfff13566ea1edfa11e36ac5b50826bf65780c35723c1f8774ac8fc3, (-0x16cff76bda5ddbbbd040b0d7b541f3c073b27b26edb5cbac8187dc6d2059f6b13)), (0xb88930a38e915630c524558ebd66dd412f1844744f60931ad4d3c971cf698910, 0xdce76b2ffcdbf4c3def3e203c34cf82d98dba9b61252262ba45d63e326766021), (0x565f01aaabacde2eddb022f3b9a543d1718b6a6cd4e4ea6920fe27f91b9be557, 0x36ad5926bd78fbdd929f5ffeb4997e26319ec5ed777724f36ec56d88cbb43c95));
 (0, (0x27d5a834c6c941eadfd5a2c4d8a0f2d499f90cd5f31b96a238dc2bb93b47dc44, (-0x1742f60358a7bf7f92aa5c933014c4041a207e910a5455f01a633ecc9cbe4adb8)), (0x35cec9a5a07e777b03a902f50b326a9ab9c8a66da2def6b4a1ae337a9919b2c, 0x632cb916ae96cc6c3ae8e7c10091486a7ec58e520288202bb275f537e0a427c), (0x9ae2907274df4c1d827982c754a17c045b82de6796b49d7cf7eb68217ffaa4d, 0x1c30f33c68fc2d972ec3c97a5ddf8fc466bd3b4789c16d9236b894cc2c4c66d4));
 (0, (0x24abb1e770b30f51a7c322eaba7ea0f02012c15b87514907bfc33164dcf333cf, 0x2a409d590fec45be2b55c10443c778c15b279eb077c6b9009ff796332f0120a), (0x923ee4c3c8f0689b130c853acd71c2d2ba058907547abc83c24ebd29c723fdda, 0x540bd303e84c6999e36ba8122606112e1d5fdbc5c16ea34e6a89e01c71edf01), (0x511b9afc959bf38eee5db0115f39207b7cac6403a6d0a28d33c53c84bd4ed25e, (-0x14779b2200a827a887c9112334b66c3193bb43ff08dc1f8f188bba1f484a8c33)));
 (0, (0x7732605cc465ef3d75bfaca1e516ee7276daa8ec9fdb088d85a9d6a4057c000f, (-0xaf1bcf39eb157e7477ab5a7eb80f6d69c7cc7bdb7f3d57918940d063eb386a98)), (0x79371b02993b61bf37e06676f89cf8cf80aaca317a84d03c4787e17cf8c6d6d2, 0x377fdf8007193126cad87cc717d68904c0e8254dd8c3ad8bd4353e0eec0e4995), (0x8bcea080016de3d0a699652dae5c34290ddeb8a7dcf1d3308ef8c490c84841b9, 0xba78bba329158cb5aeb6142a37255d3888e66ccb331b96c67df0cd46085b36f));
 (0, (0x2f45e41496c4d2d05f6ccdb21857f274765a04b22ba5bda89dfd96903d9bb76d, (-0x788d34bf28133e9e5f22bb15fa94e64066976c66941b85576e612cf96e4e225e)), (0x8019e13cf74e3c0ace7a9e91d87d15ceb66ffca4689ec26b01601e06897d3d55, 0x8babcd44daa39b8a66cbd16aad6ef714eeee64ec1d4ca5fe99e3b8ce326f190), (0x3c3d2a245b4ea803c2ae348f4afd71f074cb28ee2b20994c5de5537ee9efbf84, (-0x14583a6ab5274f274275f9a2b78b92c54bf5fcf82ec12eb7b9b477247469f3c)));
 (1, (0x97ff8f4568d910836fdc803412281bf0a9e7f4b2ca38015eb29d7ca4f1763b07, (-0x3c64e1426902a5f82f43e2cc31b11520bb41c48b1e023267b182c281aef56d1)), (0x2a24201905b5fe1c885ac5307beab9c7f77a1c0fc959cda8e8f8035655aff820, 0x5a3f7a229e258fde2435cbcf440642ab0e5217ad632fdcff38fa1e75e2bc281c), (0x325bd67d91087a3567ef1f66c0537a2e97a79dec6079a9b39a93eb595104dc55, 0x3309c4d32ba34f243456be0704100fc935b64ac1e6d3280b1c12331e1781b186));
 (0, (0xc4eee07239a0769fb49e7fc7841a7a8e1f1dc353fdaf8341c3899db2e76c58a5, 0x38aafc9cfc92b0333461f082dc864935aa7cdedff474eb6d0de11f3d03fa910e), (0xd3ce305b6eb0f241a4d0607114b54b9a9b23945fd17ba7c442a9011bb952b353, 0x977ea6950168f3d14d008618f3111af00a4c2495222aab178cd4be87d579861a), (0xe2c3ab360f38ec5c862d23deca4893f5376f23713b9dd9fafefc08bff96660c3, (-0x8284854e78444c30e860838d6dcd94cd709f72f0281d66b3b63c995dfb6e01b9)));
 (0, (0x146a1e9c9bfaf70c6e92d676f068205e6d3f163b0ad98bb881bb6f09dc8bce11, (-0x1e98e0a54342c58296e83269adb50fd23649fbfe80f26333d24329bab87c3663b)), (0x82745067470beaa349d73d5d39f90a0cf1ef372b427bc8e2e8775db1823e403f, 0x1a0c0c5d5b976cbd260615ddddf610fc48dae90238fb0104dacd43451d5b284), (0x640eb28e3259c0a8bf8b97990409dc1a9432c3db013f2e3242cd9782e535130d, 0x67cbe701ac58f3a3900512aac5d015d3787cd27a6a3a29f9913b73d2b84cabc));
 (1, (0x726525292b2dcf5798de4f092e0cf10748d80bc3e51d55b385a04af9dcc1326a, (-0x3e473326c6e9d35e47c63c77fcaca571566b9b977035791e2013b3bfe119eff)), (0x933b1ba8a0a52e10bbfb79d22abd66448f5288bd9179c949e22c3ea2f37b6272, 0x331e3d0f0255cbe9b928c5e7be650906cf570d7b05db008729a1bb943a834255), (0x1dcb5627a35006cb4ff577deee9b224e9a08dde90a076c061ac8b093cd43d98b, (-0x77f2760b8b9fd9507c3cc6c1183289a3e991116eb388ee0fad52bdedf79142a)));
 (0, (0x2339ddc8cbfe52b8101f3b2b123e0a3b4ac0c8b9b88b829ef7f54953e58aac82, (-0xf5d3bc813d5ce938b4b1b6013eb5b2d75f61dae7fb91d265734610b7519552e0)), (0x1deacbe599bcb55b040ac08807c91d38400e6cb3f1d9959b257096f2e9f48975, 0x4d8dfb96b56af93a520175d66abdbb34ba98496e54a72a24b98c99b9ebc4545), (0x8a8747c38acbaf9b041e0132d42a1a671ef994883ff24b3f3eb85278c6e6f45e, 0x10247f6bc5733a6eab135f474b801591231a06c11226e687194e7da0abd9e13f));
 (0, (0x5a042188309380f093feb18f293089e115793b075ee30d790832096e470586db, 0x56ee7a57cb9b5bc4510d72946462d7746aa324967aaf27dffc47f560a9089ce7), (0xc612a39f43cb5b17a338fc2f965751e1593199632b0f61a074d7156f2d867e81, 0x1fa6e7a4d2cda03edcc25feaaa8dea5af7c6845adaf3b7692f78d44cb61aaf72), (0x7ffeaa02b8d7b7b4edf1e663aa6d69a80febdba7f04d8775b2afde41d0cce765, (-0x3b20b87d3c91b412c3fac007e3128cdc94df548df9344090d67491bdb2fcd6a9)));
 (1, (0x4fed1d014425750e05d5c7e3ad0a5c319cad3253f23bbc5ca2b35aa175a9e3db, (-0x17d4b17f794785ec1cdd4327bf2b46f370e0f58bdd33c00df1d3bb66e647c13a)), (0x6787f3b96025ac87023913745f5e015237cd42e294f2dc006bf4ac1c0c51983a, 0x18f433857fb0950b7a84c24b99fd0327cd7e7f01fe5fa22fc053844ec1c501da), (0x8821e7cfc66022a5515958bd0431e5ce63bdcb1486c430b3846586598bb932d8, 0x1d845d62f6b647eff2d3581d667eb5547176a75693fdfe6c33161fa8efa4de80));
 (0, (0x33983e27719f019e51c564fefbe352da8042cbee075befb07d714f260ddf956, (-0x7a2e142abbcddeff2e282df43b1abd8940a0750e6bda884c258a68e799f52774)), (0xb8eb077a12e02d8b8aac692a7babc8d0f810842cc2fe9363651ca5061f8b24c1, 0xa66034d95336893d63eb0aed5146d9171a4bfa0e84ccb8a3702dc47580081), (0x3708fec32fab7c431396bc656fd13d19b7abed2a56bc7ad70963d86673e1596c, (-0x10672385a7053cd9f355204effb0993bb0881ad43ac4b488f00c6ca10ac1bc2)));
 (0, (0x7468367549502fc1148f56fbaa0810d17aeea14ea396cab4d61e5f3b588075e4, (-0x15eab21f885677af4dcb47924b33da2ba51617204aa1f7a329412f2125700ee4d)), (0x253b3fe1c60646a5132df72d7f67ce3d210aa6c9c34c59104c573fc474c265dd, 0x34ee9bc69551ed17b3f28ace019833eedc0f07ca4cf8aa882d1878dce96d261f), (0xadb88fd096ce1bd3b5f363586bce1f464c17d8a84d3c1c950cf4fe7f4d68ef92, 0x4327c544d66db05cc899ff62ac3fba573aa5c3e3301402e6043fb5d492c1b48e));
 (1, (0x677fac74fb4d37a4439ca575189ce7ca70b580952b2a21f5c7becebb2f0bec70, 0x222aea88242d3336b4e250a6b2c50da985ae1e1a5c1cbce55412858e2ef76d76), (0x92f88f5b28955d69c368a444048d160faef151e5dc750118a3a05723c89a9041, 0x29d7fc72b276e087dad2ccaec9c5d0872f9422725ff7ab4bb0e330e62c076cd6), (0xe5621ed703b5d26c5758aa3cb267c0c849d3e79e978640bb868e57a9703c4665, (-0x2c5de5d19ac6bf153c1820aa3130119a6774ce01a57749c8800a2bc14f6cd8f9)));
 (0, (0xabaf8b442b4ecf9b7c89546ef0c57c10f4376a1fee92d7c0a560e09d4cd73a55, 0x368a4c5dfe9624eb13b03b46636f679103a19b7e72381a0597067ba8a02a28a1), (0xceb2b6a3b0fba2e93991eea41be84a55564dc657e0edbfac0860db7ac5aa644d, 0x7323fc6cc4d198482d98706656ed2e077cfe48f2d90c7f91e543e6d4089aceb6), (0xc068193dfad86a1ee7b5a8d1e9d5b4c4825d2c86da6ec10e4a5fe38380901521, (-0x280e4cfc4893076a5c80674fd260b49a2ae1be4ebd64d30ffbe590168120721e)));
 (0, (0xca1289ca60cfb72cd2ab13ca26d1e345cf8b68e122deb0916a5b1035f282822f, (-0xc4ec2a7ccee57878ee37d922b8d7dc57539ab3c5ec4ce09980aa26824022e633)), (0xdd97f5ea7ae7032c095f4ec85924e37c008db8dc37bbb2f16448bdd946de5fbc, 0x9f8142cb0b67a5e3bd3b196cba68654b5653b51733dcc811676e48599fb38ea5), (0x9a86b3e544239a9da56a13e52065bb0ac8ffa4305e07849f9428385ff116ac6d, (-0xbc1f810c3b0ca2cf8c26658325b1b6d4ad2eb6bd7caa022c9fae04e0a6f8f41)));
 (0, (0x8272174a82b40a7dabcfed6c00097ae5859fa21edcec26d23ded2032d0a2a7e2, (-0x1a1f49f9563bd45b4e72ec6825836857ca02c515bf0688f52d9213a6ad2929104)), (0x57194f3847dbf5243c900f3dacebef88ea92030a386c9ab999e34c31df542cee, 0x427812806d39bc2d2720311e38bf2c595484d7367983ba27813779a4ddbebd42), (0xa742bf44ba45f5f006d26a0d6e72413b776b506d757d938096e070915e4aa15e, 0x448841493f87715ba0c4e69b8838c85c4c661b82098cc8961a5f22c71d24e9bf));
 (-1, (0xb67d841294a343b94a6eeee5576fe42fe742251c1369d720938a99219469d21f, 0x18b25b0843cb18039615d2a86ab1f91e0b5e5aeeb28431d38dd367baea7e2f14), (0x439dc43f7ac997f0427abf11fe4ce56a23fb70f2ffd8632c0473ce3356d5fe9f, 0x8216b554a9a0765d33e23541d03026b4c2d3be5490b888c040bff613a1c7ba24), (0xf9bd3cd6c29c37a76ed2091fd94c9bf7f296b8790ecd66820932cf1684eee474, 0xde3622cdaef189f1bcf817d1d338d19c8162daf7f7a57b412131c9ded71dd71));
 (0, (0x46d3718eb85c5784410e3bc42c46ef91bc81794a229145ce6792554bc72d03e1, 0x549c26ecae11568ec9cc6879e281f43ef8d8ed372e6d685fe73675aa7e76d06b), (0x559d5a7959a9939f8ecbe2b39bb8a5a7561f3959a4eb5b2d415fc324c6c4ed8b, 0x139850be7075b667280fbd69aca3a55a23fef8c1ad6d06636cfa66ccb4165888), (0x5d403e8ea1717f3b4647af392637cf64650e677685eb38b102c77c206d324aa9, (-0x4fac0b87eaf02e39c172dd6cc08bcfa5ecd4c6055259fb46e040052b41f98c7)));
 (0, (0x489ec5c2f670b00c7042a9e0eb472dcf3b6c71d629a24c622a98b657a8121ab7, (-0x20fdcdd5af0562c668ad98a120a87af2956cca030383b52b3ef63e3adb439dc3)), (0xdbc1d7ca9dedca6f03d25bf6cefbbb1d686cabf210d7a91532cd989baa3a9f2d, 0x1499b1b6600d39e42d7acd6b602b8c688ba6fa5b131acfcfc8e7e414ca9d8ad2), (0x4e120ab7983ff210a8a40e13b7bfa70eb6f6732c7ffc7af8adc05daddd156b36, (-0x260d75647093ef44ecab48dfa4f8444081224b53865211d9c40158f87c0829e3)));
 (1, (0x693fee04435208c304115bca7976c13497bc3b8084eda880d7102050a9fe8a33, (-0x284be371bd10c612c33bf7c8f92acb5dc6d3eb52733d073d7bbbed8fe5be739f)), (0xa395230e38121fde0f18258c6d7f03907c97e56d17cd7ef6c5ed8119704314ab, 0x2b458136829e5acefde12a5f5ddf0117e8d7ee88dc85fa04a115f25d4b067597), (0x4fbad16e26a5fcfd01af3e3f19e9f36a2cb452159de17ad3d5480eff2fb9a6a, 0x17185d5c3fa3d733a1a7368e421370c498294d511685e89a5c3467325980ae9a));
 (0, (0xd4612bc2232513026d42ee89679125241451826bf727222772c2cf636625cfa0, (-0x1315125769ef5ac8998187214986a9070f0194262664b2bee838c185e831c62c5)), (0xf8a4871b30ba5e9b0ca2f532f9838665e69fdaff42d357f659729372b21df30c, 0xb031155bbaced49c2a3470bf9739d15dfa949f8c7796ec7a5c63b026ce94d4c2), (0x2f437193d5b7a1c3ac6a55bdb76a14ab8b8a0ca3bbd4d4e2337f8e598e9e8db5, (-0x46910839bdfaf7852854c9a3abf6070c77961b86b2f1b8ca4f09d159bd982d71)));
 (0, (0xfb2e6789481556566dfd41f9c1168088111ecaabe76a3a472b671b4bf102578b, (-0x277be2b56853e66db20af76364607aedc18b133c570c3e66e6d177d5a01c04e7e)), (0xa18400b2b8d37a25e9ed18ba22282c2290ac874909166d65f68f4b5124ffbd3c, 0xf6740770928f8097e95a1dbedfb5ca8f554fb427a820384856b6f17cfcaecdeb), (0xf4e2eb06f8e50015dc4d3c41122801ebdde6d8e65edb6c0aa3ec663e071612dd, 0x557caedd63594c7cb65dffe3f25a358ddb06c6d434d2203da8287856e1b9e102));
 (-1, (0xa8d442480d4ad87bc29862535de3faddd8433293070eac1732380208136a7ee3, (-0x1a3aa721cb9170b40071f7edb48fd4d89ab4b5c9835817c3a186b74d1c4fa3d9)), (0x1c4006c51137050e734f1239e5102bccfc702f67ae9428342873ad16d585686c, 0x6f5746fc69f17b3b0ecc9342be1a147410dfcb88cc597299168056b387be2147), (0xf935b074c48b1f40be157cadd687b4891d3572831a025ac7ea1723780c6cf36d, 0x57e31acff746747eef82c10922e711c9e2e57ced8957173b4a46ce4e4564ecba));
 (0, (0xb3b2a2852b88617b13bf30fce97e38b5d85b876d114a0cbd77c6e124339a6c75, 0x15482ab5c6bab25fe043f543d7c1730ec06ac1657f9fe48d3cb1d1510bff407ae), (0xfcd408222a70e4d122dfe46ed3afd57d2012fc37ef0ab7bf86edfb83fa1e6777, 0x7e234beca33e12588b40fca95d69eadf67e51aa48bf03fa1a0830807b84ca0f6), (0x28b158e50f90adda3337505e970405dccf078f452e72e88f3788684dfc55c6b1, (-0x9da4326f87512166da708c0b32897c7954e2f8e6c49178651e5178797956c1eb)));
 (0, (0xba3ce93ead3eb1d40994ec0f15562af30f0c2f1f1e8872c851019e4ced7ea73b, (-0x2b1e14c6cee6aefb674283f7e05d644e69e25e2c05de6a4957453202dd721c533)), (0x63f52572d9a25569fd2f104711a70bd842283a6ce556d85f1f35d80474bc646e, 0x877c916d3da3767ff8a0ccad7f17d3010b4c70cf6f6b993fd77b85f1f43dbf53), (0x9a1568bca09df2352ac2d0ad81f6351044e712ae3a8b92396449e2ba9a9e5c1f, 0x6f365038cb8d8af83933c8a68bd8bed0b0ef70614358f72e2bd717a5cb17d52d));
 (0, (0xb5e938a7076dc10632a07cefc41a801027e0b246a3b899db83cf382c1d257bb, (-0x6766e0d239d4acb9b345edf369ce1c90a56e8daa3d4b15afa6a4b25a889c271e)), (0x9bc80ea58468df292fadaf4b9cbbd9acd4714ad15431f2b9aff9acd0cf236d2d, 0x81439e945d1638f6d6bad4a7036293ed4f37618be4cfcd0d001d16a2616870), (0x164e2767bd8aa020c821a5423a804cefba9f3c75f282406fa2866e4e477b97a0, (-0x27aafa31a113b6c56c67294b3aca618fe0e5667d9eadfb2fdf02ba6e10d9efc)));
 (-1, (0xbbba37a38d46d4555e814ac80196c54c1b13a1a0a7fffd41f1a20fdf57ba5247, (-0x18f5d03e25441c88dcb71dfd067b49a622b67aaac1700b781e2ff134e7c21ff5)), (0xe4753b765502d1364c734bb50aa70ddb0ccf1c37eed9c06b065af133c9b058a1, 0x89a994bdd6267452e98463f19ca35ac7f0a70ca8524306ee858883c8d81c58a5), (0xa9b6c98eb8612964180505da5e4019487fffd14fe52f97b97d64a9104c3676cf, (-0x354b5d5abb17e6c040001dcdaed557a86e66187368b1b447c139750b4de6b855)));
 (0, (0xf7ad04c890df3d3cfc227b5d68859809af2aae22c6717379ad8008a9a3910267, (-0x11b3ef6791785baff4a5b7cb77300e01b7cea46a10aee31e69de07b8f380fb89f)), (0xaebd75bcf4235483db621dec8f2650f4bf3479e47d8e64a80cd43cef46546b81, 0xef9f542a7eb9778e1baccf646038eab544339b38d31d0c505e3a7e84712fb0b2), (0x6797c1209a5cda4b4538356df7f2de98f36e0f96ab788d77085de59e6298dfd5, 0x33f89df76fcdadd5b54af03c9195ec5192770039788b22b20fa0c97eecfc0784));
 (0, (0x3ef5cdecbcf31a0d6723af0155b043f3ba53d4f95e79968a45917939bcf89cf1, (-0x132ddd81fa9e1f367a58699fd68afa457e25b7946704eb38cc9fb60ef51ec9657)), (0x72fe50b66fe07e5e8c33c282f0f23ff939842d56b68de3ed91b58f83bb1388a1, 0xf7bfbc2784c6b789f04281515b7226d7db2392e1dc123520b1f8968ce70d322), (0x47a47810c69c6118c249c1d43cfedd20b2610549553b28b125745ad5948b838, 0xeb1a8f5543a3974e6d5b3a60432e85dca61b8570c08deb453ed56bbac5d6c9d));
 (1, (0x3b32221327a16fdde53a32045e3425cfccd3082f5c045c3239b63631b5ade118, 0x18f976f7d29daad07ee94e1d69f24f5c4d6e32d5020b5b42ab9738703e686d8), (0xc7be99e9da73b4d9855fb039586e67c35b874c6f632d5722cf12b4e30d8ff0ff, 0xdb025862848fc95c4267f808ae1a706acabc884bf4eda27b416e13e48d38578), (0x6373d8c9271bf627f17fb470893b95c24fb14b9b4ac70bd858477a95ef0ade48, (-0x1398e9b506b7be6525cd60ab34c954e7106e7e5ed9741130fe3ef5a6d920f3b0)));
 (0, (0x128759a59674dde46af974e2f039c5d09a58087c9850a9015b02064f725d9329, (-0x1c5282f450d3d7cf029267c495be2a509cd0b4360f0c05c5e79ae2d400dc8ec7d)), (0x6076559739117b11d8d54ef4854b5f451926832b5485220be93af89a07dfefc1, 0x157502af531ac2eb34febbe0ea967df19c42b4e8a58ba386ee5b486ae5833ce), (0xd86db3346977475d5d3e5319eada832923fa1eb2de4617f2c757ddb22efb095b, 0x779b014c4f444869754ce8220f3fbce75b523201714a7e4d4a9cfe3f9fe95a5));
 (0, (0xef68ce4a56b385ac4a64fedfad037dbe1cba7cf54b3cd208021446b6e574ffc1, 0x127c325de69752319e8e3a2290f86e022d94ba4efca7f03efabce2604f93a18bd), (0x4071257f705d226e63c1358046f462735f2dfe4511ce96844f2e60e95d46c7da, 0xdfe4dc1710855e93772cb0fe3e14c91c7bb1f1e163bb7cb8dd3f0699be1067eb), (0x2d2935b81ae8985e882f714adbe2546874aa11c0fe7e41c8564e34702c3ecd4a, 0x1df1f3cf371524e69cff345419be7d9a11ef14a2bcc75afb90de60d5b3df561e));
 (-1, (0xb0e5f35b8d800e952803c9545ae6c7026b18696fe386a438ed1fc78b8039d840, 0x27989543a5f29989847dd1d1eca3542db019c773ce1365b6338f9f92cd71ec1e), (0xd7ceb66d211a911bfb4b01951c6cb7ed176832fb027c2486dcdfeced7a965a0b, 0x7a3cfd2b2bb22a8630cea3bab4e00fe660a120ca640f4b670f9b2dcaaa08d1ed), (0xb6eb3119d5830f2b36c525aab866b0c712110ddec124dcfb31df69382cdd1083, (-0x68984a3a009fb907ad185395e74ec70694f86af8b57b4e231191e3f41e2b2a83)));
 (0, (0x9ea9c9916e38de9ed82e2b64a936db889ea75e7d35aa6816689294e35c819863, (-0x13f09a4d056fc7eb6eaedda4f267e8deb8ae5f62bb3a6885b43e719f4ff60ee37)), (0x4a83c6cc71f6fbe2d5abfa41d83ab1c38d694bf2ded238c60090af36887e5ffc, 0x6256056b44c76b955a08f5e199167e27735c8f76d132646b09d027c9fe889079), (0x29b63529a0fadcabe8fdfe2ba1e39e415e2385b35bdfb9ec7d16f3d6e5b37fbc, 0x5791f59d77980e570908ecf7537a7903aba45165492c619ead5afa18c2e663d2));
 (0, (0x16567b230471862a73e9b721ded1bebbcf3c90f0689aaa8422ce523a1bc446de, (-0x39c9d89a64826f14b9daa340d2d9ab506c12dc75d6815b119864e59250e193e0)), (0xc47a9404b8ed571fcc72f994e5cf376ee9bd45aa52e060d1340bc37ab1a79f26, 0x1f2fa60fb852a64be7d4608305a7b848c30e581cef70a4260c8a46a7cd0557a), (0xa683fa8b5882c02ac2acaa7e2ce81339dba0a02689920389f527b3cd40c3a08, (-0xaa469360a770c74d54a484eb4a8f1c72c5385c808014eeb35224b2f2988cad0)));
 (-1, (0xb55276292455a32a6a6d537d0fc85fc56023d834293da473540df750e321536, (-0x34ef1ef4e4a8583bce834ecae08eae2fccb6b61d43d936cafa06d4a5d29330c)), (0xce6ade2c700998c93e110c147d7c4750973a382b963dda2526fdea1831e55369, 0x806db5a6164653b21cac5654e483f30928c91d7f532353d541dad6a2230653), (0x1180f56436bed0efd393882c11a908d81e1a274539c93bf3a11f9a31958a4d8, (-0x70a17fc3042edc9091abd32a358f101dd964ad26430b6ff33ebeb84426719e)));
 (0, (0x608e37a6a1231e18a0d76b469c70461f52b6f5b9022f7aa15566f8ed3a1c7139, (-0x1f27d3bd94c58b91aa95771048addbf53d0c09587b78a904a48e9a52d7343a56d)), (0xe1c73e03fc844aacea7e22fdbf62386d40e8da5e2a62e868e3c9da0a79d9e911, 0x246af8bec1ce1f3a51dacd2957b5efd79930059916f0a65d482746baff3bc492), (0xc5808e60dfd184e58e1d33300e69a52968846c7522aff47176436d7e090aba3e, (-0x74d656370eb23e5da9974b1a3a6093fb31d353512b1a8ecf249f0a27b0248e2)));
 (0, (0xf13ce3ef6eb53568c88caf010cb8fbeed25ca8fe42589a78e2c3573263efe5ee, (-0xe1258234e11e0d2495e06831c7d0bcbd92928f3cc48a4dc219349c333f0e61d5)), (0xb266a03ded20cdd52a18b6f726083af5bff8336829113a4f873bab8b4b47cf5d, 0xe353b3a4719f91c595a8aaec9525ecd5be80b790fc94718e813ca7dd56bdba4b), (0x6c9caf5e4ade1e05343bf9302e2c9e9d027f182af5a5bf2487a4e42129bb96a2, 0x2ca5395b6a7f3c6300f2ae9c29c94526c0d724ac9eac3488d89a2f364a92f908));
 (0, (0x49347fc47b8acffc018bac5edd513a7621badfcc7b8059051cc4ffef1f55e82e, (-0x136dab7d966769b59e22273df5508bf609fd5ed0cafcb4df8feffff5a5e43f54d)), (0xc1f6836c67d11eb8634badb81886528a5c05df4893301772cbdd51938bcaba6b, 0x14eefba2360be46359cb7b9821cfb1fc864ed3e39abf9b6cc4664e0e0eabb011), (0x83d9b97b2bb54d3b1a6bab01c7ed2434795ca0c8508dac6bd63f230cbd54d5f6, (-0x47338c6b9cdc3b11704ec6b4f59a210b8496610fd96ef550cd9bc5b81ff25a4)));
 (-1, (0x932914b4a806e0ac21a5dae069125f14d2928f66229b4d06cbd5b0823475bbdb, (-0x2983cf705147983a56944c3900fcd68501aef1a377695aeec2fdf1eabe66689d)), (0x14b49b2e759139c5420e8bb63e1e0b59fc1bf576da0875ef0b097ff92cc1650, 0x5498345f1c8271f770d71ee049648ebf45f0c6c71ae6a2aae3221f07203a0bda), (0x1876a286c0d4ff59c2c1f955c0565e7ee6541da11ea210d00f983989a146c92a, 0x6ec13d271ad7210f0f01c68e82d3dab015d0d47686ed8d3a7267b5fec86a8757));
 (0, (0x4b498c01a2f117741e0aaf787cccb159da14e60a285a95b6f7202334b71528a3, 0xe5e8b7eba1e58aa9d5753bbf7ef9a285268cadd34f8aa9f9c53a8c630b67c44), (0x91f63ee5691e8948c8d4ed72ebd35c403df095a50f16ae836137cf89fba891c8, 0x16242d2a1af9fb77c9129968b8a46c5cae257efba4b299995b6bf697fc2c8f6f), (0x7da6b6979eb65d2ea2d470933c57e1409ea237a78121e78d4a5f79db03731757, (-0x2a8ba5b42242dc4e57a1a0aeec26a64f84e5da104dd6b3f5ebbb0e121266e967)));
 (0, (0x70501dcf82d2bae2e45c604303cf448e3b8592e567d67968dc0a971686039aab, (-0x8b6a1b1c31430b076397768f2b60c65d1adadb88f1ed31cb8d186ce036479e5a)), (0xd9cd4d3a2ae261553a5caefd7be21234710735bf96a8f9cee77c74b17fe469bb, 0x3146332837a2d313e79be3e69d058f04a433f1da9a0f663e67c5938a144bec72), (0xc09b35a0a31884f697746b43bbdfc43f0f007ec619b96f376112d3926dff4a94, (-0x1f8491d7277cc4578aaa110e4481c39f55eb3b6f927afc3aa79723e135d8e984)));
 (-1, (0xbc50cf7be7799b6c966fcb579c7494982eaa64888cd85becef7f77404dd5b13b, (-0x46a943f41d14c38fa7918bd0637df981f0efbbdd19eaa28897fc6f08fcd8e04b)), (0xe7f6153425866213d1387ff15b5c720cdb9d5782c99877e35b6980c4d32216a6, 0x8a86ca405194e4978a53de6b6152bb32401f7ab8b7bedffdaa5cf936c033a660), (0x2a37f3ad33ce1213126f95d8035d4bdbef19188c089ac6a7717356457319a727, (-0xa6a6b13e64780e404ab4a345915ea80ed249434d7c12ae4cc6e5103dafc3a5c)));
 (0, (0x61a529cd07d6d87162be683dcb7752a292b865d6f17710c4998c68e79ed7fbaf, (-0x2565533dfae50188d4b978691d0e2b394363f281a472ba0549e45785be7c87786)), (0xbd3bb13434bcb3f17061af92a0eab2daa3920db1fe99bfaecd0938aa541bfb61, 0x253e943c49103bb14ea5ffcf1e267b7718da9f967291c35eda6de4cbe838554c), (0xf7ecd40adaeeafe8668998c200f54a0bacb29ae22557ae3a766f65c0c20e356f, 0x104c310080c7a32829e7c7f4558e6e8287fe2d8689ee712d012df3438408fc7b));
 (0, (0x75ccdd5cbe537a7a5cae15c56eaecb14874c411ee68e183c06a4ef545ccc499a, (-0xbf784cb055650a32f5fda1748cad761e16ce25f29139938540772ef0006a01f9)), (0xd19a079bf00ecce608ac2336f1fd7de1f13dfef3b390d27bcf713578c305115c, 0x3634e6485130e53486b22656a00e0f3b57327be6b1539d854c11adae1b9a805a), (0x6cebcd1bd526a27b5022154b047b4e5d4814e9c52e49a8ecd9739a2170a2374c, (-0x95f6a4714e90d468fba894cba3df6477a3a5979fb42bfc09380ec390c49d797)));
 (0, (0x1776f8d50541be82cb82cd89f0bcbd2d873a10372e6e2d50f911a77c6dd92eec, (-0x1eedefb531934d17874b5ec01f4ebbb702d712f0d9ef001313e003d17b87195f0)), (0xf0cfe9d080841b29a8fd574c8289a4e2389271aa79ccc0efe9d25378de9737d1, 0x22698009d30144841c52fcbc275ff521c0df1af0d11302d237e9637ca816ca9), (0x743649462fd3c3124179556dcada9f3a5af2115ab9c0ea0f597dbed687b2288e, (-0x2dc587f28d1531b623959b32179b92eb6080b221797da84e489e6434f60a62a)));
 (0, (0x62e3e399ad91ec042b10b69915b799657d96b8b95fe791e8af348f498819a834, (-0x24dcb06c5359b588e6ef7e47ac2194470d6c56132b80aff9adcc5161e92e5d73d)), (0xae64605b02283be96fb20c5a2c907b3e6b77201cbf9aa01c3d0be2ef21690a36, 0x2633451f15c76f8d770738f6fe6fe3bd3ed6c953d3e13e15218cd3880835f4c8), (0xbacaa2fbb4f41e030dfcf76afe5e58fd01fd2a5d6177f2d7c2bcb2537dae185d, 0x19a84b0717bf153b0143850e3fc9ca4d8c025ad9c65890985bbf01eb8606453f));
 (-1, (0x8ad5550efe6cefd3c35322c00c440cb81a7a1ce0f4f144d96071556a49358e41, (-0x1c8d5847b1e867fc62e4cead98d9ab99a336027d98401c7ce38ac5c0a724a047)), (0x34b6f568d60c83494bae77f4744c3feaaa1e2b16f61f8472f48d42fc459a40b9, 0x4b4ab17ad183c9ac8d01def0e5ebf915642260220ab0d7118ca74486260c9526), (0x3c16fc5828eb1f721a6c6ebf82e4ba7b90b326e4232bc96a6558bbf0a151169b, 0x41fce15e3c31bdbd82051f8dee26ac16cbe09edbe2ba931afaa0d9f128adf24b));
 (0, (0xf5681d1d5394b1fad91742499b71f643dccfb5a1c4e1a528fd2ade47e1b17128, 0x52a45bfb65bb58f1efb94e06743b9df84f2282c8df2a80bbcd309c26e9cbe833), (0xf76e08674bc2071df955cb19de2a312803eb5a53a037e42ead16a9bb3b414444, 0xeb407211cd1e2dc67aa3d192222d0dba487d787c012da9d5dce14fe3b587c396), (0xbdc3d6b81cd299f9aa602b3e50d57712f9564ae697eb56292dbac1da76ed54ec, (-0xbaa865b2497cf76fd965f7d76a877c4dccf0e10768d3bf1d36e4bd3aa801d4f1)));
 (0, (0x9cd608e4b3459fe6b591f84195825c57000d0d0da62cf055ef7edba641c61ddd, (-0x1e4ec8c3cfcba7c43aa823be2e37dd3f915b9e6b80bd04bffde8987b80691a6c8)), (0xcb3b71ca0e63bb3d6d153a7fed07ff451bdd3c019ca8cf5248e47ed3d8158023, 0x60158dc99927aaccae8f2573bf8b8bf87f6017f34bc7cf253f164a7d7e867c42), (0xec13f6ccb3dfcda1bf9ba4a0e237478fecd58eda9432db40070c325994ba0f4f, 0x1b13c79ac98d3593a8299a51971989b665b56ad7de651932f4b9522809ccf05e));
 (0, (0x6ab8b9d1fccaf4cc770d25cbc270267216a309d32773ff8d1b80d792fa9be233, (-0x11f30c0ffd8d80833139377f283c6dda1b7877aed0c3a9d47c0ddee1a53be47ef)), (0x155e253b585c9296d2c19e122746cf7352a5c405fb6c162f978796b5ecec08f4, 0x2c7d7f2d8a14a2154b5572f83d28c02f2228bf62d64c014eb3223e5ee98c0b41), (0xf74f792de1544a584915da7074815342e2eb6f1376a872bdb8fe26967501e5fb, 0x4bd0dcc4378673eb0d8d0af73773b5dfe080ec0c21d77aac4464966122b9765d));
 (0, (0x9e2a36895d95a406264afb5beb832288a89c48bf06910447ab4e26253962cad8, 0x12c3dead607b70b113237ce3da20eb7ed50b7cdbc9548a876adc5e96f77720c20), (0x34b8cb40d4f8d78e6d744eb25dea14085b778d745122575911d1eff065720e2f, 0x61b822478035a8c1d6db56415f3de484af4e2edc2e969c34a855154eb0e6e527), (0x9d839ee4d1d1d45cde0d6c3fa3b49d84631ba72e5a1f5e217019aaa117068424, (-0x135f1e0491cd27963ae9251066fa2001fcee407546b9719c243555604fe26fc9)));
 (0, (0xd69543310520f6b2d79de1bfdc3e5f07a966c5bddaa0fc2adb2883dff25595ba, 0xe77cf3a74dbffd09abfd8e21da7482ae0f5db6834ea45053be2c15671b54d423), (0x4e8ef99fb3ab201e704b459527f1088f049b0b208cf7268d8a8e862f6d793a6, 0xb3dde35d3d45c6e464854e6a5307c5d44d5823c9619daece8a678efe1336eee0), (0xcf4f2734611bd61c95a0bd10cd7b2841507138f2727e2f916559d264d6ce09e5, 0x2813a224e05c9c549f5e8ced20141cf644bf5184653e832918dbb90c9b80dc4f));
 (1, (0x9a38c00f567c0d450e3481a8e43ca98fdd9bb038bdc449373db43110ed526d90, 0x46624fdedc6b370bf614523bdb1e70d4bfe7a8340d2eb19d5540799c6bac3943), (0x757b676bf37b9a2f6f5d5c25a86a4a363b582d7307709e1c118a7cb0a38c528f, 0x5ce853a70ada18e236f61b659a427ebe163ca14463253f2d62326931bb01e43d), (0xe77e783cd85c3049e659092acc42817a8f5198a8223bb112d26e6dcade187d5d, (-0x43d110931dbf9a64c8d40537f7a8a272ce5404f7442bb366223f6b717ab7074e)));
 (0, (0x4d02edc2900e9f1c2c756470196790d03d297ae081652724aba7ee79605cdca8, (-0x1676b7c12246894dcab3aa51cf30c88de98d470c48c2fefcca615e1e4d47e3dd)), (0xde2061f6333bd67ac717e38ff85e901aa16d61f6883ac1f49b7e7714aab8e517, 0x172ac30f9e84de8b2903151b3ae96bd47826081a487516a8171996c35c6452e5), (0x7d38862206cdef43d9c8c3f0b651ae71d28f64735dc10bdf57750d552c618162, (-0x1f7ad1d5ce1bf269dcb87629c81c7c4358983009204a2467a0a6864ec5a4ad31)));
 (0, (0x97c8e54e5ac242d8867908f9a2ff120ed6081671501eee27521e928f1ce31eb6, (-0x1adb7531d6b494b54946b23103a2c96c7e964e3731b9475fab633912b7be67715)), (0x6bc06cdad4fca4835b82686a20945f9522890cbff19fd810d395805fb7738e60, 0x59fe9c2986e440bedb1a2ca4a054f1d01de2b248d64df0beb9b7fec720b0b90a), (0x80752b9207e72e12a440eec3a032e16d665af9172c6e1e5583608793a52f672b, 0x43d05afd7a03983e10d0938d6528d08ed0dbbd6a43996b48beb3f00fdde4b503));
 (0, (0x60c7a9292c189826cc40f2263b9174d0567c00dc6ce350d4784a67a6255391a4, (-0x26ef024be576bcf1b8cf7b10a360a486c663f65638cfd78086f4a30dec69a598)), (0x2bff8205f5941a820878016c473cc78546925183a0e9ae015ff86507dadd695f, 0x24965a974edc633145deaf5a888c767def07fa44eb01e9ba12919caa899862df), (0x4af7d7255d2eef70ee286c2fbb9f949257b4a3b60f0e9b32017a4b01704baf3f, 0x181a1126fb2849ee604e7f2c0c0ca5ce7c4f24f53bd79054001ad760e460f3e6));
 (0, (0xcb8178421c9ef7506466e00cedf7aad0dcf62ca1b7ae565feb6a1403f5fd5080, 0x6081655448767efa4703e5258341f48cd3762d524dcbb69b010ef61602e9d853), (0x9226f10fd551995f06c264f725201487cc9cf5fbfe922f441d1ab431ede399d6, 0xa1c69633448300568b46636651a4ed4118ce6c78c5ee60bcd117359bf4952c54), (0xe828178b7785388990759969c99ecb1aded7b205ac170a6409e38f8fe463e368, (-0x5134eee8a60802ae6a69ebdfb0e41bed6668d0da5bb3961abfef84fda5b74789)));
 (-1, (0x1c569b1cf01d0ab325a00ed853f8c06805052c55ac2907b4534dde1ce78fc3ef, (-0x2b3b11072e424fe72aa0132f20e7854964e25395cac1135496ef4f04f2ae7de)), (0xa91df2090c6df1c66edf5a8d5cdcb3b2104c6a678ca6421986977d8dc03228bc, 0x3230f3ae9f3bbe2f31e08e4ac4928a0bd5f4e9279755d2baa6cc20fec13efb9), (0x382933c8a66f83fc6f9189bce179bd75232419e3c9093818763db8d428df1940, (-0x28ac8ffbbe4c8abaac5b648febc5a7b8bf65621f9d28bab91d0e4a57604bc3e)));
 (0, (0xe8c5902e6f9ea81eb024d49472d3895fd646353c0e2615327e49d67ed27dbe8a, (-0xe9084aa9ed5d4c1c2024a353a656323e253f839826c90a916944829229ae71d0)), (0x7ebbfef0d29fe6e4068922d75c32a5ee176cf38f82ad1a06801c880d3b9ea145, 0xd3a6adcb62fba0e5294fc34b8a0531c39c18b962995a37b3f811dc7733044e09), (0x22094f9f997a2265d3781f8db720f409163d3b7dc00639c23dbaaed5b59cc711, 0x2689798cced940fabe1d92f676d9aad8be41a8aeef134984ce8f36738fa0f73b));
 (0, (0x5f4c6e25eb80a1a27da6ced50abc8bf063a8dcd06ee7e3a391c78f8d6a6e0e59, (-0xa2e18f20b2ba65a12b8b3277c8725bb9a8141e3a5a17764b7ca59a70052e2457)), (0x70c8fd2e746823502a8d1f62d0b8830939eef7d4ed888027d3726ee323bcd62b, 0x2379d091bab1e85708782ee2f3a8de57af287e8eb087abce75fa7b8e14d96684), (0x919ec2aaa4a0b806a4736ac35c8a7ae8e613b4202e405ac9aa0a8af032d8afb3, 0x53157cc226084a27f08065dc4a75a6c8d6f5def39e0817b7fd7ed388b31b39a));
 (0, (0xaf1fa807ec135788243c86bf7d186770b0a7b92a7a385ce35278a4cc9c235c6e, 0x32299fc22aa75b9a4fe88935288e9590feab0bb4cbc81a0e72d463ba2f45d727), (0x687d15914f9a74d1a1ce875635d719d02c76693f3307ab782f14ad2dc04de799, 0x77cc4ba4f4f804737a28aabcfa852672b6019ed4a421063514db2c2b98629bbb), (0x7f76977d08f644117bd260e57c9aa41a00da3ec90d253114e790d67b7c917141, 0x5ace9f789e91ea0e0bd161037584b08ac7b0c5cf29b62dc0db16c891385e8b8));
 (0, (0x816f18d7aabf32905a7aa9237a956f9fc419e7142c6d5e35afbc6ddfaa4a1490, 0xf28a53f9e4927d004e89d16dd689a9961cae86000a473e395f40dc4f3283c3), (0xfcfe56cb55f247f3dbc0850f641e1cff74981006d62dff11dfed55c95d04bd01, 0x4171273fe783e8776ce292379d9c491311e79d34976d73940ca55b05b3ad63c3), (0x33371dd10fdd8e9e4087fef8cc88ad89fc5d4e46f7227466eaf8211a66e5451b, (-0x4b159452bf12f8e1890744360c031521b28a43fe5c64fb998ff48ca3229169e4)));
 (0, (0x7d15f411dbd466431cab15c1b7e58ce59f867e840f795e43b979a94f1cff339c, (-0x2bc048ae0ba79a032fe316f2635925ff41277e723819b1b0879344322d4b660d5)), (0xa6ed5751efd7907e6aefacfd076140710f595e03571b35625812afba3ac76228, 0x3d1e723b644d890222ec62110a9e408f301ce681265de7c819763ea2cf41abfa), (0x4670181af9dda25c3e4b367f04f9ad4e5f6652f5d4c6994b8332f103be7033c6, 0x2a0dae3170590b28641c5e18724f94488846c95d312f8e68f91b3c5f809c5995));
 (1, (0x2def42126ca98eb6335ad35733b8c6f95af3004414103cef607f96ab6fa061cc, (-0x81b7ad144c1c99bc170c5f173e9c2c8007d5a2e1bb3fc74e71a889a9cdc58ee)), (0x5e13de82c407dce7c8425d65086c4598ae7cd1a78c344e01f8fbb9cb91707450, 0x83dfcd6e9a8021f69cf56b4ca334ac82ad28d6e2c4dd255dcd1538da42edb80), (0x30dc8e11be4237660ab50490a3ce1dcab845dcaedb626092851043ac6e9bc10b, 0xd1250118379507b669d527469891bda40a54c487ded9ab8d67dd106bd711ae1));
 (0, (0xc80ab94e0823f9f6c4bae307d4a8ada78bdee0fd3f8de006d6d0f6ecb54b1ba8, (-0x1b5b14e510cfba685ae2df97a1792882c76d3c9eef2735dc5d0ee8bafd591a70)), (0xf6becd6f0e0467ddfebb3ab91dc22aa4c922671798ae7651d6792aaaac1061c4, 0x9c50c1fcecf2b8ee1020a0b9b0bf48818ad81b001cfbd0cd0f27f44a03f026e4), (0x7f7648b5ad625006dee750e32b00921a7e451bcc05ad72e48dfceb1234144631, (-0x774befd7fea089cb4c20916b719aafe5190032ffd7acb38ed7619ea76d1e7b64)));
 (0, (0xd14f373a46dae3a41e14dca317d78e0a4107150e075c15dc87d0887c1e7b53f1, (-0x1f90bbe5cad4bc449503ebba6b8233712e1c00c115d5c3f443ea36b9ace311172)), (0x64f3503e10625e8527620a34293d11d3ce850324489fdade219cc3f127159440, 0xab2270b049933a80b504bc13503bd5dc5991c6ca31443bf057027f8c941bcd37), (0xc76b68a844a92d604aea6670f6de5aca47d3f0636e6c7d7dab498c218fb1d7dd, 0x77343e748989bf62998522942a32df071e8edba251a985c7232cbdcbec1950aa));
 (-1, (0x4ad81694951d235bfdb50c6f6e2de30db00adfbe1875c47cefe347634f0bd1b9, 0x614419f0fb16197f54220716d14043a55daf539ee14de26af083980f9cf6763), (0x1c0e75cb08929ab445080e9d04036e5081a78d4432dfe7e82e42e933230b5900, 0x15e1a37402ee597a9c886d27fc448066bc014873f8a3939d95b89f131e43f777), (0x6504bd1b1ffab023dbdfdc9b982904f439fc5a0595091db6ab50344f3487502d, 0x154faeab8ada523726a7109017db0db54a3a61aa4692754aa8894a8331932eaa));
 (0, (0x90d56c601247804a64dd466398fe174b4278fcdd4df8e9ca739a63a61cd64bcd, 0x691444687dce62e63d9911fa1ad20019204baf82a751300b5e5d8279a2755c8e), (0xbea761d57bcb0da49e253dcda8b1c684c3eff86438c313c04d392fbe0c401c28, 0x51f0cbd99a500ec93871e65066f0cfef5b0e336026340af5c1fd261eca3216cf), (0xe0a14d6d5b7624d5c3b70a6b4308debc9fced265356be55ce76b055dba34982e, (-0x5bfd92d7ce0ab5a3c30cb7d8968d4faeff0599c7a73602663a4ebcd3cd85370d)));
 (0, (0x5d71f6c9b8fa14a3348844c90cde51437f87c659cadb3a20c048407770381097, (-0x105f9763d374e19e93cdc2d0abfa444860a72e884bdeb8ec63990fbea11b2f044)), (0x8ec2d49632cea3716569c359b5b8ae43674a1b0dc88f98af8cffbd678db993b0, 0x221c000a5c634e396a45e57c1af5b108d7c3ee9d415c1cca29ea26a4ce489abf), (0x90da154269e8c8473b72fb34469f569e5c47c54aeead27a2386f698adc1d0e11, 0x117b595db33baf66281a3fc6cdf32430d9ff7474ec690aa3c87f1f6c4afdb0c7));
 (-1, (0x29be6f422a7c7286660bf407bef04780a99cf6fd3d0abe7521a8e0033e8895bb, (-0x36d580dc7b866f249f526688b962cb6bcd4321d37a88fe59cb19cb0b046b671)), (0xb0153432d492ee1eb277ee109c8e44c2ae2b260d2a5c1aa5fd9aab3649c63dea, 0x6ce8d4c882d5f5ae6b7f9c6f15bb03cbfe632f3bd88eb297312fab8712cdc49), (0x81ba934c0c391e13e033c20d11346436018e35226c37954f5f061c095a8cac46, (-0x56efaee6061c6a92e559632bae53be9cb69dde9b10179f2840c95552667d05b)));
 (0, (0xa919fc6fa8726a05d56768a1a3fbd22d3bcbf6508ce426faed8e8543325b7b0c, (-0xbff4cfd2d450b0157d40dafe518a78bb9ee0f0c26bac33c32b22b325e0fbfba4)), (0x4123cd8f6333b48c4a8f7907dbcced50a4c9cf089dc19fb50fb164dcd45e3257, 0x6fb351eeb321faa92bb001d4c0f217fbc1b80a21b5ee4b2b4850ee1ae11549ab), (0x90934b12c4cf3ddbfab6a3f8a3ee09e62a29bfa94f42a66fd35ffbba26d5fa36, 0x49489fbaf08254939dbc02ead9db0489273fceddc93875c61f6ba5f94751ef18));
 (0, (0xe4ef147097bee50eb05b56537d6380cf837bf723fb95d9b5968f394af5d7b2cc, 0xd0dacda7cbb19b336d360e30b87c125d77e3b3cea861f33cee1cec76813bec33), (0x31c9be94ae236c4c4562339d58849cea03aed0e6db2f33d3c6de1f35c9ae61ff, 0xccbabbafba2927acd05575489f72c1a736a37c34fdc177354717f083a9933a8d), (0x590910b5f9172b02454c1bec302300a40dc5f5d22d5166b95d7ac44aef587926, 0xdba8ba50efd3fca64eb3a5e450800163ab3a846113355b5c5cbc504d984247c));
 (1, (0x5671e015e13ce329c7b5f2e4ed013d573c7ebdcf137ad3381786daec7b8451a8, 0x184c32630d299ab6a13136f6e521fbf911594610623977b6d8f2b51ff70da00a), (0x151502b357d41aac50270a29a4df25cd93f14e548316d87743eae36065d503f6, 0x1d30b5364acc0c69e4c305f6207719de55f6ba95e7e96c9d24a355e892df8ebd), (0xf7a01979324177c6e8dd18ace4eccc534ad31fb5b47eeeb1b105d953368903a0, 0x9b17c0539f00066478684c27236646ee369928b5889ed0d15ba613aad787d7e));
 (0, (0x177de36b43a3e11370bba97ec6f32f634e30ec4bee8189fac6d6c522c68c110d, 0x283cf2617daa67f808c209997f4d2a8e1496333e67afa793451168e03d49db2c), (0x4329495fff5968ee8433edb0bb76f860f74ae6bafd384b979c47222fd3600052, 0x227dcc526eee7618943a09deaab7823b56044cfd9433a1ed1d6cea9c826b285), (0xa8a6d7651d3216cb641736f652497bf22b71db1cc21f57c27253bdf5791a77d3, (-0x43a7b2f4eac36bfe3cd2e35896ff99559ae0429c05a0869558f3ff4525ea711)));
 (0, (0x69a24a239a93113c40a951505c72bbd91ca078b8a4788c2716873c8c6523825f, 0x5652c8566b6a74825026341103310ab9444b83d1f185c9cad56ac20134333792), (0xe9576335cab5187866660ff481d63752e87767299bac9db8ea362d8ca2e77349, 0x2b9687b31f54e095e4cf8c13b100d7c66240d86702f1035ab80ee47a71d450ec), (0xdeef3b0889ac3cfb3063b394910466296a0108d4fbd86bf83c1474b39a98099d, (-0x449241e579cfd33b8fe62c8ca5f926c15f1a47412c1078b16c8aa0b782378537)));
 (-1, (0xefe467a700fcbe009a4e5f44a5b0aaacbcbd66a28f619f761619564724d356e3, (-0x6893655f1ab4960b06ab96eee52f2718c5e754fa10ed24f9846ea5867f3f56c2)), (0x9afc3c211f5925da234f088518cd72f2127c107c2ba0ab754d65ff9aa5a42627, 0xe0cc45529f497cb53bd68bf6e0c5399b238200a00b07ec86bfc84bc838e8a28f), (0xb53f831d8ed29cb9198415c0682307db78159f7a7729a9c7bcec05088d2fb085, 0x496d0264e4e0a0b5ebc40ad1e9f74eb01e97cfb9672a3ebcb5a55fcf8cdec43c));
 (0, (0xc0f431899a50c74d368388f913f411cdfb96260000cd686051cb6fd5023461b, (-0x10869c1dca431622f17e29a2261a29ea1fca3ca44f70917484d46bfd08c1c4c4b)), (0x56c3b9eca87c2f0b4703200fc9ea00210c03cc533164b85bc8b4e68be1023a95, 0x916f333cdf5d4bf930bb60fb7cf58d3d51723a30270421e3bcb09e35fdd3ea), (0x93326a63f27086c5c4d9177287d499359d6544be7e26f54ba021b6d5204e92ef, 0x336b74b6ef7041a30a83902523f25c61018df57233aebe71de1eee6cc5637ae));
 (0, (0xf7e79ee3a2b7f03954e4b21636b66704d46d3372cd4104d1b2e5590be9c52ed5, 0xc4dd61518bc4036157c38c8b2854f7f908bb7ee38b04f486b90b63d92b5a5965), (0x2d82e1e774b4efdca0c074bf413d69a1a828ae6946afc9165fcb1374c8600f54, 0xf010c62b656c60c72f709f08fde65345dc2fa7f1f1edbbcd9638a56a9ef8ed35), (0x739f998da0d47f2c3a6832f3a2dac81712b1ce33f0c98ecb8342930c0e34737a, 0x27f2e38aa5b26615a64d5edfa2c20bee7aa992bafa5403299f141ed1efc7df14));
 (0, (0x8fc5215bb0189e682cc8043367ad53a50ef8294eae47801f84fefad45237247f, 0x69988c4fc56dd9e9bca94a8b9fc67edb3d5d743dae39272b76ccb09428c75a64), (0x20eec5c458b22aaf9d5585884ab29b86f80ae4712055013225c6e92de2e10ef5, 0x50bdd310ca314b1931d5b6509f599e6e4f464c432882b71a7aac8cd35bcfbfdc), (0xa0cf6306d4bcf108a253dc6d782e084a7c1f81ef597b80994074f459312e17d6, 0x7106b54dc97aa607f3c2b7a2988b826514267c6bcc9dc4d5fcd42c08ecfc3ff));
 (0, (0x407b9a200806f4e21c62c10a06413effc49709272cf34facfa594d343d2febaa, 0x444d49fe1be5dc24a79204553007c21c356f0eebe622ff9bf2dea8b8d9777fc3), (0xdb18133c4406a5c1cdeb59a2f2383efe40461ff8de6b126a528e0fd37458c69a, 0x103e08bd7b95becac0165996f25242be8a87f71e2910e511f7eaa7b9d581e5a0), (0xb844606b77bec4821822c0fd5751402464bf950a5fab6720429b5efe55a5dc23, (-0x2ee4354a570d5c6145964d2ab40c6db4a7e35c25fb66fff44fe4277ef5812065)));
 (-1, (0x11458316ec529847a1afbaa02f4888fbd81bccefbc1a518bb994f134ff58afd0, (-0x691637dbbe98eefa8156bac95bb3fd55c7901d3982982dd084842bf7464934b)), (0x200d0fad7f64c8983d49374350a119f37043206a5c4e4f91615b64998882df4a, 0x12a4e48f8ded4a99a4a5eb77e69dbee5021c01087f343208fb98f4cec7137bc), (0x56669f7010d8d7784217265e34eae2704d9c11e589947e58cdd99fc11cf3d9cb, 0xc9e84fbd2f89c45ba314dc412287acd60b69d295e7b85d65c95fc37bd8d478e));
 (0, (0xa7e847057d0bd92cc45123f538677cb0d0f43bda81e8e6f34a579f1a75d69682, 0x654ce033e8aa464ab2a71e2a9f703afd0b6a794c42e2bfacd225425cb1098e00), (0x699e1d004012f07d7c92280da2bff9a9eeba556b59c25c26f9ce019d317a6a1, 0x6e20df69f6cc264cbb479341e2f7b5da7ddcaaeeb117153fa6af5233e6150961), (0x351773fb5331516566cd87a8b437046dff414e31e8dc5eb73ad5dee53026c13a, 0x10b13a5c899c88eb989064a41f79bb2695729947519b76278e5d40aa113a37c3));
 (0, (0xcbce2961c53202bcfd70862f0b68de00ee160eda93a828d2a64b51d730479919, 0x5405fb98f914df5000d47363559d6e82695af2a9b7840e3290c4a0ddee58f23f), (0x4ee87edc3c586412fadddbd699073a3447ae71f85d568b98ba2d4c1a3df26d2e, 0xa2409ba7aec723552ec4f44899f91c1ccbdff69f43c12c06d759ce0e2ac5c0cf), (0xe004f8532a338fbf5912c2f2f293b8ba688022c8512752c53804795aeec8b14e, (-0x3990917b452592dee69a8f3ef36447c18058c8cd37a62168db971ddf50c0d543)));
 (1, (0xb20597e7e6d0bd9d07d6bfb8867d4aeb34e0a3c8e83f4b0beea9514fd2611946, 0x1dc9aaa7a737d5c306316694a8369f93aac7be596f90a247253d33b924530b0e), (0xfad1adc0358b7063e2b204d76ce970be30ae0cb0fcf0e85eff70ee74e31e8e12, 0x7bcbc75dc62cb032638a208e69a9061b5975e127be67028fb6f5bb1d56864974), (0x25db03284a840acd2fd5bc248ce69bb6783c96c086ac4e8a702992762105a374, (-0x778be42ab2cad12dfe1bdeb03dabde8fbb235aff63cb8c5dd0db291f3aafb206)));
 (0, (0xf53b75609c6a710d8fe02cd4e1a4dc0f76569bb555720c5d71ac223fe6fe6b1d, (-0x298b3cf946070ab18e38d15cfdadaf66f1ca4fbd46f6364cf6af7324ed6f797bc)), (0x31591d6dc95254b186baa2d4e9ba087a31d592c7e4aea03b7676dbf63a947557, 0xeaeadc7a3bbd48e30c607cdd4ba31b215cedfba8a0f0b0d0dce50f0dd017b392), (0x8e48bd066b0706f7e5f3de5e29b8342e62e80b23cd1438dd4c20693edf517074, 0xc0ff2d4846d69fe0a353f199fb8274fbec6f2bc7d195893a74fce31c1a1bfd69));
 (0, (0x163023a1a112b6cd5ea11186d3e34c5ba2f2843ce5de2e874586b4615f7aae5e, (-0x3dfb17cf75584b98ab0a978f13670b1ee454aadb657a217ab4d040127d832ed)), (0x303437e5350a8248f6a6d89c522ee8f2f8a1f38bcba8246b252750ac3005ec18, 0x1ec4f2d29413686f625cce758cdfde2d07c0aebee6288c79b628a3ad4d2e2a2), (0xa8c3098d3197b239f49de741e2174641413c3666125cc27c1277293a885bb58d, 0x1962cd8aa84a7bb1ef1b4702a2f5d8af84014ac16b38c2a51d8fd96733e3af));
 (0, (0x1b36c254a3b40b51a352b0d5e6b1cb844e07f90dc74d26e4e6b4aec7994415f0, 0x8a677ace2b3995d47481a9b9347f2ff25f3dbd6a9fd3cad2fe049ea569a6e60), (0xb69f092aa756f874d69f78e995c059c92b185eb3d354e4fab73ef4b3d429e77e, 0x2e498b469c16e70b6e246561c78297f8fb433435cefbba74a25e1bcbc0c454e), (0x4738fdaf3f47b4d8cfd51c4e93ecb270864075afaac976b6edcaebe9fdbcf8a9, (-0xe4a04a3db4c044ad1ab2bad571c4959f2dc9862ffcbf579738239e2ad6fbe0a)));
 (0, (0x85198f68c121d5d4fc4285962d9702da776aa121e9dc1e8ccdc8568df2dc88be, (-0x13cc41af98295235b82fc682e6b334a0a1908125d72dfe186fa91651c3deebbd0)), (0x3b34c385f6c1ac9d2d31382bb5e3783c823e48c3d8fb0680482cc99d602861fa, 0x453391902b79136c5bcc1b8f61df94f5a92425489e693b820a3243e53ec19b52), (0x681703988010f5e79b234ad5a9ebc22c35bbc1bb53ed606f89d9745cdd178a5d, 0x402a88b23a0186d0d205cdbde2c9863605a875ca6f265208e6875d54eae343ae));
 (-1, (0x390ef578de03d8bc9ba32d19af6dc1aeb79a8cb1f9de52006511d10a61a81609, 0xdf04cc79b08326a9b250384b92edbcf16aff3092313763fdf12ce9151b4dccd), (0xaaf73f354f976348957906b799bc332602db88fc40e5090c161c4701343d5e63, 0xcb7aa2f977690f3f2ee8e9c8614fbc175bdf5a89896e497e8f47f0f69936e64), (0xd57b2a82ad13276241219e9259b0ece3294ae36ee87618be659b30ee7669bbcc, (-0x18e8d556b2d390ba44cf801bb4fa673f1757fabeff4acc440aff93d48d3a7946)));
 (0, (0x3ac7bf3ed19cd34258647203a6db2575991d5ef61791fbfaa1a6d1604812fca3, (-0xf47ef883a649c9c29f7473d35ebdaf0cf0ddd7aa2f662ef30b13d886cc68945d)), (0x49c59ef8129233778dd8f37989e9115125ec6208d7e13ebcc9ddad5d39f5f654, 0xd7f1e835983bdbcb807b4e017978de98b682d1bdfa003041e1909784c1ac781), (0xf013e20e18116b84670258d814af6fa85d9f65a4f97b5cc6497696851a5b60c2, 0x1651147d4f95297de8b52124397d31fd58522b1f9370f21ce66b9ada27ed9c31));
 (0, (0xd256d2050952914eec16ac7d21a5474cc4cf44f3e6b4f8242dd80988b812f732, 0x14abc8e7e7cc59e45cba35f263ec62c803737d2b8e1ff07743963ae8d71498e68), (0xd945cb869d58d69cc027991655ee48cc17b5925b703f7b58936e4ed990d4ffa5, 0xacd28e020af9fd43f051e37c90c9228a075edd91d5dcb853ce47ea0dc071fd39), (0xda1f0aa8e67ee13913a4f331cf5d379eaf661aabc4c67290a57e3197d5db62f7, (-0x75e7cf55dd01274218a3bb719b9a122965169c964e702abc1aeb614e9a572265)));
 (-1, (0x74a9a3e10655b8411c24b6cef4e3a68dc8b1ef5b215b8ec954aac921c6ce5726, (-0x2b88a75055cffb05c41330adc20e60619a2349efb6df815c638dfb10035f53f1)), (0x60a2e458a472787e7e4b83d194471d9091a1250e56fc898377eae2c7bf34a0b1, 0x352a2cedb5c0600592f15bc611ae991df0c73c02090968cdb510b117d1afde2a), (0xff7a1d6628b06b2f412a6cf3f6e3fac02fdd1cb4a4dbf2925e80fda8bf23a633, 0x36f9c185357d5df1e319170ed25f2f2f98fbd00988975dff1a56ea1ef2550c52));
 (0, (0xdbf82f0cd2e8486df5f82847d346f2863ab7278e206d25ca1f4fbf34a7cc3f48, 0x1499a90155922eb41f0fc77ed0180682471bbac4084cb8d833ad00ce7e219fd03), (0x9d02835743242c8d22659f8a30e4123c6b1ee7b5903f73244aae89ac95d34e56, 0xbd02911b2257c40e360439f0e009e02d395a1ed3bae61365e8472c05e51209f8), (0xb7dddf9fb816d1b74b68ad03ceed945a1147831d98fbf0d1e778ce6040bb31bc, (-0x33e054be6cd52c6acd525ee8970c53d393c687745911a26a567874197828f359)));
 (0, (0x70d5fbf0436b53f7b4b5d9ce01ae8450ca07dbee7530a97aeda0e13d9667184b, (-0x7eceba95f5126bef16edb5df5ecd3a61570dd2c5a751a2adc54538e7521b88bc)), (0x15462ac5f6ec601c9e51c97206e72d48ca33222f44e43ad7350ea9535e7998c4, 0x31bbef4f70bf1fc569f85cf3158ca8a046b27265902ef63fa40ef5b7336198c7), (0x95ad444c9bf5e79cc6d0ad81baa0e478fdff7a0e75f54d875db12b4f177f421d, 0x3bd3dc0a5165853cf0176cce2a8bee5a14a24f732998f6fa013527311de6e4a3));
 (0, (0xee9e8d36c125a1a5fca49d7f453c2bb2ca04bb65b16d991c17c83005e7975d16, 0x111b9cf3ff2fc16f908ae5cfd55cfccd387b5fb8279c22903f0b14979093ef0f4), (0x57affab6e84ab8f3837b1a1f71e5a23112158ce2ead1d6c16cbf7a009d65af78, 0xde6b30c46c9dbf7dac50bda35fc36bf1fea7e498b8f124243b596f224fd7445c), (0x5ae8f03f5752be8aeac93a0aa8e00bb93cf15f837ec521d1527255ad308f6bc1, (-0x3de78142d30fc995cdd261182b175d4ccb52f0049ee63f8bcb792cd5eff22c8a)));
 (0, (0x958f161d24a92971a6b4565db36c4392836279fdc49aef85d6f611dc1768b5f4, 0x101d8777b60a796aa38616fe767a445cd89050b9eeb141a30e22289a5a978758), (0xe9895767e3bd194e7b63df7dc173cf05b0ebf55917872d0cc5795d076eda5837, 0x575fdfb7a324e4d8ffb919d808e491ec0a5de0faf6dacfae289e9598d28845e7), (0xf2608d59d1ccceb664eae6a22765db8713b9e331245e232bdc87407d602c2ba7, (-0x553507f711afadc4b94db81946f5e6fc022bfc5313ecb44bbe8f0c5129d1edcc)));
 (1, (0x3ecf7c3b79235908cca6d6797229859fc2d88cacbee6df04731d26fa753b9603, (-0x1b6dc1b17a56258dfb2c19bad11548d43603f036b8c202a3e8d0ecf2e72b3872)), (0x5f36dc8a707f2f29da856960735cd7ae70e5855aa92a8a8afff05515ee8a6905, 0xf692856f324b1758d39c50d69340969359cfdecbc6fa8e56dc0faa3b49841db), (0x6c4c6dcfaefe53c49a65010f1f1fc72183f8a02c86fc20f2f9d9185b55847a83, 0x21f0159310f2d815a4e0613e9746bc395325c807f4bde61c0599a386ed3c8c54));
 (0, (0xcc6135c73657f8320e1cb6dc8a4d0cabac7b017b3426504ba804ddfc5ab5c302, 0x42aec41cd0e11135c24d38ad99fa590b603ab252e3c0cfd1b43df83a5591490f), (0x6c684fa488289a79fb35eeccbdbf9681fa85146d3cd68325dba110f3d3d236, 0xa32b129f4adf79bfd17e47cba481f0829a8deaef8a69987e262a5bfc3d558f7c), (0x58481457e15d86af0d84d7d6e33b75cf70d2560b369e5de5d494d995e0f305f9, 0x4bad533e925feefaff02476ada05bcd206cef8743fbb768e5d37109eef2bb57e));
 (0, (0xf3e8b8515867b9b353d8dea1743853b0499f03ddc529d54e3d9513043bc08b1c, 0xa838ceaae3d96ed09a184d0973b668637216581b583040e3df327cde1d288b74), (0xeaee02c855270f4d7053a96ca7141593ed76de9fe093827fa125780faa2eac41, 0xe863a17905fa2f793152756f1531cc94d390f7a4d01178cb07c4e23f7f44740d), (0x1502d79bb817265660397f3cdb6caefd565bab41041c413aa067820ec9b2a953, (-0xdf6e33ec380b15799b716d1b10d4a7010cba6d14152f06114c7f33aaf3aeb680)));
 (1, (0x81f0339381fe67d9b1df9da2d628c70de46cb6c05f2e5b6ce301e51c22d7d8c, (-0x397331312fb8de0a3f7f4b9f383abbff2418c8ee714f53730d31f7dcf6156ff)), (0x5a50794e89de24c45f665847a3d91460ed84f9cf7f7af7acdd8312f0413bcf6, 0x41f3f55b67fa3c7606ff4282b025ca4350e552363e45d1bbf49f99f65bd30f), (0x8947f5b7a176a3dba0ca39c894eb4eda3a2f5d96bbd49b0e8bff7ed0aab891ea, 0x7460e9321147ff6fec21f63ef91e7234cb17f54694609561bc7fc143a5166e9));
 (0, (0x61c260c071537dbcd8fee335dfcf8dfd716cb506cc05e28cc648c793a5a98419, 0x68796afe2aa779dedf835d00736fbda2576b15e2d512efc3b07d036fe085c3f8), (0xa7e9e243ac50a6e702fe11de39a016fcc59bb71b0c5e4472d909fc92292f6f3a, 0x2554e0e89e1ded7c7c5f18bf57c769ede29b2800fbf8d8da9915216809c559a5), (0xfa2d6a01ac88064ff6147d38a862844dfb0eefb80dcb7a9adf2cd5313ff9741b, (-0x3df74c5dbe11e6facc9f958cf35aae0b66a7da82e58a3ef4a8d97c07ad1cc4a7)));
 (0, (0xc162db4141415710284ce8a88c965e49720f87d3b5e638ddc64886a001efa726, 0x2f90c07f177150a9152cf5a705d7ae46452d02112d5fcb1f47dfe648eb65a4e8), (0xa9fdb7e045f7a1513f97abfed0e369e876713a1a44fef89151a46bcd1476a3c4, 0x921634c4fe23319503e8ebbbda6c6508aaf7cdd04c3180d5cbd3e68604152854), (0xbec831dd09c64fa8c605bd603447dedaea9e4629a321b65988ceb2e3c9ed3661, (-0x191c16a551779e5aee92af37e81b1409c8fdfc58b9cbfd07258cef1a5dcbc88)));
 (1, (0xb66f3bdf448dd62485b2006bcf7cf7b0209844583b5b3772d64a30399f0a45e4, (-0x2261fa98211ffc11ca21957d360732d3405c8f9a5288a41c361bcd2770b47229)), (0xb7159d02ae4bb97f34d6b34c3b5df9406f776a1c1e311c73e048ff7fe244383f, 0x820259766f17cbcd83f09a8f9f34f70d848b39c1ffca65a345ff5b4ac0ee219b), (0x4ec3971c35f3672113838627e67b3f30934d0e07378acc9075aad2ef3b5145b2, (-0x954ad52bd3826a59a831a8b9112db169f96de10f91d94f3a06cea336c801691)));
 (0, (0xd90154b6598558413e91c07695e9f08ced82d6ed46b1aaf799bbf7eface3e0d0, (-0x10347511155bcf37487b7653c487029dd0d944d5fbe8a8852673e6715a056872d)), (0x8299455e72d15edb01776b9822947d715b3d18dbbc820ddde53b6b7b5062c857, 0xb7f3419ee938ef4c3767e0135858878af354cd77702f1a934a4071a033e9a0c5), (0x306bfb987c0696caa28bbf4bb2d46d9c32e74162b96f3b4ff35382016aeed98, 0x2c7dac24bd91b5bfb8716d150c9474bf849fce8315c911de65dbcf126f795eaa));
 (0, (0xddb5682b8f90a054f71d8ba7a2b94617e785cc178abdb3a614199633bd39259f, (-0xc2a2219fcabd85b78ae9e6b5ff45147f9a55ff6b854b619063ebdc9ee191d08d)), (0xaf6d149a3dcbe32ba43e8be9d9ee855db37c6ff2b4ee6556c9abba64c4785cfb, 0xc002b667addc2364782c3d0d9f786fe4039ca2c618871665851a542f80e08868), (0x7f7aa6c8d0652032142260bcfb7160e35c2b37ba8a8d4c09c368d091779eaba5, (-0x26d29de5d06884d441acfe10cd9f6cb39ee5ec2296b64de5a9204bd1a5e05f37)));
 (0, (0x7a7d152745cb5626e67cd598f228d27ed30647fdbea2b813a51d1a16a8211243, (-0xeea57820c57f3b56f9444f263ffdb102d64d045b9cef7dcdb4edf07a8c6544a3)), (0x9f851b141ce4f34896241df5fef03fa12499c6e3faac2ea2c156de510a4b50c4, 0x3a9b7547189f6e28e8c9f11bca2e8eb73b25c903712c654549a020bfcb932b61), (0x2c73695ed978ba7580b9fb643c5aa8915a83c227b092fe002046b7aa8657eab0, 0x79c527f3a514bc5a841419cfc1e0d23d8461c71f16cf6a9869fb5543d6d52f0));
 (0, (0x85cd950c16f29e335e2881f84690644ce5360e9c499addbd6c29233ccbfa5f57, (-0xfbbc867289a4e4eddd11c426e53ef5b9962a03873bf3e2b669eeac242edd5670)), (0xfdb0fe3c1f8ab59ee12c000c1c76624f380b5b505b0a4c331078465dbe01fe7d, 0x45ef41f69bfbec3b53101d786b1aaa5848566de49a5dddb9cac0361923c40a34), (0x4f82065aa0eb1b2530044ec86ed4a8bfd9080a571a80f79d026bc7673e244aa6, (-0x31386cfcae203152359739903a27fe14635f09b8bd014ff3213f9e4a096ff6db)));
 (1, (0xcc632776f8e86999af244ffacff2f2a95963214d80f9933d6872436188244a99, (-0x69586c12af66c4a845ade2e4e3f4348a155377e01079dab7fa39dd07d524bd41)), (0x6613fde2e21f39b343b8c1e7de6ae7a8eacad04eaada9b6ce530b48db7e6e8d2, 0xa32e2d4d28cc632fd470a23172b369eed3ae0e7b2e74488dea19f89aaf468396), (0x8875a86cd5c4ce9976ea789b087353f38590fe0faffd718374c6e0e8f3a68fb, 0x790bd55da049e5f78b152a576f4929b4ef12073089948e37a57a3cd59ab58d0e));
 (0, (0xcdf560131af39345023a80d64199dc21de7eadf20413075d0d314abdbc96568d, (-0x6c62af2b7246e2df2abbfaeff54087d50235fac5e2b7310a0718915701f4ef12)), (0xe3549de77a070eb91347cac8c87a8477c1cc8799583d6316e65562584aceb25c, 0xa5b2e70fa1ca05b81919f5e6e2a83c7438b319fb693660e0aeea9404c48b6da7), (0x5ec61d78fd0abaab640d589799be1896d909c8393caa9fac2dac455abb843c95, (-0x64c4cdfe67075c68f70acd59f062c856654504bcf0ba4ad6baed7dd79fb4480e)));
 (0, (0xd0f40e13a6236ebe638fededcdaf079967d312fd7736656be4a200f68d5cdc91, (-0x1c2e6e00889aa6f56b02755b38ec8bee551b53be5b0aee0fb3b0f514f208c747a)), (0xa2b46cd28aef3ece89f8494d52274c4db758c06eff965c848934240705fc7823, 0xaa8d7f8ac4346f2e71e8e8ace205e2de889039c0ef1ec1996b003d1d8dea579a), (0x94efb77abe1c4b2cccca28e5e7d5f4f2e4ee4649f5cedf15a509ad88ab7cddb, 0x34bfc41d82bad6f0f54290c64dbb38a682c401444603083225c880381e36ee77));
 (0, (0x82e17c8069c8e342281cc31516abb78d9ee9be6a2eb6f7e0fb3e6d387c23ae85, (-0x12cb5ed619d4f3fe78bb4f4c6b892364b54c49b6eab914e3dae1c17a89e8ec3c3)), (0x98a7d7723ba8a53be405c16fc6fe9cbcf7468b26dd6b2eccc119c5971b19f727, 0x42e9c90e81b6a0d33bc979c475dc6c855680c1fcf25cd24804a4148dd8776a14), (0xd452b6007b727ff3c4bb769b092ee291e07099a35da4fbfdef56a8ba36398411, 0x5233dcd54b3e99c3ce0ba81551819b38d224428d96ec2e62890066857895700));
 (1, (0x57b5587cd76fc5f07a66ec4c3d91d1a87344e80ed814a604c400c10c9c182e9f, (-0xa973b1ed943b2f8d63b2704bc22e6b3dab55fb5953ef3516c7e6cd8f5a4f508)), (0xf7d3a56b04d1e87bd8de7aa838326a1d64cbb49be19264137da862ec5f9d7fd6, 0x1e0cc29b198cad959ae90e8a79008553f8a9ba85b77b5e04f851366afb066394), (0x192f86d72a82862861b1aec3263accc9e59b22277246eab45c035cbfff9185d0, (-0x209b4ddda55fe13f436be32fcd962934035c1736d235728fe28786165ea14a0e)));
 (0, (0x6bfbdbae237f191746b47c510541b87283c9d4f26b0d7eb8323df8d2d4c76150, (-0x2ba7eff67fa0c7c7f15f4e6f358b26585be561b8311dfd28c32d17caf37441114)), (0xd788f3ca210b2a4b7bc71c6c71164ed3e0de79234acba9b9ca40c1dff22ad212, 0x2d8c816c15a94164635f746ab033eb2f89b45b66283ad1e9bf7e3ee14022125e), (0x960acb1d6e63976f862c3b4bfe4353c232bf41d607761f4ba26b38db15b3d8a7, 0xd9efd3045270211df0bb6dfc438b985162b734daaf99ae630de64341de1aa87));
 (0, (0xef3f28a3ee44f0619a41e8cbf6d47f2e64df0c25dfbe46b8e93a3da571c8561a, (-0x107f3c80fe228a0c38492297240b4d74710e092d177810da77dc3beb6bfe12020)), (0x3557bccbf0451e6b92a94b93d934e09ef5175a43286538aebba617315f573ff8, 0xdf96fd771e07a23362bddb228456193eb63906db9a2fb808ed46b60915a907f8), (0xa796878c1116f199d6fac78025882b38b6f18292e4d1560c32dbf2188ed7a759, 0x9793f63364fa0fc9dd7e550fdd371fd90e05288427fb0620f1f2a34ecdf67a9c));
 (0, (0x508df00a6c5c4a46046f7014d1f93fce833a70b321f51cd740a6152b8fd57ba6, 0x481f9415d0bfee41ef432428f9f1a162b67b8b8dabcc2b34bf8be1283b977714), (0x6a5e1b9de589778cbb8197e1e77ca48e264a19e4117555c23eb794a1c4718085, 0x195904b8d04897af443d9e8850a4a426148f80c600774b279972807913ee7d01), (0x65eaf29475162fc9af0683989ef65a4ff8c5553d3fd80baf8f030840379a4914, (-0x10af63dbf7dfca501b406f7f2161d78cc154f1862fff75e318189d957e731515)));
 (1, (0xf6d46613a56bbc1faa4f69ba6596f9c66f1b3ad899b1b4880ff6ff6a97e808de, 0xed349d3d7d79e0773a61ab8296f1dc96c844979c5d9f51571424f71fd9bdb0a), (0xd7afc6a3c4da12c8c6646460f95fbc472d6f561c9c34669f9d5037f187e9c061, 0xedfce466fb28b150428de8fb8641e7726e3c09c6db36fdbd8f1d3eee90bff8da), (0x62a42143630439d9488cfdd1ef7aa516cc599216037e8938b7b5203b70e6cd23, (-0x69672d90334c1108b49ddb7e379343164a2d2a03731069299c8834cd829a8e31)));
 (0, (0x2753191336d04f560f5df0b306eb4434895ea0800c9aeedea31b785e23aef121, (-0x202dc1d25d11623523abdc15f096a235c3f337f0fcc90405d884af833ef783e53)), (0x7c9004d2d1d0270b8a743d8bc6e0928d11e32ab1eabe4c742a31baa1caec42e, 0x60a6c9d1f9dc56588a3b7009411b1e02e9925348ef45f5fe71871c06a821a7f), (0x7de98a3d68d5e980d6bac4d2bdfbf9e5e47412bed79fbd6b53f9632080b42656, 0x1fefa466a33406cdf5d8690fd4f08e637af06ed4c54d39d4852f034806dda706));
 (0, (0x98c0cdf1307ec2dff5b8e4d25bde7fe52b93cea16161728c5eb7140f5ee87d87, 0x958d298c7c729e3e1b52b6cf25fb0e98301828eada58f23d73dec0b57d6d9a98), (0xd803d89eedc60bd3df0639ac373f8a704d5104106d5d7cc149bde4411410c83d, 0x5b2585c3f90b70759fb18620322d2cfdad917c95d71b176f76ae79f0ae175ee8), (0x6a9767ab51b3eada76566b49db2b0e01bf794b552c61814cd0d8f1d4f090c355, (-0x7c3fc41615c61ca0343702dc77efb0b04d0632b1e09ef8a2802715ef2b82dfac)));
 (1, (0x6dd419c5086f1f24ff06e9e474ff795bd90eded2e03d357649a7538d2b36b6e4, (-0x2871ac9774015ce535965fe4b7fc2fed363921f8c64e3e1b31310599207eda59)), (0xde2af7e9b37c1382668379d029d1101337893cd858ab95cfc25c79afe11091cc, 0x2f1e4dac7a1cabdcc5d4918e1e257ea8adee31fe48914711ba7b9102f2d7b6c1), (0xc4ec60032d38d004b605dffe95dcc643a3d93c6095245dbae27bd3a4c71e4867, (-0x2a3c1574e77828d20117de6dbf6538c9a5dc71bc26de90de3189b0933f71a68)));
 (0, (0x38a72e3b64e9d8eb9adf3202ff4ff576e82b731274c4990b871be675dd995faf, (-0x1eb430a07d988fcdf47b0f176d4322717ce84747fc830258073d57aabebff1f82)), (0xc43f52111fb225b34dfd88f69a97aeb079b928f36de7958e45b38079d67abcb4, 0xc89916755fd5e0bccabe46ace22ee626a8f2db3ff90156792cb2823ea3c2dbb), (0x697b6d7952e1fbbd15b3b68bba9c788f2a9132d6e24992973074f74f7548f604, 0x5bc79aeebf0727102830a7ce421e4aef7db9dbd380b66551382771084255a93));
 (0, (0x9b77158dbc323399b047d6c92b3e730a36807b5af77570bbea090f55ddda2a54, (-0x1433576e767a43ae13a60d223e23114852fc1c0a7286bf17eac509d91a93723f0)), (0xf9590f6c4c5f94039789a54b3a39a1f776e0fc4b3d453dba6e30d2e834dda50, 0x5e696b7ead7a50812a76b4bb2f1c66176017038de9c574fd8bfd1117c37b77a8), (0x608a6445e44e6b5f0f744845d390359f421980d3bbc8ed31a5675b823f687d59, 0x6db6d209ab73df0d23e435654a7acb98c13db865eb4a6ce3188d1ef202576dfd));
 (0, (0xbf1af84a07c3bdbbd9b61f6f0ca179a5c2f7faf085b2b21f6cfbffe31daf4159, 0x8d4a3de3abcf939aba3e7f6ab666ab56bbd3a5b56c9523cc4f913abf888b1cbe), (0xcdcf67de34e09834fbbc87032b428a62666e43dca220757aac26b82ce14b4096, 0x8ea94155d76f2d549607ec5bb04d6378e1255acb4bcdbecc1450095c6b84ba35), (0xc4095a3177856b64fd11bc43164f09147d7d835e9bda16102f793655f38a7e6e, (-0x8e0131b58ad29ab84385ca84f67cfa91d256e033d34fe47ff14e7ff6f7dca973)));
 (0, (0xc519d9423ab7e877408dcf2699aa2faaee1c2ae4516c8a34f0210b29212d2c0b, (-0xc28381c803445f77475f025ac0d17bb9efb51795c49dd6e93713c4b92cb42348)), (0x5108a6a66d843583f564d256e84468754d0a6e737a3d1e567a6d2446bc8b49d7, 0x97c0cafc15afdc610d0abee5c72f1a2de4cec8c45f03437ed69fe21339290e6a), (0x722b6e376a0956b8ad4f2e6b0ec1a27b02537a98fc5bcb8b131f07a718de65e6, 0x60118bfd8c81537f93a43a5b20b2d5866d1976e55b1e55d8d72443f67da306ef));
 (0, (0xeae77b1fe2fd062040331bf70b272df733f5bcfb5c44bc64fedc2a1a16fa741, (-0x3fdb0f6572666125bb829b9bc8d8869c554adc8c8c3dcbaa42f8dd9681851cc9)), (0x6d85a8abf39a1f6e579877eb680bae3d54abc3287643dda509d1e88b7b354739, 0xd78bfe65b9b9dbebe9ff7dc2ceb894c130f313d4eac938f79428ada8266d86), (0xf1bb5d47160e837c4353ee76cffda28273adcd6c3329caa7259a1a675aaff8f3, (-0x1a2406597bea6fb078f2f108add8ae5a2770b7888c353e01bf1c0d01aa92335)));
 (1, (0x20ae7554dda32ec21b343c1274738220c3e58a165e6f228bb3d354d87303e4f0, 0x18f6be5622b1623f153fce77a5d6779550015d4e02fdc5226269d5f2533a1a5), (0x584d55f7ef5787f0da555999c5de8247b8c31cf6f73189283cf406ded0b1df21, 0x42c1438ec8cc43d72614d059614a14b76787e0850d053c7cf45a868bbc46452), (0x7884f9ea783606442ad378277e59ed68bb94c3e81b25ebdd58736baa1fc84fd4, 0x2b580587d89c758c2221457165f2c572797fb868e5943352857977314547297));
 (0, (0x79cdd93507b1cd6c965fcafd44e39b55a001c9689199a0dc8a533a01e2ee55aa, 0x174fbe556b730ac3cdabbbd1e644b653b790a49078dd2f2802c22fe2be7201c3), (0xe82010686ef1f8b10c14d56dba08fc1b7e611fe4cdb4f9f46cad89c7a605c07, 0x39f43cd9b87f58fb442bbdecd3c32d7b4c386ef3eaef2a7aff8a90981ecdb155), (0xe8b38d1349a535848f9e0abe7ff12c113433385b1e07dfe7f987e8802b2bb98f, 0x231c7195c3fafc8e48cf3c86b6791038a45eb255ecee249b9a1d24dd1fb948ef));
 (0, (0x42e4bb74ec98ba9e045fe4ad38ed3aab968cd36a48d8d3ce46df94bbb3c481bc, 0x7724faf6d91a5af1e669daa5df3af5ceee2b0d36e502525469c44f2fa485519b), (0xfba8edcbd197f34432f745ba6efee9cd08e65a51ede914f6dc5e13019b285df6, 0x117abd06bb883754496f298230a4065ad35ebecb85674a4b61543f2ecc9355b4), (0xdbbc37401d9c6d061a125bbc0539c5b2172aefebf6192b8ba310bb4e181b0d7, (-0x3df7ed5d7cbaca2492ef7067065b741ed23b156c75f7c34b6745cc761a985d36)));
 (1, (0xe0e9ed5424437094eb5228e1cd8d180a41803129f3079f1fc35727491fcfb2d6, (-0x7223ed493451e783fc70ed447f3365e28d4a7f2c49df7f444f4ea9f2216bfe9b)), (0xeba303cecd2d6467f4aff5cf02b46aebc3f0b195d4e7d9069fea9eb19b926954, 0xc59a35151ea4ee943abcc9f82200ecb7937c66609d58d5e1903e4af95625e99e), (0x1381c2d55dc4e7fea6343577d92322c225ce4b383fd8e5d92acbfeeab0c8c032, 0xe13d0fa18fb539890878930fda42e47782a7327186ad5e5a72d7828115a5c0d));
 (0, (0xc2af08b903ae655f8c628eeedcb307643a855a695f798c3310738239e80f50ca, (-0x26d02ba5a822e2a8e1f8fa33c68076df922f74555858166e24446a12ee568e6b8)), (0x669fe965ea859fe6493e80abae224a2b9315f284a6863ba4d5c4b02096f6875f, 0x940dc0e556d37004a1d9596eb3c444c157bbc91cb18de7c1b1120e5cc2fa3833), (0x2bf74e68eae086fb41077f2c3a046d202f0a2de2012a69d212b23da2357105ea, 0x65274baac3711691ae6657f6f8212cc2cf2d90fc177049d077e411b9ec6bc2aa));
 (0, (0xb462a11e7ccee647aab01d6cd1fa140502b1638baf25546c017367242b50eb4a, (-0x3d75ceafccbee1d7d605a5ed0b7a98067d6aa633af5b55ae1d8d5b6c150ff975)), (0x55ec1238819115529e01794276ffaa8ea62fe1998779dce76d710bc539226723, 0x7f1ad892a041dedad1e38c01ecb85ff17e54f0204d469826f7a4e488b0c63ced), (0x15bc7f75bf265debef8a5899d6fc04445b01c28a3ac9c1b53d364b5c4a18907b, 0xbc4e2a764b981585e74ded0add08ec8d2aae25c0c1e3d74dc3f94f2da23147d));
 (0, (0x9b7534ac33658c9cb1fcc8ba05356471d09dee8b4ed39ae86412c4c14e322f59, (-0x3c1dafca75a90af84c05fe241f933de4f4dbd4a397360aa81e4449420734923b)), (0x8a05b7e66a47ea86f9a80a2b6e7ed9818f191cab5e69161c642bdce6f25f7924, 0x5e672371b67a5bcea2a9054d495ba28ab77026a59a992417bec8663c1bad7e29), (0x7b116f98ff5f223f14a55510c62ea0da33356c3be4e4e9df5f197c689c5648f9, (-0x1fa361c145ba798190001a2843d1cc800c5a3a17cb6ea094de3d7ae0f7ca3dc3)));
 (-1, (0xe7fad1bf2896c2482b2969cc60f29953bd13d3ffe8abbf126a30d080b22b9e44, (-0xec04d7036b469c3eb6a0ff76b37a947daa7562ae2a418a13681958044dad9b1)), (0x6fa9a576b54a6451e5db228487d6b6dba5db0f5b31eac24640d7b8471aee7d67, 0xd2369c455075081573783d7a4e2fbb284bdc3b5a33495b1bc2694115d8f73ea3), (0xbae56369e0c7949212295bbb34675673fbe6820740eab9702e6c8935061e6be1, 0x17e2e825a754609f6e76ecba5d873b9e26f059468b5ddb348bc51dd08c2dadc6));
 (0, (0x660cd2e2c2bf3621f338404cd8e002f4e46800880b73261b2c283d5d4a90efcc, 0x2e3daeaa8d7e0f4cdf4e729cf224b6f7d7f3dea6614618a7c5344569d373bcb), (0x4b4388d41dc40fa26acf972a4bf0ed3a6f64cd3756df1cb6281bbd5bb8d3778c, 0x28ae38b1262b716e4391445a4392f95a9f6b41c6727a2ac3cded8fb45d1c2faa), (0xc6cf80e0a502d147fc5020d1c8bd12aeb6f1c86c7b7862060df8733c1b5a78f8, 0xe82822e2151d974cb3ad6e5aaa7b38b3a7cd8443d1dc4ae71e8704e7e115e45));
 (0, (0x38eb37be9f0dc30bcf371d2c915b5dab9fe57d4f76e047a9a274fbcd15ee6775, 0x160633f68c3f95b38944924eaeb6d118066e39f47d5c63b88823ef11496a4b00), (0xc5d910ef4e9672d28528fb012a7ef170c309a1eb51cae1ad711e9edc3f137357, 0xca7c082c9b17ee1a7653d8a62f7cb65d4e99590ca8aaee43012bf78d32f4316), (0x22472ff93f8651927a2b902d28adb2f94c2de58eb3c8b1f9f87d616540698675, (-0x1b4157bb4b0629055d67b40e3029e9f7e6c09e10e8b6728aaf44b84391a2720c)));
 (0, (0xfc51179f672b60450b42cd4abfc0a9d192602990a6324e52cb36a39554bf7438, (-0x18725868785d8c8fc4cc1b5ce36c46416eaa2b062d337c2fac2cc7d375e46bced)), (0x13169b62d346f97276c8ad6aa83430202920d0c77964b1ad43d90e60438a887e, 0xf8afc031c82ab6c5f69e910c1b247c43288589dea8b756f2fe0027af5ef40b2c), (0xb52830b8c9809ce0351149419e628b4519afd3eb20f7f34b92605c11108e13ec, 0xb0300bbc4236682316606a9f9e45b7fe1e0ae2def245551e6a2b9b6641b96f99));
 (0, (0xeb6486253dc1121055d14eea3b9c78ad0098ebd0f2cafa26d549901a94f82792, 0x148e0f784de587a949fbfc465231158f8134db0157d7767b4400e3f5d825dee1c), (0xc52e94e70383d89e99fd974e3095b3d514d5f9e25696787498df20f0357b2760, 0xd871b5c172c3b81121ef392fa45b5039d36f21af761b3f586dda624297401598), (0x62159d7952d4d2f02d02daade71ff855f7b2f04e076054a29191d95532689a38, (-0xa3c1f0bc44f3011830120438eea737835979ec6c03827fd3e513ee13b920ed78)));
 (0, (0x1bfe032d1d65318d36647529479a2ce25a3b6b7998b7825185a0a2fdf8688ff0, (-0x1b22ef865071469cba13b9c5333c3e99cd95affa860e0ca8872bbadaf874bfd00)), (0x50d7ea7a07c21f7e0dfe1715bfd3812f643d2a85a379b1bb50def45d90c5341e, 0x30f90b5d1c3c3e5d5cdf034ce6bce20d1517fd3c90ee293c80384299b4ed17e), (0xa0d07e31c57a65c0f666d906bc2da727a63810d8a306048951342f9a5bdfabcc, 0xcb893681b4642dbfbdeb50d2c20575a5d2106d8950268bfde518e9d6a50b4e4));
 (1, (0xfb80855cd94d1ec80c14a83e7662a9c114a0e49c62fb2a94255a9182f51eba98, 0x282e84256fd3f95cc3511058fd950bf05b2c227318702071fb00e8dd09d6f7bc), (0xab3b349bdd4f70b1eb2737c3e0617a63d73b795d730c343257b2f4c73ec5623d, 0xf7154609b47022f2199a68538ccb7840cd62b5516829c4bd7875bfb878fa3443), (0xa2b5f284fbb3c7025615598f645bcb98a5011937220518f317bb6fb4d00f3125, (-0x58ccba6a9b37f1f3dc76e19349e0a79f71ca4ddd1eeed9cd9ae202191053ccf7)));
 (0, (0x93e9cb892013c96eb82bebe1e65c3580c4b6847c75f81890d383a6d6452ad4c0, (-0x9b924b797fa9bae9c7428009be6982da95e3c4eb6a1d43db748949fe4ba29bd5)), (0x943df01e2e0b7ad75bcede0ab043819c6ef51294195d356454c9d0f760f5efa, 0x557655439c45dfac8db5d552c9d752ff51a107bcd36e520e5189c18047423d34), (0x7ec6d73d07f97270c3ca4c7e441d70e56d7da021743549f689e2de013a2acf7, 0x5d94f10a367bdb809f301d1aaf549d86f7ef596925809046e911f8edd58f751c));
 (0, (0x989f3b9d896472118a1d33c9ccbeb4660a4e9843dfcd4c38e29699f5127482f0, 0x87116545ac8e19b9a9432e0cb303fb96402adddb11293794bb02aca97a1f38c), (0xedd1b830c7c8d9568553fc1f3ef982a13fc9a1af2215aeaec452059c57fe85ee, 0x5afd79d62eb9f080a150e672ebda1d76635e9cbe2458df665c9ec44f0ae5f742), (0x550ea4d9d8682dc1f0e34a3d2e4bc2f8ef35e6d5a1a931fdeb083dec3b595247, (-0x8842624712bf9726eda376abe0915e24abaae21b3b6c1e16e63c66f880d1be62)));
 (0, (0xc4d9a4b5d2908618c288e4f9e7ad21dd8aa5eac375f418d6308572fa3c616aad, (-0x213fae3d51fba12814712bd750e177c015fb2a6493d2dd64aab70d0fcd2c5fe0a)), (0x4dba305961dfc9e5dda58449afa021e6f27e0a06d9935bb455f348378d4bcd93, 0x975dfd3f10a5bd45d93a308d16a1394e0a89d9a7097943c8c1012712d1eaf7a6), (0xd3f1b40d82d17cf126b6269adc3a1b23add00ef5f0e920a61ecd94ad2c327387, 0x7b1a1ef3d6f2897b9a453aa4b0298edbe177663d6dbaac2aef522b611e324c1f));
 (1, (0x56033ad5f8414548da5961e3dcf515597cfeddc9517c31b99e5433b86005c9f, 0xec9f85b01f4a05619f8c2520809608b9c87975ad182430e74a905ff63e6e36), (0xb72b82e9f21e06d09f3ec520622257f86705f8fed4ca102162725fdc32c998be, 0x1ce62b9231555369332a00eaa5b066e04aaf8b91dd40ae22b5973b9e11b2a8), (0xb865ddf13cc7af085d04a6ed3f758b104755e25edab54d52e3b9103545e46759, (-0x236d664c5665b67340e00b2484a1eb40b5ac4787e4f69ed236498abcbdeec7b)));
 (0, (0xf19e2a0ec11ccaf48df6eb27c7207073caa1b3e37df9924c5cdd9ff2dc8e49ac, (-0x2d1a0f7a48b09ae3b0dd5e9192de53154822af1705a0fb415527e561fe4d10cc)), (0xd52360d05974aee7e876b58f95d74d7e3a2da3393674af78915b461d7bd94da9, 0xe40b2ce7b8b76de21c9502217aa3dbb3425c4f602aad70d55b3a9c5cde0d7885), (0x266de5669021f40533a76c170ba7df97b8537eceba38766c735590de39b8cec4, (-0x1c48dbcd400d8870b7af396f65e13e3192387690701c468961354a817656b3cf)));
 (0, (0xa272983ca36f14ff8439d013b62ff93723d2c87112de063e18f1e56e45b4f822, (-0x1e3962e102492b2d0fc3a610d34ad5e5ccb69e9a41b7f80c6ba0f8a17c63081cd)), (0x2363a3f4ed170cb30b1fe4d14e85937476c0c769ebca06c32dc95974628a1f44, 0x67153bf8af6235f30442d891800320875ff55622272542791cef478d94deb372), (0x10c2ec3761be5094bfd01a5166ccfb96b300c018a2cfe17618328938605b7ec1, 0x70cae698e6d64413ab8dc805b3daa8e4210e21f34e6bd364093b5083e531282b));
 (0, (0x8d92b8be63e120c0334bbfc70c630d73621f7478ee6b10a3da6397dcf1d26cdb, 0x3dcbde3ff01258790c691d35ffea230c48b151130ba9dc0600634d166f728da), (0x90f45b4337a2b66441487403ac191f10d83545fb4df4d19bf6b720d8e9ab4d9, 0x4e4af398f88228091bf4c000488569ac33617b846693ca5084f47056c2381988), (0x8e5e99b565133735c003ebcc710fab6d64f1ebfa62a2c66b9dbf65068c0b666, 0xe8f8f079fc784fa7ac95c099eb530351a8b35e16f72104e0167ca122e3c2b3e));
 (0, (0x338466b5513574e9c3f4f5a22beffb23fbed0e74db23e9a445ef8eca1fd0d5c1, 0x29e93e0e058ebf1bb45a006975f19ff862cfa80c2f1befa022a3286c14cf257), (0xac7607648a4835db713b90c93009dc93c136ffacb6186f0f25ef0fa9b0cc1320, 0xa5e0566528c08d83daa2857c51055cb4e6b4dc70d131c00c64522fae7e5c581), (0xb4d9b37b22b98a5017fa3053faa3af2cf064b69e96fc6851f7e195a63835da47, (-0x20e1fb20ace0a4c4de991eec1253f2b1b8cb0e3655631e18890c5529ff4c2b0c)));
 (0, (0xf3dc4c05c546bc2967c3f3223370a085c74f6c3b877b15cc40b94445dbf087e6, (-0x3ffe4bc16c873eb2e3d3d16bf479637a1d47dd7e05dd65bc656f882ec1bfd54)), (0xd81740d2d127abd0dea94304c4680e8fca11c2e26770565403030cbb036cc5e5, 0xe84bf5e5b502c80d4eaa38ba611932a88dd1e455610c2e469e56f0e085d706b1), (0xf692202c43dd1e6bbb74f27e518d027d218db6278b57c2348f2bdb61724f5253, (-0x298f9505e0dd008c148b1daafb080f5a8135aeff61a6551bde1a410335407ee8)));
 (-1, (0x406db09ac0e91e209c2977f5b524a8abc378e3b244f818e219a237aeb31fcb78, (-0x17bea3800a2aef1c7003d79569cb51302915a688194a8001c27779bd15c77083)), (0xd7b323fed0000c20d1c62ee88f7dda19a11c5c3069495525907d02b255db1de8, 0x1037074d3e11fc61291d4eb8adcae26beac0e0c217127aed1a037f680c3db315), (0xd55260f602257ba6b6692d27506324df84185cfd87b528946ed433ee6ccdd514, 0x19321a56e4eee7f6c1a3ba5e608243b18652d10d55b03fd6f9893207467b9f));
 (0, (0xe93c74a970b92eca1ead7f861280ab690f6c6cabbed1bfa4ab02f6c344b73be, (-0x208efe01b71784e5fe6a9a317edf406c22fc74ed7a64baacb1c9549c8e39dd7f0)), (0x92c37882de0f9ca3aa3874867d7deeca2adfb2548d1ad8072cb53e361b217d31, 0xd47f1aa353c7ec47b31fb50514b02d1107d200fc548f44a5962aa57f7e586d), (0x150ebe9f037a7479a84c9b8ca307fc7a09a32254575d2b26a80965a3b8680ce2, 0x3ece6aaa3a87a119592efe9a1e81195f5c3cf608451466a9ca249107908cfe4));
 (0, (0x814469e0c8559c2056b8b5b6c41f93f19284cca5ccf11df46d3b971152e5db08, (-0xe72682c5a70cbfb555105125e3dcf0b46398d2725f841e8a6babf1a95cb6306d)), (0x14db826af08328a658010e93381f01eb2d506bdcfa22dd356520528ae0fa5651, 0x414604fcf51ade88f53dd991973f90f653731df2e3ef5011357540e7ae9b8503), (0xac1371f92b30c36e5fb981b35c237291ad58379bf081d7b8b0defc006c8405f8, 0x3f9388b21e7d58309553dc3ad6ce9cd8a44e0a93ccb945ed682d76172e3296ba));
 (-1, (0x98b5005d823e8ebc8b2f3d0bfb1fd5ba2f42237e29d3a51c7549a33ef588123a, 0x3c2e0bfc017885ed78f38083cf6830ec4e4140075865baea71976c5c98feda1a), (0x67e778654035087a5265d58095d775d58dc212eedc84a16a5599df47a55b0a81, 0x5b1770688ee4981d9f9c36889dbe5daca427e8a199d44701260446fc74a95e66), (0x46e20a7bb4fa465379d4c219f31692ab2cd509dfb62666e3b709a6d3f26a47cb, (-0x3189d19fdee4afb48ca21db3662c4d58386566bff6eda9e4dc34ffde4a54a1cd)));
 (0, (0x1eeabf9408e9664b4ae65769d55b671f0afb882124e71e5b1e3849cef3bee173, (-0x6d6542bc7c8948700c9d37a839e6326ed10deb182e25209e0ca750eaf598642f)), (0x1ea656880a4c52b9e5696f3ed5f81bc361d9a166582c1b5b8be9cb57d9290576, 0x3bbdc297c15398f3c04f596fedd4897236834aa897eaef537b35deb0169c29f), (0xe4dbd88cf7ba1df100be0690f53ab67290cf1278dbcf50dac9a193ec2e273dba, 0x8d8ce52d4fcfdbab3d3fa573b88d818f059ffb17cc139b027777a52232d7654));
 (0, (0x134c63dc28335967f19efa20de3618f5eb7be9547352341b0c0521f5a66a5773, 0x177efe24836dab37177e9714885462fca54f81d7d8efe5fdcd7a79bc1ccd0910), (0x9580d7823cfdfef63ec5bcea5b2b885209c2f400227f3ac5ed07c5223798ee68, 0x1746d9e1fa3822f594d354add58afe5e1af98fe768102cb8b26e37364ae32bb), (0xec491e63cf4b20e027470c02b46ca57a2593901f6ecf6fb58797eabd9ec6592b, (-0x8f5aecd925bd056e589fa96f8178c3748295b1921a3e7d101e8ab203b93a255)));
 (-1, (0x279da1b2fa7db5227b240a9dd4193401eed57bdeefda4f2c02b47e5b3220e768, (-0x44bb6ff7fa96215b485da5484326b2971b1b88b548e65126f3e555edbc57af3)), (0x62bec6acae78b9712184be7cf7600a934d97a53a34e3519b46fcf5e778de1808, 0x621685443fc2794178f0bc96c0789b98fcebfffb472b532a8c48b6c5c9f6148), (0xff75e2fc950cbaa835fd78507c8e9c205a0af569e0876f132835ed5191afcf0f, 0x7dad1a464df298ea5074026dc257539143c9efaca2db506e5c14f2e05a6ae1a));
 (0, (0xeb7bdd82f212f8136be3872ebfa215f0f081036c9e4ab8cc6fe747d904780639, 0x163b5c94390db04fd8f2842c74d8db03a3e310bfee3ec3c5812a2c9cea377d572), (0x2a1cf1032073080b7131a5863fa58774360f9c2c6ce7a45384eb6267993cd257, 0xd89ca49d03eeca9d8b3ac140b056b677559e45f0e991cd7ee45cecf8bc60c9d6), (0xbb0a0b5a3bb2465252e0ac119003a6931442dc825b0ac16bce1796649b0235e0, 0x3417f5e4fb058485fecb53ac6ae87fe908f9e1b15e39d92d6e1ae0d8132c11a6));
 (0, (0x679a821b66f1bd28e151f06eaed4a377517479f59b3c0b95f084936d37339d84, 0x829b54469bf95e4aba925932a57c49d831c8f038bbaed36ea48bc5beaea4de43), (0xc29248c070c806612c5dd5b383b1f0a9ab22302078a63069a1731ec2d2fdcc39, 0x29edb1f2d7ee388adefff8875b9d7f60969fb663e765d4a5b24de87beb14b027), (0xcf4756e407d7b1cfbb577eb66acb5770fda844c18ef2a4fb8243fafc62b6eda9, (-0x3db33a5fdb71a14c2186a1b9575e88bfaa15ed4fbb93c295993debf2a70dc1bf)));
 (0, (0xe0207c995a6b0b591efd03e2a61471e0236a6b8a8db3a6ec1f9793a25ac83333, (-0x50b4a9e5f8bc276792efa6e44a6fe7bb7dbf5669f90dba17f0e3e311380ff4d3)), (0x471a2e2b61f28fd517b198358fddd8f56e0148ec53a091b7d5657bbec5ce4305, 0xc438de2bc136da13b363dd56e84a181ff30401069b3d9d09334aa89aa7d583ee), (0xc4534ab06796de89b80244d60070fcf97d6abb58a64c093187141f91e4e6914f, 0x6c18c25de2e092b34ef4fe1c436edffdb8037514a95f4ab6acd313407443a6dc));
 (0, (0x1a420eb174799a7b95096664d860cd434fb6fa3c9719aa17cea2bbd461b8df3, (-0x38ba3511f24844b5de142baa556be17ac4afe4796c7345d51684410cddcfb37f)), (0x823b1561ca84d9a3d0462118ef9090378369fc344d108689a0fa408ce41fc99f, 0x2b17c07a000a5d4540a5299cb422d5f5b9f6946c2199a542f0ef7425ecb00), (0x59d6db51d91d1c556b57b405e047071123198a24cc2c6b622ce34b2089dde803, (-0x610995bebf1a68c99a4dd3c204934933867843a7363ee0536614b2023f8880)));
 (0, (0x5557ba6cc0bb6b052197feeac0a9d8d165067a9b85bdee28e30e7d011b9d8f2a, (-0x8ad9ed889491ad6ee341b81b3d27954e2d33c6bd088c9f156764fc3055833869)), (0xd50700fd064ec1bfe48a6c7eda7cb0476a55b1fa6f615be42fe01e2a1b8bf64d, 0x1c735fdc75a9aab7ac8b2f7996cc5013b92d28dadbed0aab364756540ef768f7), (0xd67958c4cd4145691145b0944d7d906287ff69c5ef5001161554fab729c5c663, (-0x1b9a14d2f22718e38ba6eb8108a4efb48cc5255f7856c640e38c29773857c3ae)));
 (-1, (0xe2ee9aae3a01556013e8a8ba78ad10dd1557999dbf33d1cec8ae5f09ec564407, (-0x50eb2d0ab523fd427e70643f5bceb6d4379dabeecf6aed2923a0178f6edabfa8)), (0x9a10a9a575ac8c26ba371750649d079bef38b1288dace51fc500b4c23d8f438a, 0xc92a277f97d44994e3780fc3434e2fcb38895dcc3c4ca1f271a704fba8282ade), (0x1c7b319978668a4a956facf1e937ecd126ec46ba259d328caf1329c43a233ae0, 0x34446dc0d26dd30f08547f77602240411eff657dabfd9a3320f5d52b1fcdf48e));
 (0, (0x8e033f276fb29999ffec418d8f4a58ed8adca1c49b8c03fa1edb45e117854eae, (-0xf68ec39b5012bf23c52a4435b1509ba0e5f3ffbc4a6f723fe5878b621fb85914)), (0x13e442156f26570e5eac3b42430cc05fa7fd406d0854d11ae20c524340da3b16, 0x4ec79a1a4a6b2fa392470ef258c7b1fe15c1d8f98d2d327523f6b1568ef79d06), (0xf2d15bfd983ef999197a9cab9fb74865182b4a63a5efba27138d3dec5b8732cd, 0x4a6e5510b31999dadd1cefb186c9a6bcc16b4c521ffdbc13266362783aeab7c5));
 (0, (0x9c982dfb365052f6261808f846c7be184d55e4b8c3cc06c3678400dcedcd3ddb, 0x1246ccff5956593dc091f30e3f57269df3b47d29265bb27a30d52943d849c078e), (0x678b08e6cd84e0523d5ff873bcbf7ac47ee5aee1e3231f60e61b57b89097f9b9, 0x5fc9d280ccc4ac1a4cedbbc0302cec7f5a43c40d143b2330f64fd2010a138ccc), (0x34cf9f001616308bdca22e88ccdb4b20a6643da418172241a69897ba86669581, (-0x332b5b340908cdcf268d6db1a98f6a5ed49938e6ae462fea8dc649fac513dc71)));
 (0, (0xa6292fff2397b5d33773c4ba4bbf960e9f93a637bd86b15b6261bd6bccdc6e93, (-0x39154582a19e056ea4561f2cb36a95ef915a90d7140a0e93b0f90aae4d9299a3)), (0x57f06e04765efe924adefea8d7474bdc1d499a771b550a21a6f2fabed427bfa5, 0x6bd970df4ae1d3bfcb8484fb5a4079f775ed54b8d6d1d358249f7566f7bb114e), (0x31d24cb26c8fc35c03b5be23b458bb19236302da688f66c6765c5237ae96ec1e, 0xa20c31e825dbd5bdee81f72bfc3495a4cd4361679d1ae95e07a5b709db8d5b3));
 (0, (0x36739a171344d87382e724d4c4f313a2d206615be2c0a5532fe2e47fcb44ca32, (-0x456e2e7a52a4653b07a7a106b052eeada4acf50a54d16e6210d7ebd2f24b041d)), (0xe824d898db00920302625d33ab9a19b319e58a7c3b9f03d555d53ce2ee3d41d0, 0xb94f935899c206e7f3e481951e715243f373a6af900cd8aedbf0ee6197b7d76), (0xc099e31a32f03cbf836213e89c874d4f195ef2d8706f2c3fef288f9f8f8769af, (-0x1eac2cd3b590cd4fdda6d41315b6ba532045df914edffdfb7357d8bb9e01b73d)));
 (1, (0x4aae7037611232caf1e85537fdeaa5ece221e2b3f7c191071028173f722910db, (-0x2034d701bc75e2b724e498a07203b2185bcd03b27e91944786185f4f18ff64df)), (0x3dbdad516837b898c92359fe4f7f6dbd3db253664a4a08de7bc25ab90e46770b, 0x15c94fbcc096fb0526cd5bc06d3e6bc4bf94b45e3e87b263141522461e4c0bfa), (0x8b695f2950d2f4d0aaa945986b737d71d107da003ac5ba5bfdff80fe0c5f91d5, 0x31b5ef541174d6645d6a5be2d14cd2eb0d7db1af808feff6f83aad7bb1c1856d));
 (0, (0x8e761010d5299ec9c29caf613d37e25e1adfa552a6de979d95adc833ab975576, 0x6e7da8ce8f5b9369476218bcee9d773b09abe5f9b51168b98ff26c19799b5adf), (0xbb9282b15a421bdc0f974228843c0cb44e122a948b944f4639206f5b9652588a, 0x4f4730457d00ca46c070958d74073fb84b56d343396b901c656a835900d1eb7c), (0xc2bb3ca02fed15a1122fc572262bcdf1a48694111f2a69e79c856feb8f06d339, (-0x4606165b25e533a46126a2616ac23f49afd03e7fe840499f981c4cdcee27eae8)));
 (0, (0x2068e57507558151491f80213b998c4ea8d4c3eba475d7b08b1eb1c84ecfd91, (-0x1993936136771ff6398e9a29f7e7c5c807637cb50b923cd078c9ed9167dc9d286)), (0x6d3e75eb5788fcbf81c23903da6a9557a126110c6c46a2b7bcfee43b736417b9, 0x41a64587e95ea6c120cb4612f3ab044dac4df7c3dc6d0579a7e07b5bdd8ec), (0x382a90256537a62223c2df1f6d4678f55558acbf72f95d75674939be6d97671c, 0x9ea99f2eeddabd9edfd66fa257c6b737324a2b250eb28c607bb3d5a283c8b4));
 (0, (0x393530e7dc295c96cf4c29e7fac755033018560ff9e3410f32a2e7b6b1b8c8c6, (-0x72c073b12c85e35ce5f8d3fd0a552b15f09864a71889e243dd5d24eac68e60ad)), (0xc0ad5001d99ad680890e48f5d82f0412a30f6b8bbe27263a01be756d1fba4fac, 0xcc8bad4896358ea117683eb50fb455868ea66ae989e8200caa5e007fda466da), (0x3391cf8671123c4cda95da964055dfd7adac2bcd7d08001c13862893ecd8fe11, (-0x12a50472834aa83a08cba1adb7ab313dd061744dcd3714c849330cf870597c11)));
 (1, (0xd88af6dc65a7b0318ff02f11ab13c65296736ab689b3016676bb44f366576508, (-0x3c001636f3342b6369bc0e558c1aadb03565b29d9225df72a04bc1a2c8fab469)), (0x2277c06445220baaf73d88b902da0da3d7fff52f711dc284c7811d551a403700, 0xb72acc02ff34e33abf88531004862b293fb3e3d21c43f3ae379d38bb09fcc2c4), (0xef527cbe0ca1f4aa059be11a1af0c5e3952d1187c6faaa4f2ecd2a9278b833aa, 0x85d3129c0d138fd68430f6f851a69ce401dd57768074af86dd8e26c83fb5786b));
 (0, (0xe13595201af9e016672d657e328b1ac1e90c3243255336328bc8fceb34ddc18c, 0x1972718e294a6a8f5210cc19eeebd62b99329ae757d8c2d66577a0834409d5d10), (0x212ae3f94b479c11ca5401619aacf1f05544ce0fa50693bcbce5ac89c6c284fd, 0xc61f3b598594cacbcace5452bb48de76e8a0c70f3f88bf954c84f27222aed3dd), (0x62a432a8a5c01dec1c012e8b70d7035c0ac74a4a10b6bc01637d4ae1c66edd37, 0x124d3658dc79a62b8dd8ee8d5f83e0a43da1d87397786a22dc3e39b2d35e0ad));
 (0, (0xbaeda4784918a173d53efc500541913873310fc801658d02cf20728c095f6649, 0x83297a80559e9bc48d617bf3db4948abd68e51f65f409767cb871509ec596d2d), (0xe43d3a302810dd9f26a2d28c332b2911a43b13f013723baeb5bb868395978f3e, 0x887e2f98ba9978636d2b3186cd48e2854d06a343aa998ccf784d580338513eb7), (0xe11ddfb3946a6f9c6ebd094c2d639cb8658a76adac887cfe97b0424a3fcaf6f4, (-0x8e7067f114bb2e6f575294d51cf8e1e954705e6aeee9a2377483160bb48ad38c)));
 (1, (0x87850ca938971bd9d139f38af14103f9dd2d42ad985af086f54d5270e080cfd7, (-0x38603acac19b27d23ddd1a04f87f161de016c45bbccd9f33944c46fb0b3e1d32)), (0x388dc2ee8dd7635e91d56898da0d047fc098f1e1ed6a557290aec0f469169266, 0x47bd9880a224798c99a02ba86fafac30f92f23a495255b553b3657b95de4b9bb), (0x4e091dd8d7c1148923cc8a11762d9251153934ba10b8874782e64adbe1aac9f3, 0x5ae2c28a43c9f6215ac2077b1c5a4c6501e846bb7684f9bb3e744638b272f24f));
 (0, (0x7926b10226e94c84bdfe2e8a8fd5fb711ac6dd3179d889b4de1b760ea8d70b3, (-0x20dd380cab973ac0c8a01de378e9c637b1ce0ab0485f26fc41b824407141a106)), (0xcf8aa4afff1d97de5de728fd280086fab5dcff6ad097d24691cfabb547722884, 0x3955992d0fd0116b706187950a57b46cf79f307b7e72728075f6fab0384a77), (0x592277df8bc6dcb9e47f2481b68e78e92a7601d90528c96e9ec15d500ad1f2b7, (-0x477458a40e44a4de2c9e6ac0ce900a8c9b274645f4794f8aa90b1bf52e9899c)));
 (0, (0x4d5da5ac19ef66e3d45209fe02065b09e15c8a22acb53c09a30dcc09789a1ade, (-0x1c2e491b9e960bed827253aea13f99916b2e4c83985f813f699ad92b37aa152f4)), (0x94b3284f6efeb8f9532f2219fe3ff073ab1cc7697ae9d313b9766b418b79aa, 0x176177eb51dc28f74636316ee51cf666dedd9caf0440aeec5f4b703fcb6ce0ce), (0xee18216d97af7012292457e5801192a58ce3b140b9bdd56f96bdb9a1eaf90add, 0x3e8baeee3504a1445fa656014eec36fc2cbaba87fb9a3c7fde07e18fc7effa08));
 (1, (0x2d15d8f3c47c635070d2670fc01a93679ce9050b227ef5f7ed4a72049d139160, 0x1556aba080f66cca1006c9841e0157726c94965773908689ae024a20b3b456ab), (0xb8c42ca119cb73dc9f76bb3ac2bd39b0ed062e680dd6f74c3b755f6f9ac5c432, 0x7f0b02302ee3b031567785d38afe26f8db6847af385d85d7083dfa7bfe1bb34), (0xf4ba6425dba3202d06d70b2748df951448f2e562d2e7607ac64d84daced627ab, (-0x20701056a366ea068626c64578c82cca84d074a2a277ea9a061f2f9b2d0820f8)));
 (0, (0xe26d69e041b14d45b0f40d321a00d812eb6086e910083e2b1a319ab43782f7e8, 0x20da8685ef55cd7a4f0b9525023537e57eb543420a9a56fad6b184e8795e7a9c), (0xebe14a9150c93df1e24d74192c16e4e1df71898443bc3fc21a8cc7708ce30a63, 0xc8455db348beb7c1524d8046e60b72d4f8b8a2f0726eb2bbe09d3b40a41f1cd7), (0xa2b6160754d0689e564a7d453e4a15302f8d343de437abc7d5ebf1873ac280b0, (-0x2d358cf787b2fa5d633e16af0e6da9148c77a1f3bec3d8c11ab8593360fbe0ad)));
 (0, (0x10473079d1a94f6130fef98652838a582d1906412ed33adda16236d7b7759c07, (-0x27754ee2094da374aa6eddd782e2f3aa5f99148c02ee4dab50c3ee14234c630b5)), (0xc93ae148a7b11b465608e24138e402b2f9f2736cc8dc7880b2a5d93e8aafe7c0, 0x108f9db26f55e6d89906c75ba5c9b63657450bc73d609821b8402ec58bbdd45), (0x14ad66e91b2e5f6aeaac7b62c20b003d4be2c98ceedffd70994938dc0c89177a, 0x234094b6e7e91771e721a17afeee618622d93be43fd61f3df51890c947e1ca5));
 (0, (0x3468c895710216826931b70e08ae518a8e25c0ee96c51a580e3e4c401e80a7bf, (-0x1d2112ad3722a4ff553724a850a096426dff0e257f65dd4269d6b41380781424c)), (0x4c25629d40e1b03c7893a1b5ce0f7028077a546a733f09a01c3fbdd13ad4eb97, 0xababc604c7e82a7462e7ad20db5178dd1b66ab79c9b850633da33cfd1b804b6), (0x16b3c5d344bd3b7467ad1601b8d2a3ec2d4a91df23eb18bf51221cdc7d0b736, 0x199b907816340a2a96424fc1084ece0ef7a7cd5fb0f1de12f5664abc61588ec9));
 (0, (0xdd177770c6956de5efb605efc7cdc30a710c5806aa1f238094ee2a1096567a46, (-0x417f3f385ab545afd0b3a50724da550ba81edeb7fa461d211d2c12e1ebdf9945)), (0xc69a90a292f84c27f621988deff8b3039ef4a746122aa071c35b3f7577c9ee94, 0xbef1865f64dbb8e60828c43ad47d7f02c1c90d4bbef19b814423d8c921acae3e), (0xbc3c4ff8072562515f793f6cbcbbc3cc958ae88c26aa5d390eec95f2b5992de8, (-0x69c2626424fe9c7c8295aed14c9f8cc5755045e627fa709650336821449b6d74)));
 (0, (0xb1957d3c5f0ed9823d31ba36f2c1813ad49fc08fff52f5fc56ea302a84212e7, (-0x1bde7eb5a160c7a54e0603f6f5c7796e79bb3ed4afed75f27ee967e63639a6800)), (0xc231ee459b038f8a2415153a5598101a61287de15adc8d6e6fc8d32de3b43de, 0x7b300e7880fd33207ce52a7d2b46c46c3469a04a59a6aa60b273e26c718985), (0x9d3e7415af438d1dd8107327e8625894552dfd45d239c14865302f959e2eac81, 0x815978620517daf06e1a0ea5a12887f8ef19c55488ace84984e3c56939887ff));
 (0, (0x3f609f5a7c696e50cde36fca7e978c642f9e3646944e0f335a6907e54f3ffb26, 0x4c218097ddbf3194a13584c122a5fc7765d8d6ca746f9045715c0cc06bbb2d40), (0x9973f5f214d33adf5b908142cb3059c33e82ee88e60f9b724ddd03005e06bdaa, 0xfb0b2e6704ab9e52f909a74c03c6fb2841355bcc8f219556951a2360d621a22), (0x5030617f50ef06c48a35919de07f4585c645e7aa194466078eba59a2a8f7bf39, (-0x22fc3b342ede47df39360c48bcb29a7a82222ae482f10e50917bd671839f519e)));
 (0, (0xdc91ca6908118c1ba8f8a2b4ca775a2ae689a5ef8076e9eb9104e3d1c0ef238b, (-0x89c4f4575615ebec75f564a1a0708b049b06beb2d1fea7f59e3aeb7c291ebc1a)), (0xae4d308615ba6a0a74b8c31f77758be3bbe039eaeb9e1b18ab6eb9767ff6e2c9, 0xbe0ae6eb70e338839182709dac6f84fe3fa3183ecc39655280f4c52bddc42364), (0x39986618c4edf4b14018154963a2d5e5e12955dac73aac66683b52a5186b25a6, (-0x11f68ddd549536901ba267fe189c36d74b8db1a34d13558fd50e23de78d0a08c)));
 (1, (0x2de34e0f3642197539129eb9e01bae1cca7d3185abd5e61727e74ae6b084f40, (-0x96bc42705435ec7ee755716515cafb3d0366d184a7a58b21b15158a6c17c4e)), (0xa2c42cc45a19e74f5150e921b79c0cbab45f9fb99cddc2f2f7111dc51658e174, 0x839b344dfdabc240ab6212576626e0924b8fba27e3f00ef493b3b8f199cc5), (0x1d6afbed9fb8264656322c98c7ba0c0b937ac88354e1213f9e51eced77393a08, 0x21153abd162b717367b8a9a8fe6d80e60d19f7dfca180aef5856d1b3717a0e));
 (0, (0x6a880ecd11fe5d6262ed816314f99178e781c5856a843a24578e500abca2bcd6, (-0x11dfabf43f9ce2b5c0c1e3f5a72a10e7b857f2b5bd794f7a373fe511ce6f5d0b0)), (0x9d053e71fba5d6ad319ff7e06c297e1f17579c101e664ed1258d9034424047, 0x2c54f4918da4d5d65751e308739d80c9f1442b7a1dc06170cd796148a3e7955b), (0x784951c76ab8c6a4c49c48382447fef17c3d9f4043138701cbe5341aa468b05d, 0x437a648a7a2987baea23afc87d8433a5c6187959b75e1fccb6ae3393d9dcdb17));
 (0, (0x3bae7b0a2b58b2ea06114945c04298d541f67875f2f4fc0ab4acffc56efa590, 0x3803b41857b38e43c37a15ea94a6c237551c105fabd9ece21fd1a040a565503), (0x2e87b1c2d3a035e95fb418b90bddae0d27c60658721ef2615234c632efeb9cb3, 0xde9e3a22cf09519bb1dfe38f32b0e0c028c7538ffa3900d34d72fa383ed71), (0xe1dc40bb1ea4ddab3a1ec03e8fe1d5a046c9024bf5facb63f25f74d68348ee96, (-0xab46155584ff6e0ccf48e719570ba99bf025bc7374757135bacc18b92347bd)));
 (-1, (0x527ffb5e0e01f2c326ca5232d6db856a5b1164feb406e57e28c5b013279a7f0c, 0x183d1fe232fec1de3b9b81bed9a66859a4f153813ebe5025925f83a9cd579b16), (0x28a8ac1cc15464962193b701092d0f5d56c04135687f57e2b33b2208f2cc29ed, 0x1a963d039f1cb779feb745587dd3d69b9819c0ea4eba7517e7ed77b29fe4cd28), (0x995ae90d8a54673e0459fc26aaa393dced46e47b56e3238ba7e97e8383738ed9, 0x1e45f36d1ff8153f807ed15ab40d005ed03f20a972ff5f6824628724ef65c77));
 (0, (0xd0bb158d920e1044042c76d9e317da28fedb16ed3946c722a1902ad1532984cc, 0xe6b4709700526c4c05c8831b9068a991b5c4b760b77d4b9db9f7074a0ed70ff3), (0x7121e8a2c7ff3f620cbbd2d1b63ba1c706cd57257a10c262a43e2045ee1fb179, 0xaa308bbe8bfac33acfa37906f50ef1a6b5813b53cb0a0f46d15d948282aee653), (0xd7d28fbe13bcecaed0b1be9db667c163e7b5558c2ecd88fee61ef3aa091e86fe, (-0x3b1777d6216824b1c65f571373d4707128c440637c046a737fc65bb0890aa049)));
 (0, (0x2cf8ddc7e34bd21ef2a4c2a4fbe69fa59debe0e0366e4ece4c639fdc8a7ef11d, (-0x4a28dc4619f2edb75098472066b3fd6a31636cfd163c1897e869e888fabdbba9)), (0xce30e798e2d2953c91e8b1b2e556222342672db2639fd4dac437a1dc23ffa908, 0x7e67e2b298d2da5d1d86a47375ff4b0c6b202b218cf53b8fdbaee93fd3fd4e1), (0x3db713174325a0006616e0241facfd75f96c5245559a59c025d465c3dd11e688, (-0x10590af7e668d1ce7ef930e09e3d4b18df007c385bf622f63f328261e9862897)));
 (1, (0xbe461b38846ddc41566a0e7cdb0841b43ef357e84c91b0a86076d370cd357090, (-0x3ec41c1b40556be9b695689913b2226ccd6a569916e8951d4812568b6a7fd9d0)), (0xd40174965bb1604899a6c204313dcc324c7e8f394ee396b5d52caabcca136bff, 0x8d6c239aca60776ed1084e9a1d1e09536d9cd206e69c231ebddd696d49c8f46f), (0xbece1dbcfc62915fcc78fddf3b3ae3a5757c73aa2f48ab2aff75af4e4503e3cb, (-0x4526048f484024fd2834d5d1e4cabde0109a36fc552b9cdd4487f96c89e9f2d)));
 (0, (0x344e977aaa047eef47856c05134406b75e157d58aa99cf60e3c5a77e32e89485, (-0x1c0be57d48bbdbaa6204de86a5b32ac4dfa58b70fadd5d17b2fa538449256c3fb)), (0xd23cc287fad9dbc10f6d55aa6ebc9592c6ca970b1bd7ff1390708734aecbeeec, 0xab005aa7d735da659cf044974ec2b6f45e7b2b8578b12a6222bd0bcc608d601), (0x33fb12a8738fcbdaa2cf8e9c27a174e200198f74da348ec5c2f0fe434e575097, 0x5c7f2509fd44bffa8d4c690fe584c20f5fd0d009b54b20a86df4fe8b66e513));
 (0, (0xe24aa7cb68ed4d21438a298d26adbcd015a904399845d5ea759a29491b990d05, (-0x1aa119a7c2ec7bae4b04c071ac1b71eb4f781e5048ded2fc42809a779ae978756)), (0xc300ae18656d36230b5f5f5ff8f78da7b545e3286d29ab964050f2f60df4001b, 0xc807e60894d6a9e4807660bf8aed82a9c9a1e282dc239f7de2e641686dffb6ba), (0x1c20b4e610204f2a205b5b3d2520316e2c670fbfd212da3148555ca55d81a57c, 0xd777b64b662a216095d85cff3e8878eecc8104c26e47d5e02efcf73d4f9149e));
 (0, (0x556dbc4228255721d124c4396cd650c57412239273d1d2a829751334203803f0, (-0x1aad846537cbbda800f8f283bcc780c4a439d4239ade683bacecf3ac959555ee5)), (0xb187bf272e2347d60c6e9f10fa13e1c28b7745701b2ba5a773452d9bbecc77ef, 0x1c820e0dc97037b83934cce7f120782c0aafa7025afe300c3226876caa16f715), (0x268d25c4e7a5a2be994401631ff47c8ac5953945fbed3090a2c4d20ae273c7e5, 0x5d4a4ad27744727351006b56764b95e10832b5257181042ee858ad380351b51));
 (0, (0xa4690e83cfac3a45bfc0809d71f462fabf013e80b9ce776754b912b52a425bd0, (-0x13fd27e61a01c3c9f6b689e26e68c10bd7a54d4b291547b08b6cc8e0ec4d0532d)), (0x5d42bb451d7e314e93073118262b48fd393d2de72b6497273794c2f3f9d82c82, 0x6996c5b5cb07b48634012f29af541b736ae2d6429b0413f2c2b9e54da6521560), (0x56f1f660604fe122451f2541673aaea82e6be44f8d5f46d85f58b4e4d1fff713, 0x361ecb9294466f6d92ffc9abc649c049a4941ed66ec3d30a760da47c896fa2e8));
 (-1, (0xb2eac2963a981974febfe90f13e867dfee56eac2a88a3d4b4424daf3cbe396fd, 0x13e81bbf2cda48944da513279a6af7c8b434fa97249bb6767b59a3880af4c4c7), (0x66a9cde1980d19847d41afc7804b830f553d8f4b8f997c584a72e3ee724bf1dd, 0x7d0b4de13806aa6c7a61040bae4515e1cc7831f4ace61ca3745f86a68aa7028e), (0x53ec89b11a69a79975de1bc4548ec12cd90d7b347c48e5335d22b469496f31a4, (-0x6924a4d70e5d0ffb767dde861cba3f4dd9a490a58cc03cfb18c5cf429a00d3a)));
 (0, (0x541fead4b4f2b8773b8b4d0c2353ad75cfeefff0e924602ad2d29997612c41a3, (-0x445b1a76476f7ee0de15113ec6bac2cc08872e50dcd7164ada0aa0c234abaced)), (0x35491ba735630d8db2a94bb87345d9d4aa67ca04553e1a1f99f08e949c6103fd, 0x1ba4f6164daca75ed7158e2ad9c559a0336cea9c8005b9ffeb101bae4d63dc8e), (0xfb723964ee42340c6859423c40a0fc68b071d35240be1f85345836045d6f30bd, 0x1039e27c2755835b9937d37fb289b3008f1891ddee1c041a0f0d742e777e65f1));
 (0, (0x9d8bce30355534a484476b05558ac8df63791d33be95a0b1065a4858fe02986f, 0x11436ae7e9a74185325355bf6ca29edc7b5e47c60ff5977ede59ffa913715c725), (0xde2903035a91125355b914702a16aa4fd9c713cc33581cd426f673860e0eecbb, 0x60f4c740afd60c0220b0258f6c947ff79c36b4694f3d129ba37bdcd0f9857454), (0x37f8be4e7dc6d42e21cc0e14a6712f141ff0e50466e4aa08b52132feda64097f, (-0x67ed8a7a1b2b8013b3c483c760675ee930cb99aea62dcfbf2e0eb9ad0e1f77c2)));
 (0, (0xc30c7ea5106e993d9b06c44dd1173935e1dd5d65361cd46ebefd68683942a417, (-0x1ed170ec4e46c5bd181c0e6f58e15ef9b8f2ad32871f5c374dbeda56db49aff57)), (0x3061f6aa38ec75a3506b5e04b750e77b7d9e4a31a7455126bf99002a24eca3bb, 0x949c098b9528ee6d466b08a533d765f39a278cd75493a1d2dae0e71687773920), (0x102f3b471d4f38aa706187483e1a6f5de1677ff8d67c36d5dceecd924927b22d, 0x846719b47d544f65c8f422ec43e2d46b2df5f1130374067e95cfd514af6728ec));
 (0, (0x69e79794547bdbdf05cb830c158f72b9431c3e507a9e2431a0bb1621b7d4f425, (-0xe0a9eee466f395565e4c61837f1d55871cbbb555d00159d85ad37911ed16687)), (0x5eaae8dbcd2799635e8f7e172e9d8cceb3da7d858ec5ca4986dca41b9cc293b7, 0x2bcfcbda94be637fa7b63db2925ad22a5140e771c559090651b28afacabcc994), (0xc8b9bc1f69837ca02efc622e4790f36d0520849486c368aecd3b051e5e97a46a, (-0x1325ca90b8d69a64f89dc28870dff26ad34551a29fbac6568d5ae91495f10a6d)));
 (0, (0xcee3876292c5392ae2a263ff529bff633beedf408007db846b3710ece06481e8, 0xdb69d9221f1cfdc43fd6ae8b41d53c0029979d1455c99bd2fc9de91e4ebdd0e3), (0x9852ed0edabce9f1d54329918e789ff80ee3c771155894a4779ef23064bf5332, 0xa732f81c049ece851c3bd1eefcd1905efcdd9fa1e2d8ce10b265ed3bde6d4a60), (0xcd79b8052f1b3924c5ea13c2363bd75d75756184f6a161168c86aea3ba1ca7a6, (-0x2e9871da9bc9f77e6d0f5d3ba280803c58238b50de52ab26dd5fe9894d444ff8)));
 (-1, (0x9f41d3053e3fc7a5601659fdeb3aa1cdfbcbea37d03e90f5dd46457eb58963da, (-0x13061c7e927223ce401d445d732796b7ed7cd92246941e541e61dd64d575aa1a)), (0x45763d1f66bf2cbdabbfb2d78caa563d51ddabbb2f98aa376f4a482f026463c6, 0x6312d50d59ee7b1b7011ec95afff0340ea18c150114314f2113e0e813001012c), (0xf46829cf9039eecbac54b9e50e2a905945c03b59b29cd18185a22995c2d8fc23, 0x338c5f9bfc4eefc2350d6730dcc390e4c80ab6199a0d95bcb56f4cb93a73da01));
 (0, (0xa239bdeaa69d74069b7f7f14c4eaebb51be54379ac69d5e661dabcf68febd680, 0xfd373b412c7aee70dfbd8d9e1a64140eb59a9b65ed63ed84def6c61ec15d00ac), (0x4b07bc91432a68afb3decb8889c44d0021d4ffecf7b35ca883f937c9023396ba, 0x66cd21631a41ca0f89590c9b7d8c0ff10de7846a283beceb8e022d0ccd0a4966), (0x44ca8fefbb7f0de788963f3797af795515b83a1e9efc9c6cc0145cb09165ac36, (-0x387542cf38b4303379a2111236b7770cce12edae2b1857865474385d6fd87f7)));
 (0, (0x1925303b7d0cb84c75c4b1ab41fc1da7b3d372cc7350fd614abe7b5cd4ae17f1, (-0x34750d948c1eaf5929d61f28579f788d1dfaa889a4f4bc4ea7f49dc33b1f8040)), (0xfa90ba8ea9e6c051adbdc0257ee5b60c5e55ab9f609998ad9cde0f2556bde874, 0x27848d298b4fe63db29819350898e6d11c948f085a6855b776a32fe31f44957), (0x5501307844876c8e01a8838fc35fc2c80f1ed0bc1cdf6b86d9b9c6078bddb1c, (-0x113de0acee98e74100ab3fc58fb2c30482b4e7708862f336696090b79035f254)));
 (0, (0x3cde22e6981de05ad197fd6b6322fdf5fe101f586252d6063553d4ae7d8d7c9e, (-0x2dd363953c6906ac61c063a982040b5c770f0cf11b6eb5c72573ccca8e5b742e0)), (0x427aa7aa985d6711c51bc5e6ee62d6bb8c2453059722ee7f22fe04b9287fef18, 0xe78e11ca3ffe5194f6d832b4b3b43682a1386af78907052231400c102a0b1bc), (0xfcdb9eb585dfd8851a47a87612c57e9ba717f1ccd5249f3258cefcf61c94eab4, 0x2bc4e8aa959d404e8c736d2df7a86b94202e576da94800f12b72ad9d02d1c888));
 (0, (0xdc586b92cff9f0a22935ba1a8c534725713543af1ff27c5af263940e39bfbbf1, 0x17f7db89e1dfe4053f239a91b0f6e444222c5b86115d357088cc31a022080c858), (0x34176a997ba9634671c60e5544e71cfbeebf18e68f04f98ddeb0aa6fbf9abaf7, 0xbda8176e77989f78f784db63ba939496d2ef0cf2f8964f903f4ff66774cd2b66), (0x1486a4c77ad44829e0a44db6c1378be1c5a34b5b0c75bf908c11d4ed59ad74e0, 0xc6240a36d5bd65307fa88b1a36de7b528c1f3f02885437b4eace62886b19913));
 (-1, (0x61605a692b3576d1bae412e656e7b20328143a2bc914f2c83d1f39cb24f0480a, 0x1a7e7ca9bcae5f744caccf94df03b8552fa5f2e0a422c2917ea54546f3d20bbe), (0x1c92d581eb726e1b5d9356f6a2a3984d35b5811d76bcc7de172b689f4e2ae5a5, 0x250a28c7a18d09ba1d9ef1e945c43da040ccdea28de0d5deeb72aeb7ee3a9ed0), (0xa81da3c722b673daf8f812d0a91669f6d60acf56bcedcdfadf76c6e5bfc9b216, 0x8f216841c3e8546efc671ae2fc66db1fc03902a91be832b1aa5a2e537354022));
 (0, (0x393d55a034bf4fbda4555878845c476c58711ede4813d3d056dd9df9cf6c61f0, 0x419c68bee228f0fc8bd3cd1eba2dfbe80421bef0c263c73add4c7c67d8633cdb), (0xa3041da1e752a4ac1c292252e0f0f26f61007c7c9644e303c4370ab7dcf2a5a6, 0xccc5ed3427a1bf77884359d0c634586b98337faa20ed5e9cbc5fc5ed28e5cf0), (0x2542a82ae37113d7d88242b5bc50cccbc2b3c8a50832b3919e0231ed7ae69eb7, (-0x1e0f6f050e271e3df564e7b4c6744ff7d07ed65c0f231d9699a385a0d06ba8d3)));
 (0, (0xdf1d78381c8c15d9ae30cbea99a56e27c9d428367c43d93813eaf4b0054e7411, (-0xf6780453b219fb05c86d6b0298f1857d96880ab76f8f4d46ee8d44ce547e01c2)), (0x27cb1959bff0fff45b328fd13243397ac33802f16b3e754ec233c379a5132097, 0xc2745ad636e72cde05bf0e4a6568cdb9b731a3360cd1ddfec2670cd6d109b122), (0xcfa80ad6a04eb7a22ced23283b1222a0ca7538be206746f8d8534b17577a718, 0x6b64da0e12b2f0f4ccc4d1c2e71abb4684194f8f7fba73f8b187d111e8726ad0));
 (1, (0xcddb1484a020b013c71a860a5dc8ac5fbdb1c2dac42d58b6e4cb4cdb65b3b764, 0x41e5f67b44f788b2b4d3db1eb733a39b672a854ba8695aac708db6bc011d517c), (0x40adb65d0427bf6c507cf8616bfd3ac10b5671aef2507f66cee3901d6d00a33c, 0xa5889a5885034fa79018add49f29d43a6c68a7d9623224523f0c936374ace46b), (0x9729dec2921577c14669e0803a4a307230be9d03355427c870c938d8b404fdf, (-0x1402c396881938bfb164e626f4a78647abfad8dbcec75e224dd8509368b97285)));
 (0, (0x1fdd42a9154d0576b45c5e57985229b66116c6ea8c770fe8ab3a4d0a639f615d, (-0x2eabdc1c0911c862a9084c3a78516c694d91b850001e127ae7bd0963c05aa9f6)), (0x3d2ed08486381eaa0be7cc3976cfd08b939d28ba0f52b354b1b9294dd0e23088, 0x3f755611c730cf706e9ec1f9fd81f4929fbc953f2901d54e039120269c45887), (0x1cc047f7316a3180d8669a6b92262b60df288461ef67b42c9bdd83ab6e2e6ded, 0x6f634aa976bed1368aad1152a62faef1bee26399a60a177c204599239a19e8));
 (0, (0xc2867846c9e3d76eeb6dc0c867541876d1bc590bdbfb58ee7db6ecdf70c40b91, (-0x2c666a1ca6e65e743d71c2c995c492e273353d9a358333b3e1505b18fac09a)), (0x489bec0c5766ddcc2d3282572b0ddcc16781d2d1400b4e25f2471d3f36842ec7, 0x93d014ed6c9b1de246ba2f8924dc4c75258014122746fb4a62fbf7546966e7d6), (0xa51128b7f9dc75eae06b5e0c8ee13b2bffce929c2739b591f35ea69640ab8e00, (-0x8aeaf57a35cf27ba7a771f28e4c0f86d1468a070b0bf09c6795b1cbb1048424)));
 (-1, (0xf197aba274829a7ec8507cf9fb6d9190bd9e8214ec3e4c37fdc77072e57e31f4, 0x2e5e918d5a87891aa1f9f0bcd3a4edf7e0832658d92be97322cd06799beeccd4), (0xe7ef7d1cb73b8ae1f4e2e911777385c6dfff8a49d36dd25fcaa88e27b2b06939, 0xe3feeb03cc15c7b31b6f60f752a83466f0fc06c5dfd1b42c58435ffcae93d888), (0x757ff68332f174fc40880f375dc2df6fd9dd4ba825db15531070d0284ce033f1, (-0x965c10ace82aa0158fd6974a39691969a55c305ad61db418d0a17e6798fe6db7)));
 (0, (0x15d5b2a6d91c1f4ff91c08d031fe23a4579a13169ffe1354b370da173d256d75, (-0x2625b121d2994a34ae05aa3f9f30100cd061cc1d32b614390ad4ac6de29d93587)), (0x34a745b63b1d5b96dcc3a4fea8a78e071b9fcd8dffc2e4d000a1b53a888869b2, 0x1dcc1b225f058989e17a46750e852a9e323014f174d4be17201515250cbabbb), (0x3a9e5abeeee181ce203bf63f8b17f6ad9488020d85692839816deef562aa0e04, 0xf4a94be8fd8d689a9c90f112645cae5f3bcb8da1f2de36aaa55f96259b054a2));
 (0, (0xcf74f6296702d9ab1bc4ee9d0b1e832a6de82979bab75571824b98494a01cc6b, 0x3e84822423638a6ea01ccb53e67e50d16b893e931495d7399c2fa91b4a6169b4), (0xe90e48aadaabcc08b0f59b1e3553e4904e8460ea9f872192a88d005fd3a4d174, 0xa81e5b86f6cf8f439cab81b7661019f9c2137ac9fbce77935714bfe573c360ef), (0x146290aa58faee19d704c0224a7c0f48114580527fbe0d2203f736e88f23b34, (-0x9231b7894dca7859c403781f86278884d5bba186fd91dd4cafbcff99b966bc12)));
 (1, (0xf26b167cca3d4b8ff949ecd624adb7022eaf13817218396faa8610616b7d03cb, (-0x696813f822ebb5f059c396031342b6ac920ea836ffbe03c1833666fef2f44a88)), (0xdc156811dbac00803649dabd6da0899cb28035e74fee30e13a6366273216d589, 0xe58ea34fbca6a1b071cce3cf5b0078ff13e045c3477af7b26303990b854bd4dc), (0xaacc36514c28b3d5b4c6ace131ce2dd532d9d1e25454903bead84f7886a145fb, 0xc48b17a3719cfb10884a570c9650dce90be109689551ad12bba98f4556fb2f6));
 (0, (0xe2d7017c73ca693bc41ce613a49df5839f3de3002bb60dab0e072c189e5309af, (-0x108eef1145c9bf1b1d03564e9aaacd612c057cecaedc4b19ae14df9e98274a687)), (0xf22f6b5bcb35decb9c9e8e93bf8d17337d5323a5e6a2b3c9b29babd895b9496e, 0xc90053333b7e15323dee52c94935fa43ea5fbf04b753ff243bed701529d723af), (0xe675ded9361dd8369a6a14a32eac13004462585f178e7e5405dabbc940384f2e, (-0x139586e0e12bedde75881ffb330b42fe78936e7bbf175c41cca2cf6be49dae8c)));
 (0, (0x9f4d149bf52ba8a027615b497b0a70b1f554664c3f5f668ef748fca9d5d02050, (-0x19087dc7157e75799ea4be8b5b5a14563611de6378537e57d3fd4911d7accccb4)), (0x2d87328d8eb67a998a435fca21e359979cdfb8cf840f586e4866168f36901894, 0x6320d6cf2206750c01467041b7732dc9d1cf5f1132d2906f20393e1d672b3770), (0x4c94c248a10a9b18ec6b37335640544aea2703374a7840a95ab8a4640d06c820, 0x7a5fb1b6203c5b4d28a112a4e1d270ed6dc7c73d66015f8ff6aef239421eb1ce));
 (0, (0x55f46d649fa1cca2927b3213a964be9306d99739b7de7bd7fba84e0d5bc72f74, 0x1b22988518326f38becc930cb2e4bc1e6a2f4573bba9e1bd4fca6e9bb59d44b0), (0x67bea2ce7c84910a6fde2740fb6c0b59320dddec44b45348454e0d0b28e11e63, 0x1cdc3a05889095ceed61bc4cd6e074108481509c1f79566abe17d8d1c8cb090b), (0x694e4734ffb9c154fbac2b33088f2cbf623a95cbe0ba1ad0636d8cbdf16d8050, (-0x138bfdfd0998ce9d964708cb602e412c22cbafd3a5025267c6a1557e988f8d84)));
 (-1, (0xdddad49349596e4377b3447e52f96132787e6e60342f9a145f592967baa4d74a, 0xf992eae299398800eaf2553e5b4a8b2456b114ddb41d70ab655572bb19a3bc6), (0xb33dc130e60c3dd973feb09eafc9a234f860b06fbe814300012622a16c8c444f, 0xc0438e1508019ae9b7ebe16f786549669b3334e645f4885ccf7c2726a4726206), (0x11f7817ea8c715bebf08439002f35858612722d0c314c1483f441d018081c8d8, (-0x416d462b89b18efef7cbd75638d2f83df853dec08acfb4999e7e3d574f860aa0)));
 (0, (0x831d5d7ff2171b8f07d5abca159750ebc1f52c42302b4ffb235a63b8bd2ee242, (-0x16616d3754d56dec80a6a0379d714568ab74aa2e2ab9a1aec334bcbb98bfa0aad)), (0x270666e9e8d3abf6b97c92c1ae6d78ca2c67f8dc22cc044bed3166a6de21a075, 0x4327110f42e6b547824f6a05242de40abd2a55eb05a18ef5ae034acaf052addf), (0xf574f43ff21f4ba9063dd511cf2a9d2092c8bc5270c4c502bbe1d24d1f69c90d, 0x47d068adbd7930ad1dab2338d596e299adf254b175d7c829d545a20b148975e1));
 (0, (0x6671a17be98fbc0e9950a7b582abf5725808912d13d087877a55edaf3c50ab6c, 0xb29a3f008b0e6f13e49ec60db7ebd322fd70ffc8511a4108dc55fbe1a4f01403), (0x28cde1ef957a51436cdef90b32cdd132085f48d9867ee5e56983fa9b3ebaf14f, 0x28febf1eb35fd280b6cfa6bdae5b659504abac68df3a2203dd518b3ff8141959), (0x873fea655ab066e6efa5404156c1f52755a6f605758131e18cab0c0f77c1ca38, (-0xb64530e121d76ec2fbd685b5940e40c1e7367825a4f335babcd3e539179653)));
 (1, (0xb94f19a9bada30ecf715a0777b312288efa2b800af78764c4a07094caa8dbffa, 0x3a96d221ae9859549daf11706fa5252fb2023c1fa1e070ac60c3916c67046856), (0xa605ed1393622cb6a8d61a594456136613372a62df7cabe9295a7e45acc0fc71, 0x86236b882963446789626b75e1aa3610ff8409ce5fb3adceca693254bc61c2f4), (0xd7b72b575902c123c3692e621036392bd7c23e09e0421c039cb3fd258401e1a4, (-0x5aa430e5f11338714f2090c4aaf3306897316a63b3508d1d43290d1c6f3113f0)));
 (0, (0x24d9aaf8915d7b9a012be79c6ff290e6b010e476b46c0891c824b2f239cef7d, (-0x13f21693be0d4317201513fea2e0a06fda73799376b72c43c44d306d11aaef675)), (0x58fa6f11a4a79e82e2cd70defe09090df9b56356c2f39e25365fd64f8ca20175, 0x54df1293477cda8fb3d61aaba4475ccaee4d7337f40d33bf794b30d5adbee), (0xd38f856380df01a7f73e196639428cc9bbc7f4ac74610fba954e663905ae5829, 0xb171fea85c49747b69e9a254da569ec48a4c8f62d70ca66a12f0c4baf701f1));
 (0, (0x5539bddae0bb1dd2bc9314410f977daa3dbef825c586ccf43d4a3e9b62fa6d4e, 0x30155a3d692c9b7a39ee19bdcd9d7e6fe7d7b58940b8b308d7856bccc549db3f), (0xce04d50bc024e77016500cd52260ea21d8f8caf263ffdad129dca0ef65da6df3, 0x1c5f65197181401907119741ef146941f181eab1f6a3a82f0fc55bafbada8ec9), (0xd45531b065ca50b439a7955daa9d15a869f199c407976aa085d10ecb786a4561, (-0x26f6d9f97eb3dad8c27da09d18267fbb71926b42c35c6f7a86c860e38cbd0b72)));
 (0, (0x8118390ac9b450beed4c5a6561a91733e543f16e28c7dcfb980986dee15db3c2, (-0x11b3d4a35dba78b8dad146e3bf8203e1c952706eb38ff216ff6c2af3b736afdb9)), (0xa7971c6aa5ad466db3b4a87f5aac574feadfc41aa5b0f605ed79d9f166c4fd27, 0x41196bc79e0359763beb6bcf203e6a86b80d4018bc01781d6b6c20ee88ccb8b9), (0x6ff43fa168e9285ca75d590f4397fe31cb518a57dc0ef84e90d31e5df214084d, 0x1360ece28a1d0fc4393e519df1795caa483ec785262914fa2b74f7a45cfa9136));
 (0, (0xae9b8433589d29bf7e6546515c8a2761d77fafaee6dbf467d6d8fe7a0bb6065c, (-0xb06b74ebc4d9e1596440b0e107032dd7bac94f20e517e504292a6bbef596b175)), (0x1d78856b9c15373ac97667f28f1b4a6d8abce9b338b1fd0e823eaeac54bc238c, 0x7717c62f26e7f0bf5e0d440e6fc556f8828c71849934bf04c147eab3cfd5e4aa), (0x4c7902b0a9bdddd1355c679c6b0f838ac01aa9eb5d5e7e27aaa1fd259d84332, 0x5e34b27a3eb30e579d13c61d3d298541e77ddb0c0e3852755ced146332a292db));
 (0, (0x3af2590b5af04cf0813a1fc13a6e7812ccfe9b20c7e1376b1d4c5ae8451e6e20, (-0x7fa1af3f26014bbfdf79598f3c73333cb5b088b7d4c4b85ffde134ef7035dd0)), (0x57be52f8580a0f60aa6c75cfe9b39a6e75450a288db9cffd4985bcc8a330834c, 0xd92b5c59da5b6ea77b6567691ce767bd5df758f707bef33cd46044c838d2d24), (0xd324727a54146a86c87a2557d1581b480daf56a87cf9f4c09d5552cd4509840a, (-0xd6afad30bc82608c15609773de3eb1c10343b057c0545464028cdc622be7984)));
 (1, (0x1793b9fbe7e4e5f3ba9b75ef69e16e7ac62d755946ecc2377f4d83f9773e417e, 0x321a07fd1d4c19ff4267a8c6254e4ed4bdfae7a5f88b2f4c524d3622dcde266), (0xe4cf4ddf7ecf38235f65c3b5152498f261236893faae752f61a68c334981a477, 0x22be0aa62157f3b42b4510756be4ce67207c71fba1614f71b328b41e9c008a7), (0xb0716575d6840f8b6ce7bc8c9d240820351a1e65ce7383e275ce9fced45dbccd, (-0xcfdedc6ebf679c3ec115bdfa088e016ef86a73623c29e2617488ae9753c7bcf)));
 (0, (0xf010a39a2b9c6efdfd566dfad5bd74dab097b3c4aba0de2863d040e6c3fb84f0, (-0x11a9a31d0d64ee3a56daa86db5323e565e92b3ea5f7c139115a27ea5c4609dfdd)), (0x99559f1a148957b3d208d45f70c7d901bcb094e18ca833a3a7c005c8ddef0889, 0xe11f33d5ed98740bcfbca015b4eebcbe5cc0a035e8d28b2bae4efdc20922a9c7), (0x614700e50dd95cd34c6a04f634e9e8630b3eab53769a6785b1f4ae32a26e6bc7, 0x46c6fbafee4e8b6ddba1c95e978fcfc078b9f3886e15fec4ab300977cda68b34));
 (0, (0x8fa917fbc752b05a7f4becc7d0b8639832eafd88034cbaa420e9c67b0c3ac6ce, (-0xa658897775785f5df97107e5d5205b83b7a139303cdff26e5d0dfe030ce9d081)), (0x2b785eaff736cff8d3e06fc0f635c7e43ce715f39c384f34d1fc11ab13c801f7, 0x509e587bf55ac1a344baa1fd43cbefd470106f00540d328053bb640b83c00b35), (0x7af2f013e06645f57de1bb1966a52645100ad9d011f56835851a70355982a748, 0x3da72855bab09f9a4a02b7d8e31ad0256c665860606089340ed58b28c8a8d823));
 (0, (0xd54b92551683e93985c2d56a9f8862ac247fd39e6e47b5d2539c6699f2a85f79, 0xb6bbe13084bc9c278f12027e1e0c41a56fc80949ae886b2489cc45365c7a8c73), (0xc8074c577dc76ba665e5b3f128fb459a4bb4c1a09f5bf714c3bcb0ec4d63af98, 0xb1b6d7d0a8f7dd5acbe4041ff117e9600465d5727eafe8fc2e00b97fe61f9545), (0x89d60c4e18cd2832cef5cb441f955fa408ae20bee2ed777c784f2544b0563a3c, (-0x827123198fce2574735ceca2fb9a35309de3aee5785c9e1806e293ed5b237ff3)));
 (-1, (0x4f8ce23e14c78178e37774bf184195428fb146c244f78822460c1f0872499a3e, (-0x185393fada0913c2d3218f7b8b66276cade4bb386bb3bec4a934a072fdc090b4)), (0x1259e87c4bfe4aee9c5f2142d481f593bdacd161277af96aa1bc6c9310d4eb39, 0x18b8412a8cab87dc8b88749828f05187ab6f752dd39c30cfaf6df50eb3fd1755), (0x96838cb2114a0233f0285ca47c3afac5c56e613faca1ac36b4cf6564e97ef5b1, 0x38747d3261211d9822981c0310ba4884c6af36da1f5f9be30ff73fd7423a2dfb));
 (0, (0xd59b363324642e8604fa41a157d0ef839513a97a808c3b224c6d83d4c389b9de, 0xf73b1e59763bb443453444e9746eadb849b7a10279fd20d06d9c243a98213e67), (0x4fe0b01a670b00101017d0093c0e6af78b63daf343beabfc5cc9ab99c7083749, 0xb23ba64bc7f6644d2349e00b9776f2d3ee1f04e735cf9f72a317acc1b62c0e87), (0x404c9fe12a8f93ef61d46628b03d122b6b38745fa6ff6d2c04c63b2aa61311df, (-0x335671b821f0198135745ee137db8b8f52be255c3b62f5a8e737c805f5e7bd90)));
 (0, (0xb82ab1704c232cfb45afe145678078c7b3796afcabe7979c3dc80a1307af34d, (-0x44fd1c2d30bd3c94d2fd7a6899867c0519e663fd419d7f6945794c908a8e2243)), (0xcf3ab63d5fd089769f61b27e668e99ba5b558514f6b73a7e7379fb5c59ac4d5f, 0x847d6630214806bf503f6b4e64f28c0fe8adb95727bad24187954ea5232448), (0x47e21b7bcd693f624b4cf2214c7ce171866fc99e725ca3883dd50792645e2086, (-0x5b9df173400be1f95ddc13ee81a0e181c4486a8f5625b0b8bfef5a9c741f76d)));
 (0, (0x5f5db0ae3fe94f19764b9021068fd3bfa55b290044096c41f513f54b3a08764d, (-0x1c1b192a46806b1768d0cfaa8d2185ee631f061d2aba946b7ec53bebcef1d9289)), (0x1c14150e4ff84523d5d8375db069f44d8421f62afab04c4e4644dbfffcc03460, 0x2386ab6b2bf9a6b41c2b3ab38cc6199a565c2c40268da3d59ec1910e1a83b2e5), (0x449c8b2478e1ec8895f1dac897c95203c7a2ea948e4a6eb563d440dc9339647f, 0x42bce67d84c5b2fb04dc2e12f80c903caa90f11e8d0060f2e8c46bed3ba59fb2));
 (-1, (0x62d5104353ed82bfa7b7e3e5e27ef9bc1d176bccc49e58a26e11dfb3222221a5, 0x242927d62b264a7d27de3755018f02b12c9217bc79c556b5727ecd31be6bf1e1), (0x63bd7860320d5f1bb34771972bd87ccb5b3103d238d68123521c8123a8489f6, 0x2627d1c79d53fd89098426e9a5172339853d43252c582c1acaf215e2d4a40685), (0x168bc9fcd4d2d692aa61cae6e1138e66888f9a2bc71bf1bcbc8a22b74cb9da08, 0x86ef5dca26c67969835f3007b5e2b3896a5c97ed8d957dd84df681a97006125));
 (0, (0x84379e6246452bf9a616d871eab7fea5b1aabc563a1106cddd92b8930e442b5d, 0x16d55ffd62c02dff9ad2f6cd9514088c9de4290c5383ebc87d20b40533697c9c), (0x8a55bd3e9eec398d75867d5fb9ea8e5d9c2d32386cf341d361f2965babaae092, 0x4449676ac8aefb899b14a7eb1aa0c68c484c03649310b5b88c470c1b0791efa5), (0x929356d20d97c26776952eeb30c42543ddf9144fb3b9b7d60823c4643997d41d, (-0x443a0dbe3cf2ff5e6fb43420bed107622530eb00b0735cf778bac878b80bbaff)));
 (0, (0xdd5b573b4a141bbe3b03f2bc0ae997adac36feaef191a140caa423587bd1cc7b, 0x1d39564e3e1977e77f8c96e85ffdaa59526233a2a26dee85d460bad0e856508e), (0x87d5f00f8bbe286f5dc16375a39dcef0746d7c148db5b4024e9bf1b2da3b166b, 0xbf66d5337fc6bc4710b27d51722df2cc9deee37db6eff2e046c84e4a1c6cd896), (0xbf223c08035c5dfed05a8f36ee661fdf697a472a11b03f5e8527b3403d73e9c, 0x2293869963303161cf1551cc9ceb6cc0e1f80588503966915b26a7eb435a93c));
 (0, (0x368eeacd9d79f18d3eaf6044c71b6dfb1e2581adc2e5a3b31e821a619a79e207, (-0xd322844e879a4704445a804e0aa72cf5483d8984a62f7ba309c6ec146ffd5ccd)), (0x6eb022f688ea91cd384cf9575d0d97d7c35acb454d9de4880866e279c1569383, 0xba09ad811e6ae3812e566584b7dfacaa7514ddb0a740ee19d42145f19d573a8), (0x9aec5e6c00cf78742e1fdca9e2673d181f551e853a8c2dda0c55312c95d13ec7, 0x55c034bcaae76212a9428d53b2609143849d81e72ecd717a2b55b4962fb121b));
 (0, (0xd24fe77d513422b27f9c7ff528ab0a156af01d8ab27bc606a44dfce477086031, 0x6ef8fb45d73be983fe0085f52b7177050d8c25d788e544d5fb0d2198ff64345d), (0x1a6fe8ca233eac52ca60bd2e1e014dc281c2dcddfad396ed0b57d900bfee4426, 0xacc730ba49e50cfec0d191b54fc1e1d22674e8caa039e8d929028066387afedb), (0xbd38a6caddf663fe706c498f6cea6be0586996e29f38deef8fb2ae57980ba476, 0x4536fbb991ae54952385fc3a21ef482bc18ea8d28598a4a8c1652ec288037770));
 (0, (0x49727f5efe01e72973069059080af7e956e17f0684b729d813e3561e4496c2b2, 0x6462cd409b74544c8d2083dc156ef4347fc2157943c724a66ed607a72250e094), (0x7cdf92e6c72ac8e30db6fbb802285227ea349729836231c21a16fcc92b335817, 0x15127fd9dcd6b2cced4cd976313b834e5a5731c2cd0f96149877acb52bdae56f), (0x1d481cbc0654fe6eaa80f9aea8e1f8e81d20917facc253564549c8ac724ab9cf, (-0x1c3dde35d78f853af5ad50eb22078b3af2cbc4e8a55b1865ab43fa4ce62506d9)));
 (1, (0x2b445c3159781684809aec8752aba4ea847d3918e80077e83ff95d411a1ef5fb, (-0x876865c17572dd6bab8ec069ae6eb75aa812ab9f3c8dffe4d949d7aee4e2f2)), (0x9f33793d352e05af8ed9fc2008dbfaa6b7ae006056c371b968e6b356dfdd45f8, 0x7500939af79612e2904f0e8f298b832c0b57656997fb5e99148f02c9432022e), (0x79583791cc9c25e6d0390df756283c7869e69295abb87075ae8b1ebed59a3a5c, (-0x5cd425678452f93b78aecf2beece0b76aa4cdb381eefa7150012ca185f4981a)));
 (0, (0xcd63febeb2bfa71a38ec9272a26ec1ef3f8451b304dea5144f26eebe2c8bef13, (-0x664cdc205c7551ac85c7cfbdcbf5ed2a3a51b3b903fe889ad4bf1c732a68c468)), (0x4dba85e37e46711da35ba221efaad5e71f14b6786b729cb220207e1dd96564d7, 0xa4c94d0c6f442a9d5e5611420bf1065e44bbbd38d5d8142b47baeecd25e1ecfe), (0x168ccac7e638690703411a6e1188765ebc4b038c5c150162f7f7b071b04dd7d8, 0x415dadb7a543e537038dc4bbcd9c6d3d53a4f567b2e841e319ef78b3abf216f1));
 (0, (0x902f89000e4d3a3278436679629ad8edded6d2a20b7b6b95d61dbbf76a2d9bc9, (-0x2d66715effbb28ec5e19b25ab53722e3ebab6176fc5e6d520951849eab2983ed)), (0xb5768a61a2c339bdf714f35f5bd793408037b87545fcd532e3aee2bbc69f9fc7, 0x513582f3a76d3122ceea8a69e7ecf4a3a748a3235d1c4f5b4bca222adc556864), (0xfc757bae007bb02bd11c7536d6a39621cd1db0df96336b3ba86e3dc1f6a85093, (-0x3a6d058f6be1f8ab184e1cc58df5deaac27f046b11b225a2d792ac8019b42115)));
 (0, (0x6c577a73c8230a3a3f42da218d469dd80802db55ac1652d4893ab8de33366155, (-0xac32d9fc900e37f8715200b649d102b0d525a153ceecae67c0f115d5cc99929b)), (0xfd9b0314d96b69cb5f0306b91b5cbab7e21b58956d6f7404817084eede685f87, 0x2dd9ed3626222790eaa8e0e3ef27eb47d05df9bb3daa552aea52d98de5a04e1c), (0xed8eea4a79bb2faac8100d692a8eacac705b104e8cdf27aacc96d8f7db1853bf, (-0x1e8809d2a24486260adcc379506dfb04c9e04977925514721061e4c0c5b4638e)));
 (1, (0x555095c28c450abb1cf28352f943495a4eec34a3fc51b8b41ae75af27aeee3b7, (-0x2bf1c2124ea256b7571d43835ca9cb1f475f561f6507905b8b5611fd840dd4ce)), (0xc7d2a48ac113cc79cacb47cd48336256d19abf636aad3401abea72daf8504034, 0x1c6e9cd122598f683a28cc6ccaca1a11b968bafccd1fc24003bf6bbc7ab58ce2), (0xee86c0d05d75f8ef3ccb1a29dfe268ceb500f5c11c7799e09d1150fd8430cd, 0x11ec7577e392cc64d45651b7637ec3383e7fbfc6514605de0094b762f6e84487));
 (0, (0x64e6cf1ef0104bbd49fdd481c41a450a926a1c368948b5d2f1a852862416a084, (-0x1d32f740383e8af9acac397aafdef63e1573c13f956d1432db08510d8ac633e38)), (0xc5870bb38f975b1991c23e9adf39f6a0f301eed3658e7e3101e8b6bd65ea2589, 0x27c521e8feb7246b795baf318856322fb3cd9816599176eea5cbd38a1a005111), (0xcc803ca7abd8b21751692bb6819f9d7b71a6bddcaf0ca67c9205d9cd8feb0e4a, 0xe7997ac8440104031556be69923def9cc369c936b22381c3e7ada4e8a811fb));
 (0, (0x423c944229c78d90c790823ff16a2b6a0d326e983e230e55248c0a0d9e8b2057, (-0x15f68757e3a869cda6fcb39c65c5c9652cb9d2da4e42838b6f7c60dfbc6694a09)), (0x989eb16f1494ee1c0de3a19736975b3d427486a05e6228acbb4f24dfcc1a939b, 0x11234ac7f26b0bf15029fb31c8dc5a5b8dd17b83ab2e3ff08e6487d91f76025c), (0xd40b19313beb9d461c502ca3ab6729aef301a70de266c88f0dbd4a31a85b4ea8, 0xb9e87bcbf2e895887686e948297923e6316859f77aee93d3a03bfdedd614810));
 (0, (0x22af1eb1d34ebc310c7cec657b9f522357039ceeb66fcda63513706c8e50115a, (-0xd781728385138bac4ace4348c4b2a59129c4de4829379c1b9db9e2b5c4851385)), (0xea37b15dee7d87c4d88ac3c1439ed3b50e662a499677b8cca7474185dfb9cb76, 0x4b2fbf236edf8aea7c6dec6c68da07e94413fea25665ec2f3764dcaae305888), (0x912d7232d66cd303b7662fa8346158f3a516d31e27941987611108b65857bca5, (-0xb0e235d4958ffa337b93df5a9793a1579405a57f9b62c61523bd623cd0f81a5)));
 (1, (0x8a603789ebcee26e874b6a1b1544311dd40e8771091ffd5681ba9b1e82408e2e, (-0x3ccba83eeb139f01c34a7aa8b65a7de6b2a126c22bcf071ee54caf9da2c1b0b9)), (0x5765ac84f986446edb47858cfaea47409ea22ad8a2570f7c6b1fff42bb640f9e, 0x4acbe00a65b874ea1eb21a4c1c1a34ff3f5f24d50d4a845a601716dbc7d0dde8), (0x3af62d86eb4371bd5514bd2e991856dad48c84ca47fb4daa1115ec74cd08b05f, 0x4f5c6538fe15cd11ae2173617b9e53610e19ecad04d62935d96ea20ee62ae9f4));
 (0, (0x15098741cdd1cf4e25265ede5c1e3e3549c8193f347a5d1c406936502d929b3e, (-0x4fd203d69a6f6011ed1f29e747f49f61023345f260dabad5beeadddce34205f8)), (0x6ef2abb65c34bda672375884aca1f1a873ad175d1352c5b4a3ad9c52da315587, 0x1ba908b95db5cc0d8404b17c941b6ed879e2dbf314c6a05df56a67b6a24308f), (0x5a0a59b900065906a989314a5a5a1f41cca050ba4568dd8abd4adb463e9dcf07, (-0x1ef71556e23d430f89ff25665e6683259b9682aedd6b2699b5be4d59574736c)));
 (0, (0x729b6943a25e2d6c97fe264a8c590626b5a8a8e00ff232e416d910b083aeebea, (-0x3fa1ca4ff24a9664dab7160fc3b3c1b05967b0c9971580d290bd8536a3a072e9)), (0x942220239c3c9f39096c4040f285c212492c6104d2349a3400278b427cbf5f41, 0x334ec818dfcb0b8f5e689785a1e31208d4d338ceab2e9e61b2d438ae6f24537b), (0x66fd53c3526ec5436e5af1effa2937f843e8f28aad635be442a574cdcd736ba3, (-0x10a5b4de6e6b44c6d8deffea3e0c803248393f308fd6e19dc6a9192d7af0bcb2)));
 (0, (0xf5075f14e8ab837d55b92adb229cb5329ea8d2864f6bc1abde426dd6d9821fa4, (-0x3bff9c71e701cf457e456cd9e20f82e104db449516ce80291543c8809c757045)), (0x452baae72ad75b37bd6d67096d635509eefed6c51e3ac969f349bb55c965f5f0, 0xea871c345bcd897390c9fe98b352d377484c93712a8a9b3381dfa1a55f447fc2), (0x6cf2928e504ce529d83710bbea1d1d2605a2be385a95a9892b2a6b7894f96531, 0x4b942443f5b3dc1566d368373082985a9bd38f5524cc8be8750683ad17fb16f0));
 (0, (0x4b1f386a1ed87b72bf9ba4c7cfd127fb0c97343d0aa3db9e9fba5f8f37bde517, 0x7deffe8ea3c4b2a6e4611bf776dd6b9a09d5854378501c29c20566f2eae2d92), (0xc11cc128f167c853f980a5dde3af662fd629827a7025fd89ba39147cd059b222, 0x160b4edce434ea3f670f7d1933380b4c0f24af207c8275d15c0b4bf79ff37821), (0xa1f3a0ef6fb5287991585f7d7ffbc31f630fb66e106f943c878f40942423f15, (-0x245ebf0714c405eb2c467943dbf3d27d58a78cc1058f00f9f2f398688ad3e07c)));
 (0, (0xc8d6af8b38d181f4eb0cdcbb92f94060e18abc8f050c46b2965221c7b70dc75e, (-0x1a52356a18560ce2fe9591f12a9d420d3f37a235b61863a312e4e8c34ee862de0)), (0x317d61f7469cf71690cebfe65e341b4caa564ff9a448828c0b3f0fb3c1115fd3, 0x9d9026537de9fcb9248960098fb57eb7bc6facde00138fd2120172bb403b7823), (0x14e96d6484e926b56800f25bf6d9be4dec51b6cda5522fc4490340aad7bdbff8, 0x70acf4146e6f43938fef2abb9090df1a81c217171598f56d18e1cdcdaeef161b));
 (-1, (0x44a89b16c931fa4124be105f20fea252a5822c9067edd71e32c0320bc3073c6, 0x1360dba4d0c846e419164165917f8cb4aa1ec60aa1767d53253a1bea660c152), (0xbec7d42b01d6088c38e2c702910601c34cc8641e51cad91b11bdcfd5b530d3af, 0x126a017006bf3834c8c69c948c26698d84b8f7fe5a7f8741e659f04d975a16), (0xfde45403302adc1e1f2d473ebbb408680a7617dd90a3b6fd3911890d251e3cb6, (-0x25e4d4c9564431ed7bf0e2dbe7c17405fe53d991f2999de54690cfc8ce9dd0a)));
 (0, (0x4c8909725edf0a1fd427126ad30139566d98cf22dc1cabef829066d72846e12e, (-0x112b84dc16ad552c38d8a930bf796e77bb02eb961fb8fc2f4e29e34adc3780a75)), (0x726ba7b11708a5c99dfa863540746398ba12c8bc6c70643f34ac1be8320a17ba, 0x16e1a6f7051736800c8c13c6d95d49755a7b3a48dbd8dab771ea031a657cc694), (0x51dad640b371fc041baab7be0fb6d489df271470a396e4702b27d42f54a7c8b7, 0x16d43d5959dc186c02a9c11ccde0620ec74f7fc5cbf3508fddc061ebc90630b7));
 (0, (0xee18fc6cdf6d0e9751c608568927d86655c19d464d35970aa3e99a57a04028c6, (-0x1294b090e11b5864e8e6ebd3742c4cc244da6e849458332599b2c995dc9e928)), (0x3fa9b051783d89bca2bd1e3666f0deea4cfcf87ae1a366e8e36b26b05834cce5, 0xdd7277cabcbf31c01428f32e64e8c06e1d9692681fe2f197efae7393b6961625), (0x430115528e949f2492135868f1baa8389eeefc1c3726377a9c51cd18f5179167, 0x2f3548369c3ac9bcdb47922cf163ff55f4f3229d4537a154b63f808bf9185360));
 (-1, (0x4333a9dc42bd587e89917e0227f5f63325ea192663de40cc41b0fb86bd320cd2, 0xf3f2457d93262cc3a63696dc333b5326b570bfdaedd68a09b9cd5026bdf081b), (0xbf8e64ca987c6dc6df638c39f5a40759630fd6da5477f38b290b241904f71a43, 0x11a4155669664164441a50b8e8937a433398b9aefed2e4d96e2fa590dc75c5bc), (0x51b9c64cff4f06ce18f93e8721d9f5fd6e783c88a0d8816ac36d103fe3571b13, (-0x2192aaa7ac987f2da391eec802af518093755d4f443c814f84528e9d3fe33a4a)));
 (0, (0x7dab0c6ae2eb70d357b3445d051e15fcd8f40c678cf84f3cbfbc9b13a2a1834, (-0x1a8fd92b29b951799d185db1deac8a0d56bdfe351ef226807c9b9d5dc12d2dd8d)), (0x83b406d0d2e57fe4c82c444538c59a418e65ee6812dd409b2b6e14843cf89b89, 0x3db07c69f8ff449de4ae053b16b6b037a5d203bfb330a6354a51b2997c584f), (0xac87d1e20b53256782e15e175004cb27fe203dea3b6afc04c60f267e2d462a19, 0x1d619da6f5321f72e652133cf7c15cf886ec51cec7d17fc1f383bf30bf62e24));
 (0, (0x249e9e7b324376d7955c4d23893c65345ee1b063a307d9ebf42b4ac0ee97a10c, (-0x99e9386d8d7da7f1a97186aee7183361a1573c35557ecf7a87cfe2a735abf255)), (0x721e0acb2435306328861f562c3eb866f0bd44b55de77c33234fa737cda730af, 0x53cfedaa8515207f1830f5c4ebc103fa5cad21009335f253d0e8efe10a94d61), (0xb7959b4919d89d4b8de8543fe6c0b1090fefae12023867e7eeebe5330c0fbf07, 0x283fce56022222f0f3b2b663233b6ad3b9f88a00488fdcd4c3ed3bdece64068));
 (-1, (0x8fa90cf5209166d562f0264986a93ff8db3ad0a6598c33015a1a0d74e2225b0e, 0x4479c78cfcd33e2d2d9a0b1b4aa02b2a108bd0c5f4cbebc551af281f70cb013), (0x3922714abbae63e120f761bcddfbf8b052ee47a4cd339840317b7fb9e815ab12, 0x509e4c1bf6af56a1265c6dd99489e89d02c4d79c33d59de7d35a261d88b79385), (0x50b9a2e8e6ba26d7a5ec99e963bd37b008564d200e743b8dfa2977b4c09ffff8, 0x1ffa2bb96b640a99bbf93e7f448d79c47ce1e232885b9e02e5b9ce0afa47a219));
 (0, (0x238b7bf6d07bec1f62d2e51c4cd2ac414136bbd3b3ac8bd9dd77fbe922cfe7e7, (-0xfd656f011e38ccace2ff91d6c4e14a51fad5de7aa7e8817969a36a6954cc284)), (0x3b5dc13432191014f49c0cfd7d56121d100c62748ea93c1a3aa85a45d953686, 0x4ef6fe5570f636f6bf48ca2dfc0191b0ec984e0bc4b5314246962828dbf91e9), (0x7a9293ee1e167c7296e43f85de5c571016697c187a4f1c850b01b3d437c401d3, 0x76af43a4824d53403c3e2f2f618c36fd8ef055a116d364e2ba598fdcadfccc7));
 (0, (0x7eb0babf2871e3509c0db7229ef34b958b4ed8fe067c60f65115ef88bda08ced, 0x792838f1ad6ea4ae38ebd957ec92d6d0be70e5850451dcfab29a9c09563eeb5e), (0x97b01d612d67505abd536047a30404f544c3b57a32c78ab53b0280240fdfffdf, 0x3eb271d57ae20ddec71a31e2566dbd0a94582f75728b85a46dbbc194d1b90be2), (0x64dec12d0f90f0a64bf8345fd1d9bf0933dabeec87de95e12e62096cb93ffe99, (-0x493b54239169a88a89055be7e10eafe33bb7ef17f26aa584d33fcbd3493fefff)));
 (-1, (0xd385635153c14655ef0eb45c6aaac003bf1e942e48d0760b45bbb71a9975bcc7, (-0x18bdd3ee710050cc40e5a34ffe76bc70d3dd0f6787ed63ea6d530f207210c620)), (0x7a7cbf85b04c9b72a4a7f0c899c5f5c4dad4d363b344f30337847b24da03773b, 0xaec527386919a16255788165409303a1cba7b983ce67009094af1dc16fa22131), (0xf0938b21df913e023c6186faf4ae49a8f35d4fd262e61945f147b2a66fdc2626, 0x18208d5fcf3f48fcf758e6d1eab5a5ce8206925ea82dad2b59110bce0146d8d3));
 (0, (0x414580a795111354364834f94a2f53d29079de59fff6a2076c6378382103c077, (-0x3523dc01d6e6305aeb488276ad75e79d4e04746b16dfbb0ac70fb5cd1db83739)), (0xe9b756c70457c4726b12688eaf693be294c312cf3da7df9168327058ab85eb5d, 0x10a45e33b4b109ca155e3d9dc7114c85d6aaf2fce3fa8e2380c0cf0a390584e2), (0x17d5be7ee7ec107b6c7b9849eb8987ad49a1f6b54021b2ff994ef21f0b7e28d8, (-0x1c5c13187690576167636ed8c771ec95157f9858400b91beb253b4c90173f2f4)));
 (0, (0x3317d185fef12854a9dc6ebf001574d42a4b1bce2fda9e62f3042d2bfd2fdf60, (-0x2769a24779bbcf0a1f0cec964b727fd1789a4ca8c006d4587df1d0d0eb0f9fa95)), (0x69eca39d5b1277422d1c60fb5b138101773986477aa8238b4137cf9a97c6580d, 0xa327fb2b523f5cfa335ee43630d4ee0f9c939b62fd81383ca7299155a3e0317), (0xe01e8818723cb7a5c13c1c51ae5d07411b5a791d47775d00ef55801725d92c6a, 0x1981457ec54e9b29002a53f5e58aad3e3b4fc1a9ec17d9e489c871d32aeb6da2));
 (-1, (0x643ed4c9232fad583b96b97c8f6a38f51cf343ab9a6931016a97441869e7ad07, 0x631d21377ecf2390b9eee22aa5cd5a6dba5afcad0d888ccf598a3714c3aeb41), (0xd41b5783e02cd3d69305ce044ce43fffbe02a38d36cd24a05f053d656fc7166e, 0x274125a8e5c80ad4221907719a577e171f9fe1d69e3b568a80665d33ee17d442), (0xb060a605a00df211fe39761706a1509d0524a20adf8ab6f716f12bf4fb71fb2, (-0x29944dd7b810d7d66dfa637c07dbcb2a70e4bc333b19ea1129e805e6e070fead)));
 (0, (0x53fa1432c73d5a39f2866e43243d76b17b7bccef922fadc0da197ac1e10a7603, (-0x207fc6f55ed6328faa98372149d14ee9e15ac617a0ecc6d27ea32aa83be088260)), (0xf546246176e8fd8329e0b04c3ba8c3dff7bc475f34de54250269a136f544d012, 0x1b8c1d6461f6e589d1919790d8d7920804c31f9198c4cd2fbf195552381b4cd5), (0x476af25b705ede786d2ad3d01c53a15faec77a7a1a267cfa28d400fcda2f4e75, (-0xae146d5d471c0756a687c86766e55ebcf84de66fc7b91446c27df000d9b4a5d)));
 (0, (0xec972d60d6d650d8a0660f57397f57ac5719f3605cf55b48f1419b5584979938, (-0x23cfc763b47e1dc55c40e9a3099920f2912f3a4e98cf5b034b505d446ea51e024)), (0x3da93f5eac8430333f8f2a871c21fedf50794cf09bf36acba56a23e02fb17f84, 0xdaa714f11c63c60bf4bd322088b7b15766801bafcfd573c5b359cf7c0d2a4ee8), (0x9d5db7e78c856252ecdf00da94beb5783f3d06b0ba740d2087a4473a4f3187a5, 0xa9b11135b0688bee908d37b445e5c830b4363e9944098f1c77e530637b321cea));
 (1, (0x29a7fbbbabd4e146bc6c41df6b40d880d95f67001bd05f82625ddbd335faa0b4, 0x9c6d0257b99fb0ddcc2fbb7507840bb124eb69bf7151b9e7915430429bc4e93), (0x614c9db1dcd328554d435058477567fa5a4426adea2c34632d6e4e786be3b3b3, 0x6c73cdc836dec6e80bc6b25744b2abb0c0553d6373b0b7bcfb9fdf4ffb6230f), (0xe391ae9b8d4d3211cd91035c342fbbf92f9920bc202642ae0c8712105e57edba, (-0x5cc8cb928be630b265823981fdac2fe649601c0371e92ce1462e936c0921e85)));
 (0, (0xa8bf0610ea58276b8b8c80de2796aa59028a405f0660dccbe05a4d54a619a761, 0xbd11600b3856034f49471b33478a2a63a89cccfeb4819c4bf7d0e4c79da086d7), (0x98a2ae464f8ef1b9cc254b156b09672c65e6117116a3098c7d826be7d7b4855e, 0x6f3b468040f62f623d05e333a22e15e882dca7dadafefa90f1354c780076b993), (0x88d344f4aa97a91e962cc7ed76349d4ec581324063fc25f37be280784bb3b1e3, (-0x2479c5677679137f8744a47dcc1e6bac48b9e6258ab292cc6f74c2c1feaa2618)));
 (0, (0xd6b896f6afb61d47328e3c9067d9433033385f0d258225fc8cfc9ea27bb628c2, (-0x2b7e3aa21eb8bb691c8716c959760f28a085d7dcb1b090b7e8ad304a82b4b880)), (0xb21483140c913520dd63511eecb1f764d11233f48a504b3386336d1ab17dbce5, 0xb419217dc967125cb3c8ab61513db22c351e5db306b9c3abf3b286155e52f30d), (0x1c63b9a8567633531d1f366b9740c9b324d11799ec5254ea6a817e68e6969195, (-0x155780b62769b2ba755604a680f218d0e414a0c1daade75b8bf6c079eb4b9d1a)));
 (0, (0x35a1f6ec852cb1474d5a53d409b51c1969f4f58d883b59d854f9692a1eff324, (-0x172e34454a9b030121e0a7641f323d28fe8717341a6adbf75a99980a3d3b1e3cd)), (0xe87a7fd5fdcc1d4347d0794fd13d64f6bd61e44fe49deae79b3ccf9d128b0e6a, 0xb3c76b672cf6e16361a0e74f6056403e0220b1218854ec15d2f18edbbb5e4), (0xaebd2cb32339c79ff2ba6a652060202412e11777d07a4e9bbdddcf2ac1dc3dc4, (-0xb6587f0601dc437f930baf621919a25ff9a115b83be291ea334458ccfbd783)));
 (1, (0xd5879037f33a9ec5d08e0d87cf72064562eac1e1d9cbc6cdeb4c4e8a5ca41858, (-0x5c5d24a8c5098ab08c7b32f70cab52b4e20b99993c3b59110bb8891eb3fe961c)), (0xf21e01ef54889492f6874e3f58c0e90d8a20695e6ed43637747076ef7f1d4d3a, 0xb21addc6870111e4fe9572cd8ebc16c5706dcecb368e7cf38b196e36880bf03c), (0x3353d4969f6a356221a0daf9352ea1be8855b4afd44a64cc56e5a37d3664ecaa, (-0x80a25e6c4ff2a67c10935dfdddb2221b7cf76865696113307fd9ca76f5d1b72)));
 (0, (0xbc09abd96e462ec3e22a04550e0bb80bd05955938f9fcc140bfecdd79ab1210f, (-0x2638f3c7b74b65275aa10af880cec23859b4da2f9c50aa5fe4b43d658e2559480)), (0x4110ee0fb14ca975cd9636cae49c49f701b0781e7e304411400a21773790edc8, 0x8a1e34c4e29d079ce2e8f8f8b9a7f1f6a68aca1551626bc7d39714dfdf9f416b), (0x713584fef29a644d6ad598efed443a81c6f8ab995fccb5401acce8bf76ed482c, 0x820c4ae80b5d20d46c2b928abc085b1d1de0901ce6329e94b38491c9861c4aa8));
 (0, (0xedf3e16860214d7a9af9b58bab92fc59d6a292286d510c5f204cce11c37cd865, 0xa0d7fd2f275b69b0fc53ac27d87e5ce1be1b92abc19df49ab80f4215e20d9b88), (0xa73cc9b5985bc9654c93c5ebae31af6b561e3363ffadcd909c68dc948ff969d6, 0xdd2d77b0f49ccc36e30e06ad24231dd90ab259059512a669e1b94894744868fd), (0x4b48e96bddc7e7723d0a3de3537d2351ced068a6947be400d7cfddfe24562b92, (-0x5ef7eff0499f1c57d8f6d3d471ceafbb205e15e3f46afb2920333962472ab9fc)));
 (-1, (0x2307392c2b85bd24d0aa2404196e923f1f94030760e4e69f24f257ee89cdeab8, (-0x639902e2bb5e9f7c3d074f624f202d0197990aa3f4a95fd456ba39358472c9a)), (0x1923c77858859f05e2282a185b200a0ea126938641d2fd41b282690108d88801, 0x4caf9d64115a608f4ab8c2307cd2f0e9d2341030c33b22d22c55197f759d8ff), (0xb1eb7899db93aa9b79361e86a72bf75cfd708072752a0421fa6878900a7d0ecd, 0x13716db9855b7bbf35f094e2948926b249b11c6b919e0d2b8b6794d44b824797));
 (0, (0x8b506c7c4b5aed72e995b31d7e3e8f60bfab3342554bf7ec07f43af0c8fe2f7c, 0xba3d790cf05cbac6ffaabda8f8198bf8e7d1948093a1a17d72d8002057b95e7b), (0xf19e235aea93f243760e76af1d75f451ddf077ca683495bdb36a1f1f513fea9a, 0x4bd06f12f57cf29d0017f1e7b7952a2d06ffa1b5a62a7028f164a6afe3036ccc), (0xa9e020ecbb5790957f4e1531bdb8022e91ce58892125c687b4eeb54382d404a4, (-0x75ce71dd75dc3fc35e1fbb9e62949fcb3d2f4ce3caf1821d4763241c13ec8803)));
 (0, (0xe8eead3af83efc2c12d6caad86639425c4c11710fefff4dd70d5f0ea014099fd, (-0x176fe62710912873179fd77c444ddc552771b9718e8ad8c699d7f153c479f1d7c)), (0xb3d301b3ec17c5c5928194ca680375b113cf3f4de4f5d0c44bbd8b3c20826e7a, 0xd3f1788170d07f475230443eb7bcd15720de3a16e1552bab1502f9057861f795), (0x8242305410f4cd24c4c565c33840a10e3b46c7576cddc7c018f7cd71b6f17248, 0x3839b3292190963d8b049a77c875aebcf645aabe06582ec4d57478f83e45858c));
 (-1, (0xa080d3fc26dcc86f4df7ac6f1b1ae06362b802a2a38977e435a6a420925c397f, (-0x246a1b66e2e495d28571e91ed2cebbb8802aa9c1a11f03c0a77bd26586f4af42)), (0x59792224eff62b043dad4e362e3e01d4ca2cce1491c199bfb8f42f3aeaf4743e, 0x64a149cfdc4477c00bbbeec93e38f7e1568cf48f5290cc1514307b9f1682071f), (0x7266e81c37a7c52cca8e654c1263991c91747341733bb66ddd5788525a570c3e, 0x38a5a37a36853f3ef0c2851df717d4ef5e16136d02ba6afd1d4820a378b9ed22));
 (0, (0xefb1d5d746aca619e07541613bbec4dbfc92c97244f12b3d02cb5fd882bd2f06, 0x786abda45e3e20c8c2b2438b14de1bfcd40f85c1fb832699ca5b37732de600e4), (0xe1b3331e86ebbc69e8a78b6d9adcd659b8922150566fdf7289251d9825ebae70, 0xe06d88d15c46098516cc4077df0dbf237ba4f58552f08cf7d55bf356c0b35048), (0x2c1d944167e708487a8ab0c8c4eb1974933beedaebdafa3d0fe1c01e8217d195, (-0x7f8cd7c99f004eca9f38d100f868e6ee43e75d2da9eaefac14cbf00f7bf11c31)));
 (0, (0xe25abfb8f774a5061ae89b5c46bbb49287fdcb7566960f9f4711fb64a835f204, (-0x206f1f740f3b7bcddbc290d5e387a73a14c40cf18637640d1e116673b74614528)), (0xf776697021b5a0a64d17db2d6c8b15327d6cc1b3980ed97b2aa8ab2f3c353b5f, 0xc8245aadf28d784784ec3e61afce4a6d6e889236ecca47875359b71d25c74bff), (0xce9c57afc3b40e4cca7660d9c473cd03d4e1f9979e25e8c3fce32f516b8d8218, (-0x133e0ce18235d780207df73d5b9c2c07ac13e9e245a3d1109cc68a57d1edc9e7)));
 (0, (0xc403e7ac4cd809d3f1a47d25f39fdadad4402c707dae5fe32a2a2ec5d6d6ce7d, (-0x1913b6ecfc961556343598502e2694c42dc995a6e4e012b8d9f2c441e2d4d651d)), (0xd0904f67f4ad41303a9ee8e7db063861bd4497aceb4b4625c72942f21454fe75, 0x9615facf155d02c20016388708552bdf94a45b5c723851a2b465c72551ef060a), (0xc2c81b6f65d0817cd5a1e709c6401a01f117df81e1de301cb26ea9d2db7b0100, 0x1dc8c3d46056f1af03d8559027157ee3a63a940208e9a74161db11737fd36ef6));
 (0, (0x22cca0105c8ca096cad9d8914d830bc1bb1766056621aa7a15fba03dd57c8fbb, (-0x1c8cbed5eb8d03959c2efbe2f1fadb2535d94a09ca7e6280e31f6caf64ef07685)), (0xe1fdf0a088e2d821a727115164e1c42a6d0d075df897ff035c3e1b550afe319f, 0x4bafe13d6bd4f8379fb19cdd5925357a6e6ec9194ae5714a36c6fad8ff9a8f0), (0xf504024e96cf6720cd425d91c105ab4c5583f3fa0c58c542646c251271a0c4ef, (-0x25e7dab9eafa1be63805e027141fc919f7e094afb52bd7a5ed7237d2159b5f3)));
 (0, (0x635e7a1664259fe3a2c7d525dacac669d15ff6d4d5aa9be519b09d6a599c04f1, (-0x1984b2431e75e8285c01e6898097c8bb2168e54909bb6dffd0a09f183315c29cb)), (0x2f223166b0ed3709e2197152de898257986989c66d7af8f7ba2f66c7f97fde85, 0x2692354b341ffeb4b51bf653b35bf451ee27276c3cc7c477f68e2e6aee0aeb42), (0x1f703da193671f52ae8f5aa4a0e2810cd5b65249f4e51e36ad5ff5d2a1d691cc, 0x456cfceff3bd698bb7e21f6cc373cb79efe355c0eeab9b0b0562b9d64529c471));
 (1, (0xb4fe773588dc85c47ae670c21a22a767c2a5ac3237694dd9d85eabc4b43bf06e, 0x34bfff0ff849504535454626d64fdc403fcfaaad7cd30876d964d7354a897b22), (0xc1f139ccfb83c7c68206b17e45c11d197e11f18fbc773444946e6c05bf9f76a0, 0x7ff6d4940e348224b78f098cc8598f390c038b8abfc52974d5f7770a547b9129), (0x69c8a5e30d9981b19fdd89ebcc3b53fae9ade4c6874826943b7e16c069b4ed98, (-0x67cb7faf32309c1975ef9deeaf1f0a2e6518878708a4b62a8cdea2848c3a2f62)));
 (0, (0x5051a25e530066f274701dc75a2ca6554ff97a840efa681b334afa2802319d34, (-0x17667f688149d5ba101edda5f939958f5e33eff83a9f88866f2db9fce6af7ddc0)), (0x4a3bf9028cdff1507dffaa2b7bd5fdf5f272a4a7ae062396624412ad297b2067, 0x19331f831a8c4a663fb379bc396ff27644689104a9a37568b9ecda9ec9931267), (0x12660cf635f7b6beb8ee74d1e1ba8160a75dc1fee6a0c74a4a535b0f2459bc62, 0x258ed08590fe0d5943f27af4123e044cef56095598962428af116b7e36749286));
 (0, (0x8ce70691e9df6ff62a67756bf30f319b9090a7bb3e465d81ee93d402318b7200, (-0x2c535abc274ca691eee796fe8de49dc899152a9e6e6419841353d1677b4d8d1d)), (0x6f6eb891d67c8a77b3c1c238f89335fae90fe37291b30d77ef8040549ce9d0cf, 0x4d8d7fac734b9dd28aa68acf3662f0d40a991adf12a1fa2afbfee2684bb5e00d), (0x34d37c4385b2ff95f610a94ce93d03c2494dbc458c53fb6e6185e49137a92089, (-0x147952819ac493c50ede891545a9df9256c48cbead92bafe545d0f7a2cfac005)));
 (-1, (0xd8e9b598c274cffe0dcde877dbc3c28cfe3b2920fb1232db833022df51973ea2, 0x8bca495dfcb612a62e52d653787c4b948eb6945194603795d05113439d80cfd), (0xb4c079ddad3da5ed4145ae3dba4270df5eb5b8d0a5737fcf06978ce93eda8975, 0xb7cb37cdd90875c0004a16db306b5b20943a92c511b0a9bd13b9030f56126bd8), (0x1987982fe224913f7cf79be5884b08669c95c8278e2b1ad1588e5867778779a0, (-0x3abc43ad16165ea42dba31800e9554dbed087c3d035cf4bb09ba1aa6182205db)));
 (0, (0xb6d5062d7a8eb86185be71107dda560dfbf652aab5c749b20f0f5d29af179927, (-0x15a666b0183f7cf8618bc49c41c8102d4713bf898aadca8b91c7aa21416bba945)), (0x9a19f9e459bb271e47d81e36bf38f165cea9785f74a4550fd7e1b503d52acd7, 0x8293960bf217097c7df113878f1a9dd3194af8f79b05c5797f10cf4de45d62d0), (0xd8a54d18665c78f3466b5249291f87645a9851c09a23c5c95dc7325110aedfcb, 0x7a3653f5c9e450caf04a752e2f559f3955122fe8629292e60b8b864579209d09));
 (0, (0xdb9ea4a4b60e8e9d5130ce29b210c684f83a3abda6875bc5f3e7b28d322d8a2b, 0x172a10ad39f7ad27859d6ed93de1d8cf3c97a6c9343f049167452e9e86491a8b1), (0x9f7999810a343deebce38a5a6da9acc00002496b738447853650d2bef5ed48fd, 0xbc68d00174b115359df2b62bf8e73f26dac12157c788e01a0472ac8997eabed2), (0xc01317bf33dc97a593a082df13f1282be37435ee04e27b8cd133a062c296c1e3, (-0x808c9e6ffd2541a2530352b065eb4c01a13befc72e9accd35cb95c6fcacbd4f0)));
 (0, (0x162735b8074a22b5590d2613980fdb3df2a2607261a28a939574f25ec2968266, (-0x108cab4d020b8cca6902ecc6c05805fa5157c09e0cd5f2cd144d5115c1b829179)), (0x9154a725fae5d5de86e38acfaea1544023ebead17de0bcff69b160065050aa0, 0x1eac33d0a98addcebb5837a6d30c772397a9df8f41b9c1575255ca95e3d0816), (0x624c56cfa0fa7d065ebf5fd66684f2dd771ae60aafb891631d8fbb13cfdd67dd, 0xd03a7a22ea2a3160cad3bc713365046d98106d3c5d51330b0b7b422b0933212));
 (1, (0x6d3e1b2eaa614d4af2643509a180732414662c3aa55b24277488429341ac54b7, 0x301355dc880692a0abeb17baa46b3da70ffebbe649685da8ff18fdb7f9d9a223), (0x3ddf8241e1a7690edb9a9e355e89f481573a673556f0bc84bcce0f3e8225c3d9, 0x2e9df236ea9443657561b3675773a5edec6eece7bf13697687cdf59e9174a740), (0x2a150244ced409ca69440618ba7db70f4e19f50a018dcf5ddfe6d8fabb1e99fe, (-0x1686e857d1f3c7e904898f51440fd5d049e62648c0ef5b5705199f2d84947386)));
 (0, (0x755ca6613c84fa0b9e5d03b2ebf17f35446d3fc3bb5b8e1be7c1d2fd6b6dfd9c, (-0x6472bc70682acec4a2db7b8240075f46bf62a246a2902c1e6c844f38206e42d)), (0x1f32c523cb3704d82ec6fd43518fc30bc688a681842566fdb0cb1de5c5b0a4ab, 0x35cdd19ce3574b8db67600b319fec6ea751bc326ecee76d9ec9d80c93f8664bd), (0x3ba3ee2c19cbf03e68f3cd3071df306ed28a3ec3b9357911526fb58012d0872e, 0xe100c726067047f080f6ef51f3c3bf145ebe7d563463d8bc1e79831c29c35e4));
 (0, (0xf369cf04c83ed377ea057b8e3ec2d332637fdfa05754c81236a0561893d92a2d, 0x660281a59fb60f442c4a733cf7d06dfd25ce6fc28c85dc497f779674d331634f), (0x8297441eb21704980d0540bffe62f38f84ccf7138884be15c8586e2ae432e151, 0xe7720abe8d7c44eb9739231a0e3e0e5a7b86a7fa6208e6e1f2d1367bcecc785e), (0x2403522a94882a41ac84a5d3ef06c48e226573bd458decead39ecfb60c6d6b5f, (-0x5e8179205c0d15e2e9521f46f4cbeeb03df0c4bc382fb3bfde55ff32bd4afe35)));
 (0, (0xe8f092a003bf897be316fa919c43294d473b2b60a4bc0e80f624f2bb0e2ea670, (-0x86503b49c5a6d439a2b05be9515c73921dd8337ab04a9a6d7d61aa9362aa20ad)), (0x50f6982d049a9c0aaf0bb8a4b59460179078a2040c11507795cb001fa120fa90, 0xd3f4ebd546cd189d7c2ea7a726cb403559b7b632c45af237d6a5e10cfc4fef92), (0x7633845f0fd950d921da4df4397efd3812d1c1fca6569c9820bb2928c8088bdf, 0x2d283ee0df00b2eaa1a9fa162d419368eab9163d568575cc8b1c04150427e96e));
 (0, (0x41f4e20406a0c97b018fea4dae06ea8ea1a7b5508bf4ee98269c120f1c08b3d6, (-0xfe8d9cb92db77396200627fbc927085ea8b353d0d42e28fb5fbd6bf79c5db94)), (0x18bfeef74c7852c7d71ebd8165c7d4265525a244b72d4cdc47ed8a54b1888da5, 0x10fe4505aa956494a235785a790ad06c37d3e9f1df6aee01fb8f41462b9a5b11), (0x799d8f06111fe3194c7f25b81c8bb58a9daa5a8029cb0fcbc063d13be591243f, 0xe7ba6b10ea4dd0be3194f7a6935f0d7ba11485ab5c9705f21a09befb7576eec));
 (0, (0x832d88df7b1e44d5f0bab547500ec8e244a1caff8a56df7027776e944b546c0c, 0x7574ddb1c3d62bb9a65902bbc03859d4f10262371c83ded11523e02495ac8cb3), (0xb91467e570a6466aa9e9876cbcd013baba02900b8979d43fe208a4a4f339f5fd, 0x4337a22e1fc078ff0aab0d6446df0eba0dff39879762bc968541b8fa0a46f607), (0xac67cbe7e9c2bdea0764b767b62f66c2210c22dfdbcb2fccc18a8a8a1668b73f, (-0x5227be73f54f45871768df43df24781d37b38d2a59c9fbef97a9d23fc2b47cc2)))].
