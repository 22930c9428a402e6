(** Written by tools/gen_certs.py: the same for a key of RepoUnitTests.v. *)
From Coq Require Import ZArith List.
Import ListNotations.
Local Open Scope Z_scope.

Definition chain_wrong_message : list (Z * (Z * Z) * (Z * Z) * (Z * Z)) :=
[(0, (0xcb35b28428101a303eb9d1235992ac63f58857c2f631ee6936d3aebbeddcd1b1, (-0x3b04fbed296cc1277f1659ab9a6f3feba665d74e98725ee2d39e827bc28878b0)), (0xc6047f9441ed7d6d3045406e95c07cd85c778e4b8cef3ca7abac09b95c709ee5, 0xa14e3460febe2c2316bfcccc1b764790c3b7d9ff92663ea740240f16b583e774), (0x1ae168fea63dc339a3c58419466ceaeef7f632653266d0e1236431a950cfe52a, (-0x3c8b95972f12b04b3ca25330b2bd449e8e938229d1fd14f76cae42249ce0dc11)));
 (0, (0x6ad2cb95963c033328d4857d4f8711deff557dd9faaa673b400442833f0efb64, (-0x1b511f0c4acacddb11995426b44becf23d1a165eac933b36c0dae7f6c721d3035)), (0xe493dbf1c10d80f3581e4904930b1404cc6c13900ee0758474fa94abe8c4cd13, 0x2c933e2a83bac0c704d83956ce68e1a07920f532e04e27ff098c8c712d51733d), (0x51ed993ea0d455b75642e2098ea51448d967ae33bfbdfe40cfe97bdc47739922, (-0xcc0862604f39a0c08e4ce0b1d06b205a54268b6c11e626473e3a3a21a84dcfc)));
 (0, (0x9693023fb325cc6c7bc993eb684358ea623d5feea8ff351df662beabd0efdc6d, (-0x203e697a2ff0b71f15bbe8e0b1128a2612545720e641a25d3f0da1b92ba257869)), (0x2f01e5e15cca351daff3843fb70f3c2f0a1bdd05e5af888a67784ef3e10a2a01, 0x58909b0e3b1d179e26d093a041c3e56b0e5fcd45c4d389144042c9dcfcec275e), (0x5c4da8a741539949293d082a132d13b4c2e213d6ba5b7617b5da2cb76cbde904, 0x6acbca9638108e08374e790d2f8fb746c0f38f81a62038c77abfdadb56826ebc));
 (0, (0xbc380350880ab969e653d334691ca8c2da83b2acde59e7439ed92d96a9654a07, 0x6dd55cce46f1224cd99f821ea3a2f0a9ebe970a9b8ce11ac81430dc918b68adb), (0xe60fce93b59e9ec53011aabc21c23e97b2a31369b87a5ae9c44ee89e2a6dec0a, 0x8a62511fbb16418a37f7a5ead3f099487b15785e66a133e078848957eec143eb), (0xf7e3507399e595929db99f34f57937101296891e44d23f0be1f32cce69616821, (-0x8696444c9f994992fb103911d7efc9d6af6d7ba29b92732df8ec73823bb24fdc)));
 (0, (0xb68c9cb56c4f0fd3279f2dec6acae3ffbacfb8384548d24892d676cd6beacbf5, (-0x10ab9b201128ebe909e6b37287520fd58164cf175e3decaf3a10f957ce0bfa99e)), (0xd30199d74fb5a22d47b6e054e2f378cedacffcb89904a61d75d0dbd407143e65, 0x822c3c0dbc5c7d8c3c32320b58378c5c160825393d62371ce9fa174521d13e00), (0x95038d9d0ae3d5c3b3d6dec9e98380651f760cc364ed819605b3ff1f24106ab9, 0xd9690ecf0b9571b77cc0887ee3bf9fc63a5c7330cffad04355faeac0e641f21));
 (1, (0x1b559c5c4f337ebea1767aa85161fe8123a8a489779ad663878357631a0a4142, (-0x987f03f80705ad0314b5cc8bac9c31bdbb985e7d6cc9710426139693cfe2277)), (0x1697ffa6fd9de627c077e3d2fe541084ce13300b0bec1146f95ae57f0d0bd6a5, 0x2eb2b9cad8216be28a276eecdf1acb99fa0782ad00238d8bf1b229dee13bb3e), (0xb9c398f186806f5d27561506e4557433a2cf15009e498ae7adee9d63d01b2396, 0x141e256794e71b00e243ffe2f752c9325dbc9c330961afed871ad25de7d7b09f));
 (0, (0x35eac50b4d5cd529866dd14593966d877dbb2e2e8c6d1d416fab1e162e70b1f4, 0x4844464e2e070895f63909d9039864b13a9dc391b15c602cee9df34f907e5d2b), (0x79264c4b4bfcd7fe3a7b7b92b6c439f3a5b3abcd29189bf7b54d781ff03d722, 0xb5b0ce37e5c43897f006dc4d607f8bbe20dd48b20b2dd4f270671a3bcfa791c), (0x6f6f0e0784eada9f92999ee9c438d47eaa2c8068f1845197e3071c74b063c5e1, 0x329efc065e48205278f9e633415eefdcb924a569dd147a2dc29f9bcd1f471ab));
 (0, (0x99c33ffcbe9a337a5777902024d1f99d8036c6def9e1b269508e2f3f920efc3f, 0x8530b9fb800edb7a57ad4094a5332236a8dff6bbf940bab1ed5573e598bd916e), (0x8a93046d22897b40361bcd154301ff4b7ed3c170c45e44d445d2ae2ae38947d7, 0x5c5af766a6dd0fca5bc2fba09caf54c29c0a649ae58d17b38fb18eabeaa27d7a), (0xb227f7d021263c6f29ca19b9110c315b43ddf472fbb16491e9002dccb1af50ce, (-0x4eaf49a3c45a257ec6ba50840eb7d3be1fcbeb38bb873a38dbe45f186ca523e6)));
 (0, (0xb913f48dbc5a0d674afbd37f52b8649052e5bf7daadcdf85b51e07d11d18e90e, 0x20910adfd37185184df4c1df7b424e21a7637d3bbe5e5ebe370439d4cae9303b), (0x4a5f2b9f56c13dc77430ee6e589c05e56b71482e30faaf96c3af58d3e8e65bc6, 0x85cdd90310e29a41f7092725327cb7a6db28ec1353c456bcb70a80b0723d9fb0), (0x27e8e8ae38c05bcbf49f4f820a9742b932796d75d322c4eff8068d673a214b38, 0x2e6a78dac5f90caacfa797e7fcbf0bbde25ed4e6e05e25eadf440aa7eabe1698));
 (1, (0xb63013b9610bd6fc4ea7aca3e73dcec02d04b7f946f8ffc264d1bdb937c0f2f4, 0x21b6995c67098b8ecc51d6fd8c841fe2badab4b6636079616b03891a563b79d8), (0xf1133cbe6be8bbc8dc8df2b8d75963c2d40ed616c758cdc84edbc5eb4899447d, 0x81a86512fd0644c488440e27be0f11c67e542a19c3ad5b9547be0681c61ee45b), (0x57fc24472225b23f5714626d8d67d56110bd3a60dd7a16870cbbb893f652f50f, (-0x76a352c76375a93d2e7c9f1439e14fe0593c703f6692b7df7d5e1fe052f682bd)));
 (0, (0x5e344c1729b4a7f3e7aca2a0b75aa160cf53b8084d87868493a39c693c8b7e9b, (-0x2684e90113210d216a7a45d147acb861d92aa032cd1c9507e4ac29ed25476a2df)), (0xf95dca19c676bbbd2e5b004f81925706f7f096d8df4596ccdafe5834e905393c, 0x22aa729002a75f972233423af6e8e89476007d0913f1ce4ea9284a3bef8422cd), (0x69041c236e41d33a4c4c109456bb7e0dba982250ff192046b52fee771967476a, (-0x30d118323d2256a8ca07c68c8497dd7a329a07ec59521cc22d77ca1a126b642)));
 (0, (0xe1daa6194955756155dcfdab7ecdd53579f3db31a1be0c859e15ed5bda9ff4b9, (-0x21f6a23cb87702d6cd8f86634ebb944768454ee5a7e28f3ac4bdc4bd61873b9c4)), (0xa2ecbc1d12b81699f62d76cb9a8ac8aeacc567826bebea0027fbd5c3a5c4767c, 0xc74212b7c1bdeb7b3ea1b41d868ae633447e6e97cefe46f6e5461f0b0776b6d3), (0xf863d1fddd68ce470fe8ecf3bfdbae6b9338d5aae2377684997920f1c3f608a0, 0x4c4331a6dc0af1e0fe72d240b86ba4186e9695002bbc4b93abe5f840b72d832a));
 (1, (0x5763689b110adf6b77b0fb64c3234c43a788b0cf14b29bd531cc042aa98a4fff, (-0xe0ebcd79b2a0cfc933cabf5694861674014db63cb9a56b5d6f839591032150c)), (0x1ea72fce33378c3dd030283686c3f8a81c2912e47cf44631d3fbdc2f752d5786, 0x1dd4b7b37842ee0a524d2d46266a788e949373194e287ffb21837fd2ee7d3f49), (0xe20f4558fe1cdd14ccff261afe506b780cb6e2b0807fc7c9aed0b8883748906e, 0x2d26ffa0705f58c131a35faf3fb78605145c36c38f823b4907fc454baf422cc4));
 (0, (0xf312c322dfd4b76b6ebafae8e9159156cc62aaa74e9515da446b71734b9804c6, 0x1a2474b425a1131de8c67e14bc2b14eb7c520d2004088e4d0818366f6fe861504), (0xd68334e4b24cd423847d0953954bed70fd9dc18e851e98c529692b0a77cb8897, 0xe6cc9fd43a9373de06f536292f6d1e1e681e77558f3b417caee4aad2f80f714f), (0x24fb0b419ec0759df6848c09ace004c199aa855417cd1f4a4c80176e9adc3733, (-0xae9352725a1060e66e57fcae61ce70682c616828d4b613d7bd83111bf91308e9)));
 (0, (0x354c6b98a7ed292dbe00feeb7210c20eb9119a7305dc6c3de58f50e359140eda, (-0x20bd8d83ac481ad1aa119b1b6b944fc3222af9fdca4f7638031ee29a464a16859)), (0xce84c16467fe7c94c1128e82204f982b0ec95fc97b3d9620150b5412e68787ed, 0xb18bb5d4564df457c09a4ba4284fcb6a147808448a9d0af95b40d1dd65210c7), (0x116ff3a6028c2409a01866c7cb162fc9a0f71be781ea8b95303cd5a1f9506ccc, 0x1aa10cff811dfd0365a584330495cc9ff7053ebf141ac667026642aa33e594b));
 (-1, (0x530b8a25f28a1127b5ca24f859099f06cd5cd42879985a15d8cea5c67e5583a8, (-0x1b8021bdc88cb80df5ee58805efc2d3d183b0188bf7c0bdac1a1ca95ce01f9fc)), (0xe9234110387c21222887d0797bdbc9aaa632b2372a5632c88e60465370a284a2, 0x1af07c19c5154e1a157bcbb64706cbdd51a90b582eb560dd631472bd939db437), (0x2b98b08c4ca3521b4ffb3afe66f98ed9839a2651f740f63ae80b0cfb6f6523c4, (-0x8a2969193edf3e2acb7931d01a6a0e5121d1089c5656645590cd7b97b319128)));
 (0, (0x16604b3dae924116b698e423ef48ad18397afae0a88613d684e350e6eaf3c320, (-0x275548962254ea734494c830e2c2953c4fdfcc3026bca3c39469850dec0fb2f34)), (0xfc257b381958a0358aa9d1c70c6777a3dcff054f923427af8ea0504daf1d78f8, 0x1f4b1271e614407134cb1bb114a62d934bdde296d70f0214179f42d5e9ad57c), (0x6465143e33c8f4309b632a52d23aa5562a9bdc149bd514a191ad0812a8a8066b, (-0x1a9576b77cf2f9e0590d97bfd5e60c6cbabf5a0aa3a94664adca9853dd00141)));
 (0, (0x545fe759548bab96a2d6f06fce93b193c79c94ad22e7298b63d84c358c665a4d, (-0x2a6dfe2778effc54e29e7ccdb4d917d15b59d6470d137a71121f96f25f6bdeb3e)), (0x628986a84aac347eba72716958d5e67eebf1dfa86cee626d83572e340dd6b08b, 0x1bcf13c024dabe04295d06bb955dac13cd7e3174ea929b7d9126a0d7873cc0b2), (0x1df870c4c34824cbdbbfb2186dfce5a1e7e4458dae0b4bc6e32b99fd8695e534, 0x32a0b7f044cf09b2eda5a849574fc272769f895aa08894e635a8ac9d4c98c6f6));
 (0, (0xea454cee3cafa4a4421c9c2f246f684f4c19e0f7124ca4c05fdbec314828eaec, (-0x3aee56d6f633e4e51cfdb561b10041c5e1d1e24524396a67f2da29b70184a465)), (0xadf10ae164f5e295637243131d096b7802d069b2246808c3cb803a4716f7306b, 0xd662c366167c21683822674dcb665e762652addddd314bf1f4d87a522717aa21), (0xff3815b8f9689ba07354416235496a4690d8f21d1fc6cd6baf01da66c6e8c766, (-0x4501086bbcc94f206a7499d7425522f3ddd7bde2f04d1d4417760c5062277a06)));
 (-1, (0x49eb24a3374c5b090da70d50a6f088770b1385ec756fa8e4e7bd6cfa893b07a4, (-0xf1262d55d8570d2b296ad76b2579a1fcd056c4e3542932c7f19aca95ab30752)), (0xe0a2b9b6ceab8838794d63d636f2676937ee59e5e77325a2f5685086764d079, 0x1557f2e15e6f61b73d30b58ce15ea205f51ddf19cfdf0ce4af0cd129e56977ac), (0xcaaa2e1aa7e918200f3d215c08d62783969526f3faab723cebed514bd9934bba, 0x2e2bb57c52e62d0c413017d54d4b0ab76b843150a7d29b1c3278520e14939a98));
 (0, (0x2a11c86bdef1c367145b133338e08bb17c63749c361c1420be14c731580f8c49, 0x404ca78a4379a0dd9fa31fe81a35ee6a92eeb73b487314d438017195e07e5e4f), (0x6f3c0754f0539700aaaa418a4792b7f47be2be9d7687f453f43c695d30e6e8a1, 0x6e9d6ffa063aa07a7f13196f221cca44f9ba08579ff9d70b3bd6c95153e2b22), (0x73762c36914fb05e51817a437383c8e971d2917fad806fe3e4687fd3ac7a41f1, (-0xff8ee73ef05ba55ff7970519b41f2fcb54b9556be17019c0aa67387dff48c5d)));
 (0, (0xee71a18b72f9b92e3de61da8cbbfa3f4d50197b35132d021411bbea3b40be7e, (-0x838df1a93a8c7693b18d63fbc5f05d6c10ac82369db5230d836970d9722a1929)), (0x8fb374eb47b57fc2762527b6bd9f11bf9813f8213c66bedc29fed5771f3ced77, 0xde177acf4cd4875b9fa922e5a417f37f34e422379b7c20b614a3773a9893a5), (0x6ef3e68c04d9173eca6ad3ee92f1f41988fdc4f2b563799370ca1d6acfd860fb, (-0x1e3d7115eff280a4a3e7e7a61349d6012f92e36f973dc39d319a2d489425bc0)));
 (0, (0xf29a46a1a26f175f12f372b99ea5e725bf10c108944bbc630e177d2a8287cd00, (-0x1fb314b71a5189da829f73a15ab3b90ff8c7c9a054973b74a62de86b0b35297d)), (0xda536507cabef4ca44b8f7b30cf43358445cc1918b0e3a3082c681649c7910e6, 0xe5e80a82a50e40ba55cb3f898ac91de0f8301f68d4a8afb582d7bcd5f21d0794), (0xf9c30922c401046d408bd034af5fd9731ffc5313bd8abb5849e7b64fbba7ef0c, (-0x46b829c83e9d2a3003a8699460c49153b62ee8ed37680bd077f905671549c8a9)));
 (0, (0x2badeba09b85329c4088dfd4dcded304904f7326087823e66a947a2c1983a4e0, (-0x1d95b874253d0f0339bb2eda360d69a003af56da18e9f4848f29c33be498be0d4)), (0x7a05a44eab8bf11406f5c671f9d53143d24b15ece2799ae3f9e1292056fddbd8, 0x773e3504431335034c1e692d4702d7a6fbfe092b0c34f80f3258cfaa92dfc64), (0xca0d3c1f2aa8edf69c5d2d8655ade17ffa38d93ff5d8cecc90a728920c89adfb, 0x106e7c8e205b398fa02fc21eb6c99ad0d4a61981270934e350645c5a600b1117));
 (0, (0x82e6b6ae84d2960c2bafdd5e7341d87d0b5448dc6a326bf10e1e5f0a42b10185, 0x20257f058c5d692d5e201b22b0b8a772b35169d8d575d84cc4217f6a806a4d52), (0xffd4492a4cd048c0e9006f743bf19b14b7beb4b48f13bf154c14b8816be3e119, 0x42ef217602d9269e3ac43b7635907f0d1ab307ec4010b9de06b7f68c0e428ab0), (0x59bcd5f77fa05360f61e348cd4c3cfda18976c1ef9b9d2c8148ae0e0e229ad8, (-0x446b86dbc64c68ccaf549353389cbc3a5a4590a4c538797134533673d21466e8)));
 (0, (0x739443df711d2517fd79f2d49ff7ca5da840d960278c106ecbfc87e705336033, (-0x2f9e953c003ec00ff4b12303f694b3fcc046158a3b1091358a877270de616d92d)), (0x9ac2dfdc07d9b690b64eb071ab081c8d65fc01a9276cb9df199bdda580161afa, 0x342e8ad94bf9b141f5a491b5d7b6f802078ebed16bc516421b3e0a3ee14fc293), (0x6fa8f7ee8ba9955b042b771f08c1fcd7d85a3aff6266a03e9c7a86838d93f78b, 0x2da15b2acf9d0a8c3cd8e37274cb243826c35a3079a22ca06162547d4a419256));
 (1, (0xf35f8f092eee8b1b868124f6f062ac36d9604f82b19e65b0ec0b29f240082f27, (-0x1f63924f0cd02406384d81dad1b2a7f268888203a26593ae07e8e0955ef834d5)), (0xda4ebff97fc894a3f5dc96cdc01e6f62f854c0107dcbbcc10aa2d4de959dda60, 0xe75e8d36e7d4f3e45490207ecf1d9e86724f65789396c30da64e875e188cda31), (0x84d1506d012b41bf67d1fd9c00d9c158e44bb00c21b44b24d6212997534820d3, (-0x3c697e258d88ee4fc2b12babfb2a9af9f82878d5f9b880000d2ca4e7ee08f198)));
 (0, (0x204759366e845a7a65b7aaff03f97169d2947da6a025557996db63029a7a7ffd, (-0x20d0048c38b3ccb952e298660270937a66b624c14f172ffc849b8a2dd89ea07ae)), (0xa07251fed590b10ab582db6456491c05dd5fa99082659aacefe47bc4b77d5ce0, 0x411ea3036e948739fc79f2bd6710b76398a8c19a8027f3112c1cba77292a0e7), (0xa701e0229aaacda9ce07e1b6b01c3974a82df698e138394fa578a1342016838a, 0x74bae0bc5822b5e308e26896db5f9dc57c1e88df486b5db3a8cff687bf0474d));
 (0, (0xcdd89161098e746e13f05a9150717f3c1028cb25f9fc917ab8034bf4c9168d28, (-0x2119bad2a2a55e2b3c4c4c2f323591710ed8ee92f0c27a1c308c9f29c9ff0920)), (0x2ec7ac07424d9b794848cafc2290498730a202879a13b5d56db284d87fd8b8c5, 0xa584900b0f9d587863e4d81c0f43baf6166d5dc2f68e11b5ff3100286ce2f235), (0xef9d474d809c8408858a10a78ee80bca77f3e5623d7a26e7b8cfc9bae92879ca, 0x5b65cf7007b9564769b11fb0cb7d79394b4c18d6de3e979aaf85e1215a3b2b5c));
 (-1, (0x304854141756147b7843d25b8958238ca2e5da6bf7f28796d98e426119cfd554, 0xe2370f9bb61af82c2a56cd721f12d6cdf821e6ad1ced7db52c1d8dc574aaba2), (0xd141bf4442638208977fc037f29b558e6ba008af534e7e1d1ed6e74a42c61d, 0x91b33f6efaa98fdf791e3dfe7d7c30d3403e24826811ca754690bc6f294b0ca), (0xd51ccd8ffd4e9910a45b8f60d320efd5bf2cdd8c56c5b726da2ad36ee71a41e5, 0x8ab3053da3212a33805617fa148e5e287d18437c35528956802274226bdca5f));
 (0, (0x4e23521522053367603b715b5a5f31d00c0750c9b56cb3b153885ed60395bf42, 0x82165aa8553904146b84fd96fc0c988ebdeed85bfae83355381a0790d728b617), (0x7b5913823c6f3d3db48be58738521ae961f4aab9eb339040bbd4c164de8941f9, 0x17d98ae46cd40448fb3693b30a57bdc92a7e445b7c848a1c54f58b2cbffd34ff), (0x2bc018206014d3d3d593194f9e644b34618bad3d1be24869a5f6d07b1a4ebd40, (-0x256649c4b3e2c81333bc5fcc09050040ed8dc640f6f8527058857f541c6ed3b3)));
 (0, (0x867a8b2b243c546ddf84308a0855d6946bb0ccb2702df04c7658a6fdb6d22fb0, (-0x84552b4eebc939c0e1abae9070c2e1d4e02a0c9b973f7fccdfe53c36d0d340dd)), (0x4195123c52db1f69863a6f6719b5afa9c717fb97803ed8193f4745e0b25b3b79, 0x46a4845a1ab5928233cc2067fd9e3f5456ae8608670a14878f31d5bebce6017b), (0x32be2c4de03f62b2c65d0eb3ced2fdde7e37728546317f17f87aa42aa2fc8ad5, 0x1e583f7a5c5f31f02bfa8de3748b2151f889c24cd31485a697c9febeb211ad05));
 (0, (0xbd08e40c306a370ae1a894a53251ef0362d77212c9266475e64555d15c484bdf, 0x18893582bd231db042e93a201e7f4fdc4668546bf031f39523c849f8498c48ed), (0x1c27a950b9ec41ea98ffcddded886e5c9606b8b7bfe289b5162344dfcf921aa1, 0x8b9621090b6592bb470991b45cac15ee7d357e980e21af2fb6d0b92b76371eb2), (0xa92ba5b53890223f334f44d492965959dac8dfd0301716ec60a3f11ef73a9af9, 0x1ba3133870ebeb43409bc290ca0727a34de69a93b9acbd4be92db00f9d05eec6));
 (0, (0xf48e45dba6284be15679e32aea71c1c3b431fbb9987c3de425cc26cdfef26e88, 0x139ed23150eb8888cf114ae2f4155cff0e41ede89f9da7385e449151022e08fc3), (0xcf884043cfe7bf3d934ab01f55934ec156925c67a717c596e6bde55b6bcc4864, 0xe99f843c477949612885dd298493a515a5b79394c7cc53e8fdecb6ca3ee37686), (0xfa451d87a1b17d59d58c2b30135f93fe504ad164da32a3318014385b11e2e94a, (-0xab5bc0665c8769f7987408d241c1924c9cb2b3fd47478edade44a3c5da977215)));
 (-1, (0x4b1877d2f021f72b7575bb81bbccb47ec1764b163f70a8788bfa2c63e711eb4a, (-0x192a55e099710c0c82cb3b72eb888cbba795c4169a9b9d86911210e86c9742ea)), (0x1401ab69ec28233ea6ccb9414d6dc017d395ff0b8d15ccf1387a9880e555ca5f, 0x1607588c4856b6403bbca06479ed518bfb9df4b64f4c40b615dbcc2b737e0a47), (0x6368180ee124ada57a48b17e0c4cf43039ec3826d70fd92ecd9c20afcf3959b4, 0x370259ffdda4ed3958be835bec57502133b37f91d6f112893b1532de3b92f4cc));
 (0, (0xb7f28d556b6def486924e04bcad94a69cc74ca51e46a19d7b4951504adf482bd, 0x8a2a6893bf907aaa8a16a7fcd12de82956240c3329861fb589dbd8eebd4ac00b), (0xbf5c3a18cda76aef208c2c3b6e28ab6be09381682fb8888b0d15f81946e2a72d, 0x842cabdfa31d7cc988e54189081540b08970d179ac3942f816ceef0e76ff58c2), (0x9e97ff87f0d67844e3d290b4ee72bbc2ac20ebce4829c54d6f8a5fa6879eeedb, (-0x7b201633f2134830c15e6213a8bae9deaaf6e595f63b6eb6418a3a183db14f6b)));
 (0, (0x9ae0096bebf9d765d4fc3f3143f75f512189603bb639beb5c27bf6e0955bb727, (-0xed3bcaa552995c2a566fa47a4ead4a30895b5caf34e6b1dc94f4ebd73e89c1cf)), (0x4092263b8167dd64a59d04574cd4b536894caa76903e4eb15feab96470658412, 0x5db24f66551e507623f812d951a67c8372d118d38530c14fb96dd193b6dc788b), (0xd1ec71f19bb38480b0ac76f1719c987cc7462df5a4acf085c953cc4eedd68f48, 0x4cb4856f0f894565decbef381fb9f87d78c784941a21935b7c7dcdb205039726));
 (-1, (0xaacafe2d15fb737aab4fa5016af5247a2e737d4d42e3b21ca06066b802ed7265, 0x2624b85b7cadaea5f1c94aff9d9561300ac7475bd04e7642c7339d2c03450c82), (0xe783162397babbe1478a5dfb8d484b6d65b7ee0ea4cfd4cda492889d51e62335, 0x71f23a89fcb625c0de8d5dd65477a1fefa33f728c5c43ee89fe294c8b6707226), (0x1ae417aa25315f6995484f1467b68697c185360231cc43119b4b8073ed222b4e, (-0x6f605f2de0acd44bf3e14db845d5fb2bca4921f33c0fe714f2cb3a8206e43aab)));
 (0, (0x1c0cca52e571cf0eb7e6a9e6f0584bcb27c737eb15efd8124c21467c20265e72, (-0x26e34ea2ae2bd51364b7d7d2a53f092fa053275b840f76f3e84dd2191453929fd)), (0x963f5086b545f0334d854aa33ddb68ec1b0ca4f96d6181c3ef03b701e722db0f, 0x312cce5b9dd54e606ec61790d98f7f1abe4420fe4cc881d424cdbf10295f1a5), (0x3e177b22aaf4986c943522ee312f9e40c7418082da9eb324e4324f3855aebdfc, 0x8e7790436983b1b4f528fe3c0b6d9a8b3b36637ef939d611700188d31ee1bfe));
 (0, (0x5e7d2bfaac8d96c0ff8fe425cc6f94f7a3fcce3cff05f2e91c70f17d57b63bfd, (-0xdab4cf6295d9fddcf62eb7c531e5bfc73c1ecbf26c22066d3e58f29a7a320a65)), (0xadbe73df52094ed40c440d7c88c3cfa9a220510d2f5cbf35bfd1ca95be4af4ef, 0x22e029801112a867fda515c0cb837eef2ee991d9abd0c16924be40d6ab6d77c4), (0xf9d5baa56e6f14e7cf8e5dca38855a3cd13b41aff2d4127d9bddffa5a6d993b7, (-0x8ac2c1828c3199e58dd7a5f1f8ed511e567c10bf75483f44112a570836fc95d)));
 (-1, (0x582de9c961b7d0c722799b43c45260e4d16e525a4f50af00fc52fda94a29201b, (-0x11e958186c4f5ed4e0e35b6ca1ac3e1bfc72e335dee298296cba799509b3e6a2)), (0xe9d285e0628ee394d1816473a0f80bb2c936dee08352920126bfb5612f88287a, 0x1e5f98f6797aec737fb2df27bb7a77cd2dd54a89e32d285b2695061bff3e21a8), (0x18b0629f28ea4419d2267d53e8a58fa3fdbc744349ca9cf8791df4dfa54e9c8b, (-0x14b1ac950ef1aba7474c7df8613a7ce41ef2d93263252a05db876d55858c5d05)));
 (0, (0x2e7a2400d1aefef5c9b24e2dbcbb2fd0722af6924fc2f626d0b3f3695482c319, (-0x277bbbbf622107216a94e1838f7565377a43c6de225e3a8a3d75110ff08530b9a)), (0xdf33f645d1cb1bac190cf989ee0347fdc4671b576c993555a70c8e4f132f1ad9, 0x8701f36a132f9653a34a6b200c7feef96d2f5365a4009d3091d15da0a0a009c), (0x16059d63bb4910993309562955c348b17e795e9175ce64672e8eb994ce764b6b, 0x1ed8edc8a909d2aee0076b565a2afc1b233695a0120941870ff5eb431499cad));
 (0, (0x6471ea6fd2f06192d8692839ba18ba69aa4767eb3f6563ad7000adebfa71c08, (-0x246be35090adf1d61fb4ea74c4f5b8161359fa036aefa184c673dd1cd21f5854d)), (0xb156e07f7978a7d2eb07a85de4a28219d1c3fa762b0171e3b784f5ae6754a098, 0x276931d82a34a2e8e959870688a6ed211577af4b0dc6f54050a1151e6749ea), (0x20a7ce9cbbb7138e070ccb9eebef7d115e9ced0812b8004735f6b2d0c5012949, 0x11fec518359b5bfdd4fe877664b8f4066c26113b831b76935b8c69f752462ec));
 (1, (0x4f9511abbf3312c76b757df9efefa1f555161ba3dd2eba54107cfb9e0c55bd4f, (-0x11486d3b9624c4e9a72500fcb469222b2172177c98c6730c8488547296739dc1)), (0xf53185c0369ef5dd02a47f98e9b4825f361e6bcc71bc626effc26b474790bf17, 0x18bd57b5932659a8b5fc6d6a1fe779ec38d73e8a9387d9df2960802a87c20206), (0x78a82edfe59e8099aa9e8e14c6c67fb60fece63b7f9945b09263516896a0b782, (-0x1517fbf033c04302e103bde21176bb704498dc28d44584bd57761749806357c4)));
 (0, (0x9b2c613cb65a7a9726375ef87220fb570b70f7a71ca03d012a297aa2acb80093, (-0x22e41fc873ac26df0c1783ecce37596ad2887b44bd3afe196d5a31e6df88e84c9)), (0x4a16858c476a8a41a7962d8166ccf319c2bc540a5c58acdf45fe44b3c98e87db, 0x5e0ec571169f5023b970f822b6d9fa473636f8ccba8af7d98678564e3b371fa0), (0x4152de91692846fd1f160509fb83ee04614090d4430216cce55dd9e73ee7d670, 0x67b702c14a0b3f8b5ec6a7f2307e0eeb2a7a43f51956912c336300556049241e));
 (0, (0x34c7ded6bfd6a6d72d569bfbbbd9731da34feaa136308a4c834fd324e08bd8bd, (-0x25636a968df16d3099395c78be87e04daf9093f93a310963a3fd4083cd815a45)), (0x93557485015708fdaaa3620af3f0ea45e29590ecde4357c32cfb49c056f9f9fd, 0xae1ce9371c69c5c60f1cf573b2692b82298cc45cd31620aa5318d11a0a4e80a), (0x17c69665bcf7cc12d52100a17f549d9bf0da8e11808a65785dff8bd461481b34, (-0xf19f8384dd7645eecc9bb3aa0d017ab0dc86f9163bd37c8fd3d74bd75cde1a2)));
 (1, (0xb9992e58e36ddc33498c6aa22d821f2360d2e04d0833afa3ad1f0f25ca7ed4d8, (-0x128d790bc42fae25c9abe228df2dc7c7c2a93fb888d0b5142e91ddef238f2e04)), (0x44fe95ea0c68c3ba438d4b87f263dec56e9006ac2da5fe9687ccc37b804a06ea, 0x868ec0a4e758b22bf650b14f17ffe5c28c0ac4102078b9eafaabb0a9e366190f), (0x823be8f665a8dc2930d7b41eb425d5addd5c9b92edc71ccc9039770e8a7be6b5, 0x38cba6f7d511957ea5685000decf579b39fd282347ac2be51654aa79ca665d11));
 (0, (0xe5012f8bb2306397f4a67ab12a39d09e1fd34fd490c06a95feff2538aefd64e0, 0xb137ad2a453b34f8cb0f355aaeb19ee1912dcfca5a75e115433b2f9237c20d2c), (0xda46549fabc6a7c276e6d63802675d1bcf2105b781f9015e6e44d1514f753067, 0xccdb1f1154b68e376407074b88b6300b45cead76c9949f180afc06ebd6259c4b), (0x86797c820bde4e17639bc68744a0d951b96036161d7d17feb7b02ba12568b417, (-0x8589de99d8249b5a6467f80b65ae1a23cea123f2addc49990a4402871504df94)));
 (0, (0xc7cfe5baf5809b0c4d57e0f095977f2679bfaaaf091f803cbed915ce2f40f185, (-0x15c6848f3af944e33554efbf02e1d12a99b21c29d4c607f497388c53795ddcc23)), (0x7cf2ebbf04eb537723197276ef74fe6ecb0c8c0546be4a73e8ba5d39cf805a59, 0x9bf4dffdfc2efac99dd86d7460042e950c087119a1f8bdba2cac06e8ac6634ae), (0xbe52fefea9f47404a1558607bf68c8a3f4707ee9f503565877d266552cae17ee, 0x48d7a0b8344647f4916e711a1e8648553a285c28cf315237067e5bc3763e978f));
 (1, (0x64b55fd713a2ae60d84d2eeaa0da2965059c37064921d834f494c7fca8674d0e, (-0x142c962696720cf3a8e2a375263639f5c80933c689a41502a7e4ae9062f4728)), (0xf96aeedfbabc9a58de158eefbbfea950172bbf3a8285c2aa24e8357dd1a67957, 0x279e3360b15a318af81c7e43c95dd7a39fa6eb0fdd03acd06d0e5756d7b68b44), (0x22c3ebdb0292788f16bdfed2adebe48bfa5c5d28cfbe46d879e08b4a02a26a95, (-0x30f710ac18a6118eb731c36d20b3416f2c5644ea6b31a11f29375ba9463e1f49)));
 (0, (0xa7f1b4d6c64b91e5fe9bcdfeb6bb9bf32ed000568c209bca922a2fde05bbf1, (-0x2d8d5f6ca04a215b49cdd240018138e0a826e4dd88ef705a1951aee1709ee4327)), (0xd81b7aa1c9054c1fd371c839033e898640b1047a1ad13f297227a90d322e5ff5, 0x6e2d3e2632d6adad2a54feab87e9f482f1241feddc05cfa4338a6f175822), (0x77f7dffd1786e696f3616cc3730e5d0b086296bb5e19686b55564c2fa4e4d033, 0x15da4828a6f3247fb1041dbe0268f99136f3bc72b069561420cfc6de8b66a6));
 (0, (0x817bfcc3a004194a1119e5a8df6930de4f987bb43bc061e25d2cd6454768166c, (-0x1a9ef20d6aaca12e97d900623a5cd4d044ec3eca04b51798a00edcc4143d83c0d)), (0xe2a4c702ae9bc6c166b3d08d64da2c3614479e9565f47983bb87f903bb4be9dc, 0x417e30ca04d19df22e7600854d377e17abd0f5562ebc85522e4ea85021036456), (0x89c91df831be1902978ed2c98a742eee7123a4639c237066b4aec71c3e01616f, (-0x55449dbba99add38f07d9505096ac18cf6c11d32ddfaf3bfa9e4867234784ca)));
 (0, (0xdfbc4c8cee9883658cd39e3c8710d18d9e3bae9c7f2694a74e14fb29cd2abe49, (-0x1691ef84f6d83463fc62ead5fbbe7b1ef7fb1f2fe30a0223753444b12bbb411be)), (0x5128bf217e880007a7d44b543b6e83641b0138991ab8f776357eae1e22454510, 0xc38997de0d90202c4bb3765aa7807c1babe6464ffdc2d77ebe9bbac2d7914947), (0xcf57576f527ba17c41d804217eef47d14664e15edb6b55896b278ce120f0f1a7, 0x7f260d73dc03adb21de310d8baaad9a1420166688f6a4999a280cd26a140caca));
 (0, (0xbe667acb13ecade1f4b8b6a750e08b18e73fd6fd5e8d7f2ee43e148d0bcfed08, 0xe73b37fcad908ff0999ecf2d516640811ebd7b16e77913f531fe20df1e37dd90), (0xcced9a3b399301650b372b3221f3b262f66d35847f7abeba767d5fe0baf14edb, 0x8d9c474b864d62cc27f5508cad74b3b76fc9a96ed65e77b7dcac3b9a23ab62cb), (0x543c2913d0d130213db7976155f495d330f30fe1be5fd1449aa90db57ad0fc82, (-0x5c0da66a6438bbbe9659b4daafb675b5ab73789d65b657d1d8f201796878f74f)));
 (-1, (0x5e36108d5615cf0962dff5dcc514cb384b5ef2b892a607387f7f41560c60151f, (-0x1e9ce654e94e923db6daf3df979f168658f21686a75bed2d9cd98ff309c5d78d)), (0xbfbe21557918e2c9e73cd82d186cd77d0d0a0ac4e1c825c4a8790f6298b145a9, 0x22abbf92c7ea4e08e76c14b2b0b7b803b9954618c61d4eedc97d78cbae6bda6b), (0x55ec4780075128b7d5797fdd5d2a159f75050995538197baff64b57f6788d545, 0x4da37421c4675be09229b4b07f1ed1d920c0a3c39bad52596b59b26e749ea69));
 (0, (0x1e7834509d971afe2d02b212235d77c2f133a4539466e3405afbbd1f0ddbf85a, (-0x19a63b775f97e48271dd3fd14d467597a8bb605f3854a426924a75952077ac401)), (0xfc45f7c1b674df21168f6f30772dee8ecb271fe1a53d3453453908f39e0528ff, 0x3a064b3fb3401652341a5b50938be804091a1b8925fac958d2d59e95adfe61d), (0x3170818036468db99066ca8c82bbabbbca6f4e86fb0170760095cf57a0920916, (-0x734572bd93191fc1d1649c3b8255d7bb547d5bd7835dcc8b55527c44f20a619)));
 (0, (0x4706322db6198a21232536d8ad2adedda931ac721de45aeed59a4979378bf83a, (-0x2ce5eac31cda65932cbdfe400ee3934e0dfd050f18f73d88130e97d180c032ae5)), (0x24651095b9164027ca7a25d891ea840e5f0e99cc9c83c21ad530ec9f357f660, 0x13b46ffbbefc971c5b841e7f09b156e206762439fbaf492d5cd5f0465f93f81a), (0x7b83bf7b530babd8fb28e06d9da96f9cbfef61dabd333f608d780967dd63c106, 0x455bf43b9bdc3a054c34477c92dea246957e2e740a5eb7b67fb08ada729bbc36));
 (0, (0x5a8238869a3abe91a5af67c1d4e6f1c285dda0d1f4cf1a9eddecf1b6a2f3a31c, 0x5746c53f059058017acf259e06ca4a69ee047fcd5b3a56ba608498a927ef3fb0), (0x3baa91acc0328af61f795589e42e2bf1fb6e6a2350eb8ca9ddb61cb37a1a1641, 0x1fffd1fc19a11be77a358ed1fec6a9b7ed27256c82ecb6678fa2633426bfba21), (0x9bd50d8c4bce556a3b2d395100ab5cf163a4f3450f6081b6b1c1ea39052608ca, (-0x144a704e5f8acf635a4aa640f4b3082f0e9d5c8d0d6297c30900d9cfdd725654)));
 (1, (0xd0c2ecb6458cc8b40718b4ec5ea911a9490e357443f47cb83c856b16c05be594, 0x329f61589152910b0c6c3146495a269008895427ce9613b7ce5e0035a3c13b02), (0x1ebaed18cc3c91ff4c38575d9528858364d3842ef50da234170c984f3a0d334c, 0xaa3d5513d026c1874581661f22dc21ce0f6fd4d13aa5ce6adfc2332afc88c885), (0x65a76742a693c78b01e0b2969554cc1f843b1a1a92d6916507e88800e79adfcf, 0x1798be14744aa1dedc9ecda7ca8f67ec95c8c164475f5a7607b5cef0567420e5));
 (0, (0xb29fc5542b370c9aff062bc0f37495e984bbd1a358324e8f02043903329af373, 0x82caa613d711056c4733eb28aef7cd88ca25bdb497be1041e1b6cf7f7cf14dd6), (0xf887f1394a78f5795964c9aed6e8ddc0a9decd90e85a25ba8adaea959048b43d, 0x7ca2921fc2c0e2184fffbacc0484c5b62c29a51ae83cee8781f29b49286da96c), (0xbc8040a9ad06e64307630b7892a3013900b819b609fbbfbd4e394b4817452248, (-0x97f87b16882b05f15d026290ba40ef4da7223b1ee5287c6e10d83eb81f7b6bc6)));
 (0, (0x5807009294351f76bebab6f5f495c283ea361f414ff500fb61cf86791414969a, (-0x25234865ddd42fa3b14fbb2765cde419819121c90b79f82eb048caee588ce34f5)), (0xeeebdf9c715c996a9a6eab85f124e7645a9c8b36e9f90db06a682c79eccf03a4, 0x1e44d095cde8f476be0426d7fe23dc980e3c3d920a17a3e107a88ba57a22405a), (0xb6b055914df5e691eaa82871697ebb4dd4d243bb7b4c48df7aa7477a11d86bf5, 0x34de957e67df38c16709f85474c6afef62f1d3f9e2d7e832b108d24efb184c3));
 (1, (0x532a4a34d88e7a56c4eb7df32270ee9a072bc3480f654511dfe3038788104876, (-0x261119b1c1f2c3cfbbe5b80547702777590ffa44a586035128b57241b442b4a5)), (0x1e1ca5348cee830efd31dce9e30cb53c9b6697e61409fd9da8a5341ef90fa20b, 0x1b04731ab3460a2f77f5ebc77f9eed58d0994b4d31a821d86d5ead72c6377073), (0xd5ce707a1b348f8400cac77e93efc8559cc0f0307f837acce9c5df1b124ba707, 0x43d5ae7645b820752e45006491f2b622f0c50b6541f9ba3138d934dbd8d93296));
 (0, (0xc543e802eeb0e29821c0d15573fa588ee6a4c39b6c9b30c1e4ff765465c40eda, 0x13ee0f8ef4228fb0cb1b976fcd0360d7d22178801caa2ec8ae26490b5394a9c4f), (0xcb60c5ba43415755cda4a086e42888917b2527ad929a414981663bc6ff0e0c2c, 0x98019517c72a7dfdf3991434522a0d3d1e5e65e7bfdc92fa569b49beb6f1323e), (0x7da02055852d3ee0b15af4eb7804119b97b67270ff688e165e8ee87015ae1243, (-0x858362e321daf1be5166b1a3e2a07fc6d6459012a33fbd4d6eeda8e0bd9701dc)));
 (0, (0x37a9932aebc7e8d404ffb31a40ed45cdf505d9cf21374cc4a5daad1034864146, (-0x1ae169ebf6c04850f0274198bdb7dfb5a5e64144aaf4f2e9d8ce0c081cd974db4)), (0xb815a1539a2d86b997ba0faad368a2ec4469c729ebeed67359c23b99966471a9, 0xc1a4d90149585f64e38fd701ab4c974d779397d0cfe08ac26ed500655e0b54d), (0xe05ccbfded118cc465e103720d47673ec2957c7bb7a110095736a2744fb0687b, 0x431ec847818d7340159289e5ccdd8da4839f1d6ed494ade52cfe943b3cf502c));
 (0, (0x2624727c63ec64768dd62a030f2ae32960cb582a73d43fe3dd23d964e53b66b0, (-0x14a41dddeb08338467c406df13d6da9335df1fa0d735e0319d9141d8bacbceddd)), (0x42be51b96e4a33fe9a6dfa51631a39591a469c7eba0333d82400e4e6a66e324b, 0x5aed72d53d94dbef0ef11ddf1f6690b4472608a3ab7e4c524b29e513df53b0d), (0x60a31f52407a8db173ccee8449520f5e5c7b01eed834105dd8db9a182997e272, 0x117baa91f9bc3eca544bcb16a4209a463018aae436a82c1b27f39380665f65bd));
 (-1, (0x74cfa711d0ec2882ba9b41a86fec725c6f49f5da83492a9e565bd1b372bacabb, 0x1918a65f306b4dc90a6f1a59f29ee54efdc7afbefe4ecd851c809bfe8b62b6e7), (0x54e493659ef9657a8ea4840d58e1a349efc94f19527973394823e8843e716523, 0x354cd7d7c12e2271833f071752c9386f679aab48d988dbf3cace378d607b8fdd), (0x9d2ed7e63f45158a2a1aa5fa4adf9099073bbafbaa532fadeb260ba142d3a499, (-0x8480e89587c43c664039c58498ebb97abc64f6ea7d5eb40869505593f1e2e9d)));
 (0, (0x5235cf0279be7ad4bea78c7cc5d21256861714827700d49cfe09702a006b4937, 0x107faf74faa2438ce142d2ee022f89cbf2792c77ca60e2b92d84c8347f63cb0d), (0xb915a58d5d387f4ce6721ed26ba5d8165f8ca92abbc5645933cf18246c9bcf37, 0x1a6683ecf469707751bddcddb529509e58457b742be9704607e0c8696617bbec), (0x5aec77aebe3cdb1da5947fa0da5fd4fd38177ea0eb65340e6094db8239c5959, (-0x202cc6fe22e09e8d235e4fdd50fbb60d54d1d42dd6cc3cbbbf0b7e8905916222)));
 (0, (0x797b2d61de0d06427d0adcf89cd9d52ac251e5fc70d85a65a07fed2c94767d7, (-0x1911a9648141cb09f163464a049c2168c22b26fd1be4d8c6eafc59b7c96a9811b)), (0x24b667a502c9e8e98eff0cca9b3a4872761fb6ad9234a0e1a34550d6f8f019d1, 0x39a5ac2b27ff3de978c52330e2de39db8f1fa875612eeae6d11e61c396584e), (0x685965cfe1b6e051de4ee47da2af7233690962e59286b0d0c3fed24376cb4328, 0x46686853080c294d52198ce5388efbdf6b1668cd1ded2b3c6abdfcb78439527));
 (0, (0x3c84a97917ce9dba6e40cdb7562d7f3005d1515dfc8d75208dd0f0e8a0cb5ce9, 0x218aa0b95c68db69955c0b012c93eb36cdff23dbbfe58efb8ea512311116b9a3), (0x77daccc0a81b453dc4f64991dac5eb597b4ecc353c6e3828216d6b197e68f8d2, 0xe4e742ff83a81b85bb81a29975c01e31bb42e753e17c8daa3c96b8f8bd871f3), (0xb9e08664d70929e3afb1d82430561c1ea5467f4b4d1822fdbedf39d10c7f27e8, (-0x13a79d80f7aeb963e7d571bf79e0d3d34f6e2aa47396c45ab65c2bb6e0d8e557)));
 (0, (0x97be23cd4f3095e8e9f7e6d750b47c2bf0a9fdf365d216f388a0d50650dd0e9d, 0x34038bba943020fbaf2a508e5f714c71a2207264bccf1004407f2ddb68a4297c), (0xf8657988fd933cd1a8939b7b089d3af00e41802203c8297eb35223fb2c84b5e4, 0x59f1db755d2ea5467f0a8b0b787efcffb0908ce146578147fbdc0577f103420f), (0x8a98093df77158d57708450245183434f4ae34fea1accb3ee25af4bb64b2031a, (-0x4c3144d0738822c5b4971fc8325edffc8d4720b5f7ccabddc65c511057a056b4)));
 (0, (0x95498df49c6bad0afe8d430c487d967947d0e6e7acfd77be92596d9abb0444ab, (-0x23169abebe4899c9f0be26a660f3cbf64fdef2c38043493071637226af3a281cc)), (0xc8e055c032b4b20a946de69bafe9e4a0a851dab6520b6c0bdf32770d24c52ce2, 0x570eb461024deae0a608fe28e4ebb05e574eb088b11be2317832905795bc68a1), (0x574cf70df71e4b58cab0f86e71bddf596eba207389d416742d1f15586f7d1dc5, 0x1bb62524cefa31ecb4396dac3bc6f6414b43eeeb93a0567693c67b996c434b39));
 (0, (0xe7bc16dd8d206bded2fc9abf6502e3d452bd7c5c382f8bd451f3cdafc36a5811, (-0x13ad0b1390ecf531c582da05cbb5468a1760895d4f8db203634e79573d8d9413e)), (0xa963894cea8eee5b35dc987cdc240af7acaaecf13ffb97c0765f7cae5330541a, 0xd1c4fb756c229e491a5b0832fdb6af27fdcb90c3fd2360ee8b71f00b030e812d), (0xbea0f7681c4a8a5ec24c0cb56079481ca1b14971afdf29020b865a865659b7c6, 0x1c80bef2246d308119504ef1269e7713851bfd376aca8fed7dd299d622bd9bd3));
 (0, (0x92a93b5ef89a36fc595393ca3be782ae227cebb59484075d6dadb9cb309d862e, (-0x75d212cc103d0998980694ab45a1099007c4fbde00bebdd261fcc402a98ea27c)), (0x11cc4bb7cfda8c7377b4659bf09326a7a5b4d6a6df3c934f74401add0bb01aec, 0x54057797c4b90c2707151ed90d53be2ebef060c33ae1706c7ebe8ca0569fa81c), (0xfa244bfe8c645a3538ed109a4b7f9ef335eb1f160ef12369526b4018bb465de3, 0x56d8771ec8995004ff8fc53215f3c7ff396b129d09a2648b9065b173aa29c755));
 (0, (0x9170d41f14b7b969f1ce3ecff6caae13737186516a1519cf4f6295c1f2b7231e, 0x118834d1c2e0eb4132c774f23993f5dbae5681169a12a36444b94f9711b5abcbc), (0x48302579ab9545e6392666c21937945697e55adeed119c7763972eb1c9c37efe, 0x52a10205806dbee291e2d097dd0f6baa71729015bdd5f9a396142fe614f1f6b2), (0xd72e89a57a4571496e071fd688c011661762c1dad7fd6d6a5f037f9bf4fd6ced, (-0x1ee687175d17a2f3d8659494a2fa789df5e8fc2a23932baaac2ca68b88bc1cd4)));
 (-1, (0x80be7ce373684f8359423fe00d08a3b4cf49059f94bcbdf47c9e9ad0152500ca, 0x18ec0043d80d25ef9d249c5d07b1086d6101a6ea734eef3c6566138caab2c027), (0xea8e336eef0d0349de66293570c1269026993212a0e46ae50b52cff9869c0200, 0x40bf0aa111f4c03c4c45e1900c96b031d9af547b301c055d6b7afc9b0c530c92), (0x4faf88deb18eb28618720d5babba1735e5273a9dfba3eefd3af4189a8cb12da2, (-0x51a7d7fecf1f87a2637c789bb237558808cc5f2f3f9d9f50051a2773df58e04d)));
 (0, (0x85bad665af58000eb7c40d3689c513df2b4e116285a3004dfcaa49efeacbb640, (-0x231781a48a4a7c00763eee72ba3895e5d57de585a92058c54257dd9c42f8dd900)), (0x80c9b4503bca03507e66ad110d42fc5444e21a60757e4dd39ff6a3785f2ac4d1, 0x45dbab21e782657a53f6d3cace8cf617393a51a86009f9fcbee8d96ca54ea501), (0xa9a789dd9750d9b9e6dd3b59dedd660bb55a54a06f594c593978f9dc806d732a, 0x3740476394ab8d19093cc538982ef8c3d014efb343fa6a881fd62efe3a7c794c));
 (0, (0x25e9b2b238cd926c66f0d1849750ad9ba21e3fe640558e49a1b9f398b534575e, (-0x901ecc0a6b4207e4289088769cc30cb3b0e7b068fc4967e6e56e608a9f940de5)), (0xdc97f80f5ed41e14bba9a62ad7d4a72b74b2490768070f745ac6b09d8422be80, 0x59d62fe49932598c92df1f703be8e84e3e6248963978a84c20cec33793f453e), (0x69120391d994f23ed48a1171ca58d3f295bc1f43b8db30fd02e89b8be6939a25, (-0xd989e9b9dec32d4af64e61221acece098c57e1074f13871080956f408b9eb3f)));
 (0, (0x190fe605e5688672d202ebb6cfc7acc6c8765f55188c419e158ef69385efbd87, (-0x225ae1412db6fdaf14de40f2825ef7e40b3a85e1d0b124334b8a22e81dd64a426)), (0xaab6a2cea0eccb4085b23e4631c21bd704eada2e8b6933a8220824d7a2f1f11c, 0x2741be9ea2de4dcc3b8eb71b74b4f13549eb4e4e25582eb382868c145f3a3fb), (0x1d1b7ef0f39a41e68cac13e6656c7dab7e7bbb327c0e56201eb46e03005dcf43, 0x4e21a58ea087b85fbb3f0321ede966c6b52e192091957eac59cde5fbaabf1ec));
 (0, (0x7f6595e9bb8c529fb8afaee27abb80c8d4b4a544930780ee9bd276b37691a111, (-0x1388cd5d694e983a8c47df3b9e21cb6e2a68d235511ed72d2423eae1ecc0c7bd6)), (0x7140509dfea0bc02cd4c1a2dce2215d96065a1fc9d8a1f06942854e77964b7b2, 0x3f65f30d8a4d206bf248ab7f37083c7a3142cad6e2914d44540159e2221f1979), (0xe7e69ab80aaa6d5b3442979d9d6b9f126ed28415883e6eabf031700706278e73, 0x1c98801ae253cd95d758a2d69a5b219d04506ae769d99571c6d0dec636c82fec));
 (-1, (0x42f2215feffe1ebd1df7f1a3fdd7398c5579b972baa25aaa7314aee43ff5b7cf, 0x23889f01f053a0d270ca4bae698ebb0ef183b663d6d8c5e9881a591a7a877eb), (0x8bf1a43542c16dc0e91d9e5044931f41314c5de4bc4991dbdf252081975d9581, 0x1181be38957aa41f24848d19b42dcfac219a2f0368b3515df11ad34defffe14a), (0xf6898adcc4a5aaae19ad27bc9ae19c538f7be92d2e7d74977c2ed981652d4f48, (-0x6faf6a8e12965d53074470dea310adb8baeae8a90cfd7ea9d4e7f10f1a5cda4)));
 (0, (0x807ce87f7594166dd5c4a7f9a50f0996eb3bc0fff017a2d7677b30cbb4d965a8, 0x11f93ab0d0d4f7d65a599863900dba9f73c36fe47205e5e1af67612b1c5bfa13), (0x56786b7144963f90ea7b92411e60e683b2631a5e5bd8c50a607b24ebb9808199, 0x407d257184354275d7c1c5153ed611cf2e1a12afda41bf13d8ec8f3489de366b), (0x7301b612fd3f9e8c46d210af2d0de72d84abff61393bc981504edb93d862917, 0x1ad6b3a9f928d14a58756595eb2e3ff60d071acbeab7e865c261a3e19e3750ef));
 (0, (0x44290560de8596d13a5ff88e14751e284d8c462b0860b93be95679e514b4c494, (-0x53cb863d4be82faf8b2a46c6b66e2cf09dab89cfa7aa2adf8cd5a4746954c835)), (0xa432bec67654bef473a1e96ace4c75088a5e79e691e7c314eab8805194846332, 0x1225d16e2f5b2c425388ef458f8fb31c8185e807a92c8d34087c9382dde77c94), (0xc2057b8d8617c3b4a3a1b26df4de0341cb589270487f4996b484ddef7cff9441, (-0x14b1f29c06eb9f20175d35edcf798f9a53ae9439958c20caffd25358fc18dff4)));
 (1, (0xe1b7a3488cc41af38213534796b6b4988ca79b5d390681ad9bf646d0a32147db, (-0x256eb5d60bc5f2db088ae76fbc9c729a27b26189b2224b1ea5953e4b5436c9db)), (0xf8069c231513109a3c5b54c4f2f6fb17eefb62f392fc34c5ed58e04c8f1b9936, 0xc70450c0614f6f8fc8d244564c2d5395bc4073815767095906b30bbaa47c30f7), (0xe5ec220ffed3d20de6358dcfea4ae62788914d45b632781ccaf4d750974e9a93, (-0x49e957794c5b0f0649590923432de90ca492d8c70e605d7e4f142528867233c0)));
 (0, (0x86ad582701273be26f951a1001afcd4f432bf206c2bd3b95f2dce3fedc100afa, (-0x1defbd8e7cd4a3e9f09671ebe3e639ad9b033be8a4ff417d7b26eb6018a83b9f0)), (0x4cc6cf7951bba23e07459d01031ddc2d552a5639d0c5453652b8aa3b7aa61426, 0x46d9eda9184778744ffc26fd8e9e95edd6f5c2bf493f364d3e78e6a15bd9850e), (0xa514ab9a21cc6673f7f0f99642b7125b5f8c5abcc11b5604fbb79069e095adb1, 0x5a175a3630d0cd70ad1d0f1bfcb76bcf7ac025aab515b435bccf8d1ce603e964));
 (0, (0x9a08298639e1631974acaed996234069c9b59e1267ecd38c2fb84f9aaa433e09, 0x8193748d04872809133ccfa4c179f1511be9501b610de578547ccc406989e75a), (0x7f20d3b5488f642a13d92307d3a5ab99a9203f72294cc1d18d7b4128c5234a27, 0x5cadd2381cc30e3ba8bf17beda1539c1924d6f18e54cd8f6ae8e52fec0644682), (0xe4eef81464ffd6d35908abd52a226ada0690ddaba6dd054ce09df971eb59295f, (-0x1e4bc18705894abe0fe0e4327c1f659992eec869253c8b364c9ce06c094ac337)));
 (0, (0xdd5c2ba2e5f26bcac697fdd6be34772745d0d03906e3495da8d804c29a06117d, 0xce84af56b6ea03507e9170db88e40a322b349ba2699308e52ac6cccfae92947d), (0x9a482ea0c96065d4a27fe189678766948d027e3dbaabf2606fcc63acd8f7f1cc, 0xbf684486a589f540da334f465e71393cf799bde7cdea347781c0b12bc9050741), (0xd46d39d1de41b2d5090ccf8e102023182ca94292db67f1968d7ed08831d2c63f, (-0x177ac042de67bc2f07f5627832ab197963854c876fb19196e403a30123157c01)));
 (0, (0xed23ca98796f7827d5850ce9ccaa8bd8116706e47f7f08d15df9dad1402e9ecc, 0x729cddcaafbe3b8dbb5615810287404731e283ad498d37ec6f234125f257bcc8), (0xf95aad552ad4b19436ab55ccd9707e17d7ea22def77076a6b89b1ac1d84cf885, 0xdbab4a1f56de9368f3d4d8ad060a58262f7910d176d1ba3edb32c202a7fb64fd), (0x62254b545ebb316e2c55c4fc90438b620235c1faeffb32b3ec70f49e550a17ca, (-0x58116a1188f0b08e00f78274f51efc5e9ef7ecbae6ceb86ce65c9c7e0435f99b)));
 (1, (0x2eee23ab4dfc6f484f898f7c4f0a9b6b2283e7a219f30290106fbb210089b739, (-0x1764c9cc19e08517da2686142f68cbd17d8b6c0a5a4df037bd76f99d48e952bd)), (0x410aad7cc620edbec242f74d537fa467a06f47aca4d629d6cf398a69429fee8f, 0x89a7257e78403513475978e1d2195cb5f133262d2f83d95fb37d274c9202a0b), (0x83d10b3c5c4a2e2e657a3577f4e99e9dc4ab636f135179a2e1f2ee5e540f7be6, 0x21c9d40702d63672f236adf5eb5075df05ecde64b11936ced5d753db5c0d4fca));
 (0, (0xd22860de148fe686ac1bea30022533c320d7b7b44f51fba7ebaec06bd0fe96b6, 0xa6d945e1e6a5ebd9180cd976fff2f8b5b891550867ed7e50f8f3ab3e604d9cab), (0x9bb9af86a702fbfcf21d2a6022dbaf4b6087329a724330b14373de074ee2e695, 0xac86454ac3c9d3409493347fc782c94dd9e9755b22b8960689b8064a05ad441f), (0xac681c218740e5ad14d7e81004d818aa1276a98599496c9fc45589d6bfeef663, (-0x4a71dd54b7d4b17adfd5d53f2e94e8456284618baf00eed4fd97104becdf8a03)));
 (0, (0x7dba0b018ac1a97fa16326d94019ece7cc7fce3676b3e7f6e69731322bca515f, (-0x72d6e22000aeffc235cce933ee895a5f253b00e68857fdd0f8538b008435c51f)), (0xd10421d15f0b5db41cbf1008074cad376e35931791f83d2525fb6a99bb61ef8c, 0x3dbf35f38037e2dff65b00210111705495319870b2d51d08174f8c976e8dda65), (0x5ad490970080f873c3f0487dff7fca3d996ff83089fdab4428fe47d50b8665b8, (-0x1a2c14300b3be805aba5069ea9d07ced1dda735f8672f267be53e23b87c7507c)));
 (0, (0x3b65e3b7fd72b2c824db4c29503dddcd1ccd32ef991ae272e8e732ea58fbeb5, (-0x1fd54d95b5d00a8f8385d30482fc5e8e9196d6ac4ba0795b31bd7e23a6a97f080)), (0x31912d10824457f8279f390adb2577c800b1138c3b820637a4d35f6933e538ea, 0xdc81f844890aa9f10e09e6a0e2334000e30c8a319f5382e3b38b3d3e90ab9), (0xf000d80bfa2ce55ea3c6e1c779af6ab41535a57a24603ee6d51ad44c492c3444, 0x24fef4988b08fee81005e28028f7315d0a6bb75698da4a9ac2920029bc95cd2));
 (0, (0x3950488947c93b3ec7d7d7144cc9b46cf953a4165c2cbc5d8fdf77c65c1c59ac, 0x4eac38010a6a7e1edf52ed74e2601de14c12297b5315225996b2adaa634b888c), (0x6406d88f3d079198627a8869eef53212e013362f84435662c2914788895427de, 0xcd4d97a8c51fc261710fb53ae06f914d6acc2a2e34ef195f90b75973d773e82), (0x1853ae7e85d38d0b578e15260c8d0366c9645659fb81d71103111f59f8ccc136, (-0xb4c0640f68a8cd0d492aa096d78b5cb6388aeefe98f2551ec23a72f34eab4b6)));
 (0, (0x4a39878e5a7d69b6362318cba6a509c5dd3c8424ca925537febb9db5b5d64822, (-0x6724bc3426fccff2112567fa2502e3a130913ad22e2fd3f7bac1febd336ca70c)), (0xdc2a796137b2cf51609778a90307a7862eff1a44c94a49e0695d3ed87a220bfc, 0x15854f4bf17c3f8f330c44f85fc670a2e526f3c413db063b50b75b76926b54f4), (0xfd587c4e5ff70be2d0d309e87647638bd43f37222cc1a8eb4f1e76768ad8a875, (-0x22d54c09193fa12d0887c758c06e7f3d91e0b58d750d3b2dc3954b058df03809)));
 (0, (0x18327a2aeb60fabfdb3af09fea5e10f88a7fc5ea8fd415dd654e664851c905f2, (-0x208269754e58c40eabd1dcbd828a1b81cea625ce1a0e8aaf2742b98677366d3c4)), (0xb3363ad21cf4479e0276743c0b0ae8209d4a1aaad01e96213ca7522b14401682, 0x24980dbff3310706f490525591679b9d5fa47ec84f90a8ef5ebbbaaa75195d6), (0x46fb96eb655d0fa0ac27c4526089809ed5d712cd418ed186f8e72e9f4d2c5dca, 0x3def91ce5ff454a8b64f366f98b2c596d079924448738b86073ed180e1789fb));
 (0, (0xc6b0c0ee0256d2186ec04ee0ece74da35234f827f48e88aa7bbde87e2f84b8fb, (-0x10a2f72db14000090ac2b31851c19c61d392a07bbe6b53138aa234fa322a90f10)), (0xa664ff1f2a34c346914d5a7e9b0aef09cb9ee373ee16ae90caf49fb69190c022, 0x9a35e47a04476529418286b8fe311a2fce78bb65a700a1230687debda45d2a7d), (0x298be638e1304b3c716e83660f17d7240a1ddeb1ea1427122617079107cfe6c3, 0x9f2adae4a30b5ba3f172c21eccd0a8dfcc8c625a8cf4f1abadd46dc8884f9dd));
 (-1, (0xb83aef9b66c9ea47c77d02095f3fc8d0ec3d84ad75c849780dd08bd6dc2a64c9, (-0x2022053c5a53c8027dc68693619c081f44b20da8adeaa104468934ed18992a51)), (0x7edd56350bcfbe170f79e0ce1299ee144ee5f0d124477205da0b53acc1e926ab, 0x8494c600d6705c87fc8356ec4e6efd833799006b3c377ac24b4290f3b79b9854), (0xbd5d076589442b9213d8e8cba0e710b6ad1f5c0f58676f00990947cc0d7f6ec6, 0x1c729b24309891bc06d69f4d3c3d01d4f9b33afa0d80e01a3c55816df9bed1fa));
 (0, (0x48f8154c4f15ebf6dacb6d7d830839c9fb93e1a36f95a47dc4c84e21b13cb801, (-0x50a888c4eb5885dff8be4f37e91b7c2ef5a840a484a5c8a6f9895ca0c8427a11)), (0x1d70b839048faac06591f16d86a3a8860209f3f5d993cebf7872aa8e69b3cf75, 0x14cc7c64321b2aecaf837bb4f0aab124dda89792679b87fb05774fc01a24e4aa), (0xbc8298d9ad28dce2a3e4ae86ce70f7e06177f36be8c5bc5ea4e03d49044a9219, 0x1bc4f5c2e17e7b63e6ed20128a71f614adba4fa7d2e1e7553d36af55cd53a659));
 (0, (0x2aa52bae9614ff1d2b6268283e7224eca1cd57073b133868d503f4296b89c2e9, 0x34a5e8b98ed7d584abfcad512e6941417d57426acc236d58f6dcdbd0cbe51599), (0x7864b1b35d2dc4db51b4383602c478e8175bf4196493a9de95e1674f60dc50af, 0x71a9ce69fc07841d8116bf08ac24820d04f22b9893fc3d7c2cbd05a94a18908), (0xff19f558d3099c96a46f438aaa99a6b8dcb9d8190e8b9a074b32a2e0a753ecb5, (-0xf26b5b2e072961a97f9b7c092864913df8274738d5e5813972d8b05c5615ae8)));
 (1, (0xc53dc6159045adfb67b1ef0b7f8bdd035a3703f3b5bebbf26eb3a5f3c8fca07, 0x10a5b8c430b1d4e0ac41e997ccad23405ecf2aaeac4cc48d69f9416c242064), (0x9c4617bf1d1ece84ccde1d9f21f204f66cc615e1869ea5d7f099c9eb4e677e60, 0x97f821c52f975bf69d452b0bf32adfe08cf62b669b05a3ceca771f884c3e96), (0xb0cf062ff220c302194067ef7aa4bae23f618120f3937ca79be98c370bfd7c80, (-0x1ba51bffb6243bd3910866b868e9d655a947559e240ce459803f2ec71b69eb4)));
 (0, (0xad637130615cc86f12e0df7774323942cb09dc76b613e626ffac3faa4683cd5f, (-0x2eaf559090b4dc5b4eaddab0238c1ed826cf71fce5603849205f666ff4fd8b00)), (0x637651aefb304973b3ee4223117893a2482b3ea65ea69f0310154a8741a2eef7, 0x756f8d9c210e73c1b63131cabc1cba465af1357b71945b28cb53c39923658696), (0xd0e414426232a3379198baf7daeb74d7aa0ccb237f5c48e23a318fa8d2dd3501, 0x267a7a50f228e25cec97cc419057217ebb1ff45f9a4093dddf8e1e46e67cd06a));
 (0, (0x370c6eaac9df34a4859d1d8a4dcb1fea8e7355b4a32812b592314c335b306313, (-0x1a17e2e512c3fd22bd9a1b320e432ae92de2c269ff0898df13fcf192ab4d15c3)), (0x12386620facd46defecb4cf876ad4c8a56073a7f9cd11d862de2120dda75ba50, 0xbd65827f2980cf82db59a07c7b7696b988e0981094e267c1838151c1627e5c5), (0xd87f24d2c7e55ae1b409be7863d07ed301936209664e433c417bee4b6a0a05ee, 0x11783fa15b232e4057a976f1758ff658788bc674a8b808ea5ec334ac3202d96a));
 (0, (0xd3a5719760c75d23bcc71b817c4f136e0ea11227fd1f158c0156f3da4692c5d3, 0x162157a5cc61729c4d846f6e2319f61ca67a03b42c9ac647a215f5106197134ec), (0x9a1426a7faadae524ab44c76bb7513d7150e5dcc7ce9dceb1ced29b85647f65, 0xaefa242b2912617a49411dee1e0728c8a099aacced810c2ae85dc012c708d95c), (0x8471d02bcb32292e87453ef22e14823d692ff1bad8b87c525d059ac043b2b8fc, 0x71a1fa93743b72ca5c8709e867a7c6406daa2a21426d660d5d368508afdafe9));
 (-1, (0x1d3a6babd13cc6bd5c0e32cefd8de388e070277f4d19a43543d16f129c415331, 0xccce2d7eba966d69a3cc9110e0b452ecced3c92f33de1db079db71743f28e39), (0x6dfeff70e0f548c97e7426c726167daae34a40cea67bca4618c9ed4935995ed4, 0x35649b9e48ba8caf50104cdb809be684453736eb9112f27e7efe6477f478b70), (0xbb93bc4652eccfb09bf35c4a308379f28324c5e7706e0ed5b859bd3fff36f51c, (-0xb7585dd171ec2721cf94144c68755463c38dab46d9c5fe9a95cc79a0b22ad59)));
 (0, (0x2a7cd59ea36dc5a7309a917f57dff9a20b0509ab84f8d9224b91adfddbe240f0, (-0x4f8600a03ed5946103162dc248cb5479f670fe3cf317d7e9678935ea15fa9cd0)), (0xac27cd10b029e5c3ca441919dfbc15d1320e295b3086d2ca56937b10ef1a1ef2, 0x70d32f7b18fb57524a6f780c1fb173495a2504f0d65ee43c1a137ba3a2c0a7a), (0x375da45b60b1ba57708b101ab7d313050e1b77ebac648eaf2b3e35a81ceaf5d1, (-0xa51015e495a81900f62ff854f7c76e815c071e6c3402d7577b00e980e067583)));
 (0, (0x465ca9d1bf86875584f4438102ff9c0f255429c8a70ce11cb8bce06b8652c4de, (-0x13ce13a972ce77ddfa0145cef012bcd3fb06d0122198a6ff502bfd291fcc90130)), (0xa087cfebcef120db9d88a2e0c8bfe261a85483ac5adab46c0836dbaa0116f41a, 0x1356ce693425d56df1cf0c4c3bcb7ae930b1ed552ee0a136e7e72e1afdd70a5a), (0xfbb29dacf686a8b0b84716e659261fa1885d0a404b493aa2081bc5acb5366ab, 0x331f46d3343f3cadeffb17f67c58715ca89c245b493456ecf56be8b3c57e96c));
 (0, (0x20b06d5eeb83193feb92a77ae1546adcb9143a1ab5dba3064cdf6f9a5539d543, (-0x129f9aa99d60280c4ab8999097acbb665e55691104b8c7d1e7e69038a04014db6)), (0xb3d69f4b35bf6d82787df09eb5e74a9abc94caf2b5cbbac799759484a6a0365a, 0x42c94ee4c1e92522339808f18047474ebe0949cc40e30d8ac4b633dfe8f68f5), (0x4a78e929ec75ab8a55172debfa05ec9e2b91a6e2b236a6d8660decf93654b45b, (-0x277285a356f76cf5a13203f64a377e63e276a0d2daa397624d0346937eefb1a)));
 (1, (0x26e652f8579084a3c498e54a7acdd21cc70cf51fb848c95fe10cd33819987b26, (-0x8d3dd0575e8ec2132b185852899a55f3ad29a909c44d184f9dc64466f144427)), (0xa0c543b749bb858b109bfff134269d4ff5c641fef1524f646a271b17d7c85414, 0x5e92fdaeb2048114f9019c9c6001e8c11945d978a254cb52e1f6c1b6fcdf4c2), (0x1cff9cd28bbae559fdc3e1bf3d3699cc475c306138c2e973200f789c6fb22dc1, 0x2e5bb5e4a9a629af41d2e138c4ae9724658fb3da4f46224de930c6d541e9438));
 (0, (0xed560bd22afc611a90a45532f3df551d4b570c667d235255098b52d90debd320, (-0xf920bf2a69bfa3b8778677086827490f6238cf26f25a81cc28489db119f24c90)), (0x3deb2976fcf4d43b49f1764047b65b85d36d7f03c956bc07e029586c96c634f9, 0xdc086ecf1557e998ab48d4d90b4d5a0d68e69017bcb1978ce81dceeba826a451), (0xcf427593f4589c41b49016eaf9cbb4881ed3eb180193d138514775f2f95ae9bd, 0x5ba52422df5145713a2bd76d227c5f996eff2e7b0a2162f191f9a768eb75bebe));
 (0, (0x638c60be4beb9a61de71c73bfee1a46a67423b96f4b19fdbf7671621b335f2fb, 0x7442f6ef6f6a76a665e61ddf41c705721d7a99c521025c014e516be3edc3b8e5), (0xd9aca145d73032e37e556313422d777ca400b82d9fd62a241c5c367c6c73d6e, 0x26b5dfcd236a897e091dc1effc30fcd9d932e0c1421c5f932c50770d0be7d597), (0x34f410481d47a5012fe88615cab951eff11aef354064ef4b79959f1c254d2f4f, 0x12c993195b5e38b5b7f2b606feb25a3903579a0c624d57d3e4ab05d7052af153));
 (-1, (0x138087cad6c46fc88af317ab56553a4a8eb38f1d7e613699e6adcad0947705a5, 0x83cefc695387165ceb04507feb5e3c763868590c0b42c27179da4ba8045cb37), (0x9ff776b7607bbd238b5212faa0c9b32615ecdbbc47d3371e5068fbbb1ca1cae7, 0x17c54b02ebf7c425d3df54168f1c0ba663137dd73903c735d1b57da0d599354), (0x57f5f464f45e9e527fc1598cd6e93b7c8b61e040cb545da6a6618ee2ee3afb6b, (-0xb265cc941af209176d7ff502549b8a50521501164b19671039c0a7f97df23f9)));
 (0, (0x8f49709630fb6a688f8c247af171ccc0247fb59d7852550351a2f2c17381e5fb, (-0xc968bf5dadf98c089a308368e438eabccd5728ae26bc461dfbeedb98d160ff4f)), (0x1cc5e3b45e6e894ba46885591af98f5fdb9ae1b89bcc1176d87da2111467ef83, 0x503320d931e4933ced1bdda20b19f50e9711021542b22ec976bd2a7274eb53b8), (0x6a6af4832c15c8681f0878c8e4bb197a9b41ed4bab58aabefd38509885efc5ec, 0x496e53f442788e162de11be7c240b2808ba0f892093347df34123f0de056275b));
 (0, (0x489f54b8ae16dcd27996a54739be454d8f012623d88e818ce5767a1b5baa8631, 0x32acf87e264e5383e47c6ff54230fd477544b1bda1462280b4def3a38e18a653), (0x320fa1f5df7f8fe259e741243883df0b16bb5a8c394f096d61844e4b5a1acf73, 0x149a02d23b5ed4166a026aabd3e93235717cb61e66c91559c1eadda3a34a0598), (0x27f8e9385def8a6eff605da1a4dfeee95280832f7f5f8731a173acb8a1ea2886, (-0x609fd5b24e436df9481f6e032606d6d392d69ca368da05085b6a1cec438283e)));
 (-1, (0x9c79f01145bb52639486255373f9bef41126f230584fc0f288c09e5da7fc2b85, 0x2bd0a4971f40613f427bf32a87be978f70327d8c51919b6b6959af9fa4ccc739), (0x6924fc3440620b781a531423472e64b601c5864b186c6e6eecce273e1ba7cb37, 0x5fa4d6a9de709b66cf800f7d6418af554f1a70a6fcd100bc0ed6656faf6113d9), (0x34a9595a6bd7d963e501f1c336c091f83c8f0898870ae0fe04855af048d6990e, (-0x21ab3fbd668c56fa6dbd282a02779a899055395009f4f5ae0fe642b0b5a00a18)));
 (0, (0x5de5dcab742a6a8bc8d70f9837caa30820d8b7308e87101545c28a30ed0c35b9, (-0x5aec78012230de8f64e44559df3584f2ad7bbc21fc2fc335ecc88155c131f379)), (0xcbbb6d129c5f254b5629a33d74fe365b623f67dea7c1512d62694d06db000172, 0x2270d0b91b5bc7c97a82a19c41325b9345dbaae7ac19c8769dd58c9ecfa4bbff), (0x8d3340f9eb9ccdfc8a0d22d855df88667ef647293b119ddaf17bc5fe3c296141, (-0x24292c8f0e8c383a30e0bd0485487b546525e1eaa029aea8edd2481f427f26ae)));
 (0, (0xebe29aa95113876aaa91e9e3ae43970b3a9d1850c4a7ad1d110539418224201c, (-0xe232463621da4165728fed5a795d3482afbda97b74c164826ad1843f013d7a2c)), (0xc553d8baab7395e9da4caa433bb098a578f96b7c729b9241c49da0b831520873, 0xd959d0884b3d26a091df8a449b63d6ed17a36b1de968cbd2e86917f728764897), (0xebd39975fe9ac23e06713fd2031bad36991b2e8a4da15a92c103c27eef50129f, 0x5e6c07c3b700491f0a922d60cbf2b6b265d25c5d390f44ca00802c9714a033c));
 (-1, (0x2994c4281e181b0a244fc04ea2f4c2e50cd59fa05e4d81a6e851274d9df48497, (-0xc46db9bdda602d6ba7d24024f7bd0384c6e111494108a05286e504d9d3f840a)), (0xbbe62c1b3fb5e2b6ca4d2b9171dbb65104a9f5f22893d6ae1c263a6f97c35fce, 0x6c0fd483e53f8e6d7d52b3077c7f79e98c0f66203d4ca32a8e1e1e836259c48), (0xc189bfd79c47d95194c40f3b16599ae6c34a0c7c0e8ca64b55912aac02820a97, 0x1880b46c6d47046a85282cdac3c062dba644b9f8745e616525720fe15b78973));
 (0, (0xe5505d493ce6575a2b0dbeaeaf780a9b116a07ffc051d087dfa7b19f833d4917, (-0x430445ccd0899cc97b6ddbbc713823e6ce5ab2639ad564b55736846b8d332df6)), (0x89fafd106755c7d01583d1c4445ddbcae741393fd2d0d8e9ab6864f93aaae22b, 0xcd68e01f76b873710eb39ca3957e503780e34939d754b65b77b626c58f0e81d6), (0x63f52a3ab0422700bf3235e13b58ed326be686d54324e89d56070f2e0fa5cf01, 0x2cb70cc41ef8fa26b5836cbd184dc02a1bcb6b2661341de86d0a6c5b21a35183));
 (0, (0xc2d607a17a65dfe64f3fe78ce2bbb1e8bae49e24fc0a6b72566e24c13a937a9f, (-0x46f512f356e0b262ebca37aaa1d1aeba5893e703f9dd3ef3abc7ed966fd03823)), (0x1e6c5d32c7421725ac80324fc290ca1de11308e33fec1accdae0fff2fe5acfff, 0x944916817fb544382610d3bfc750fd707235498f61bd9e6361eddc4866055554), (0xfd50a6f3c603fa95b9dc15b2fb9974fc08ff7f8cb513b9227cf0d8aeb0cae3ba, 0x51dc019455111b9fb9aa62253bb559b644cb26dc730070c908e2a25321bb07b7));
 (-1, (0x17aeec9f3f096b9fe23c90be6f11c96e7d0026f7a3a4409b5ef8b202a114a8d5, 0x872c5009958db6e511da83c559e34eb6828de9c2aeb61345ac39033a1193e71), (0xa8d1cd47bc1a213c18707c9563e2bdc077fa50fe7e8cad2307865fecd9998aea, 0x230e60b2083616dc3a689631cc5da2fc85c6c9ccf0ea7c073d6dd55f83156c8), (0x108697d30605968723650f8a4512d326f38cd6bf4ddcac211062136592a209b1, (-0xccdadefaaa5d0cf089053d450b8935e79485049f64542e52673acd7b21d2dae)));
 (0, (0x7f56842550b31a1d3c98a47a512c401fb8fcea626dc81e9ac94811822522bbaa, (-0x13d8b65fbf037da228f9ef161b9c73a31d351c9c49d6bbebe2ed3a8c8613bc6e8)), (0x70fc2909192403e18ab5e59be8dc7c8a13d312b8f6f2a2915b1222a24f375c71, 0x3f56f45a135a6ce7ade84a5099e23853e7e5aab15fe1647a00bded5fb811bc91), (0x729ad625888bc0dff5c3e1c11bed584665c33f0087eab51bb9ba0a4f0728cd66, 0x1bc5db128c0db3b9bb424cdf333ee92cc9870798e2ddf3f35aad038f85fb2c2d));
 (0, (0x1ce83e3bbfe935124f71f4b91cc66f8c0793b93dd6c940d1d4f2703a1c11604, (-0x93fab7e705e9994a506192f9ee0f7af5a8a2900f73bf389c5728f55561daf0fd)), (0x8ad1360235e6fc26e30d87b70c49ecb6ab24f8d2fb00da1c00c913be79e6ee03, 0x343a04ded67d9332da212a2d7c1462456de5ddcbe4dd25f58937a51fa57c5), (0xc6bcaa9965749ce4c888dab245c2c9a0839a84d490b20c4402f11d9befe7efc2, (-0x2eabcc6a183332b0d71086be5209bb8bd539cea3afd0d35397893cbc0f5b90)));
 (-1, (0xfeaf1061d17e0c448ec3c15c53fc2bbe9acf3bb101ebfe8be382af3bd35ee764, (-0x10fc56d7c359cef3caddbe6a3047298754a4fd87c1f455f88da17db6d0018c4e)), (0xde28ab8b81ac22787194f5cd15569a2b0a1360eb5d755a84649753cde9bc1c20, 0xfd5fdc39827eea3cff848f3a4095f632ce1d685930aa3400cd525c1cf1d269bb), (0xa8d5082cbd81465a76f844196ee0898aaaf53125c4531a71ef4d03ebf071497a, (-0x52e9c4bce1b7f58b80ea90b813e5d7e3e171565eecf924ad9db9ec6f219a5d70)));
 (0, (0x15ab2f3e1dd5472fcc00d9b2a094894632b0e6d1e5bdbbc9e9c5ecff8ea9f2dc, (-0x225caf1b39ff1dec20fd54a82d9393a9cc7bb0295434a32d2d582e67b086866b0)), (0xd9cf81f02c38b0f021389d9e9fcf267fc275e5d46bf17f5a0ea6b6e3a8a57d74, 0x1d588385698b6a1b83eb8b9a0e12542f9b640b56893be86bc1232ebf9f09b64), (0x940417a61864f3a6cbafed9a22e4c1e30e893a0ec47fb60defcd0f128bc50787, 0x5e38c5f581ddd7a9bebcab228451b995f6f943e9f8ee7a3a33f85092bcfb61));
 (0, (0x3d18aa63eafd965bbc198d335585870d1361a34a3599e2fee30fff46b3ddc618, (-0x1e54dde631ce65d8291ad3b6cfe52bee1263a4db73f00b62d9457ad309cfe55a0)), (0xa96af84e1a9fcf74b4ce3dc8b4c8cd4fbe22a90c290de54e481ed3c73c3ebd58, 0xe94c3940221c44c4c6024ec992d309f2ffb35730bd4ca10577ff4de02fab600), (0x40887f125f0bd74df71a79760ec271975c9407c62efac26004082bd967139b67, 0xb8c9e6e2c15c30249745a3b8d1fceba3220fb5329fbcc3e2b9ad77fd111acee));
 (-1, (0x7b345c37c79f3bb0e8fa9841d0798b86acd975d801c6ce8fe16fe2d47771c6ec, (-0x16f1aa488a76f20bb932a76541e2ed7343e2f28785a2b32f994443e8580823ef)), (0xda2d0fbdebb3b6f51c8fea1da6b0dc2897edcd0c1d13adf282b8a57f1fb9cae5, 0x3b4b5b5331b43fae14bb336d90103d372bf6b7726804124e6ae46b9beafe2c35), (0x264b7472fd206dd6ed33f4e0f7000695d06947e50f466e7dd8abf2b37db839d1, (-0x17773a3fdc4f7491b197d92ca30b5604eb7450071d9f8ef15eac18baf895a10c)));
 (0, (0xbf855e1bd39323c50c851777040c53efce3f226a94aa146dc1d940383a38f4c8, (-0x1f485d5e7ab936cd73813a6338243449820d2186657fe62c141b383d3ab8675f5)), (0x2cca6c69c180e6f713a84972710bddbdcf93847d84b9cd119f7784b4a78f1177, 0x8f4847e87137d8a99197bd9946f232c2c264b33284ad724fd95774cfa2871031), (0x560b02ab341b83a01b092bbfc96d6ca382db9e1c67f4c8b829cf529b8bf6e2cf, 0x81b6ebd7b6e1eb6fcd2dba36b41e46847f8e000c8d7f9c39f39815e49d7717b0));
 (0, (0xe5e981704624c194fa424ea93e7f04b0769fe0be46a96debd2bc31678455a00f, 0x830a09d8da5e6d3f037fe691222e9e19fd12e9e62b29cd7bb1c1c714614591e1), (0xe736f267641e7da8a0fdde0eb78ed63b7f0fef4c675c409a151c7e84d976f729, 0xce7b968fbd4fc92b6763d32444530461e902aa15411c542c1db459f5bc234156), (0x26c3b1094f3dde8f1961b49bbe681ec79291bb67ffdc897f2ffbef09f89f0f0, (-0xa76d1ee44863d802090a7e6f1e23afbd01b37bf389a9c5962c3b4c049e3e6d63)));
 (0, (0x81218a9d89ab53402ea255c73c36fcb63bc27ce932abf03c8213e37b69424e1, (-0x27255846465c7dabede892ebf4dc536c885cfe9bde4900b3c62dc1cc68917719d)), (0xa567b71663f15215cec86b1ef4e8724ba60cdfec648255ba6589fdae6bb48035, 0x4122d217cc6a61710179c110245faf2a6701f858e5b95ff16a301f6fc383e6), (0x6b92e20a8e3bfddc8c6a6de60cfb147fd7d3766670893e7bd279065b75a9b3b0, 0x21320c3cabfcc51eb7453fcfd8451edd349b2a9eecc58c14ad4a14db5116c6c));
 (0, (0x590535b3e0646f341f5a970027a73bbb2b0d268b3e953196d46dd7f6f37f8f77, (-0xf5cc120cf27a5c3e436918526dd074f91f49abce94f5892d1e6549b44e9167a5)), (0x476fd3a9ec8377159613c526468759d3ef45bf919f2e9877419e68c03b0ff718, 0x1ef49f723650928bbd053869a4ae5386b8f20923df6286df6c798054a9ec9c61), (0x84f30a8b5dfbc77334fdba1e1f96b38369aa40ff67e05e04f5bc8f6b8481915c, 0x20ad179e7f6ac47ef7365b97bd6ce9acef957aeb312b134738481ada656165c1));
 (0, (0x8d0e223b9c6dba91fbb2f8d11a81c311a0c106a76857c8b65925a74054bb1b4, (-0x32a5824866477d2d743adfd7db1856ff3381741168a2212f9037bfda4b92c8a0)), (0xe8989de4eae898b08bb2f2bd2130a6bcc9c2f081c22533ed111f50708eedd330, 0x4db8927d6d69def3d6f35e396fb2fd2554c7afefaff980c0104a29d73971d0), (0xd24d304edb33fb0b5cf8154bc22f43292b0e49fe0a16e8f119ea31504845dcd0, (-0x58cc5d2a7f13fd79d72871373e1f12fb79457dfd090db4431b36068ec0e6ab4)));
 (0, (0x995deebba72e633aaeca5ec4f0cb4f7719e0a68ea6f13fa87933bbf04299608d, (-0x17e0453713069d4f0640d886c4f0ad70d6801f6bd7696e4104d70ddd48e5dc820)), (0x3146b471f93268d6571791a847b8f0c8b8a3ac076c30f0a83f48c5be57054878, 0x5be169d3a0ce5eb8290486ea465fe5291b85a772c2725b6bc315ea0414c0d4ff), (0x8dcb40e28b92047a9664a82c9823085534efc16d022464cad424c17a0711618b, 0x6dd3383c08cdbc875d9e01683575c36da3402894000b24e8de5f48e08450c693));
 (0, (0xc776ba8324050d9104aab6401cdd7a62a17df2949036cda2433a7b913c136bd7, 0xc081170c394be4d4a1b32f40dd79b74b1c7d491564cab2c6f56fd368664a7a66), (0xdc1de928ab91e7534b4549f6167661858613e903e4e44af018deda6c3e72f494, 0x9b69cd085ac7e34530e5bdd4d938de8e511b6d052af52a2d0abb1edf7629b383), (0x90b52adaf905feabef51a34cd9a18e83b92051e43d0f07464700c6b140e4710c, (-0x851c85a43154cd198582f03e2bd0ef10a184388d8a314d6499e84c6ba950f1d5)));
 (0, (0xc055df666b3732918051892d8a8ae157153612f26d78e50c19d21ea5cdcf9c27, (-0x15e596f8f562e41170ccf95adccbfb3d9fa5de1b2f2f52d6941f8d1d296a63778)), (0xb29528ef5cf1b99e1027110f8e31350d491af5e467dc3f0dd1040f43f8bdd976, 0x9080ebe7bdc996459c167d961bcb6e6c188ced93c8a96b6061ca23b564a4e61d), (0xf1a3c4e164b8dbc3c367019230cafb68dd6783fec7f4986d005c90d1ee434b0c, 0x1f347ed18b52dcb78624e4631b7be7eeea531c6bdd7c0897b0323031b8cb89a6));
 (0, (0x395c69f087c3d7788c332ffcb38120d22c1cab6e8f83fcc5a72640bdafea8800, (-0x10971e8205390db34578cebf7f835fc7d1735113a8d95aae3aa776ba45b638494)), (0x915acb32fc051e2721546c7a56771beb91a1e8bf7723a5c37dfc60b5b766f3f5, 0xcda48896d2dfc140b089844fdc7115705698bae12aacec69a14145a3c338611), (0x2b2feb78772100e73d07f5551957f91bd4ed9c0fd4e0ae7195aad0f06b1f64e9, 0x771fd98ca10dadcab6291d52885d96369867342a65330c39b5d20a797825ee5));
 (-1, (0x7b5e6e979c7d30dad6b1397d6ee76b9581aec69d328e467600177681fb03a84f, (-0xb60da02a615ca7c282b66dbc3e5661bd35c523f4eeb94fe16e0596112f6a38e)), (0x1bd1cd270bad661ed2fcb7338026629dfcda4dbf1bf649812870ea01ff0373a6, 0x3b73e11b177ddd27bc587ad1c7d9e35434f8a8294b338bce43e9fd0a43367832), (0xc5c602b83667f164e12bf7f7540af1c3e87a5b94693463e548cc6b786e29294d, 0x38a42d237dac551380a84b8d40262299979d8aec55b30f694c9d8bf0a4fecec5));
 (0, (0xd84bd1f24ccd41bdfad25d3f9d371203bd771d3ad7b2c549bef4ce4ebbc5dcba, 0x14521835b955a51b5892177d9a4badff4aae703439f41db650d4a93117c318c88), (0xc28c9b08fda98dd56000cf5071382ab6778407a3b79386d5c80269b99b7c5bc2, 0xb6c008bd91c0e5f18d06f6f2d69fda4646643533a9bcd68b5f88b6a2400ab9ca), (0x644a33410043f5ff981aec7f1bda8886b95247854bafaaa293fd133fd5e0d199, (-0x8cdeff2d460fe00e6191c83aa28bc97f1aacf132259f0f1e3ea49dd2b59a9f22)));
 (0, (0x32d069463def0de33ff3194c4a26ec4b500f6efbcd85c855b60e1373255688a6, (-0x193bbf1861ba9f18e4b9ee5f49f1d82281f22d3f78fe85a17448bf36999abc760)), (0x16d4cdeb675d08f4f4f2f1d9d0c11fbcd9427910300d313cae1bc89802aa7841, 0xa1612caada0b7f75d5eaf80882e3e4aa23a4cb44a92f2c34fc43a306e9cff51), (0x4b2b703c6b2dfa7e61f689260cc15f1ef24079746c07f04af562907c79226367, 0x2215b203f0536ea596664cacdb61d4226fd75369bc85be2a730d35a2c5362a3a));
 (0, (0xd656c620a6b60d8ff32c4ef67d8b149366cbb24930211193d54d24f2a19f5c0b, 0x77c3c8504e4b82f5cb39881851dcf4443cb71091e865f489a94a90d4ce652b59), (0xf449c142f5997c2c2743ec109bb4b264a993c56fbe734ecb1601711d4a9be5cf, 0xb37530a84dfee7097e5420fc757d10b6cd4c0ceeec24050546c5d10ce3713e58), (0x81c25c38ee1265b7c1545b4c896279a316e10bc33a6450f30f38517764cf108f, (-0xb96ad419a35bc63e9ecbb964cd62a5cac369049db1e924ad740d754a883c4bf0)));
 (-1, (0xff53003c9032839ae9021cb8d7a2bc3899e2d073acf701c4c16cb93670fc0868, (-0x7a388ab4a2fb79262a320f3b5b6bbb533f45c21f6b244ff4d5429506364c2ebf)), (0x338c7deb508ee72420e3efd3984d4d53fa7e9235309d9ba4593254cc6a2f6358, 0xfea67561ce8a3143db8bdb3a08bcca7c625dc193de322a694a7273ffa242394f), (0xe540d83d04aebd1348cc011014fc2d97ec6db82c0ffe72024b9c27eb67eae7ad, 0xc03b039ebbbc5359ed2100b988189704cc3f0f9941352c2656708d4286176ea4));
 (0, (0x5696274ef4eb2b9a069345ba38ba6665a2e57a5863f838cea110f08d4e7738e1, 0x7bf0a9dc667bfbaa50d272ca3bce7e2f4ea06796563cc2a927550e351ce459c6), (0x34e8941241b8a33f7c0c292c6a6f05180eb0a5fcab85f47a3fe2936fee87e2df, 0x1d493a7b231e2bdc65d34a726612dc2e082599326f290fd175f4cdb296dad06e), (0x1cd3ed22e4b386d12c98d3126d09878ec3afd37ddd5d8f9de2bf6c4006944151, (-0x75bb9b82910720fbc85f5b9e8468e19187657d5cddae23b21dba2b1383d16b)));
 (0, (0x2c32402155c97e20d546666914f236c747d86732724da81bdd215af014cfc92c, (-0x16d9c39e4b87fc509150763cf9c23cb8d92ef388c98a430f11786807e3809805)), (0x99aa1c066f0de9bec1a0750b085dd86dd4be8a10204308e7a63836788d42a6cf, 0x7a14fe89293754c87e5de276aee61b8516338b36ccbfa9cda5f8345c9641d6d), (0xcaf78c05cf6103bdfa4c666d2853a97b0004c0b2da3a9a9a3e078631a3752e73, (-0x11650a68062ea450cd3fcc582d5f803ed909b26f26f8796b59ecdf8770352e3c)));
 (-1, (0xef4ab23c596644b1988ee9aaa7e35bda3409ae15303c63949c5e9f98f516dcc9, (-0x1dd65ed55a2d380d5aa3f2b9ec430c8b7b116280ad99230c199eef04e038e83c)), (0x474ae4f924badbe5e9ff2eba7e4ec0c78849bc8a5d1be2dadfbb6eedf5212d2d, 0xdfac8e9835e89def90367af0481a33047f0452c4a0292caa7c17a9dad1ee4953), (0x2252cb4c28b96ca1a45aea0cd21b1fddac22ce72f239f6bbcefd1dc73cc8eac5, 0x4cfeed44f1972ce89ac3838a8b2f18e0ce6ea5c9a456dde964778c7943e8d026));
 (0, (0x8c0b79e938f442b055ed52f6d2a4d6049e2950035f9b4e905416045f3a935c4b, (-0x160240988a60c3298af35e928c648e5214c3685c9b6065eb7adec654b20a7a43)), (0x76bc4d6ba3b2da1070a7a40d8b925befbce13f242459a909233a8bf8980b03cf, 0x4c9c8ddaca645a3e397ad1963123c321785b2deec479adb2ac781c5475c15930), (0x7cf21d317aa4f37cf482e628a1af2a1cb14a07de2bf3b39180944e14cf32c2f7, (-0x19f42595ed7f552c78099237343cfc760a2d0fef6caf827d43d1541d9dcd856e)));
 (0, (0xba935e03c7b90518fbcb6078a25d780791dbac07a3d4b52740dbab64f81d31c2, 0x10e9469bd1dadc6c57e69cd76ad6f19f8d1b1b1484b6d11977ec6fd093d72017), (0xa81de1f9f7296ef8b051ff15d368972a40fd12dff4db7df5f048119b51eb63d7, 0x87fa79729917009e527a56e48dc33c06655250f5724d804d7fa7850a1ebdcea1), (0x5c528f3da116a29b45f6d8662ecd830c519301f6c1a0861d1f72c76ca7dbfbaf, (-0x23fd531a4595a0937c09761f152f2d112a649641b6705f55b805a397ad7ce32a)));
 (-1, (0x8f4be86a60ba0c11be95940fe723296df61b7e9472906ec64aa131f63f234f2f, (-0x19f5160cad7c25f81946f24e6d04712f82d418529a0f93f0e96fd62cee64a5f6)), (0xdd4a43c11c12cf5ebda140f612087b707beea36c1fd8f2793876ddabe7d13539, 0x5035e428d965820459ceff724f10f27e3bae4dc79d541232a322401a3c1e3a57), (0xcbc0becaf57851fd8aebed00532ba789a53d3c586e4233722237df5091dd65a8, (-0x1dc38ee5340a6c8c83f9be2845caa3f0703b73d5e717b93af7be0bea8ac446bb)));
 (0, (0xdbe0a05af034e6bf3bb907fd989e337499de3e0663512174dd38e90f2c8fa114, (-0xdfda949524972e18ddcddaa53fc729405691b141b446c85a723c09534d99379d)), (0x8c8df0a7f60e684ca7dc486cec254669922eadec3ac00562df6bdbf71262c585, 0xbcda17749a90abeee5db9c2c44a7be49fe707c2e706b12d7a3b5c446d31a8cb7), (0x793cf1036060288bf8d206890f11c20b7d0abc4fd0aea8f49d3184af4e01d606, 0x4557f2719b6d338ebd2a4a22bd6cdac1c26dee3f4fd41b3e1e372724acc8913e));
 (0, (0xd15459681b447990700e0bbf09a2587ad07d8c20195c676d576e20507e600d82, (-0x213d438b68a059169b951931604a8d960b13dfeeb199f8f07aca9256739f6c3d)), (0x337a91150fe5ac27eda170acf36c9da6e4a70da553e5f246aea63abd1597c574, 0xab2ad5c6c81140b964d12f9fb8c620495fec8fecb947a74e2db0425ada4d135a), (0x895c3c131cfd39ac94ffa8025b932ff328e9d97465063926fbef9b908f28ac06, 0x48d62a7e3fb08b2fad675626ffd6d1548a2df88fc0cf8222192c6f828b14e24a));
 (1, (0x22c14614087970657c03f687a62b13f6a8110848043f97748046c68aad97cc7a, 0x98a0eb801e74926d4b8775a39d5f9b31e846637283649eebb4d36c7429d8f6a), (0xfe71cbbb0b10539e7dbf054fbb027295507c1aba116ed71396b4dcd539ea6f3e, 0x4b7e8880fa3ff2a2aaeebc51525223939bcc79f679a19937bc890a3f679e746), (0x34b3bce48999d7296d7baa3c4ac195b31d1e51f8adbf6a61a9497b3d35183ab7, (-0x1b8e11bcbe8ffed7d078c73cd6e5f7de1d66d332debd2afd0fb3cfcd4f7f51cf)));
 (0, (0x8dcb9e22ba1756e5d85743729b862968e04379ad08a5d8bad7cdf077a7297fec, (-0x2bc5034587a16418b67d8d5035eebdf26fadc67dc915888657515c9d05f61579c)), (0xcf119809c611d208c455eb7c003672c6bbf51fe66b9dff2b69490c01072c5190, 0x4e89ee266dbfb927c591f3311eaebc362af8651af8c0816ca51f9c107b8191bc), (0x4ab87b7bbbd0e679427f289cac03c124b845e9ace7873d8dd88054171f34731b, 0x1a3dab056db06098c223c171c1a580a39106ac021b8017aba636cdfc3704d54a));
 (0, (0xdb79cb4b03ace66e4e4bddd1376fb6c80b16ecc507e28f69057cf121a04e3a90, (-0x17659a2e94157655ce0a91d7385d518b3007cd6b868c4393e037307ca7f02a960)), (0x615b51811edd3d3a8eef1d9050e3e756027da1bb90ca4c4c3f3e578fc0798a7a, 0xbc299bc426a35981eb0b4836e056b2335f920d07acc1b73820ea74fd14b7db7a), (0x4824ac2922920a6a562ec61fc16fe8db5cf29c62efa5f773c09e194bbcb95c80, 0x5e0f209ded8945d272926379eaaf969e2ad44b439daed4d2b29dbb23cc6d694b));
 (0, (0x6d453f602f9fd4e31b3fae39d657e7112971967c0bc3e49899cea9e9d8e9aa0c, (-0x317cbaec96b5c6d069747a2433657d922e8d2a2bc036ad305e246073c2561554)), (0x5bc94190adf7599edd8bcc836c174eecb2e0da75560de8e506833d4267aee46f, 0x2ea40ab322184306932470647a5db2b5a9249cda33872ef683a9fd1ff24a5f63), (0xd234cfb247e4e081e490a8b9ff1f3286e69261372d661878d86f043ab75367e7, 0x260b288b59bc1197e1622008cc8878ab8b28ce7ed560a56397af50257564773));
 (-1, (0xee6123512840d25287c7a0a85fc9b0a6cfd7a8de9b1ff9248257af77286fbac3, 0x1be5465a8c2d2a8444dd431725fa9296e0636ecc667b4561be0da5deb7f21646), (0x1ace3d4958123bbe8baf3d1c5bffab78315595d91cd85e6f2cbdfb6193913688, 0xddf8c286af3852ed0fde0f7ef473176f866821fdd6c76f931b4aac8c0913e126), (0x945d686a711f10ad00ce41cdf7bb69f87eba3ebe6d9330ae60c88013631ba380, 0x3c82060ddc1c55b67250657ac1a3612681e525aab2a8d4d096fe25e1c95c0dd2));
 (0, (0x9d357f69143a8d3556202dfc1643080e58fd38a8b27112cc561b166585d0951, 0x2f7e97a207b7b4e4985dec9dd48d4839b21b6f02326290c489cc7249b0195c0), (0x92ac2b7741324a047c563f73b664707a283cd4a122433602697265152beaca94, 0x608aa974e3bb9ea5957516637139204426bb35e277eea919db53ba2bfc4b93), (0xb863f5c7248e26ceff4ffc095662d301c024868c9c3c560d01055b2bb6e586cd, (-0x499c27acc42224e1205e56a77922c0b38d8f46b8bfeaa0be73cdc6b77e9c037)));
 (0, (0x6770f6775b4e2bb4b6f7ba7ffa4730c0cbeb5b7bd12a92d18b7734618424d2ec, (-0x671755d2077f78c27ada878d21d3d048fef7851dcffb71e2947b255e888792c8)), (0x81afd27c4dbe1a9ea28e77bfa8126761ac46222818ff05b46dc4ca0e45453c26, 0x29cc182ca13266b1e8980d6d83c77216f6613bb19eeb9af0e754f0e1a848915e), (0xa26c6db8f6bf0ebe694ab4bda79587abc906217ce0cc10786d0d2e58a11a20ec, 0x6dd068e4e9ba7ea39419912770f0e5b0a6c979d3fd35238182bf22f70739281));
 (1, (0xafea8602ebcc798a31012427a27aba2557758efded3944b6a6a0c17d057cd4, (-0x5754fa757a024140b198ff11705df72e1e867fc009b233665999a417a47dc)), (0xbc73f48d73ef7bae9eab7b0849daa38763a59e0aae008cdad102c831f7ff7302, 0x78e27a1141dfaedbb740c16fe26100b0b4e2c411e60ca9d1ad5491360030), (0xf5791344d9004d0155206b94ac92472145e4ff10809846d795f712999ca64bd, (-0x2861e9543246e4141bf3712fd9f0b4d21b76f97e9944cd89285eb9efc5d677)));
 (0, (0x32197fc24995167d4dca892e0c45cf9a7eced44bed3132ee0fd2bf73cbfd93f6, (-0x19a2e47fd32d45e437917924249502612b2678c16e1153230cee66a7747182e30)), (0xb72f45cd71c33e9020bbb0d4f0f7166444e6445ef9d6f40bbe6476b01bf7b32a, 0x9cdf8721872f45cde4915e449111b66951af0ccc32d2ee6c1e0778c9801a0aa), (0xfaeaffffc1dc1636ff1d4a7c6f08dee340d2ddbb9fb69365a4ace2118f35a954, 0x107f077a36e301c75f31c30a52fcca999446b1121e491ed5bf07f4942a8b9b1));
 (0, (0xf20bec0737d045efb85238a6af3e09b0230db27dfeca11f3a99319e83028f4a7, 0x513dcf4db169a94bbef9c6836f272b96dc6e8f8a8ef75cc65d14e7311998d4d4), (0xf110666e32a81a42b7ecff004100193d95573658535a4b542dd3135855329f5d, 0xe4da8acbc7c1df3b5596409e6870b9a77d998b6abff4ad9005969faf8de724c0), (0x903a3a734cd7c87c2d7c3b31a653669627f41f52c80db5d5054cd2f4e3e5cc65, (-0x36b982e1891b2c797116d5dd75443a0cb6b6c5a62f6a1c27d56a616acccbf362)));
 (0, (0x84ad65f406254e4e1b77ecf1b3185e55216a9f162a7b6f5b5310510da5defd98, (-0x2138037de8748f627b8e5c10109bda5cebf89cecbc194b9dc5fb207d74f38b785)), (0x1d402999247ec8b12faf09db2cd1b3f8f9b796dfe794078358c1064c7c92de56, 0x44c346969ac13ca188f1781be0c0d49d911536dc12d7a4eab3dd2861a1c6e9d0), (0xf76c7bb5ca8385f3e2a1bc70657fd9ef0bc26ba004703c2f54a14904432d1311, 0x6dc6d77206d7a8f2d1fed51be2bb90f84d4c95368ab17398cc3b540cbd610cee));
 (1, (0xa78a37186ae5fe0fed703f913adcece2f35ad7c5f14dc249fcd117a2eaa9b5ea, 0x3c8849aeb39fc278a6b16d120194fa6219877a5e27e305c65db88a546e492fe3), (0x80df9ee3329d3a7615002ed6938783811e2ca2fdbd87dee39bf6647d9ac74f3c, 0x6da59e814da6d1b1bbe22ffc78ff6163e17bc0bd2d59341d5a05ceafb1d72666), (0xbdf4996c585f024fae52e303cbede51af65dd742d4a5906706501f9c8b7374c4, (-0x4132cee94be0e7ada13c685dd46152d7efc9603026486cc87f9c2c0ffc869fbf)));
 (0, (0xc4a46034b9b93e4328ac3b59636dcb078278c7e731a84840db54a864e1c88d72, 0x6131546bfd0acbbe2d32d62044e94ea64a539b329ac996f4474b8b3c7cffa9a0), (0xf6a27f26dcbfffc5e8b6631149c996b5770e79c275f2b141e29cea0569463146, 0x970c1cdc241932d58504c35eba40fa79148b4140fd6f340e32e00e22ad2d79da), (0x17c2e068938ac847c7df99505c2ec8134c4028b9534609ccad2d38eb0db1f294, (-0x5a74d0ccceb9956c2c28fa393f89c8e8bbbea164a4594fc1054cf5bc8e53dbf4)));
 (0, (0x526fa316cf9d8dc9fca9bc11c2bae719d4b0276e6ec7e57b8ced4178616b4ee7, (-0x2b988898396c4e7b0405f2799e47d851d253889fb68cb5c932797e4982c3fc5ec)), (0x9c8adfdeb466d56ee3118c38e01f17dd6d8981a7d87b71ecf0286f8fc2567a35, 0x1a8bb52972af07e155099a67e9b4112f8ad8817b89ebcc16abe1c0e0055d6750), (0xa0a0d9fcd9defcd982e30837aac68930923b07e07174c2381ee06172705f376a, 0x1d02daa83eb93c4b993bedbbd15442d865f689930dbda6340f9fe9fb3e538df7));
 (0, (0xe3e84763d12bca7a10fd641ec0b833dbc1846b46b4e90be2b3ba19523f72e125, (-0x12be4d0a2bbee04046cb9379f5612b788f2ef38ca23b36e93943826d8892b69)), (0xe1f4a7ac69fef6721dd70548e3a0a81a370f75c7bdf1d71bf70ac09d1871062a, 0xcae5c15c7dc74d65347702c2a7ecc822e061b6e47826d3d54c7191ff0cde3d4b), (0x206799a6427c6c46f218845d6cf563760e0b61d20a4c49a1d0ca9877c300bca, (-0x3dcbc763e17c04d8448294dc25fbb7cb397b79c3553bd7c0f718e20d4adb2ef3)));
 (0, (0x607707edaab9ebd0e0fb9879de6f8f287369976ec455b35a0096249b6fdb9826, (-0x254c92c4e6c6dceed2a0eeb4c5a85770b311e6dc69765a46e7da396a144febd8c)), (0xd7cd2b1a4d8f6b5812fcc932b025b61d633434a6cd355b11f84bf231fb9ca476, 0x24597d4a9f3f05b19ded5d89943bec85e69e32d5daef8cd1db15528015e48046), (0x312eb11663cad2329518743149afd66aa5f270f55bb6ba10feff482a6096888f, 0x3d387623450f6ab6212dcf1d93dbd6fdacc8f34512e2a66aa7986c0ce7036d1));
 (-1, (0x8e8fe62855cdddb8895057cff096f29e5b889b0af4cf68320abf0f8b5987f7cc, (-0x34610fde11a9ae4a91aef3e70960b5ba1663fabd377e2a2aa8d44e5b07d7872f)), (0xbb38d4908e3249336b3ddfd61b276d9b33056a44ed9af5b73bdde965bce1c160, 0x4f63f437af2cbe7f43fdc45d74deba2c432412f330fc247cd21cd4fcb3aab27e), (0x746ea5cbac157fd1c189cbe8c0c0fce3fce23ac396d1044d37ab11811ab91f11, 0xfea588e859911afac3f7f1d47fc2a07dd6f417449039b0015f220ab31b9f498));
 (0, (0xc414884aba94a7e9a12882022977311f4ce535a49c9bc4a9fc7503eb21745c17, (-0xe8681e574d462cfa1aa62ffdeb9122c664f27d6db9c836a5d1db21ce844e39ae)), (0xb10f85b695bbc9d9c589b97fed575e72e5f62575500ee539379ed9d26683b733, 0x962f725801f04466539cde05e7d64c61494d3eeb4ee0367bc23d0f90c5237442), (0x9b237ba31bdd2892263990b6384e392a052153b16da7152413445961282769dd, 0x7c87101f47ea39988bf98143eb9d0100880141bce306c3c84f6f7146b3efc73));
 (0, (0x1c8ff6afbb369c5de8c550f04512c81ad9805a9621c54c544319432bb87203b8, (-0x14cc527d947854d2f88ee77b7bda476c9f6339b6c41670d31338c5a7e37ba5225)), (0x25b3e90c37e72ef3201b562f499848f6e91957fe5ef3e8697ab7f591006d0eb2, 0x32fceebf6fd4da5adec4dfbfa0cc1a08dc2b1bbf7e00ea1080c8f51fef30958), (0xc464df12ab2e70b40cb2eda6dfa17fb0ba46cec3c6b774ce360495b218204341, 0xf8c6398d7831f36a30e44c3a28e029e16eea5bc4ccf32a87a9f0c36e3a9ae86));
 (1, (0xb57db8bfd3f2bf6072a44a2eb044f61cf3140c0ce3594ec10f4d2d020ce74e1, 0x3b94b077e7bdbb8f8622522c8b6507afbebf013e44201cbddc00a6769a3ab81), (0x2f6e5556fd0ed1508bc96ebeb886515ec1e0d3c62daa3d1c4eaa7882c2781f29, 0x80ab04fd325e8e182d1a89b5110816b7fcc790de600380ca96d1cf0162e312), (0x1a42a0bdf0156d364696bfb0417cff62e810651cc778e97a9be620d6d29eea89, (-0x6e5959d05e1b465aa42a65d32458f8bff30ccaf8132d98603af5944ce0e66f)));
 (0, (0x51cded5a5886a2efb8f0e1513605850ebf991055816676be4bfed5be2ad4a23c, (-0x994af8aa39d2e64c863fe0c6913f3200be249f7052c26ff9aad2eeb77433875)), (0x90ad14229973399b46c9e848c587d43d22018dfc63e8f50e736f659300c81a9e, 0x1a23f5d92ac762884dede42e149e4bca0dcf9269aacde2cc45932b170249c4e0), (0x3284b09921a23f4c80af0b18634b71418b30caa59b150e36cb41882eb685ed80, (-0x1f1313c69dda4b17b9c4b23e39d7924f2e771c6504bfc035a9541ac1965aaf9b)));
 (0, (0xde8929ed96322e1fe2c91fbabdea4163363188ff78532c11e0b8ea087aea783, (-0xefcc3eb3c0f32de94b2477878cf17cdefee81c1824e47c14a761caf1c4ef7e34)), (0x9f3cf167cc3f8dd8370fe178251538f82470c1b5b5b67a092f9a3d804a7f45c0, 0xc1722e35f7a7c0502f4403dd9657dff2f361fd5276b5d3ee87a35a05803a83), (0xfbbc33d8251398472c73805720aa981f1e68a227c1a2c6fda5fbd5062ffb9090, (-0xca88f41fa4074f81afd544ef8c50f3661fcbc589e3d202d6b2362a8bd41d6a)));
 (0, (0xa8804987b2a1c3ef7afd538dca0a8e7fd7140ada6640eeeaa85eff968200556b, 0x223d09b8ca24c0d349fc7183dc70d901086a45e7f8e608796453aba03eff45a0), (0x454fe19b7313f3d06e150c6eca133c4afe0c8ad067b0bcb78a20333a251e0265, 0x6ee8a0cbb7459ebc65e81066e80492947939d81584b95e0fce698306b980076c), (0x4e166fd84c1b49c620826657157ff0d500fffddd42a805b8fe758aabd1f60a12, 0x3b30a2ba44f574f94cc64f059435faac282bf2eef754c6671b29c9806f114649));
 (-1, (0x10309a1bfc26784b3b433e972d90b2b12af255100f8e65b2c2713742783810a9, 0x350dc975a536112205df7bd8481e475fc87bab7da40dd73da29dadbb5f1339b), (0xa6d8ef67ddbe54f475d340f8c925f4ad831963ba453568a4d7e4db35e125bea, 0x1061c7da6c90be3f4d246d1d168dc29e3b41d1e3a51a92660c26ff6c5cbe476), (0x577ac23567ab945661016411b7c725f8a168b2163bd085eb6a9c37d621388312, 0x3b9530c63d710f26ad2b774d67011ec38ea07c89788176e69569645598bf821));
 (0, (0xa851f680a4140ba8fa4a3c6d1a7cc484f7785dc3bc5b2eb383788e9a7e39de69, 0x71c2e8e1e7486d80daca051ea5610b3aaaa70de9f52eaa5eae4cf911b88e8c68), (0xf979828beab1a90506daebaf5876b24c7a60f505430a5db03e2747297b0da8da, 0x6eabadc6c21d9ff82d0decccb9cacef639b8681dad376254b65cb17e9a59680d), (0x36d78fd827395de73f9903d99dd46c50fa5eab4fd8ee1efedefa33987fb37522, (-0x9d2c60cfbcf5793c158a4dbbdca1209371f77365b2182c4642c41e2b4866269c)));
 (0, (0x9c9874168adf7388b5e065feee95ae5af0842ae9280d2f57b7518193fc6f3ff9, (-0x29640c3db48c659521f5ee631df8773bb08caffa40e62a0953f61247374e0bdb8)), (0x15ceceb1f5a15f593b5ec758162fa0002b48572d7f99f0874410c33b39788df, 0x5fca284588a9adfe7a72e2b450e935986f7e99bd26db1b948351e9914c3996c2), (0x3785aea7ec224b5ded6173703dfdee4e0ef4247b357f500b8dcea7681aecc59, 0x97c52ca9a03bcb1a3edb4dfb35708e47c97da5a85ababab694e96343246ad9d8));
 (1, (0xd1d6a5aef5486c8d4ce699bdffa183afa8f3932d055e3a73510df67e046ee229, 0x62ac83a66ff198a5b78a258ebdde9bd73e571b9f6289f72d7f95f21815c6345e), (0x8e2ace6e6ab7a50341ee91c2b5421180ff8f1ef34f6a6ff6ada4c677f3103dda, 0xac002e81183d5615e932820ac3692fb733ddf702d1995ad8cbc7b0b264b3e7c0), (0xc5b546f8547a66ceef213badf3ab224fdb4805b1379d6e34f4a64435edce1a84, (-0x736a2457a17a273eee5938b4941abdcaf39ece8dcde061abcdec07ce43e783f0)));
 (0, (0x7a166e1c5a6a8aea413d465ef20380dbbaa7efce0c755a37bc36c151ca1882c3, (-0x30471fa02bbdc38a5dea88a7bac8cb222fecfb14f6952e09020dca3248d4006c)), (0x2df5eb9e88a850fd6f6dfef89391ab554edbb09280b6c8c30007042658bdb76b, 0x3a3962ea2269778e9d1066ed901c6d15f47b3a4d0021d1397c7331425d361cb6), (0x4f95cf989e6f45a4544982aa021f109d165567ff1eb0ffb5ff3a2814d237e73b, 0x2de1a203f0d17f12d945e27dea9a5da888b7a419b180ccce2f7b613cdbde1092));
 (0, (0xd14edab9b0f15008692df5915a88d74bd5b8982f99abe2603bff494c700ba070, 0x6962810896c0ac1281e197c04bf81fe490bdd17207d5553ec453d659c6b8419b), (0x85269b69070847f21e52d905e219aac701eb078a581f0a7ac30fd827463b9b98, 0xab21d96d36f29fc6b43dd3c69e8991669d5b839e0c9a028e254185adfb7d640e), (0xec103dcf6b7876a98243e203d8efe4759e0f966e5f463958614e7578ae251003, (-0x47499ad89503fbc0d5c64abe4511afeb1b955fe88ced2337bdac73ee54bec272)));
 (-1, (0xcd40f6b7822fc553eb31670c112b054a261152023353c5a9609ffb3a4a9f8953, (-0x925576af732f1f9b5ba128ebbb24e1b73659d36c12d8919f6f7576bdd7872cb)), (0xdd98a121aadb543fd166378b6535731e3a59932eb959f723879af87ac437c3c4, 0xa4911b9e3006cbaa4260ab0d53fccc831a49f74f9938b1208f306ad99a67ef1b), (0x1d131b515d3b76acae71f6586476b11e35e487039e143b627d32d69c47910f1e, (-0x46e9c0534154e20ac23baac30a7177f8ceb1d1cfaf1514f8aad7cd6f826122ab)));
 (0, (0x8dc5ade1d03a02f4d758d8ce7bc6d355111b34f541b5c42cda69476901d413b8, (-0x21f3eb09cd1739ebf2ca0fe16cc227d44d37db5c0c0bb3e442a488e3bc77441f0)), (0x1a6aa70f5707d48ddb510bc4660345aa3da6b2dce42c1662ef05b33fc634efdb, 0x4e835a2fd3055b285961bcf4f6426527a37eccea296239ab368d4b5b1d2378b3), (0x15795275fe18f976899856314e5e44dfeea2a8208a46f9af5a78dce48ef6267d, 0x6c1709afc46ec1b276e3340787cad72b9cdbd8b23c6b5b82a57f0786a21af0b3));
 (0, (0x20f5c700badf5b1db371bd2854915b2ec603963d2b335a6ab895a676c5721bf3, (-0x2a5f2e197483ab0cb65285865c1f51dac87d4b4294f37c5d0497926f3173ad3)), (0x2d737b150e0747eaba2a81b14197e44b0a75d92ef67f7aced687e887137f9465, 0x43e5db6b0cfa8d39bc7673fff58f0895df8f654b2133b0eb22725165a970ad2), (0xf0168afec9868bc73f54656ad91700c916e8c8b974abad8aa6cdc7a2f7d0f5ce, (-0x27360bf8b0d87a8c70f56561c3b7d5d6e136a34d6a326394f9766652e0e4c07)));
 (-1, (0xe91006514c1a6b873eceab60e02c1db8faadb5391fbd2d11529387b7dfe80373, 0x4574f6d41a2b19480b3ca3cdd762f06673fc227b43d8cec209a156d6cfb90cc1), (0xc3f396dcdd3dea7897cd0d888e280e8aad94b6a8b93fd7e86e21706eb3615d17, 0xd42e2c80c6d9846c1d9e22e584eb1f1ec22b3c6fc6586e63b5ac14e0119fee7b), (0x54bcd4e334579a240ba5df9d98af31705bf02982c0039365a351d8a5a5b9cb9a, (-0x890405016402b6ea519681dea329f65354f7230d6dc15e0fec4579da8e89a902)));
 (0, (0x365bc6f31bee4a8b44df3cbc9732349401fa5c1516505d66e210f14fe185dbf4, (-0x19dfa93106dda5cb86d417533596731fd2e6aceff7da362859470f418c810f3cd)), (0x22af3b6e193a0d47a4e00e334892c8ffd9f45ec9a266bf8ddadd8582acb3a768, 0xb8ad8d59b3b58ee64ce38cae0cda9422751da76a5f76119372e4711d1977026), (0xef905667ee7adcbeb14ee8b80f53b4a60e982febe26d246d8796826dc2eefeee, 0x223e3be9e1eb45ee2df84045e207755c230187dc2df179d286f67832b280d9fc));
 (0, (0xecdb3631bead1f260e1019c778d7eadcbc634577f1ff47daafcb409b3304b89b, 0x1ad335a7ecd06359ebb2bf9b24d6c7576194c9486ad8e2c47f1a8aff53379b0cc), (0xc10dd660d9a3dbac9ac4f1560c51b1e940ca76d5f941d594545d4291ddbfb216, 0xdb24e7a17c2473bd0a7928e3a93a04e12d83f0ac4e6a5b6926bcc0ed55ba167d), (0x2e84deb48f241db59e6f6e54a503a604d0904bfd03c3b9e4dff6f50410aa5eb, (-0x9286d34d11cc5209a9333fbe15770dc3f1195e19cf8559d146e9c3e10e18fb3d)));
 (-1, (0x247cf9d7596e1db172b5aaf274c633d00c3ec9a34e46be5b7346233f11553621, (-0xa29fbce3553589c2f9e1312e814bb44f4305e04e788be1357cdb9452d8d3855)), (0x9898de27f6bb2a9183c78ec49b3e0c792a68c356ae20683d1566337186404bbe, 0x53363478d9a3c2638210948c91c3cf6e3990e10a80d9e67ff530ccd41cc043b), (0xc260475e60d49b01477445978519561b1dbd6ea622785bc88a61078d43eee945, 0x5c4330c09447f58387e1e8d8cbc125ebc397231fe2c1012b2b27276ff5b1e58));
 (0, (0xc9fadc7e5022a5f346206c2243202ade8cfb6a0785ddcb986829f74c84a7bcc9, 0x21d679aad3ce773fc16f64ee2e36a22d30900a4de1eab5760536173772e73812), (0x700f8601dcc8c0ee1b011c5c05d5e7f2db16b29cc1394093854669a9127cccd, 0x9f5be411be744452abaf098a4e1f5704b49bff15212332620630a1c144841cf8), (0x67bd0cfefdba379af6f7526ca6574cde7484df67c0322196bb09b16c25c51e46, 0x72deef26ae4b36a16d0149bba7f875efc352eba3e029692ca2b81dd7866569b2));
 (0, (0x784cdbec9e9e58d55a91c621f6f770c1e690340acd2bd651054260e4e9115cd0, 0x60ec5de966cc7fe5ef24c1cd208761585795c19895d289dc893edd05b88bcccb), (0x336d084fa481c2a4592b62a53eca8d02c8774fbca4208c33b0741d2a98bac364, 0x388825412621536485cf1a3b03712461fc07e5a4645f336f4f1c96c83907899e), (0x2611e8873e061bb7714617289a88ecb59e6836a9127a782c0f51e99aeca62dda, (-0x14dffdb68307b4614f3552d76e2533e58eac6506983ec18477f77124c72dfe30)));
 (0, (0x4b6eebef26b23698f7b336cbe59917aac78870688a513f8c10f26e84bf47c90, (-0x1d96e7827da1dc93ee1926407c434ffd9c3a951700ba09c62c9953cebbc31b10)), (0x873428205ce7f6abeeb1a0f29f8aca1ceade7356182f8330c974cb9e6aed3914, 0x163a2e4dbba29d9903700cc578e2390f984a4a6ee471934d231da0b7d3441c), (0x4a842df3933f81f969f8bef6e94a3b33cd18200d29e03b1a11105fd37a0282a0, (-0x18afa317df7a5b55b7be30bef8d87f78968e097182657e17ae0a29ec1f2f3a6)));
 (-1, (0x6e9eb9ada28a2fdd7b9df046d86748719b5d4879bf9c48e4b38a1a25161caa3b, (-0x5d0f1a4143737720f20a08fcca8487bbb5d172aa31081905627e345f5855084)), (0x17d264b802d4166c7596f6d86a6d9f9180461c979b052a2970ac92da8bc6e7a9, 0x2fccc9faf0afce663ac64ea0c65943a82eec18ad042eb232d680de43afe17dfc), (0x40d742ca91b64220d8e08bbafed41f311ef5a2ef55e271da26b68bc67742f030, 0x30211116a31b966b99024996457b1510bcc4cb7fab7b0bdd084d4c1f38d9eb77));
 (0, (0x715382810b17863c12ab269b2f9a1232980c591583c582fdd18fcc524e7a018a, 0x32c1e5a0c04dc5bcea52032f4cecd0c16c56ab7528420150fae71a9688333183), (0xeb333beb004c77afe96c6ee132d8d535fa312efb5a2af651fdc1d31ce62a6c4e, 0x322ad473cdff461225f486433b22686d1ec615be2e7704964fb76be0c740c47c), (0xc027cf83acfbac390d909528b400c923fbbfdf327dff2956750b8675b8620c4, (-0x5d92b32501a73c27fb473f5276c390f3ecfe5d040d65adb2fa27b42ab7d4dffa)));
 (0, (0xf97af2ff435102435765260127673bb78c02f11052c30cb8c70eb0b605166d5e, (-0x270dcee807a12affc9e2a7b85378f40fc95de34c472e172af6729f350ccab5364)), (0x3b2a2bbc66507659bfdfedc3ac2210a8b0421e47eda2888f1da475bb9cb86978, 0xf32067c112e759697d8f648b7d7da456be99f1b7e7eb49b37f85f3233e4c8e90), (0x730f6b0caa66b0418099f07694983665f54a1b1750b5a60aef397d5bc97c4e69, 0xab8d5c272298bf09be6627570f762d40567928c0254b2f75df1e5f8b00943049));
 (0, (0x998ce9c89fd9a5455d169132b478bc30613d9d421eec8e93950e286e7f7c12f6, 0x6101b3a6f8d3c2b8b19e25dc1857ee56275c87fb73be58831b9fe08e119e94b4), (0xead9f93f9b71486b306ac482847066613d2574d98bc153e905033c7a1adca332, 0x5c19bd0257ffcdce03dd5e67b6ab3626f7af15df4e7d13f51db774dfd4359b5e), (0x1072b203d01043c0500791fabfb6ab9c260f74c1e6ba874c1e044bef39356d60, (-0x6960c6687f9a33714a943ea3dba87b41188d88748246dd8de0fd0015428d958b)));
 (1, (0x5908bd982b2eca9ba2c95242a8386058cbadf79d4c445d92baeeeb37b68c48f7, (-0x275672a624fd595c9b4ee78a7a143eefa56cf22b7f6f106a876f3e422f43a472)), (0x8c6a643b3706fc5a99c4f7a5b72461e8259405d66a903156ee8dc2ca7befacba, 0x1ef7142033f3460346ed4f93c8a1ef8ef5f6d47b5bb952fd5ca0a94ab4b0d1c3), (0xabb0e9076798607a8cd86cdf5f3bee5a07f941b5add04b9bb3c6fa2db0ba03fe, 0x20d8043bb23ed1543703397f422c83596df7a720a55b59d7b1ae45459c629db6));
 (0, (0xbf15780876d15e75ae64cfa34b256c05b0e793f274b228beb7d75425db83bd23, 0x19412a38b74b397b485b1e44c14d5c4f26a72bd2ee64402718849526d2c9f878), (0x27174c4618974fbd706f3bcff2e65607c8e0626aeb935a4ac4cb7ebe7906410f, 0x8ea10ae98af7d8f90652f388ffa88e2c77dac60cdf21dbf9de119b14c17ddc9a), (0xf93de33b248f88e2b7cf25c7a9f18ef09ec5bf95e2dfaa4443fb4e364a9c1f92, 0x4ba17e3325aba2245914135370eaba9c597682021e2eb30d67a4f9fe84072fff));
 (0, (0x86254f89279ec2047c2e4e9ace39abbbd73fcf99ad8a5be022d4a0bba09bed16, 0xf34d1e90688fe23da217723e64472f8bf14d7e7f5f191368b271c3e4b6700c9b), (0xb493e714766d488dcac967bd48bca34ddddd5c1afde684f892e67d03502b2660, 0x464b14b3abd596f031188eafb521dad31a18df1c099bf04473723a501031c97a), (0x9a96e90150036f3f51bd24d86e70a22ee15c1a8d61ac672272930fd44fcb7739, (-0x4a23d7ffa64bd1472840f986faef41ebc87a9613f86e5ea4b9d93a4b75331e0f)));
 (-1, (0xa1df2b5dde22592b739e9794265d0cd597432025c313e0ef8f793d9d9ab539a6, (-0x25338fd074c44719f743b9b5aa203ed5f83cda89aa3e776d89a6717865af4f71)), (0xa19a12eb0ed2dac55f673a2dbee194513f42674408a03a30b36f329e087110b0, 0x665a7718a648df0ab0c9e2a0dfa2c991ad12693bf515646d07214d7cfa031bc4), (0xfc82302848207c8cdd88bbada3b82f3c475a27dc262a9df3e0777bded624c08e, 0xbffa944c61597c8694b8670d16967f80940be621f965466818e4ed700c8f9f7));
 (0, (0x8c5942b8c05d6550e4e9978aca1d5aa9e9ddf49d64decc760fa4b11f395ad091, (-0x1d2afec2242fa3b52f0850f4ac0ff429ebe6e60b2482032c8ba0212062b61b1c)), (0x9bb2e689ffbb892ef62dbed65e4dd358f56f5bfd7b1ba1ff98dd6d5e55e6174b, 0x4cf1c019883fb0462baa3c88c9bbae850927575783756c552657f5d2ed02126a), (0x233255cfd925109b8c3bdce24a98d892bbd9dc98511e3e6bd83ed7e64105ce09, 0x33c7b2d5e0773fa773cd80ade937ee930416c272dbc52b6b9f36817a5d4d8c2));
 (0, (0xe5964c298c0ca50fb709790b0f01cc86daa48a8fbf0895376e454233b7f0bef8, (-0xdcf4ff1dcfeebbd91791b82adcdf2cc58646d3732483dfce1345bd8b2dcbef75)), (0x9f793900d4cee545d4dbca2e915e7a77a2889a424f4ca6c200f4c07edccf6b3a, 0xcde63c7fabe77005368d7a86f6ceeca96eac89a5924e4e4f6e598dde0cab2490), (0x9161ae7979db6e1bbf44179212d5cfddc44caf8fb34a9be1a5a457ec48ac4dba, (-0x3629f181b8a4bd632999c2b692742b6adb5094b982fa452f1d228b4f04b2da5)));
 (0, (0xc27a3970c901ea9fb5c52be357157291cfc6baa4d63a193d6546b6230c185c6c, (-0x4d248bd9e58995a379d95eaf1063f0a5f83e39daff6fb9e880332c2e7eeac644)), (0xd98a903d0d4ed974068d2c2636c5c9980f539dcebe49620e7516cfc3e2083fe2, 0x93bd7969bd09e8a109b48395b6748c2f086b4e0152dc0b076837c4970475ebe6), (0xfe0dd4ad373c9bd573d84d59103d783de4deadc26f3070c5464c745ca2ce250c, (-0x2c1cdd66a71e83ba485b1d4b0db7a3260c5ce17d0c2c5843b4ec096f28c8493a)));
 (1, (0x17a126e07c6108101b7512b58a1479034f693896e14db0d960c706b682df0277, (-0x8d7a5b2a3ab6c3dea88c6e1e6985a9017bc72678fb8ff6c90f616573400a48e)), (0x5c36abcc2a9b5298c9134fc65d6723340601b0ed1883f0a079714c9f90a1a855, 0x22e5a6e429d4b45bdd29b8baca539c154459b7059312ec122c875e4a8525a1e), (0xb25b3f6a510842a93e207fd01e63eb117f86418c856f1d0839e95f8860c68264, 0xb916e5129917bd543e9fa7a3de91b1e18554609735ec61d029a6565a8f18ed5));
 (0, (0xf2ab70007cb9e6717593341099137f124ba75420fcb4c87d16ddcf7431e647bb, 0xee7d60653a605276ae7fcfda4c64977a5c55c36e69f65ca594b86362375d3923), (0x3a1fcc817ae541a63c1d48a333863c6fcf210031c96ef2961d18d16db6ceb5a8, 0xe608928fbd76852b4445463486767cfa40733c04ba4d1eeb98e6bcbae01bc369), (0x355024037024ba577865a013a6016b31c627a1e2a3eca082ad10c1123a5df62b, 0x20507345d349fce17521bb7cb8b5e4600425258b0fc3abcb1220cf21dc52e230));
 (0, (0xf346f36af5479f99decea99c4adb51ce65a5ccfa35b338c830226c30566b707d, 0x3dbc6bbb666dd993aff151557da89962366c116ed8ab041dbfda1e0d4a7f0322), (0xca6a959cbabdc05eec4f1a95128eaaef2c4c86e15afe5fcd225e91d2fead1663, 0xe72fc5c71398567f6872a2f2c00a1f50f46134beddc6d958651c468b8e12f68a), (0x88b8ba78cb3dbbf773291dc44adb7132f7d10b3a7d5564110acb18f7d44bdd70, (-0x891efa8b212a0988ed859a0fae8463ad4934cd250dbe1b915dd0379c8573e336)));
 (1, (0xc7c5ba6e1f7c3a4984f1e95c4028bafac312a2a45474a96058fa4d07936fd184, (-0x3ef427e030f834356919695f13803f5c6e991ae8da0c0d047c987fc4fc7adb4c)), (0xd1b4709fc4f2b8f9046093943f9e574ec1704e2462fefe45f1ef1f79dbd88b6a, 0x9be5008faa33ccef992af3e2ad69701d11938c2dc545873697feaf37bc650645), (0x33aa5642c2057df9b61b138417db7fbfacd993519af8e4017a81befa503ecc5a, (-0x5b00a63b207d3b03dd95a3e169fd9002d861ae0fa724abb95faaae1034b967a)));
 (0, (0xaa7aae110ce7896db232f0595d76def8a0135dced4259246c375a3f650ee9a30, (-0x1be889e0d05008c1088cb81be5f11de0ceb3697db1f768cdbd56a7b24824199d4)), (0x2ef699c01246ffd08f8f52bb20817c1311ea355de363c099204e9011d728b64e, 0x718729f903befde2237164de453f528c9d2ae59b4117e5ae397e0bee0dc1d482), (0x802bab36e822c81a1d8e7510fe961c58c43d2d4d1333cb639d43f94a027a271, 0x6c600dd0d21c95d3647046a44f12d35d988a83a96852d457a14dcd68326ab29b));
 (0, (0x571af5178dd32ad84dc506f8258f5320ee776f4a2c27b02ee3d43169dd9e6349, (-0x14651b9c0bdb3bb8a0d793e2c0e98d77046360946b89069f9f1ca60df7200046)), (0xdcaa95e55a354d0d2db893ff59ea0aff8267b1e965d6368b1488496b30d6113b, 0x1da3556cb5d46da4b351b9dd1a1430d72a76aeff325c41d594f0c45dd595c226), (0x29f965e1c948060cef218509cb7491a2f180e937dcb1fdc88e1624cf7c55c936, (-0x3b1a754582f209ef9f9443772e80261b8cf2518334ce0920d7f0c98031ab8884)));
 (1, (0x883a913006ef332ecf6882bca7246565b86d1d0d98a5369ee5993cfff778635a, (-0x34a41acb7630b874688e38c44f70a34e8211e7aa3a069d6aa5e6d71e2a42a130)), (0x23c9346c5140d0f7f7d03dda5dd4e2a26b80deaa7d7d179b786111fda5d55f29, 0x487e47a92378bba27f7354aca7b8fec7b854e0929c9440606193007e5fa154d8), (0xa9b776c8a160bc7c8006c8006d85c06f77cb71f95b75ec8a0f600dbe8033e4c9, 0x626207b2b9a7c5bd147a5b65af806e06719f341e49632cb30eee77f7be7f14bb));
 (0, (0xb6313f2f16758f85b07ab7850eee401525b294ee7226a5c90ec240b11da42770, 0xe290417c88bc994282e22768f8c3db284e93b78fc498a7b9f8a8b672d4999663), (0x8dee1e0cacfd95eadce5ee69d32c7a4f86f07bf374136f63af266612800d56fa, 0x81aa0f50338df6ca25e2f686208c6337e91b3156125562e15f4b0825d8a94e8c), (0x51ccf7384c5a3538632701d03b279f5f241963bad8d3580c564facc4602a80e7, (-0x4b8aa95b547f089f48818fb34ff652f8c4dd5a12ca3c7197f489ce93ff2231e0)));
 (0, (0x1436eaf3f39c36c582ae5b9cac7cb348c9c4eba9738c518aa7c6744788ad264d, (-0xdf256081da8a6682bcdc60a3ca712d523cd6b08bde961783f08e25f9cbaae66a)), (0x773ea71c232cc52edcbd10c6967e5f053280685feb942e86eb92a540dd96509b, 0x198a07e149e1047ee415d09ba0ec95176d4e8f97c761b836e0fcc0986c04c86), (0x4f48995240fbf8f204cb763716b71850d09c6d2c74b3fa2e20298c575cee7069, 0x1ca931fe25d8c53b8c437de01f3cc8bf8907148372c2d3834568ad465c7712d));
 (-1, (0xfe94cfe87ec2cffed77466107bdcd4c2e690cbae4dd9730c0e8b684de176c0d4, 0x27c33c646e9d87f4d6ecdfde49325d40602af2d187c778ad0f1e23b2ed4496b), (0x405520f0c1a34f64e639ca525a7421d16b0b47c7e62c5dec67f7333cbaabd833, 0xfd2ba3126936f6233e6f90723c3452b9cb7dc33d082e42638f7f98878ca106f6), (0x2fed44fb1f1a46d44ab1a8edb6f016f6137b4703b85c8a971c1ed21cf7e77d08, 0x369b9eb94e2a2b238a72ad9901e92ef8fa33667922bdc6a21e056a5814df5b81));
 (0, (0x44cb89a74d113bd168bfb1e6d25737047e5e1ebeb45b6b2e6d7a4a84de0953b4, (-0x16bdc3da67c4b34b1cf732eaa95bc37ae0a317f6f641295476c3c3f6896a62b5)), (0x14fd4bf2dca4e3bddf0e4062bfadfcc3479d724968f43de0fee538bb3eddb25a, 0x127cc2f47a49deee337782ff93207fe275fc9753d34ddc2d4e747ca3361d6530), (0xca30de89afffb59978b7d810038aa49358f5820edb24341569dc70d101259cff, 0xba5ca87aa7c518a7a332278d758745e5db68657e8ddb8d545d9f5e148bb6703));
 (0, (0xa89c8bb49607f5da1d96dde8938940ec465f10a449fc57c29532bd2487eecf2e, 0x1052dc0dacd102d028f79685368322e8870a562b731cfe42c601f43ff1c48aec8), (0x8a2c2281b6afc099e6482a82876a5f90b2e2de610e0dbd70e1e2c0c340cdcaf5, 0x6f0dd717953ee6b1e0c3fe561ef034899e8ff5a804d69f7bff4c3edff2774f55), (0x121ea38ab910f2c8aec93e0f1b16969bf119e4470bda6b63c613fea3b317be09, (-0x4d2e654b963f82ed6cd048ebe1c3798b5ee536c759995e3f95d434c9f8f9dfbe)));
 (-1, (0xe2e33ee48917658c7d9bca271223c1830703d99f25bb9f34398095636848dd55, (-0xe8f75515f300fa00a08aeb1162b681879ff67381136f16851819d10b05d55e0)), (0x8a48b42ce96c50f15746d406cfaa0ecb67791358d995db7fbf5aa6c9e04bd5, 0xc91604c41acbed35f534cf2076b3c808da265eaaeea3e6ea09741f03d3eed4d9), (0xe5f7b8cab33ab758363d2f9122390ae59643ed49046e44778e921bd971f72b87, 0x79fb0e9ba57c3563d526179c974aadbf4c6f0a29bab7419f5f201016f53980f0));
 (0, (0x4f6693cd1f0e9b825a07395406f515cfed1518158392d3c34bade146d7e8f342, 0x8ea64ee7fc354076b214b2a60867e766b89503ca43ff4ea1570f26c94afb3fdf), (0x454b36d54ebe5769b4ae74c3874848b151f00d4b48a41b82af3ee75cd6b6ca76, 0x18a07852b5f4f9a3e7317fcaf92fd3653ee0d752419af515e64ca1960bfcc65c), (0xfc1ecf313f46654536bbaf3c0b28ac9349808d36495cb72f790b3388e303dcbe, (-0x1553160cfa372f7e85e299b854baf9b4faf6a284890bd56863a7184026b926e9)));
 (0, (0xf2db351e120c90b272b3a12c52c4d1e2d57354fadec2df8623bf10949dd52718, 0x1a61520171aeb19deb62ff8a6da164173206ae882f495d905fa9f79e75bc4a9cc), (0x92f3a77ecc83a30566314b9343d17fc021d3fee8c0df0c8d65f3ee19fd72a700, 0xe6632c20c6981a12624d6e55cbcd1b27fcfe45d7d6e077566be05edea6b055ec), (0xc06ad2cd90f79028c04ce450bbb6775843d853a0e0d523297b77a37a91967779, (-0x49abb9b5986d0bdd85d792fc94aa43b812534a475f5d8519f529f5ac89de8e89)));
 (0, (0x51c1bcedccff27c54e0f7062ad88dc72bf1e402598515831917480512c56abad, (-0x8229a261cd7bf3d6219b5212d66cd0fdb6301fe39ab4730a7dfb8dbcb4519b6a)), (0x8d293c896aebfc97669cdb83f8b3ca7b5439a520beaa0ea27c0d1ebda22690d2, 0x1a1c2c2ce5b6b1e0c9e68c11d1e91d2c6e1c4d8622f28f5fbfe8affe8ff1c499), (0x1fec7ef539069f148683e44f928f60fd0521bc32872c2681247bcd3a50cc0a98, 0x1d96db84e73da965f6e4742669ecfd70dcfd29ffd8462e3ac36d1e49385d10b));
 (-1, (0xaa85cfa38bc868bf3997842649b2fd21cae76c69955ee56e22ef2413e93eae1c, (-0xcef1863ed33cdbaf12fb7766a0bc52301c214a8c754d9287c97c4ece27ab778)), (0x3c985f28082fc119901c4e7d03bced858ada69b1df428d9bf1f0d2d573520294, 0x7195fdb69dff4de4361cf43c0682f3ff5e29d5b55837b98b68ec2b8dbd8d5a8e), (0x43d5d0f8d7e5aacb5e1107521c13f4ad3a2f981bf52f9ea3a85436ceb6414412, 0x35aa4f9e4a65b97c679c73765bd45eae23b2dcd0aaba87256c176c01d638a042));
 (0, (0xce138b731e008e2e7e3229609053e1a4fad6c72717e71981c77536939e8d14f8, 0x422f2210ff1786a2504f8050c42335149ce0dd961b869025fcfc42570d30e4d0), (0xc333ff051d1cd920bb3db4cc6a1e4d5b6a8e6ad43a7fe323e7a6db078b3df63a, 0xa5e375eb43558f408069d22c9b27d339a48bd945e93e5436a33d285517606b82), (0xaa632fa679997ae14785f859341a7edc2e5787ad521256f5be197ec46dc66a88, (-0x6c5b8183cbbbb91a5d3ce06dd82604386a5844e8b182720c080d059049c97ab6)));
 (0, (0x8f0c17c1307add1cb584a469c52aba4c93de0b5558c2d67dda6fbc54c1088c44, (-0x1001ddb0cbd30d5da8d79467d815cfc3d5bb96b816ae12ae276db604614845494)), (0xc237dc2bd4dca88e95ea5b9bb270515d2dd544fe0f437baa7a66ca1798cc561a, 0x4fee831c107a170b03a60fe75e2475bf949df4dffaeb064a909709173924fe1e), (0x587111d5fca96a3cb6f64d33256b79237509d346af273f2b3bb8f3c48f6cd02e, 0x8ce36066f2c8fc45e9b06069f3a08b2697e180ad1d738fc07e5db72f3fca56));
 (0, (0xdb9924e2afd51a0e8f09459342c071cf40e06ff7691f78e740591621cd190300, (-0x1224edc8076366b3d14f9967373b116192830321cc4dd9404757744cbdbe78bd4)), (0x739bc090acef4dcd5bf2e5644e3e21fe6a19ab9e26fcbc4c6751b1082320da8f, 0xbc5f60b8f51d517cea7bfb128c9af7f791e7d9966cf088a6e79fd40c7bdf2a53), (0xc82ae6e444ab9dd451eae0ae96e024f79139dc5b3057f16da2db076672ef6070, 0x436e923dca9340d786066c19d5d5f2b5b316ba8a47bfbcffd0e40ee9fa23333e));
 (0, (0x5e92aa257e6304eba72503e1abf7b68bc12e4b51284f0b851faf570627fb4c93, (-0x8bb0cbb96bde3892d044024e4d2e77ba6b84a752b442756ad89134884d57d6d)), (0xc4ebc620e3db6e7fbec546c010f23a3983ed42d85bc132e990fed7585798addf, 0x22f008fa0caab1e7f517da526870d4d4265b10799bfc0aea70ba1a9b2a56a654), (0x1d3b0c97ffa1fd9801d2768921a7ea952571e0753d493a04780d0edca601a08f, (-0x1e09f7b92cd16f3c1f4c923741776d7f2f07901d75d143e339fafb5e6880f041)));
 (0, (0x5d14c93e6a08e3345bf48f5ff83deb5bcb3734410d17314cdc7dcdad6b2b7311, (-0x1b12bfb41c1d055a76773f1d693261a57cc94db386deada69818bc2c53013564b)), (0x4b2dcfe152eb809c7f08af4eeaaaee97a83b1c00e71223e4bed797c7b26592d2, 0x21d81be768fe183107ffb09b0e0818c893cb05bbc8c4c4952beeef02037d073f), (0x1793452635e5c629cfc3b9ed0c9bd07968bbe39dd251f782d9adc3a4bc2d3153, 0x2c43e5002964ea4dfb769e0837b31b515406d6e8c3169830e4d19df263b208f5));
 (0, (0x3129518fcdfab333150f52ec9c68920cae24e3bcd7ace9957f767905f754d99e, (-0x392da357d8b93a132b914f572ddf782e91d872f942c450ab973a284654d7f328)), (0xb060e84ba2e547998ebceab29f92f8d98ed90d5693aebe0aae073f8335fe12f2, 0x970d7e446e644075da29b8eaa32a71a48677f08e43440bb931435f6abefc872), (0xa88ff0cfbd279eecfbf6dceb2aa0c44cb0a2723dc734f0e424f9bc4058f4c630, (-0x136f1d194606ea11e875cdb5003591f9ba6dc453aff103009754f65de6b7d92d)));
 (-1, (0xa63026cf170d9cfbbe3763286e3df8703b3f5e19268f2e8a786f2cdb3eaf17c3, (-0x2377a6eb5d921354bdcc53fd3c989f66e6352c8f08cf9b6bc6d40db996ce923a)), (0xefd082286d9b241442c2d6598a583acfe19122a2688b06c28701b7c000f772b4, 0x6be27b6325706f0fadc937e23b271e5ec99bcca1679eccdb4b11cf1325d339a5), (0x1639001cf60e0f534ed8feb44a294ae4a7a52dfb4f206b74eff2802634f27083, (-0x292e4c4fe6a28513d942aca5c28221ec2f043bb042b4aac75c2c4b747ed156d7)));
 (0, (0xf06078903833ec21698d7854ba070dd8d1e11e3a41b6e475d7652c4f8d265906, (-0x2783956ace4847b3a13f891fd7e5373a5cfd8559416fdc492b8fce600f2ef0a34)), (0xcb4cab527112b79d114c902bdfcee2a85da57f77a83d60e97f6d3ee407270ebe, 0xe1b506690e53079fb318261b099b1ef50c0e26c9ae8e8608b9b69c9ddeb0b262), (0xf1f9eba80868a20d5fb8eaab4e54cdd16a6dc62bd34c4a3e634ed45baa38c710, 0x22495c0b8bdffe87549fae905f81d28a3360c5dba2538a8f646335b65d580b9f));
 (0, (0xea37e5d3974d505701857cbe2c75d00900529df937a456c4527ef23e21f98006, (-0x29917d552f9b384b7799d339d84ac523816174d4af2d54c10ea450b726a3ab74)), (0x38aed9fea6d60f8722b7514669bcfb4be5a0eea6e3d8cc6f6f9acb8867ec4c89, 0xd64a3c5b5fd895aaa8c513aca78f39f2c267e59fc63f325d313d787b758cd911), (0x5190a68dc1f2aae3d71e11fe62276432c386fef590702e8427682ad679021d, 0x862444deead6be97a38dd55e054473a2e2f30a2e48e301dc39da5d32d4f073bf));
 (-1, (0x8239b6b9ff770a1a7e1062d246c93b7e03aa3377a831f770520abf76af275489, 0x2118903fc5c861696fcce0d9c26a024c2868d84728544b7830ea6b030f0d6ce4), (0xb9554390cae0696bebe5031ebeb3ce0565014e672a31ed7145cd97f6a3949b17, 0x423eaa97c8b5a7a5e32d6aae3de5a34ad2e8fd93b15f2eee6eed3f47b8fb3c37), (0xe618f398d30a4eb8de80a650300838e8f8f50f122dd6e713f216776c839b1fbd, (-0x4171827d7f890dc70eb33f78f872332ea5d7f73f006626af858d4df16de8cba8)));
 (0, (0xe7c157bc5d4e6a70df63426b5e2f8ab07be6338f160c0cf3e41b23b88b144949, 0xe178ecd0ba1069d6571b03d8a2e55034e8d4ad778dafc9d5218947001a08119), (0x2efbb7051932b19af8fa18ad8da24755fc8489e8568dcbb12cf469f96440ea46, 0xd1ce7e5b5879c658aadd1480862441312c70f5746d117171cb8046d2d1d8f733), (0x229d7900ed2f5368fa18a16b20e46b970f7bf3c2ea50ef6f0752d9bc9747e03c, 0x7d3f4abf3d984dab4af955ffd7301ac8cde9ace262ddb4a27416ab5a124ffd60));
 (0, (0xfb1485726b8b570b57b8c68f9d0423942e25bbb903fc150b38c9a3a3d355187a, 0x2a081026969e27d8452d425cfcda1955a54ba266c4a01b55ef626dc31b1f1f7c), (0xfda0156241f5f2d061430d36efb787390114774e851f9cb27e659a12cc763a1d, 0xf6413f537e54215895832017e277263c32689d8ee696cb27f4e8a3d032e35675), (0x8c165fc2bb56e1f48f9bffcb8fb47d469cd3f61e6b3437ea6b240b8b7dd23088, (-0xcaabb914774638cd3dceee0984ec663742a758b180228273183595d2cfaabde6)));
 (0, (0x744624ac7c9910a59f0e1802ef2905ed2ea9f95c477e2d68da46adee596e933, (-0x2e9dd5a6a5a597072e6dbd8650011343cf943ae9de730c772217df06fbf1f1945)), (0xa734825b1acfcd175b5edd19b82fdb00c390ca243964a48fbec0ca9bddc064c9, 0x34cfa474647fd20de9b95866d52bf426d1f9abd50fc7df4dd86707b490c3ba), (0xd51dc87b1367df5e55827759682f6f8f8ac6a7e361461e289ce9d50a5b75478c, 0x27406c6accb58ef6caa707c5c8acf49d2f966266ea71a3a5ffebe9c51238cd8));
 (1, (0xe382ed1084899dbef79dc97fd5b8530e74c7f80ba25036074210bb1ecaa3134c, (-0x2866fac79db622b997449b1cd3095d88cbe602669d50c3f874ef4083acdacac8)), (0x9054037cdbbe991e8473a008b933a8cf95ce951d3260d50985eb9ea648c4e248, 0xca317360eb5a3ffc84fad2999c9d5d0b84b4f9effd21b1979e525693701331c9), (0xfc5041e2ea626222f435f9b845ce7e42768d3a5e734a5de605bf6cd3c445fce4, 0x1454c3aece1c03c0252221d9b2d3205eabc384aa61d6ab760ce3ae8c6365fde4));
 (0, (0x4b43e56277a79de242daff57972d087be9628590429682614ad2e03f4a753317, (-0x5fbf01b5224c9eea031eff701eb8ea23cbf4a8caa098ee42be843fdab6948eb8)), (0xafa509b6361535e46a6ead07ec15d79c7e4f8c10402fe4d2439f40fe3740a703, 0x1620da6991302830ec543f9dafa5d928a76919f6d948c0b8f3513ddac3ee11e2), (0xc844897ee73655ba5ce3fe3979bb4968829484dee81eba4bb701e579b1b1513e, (-0x9350b16f4b2df6d287f523e6b6623484c60ade56ed81fd7bbbf8b0fdfa30c41)));
 (0, (0xcc4656c282abbee0b5155f10de5593b8e15c913a384d1950d85dc94a42acbd86, (-0x29ede0aa16fa15abdc5bbfe4c905b7a90bd985c1b455156c94be2edd84ee523d)), (0xf6e2898d171073660b6d7a8a40d77fbc4393eb5e9761b165ec9cfc119fe2d7a3, 0xa3002d99900871b836bc3e84764356512a2d73d1c8cfeeda7bdea7e604e93575), (0x3b03d5d221c4f52a25de5ff72f3d655952b72db422cd9cdd06a6c469f62d4137, (-0x38d894d4f9f3d03eb2a8dbb1d1fcf10b8e74f9fa8aafa3552ec54447085cb6db)));
 (1, (0xb1860b77b14b7e060f3cc2e7d1db0795a49944b39ee6db4621e48b7a8e4abfc6, (-0x56c782c22b8cd55824b73fbcfce0a6d25fe6abb259a78785487eea6f38f1df6d)), (0xd16c3f47df2e0bd806698dbdb13af91aeb0cf6f96f6d87df1fa8eef67ff876dd, 0x7b1aa20b84fb807f1b37229974c69b9a162f84406cd724eec7c8bec631d18ab4), (0x8be734606faf1f25842704ec711069d27d38474acdb547e7a533294770dd874e, 0x19fa66f254fe1f21d3f91eaa2ff23ad3233a22f4e49f36afd8f36c0f14304c91));
 (0, (0x77aecde860609b28388fe492346567a2e6caa63169b83129ab059d6b03d59308, (-0x17f25c53f4ae0d5b3294c96cd05991bc6de2c4bdf5306bebd6051ac7744efba75)), (0x649c83c5ddd05681f78ad081820b4e9ce3936a9f6841cd0492aa444608f2adaa, 0x37f3faca971ad0dbdb22e66a82f60344c0fbf6aae9b9b370e31afa2b7ec7f5e4), (0x2b4c4a83fa574a2adafae09e04a155b067395fc01e8e5331e829250762c8bc3d, 0x32dedcdfff5f7c0f78d529beff2dbe62ad55fd9e8fa4911c56e36ed5ee632d83));
 (0, (0xeb93de1414c28f884e6021a19dbc1e1e474448fa170b3f2626efb79059308ccc, (-0x26efde5f59739148b6005049a1507ac425150ee20e599f926f540845bf7910cc)), (0xbed3134b04a2b7945e1270649a6f31a7c418958a28c326371b391ac7f11d0d53, 0xd8c8cf21a9d3e089c7744fab77db7340148be716630ec6b8af03818100478d67), (0x60eeeb81a287cd43d2df455c068919d0105b7fd2d4e2ae70706dd8db4e15994d, (-0x530431560821eb1ec702e4796a2419e5ae48c2ad3ca0fc9194d7c29503c88baa)));
 (-1, (0xdeed1d26f27462dfc3d6820f24f8f2847b7da9cd2dc263d259d5e7531a8021d4, (-0x3c27e9dac44f60a4eeb4b4ab687f1be25efacabd2a0606374c915d585dcf18d9)), (0x6e99cb5368eca40ce800f01a2ed3cfc08687c5191d84afa43e723ee6c3ae557b, 0xc2201a2e89f09fd6688cf164a08b623fb10f752b6db0a8b7e9725b77a485f8f6), (0x7e4969b2da0253e95930aac34871fcccff8b25f451915a494aac459cb0aa3e50, 0x45dbfa930ae566dd043ebba8a87fa1a91136ae1b0d4916fe4202764ed7f9052d));
 (0, (0xb12070409e4244c9fd9561d03910aa26a182e3b078bce776d528283b0830b03e, 0x1f67efe2af6e8ebb32ea37ec0b1dc649a7bac03e0b50fb8274c0791d4ee2ad9b), (0x867f8be56d05fdaf6d187043daa975a9af3963ff4fa8595c3ea93cb31f6cfeed, 0x7a8ddf559c37ce7a0250f78cc2e57d5a13bf10a0b0250a8212ec2c6847108faf), (0xdda8a0702edeb21682981a601eb3b6d11dd896c974fb1e11b75ffa63b4258f27, (-0x1088e157938c0cf25647162aa1b8c5c7525a7eca1decc1af3ff89f1cc1e4865d)));
 (0, (0xc2212656a32604b4fe996443654de011ce87584e835aa6d8dd9af49751ea7ea8, 0x7c2fa906a2c31c908d8e89f85e251ae0795808c0e57fd89cddcc89dc25a4481b), (0x107555832b447a497e86a27f22ff3560bfb2e14b9cf7389521bfbfe57bc511ff, 0x93364266375984b0d774745679c6982d57834d47882190bbeae8b83aec833b49), (0x50ec84ff322c29f7471a9147dea2275c7a8916a062472a72c62ca9e76fb07794, 0x59830634ef3a029a3f52202e1bcf1a57161e70f9ad42bbc4f1669872988e679b));
 (1, (0x507672bb5dd0040088849ffc93e159290ba4549d4f4c042e0af5a296757ecc9f, 0x21178c2c1d2570bb602b70116ac1c074e3b53209cce0d5235883988b27844d8d), (0x17f76e0c0df5d767e837a9c38d7d6d12ccf387a3c99b7d6c4908be93f5a367b, 0x194a3e8312c7e6f379a7dc8dcda21232836d5cff2d899608107d7187dbb05981), (0x4a57e9ee2f4990de6ffe333743b439b1f656e70ce14b102ad419be65b6512b0d, 0x4b3c19bd0561183bc0717bde8f0d455388aecf2c5a1c810c911057ca1f57395));
 (0, (0xae96f52878bde585e0b34139d3e5564eff3f2e6d1b17f8d29ec370f236881e4a, 0x6560743aefa3e8167ad44ca6877b92bfe3c824d3e3a299dac2f0e79ec37a3617), (0x73ef6f14c8ba95747a987aeabc5621cb16e65d6cfc5d272a8b2315dea14623d6, 0x77118e473a56200c63f38cb296cbc3942ea27ac8de3ee442ca1a74e709184ee8), (0xb0fe7296f0d2fd12f28129822baea19049abf23b64191cd4e22c8cb656763d7f, (-0x4e0b95e60bd58dc41abbf439f588e7569f9fa358cbc3f5ebc4ef0f1e56a76646)));
 (0, (0x43295582ad58bb59240d62663311d8a706d164cdc91634d78386c7e3fa44096f, (-0x40a4a17e6f6d991f048f1c1ce9455532207daaa7e0c1f8894b0c87b8d6c49196)), (0x7b6a50f52d40655d36b9ac6e41190fcd8a443b1de994a7183e42ceb962fb6d24, 0x119ea96ee728024e1b55123c5585babbf67d7722245008402ccead134996327f), (0xcac293615e7645fc72fbd620577530b7dcdc98d5648ce455890df08202322c70, (-0x1f65e4b85b5f6875654c3be66164cfe4749899d955da9ee03f78eb1f4e6f60f)));
 (0, (0x576961b4705b664108c1993686aae14103340e23b3e0f63258cd20e3de29a0d3, (-0x2806d349df00911cb692062122683343eb8ef3bb3e712d30c3882a2890412e70)), (0xf133b6d56085bcd7ba7a833654223e4b08b2bd339b02721770ded6af11dfffeb, 0x1dd8cbc9efac86cd8aa1f324875ae73431cf39bb2f175fa90f77260d1eea0c2a), (0xc1ba0c4bf44573645968dc6b10c535c4b01977531c0421c928145d378ad021b9, (-0x2837ee2e4f4957724ecfa1f0671d5439b6c249c79543739395dd60b335064932)));
 (1, (0x50a95df1dd8a2feb31cea889be8420277a3b739da938d5c5c18d559290f8d703, (-0x25a3b163841f5c858e925861b14fd12dc7c397a2bd71de72e34f4858c2305888)), (0x8d3c783fb315e0bdc5f52d4386e6d804936b0d8feb6123f728f2e9e4a16e75e, 0x196a4ac456467ddf885fe88851063c79b9140e0c0b6b68a297e0e18e501f9558), (0x9c280231eb6aa94feb311f45ec0184af22dd6f56b4c8dc890dc68980e0a8bd80, 0x4937b764d1bf6091b56c764e514ea116c9099c899023396d3192dc195a295ff2));
 (0, (0xfae7e2ba28ae6fdc408078bed27f5ee02477cb58b9bb604412556946be561e79, 0x1312f4616f942f76f58b16463692519e875a9788b27d32233b2280230a03d46cc), (0x89228ae4cc79aee0286bd974119db574a302f5fb6bf609f667ec86c1d4831027, 0xf5e9b8de8c37547b2ee9bb703fd199ebdf48d99a6a4b62af9d4400cd928df512), (0x52b5be88fb97525eb17149a4032a308d34d16e5a43219be6be90854a6ec91c77, (-0x7dc12381aed6a06a9ef782a0a9eccbfdad23f171aef49140acd38111d74f2a88)));
 (0, (0xc5ac1edd194a957a00ece416b8ad94f176a40aac91c40d767cc149855e39a57d, (-0x5ca7088de6e056d5ad602444d1e254464de34b39a68fabad968df64b61c411f3)), (0x7bcbfad395fbd7d5f884dc6c3513773a7a699785077f29da842a3577ed26ee43, 0x98a25b39c5bf5728c9ac29272b387fb8402d04d9e8ab22780d742feb7228c108), (0xe75d6a415bf4445624f5e322afa44e7fb3fcbd771286398793c492b15fb8fcdf, 0xa4c94a1b46d2d272bfdd44bef0bef70af99410d384806007fc9e7a87aadb362));
 (0, (0xa63c6747580c8f4adb22d2fe7a96c87e75e50c267d4555d45236abe4b8c0455a, 0x78e163977806ec4ebec34ada8d439696701a10636d0dad8a85612754196f5f9f), (0xf939f1fd0500ed4c4783bd4482ed828676d99bba524c1c4747874c4d0835b1b1, 0x6bf26431194c0c744fd63cf1b740058660b751ec80a319c9018bee1806655523), (0x3a41bddeacc3c2a8b7b90d38f74226319fc5a55c53d9059aa225c844679edc67, (-0x5172e6a4fec87d97835204292ee339fa29ccc7bd8d6a27686d93e6871c95f4ae)));
 (1, (0x9c8ef5fb2175339cbc95ee7e782c7ee2470172398601f6d0809c38af1445ff39, (-0x4df67a0679feebb53820b4c365a38c8f92b7cfa740857da729c519641c433cbe)), (0x46c1ed61b940a8f5de03746628495d2f391e165e74446bc5158e92655caaafcf, 0x5fbe8b9fdfba99513cb494461f8e25a814f161f0946fdd341c8d6f4158d3e4b7), (0x716fa104ca0eb1c398ccf693ccd5407b05eaa425654973c18c6c06f96cb7f186, 0x6d24ccdd1fb57f7a24663529701b5e74528a6dea7a650ac9d2b6e9a019f138ab));
 (0, (0x5677b02fa2c509d5027fe2bedb49e8a27dd883941c2009756d7604e55a0deff7, 0x11f52feeee85025f069f99c4185cbc90984095c21369ad5503cdc77a856fbd5f), (0xa519fa3b7b12114930b68f086c936dbe14db3739888d00dc976c8be0a89c6bf8, 0x1d34a25546e73e765b12b6fd84e195d446af57054b5828a2c20f31fdecbb1135), (0xc283a9ec3ae0e0f9ef1221e491063176381ae92244b10814813c233ef548615, (-0x1fddb02d3751d8215289e0dbfcf7e8e72e644d830b69eca1643f832421fd1bf6)));
 (0, (0xfbd32e854bade78243d4f5c9ffdb665b2079cde5faae236e3b7b6aabc5bc6e07, (-0x127848beb6f16bb85ff5f821ee6b287ac84eb1cf1da505b4210ee0edea456d186)), (0x643617efb04dd0813b5952309bdb8af6fe81aaf0f3a515ed9a0b4add0709be39, 0xf7b7cb6f1a95f13f4a04248b557ac8c3f76b301d2f71d616671d035880dc4878), (0xa8ae034fcded1d6def62e201a9670d3fb0ec8790b4fe7a76daa3e830d7bb8189, 0x3fd4f67e9083930fd5b7afc6ec3444a8a6a323b9d13e1ec570f6f0ad9a022155));
 (1, (0x63e894df13eca5926b16141cb7ecf8a120c9f08ffd852cf9b8778cd97c495ead, 0x867466e2c213938b79b790ebc07a45cd6a1fddf3b6c9d415abd871b9854773c), (0x905baa12487e3f3e20d2878a2baae343182696bc6f05433a40c662b5d971755f, 0x26fdb672b44fd668af7be7d02ef7adfbd1e2cb17100a08c626cbc43a3fff6a97), (0xa3ecf8ea13d55b7c8818eafa37917a3978ec9aadb049ceb824729359d9dfbcbb, (-0x113aa33c00da8bdeba688c26f932f0a2f1ed27c8385ab7060a847c2c269fa1ae)));
 (0, (0xbc4a40c8e7ada2a1f5e205157e1492ea9d6d3c642b3e50b244323ed3f0504fc8, (-0x3129ae546baba4ebef3d071ba900bb46c5a93aa5a48e6d6e0f3ceb6ef9c67dd)), (0x51d41784305e60a619ab08df4a8a0fb459e290cd1c3eb7522871560c3cc502f6, 0x8a7d24b098d208c1891007693543669db9efd7fb58b271eb10f8a7ec8e462b34), (0x5ba599d502d3951176389e422b2f0f0a75a54d4f0bd6d2c202438b129fa46598, 0x2dfdb2a3adef244e699a1534c7a6e0a8f81735dd31edf509955bebccc7509e5b));
 (0, (0x24cdbb8a18fc5edf0698d8022eff0229db913dfa1742acb9dc37a78f733ad3f3, (-0x341dd306bc01bbe64655028ed7476d2a905292504bf8a95ffe0a04b5c8771824)), (0xf3834e523c895cb545b7d6ce8b7b7a55ac49f06516a194783c6bcbfa31904b00, 0x54a8214bb9609de502bf435b48d4096df13c61916b5a6f51d5ee0280bb143d3), (0x2e34ae4516502b97130639da67743155c3a540a0c47a1525ddb73846f893f917, (-0x173e937611f9a95c658614362a087d1472d1b97748bb60e9eaa3b89f36ae0863)));
 (0, (0x7e54a9e8484bf8f1a2fa57bf6841b65a6b494b2a888912cbe2d6d7b34ca4efab, (-0x2894d32a8562d22b4ca9e653fb00d30a040d7845354312df9c8fa0234a2ed7b9a)), (0xb7d25140853186e14774aa8c60a405aac0c44e526caa57f4d990774e49782832, 0x3e577340985ebd20a7ce7463a92e3d18c8ba5cf37ea1fe43748df9079285eda9), (0xc5ca970f7ba51069284a5320f2b34cba05d26c494c65889c39b9eecf6cc20554, 0x1d74da3fc25eec3a91006a67f207a1437416c96b9ca5c3e67130783887911901));
 (0, (0xda0f85b93c7dd726d32107c0364a0ef4657eeea12909fcef73a662c03afa1b8f, (-0x3b061134229036a86dc151f1fbd7d8ea724353f2915f86a99014d5f9ad4264cc)), (0x9c3abd6fe900ded8704ffbd2fa6c25923120e0c516843c0ae26370dd76d352b6, 0xb9be70b06c95681093db8745c07b50c5ea2dfc9a8cd1e367532423000f4db0e9), (0x25739753b3b9d98629431f45cca4773ab4d83035287b37202484d0d338cdeaa3, 0x1780c02b0514dfb0140d2b96ac7aee283c865d30c43aaaf766d9648df718dc43));
 (1, (0x56c09f5b0c930858429d03ffd062209bdd6096373b75244b73c8a6664481667b, (-0xbafb7eda2edadb0a3b98954faad056b3c1e26577dee9d179782c5936b3067b1)), (0xafcbc3e5191fe4841c0917298d3979ace212dea9973da9d0ddcd46b529224dae, 0x1d65fc009837e02866a918ef2233f91beda8589f1098eee84f559017380e2273), (0x140d63ad5fd9abe3787dfdb2def0b7ecb7476d1f1513484479795304d94b7c2a, (-0x6a1711e3e94a0eec6aef978d63ad03116c7f6d79084332ca151852ff9d43d1b)));
 (0, (0x8364f1f2518d9b45809b592e4e0fecbea7de293d0be5e8d5429b5e113a5b299b, (-0x1559323a9f7739a87f8999a4fffb8099306e590b51b1f320b71363e1012aa3b10)), (0x2f11e463ea06a5ac92c129d682960bc82c3e44664d5f4b92a426e48df4240a2f, 0x4370776be970c67557f8ccc517ce496be35b029694412d47a92e50eda855cd12), (0x664b19645f1ebd9d3044849e720cff73241e83cb2d34f735fed412f3d795293, 0x4211dfa33db03aa5989d2ec94b6af7d6255d864a7659269c5def37968a7c2a58));
 (0, (0x438e8c3c0c9de6e3121838f0771e9c1f55ea6e0f5bf45aa419dda8bb7c4db539, (-0x1696e5aba57dc83eea0e5f9d49963de0a0fa0276e9ceb3d3258318e080090023)), (0xea87ca054629012d25393c9b7f1db479e9e5d39f1505a83bb19c3bd1886f689f, 0x11d3ecc74e0a61e99e8c85f24f3323a7eb80ef500b3f91cb7f5228b33735c08c), (0xd331aa7bca99faeee965ea2a2c80c54063458da0a2d6b89f5c8e2f7911756a1, (-0x31783d2f0d115059611f28dc6abfa8c12eb17176220ee7cf5c273333c7fca51c)));
 (0, (0x5addb5f065b4dd727615993d287baa7e71206bd37775640fd69519c34da87d1a, (-0x27b36c44bfb7ab284b6f4a2b07f616e7526260f6b127245cb13191e344bcf74a1)), (0x8407b1d6e5b51418c516dba02fb9e79e758e83cf3bbc1fbab22250103828e7b7, 0x2040a3f0a9e0978b6f52592600f093a8790b16bacb079f87c6aad0857c848681), (0xa957f115b87499acd2c324c8fce25766f1ed0d0f9d9232edca70f1084d53f97c, 0x2461cdedffda6f5eed8ccbd1aca6e77b7adcc22e6727d3014b1ddd49bd6c3bfd));
 (0, (0x4531f7067558c7697f4438713346a9d7c15a739ed87e9a44e81b7c03f0b62f4f, (-0x70bc4c723833fae82119fa073a628445bfb212cb79f8590f5d5b7b6ff2175105)), (0xfaf38ab1b07227722db3421e60844edcf06212649a9eb7137a0d5c70940da55f, 0x12b3f8e9fa183e163bbeb0225f47d8b0118df8c3bf6880d817984271a322aaac), (0x650a187a72c35d8d16e0b9d2f52cfc25730a638b025e637efa7a8c8e92234e0b, (-0x2024c75808cafaf5dcb3b735f30cf88892869b5745ed86c7db954bc31a947cd1)));
 (0, (0xa791054024164f0765a283b27b0b8edbc9dd3d9262bcb419838e7b1e20d6ccb8, (-0x25dbc12366c5993e381d1cd52fe847c60463febde04b0201a6260a3037b84df7d)), (0xb558d70d9677be64d7cfa374a611e2368d23840b480fe400c9176ae6d3f44ded, 0x6dae8700a1d98ddc1c4f3fc2f96007706982bbb051c1ef74c9d57e97ea02cf7b), (0x7d0c4a82f6222ebb596cf514583988c997f6439aa82fc693502d3366fe3961ef, 0x2d8f593d42e400f0da4ae0d0824c319c194e09584579a6a4c76d33985d44b1ea));
 (0, (0x59e444e2239d78204bd2805604b94630ed893f4a2d1cc4885c2e2a7bb3502c8, (-0x17be723f95a85e2a6fa5595df5e55cd1fcfee7f0423e96e3ab4026fd8716d2c25)), (0x8fb0f6e0ef0ee8f49e7813103c0132e6457b93c97cfaa1b0de6b43728336c937, 0x1f908370021bd8b2fd0d1d33811061a722eca9b82cc2401e0f5cd44fdf9501), (0x9b3a51b5ef9598cbc2a670df06c63d90451087c0c2f60e26e108adb77d9d53e2, 0xd38f09508f56cbbc69ed94843a2625b07d0b6e7c8da9607f8c39cf7f7a1ed1));
 (1, (0xf234a7db3b421281f239b4ff5e5c771e39a81b7e2570f96e3447223fe2f68c1, (-0x14c3d025f575392603eb3ffb35b6a7d6367612a8905a7c55ce8f311ff3b335b)), (0xde4ae166ff138e7574012fd789614054bcad4e408a7b9c93b3638afaa4c21073, 0xe527982f1b28c0e3d7a83b9581040802c8df3da1ffb6e1e48ce2710ae878f1), (0x43d97357ed362f904fd560f7c29d8964e1cbefc8a961753a9fe2f711790cbca, (-0x4a5daa80163a7cf238a4a321b447fe62cbbc1fd2f378d176a759734cefc0898)));
 (0, (0x48905824a5039f6d397b7c7d3e9a487ff0b7a5f17592abae1c69342dc406f3c1, (-0x240aa713d66f2613b0e63de4169b4bf84b91df08acd36fefab691754b0dbe2149)), (0x7cd656ee757230f86b91bd51a5aedd1073e9e9f67650be55aa555840886860bf, 0x149182f7e464e4721c33babf7c5fb7fcf6e89deaaf04eaf589392138de2fe4e4), (0xd796234392d4877472579821db34aff6f0dc2ae9ace343d41c62c1d28e69a04f, 0x1b9fba0dcd5133a0da289d8c936ec910ed4298edb508bf1b6e37ae1d33acc555));
 (0, (0x93d026ff2656a497c58dc5e6b8ee6a42eab697b52bd23a76f8c16fc0246fb1d4, 0x4253fb21d6ab4f8bae3ee7feb46c1343a7de87eda96b1c82b7121076f3eb11bb), (0x280b933674f3bf504df63e45038d3e9c1e986164763676b9ff74e21d8cba3ec8, 0x5558b6086a968b80e2b8a2da44f0b31a79fc45e1f95536d1b22e34e7e72f78d6), (0x7fad6378421e9d6d97134f1040070ac45fd7f2afda421d4fe781db2504a3ffed, 0x30f5600c4982120a5eb7c22f5522f25ab6dbfcc46f4567a46e226e36b3d3c9b0));
 (0, (0xbefb10bec8c5b473f64118f2d44486bf003bbe407de8917bafa3e8a9c2234d75, 0xabb4f2c68a647ce0ce415e87c3d9fe372ad03d9e4fc1f89a8397e4fecc63efbe), (0x42631be4b178ae9f6771e5a3e13f6d74d7a0ec44c7c4e11f5e40d3ddd28574a2, 0x8e79a315093b92d35669623d7573575ded4bdc47e0e5de850222ff3bba62aa69), (0xfc47094b810557329572ea7528f2ea2f1a2ea2c47c67e9872ddd4e7d3048e7eb, (-0x13a6ccfd6deb0fc2593676f916584880455f3061008118629c4fbcc5657570a6)));
 (1, (0x841d01f98303d4c7f13507746ecc2f3ef92cf3a811969277bdac5a9bafee2123, 0x1c91583c50387faa9b65e8ac01874a48bb2ffbea2b7472346f989335723dae3b), (0xe7de02682e7a650d5b8166f0aa9e0e1fae107b30c1c29291b3ffcd6523decd1d, 0x442ded52c1a788828e35be5cb442c4e0d4fc1896e6ca0dc782f870496e766f2e), (0xa3cb4e64d9f4531ddfb353d9b9c773d63e7fa46718727b820de3ac5c1cea793a, (-0x55661f0ead7b2294f688e8b3d037a996519958ec2a7cbdbbde38b01dee5eceea)));
 (0, (0x7f0658aee248f53fdf2daca41b9fae3cc5fadc6ec43a7ea757cf5340af60f579, (-0x1d37b63d544f701d8676c19fd4d492a8d76ff2b139c687e660ddd77a32bdd38a9)), (0xee820ca5021cd1d5e55c2fe6945e09040ae6c46004034871e239752130a87680, 0x3f074c25cb6fb1cb6a3bf98158cebc0fb0b5fb386e883f1137b5d54b6dcb2439), (0xc4e64dc4ba90a09f4ad1e841bee312a56c8df97add3d9eaa711b71036d83226d, (-0x34b8b39574d1d66f0c75df9076c02a453f1d6048e1472db8d684b132b8e062e)));
 (0, (0x1ca2033bcb5c07a1e5b6fde275365ee9b628b62140cca6be981add04bc6b6763, (-0x26e969b4421d1d220b4a824345014c55aaab9a62664fc94d0cdbf6d511bffeaee)), (0xc62408305dee924fa6d712201d7dd7965fd63df7db0d0c0d17f319d5b051e74a, 0x333d73d2c33f6e0994b2855477425d2edc3c53d193a7d7c1809dd66b019f931), (0xe88642cf8ef4e4983093f8357981047a8689412085c34eb6be959660bf971291, 0x483d47e1b8e698b74c5f5dd72f06cc3da0593a7015324ac289482aad7b39a5c));
 (0, (0xf4fb158c9dc1be4be509a8802aa6b65526c07cbc9d30909060b998e1b1fe11ed, (-0xf0b376f3996a2c48010c01d5172375152f0f7463e790cee881838fb846b92ee)), (0xc87e1536d195c187b5454c191f3ecae2a523bfd25a301abc687b70cb144d4bd9, 0xea6f975750470bca8bc556c467a8b161795c5df882fbad9d19eb3aa6f37689c4), (0xf4c79c3fd7130a364624027eaa21ce448f3e0c0f6e4e1c463642f0b6d9567f60, (-0x24022e799526690fef699428da257a022918e743bb79f6d88061416ef5cb2ec)));
 (-1, (0x945b3a358a0f54d4ce8ecd60f0bde27fb08154e88ede73fb1ec221ef34cf8382, (-0x2da2e10d49cd849a2f92d0d4355bbf51fb42e07cb78de3bf5f9c4d486a6a9a36)), (0xb8e28680a16759b365e4d32be111557658346bff4e08cbfc56a2ca9a4876a546, 0x55f99bd056ee2ebdc55e0d14d1362eb972fd8226feb370befb3ee1524ecacb43), (0x80c3e9c296e6012480e6a66189b4063724a15cdb71ad1f0ad8220d6902031b63, 0x90b7e599092915fba614529557f5c97d3c2d8699582095acb34640ee542e18d));
 (0, (0xf647f768bb490b88e01ef37a5755ee50b5f466814d6973aa26d200cded058769, (-0x98d2528ef0c881296a8537ff03b20df9dc246c9ab830e5477103652f49537baa)), (0x732a727dc28ef9d0d9e3124ecaea32371c5dab2145e83ce1c38945c5b7ce15b6, 0xecee63b8732388ef1d47187d8cb395693b8abfc0e397b536d6a5ea327709f561), (0x6b2bf8468dc6df6a83f5864c19438f52fe986ebfab2196beda818496f3c093de, 0x43127ca97007fb939412e72aed2bf5a408f1fd77c7a2780e09793fd963357b61));
 (0, (0x175d8a961638f0857969ba5d5212e0c7e225d7663152d261ba815ad31f869bdf, (-0x87dd451c2142a1c89bae3d601943b3abc183fb46387a0d2990e9127fadfa6d18)), (0x6f75a1878d666bbdf7e9a300bb62fc9deb2d08276ef646c0def224dc579f17b9, 0x221f114f410888a2cc2cf9f7e9ddb7af622e9d6ace40376c12f0cde5d56f5a4), (0x714195258e1d04b9577aa74c8565a76160b3d06e010537ce04f26fc18397cf79, 0x569977ad217a68a2896af375876d96290eeed504d0e7a34761f403babb66b4));
 (-1, (0x66583325f85013302f45287472800ee11a7753f6d6c036d9e365788834c82489, 0x41c898c4fffe53546db0285c7cac02ad2833386ef22fe27eb95fe38560c2ff8), (0x35923fda0e0ad1cc03d6f6e524c84724c900b040dd8c6438abd3a04b5e06df48, 0x28ea67257632ace9367198c52e8c94dea815dfa0982f819f06f6d6fbc4caa2c8), (0x7ea3887fe87724b7e34306f801c4c5697eaf59e1c9ddb2768702b4d371d9f035, 0x17248aa596db574b597ee7b25e76b18b43c8b0e4d3e5ce0ef6fd7b67d9b9fa25));
 (0, (0x84597a169b0aa920cef16fbcc4d9c84df1ed3927ddb21b8b01c04d44c83ea418, 0x614f854b80e3d0178cc952454ef92af69f075096e43261523513179198e8b1d0), (0x71e4399ff466e700b61b7ec922214fffa1863c4e70c89381e1da0a986ba036c6, 0x446c652d6dd459989b271f3b6d2573a98a534a10b28b295bf2b5f3caf07a5536), (0x573e9ce2ec2590639d55ad4914e268eb2c805764c77bb2aa909bc6ea5ab29423, (-0x1f2f5a0e45307d04a65cb81d819a7bf51bf7735cfd0e5830306a9b912afd4058)));
 (0, (0x7cc3b573603f23786fcc310cb99acede45a6e33f764acb10f9a650d63d78f039, (-0x42f7c5f5b2c87073eb786e0c1f52399e488741be0d229aff0f92619a2b27ae0a)), (0xf5306aa3a8909752103457703327e37095053e196fe677deb8c5349773df4f11, 0x3cce2d65b39e24a59ad9b70f0a0b1ca6a8d594025886aac1db85ee0edb53a82c), (0x9159a054fa1a2b49bf91bdc1262b35e095a8beb42805159b4b3eb0e00ad9cdb9, (-0x3ffd47d72c550486c13999fbd083f8019633aab4fbf032eafe56b88064f94fa1)));
 (-1, (0xcb015b0e024f373ffa8ed440f6222855525e5bccb5ecb42edb7764b589775fe6, (-0x61e410a3637fa8d7acf7698b8268591344662fac4964c6586feb49ac78967ecb)), (0x3c3ecca0c037073286897642d04f063d85fffb8f5ce82a61985b423eb7d6ab1f, 0xa0fb266a0e289ca677d5563dc6b4eb71806175e88c92a534cb8c06c53e4ed9e4), (0x17c1cb67d7c5edcea6a4d3f4d7123a0522ce98244d6e4a93b6da32cfb848caa9, 0x92a89305ee4eb819078d2ef4ca59f9557390a0db7c9213d6a99e6c9d8ad93b16));
 (0, (0x98e4abd012d4e3ece2e4c444af59b1a9759c8c6aa299c54927f23de65d822e9a, (-0xe27eb582d3d0e17ec8d08c6fa4b4dc5632ca682982f8223ba7c5c028b1cee41)), (0x56a0efde7bf9c0148efb2bee4f482162a351b374a2c264eb84c5266521faa62e, 0x5b505849944dfc264f3749b517b378b003fbea34eb15b91e9ba197db88562548), (0xfb76b7eda8c28c84ef4ef6fd7d276f3ef322ddc38e72675ef975b4b81e7b6cd5, (-0xfc1d60909ae8d037375dbd44bf4173ed2fc14c9925e93edd10c24ffe53fa2bc)));
 (0, (0x98da7279bac11d967db1d8c88c3f29b121c3ffa0d76e91e8ecce93818f6f9d6e, 0xd4588e7dc3a00b52b61b9582f4de198b2ac1b68505601348d1f6787d82ea7bc0), (0xbee5054efc07b0d7e874df3fc422efbffc489569b6b28101333a6b34eaf4c63c, 0x5b442257b848083f2ab67534e246cdb04e0b50c11a2c798b0558cdb89a2cbb14), (0x88a03409a0340d2e8c553a241474257d37f972603e3b69b052d90178df8769b3, (-0x3e416554f39facfaa7a6e5fb7d8f829fea549df0ef4235d57874f1099abc5734)));
 (1, (0x9b2f4225a0525a750adbae59d08482dabcc1c7c0fc29e4413cd80672e7b2f0c4, (-0x29eb261d38555f03d9b761cd2609d1e99fa345f2b1ab3b4751094c72670d2a7b)), (0x4dd0f474b28d652dc20b6ccb4ac8031992e1b6408fdf99edc28e9db8257ad2b7, 0x5e1242d2eb0c03f924f98cc99165cc68e0b436e7532273fd0ab3c248bc97088b), (0x2b58588c7717bc112963d8f05394af0d3e0a83bdce61303da42133b227eb9984, 0x448c061b0da02aaca469ef0caec134ec2b636a9127ccd51dff90d51f63e0a2f3));
 (0, (0x4496d0c3b8ededbceb403cc491c329d02034d7df5361db2f081bd0e668d1a87e, (-0x2fbc1790d472b5f865617c6fc7e55da8b62fbfb63ae19b30d5d1cf067c4049ed)), (0x9ee976fcbcb05692f72267ee0ab191978cb764322c855f75c797e67dd6a991f1, 0x126077c149d9bf44d8bfde880925c28928d05dc1ed57c1ebc7fb9bc07571316b), (0xd53e293e7f4ab82afdd28dc0cc41c96f85f8ba0f4830242404bd3739d3a12e45, (-0x15ba492a88b62b4698bf77be08bbcb0f2e173e923bb7b127e41252da7b0240bb)));
 (0, (0x50d3a828674bdc22e93382f8493c9b80573bf097ab0e0d2569d229a318d5d84f, (-0xa14794f9669b78bb005d26755313b48e426151496250b9483519883d544d9c83)), (0x9dec5fc123c1cc5ec71b90cd76e2459127ff470a2173775b562a9dc160afa268, 0x1984f817e19ebe96b59d5b60607585f4d2c05304bd70da6d45a63e4544473699), (0x8e7d21cf09bfbba53046fcd8cb300e979d015db85ed3d7c1212a20e5e4cb172d, 0x4fe883051a74d113763270a1ad60b7acb9e399ded3b40017131bf9db21113b));
 (1, (0x9939f31d42ff720f1c8cdd85982ddc0f0accb69ce4a8a82cd3c4a9f0c03ddd31, (-0x15a7aa90d10c396b7ec8f3b38d08abd50cfff51c668e5eefc5d78c0d48646895)), (0xf3fe50fccdc414deab4ed5889a3e61208f04045aeb86a7f28880e74518a677f4, 0x5bb651b723fdbca00ccc54d8717f5dcd875ccb57083d4fe56289eb4dfcd4b923), (0x6c59027f84b38902d208853b5983fc00fe78cca3ffb6266f975542dd2b42c427, (-0x338434e83d6eb062bf46056faf7432f56d52fef5a928f4af646ae85d4f9772e0)));
 (0, (0x543fda7dcae57a50e96511160c3c9711c3f8365b7993a29e8569c252ad5617ba, (-0x27255e8c93cf7295f9f9b73b02e1545551fe04d59269f42bee872354c8767a43c)), (0x8b6027dc4a1fa1234db41dee416444577a0091321383e02e914e7956b4c32ee3, 0x1bb9f74fd18af095e6376634ae344b238ccd7633397f25d698fa07cd1909edf7), (0x81a94e1e56b713bdb9e66b6d5208503dba9f4eac84176d1acfba0abb361e36c, 0x226dfdb4e15cb4572a09fca77f02461155fda01d4e1ac760298212b5a7a7c1e9));
 (0, (0x524369b6c07b57488fcd2b1b7667a45009b07a57cc4093f1759c258752e96540, (-0xde6f6239666ccdfe67358752129dc08360279709fbd61f2e6c7209f87b2aa615)), (0x166aef5f01c8aa8c9d8ff6ce100b3eacdb375a3301f03895573577d98594b7e9, 0x1a6f4179949f30d599cd947ec28087cfedbc6d14930ac5f3c2eb96a7aa70d17f), (0xcfa542ea8a7233602fc3a3d1d0d1cffa1352dce9cac9e478806a101cb3f7b441, 0x25955891fc67998c7e22f387f3eda5b682b85a737ff7e7d07e04fe420968e09d));
 (0, (0x4d369cce4f10bf9c51ecbcb455c009f519ea6f197173d4e161ced1844faf26b9, 0x775e58eb1d984fd59be31133e6e357866b22e2e8cfcca4cdac03c757d4a84571), (0xc609be1ab626b88c00a65d5f01a9c35aed812d35d995d2d7b73d3126205cfd86, 0x1749e5faa2a584f4a021342b742a297fc9fab001c51224c25c313955c768bdf7), (0x10254a4e64eca503dc662597327c298a57a0d3ee2badb11cddd91f3710404b93, (-0x34f83b405eda922cca7f80e1b27d64f94e51ade0f2d14134939a7cb1a57ff907)));
 (0, (0x1f35ec0b4e5b1b537f77bf8614508827d169ae5a9e24d3fc446b0d9b5261bfd0, (-0x1c7a9621ac772da14540b3dd109c7ea138515d6511d7f66877c9b07477e7a3c34)), (0x7348b564c9e8e187e7b29abeac0e6a452b23cbc5636681d1eb1c3728fdf86fe2, 0x3ce1a86534d5b4f57a3b93cd5cde54346617100db528fd32704d0f1cdf9048e), (0xcde45fc1fb88af83149520dccfd063e3677f4e2ad36372de2d4f17b82e43fd83, 0xa16ce5270ecbf8c0c1a0091f51ce394ef96ba3c8d390dc548769f6389959df6));
 (0, (0x985fe00a09afdeef16fc2362c128c5cec9c2b81de0ecccd1a4cfcfc63be83ddd, 0x595a32b7f5c9765217c6f4b395d8d35ce91c9f64c3ab76f8890f410144162ffe), (0xa46545cc026037cb1c5a0adeb2cbe9fe19e56756388f68f9ee812c85b387e12b, 0x5ab1fdf3f7059a9be8fc228deeee0f455d3ce9ddab4fc74fc8a6eb0d7efc9546), (0xc5f57ca35b31253170b45b92446673c83ab2d7fe24fb55ac7cd41abf25ac8ebf, (-0x1d3b5a51cb288350853113aa97bdb3820fe6b80c385a18869aea16afa06e1269)));
 (0, (0x9180e08fd15247afa74deb5bbd8129cf2e77c69aaaf1225032c56b7f67f136b0, (-0x5bae547ee46438ca41f3d2081ea0737e6710426b8e14cf7b03bfc7af0b3d49e5)), (0x4c37abfa6182bec27bc742a7dfc6c591de9bbd3fa831566034c43d0c3efd0c31, 0x52b33f443fec86982db4810d5d1e9e3035e725e042e02508bb65f11a079a11d7), (0x956cc689b217863e01d445bc7fc9f46d001b03f91a752f04ee8d728a17036e1e, 0x321e38461517cb059cd1cbe8f79cc211b73b3d9686d2b279c3372c64f9e8256d));
 (0, (0xab56d27ba8aeb786ef20acd9c880e6d54ab069300463f0ec34248329b940cc02, 0x83f15d60208e908c4b87c3c3ef1ee0a0a8c41d62f50c58c2c60c40af8420f2bb), (0xd86db5ae35ee3dabc1ec33d4da3e6e9138cee8614bf2eddfc87d99bb98c59ab1, 0x72ad1aa34b7ddb0bbe41d4f99204757eeb91b04e40b02a38ba4a6cf1ddd230df), (0x4d1fc882153e206bf7246c2d0cbdb465f36788cebbce7ad5806b49d9b9c5ad9, (-0x5dd7a5ea6f9c7f26d5cb78f02282b8e20c52f114e81b95867aa739ddd426d8b9)));
 (-1, (0xf93e07582bd15ded67f106dc60ad74912f59ce8f31f95de9fd3a487b159d2f45, (-0x5c2f7531867ff8ba1fedc5c37881cc2457da9c837b5f14ec45781ffc0ec8ae94)), (0xaca313249d72f482a8178350c5575a52c62b20d9d434788a9910a38ceccd9178, 0xf2a9b951142872e4edc4c7c6ebea0f1cd1d680d777589e89b50a641fd01f3aa8), (0x439bc582bf40cfa1da7918383e2b0f5ad4d21e2ff581a1d355c07cc10bb51dc7, 0x2aa2b46cd23b544983d3d115523c4d800d6cfcd73107647dbd5c21f69a2f60d3));
 (0, (0x864455ce59f6c5104090265dbddcaf0279f3ee22a016862a45e6c74f4663c177, (-0x1165771f783d77ca89474ffbc0d46681b645ca9d466b4c86aaff1779a5b7ebaa2)), (0x392f4153abfdafe5b37dd316ff7d27a9467b49e63ad7e4104579e400a85f6e40, 0x466b9c11b890cf787bd8a8aac5da378293e33ff28354714dacb3c323fa0850af), (0x2d16ec8ea323a0c8c2cdbf90ca18788c456878dca14d84ba77899cc6d85377b4, 0x3c8d71499e53497b556967e576d2b5dfa328fe9ff814b3bf1376f9aa1d1d8303));
 (0, (0xd4dccc797635f9fc44b75386ae8ae3f4c1a61a1120b6259a7fdc0730da23f399, 0x24a983c935bb5780b9a94a23697b134b0ed5a7e109b1acba28f670916835a358), (0x8264526f8856ad8b8da3fc8ef9d721813b7fab76e2e6544a6870d558b38b0f10, 0xb0fe71193fde60d6776be941c8e7cef042882aaadd7600c1df6b9bb44e106aef), (0x6ac06633367825210542930356418cac62e9b253f772f001c9c9c6f20ed7bece, (-0x3cdf163ecbf03da5873c39d149658c54187c9932026efd1f60527f1832483bce)));
 (0, (0x7ff50843b919dad1a119896ed5fa3336e12104854fa32f61dea5466947128a98, (-0x5c86e08e68e8c2ecbc92a32e52e22af24835736081fb5eadbc1bf92d60b7f7a0)), (0x7e00f22ea2df2a50a2a5740bf6e25d4f416d4766956a860e1d0eab45fc1c1135, 0x3ff508bc038c4014da21b5e8653abec116a19e2f322c226c79ef7305c66e4205), (0xc95804409dc564bd8048a9150dab2d4c26d177e4152794a58771e831b64de58e, 0x2317fff94225fa6205de991e527e894bf7b27de95837fbe44ea45025deb9014));
 (1, (0x154eaa645db0490bc4c668427ad290d443f53edc46fc97d322fff9910cf70778, (-0x5ac491d4b30460d7eea10fd7afa47c47a44b90f91216490d24eb3ccdfd65de)), (0x21dea93d92e287cc4620151df904c0bd5c6f3ae2849e688e3309b86220a0889d, 0x1c60020bdf1772fe67ab702c021927601c3ddc88043ffa1fc59aeec99b0530a), (0x8de4231dde268a3c5d33e459b3da274e7890db77cac0fd3e440c2e1283ec44e7, 0x7ab1fc0e34f11721e27cf1887a515a3eb07bab96f13f1e0afbca4dc87380e25));
 (0, (0x3d68cfa9d1e0901427ab6bf3f89fd9c089eb7cbccffee829c2535cdf2f5c50de, 0x36a16c68712870401c56732f6f42a1f7baab5aa2191545d1549acc6de6151d87), (0xaece5070330fc1c0b59e63b3680ea5409fabbc08c869a306fdb8322489c959a8, 0xebb1de050739d2e9ad72fbaf0c1444fcca644d21c77b6ab93e83b2d1cd651fe), (0x6edf5a40ef82e355dd72a9f9a1f4199707af6b486e88ef29f867fd920eee0783, (-0x21cece8642ae71a3a143cc7b5d96ca21db8d8dcefe27bf332187a6c2ae12ba4c)));
 (0, (0x4b9d852a2c754542debb80b03070227e8bf54f9f01fe1b21d383ca247bc35d71, (-0x1249802aade35d4642b9eb7058c78cd5769a43f813b7890ee483e77f3596c9e06)), (0xb6d570d72af4d9c219320c5b36ac97ccd06d20e5a6cfae0fb556007a5ba6357b, 0x1655acf3510c17909ab1ca4a5c27930dbd661a54efb8d97645e4cc1db0b37aca), (0xe69156343d8b0d7e09d6cc13ae09ad78eaa2664640b7ddd3c35fc534d8295d2f, (-0x25f070a102bdc36584dd3759061a6a548840d6a22bcf4e6f8cd1491c73f1b3b)));
 (1, (0xa193c9e099b1131b5c1213aeeaa267b2abc0328bd5fe6275de56312f5c0bc82e, (-0x268ec1e91779ae27f4b3e8a4c6938975ce6468bad3721c093d47824c9b05f31d)), (0x6a9836d0c96ec8fba75d697e175f9a84515f154dfe22b398bb6b0df5cbb1f33d, 0x65fb393df873b1c9bd62034c41dcda9cfe74ba5b5e3e8dd3fdcba1507d9b564c), (0x56de67f80c2ce5fd779b251e5b97ad9c0c25515a8b099e01dd0ae59c1da0efd6, 0x301e84c54ae66c63a7e61d30958113fc8b596f2fe8c63993942289029026a511));
 (0, (0x7bbca6169c6b9548f9c61e9edbb2a9db6b04f67bb2908faae1f3509c1396e326, (-0x312d786948366c73ef37d553b55ac687a0ca0e4e92e0f011d2d2f7cda9cd8f5d)), (0xd1f7839517696c16ebb3452ff2d38f741b7d93726372b7f34791870dc8d70a10, 0x3bced29e174674522aded40890abee591170410116a174a18c8189014e8b7006), (0x9c659e4315a359550d8780724326aa129792a4eb9df5bbd30f323c57cb18e9e5, (-0x31f6f6ef9ec217c1c011ffc0908edbf288104564cdf66332b6e0f6448543d683)));
 (0, (0xa913ca1c017ed7ad9835466594e3235241abfc82dcf0210f4a580580a7414b00, (-0x1360be37d325690534b2534befd26ab81164d6d0f91a2eb7fc5d37b0ea3e17b00)), (0x6e75b9fec696efae13b7c24b6806cdf919acb8cab1226519cdfebd92294e2554, 0x6fab226099b1e703b6da4d90502efde7843fc67b0f469310f370c3df80470334), (0x7552a70cf379779f224bd524848cb4748185063d545df9716de5a56dda43d276, 0x41b85f457d5a6b77a8063e6fa9dd3331a1fed349391c7408e83e54d4ef2f106b));
 (-1, (0xbf871cb45e5fa550d919e78c30ec5133e63fd48a2094a51dde385d2baf8a4b30, 0x8712d4a83fc535973817eb02a304dd8d02bf83c32cafc75dd1eca6ce709bd72), (0x942380e51c2bf14c557b504aa00f2bf9247dcba416f3b1755a0c7a03cf82eaff, 0x8f4ae4246e463548c4ae2b27da21faea2f27d8b252492c1c496892ad497171fb), (0x58307fc56da6d88177ee673091599831255130d105f0213f53bc8d38ce4fdebe, (-0x1c308a434b263bf3b0d33b3687a7e83ba62642c08789c47c7137552afd7324fc)));
 (0, (0x40dd87fa79cbe648e0ced6a8b771843715770b516f8e260585b7291cbed6bb50, (-0xd47a54912d426ac37bef9350949ff66ddcbd99dfb88c6c550b943679bbb5d12d)), (0x85e5c42166474a5928ef68d37545caff2685be7b4d3f53a5cb0690b76a8dfc72, 0x106f83b14b965eb7334c95fc20a5c6c0a575adbc1473fe275fbc83301f12ce70), (0x53f26a4a9f9f52a421fbb537ee1c930ee5d421d29021fcf6080a670e539334d1, 0x39bc20d60094228d6067715f09a68e4099a10d299a049fe3252185c87a06b4f));
 (0, (0x7c99961980fd475fab734b703fba52c01359ffb4588d8716af0e998da1caffb7, (-0x806212dd6488c6eb73e436f7c631e997aca033e3e7e8e95b4a0e6c8d26ef7ae2)), (0x90e22172ddd6276fc567e9927407023feda18690bb581feb2266cd6347613211, 0x3ca5258d77737197408cf075554755a9c98955e0b5fd946c961a89c96da0b0e4), (0x3edb10bd3c0d4331b07664db05d2dd36f38068b8b01b390a9ecdb2c0182e47e5, (-0x558d47832758d9c86fb0e553a9b76d03884c3b93661fba90454bec20ef1b0d1)));
 (0, (0x7a484c0ece8d504294f39b01275ecfb6780aa8699f1ab4a5d49717091fa9b665, (-0xb9f13b99c73bb21e86863b9b5bcfc90ff0665655b753f17bc8e35003aa54211f)), (0x3d1de070f4715b1247069a0e7fef45dc67279f5bd874b9103c95a70b6bbfcd5f, 0x3a68fce8fbcbab7bc13003a9e313f7075a89eab5daaf60f470c5b981ef04c528), (0xb3b3ad4f50f01e00a96ed6f70968b9ca933879471da4575a8edb866a35ea3904, 0x28032f104d61f6cd2e3809e18729736550e6f77ea66804731331d6a0965f767f));
 (0, (0x1bb1af27a837e2b89d0ed5030a914db4e74ec3060c218decd011b66bfc36c83d, (-0x4e4666ba1f5b3edf9f189c78b350c541ae3984dee4207093938c67cde374015)), (0xf7b2b7b36ae1a78511807ddad496c17f5ac9d834b26f680aaac3e178db383ffc, 0x2fef6460a29a53b8bf33030d66fc11558697eff677cdbda84592deba07eea61), (0xf7dfed6156f29716836ff8cd241a34073e9fb947097faa55f3066a7fa77e3622, (-0x142f33457ddf5e479693973ad50e3d77c430c21a2045d73d847fd6ac0181c3a1)));
 (0, (0xe2757d7b3706395c5766e987a612e1d17531145080e7ab4a792ab99fa522388d, (-0x118742cf272aafe4f2e628e3c83021a98341ac164db19306a7e95cc2ac173d204)), (0x1dc784fdadd31deae8244bbb5072c38d24309e4ba19f224576d71a2c2fd99a18, 0xc853a7797d48d801788c9147dee695e6429095eabc7e8beb10aa3dd259a1c2b7), (0x9792daedbe7fbdb28fa66741a6935b79d9753faa36e9179ae4a359fd1132193b, 0xc0c5a61358912bfd203c75b2a66831f3ddb62c5199b1c58fc1c26b2047f6d379));
 (-1, (0x513850c161d5d6e865c31fd109a5ac7903f2126bd7247cdf58ec1c596a830ef2, 0x1d2d585ddc15745185b17261b834f23c4be5c471e2ce7a496b3125cc9ef0f27d), (0x89d02756dfcabcd6661723bf2fd5025ec998a0e3a37dc7064b84ee7b80508d0a, 0x19c4af7dcdfd8ec7663508ff07e840c24f82e7bb28dd0c4887368d4b40372e16), (0x83e5318ad6a01971bd6bb9392d5b89d79de8f614f6fc6b80c290790b61652357, (-0x22467f560ada0fb37e56a1452b7604f0e9f3e492c4f63baafc684636e1fcd08a)));
 (0, (0xcd1b08f856bbfe38eccc9bb32012f0c4c7eef0bbb06decacbfa59ce8bc43f6f, (-0xd15bcb41dbc1d6e1693cce0d057ae5a21e1038d384bad70294fa35202597d566)), (0xf4cc03431c4301f0507d5750770e15c4c4114eb7e4355f0fe0fd9aa3bccb9f96, 0xa4544f389f9bd722b4c49a78f20864bf9038adc409564ed80e6f5049e4ae39), (0x3a561ee7a2696f5e01e5e058570341d455c7dc4cb70fabac8a77a8396cc43813, (-0x55b6fb6c05724adc113e13c12a2e5ce30b327095f387918a93a4c221cf20a42)));
 (0, (0xd38bafe0506c032e7e535a35228c013e084a25c28d9cbbd5b19ef6114eadea78, (-0x25dd6f9c803bc41515dd71bfb5a2e48a7f7b3d122c603c59fd83bc28717c1a4e4)), (0xecb5f14ea7836ae8dace9b8bd1ea60de1e0159803d0fe22720e87ed0394cda1d, 0xaecf90243afdd50a9b5d66da52119e6a6490af67083513e4260759989ad08fb9), (0x760a9def4016facc35a936ef46c7c6a537d579905a9779545a7f27ca1d3aa748, 0x6ae9a5668156e3cf8b5e0c54bf175279725d297f25696a8d193087266a35233));
 (0, (0xb413b43619d60e3be532f5212eb41a921f3b4bac3ba942c9e4f651775ab9ab89, (-0x1ea8ec8cbae8eb4a668d867d84e01fa39faeffd1fea86b7672d89150b6b96f825)), (0x7290bb2ae56aa37d119285037fe89b4c00dd9e3bbb98352ff9ac52a6a4e65dd, 0x7eabb6f05338f98e44216b9ee68207edbb0ecc2e387405dfa9410679a5a4cde6), (0x38252fa3204823d9b2c3706ada5b97fbfdc8191605047381e84d753536688bd6, 0xa178bc7e4a1bc2e06428452d4be1c5b069b3ea030363bdbfa9d2dd4c834b9c7e));
 (1, (0x5711d8c8d50a7b49d8e527926c304b69d4060f8c679aa805997f30c88059e612, 0x26f8bece5de1d8ba385bd6dc9eef7ccc05763cb0f5388d011b06b5b3fa3426fc), (0x98ff7ca2662d1339783b78c3301dd86d4754a98fbdb00c4b22628929c83b47a7, 0x1d9d2297030cf03fd2f242511fe26e80dad64928068473c662f0a84596895c58), (0x6323f6093a0a69b777825084e3ec1141fe49be9e5e227c92439c81aac980f01f, (-0x319a0b1e4f94f5e5084fa1043a0c0dfc6696465eea76c9f29c7fa95a49632327)));
 (0, (0x5b9bf15bfc171d627a79afc81a8ec1a86bd4e01abb5badcc808d52e7cc7e4220, (-0xcb5ccf87b221beaef1846fb24e8de08a518f36b00ddcdee24aa58b3111b0345d)), (0x1dbec257465d71174ef9e46f74449ad58da4c9be4b2ed34ae9fb3a1cb54c136b, 0x20c83c958e2a04924e52a4df7adc6a61048ca76343c2f96d9f6d876b54ed2e69), (0x6c603c5f632d627aff7a4d355af68f5a115ad510897a8a1750c2f08421d84a0b, 0x2c1b169db88cdb5884b397094f52e5970a049b2104f2e9c1f633ec797bc56c8a));
 (0, (0xdb248533b1aa8856b5a9e35179ede7ab272b39f70cc48e115cc04253fc6f3424, 0xaf2d409d78f224df8a50a33b40edfad86581cbb38e7390953c5c998c06e203a3), (0x16a9ae4c4d95effb9520629df217d82404f3a33e1e8ea0b0c873ee40cab33c9c, 0xbb97811c2dd27e462a1d7025806500cb680f0105b215f81806bd98cdccecbac2), (0x671b61b32badac42517bb2ffe975bc39a873b0af54bc1195ae109bf4a05372e4, 0x6100acb95e4a39093c1a3b1e9121ce970704fc7c5d07f153f69366876636263));
 (0, (0x772a8062d3450b3a96e2e5a7a444340c2b19241369d30461f62ec8932b28261c, 0x59f8e1f57ffe7494a3fad9a6a3c1eb3a647056f6c82befe88110c53bde5f5a50), (0x3ea94ebd3d4bb5a495b5972a56a53586dfd1af878fcbf850cc64c80083ae2fb4, 0x37788a6a413a7c83a1f286d543e63aa4b8f5a9132d928d5197db3060fccafb1c), (0x34c430245acf7773a0c5561149989714155ec4e7fb85e2ba6a974f4d8ecf384a, (-0x129e7794130b30af1acf7c4011f8eeab28585d57846846eb4d1c4aff31583192)));
 (-1, (0x65594fdafa2235eda2c62efc3610f253e94d8e9d23407b574a2d62ae8c7de2b6, 0x1763ef22bdc5486a0ba8bd71f1034ed4b59af537494e4f37054a871feb743806), (0x78475cd5a39d79f350f6165447d223b33da7e28dc70577097e77496bc96a2b, 0x281f982b6889cc07159ee7f5b8f5384f2d5a3b6baa0cd578fb5b324f53014aa3), (0x52670251fc28adbd880adac9e889b5b87141717e62e4e93250f9adf4e84d5f55, 0x189f0a5aed3493df5efbc697a30aa2860fb99307809e3e17223c95b280b12de9));
 (0, (0x7a129e6fe2bd021b24ebd3080575885f10f678cdc206993ce3fed851cb98f4aa, 0x4e958128b540428d4f2af69dd604f9b2f5ea51f8d9d4fa1960cfe111dd895d17), (0x8d085c0f57219930bffe3bad44f4e06ccc4fadcdeedb98f13d03c8a98ed44340, 0x3a35c05d4de6555de2558eae789d0677dba44ddfa03017d8469558aa5d1bb212), (0x5d38b28e03e7c82fd57efd0f9ff401cb3d0a5c4da7fa382ca460da218a277c56, (-0x4306e2fce20143ef9d1c130aa0ec7cafea8beb4ade2da2db043ef3abc20109f3)));
 (0, (0xf33c8eaf0ba2e8fd49491dd372fe8169ef714314b43f8c908f0369d2d93ea0e, (-0xde044534dd21848eb8192692d05e36f57ae795a0d6ad403ab72c0c8003ebece8)), (0xf7a4c20c50bc88dea6d896401bbcffabe46ad1590eca0056515c185353374504, 0xe71c053381ab6347b396182e2f63842db6ce1c65db12b70f24b7e8efb976c0), (0x1f184257e7ed166ebc8060f74a2fff96e35e67004c6a201aa32934e9a0006871, (-0x654bace2ae8d2c96711262bdc4c15004af82591b2fedfbb09bd6bc4060f87b1)));
 (0, (0xf5cb400c30de7a4e324c119998cece035eaf10cecfffdb1471c8ce1e44e47bc7, (-0x292f83a725356d61751e7ac14cf7ad679701d71afefc26f1da0fbb7f4a8061b1e)), (0x9218b5eb0f9d567a73a074ae74b405e6cb9ac632fa7ab2d86b3a06ef4863637f, 0xebfea9f5f8e56ff37fa01e0454ed037637adc0202ac2787061e328cc75c80ef6), (0xd79787d10293be47797b266e952ca35e1e8469acf9f8b00c5b9189dcf0228a4a, 0x617fa7114aace30a37fc23bbf71b259198c191dc22b5fb3d0ada52e2977e75d8));
 (0, (0xc6363fdb0174072bbdb15da108208d2428ce8692896491bed6714d11b18b21c8, 0x53b92fe9df3d9bd682ee3204af7bf938277a4418b512b89d9dc7de3efef464f3), (0x6eeb0c8e96dd422855c2680bf66124ae3d7c86c3d08457372f0bbba87802c1fd, 0x9977f645c6919e1d47f04c81495ff2e47ccd3785fe99956ccca4c47a102f76cb), (0x6c76edd2ac16f2f42564905b646196edfafbb081ef37d8ecfc078341deb1ca6a, 0x1b3cc56593d6cb64ba7b28a1afa1e845bb97a52ef0c09997f092bfad88c5cfe4));
 (-1, (0xc1bf2d0e414021b70944a231183a2ca7535d7d6c056dea475a8958247817dd24, 0x8316c66161d03de0104542d9df5ddea452debab2bafc052395166caeb78c572), (0x71e9e391ab6a008f7e4e26d2c847d9eb7029d07111b733ff6033085055568d56, 0x92a1d0b3c19614440a98fb6f02fb0df600912a3af6eacc42a9f746e2d8de69eb), (0xdd9d0e8c084fe3a4b5473cd7a7b654498066d6e5ca08d249ae55b694d6df6086, (-0x2445cc2b449320838aee263b2aa06f886e1f23b860395a150c37063a7eacdcc)));
 (0, (0x65025c1d1c13c5dd853d99b9039e177667ae491193e226a57162846f04f9b9a5, 0x16d111a61909e6a4ec81c7e73ba3bf54027cc66ae230dd9b77e4bdb91e7b7ef0), (0xd8ef1fb0a536fc0d343c2df2fb5d0bce6595525c1bac986762f755edf5bd5a2d, 0x27dadcb489c0f9ed785f110647268b05a8e3e7e19286ddea8c24d736a6562880), (0x3e761a7256159575b40ec2e0440d20d1c5fc945b7cfd1e5c6b3d4bd6f46511ff, (-0x28a603d4494b4bb18c623453b6fa2e61775dc9786ad9bc41415450ba1ab5ab68)));
 (0, (0x20255eee084729107f289a81209807fdde1a4ea5cdcc9a800e43fbe63a8e3412, (-0x217cd6b6fb607111933343c80df088fffc8f705386fba0a9398fa93eff3163751)), (0x45f04395e3f6caab642f43e7ccfa805e84ee8c49715ab17064dcb51b3995c400, 0x4095d301613da3da54be6c4081ee5f2f2d9a38e50406f5cec79ac9b55fe0936), (0x6b44adf5327b7605af7e8c8481763279fe5a1ee85bce5bf250f872d9e4109df2, 0x127550db6a893b6cc49be7269f81c61dc8ec2bad54094deed3fefcc4d26d9517));
 (0, (0x641c06065255187dfe22b6fad4c87431fef8d5b5c9e897f5dfb1c3bc277e06d, (-0x3413df89253ba7eddb97bd17336e9f78a303d24d4c6e527a7e8812ce9d2227d4)), (0xef4a25301e5986d369cb85afa9195c52b8e4b7481c09fb136c412b62f4724dd6, 0x2725e7c641d8c9c3bdb8645784205a4ab85a4fe5d0ede6811a8a7cc7dedcdd), (0xa005caeaf2be1c06783320437608a718a67f00561ad877cb3b5498deb4be7536, (-0x4239a5f13588f096fa5bc582ef529cfe433ac3e512426b59f608875bd58e19a)));
 (-1, (0x2251dbe98a8d60e0c1344fea98e4ba7e74e4806d1f8c8f22b81dc49284a8aed6, (-0xfc22584a4d577278f2677e79b8be40b2d3188167ffe504b21ccd2c1d9fbd4fa)), (0x44f2b8f474f0c8f03a475548e68d93b3cea76ba9501ed83b54a9c26162d612e8, 0x499d896ef80a34e65a3c68a4190ecec21113e53295dba303e3caca977f4fcd2), (0x83d4dd8854f4db6c94f876626c1d78aa0d7cf44169a3b25f55514ec81cde7693, 0x16d6145d5aba428b27ca54fde68dadcbef0185f93ac12b6da8a639712f09e5c5));
 (0, (0xa48fde52bc557361b49d549a28d6c7910313846092a1805e5ff065081c92cca1, 0x71c75f745befae624210d61a21452a44bd2b17b22f3e77968440e2d91cf0e4ba), (0xb13a7bc05020a0b7ba23c77e36458f13eda1152e39b2d42a28311fea46bbc608, 0x69c8a5b422cf7cad7bfa59fff03c5387beae9c908934ead6cbc112b867f7ede7), (0xa8021e33956538c937c69c5581f0d6a7a690bbd7757f2179237cb81e8b70863d, (-0x459ad2e9a1dc1b03fb8a10e652321f8f9766330888a3324c19cd6bc649b66f10)));
 (0, (0xa953d2393bab906305053832108d2c6871dd3b099592b62524b3ccc8bc7e669b, (-0x91d4f4466fc89c8804fd32b8ee12e64ead3b502c95e7d9e443e37af5f300f4be)), (0xaae3cfbd26aba593c9eebce6b63ff6035bce1776f4d0286b74b4f3da9da41b0, 0x6fffc7018e87289376076d7130def27295a73b6ee32cbf34be273653bb73fa37), (0x33ab138890b2dccc8f3ba1ae8a660eb1d56671d30a947c57c45a247650897b23, 0x6e291dac583af001cb0108ed1ce05d12900a74e13933c3d4a7892f0ef1a7cc98));
 (0, (0x820cc3f68e88c0519121d4b31a00694a54a91e7a5b9ff9c190ad9288e56ddc94, 0x3328aceac9fba70701a6c5716d31751fae3b73d8e3d212f2cc4e34ef0716a408), (0x947f4c355a69481cfd34dd581598d1db243d615dd803eb67a7c9adec6355e695, 0x4210f7a95de1cabf7235d575b266ac648e05f7a44b6e08ac9616391bc9977055), (0xcfb0f0766593c4ae80782fb133a29b655890809cb4f5674bb221457c60ec1eb1, (-0x46030906e7faacd656438aa170de5f7ecddf348461b3f6f5437d578e6cf0c348)));
 (0, (0x597c9e8560580448e24f30dabbc3f5638cabb49ef907afa29736c198d160f337, (-0x7137126d1428ceaab3188cc71be9e99a2b3be31e2fc6b9952e948df35a819773)), (0x22019ff6cdd7a4a397d09ad871eb7f750a5ed833f8496aab4a554a7259bd3944, 0x1f47e2e2b05b70a8b8f6d93decf4406a1e19cf6e2035c3905f066924f8242f0d), (0x9428e93c490ddd6d66a9db3ea5b2f32bdd9543ccd5905a05303f65294ae64606, 0x28056ca663da4d5687128a2c6dcffb3b892ae57123e6e02a336487d61e47d450));
 (-1, (0x342d56dfceca9a15b9a0ef95493c211c5c831248d50bb1541eab1c5ed0bf26ab, 0x11e1e248ade2cc801dab2e3e7e57e8b8281d5c1235725bd1a782b2a9ce12e046), (0x53f5326dada390741571012df92ab5e26226ba495cd02830a4ebecda0673aebe, 0xaa27352942c246d0a965ecce55bf89d1b43c54da0cf773976c955f96f53a091), (0xaf1d644c480b2e89c1b2c26f30c12abad2fa4ead555ca177d76c97361fc3cf09, (-0xa2e52846314cf983e36bfaa859d1afe099efc69e13248dcbe08f5924d645b03)));
 (0, (0xb0cdebded0ab5c2dd52eea49ec0872d8a52adea71f8e65ff7fcb1c04a8b583ed, 0x9f4765064472a0264219cb3bc0e954287d433e84483e74a592ac5080dd3baec2), (0xc7bc0a2db1785cfe2830bddbfa85c95c1ed7a407d6499c649aa74bcc5beaf7a8, 0x7a1bc9f5fb18a639d50edca97f49b5d22e4e0fce2145d70c6de5b46eb144d5cb), (0x9b1d78aa8ba3d41c55474ae3bbc3a8de1c8b1116e257b6b16d28b2f80f327e12, (-0x4ff5d53b1440c8dcb20700dca977d892340acb232e7c1537b195ecac2b601fd3)));
 (0, (0x5cb13a8cdac90fbeab579f33cf81ebadcb08c92d0d8c3abe4e4065640322a76e, (-0x1632db1667c0a3675e23a1912c9682f809544bdb51fbd1d9646250bada9ebb338)), (0x4804d077439da22ed35ca4d68d4d6279c410a92a6e799d09364c902069f604a2, 0x218fdcc7416b2dfbf2d69480f4f61e91ef514822c169f92581ebdd7f0c39674e), (0x488ea025673a1cde3c94a633004ff2aeb2369a6cda6a302f767c024412d3bb7d, 0x2e3e43a23f09c9e1d36926226437eca1d90058720302b3fb61d749277fe0690b));
 (0, (0xe01b9ec41be791c610f2604ba37d97cab2373c6b4e2587675ccc8daf266054eb, 0x42412047a9dfce811180df972d81033344a6988f0291cac76f917be25707ccae), (0x61852e8d9240a69c82da3757f826bd1b472886faf2c507fa4d9c198afc72c4f9, 0xc43058d210a9ca9ff3021a11fe18c5eca27044251fd670e5122c6a0c852ccb44), (0x3864461ca1425e9d8f89453b59cc30a0721bee8216e9a32761380f10e113463a, (-0x165312ae344a57f4f35a31e747f5585ccdd141b34d2d6043dc7c7f6a75ceb2ac)));
 (0, (0x64cda533f40fb6da8e236017ffc14b32c7f971c8c9d0472731379e73d0803e49, (-0x4309a78b43816568169075fa66368fad2921e2d0599b50d1537696abb95f63b1)), (0x97b34021675fd5e54c41ad891dcc23b94c48804dede90afb356e59f4c0b0ae79, 0x27b14e42967d2b2d01b9d39071616b94dfa80e6c66f1b09ca328c43122c9167a), (0xc6ded47c46925287118c88fc1367f6fd01c8bac38191f102095ff95d25083d73, (-0x155584b882cadd68cb4059043689a75244efe1240a240117dba022cc33f3dd63)));
 (-1, (0x7cef5ef33995be37146994b8cddd8cf82c3e0fa13ab2310d444455853538b37e, (-0xe9e9c1e39c101b72b27e8ab10f0d06820aa86531a950a2b8c3e70204b7261dd)), (0xc0a9f8026b43db0d713397ab1de507c94805fbf88b34ac92978478e49eaa76cd, 0x3cf8c3ce0d261b3edd89fb1082b1a78b12ebcb1916681425046a683302b0f5ba), (0x873808bcc8bb4a494eb9e92feb94214789af31a8f81fe9e796cef11faeeec4c6, (-0x13fdce982be1235eba49046129f7d2b0a704bbb90c58f287c555da724e9f383f)));
 (0, (0xcec1efe2349abbc8ba28abd50653f72c133da374dffafc51e2616b98f518686c, (-0xd89320a0768e0ca2e1a0f3449eeec087c748471153d283a3c5e255b5924d1b85)), (0x851ce70316a3fc3c8c4068d43da9cf02882ac6e3e86210b8da2041f9f0844229, 0xa6fcb0fba0847da006e5b9ae90e92e6dac03796f28f989c1949bec99b1513ac3), (0xf4dfc9c6ca0f7c828736f4f45eb0367fded3c11deb62e757480e92cac5f2861, 0x3018a0d4983b793bdd972546b0405d15f33ed5a0ec8fbec57a3ba8fd198ab947));
 (0, (0x94bc9f811f1dcefe8cc171b5e3f5f1f3c1ebe0ad9c36b43f5c6ed7afe944b9c7, (-0xbddc68337888bd78db6fde6a9c5c28aca5d7e9a29c9bbbea22898dfeddf1c52b)), (0x73ab06a48c165ba0a83415110cc51b6679d9a459a3bb4637c5436a6a3a83f552, 0x566aa367f501d0e5bf917295ac1120793755ed74cc27116175cffb7bfb30bd83), (0xc313b72fb810ae6666412808190c5e6c02646f9f76f8b7a1eb8d21edd66a25f4, 0xa22b035f4633abab30e59c2f403b3444d7b61dcc4367cd01ad9e0dc1526c1f4));
 (-1, (0x363bcfa8094f6518dfe1d6ac9719248936ca7666e033f9271718cfb7d40a1cc9, 0x149819cd1f03bd589548934aabf0588fc8685c1b5042442a49295e6257dbbfe), (0x4a9a8a1c683d18f1517934ba9562439fa77037a0f24f4c83175fef6f2e85df0b, 0xb7d499443d2f699b5f4111a21e5d16f471f36e16bf09fbcb040f53eda5af0e4), (0x5397a04af90af0746938ce456681cee3d1830e992bbf3b798b6cac1b5fb46ed1, 0x8b31260b3f2362644109f494b47422fe86458d4d829fe0c511f17b244372226));
 (0, (0x8573708d9469a3ac17a5006661f93d613c9af3b6f80d895a737599a7913a6672, 0x15edd0e0697b7a6578b8d7b81eaca72f4f2dae1ad8c57681bf9aab40f4943197), (0x2c124c008342fc726efdf57b5394d4d907bebe23ba8c281ce5e46d72f3c38eaf, 0x459127016ce54b231ecde1c1d10bcdd2cc46aec72891e97b8825b3d5d183d731), (0x886916d4aec02831243e88fb7c3800eb3883fd0f63101c311633ab06aaf786e0, 0xfea8ce4e2679402229be63ad2d707494431db4364e4cf542213d3d77fe7b469));
 (0, (0x8ec5ab54ed0d755dc956eeac8ae25be0e5478e3aa9676f7cb793540b1b9b584b, 0x81645b5b2004caf94445f4378c38454fdd4c3dc3787e4c6bfa9541a0b1dcb933), (0xc5166e4cbe579a79c50038874c0c6be30077b7dbdebc3c8ff503b523e710b331, 0x4f9fe2b35a5a55c714d68d1dcba846398620f989c389522b0b884c9ec93934b6), (0x23b481d35194da8afe064d6cc9b9386a3adf5c2eef920c5d69bf281263d7a97a, (-0x5556719d3363f21d18c3c9cf04f23c10e9a0e54da8bdc5cfaad7deb194a7c890)));
 (1, (0xc93c0bb40c3c0699df4422951855a57883c50704c6d3e80df292d7d14c1a8baf, (-0x3b39ca342953a4cbc580dddb3900119e971adfbed994f6169d60a3350995133b)), (0x869e6a715d0ffee374d7d677d5eaf8fe3ab81867a9083457bb7fc9422329aac6, 0x9e2f58763824f62f1649d681ae1df5e06805bf932161ffdaeba9902d8822f68e), (0x54905cfc3fac49eb08f8c950e6ad78de1046ecfa41dc76e7db19458ad62bb082, 0x311ae2033e556f4b827a1fbcfeba80849ce256e9a4775c21d2490b1be406fb27));
 (0, (0x8980fa64b76b1f7e3180e53eca05d097a73c21aa52c7b0a989f65e77b49ee02, (-0xceb130cdc1598c97b18d27d5b4635221131290ebff8aad38562f3ab0553d4fdc)), (0x6299ee15d52834313095edf0aed4a38e4d630428d2037a8986d0918e12c49c66, 0x49db4cfb25f0f0b197cadd62a19972657be369bf9b2cf2332d6dab965b5c8e), (0xf203b090cd9c72b99a7c54a653bfa5fec7959eeea6b8827919d3f90aade2f781, 0x13588c05b67f3d0be6ca734546c7fa9f700df30357cfadcecb508ec492946d3));
 (0, (0x1f0381c54afb804d7cfa39cf4d80de57a42d305c159c558a383725d0c5d1ae73, (-0x374b1e4f8b9279387d49c0ba72305522e0d01ab1834192e5cd3d5d4bad6a10da)), (0xd86e8673eb393fedd72d313b5a476a8195cd305477385e9535f98bf718a486d0, 0x3c1d97a14911895ba6d7455bb823c8f72e53d2799573ed34b615d6da5960483), (0x54b3d5665204ea10ad5ac05dd16b6d1f8fef36ddcf51b245e7eb22a8bb228bb9, (-0xe465bac1daa32af1ab1f280922273e0860e38dfd63187a8b060b44e62bc02a8)));
 (1, (0x601a291ab8e6aea48198d1d2d6959171b8101178e5c34982870fd904751e67d, (-0x238bb91330c89853a5d775a05cbd592a3e9b7ebb2fb1cd9edca7069a3d7b559)), (0xe2d4c80ca763fac32c013cacbc9b158d807b541784000050f251ae1376cf6d51, 0x2413a1806ab423dad2f58640c70c81207a10cec8269fad113429d7eb3523b0), (0x821872d0e224d8565fdab947517ed1853f1d25c9a9478845b3ee8fac4a34f9c0, (-0x3e768a7667a2029d3909cc9fe694ea58938c9b02495e908be9022d42c0036a)));
 (0, (0x423bf8d0590373a7a5b665291db1baacfe9f632ea3a22a54e66a41b48a5c4b3f, (-0x217a396db18f5977960e43c55aa866cca1f909b916378e3a67c1649ad7355000d)), (0x23b28f1310dee72e1e7965a3b8289159ccf7f8fd64af902a021a84f607913dd1, 0x1122fa580fc32541355c9630fc0e21ce4d41e5b26a7323f2bd47b8d649120652), (0x84c011fc003f1512e5e09067880bfcb601dcd879ddbbbe7999927b8a48539824, 0x317399582fc98de222d4ff57108e10da2503c45a79fed458bcc9e7c737005824))].
