(* Points of the twist and the slopes of chains of additions, found outside; checked in TwistP.v. *)
From Coq Require Import ZArith List.
From Verif Require Import Dig TwD.
Import ListNotations.
Open Scope Z_scope.
(* [15132376222941642752] *)
Definition tG_z : zpt := ((0x24aa2b2f08f0a91260805272dc51051c6e47ad4fa403b02b4510b647ae3d1770bac0326a805bbefd48056c8c121bdb8, 0x13e02b6052719f607dacd3a088274f65596bd0d09920b61ab5da61bbdc7f5049334cf11213945d57e5ac7d055d042b7e), (0xce5d527727d6e118cc9cdc6da2e351aadfd9baa8cbdd3a76d429a695160d12c923ac9cc3baca289e193548608b82801, 0x606c4a02ea734cc32acd2b02bc28b99cb3e287e85a763af267492ab572e99ab3f370d275cec1da1aaa9075ff05f79be)).
Definition tG_s : list sl := [
   SD 0x15a76ee3d8d1c3451005d56067cd27cf7598a85f81c23cd926ad0ec05ad6440f1df034cf36701a5831c9fb39250e2ea9 0x16d96e785c797fb5d6afcb1400d7656829a6a71c42deb7ddce5cd2ccda4704dc0e4b92b69009367bbf6e6aa19488df66;
   SA 0x14b92565b748c30f253912c6cf3aaa45c2b370e810ea9361db7b84172cb1e68ddd09eb1296e0f84058018a4538d64e8b 0x3c50d0829bdc305ff694cc9bf914addbdcbe307142bf7cc7b8d9115b96656327dd7978009cdcddf4728a38086aebcd7;
   SD 0x56ceab5d5d994dee0ca07fc0d41aa908b1a833b94e768d2dec05cffe4a869aed2a64ee86a72f085ee4e78bd4c2aef8e 0x39b596a976f556e5ea4016a3111e14b674a67295a242cf3b343a6878db6ec20bcac1275d23aad6cd3e84e398a4e7bc8;
   SD 0x6e3ef02d1a04e74ab468f6e04f007b067140de16796e93717f97204641356999f8abc87a7d6c3a51d2dc5c2080aa3d 0x1bd56d5682c8e27f4e58d1fe16609b948cecacbf47561314d3adbfd218516e28b5be780d59a6e961956b585b6151749;
   SA 0x8ecc09a9c1f157a41ff8574dbd225e6d360104b08b70bcde984dbdeecb87e54d15afa1ad4d82ecc86926478060abf07 0x1459dcc20ccec09d6ac723641fbd91572a9f1c1cccb841f8f081b995baf77ded82e6c1ee979b5618adb99987cc3e887f;
   SD 0x75707a467e7543c28370330bea9b6e4adf41fa1060713eedb760c98b7aad959e5dfc28db5abe92a46d0ff04a4205803 0x14061839f139644bb20e864718cfc9c1ee8960c06ff2c240598a8a6da7ed2bcc091f594d8b0715d2f6a16be8d5828197;
   SD 0x1deabfaeb3374b50119ecb98148910d6004895792caa88dad948685eedfe9d3ac7315ff9bd8fa7a943e0e3a924e7492 0x7c9b05e8adef4de506459f7be98bf07cbd25fe6f4ac154f7c01f5d8a4b9368fc9cbb8ebfedf28954ae85d6e9f58c709;
   SD 0xee6eb50b6c77d09551c6a60826f728738a490c04918351790b28f2aca89efec977f5d8be5ab1530cd829c00c02bb5ad 0xfe2b8fdab71a2b128d2ad1b08e43b756d77e33ad8d6a444a32fb2ef9c6d1098adde218e3fb06d66bf9f7d4b7015a6b4;
   SA 0x14bf838fa391c4a090ebbbe743ae2a27fa167025d88ff625b3bef3953ab3e70c52b7f1fa0e81fa12d05c20409b6ab80d 0xf45e1251275798ebc25a384129e9223de8b300c58513dc4d4e26bb101a87dc37eb1f2ad58f5ce986c824b89b843b64e;
   SD 0x15f5f0afe4eeb7545fb13eb055c6ad903c2a3e4b9f14a8dae81217db1696daa3753ccd844396189ffbd89d01fe27fa5b 0x1040f087e9a0b6633fa13692b8f5f46e2bd5fc15d81b368ac9d2464eda778b0051c1027ed3da9931ffbf361f326b7282;
   SD 0xf10733fed03fc5b7ae27fc457630dce3b4db45cbad696a6351c7771105a0a1096dd87f04527a34a70ec377ccd63a5b2 0x855b8b1eedbf578f7498f370324634590aee6093dd239d9306991a8af53fac94e1e9b5253a208df401e3d6bf657857c;
   SD 0x17900cb270764782b3eca3d2ec46a86181ef1ff2f83172010bc299acce5e8da96b6b932d6c92af226aa27e2cbe8fae21 0x1be7df7094ce56532653ce2da33c37fe337917d32826e1bd09104615d27b1dba405157c82358801a5440afa7826f03e;
   SD 0x15ed1256df8e5e5ca95b56c878630a1ca624fae6d5770503fc7cd3706f331af3de61fabf6cf96397e7b79f2fc8c8275d 0xf5886abb33616f07cfac605cd5194bd83d804f9da8e5cdaffa3eb442aaeb1342a8a3887ee76aa06cc2a711c9ed0f30e;
   SD 0x249a870907df1494e56fc219e01fde22386755f816c125f4c2cdefe8611811647fac337765ce308dd13ea9ec917f81d 0xa59546d0d9d0d18614e98790bdde01f23d77cc2219a64e16678659f6f9ca9e64f594e30c3cd52b28123518842661348;
   SD 0x3ca74026cf32fba56ec4ffaf56bfc4d589fd5479b90e9a3832640fbf5ff16fd5c8661358f86bbd730aa1df76e95257 0x16f491b5bd383da7e70c0012e06dce324741a7e96cd8fccf402fb94e1c54fc0073a49b0577775e0ba37cd47da598900;
   SD 0x9a76bae205af60fb63330d38d4d0d00c4d2739ae3a0b1763a9bcdec2fe60921bf629abd453bf5d35812bbf0123c972a 0x79042a88c84c694ffd3fa1257cfc1f1da9301aff5ef309c649bf53444907381a7d0f976a5e2fc320bd337a5e6bf6e59;
   SD 0x135ff64b4d73a3a2d0f886b2eb84e8fad6b7625c837aa2728eeaf2f380047dfe3a21b11ba36890bfc74afe64e9f3840c 0xcc7efdc19164223dbcb0b43e4ee3c4f4c650fbfe5a0a3700cd16a519987e4aabf6bd8d16fa3e40ac2853a97b01176dd;
   SD 0x148a5374166cf336bdfb590ab3e98a0f2d52eb1fc8addbd73d021e6c59ff8b91a8fb6bd02a0d320eaaf52d68933508fe 0xfbfa5d5aa28b0148c5da91a16d59eff4dc469e9a00aa1e6c9128ca3eaf8fb765006eba3df1bbeb0847972fc9cc9f5ae;
   SA 0xd75df1478e683d022e71dda20b2ee156e2703ab722d3d6699c526b1363aa3d7edf86279a9db8b55b3ee3937fc331282 0xf657335d9eabb7551b40995f1aed0135a3006438f62b0aa29f3faebba16ed6dc4cf9025d255e0b22ef5ea34500caaa1;
   SD 0x1137f470c8f7d00baa56e5c03e76ea8acb143c96671cbc65033e67ed9f2b5e180252357114e4f467f4709129c1d6d6d7 0xf23701cea5719c6d8b0d3f3bc8572953d8f42a55fe9970085a5304db0b3422f71d7ac93a2a95cfa92d0088ab1308e85;
   SD 0x373d7203575fda92e7b4b0239b7c7695d2524211d5341f332c9317a9c538a1808d10350e8ab375f9e79671f77c33b38 0x7b03ee28e327f04166f5075f657d148ed56fbf731787b28e9d5746328bce07da2a04f4154a74ef22bb2c45a0f0992be;
   SD 0x18b70eb629a79ff3f983498518b16faf0521c1c5a11c352341629374ff0d1ac17362c7944d2b6e4cdcfd83a0692003b0 0x11fa0abe9f21dc673b14d9174289133e7279c670978cd5690526f609b923d7ba3b37b63cf6dd615a649c30b33d8b88ac;
   SD 0x2fc21e36ad4d0da0a00add9bd428c9c44f9a83980265ddd5cac54906e73bae3b43599982d6310ed50636162786d1b75 0x2b70c4ecc512e5b7a263f208e2d6c8495568d22744ab3f376045a0b6f715c18ef69c37a80e8a4f63bb295c1f909c9f8;
   SD 0x10b916005fc2476498beed417afa88358fa085d4db1d9e6f864b49b4b96dc11dcb31a6b2f313b674fee5c83040549617 0x185827ff9e3c833ac46e1e1674a0ba0ae49290dd243bdc6145d1d4d76b0b03b8d7da125b0a5f1bacd2bc2f38d4e1a34d;
   SD 0x1274aa625858db0bb675b3bfaf508b2248a1fe6ffc5d18d0da3e0d01e0bbb52a301585cf3ce32e18da41a2016fbf41b1 0xcd9b76612194b440cbd9c67af3784151a3a1a7585c177cf0df8603dfa938bc22d0aa98e4cbc0be362614fff6f6d4898;
   SD 0x232f7c41bf2d0ca9a4a656040864a9ec51fc3fceddf7498e96b0c22d39fbbbe7f55d6bc35a50965750c7716c237772d 0x126b7366a9ba4cdc1648b905eb2d53ffa24eaa0527809305911e6efcf7cc8f0983f3a122ebd5d6880bc93e525c5283bd;
   SD 0x3c52126f27d2dd758ab077088f758a89df448c1dd45282d9c2237332a12d63f617991e090b1d3aaedd7ae3ae5ef62ec 0x19ee364564c01cbdf0bd4257877b0d7e053d12f91fa49c91b79fc38b4398e2af5a4ac3f48bf85f2a28b11ffbcc48f29d;
   SD 0x287b1e39767a3c2d102a8257d4c97a8e9d64c41cf2dffa1ce9896e5addb637375420be149369971c3fc33245bb7b9cb 0xdccc3a8b263abdc2c1112a2ba4e1537236425a49e10a76b09b6128f5e000427659557e16f6e6c10c2da68b535025ac5;
   SD 0xeba32ca0fdf04b16e700d02d09be055097f3f4285b74b299e633711f24267eeff96b84c9658e94dff575b044fd12535 0x1853f7c388088cef95618ee7fc016b0e19f5a9dafe6150af099ff3b68fe53867aeee330edac31a776bf2f2a7eb8d07b1;
   SD 0x10e5f821e745ef290f77339938e8c939bcfc597914fa0bc4ea7d0b2339e762ea1d7417bc1393c1940f25665663934fc8 0x14df29fafe098da44c7fd336e97eb8687dab2a2a640c57f41257c93b17f3e38108e6f373fb68057499c7406aa1ace48;
   SD 0x10ff70c91cbb8869a0659bf2337805ebca15d19f40277942937c0d4560eae2eee4b7ce1e54863ab6d50bc9ff4874b6e6 0x1951ff3142b9a208e5e69e5942f145b0f85554ee195ae299cddbe3decddda92adfd9039a7b3cfe640c29faece9a85e53;
   SD 0x15d2f6b35415870ddc7054f2e32a1465866e01898f1f3b142c02b4ccd505fbbb8d8bd06421805f763874894483dc214c 0x183abed5b2d1d128fa596426b89ca852d2ba8b3590cd530181c4e72fdd8802ef73ab15eff6749d4bc9865ee9e261110a;
   SD 0xab36c91eeeaabb24820b390406d92af351a91a43b294110a69e73a9a0f2894ad32c28d81f078a90be515d55a39025dd 0x1029fa62305109a4d20176b9533e34319846e866ad7ddd36f64973cbec18695bfc945495873b5a72e8ea0e7d255b970a;
   SD 0x8bda1d762c986632aeaca1e09c08bb4fe0abcaefc921a404b66f01a40c86e83fded68478deb02d48f2ee3be7ae899ed 0x6d4fe75b0153bdec12dba827c67f5884f061f219cb8ff55faddee2a55b5154b35e2696672be08cacb4795f5ddd8497f;
   SD 0x5a79df85b0a96adf6e2dab8a322ce58631513aed92ce0df838145c7842da8419fcaba0e89eec90cedffb5559d9f7cd6 0x11b7c924610a8268c34b8259fb3d98acbbe375c161f9d2a8712f911d31ea73387b467687f36133a552f9211634fe2feb;
   SD 0x1971f0b4a71e609b35922e78337b308d7d37a5e715e2c6a7544aef13d7757e76ac4a6a2ca05df784a5a683833d2e1464 0x503aa962b29d72a5d9f6cf2771a45a92c45f43bb070b7fd3fe5162dcc95efeedb645acb9afd8643829c2749745e919d;
   SD 0x1657a4b33e1400ef6e296282ea313e60d4b8240679b0175efcbc9d2df3136cbd1a372ac4bb42fc51b2f0d50a3d7a6796 0x10992497f5f8bf44511213229f6a20404576105e15a4930cab44b72c1fc2f89b5eaa0345af91b402ecc6cf1a742796cf;
   SD 0x16691c1bdf57ba041abb3d97c8d34c6b4580edfc55e023b1234a9695204bd44f55ea4de60e51e461db9c85f42519fea6 0xcfbf5ccb325675b1a3becefdee4fe1d3c64b3fedec5632647f7df16fff0877b21676607a81022cb0b3b0c523ae71819;
   SD 0xe743528ce0c94e1a76f2f6006448cecfde912a7d2029dbcc74774ca1af660eaed4d832930d36077b6d0262e218111c1 0x133d21c52017365921207d63c8fb346621601764fa91b40acd681358d077b827cc148be2e1f8a574cee0dad622d6fead;
   SD 0x1902b1e10713c8d95829b014d6b5d3a93563b2103c29cec1e7983befc104f7bd4886ad3a08f8bf2310745715d8e60675 0x142c2105c569b0e7aee457f14605027ef09f9b7d03fcc1c2c81c0dc22eff61dca36ea27f392c934ad398e9471a2a3e6f;
   SD 0x27b1b3c904791e3fa942dcd803b24ff12a9cd7524a26b87c8dd9dfb56ea54ca5c9d26e68acd42eff277e12a1c665cd8 0x162f5c264c2d2728aaa1f652ee6cbf6da2000115b0cca0d89754d630e027f9217dd0fba67a880435688221e820d4164e;
   SD 0x13a3cf500109646aac4d69e33e86b7943ceda2cc678e671964192efc9a09299ad173b34e4a074239eac7dc93b8113ddd 0x12f734fc3463dc7adb90dccbbaeda04445ec73fe1fd859d6076071bd0d45623a4cfe964789c20af4b5a694d4d6d9d45d;
   SD 0x65c82633f9d4d20c07f6ad4f79c2172e21b91ba79a5ea2dd1453a4587d6c2ca2341043e1ed40e3c2cfcc055cd4958d6 0x18a18bd0be954bbff600c7c1403276e7635ed1cd34473d3d086bc2e62775af5eae61d9aac8398341fc07277f183c17d5;
   SD 0x31ae02e34d7d21957899dbef96a7955cf8a3345e89477c101ffc8c27a2046327376e250e6882416d7bc0be138e4eeb2 0x1900bee131450e7d7a914ea489fb49e1a36591a6b189f964d0a0095db108dfd24e92848f148232d34a8da37b7adc99a7;
   SD 0x141accc8970ace156fe95a366883383b5a445ca79fc407ee3f3bd12ca9ef48ef6199a7f46231a3597b09b6d5fda5c712 0x18b35a8fd65ba4cbd734a0eea368fc9a21efabd91ace37d98ff3e0c3028ea8f24ee6fb30e0c805067330b20430c585c8;
   SD 0xaaafef3c4298542248b3a58135c684f9ac0e0a34315e044a7d66db543d3c6a626f79dea7ee6a5f3ce669de80b52ba42 0x13d96385b510deff2f4d1d32ee0060a937926e9b6d6adb90abac56946f0699334fa765e60e0b267ea1f8e8dc2b83d62e;
   SD 0xfc955cb99bde258d876019716b9fdec9340c8f3aefa561ca412df73ae5febbec296a5fb95db0469c00d953ee476c048 0x8fd02881a5331dfb0922a3b31368cfad1bcb8ef19b9d382fb88180286d20648b40806c083c7d7a804031b10c844d0cb;
   SD 0x5b8f08ef767ca4cf5f36622b89e509fc5decaef9cb221f15b64b681867d0f5505b9f13931f476324f857ca9daa71d3f 0xa3b4aea7c32a8fc4d9a662b03710c6daa7cac50a8ca6de8554f99004f5b1f2a21b026098f44b24a23750c8f0fa6270d;
   SD 0x9a64184b516425353d3342b7f1e2595a7bf3cb9644dc3a23ae401e3a2c43950dd3e14a5813cf8d46ec722731cb2e790 0xaf426e78303a8cf5a43520e362a12402d4cd3c50c5a5bc14b9c5ee3da9ae172d5612c391be4ad4c913b7f23ef8afc45;
   SD 0xdd9144f8c45e6091a6714d772bf4739ae7b1a8652c823a2aca6cfb5457ca1adc99138fe3c31209a4897e0f66a542078 0xda6ef8b0ede3a09d1a5c00b21acf101ca7ff6cd9129e67a30ff4bdf679bd4a2b87fa34cc8942e9d5abaeec4938f2308;
   SD 0xea4a92fd6a7fada6c37e836f596f65d4b4a37bb57a0834973113079387e96d6d637efa84423b0a3a6bf47efd924c3dd 0x5b7be247f2850b9608773bab9b9db45ba9d0959b3bd8de5770a36eaa83f3dcc1d95b34760a0823f91354f28328297ee;
   SA 0x1142615b871d4c4963ef8ed842f9a579c71af04bbc4b9297c161b22f8b6c5a58a8fb3af7ec52a6b7026c9e97f3d6b0f8 0x78e5e678d7c7e2754875c536346f6c41cfb8f5fdb95af2c9163b27340c90d31ae05f3aaa202c3156a09893b72234b5e;
   SD 0xa0bad126c265d46d51689b72d7dd2e4d3d0945ac3d9cb888b9250b2bed82359a757e1269c4a4d3c7bb2576aeac0337b 0x133a4335f59c0259f1a3ff195a51b1c4671888accdca74afa50259b7484098611c2cb9fdf65a98dff64d2a0fc947454f;
   SD 0xfb69c6a2cbfc9dfb9b0142745ea7f0421cb2dd4e5b4ed7b1142cd575c788d8d19a24ba9dd3830612c58d544327ca0f0 0x10635d3a601f92ab21801ab8e85be88d689d67e6e9835268f7cee1313a095fe9e31b7072875ab3c75d3a4e43d10b2503;
   SD 0x28a36f542a28f6997a811fc2ce6cbed2508c5d828082677745110cbba12e028cd54150ccc1f58585e1d7b5bd45c4c1f 0xac2c40f46751f043fe2833bd583e9bfd967becef21bf75f65d407bf06f076619981fe2e541d567dcc7fbea97520cd94;
   SD 0x125e8f976f7536a2e85ea3cfefd8d2d0063990aea5570748e35370c03766b0439ba9bc0cf8c9e8b4405badfa94226735 0xc0299d504b8b7bb5ff23b7fce15918bb8dbd901b96858640d5946aef2f36a4cb42aee9b8f2d3d1bd687824c71ce27fa;
   SD 0x182115eb42220d34f08e487de33ed175b6d1a029dda7c9aa05a1ef8d1d2c315dd8bc62125863cf017f4f31c0054a3612 0xfc2db9cb25d08faf7c8327f5daebc21a409de8913242d73b8d9e10bc6022a0994e39a0b90bfad204b39a3cbcac7b4;
   SD 0x159ff2806d40ff15099d52045de59d8956f5a84da299063ef6c216059e7a2a6b1a09d23cd53473f5ac7b5e99de412ea4 0x69a7d5ac5a38cce584e0b0f05b60b25f325eb68e4cbd45d0014e4ca22ebdbc559a20177fdccb0d7c9716c23df3ced8f;
   SD 0x142182d337d4bdd0a9dc0152289c80bcf75761bc030bda9dcfd112580006deba5077fd8a5edf9450f71e9104f1c374e9 0x113f465ca312058e0cd541d6b90435a9e7260873c34a0cd455f40359611c687f96c91dbee3f1affdcbbd3809a6881f8e;
   SD 0x10933118bcf1940615957a6c1c7bca0054ff60c0db1566767322d2c5cd33e33d6fd2e0ca2639eca99f5b1f6e6d095faa 0x14ef91f0b47d2bf1313ba159c090bf9a071c2af83528b3613d49af8c8914a7628366761443e0d74cf14359d83cc60326;
   SD 0x5cf357e8473bba00386d2380ef2bbb3e118498031e2471fae5017af4c09ed67c5c2e5257a3deb7872768f839060087e 0x82938f41814229b1224b32b425aed5972aa5f4b4d21ffc7a3913baa2c3f8f7499ac76a63b373a0d0a649113f5c7b2fe;
   SD 0x13847679c97ef8978b3f64c9ba622ef466154b88c6206dc00a65c7c83d9e863106be2e6e6acbdd11b2e3bf3c4e9a8fc7 0x5c65be3c6a8b37e95aaa4725d46595304e94133e1524dc41b86d1ea5e2cb0e5656952930a29270a27fe8eff7ff52747;
   SD 0x78af2f8549231aa92bba1b374d54bf4748e38d3b2c782b3c9d8a7b7d87389e25b856b97ee48f089c7a4594a201092eb 0x157a7e87571314c4eeffcc641151b627d67176b268c6b18bf425406455688e07fe496eb261acc46ca422be84be4fee75;
   SD 0x8f022244af0b719146e8cfb7409e84a31ef57e217e3d45daa059fc26f53a4b15d861e5d1b9ff207335fcb7b28f48654 0x72c117c18b8dfa89321c27cec88b9f86c99799b380ebac98fde2d5c9ef41c16128658961fa9d79eb0320e586c2d096a;
   SD 0x86675ec3781ecc255b9b8f657bd72dc32622552c01c3a14efa70797ab04d5777f18cae0d8934218abbe5eda42e0374 0x99b7b955ea60c02306dd0199067fb6cb2810aa19e5e838d4d7d18f24dc5139d8829c6be0db3cdd784259d6f00a05188;
   SD 0xf16056dd2e8b5f8240d4ac75aac0cfc9b43343826136afbd4f0931c31459109811008d17464425eeb75a1d3a3486fba 0x134957b7abe963c5d074abc911c5cbb3ae17332e06f5b415438805278ea9e18b001cf7daee0993ef125a22747400b5ea;
   SD 0x2d6c8112234d7f18ea478ea7df5eabb84672fab4d4a6e1014e0585cd696c72e9adb4736ed72eccb4e30eeaf3b992446 0x444323d14c7a3549b9f6b2738ce286aeea4511ddcb23d59ff0488c63a739029f85aec2295586dac212579b39f39df97;
   SD 0x65fb0c0d47de8795557bd2f9f4eb741ac78b510ccf452abbc66726ddee31b37d058d7e5bdda2d3c31051f4071ae2945 0x7f9fda3fa03c5295720441d73a813ffff40ee810a12214b0d4ee64da91ea67b8a4525b4b9c37518dd4a05df7a4d6dc1].
Definition tG_o : list op * zpt := Eval vm_compute in mkops tG_z tG_z tG_s.
Definition tG_p : dpt := Eval vm_compute in ofD tG_z.
Definition tG_n : d2 := Eval vm_compute in snd (ofD (zneg tG_z)).
Definition tG_e : dpt := Eval vm_compute in ofD (snd tG_o).
(* [15132376222941642752] *)
Definition tM_z : zpt := ((0x1f25b971f88673a879fd835ed521a7dd9ca5ff815d1f8875da864648644d13fc1a29e9e2610e17febed7481715d5ea6, 0xa04da912b3363e00a0545d58e7757f7b60e7a25568adcb3af55dad724d304f7c4742819d1f6a9bf545a719c2fe86214), (0x5aebd7b3aa8b946832e6d60a56ed9ae47f515d1febcf1b5d01102a24f24085618eb025489a880c8ef6807ce4c6ee783, 0x15e8aaaf57f58a1db89e46fc9356fb7ea7fb616d302f783c96030788a2a3f6923437d7317f0e435c28ea421b44e4ef20)).
Definition tM_s : list sl := [
   SD 0x61de297693d0bee11198f65439b3b33af9679abf39e3fe7ffe915ea6be818b2bf3276f16309fba71d90e92f1c7657c7 0x1945dd532eaf18f1ea27c137936198fc7a868ec84fae17f5e1605bf5a44dd16d7fbdcd33a290167a050317474e102e44;
   SA 0x7b2ee71fe319add8ba8ff24a6560d5eb6b38e076a0acedf873578a8a2f5b79e4625b2189cbac8122d463c975871d8b8 0x11a7896d82dea09d5c668c97ae908f1e151c59bd0ea11e10729af52461d24f74c6cc78366996224fc6258e191ba33afe;
   SD 0x818ecfb3ea3c89ba4002a6b5a14001912762557298cbe021a19c8afa08d5465d041254323de71cacac41dac5b3eed18 0xbe91c95e7ddaa78594f94b89e838253f360ae7d2faf42f4ab1ae8312664688843b218bb96b0916be5f0970bd1c4ce34;
   SD 0x183e175d753d2ea3e474e6476a179003a9fa1d717a7e6d5ac97a84c4980b660a546a5548c2ac3870c033ffcc97428be5 0x1701a890f6c72acebe76c9395f8c77348552f560af612c5aaa97a3442891403a9a9028a797b5e835dd10f63e3761c031;
   SA 0x11aae81f219c0fea36fabbc638eb6eda2dc493cabce9718402744c254024fbcca812032a9e85c97f8e2c0d18f445a3f 0xd1e52278dd425dc5398d37c99f55e94233f3eefb6f34f9c60ad5803ce09ea113110b2708cf66001ff7720c80317cbb1;
   SD 0xdd6e266cbd8373bbc87e64e57632c0eb18c55809c8283c90ced2e1cb9265ebf7393b79ed1d89b32b3c71fbf6350e34a 0x128fe0027c55ae20a9712b5d1968ec35e2261f5efdd1a75206139a3042a7fbc96572ad2908a0e0f7cefc3f10b61c2cf;
   SD 0x1153db1e38ffd8fd8636c4e91595b8807a90d5fc949ad0aac35218ae7e30b123cb17b6b3cc9a257703b3794632734c39 0xc7d23054724a06ec355a6e2fd60434db1a772ad2e7cd587c8fb37918bd0b9e19008874535006e63deef5cd18aec540c;
   SD 0x3a094eb2e5a43e43bf1c4aa2c2ccc8bafd93106fffce7c67718d8b11834789a43579a0f93a81819ac0601ba77c13865 0x9196c5ec9c81016c3686d3d7b64dfb249d6fe6239deae579e6303b80ba56f3a67240a71dccea59360c18f78afa621d8;
   SA 0x6d8f3af2be052c56ba9641a293fd360998867d9aa941727f9b2a0c9069b0172b41f19d58075770bd107c6d490857350 0x15297f69fb0f7a29f67367ba3bfef1aa7ba31051a3d8099665a3a81592d9594df2de4e7b11e46552ce6b6b99e7e79506;
   SD 0x2b88f4f9db4146a1b86276c4c67846e1cafe38bdcb1ecc54fb6e2ac77882dca2604ac8edc47cd76ed5b7ad20d9bf39f 0x8cad52322f4235eedfbf89e878221b88a67b4198e453bc9ffbc860d6f29e3a98cf792ed7e6972cb8c6077d371a90f72;
   SD 0x32ea5cab8a326819598d440b0c1ad5b03c28a767fcf88b1e3ada15d902f40f08577190b4734f268a703d73abceca9c 0xf2e55193646d60e95463d9791bb93a7c0eb8bb94883b6b8e02e6cabe47492f540eb853ea07650c362a99a7598ccee2d;
   SD 0x1258498039c3e4428c96ec2232d67af46bbe6e2904f0f6002411d7cd9649989e6e90f46c0f59cc3c85fb113d1fbe71b7 0xf17d68295758ef7ab710c3a05285c6621cb2d288a0e67141be8a0477adc10526421c49db4482122f1505e2b3cc81cb1;
   SD 0x86e41a9d38dbd541a2419b5fc114c215ebdad9b9b71bdff2bcb6909f1bd726fe06fd4a747fe86228a2c1b11770d19f9 0x158a2eabcde626705ae034d4873cf079ae64b7a61afd7354c364b351567c9969e44d2ad7085867fe265e83bdcc4f4b56;
   SD 0x6880959455ef11b6e290e157ea3875f603a259af15d74eaf3432de75880479ba82a13f7e6c3382c05cffd100938478b 0xc2d2300e1541e7d25732d3a76cddeb6a4c4cb64321ff0962245696a9733257ef8bf39857595d27aba98069abe64f9c0;
   SD 0x110eb856b926f81418c8f739e7e266b77273700e2e692ce83810d012e4d513016cba3518b949bb357d0a1e9fbc67cff1 0xa42a5f5e82d666795275d259be17fd17f78d917460ad075036af8c8ba315fede18a8f539b0e0fbc3cefad26ad4cbc07;
   SD 0x17d034b9e8438c73ff1f012666c0281410b99debd858426ca2907a13a5d0863396698d40ab198f416010fd248dec96b8 0x19f2ae300e8c1757e277531f7b7cb5d2ba6ed5952e7ddc51ca868caa00bde5eba4171e6e2aaa056ed9f6bb1f763dd87e;
   SD 0x153dd48746315d560bbff506c9d08acb8a42bb6b800387830c66de0dac25c7ba7b579003cc37ade2f0884b43edd6ad78 0x1742e2c3d7e8e6a60e62e43c052cb4cf84620ba21ea1c4dd175b7834bc31dd0aa5a5fcf005d6a8e74957d24a01a68314;
   SD 0xb136c737e5f4961fb3d9588b6656f223aaca5b062a9e1839d2e6e769b6c5a92e716384e1ce6849f346c76676be65032 0x2b9a5797289d45e213e7535cfe61b45b98c39013bc047cc53fa92ef2e3cb2ae68c4c932fcb5a8e36111da619003385a;
   SA 0x718e3d544cc0ba7a413dfd1db730ee94422543241bd228a1adf225c50a7b53400a3cd68a875d8603236350711e970ae 0x4949365a185776aba7e7947a14f2ab8b73cce5ab42e9a6aa015a649e9517a48bf319a72588d053482a8e7d1d5345586;
   SD 0x988070bda32d3a3cf8c5dd2366e60cb6452b274e629e10d65df94ec97775c511ddc003c3ef1ae754776d926079af439 0x122275561ab7520b94d15ca1da8fdf2160123b9dc8392037172627236dc9bfbc035cf7660878a2bc6ec3306a02e0724f;
   SD 0x1774d37cfd86c177c6ed70cffd406bfeafd6b53d390d4a05f0018e034f15bed1af546c1d880ae083cd921382fbf2af18 0xd653eb648b1db145ce08243e276f97bcc5f4d694ecff567aa58a839c8dcf2687c2546a22e55fc1a9a04f83254d2d397;
   SD 0x148c4a4a43002763d2f5cde187f87de4ab62d29ce37d304784b8953f8d4705aeec25e969213c5c3cf68d0f314ae066a3 0x199a7dfc495f0a8cd94b35439881257fb9fcd7521cdcc2b996920e83378340a0be60319e824e238096314d1a5d94559a;
   SD 0x159ac299bc00ea70bac999a5dd25a9cbb5d47b57dbb5174569b7bbc0a50e5390d81671288a3fc620625390e17924579f 0x9ad9e0e337795d45573098aebb102e96e4ad437dce70afedb597731ba0b55c7a0e862a4dbb63ae2a8d898a114c5f42b;
   SD 0x49a0ba3587cecdf853c05a9f09a52e11cf1481f0edde3d731f30a29bc137c236411b0ad5ed686c86ee0f694baa66ca3 0x78ee56bd478a10daff38c92d9f7def5e97dea5ce94bdbf4c48bd3a55baa417e71cd6e0b805ee820a11c9bd3baec0c1c;
   SD 0x110195d1a7dc1fe3bd1fb962f5cc726089d21d55198c406cb68fa5866179108a278a5b5b3bd84109216f087d7bc41538 0xc214459d27fab5f195a7f4fe4ec3329eadd27156e7c35e5de3c9e52300dac2ce4add0ad6b47dd4a91d559135daba366;
   SD 0x11007fe1823a669f2fa4fb903048462d53566a2677b7b4b95a4eef86bc07251c0910ee1fe873db1d797de615a8d25b5b 0x7f806297975c3805b4daa42f15f4f71a1221ce23c4ba0cd87d6ff9028f25761b2e1302c9169dbf861679f1aada79d93;
   SD 0xfe63a880e10cb8dc68c1cf7b20814f74f8e79708668febd6a188624fb3e339f2bbba863fb82cf76dd307a22bd6dadd 0x78be372f170945e460bd6d765ebc2c5ccf0f7b33d1aaf80e3c07b3f15f7bb7b22151396d4c8477c2ec713c5f47ef37f;
   SD 0x95c7275207d75abaa4ebde7c262d114acac04b687ede90b8e4f4dfd7bf3359c64327ce1c6f3e9dee83bba0d3cbc5d89 0x96f4bfab946ba1252d2f171f21381ee76ea195d75eec77fd2d04bf78040a80a759d6d7cbd5cb657bb1db315faf4ff2e;
   SD 0x1197b928882761d0123ee84101cdd44bf9f15edcd10c0bb52caf5907be05286c36bb4eb64e6822aaeaa02bc9d93740e9 0x1624c664f73749527997333d1e49ab52ffe3c12dd5ac979591f0f4f5f31851e3e553c9922d887f01f29381fdf9b6e1;
   SD 0xb8daca18e3ae8afa74a489b15898e8b1eba7adf8d026d3fbac065b63513a424f5d238bc5e9b34ebfc366733aac577dd 0xcaf1152f1bbd7bb7a498a1dd57f34f34ffced07b9e5480b1463fff282a2c9955cad4f412c00efd17a88e06a358cada2;
   SD 0x19c4c2fa41b29bca112822fead54301914b28a3276df0c684e39e42862876c6333f36bd6c2dffbb369f6773e7c66f33f 0x167bd894973fee06eaa408fd6dea1cdea4d3abc8ae36f7fb0d0832ca498ab5f1007800ce9bc358a09a5fe78ef9e3a7ab;
   SD 0xc0e06fdda160ea5670661c670f08b00945a56635cae60beccdb9120d267724f0c6828a8db16bfca7320dc51152ff58d 0x7568af91b8e1bd959fbe8a85036e811a3c814389b77e0e54480fa462f700f7036aa691f5df8bd7c03a795873a91e798;
   SD 0xaaed38b3ab1e3bd057ab2e67e992b4e74a68aba34f46be68a903aca71371f828117b86c6307e5a5b990eb9af9f8b9c1 0xfd5118aad74e5016de8421aaf946976aedb34c804d6828bd73ce6e7022a95d4cfd7536118d98fe381341799d00bb06f;
   SD 0x45bb014cc0804f625e992ea576bc733a3752db83054d680271ef49965245fe140429f5cf504c622423a0a968c472faa 0xf664583c795d8a4fd8581262c09b6a8879ad320771a630890e548681a0bca5c10e29b588713338852e5dabe5ab9205d;
   SD 0x15aeab34039b972459c837c4cc6627380d5bbc7cbd338ad26205eb6e38a193b7db8a3da0af050785cdc449b99240fc34 0x18bcf04470042c3801e2cbb570a97f22fc0fc92cacbcb6d6a7c35abf64e6d6c17442fa39486637252e488051de89c7f7;
   SD 0xc5610c3793ab9059c1fe92a94d865d5a038908eb8251164b0aa10d8928873f05996faaba75f20ac519d853282d940ba 0x126ef7a37004f32f4c26194b157596345d5de8043c80cc57adcdc8b719f44cdee92231c8038ef82f521ce570ed038873;
   SD 0x2242c41ec875bc43a6a3819a8fc8c308c6aacc01bde1275b75444b0da61e2e094c7a85468ea9b2fefacac8f2bac9f72 0x1392f5e467f230683e1c406cd2823d9fab972bca43077d024fdf8d2ac568eee4b933b70fa17cd5b6bab835a4329bb37a;
   SD 0x13f32d7d57eee2f6944bc02b03eb14aebde3ce118bdd1db8ff8297405c932f34948c55e73bea306b418c987e4a10088f 0x9657a153d3e020dd5d43dd08901d4822d0ede22169c1609515f35bf44520f51541e829edfeed0f1b6743dc8ba6e372b;
   SD 0xdeecaf34a5edf911b525f848370d0bcba5c1aa2ac5fd1c1519d9faae9e9b9a5cfe3469d7b39cfc085a4277a35885e7 0x8c28c26558fc0ac5777b00b9e7ac689a24f7d07ad5c9e59d3dceeab7107c2a03fdc33adeab04b64078b5662fb767635;
   SD 0x13dc572709c154aad765ad84f1f008bea168d9d9fc530feb423f201458b05953ce7c662c7f5f30c703b53dc679c5a4b8 0x195cbbfca7e0e4f00ecc104f50621295996c284df914f220035a0fe1d4857d0b2eaa1b8a920e0940b3db0e76a75ceff1;
   SD 0x41bb96541a77750deedc9f9e16cb0e8709965435ce25b118912d523b163a178df4cebc225e0ef542f5a2625da9ee92e 0x9610bd2c7f0c21cec481cb77e231a12c566a8a5cd858253d510b2bb66f9673cac957d11243382ecd9385f21ef4b30f8;
   SD 0xe3599e5a389a7c029b5f82d8c07687fa8019d9eb71c94b7981009eb548bd51a620b923fb2e36fd2fbc84412bf7df30f 0x56d4b0de169f8c6097c9be0c5d8f39814491690d53b15edf754f6ccda7c65e2d34ca4ac9090cd04145e41fb1111f84f;
   SD 0x94f39255fe6aa1130bd7e22f07a36251aa724665044777b673bb89f53115bf773943d90e37fa0eb8b9dcedbd692f885 0x1233378f18a6af9621066e7ad75aa1f20e1c5cbe68b90a150f1c23a24b8719b58e097955fff4cf309007efeae56c255f;
   SD 0x160155f8c5e53f8b9375e6e69a883b3f542eeaaa9e85824c49ae11b1ef08290aa28aee326433d508515b15426211afcd 0x686f6a139063b96f8517c4c9dca256cf12e1d4ba0fca8c8cfbb0064dab03c12921e68d3928c698cade24126284d5381;
   SD 0xa3539d0aecef0ac6cdaecfd55f5ec5c5b9d3f5d24f177c610ff33850dae57c2ea8c78ae584c2de8c436d90204ef9262 0x426643645207c01090a2f47c1507f975209bfa178b913dbd9c757d860a9657f1e56a4f491edb7a35b79edeba5861224;
   SD 0xe7d06e6962daa91e05051562ea9aa3cc1b1e48026193d09da69a2d719e18c5a4ac5ebb98b9b7cbd190a477f62e7e51b 0xd008879384956e7379e626224cf3a3054da06351e74b07e338fe8e98cc49f52c00055212dacf3ee867fc499ef001ee1;
   SD 0x3615cf7666352a56cd2015e9ced0fd159028ae4a3008aaddcffdcfa2fe8b909b48c8d72d5a2acf1a721f315c792fa2d 0xbcd49b72ef01df2b5b19bd5970c9b8dd5973eedc3341eaa77f77ef7f2ddb4717a007fd069c9e9249c9be16bc098a62;
   SD 0xe5b208ac01de73ac740b8aee0949865ca54d8f8673dd48136c86114374f8f4b8becd8f2f1424149a864fe40928dce62 0xc71c344c7800b5dd9d6eb08dfc217a157e78679d0e9b37bec0acb0fb17ddb6b7e9f43dfc16b03c814620c5b76900018;
   SD 0x17cb3fe5d333bbe7857073e2573a6b54e9e5c496dafc6207dc033870131b41e8313d7ac9e7c9fd8c52c63fd557a2b2d9 0x169973031872df11055c3180b93f4a3f449e4933aec4161437b023366d8ba1f9cbca55e399b76044fdd5a4d179e42dc1;
   SD 0x118fc4cc0402a6c6a8cdb626e5692346fc82710f881080428c19f83847abf20724c440d361cf41bfd50838bb8a5bad8a 0x130a91b2d50fe3e242427cfa64e86bb7dd314fd307958b7f4b192330903752bf4a3177c5215459ac2883db7c87386f86;
   SD 0x1788e3d38900fdac3cdba223296e10f233763f297c933ab48fadcbb61801b7e5001ffe4f4afb22736370f45f642c28a9 0x16fba032847c1f434f1bffd0028496756608ed2e02e0babdee577e972a3989d202b09adcbf0744edee0f29c0144d5cd4;
   SA 0x1278c11e980f9f0560e4a122924121c68cc019680aa8f8f4a6939fe15c007c1dd427f99a20543c515489d73dccb84766 0x142b9fea3c652622939164f7b58b12535ffe80af439f45ec218a0fbb7d92e51e44cc4cb3e4cea9c83240171d50f6ce71;
   SD 0x5836d6c0478623cc72581871dbdbbd4c4f077b5c4152be7cb7818e2078d5f4b8e22d5cef6dc86231f795f67c146acc8 0x1113164dd2a3810d49b61e5f1dde35265ff776056a743f03b28532cf295abc671b8d8c5734ed7482e4624c33143fc507;
   SD 0xcb32167b991d1771a105887ffe5345ffe9ce1ce08b6fdb36dc5939410c80dc973f5d619ed7b83528f94cefa33bef4be 0x2a93df005913d6b519b412c6d9ad042449442b18fc5a6c515d75595d4fd0b7bc97a4f81d6b62f1ad75ecf6199108831;
   SD 0x69348c97246893ef9b586b2e53f8b43c47f16df6030cb31cd7eaf6d0637db1645344b7eee63d1b1cd1433c93e51786d 0x6c8af115447654013623d456a2f09195b8ff59907f32621529be313700e6bf5e37fc5f33e90d5d72154a1cd7ec23492;
   SD 0x8b4a590d935b1439ee4c7ae65b45f9003a1bf3ecee1b1a9a86dd88c2560a28c68bef717b278874a9daca54bd1e2a0b9 0x105dcf51396e8cc41da8065848614a97d74546c6508cf30a7f7c915c171a66c57721d5ea1439f3ec3d743503ce3cc99;
   SD 0xa191f689f5cbca1a1fa3461cb9462bfedb4f8e120aa9bc37382caae6e8acd47e1c82732188dae784d18d7cb62fcfa2a 0x1015f05467036c9727b5e8d1bda9e9eee98f31a5a67d3241edcbf71b40afd220a3058c4dc48e2d53e129ea06dc1189c9;
   SD 0x17121d3e245c9263699b855ba7024edf54152f3b6c0a761ce7b25345d39538df260f4635fa67059f275a7a24975c3562 0x18b97067afd99921b892e31a4860aa582ccc9fa2ac7e7e6cf516b7b4e7cc4ff84955c8ced4a2a16fb9a3f7d92d311936;
   SD 0xcc8f58ca73883837d7854e695cd54419d5bc7b6593f985f9a0e3ed13769367afe1fab08c7b683b1067cfbb9653239de 0x175607f6f5c1bf9c62b2e0acc651ac05a0197069a2c1ee4f195ec1518df2b864b27b2b7243b50247024dc96525e0d88b;
   SD 0x8b637657faf39227fe05c61be24030bc9e657a9c2eeedf32b8154b93571892ddbb8f4181d5ad4fc3b370e12adef7fbb 0xb12960abf927888e4a355db70079fc1d359d9f8f5623fa7935e1115aec668f3733e84056303ab279450c18a9e4a7368;
   SD 0x3a59fe4594e53382695c58f595c2a5b7d09425e34021500c03350360a6b14217838818757bb697d02013bdc72607b50 0x14ff9e7fac5af573f721bf01e9bb6d9dd0f32b5e625160eab0a29cd55ea85079bfdcef74849e89877fc3df0aa1dce5ff;
   SD 0x7d366d2f75a37d5007a9f353a2271e7bad75e5735e8cd0e1b5f1362408439ce5a3c78264915a4c566fd93a76d02bb72 0x9f0444166b35fd5277d66f71a373f54daa19152ddad60520e99cf7a708844a6274fd208acfc383176b6ab5930e55b89;
   SD 0x125633df84c1ff29c5acecb047f8d0cff4f147d63d4b5219c33a6b8b2ec398355ef63efef2dc61ce25d68b98aea468f5 0x18fdb3d8ff1dc09c3d52a58e49c190e31e1b95f30a95f6616701ddaa0bfa29918fbe7157a000c117cfa4b1420a41ea8e;
   SD 0x14451e21a2a0f0fee1ed6023e0aa27e9b3b4c148aeca389b74c5b6738b0043395f752dbb6330b0dafbc47a3a903e7a0f 0x397f2b9f068fed5ffd9876fcd5aa593fd08f9b44baab65144fd69d712aca1e10c81881e07074a06be1645df34325fd2;
   SD 0x14dad3f6feaec732352667328b323fe53515d4627fdfad68cb7c97550826027d2fa666974b23c998a0ba924d07549f2f 0x12d2f85e931b7fa2a755bcc396e5f1c58d3da4ec176ab9658898d32cb2c58a192b49f633af53a72192282cb853265d94;
   SD 0x119018e9ec15282f3b5357acce276d3ab2362ee91613ef3a0fe39d19f631135f3176ab41bd7396f23a7b66a2d10f86f4 0x194da4a3c624f6e69b8fdb67744ea9b91811e0d63867aaefb8bb5fcec4fdc9737a6ef4bf7e25ff58e6bb750633f167d7;
   SD 0x14dde144660eba99fbcfed6b0b53270181ccb5398731d4ed522d3ce70329951f8f443adea079a7d1c36241762e214454 0x137a1efe4043d4d9bba69c82657d48a5ca0d36f06cfefe3033ca45d3ec9c6747d8d298e5ec789b8b41b366b95f6625d0;
   SD 0x339c09c6ec63dd8128f436c3b8be9e0598b3f047e5b05f498d7a23e238e3d6203c3e932c94ba484a08eb6cb07216625 0x536cc28b5d01e27611e24945e31cae3e745656036745a06692293f174204619fb956e497b8dfabc36ffd696fe68014a].
Definition tM_o : list op * zpt := Eval vm_compute in mkops tM_z tM_z tM_s.
Definition tM_p : dpt := Eval vm_compute in ofD tM_z.
Definition tM_n : d2 := Eval vm_compute in snd (ofD (zneg tM_z)).
Definition tM_e : dpt := Eval vm_compute in ofD (snd tM_o).
Definition tQ1_c : cert * zpt := Eval vm_compute in mkadd (0x137aa0249e65330e460fbdced07f91676a3aa6a55099506a0ad8677d47fc321ecf3c4dfeacfdb2038220847e5bd3d9c6, 0x389e30eac88ac8f3cb8fe10167ea6046aaf62be897100b4f489958272e58bc54d958dcec3f9a82fc9ebcb4a293d2719) (snd tM_o) tM_z.
Definition tQ1_e : dpt := Eval vm_compute in ofD (snd tQ1_c).
Definition tpM_z : zpt := ((0x5d14e2ba9a4c61d19f0110c97ce90e126d5bd1c6ba414fdf92f3aadad3f7d58195f003493ce277b20ed7edfd25d0fba, 0x3c8553e12a9279ca14885495325425f7d9976c86720ea55d3435a035c8d9f05d711885194d5a40a271403ef7019186e), (0x21e87127d936d313c8c854c04759c9013b0cf57efda749706e8f738afd65b6f37ad964d05718af05879b024f6656408, 0x2ddb0e7684aeb43c284eb1d06524ea13199248f816dcdf737c96236af2a48f78fa72697da06409d278c2bffc32dd7b6)).
Definition tpM_p : dpt := Eval vm_compute in ofD tpM_z.
Definition tnpM_p : dpt := Eval vm_compute in ofD (zneg tpM_z).
Definition tppM_z : zpt := ((0x1d5f9a6f320c06219a8ad1365d327e1a3cf16d0514ef1ce759af59ed648cdc6156ee9b36ec4c28a3b268f6dfebbb9c8, 0x15cd8584b7f148d75b0672ed4ca2e5c0d53e8e7c089e4b09b10a32777f1d6e847396d819732b7dbb86920d43a2745851), (0x1452546efed72d53c7ed3a559ddcd3291c8235b2f4c82109971fcffea78cedce05c0fdaa27ab7f36ca96f831b390c328, 0x418673ae18a5c7c927d60b9aff4b158bc7bea17c3559a82d12dcb18540cff91ea7428cd3245bca39114bde4bb1abb8b)).
Definition tppM_p : dpt := Eval vm_compute in ofD tppM_z.
Definition tQ2_c : cert * zpt := Eval vm_compute in mkadd (0x15e4a0f8465c3c02ac7eb39836eca8d95b2fa1a05676dc27fed1e4919502dbdbf9b889c2789ab164b5f8d0987d9d00b4, 0xdb625eb6921117284dbd360fa1dec3b0e3138930ba76bbdd2efa7f08ee86c4455c02c4d0483711edb6f620bd495fa74) (snd tQ1_c) (zneg tpM_z).
Definition tQ2_e : dpt := Eval vm_compute in ofD (snd tQ2_c).
(* [15132376222941642752] *)
Definition tQ3_z : zpt := ((0x1848e21a3eaa1a1aedb73c3f2186e7d1556bbadfdf3cf723f3e6205615def0d83f7072b13f93a04c843e17b72e7d0a41, 0x3c8611c826639b54ab05c67c8e296b6c5fc98983b41a8990403028bae7c6018227e413bffeef4fd6bd13af99a997665), (0xc2bff36728fcc6a8206de50361c6f63dfbb9f17cd09805e99c117943e31381f03abdf1ca45fa14404eb5898357ab2a9, 0xe0f38140f8ed92f7ebc87ac8f45b17e74ba8f63525906c382e8d140723d364faf7332921c2a326aefa87665203f61e5)).
Definition tQ3_s : list sl := [
   SD 0xb08b76dbd2f9b6a258c71a03815a3fb9350c3131a43e7ea68d4f30c67ef75adeb1f3a3510efde4f26981266562ead3c 0x138773cefac96316078052030573ac38b200c727d5b48706e119edd4b3557611f5d787495f635b29f6274a7943215858;
   SA 0x688446aa1da2c075b04ae86aa19b109871a005784cd6bce774432ac7f5788d77776852ebef72e2494890436de7a7be9 0x4aaaf51dd40d4a5c26e84d5789fd79014dd532ddd8b20af4ee2f144a7925039faf0e7811325f912e2f448fc6ca23dc1;
   SD 0x11500f1533e8c278a8f98ae5fe498a5231ac1204a1ff66d61844433546e1c8b1d99ceb1b6090eb28da61fe8bb9850751 0x5b7ce9f559c934abdd3ba2c1cb9cd79b6376509862b1756ed05a2ed345632aca44527427147e426e7f71aa0fffd6c4b;
   SD 0x15cf2e9f29eea1c33db6865fd10031f2634818b83763b5aebdb341300e60d45c53c8ec406117e9927087925ad679949 0xddabca7bf6966bc4dd4c807ccd781a2c76a9747b020b54852bb18690f5cd301f98ec7cf7846a31ba005a9164a54426a;
   SA 0xcb28536b2b3e519ab002cd6af9c1271c5291adfadfe67a881ead25b5d0dca7be1e9647adc7564e49d550188d5f4e3a2 0x1304fa912c697da8402a0c965838f2ef4c3f479659ba0303a9e13cbcefafae8c35d8fa5d8feddad291e8c10dce3bb4d1;
   SD 0x17d0aa4eb9cbfd23d52336da4891db4084894fddf8c1e4c362832faf49fc9b1fc8724c986413ba7dab9bb6ce17287b70 0x249d9a0b151d629442b3b2bdbfb2a38bd58dd822f8b15350e30dc20d450d884bb3e6c0c76cb91ca2ad34e9d08b6f2b0;
   SD 0xe58d2772a392d780c159d40d5f043fdf4cf69a38508ce888328db0eefbca30ea680c5b0884221ee5b66cec4927fb95a 0x42cabe665459df5a781ea94102372a89080350447d16ab8cccc6acd2356e0bc3baa901837acf60a8c350aa4959e2481;
   SD 0x126d7da79fa6f4f2489bba3622f53b249c1bc41b6a5af73bea1a4d59352680df80971b00ccd2e47fa6db0dac7968d312 0x1815c3df626b1b7b6849418c78c434bf3e0e27740465e9c6dae5b93f5f1a52c40877c9634cfaad058896875089258de9;
   SA 0x5cae66a362d30065ddcaec2367bb6fa88f18a84ef6c8ddd5911999141200d762fc27151bd2515451b2fe4c111e799a0 0xce5d611d1d45549a4b7b4e3b60eaeba125368abecddb6bac348d71bac99372d33807d25910f0eccba2b68e1b7dbd3f3;
   SD 0x17c46cc7de0490051d18c6ba61b087425bfa15e71eb495298b320a899dabac6f2f17481ad9608c122c63e28422c58a4a 0x16014f8afd6ef0add4caa13f8ef29236680ae8d1b28c72ec12c3c57bb8f48aafd79bb1a9754a3e621444276ad3955f8b;
   SD 0xcd16f71b77eea0655aa1fa867b09ff6cf70a3a0bc14d53aceed5bcc993b22214c1feea1a142e669dd18ec6068e53852 0x113a94314509f0e45653ed74d6e8fc84dcbb12ed33f6d89dd8f75a7e9017fbe1a4010e37e03d15101eda91fe2956d034;
   SD 0x119e1cfdc25d625e2140bcc9de08d27f55663c2a6a24b18fb3923c5cb32d52761e70728cbf85882722e28cc2253f5f66 0x10037918d6fbb764fdb1f601fd320bfaca9e80aa0b3a21b54e85893df7ef36ab6e07a69f5612a9da6557b8f275728723;
   SD 0x110fe3b29258bd499134d704749fbe59396a14e957669db0363897e5f309b1fac4528018f76dd24b8955bb49231f1157 0x15e848edaadc1f7a92b9d827b1c02fd8470c0bc3a3d8ad61dfcf243341a99d7871a9a7f462651c09f8fd071ce55c02b3;
   SD 0xcaa04ed243c064b368c03c1e248168802e839b0803c7bd28ecad50bfef4af876540cae38b0b96308caa619ead5042b 0x1092c6c59e66065b2bae4fc720d0aba2df592127644f9dbdf0d42cea79034872cad903ca739bff231034bea940cfc469;
   SD 0x187451a1095164c66c50d4ae039456b7519e5fb740d6eec3a8bb9e02594af26026ea9db896274e74494603d1820774cb 0x154c8cbe851b7543e8c495e367be4610daf76bcc3fee21c6065884f536897558a32863407858968b4cd69bfaac3384cd;
   SD 0x1787789cfe18dc2f764ef6501e60c78d76f82e7acc6530bca8399654675e075bb3a61026a705edaa7d97940d75496fcb 0xecfc3fa10514a6948042f90982770623a46c0d69ee2b31ace7956354a8fb8afeefccc50c3a5d86f33b4461ce2126d0;
   SD 0xce1ae92bdd93e801473f6d40c92ad442686f9b1f46d6c1e54332d9726259b5e28112b1d2f336e4b20fc91c32d1c4315 0x129a2506fa40729d8a97e06be16e7b60f95a7bc89a506f9a739a2620ecb1a22b121b4ad8c13896c3439b977d7991d4f3;
   SD 0xd882ab62f59549bd9e31f230e3a211312f0453844fedb3ed948ec8e7a74e20687f5e7dcfd1b6699b7286bcfd3a5cbcb 0x24d7bae2241e4625225f3a9cb91b288d089ce39d29a68fda95f15d4316ccc45668211b64bf156c7c62a485c54d78c9a;
   SA 0x2854617092d70f426d2af72b894eac51317f6378725ba8ca0ff57439c487974b7eb51e78b2a7a9f12502904178a6829 0x16b33baf633aacaa9336f5a4630ffab73cd876657d5f60dcb2f5d1894a910ab67d1dc04d2501cad98cf174eaf770dd9f;
   SD 0x66e7e1567cfbf68e2d852f43e619015df626ca6b21d50176e1c4836ff3e7ea4cfeb86465bf1c8c28149408117a90cfe 0x6fe4ff7d59093e1c9fdc9e4190f03d4948ccba72ed5a37cc57f4a34b09007a83c696ccf0373b09e91c111c02b917557;
   SD 0xd75a448ac6dbffde6c5361255d0f71de80c0a6f20f8650f19528afb5520ed3a8352d85fd9762f7a51a72efd4faf4871 0x17090cc6f9c9ffb48a8b964c83d1ccd5dccf4864f7bdc68f584789bb0916468351d8d7e380043a22d6774aeb31bcbccf;
   SD 0x1699618e52df8ab9f53f200db21574101f8cdd3410c4e76a4db6b41e214b42aa4dedc5b72ab0f8015c7d8f56ec21082d 0xd0be6c52f700f6b9b92de89c582c74aa53a60e4dca6d15e9bc6f3c31b44a2c4c45d1fb5795e211f04469b736059b936;
   SD 0x11833baec222f0ea60623a3201a6026c93df1bd7ab3632c99c97a9760dc88297d3fa787a51fa773c8c649361861dbd0a 0x9a14f5c87586f25ddb21267ea4294e3c75ea0065d243d0e7bf6dedc8f5d13f2fd59e6735f4bd35935770cf932557090;
   SD 0x1182a3d08a0495de931bae19fd98b2eea7dd990b11c7009ac0d966e21e628aa10629651f0c63d17ba815890744d27c71 0x1729b7c527a29fb82f585f988944d32c0047bfd73aefc614a6e7645a6413545e53617c03255d89216faf7ec303b773ad;
   SD 0x166c93b54a2a099b30efdae097fbd30b228a44e322649f33e621348385148dfb9dc2f7c9e0aa423de62111410ff30a97 0x14234749563643ec85721f19cbadaf68d071c1cf5c869c007970190b14971f148105fa9d2660730a54eb1f25639e386c;
   SD 0x177b7fadfa1c5e3c110a9ccf15feeac8f271d57f2647a2feb3c5b2c307f97278502f229c69c0d24525c330254bfc8220 0xed498d5525bab89c610e60c683ec715b8796d6b428163aa9ee7548cc1f749687f547deb3318fabf997b03031049bac5;
   SD 0xf2c8c57529ab555fd9fd12ed7f49113a63a590fcebddd44c064bcea1e630fd1df4aadf89249655295b279ccba393a5f 0x6e0e44a746a8aa29baa5aac3a221550dc846021d40585ae809a09c22177c48a341751c9245043a42d47c25a0c3bffc8;
   SD 0x15391565f91046211125e793d5a1e572689059c574d3b4f83f56e8ce4280a8e491490b32a358507853dcf3788b9c8080 0x193bfbb744752f6be36b3056fcbdfbdbd405f753684db4983636e009aa96e939534a3b44574c56de26f90db1f6315233;
   SD 0x13b31ae21353c0752e1306fa04c254f2a185eed27f45cdaa4b54e48060c80e5e1dcc12d4df78d7088744dd4d0b947a12 0x164ddc2ae91f7849ba481f168a073b59e4201e70955d018c1c477036d205eefb04367ff26c6b9afc5f0b6e06e55f9037;
   SD 0x202b1de11a88701f0dedd0e6abf579e52898325ed4dda95055bd61881b063696e2f59f4779c9655480cd818014bb38b 0x89a9450ef27fe3033eb15ab73bd123df10c16c2b8027a2c46e27ff264ce68e2eba7d7eecb0bd0753dc66002cd843dc3;
   SD 0xbd8ad2bec902c1f239da39354fc0a8f35955798272cc7b9021422579f0ca5596acbcc2b0faeb8580adcdafe7f5ce81b 0x423dbcd5ad514fff6b6b9d92de6c2bd4f232604a65f4dfb0512703dff561d55bb51e5b00d77d12e0d9713f82982dd76;
   SD 0x9a1e6087750d5dffffd0d1a71db6ee0cc14e563cffba98e069f6387e5f4ac15fb0e7a25ee6346e873d2bfa18a3d4a6d 0x6d30dda484220e8a7d0dcc45687a619ea6c9cbcb10d629f884e6f052e568306af9a5952802a5da26bb96d7fcd6fc940;
   SD 0x114d3e354eb689d02b14f7fb1f70192f17b078dcf99cc34f4d7c6056543ec1d306d4df4ace0fdf5dc02ca675b581a246 0xabd0fac547eee4637dfe6c46bd668f2d259e66e5a05b8429d3260993b962df4430fa98d1d24359d17c01eed3fa0480f;
   SD 0xbbd426875217960bed769f9bf7144875576d19493bbc9ee222734a3123c51910955453bf8711602a4678e5e10e73017 0x22c746cc2268456b5a412d00e80855a70fc0682b14a959c9538ca0d6f6d2c65230d6ba4116f0780e65ea97d564b303;
   SD 0x154a4d7f7d67791490e0b7276b3f888636a540f7c89fa4a50e2951e875ad9b78fb88cbea3ba4b918f196f1be59701bb1 0x174d07b568c2b898e1ef0595cd4ba892353fadb1ef9424b9b6a756833fa574cc3cb0abf9c159736285bcce06fb02fcbc;
   SD 0xd3177337297c15880be8ffffb30b0a7579b2c7d603fc91110a4a6986806b5a030f7f81ad1f74be8fb69814fcf1f294c 0xeb07f679122bf40341624635c6e3c29cb2fb9c9688003bb19823edf2b26f5875b41755552935fe729067506ef941db;
   SD 0x133d61be418b6f8f992c50a85c30aab359b5a0174b60553467a9c97db8193936e4531a3438bd977e66c8e9b11d378127 0x106df4e54429f282e885f6b7e47765e29cd86408595982a9601b38226848493f94fd97f3245a32b0ab37c6a2ddb6a27b;
   SD 0xf4ba3f32d1d8e94c97773f05de68126236aa75177886eccf3f8e16dcde0f1c1aa42ab82605d49175959fea089d2c97e 0xa3c9a5b9116e8eca4d88f7c9ae5cc542b4890cf46fce7bc3e0632b6d68e195455b8d0d45c69d5b2c37675a9e0202267;
   SD 0xf33977d5dcb225f05773c9b56628c8365b099918cf9ee9d82ccf3099073494a9dd1f28fb16644ef0ee574bea76a53f8 0x324b3cbf42e77d502a50a0113ec0077e0cb8d72bef5f0ccda467f64b14fef9c7c9c82687c3fa474844b3ae5951d2c8e;
   SD 0x15db98a7f4d356900b66f90e33266e9bdd09eeef5436fb1c91e2b934009e01f150c5c002464f8d4d26f9266b157f8f7 0x9d1516be0995a94eeb255dc55564f4b6811d157715c693003bd287506a7020f20fab0d1f6416490780e2237e4f6f53e;
   SD 0xaec5070d00836525e9e30e95918ee1f047ade2f37039dc87ec5a86da0e6f19aa0a8bff7dcf84257dd609e39a11670ad 0x16498cbbecea0d7cec243efd00da06638a6690f326ab9496a1532731fd3f77720c9cd7c8946013456a4c8f171e306db7;
   SD 0x4f7ff465762907e0b0e77aadc3ae74da6ced915c2fbb2848f41e88af13652c124b0fe40204f157e860ba105c3c0a0f7 0xcc9e94d8e2628e322542608b2d7badc091eebc5af653d5a82044ca02191c2491b5220009ba7acbb5b8c55ff23f54394;
   SD 0x590772fa877e727092458b2688ac16f428a8f1e7bb1d3aa7337f0e514c979ca550f1bf7aa3439f8968d3dca5efe9676 0x1127b1d10062ad42af07c314d2bc0fd1e6e5fc4c6306eb074738244482b4519ce0fe8f6ea2ef4c772ae1fea7ae546428;
   SD 0x95251b8911e13ad5c1dc594d59108e464914bc5a309974d9d14ec116ebf50fd6d9d7db30381c14ce32043b04a7b6354 0x15baf35693933be3f285fef1615c1bfe82de727ad06ac408b570caa3853ba7b884ad4d81242d0b11ca3e60366096428c;
   SD 0xb3cff4079763812f8f530490149511d17f18f8c58182342e8ba398af9ac2781c85a2fc17a94c33ead5ad490e8794ae9 0x84c712bd00d9e1fd54d89e528a7aaa0d243738cc147c9aeec1887d66718e294d046638cf39377081a15c9eb54a4bf27;
   SD 0xece2c2da9c8f60cbac677b561d889532fc4e800a8a4603b8b9323fa775f53042fdbb8457397d459eeb540af7dd928a5 0x12ffbbc92b6c516fd6c8550f0549a73d630fc5c28b905dd2517ee4d12fbe852a8b911f978d1cbecac38f06e48059db38;
   SD 0x606249eb33688a21b7da8103b1391f4c0d772207c08732d2c9fa93721614aae2193efa85d2119016a89770a44c7cfb6 0x1624b53da22674a0efee2515700e24ebe9c7a901a95db2d722f9fd53772ac67b9bcafa3b548d4a2d2f9cfd4171d7ebac;
   SD 0x13221f35d1e4b3be7f14034a3f5157c0107b4db0d722a8a6e7fccf853c2e29b1b4d1e31f0960ff7a03d94b67a4f2ad93 0x881b2fda9bd3fcf68bb3851fe937930f485f0a2457549c372916318f9209e8a0ea161451d3caf18e6dc6a8849fb57aa;
   SD 0x1661bb6c24081566b8edb94b10a73bd23eceb7e262e65b5537f993540ae38faa788907b3f18caa4f8e3510dbf445d17c 0x15cdc22107e7942e003460dc010284dce3b1d7222ab2994fec586e8f71faa6a0959c3d5d6b89930950c5ce8f52adb4a8;
   SD 0x146e619d9d6a4c3366e69843cc12bde2352f7017cfb50f14b4ce3797eaea35e16e75dcb5451f8192f47b0edb854fa343 0x269ea7c11db4cf2784dd5ceeb49c4284c988a8dc952399e18b862b818c4069e44a89a3df0533fc04cc526dc2860d60d;
   SD 0xc23642e0dd4d24e595f8986dc0ecfbccfc3444c805ea9f580fdd6529008961f1602e75c96c9cd9ad581082d9bab769e 0x1482a03dfb174ee35e533fb4e19f96428413fb19e0c4202d8c61cb779974464d503400e2d5688a7073ebb824415dec40;
   SA 0x84f85f2d94b2ed1629e595baed60a621ae0db75817076c8b60d7fbe52db1c1b5cbfe1c28d28280c8c04c1e61259a0e5 0x18d01c5d2219fe80ce4f28212ebedad154ee5b8596b9c33fb0d9096b834621704d13f600cef79f5053218f840bd2e823;
   SD 0xc6a89842a1d1739b55d328a78ff77d329d200ebcc77ecbcadf9c60b70c4b995bc30ac72d133435d9381faca668d9d96 0xee0842cbef246ae6d1a4c0040cdf0a27ca5619b02be634d179a1754f9190416332781bf9a9b4c384ea712c55f5fd68d;
   SD 0x622eff1a197a8505e4cb7fcd0cd9b5110d6ad49e8cd2418e12e28cfdd38fe758ec54eb8f72f308db2ea643cc1b5f2b4 0x14f1dac5bea7be55ec98d31659157b5d0646961042f40fe62f557728263f4529b3e8016c1a507ccd8b81de53a5700c3d;
   SD 0xca3e4c7f6c81aef71247c6d31f4bd9b010e0b9a10642a8e37fc584e2d512dcb9aa50c0adae06ba075889e527c42cc9b 0xdc19922ba3b5cdb46e67df168eff5efa166e7b3b276308d75b341c93a3bac037efedb8c71c63ef970bc3d6aee9ea7db;
   SD 0x7c69d7fb8a31db76d8cd8fd20af10e83f57bc92953cacc2db426e9a289e08fee776eb2711cd36722c2a522174cad2ee 0xd0b5ddb73525c7e80bdbe3bb6164c42242425f0ff1d3babe1fb1a490bc5ec40bf8fb4e0a5b220c4a6609c8201815dfb;
   SD 0xde1dfff96a357effc526bf8b18be98d83db456fa8b21375b03703d082daa8a90f60321da644322f5f87e55f1641808 0x100c039c34f9768b6d4b9b28f2da7ebcfff94f5a13c003d5bff32b04c484930e4f92544a9de6faca26c1510d6c1fa10d;
   SD 0xa5bb3c0d5b18a5e8d85686b92d90de66e8cf8ae1e9e6c3eac9bbb75d2ea136ac9b5ca867bed06773557f71edd21db6f 0x5443488ed3c961e1ab484d9be341d2798398ab1dcafd578e6662046b4784c2f212a6397c112d574c3a4937b7d919af5;
   SD 0xf3f4f87a07eb5335b3730cdd994754e5d22e8a79128de38aa08c4420d4834495132b44dac9b7c8a89771cbff2d7560d 0x66ca0b0b1371d682309ebd87735699ee91925b679d924e34bf1f1314178e89b7ea852fa9bf2fe2a077f19ad83e3e609;
   SD 0xe8a19ecc36d82dfd897b6912f996cb1ba49dc5671551ac52b043c93aba3cd3c11c85d0d7b7f06ba96a75a5d8156a4bf 0x63dfa7dd33fb5b87fa817b0e2f4185ced05756eced0835c6409b25c4fe5e0e3dd051616fefed7b7a0fc04d2267b30fe;
   SD 0x125c10ca4e29d488556f81bcff6f33a4e6c28e54ab9ff5ae9229b9b6e8263b37f70de911c646d11ec27f6095e33fbc9f 0x13185ad3d6a79d443810cffcec60580f3aa691746a294dc423273b281ad0f25d55f26507a1153adad47d8ea517319717;
   SD 0x11dfc96e53a41020473f555523b718a79062971af67256f0e0fa0d44bfaa593ffb697bd83660df88988cac05fac9c6a2 0x32757774be63cd924d112735365838cedf6db84a993f7146cea46ba22e5b8d3e83f79c0b1b51382b107d0597e887b3d;
   SD 0x1877cf8eaae45e86683b581729685fce19b8c2aa5aa454341dcd23c1db058792bb172d84b9ea5ec2a7c1f82c21d9bb30 0x15a07d0e7476e66c73b49e3e5d6b7df091b2b836970fcd2c638c465cd605f7174ed7423a12a05a97b9df1d178c26c863;
   SD 0xf410621a750e54afbc3cbd12e0af8c31cbf7447f460221f5e6f7578dddbb691ef17648823ad0e1a7c77be57df70ae4a 0x72ccfbf4296ce8471e5e889446c0b3c0bbfe402f4f877596724f538c76f3f3828dbb0b53181b7bb8ebb32b13890996b;
   SD 0x100c26b62cdb632bf1e178e8f9aaa56e52c4867640dcc35f3c3a4793bffa7844bdf3a97aedb5419130cc6b9215178144 0x19db2c3d5233f321dfb66c5153e1ca3deda550ba714287e7f413098f6e0355ecebd7c6021935636cfffc2eecbf40aa3;
   SD 0x134c729c89c410cc6cfbf0925acc361a2f20d8afb53a70de902d7441fe775a9821f7ce71e2d12caa647b800ca2be2639 0x1617d348fd1ad55085afb5a52ea9c59925366d0db08a1f5a3d532ebc31af7fb0d32dbc7ec2e15c10ecbdaa29e296b014;
   SD 0x16c62b9df8f3d0e3c77b27b6a652189d3e83418b01956671a697ec0763dceaf978c59775e6a0fc065ca0445d8ddd1e1b 0x11ae472b47941b50f95cb77a7686e959d54a076b2d2ea4f480eee9dc5ce549dac1a92201944257037e706331c6576aa;
   SD 0xea257a6b75a7f07967bbb48385728f04cc626bff5d5e9051f043f1db70ea150ee4f4514451128cb310a0feca5dc98da 0x5923489503a309532e728a67e83809f5e8a8d50d308a03e2e4e599cec9ad2586e131684a0617c157befd95d6c5dc0e3].
Definition tQ3_o : list op * zpt := Eval vm_compute in mkops tQ3_z tQ3_z tQ3_s.
Definition tQ3_p : dpt := Eval vm_compute in ofD tQ3_z.
Definition tQ3_n : d2 := Eval vm_compute in snd (ofD (zneg tQ3_z)).
Definition tQ3_e : dpt := Eval vm_compute in ofD (snd tQ3_o).
Definition tR1_c : cert * zpt := Eval vm_compute in mkadd (0x109811dde488a1759a75ce81f416c6ae1ac6e6eae9b51751bf57d2aaee88071e160b153d0dea1e8ebee38e66d03dc28d, 0x3b3bfe42ccee32a12a33ba2af6dfc541c6e282e6d00053f610626e01752b3dd7d07cdc51f4d2dc2fea79043869a7fac) tM_z tpM_z.
Definition tR1_e : dpt := Eval vm_compute in ofD (snd tR1_c).
(* [2] *)
Definition tR2_z : zpt := ((0x1d5f9a6f320c06219a8ad1365d327e1a3cf16d0514ef1ce759af59ed648cdc6156ee9b36ec4c28a3b268f6dfebbb9c8, 0x15cd8584b7f148d75b0672ed4ca2e5c0d53e8e7c089e4b09b10a32777f1d6e847396d819732b7dbb86920d43a2745851), (0x1452546efed72d53c7ed3a559ddcd3291c8235b2f4c82109971fcffea78cedce05c0fdaa27ab7f36ca96f831b390c328, 0x418673ae18a5c7c927d60b9aff4b158bc7bea17c3559a82d12dcb18540cff91ea7428cd3245bca39114bde4bb1abb8b)).
Definition tR2_s : list sl := [
   SD 0x98ec5c032dccfd03f7dfa84e3eb29d2bd2e2be399c2bbfc8f89e7d7e5cd92b70a84b2b5e53cc96ffde46e8d1b7e868d 0xd511bca66e7b0c21c2fd0e7db61679cb75d100cb20cf9d7f4d8cd379c1374e3749e1eb7fe7180d435f31ddb43ddca09].
Definition tR2_o : list op * zpt := Eval vm_compute in mkops tR2_z tR2_z tR2_s.
Definition tR2_p : dpt := Eval vm_compute in ofD tR2_z.
Definition tR2_n : d2 := Eval vm_compute in snd (ofD (zneg tR2_z)).
Definition tR2_e : dpt := Eval vm_compute in ofD (snd tR2_o).
Definition tR3_c : cert * zpt := Eval vm_compute in mkadd (0x81e1c32f656b40cefd6ebdf93c340a3eb1c6ab1d6b0312d486e6b55f657a5174cd345c4b0b552355294f31d7ad719a9, 0x272fd6bab3b55cfba9d835b3ea41effa87ca400ae5107a9c78944d391fa4192574e8755fb5211395ff147867007328d) (snd tQ3_o) (snd tR2_o).
Definition tR3_e : dpt := Eval vm_compute in ofD (snd tR3_c).
(* [6837970941253162269] *)
Definition tS_z : zpt := ((0x1f25b971f88673a879fd835ed521a7dd9ca5ff815d1f8875da864648644d13fc1a29e9e2610e17febed7481715d5ea6, 0xa04da912b3363e00a0545d58e7757f7b60e7a25568adcb3af55dad724d304f7c4742819d1f6a9bf545a719c2fe86214), (0x5aebd7b3aa8b946832e6d60a56ed9ae47f515d1febcf1b5d01102a24f24085618eb025489a880c8ef6807ce4c6ee783, 0x15e8aaaf57f58a1db89e46fc9356fb7ea7fb616d302f783c96030788a2a3f6923437d7317f0e435c28ea421b44e4ef20)).
Definition tS_s : list sl := [
   SD 0x61de297693d0bee11198f65439b3b33af9679abf39e3fe7ffe915ea6be818b2bf3276f16309fba71d90e92f1c7657c7 0x1945dd532eaf18f1ea27c137936198fc7a868ec84fae17f5e1605bf5a44dd16d7fbdcd33a290167a050317474e102e44;
   SD 0xef327b49179e4d5c31c70f7a50b6ceedf6bff58cda7a6dc0c868a4735d5269d5b7e34ae099ec08831c2d761b04fe780 0x1956b3528d025cf070a78f1118478a60a39633b0e83ab3ee2dd5fb55b3893b531833a216f1d1e711015335a31ac59599;
   SS 0xca2f6103cfa90b4028ea67e00fb12138c2860879c49fadae1f6ab17f7e96e724a210677e1660be297f17c068bab441c 0x130d1c9c3a2cf7ef97ce8bbb897ec56fbfee2e4dbdc277ab31c6431af75d2efc6c3308e937dc24c433cd412eb2cccc77;
   SD 0x818ecfb3ea3c89ba4002a6b5a14001912762557298cbe021a19c8afa08d5465d041254323de71cacac41dac5b3eed18 0xbe91c95e7ddaa78594f94b89e838253f360ae7d2faf42f4ab1ae8312664688843b218bb96b0916be5f0970bd1c4ce34;
   SD 0x183e175d753d2ea3e474e6476a179003a9fa1d717a7e6d5ac97a84c4980b660a546a5548c2ac3870c033ffcc97428be5 0x1701a890f6c72acebe76c9395f8c77348552f560af612c5aaa97a3442891403a9a9028a797b5e835dd10f63e3761c031;
   SD 0x7f4360608cbdcdc0793885c499dceaee3d37c09f1f8f2aafe992548f17491f6f09ff7de422383491094f6ba1c039589 0x11a772ee010057faf9fd9e432184915df1821ba03eb1384bbbdacc77b21195421c9cd22afa8b9a1cd29dc31650604aca;
   SD 0xe5a1076ff99f42e6902c5c969002b7f295220253f6674cac21b2b555f466349232461374af384e3841764f010dd6940 0x535091cf44d63e17f492a637465926fd85214107326cfdad2a9b9cfe2ce13cb7436f29f649dfad6dc1aac9c1eadfa8f;
   SD 0x16b93f863ffa267f686cf75adb2283b48d81299e73236bf7fdd4cf0921eb83d270215469d261ca2fbbf0af39b1e24c99 0x966e95f8f6034d4a7c09ab529bcf6f2f8f79ec52172116251ca2eb34f5643cd049df5dd548ec74f876ef8ca83c6fbd5;
   SS 0xb5c467b7dfd505ff1bac547025d243aad6edf55eb97717404db93e7057b6b055281d1dd8f7c8ecd768b8616cecb36 0x14ad2dbd027d65294e5d02ddcf9d0cd0e31e5d007810f71412771aacf0c5ba87f8cc56434a4a3a73d165a21cf5b268f;
   SD 0x1067e640426f5e6ff003b43b48377b41815a53d3015d7d98b4dec8dced91a79ed4a65c2281a750e1417b0b9a9b84512c 0x1924e68ebc13035930a0bfcdbe2765e6217cdea262b5eac445464abe2ba3c7940ab865bece13c95ba37b440229ef4819;
   SD 0x14392429d08c4a83bd29b1a7ab835fc32569c30e2693f01f1d6284eac51de3efd097a74f27bc5a6bd8e150651986c48f 0x7c532dddc7e66afca8a0663858ab30e4fe4956bf2894745624d6d97b8b583969662358b16479ba32a2fc1385f7bab43;
   SD 0xa5fe6946c5a50241010a2b9c04944cffadabc7df12ce1a2663b1dcd2d25fcbaee09f20a028ef9ff09be5c2db7af64f6 0x7a0d8cd998c8eec88f4450461880110a03ac63d994f53ba66cec039347df4973bd923b7a6470cb12a2f02fc25a50895;
   SS 0x135efd847c6f8b592288e3a5fd17e514a5dbcb16f236d39fb5038a271f2416d6c76720fbe35b1ec34c766781a06a5ded 0xfa40233bfc3b48acc36e7462b6ea94f0aaf95d0133203089315c808c1fb5b1a2649b5fe6c9fc34368eeebb3828f602c;
   SD 0x881eecf2b401cc75e603a5d4f0cbda3a066095fd627db17315aaf2806212751a4185732dae857c2736dca8fde677763 0x16f9423531c8498a78d4d87f74e82c29b69a74bd6b347c7abeba2e4ed02fdd96137a262369b796d0b1ed98e345b603bd;
   SD 0x71ad40d44a8524358b9d2ab36925b3b7604e37e12cae38579ba6bc9eae45028448f204438d09eb928b6b2457a34010c 0x175371e4959cd092ea1efb313f3ffe7d84732c04e6f7f849b4e1c787a0e26f1c48d8f1b03cad626d05a5df9656d62e3f;
   SA 0xb3f6f3b3f2ae0f0a1c7e2f22c10a40243b27c1366f92cddefc41e95ca4b120fdfff5845ce1744cc684748d7f6613e3f 0x99324fee9501a15d0f3f170045c20ff479d1a3d9536f97610e836ad0b1c2c5d1a06f8bea5a1a196e019a929af3fe3c0;
   SD 0xc554dfd406afd4a4be2fac921bc5023007e2b18b3a2687d712e578e3127314b9b8c5d65eae27c5930469883c43c7e3e 0x16d07b06629d3c970ea84a6493ec3b7e420c35d9419445d0aec7fa8aa5f06b08ab599b0685ab367c59acbc569d57f43e;
   SD 0x159b14186a23e85cc5b40b05457ad9fff15f45fc43be1bacba2c60ecd58842ea44d0ea278cb1b41bbcaec26f12afeef 0xc81a1307922dd42f08413acd7f4fe127d9f951294d7f732a9c4e7dcfee7f839bb4795f2bf6166f51473e78a31a6285c;
   SS 0x513cd0dafc9d09a28c0b56b210a63af528d8fa9138c1ad9dfc15230b9732339a76f587c22e3b6f1d4fcca8680e53f22 0xd9cf154982be91b4bcae3e80daa8b19abeeceed8ea4ac7125b53b4f3f5bd958aa754e7af7d6fc6517d87778152caf7;
   SD 0x10112791f45648c0ca214b3d9748cc947ea54b4d26b71bf5b2c3c50029ef565b8ef40df504d869ad425b3fb7771bca23 0x103756a23b29e167de80f36a08c8a79c52277fe0fa99baf40bb7fac7d284c49d0dd89474fe3976a07ffcfcc645932698;
   SD 0x3fdb758d3400a7532ef15c180f92ff232ef2bbf7f6145b8bb1533a000ab5238e5ac5092cec6dd935119713545baf0f7 0x4bb11863eecf41fa7f3e9965518a27878308fa52ef8ebf9b31c1676f4e98cc0cb5b3cf185776f3d7f72e687eacd6661;
   SS 0xbe0082d84c0360e2f7025f713cfb33810ce085f3bcb82ef6c014f76fa47978a8ea96c7009a46e28d79fae9e6cff0e09 0xe8610439406f1d32de2f039ae359e10bbd59af4bfe8a3cdaf3bb2ffad0edb165f9e0df2b37c73805672353469a778ec;
   SD 0x17b0589c393aaad04fccde3632712ac9ebfdb15cd39e201d03d7291176d76766956418746ccfead414be008e0af7587 0x149209b142b82944ef69921df2602460733bfd7818ec7ae4990d2951e46f814d3b0dd0c6d03ed6162ee2335c867ccb43;
   SD 0x67296807dd45762328a82edb85380ee464832a43aaced5afeb4d3d3e0cceeec09a5a364b31e589b0ea4a2dc60932909 0x9533d78045310c3ab6d2db20a806b53cae861ec18947a01a1b15bd7fd8a43089373ea4f339696f590e6946f9f6b654d;
   SS 0x16933acdc0a2523b742bbe61268e186eda62fb0e346ca7b38e696bdd8fa37f44d451c86367cd9270d466b823d84b2dab 0x552909845ac5910164ab33226e43db34f413c684886e002fc29349e9eb8b1cff4b706332dd03508abbcf778828b388b;
   SD 0x272a06aa418cdf09a84964fe419c0ed8d36ad401e8a83b7b6156f0f435be4507f50615559dfd3afe60b1189d9e1c851 0x90205fc3e00611bdfde26983aec6d9815b0bf09dfc85da84ee8ca11a4ed8bc6fa683f39615077bc68c97c58f2c89f0e;
   SD 0x14d53be7cc8e241f6074fa9a21043628fb5ea37e156dd6076e7f8700fcfad49927e29fd289e50185663c9093024e45c6 0x11a3dbb218e6a06bea08cc6ba496384a6abecd61b16675d083b8a86b5159073d715646cdbdd2d7f7de7627e2969816a4;
   SS 0x1188b613b91842b611f41ddebec6064dab3472cbedabdb020b8b5efd140fe57fd8319869e75d25bea9d956eb5bf5c4df 0x1370db0246260f4123ca850272245f08780d76f39e56dfdbc9547aa48738442633271ead2c652c97756b4f14032ac899;
   SD 0xe8dd65da0e8a00d602d574e2503046d182553e7bfd1598e637e1d5aa1b48758b0db9fd5ee319ff22c8ed4e5f7f5205a 0x926b9a14b9efb1214f11e77b55de84880cba8a0a594afc68b03685d35dd1e64141dd518c0c1b885478aa45a2a0be501;
   SD 0x8ac9783729d93557802f6d12578808a51516ed1654c7f223a8559a99eaeaccc02f878847aa435f5363736a38ee707a4 0x127b9a9a2dec1670a0b44a822918604131d735f53372bfe256e754c239a6a66d4001027b0010d33f25d78447d82a9406;
   SA 0x1760388006991ed195c0f733c103e7d677b2e149864058491b1d7ba286f7cad82067bfefbcaa0ba82ea08fc0d63eb0ef 0x142cea55dfbbbecbde66f12eee14e3b72013f3eaf2a8af98a59ee61f95d0d1f67d6d5ee7897d7ac570efa32117333964;
   SD 0x180cf0472309a85f1acc0b1bd82e56569e1d6d3234f92a12ae2bc248d5f3d04d934e3816ee7765e1d70ba2262e94b17c 0x161c39ddbc9b561c7803b2b31e1d40ef73b65cb4b1dabc8d439994d705b8f2f928134e62d20d9c61e3a4bc322268d612;
   SD 0x9718e76bd98b4f17d648558ffe54136058710fab8b91d7d1efd00043089988a92450e1cf13181af6d579b87c8f9fde6 0x115705275cd873394056c3175f397ddf54256fd069fb12a09ecad2779069348c43f1ba8cbb2e20b2a36bfd0120878bb8;
   SA 0x9bb04ed2293758b55bb99c973a84fda333de33d3e802538aede0e825018001ba19979a837716e3b589b2d842cc6bac3 0xbd8a2faf466544e2b7088b12ee2cd09bdbc30bebe3ea5b051cab1c7297978610a41240e9b4915ec48b3ffebdebf8544;
   SD 0x2eb8999503f50030fad3af2ba8b5a3f81e45b5f65eeec983a5eef3fe2b230a53e6bc675a13311f90140c89d30a25976 0x17ff42b555dbe5c2a16516f58fdf370266f98d8ab7f30602e69f9dca4a09a7e63b163d7c75d15dbd5ddd5b87e9691d69;
   SD 0x34a04e73fa69b36b07ede492c6ce26bdc48242e9538cce2382e7d3b26d531eea2f4904a1a2fe5aa4f9fff5f66d174c0 0x1028e05ec11073368562815d2e3f9a3494cb3bfdbb17508ea23de81767444e5feb4a91616a8610bb1e3039c2afda8e37;
   SS 0x1044d6b52b301beb77c63edc041da04f9b5a150622cadfa9cf0e434973bfa0ccc4c3fcc5bb16e674c1dafa88ee6b31ee 0x291c5a593c63ae96c32282b4f8b87490216ed9ee956f1dde47ab600d41fb08e886447f63f3121ed5c581bb362f5a670;
   SD 0x93c951cbf1aad809617037cbeccd6f0fe2ee68c366b57c51fdd6a0a0e6ea4afc2fe4c309aa4d95b0048b1b4dbc8c004 0x75e0e9cd6d4422c2f18fbfe283beebd675988bb53fade2f300df6c19c966615eb00d536fd4bda2499651cbb4d9e4f81;
   SD 0x135bb6b690a0e91bcbd287a577486ea7ac5e1ba322e47d763abf8f8f891db3a8b673c6b7e56fc6faf466560e7e0b00bb 0x19cc49bca7bf1efb57cf7611c83e86fb42026d99bc101c1e04f9379c2b8bb0740ccfbd1579bfc019c3b51a4a433033fd;
   SS 0x18612f04c83604fb98be254959ec52dd2a396b313caa165d3433584c238c3ff2dc2dd4a6b8562ba1b5ee76a081f4d014 0xfc31cc64231e323e7c09487301fb160320eeca3832339ebe2b24b0b9d413875770d3e7defe12da2a13e4c5443bb7e63;
   SD 0x1641b57942aff966987e38be073cb9fa0024065ade4fadb5d24243bddb7a42cd206bd2c5e8bd31ed22527aa6733648aa 0x6d1dbaa71fff10df77a98faa15afbecf035fa8cc125eb9a43dc2749b1603e978d71fd867b31aabedf54534cf1a7e11d;
   SD 0x853edbfd09ad25878c6aac7f4cca9af8484a13568ca4e067a6b0a8262d3159601f726fa858def6d24942f8239eb662f 0x17a64d3916d620e7ba6adf946fc915a1e5a8653e9a2d71ba6c8e43e70944b9d2c7700137d42d7f91f900dbafcfb2a8c1;
   SD 0xe5cb76d470cb2bb9187715cf9d013b4aa5f77b73d3ee0d366b8cc96f6d47b755ef946074ce58bc6185b43eca680f29a 0x19f55bf29da4ba15af6837f60296643f9bc08ed29154fa5f0e085f9cfb0ff3f8326e76b52ada48aba517b64d3b946870;
   SD 0x35893b75b75a3263976eed9be34f2372b89469fdd215a05f6798078e563d94d9db54772df49ab59480f72d44dae1edc 0x1749bc3c21d20dc6c662d0ce96783f582be08a1358985a37c7fa8f438f21da6d4839073ed3f00afbb6f1c8ce7d81a8c4;
   SS 0x146b6b5ace1af8482d9a8f9d33f36f3b1c389c73ab763c9bfde8d6a09c38867bbd9a87e5b4dda36e9dec4a93be2c5c0b 0x145f3f4a23d8990e3d3881ec094b45fdbc949c5e133c46ae675c4b4254007b585fe3a6f430806350ca43e6562f5bba77;
   SD 0x19d68ec67188bd60c044985cab8775fd504721bbbfb8ff5580c74e399dd52988b9b551e940dad97a1a446bfa09c8bf57 0x60973fcf291c123db3630352a05be15b4e277025a1c356e1204fa8d5da5670bc16ff900a6e5006bc12cf13e02df786f;
   SD 0x15ad4039e3b089e9c065c65ed5be89bf4daf2f71820ebd8966b0b74d9f472856e784d719d327455146badd17affad46 0x26cf61b53a02704d85c589e0047ff5161617943e07d71b3242a7ce042232aa1917208babf6a0dcfe150054745ef8252;
   SD 0x1f34e664bd244f696623ab0dfad53ad25cc698a91ebd209c667510d79db2a26691aed5ac7361f246d99afbe4166f448 0x6b1f8a44ac3ef7ca6ee1da19cae653be03f47c48232f5fe754f03019cecdc33fa5b849eb96e1c598a7c650d02d614e8;
   SD 0x4a81c8cac68d65e72109b2867a783020cae32704f9151ccb8f99df0b4448aff299a1b7bc7aaad20f574bf82a0df611f 0x19e0219bce8cc32ad19e8fce65ace3567461dbab321a5226d5eeb7d2ed76048aa79633f8d007515049dbc606c5dd3003;
   SA 0x123e697aa892d65be541209d8c0e9157996d8da83d339f0abb77d1850ff2ff3f968b864120685271818854908827cc27 0x17d975ad0dbb03025dd8602822720ccbcdb03f02f5ab75be958f97907e1e0d7039d7855cd5b5b7a1e0f34cbf1b7ef625;
   SD 0xed52aed8e64c8e52ba22f95772d5d35b597a249aa50e90f77e0c11105a67a0b37e5fdb07c4265734190410214359baf 0x7319849be2eaa6e5ffe5d1ddac4fa67e4c1f35d88ecc6fa2327c980b25c030798b1b586e97305204dc19c36d6b7d3d2;
   SD 0x98da32c5e6136d541aed202fe20b3acf8b49a317a20c397988348abd3e2a8da24333d4ce504d7c14f4c1783acda0658 0xf058c55de3e3666016266cc0f638bb3a9e819579b71e9e2293cafa1d15e402acd87af6dc6fb8e6e46d55eae08c4fd42;
   SA 0xb2ec4d28e4a271f6cb0fecaa5702830dc1f4fe3449c2e5388d9d7d6853a756c66f4fa28d4f6feb95b828cfd5e03d358 0x563be19338cfd422723c1e1d3128371180dab0820ce808117de25f3af509cc572ac9eacbefb7d558c40a4f9e6eebe54;
   SD 0x8e788dafe75affe3c823a34f8184980e02cd724dfcf2c7c68f6de7f7784c46716712e25fedfb5d7704cc3fb3eb20cbb 0x15c9c0c614bb9783e3083991a91492da92e1590bc5286b835861ccf1c97b420e127b93e40212e56854ed2ebc73a889da;
   SD 0x76409bd5c0406cec41f9be42ca0f0dd8d051a1133a40446daf98affd8bd0af695429618f37370a74fefd43e2a77a8b8 0x83689f48ce186959d0bf18a60a19b1bde214bc996af9f11d687cc0ec286ebd77b21742b3611ce5c7c80cc3f2bb4e297;
   SD 0x10e8a1d743ee518c6b2e35c2246af65e83df022a45127c8a98bc6e411e6a0b2ab93523a1bb1799eba20839497c2c1a6f 0x12c4a4e076c5f1b103975178c6bf88d9366ded94407af3a703f26f426d67fb63e5a01642fcbc7f6ba3bcb920bfb30d3e;
   SD 0xcdc2fcb6fcd2ebaef4f26e517e1e8cc6f28839b38a3c941ea23c83864c6be04c4042db9222b3b934d7ae8fcc998cb0 0x17d080d4cf8b917c896d5a717fbd945db6d0b12081e8e2a87bdda12ea1c661ec3febe83fa079a30f97b7fd8a87f74718;
   SS 0x1457a004fcd68b2b75386120f6acaed3b082356a07aa213565a1517d5f1f5213f708c5ab5d8c10440cd77d3fd71823ac 0xbb568cc17f152cca37966b50896473b8dd64195bf8f4f3875eb2090bfc02c4f110b29dc4ccd0e6f62b416fa7d90da32;
   SD 0x369469870be2088cdc60f18bc99efc3e74c4a78688495ef0246bef49bd0cbba05e92381c083f7732bb8911224e7f422 0x16bb2c580bfede3d43ae97d02b22350ee8463223aefeb06b17191dbd350282f138e1f1e37906010e7c9073907b7d7ff2;
   SD 0x19379055a36433be31e55c26e4f8b5178947ebfe8fb434d598d39886278cdda8ef9f104a4aca66dde4514d63000ba93f 0x121919dcb965597f44dd318fd4c0526d935b34b9049a6c165b5feceedfc5d1f1656bd074b425757d5a07f9d27e500609;
   SS 0x131e323e9044f015291fcb6dd3fb660417f606d1cd0bf9ce665ab5e9b73b210e76163a929986db041b978aa83786a37 0xf05b0ab29f3e14d0804534585e8526501fa18f5d63ffdf8a34f4db3bef9c5952f7a5b5ff57eaede585c5d6259bad18f;
   SD 0x3d20742f835e210dc22d70cf00e1bfdc95955518b841ed50467b543a3edb9067ee0aabd3e8955ff31177bcc00dbd5d1 0x81c630585bcc2620b352aabb6ca9c272300ca4952930ac2ce1d1a86dde81cc768696cc4963e76e11ff1f002e457cc58;
   SD 0x8da943f3b9df39b4c8c925c682a0fb256e778823be776c4db110243b453bd162045f911108e442488e98cb17d54c112 0xc8bbc9361a5400982712f6db2876a1aa75e07d97ad7051bcc9cbe61ec046ebcdc723c6266ee7e265cd535d0fc206287;
   SS 0xcc731dc01983968ef849fb7145cdf2b1131034b8199e6783bdd86db20476a4e09235826fae03d4e87d05f37d0e78aba 0x5ad86b529c4a807b00e9d2644228296e99b9556e8f80b9585a1005a3c988585c92857f53210b0ad1bb3cf79c3a5ae6a;
   SD 0xf35bc5f72d41dd7f3592437d2c0fdfef74ef727ce9aa1c849ba091277d9e8800154132ba4f379dd00778a9d09117656 0x886e508d919163dad7233198e6c7725511592b55cd19afe074c9ab0b2d50e11401d765e8a48e5ad26778106b045e8e;
   SD 0x19e6479a6d1b29d0be496577946b232f3f2b1d98c9f88f93e83a9d38349ed76756266de00fc70805f075f27f3acb9693 0x408af3b983df40a17f571b122eb81e6b7ee29ce8300c61cbf557228bd9119cf655280f12d8605c688fd85a076f03e87;
   SA 0x11cebc993f27d8819411f17e3b932e075ab2d0c57321914a46714efbc9c6b2ebe62b1dc8a4a944adc5b9c3e41de4d284 0x18097cfac97d36d9f40a3ba48680c028f90fe6942ef42873cdf163f885f5e0d8a8f495feffac1e1e46c55f56372bf113;
   SD 0x14315508d0d23ee9125e86be4f556b4f741b1d4314d7d6abf20a39f1bb5ea28a2fec11664c82922d7d8d912345ebeb1d 0x81ba8ba6da256322b3294aba6b6da72f50f9e266288e0594e7e9a2653c708fdb4b2554fdb81edaa5b29773054e14c75;
   SD 0x64bfc1b9d26c5fe788fbe81d537dbd8ef34b1529145f455e54003cef30c094a21c714ddc9bbf22f9966e4888edda0c5 0x106d86a28e51b4fc4754dafbcdf98d0e4907b57b896cafe9664d525abdbacdb8559b6be1cc8a7ea141e8dd1ff8f73e62;
   SD 0xd969ae81e9bc0ae26cb6158ea367e582cc73ea6d488fe2629354daad46733ad3c80ffe3cb362f6708966eaf8859ab2a 0x818f2ab9ea553ee51d4bb507d7d1272353e98b11f26640f29899c8c7e9407e6ef9fcc0d13158c6a76b0a219c62df7e3;
   SA 0x78e4ddd15773fe06b7dcc157d204b54363a8f50161c67f90c8294f9ae4aa9e1408cc67a3558618f841535f7bc5e9777 0xbe9586e01003cfc779b76006a191b6513319fa6b899e97984c179afc1f41104fde301167ae4e8f0dc747d7c759959a;
   SD 0xcdf91cbb9a90e93e8ca5df0e036e287cd977e753d64e48ba01d78dc33cee1707e5b4066998063370142e5a7de401c2f 0x16487944b49d7b272bc50d7faba363516a149b7a853ee4296da8313d06b0f65dc029ee455af9814457daa49dd10d2906;
   SD 0x19fb2bb5809de21ee0f6d7281f025e8f3d7646a98a2a8b1290889b2e29d46628dc6b6109da46af91cfd86cddb695b5d5 0xe18407fecb9611515bd98ebe6182e3129b6af267543a2d5f74f8c8081ba20f1edd4a77fc20343ce528e6adee9994614;
   SA 0x115ef363b9e191d6ef79be242465c0915dce61ae445fac781115d7252c1fac3e129f2ea8f27a326d483b3aa12bebce2c 0x19de1688b3796803ccd587129624ceb3bada147124000f638fc955329d90af61224f5056aa12202e872e7b18bacd6c50;
   SD 0x1737a606059d915a28ab93793d10731aa3dc8b10ec3c78f90bcda95693b9fdc2f95679e85f9f63d617ab9575bf2ff5c 0x778c971a6fb459619c1d287a28e7f4239f8aea633b84412bc38e36a36709dec04e726b9107f1c292262a980d66240af;
   SD 0x1561ec9f5cfd93e2ff8f23469ec42cadd6485244bf1c06aa9dbe1c4d861f099873b3efa6e29ff8151097f5c9aabfa1fa 0xd1f6354254ea94efe2f1bb8cad5eda3b53954667f436af7db0409f2c7a982977761e672ac5bbace5e7ed8cc9e84e087;
   SA 0x14c81f889f30f96cbe217d02f6f2ebad7276d97f39a59ab559641a0c1281356108bc754a5e613eb347cfeed33d677254 0x7e568748c4bdaa525ec4f6ffaa86e510c0dc43df1d2b3dbdbd9427b2dc2d5564202179b319291d6920c635dc4c91c16;
   SD 0x9700d9abbcf00197e72092f0a0b9fe4d9197c8083791bb09bd28ab84da6404189776d9611a7020f7eaa525084fc9ad 0xf611e6f848fa8be71787ba3c41916b1bcd639f1c4a10ebeacb9d998aefb7eba82ada4b7691bca16532d676b918311ca;
   SD 0x881dd1c3f5290349ee0896c0bd16985efb8d831945060fe4e00041bad94cabe912f0320331d603a1b8b087d08542ae9 0x176344c0faaa81d5c37babf005554272b898b3cb619d018fd561f4a5b73a6a8b4dcb9317c452df0cb35bf2e834209c5;
   SD 0xbfd1c6c9fbb8b8d68b5f5c867249a5e19c1ccc6c82a69ced6f633dd86d18c95b3a88d9f597cebc70bae0f68b65e5b2b 0x10a61bba63af363861b849ae2fce0313dd3385baf1cd820a8c9129c3189f67b0005a62f8cc88abe1ce1887aabd05e438;
   SA 0x196fba5de98b8b97cf7608c6d53dcf53e48aeefe3568882ac8020b4a2a6dab8516e4608433f8e48661d362256c64b8b6 0xba9f7aa358c5e400eaec368d99f32c33b136331b4998d0f5f5f55f53e71d709a08e8267df07b2cba3086973ffe6e3d8;
   SD 0x19062abcf6e9b8126590fee0474dfc33f4e35bf4d66cb6f8068a101c29d46785cfe959fddd11f1dccf1e06c782c95c95 0x1264e4c064b7abcae9ee8494dcfc30a2093e808a14d921b396fb949059419fe950b8543caa639f0e818064e8653890a;
   SD 0x17c96db56a20b8897f5d6b362247c6cf3565214429b2da8431820ae12828e27be390392a42f0fb0abc24464421f5dbbf 0xf137f9e6b8e7671ae4f7b952f78ab6669362c6db34da619bdd3ed3c1ce92577e9ad9ce3909abbd7902a6702649ea391;
   SD 0x530c56238042cff5d950e3c996cab79890c925deeee386c239fa57470b461fc98093af033300b9962ba69317dbc2765 0xe45ee7165f3965ca3b54306295b31758b00f368c5da8b2cf5e0b207465ecd49b43d0f0238b032f61e5af04947766c73;
   SS 0xaf436516856aac467da66f50e34a03397848bc6c83a70de22e83c859b3276097d1254e58bf200eacf215364bc9e0e90 0x14bf05b2cbfc96511da59be9f35267beede3b3ae25d0a6476614f2a02ca7461b009d25b03de73e1a521f4a091ef78e7c;
   SD 0x7a9884b2457a6a7ae48ee5bc9b13581b5c86b294fe772ec8f31894cce591689f734734daadc56e4ab81a485c0fc23ff 0x4c938980397aec7caf252a22d499f9e0973c242febe3fabe916844617d0b734260df4e51898a7e4620c531f406eda2e;
   SD 0xf411e7d111a973d3f3094cf7b704cff67bd8a75664625d0ddcd2bb3dee346d9f4334811f9dafdcee56d695a0d7c9db6 0xad9525d638144756c28540a5d8c4ed97419270206d2dc62ddbbaadd2f3a2d89d66f5935d9c80ec9900f807af838d3c9;
   SA 0xfadc546e883d0d69c8064cc09eba213c4857a2a80e791eb494b06f0f42fd084b2129213191613fa135677424ed56d5c 0x39b0682256f2a6be143264c07e5daf6c576f27d6fe03b5d55f67eab554a61819d39db3d3400eade14002871562cff16].
Definition tS_o : list op * zpt := Eval vm_compute in mkops tS_z tS_z tS_s.
Definition tS_p : dpt := Eval vm_compute in ofD tS_z.
Definition tS_n : d2 := Eval vm_compute in snd (ofD (zneg tS_z)).
Definition tS_e : dpt := Eval vm_compute in ofD (snd tS_o).
(* [12] *)
Definition t13_z : zpt := ((0x43ff79d06a80add8340a1a548d700c5ffeef5b14a3e246834d320e323d9fcc76bae16f9f2763ab556905843518bc0c2, 0x32762e5199990da7d4ebc6409c2fdae09b25206fa89dded0a23c05406588284278c22ea15e6d03cee69a68b7d4704a4), (0x7b8eb3b0d94f08c916f6195da10e94d0f05b83418b3d3b6b6502cc324ab047967961c8d7bcc69b94501e53fabc600f3, 0x82b2fb28bdddaf702d3dda394c1dd5ffefcf24fd6b080891192186219d8d38a0a516e85dc3f74977eb47d01649f4c1e)).
Definition t13_s : list sl := [
   SD 0x1488c397766ffbeae016eddbe5e2784ed0cd8b8042ddc1e93c07fc67bafaa66280a7d2e7923155d561c03159fc3bb991 0x116d1dfd3530a516c28091d2668dfc421d6a2003428d2ba107e4307f7af667d4924e05613eb8086c78fbab5cc2d3c7f8;
   SA 0x176b4d4982a3651c73e019e3fb7abd6e7f2a33a4f701a155b3a3202aa4de4647645f3c9e728627ef9dd12730af3bfd15 0x850076904674f7f5243449151c344dd972be95a6da2e98d7fd168a18040bbbda3cb8b76759592d0efe12a0e88469da2;
   SD 0x14525cab9e8fa2628bd0f6cea65c635594bb643f5995ae46b0df6c7725a459fbc03cb2bdc8d66f2eacfdf398223859df 0x100b6a6116aae1d2ae340d3310af331cf67a0c2e85463cff5dab7d8376e704fbd827f7e6f2b843f61433f9a6decea4a8;
   SD 0x16bd3779d3c7342bc01c0e22ac6bbd880b9bb4e582fd934e2223346eb5540c26ef9c95b2819f3b3ff61641b24f966f64 0x3fe4bb4f1d21373e8d7308d6a3a15aee0e7e2c38b811c44da1ee77afc7b6acbe515201f6d289828ed8a9f80ca7a87b1].
Definition t13_o : list op * zpt := Eval vm_compute in mkops t13_z t13_z t13_s.
Definition t13_p : dpt := Eval vm_compute in ofD t13_z.
Definition t13_n : d2 := Eval vm_compute in snd (ofD (zneg t13_z)).
Definition t13_e : dpt := Eval vm_compute in ofD (snd t13_o).
Definition t13psi_z : zpt := ((0x12495cb1d0edd684373c68feea4cbfd890de88b5c24707af95f987975a5d00b5c45cc993880a674350a86f464b58ed6b, 0xa3faa5930a2d3532eff5f8014d935c0f0144fedbe864906314ce154a76cbb2eb49852b9b58090c06db44b84301daef), (0x572072865bd6cb88fa243916711e9c9e3b71ba58d6b379c6b8d4d6cd0d958ab3f7a596b6f3c1bd8d99e174aadfed1ff, 0x807fdc3a99731b8e0d8b45ba0d41cbb124a98318363b5bdc5232ebb7e58b55354f6ce20959394fa7dd3ba98cebf5787)).
Definition t13psi_p : dpt := Eval vm_compute in ofD t13psi_z.
(* [22] *)
Definition t23_z : zpt := ((0x503fbc16c24192886d4bb5c5f791e3c3448dc4e19f0ca8d0bcd6cf6cbe9ccd602478cafaf1d7847458df499807d8ae2, 0x1c8529db7e45f16111c0c95106d37fb89a90afb348c9082db6d49fc34ee0077501c7ac278ed112708313a28768cc52c), (0x1873c5f5fa3eb73934201eb8817ad3cf6e60d652d3bbcaddd3dd311b64e59ace27eeabf2fb9ab6ede2bd7f4d005b10f6, 0x19b0058ed355111a3cabda7a6a2b3fc103584d915d5e9fae2207ce8bbce772b4e9d43267e453254d48532584e7ae50ab)).
Definition t23_s : list sl := [
   SD 0x1d7f8855e4559f9cea16634bb0d0983e17e1fa65f8cc5ae6168178340630422e1cdd01e8b1796282536e9f8e05179ab 0x169735b15a4df14f90e877e93ab9fb40baf669ff4b8812feb64fcde93a1123f5a6c275e19279dc96a9956108197d9143;
   SD 0xd84151d9981e258a54512d3ad804d6c9b6448d8c14f97347f64f78bb6da4a863c2c0f5c8be4ea25bd4c43793b341316 0x1658b41ab7a27aaaa482b003a726101d166679f5939271dff4576b62e65b28b3bf7267dc3ec6435b828ad2a3994b325d;
   SA 0xa3e73b4253ed6c68aa324288ab000011c898b3642c15e434c96fec24c76d85023e540757b4a319f0f68a9a4802f77ef 0xed1893f1d7318a4fdb599cd1603c5ba44a9486bd26c17910c68b86a1c775f060fdf3e3e34ed889296554569f7c1945f;
   SD 0x3e193c50d54a2f9b38dc034738f3b65497f24cc571ec9e13af4e3c9ae1c27a638148e336b0e066d856610a9cbcc0562 0x90b0af75e375b3947b396b4b927d374cab64daf31b1e86e90221c964ee5a13eb931e0b643d1b38ae071b8e22ce0051c;
   SA 0x1432e035a62d9d2d244ea273e6dae72168c6a5c164b19805d440439d198a754970f69522a46c56646f764d0c03b9c9c7 0x13eabe6da8e761e58db09be613cd2a1cd047bbe61fe24e9d4cac35c753f0c900683df52e325d7bf22835ef486837e689;
   SD 0x29210715f324e15e41262e6a44ee82fba2836214e676559ec849c71a5e1c52c59b71985816d81d828307a9ec402cef4 0x159f927cfa9cfea5d1c77ef2dc19e2d7fcf0211235a156c0a5569b28daa05e43f05007f5e9eeef29158e4d4fd5cacd10].
Definition t23_o : list op * zpt := Eval vm_compute in mkops t23_z t23_z t23_s.
Definition t23_p : dpt := Eval vm_compute in ofD t23_z.
Definition t23_n : d2 := Eval vm_compute in snd (ofD (zneg t23_z)).
Definition t23_e : dpt := Eval vm_compute in ofD (snd t23_o).
(* [2712] *)
Definition t2713_z : zpt := ((0xee179345ff775f765953a590c8f3745ecd0ba60010710de6f190322af3dfe1b045246e5d06659cbec34d3a3e94ad785, 0x3fe6d181aad01920fb81d303f5e2b3fbbaab7a1b6596151ef6951e5905537f0734e060cfa03caa38b47456faa438aa6), (0xa7de3202f79ea780016ee3ac4a488bf7fb371283d4905b08f67cb4fb8239bba299d6f0b6a6e15737c69388ef85dc385, 0xca47e4a8919a5f7c7d230e49d8043a2045c46f992bd9267a01d5e6c81a906643e00b5a7b2765451bd37b7d88ce6764d)).
Definition t2713_s : list sl := [
   SD 0xd78d4bbfcf0032eb57dbc7681b45264a0c1626cd01961d5a50f7e0c2b47146e255b931564450769041698a28ebf3e02 0x1047de96d735f7d396eb3be1616c67b59404bbe7cb3f71739a3779202a863d5cd72062401690f70ead502613fe0e1ad8;
   SD 0x19e7a11e6e64f38c5860656e42d6e87b1b2475e972335a34be3df85cab15af7de2579791de060dc410a8c614e3434c0d 0x9835be3f2c65b9718de8cdc4242c1c538ce61104c51952143d9213bf9a3a2c81c5b6d4f82c57d3d2ff97433ed11e105;
   SA 0x10a8e59a8102ac62e4d693e9d465282e11d4f9ae1d4f31db4338b342f5d053ef3d9a433db2494f321c042a9afbc8de25 0x1592d40ab452306f94959387a994f71db7275ca8fcf2654b3f2b9741f599a3d35bb9f5be5ca67811640a3d01924c7543;
   SD 0x5fdf451020beacef7fb05b86c5cfd109d33dd6a52f36aac7ef7ecf54133727e31c3d0126f6d32b0c967ca6c6d06e2b 0x10e4bcf287182b33c2dd310ae703b629ac9acf644eb0cf91af73d3aedcc2a27e7050d04fd54ab2dd428f1db8cc148959;
   SD 0x536c93f82956f629bcebac1f22e95087e126c3940e2baa155df6381cd4bed760c4c2d35295bb8395eb966942b56e2b7 0x1074ff572f3f95eca400261cbd7129201225a0c3bab8cb5951dc4e04093f0522f9b9767fdae8c871ec3ba31f74db26d9;
   SA 0xadf1dbc424e1586c13c8c569cdc1bb4f9943e4befd6747a1c170bb6d2e9b688a01558b600cf16c896084a11ebacd270 0x3d5a707c3743541030af58658095b634d5b75dd12b56badb2c864deb123ce4c27b7e0c13e6bcbda4762d55ba93d89c3;
   SD 0x1a4caf28a32cec2d32968ea38cd4b72efcf41dca5c9873cb5c808ba611aafdcef9ca03779a53bea221f2d43d95defeb 0x965b02517e3b1e7a185ca09d4a136e626397f5bdba5c47716cdf2068ebf327ea5bc9d5c66fe181fa9fcdfeb1c8d1232;
   SD 0x1426847365b418e42e87069def31475bc9a100c7b6733233ccd88c7898f0f309bdd94178f4ebc35a36670d103000528a 0x12c1928abaa58b46a6ae18586ec31d3f6b437dbdf9294623140d754ac62080d1ad670e0fdd65d0c4fde8b8800e5afa55;
   SA 0x19e4cde0eb9760da4302d0c506bcc62a93bd4e3eee1e5fff222af8e3262bffbe2bbb7a4760df20b457ee8fd02411d670 0xeefcce1983f10612eaa46413da16c2b08001e18957d8c3e1eb5bac177ac8a66a318ebae4495b7f7db5cd4505b5148ab;
   SD 0x3bd40343a33fc4ecab00ab1e3c5284082f8533af83544bb010ab299680f280f42bf09d06218d0146deed4ebb5aa2861 0xe61f735bd35a1ed3b63c2b50b891e22dba714cdeb9839257e0e12d5a7d02bed0796787db6fcd1bf78dbd561486182d3;
   SD 0x34a82ff5555748b42e6e8b351aa8e78ccdc21eb03d065a8d06874ccae4088c2516b710c5327dbad15d022af9bdf7b44 0x5d52e388b6ed53e14c6ffc7fc9b5a55de60ffed37949ceb3e8182306b917b424a93ec846460e2c3982362c74f11a17f;
   SS 0x433403d45bc5ee94594f8749c93fb25568a19be17b1b93f5f7a740e412a17528e4265ab913ef69f6ebfba828527aa03 0x24068e5724c9f378712fd294dacc0870d86f2995d297371286ca80e73a9e5f285ba9e5e88c8f611a269b76a4ca52eb3;
   SD 0x34ffd1f23a9410f9221e07cee07e0fe2a6353b53ca492b15bfeeb7f614b6b70fb5ad97ec41b4b76a8d68ae0120db0df 0x18a340f45e5c8dba071831493dd985cb48440867d77fc090af407fd55f27da015796ea71c81d9d61d54b46ce44fda9c8;
   SD 0x169b56953c9010a81c4a85631d111c64d36d92428cd5acfd2018587da940a65c681c8cf98e9c763d6499a5ab692ff6c6 0x16739feac34c17f4b23f9c09658a9dd58742b240304a98b7ce40e173ea506c73838c526a5e5bd2f73ac5e5a984231ca7;
   SD 0x1252ded0d5b5c49dc07fd0e3dc5592da9bca9076f9c5b798c61552c06383dcd06ddebce402e63392aa929a76e2fdaf02 0xef84eb3c2262ac511825393847368b93240adc6a17d2629f77a84a63186c66c8d94cae4325b4143cf9e9fbf0e070f8c].
Definition t2713_o : list op * zpt := Eval vm_compute in mkops t2713_z t2713_z t2713_s.
Definition t2713_p : dpt := Eval vm_compute in ofD t2713_z.
Definition t2713_n : d2 := Eval vm_compute in snd (ofD (zneg t2713_z)).
Definition t2713_e : dpt := Eval vm_compute in ofD (snd t2713_o).
(* [11952] *)
Definition t11953_z : zpt := ((0x131c61c18d028c6288a8cdaa6b4b2b492aa06c85da88fd4893aae40ab1be2994e9ec1360fb3e49720752bdf0b644d8ff, 0x18c9647206004bac70be168b636322b20cfaded211833a8fe3859f23a5200bb8d5c4ef9cf2f7bced6aefa748d59ad44a), (0x135451dfc6ffd27bc80f50e596bb4ab114f49f1fb3394bd57e06f817be8ceaa875457d902ec665518a33d9def9aaa6a5, 0x164974c3d58e92ae65f47de620528ecfe8f28c545d9118ba8bbb11202a0dbcbf34913e64c1bf61c0108fc76ceea3e720)).
Definition t11953_s : list sl := [
   SD 0xbdedff124fb25f325338e5611580852db403b37238de5bf86ecdb85775f518be8327bb420dface8ea418d256d728b3e 0x1262f99c8111295eba2385dc0e924d447bd8e81060d82082b81304a06d542d5ff7e26324877b80723e2ddb73c26f55b6;
   SD 0xb6e85132ae8ce48c074a27bb905bdf7f0dbb5f10e03c8abffab00efeab1ed7c1e430136d2b3dec1339be46470fa03a1 0x175e77ad6e165e155be446cb0168d9fe73c5d496c108ae441c6eb40e45af30b26efe2b9dadfed2d71b19566c6f03a142;
   SS 0xee1a38434a0714281b90f0092bfc9cfbc243bc7310f84af1213e3144786e807fe1fc70aa82bcfbfc34495509cc9faa 0x16b8724ae57c832b2696ccb9b2a300c32d51b05020a036a2598e852f1eb0b53aae56e1ffe3e3fb200ffb2130dd337d14;
   SD 0x1071cade5a6ef53b6f8da5c2dfa9f1f6d98a1938922740a8276f0d10f1131834103adf6b06770992144f9cede32953cd 0x246134a7504ef3b4d737c4395246baeec34db3d0a17e13e88aa94cd97348f91d33c94c66d4bb216b50f99651c5984cd;
   SD 0x6a4dd532bc31274d1b774bfd720a09b93b5367276b794e2f8151e6180385de3ec3783c20c06accf7dde07a49ae28a86 0x6731fd21af5e9436ef6f7ccd9ad6469fd076364670e0c84d57c0a44b6f416b5c38b2600b4c1dd62f673f32980a2d870;
   SD 0x4a7f114ecc72f1449f62dee3bc14460aad83d8afa635424cae267e34c97512ede419e3049513d915d97ea02ac9e5a0b 0x6271fa5407ddb82d26ea27eaa7f90b605d233ae3d3f41b7ea379affde0de480a57ed2eedc90a7f427c0423869b1cd50;
   SD 0x14959c3dedaf56c423924eef6a90157171001d77c547e09cc82138592a6c35baaa2d3e6ca20ae7ab01470e909964531f 0x6af542bcbfddde0947a88135a14656e541755be5d255d68c8d1a1511bfde9b6fc1f2ac7d6a540260eda109bebb308ae;
   SS 0x18506d59ca570524d9ab584811612d4fe0b263aac5b50e2cb12c122c1fac83e2380b42551c3e80eadfeb78c4b69891af 0xccef66e61b295fab1a167dcff665d8d8007683af452e24d29127c2665f4cb52823a2384350309e66b861f2d63e6d6e2;
   SD 0x1282d0a4133b81ce5dcc4ae25aee595ab88f59732b43df697098757b2bf5cf568bb14af5f1f3a9bd7280978d0fe5ed0e 0xfc92ce4ae397bd4a39fc21951e129a9d3246e160f1ae4033d38edc63664e6f24297af760cfe4a1f5280624954adc9ab;
   SD 0x10d57def715da36f1b53d7459a82da8d9f9003a0be6ea7d24295a9dfa8f4b0bc0a8fbef7702ebe817c8b154c23673264 0x679eb1408e12c7ff2b147f090cfc8423152a0b9e4fd4b029ac95b46bbb82021c38196037d0acba6bf721f15be92d281;
   SS 0x16dd856432573091b5b37a2906e6f41cdd624b33e72408191b3a97a401ac5b27534fe3d0e58149122446408806fc81ce 0x14543d3276c3c555b1c6058419e62951b28723e319ffccfdf4cabfb522c0897d33f279c2a2f2cc67fefcedbe079faaa6;
   SD 0x160b5f7175e785b7a531c4a4b2a2a5e3de3388568996d268f997c16ab3ac2423d4dfa57ceeab998d65b7f7d5527c814f 0x8dfd287c2f40fe81829306624e94852ffd7c13f7886afc64ea6fbfd02b5e7ab07e7f55dd76f7a3c36fcc7c485153c7d;
   SD 0x12bf6925e83ce08bd5a92c31f6813500fb3c82bfb1b449b0a84765c6b053a5e37039635eaa7053da7dc9fabc201e3f8b 0xd8f591124f830cb77e236470f14bd0a6a95a8b7b0d1c3dd19f8fade53fbcaf1372c52b31fae06ba06b1d9e2ddbb2f94;
   SS 0x6403528d60aa838ff00e0f372abef9a04cd6b3c4bb95688ea6e0609710d7cec05bfb92041e8d2efb076956e2af67057 0x9e27474f99e7bd28164c92cded7d578e65a19c95a610f1f5b07c4c575b6d873e12c952d17de38322ffa8f5662c56080;
   SD 0x903ec06d6c6c5ec0e64ee0918e89ff58e14d162ac0a64b97abca9909f8a405b8b1038ce8e52538b1d0721220ff94bf 0x6f21409006e352d9aeedbcef162b46656917e21e48914b1c1947c371e7981f75b642c8a5617c094fcd49a29b9695433;
   SD 0x451ee48f2ce5c9a3856b36eccec0ff21ef18fbf904b5523d4248259dbe87fb5f81f8ad5f1d1982b630d1a568c144cc6 0x29f09d22cecea6b3936ebe333be839f8d4344bf1674da3b5cecda502b998a98c2c8ed5ecba49085c4c6880a583782be;
   SD 0xb5dd4d784b86551032569aeb2a7c69a5214abed32781c9d8152e81e0fac0f67ec2ad6ddc71ede2e02f1d9abf87183ee 0x148be890bde586b0053c0149de6329cf04461abde88006baf2407d508b19e9703e77ba9109e1b9d2f9b284751054e2c6;
   SD 0xbc7e6e18db04ff717feaab695e1398b9e28e9f994e22503d0656385132c3ce37b1dd6eeffa2d7ba191ea0102bc54be0 0xfb2df7ce8bc1196aed6c2712dfda0fc6e1eface0b6246503efc73f2d2b0f37059bb89ff6755accd7d2fcc35892eadea].
Definition t11953_o : list op * zpt := Eval vm_compute in mkops t11953_z t11953_z t11953_s.
Definition t11953_p : dpt := Eval vm_compute in ofD t11953_z.
Definition t11953_n : d2 := Eval vm_compute in snd (ofD (zneg t11953_z)).
Definition t11953_e : dpt := Eval vm_compute in ofD (snd t11953_o).
(* [262068] *)
Definition t262069_z : zpt := ((0x1411897d7e25d488bccb28adc0a40ab64b0a29c723a62454c6c4543b3a9cd1670f666e9c3a2bb8de87cc042279b21bf1, 0xb613c71e679fcba121b03a3f58d8031f6c9962218b90020fe6a88f55b898951ee4bb9c36166b2b74f21c60f2681c5f5), (0xf23d377f8ac010d937688bc679870e54c21b219a31a60c84ae4627ef61d70b73ba9b3f44f92e51a112e5dbec7e60118, 0x75d7981a4e97035b5fcf086a81272d6ffe765941edd2c7843f6d3f8d3b62d66e3d72d6f033de3af8feedba9f9e4b3c7)).
Definition t262069_s : list sl := [
   SD 0x41b9b014befdd468f282aaa4d1d1a7528564ff42ea49127d998b716a837caead9a106a06afb62cf0bde61b147bbfaf3 0xcf61bf687c512547ff77c54b9fa3eb0bc2ff4fcd68a90b54ce53601025c65d0fbe3cab17f22e3743a6d256619fb0644;
   SD 0x2e94002ffeacccb0ea995aef58d8ea5ec850207257876c6b0a5f8d12879ed622290cd29f38434bc60b87ff912173283 0xb3f312cf1f71be5de3e270f09043047de5c104f76a473b27240af0bb229482afedb23c4db876222e6a28b42b370dce6;
   SD 0x145d889cf06b5b7efe5fbf6b862731631952228972a7b8988f38df5a3668005fd7617e2d936705013462e17da5a52fa6 0xfd58696b08c57a726253fc29b13b058b5ec37f31a8638a6519caaa87b21fa830f592a3cfbf25591e5ce4d66ad99ce00;
   SD 0x18128c016301c1c990cb168e9996b812fef1626655c54f1db24d46c2471bcf6abba540703bfcaeea83cf5dab38f10821 0xcd2068a5482c162a6ff6ec516bca078e92cf18892da9496330cb39ec10036f87a6d61b1d4cfdb48223be3e682ecb4bd;
   SD 0x4ab7c2c6b405cf5bbbd18eb8f74a592bc7082b6fde630c9a65bed949887dc3f8511e348b5b0ae42a473e7522aad58f4 0xc5a8df0c2ad8fe13ee0f100141ea95b025f8ac18d5976babb1bc2a18c3dcd686011f0e10ea901b003fcce835332c8da;
   SD 0x830f549a413b5d70814da9e7dc46e3436993a44e84c6eaa9d3ebe03eab78cd1ef0e3f975fee0faca0b3fcbd84794191 0xca173f961df1de9a279478c35aa0cd0fb316dfffe2b807f7edbbd20913b93ec23cbb531f67bd11f2dd9f55fe50b222f;
   SD 0xc29b4b0dd714434a13bfe7353fb454bc01973f63630113bdd98b16c606f821c77266cb6e9d759ab3ecfa9e4107bdd48 0xb0c733187d4351270b9f3b267a8d72b27241efeb173392db8fbdc67f9510c3f10dbe7c2115556b3fe36a88706729424;
   SD 0x25994652ee9c55ac83e84e12a855a7358e483bb610a47879e9a20ebd0c53f727c5c42a86a3ed39dde03deaf5f6f6849 0xd215e7a85edf3aa12f44651c1516835b977574aaa5e4db0e295105f0d73dcebc08a8eb26694d820b9abe74d7625654d;
   SD 0xcc76c562386eb28bcbae8cf8f64253f11ed2c7d012080e3f29409679b7baa3add54554f9a34772a34d20411a28fe1ae 0x58ec79b35272bb2fe7437531d4b1a184a464a157245fd0ee14a269849a339f4bd31e811587a85d79d2c623bc63b41bc;
   SD 0x8b8c60c9ce41612590ffaa954b4b62fec1b92e0412075dd133b3be7b44e59ff5542b481ad8fec4ce37c992f89e51fa3 0x13c3a8c367be84a83f21857aaffe6a8390a03d832a86a04ba6a9f1a27cbdc858ec875b8f4ed7fba993acb4b0d3c128df;
   SD 0x2e5f1952263f7a17ac81c79616bd3158fe711b84f3622957cfa0698306adf2cf7521db8d3a510efe135779fb0a809dd 0x115d330d937a345792a5c6b8a0a511d729cad8e2ca9250cba331a0462dd172d000b7b78da1b70333b28fb26e2663a5dd;
   SD 0x1538b5192ca4c411f65440a488e5a22d33175ef5f3e2c47ada51b9887287608b8705baf1064ece275deac45290b6b269 0x72491fc6579e75e71a5316fd813984dd0b1561b52d9a2dbff101d5b4ed79488c1df4e307048733f6fc79a98d28a2c98;
   SS 0x2ff0e70462dbcbe77b27f00d5e8cb815f620fbbfdb03abcfb5d6e55f63a2c3bbeccd6a73e2523eb39213d9f7bd70e7d 0xf2a60d7b19739c64fa8ff9c608a82296258916dbbf9050f189789518292b6b38b53dd0c42154e0ab0b1e81065e20edc;
   SD 0xc618b846d6d0209955a9532a6c47619157aa001dc28f1f3184ea878aee377d7da98528d4abbc7cb117bfc8f880d143d 0x16786c0f4a15cf44547249569b387984f6ec7a025cdacf2997c1ad561ad5c3c1a8179e3a2d7eb54e0163eddad65b1f14;
   SD 0x178050d07edcbaae17b3a189275e41a10b06bb65a83ac17fe4d766203e564de6ddc9f7c3009a47177142d7872e5ee103 0x18241d14854dd13de6d85ca84f9f5c620f3da206a9ca5ed065a7176008825b160b4b884119e20437eae90d8a8cc29a1a;
   SS 0x172b1cb85eb33ce498e60811ae2d27f45a299e4e26480ea58642ea9bfa4a3f363c0ee6bbced60ec34fc9835e0003b50 0x71dc1277507042df120634cd02de6ac8ecea57c7a9a2ffb91a4bd3e61922dd6d83e9e0f4830742bf3119aae3dfa353d;
   SD 0x10dbcf2746c25cec15e8fffdaf15bc7de248f43b6c08fd5cbf549770c06cc2db4cedddefa5e5465d2c17c23b8136ee25 0x56fd95c349f48d81775363db5e7a3aff60b73aa981710784df1412f7fe629c79dcf3c75f987250e8b50a58fda203721;
   SD 0x97897a2853dc77da42b49855f2cc3a6b71af13e3646ee76ccbb9ad3d954e24f38636c7734232d29c2b717d4c42acc0d 0xa0436407dce201f7a6c8b5e7189b343b9f56ab24111146a50972cec797ff2e1f16b6d58d7fe6ce6f74a5ba4457a5cc6;
   SA 0x6c62ba75f49d196374e8e455b577e304ebd359bc8344369d4898c8daa60d48dd69785ed57b33f657abb44a28cd995e8 0x78bc905fab4a30b22aee2e71ae20427a6c2e5f3fd33bb2ce862576aa46c1ea3d90f8c7a8c5c264bc0cd7db0df891f0a;
   SD 0x5fad4ed7d99f8f92d4744d83052a3cd1cd7d6cd47028cfb3f7aa6590539983369f7884484d3fe3d0ff4d668bc114795 0x99c1b865bc79a4a90efdf10d7b3a347816c220091e5ef7a22a0507e899d5e7e92d548a8cc7aff1acf4e355c9869086a;
   SD 0xf2609369361d41b74ae9ebe79d897cc6d26b26adb58f55f0172cff0f3d27772c23e3424513ccbe69666144ba895adc3 0xac6c2fb63f00c63a170ab26a7db03f8d5f2e46a4349578527d4d5d02f7b526631ff57271a03bea94b7e36661cd5339e].
Definition t262069_o : list op * zpt := Eval vm_compute in mkops t262069_z t262069_z t262069_s.
Definition t262069_p : dpt := Eval vm_compute in ofD t262069_z.
Definition t262069_n : d2 := Eval vm_compute in snd (ofD (zneg t262069_z)).
Definition t262069_e : dpt := Eval vm_compute in ofD (snd t262069_o).
