(* More points of the twist and slopes of chains of additions, found outside; checked in ClearP.v. *)
From Coq Require Import ZArith List.
From Verif Require Import Dig TwD TwPts.
Import ListNotations.
Open Scope Z_scope.
(* [2017] *)
Definition e2713_z : zpt := ((0xee179345ff775f765953a590c8f3745ecd0ba60010710de6f190322af3dfe1b045246e5d06659cbec34d3a3e94ad785, 0x3fe6d181aad01920fb81d303f5e2b3fbbaab7a1b6596151ef6951e5905537f0734e060cfa03caa38b47456faa438aa6), (0xa7de3202f79ea780016ee3ac4a488bf7fb371283d4905b08f67cb4fb8239bba299d6f0b6a6e15737c69388ef85dc385, 0xca47e4a8919a5f7c7d230e49d8043a2045c46f992bd9267a01d5e6c81a906643e00b5a7b2765451bd37b7d88ce6764d)).
Definition e2713_s : list sl := [
   SD 0xd78d4bbfcf0032eb57dbc7681b45264a0c1626cd01961d5a50f7e0c2b47146e255b931564450769041698a28ebf3e02 0x1047de96d735f7d396eb3be1616c67b59404bbe7cb3f71739a3779202a863d5cd72062401690f70ead502613fe0e1ad8;
   SD 0x19e7a11e6e64f38c5860656e42d6e87b1b2475e972335a34be3df85cab15af7de2579791de060dc410a8c614e3434c0d 0x9835be3f2c65b9718de8cdc4242c1c538ce61104c51952143d9213bf9a3a2c81c5b6d4f82c57d3d2ff97433ed11e105;
   SD 0xb6b12b476430d4df84573eab2e4aecf981e3926a5e69c67bf7e3434b704dea206c0f71eef9ad20703457274a56990de 0xfd59e0a6bcd0b2ce7736b2f86d87e43a2d88a4f9edb5771d6d62395218c0ef691fa96a7c7cc259570a0d5f3dd643d99;
   SD 0x87cb7805947a05d0660aa5edd7d4e82e10be57983318518508c0da7bf564a3a9908593bae5d623f3166ad09047dbdb6 0x16aa006c3fd34c1b0e7b915424a34eea89a681953cafd215d99ca8e8fcb46d06fba9f47b90bf4b3bede64ebaaeb01501;
   SD 0xe6ff55fe8c1cb381df1c0ec31472b77598c0799319dc266d1c0553c96504407be43978ef16ce6f597242a4ae9ce7c64 0x208fb0fef582d8c7bc0fdd3c0412c1cdd861c5c3358b0e2e7c8f278441ddb4a406b7e8fc4dbeaee03065b0e1df3e2c4;
   SD 0x13387ce48f5de07690377f1f366a593159ad4662b74b65853a189e071a6ba0a17459479fa864ffeaa360458c30c76c1 0x11bfa04871abf1161bfd5e1ae4de8eba6ddc9e73e0949c8a0ad8dfed26d581fb3bca6aaf24dfeb2f60735918978ed0b7;
   SS 0x392a8101cd26e4fbd630fbbc03374b47711ffd13e832be4559895f8d6b7330390d9a44874080825debfa5a2e45b94bc 0x13b9236296498661bb28a527f1f834ff618b0ed19f5be6aa40a3dff8ad0bfe59227ca6c39dc950fa71df0a74c8b058d2;
   SD 0x152a0a645b002d804a6ecfbaeb2036f665640da47d06595d16aab1f3466c0c5c0be647f68180a8dd847b3da1c5df2ef4 0x169f69181669157f6ae9036b2c014eb75b07d374b811122ddd8450c9fdf9f8f8b335c79c4650906fe42ec5da4f2494dd;
   SD 0x95e7002b5218ec58b10776bfd2c7c16cc9862680f6ffc3f74cf6555afed4ffe29d92cc2bd42188c5d71aca6f130cdb3 0x18d39a0a866cb3447d2ef88ca5dac4a4ef0362df566c36b3eab40f221a3e6e8ba7f8c6bbfa442cb17f33b1109a420bbe;
   SD 0x195ec33a8de13e7baf514ea64a093aab0defc7434052277acad7b153f82a7cac34b08602e5a4b0f32e0c20f693577542 0xa512a98e6539cd409bd95de1bfabeea593872400e708a67f6335c3001570630aa620e193bb3ac1f5710a64a272ad232;
   SD 0xe87ec710e8a154acc863675bc0961949e6bf5eeae265dea70320cb534a16fb087276565125ac819dc107c6c1b716e5d 0xd4477999bd6ad119a353c27ebf94a7b1dfa7c1ec454cf4df240d1113a6df619614e59809386acb8d10a48a4adb47b2;
   SD 0x15c188c6285796b03dc8d4495b090d049c1e59e55147a42704352a3a914067ba5e5625ab77ccb7c3b83ae2017f5ba68d 0x17fbf7a93bba545b4007e1e7bac546393e268c826afb70a97a2c2cb9d5838379f451ebe1e410aaf5678cee1649ba6226;
   SA 0xf076df14c81fead509b64465d05870994a69a46293868908454c0b8c2043c435305820a43fb658f5edbeb21538d2372 0x1a9390cbe36de6f60839e4b3edc39e8139523693f06b57f35a2542cde8a74f314b588fa2928266c6c0a3b2eb896387d].
Definition e2713_o : list op * zpt := Eval vm_compute in mkops e2713_z e2713_z e2713_s.
Definition e2713_p : dpt := Eval vm_compute in ofD e2713_z.
Definition e2713_n : d2 := Eval vm_compute in snd (ofD (zneg e2713_z)).
Definition e2713_e : dpt := Eval vm_compute in ofD (snd e2713_o).
(* [3605] *)
Definition e11953_z : zpt := ((0x131c61c18d028c6288a8cdaa6b4b2b492aa06c85da88fd4893aae40ab1be2994e9ec1360fb3e49720752bdf0b644d8ff, 0x18c9647206004bac70be168b636322b20cfaded211833a8fe3859f23a5200bb8d5c4ef9cf2f7bced6aefa748d59ad44a), (0x135451dfc6ffd27bc80f50e596bb4ab114f49f1fb3394bd57e06f817be8ceaa875457d902ec665518a33d9def9aaa6a5, 0x164974c3d58e92ae65f47de620528ecfe8f28c545d9118ba8bbb11202a0dbcbf34913e64c1bf61c0108fc76ceea3e720)).
Definition e11953_s : list sl := [
   SD 0xbdedff124fb25f325338e5611580852db403b37238de5bf86ecdb85775f518be8327bb420dface8ea418d256d728b3e 0x1262f99c8111295eba2385dc0e924d447bd8e81060d82082b81304a06d542d5ff7e26324877b80723e2ddb73c26f55b6;
   SD 0xb6e85132ae8ce48c074a27bb905bdf7f0dbb5f10e03c8abffab00efeab1ed7c1e430136d2b3dec1339be46470fa03a1 0x175e77ad6e165e155be446cb0168d9fe73c5d496c108ae441c6eb40e45af30b26efe2b9dadfed2d71b19566c6f03a142;
   SD 0x66796fef66e594d8508571971420af141726c61fc1880f315b7e5d23fbf24f99b7913660796f217d442c66780b7a909 0xb7b42aba1fa9483fac73551c6d7263b0397d386d142a53c2d5a210e7f5314093d96d714da0c9e645038484f9cd2be0c;
   SS 0x9961f2d8e15ca72bfc6a090fc56c22db0a2cac43430f33359c9425e2ed4580939d887985a767deb8ede6b4e3717e44d 0x10307b22b5d8a83cca781538b006a8ed86ebf9934bbb419612a531a9bbb469acaf44116270bc2762105710e2562c4891;
   SD 0x205a22c3fdaebedfde4bdce5b6b34623a314ddf8aa4ca98895d60f5ec5248588572773c604a0adce9a1b7693d106477 0xb9108493a7524d6cb9845476dd5ddfc0646d01dd151fda9e2ebc9d72aab85ef4fe0d9879a1158841e838c54cc196667;
   SD 0x154211940f7d039f6cdc8837eeefaea0ef77c8f7ff5b6aa6afe7ee7b87a6675057c72f21f7c6c5679909235a92fb3674 0x127f6f7ef9b336702e0b5054edcec3e23dc438ca91e5efc982e4fb84a5e2eb9d487906c955bcc1a5bfa2ef344b35a1fd;
   SD 0x153b5236d3aefc771614af60c2c35e9056eedf3c249a4e7f1dfc316c35550bad2262e75e9c9655cdda4778871c1c2715 0x14142fbf402147a9b1b3ac5f44b9085af38eaca3c0a30d31aa2380dddb40fb1ad71d9c50fb2250d1e9552433e089bdf2;
   SD 0xb743cb3999f85f7b9fec364f1d6e3b46d5e1cd20baeaea75a6ad181006c2eb06d849a2a03085e6864a6cac3528e63ca 0xa5178bcb3f67a4d04e649de3a8a6674ac98422ec33a67581d6bbbc6512388f78a1c39a270d4feb1dcbd690934f4ce5f;
   SD 0x11706fbb62316bd3731084b605bcc0176a2ac1d35f7bcd8cd76b03e2dce6a0a49bff381d06e87130df3b4a2829a4b0d7 0x19ca5400f13f174970d9e625ade0261a124ee8d1c067837a3f005a8e1b9b4773b0b18e202332b936c756f6714620aa86;
   SA 0x96bf1ab6851b6346f0d9ac297c9fc6337d578d1b7fc814eb7d7d30b92e22851bfca8671189b1c95249e1859bc29c859 0x19712cb502fe0e5ad5700ac867e059920037379be4b6513f699a4dce0a520127041b7a7257b01d828945f0b410d3a024;
   SD 0x33d71233fce8c20a904781c3d0be0a8156f60d3a35be4f78a9ae562dfbeeeb76d7d2a287e7858190c91cd45ef090c89 0x2a333bb3064ff7a668bc22ce49e834803904921684ac5ee444409309981a3e4eae68a41b2a6e5d32577e0cf0c499a88;
   SD 0x452e2479cbb4880914a44091deedd51f3bd32117e439e0db501e3f1292f85d8fb0206c0b2327546146a728986d18c79 0x58a5b1d7031017ca08df97bc77292d38bc75dcbe712327ed247ccc3746a9b397714a25bb3a59b4ada31bdbeeb360136;
   SA 0x14126a366d1c3b1c0bfc31fe37614b0fb948e1b536878a87685b827a4ba994b55c82fbacae4fa9de166291e6d4bf66b9 0x79a68de1abe693ca4c9c0e08a6571e013cdfb336ec759bc17a3599bdc8a0c499a894ed977ae08c99db364927e11ced5;
   SD 0xa64234b0d4703b870dee39254b2693204670dc21483a932f7071163abb3dad8f7d50d178cac58240ece3faff1b2c9da 0xf7058af232f664953cd739652a648cd94aa2917595fe5166157c52d88ba76caf05209a987f62a33690ba95cff03c8cf;
   SD 0xdf039965f005441a167e199c691450cecff29ad1b30128f8e77ed7b54bbf6bef7db107bcd9bc9cd5e798c8f0b6528dc 0x90575021c120cc6279984be6256755f91c42bcda320669cb029d13263157fe13b4fdf34a6392494292fed0905637ac9;
   SA 0xbe697d0dd3e006ebaa47fa7f33bd4052de08830e53eb3912d15becf551d3dfeefacbaed911ac42a3fb6a61fee6bc846 0x18036dcd407bb62eae8d11a3012963660fc612c0738c727cd300dd29e64dc4888ec0ce1e9ab1502112763cfb999b3fc5].
Definition e11953_o : list op * zpt := Eval vm_compute in mkops e11953_z e11953_z e11953_s.
Definition e11953_p : dpt := Eval vm_compute in ofD e11953_z.
Definition e11953_n : d2 := Eval vm_compute in snd (ofD (zneg e11953_z)).
Definition e11953_e : dpt := Eval vm_compute in ofD (snd e11953_o).
(* [88066] *)
Definition e262069_z : zpt := ((0x1411897d7e25d488bccb28adc0a40ab64b0a29c723a62454c6c4543b3a9cd1670f666e9c3a2bb8de87cc042279b21bf1, 0xb613c71e679fcba121b03a3f58d8031f6c9962218b90020fe6a88f55b898951ee4bb9c36166b2b74f21c60f2681c5f5), (0xf23d377f8ac010d937688bc679870e54c21b219a31a60c84ae4627ef61d70b73ba9b3f44f92e51a112e5dbec7e60118, 0x75d7981a4e97035b5fcf086a81272d6ffe765941edd2c7843f6d3f8d3b62d66e3d72d6f033de3af8feedba9f9e4b3c7)).
Definition e262069_s : list sl := [
   SD 0x41b9b014befdd468f282aaa4d1d1a7528564ff42ea49127d998b716a837caead9a106a06afb62cf0bde61b147bbfaf3 0xcf61bf687c512547ff77c54b9fa3eb0bc2ff4fcd68a90b54ce53601025c65d0fbe3cab17f22e3743a6d256619fb0644;
   SD 0x2e94002ffeacccb0ea995aef58d8ea5ec850207257876c6b0a5f8d12879ed622290cd29f38434bc60b87ff912173283 0xb3f312cf1f71be5de3e270f09043047de5c104f76a473b27240af0bb229482afedb23c4db876222e6a28b42b370dce6;
   SA 0x145d7a9aed5a056e2f9d7c9e066b0fb5e8a3dfe53662986feb69bfa621af886bdde8283b630ebb7552b9b998f56dbaa 0xa96539c99286cec4ee07e1b447ca0145c92208f6af52e995a1ce4afca8c9dbb6abb981f109406280b86e7bb2a95cfe0;
   SD 0xafb235f3492f8047f1fb0db14c5752fa92b5c3c895f4ebef5ab2a9a1534924e9cabfab4c14c69b2d6ba8102a55a5a04 0x10e0b1ffd4ecb6dbab37ba4e127c2aaa98509a91fd77a9198e7093664facdf4c8cd630b6a950f869437f41348b3f8da9;
   SD 0x14cda13206379546b76f61049ff073b2d408a68d486fd99363d055d139393fa25215fa36c85ecc15f77ef31642f90376 0x1312eb3c93a710cac9e357fa9e1e62583373d3d6c887865d23f5f41ab146ba062055d89cf27b4f9456b5b383b858e06b;
   SA 0x19252ac5e06ac8ecc81dd59cb70506f95d6ee21cb08e2af921e06b895d47d5b8702596469d6f5d022321bf629c9c7643 0xdefc6659b6ee21e455fa5b4faf5d47bc420b5a217ab3ed0b930c1d478d3fab25823144b0ab8389e845425feac83e9b0;
   SD 0xa9883460408efca100ec52e6f61d87bf5c9990a2f6a1264587188b606fa69020b88e708b0dc13e50f88b59b8fcc1c08 0x10b86ca5cf4e1db7526dbd68db13937d971d0b33798db0594ce89a3a7709f8448c628c5df49cf889ea217bbd3711bf2d;
   SA 0xc7f11012587776fc981c8eda8bfaab80b0ae970bbd867c34f9a525cf01ca76e5df8c5edbd1b5c3d5a99dafa71e7eb1 0x102bbe0423dbba2a58b38720957eb4ad86097191650346eb8d036e111e56af473d7c6832f8b0c96ae3f77b41d2cea723;
   SD 0xa48522f8613789147d1e1b9c50c1de12963bb32b75b1651eaddc863b1b74f76f4f2ba5abbd187c4e4e91f46e6563366 0xddff27788d3848e11e6bd212c060f4483ef600eeffa7af6a06a21d789db33450d84587ea8aa1184ac1611d12b8b033a;
   SD 0x120cbee4063854124b80cced611da89cdc321bf113da3d36d157f9e09d956b58e9919c0570d55b090e5ff37c123a233c 0x16bbc71d737134df8e076dab0cfbc53dddc3dcb43a29fd271b768507ec0fc1778c2403541cbf0e4c94c9ca58cd73ae5f;
   SD 0x3b7f2bbef394ab78521068a44cf85eeafbe2bdb57b0b3dbf7964d3a3357cf269fc56fdd6e4df74d27e2914d074a3f33 0x6cc310fb2b17d9cd0963a9e0569841fcff069140f2946ab891834f418d1d75e6200b06e3920b40ba823401cc8791740;
   SD 0xe4e72c747610a874bd48ef60ce4fa4d2d36c4cc8a0857876b8b5a054312b9c27abfd211caaeb8a0ff309bd8b0a33d8e 0x189945f93946a1abf8d56bc37df05154c532069a7426a342fee6ea3ed6a9235b413b955110aca44bd6ed3360133ec1d5;
   SD 0x68f9b8847e55e3bf807def14e52ff987da240501ff2b59cd3d6db4de9a0ac1a4f992d5fb9668e72cc507df14674ac81 0x1072c3dc89be5672a1298f43885be5f70009281bcfa60792ce47dd5094567b643d3a808879d4ba40f6673261cd2b4846;
   SD 0x13c1666ed345747465f8a30108241d9f699770d41de83a008c032d6e6bc8bd7794b7b9db74b4bc538ace0f673c499afe 0x13a2f39e9f90cadcf1d95261f1efdaa58bada853e00d4d825c95211062fca2cf8ca8a93450955f0157e704ec5497c8d9;
   SD 0x1864e6be4c4a224bbb5565a610918a5a939fec0eb57bddb29540fc53316e182547c7b3acfae93f62b4f94a066945a2e3 0x1431f2cfcf11c39ffa58ac08d3eb3c7a251c63ed7edb7b89e770b5bace5e7f768c246dd3cafcfc24597d3389044b1d2;
   SD 0x312e3c906e566eae0657d0925c3db48602b9f8dc55e72945bb2f857f8329d3706ae403c434419a3d06b36e478d460fd 0x9073231542609103c8c1572155cc9ba532745a21d7713e4ad8c339582fbe39d8372ebfa93dbfe728dab01c572ad1308;
   SD 0xcaa161a50824f3e9ad4a3f08e69b05d9c1f9b29e231ceb07a98dcc7c0e9e4fc2ed1942968ef9d243348b5a80c32f1b7 0xe1589d137ee2c7a18672e5baa9a426c8d337c4fbb0e7a26451e5e37ba028391f934930a27c8f801bc66ba714fdbd846;
   SD 0xf7ed7ee86476c2b14a8e30b2c34e570301bbf65555cb62958cc6517278e24aa4a5724efc54a13c8f9142b16508660cc 0x6bc83a1a7942b0cdf89bbc7754e4a49ce7ad5636c30051ab54dc675158a626ee28bdd05e3a45d4bddf71ed46f38b1af;
   SA 0x2656608c48f9911ce931fc4a60a0320baab3776e2613f03f86f2f7610c94f55e6fe894fc72a564995085b4d005769fe 0xe690f9feae0d7338f6e1efdd990389002dafd31d0934b8638b4e66cafda44ee6f4e72f1fc1be0ddef5bb87acc91c733;
   SD 0x6f9887ffb9e229e05206a6ccb737fa8855d739132431a528ef93a765811a88420c3242a535afec9a23cec561d831526 0x41fa74eec6dad0d719a31a6f4eebdf499090f347dfb8c0edf4c9a36afcb737e977b850324c48dd84b5f06a0d1d1b506].
Definition e262069_o : list op * zpt := Eval vm_compute in mkops e262069_z e262069_z e262069_s.
Definition e262069_p : dpt := Eval vm_compute in ofD e262069_z.
Definition e262069_n : d2 := Eval vm_compute in snd (ofD (zneg e262069_z)).
Definition e262069_e : dpt := Eval vm_compute in ofD (snd e262069_o).
(* [5] *)
Definition u13_z : zpt := ((0x12495cb1d0edd684373c68feea4cbfd890de88b5c24707af95f987975a5d00b5c45cc993880a674350a86f464b58ed6b, 0xa3faa5930a2d3532eff5f8014d935c0f0144fedbe864906314ce154a76cbb2eb49852b9b58090c06db44b84301daef), (0x572072865bd6cb88fa243916711e9c9e3b71ba58d6b379c6b8d4d6cd0d958ab3f7a596b6f3c1bd8d99e174aadfed1ff, 0x807fdc3a99731b8e0d8b45ba0d41cbb124a98318363b5bdc5232ebb7e58b55354f6ce20959394fa7dd3ba98cebf5787)).
Definition u13_s : list sl := [
   SD 0x85a7359bd025471c623a48863395dee081f2c6f7abb5d290411c62e62279ebe7980c002492cbf27b973b3aa737bd9ae 0x18d1eb6d490bebcfaa85f751320a4ead9d40e27ba28009d97a04b2836b684ad07991306a63d3e2e91465ec569899509b;
   SD 0x4bc4b268b4b4fc2fa5a49d235384e50540166398de35354d6a314bfa4b0b64ff9f85767637b7d2355d7f103c2406f21 0x12a4e729c5a771ad3bfaab1134a7dd723a0afd830294210f9e1c1873e83a5153f41c0c0326cece747c4ab888300a2408;
   SA 0x7ec4e4d9bafd006af00da43d06d044a0dfa32b44ff1ab10680094e12c7b236cd859df84050798f8ecdb5dae8affe6f9 0x642103c1e66c8d66e36db7519b0f2b4c8b5497280d48372eeb311cb8cd3927386d108de90ab8bed668a944002e2f639].
Definition u13_o : list op * zpt := Eval vm_compute in mkops u13_z u13_z u13_s.
Definition u13_p : dpt := Eval vm_compute in ofD u13_z.
Definition u13_n : d2 := Eval vm_compute in snd (ofD (zneg u13_z)).
Definition u13_e : dpt := Eval vm_compute in ofD (snd u13_o).
Definition w13_c : cert * zpt := Eval vm_compute in mkadd (0x0, 0x0) t13_z (snd u13_o).
Definition w13_e : dpt := Eval vm_compute in ofD (snd w13_c).
Definition pp13_z : zpt := ((0x166514f2c5e208f1facafc08fbc23f6d73899ad2852f52e795727fd31d4dc50f9e476e305a35ce566a49ec74f175c4d8, 0xf21f9ccb75445a9b9edac9ae089c22a872c36aec7bd29c28bd5c74354047e319cd0a6a972239706623ec8bace11e8c7), (0x124826af2beaf60db9ac4620693ac38a55719350dad13f08b0e0a5ddd205f1aab715e3713587964674fd1ac05439a9b8, 0x11d5e237ada20ba34847ca12ae89cf77657a59351cd49236559eba3edcd8229a145a9178d5148b683b4a82fe9b605e8d)).
Definition pp13_p : dpt := Eval vm_compute in ofD pp13_z.
(* [7] *)
Definition u23_z : zpt := ((0x6679a21c7697362d14758b30a8eaadce842b8eba830ff1164253ca23f349f22563c733969ecc92fc40742fc8c2452a4, 0x15d9b8fb0fcff76579a2f5c95bc2e93326bb9623cbd1425711f274052dfe832ab46b64ede3c3f4cf80b656ce3ef26a28), (0x37990326e0cf713665cb619dd635e2a42297c6b2cf76b1313361c93bc25283d34f053248c00d219931868c08b88e98d, 0x14b8f892005870960276fde468954dab831a15a9ac67209f73122330497ee4f77de272e1e792f3effb924e31750444c9)).
Definition u23_s : list sl := [
   SD 0x33ad6880039b17bd25f3a97bddfad0fd5e97870d3845fa1b51b311d732f43218a8c07e748d5af38fb0f56b402ae1424 0x7b27a861d16bf508a768c99c36128a13bee4c58fcb98335898bdba276b365bd4854fe7dca7e93ae0b6068cf916511e6;
   SD 0x3488674cc28c52b30833341674a27af70a6a405c2605e20b8e0a7547db505914dfd016837c7740bd8867159a013a27b 0xbc545a9ce50430b306f2fbd7abaa14a85a8204f71241e0c7f884714ca608b774c098c6b13fb4e556727d31fafc9b64d;
   SD 0x17888c170b19647d824609d0b036827382ad805184bce010d561365602e45a3f729f72040468fd33faa04a62cc7589a7 0x39d8665ee9402bc84cd0626f41c192432b248a900f934918425e889ef3eaa17cb96be208005c4a473d4412e29eb0984;
   SS 0x420052b7440b99b6247341d324ce856d5f3537b3ffa4a9540ad5a3b2573a2bf77cbdfd561659c18c50fa284bc0d85e7 0x41df506720149c7e187bf53a3572d64dddc73675557a98198c3fa186e66bd3fbb9168d46f8bd49ac7ebfad8222cbe25].
Definition u23_o : list op * zpt := Eval vm_compute in mkops u23_z u23_z u23_s.
Definition u23_p : dpt := Eval vm_compute in ofD u23_z.
Definition u23_n : d2 := Eval vm_compute in snd (ofD (zneg u23_z)).
Definition u23_e : dpt := Eval vm_compute in ofD (snd u23_o).
Definition w23_c : cert * zpt := Eval vm_compute in mkadd (0x119f1b2d29b28b842b0271430896179a77f9ec6e90019d648269af82da1863d8f35caf2cdea0103216d260ffa3f292b2, 0x1128643120dbf1fcda549f889e37a8a3334276ebfd6b0eeffed8c25a93767219a9146b4d0142a076596556aebd4d5145) t23_z (snd u23_o).
Definition w23_e : dpt := Eval vm_compute in ofD (snd w23_c).
Definition pp23_z : zpt := ((0x10d5bd39a3abde3cf2ce3a6cfc49caf6f272b9d5b1e077ca0625070e6214b654b223d83e34a67c883b286234be74df46, 0x49f47840f85144cc02b4c1dfa2172e15e99adf073a46e8e88b7f2a60a469eab061ff876f0ffb808bbd608d415978d78), (0x18d4bf43f412f6116fb88fdc1d0d907f61675321fc947e19353a18591cb5b55f6bd540bb5b94911d74180b2ffa499b5, 0x510c5b662ad5800e6fcd3bd9206d16611efdf3962673114529041539c9836f34d7cd96cd00dab271abda7b18515a00)).
Definition pp23_p : dpt := Eval vm_compute in ofD pp23_z.
