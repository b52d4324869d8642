(* The generator of G1: on the curve, of order dividing r; and one concrete
   multiple of it.  The tables are the slopes of double-and-add chains found
   outside; every step is checked here. *)
From Coq Require Import ZArith List Bool Lia Znumtheory Field.
From Verif Require Import Dig CvD Rom BigP NumT FieldQ FieldQ2 SpecCurve CurveP GroupP EcpP.
Import ListNotations.
Open Scope Z_scope.

Lemma mkq_mod0 z : z mod q381 = 0 <-> mkq z = f0.
Proof.
  split; intros H; [apply mkq_eq; rewrite H, Z.mod_0_l by apply q381_nz; reflexivity|].
  apply mkq_inj in H. rewrite Z.mod_0_l in H by apply q381_nz. exact H.
Qed.
Lemma fsub_0 x y : fsub x y = f0 -> x = y.
Proof. intros H. transitivity (fadd (fsub x y) y); [ring|]. rewrite H. ring. Qed.
Lemma slope_div l n d : d <> f0 -> fmul l d = n -> l = fdiv n d.
Proof. intros D E. rewrite <- E. field. exact D. Qed.
Lemma mkq_2 : mkq 2 = fadd f1 f1. Proof. change 2 with (1 + 1). apply mkq_add. Qed.
Lemma mkq_3 : mkq 3 = fadd (fadd f1 f1) f1. Proof. rewrite <- mkq_2. change 3 with (2 + 1). apply mkq_add. Qed.
Lemma y_nz x y : on1 (Aff x y) -> y <> f0.
Proof. intros H ->. cbn [on_curve] in H. apply (fb_noroot x). rewrite <- H. ring. Qed.
(* ------------------------- the generator ------------------------------ *)
(* the coordinates written in rom.rs *)
Notation aff := CvD.aff.
Definition GXZ : Z := 0x17f1d3a73197d7942695638c4fa9ac0fc3688c4f9774b905a14e3a3f171bac586c55e83ff97a1aeffb3af00adb22c6bb.
Definition GYZ : Z := 0x8b3f481e3aaa0f1a09e30ed741d8ae4fcf5e095d5d00af600db18cb2c04b3edd03cc744a2888ae40caa232946c5e7e1.
Definition G1gen : pt1 := Aff (mkq GXZ) (mkq GYZ).
Lemma GX_val : lval CURVE_GX = GXZ. Proof. reflexivity. Qed.
Lemma GY_val : lval CURVE_GY = GYZ. Proof. reflexivity. Qed.
(* q as a plain literal, so that evaluation is not blocked by opacity *)
Definition qn : Z := 0x1a0111ea397fe69a4b1ba7b6434bacd764774b84f38512bf6730d2a0f6b0f6241eabfffeb153ffffb9feffffffffaaab.
Lemma qn_q : qn = q381. Proof. Transparent q381. reflexivity. Qed.
#[global] Opaque q381.
Lemma G1gen_on : on1 G1gen.
Proof.
  unfold G1gen, on_curve, fb. rewrite <- !mkq_mul, <- mkq_add. apply mkq_eq. rewrite <- qn_q. vm_compute. reflexivity.
Qed.
(* [3035]G *)
Definition ops3035 : list ptop :=
  [PD 0x256addd10de5f1125dc01df7d60354f49e4cdf6d84cbf619723a3ca979025d49cc7536b86e8558e23d63cf91e1aeda5;
   PD 0xf4e8a55072212bf630cbb20ca15222ed3fdfe9c686fb4ed155b5c1ff038301ea5604a60ba2981ef8caee2c0202b6b19;
   PS 0x925db08af894f2d800ff28c8ae5b009acc9f3d5a45cd2a4fb07199dc82212d368359425bdfa8efad6a44bc30b0552a9;
   PD 0x19c6a9e3932cbf51d588fbcc9a29514243c18224f628796847f8d37c73774c9b12981e8adbe51f8de63a11800e3cd6f0;
   PD 0x33cbca6150a93a0100254e1ddaffcadfd37794d582faa8289befc1f4cdf04e0b0571822cda9bfcd335196effcd2a9df;
   PD 0xfd4bca9022e1301ba74a10eb8ce11d7f69fd1b3509fb10b3d8baf353b296b93512acdf735b7e2d410201863d5d63f;
   PD 0xca009e2e5b12e6a91bdd8d9a9f9dad2f0b984da5fd1d9c1ba21a40401a5d2f38d102ca5950b15dfd9fc48c71313f23f;
   PD 0x8ee360918909b095b5b7a8c6af8f16dfdd53d4fd15803bf1da0dcb8b6a29f2507a56ec60b551ea378033f582019c123;
   PS 0xc7c36759d59d2829772be724d655a4d18eacbacb0aada7e8be228f5bf8ee80723afe8fcb8030fb7b22445420974261;
   PD 0x708a515780338eb9beeb830659d4f6133084b78e8e2cd598246ddc9027a1f3ad17b0e4f105b41a5b7b2acde3024b729;
   PD 0xc63f0dbd7add961443593179d0129854486a0290d59f80aa6317380d3f5d7077f4bed04687de40f6f406da08c07bd77;
   PD 0x13a2430b4c5031f7de946d03ca68551c55e94de734ed45cad008241c548263e2d68b3bcba5451ec0cd9cc00e67d8ab8d;
   PS 0xc4e388da4f0a6aab1e417a02fa7387d72c3983df1fc2fd9a4f7c98ba6bbc6ed40f9577a17bd7ebe723350dd19f5c22a;
   PD 0x9fc716efab281ead86a8c24b50e469c008e7b20c27635acf5abdb68564f841a0617848ede7007a9f871c2e6a80f419e;
   PD 0x8f6e88621dd920d68cd58cdda3dc8bfe827f4c74861f04442356bc911c25259a408693acc48f55ae03f0531b081971a;
   PS 0x7dc88b4c7f85acadb2a0623f5c2a44ebca5694239d0dd56eccd7bf73d42b104f154669ff23ff9059662957a09022e81].
Definition P3035 : Z * Z :=
  (0x22d433b40d22ad56a34b173b1a0dc043c3df54d234334c4b029442fe36f5f8c2366275b7a6419f15542907317d52354,
   0xd800f19f412d092a31566c1c89f6e221ebfcd93de53cc37184cb4d1ca2a19eded595ad049f5d01abbd34c9f645542d7).
Definition dG : cpt := Eval vm_compute in ofC (GXZ, GYZ).
Definition dGn : num := Eval vm_compute in ofZ 48 (qZ - GYZ).
Lemma dG_val : vz dG = (GXZ, GYZ). Proof. vm_cast_no_check (eq_refl (GXZ, GYZ)). Qed.
Definition c3035 : list op1 := Eval vm_compute in fst (mkops1 (GXZ, GYZ) (GXZ, GYZ) ops3035).
Definition d3035 : cpt := Eval vm_compute in ofC P3035.
Lemma chain3035 : aff P3035 = zm1 3035 G1gen.
Proof.
  apply (chain_ok dG dGn c3035 d3035 (GXZ, GYZ)); [exact dG_val|vm_cast_no_check (eq_refl P3035)|exact G1gen_on|vm_cast_no_check (eq_refl true)|vm_cast_no_check (eq_refl 3035)].
Qed.
(* [u]G and [u^2]G, u = 0xd201000000010000 *)
Definition uZ : Z := 0xd201000000010000.
Definition opsu1 : list ptop :=
  [PD 0x256addd10de5f1125dc01df7d60354f49e4cdf6d84cbf619723a3ca979025d49cc7536b86e8558e23d63cf91e1aeda5;
   PD 0xf4e8a55072212bf630cbb20ca15222ed3fdfe9c686fb4ed155b5c1ff038301ea5604a60ba2981ef8caee2c0202b6b19;
   PS 0x925db08af894f2d800ff28c8ae5b009acc9f3d5a45cd2a4fb07199dc82212d368359425bdfa8efad6a44bc30b0552a9;
   PD 0x19c6a9e3932cbf51d588fbcc9a29514243c18224f628796847f8d37c73774c9b12981e8adbe51f8de63a11800e3cd6f0;
   PD 0x33cbca6150a93a0100254e1ddaffcadfd37794d582faa8289befc1f4cdf04e0b0571822cda9bfcd335196effcd2a9df;
   PA 0x1757f7c604379396fb0acbdb38f81318b6b2f0d280f3f116014f40c0c7067583b31699bc705732fdd22f079db7a68bd4;
   PD 0x7f829df13d55ff12bc219762729cd19d869500195751f270aa2e71e5474ab95f1e741bc154133077291ee77a4671cfd;
   PD 0xdea35443dcef6a3eec20b9f4133604c3cfdccf0fe60fb2c235c086feb4e1d2b534c2be180b4fab16d0df0f1af82c751;
   PD 0x13f59bdb654c9992fa52cf8f371cde5ba32f2d5cafa39e8b2ce445553032d21d150e8d517ac52e3144f5ed93270244dd;
   PA 0x18fcb13c63fe78a67824a2b242013a8236078ec6d01844a5d5251698db6ddc7c6aea5b247b58e591e3ba50d02bde175d;
   PD 0x18899bb791f365d64d4b46878133a8a9f14c24771aeac751cc43b8bc73049acb4edc7170afd68333253da4a838708b11;
   PD 0x544fda98f88601ad5204107a08cbafc4033d4608c584a7dea06bece853191cffe6a8d806d317e8dbab5d7c7197f4945;
   PD 0x18823872c774aa94e1134f53e5c2e660d357c9c3f8fbb7f769e66e0b6a5e1c4361d427e80c5ee471a5f2f9d7c64e4eee;
   PD 0x113aa496d39c2c8840afae13c96a68f4ab8c5016083f57744e8cf44f7d61735c0fbf0ffea95f028064a0198f9b7fb2f3;
   PD 0x16a05966f6db725447ba1112187a15a9af80f363c9724213fefa09fd9f1d61a0eed27996ec59a2507aa56a73d13c55eb;
   PD 0x9e4114d007654ef420f3b93e53dcb28fbe808247e1f6a2f5b140888dc793cfdc2963db7408ab38934307fe4a82e9aee;
   PD 0x1141d0042ea7399a8ac8ef3c4a52fc02784dd0c0b1674cb4fd79291f2dad7ba07dbbb5482b285a91749a3f3fce17576f;
   PD 0x176747f2e861241460a95fcc87b4d17301e8e1ebbed5e233e3a8c1c8c2a6926f218133c4f5c17ab569146286f1c59298;
   PD 0xc39591f5868cf1984034dacab63af2b62263ea9729ad243ca2371c54662b7d02cbca18310bdf432f72d23da8d89ad13;
   PA 0xc395aae351f035dd397aeecd57ec365c806f2138523201c5f1e082b5548b8eb63ec23c5b6da1e728eb5079b0ea336;
   PD 0x14aff8b954a6ab33cc025b433be76057c89a9c5da456de6434e2a674d7ae16d1a1f2870d3f8928c90bc59f06c161a9a7;
   PD 0x1ba45b66f448c315f6e638e442462cb9b16d777c0835981e6ed1352986d01592ca3adebf9df22845cc712ecb0e5658c;
   PD 0x3b81e530437bbeb17ba6b20b7483707846dca85c9e36fce5a62488af6161d5d5ee859047348e4ba48fce4da982f86c2;
   PD 0xfdfd18f627846b060b6bca27ca908a5117057768cc87e4a684ab683340bf8f36cec91548b4b134a15a9ff771cc8e186;
   PD 0x11db330f2c0ba0f3570ff2753f785856fbd34bb4546edbda2d55c89ff64bc5eaaeb23102c97b6a4fa55229a202df02ff;
   PD 0xe6dd8c770bc9d26724eb2b880f42a159bbcdbcb4506ad74377bb1dd6d9c5a8ebaba727f7f50301fd7a673f53c40dc4e;
   PD 0x11bb83fd1d3de266fe9b09b986471fc67c550af0998343aecaac634f82c73a09c267d77e88e65cb4ca1d7ba34b895861;
   PD 0xc26ef9f4d20abd0631747e3fde8c0a9988f1e6fbf788a81c5e1410026c9647b4863243fd011147423215558fd3cc75f;
   PD 0x128b73bc076d4678dd91502a86588690b232dadc54167131e8903db8775b26b0506dc5d09066d4f9a8b925c6127a8427;
   PD 0xaf46bd160b9efc786edb6d7b1581773783e3471781eb4c1cbdf6ae576e7cadfcd55a0b7ce78a50a9a6a5ca90b0fd3b3;
   PD 0x1d85c2a0200358032626ce9266fe0d9e33d8eab1d24e630934cdde25c84a6bf8fa866c87be6e0f351f85c25b37b2c64;
   PD 0x701988f2901197d2e16a8bb830a0f386c71546e5da5c5f9dace332a70ae5d2bc79330411e621db0c03e89603979e236;
   PD 0x1891bc2a5c7a488c0eac97ede873db6bdef07f6fb588110b46482bf42a8b4ce9004d617016b60d3ca73297be4c33c7c4;
   PD 0x14c829d316fb5cf9922a74350af5cb566a56813a2c2002f48c6f4ea5eeab047438d2c7b4f1b3ef6b4d62fa92c18593be;
   PD 0x1057aea72e387b0998522fb465070ea9e7b894cf415eb604469c95402725dc748cb51b4bff69fa8303dd5f263197f2a6;
   PD 0x14fda3e9c2c22e4c867bf338b4fa7ef31ecaf2f3fabaa49d1139874b699369a04843ebebf76d02e2380d5ba7653240e0;
   PD 0xe1da6afa6d35a1f69b2e16037736f941e7c5b00e553003816c2ca5ebd25211787a1c94b684012182e44529e666f08ff;
   PD 0x20121313904c7c041ffde2cb67fbfb7aae3637b034042249b5352fd10f11f53e89599a24dc7b98083a90bf989d317d0;
   PD 0x2e86ef910eafa5b0a06b6e2cb986bdfea9da3717e354e958d115a96e29b1d131b1a1199506b44536a16b287b0959a52;
   PD 0x34756dd84f5a379b0167726839f613ece4695246b8c4a410529cf49fbafd391e1b8ada011e4002b0cd1c0f6c5e9786a;
   PD 0x181f368c4eec54de33ed1c3d7d5002079c7368eb16786139758a8f167ab8d3e7f2519a175cf7e8f985d13e82a0960e4;
   PD 0x8ba46c5263a6924aa167affe393e4455e6967575438d32a93fc819c494cf96ec8ccc468f89dc30aa75addf76906e3d1;
   PD 0x182a13207b381227c66ef8f7e33069c5902af868b594c8218b53484399bb0a2606b510a7b812866b5b53e0270ad6182c;
   PD 0xe4c40a343d424bdd3a160b709327b520ecf91273e455af0464b35da0173cf84ca520560b8f62eaa52a2e7231fdf68d3;
   PD 0x1a0034285bc1cc5ce681685a2522d4b4aac33269f7154b49ddc03dcbd500d543e9b0aa8f83153dfd00a5bc5cdb1c8a9e;
   PD 0x16048758dc3c64465936cdfd631fdfa2a6a04b78fcc3599c5252b3c5e3d3171dd94590ef2f78ae3bc4f92a31d9e5ebea;
   PD 0x2abb1d546549fe64ca1e322c65c7654a0317b1b576452c81104bf7e922997b2e28eaea78488991925a81d4a338fdee;
   PD 0x1de5213de08a9bf13ad567f6a063df27c4b872054d2f1e31a3f784837b15d1662114253c426d073d9f606e5cf667ff5;
   PD 0xe465642a731e18536496e87951662acb1d83a06447744b7456b072e4bb10c7645da8e88caf9faa1763d9c4b3bee8e8d;
   PD 0x1366e090a7d55323be211367075e3beeb5f6bcefe29776bd9e188f2ad766c3839a76f6bc576aac72413141f7e8a39f0a;
   PD 0x19a69c9e1cbde5e39b1a7e593e75904ea3bb3efaebab611713b9c8e7ff054f2893e40ce9007eca8a1401e89cc3a3f073;
   PD 0xb486fb35b080868ca5454ed2eff9f47b5270392354195b3031e344b3536d59efe3347509dd52ae5908e475ca61f3e97;
   PA 0x13ec4a4dc4b7484a3da96a268269d7b2bfaf8e8f5e4be94123545a9a399097b8b97b2f41a9a3f9009c06bd127e43fef9;
   PD 0x11f7d3c17d3039b0b55b03d34fbcef22cb93da970c97cd83adc4ddbc0bd6f670b29c8af989687ebae9c3c3906a3f4c5a;
   PD 0x37405537f5c0769b931dbd8e062800fbb78c6187c22c0037254e77025e6d371e117c6064531e14e905bed81215499ec;
   PD 0xe209a948bddd9b8001995ca0ab2668ffd5f0a92d42039adb905660942a281011fb9d77ebe464cbdd71beb605e48a9f9;
   PD 0x10c5d7f9ace23b825875324fa06b535bcd32666a5991d0370ebaa1cc6d4ff468dc6d39ef0e507eb588bf63356b704b33;
   PD 0x1247dfb1f5585ed09efbe48d21b0fc4fbd48511afa36b42120f37438ac731f054bad2b2288ecdb5b03a1fac78c1f47b6;
   PD 0x104c4207cf2c0055bae118abcb061b8803f1890b46b67129092e74e0e22e0dbdc3a529224081e6f4dbcf2a0cd5218ab;
   PD 0x13fe08b3dde5ae4f57a7e5dfe7f76418f585b16d7ec994269053274e5e65953273e038ad95771a43c06c9d731f196e98;
   PD 0x17c572c344e651ef863b0d27052e5ead3e0172495a196af26db86ed98843ab398e57160d8744495ba1b35a1f2f846a4;
   PD 0x2dccf3e43506f97f997a55ee6bc7b33516052626edf4315823f1882c992a1b39ab6b1d46bcd51f0472d22b4e1990cb4;
   PD 0x122daf549a23e2ed73a63c743e294e5d3fb4575dae6d86696091ab98d0e34f7a2d85b95375beb66e588e295cc0e2d967;
   PD 0x52a3ac83c99552c125c7843901e679d5aabe279db9f7285877cb1395bcd1cda87c223090285f8d32724868e4a36f52f;
   PD 0x5546c8907e29f4e8867f4dc8f6c0b9c5d2007e7dfd433ba16207cd88ef0ced0c2f2cccaad7c6b4383a8143933ec2306;
   PD 0x187f4bddf504a2276f0bbafe1bd6f3a9ae555f6a5948fc376f36b911bc8b30e374137f492c64724f82d1b632274a170;
   PD 0x11c8504a9b7b4759a084ecbc660b4c94096d4786af50218cc56c34ab6556bc53a725385ffa2dd53c687507286057966a;
   PD 0xfa7349332cb7f978a690c77081e55966e11cdb8ed2a6e52f1677129faf62e142cdd0132aec40c4513daeced88cbd244;
   PD 0x361274527e437fa322293550f920c96fd79c0e09412e8f550437402fd28c27ceba223bce1536bf7ae386016696d0496].
Definition Pu1 : Z * Z :=
  (0xd3aff0f3b2e6f4878f15a81eabab5d8c9f765bc93ae0a2f0da5ed1941b4924bca4516661600c41a74beeb243695b52d,
   0x332c926f3b2fecd11c514e777933c8b994de733bdbc6688fae276601803ba0296976fb0b97f36d2fe6456a9444dcc00).
Definition opsu2 : list ptop :=
  [PD 0x147602b1b624322b37da3a2ba54bab07cc2a2eb08b403fafa0a497699bf2fb1bb519e62d62835aef5cab2d91a5b5fe94;
   PD 0xea19c89a89819f359a80eb4172b1666fefef35c0ef07d91dffe1290e5d894d03f74b4dc50accd3dfdb08a6363b7a241;
   PS 0xd7d10ab3a281e037ab6d1422defbf60c3eab550eaf603e4d03b3da721b976e73cd7dc13aa10e18901f21392a6aca961;
   PD 0xc75cda15194fa8de874c2f991377caca356f90fac162c8b8c3dbb133387cc249b61a65864e4233c7399393963b6dea7;
   PD 0x3e05de438f6498a73269fc708e8409fb20ddc62fe4850cdc34f6be87d7ad2dec3bf94bf2e8389bc80fcfb732f4f3b4a;
   PA 0x19665cf66e278aaba9ed88bbf5f1864239e5c8f97b89174dc4c206724220ba4c92ef9e39d6542f3077b0f3e3678d46f4;
   PD 0xa64eaa44335b66cfb89d208c1375e8108b8f57cc498bd68aad1000714d6bbd811ff63e7dff1dc751610ee6f274d32f7;
   PD 0x24f2654cfb7ce99f3b5e0c43b4ffaa06156a335d89a0cd1c39eaefbc20875fa9098725fc3afb997b1781d445b20fc82;
   PD 0x13a50eae1c2a3da3d0d567e31c85aaa85d560a895395e1201e5f6afb4b676596ea3122ae5629dd40858b9ca25c6e22b3;
   PA 0x196bdda486e9e384fb15e90f888880d6ebba35e8a9268acfc370d3c78e7ff5f776740ea291f3490838d2fb230ac59bad;
   PD 0xbb617fb7812db6b2f04691dae9fba21358c4a799d7a11339fbbf96b0402aab59725d4a79a5d9a549dae361a852c727c;
   PD 0x1962d8b6e864762d5f8e593f288a52acb5d12cc9c6c43b01badd741396f2abe879974fffed5b291d3722989cd52a4dd0;
   PD 0x742d3cf690e5ed97f87be17786330b25db104b1ab7e183aadcbd89a322f5fd49a81d335ed63b959d8fd24323dc3aa87;
   PD 0x12b7f0bedc03c1065048d2920d5ccd1eb6e07731f26e43f198ca6ba7269e23594e3ccf70f8302041d2e9be093d67094e;
   PD 0x228ce37ff8d9b6a9b21195a004d4243ee6743bcb5af1bf6843293f198d838ba51e6782af0634b41aa9cea87099e6a6b;
   PD 0xc274d842b3ed93c9be8097070913d0545c3da02be47e6df7e48ad69f28d410ab9983ba33ae865f3f6c5d6df7aa4bdec;
   PD 0x12833aee675a17f6aed588cc627b206f1ef0be81df0035891a948186e230db5791a18459d3507c7e421951f4501226bf;
   PD 0x64bf91f39c4139dc36d261033028933fd09453d228d1823e9e3b807a1f45e540d72c6a661bc59689a43a954a1b1b9cf;
   PD 0xe223043f85303703d96d88dfc65fbb5671b168959ab4a64883a044e4ecffa0109a9f43fec0738683f0eb6340339d907;
   PA 0xd74cdf3b4194b3944aaf6229263d383ebe842b80020af00fc1ebfec4f4bcaf94b7cc646419ec759f66c8ae0d9e2ffa6;
   PD 0x26432218a824a5da6621e4670c52e0655ddfb8b824b60fd7dd5103d645321d6bd8149e54b8cc5e8f11dc5b03a996dcf;
   PD 0x15ad758be51d2f4df642818c58822d7b2d5935061669a2ae7bff9d399236a16968408a78f2b798a9b777d7a0544d5a02;
   PD 0x428d3610a575c3af324833e0fc881ed9844f0f49be66bdc23dfcf9ba67a7e1b74ee39726cc8ec26cc22dbb9e0a63b5;
   PD 0x61f57c88821c7bf0b2c134e263b1958d3b1b2ca48aec143baeed80c5b695c6a14ab7860341620d4498b6f361f46f72f;
   PD 0x3dc16035a72b9b3f247102b9521656d0a2bf08dcd5c044742bb877cf691509a4cc8b2ad3b98d4b73b6659fce76e6884;
   PD 0x1910f2f0e5a70596fc4e3c90600213e27e7789b69de9ff4f625c26e415f421fba292e9b69c119dd62a464745f9f2186;
   PD 0xa8b9a359f5ef4de9fb266bf924926eb0c4832028979aba07e8283222eef86f1954188f33648f340c34e9fdd68a26e9e;
   PD 0xf60cc6e4556f571f8c9ca6f667dfa22406c06cd63e13bf29eecc8f3e69fac2c911b527d099e6592581a9fa64e43bd83;
   PD 0x13dcdd5f2c2b5a4f20bb108d17db945b784b1e63ea65249e1cfaa68a697312e8ac9dad56e6b64bdd4cba4773b94cb6c5;
   PD 0x15d9cca36eb26634548a3a374199359fa364f59685bde9f1b15baaeff364b8e58c7f52fae5f33462fff24bcf8051e4d1;
   PD 0x1775cb0cb651f9318b7eff042ba0d287e808c460270409f2d4048a790c4a840bfad7c1e4a2ee2721c3521d1b92027d99;
   PD 0x2e47df171fa2304a1a143d955b8e5433ae906efa93fe62ca1a4a0bec42406711f0acd27142f1a837347c05fcb76aa86;
   PD 0x6ab733d6efdeb9c7e8b5ad43fbec18abb00f3cbad8b8ffa323edb6f8f7f03970e9ff973853708e9c462b6ba6d4b9637;
   PD 0xb3601f0820b400e08c3c9949724d81e1cb351f088d09ef5b412b9898b85bf33c0a4319dde831f36059eabd3090909df;
   PD 0xa17257aa491e9703115d991d41b4a9baff241b10122b9f718878dc1e8c7034336f2c9ee98a66185f66349699d8c4fc8;
   PD 0x6ec069e3e067848d101e3ab82093e08444021dead8daf517532b3159c5fd5866c3601a407d6d75ad9d40e092e7429a0;
   PD 0x788c3fff30fabb96f991851423c4cfc54c3abfcfb78d739c8aa1ae3d9680330d025a4a5dbaac81c4878f8f8cbcd01af;
   PD 0x18924bcf121e4b54b48b1e44220dc58c7b484298a966d914d9723a98d55bc32e3d4d633b53e67847dd4b081d2a651486;
   PD 0x13e6715769e2b804a60bc77a1cd23953e87c1206345125dc4b93a877475857953f8499a54ae8a9d84e7bf3595b3a5f27;
   PD 0x1295acc0de033859f287cb637e15aa21234e6e612cf85b9ef50a0a5460238e2e9451885a70fc999b47dc8e6c4bbe7576;
   PD 0x85662c0fb6cf416025d23db6898cba422b1c0a7416f24c240cdeb71d4c4388b6e6ed224f093da5c9c722e34c14d2227;
   PD 0x654a5d8e47c18bfc31f8248f1793674ce496b119fe594aa14889f169d2bfc04e332ad21af09caac682693d45bfdba8c;
   PD 0x18ff49ef1f27756f955f2b72b0ada16b5adfa64ca1e7ddba138795dcfeda34f83a7d4986b3f345625e054e8e25082a38;
   PD 0x17e75be22c545bd5af2f82e5518ed6fb9c35a2dbd273b2b246c85542970af7054473f714dc0729fa80b432315fd69ad2;
   PD 0x17c5ac2f2f144ca4ad25df844ef61c0282883a33759cc818f2e872d573b32a52b2db94978bb1062b9eefed9d154ec99f;
   PD 0x1779b52609bf45509a181b913d099c505117cab2d2495567fbe90dbbb77c3b15d14a4c0c3027c45ec16dbd3902debaef;
   PD 0xfb7e03b1696d63cfe7e28e408bed81237009877824f64e8849ea5cdcf9445265690b476b1045eaa512872405c2a7363;
   PD 0x455514469620b8693c72e710907fb1e158d3e902df66a2c30b0bddf9a40b213c0b382c3cc3b70e75a7d2bf2d4859c7f;
   PD 0xa3eb89469ef08ff39879c028a329277d88adaba6773208eeb8a496ec4099de561cb4cd1c7b90be3c9f9ccc73f67edd3;
   PD 0x26719b12ac23e681280e30988400cf10a12483a4639a5abae24783de6dff15d1c982ec8cc9100426db65b2c4b3d0f3d;
   PD 0xec2b7ac8f038f8e4900e7171116ed6320906f891ab39645508cea4cbccefb68d37272eb546c2bb25a4777aa9bc8afdf;
   PD 0xb5d8e02655ba8370d2103ff6513e1fd19b109ce81d2e49d894da5c773a6203e5a2d813c56761b0a123125b7d6dcccf9;
   PA 0x4e3150bcf1a2eb39eadbf5f5154daaad6393b7409ede6d183b634fa7e8f7be2d827fd9c82bfd31b701b3ac6aa1f2826;
   PD 0x198844ed2a7c593d8ef2a6883f94b13fcd4be7ae51e8d31c89d679f5e5f817028c5c207910e00d27f8ca79c90424f948;
   PD 0x7af5f75843938e54c130cd30a1ba414f0863ff6d58181f5f3770143d93c3591579a5068615ffe24cd5719c6a122d3a2;
   PD 0xa97768bb6d01edbb9410ca4ab6ac46bfce9cb3d6f146ee9722b0b06cfcd51616fc905723960883ba837117c483a7750;
   PD 0x8e24e11478a56f11ba8d047d3c895b24fffa27453b028d1644487aa13250f9daeb77940f5979f76514438a80b231885;
   PD 0xc9307b77bf9dcc5505a346ee17c5fe32541ff82d0367359fe7d9ebecf1a1f9b847a8b08374018d35881b629db840fc8;
   PD 0x626f2df19eab343bc993df82c6f0aa61bc403e866559590c3debdc7f0f97a1ce0660b868667bcef8c3bfcb9fde153e1;
   PD 0x85bc819c79d65c15d7e30f5bcc6c2bef027e124bef12b713378e36098b47d3dc06258e0f8b8b0a501dd25cd36e75e0f;
   PD 0x64cd33ec2daf33102e75cae9b5df4c30be9c9fe9295ac4b672631667db05563e9b1c1bea2361ea257cc27e354fd5fc1;
   PD 0x8ce9bb3be6fee32fb3cd7b85f7d5ddce0776cf7daca146c37b1ff03382f69c0a6649159af32eda1fc02d50304b20353;
   PD 0x30f9301aaae5abb30b066fe19d4c911aec8d001918aa28bb20c3caccac3676654505735dd7370c6166defa9e0ae56d8;
   PD 0x19146322d6f0387d034f8c31a5efaaf9a90c4b5c11160da9200579d957a873a2c7e8e898e9cabb5e3b9c4cca8840959b;
   PD 0x5cc899305eaf25704854bb4b44b817c9fb0bce854297f8e32454bce20a3912a455371b488833a47d78644472f7451ef;
   PD 0x63d836b20a4045aedd12144f92775dde164ff9d2712fbc684ba063f6be6c9a563dcc2c87c38ef197ba32ad11dd9b354;
   PD 0x97e4bf38cbe59076deb50d279d6c5b2db9a460eb1ea847d0dfc540eb34cc1e77ee7e484c0ad7ac6b3fefc7e45e80aed;
   PD 0x3b0bcff1c167e6a9ef1f2ecfdffbd9d1f7d168456c208e16326e7d82751dff6a06a0a2cb8fb30cb923a137d63218481;
   PD 0xbf0bd6843e94babd3c977f0848a46a2b9c529eaa2c53d1212bfebddab96fddc47ac58ad9e5e2fbc1a870198d8df5d7c].
Definition Pu2 : Z * Z :=
  (0x1333c91030ee7a4649e404c01b2e0d26a8728dd7cb4edb636ed984de104bb92674f1161d8c99bcf024e473fe0a1d7620,
   0x114d1d6855d545a8aa7d76c8cf2e21f267816aef1db507c96655b9d5caac42364e6f38ba0ecb751bad54dcd6b939c2ca).
Definition betaZ : Z := 0x5f19672fdf76ce51ba69c6076a0f77eaddb3a93be6f89688de17d813620a00022e01fffffffefffe.
Definition beta : Fq := mkq betaZ.
Definition cu1 : list op1 := Eval vm_compute in fst (mkops1 (GXZ, GYZ) (GXZ, GYZ) opsu1).
Definition du1 : cpt := Eval vm_compute in ofC Pu1.
Definition du1n : num := Eval vm_compute in ofZ 48 (qZ - snd Pu1).
Definition cu2 : list op1 := Eval vm_compute in fst (mkops1 Pu1 Pu1 opsu2).
Definition du2 : cpt := Eval vm_compute in ofC Pu2.
Lemma du1_val : vz du1 = Pu1. Proof. vm_cast_no_check (eq_refl Pu1). Qed.
Lemma chain_u1 : aff Pu1 = zm1 uZ G1gen.
Proof.
  apply (chain_ok dG dGn cu1 du1 (GXZ, GYZ)); [exact dG_val|exact du1_val|exact G1gen_on|vm_cast_no_check (eq_refl true)|vm_cast_no_check (eq_refl uZ)].
Qed.
Lemma chain_u2 : aff Pu2 = zm1 uZ (aff Pu1).
Proof.
  assert (ON : on1 (aff Pu1)) by (rewrite chain_u1; apply zm1_on, G1gen_on).
  apply (chain_ok du1 du1n cu2 du2 Pu1); [exact du1_val|vm_cast_no_check (eq_refl Pu2)|exact ON|vm_cast_no_check (eq_refl true)|vm_cast_no_check (eq_refl uZ)].
Qed.

(* the endomorphism (x, y) -> (beta x, y) *)
Definition phi (p : pt1) : pt1 := match p with Inf => Inf | Aff x y => Aff (fmul beta x) y end.
Lemma beta_cub : fadd (fadd (fmul beta beta) beta) f1 = f0.
Proof. unfold beta, f1, f0. rewrite <- mkq_mul, <- !mkq_add. apply mkq_eq. rewrite <- qn_q. vm_compute. reflexivity. Qed.
Lemma beta_nz : beta <> f0.
Proof. intros E. pose proof beta_cub as C. rewrite E in C. apply f1_neq_0. rewrite <- C. ring. Qed.
Lemma beta3 : fmul beta (fmul beta beta) = f1.
Proof.
  transitivity (fadd (fmul (fsub beta f1) (fadd (fadd (fmul beta beta) beta) f1)) f1); [ring|]. rewrite beta_cub. ring.
Qed.
Lemma phi_on p : on1 p -> on1 (phi p).
Proof.
  destruct p as [|x y]; [auto|]. cbn [phi on_curve]. intros ->. f_equal.
  transitivity (fmul (fmul beta (fmul beta beta)) (fmul (fmul x x) x)); [rewrite beta3; ring|ring].
Qed.
Lemma phi_line b b2 l x1 y1 x2 : fmul b b2 = f1 -> fmul b2 b2 = b ->
  line_sum Fq fmul fsub (fmul b2 l) (fmul b x1) y1 (fmul b x2) =
  match line_sum Fq fmul fsub l x1 y1 x2 with Inf => Inf | Aff x y => Aff (fmul b x) y end.
Proof.
  intros B1 B2. unfold line_sum.
  assert (E3 : fsub (fsub (fmul (fmul b2 l) (fmul b2 l)) (fmul b x1)) (fmul b x2) = fmul b (fsub (fsub (fmul l l) x1) x2)).
  { transitivity (fsub (fsub (fmul (fmul b2 b2) (fmul l l)) (fmul b x1)) (fmul b x2)); [ring|]. rewrite B2. ring. }
  rewrite E3. apply (f_equal2 Aff); [reflexivity|]. apply (f_equal (fun z => fsub z y1)).
  transitivity (fmul (fmul b b2) (fmul l (fsub x1 (fsub (fsub (fmul l l) x1) x2)))); [ring|]. rewrite B1. ring.
Qed.
Lemma phi_add p r : on1 p -> on1 r -> phi (padd1 p r) = padd1 (phi p) (phi r).
Proof.
  intros OP OR. destruct p as [|x1 y1]; [reflexivity|]. destruct r as [|x2 y2]; [reflexivity|].
  pose proof beta_nz as BN. pose proof beta3 as B3. unfold phi at 2 3. set (b := beta) in *.
  assert (PHI : forall z, phi z = match z with Inf => Inf | Aff x y => Aff (fmul b x) y end) by reflexivity.
  set (b2 := fmul b b) in *. assert (B22 : fmul b2 b2 = b).
  { transitivity (fmul (fmul b b2) b); [unfold b2; ring|]. rewrite B3. ring. }
  pose proof (y_nz _ _ OP) as YN. pose proof two_nz as TN.
  assert (CE : fmul b x1 = fmul b x2 -> x1 = x2).
  { intros E. apply fsub_0. assert (Z0 : fmul b (fsub x1 x2) = f0) by (transitivity (fsub (fmul b x1) (fmul b x2)); [ring|rewrite E; ring]).
    apply fq_integral in Z0. tauto. }
  assert (B2E : b2 = finv b) by (transitivity (fmul (fmul b b2) (finv b)); [field; exact BN|rewrite B3; ring]).
  unfold padd at 2. destruct (Fq_dec (fmul b x1) (fmul b x2)) as [E|E].
  - apply CE in E. unfold padd. destruct (Fq_dec x1 x2) as [_|C]; [|contradiction].
    destruct (Fq_dec y1 (fopp y2)) as [Y|Y]; [reflexivity|].
    rewrite PHI. rewrite <- (phi_line b b2) by assumption. apply (f_equal (fun l => line_sum Fq fmul fsub l (fmul b x1) y1 (fmul b x1))).
    set (t := fadd f1 f1) in *. clearbody t. set (t3 := fadd t f1). clearbody t3. unfold b2. field. split; [exact YN|exact TN].
  - unfold padd. destruct (Fq_dec x1 x2) as [C|XN]; [exfalso; apply E; rewrite C; reflexivity|].
    rewrite PHI. rewrite <- (phi_line b b2) by assumption. apply (f_equal (fun l => line_sum Fq fmul fsub l (fmul b x1) y1 (fmul b x2))).
    assert (DN : fsub x2 x1 <> f0) by (intros C; apply XN; symmetry; apply fsub_0; exact C).
    assert (DB : fsub (fmul b x2) (fmul b x1) <> f0).
    { intros C. apply DN. transitivity (fmul b2 (fsub (fmul b x2) (fmul b x1))).
      - transitivity (fmul (fmul b b2) (fsub x2 x1)); [rewrite B3; ring|ring].
      - rewrite C. ring. }
    rewrite B2E. clearbody b. field. repeat match goal with |- _ /\ _ => split end; assumption.
Qed.
Lemma phi_nm n p : on1 p -> phi (nm pt1 padd1 Inf n p) = nm pt1 padd1 Inf n (phi p).
Proof.
  intros OP. induction n as [|n IH]; [reflexivity|]. cbn [nm]. rewrite phi_add, IH; [reflexivity| |exact OP].
  rewrite <- zm_nat with (neg := pneg1). apply zm1_on, OP.
Qed.
Lemma phi_zm k p : 0 <= k -> on1 p -> phi (zm1 k p) = zm1 k (phi p).
Proof. intros K OP. rewrite !zm_nonneg by exact K. apply phi_nm, OP. Qed.
Lemma phi_neg p : phi (pneg1 p) = pneg1 (phi p).
Proof. destruct p; reflexivity. Qed.
Lemma Pu2_phi : aff Pu2 = pneg1 (phi G1gen).
Proof.
  unfold aff, phi, G1gen, pneg. apply (f_equal2 Aff).
  - unfold beta. rewrite <- mkq_mul. apply mkq_eq. rewrite <- qn_q. vm_compute. reflexivity.
  - rewrite <- mkq_opp. apply mkq_eq. rewrite <- qn_q. vm_compute. reflexivity.
Qed.
Lemma u2_phi : zm1 (uZ * uZ) G1gen = pneg1 (phi G1gen).
Proof. rewrite zm1_mul by exact G1gen_on. rewrite <- chain_u1, <- chain_u2. exact Pu2_phi. Qed.
Lemma beta_n1 : fsub beta f1 <> f0.
Proof. unfold beta, f1, f0. rewrite <- mkq_sub. intros E. apply mkq_inj in E. rewrite <- qn_q in E. vm_compute in E. discriminate E. Qed.
Lemma phi_sum x y : x <> f0 -> padd1 (padd1 (phi (phi (Aff x y))) (phi (Aff x y))) (Aff x y) = Inf.
Proof.
  intros X0. cbn [phi]. pose proof beta_nz as BN. pose proof beta_cub as BC. pose proof beta_n1 as B1.
  set (b := beta) in *. clearbody b. unfold padd at 2. destruct (Fq_dec (fmul b (fmul b x)) (fmul b x)) as [C|_].
  - exfalso. assert (Z0 : fmul (fmul b (fsub b f1)) x = f0).
    { transitivity (fsub (fmul b (fmul b x)) (fmul b x)); [ring|]. rewrite C. ring. }
    apply fq_integral in Z0. destruct Z0 as [Z0|Z0]; [|contradiction]. apply fq_integral in Z0. tauto.
  - assert (L0 : fdiv (fsub y y) (fsub (fmul b x) (fmul b (fmul b x))) = f0) by (unfold fdiv; transitivity (fmul f0 (finv (fsub (fmul b x) (fmul b (fmul b x))))); [apply (f_equal (fun z => fmul z _)); ring|ring]).
    rewrite L0. unfold line_sum.
    assert (X3 : fsub (fsub (fmul f0 f0) (fmul b (fmul b x))) (fmul b x) = x).
    { transitivity (fsub x (fmul (fadd (fadd (fmul b b) b) f1) x)); [ring|]. rewrite BC. ring. }
    rewrite X3. assert (Y3 : fsub (fmul f0 (fsub (fmul b (fmul b x)) x)) y = fopp y) by ring. rewrite Y3.
    unfold padd. destruct (Fq_dec x x) as [_|C]; [|contradiction]. destruct (Fq_dec (fopp y) (fopp y)) as [_|C]; [reflexivity|contradiction].
Qed.
Lemma GX_nz : mkq GXZ <> f0.
Proof. intros E. apply mkq_inj in E. rewrite <- qn_q in E. vm_compute in E. discriminate E. Qed.
Lemma r_u : r255 = (uZ * uZ) * (uZ * uZ) + - (uZ * uZ) + 1.
Proof. vm_compute. reflexivity. Qed.
(* [r]G = O *)
Theorem G1gen_order : zm1 r255 G1gen = Inf.
Proof.
  pose proof G1gen_on as ON. pose proof u2_phi as U. pose proof (phi_on _ ON) as PO.
  rewrite r_u, !zm1_add by exact ON. rewrite zm1_opp, zm1_1 by exact ON. rewrite zm1_mul by exact ON. rewrite U.
  assert (U0 : 0 <= uZ * uZ) by (vm_compute; discriminate).
  rewrite zm1_neg by exact PO. rewrite <- phi_zm by (exact U0 || exact ON). rewrite U, phi_neg.
  assert (NN : forall p, pneg1 (pneg1 p) = p) by (intros [|x y]; cbn [pneg]; [reflexivity|apply (f_equal (Aff x)); ring]).
  rewrite !NN. apply phi_sum. exact GX_nz.
Qed.
