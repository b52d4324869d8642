(* The number of points of y^2 = x^3 + 4 over F_q is (u + 1)^2/3 r: points of order 3, 11, 10177,
   859267 and 52437899, for the last four two independent ones (P and its image under x -> beta x). *)
From Coq Require Import ZArith List Bool Lia Znumtheory.
From Verif Require Import Dig NumT PrimesD FieldQ FieldQ2 SpecCurve CurveP GroupP EcpP EcpC CvD GenP KeysP KeysP2 FinGrp TwGrp G1Grp.
Import ListNotations.
Open Scope Z_scope.

Lemma p11 : prime 11. Proof. trialp. Qed. #[export] Hint Resolve p11 : pr.
Lemma p10177 : prime 10177. Proof. trialp. Qed. #[export] Hint Resolve p10177 : pr.
Definition dneg (b : cpt) : num := ofZ 48 (qZ - nval (snd b)).
Lemma kill_ok b n os bz l : vz b = bz -> on1 (aff bz) -> neg1 b n = true -> runk1 b n os (fst b, n) = true -> fold_left kop1 os 1 = l - 1 -> zm1 l (aff bz) = Inf.
Proof.
  intros V O N R F. pose proof (chain_ok b n os (fst b, n) bz (vz (fst b, n)) (l - 1) V eq_refl O R F) as C.
  rewrite <- wp_aff, (neg1_ok _ _ N), wp_aff, V in C. replace l with ((l - 1) + 1) by lia.
  rewrite (zm1_add (l - 1) 1 _ O), zm1_1, <- C. rewrite padd1_comm; [apply padd1_neg; exact O|apply pneg1_on; exact O|exact O].
Qed.
Lemma bez_1 k l p : on1 p -> zm1 k p = Inf -> zm1 l p = Inf -> Z.gcd k l = 1 -> p = Inf.
Proof.
  intros O K L G. assert (X : emk p O = ez).
  { apply (sm_bez EP ez eadd eneg eaddC eaddA eadd0 eaddN k l); [| |exact G]; apply ep_ext; fold esm; rewrite ep_sm; assumption. }
  apply (f_equal ep) in X. exact X.
Qed.

(* phi P = i P forces i^2 + i + 1 = 0 modulo the order *)
Lemma phi_eigen l i x y : prime l -> on1 (Aff x y) -> x <> f0 -> zm1 l (Aff x y) = Inf -> 0 <= i -> phi (Aff x y) = zm1 i (Aff x y) -> (l | i * i + i + 1).
Proof.
  intros PL O X L I E. set (P := Aff x y) in *. assert (PN : P <> Inf) by (unfold P; discriminate).
  assert (S : padd1 (padd1 (phi (phi P)) (phi P)) P = Inf) by (apply phi_sum; exact X).
  clearbody P. assert (E2 : phi (phi P) = zm1 (i * i) P) by (rewrite E, (phi_zm i P I O), E, (zm1_mul i i P O); reflexivity).
  rewrite E2, E in S.
  assert (Z0 : zm1 (i * i + i + 1) P = Inf).
  { rewrite (zm1_add (i * i + i) 1 P O), (zm1_add (i * i) i P O), zm1_1. exact S. }
  destruct (Zdivide_dec l (i * i + i + 1)) as [D|D]; [exact D|exfalso]. apply PN.
  apply (bez_1 (i * i + i + 1) l P O Z0 L). apply Zgcd_1_rel_prime. apply rel_prime_sym. apply prime_rel_prime; assumption.
Qed.
(* no such i when l = 2 mod 3 *)
Lemma no_root l i : prime l -> l mod 3 = 2 -> 3 < l -> ~ (l | i * i + i + 1).
Proof.
  intros PL M L3 D. assert (NI : ~ (l | i)).
  { intros [k K]. assert (D1 : (l | 1)) by (replace 1 with ((i * i + i + 1) - (k * i + k) * l) by (rewrite K; ring); apply Z.divide_sub_r; [exact D|apply Z.divide_factor_r]).
    apply Z.divide_1_r_nonneg in D1; lia. }
  pose proof (fermat l i PL NI) as F. pose proof (Z.div_mod l 3 ltac:(lia)) as DM. rewrite M in DM.
  assert (I3 : i ^ 3 mod l = 1).
  { destruct D as [k K]. replace (i ^ 3) with (1 + ((i - 1) * k) * l).
    - rewrite Z.mod_add by lia. apply Z.mod_small. lia.
    - rewrite <- Z.mul_assoc, <- K. ring. }
  replace (l - 1) with (3 * (l / 3) + 1) in F by lia. pose proof (Z.div_pos l 3 ltac:(lia) ltac:(lia)) as DP.
  rewrite Z.pow_add_r, Z.pow_mul_r, Z.pow_1_r in F by lia.
  rewrite Z.mul_mod, (pow_mod_1 l (i ^ 3) (l / 3) ltac:(lia) DP I3), Z.mul_1_l, Z.mod_mod in F by lia.
  pose proof (Z.div_mod i l ltac:(lia)) as DI. rewrite F in DI. set (m := i / l) in *. clearbody m.
  assert (D3 : (l | 3)).
  { replace 3 with ((i * i + i + 1) - (l * m * m + 3 * m) * l) by (rewrite DI; ring). apply Z.divide_sub_r; [exact D|apply Z.divide_factor_r]. }
  apply Z.divide_pos_le in D3; lia.
Qed.
Lemma inert l x y : prime l -> l mod 3 = 2 -> 3 < l -> on1 (Aff x y) -> x <> f0 -> zm1 l (Aff x y) = Inf -> (l * l | eord).
Proof.
  intros PL M L3 O X L. apply (ord_prime21 l (Aff x y) (phi (Aff x y)) PL O (phi_on _ O) ltac:(discriminate) L).
  - rewrite <- (phi_zm l (Aff x y) ltac:(lia) O), L. reflexivity.
  - intros i Hi E. apply (no_root l i PL M L3). apply (phi_eigen l i x y); auto. lia.
Qed.
(* for l = 1 mod 3 the roots are j and -1 - j *)
Lemma split_order l j x y x' y' : prime l -> 0 <= j < l -> (l | j * j + j + 1) -> on1 (Aff x y) -> x <> f0 -> zm1 l (Aff x y) = Inf ->
  Aff x' y' = zm1 j (Aff x y) -> x' <> fmul beta x -> x' <> fmul beta (fmul beta x) -> (l * l | eord).
Proof.
  intros PL J RJ O X L E N1 N2. apply (ord_prime21 l (Aff x y) (phi (Aff x y)) PL O (phi_on _ O) ltac:(discriminate) L).
  - rewrite <- (phi_zm l (Aff x y) ltac:(lia) O), L. reflexivity.
  - intros i Hi F. pose proof (phi_eigen l i x y PL O X L ltac:(lia) F) as RI.
    assert (D : (l | (i - j) * (i + j + 1))).
    { replace ((i - j) * (i + j + 1)) with ((i * i + i + 1) - (j * j + j + 1)) by ring. apply Z.divide_sub_r; assumption. }
    apply prime_mult in D; [|exact PL]. destruct D as [D|D].
    + assert (IJ : i = j).
      { destruct D as [k K]. assert (k = 0) by nia. lia. }
      subst i. apply N1. cbn [phi] in F. rewrite <- F in E. congruence.
    + (* phi P = -P - jP, so phi (phi P) = jP *)
      set (P := Aff x y) in *. assert (PJ : phi (phi P) = zm1 j P).
      { assert (S : padd1 (padd1 (phi (phi P)) (phi P)) P = Inf) by (apply phi_sum; exact X).
        assert (Z1 : zm1 (i + j + 1) P = Inf) by (destruct D as [k K]; rewrite K, (zm1_mul k l P O), L; apply zm1_zero).
        assert (ZJ : padd1 (padd1 (zm1 j P) (phi P)) P = Inf).
        { rewrite F, <- (zm1_add j i P O). replace (i + j + 1) with ((j + i) + 1) in Z1 by lia. rewrite (zm1_add (j + i) 1 P O), zm1_1 in Z1. exact Z1. }
        pose proof (phi_on P O) as OP. pose proof (phi_on _ OP) as OPP. pose proof (zm1_on j P O) as OJ.
        rewrite (padd1_assoc _ _ _ OPP OP O) in S. rewrite (padd1_assoc _ _ _ OJ OP O) in ZJ. set (W := padd1 (phi P) P) in *.
        assert (OW : on1 W) by (apply padd1_on; assumption).
        assert (C : forall A, on1 A -> padd1 (padd1 A W) (pneg1 W) = A).
        { intros A OA. rewrite (padd1_assoc A W (pneg1 W) OA OW (pneg1_on _ OW)), (padd1_neg W OW). apply padd1_0r. }
        transitivity (padd1 (padd1 (phi (phi P)) W) (pneg1 W)); [symmetry; exact (C _ OPP)|]. rewrite S.
        transitivity (padd1 (padd1 (zm1 j P) W) (pneg1 W)); [rewrite ZJ; reflexivity|exact (C _ OJ)]. }
      apply N2. rewrite <- PJ in E. unfold P in E. cbn [phi] in E. congruence.
Qed.

(* order 11 *)
Definition e11 : Z * Z :=
  (0x19b3e2c8c6bbf59d3c326b531fc1e639d29200c28624ac604f251a12908c9b7f735318617f625954cc71cdf03229b1ef,
   0x15d1455562b9a28d0f11a69ecd34f5a8ade01df410168a09cf16ccfbcbfc69403c7c5771a05d217a122b795529939e03).
Definition o11 : list ptop :=
  [ PD 0xd7faa7464e25958134ddac6106fd2d65fe5da8c9fd8311b950e148101e4a8a9c436fc1e4b255769414188f5355cff6a;
  PD 0xdaa1dba00646b4a07027239bfd3cd417df21f28a5a6e193555685f6e6f56cd974fd879fd298e25b77a42c8c70388d0d;
  PA 0x6e54a268b1de1bf0ad52fe9db1dbe6de21090f1c038f69948907dcf874fbd632d001c93116edfb6ae1e701226727142;
  PD 0x61e0068b538c371c5a6f569b77204b3dd4e3f922e477f93af0b8741ede16110c314b516b8ba2a662e49c58c6e2ad8e ].
Definition d11 : cpt := Eval vm_compute in ofC e11.
Definition n11 : num := Eval vm_compute in dneg d11.
Definition c11 : list op1 := Eval vm_compute in fst (mkops1 e11 e11 o11).
Definition on11 : ocert1 := Eval vm_compute in mkon1 e11.
Lemma d11_val : vz d11 = e11. Proof. vm_cast_no_check (eq_refl e11). Qed.
Lemma e11_on : on1 (aff e11).
Proof. rewrite <- d11_val, <- wp_aff. apply (onk1_ok d11 on11). vmt. Qed.
Lemma e11_kill : zm1 11 (aff e11) = Inf.
Proof. apply (kill_ok d11 n11 c11); [exact d11_val|exact e11_on|vmt|vmt|vm_cast_no_check (eq_refl 10)]. Qed.
Lemma e11_x : mkq (fst e11) <> f0.
Proof. rewrite <- mkq_mod0. vm_compute. discriminate. Qed.
Lemma o11_div : (11 * 11 | eord).
Proof. apply (inert 11 (mkq (fst e11)) (mkq (snd e11))); [auto with pr nocore|reflexivity|reflexivity|exact e11_on|exact e11_x|exact e11_kill]. Qed.

(* order 10177 *)
Definition e10177 : Z * Z :=
  (0x193b2cc2a8a222518a034a317b5739ccd4a649411687902474b6c8856f35d618539e97dafa1784403ae4bcd37562c234,
   0x10e65a0c79bf17f8e54b43641b540c359525582f787dde24bcaa974ffd96252dfbc15b5c35b6662339ba7b300e597853).
Definition o10177 : list ptop :=
  [ PD 0x2a383fd88f1be9ef9aeb86913d67fd56b89c64168a0bc3035d596c017b27d53d437623b53f8a7d1af133ce067ed46d0;
  PD 0xd7fda45d72d278a5bfcb87f81c6de61f5a0d4cb6f2fb5ea3ae58b4b6d758bf9b296860b31cf3ae8424f86fe552c6998;
  PD 0xb5f50c0f6557ddf2c031a01119496cb8988c08b82685cc82a4ec79ef4fa32db87d2c8b922c9e211e26d3080e7c3a648;
  PA 0x885dd9d16daaae42d7308cc2cdc62b7d3ea6742bf2bc008d4d40ce134c6021208976371722ee0920850a9e39c938f18;
  PD 0x3217bf779d3fe55fd14103d9ca2cd10ab6db2cf4dd99fbd5de737762c32dc8c29e2749844832c95162b94a5eea7be6c;
  PA 0x1276a35144aadeceb13d6a1f4f16398876b33acd597384250efaf04be89641434a234972283059bbdb1095f5271da004;
  PD 0x11ac74049972bd1b36703a11f71e1839dfcf798ee8d680f1f062290a2c5017d78d28ad004b44df203a842a395b782269;
  PA 0x47113ef98b938f0c785384f840985fa003b15348ab674f3a9108d5cf1ce71df3b2be30371f649e96bf9b7fca6c8339c;
  PD 0x154fecd6f97432b56dcb7c7afeecef448529218c1f6eb73805390f4dafae7da7918f87b28156ca21e0b2c0d5422e9800;
  PA 0x4427a18d8afa7f76778367e75ff9ec143ac0d07e3815dde7a13996a07952dbb3dda8e5892f65b6a848ab406cb4b957d;
  PD 0x1ce5ca9559bb703bd2d336307095f3bb6d6391751c53e50999f188d92ac9951e5221bde71eb52575713489ee323f78;
  PA 0xd1e8580b71e5049ba88de0234d1d51079ccf91e4b1bc0a5ff32a31008853b2640663da8b8e6431ee01f9988d7fd30f6;
  PD 0xac52376d3fff616fc5a3b8bb94fcea56667ce92ea8539d0577be44bbca27e7fe05fdd108901c73791f5f774ef8b2eab;
  PD 0xfda31c64ab396a5d13c70fdca8f47660d55f9a58499238edc22e07c031a2996fb02fe514b7218c2f1c1af31b5e1604f;
  PD 0x11c72a5a453cdf87c399f06a2eafb72ff16a34958be02d5b32f6387c268142134ace750d1e94c2362ac8db00bf145c54;
  PD 0xaeb6f57ad0bb6c4d09898f4693be45413d6cb1e973c729de57eb7d2027a1f171bc0cfcc258e9242b0ab8926d1ecaa52;
  PD 0x58453c439d08c8faaf8a236be20cb414050d09e310fddc83a53f9db7980cef3d7d59809caa5f58d395d5ad331aeea29;
  PD 0x93b884402077ea26151ad52d5513c9ba04136362c4e4f2bc485ce698a8ba32a9902b5fc3f709806449173a4bd7c4ca9 ].
(* a root of i^2 + i + 1 modulo 10177 is 5403 *)
Definition f10177 : Z * Z :=
  (0xc148e170fff9e2c0ed07b9da0e745d55cc7d0bec4210afc8dfd68dc61a4975900a6fab8f02df71e00f0ba54380190c0,
   0x13a3c0792d8302b43a1bbd628806514df5ba504d946bde514488935f551a62cead0079d595949dd5cf6157da80d2c35d).
Definition w10177 : list ptop :=
  [ PD 0x2a383fd88f1be9ef9aeb86913d67fd56b89c64168a0bc3035d596c017b27d53d437623b53f8a7d1af133ce067ed46d0;
  PD 0xd7fda45d72d278a5bfcb87f81c6de61f5a0d4cb6f2fb5ea3ae58b4b6d758bf9b296860b31cf3ae8424f86fe552c6998;
  PA 0x12a92985d8853b850d4b7c7dcffa6caf30ed225a60a240c4b092db695d9f3264cb2d99540eea573146b377b661ec875d;
  PD 0xf4b7ca5af5a367ddab8e60bf0f89907875ef0246447af9c6fba439a0b1edeb168b9d6239b0131bb44543d5451e551ae;
  PD 0x177a07e52d85540d1ddbb5c1893612bbe79e326329c857bf28f5992dafb7066a8bb40192ceb2284b73c9544c90b87fcd;
  PA 0x12bc6edb66b5948d9308339f2de9af441f496b1b702d75c64dac846ed0aa715059786becae60aadfaf4d8f83f2375ebd;
  PD 0x12d188e300d5a4d3630aa0833a8e49812aa057de876cb839efbdcb051cda58351630e674a5728039731843218640389;
  PD 0x176a931ae1def4a1dd2bebc87f38e8626040f3d5e42a881520e2b04c3c7fc245ee812b5672cc711e05b13a8c4c3e00e1;
  PD 0xd11e403bf27cf5f129a906c6854a0d36fae79d50bf946727562bfe0a2c33eb335e2ea9e96a5c43d5e8b5eac1be37d6b;
  PD 0x10cb3dd48346e83b0c6a78ae4f54f17d21c58dd0a605a205b1e352361410cc0e4acb5b58916abacb783c1a23512d4c6b;
  PA 0x6f565e989167f779c3d9956f9cd1a5d7bc4071d448e8b375a95d62830d6a034c3a91186d49c941eab1118304fa6ac37;
  PD 0x183073f02567f084a4651998324e9d534faf4b1c957ff75085ef6654730942d73007df91ccbe450e541c305857dbdc24;
  PA 0xd02d75edd73be6cddf90bc93fe7a3dc98119ca48474d3ba51b2aeb4ac4ad98583b8934ca28b5de3bf143ecf39eae26a;
  PD 0x11eaf79f1c147cc11251294ac5294392aa83633ed7a5bcee897780361c741b058bc8ea5b45dbd3cd6c26062fd740e24b;
  PD 0x40c9959240232f35fbeb876a579e4fba42954a5bae2bc1a7c32fef3d177530db379aaca201a20338106dd1356ed62d6;
  PA 0x12ea2b1ebc88ad44fdba4f588f7da446b7b1799ae893a70ba4d220846fb59a9ed9cd0adb72f949e9f847384cff42a8a8;
  PD 0x3bf0956018c9163af022ba5a39121aa99cf945adadd0ef8ec6fa562de3db0194c1ca2ad519ea82dfdd1f6620601fdae;
  PA 0x191d5c6262a921a2f8198b72baf8a2dc13b902615a471059312dfd1cd1b181fa3a0be514dbc5d7653152d81e7d13bc45 ].
Definition d10177 : cpt := Eval vm_compute in ofC e10177.
Definition n10177 : num := Eval vm_compute in dneg d10177.
Definition c10177 : list op1 := Eval vm_compute in fst (mkops1 e10177 e10177 o10177).
Definition on10177 : ocert1 := Eval vm_compute in mkon1 e10177.
Lemma d10177_val : vz d10177 = e10177. Proof. vm_cast_no_check (eq_refl e10177). Qed.
Lemma e10177_on : on1 (aff e10177).
Proof. rewrite <- d10177_val, <- wp_aff. apply (onk1_ok d10177 on10177). vmt. Qed.
Lemma e10177_kill : zm1 10177 (aff e10177) = Inf.
Proof. apply (kill_ok d10177 n10177 c10177); [exact d10177_val|exact e10177_on|vmt|vmt|vm_cast_no_check (eq_refl 10176)]. Qed.
Lemma e10177_x : mkq (fst e10177) <> f0.
Proof. rewrite <- mkq_mod0. vm_compute. discriminate. Qed.
Definition g10177 : cpt := Eval vm_compute in ofC f10177.
Definition v10177 : list op1 := Eval vm_compute in fst (mkops1 e10177 e10177 w10177).
Lemma f10177_chain : aff f10177 = zm1 5403 (aff e10177).
Proof. apply (chain_ok d10177 n10177 v10177 g10177 e10177); [exact d10177_val|vm_cast_no_check (eq_refl f10177)|exact e10177_on|vmt|vm_cast_no_check (eq_refl 5403)]. Qed.
Lemma o10177_div : (10177 * 10177 | eord).
Proof.
  apply (split_order 10177 5403 (mkq (fst e10177)) (mkq (snd e10177)) (mkq (fst f10177)) (mkq (snd f10177)));
    [auto with pr nocore|split; [discriminate|reflexivity]|exists 2869; reflexivity|exact e10177_on|exact e10177_x|exact e10177_kill|exact f10177_chain| | ];
    unfold beta; rewrite <- ?mkq_mul; intros E; apply mkq_inj in E; vm_compute in E; discriminate E.
Qed.

(* order 859267 *)
Definition e859267 : Z * Z :=
  (0x1310f8ec33fd928f6e1574118fda4984a98fc50e5a9d7f131f342d969864bf3812fc1fa57714de7d4c72990b03b5cac7,
   0xb71f75142efeb6f73b4e070b254981942311d4464cea42763ea870c91cc82f96d425da39dad33bb87fe9cf643733ec4).
Definition o859267 : list ptop :=
  [ PD 0xdc1a0d368dfcc76f9cc8a3fabb3025975d8004f964a3df654bfc5fe99d10d65d29c042abcdb69d3a5e12af43d2aede;
  PA 0xfbe48a239c08a0a75e763a3674f4e11f1392817c630cf2c610091c122fa9df0382af5c446be6afd5677db7ccb374b6b;
  PD 0x16241d276372dbd1760e440b00ea50fa468e5915bffc13670f5da53df07fbd39fd1456e6cf0759899037e49b0bab2178;
  PD 0xf2a5e569f96224cc5079f70344a86a75a86c909c25f58ac7ea8d84ff57f01ee57eec4ad9d09bf5768b151f7d6cc5cc7;
  PA 0x416a107e909192f581c3f0dc0d147b5cd9f2ac60f89353dfc6167f834187c7336d0beb918ab4f8bc7f1f495786bf314;
  PD 0xc0ee943440b1162275e9329c26185cf07f2920a60d205976dd051b4152bfa40369a5f1ba7276e357a5617cc4b4d7ef7;
  PD 0x24d8edad192ff8eed4cefc3e81515b48713539db463d7de77e68013fcba57d152cd526e6d5bb04bf2b36c00d431551a;
  PD 0x663ddb628c7373f395c7ba03143db4475d7f216934edb64c379274da7bfbfc5e747ad3248e48004174d3b37acae464;
  PD 0x903a8ffc0bf5856c4ed4bb004af8ea2b3be4296e30e127ddf622f2fa648beca73095cdbb55ab2c0550454c8ef08f129;
  PA 0x416c943b3725a93d084607ea3ae0e55caebde13cd4f8d2037f683a65751c6f33f141adeb3d3e100fac3c59ce689c0c6;
  PD 0x5bf10a7744a5e8e865e3981a86e83c7b2feeb88b95695f187551c55e64d7c56152d48b3615c6595b5b5dec652290294;
  PA 0xe544e87c42782431dbf968e9a7d54a94c08ab6e5d537fd3f8d1948e734293c1f49ade38c96fce366d4e38071f634386;
  PD 0x2602f7c00b88b44a1ba5ea58d53084dc19ff8e70af2169ff0e5f3d9474b202c720af4b5f1ddd9e31ba3aa78e575100d;
  PA 0x434efb9101930a0ffb4f444d355b423b19b87b7fe9d3e671c08da3786c47c3a0d1c9ea92102daee4417f6824f2320f1;
  PD 0x34ef51a8b2e2af4838f3d87ca566719e929bcc1fecda308ed56171a9fbe3437343b3f1a17228d8b58efdf84de1c2abb;
  PD 0x42a736821a5b979a8a1f45000002bc5a0cefe611e302345be5afb82181cd38512c9ea754201d9a2b895908286f6e5a3;
  PD 0x120f220d890bc97400a70f95b4823ee433be3c2e846b324f9240c988f3d3c81a4e9012ad54b03614d4dfcb93f9e4496a;
  PA 0xd2d5f37e2e6ae50d37d5d158f09dc6ff7b022460ed55fc6bf55931c32f2dc0a6495edd9b1eed6cf9cfb6ca3e78ae5e3;
  PD 0x75b7e072960ad216e787e829fc77fbd9f0bf998b533df93227bbb36c8c688c9f539aeb78d8860386f66956a5f6fd370;
  PD 0x12e7f411190c7d2ca0eead2f15b49fcf4b2ea74d3c5798f825a0e61b1d858802a8a1bf2670f21dd758e09ce4303b7d0a;
  PD 0xcfa4d1971381cbf2c8f88aec11a39727638c0c100717deee7b654d388ddcd8273b204b0d004ebefaa244457563e7b3a;
  PD 0x173f86f735a601366677b32a6da1b3c9ea2a1f91ea85419d3b4ca76b653ac23ef8b19e2035fabc2bb4ab1d979abaacd4;
  PD 0x11e8e05a807a7407017262b542a73afd82d91e740e7a4f77eedfa1d444934dc84672c039a3fee8cf7e030020663da920;
  PD 0x63351fd6471497df3c6d4b70399a4f54991cc86a546c2afaa5871fe70c58e794ef0654400c8d4b06550da7f9e39e688;
  PA 0x109b9af54a83c0f9711902f131a380574635920727698b990023dcd8753d9370d8d647008de547c46e12a1984f7a9aee;
  PD 0xb13dd3b96d7f640c596cb858f6fa87299edaa7d9c53cd25584305d133b73643ed18e9fc5c73953269d680b3cc503be1 ].
(* a root of i^2 + i + 1 modulo 859267 is 119571 *)
Definition f859267 : Z * Z :=
  (0x197c64ab28a5b4c5123cf03bf8617785f78091bbc33ff744e124e877345072f56ea2fd3f35bf784bcc0e0926520ca9,
   0x6210fab4ab7bbd9fa41115f24643f10296ebb2ee13174d229e92de160302cce0ab44ce43f790f4458614e6f88021223).
Definition w859267 : list ptop :=
  [ PD 0xdc1a0d368dfcc76f9cc8a3fabb3025975d8004f964a3df654bfc5fe99d10d65d29c042abcdb69d3a5e12af43d2aede;
  PA 0xfbe48a239c08a0a75e763a3674f4e11f1392817c630cf2c610091c122fa9df0382af5c446be6afd5677db7ccb374b6b;
  PD 0x16241d276372dbd1760e440b00ea50fa468e5915bffc13670f5da53df07fbd39fd1456e6cf0759899037e49b0bab2178;
  PA 0x136ac53ca06c2c24dc0090287adc0628ccdca306edd211d6a66eb3694503af21c26af88583e70e4b1bac86b3d1e4cc20;
  PD 0x312e4e9b1b02d8994163a7ee6a73c746331cd36735b63daaabeb9d00d26a014ee0c7df5e46c27954c1e79a1218b3e06;
  PD 0x834146a76e152ce94aa8578e6107686e4c96747c551550a202353debbf0a5481c9d2ca772b7e7ee7e2764caacadf3fe;
  PA 0x11a0d8b79f380acea18ebdd5932c6fa979abd4249c44256f28eda6c78b124d5b6b26d4ab9bd67359ad6014f70454ee8e;
  PD 0x68d14376d2937356500047dbf363e6828d86150fbdcbed8fdccf770d150cdce40e433e57c38080ff3d59437b325ad72;
  PD 0xe4d4cd165f0bae2c0c3815c73756982d88c891754ec7810807a95a7c998ff58539a4f5d922bf28027775305108adb4e;
  PD 0xd86423d107de0644c54349d7912e84f5f3e3a7da93d7286a2cf46bdab0520120e44a69cfadf09f7cc0de824c17f4b00;
  PA 0xee038770613f4c2034c5bca0e1d45acdb78ea57c0462b79f032ee77035c8385d0498d689baa005930032d909decf2ac;
  PD 0x9c569e6fb88f3cf12bf730edff4fde4950afdfca6b97cc586465394e0976c28a470611c33111f0169e427378e1f97e8;
  PA 0x13190bd72febf9b62123b3187cde3ff69f72a3b7a0b75194f5753326b6475a409f01dddf43fca3a9098d627fdbb08c8e;
  PD 0x1102a05c14c5b6aee009eac68f1b6ee73eeede5252693ba070e3f0b857362f8e6c54cc014c32f05919f7583dc1c795ab;
  PD 0x274ceb6440c9c93050157171b17c78d0b40c86aa17e1473e02f38a6409e063d9b30bd074580826443557a681f4a727e;
  PD 0xaa44716ea70c0186ff620a67f3674338414534ebd5c03fd40f4ac024de2924a2242c3f01f865647e807d08884be8cb3;
  PD 0x3ea2d5c09d7add8a94ef5d336b24042b8840ec95a2b3d1d434caa2ae9c79b0b4777ec6c75bbead96142553a723ee7a7;
  PA 0x4f87894282001bed48999ff38c70d78c36bd329df5093c4a102f901c24ddf29e7938acc68fd20926b1cee92b4381dd0;
  PD 0x2665ced8ace9a2133e9001368f205a6aa12b9e766815dddfeba6e30663a9f42e49855756f4027bec13223d8640aabb2;
  PD 0x200d07f3b01d236d2f471c6efea5dc3bf24a02c2700b1dca9b17b1d61b9de11d4cf202c2adb5452dc323d257f5a8037;
  PD 0xa2d21b03a018ca8d5ffda59c3593084dbccee2bb41d61beb6a634ca5c2e8af27aba778ed18b3c1eceb03e80a7a2498a;
  PA 0x8259b3a59ba98610f0819ab82f78ddd5aa87b7c406b7e66f0edf99bdbafe43469a0ad5760df2539fe4db368e363190e;
  PD 0x1efb7ff80963176dac6c68845cdf7c7e73efcdf626e9360f001168f1c67c951d7a1adcc661af9601bba1c1282b9d24b;
  PA 0x184a21fe310b091c06338f5245af98f586b6d6d45bba80789756b175044bacdcce918ccd5f336701a4e06cc894c9921f ].
Definition d859267 : cpt := Eval vm_compute in ofC e859267.
Definition n859267 : num := Eval vm_compute in dneg d859267.
Definition c859267 : list op1 := Eval vm_compute in fst (mkops1 e859267 e859267 o859267).
Definition on859267 : ocert1 := Eval vm_compute in mkon1 e859267.
Lemma d859267_val : vz d859267 = e859267. Proof. vm_cast_no_check (eq_refl e859267). Qed.
Lemma e859267_on : on1 (aff e859267).
Proof. rewrite <- d859267_val, <- wp_aff. apply (onk1_ok d859267 on859267). vmt. Qed.
Lemma e859267_kill : zm1 859267 (aff e859267) = Inf.
Proof. apply (kill_ok d859267 n859267 c859267); [exact d859267_val|exact e859267_on|vmt|vmt|vm_cast_no_check (eq_refl 859266)]. Qed.
Lemma e859267_x : mkq (fst e859267) <> f0.
Proof. rewrite <- mkq_mod0. vm_compute. discriminate. Qed.
Definition g859267 : cpt := Eval vm_compute in ofC f859267.
Definition v859267 : list op1 := Eval vm_compute in fst (mkops1 e859267 e859267 w859267).
Lemma f859267_chain : aff f859267 = zm1 119571 (aff e859267).
Proof. apply (chain_ok d859267 n859267 v859267 g859267 e859267); [exact d859267_val|vm_cast_no_check (eq_refl f859267)|exact e859267_on|vmt|vm_cast_no_check (eq_refl 119571)]. Qed.
Lemma o859267_div : (859267 * 859267 | eord).
Proof.
  apply (split_order 859267 119571 (mkq (fst e859267)) (mkq (snd e859267)) (mkq (fst f859267)) (mkq (snd f859267)));
    [auto with pr nocore|split; [discriminate|reflexivity]|exists 16639; reflexivity|exact e859267_on|exact e859267_x|exact e859267_kill|exact f859267_chain| | ];
    unfold beta; rewrite <- ?mkq_mul; intros E; apply mkq_inj in E; vm_compute in E; discriminate E.
Qed.

(* order 52437899 *)
Definition e52437899 : Z * Z :=
  (0x136e825e6cd75a2167f0c44cfadea0ecc43c0be6a51219b5d2c4ae3bd6c77607ea2e1cc2b828fe316f8237382eab63a6,
   0x92cc98c21bebc35377c61ebc25f470249cb52810f866f196c07e08efed10dc1509a6c101865e4dbb0bc6cf14b22ac7e).
Definition o52437899 : list ptop :=
  [ PD 0x54943b08920cbeef40b4174eb7af7fccda793ce522f58fff575f9df3fc66b7cfcf5d36edb8472bb5508374906f0008d;
  PA 0x5df59b6ba67f7228a127b580d65400a28c3d68af2795fa0ec04471b5d40a8f70e4c6c39bbebddaf65c669d7f29a37c8;
  PD 0x70a94fed2574468428953f026b565acff490acb1c4107c47b52acbaebd74b93171cf711efb560cfc9b7cd2fcbce6d5f;
  PD 0x70fa0e4899bdb0c27f81ed933086d8d7009d825e1c463070ce63b3e79057fa69653b88075355204b3fd18f1ec4b87bb;
  PD 0x9a095125137742bc43adacfbf11944a143d864a1991efaab2303c99177af294059e55ff5de18b2844987787473226;
  PA 0xa6b5d6288bd295a1b39c9a6d68cf42d3c2714b41f257d772821832fcc54978e04d1a6dc3a88519927227cea13bd6f8f;
  PD 0x8b2635f3268cbdd33b9fa2588d215ab0b98e5c035974a8c4c5f55b9bfa45a70cacdfdfbbde595f5f5f8aeaacb2c2a54;
  PD 0x562c92a086f464c45a8b50d0395a006632a5be686d5563342ba4491b4c204a604ed6a40effe39ba317e41e456c95f4b;
  PD 0x56d0648ad6673583302aba73a6ce370b5a6f049af398a86a4e5ef10c5856a6101ce52bce4d0cd0cc2df4aa105cc368;
  PD 0x55534c7d9fb35f3507c8a3a57ffbe51f6ea3fa0dfed7171dc6c2fb7aa9213f957ff607062b7edf8ae45c1327e06276f;
  PD 0x19c28bd0203c3f44c24120ed0f8d3a010a146b411a0ffc696d3f4a05511f7c4fa2275600e85f3805302f95f7e27e5b8b;
  PD 0x81e4dfc3944853065c746d4047a81ab6f1b53d372d93b06ae76501a8d9c5f7e12837648564987fa5b912c77b9d85c59;
  PD 0x1639aa92e998e553137da7baae54d3741273b13a904b550c84c4427cd36d94e05fbb59dc66b3fd3ee766469f1a6862fc;
  PD 0x10313f28a2313200fc758133c2138051879834bdc6b668c82bf70ce0f2308a4b724f04e32f52d83d588132a87f63a3bd;
  PA 0x4a1fdebb11a2f04005c8c1e51b2a33701c9743dc693fad46c2496ada02a68570f888c036c58a907c32d458ccec43b79;
  PD 0x9ac66cb3a58f88f1670afd5641550ffe830f465930c9360fb94bf4645c3b1f92837499fb12dd18232a6c6d7996fc059;
  PD 0x12fe4b72e367b3303462675bc247add124646e9663aef12663f9d7573f34e679abe16b9393f88e75f867a780c0e13f96;
  PD 0x525eadd80984845b6676067153b8a66c1a126d85db2f43408a175d79e8d3b89055ee003da6d592f9f4a084205b45abd;
  PD 0x84791932bbdaa47adaa887f0cfcb0a9f57c24de8713d48e1c3ef7ddc507703caa64c79d0dd690e123509b61d51bb695;
  PA 0x3d3a7edcd06756ebbc765a2700fdb30b9d73b2f4ecfafe0398675c133ef90bad581532990c7546c6d0c82419458da60;
  PD 0xdc4bcf21bfbb91bab94fcfaebde4d5f2862312247be2750350503033de36ebb7f4ef586ca2382856df1a678f4617234;
  PA 0xde152b7246e850bb9e4cf4ef84ad718b8a68494a712c78c67f52125dda140a010d7edd0931a2c14a1a47bbf476c17c5;
  PD 0x507d8fd21cbc1ee57fdf59469627d3f1d8deca6aebf6fb4747d0ca264f493e4c6f873506ff7325720f36f84159ed48;
  PA 0xc384d7fb318d14f8aaab028bd59596688c491806775c98576a8f4c48b679574473ce6b8639143d1a5631abc937d6937;
  PD 0xe589d41499b41191da967ef57b3577e0bb51f169145884227de9709d6257d5d706db33feab22dc024b5ecb38a46c846;
  PD 0x8b1e2d3062675eda2894c2b7f4a701e99656f04998f3c67ced1f1369dccd0bcd98d89bf7a1a14b90e55cbdcd419c81a;
  PD 0x642da4b43500905db186bb9309a5afa64f6a84694e40e207a0247af7ab229b57dbad07ca8c3cc9924ff6946b31fac3b;
  PD 0x16839a058561bba0d4cd2e25599e517815211d138c1b30adf1b855cc754f97ca3ae875c3fd32b07c4d074a1b70f711a4;
  PA 0x5d1bda0e76adb4c8f275fb6f9931ed679039f8de2ab9d234748b717f74d4d46908e30b773461b1d77bd1579d254d013;
  PD 0x193b5eb62f256f60dd638c24cfaaa67af8aa81a7ccd29be98b47515e438c6dbb8a1e14c6041a977c61b7c43dec0b865d;
  PD 0x2b2223bae67ad024f68f3aff08dddfbfc0b4fc3d7d9b9dc34b86f6a981e49e8bebc2be2da3c39c6c56025ee15d499f8;
  PA 0x11f1878679999434b440021360817a0f94eb7d9387032da2937e60354061abd7f2d4ee27a88aa0736a90c4f7c8b9d844;
  PD 0x4b73342e065fbfc5f957e3b8b4ec98cf101a0259334607d32e2d5d714e819af4dfee56b527a08cc7def7b49cc905957 ].
Definition d52437899 : cpt := Eval vm_compute in ofC e52437899.
Definition n52437899 : num := Eval vm_compute in dneg d52437899.
Definition c52437899 : list op1 := Eval vm_compute in fst (mkops1 e52437899 e52437899 o52437899).
Definition on52437899 : ocert1 := Eval vm_compute in mkon1 e52437899.
Lemma d52437899_val : vz d52437899 = e52437899. Proof. vm_cast_no_check (eq_refl e52437899). Qed.
Lemma e52437899_on : on1 (aff e52437899).
Proof. rewrite <- d52437899_val, <- wp_aff. apply (onk1_ok d52437899 on52437899). vmt. Qed.
Lemma e52437899_kill : zm1 52437899 (aff e52437899) = Inf.
Proof. apply (kill_ok d52437899 n52437899 c52437899); [exact d52437899_val|exact e52437899_on|vmt|vmt|vm_cast_no_check (eq_refl 52437898)]. Qed.
Lemma e52437899_x : mkq (fst e52437899) <> f0.
Proof. rewrite <- mkq_mod0. vm_compute. discriminate. Qed.
Lemma o52437899_div : (52437899 * 52437899 | eord).
Proof. apply (inert 52437899 (mkq (fst e52437899)) (mkq (snd e52437899))); [auto with pr nocore|reflexivity|reflexivity|exact e52437899_on|exact e52437899_x|exact e52437899_kill]. Qed.

(* order 3 and order r *)
Lemma o3_on : on1 (Aff f0 (mkq 2)).
Proof. cbn [on_curve]. rewrite <- mkq_mul. unfold fb. transitivity (mkq 4); [reflexivity|ring]. Qed.
Lemma o3_div : (3 | eord).
Proof. apply (ord_prime1 3 (Aff f0 (mkq 2)) prime_3 o3_on ltac:(discriminate) (order3 _ o3_on)). Qed.
Lemma or_div : (r255 | eord).
Proof. apply (ord_prime1 r255 G1gen r255_prime G1gen_on ltac:(discriminate) G1gen_order). Qed.

(* the cofactor *)
Definition h1c : Z := 0x396c8c005555e1568c00aaab0000aaab.
Lemma h1c_fact : h1c = 3 * (11 * 11) * (10177 * 10177) * (859267 * 859267) * (52437899 * 52437899). Proof. reflexivity. Qed.
Lemma h1c_u : 3 * h1c = (uZ + 1) * (uZ + 1). Proof. reflexivity. Qed.
Lemma coprime_div a b n : (a | n) -> (b | n) -> Z.gcd a b = 1 -> (a * b | n).
Proof.
  intros [x X] B G. rewrite X in B. rewrite Z.mul_comm in B. apply Gauss in B; [|apply rel_prime_sym, Zgcd_1_rel_prime; exact G].
  destruct B as [y Y]. exists y. rewrite X, Y. ring.
Qed.
Lemma h1r_div : (h1c * r255 | eord).
Proof.
  rewrite h1c_fact. pose proof o3_div. pose proof o11_div. pose proof o10177_div. pose proof o859267_div. pose proof o52437899_div. pose proof or_div.
  repeat (apply coprime_div; [|assumption|vm_compute; reflexivity]). assumption.
Qed.
Lemma h1r_q : h1c * r255 = q381 + uZ. Proof. Transparent q381. vm_compute. reflexivity. Qed.
Global Opaque q381.
Theorem curve_order : eord = q381 + uZ.
Proof.
  destruct h1r_div as [k K]. rewrite h1r_q in K. pose proof eord_le as L. pose proof eord_pos as P. assert (U : 1 < uZ) by reflexivity.
  pose proof q381_pos as Q. revert K L P Q U. generalize q381 uZ. intros q u K L P Q U. assert (k = 1) by nia. subst k. lia.
Qed.
Theorem cofactor_kills P : on1 P -> zm1 (h1c * r255) P = Inf.
Proof. intros O. rewrite h1r_q, <- curve_order. apply ord_kills1. exact O. Qed.
Lemma h1_coprime : Z.gcd h1c r255 = 1. Proof. vm_compute. reflexivity. Qed.
