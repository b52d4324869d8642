(* Signing, hashing and verification interface; concrete witnesses on the twist. *)
From Coq Require Import ZArith List Bool Lia Znumtheory Permutation Field.
From Verif Require Import Prim Rom Big Fp Fp2 Fp4 Fp12 Ecp Ecp2 Utils Api PrimP BigP BigP2 SpecBytes BigP3 BigP4 BigP5 NumT FieldQ FieldQ2 FpP FpP2
  SkP SpecCurve CurveP GroupP JacobiM JacP Fp2P Sqrt2P WinP EcpP EcpC Ecp2P Denote GenP KeysP KeysP2 KeysP3 BigL LayerP Ecp2C MapP SigsP SearchP.
Import ListNotations.
Open Scope Z_scope.

(* ------------------------- hash input --------------------------------- *)
(* the string hashed for the real (tag 1) and imaginary (tag 2) part *)
Definition hash_input (msg : list Z) (d tag : Z) : list Z := msg ++ be_bytes 8 d ++ [tag].
Lemma be_bytes8_eq d : 0 <= d < 2 ^ 64 -> be_bytes8 d = be_bytes 8 d.
Proof.
  intros D. unfold be_bytes8. cbn [map be_bytes app].
  assert (E : forall k, 0 <= k -> Z.land (Z.shiftr d (8 * k)) 255 = (d / 2 ^ (8 * k)) mod 256).
  { intros k K. rewrite Z.shiftr_div_pow2 by lia. change 255 with (Z.ones 8). rewrite Z.land_ones by lia. reflexivity. }
  rewrite !E by lia. rewrite !Z.div_div by lia.
  change (2 ^ (8 * Z.of_nat 0)) with 1. rewrite Z.div_1_r. reflexivity.
Qed.
Lemma hash_on_g2_input : forall hash msg d, 0 <= d < 2 ^ 64 -> hash_on_g2 hash msg d =
  map_to_g2 (repeat 0 16 ++ hash (hash_input msg d 1)) (repeat 0 16 ++ hash (hash_input msg d 2)).
Proof. intros hash msg d D. unfold hash_on_g2, hash_input. rewrite be_bytes8_eq by exact D. reflexivity. Qed.
Lemma app_inj_len (a b c d : list Z) : length b = length d -> a ++ b = c ++ d -> a = c /\ b = d.
Proof.
  intros L H. assert (LA : length a = length c) by (apply (f_equal (@length Z)) in H; rewrite !app_length in H; lia).
  revert c LA H. induction a as [|x a IH]; intros [|y c] LA H; try discriminate LA; [auto|].
  cbn [app] in H. injection H as -> H. destruct (IH c ltac:(cbn [length] in LA; lia) H) as [-> ->]. auto.
Qed.
Lemma hash_input_inj : forall m1 d1 t1 m2 d2 t2, 0 <= d1 < 2 ^ 64 -> 0 <= d2 < 2 ^ 64 ->
  hash_input m1 d1 t1 = hash_input m2 d2 t2 -> m1 = m2 /\ d1 = d2 /\ t1 = t2.
Proof.
  intros m1 d1 t1 m2 d2 t2 D1 D2 H. unfold hash_input in H. rewrite !app_assoc in H. apply app_inj_tail in H. destruct H as [H T].
  apply app_inj_len in H; [|rewrite !be_bytes_length; reflexivity].
  destruct H as [H1 H2]. apply (f_equal be_int) in H2. rewrite !be_int_bytes in H2. change (256 ^ Z.of_nat 8) with (2 ^ 64) in H2.
  rewrite !Z.mod_small in H2 by lia. auto.
Qed.

(* ------------------------- interface equations ------------------------ *)
Lemma new_is_new_hashed : forall hash msg d sk, 0 <= d < 2 ^ 64 -> sig_new hash msg d sk =
  sig_new_hashed (repeat 0 16 ++ hash (hash_input msg d 1)) (repeat 0 16 ++ hash (hash_input msg d 2)) sk.
Proof. intros hash msg d sk D. unfold sig_new, sig_new_hashed. rewrite hash_on_g2_input by exact D. reflexivity. Qed.
Lemma verify_is_verify_hashed : forall hash s msg d pk, 0 <= d < 2 ^ 64 -> sig_verify hash s msg d pk =
  sig_verify_hashed s (repeat 0 16 ++ hash (hash_input msg d 1)) (repeat 0 16 ++ hash (hash_input msg d 2)) pk.
Proof. intros hash s msg d pk D. unfold sig_verify, sig_verify_hashed. rewrite hash_on_g2_input by exact D. reflexivity. Qed.
Lemma hashed_48 : forall re im sk s pk,
  sig_new_hashed re im sk = sig_new_hashed (firstn 48 re) (firstn 48 im) sk /\
  sig_verify_hashed s re im pk = sig_verify_hashed s (firstn 48 re) (firstn 48 im) pk.
Proof. intros. unfold sig_new_hashed, sig_verify_hashed. rewrite map_to_g2_48. auto. Qed.
Lemma hashed_short : forall re im sk s pk, (length re < 48)%nat \/ (length im < 48)%nat ->
  sig_new_hashed re im sk = None /\ sig_verify_hashed s re im pk = None.
Proof. intros re im sk s pk H. unfold sig_new_hashed, sig_verify_hashed. rewrite (map_to_g2_short re im H). auto. Qed.
Lemma multiple_guards : forall hash s msg d avks, adm2 s -> length avks = 0%nat \/ length msg <> (32 * length avks)%nat ->
  asig_verify_multiple hash s msg d avks = Some false.
Proof.
  intros hash s msg d avks A H. unfold asig_verify_multiple. destruct (K2_affine s A) as (c & -> & _). cbn [bind].
  assert (G : negb (length msg =? 32 * length avks)%nat || (length avks =? 0)%nat = true).
  { apply orb_true_iff. destruct H as [H|H]; [right; apply Nat.eqb_eq, H|left; apply negb_true_iff, Nat.eqb_neq, H]. }
  rewrite G. reflexivity.
Qed.
(* equality of FP12 does not depend on the order of the arguments *)
Lemma eqb_comp_sym a b : (big_comp a b =? 0) = (big_comp b a =? 0).
Proof.
  assert (E : big_comp a b = - big_comp b a);
  [revert b; induction a as [|x a IH]; intros [|y b]; try reflexivity; cbn [big_comp]; cbv zeta; rewrite IH;
   destruct (Z.eqb_spec (big_comp b a) 0) as [->|N]; [|rewrite (proj2 (Z.eqb_neq (- big_comp b a) 0)) by lia; reflexivity];
   change (- 0 =? 0) with true; cbn iota; rewrite (Z.eqb_sym y x); destruct (Z.eqb_spec x y); [reflexivity|];
   destruct (Z.ltb_spec y x), (Z.ltb_spec x y); lia|rewrite E; destruct (Z.eqb_spec (big_comp b a) 0) as [->|N]; [reflexivity|apply Z.eqb_neq; lia]].
Qed.
Lemma fp_equals_sym a b : (r <- fp_equals a b ;; Some (fst (fst r))) = (r <- fp_equals b a ;; Some (fst (fst r))).
Proof.
  unfold fp_equals. destruct (fp_reduce a) as [a'|], (fp_reduce b) as [b'|]; cbn [bind fst]; try reflexivity.
  rewrite eqb_comp_sym. reflexivity.
Qed.
Definition fp2_eqb (x y : FP2) : option bool := r <- fp2_equals x y ;; Some (fst (fst r)).
Lemma fp2_eqb_alt x y : fp2_eqb x y =
  ea <- (r <- fp_equals (f2a x) (f2a y) ;; Some (fst (fst r))) ;;
  if ea : bool then r <- fp_equals (f2b x) (f2b y) ;; Some (fst (fst r)) else Some false.
Proof.
  unfold fp2_eqb, fp2_equals. destruct (fp_equals (f2a x) (f2a y)) as [[[ea xa] ya]|]; cbn [bind fst]; [|reflexivity].
  destruct ea; [|reflexivity]. destruct (fp_equals (f2b x) (f2b y)) as [[[eb xb] yb]|]; reflexivity.
Qed.
Lemma fp2_eqb_sym x y : fp2_eqb x y = fp2_eqb y x.
Proof. rewrite !fp2_eqb_alt, (fp_equals_sym (f2a x)), (fp_equals_sym (f2b x)). reflexivity. Qed.
Lemma fp4_equals_alt x y : fp4_equals x y = ea <- fp2_eqb (f4a x) (f4a y) ;; if ea : bool then fp2_eqb (f4b x) (f4b y) else Some false.
Proof.
  unfold fp4_equals, fp2_eqb. destruct (fp2_equals (f4a x) (f4a y)) as [[[ea xa] ya]|]; cbn [bind fst]; [|reflexivity].
  destruct ea; [|reflexivity]. destruct (fp2_equals (f4b x) (f4b y)) as [[[eb xb] yb]|]; reflexivity.
Qed.
Lemma fp4_equals_sym x y : fp4_equals x y = fp4_equals y x.
Proof. rewrite !fp4_equals_alt, (fp2_eqb_sym (f4a x)), (fp2_eqb_sym (f4b x)). reflexivity. Qed.
Lemma fp12_equals_sym x y : fp12_equals x y = fp12_equals y x.
Proof. unfold fp12_equals. rewrite (fp4_equals_sym (f12a x)), (fp4_equals_sym (f12b x)), (fp4_equals_sym (f12c x)). reflexivity. Qed.
Lemma multiple_one : forall hash s msg d avk, length msg = 32%nat ->
  asig_verify_multiple hash s msg d [avk] = asig_verify hash s msg d avk.
Proof.
  intros hash s msg d avk L. unfold asig_verify_multiple, asig_verify, pairing_check. cbn [length]. rewrite L. cbn [Nat.mul Nat.add Nat.eqb negb orb seq combine foldM vm_step].
  destruct (ecp2_affine s) as [sp|]; cbn [bind]; [|reflexivity].
  change (skipn 0 msg) with msg. replace (firstn 32 msg) with msg by (symmetry; rewrite <- L; apply firstn_all).
  destruct (ecp_affine avk) as [kp|]; cbn [bind]; [|reflexivity].
  destruct (hash_on_g2 hash msg d) as [h|]; cbn [bind]; [|reflexivity].
  destruct (ecp2_affine h) as [h'|]; cbn [bind]; [|reflexivity].
  destruct (ate_pairing h' kp) as [pr|]; cbn [bind].
  - destruct ecp_generator as [g|]; cbn [bind]; [|reflexivity].
    destruct (ate_pairing sp g) as [l|]; cbn [bind]; [|reflexivity]. apply fp12_equals_sym.
  - destruct ecp_generator as [g|]; cbn [bind]; [|reflexivity].
    destruct (ate_pairing sp g) as [l|]; reflexivity.
Qed.

(* ------------------------- signatures --------------------------------- *)
(* the search for a point ends: some candidate x lies on the curve (see search_ends) *)
Definition findable (re im : list Z) : Prop := exists k, first_x (be_int (firstn 48 re)) (be_int (firstn 48 im)) k.
Definition digests (hash : list Z -> list Z) : Prop := forall m, bytes (hash m) /\ length (hash m) = 32%nat.
Definition hash_findable (hash : list Z -> list Z) (msg : list Z) (d : Z) : Prop :=
  findable (repeat 0 16 ++ hash (hash_input msg d 1)) (repeat 0 16 ++ hash (hash_input msg d 2)).
(* it always does *)
Lemma findable_all re im : findable re im. Proof. apply first_x_exists. Qed.
Lemma hash_findable_all hash msg d : hash_findable hash msg d. Proof. apply findable_all. Qed.
Lemma hash_findable_each hash d msgs : Forall (fun m => hash_findable hash m d) msgs.
Proof. apply Forall_forall. intros m _. apply hash_findable_all. Qed.
Lemma map_findable re im : bytes re -> bytes im -> (48 <= length re)%nat -> (48 <= length im)%nat -> findable re im ->
  exists h, map_to_g2 re im = Some h /\ adm2 h.
Proof.
  intros BR BI LR LI (k & FX). destruct (map_point_spec re im k BR BI LR LI FX) as (p & y & _ & _ & _ & _ & _ & h & H & A & _).
  exists h. auto.
Qed.
Lemma map_some_len re im h : map_to_g2 re im = Some h -> (48 <= length re)%nat /\ (48 <= length im)%nat.
Proof.
  intros H. destruct (le_lt_dec 48 (length re)) as [A|A]; [|rewrite map_to_g2_short in H by (left; exact A); discriminate H].
  destruct (le_lt_dec 48 (length im)) as [B|B]; [|rewrite map_to_g2_short in H by (right; exact B); discriminate H]. auto.
Qed.
Lemma pad_bytes (hash : list Z -> list Z) m : digests hash -> bytes (repeat 0 16 ++ hash m) /\ (48 <= length (repeat 0%Z 16 ++ hash m))%nat.
Proof.
  intros D. destruct (D m) as [B L]. split.
  - apply Forall_app. split; [|exact B]. apply Forall_forall. intros x I. apply repeat_spec in I. lia.
  - rewrite app_length, repeat_length, L. lia.
Qed.
Lemma hash_findable_map hash msg d : digests hash -> 0 <= d < 2 ^ 64 -> hash_findable hash msg d ->
  exists h, hash_on_g2 hash msg d = Some h /\ adm2 h.
Proof.
  intros HD D F. rewrite hash_on_g2_input by exact D.
  destruct (pad_bytes hash (hash_input msg d 1) HD), (pad_bytes hash (hash_input msg d 2) HD). apply map_findable; assumption.
Qed.
(* the signatures the public interface can produce *)
Inductive sig_built (hash : list Z -> list Z) : ECP2 -> Prop :=
| sgb_new : forall msg d b sk s, 0 <= d < 2 ^ 64 -> bytes b -> sk_from_bytes b = Some (Ok sk) ->
    sig_new hash msg d sk = Some s -> sig_built hash s
| sgb_hashed : forall re im b sk s, bytes re -> bytes im -> bytes b -> sk_from_bytes b = Some (Ok sk) ->
    sig_new_hashed re im sk = Some s -> sig_built hash s
| sgb_bytes : forall b s, bytes b -> sig_from_bytes b = Some (Ok s) -> sig_built hash s
| sgb_empty : forall s, asig_new = Some s -> sig_built hash s
| sgb_add : forall a k s, sig_built hash a -> sig_built hash k -> asig_add a k = Some s -> sig_built hash s
| sgb_add_agg : forall a k s, sig_built hash a -> sig_built hash k -> asig_add_aggregate a k = Some s -> sig_built hash s.
Lemma sig_built_adm : forall hash s, digests hash -> sig_built hash s -> adm2 s.
Proof.
  intros hash s HD. induction 1 as [msg d b sk s D B SK H|re im b sk s BR BI B SK H|b s B H|s H|a k s _ A _ K H|a k s _ A _ K H].
  - destruct (hash_findable_map hash msg d HD D (hash_findable_all hash msg d)) as (h & E & A). destruct (signing hash msg d h b sk B SK E A) as (s' & E' & A' & _). congruence.
  - assert (N : exists h, map_to_g2 re im = Some h) by (unfold sig_new_hashed in H; destruct (map_to_g2 re im) as [h|]; [exists h; reflexivity|discriminate H]).
    destruct N as (h0 & N). destruct (map_some_len re im h0 N) as [LR LI]. destruct (map_findable re im BR BI LR LI (findable_all re im)) as (h & E & A).
    destruct (signing_hashed re im h b sk B SK E A) as (s' & E' & A' & _). congruence.
  - apply (sig_decoded_adm b s B H).
  - destruct asig_new_adm as (a & E & A & _). congruence.
  - destruct (asig_add_adm a k A K) as (c & E & C & _). congruence.
  - change (asig_add_aggregate a k) with (asig_add a k) in H. destruct (asig_add_adm a k A K) as (c & E & C & _). congruence.
Qed.
(* signing is multiplication of the message point by the secret key *)
Lemma signature_point : forall hash msg d b sk, digests hash -> 0 <= d < 2 ^ 64 -> hash_findable hash msg d ->
  bytes b -> sk_from_bytes b = Some (Ok sk) ->
  exists h s, hash_on_g2 hash msg d = Some h /\ sig_new hash msg d sk = Some s /\ ecp2_pt s = nmul2 (Z.to_nat (be_int b)) (ecp2_pt h).
Proof.
  intros hash msg d b sk HD D F B SK. destruct (hash_findable_map hash msg d HD D F) as (h & E & A).
  destruct (signing hash msg d h b sk B SK E A) as (s & E' & _ & P). exists h, s. split; [exact E|]. split; [exact E'|].
  rewrite P. apply zm2_nmul, (be_int_range b B).
Qed.
Lemma congruent_signatures : forall hash msg d h b1 b2 sk1 sk2 s1 s2, digests hash -> 0 <= d < 2 ^ 64 -> hash_findable hash msg d ->
  hash_on_g2 hash msg d = Some h -> nmul2 (Z.to_nat r255) (ecp2_pt h) = Inf ->
  bytes b1 -> bytes b2 -> sk_from_bytes b1 = Some (Ok sk1) -> sk_from_bytes b2 = Some (Ok sk2) ->
  sig_new hash msg d sk1 = Some s1 -> sig_new hash msg d sk2 = Some s2 ->
  be_int b1 mod r255 = be_int b2 mod r255 -> sig_eq s1 s2 = Some true.
Proof.
  intros hash msg d h b1 b2 sk1 sk2 s1 s2 HD D F H O B1 B2 K1 K2 S1 S2 C.
  destruct (hash_findable_map hash msg d HD D F) as (h' & E & A). rewrite H in E. injection E as <-.
  destruct (signing hash msg d h b1 sk1 B1 K1 H A) as (t1 & E1 & A1 & P1). rewrite S1 in E1. injection E1 as <-.
  destruct (signing hash msg d h b2 sk2 B2 K2 H A) as (t2 & E2 & A2 & P2). rewrite S2 in E2. injection E2 as <-.
  destruct (sig_eq_ok s1 s2 A1 A2) as (r & ER & R). rewrite ER. f_equal. apply R. rewrite P1, P2.
  pose proof (adm2_on _ A) as ON. assert (O' : zm2 r255 (ecp2_pt h) = Inf) by (rewrite zm2_nmul by (vm_compute; discriminate); exact O).
  rewrite <- (zm2_mod _ r255 _ ON O' r255_nz), C. apply (zm2_mod _ r255 _ ON O' r255_nz).
Qed.
(* signatures of several keys on one message *)
Inductive signatures_on (hash : list Z -> list Z) (msg : list Z) (d : Z) : list (list Z) -> list ECP2 -> Prop :=
| so_nil : signatures_on hash msg d [] []
| so_cons : forall b sk s bs ss, bytes b -> sk_from_bytes b = Some (Ok sk) -> sig_new hash msg d sk = Some s ->
    signatures_on hash msg d bs ss -> signatures_on hash msg d (b :: bs) (s :: ss).
Lemma signatures_sum hash msg d h bs ss : hash_on_g2 hash msg d = Some h -> adm2 h -> signatures_on hash msg d bs ss ->
  Forall adm2 ss /\ psum2 (map ecp2_pt ss) = zm2 (fold_right Z.add 0 (map be_int bs)) (ecp2_pt h).
Proof.
  intros H A. pose proof (adm2_on _ A) as ON. induction 1 as [|b sk s bs ss B SK S1 _ [IH1 IH2]]; [split; [constructor|reflexivity]|].
  destruct (signing hash msg d h b sk B SK H A) as (t & E & AT & P). rewrite S1 in E. injection E as <-. split; [constructor; assumption|].
  cbn [map fold_right]. rewrite zm2_add, <- P, <- IH2 by exact ON. reflexivity.
Qed.
Lemma aggregate_signatures_sum : forall hash msg d bs ss agg b sk s, digests hash -> 0 <= d < 2 ^ 64 -> hash_findable hash msg d ->
  signatures_on hash msg d bs ss -> asig_of ss agg -> bytes b -> sk_from_bytes b = Some (Ok sk) -> sig_new hash msg d sk = Some s ->
  be_int b = fold_right Z.add 0 (map be_int bs) -> sig_eq agg s = Some true.
Proof.
  intros hash msg d bs ss agg b sk s HD D F SO AG B SK S1 SUM. destruct (hash_findable_map hash msg d HD D F) as (h & H & A).
  destruct (signatures_sum hash msg d h bs ss H A SO) as [FA PS]. destruct (asig_of_sum ss agg AG FA) as [AA AP].
  destruct (signing hash msg d h b sk B SK H A) as (t & E & AT & P). rewrite S1 in E. injection E as <-.
  destruct (sig_eq_ok agg s AA AT) as (r & ER & R). rewrite ER. f_equal. apply R. rewrite AP, PS, P, SUM. reflexivity.
Qed.
Lemma aggregate_signatures_mod : forall hash msg d h bs ss agg b sk s, digests hash -> 0 <= d < 2 ^ 64 -> hash_findable hash msg d ->
  hash_on_g2 hash msg d = Some h -> nmul2 (Z.to_nat r255) (ecp2_pt h) = Inf ->
  signatures_on hash msg d bs ss -> asig_of ss agg -> bytes b -> sk_from_bytes b = Some (Ok sk) -> sig_new hash msg d sk = Some s ->
  be_int b = fold_right Z.add 0 (map be_int bs) mod r255 -> sig_eq agg s = Some true.
Proof.
  intros hash msg d h bs ss agg b sk s HD D F H O SO AG B SK S1 SUM. destruct (hash_findable_map hash msg d HD D F) as (h' & E & A).
  rewrite H in E. injection E as <-. pose proof (adm2_on _ A) as ON.
  assert (O' : zm2 r255 (ecp2_pt h) = Inf) by (rewrite zm2_nmul by (vm_compute; discriminate); exact O).
  destruct (signatures_sum hash msg d h bs ss H A SO) as [FA PS]. destruct (asig_of_sum ss agg AG FA) as [AA AP].
  destruct (signing hash msg d h b sk B SK H A) as (t & E & AT & P). rewrite S1 in E. injection E as <-.
  destruct (sig_eq_ok agg s AA AT) as (r & ER & R). rewrite ER. f_equal. apply R. rewrite AP, PS, P, SUM.
  symmetry. apply (zm2_mod _ r255 _ ON O' r255_nz).
Qed.

(* ------------------------- witnesses ---------------------------------- *)
Definition a2524_0 : Z := 0x16446904ce0f83693926a9570bdcb55ab1cb922342dea27fbad930650fffa30bf3cb8d38336036f9015c37203f57f0c8.
Definition a2524_1 : Z := 0xd801262d433678107eae79479f06a885845b1e39011026df6091a8fafb4dd199e4f9362d0f5fca8cd33df9297deecf4.
Definition a2524_t : Z := 0x135b8136969e8d8ebeeefe977d02b573a5798aa88880f623d52796594bf112e4e9030d3896abeafd3863f6d2f2696cd3.
Definition im_x : Z := 0xe31aad2f4b199f7f87e6433692648312e55a89b142b798084e1ac133c07736855bf683690d5fa5f87e90a1b49384db0.
Definition im_s : Z := 0x29577e02fcae4ce913eafdee0672a9abdaea2cef873d93529739515f6c62301f873fbdb9825b1e9bd82e90bf609c667.
Definition p2_0 : Z := 0x18c6b864ae17dc9da64203ffefb966306425a7bc6aeb7c75247438372716284a4173830420cd476ba1a365b95bfcec38.
Definition p2_1 : Z := 0x172e93db764a8400a7d5071b6b6f5de0da2f0f4a063119abca014006b7c40a2cfe291a1924e65db0d6d0fcfbf3bf3d5c.
Definition p2_t : Z := 0x1493e107ac3a5a8be6108ed9fb9d35bc2fb98d044880ef81257bfc9cf1046f53c219babe1823dfc77f71eebd9f0b9bf6.
Definition q_x0 : Z := 0x9133f68af4c230f281f46c68ef0e4887dfe99175e5162bb89fdce87b97ec736255bafb58bed47c68f9d183c7bf9fbef.
Definition q_x1 : Z := 0x5fcd330bb7dc85553b2c37627d80aedbacd61614fac95109d2a4ae0d31333ff6d11795b33062ea5b5e5d7271a981798.
Definition q_y0 : Z := 0x15330226b8873616f6f3a06a44860a678f516d13977d0fbfc927b884da6b666890328670106af2173eb797dc05a0162c.
Definition q_y1 : Z := 0x10c8892ecfea5b47ef7cf1a83f0c44b336f9d9ef61e3e9bbb04a3d1190d100d1b52089e3dc34ed472e921690c445df8b.
Definition q_t : Z := 0x1256639cd490a415d77a81cb662a074b600b344186dfdc8dfaaa7eea2461a2449e96ab60de9bc7be190fd3d5f7669bf1.
Definition l_0 : Z := 0x16d90e30d91331ec932b77ec1559cf56b2edb57b248a50a1f2f6a3accd6bd517590fe6f38656f3c8e2a69386b2cd5c9a.
Definition l_1 : Z := 0x20ddb66e736a94290b01921fd8dfc3e5ab5ac610911c9affb19e3b81e00fe57dee585ad525654402ed2fae39b4016a0.
Definition re_x : Z := 0xe84323eaa615c46575e4691346693d26c3a0047939be6d91599595b32008b53653e56108fd40e3c83a9a68ea2f147b8.
Definition re_r : Z := 0xd3a9ba8c9ce653ee7a9fca65c26d560af880fc18b14e6982f47dedfdd9f9f2d4b32844c8e18dd43ec684b6c80028ddb.
Definition re_t : Z := 0xb23202146a2eb68ada6d5c0f4c59eabeddbb3932eb540c7ca27c38ceb9fce3c37541ef1cfb47e35746369adcb4c04aa.
Definition z2 (a b : Z) : Fq2 := (mkq a, mkq b).
Lemma z2_mul a b c d : gmul (z2 a b) (z2 c d) = z2 (a * c - b * d) (a * d + b * c).
Proof. unfold z2, gmul. cbn [fst snd]. rewrite mkq_sub, mkq_add, !mkq_mul. reflexivity. Qed.
Lemma z2_add a b c d : gadd (z2 a b) (z2 c d) = z2 (a + c) (b + d).
Proof. unfold z2, gadd. cbn [fst snd]. rewrite !mkq_add. reflexivity. Qed.
Lemma z2_sub a b c d : gsub (z2 a b) (z2 c d) = z2 (a - c) (b - d).
Proof. unfold z2, gsub. cbn [fst snd]. rewrite !mkq_sub. reflexivity. Qed.
Lemma z2_eq a b c d : a mod q381 = c mod q381 -> b mod q381 = d mod q381 -> z2 a b = z2 c d.
Proof. intros A B. unfold z2. apply pair_equal_spec. split; apply mkq_eq; assumption. Qed.
Lemma on2_lit a b c d : (c * c - d * d) mod qn = ((a * a - b * b) * a - (a * b + b * a) * b + 4) mod qn ->
  (c * d + d * c) mod qn = ((a * a - b * b) * b + (a * b + b * a) * a + 4) mod qn -> on2 (Aff (z2 a b) (z2 c d)).
Proof.
  intros A B. rewrite qn_q in A, B. apply on2_rhs. unfold rhs2. change gb with (z2 4 4). rewrite !z2_mul, !z2_add. apply z2_eq; assumption.
Qed.
Ltac z2on := apply on2_lit; vm_compute; reflexivity.
Ltac z2ev := rewrite ?z2_mul, ?z2_sub, ?z2_mul, ?z2_sub; apply z2_eq; rewrite <- qn_q; vm_compute; reflexivity.
Definition sig_code (f x0 x1 : Z) : list Z := be_bytes 48 (x1 + f * 2 ^ 381 + 2 ^ 383) ++ be_bytes 48 x0.
Lemma sig_code_bytes f a b : bytes (sig_code f a b). Proof. apply Forall_app. split; apply be_bytes_bytes. Qed.
Lemma sig_code_len f a b : length (sig_code f a b) = 96%nat.
Proof. unfold sig_code. rewrite app_length, !be_bytes_length. reflexivity. Qed.
Lemma sig_code_hi f a b : f = 0 \/ f = 1 -> 0 <= b < 2 ^ 381 -> be_int (firstn 48 (sig_code f a b)) = b + f * 2 ^ 381 + 2 ^ 383.
Proof. intros F B. unfold sig_code. rewrite firstn_app_len by apply be_bytes_length. apply be_int_48. lia. Qed.
Lemma sig_code_lo f a b : 0 <= a < 2 ^ 381 -> be_int (skipn 48 (sig_code f a b)) = a.
Proof. intros A. unfold sig_code. rewrite skipn_app_len by apply be_bytes_length. apply be_int_48. lia. Qed.
Lemma sig_decodes f x0 x1 s t : f = 0 \/ f = 1 -> 0 <= x0 < 2 ^ 381 -> 0 <= x1 < 2 ^ 381 -> on2 (Aff (z2 x0 x1) s) ->
  fst s = fmul t t -> fst s <> f0 ->
  exists a, sig_from_bytes (sig_code f x0 x1) = Some (Ok a) /\ adm2 a /\ ecp2_pt a = Aff (z2 x0 x1) (dec_y2 s f).
Proof.
  intros F X0 X1 ON SQ NZ. pose proof (sig_code_hi f x0 x1 F X1) as V. pose proof (sig_code_lo f x0 x1 X0) as W.
  destruct (g1_code_parts x1 f X1 F) as (P1 & P2 & P3 & P4). cbv zeta in P1, P2, P3, P4. rewrite <- V in P1, P2, P3, P4.
  assert (XE : z2 x0 x1 = (mkq (be_int (skipn 48 (sig_code f x0 x1))), mkq (be_int (firstn 48 (sig_code f x0 x1)) mod 2 ^ 381))).
  { rewrite P4, W. reflexivity. }
  pose proof (decompress_g2_ok _ _ _ (z2 x0 x1) (sig_code_bytes f x0 x1) (sig_code_len f x0 x1) eq_refl eq_refl XE) as D.
  apply ok_ex in D. destruct D as (r & R & _ & _ & _ & _ & D5 & _).
  assert (RL : root_like (rhs2 (z2 x0 x1))) by (apply root_like_rhs; exists s; split; [apply on2_rhs, ON|exact NZ]).
  destruct (D5 P1 ltac:(lia) RL) as (a & s' & -> & ON' & SQ' & FF). rewrite P3 in FF.
  assert (SS : s' = s).
  { destruct (on2_two _ _ _ ON ON') as [G|G]; [exact G|exfalso]. rewrite G in SQ'. cbn [gopp fst] in SQ'.
    apply (sq_not_both (fst s) NZ); [exists t; exact SQ|exact SQ']. }
  rewrite SS in FF. exists a. split; [exact R|]. apply (small_adm2 9); [|lia].
  apply ecp2F_R; [lia|apply dec_y2_on, ON|exact FF].
Qed.
Ltac mkev := apply mkq_eq; rewrite <- qn_q; vm_compute; reflexivity.
Ltac mkne := let C := fresh in intros C; apply mkq_inj in C; rewrite <- qn_q in C; vm_compute in C; discriminate C.
(* x = 2524: both roots get flag 0, so the string with flag 1 decodes to a point that is encoded with flag 0 *)
Lemma on2524 : on2 (Aff (z2 2524 0) (z2 a2524_0 a2524_1)). Proof. z2on. Qed.
Lemma flag2524 : a_flag_code (fv (mkq a2524_1)) = 0 /\ a_flag_code (fv (fopp (mkq a2524_1))) = 0.
Proof. rewrite <- mkq_opp, !fv_mkq, <- qn_q. split; vm_compute; reflexivity. Qed.
Lemma sq2524 : mkq a2524_0 = fmul (mkq a2524_t) (mkq a2524_t). Proof. rewrite <- mkq_mul. mkev. Qed.
Lemma nz2524 : mkq a2524_0 <> f0. Proof. mkne. Qed.
Lemma im2524 : mkq a2524_1 <> f0. Proof. mkne. Qed.
Lemma sig_round_trip_refuted : exists bs a cs a', bytes bs /\ sig_from_bytes bs = Some (Ok a) /\ sig_as_bytes a = Some cs /\
  sig_from_bytes cs = Some (Ok a') /\ sig_eq a' a = Some false.
Proof.
  destruct (sig_decodes 1 2524 0 (z2 a2524_0 a2524_1) (mkq a2524_t) (or_intror eq_refl) ltac:(lia) ltac:(lia) on2524 sq2524 nz2524) as (a & D & A & P).
  destruct flag2524 as [F1 F2]. unfold dec_y2 in P. cbn [z2 snd] in P. rewrite F1 in P. cbn [Z.eqb] in P.
  destruct (sig_round_trip a A) as (cs & r & E & R & M). rewrite P in M. destruct M as [_ M]. unfold z2 in M. cbn [gopp fst snd] in M.
  destruct (M (fopp_nz _ nz2524)) as (a' & e & -> & SE & _ & EX). specialize (EX (fopp_nz _ im2524)).
  exists (sig_code 1 2524 0), a, cs, a'. split; [apply sig_code_bytes|]. split; [exact D|]. split; [exact E|]. split; [exact R|].
  rewrite SE. f_equal. destruct e; [exfalso|reflexivity]. destruct (proj1 EX eq_refl) as [C|[t C]].
  - apply (proj2 (flag_amb _ (fopp_nz _ im2524))) in C. apply C.
    assert (OO : fopp (fopp (mkq a2524_1)) = mkq a2524_1) by ring. rewrite OO, F1, F2. reflexivity.
  - apply (sq_not_both _ nz2524); [eexists; exact sq2524|exists t; exact C].
Qed.
(* a point with purely imaginary y: on the twist, rejected by the decoder *)
Lemma on_im : on2 (Aff (z2 im_x 2) (z2 0 im_s)). Proof. z2on. Qed.
Lemma sig_decoder_refuted : exists bs x y, bytes bs /\ length bs = 96%nat /\ Z.testbit (be_int (firstn 48 bs)) 383 = true /\
  Z.testbit (be_int (firstn 48 bs)) 382 = false /\ x = (mkq (be_int (skipn 48 bs)), mkq (be_int (firstn 48 bs) mod 2 ^ 381)) /\
  gmul y y = gadd (gmul (gmul x x) x) (mkq 4, mkq 4) /\ sig_from_bytes bs = Some (Err BadPoint).
Proof.
  set (bs := sig_code 0 im_x 2). exists bs, (z2 im_x 2), (z2 0 im_s).
  assert (IB : 0 <= im_x < 2 ^ 381) by (split; [vm_compute; discriminate|vm_compute; reflexivity]).
  pose proof (sig_code_hi 0 im_x 2 (or_introl eq_refl) ltac:(lia)) as V. pose proof (sig_code_lo 0 im_x 2 IB) as W. fold bs in V, W.
  split; [apply sig_code_bytes|]. split; [apply sig_code_len|]. rewrite V, W. split; [reflexivity|]. split; [reflexivity|].
  split; [reflexivity|]. split; [apply (proj1 (on2_rhs _ _) on_im)|].
  pose proof (sig_decoder_class bs (sig_code_bytes _ _ _)) as D. cbv zeta in D. destruct D as (r & -> & _ & _ & _ & D).
  rewrite V, W in D. destruct (D (sig_code_len _ _ _) eq_refl eq_refl) as [D1 _]. apply (f_equal (@Some _)). apply D1.
  intros y Y. change (on2 (Aff (z2 im_x 2) y)) in Y. destruct (on2_two _ _ _ on_im Y) as [G|G]; rewrite G; [reflexivity|].
  unfold z2. cbn [gopp fst]. change (mkq 0) with f0. ring.
Qed.
(* it is the sum of two decodable points, so an aggregate of two decoded
   signatures can be encoded and not decoded again *)
Lemma on_p2 : on2 (Aff (z2 2 0) (z2 p2_0 p2_1)). Proof. z2on. Qed.
Lemma on_q : on2 (Aff (z2 q_x0 q_x1) (z2 q_y0 q_y1)). Proof. z2on. Qed.
Lemma flag_p2 : a_flag_code (fv (mkq p2_1)) = 1. Proof. rewrite fv_mkq, <- qn_q. vm_compute. reflexivity. Qed.
Lemma flag_q : a_flag_code (fv (mkq q_y1)) = 1. Proof. rewrite fv_mkq, <- qn_q. vm_compute. reflexivity. Qed.
Lemma pq_sum : padd2 (Aff (z2 2 0) (z2 p2_0 p2_1)) (Aff (z2 q_x0 q_x1) (z2 q_y0 q_y1)) = Aff (z2 im_x 2) (z2 0 im_s).
Proof.
  assert (NX : z2 2 0 <> z2 q_x0 q_x1) by (intros C; apply pair_equal_spec in C; destruct C as [C _]; revert C; mkne).
  unfold padd. destruct (Fq2_dec (z2 2 0) (z2 q_x0 q_x1)) as [C|_]; [contradiction|].
  assert (DN : gsub (z2 q_x0 q_x1) (z2 2 0) <> g0) by (intros C; apply gsub_eq0 in C; auto).
  assert (SL : gmul (z2 l_0 l_1) (gsub (z2 q_x0 q_x1) (z2 2 0)) = gsub (z2 q_y0 q_y1) (z2 p2_0 p2_1)) by z2ev.
  assert (DV : gdiv (gsub (z2 q_y0 q_y1) (z2 p2_0 p2_1)) (gsub (z2 q_x0 q_x1) (z2 2 0)) = z2 l_0 l_1).
  { rewrite <- SL. set (d := gsub (z2 q_x0 q_x1) (z2 2 0)) in *. set (l := z2 l_0 l_1). clearbody d l. field. exact DN. }
  rewrite DV. unfold line_sum.
  assert (X3 : gsub (gsub (gmul (z2 l_0 l_1) (z2 l_0 l_1)) (z2 2 0)) (z2 q_x0 q_x1) = z2 im_x 2) by z2ev.
  rewrite X3. apply (f_equal (Aff (z2 im_x 2))). z2ev.
Qed.
Lemma aggregate_not_decodable : exists b1 b2 s1 s2 n a1 agg cs, bytes b1 /\ bytes b2 /\ sig_from_bytes b1 = Some (Ok s1) /\ sig_from_bytes b2 = Some (Ok s2) /\
  asig_new = Some n /\ asig_add n s1 = Some a1 /\ asig_add a1 s2 = Some agg /\ asig_as_bytes agg = Some cs /\ asig_from_bytes cs = Some (Err BadPoint).
Proof.
  assert (QB : 0 <= q_x0 < 2 ^ 381 /\ 0 <= q_x1 < 2 ^ 381) by (split; (split; [vm_compute; discriminate|vm_compute; reflexivity])).
  assert (SP : mkq p2_0 = fmul (mkq p2_t) (mkq p2_t)) by (rewrite <- mkq_mul; mkev).
  assert (SQ : mkq q_y0 = fmul (mkq q_t) (mkq q_t)) by (rewrite <- mkq_mul; mkev).
  assert (NP : mkq p2_0 <> f0) by mkne. assert (NQ : mkq q_y0 <> f0) by mkne.
  destruct (sig_decodes 1 2 0 (z2 p2_0 p2_1) (mkq p2_t) (or_intror eq_refl) ltac:(lia) ltac:(lia) on_p2 SP NP) as (s1 & D1 & A1 & P1).
  destruct (sig_decodes 1 q_x0 q_x1 (z2 q_y0 q_y1) (mkq q_t) (or_intror eq_refl) ltac:(lia) ltac:(lia) on_q SQ NQ) as (s2 & D2 & A2 & P2).
  unfold dec_y2 in P1, P2. cbn [z2 snd] in P1, P2. rewrite flag_p2 in P1. rewrite flag_q in P2. cbn [Z.eqb Pos.eqb] in P1, P2.
  destruct asig_new_adm as (n & EN & AN & PN). destruct (asig_add_adm n s1 AN A1) as (a1 & E1 & AA1 & PA1).
  destruct (asig_add_adm a1 s2 AA1 A2) as (agg & E2 & AG & PG). rewrite PA1, PN, P1, P2 in PG.
  change (padd2 Inf ?p) with p in PG. 
  assert (PG' : ecp2_pt agg = Aff (z2 im_x 2) (z2 0 im_s)) by (rewrite PG; exact pq_sum).
  destruct (sig_round_trip agg AG) as (cs & r & E & R & M). rewrite PG' in M. destruct M as [M _]. rewrite (M eq_refl) in R.
  exists (sig_code 1 2 0), (sig_code 1 q_x0 q_x1), s1, s2, n, a1, agg, cs.
  split; [apply sig_code_bytes|]. split; [apply sig_code_bytes|]. split; [exact D1|]. split; [exact D2|]. split; [exact EN|].
  split; [exact E1|]. split; [exact E2|]. split; [exact E|exact R].
Qed.
(* a real y: the smaller of the two is chosen *)
Definition bre : list Z := be_bytes 48 re_x.
Definition bim : list Z := be_bytes 48 5.
Lemma on_re : on2 (Aff (z2 re_x 5) (z2 re_r 0)). Proof. z2on. Qed.
Lemma first_re : first_x (be_int (firstn 48 bre)) (be_int (firstn 48 bim)) 0.
Proof.
  assert (E1 : be_int (firstn 48 bre) = re_x) by (vm_compute; reflexivity). assert (E2 : be_int (firstn 48 bim) = 5) by (vm_compute; reflexivity).
  rewrite E1, E2. split; [|intros j J; inversion J]. change (Z.of_nat 0) with 0. rewrite Z.add_0_r.
  exists (z2 re_r 0). split; [apply (proj1 (on2_rhs _ _) on_re)|]. cbn [z2 fst]. mkne.
Qed.
Lemma larger_y_refuted : exists re im p x y, bytes re /\ bytes im /\ length re = 48%nat /\ length im = 48%nat /\
  map_point re im = Some p /\ ecp2_pt p = Aff x y /\ snd y = f0 /\ fv (fst y) < fv (fst (gopp y)).
Proof.
  destruct (map_point_spec bre bim 0 (be_bytes_bytes _ _) (be_bytes_bytes _ _) ltac:(unfold bre; rewrite be_bytes_length; lia)
    ltac:(unfold bim; rewrite be_bytes_length; lia) first_re) as (p & y & E & P & Y & _ & YR & _).
  exists bre, bim, p. eexists. exists y. split; [apply be_bytes_bytes|]. split; [apply be_bytes_bytes|].
  split; [apply be_bytes_length|]. split; [apply be_bytes_length|]. split; [exact E|]. split; [exact P|].
  assert (E1 : be_int (firstn 48 bre) = re_x) by (vm_compute; reflexivity). assert (E2 : be_int (firstn 48 bim) = 5) by (vm_compute; reflexivity).
  rewrite E1, E2 in Y. change (Z.of_nat 0) with 0 in Y. rewrite Z.add_0_r in Y. change (on2 (Aff (z2 re_x 5) y)) in Y.
  assert (NR : mkq re_r <> f0) by mkne. assert (SR : mkq re_r = fmul (mkq re_t) (mkq re_t)) by (rewrite <- mkq_mul; mkev).
  destruct (on2_two _ _ _ on_re Y) as [G|G]; rewrite G in YR |- *.
  - exfalso. destruct (YR eq_refl) as [t T]. unfold z2 in T. cbn [gopp fst] in T. apply (sq_not_both _ NR); [eexists; exact SR|exists t; exact T].
  - unfold z2. cbn [gopp fst snd]. split; [change (mkq 0) with f0; ring|].
    rewrite <- !mkq_opp, !fv_mkq, <- qn_q. vm_compute. reflexivity.
Qed.
(* a panicking scalar multiplication on the twist *)
Lemma ecp2_mul_refuted : exists a e v, adm2 a /\ rep 7 e v /\ ecp2_mul a e = None.
Proof.
  assert (SP : mkq p2_0 = fmul (mkq p2_t) (mkq p2_t)) by (rewrite <- mkq_mul; mkev). assert (NP : mkq p2_0 <> f0) by mkne.
  destruct (sig_decodes 1 2 0 (z2 p2_0 p2_1) (mkq p2_t) (or_intror eq_refl) ltac:(lia) ltac:(lia) on_p2 SP NP) as (s1 & D1 & A1 & P1).
  exists s1, [0;0;0;0;0;0;2 ^ 56], (2 ^ 404). split; [exact A1|].
  assert (R : rep 7 [0;0;0;0;0;0;2 ^ 56] (2 ^ 404)).
  { split; [reflexivity|]. split; [repeat (constructor; [lia|]); constructor|vm_compute; reflexivity]. }
  split; [exact R|]. apply (K2_mul_panics s1 _ (2 ^ 404) A1); [rewrite P1; discriminate|exact R|lia|vm_compute; reflexivity].
Qed.
(* C51: encodings of signatures are not unique: x and x + q *)
Lemma sig_canonical_refuted : exists b1 b2 s1 s2, bytes b1 /\ bytes b2 /\ b1 <> b2 /\ sig_from_bytes b1 = Some (Ok s1) /\ sig_from_bytes b2 = Some (Ok s2) /\
  sig_eq s1 s2 = Some true.
Proof.
  assert (SP : mkq p2_0 = fmul (mkq p2_t) (mkq p2_t)) by (rewrite <- mkq_mul; mkev). assert (NP : mkq p2_0 <> f0) by mkne.
  assert (XQ : 0 <= 2 + qn < 2 ^ 381) by (split; [vm_compute; discriminate|vm_compute; reflexivity]).
  assert (ZE : z2 (2 + qn) 0 = z2 2 0) by (apply z2_eq; rewrite <- ?qn_q; vm_compute; reflexivity).
  assert (ON : on2 (Aff (z2 (2 + qn) 0) (z2 p2_0 p2_1))) by (rewrite ZE; exact on_p2).
  destruct (sig_decodes 1 2 0 (z2 p2_0 p2_1) (mkq p2_t) (or_intror eq_refl) ltac:(lia) ltac:(lia) on_p2 SP NP) as (s1 & D1 & A1 & P1).
  destruct (sig_decodes 1 (2 + qn) 0 (z2 p2_0 p2_1) (mkq p2_t) (or_intror eq_refl) XQ ltac:(lia) ON SP NP) as (s2 & D2 & A2 & P2).
  exists (sig_code 1 2 0), (sig_code 1 (2 + qn) 0), s1, s2. split; [apply sig_code_bytes|]. split; [apply sig_code_bytes|].
  split; [intros C; apply (f_equal (fun l => be_int (skipn 48 l))) in C; rewrite !sig_code_lo in C by (try exact XQ; lia); vm_compute in C; discriminate C|].
  split; [exact D1|]. split; [exact D2|]. destruct (sig_eq_ok s1 s2 A1 A2) as (r & E & R). rewrite E. f_equal. apply R.
  rewrite P1, P2, ZE. reflexivity.
Qed.
(* what holds: two strings with reduced coordinates that decode to equal signatures are the same *)
Lemma three_bits v : 0 <= v -> v = v mod 2 ^ 381 + ((v / 2 ^ 381) mod 2) * 2 ^ 381 + ((v / 2 ^ 382) mod 2) * 2 ^ 382 + (v / 2 ^ 383) * 2 ^ 383.
Proof.
  intros V. pose proof (Z.div_mod v (2 ^ 381) ltac:(lia)) as A.
  pose proof (Z.div_mod (v / 2 ^ 381) 2 ltac:(lia)) as B. pose proof (Z.div_mod (v / 2 ^ 382) 2 ltac:(lia)) as C.
  rewrite Z.div_div in B by lia. rewrite Z.div_div in C by lia.
  change (2 ^ 381 * 2) with (2 ^ 382) in B. change (2 ^ 382 * 2) with (2 ^ 383) in C. lia.
Qed.
Lemma gopp_fix y : gopp y = y -> fst y = f0.
Proof. intros E. destruct (Fq_dec (fst y) f0) as [G|G]; [exact G|exfalso]. apply (f_equal fst) in E. cbn [gopp fst] in E. exact (fopp_neq _ G (eq_sym E)). Qed.
Lemma sig_decoder_injective : forall b1 b2 s1 s2, bytes b1 -> bytes b2 -> sig_from_bytes b1 = Some (Ok s1) -> sig_from_bytes b2 = Some (Ok s2) ->
  be_int (firstn 48 b1) mod 2 ^ 381 < q381 -> be_int (skipn 48 b1) < q381 ->
  be_int (firstn 48 b2) mod 2 ^ 381 < q381 -> be_int (skipn 48 b2) < q381 ->
  sig_eq s1 s2 = Some true -> b1 = b2.
Proof.
  intros b1 b2 s1 s2 B1 B2 D1 D2 H1 L1 H2 L2 E. pose proof (sig_decoded_adm _ _ B1 D1) as A1. pose proof (sig_decoded_adm _ _ B2 D2) as A2.
  destruct (sig_eq_ok s1 s2 A1 A2) as (r & E' & R). rewrite E in E'. injection E' as <-. pose proof (proj1 R eq_refl) as PE. clear R E.
  pose proof (sig_decoded_len _ _ D1) as N1. pose proof (sig_decoded_len _ _ D2) as N2.
  pose proof (bytes_half _ B1 N1) as [V1 W1]. pose proof (bytes_half _ B2 N2) as [V2 W2].
  pose proof (sig_decoded _ _ B1 D1) as S1. pose proof (sig_decoded _ _ B2 D2) as S2. cbv zeta in S1, S2.
  pose proof (three_bits _ (proj1 V1)) as T1. pose proof (three_bits _ (proj1 V2)) as T2.
  assert (HALF : be_int (firstn 48 b1) = be_int (firstn 48 b2) /\ be_int (skipn 48 b1) = be_int (skipn 48 b2)).
  2:{ destruct HALF as [X Y]. rewrite <- (firstn_skipn 48 b1), <- (firstn_skipn 48 b2). f_equal; (apply be_int_inj;
      [apply bytes_firstn || apply bytes_skipn; assumption|apply bytes_firstn || apply bytes_skipn; assumption| |assumption]).
      - rewrite !firstn_length, N1, N2. reflexivity.
      - rewrite !skipn_length, N1, N2. reflexivity. }
  set (v1 := be_int (firstn 48 b1)) in *. set (v2 := be_int (firstn 48 b2)) in *. set (w1 := be_int (skipn 48 b1)) in *. set (w2 := be_int (skipn 48 b2)) in *.
  clearbody v1 v2 w1 w2. destruct S1 as [C1 S1], S2 as [C2 S2].
  destruct S1 as [(I1 & M1 & Z1 & R1)|(I1 & y1 & ON1 & SQ1 & NZ1 & R1)]; destruct S2 as [(I2 & M2 & Z2 & R2)|(I2 & y2 & ON2 & SQ2 & NZ2 & R2)];
    apply ecp2R_pt in R1; apply ecp2R_pt in R2; rewrite R1, R2 in PE; try discriminate PE.
  - split; [|congruence]. pose proof (Z.div_mod v1 (2 ^ 382) ltac:(lia)) as X1. pose proof (Z.div_mod v2 (2 ^ 382) ltac:(lia)) as X2.
    pose proof (Z.div_mod (v1 / 2 ^ 382) 2 ltac:(lia)) as Y1. pose proof (Z.div_mod (v2 / 2 ^ 382) 2 ltac:(lia)) as Y2.
    rewrite Z.div_div in Y1, Y2 by lia. change (2 ^ 382 * 2) with (2 ^ 383) in Y1, Y2. lia.
  - pose proof (Aff_inj1 _ _ _ _ PE) as PX. pose proof (Aff_inj2 _ _ _ _ PE) as PY. clear PE.
    apply pair_equal_spec in PX. destruct PX as [X0 X1]. apply mkq_inj in X0. apply mkq_inj in X1.
    rewrite (Z.mod_small w1), (Z.mod_small w2) in X0 by lia.
    pose proof (Z.mod_pos_bound v1 (2 ^ 381) ltac:(lia)). pose proof (Z.mod_pos_bound v2 (2 ^ 381) ltac:(lia)).
    rewrite (Z.mod_small (v1 mod _)), (Z.mod_small (v2 mod _)) in X1 by lia.
    split; [|exact X0]. rewrite X0, X1 in ON1. assert (YE : y1 = y2).
    { destruct (on2_two _ _ _ ON1 ON2) as [G|G]; [auto|exfalso]. rewrite G in SQ2. cbn [gopp fst] in SQ2. exact (sq_not_both _ NZ1 SQ1 SQ2). }
    subst y2. unfold dec_y2 in PY.
    pose proof (Z.mod_pos_bound (v1 / 2 ^ 381) 2 ltac:(lia)) as G1. pose proof (Z.mod_pos_bound (v2 / 2 ^ 381) 2 ltac:(lia)) as G2.
    pose proof (a_flag_01 (fv (snd y1))) as G3.
    destruct (Z.eqb_spec (a_flag_code (fv (snd y1))) ((v1 / 2 ^ 381) mod 2)) as [F1|F1];
      destruct (Z.eqb_spec (a_flag_code (fv (snd y1))) ((v2 / 2 ^ 381) mod 2)) as [F2|F2];
      try (exfalso; apply NZ1, gopp_fix; congruence); lia.
Qed.
