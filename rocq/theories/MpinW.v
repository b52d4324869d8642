(* Proofs about the rest of mpin.rs: hash_all, precompute and the encoding of points. *)
From Coq Require Import ZArith List Bool Lia Znumtheory.
From Verif Require Import Prim PrimP Rom Big BigP BigP2 BigP3 BigP5 BigL WinP NumT FieldQ FieldQ2 Fp Fp2 Fp4 Fp12 FpP FpP2 Fp2P Sqrt2P SpecBytes SpecMac SpecRand Utils Api SpecCurve CurveP GroupP
  Ecp Ecp2 EcpP EcpC Ecp2P Ecp2C GenP G1Grp G1Ord Denote KeysP KeysP2 LayerP MapP Tower TowerP Fp4P Fp12P FexpP SpecPairing MillerP3 PsiP BilinP TwistP VerifyP VerifyP2 VerifyP7 DenoteT Rand RandP
  Glv Mul2P Mul4P PinP GlvP MapitP SpecEcdh Ecdh EcdhH EcdhP EcdhQ Pair Pair2 Ate2P SpecMpin Mpin MpinP MpinQ MpinR MpinS MpinT SpecMpin2 Mpin2.
Import ListNotations.
Open Scope Z_scope.
Opaque h1c.

(* ------------------------------- hash_all ------------------------------- *)
Lemma put_next pre rest l : put (pre ++ rest) (length pre) l = if (length l <=? length rest)%nat then Some ((pre ++ l) ++ skipn (length l) rest) else None.
Proof.
  destruct (Nat.leb_spec (length l) (length rest)) as [H|H].
  - rewrite put_app by exact H. rewrite app_assoc. reflexivity.
  - unfold put. rewrite app_length. destruct (Nat.leb_spec (length pre + length l) (length pre + length rest)); [lia|reflexivity].
Qed.
Lemma hash_all_value : forall chk sha hid xid xcid sec y r w h, ident chk sha (repeat 0 484) -> bytes hid -> bytes xid -> (forall b, xcid = Some b -> bytes b) -> bytes sec -> bytes y -> bytes r -> bytes w -> (48 <= length h)%nat ->
  let m := hid ++ (match xcid with Some b => b | None => xid end) ++ sec ++ y ++ r ++ w in
  hash_all chk sha hid xid xcid sec y r w h =
    if (length m =? 484)%nat then Some (true, mp_hash sha 0 m ++ skipn 48 h) else if (length m <? 484)%nat then Some (false, h) else None.
Proof.
  intros chk sha hid xid xcid sec y r w h (IS & _ & NO) B1 B2 B3 B4 B5 B6 B7 LH. set (x := match xcid with Some b => b | None => xid end).
  assert (BX : bytes x) by (unfold x; destruct xcid as [b|]; [exact (B3 b eq_refl)|exact B2]). cbv zeta. unfold hash_all. fold x. clearbody x. rewrite repeat_length in NO.
  assert (R : length (repeat 0 484) = 484%nat) by apply repeat_length. set (t0 := repeat 0 484) in *. clearbody t0.
  set (m := hid ++ x ++ sec ++ y ++ r ++ w). assert (LM : length m = (length hid + (length x + (length sec + (length y + (length r + length w)))))%nat) by (unfold m; rewrite !app_length; reflexivity).
  assert (BM : bytes m) by (unfold m; repeat (apply bytes_app; [assumption|]); assumption).
  pose proof (put_next [] t0 hid) as P1. cbn [app length] in P1. rewrite P1. destruct (Nat.leb_spec (length hid) (length t0)) as [H1|H1]; cbn [bind].
  2:{ destruct (Nat.eqb_spec (length m) 484); [lia|]. destruct (Nat.ltb_spec (length m) 484); [lia|reflexivity]. }
  rewrite put_next, skipn_length. destruct (Nat.leb_spec (length x) (length t0 - length hid)) as [H2|H2]; cbn [bind].
  2:{ destruct (Nat.eqb_spec (length m) 484); [lia|]. destruct (Nat.ltb_spec (length m) 484); [lia|reflexivity]. }
  rewrite <- (app_length hid x). rewrite put_next, !skipn_length. destruct (Nat.leb_spec (length sec) (length t0 - length hid - length x)) as [H3|H3]; cbn [bind].
  2:{ destruct (Nat.eqb_spec (length m) 484); [lia|]. destruct (Nat.ltb_spec (length m) 484); [lia|reflexivity]. }
  rewrite <- (app_length (hid ++ x) sec). rewrite put_next, !skipn_length. destruct (Nat.leb_spec (length y) (length t0 - length hid - length x - length sec)) as [H4|H4]; cbn [bind].
  2:{ destruct (Nat.eqb_spec (length m) 484); [lia|]. destruct (Nat.ltb_spec (length m) 484); [lia|reflexivity]. }
  rewrite <- (app_length ((hid ++ x) ++ sec) y). rewrite put_next, !skipn_length. destruct (Nat.leb_spec (length r) (length t0 - length hid - length x - length sec - length y)) as [H5|H5]; cbn [bind].
  2:{ destruct (Nat.eqb_spec (length m) 484); [lia|]. destruct (Nat.ltb_spec (length m) 484); [lia|reflexivity]. }
  rewrite <- (app_length (((hid ++ x) ++ sec) ++ y) r). rewrite put_next, !skipn_length. destruct (Nat.leb_spec (length w) (length t0 - length hid - length x - length sec - length y - length r)) as [H6|H6]; cbn [bind].
  2:{ destruct (Nat.eqb_spec (length m) 484); [lia|]. destruct (Nat.ltb_spec (length m) 484); [lia|reflexivity]. }
  rewrite <- (app_length ((((hid ++ x) ++ sec) ++ y) ++ r) w). rewrite <- !app_assoc. fold m.
  destruct (Nat.eqb_spec (length m) 484) as [H7|H7]; cbn [negb].
  - rewrite (skipn_all2 _ (n := length w)) by (rewrite !skipn_length; lia). rewrite !app_nil_r. fold m. apply mhashit_ok; [exact IS|exact BM| |exact LH]. unfold hsafe. rewrite H7. exact NO.
  - destruct (Nat.ltb_spec (length m) 484); [reflexivity|lia].
Qed.

(* ------------------------------- precompute ------------------------------- *)
Lemma mapit_A h A : bytes h -> (48 <= length h)%nat -> map_pt h A -> on1 A /\ exists c, ecpA 1 5 A c /\ forall fuel, q381 <= Z.of_nat fuel -> ecp_mapit fuel h = Some c.
Proof.
  intros B L M. set (u := be_int (firstn 48 h)). pose proof q381_lt as QL. pose proof q381_pos as QP.
  assert (BF : bytes (firstn 48 h)) by (apply bytes_firstn; exact B).
  destruct (ok_ex _ _ (frombytes_rep (firstn 48 h) BF (firstn_length_le h L))) as (w & EW & W). fold u in W. rewrite <- frombytes_48 in EW.
  destruct (B_rmod w u MODULUS q381 W (rep_nrep _ _ _ mod_rep) QP) as (x & EX & X).
  pose proof (Z.mod_pos_bound u q381 QP) as UB.
  destruct (reach (u mod q381) GXZ) as (k & KB & KE).
  assert (HK : exists y, hit1 (mkq (u mod q381 + Z.of_nat k)) y) by (exists (mkq GYZ); rewrite KE; exact gen_hit).
  destruct (mapit_loop k x (u mod q381) X ltac:(lia) HK) as (j & y & c & J & [O N] & EV & MIN & HC & F).
  rewrite (mkq_modadd u) in O, N, HC.
  assert (M' : map_pt h (zm1 h1c (Aff (mkq (u + Z.of_nat j)) y))).
  { exists j, y. fold u. split; [exact O|]. split; [exact EV|]. split; [|split; [apply zm1_h1|exact N]].
    intros i z I OZ. rewrite <- zm1_h1. pose proof (MIN i z I) as M0. rewrite (mkq_modadd u) in M0. unfold hit1 in M0.
    destruct (zm1 h1c (Aff (mkq (u + Z.of_nat i)) z)) as [|a b]; [reflexivity|]. destruct M0. split; [exact OZ|discriminate]. }
  rewrite (map_pt_unique h A _ M M'). split; [apply zm1_on, O|]. exists c. split; [exact HC|].
  intros fuel FL. unfold ecp_mapit. rewrite EW. cbn [bind]. rewrite EX. cbn [bind]. apply F. lia.
Qed.
Lemma pair_write Q P K g0 : ecp2A 1 2 G2gen Q -> ecpX 2 5 K P -> on1 K -> (576 <= length g0)%nat ->
  exists gm gf bf, ate Q P = Some gm /\ fexp gm = Some gf /\ fp12_tobytes gf = Some bf /\ put g0 0 bf = Some (bf ++ skipn 576 g0) /\ bytes bf /\ length bf = 576%nat /\ forall t, decodes12 (bf ++ t) = pairing G2gen K.
Proof.
  intros RQ XP OK' L1. pose proof (ate_pairing_ok 1 2 2 5 G2gen K Q P RQ XP (eigen_ok _ _ G2gen_eigen) ltac:(lia) ltac:(lia) ltac:(lia) ltac:(lia)) as AT.
  rewrite (epair_regular G2gen K OK' (not_zero_case _ _ G2gen_ne)) in AT. destruct (ok_ex _ _ AT) as (gf & EF & RF). unfold ate_pairing in EF.
  destruct (ate Q P) as [gm|] eqn:EAt; [|discriminate EF]. cbn [bind] in EF.
  destruct (ok_ex _ _ (fp12_tobytes_ok 1 1 _ gf (fp12C_R _ _ RF) ltac:(lia) ltac:(lia))) as (bf & EBF & BBF & LBF & DBF).
  exists gm, gf, bf. split; [reflexivity|]. split; [exact EF|]. split; [exact EBF|]. split; [apply put_front; assumption|]. split; [exact BBF|]. split; [exact LBF|exact DBF].
Qed.
Lemma precompute_value : forall fuel token cid g1 g2 T A, bytes token -> long_enough token -> decodes token T -> T <> Inf -> bytes cid -> (48 <= length cid)%nat -> map_pt cid A -> q381 <= Z.of_nat fuel ->
  (576 <= length g1)%nat -> (576 <= length g2)%nat ->
  exists b1 b2, precompute fuel token cid g1 g2 = Some (0, b1 ++ skipn 576 g1, b2 ++ skipn 576 g2) /\ bytes b1 /\ length b1 = 576%nat /\ bytes b2 /\ length b2 = 576%nat /\
    (forall t, decodes12 (b1 ++ t) = pairing G2gen T) /\ (forall t, decodes12 (b2 ++ t) = pairing G2gen A).
Proof.
  intros fuel token cid g1 g2 T A BT LT DT NT BC LC M F L1 L2. destruct (read1 token T BT LT DT NT) as (a & EA & RA & IA). pose proof (read_X _ _ _ EA RA NT) as XA.
  destruct (mapit_A cid A BC LC M) as (OA & c & HC & EC). destruct (ok_ex _ _ gen2_ok) as (Q & EQ & RQ).
  destruct (pair_write Q a T g1 RQ (ecpX_weak _ _ 2 5 _ _ XA ltac:(lia) ltac:(lia)) (decodes_on _ _ DT) L1) as (m1 & f1' & b1 & E1 & E2 & E3 & E4 & B1 & LB1 & D1).
  destruct (pair_write Q c A g2 RQ (ecpX_weak _ _ 2 5 _ _ (ecpA_X _ _ _ _ HC) ltac:(lia) ltac:(lia)) OA L2) as (m2 & f2' & b2 & E5 & E6 & E7 & E8 & B2 & LB2 & D2).
  exists b1, b2. split; [|split; [exact B1|split; [exact LB1|split; [exact B2|split; [exact LB2|split; [exact D1|exact D2]]]]]].
  unfold precompute. rewrite EA. cbn [bind]. rewrite IA. cbn [bind]. rewrite (EC fuel F). cbn [bind]. rewrite EQ. cbn [bind]. rewrite E1. cbn [bind]. rewrite E2. cbn [bind]. rewrite E3. cbn [bind]. rewrite E4. cbn [bind].
  rewrite E5. cbn [bind]. rewrite E6. cbn [bind]. rewrite E7. cbn [bind]. rewrite E8. reflexivity.
Qed.
Lemma precompute_invalid : forall fuel token cid g1 g2, bytes token -> long_enough token -> decodes token Inf -> precompute fuel token cid g1 g2 = Some (-14, g1, g2).
Proof.
  intros fuel token cid g1 g2 B L D. destruct (frombytes_eq token Inf B L D) as (a & E & R). unfold precompute. rewrite E. cbn [bind].
  rewrite (is_inf_true 2 2 a R) by lia. reflexivity.
Qed.

(* ------------------------------- emap and unmap ------------------------------- *)
Lemma emap_loop s (HS : s = 0 \/ s = 1) : forall k x v, rep 7 x v -> v + Z.of_nat k + 1 < 2 ^ 406 -> (exists y, on1 (Aff (mkq (v + Z.of_nat k)) y)) ->
  exists (j : nat) y c, (j <= k)%nat /\ on1 (Aff (mkq (v + Z.of_nat j)) y) /\ fv y mod 2 = s /\
    (forall i z, (i < j)%nat -> ~ on1 (Aff (mkq (v + Z.of_nat i)) z)) /\ ecpR 2 2 (Aff (mkq (v + Z.of_nat j)) y) c /\ fp_one = Some (Ecp.ez c) /\
    forall fuel, (j < fuel)%nat -> emap_go fuel x s = Some c.
Proof.
  induction k as [|k IH]; intros x v R V (w & W);
    destruct (ok_ex _ _ (new_bigint_s x v s R HS)) as (a & EA & [(y & O & EV & RA)|(NO & RA)]).
  - exists 0%nat, y, a. change (Z.of_nat 0) with 0. rewrite Z.add_0_r. split; [lia|]. split; [exact O|]. split; [exact EV|]. split; [intros i z C; lia|]. split; [exact RA|]. split.
    + destruct (new_bigint_z _ _ _ EA) as [H|H]; [exact H|]. exfalso. destruct (ok_ex _ _ ecp_inf_ok) as (b & EB & RB). rewrite EB in H. apply some_eq in H. subst b.
      apply ecpR_wf_pt in RB. apply ecpR_wf_pt in RA. pose proof (proj2 RB) as C. rewrite (proj2 RA) in C. discriminate C.
    + intros [|f] L; [lia|]. cbn [emap_go]. rewrite EA. cbn [bind]. rewrite (is_inf_false 2 2 _ a RA ltac:(lia) ltac:(lia) ltac:(discriminate)). reflexivity.
  - exfalso. change (Z.of_nat 0) with 0 in W. rewrite Z.add_0_r in W. exact (NO w W).
  - exists 0%nat, y, a. change (Z.of_nat 0) with 0. rewrite Z.add_0_r. split; [lia|]. split; [exact O|]. split; [exact EV|]. split; [intros i z C; lia|]. split; [exact RA|]. split.
    + destruct (new_bigint_z _ _ _ EA) as [H|H]; [exact H|]. exfalso. destruct (ok_ex _ _ ecp_inf_ok) as (b & EB & RB). rewrite EB in H. apply some_eq in H. subst b.
      apply ecpR_wf_pt in RB. apply ecpR_wf_pt in RA. pose proof (proj2 RB) as C. rewrite (proj2 RA) in C. discriminate C.
    + intros [|f] L; [lia|]. cbn [emap_go]. rewrite EA. cbn [bind]. rewrite (is_inf_false 2 2 _ a RA ltac:(lia) ltac:(lia) ltac:(discriminate)). reflexivity.
  - pose proof (rep_bound _ _ _ R) as RB. destruct (ok_ex _ _ (inc_norm_spec x v 1 (rep_nrep _ _ _ R) ltac:(lia) ltac:(lia))) as (x' & EX & NX).
    assert (RX : rep 7 x' (v + 1)) by (apply nrep_rep; [exact NX|]; change (58 * Z.of_nat 7) with 406; lia).
    assert (SH : forall i, v + Z.of_nat (S i) = v + 1 + Z.of_nat i) by (intros; lia). rewrite SH in W.
    destruct (IH x' (v + 1) RX ltac:(lia) (ex_intro _ w W)) as (j & y & c & J & O & EV & MIN & HC & HZ & G).
    exists (S j), y, c. rewrite SH. split; [lia|]. split; [exact O|]. split; [exact EV|]. split.
    { intros [|i] z L; [change (Z.of_nat 0) with 0; rewrite Z.add_0_r; apply NO|rewrite SH; apply MIN; lia]. }
    split; [exact HC|]. split; [exact HZ|]. intros [|f] L; [lia|]. cbn [emap_go]. rewrite EA. cbn [bind]. rewrite (is_inf_true 1 2 a RA) by lia. cbn [bind].
    destruct (big_inc x 1) as [x0|]; [|discriminate EX]. cbn [bind] in EX |- *. rewrite EX. cbn [bind]. apply G. lia.
Qed.
Lemma emap_pt_on u s A : emap_pt u s A -> on1 A. Proof. intros (k & y & O & _ & -> & _). exact O. Qed.
Lemma emap_pt_unique : forall u s A B, emap_pt u s A -> emap_pt u s B -> A = B.
Proof.
  intros u s A B (k & y & O & EV & -> & MIN) (k' & y' & O' & EV' & -> & MIN').
  destruct (Nat.lt_trichotomy k k') as [C|[C|C]]; [destruct (MIN' k y C O)| |destruct (MIN k' y' C O')].
  subst k'. destruct (on1_two _ _ _ O O') as [E|E]; [rewrite E; reflexivity|]. exfalso. subst y'.
  pose proof (on1_y _ _ O) as YN. rewrite (MapP.fv_fopp y YN) in EV'. pose proof q381_odd as OD. pose proof (Z.div_mod q381 2 ltac:(lia)). 
  pose proof (Z.div_mod (fv y) 2 ltac:(lia)). pose proof (Z.div_mod (q381 - fv y) 2 ltac:(lia)). lia.
Qed.
Lemma emap_R x u s : rep 7 x u -> s = 0 \/ s = 1 -> exists A c, emap_pt u s A /\ ecpR 2 2 A c /\ fp_one = Some (Ecp.ez c) /\ forall fuel, q381 <= Z.of_nat fuel -> emap fuel x s = Some c.
Proof.
  intros R S. pose proof q381_lt as QL. pose proof q381_pos as QP. destruct (B_rmod x u MODULUS q381 R (rep_nrep _ _ _ mod_rep) QP) as (x' & EX & X).
  pose proof (Z.mod_pos_bound u q381 QP) as UB. destruct (reach (u mod q381) GXZ) as (k & KB & KE).
  assert (HK : exists y, on1 (Aff (mkq (u mod q381 + Z.of_nat k)) y)) by (exists (mkq GYZ); rewrite KE; exact (proj1 gen_hit)).
  destruct (emap_loop s S k x' (u mod q381) X ltac:(lia) HK) as (j & y & c & J & O & EV & MIN & HC & HZ & F).
  rewrite (mkq_modadd u) in O, HC. exists (Aff (mkq (u + Z.of_nat j)) y), c. split.
  - exists j, y. split; [exact O|]. split; [exact EV|]. split; [reflexivity|]. intros i z L. rewrite <- (mkq_modadd u). apply MIN, L.
  - split; [exact HC|]. split; [exact HZ|]. intros fuel FL. unfold emap. rewrite EX. cbn [bind]. apply F. lia.
Qed.
Lemma emap_A x u s A : rep 7 x u -> s = 0 \/ s = 1 -> emap_pt u s A -> exists c, ecpR 2 2 A c /\ fp_one = Some (Ecp.ez c) /\ forall fuel, q381 <= Z.of_nat fuel -> emap fuel x s = Some c.
Proof. intros R S M. destruct (emap_R x u s R S) as (A' & c & M' & H). rewrite (emap_pt_unique u s A A' M M'). exists c. exact H. Qed.
Lemma zero_on : on1 (Aff f0 (mkq 2)). Proof. exact on02. Qed.
Lemma unmap_loop s (HS : s = 0 \/ s = 1) : forall k x r, rep 7 x (Z.of_nat k) -> Z.of_nat k <= q381 -> (0 < k)%nat ->
  exists (j : nat) c, (0 < j <= k)%nat /\ rep 7 c (Z.of_nat k - Z.of_nat j) /\ (exists z, on1 (Aff (mkq (Z.of_nat k - Z.of_nat j)) z)) /\
    (forall i z, (0 < i < j)%nat -> ~ on1 (Aff (mkq (Z.of_nat k - Z.of_nat i)) z)) /\
    forall fuel, (j <= fuel)%nat -> unmap_go fuel x s r = Some (c, r + Z.of_nat j).
Proof.
  pose proof q381_lt as QL. induction k as [|k IH]; intros x r R V P; [lia|].
  pose proof (rep_bound _ _ _ R) as RB. destruct (ok_ex _ _ (dec_norm_spec x _ 1 (rep_nrep _ _ _ R) ltac:(lia) ltac:(lia))) as (x' & EX & NX).
  assert (SH : Z.of_nat (S k) - 1 = Z.of_nat k) by lia. rewrite SH in NX. assert (RX : rep 7 x' (Z.of_nat k)) by (apply nrep_rep; [exact NX|]; change (58 * Z.of_nat 7) with 406; lia).
  destruct (ok_ex _ _ (new_bigint_s x' _ s RX HS)) as (a & EA & [(y & O & EV & RA)|(NO & RA)]).
  - exists 1%nat, x'. replace (Z.of_nat (S k) - Z.of_nat 1) with (Z.of_nat k) by lia. split; [lia|]. split; [exact RX|]. split; [exists y; exact O|]. split; [intros i z L; lia|].
    intros [|f] L; [lia|]. cbn [unmap_go]. destruct (big_dec x 1) as [x0|]; [|discriminate EX]. cbn [bind] in EX |- *. rewrite EX. cbn [bind]. rewrite EA. cbn [bind]. rewrite (is_inf_false 2 2 _ a RA ltac:(lia) ltac:(lia) ltac:(discriminate)). reflexivity.
  - destruct k as [|k].
    { exfalso. change (Z.of_nat 0) with 0 in NO. exact (NO _ zero_on). }
    destruct (IH x' (r + 1) RX ltac:(lia) ltac:(lia)) as (j & c & J & RC & HZ & MIN & F). exists (S j), c.
    assert (SI : forall i, Z.of_nat (S (S k)) - Z.of_nat (S i) = Z.of_nat (S k) - Z.of_nat i) by (intros; lia). rewrite SI. split; [lia|]. split; [exact RC|]. split; [exact HZ|]. split.
    + intros [|[|i]] z L; [lia| |].
      * replace (Z.of_nat (S (S k)) - Z.of_nat 1) with (Z.of_nat (S k)) by lia. apply NO.
      * rewrite SI. apply MIN. lia.
    + intros [|f] L; [lia|]. cbn [unmap_go]. destruct (big_dec x 1) as [x0|]; [|discriminate EX]. cbn [bind] in EX |- *. rewrite EX. cbn [bind]. rewrite EA. cbn [bind]. rewrite (is_inf_true 1 2 a RA) by lia. cbn [bind]. rewrite F by lia.
      f_equal. f_equal. lia.
Qed.
Lemma gets_ok l E x y a : ecpR l E (Aff x y) a -> 1 <= l <= 8 -> 1 <= E <= 33554432 -> ok (ecp_gets a) (fun '(s, a') => s = fv y mod 2 /\ ecpA l E (Aff x y) a').
Proof.
  intros H L HE. unfold ecp_gets. eapply ok_bind; [eapply ecp_affine_ok; [exact H|lia|lia]|]. intros b B. unfold ecp_gety. rewrite !bind_assoc.
  eapply ok_bind; [eapply (ecp_affine_ok l E); [apply ecpA_R; [lia|lia|exact B]|lia|lia]|]. intros c C. pose proof C as (ON & AX & AY & AZ).
  rewrite !bind_assoc. eapply ok_bind; [apply (fp_redc_exact l E y (ey c) AY); lia|]. intros w W. cbn. split; [|exact C].
  rewrite (B_parity _ _ (rep_nrep _ _ _ W)), (rval_nz y _ (on1_y _ _ ON)). reflexivity.
Qed.
Lemma getx_A l E x y a : ecpR l E (Aff x y) a -> 1 <= l <= 8 -> 1 <= E <= 33554432 -> ok (ecp_getx a) (fun '(w, a') => (exists v, rep 7 w v /\ xval x v) /\ ecpA l E (Aff x y) a').
Proof.
  intros H L HE. unfold ecp_getx. eapply ok_bind; [eapply ecp_affine_ok; [exact H|lia|lia]|]. intros b B. pose proof B as (ON & AX & AY & AZ).
  eapply ok_bind; [apply (fp_redc_exact l E x (ex b) AX); lia|]. intros w W. cbn. split; [|exact B]. eexists. split; [exact W|apply rval_x].
Qed.
Lemma gety_A l E x y a : ecpR l E (Aff x y) a -> 1 <= l <= 8 -> 1 <= E <= 33554432 -> ok (ecp_gety a) (fun '(w, a') => rep 7 w (fv y) /\ ecpA l E (Aff x y) a').
Proof.
  intros H L HE. unfold ecp_gety. eapply ok_bind; [eapply ecp_affine_ok; [exact H|lia|lia]|]. intros b B. pose proof B as (ON & AX & AY & AZ).
  eapply ok_bind; [apply (fp_redc_exact l E y (ey b) AY); lia|]. intros w W. cbn. split; [|exact B]. rewrite (rval_nz y _ (on1_y _ _ ON)) in W. exact W.
Qed.
Lemma unmap_ok l E x y a : ecpR l E (Aff x y) a -> 1 <= l <= 8 -> 1 <= E <= 33554432 -> x <> f0 ->
  exists (j : nat) c, (0 < j)%nat /\ Z.of_nat j <= fv x /\ rep 7 c (fv x - Z.of_nat j) /\ (exists z, on1 (Aff (mkq (fv x - Z.of_nat j)) z)) /\
    (forall i z, (0 < i < j)%nat -> ~ on1 (Aff (mkq (fv x - Z.of_nat i)) z)) /\ forall fuel, q381 <= Z.of_nat fuel -> unmap fuel a = Some (c, Z.of_nat j).
Proof.
  intros H L HE N. destruct (ok_ex _ _ (gets_ok l E x y a H L HE)) as ([s b] & ES & ER & HB). destruct (ok_ex _ _ (getx_A l E x y b (ecpA_R l E _ _ ltac:(lia) ltac:(lia) HB) L HE)) as ([w b'] & EW & (v & RV & XV) & HB').
  pose proof (proj2 (proj2 XV) N) as EV. subst v. pose proof (fv_range x) as FX. assert (NZ : fv x <> 0) by (intros C; apply N; apply fv_zero; exact C).
  rewrite <- (Z2Nat.id (fv x)) in RV by lia. assert (HS : s = 0 \/ s = 1) by (pose proof (Z.mod_pos_bound (fv y) 2 ltac:(lia)); lia).
  destruct (unmap_loop s HS (Z.to_nat (fv x)) w 0 RV ltac:(lia) ltac:(lia)) as (j & c & J & RC & HZ & MIN & F). rewrite Z2Nat.id in RC, HZ, MIN by lia.
  exists j, c. split; [lia|]. split; [lia|]. split; [exact RC|]. split; [exact HZ|]. split; [exact MIN|]. intros fuel FL. unfold unmap. rewrite ES. cbn [bind]. rewrite EW. cbn [bind]. rewrite F by lia. reflexivity.
Qed.
(* the numbers from which a point is reached *)
Lemma emap_hit x y v : on1 (Aff x y) -> v <= fv x -> (forall t z, v <= t < fv x -> ~ on1 (Aff (mkq t) z)) -> emap_pt v (fv y mod 2) (Aff x y).
Proof.
  intros O V MIN. exists (Z.to_nat (fv x - v)), y. assert (E : v + Z.of_nat (Z.to_nat (fv x - v)) = fv x) by lia. rewrite E, mkq_fv. split; [exact O|]. split; [reflexivity|]. split; [reflexivity|].
  intros i z I. apply MIN. lia.
Qed.
