(* ate2 is the product of two pairings before the final exponentiation. *)
From Coq Require Import ZArith List Bool Lia Znumtheory Field.
From Verif Require Import Prim PrimP Rom Big BigP BigP2 BigP3 BigP4 BigP5 NumT FieldQ FieldQ2 SpecCurve CurveP GroupP LineP Fp Fp2 Fp4 Fp12 Ecp Ecp2 Pair Pair2 FpP FpP2 Fp2P
  EcpP Ecp2P Tower TowerP FrobP CycP Fp4P Fp12P NafP FexpP SpecPairing PairP PairP2 PairP3 MillerP MillerP2 MillerP3.
Open Scope Z_scope.

(* an invariant of the Miller loop for one pair of points (see MillerP) *)
Definition invar (p : pt2) (xb yb : Fq2) (qx qy : Fq) (I : Z -> Fq12 -> Prop) : Prop :=
  I 1 k1 /\
  (forall k m X Y Z, 1 <= k -> k + k <= 2 ^ 70 -> I k m -> prep2 X Y Z (zm2 k p) -> I (k + k) (kmul (kmul m m) (vdbl X Y Z qx qy))) /\
  (forall k m X Y Z, nafstep k 1 -> 1 <= k -> k + k <= 2 ^ 70 -> I (k + k) m -> prep2 X Y Z (zm2 (k + k) p) -> I (k + k + 1) (kmul m (vadd X Y Z xb yb qx qy))) /\
  (forall k m X Y Z, nafstep k (-1) -> 1 <= k -> k + k <= 2 ^ 70 -> I (k + k) m -> prep2 X Y Z (zm2 (k + k) p) -> I (k + k - 1) (kmul m (vadd X Y Z xb (gopp yb) qx qy))).

Section Inv.
Variables (p : pt2) (xb yb : Fq2) (qx qy : Fq).
Hypothesis PE : p = Aff xb yb.
Lemma inv_aff : safe p -> fmul qy qy = fadd (fmul (fmul qx qx) qx) fb -> invar p xb yb qx qy (fun k x => x <> k0 /\ ee x = fz qx qy k p).
Proof.
  intros SF CQ.
  pose proof (proj1 SF) as O. 
  assert (NP : forall k, nafstep k 1 -> zm2 (k + k) p <> Aff xb yb) by (rewrite <- PE; exact (proj1 (proj2 (proj2 SF)))).
  assert (NM : forall k, nafstep k (-1) -> zm2 (k + k) p <> Aff xb (gopp yb)).
  { change (Aff xb (gopp yb)) with (pneg2 (Aff xb yb)). rewrite <- PE. exact (proj2 (proj2 (proj2 SF))). }
  assert (OB : on2 (Aff xb yb)) by (rewrite <- PE; exact O). assert (OBN : on2 (Aff xb (gopp yb))) by (exact (pneg2_on _ OB)).
  split; [|split; [|split]].
  - split; [exact k1_neq_0|]. rewrite ee_1. symmetry. exact (fz_1 qx qy p O).
  - intros k x X Y Z K KB [XN XE] P. destruct (vdbl_ok qx qy CQ (zm2 k p) X Y Z (zm2_on k p O) P) as [VN VE].
    split; [apply kmul_nz; [apply kmul_nz; exact XN|exact VN]|].
    rewrite (ee_mul (kmul x x)), (ee_mul x x), XE, VE. symmetry. apply (fz_add qx qy CQ k k p); [lia|lia|exact O].
  - intros k x X Y Z NS K KB [XN XE] P.
    destruct (vadd_ok qx qy CQ (zm2 (k + k) p) xb yb X Y Z (zm2_on _ p O) OB (NP k NS) P) as [VN VE].
    split; [apply kmul_nz; assumption|]. rewrite (ee_mul x), XE, VE, <- PE. symmetry. apply (fz_succ qx qy (k + k) p); [lia|exact O].
  - intros k x X Y Z NS K KB [XN XE] P.
    destruct (vadd_ok qx qy CQ (zm2 (k + k) p) xb (gopp yb) X Y Z (zm2_on _ p O) OBN (NM k NS) P) as [VN VE].
    split; [apply kmul_nz; assumption|]. rewrite (ee_mul x), XE, VE. change (Aff xb (gopp yb)) with (pneg2 (Aff xb yb)). rewrite <- PE.
    pose proof (pneg2_on p O) as ON. pose proof (zm2_on (k + k) p O) as OK.
    assert (S : padd2 (zm2 (k + k) p) (pneg2 p) = zm2 (k + k - 1) p).
    { exact (zm2_pred p (k + k) O). }
    pose proof (fz_succ qx qy (k + k - 1) p ltac:(lia) O) as FS. rewrite (Z.sub_add 1 (k + k)) in FS.
    pose proof (LL_coc qx qy CQ (zm2 (k + k) p) (pneg2 p) p OK ON O) as CC. rewrite S in CC.
    assert (IN : padd2 (pneg2 p) p = Inf) by (rewrite padd2_comm by assumption; apply padd2_neg; exact O).
    rewrite IN, (LL_inf_r qx qy _ OK), (LL_opp qx qy _ _ ON O IN) in CC.
    rewrite FS. transitivity (kmul (fz qx qy (k + k - 1) p) (kmul (LL qx qy (zm2 (k + k) p) (pneg2 p)) (LL qx qy (zm2 (k + k - 1) p) p))); [ring|].
    rewrite CC. ring.
Qed.
Lemma inv_qinf : noinf p -> qx = f0 -> qy <> f0 -> invar p xb yb qx qy (fun _ x => x <> k0 /\ ee x = k1).
Proof.
  intros NI Q0 QN.
  pose proof (p_on p NI) as O. 
  assert (OB : on2 (Aff xb yb)) by (rewrite <- PE; exact O). assert (OBN : on2 (Aff xb (gopp yb))) by (exact (pneg2_on _ OB)).
  split; [|split; [|split]].
  - split; [exact k1_neq_0|exact ee_1].
  - intros k x X Y Z K KB [XN XE] P. destruct (vdbl_0 qx qy Q0 QN X Y Z (zm2 k p) (zm2_on k p O) P) as [VN VE].
    split; [apply kmul_nz; [apply kmul_nz; exact XN|exact VN]|]. rewrite (ee_mul (kmul x x)), (ee_mul x x), XE, VE. ring.
  - intros k x X Y Z NS K KB [XN XE] P.
    destruct (vadd_0 qx qy Q0 QN X Y Z xb yb (zm2 (k + k) p) (zm2_on _ p O) OB (ne_inf p NI k K KB) (ne_plus p xb yb PE NI k K KB) (ne_minus p xb yb PE NI k K KB) P) as [VN VE].
    split; [apply kmul_nz; assumption|]. rewrite (ee_mul x), XE, VE. ring.
  - intros k x X Y Z NS K KB [XN XE] P.
    destruct (vadd_0 qx qy Q0 QN X Y Z xb (gopp yb) (zm2 (k + k) p) (zm2_on _ p O) OBN (ne_inf p NI k K KB) (ne_minus p xb yb PE NI k K KB)) with (2 := P) as [VN VE].
    + rewrite gopp_opp. exact (ne_plus p xb yb PE NI k K KB).
    + split; [apply kmul_nz; assumption|]. rewrite (ee_mul x), XE, VE. ring.
Qed.
End Inv.
Section InvInf.
Variables (qx qy : Fq) (Y0 : Fq2).
Hypothesis (PB3 : Y0 <> g0).
Lemma inv_pinf : qx <> f0 -> fmul qy qy = fadd (fmul (fmul qx qx) qx) fb -> invar Inf g0 Y0 qx qy (fun _ x => x <> k0 /\ ee x = k1).
Proof.
  intros QN CQ. assert (O : on2 Inf) by exact I.
  split; [|split; [|split]].
  - split; [exact k1_neq_0|exact ee_1].
  - intros k x X Y Z K KB [XN XE] P. rewrite zm2_zero in P. destruct (vdbl_ok qx qy CQ Inf X Y Z O P) as [VN VE].
    split; [apply kmul_nz; [apply kmul_nz; exact XN|exact VN]|]. rewrite (ee_mul (kmul x x)), (ee_mul x x), XE, VE, (LL_inf_l qx qy Inf O). ring.
  - intros k x X Y Z _ K KB [XN XE] P. rewrite zm2_zero in P. destruct P as (-> & -> & P).
    destruct (vadd_inf_inf qx qy Y Y0 P QN) as [VN VE].
    split; [apply kmul_nz; assumption|]. rewrite (ee_mul x), XE, VE. ring.
  - intros k x X Y Z _ K KB [XN XE] P. rewrite zm2_zero in P. destruct P as (-> & -> & P).
    destruct (vadd_inf_inf qx qy Y (gopp Y0) P QN) as [VN VE].
    split; [apply kmul_nz; assumption|]. rewrite (ee_mul x), XE, VE. ring.
Qed.
Definition zI (k : Z) (x : Fq12) : Prop := x = k0 \/ exists j, 0 <= j /\ k = 2 ^ j.
Lemma inv_zero : qx = f0 -> invar Inf g0 Y0 qx qy zI.
Proof.
  intros QN.
  assert (V0 : forall Y y, vadd g0 Y g0 g0 y qx qy = k0).
  { intros Y y. rewrite QN. unfold vadd. cbv zeta. change (gemb f0) with g0. apply f_equal3; [|reflexivity|]; apply f_equal2; try reflexivity; ring. }
  split; [|split; [|split]].
  - right. exists 0. split; [lia|reflexivity].
  - intros k x X Y Z K KB [XE|(j & J & ->)] _; [left; rewrite XE; ring|]. right. exists (j + 1). split; [lia|]. rewrite Z.pow_add_r by lia. change (2 ^ 1) with 2. lia.
  - intros k x X Y Z _ K KB _ P. rewrite zm2_zero in P. destruct P as (-> & -> & P). left. rewrite V0. ring.
  - intros k x X Y Z _ K KB _ P. rewrite zm2_zero in P. destruct P as (-> & -> & P). left. rewrite V0. ring.
Qed.
End InvInf.
Lemma zI_bnx x : zI bnx x -> x = k0.
Proof.
  intros [H|(j & J & H)]; [exact H|]. exfalso.
    assert (O3 : ~ (2 ^ 17 | bnx)) by (intros [c C]; assert (H0 : bnx mod 2 ^ 17 = 0) by (rewrite C; apply Z.mod_mul; discriminate); vm_compute in H0; discriminate).
    destruct (Z.leb_spec 17 j) as [J1|J1].
    + apply O3. rewrite H. exists (2 ^ (j - 17)). rewrite <- Z.pow_add_r by lia. f_equal. lia.
    + assert (H0 : 2 ^ j <= 2 ^ 16) by (apply Z.pow_le_mono_r; lia). rewrite <- H in H0. vm_compute in H0. apply H0. reflexivity.
Qed.

(* the loop over both pairs *)
Section Loop2.
  Variables (p r0 : pt2) (xb yb xd yd : Fq2) (qx qy sx sy : Fq) (I J : Z -> Fq12 -> Prop).
  Hypotheses (HI : invar p xb yb qx qy I) (HJ : invar r0 xd yd sx sy J).
  Variables (a c : ECP2) (b d : ECP) (l E m F : Z).
  Hypotheses (A : ecp2R l E p a) (C : ecp2R l E r0 c).
  Hypotheses (XB : fp2R l E xb (e2x a)) (YB : fp2R l E yb (e2y a)) (XD : fp2R l E xd (e2x c)) (YD : fp2R l E yd (e2y c)).
  Hypotheses (QX : fpR m F qx (ex b)) (QY : fpR m F qy (ey b)) (SX : fpR m F sx (ex d)) (SY : fpR m F sy (ey d)).
  Hypotheses (L : 1 <= l <= 8) (M : 1 <= m <= 8) (HE : E <= 100000) (HF : F <= 1000000).
  Definition ate2I (v i : Z) (st : FP12 * ECP2 * ECP2) : Prop :=
    exists x y, I (dd v i) x /\ J (dd v i) y /\ fp12R 1 KB (kmul x y) (fst (fst st)) /\
      ecp2R l (E + 17) (zm2 (dd v i) p) (snd (fst st)) /\ ecp2R l (E + 17) (zm2 (dd v i) r0) (snd st).
  Definition negR (t : pt2) (x y : Fq2) (n : ECP2) : Prop := ecp2R l (5 * E) (pneg2 t) n /\ fp2R l (5 * E) x (e2x n) /\ fp2R l (5 * E) (gopp y) (e2y n).
  Lemma kmul4 x y u v : kmul (kmul (kmul (kmul x y) (kmul x y)) u) v = kmul (kmul (kmul x x) u) (kmul (kmul y y) v). Proof. ring. Qed.
  Lemma kmul3 x y u v : kmul (kmul (kmul x y) u) v = kmul (kmul x u) (kmul y v). Proof. ring. Qed.
  Lemma zm2_dec t k : on2 t -> padd2 (zm2 (k + k) t) (pneg2 t) = zm2 (k + k - 1) t.
  Proof. intros O. exact (zm2_pred t (k + k) O). Qed.
  Lemma ate2_step_ok e1 e3 np nr st i : rep 7 e1 bnx -> rep 7 e3 (3 * bnx) -> negR p xb yb np -> negR r0 xd yd nr -> (1 <= i)%nat -> Z.of_nat i + 1 < bitlen (3 * bnx) ->
    ate2I bnx (Z.of_nat i + 1) st -> ok (ate2_step e1 e3 a np c nr (ex b) (ey b) (ex d) (ey d) st i) (ate2I bnx (Z.of_nat i)).
  Proof.
    intros R1 R3 (NP & NX & NY) (NR & MX & MY) HI1 IB (x & y & IX & JY & W & R & T). destruct st as [[w r] t]. cbn [fst snd] in W, R, T.
    destruct HI as (_ & ID & IA & IS). destruct HJ as (_ & JD & JA & JS).
    assert (V0 : 1 <= bnx) by (vm_compute; discriminate). assert (VB : 3 * bnx < 2 ^ 68) by (vm_compute; reflexivity).
    pose proof A as (ON & _). pose proof C as (OC & _). pose proof (fp2R_pos _ _ _ _ XB) as EP.
    pose proof (dd_ge1 bnx (Z.of_nat i + 1) V0 ltac:(lia)) as K1. pose proof (dd_step bnx (Z.of_nat i) ltac:(lia)) as DS.
    assert (KB2 : dd bnx (Z.of_nat i + 1) + dd bnx (Z.of_nat i + 1) <= 2 ^ 70).
    { unfold dd. pose proof (Z.div_le_upper_bound (3 * bnx) (2 ^ (Z.of_nat i + 1)) (3 * bnx) ltac:(apply Z.pow_pos_nonneg; lia)) as DU.
      assert (1 <= 2 ^ (Z.of_nat i + 1)) by (change 1 with (2 ^ 0) at 1; apply Z.pow_le_mono_r; lia).
      specialize (DU ltac:(nia)). pose proof (Z.div_pos bnx (2 ^ (Z.of_nat i + 1)) ltac:(lia) ltac:(lia)).
      change (2 ^ 70) with (4 * 2 ^ 68). lia. }
    assert (NS : forall s, sd bnx (Z.of_nat i) = s -> nafstep (dd bnx (Z.of_nat i + 1)) s).
    { intros s S1. exists (Z.of_nat i). split; [lia|]. split; [exact IB|]. split; [exact S1|reflexivity]. }
    set (k := dd bnx (Z.of_nat i + 1)) in *. unfold ate2_step. unfold KB in *.
    eapply ok_bind; [eapply fp12_sqr_ok; [exact W|lia|lia]|]. intros w1 W1. unfold KB in W1.
    eapply ok_bind; [eapply linedbl_ok; [exact R|exact QX|exact QY|lia..]|]. intros [lv r1] (RR1 & X & Y & Z & PP & LV & LV1 & LV2).
    eapply ok_bind; [eapply fp12_smul_ok; [exact W1|exact LV|exact LV1|exact LV2|lia..]|]. intros w2 W2. unfold KB in W2. clear LV LV1 LV2 lv W1.
    eapply ok_bind; [eapply linedbl_ok; [exact T|exact SX|exact SY|lia..]|]. intros [lv t1] (TT1 & U & V & S & PS & LV & LV1 & LV2).
    eapply ok_bind; [eapply fp12_smul_ok; [exact W2|exact LV|exact LV1|exact LV2|lia..]|]. intros w3 W3. unfold KB in W3. clear LV LV1 LV2 lv W2.
    pose proof (ID k x X Y Z K1 KB2 IX PP) as I2. pose proof (JD k y U V S K1 KB2 JY PS) as J2. rewrite <- (zm2_add k k p ON) in RR1. rewrite <- (zm2_add k k r0 OC) in TT1. rewrite kmul4 in W3.
    set (x2 := kmul (kmul x x) (vdbl X Y Z qx qy)) in *. set (y2 := kmul (kmul y y) (vdbl U V S sx sy)) in *. clearbody x2 y2.
    pose proof (bitlen_le (3 * bnx) 68 ltac:(lia) ltac:(lia)) as BL.
    rewrite (big_bit_ok e3 (3 * bnx)) by (first [assumption|lia]). cbn [bind]. rewrite (big_bit_ok e1 bnx) by (first [assumption|lia]). cbn [bind]. cbv zeta.
    fold (sd bnx (Z.of_nat i)). unfold ate2I, KB. rewrite DS.
    destruct (sd_cases bnx (Z.of_nat i)) as [D|[D|D]]; rewrite D.
    - change (1 =? 1) with true. cbv iota.
      eapply ok_bind; [eapply lineadd_ok; [exact RR1|exact A|exact XB|exact YB|exact QX|exact QY|lia..]|]. intros [lv' r2] (RR2 & X' & Y' & Z' & PP' & LV' & LV1' & LV2').
      eapply ok_bind; [eapply fp12_smul_ok; [exact W3|exact LV'|exact LV1'|exact LV2'|lia..]|]. intros w4 W4. unfold KB in W4. clear LV' LV1' LV2' lv' W3.
      eapply ok_bind; [eapply lineadd_ok; [exact TT1|exact C|exact XD|exact YD|exact SX|exact SY|lia..]|]. intros [lv' t2] (TT2 & U' & V' & S' & PS' & LV' & LV1' & LV2').
      eapply ok_bind; [eapply fp12_smul_ok; [exact W4|exact LV'|exact LV1'|exact LV2'|lia..]|]. intros w5 W5. cbn [ok fst snd]. rewrite kmul3 in W5.
      replace (2 * k + 1) with (k + k + 1) by lia. eexists. eexists. split; [exact (IA k _ X' Y' Z' (NS 1 D) K1 KB2 I2 PP')|]. split; [exact (JA k _ U' V' S' (NS 1 D) K1 KB2 J2 PS')|]. split; [exact W5|].
      rewrite (zm2_add (k + k) 1 p ON), (zm2_add (k + k) 1 r0 OC), !zm2_1. split; (eapply ecp2R_weak; [first [exact RR2|exact TT2]|lia|lia]).
    - change (0 =? 1) with false. change (0 =? -1) with false. cbv iota. cbn [ok fst snd].
      replace (2 * k + 0) with (k + k) by lia. eexists. eexists. split; [exact I2|]. split; [exact J2|]. split; [exact W3|]. split; (eapply ecp2R_weak; [first [exact RR1|exact TT1]|lia|lia]).
    - change (-1 =? 1) with false. change (-1 =? -1) with true. cbv iota.
      eapply ok_bind; [eapply lineadd_ok; [exact RR1|exact NP|exact NX|exact NY|exact QX|exact QY|lia..]|]. intros [lv' r2] (RR2 & X' & Y' & Z' & PP' & LV' & LV1' & LV2').
      eapply ok_bind; [eapply fp12_smul_ok; [exact W3|exact LV'|exact LV1'|exact LV2'|lia..]|]. intros w4 W4. unfold KB in W4. clear LV' LV1' LV2' lv' W3.
      eapply ok_bind; [eapply lineadd_ok; [exact TT1|exact NR|exact MX|exact MY|exact SX|exact SY|lia..]|]. intros [lv' t2] (TT2 & U' & V' & S' & PS' & LV' & LV1' & LV2').
      eapply ok_bind; [eapply fp12_smul_ok; [exact W4|exact LV'|exact LV1'|exact LV2'|lia..]|]. intros w5 W5. cbn [ok fst snd]. rewrite kmul3 in W5.
      replace (2 * k + -1) with (k + k - 1) by lia. eexists. eexists. split; [exact (IS k _ X' Y' Z' (NS (-1) D) K1 KB2 I2 PP')|]. split; [exact (JS k _ U' V' S' (NS (-1) D) K1 KB2 J2 PS')|]. split; [exact W5|].
      rewrite <- (zm2_dec p k ON), <- (zm2_dec r0 k OC). split; (eapply ecp2R_weak; [first [exact RR2|exact TT2]|lia|lia]).
  Qed.
  Lemma neg_both t e x y : ecp2R l E t e -> fp2R l E x (e2x e) -> fp2R l E y (e2y e) -> ok (ecp2_neg e) (negR t x y).
  Proof.
    intros T X Y. pose proof (fp2R_pos _ _ _ _ X) as EP. eapply ok_impl; [apply (ok_and (ecp2_neg e) _ (fun np => fp2R l (5 * E) x (e2x np) /\ fp2R l (5 * E) (gopp y) (e2y np))
      (ecp2_neg_ok l E t e T L ltac:(lia)))|].
    - unfold ecp2_neg. repeat gstep. cbn [ok e2x e2y e2z]. split; (eapply fp2R_weak; [eassumption|lia|lia]).
    - intros n (H & H1 & H2). split; [eapply ecp2R_weak; [exact H|lia|lia]|]. split; assumption.
  Qed.
  Lemma ate2_gen : ok (ate2 a b c d) (fun r => exists x y, I bnx x /\ J bnx y /\ fp12R 4 (5 * KB) (kconj (kmul x y)) r).
  Proof.
    pose proof (fp2R_pos _ _ _ _ XB) as EP. unfold ate2. cbv zeta.
    eapply ok_bind; [apply (big_norm_rep _ _ bnx_rep)|]. intros e1 R1.
    assert (B0 : 1 <= bnx) by (vm_compute; discriminate). assert (B1 : 3 * bnx < 2 ^ 68) by (vm_compute; reflexivity).
    assert (B2 : 3 * bnx < 2 ^ 406) by (eapply Z.lt_trans; [exact B1|]; apply Z.pow_lt_mono_r; lia).
    eapply ok_bind; [apply (big_pmul3_ok _ _ R1 B2)|]. intros e3 R3.
    eapply ok_bind; [apply (big_norm_rep _ _ R3)|]. intros e3' R3'.
    eapply ok_bind; [apply (fp12_new_int_ok 1); lia|]. intros r RR.
    eapply ok_bind; [exact (neg_both p a xb yb A XB YB)|]. intros np NP.
    eapply ok_bind; [exact (neg_both r0 c xd yd C XD YD)|]. intros nr NR.
    rewrite (big_nbits_spec _ _ R3'). cbn [bind].
    pose proof (bitlen_le (3 * bnx) 68 ltac:(lia) ltac:(lia)) as BL. pose proof (bitlen3 bnx B0) as B3.
    rewrite cku64_ok by lia. cbn [bind].
    eapply ok_bind; [apply (naf_run (ate2_step e1 e3' a np c nr (ex b) (ey b) (ex d) (ey d)) (ate2I bnx) bnx (r, a, c) B0)|].
    + intros st i HI1 IB H. exact (ate2_step_ok e1 e3' np nr st i R1 R3' NP NR HI1 IB H).
    + exists k1, k1. rewrite dd_top by exact B0. split; [exact (proj1 HI)|]. split; [exact (proj1 HJ)|]. cbn [fst snd]. unfold KB.
      split; [replace (kmul k1 k1) with k1 by ring; eapply fp12R_weak; [exact RR|lia|lia]|].
      rewrite !zm2_1. split; (eapply ecp2R_weak; [first [exact A|exact C]|lia|lia]).
    + intros [[w r'] t'] (x & y & IX & JY & W & _). cbn [fst] in W. rewrite dd_1 in IX, JY. unfold KB in *.
      eapply ok_impl; [eapply fp12_conj_ok; [exact W|lia..]|]. intros g G. exists x, y. split; [exact IX|]. split; [exact JY|]. eapply fp12R_weak; [exact G|lia|lia].
  Qed.
End Loop2.

(* an invariant for every admissible pair, with what it says at the end *)
Lemma inv_pair l E m F p q a b : ecp2A l E p a -> ecpX m F q b -> p = Inf \/ (safe p /\ (q = Inf -> noinf p)) ->
  exists xb yb qx qy I, invar p xb yb qx qy I /\ ecp2R l E p a /\ fp2R l E xb (e2x a) /\ fp2R l E yb (e2y a) /\ fpR m F qx (ex b) /\ fpR m F qy (ey b) /\
    (forall x, I bnx x -> ee (kconj x) = epair p q).
Proof.
  intros A B P.
  assert (Q : exists qx qy, fpR m F qx (ex b) /\ fpR m F qy (ey b) /\ match q with Inf => qx = f0 /\ qy <> f0 | Aff u v => u = qx /\ v = qy /\ fmul qy qy = fadd (fmul (fmul qx qx) qx) fb end).
  { destruct q as [|u v].
    - destruct B as (_ & X & Y & Z & BX & BY & _ & P1 & P2 & P3). exists X, Y. split; [exact BX|]. split; [exact BY|]. split; assumption.
    - destruct B as (ON & BX & BY). exists u, v. split; [exact BX|]. split; [exact BY|]. split; [reflexivity|]. split; [reflexivity|]. exact ON. }
  destruct Q as (qx & qy & QX & QY & Q).
  assert (FE : forall x v, x <> k0 /\ ee x = v -> ee (kconj x) = kinv v) by (intros x v [XN XE]; rewrite (ee_kconj x XN), XE; reflexivity).
  destruct P as [->|[SF NI]].
  - assert (AR : ecp2R l E Inf a) by (exact A). pose proof AR as (O & X0 & Y0 & Z0 & XB & YB & _ & PB1 & PB2 & PB3). subst X0 Z0.
    assert (ZC : qx = f0 -> exists xb yb I, invar Inf xb yb qx qy I /\ ecp2R l E Inf a /\ fp2R l E xb (e2x a) /\ fp2R l E yb (e2y a) /\ (forall x, I bnx x -> ee (kconj x) = k0)).
    { intros Q0. exists g0, Y0, zI. split; [exact (inv_zero qx qy Y0 Q0)|]. split; [exact AR|]. split; [exact XB|]. split; [exact YB|]. intros x X. rewrite (zI_bnx x X), kconj_0. exact ee_0. }
    destruct q as [|u v].
    + destruct Q as [Q0 QN]. destruct (ZC Q0) as (xb & yb & I & H1 & H2 & H3 & H4 & H5). exists xb, yb, qx, qy, I. cbn [epair]. exact (conj H1 (conj H2 (conj H3 (conj H4 (conj QX (conj QY H5)))))).
    + destruct Q as (-> & -> & CQ). cbn [epair]. destruct (Fq_dec qx f0) as [Q0|QN].
      * destruct (ZC Q0) as (xb & yb & I & H1 & H2 & H3 & H4 & H5). exists xb, yb, qx, qy, I. exact (conj H1 (conj H2 (conj H3 (conj H4 (conj QX (conj QY H5)))))).
      * exists g0, Y0, qx, qy, (fun _ x => x <> k0 /\ ee x = k1). split; [exact (inv_pinf qx qy Y0 QN CQ)|]. split; [exact AR|]. split; [exact XB|]. split; [exact YB|]. split; [exact QX|]. split; [exact QY|].
        intros x X. rewrite (FE x k1 X). exact kinv_1.
  - destruct (safe_aff p SF) as (xb & yb & PE). pose proof A as A'. rewrite PE in A'. destruct A' as (_ & XB & YB & _). pose proof (ecp2A_R l E p a A) as AR.
    destruct q as [|u v].
    + destruct Q as [Q0 QN]. exists xb, yb, qx, qy, (fun _ x => x <> k0 /\ ee x = k1). split; [exact (inv_qinf p xb yb qx qy PE (NI eq_refl) Q0 QN)|]. split; [exact AR|]. split; [exact XB|]. split; [exact YB|]. split; [exact QX|]. split; [exact QY|].
      intros x X. rewrite (FE x k1 X), PE. exact kinv_1.
    + destruct Q as (-> & -> & CQ). exists xb, yb, qx, qy, (fun k x => x <> k0 /\ ee x = fz qx qy k p). split; [exact (inv_aff p xb yb qx qy PE SF CQ)|]. split; [exact AR|]. split; [exact XB|]. split; [exact YB|]. split; [exact QX|]. split; [exact QY|].
      intros x X. rewrite (FE x _ X), <- (pairing_fz p qx qy (proj1 SF) CQ), PE. reflexivity.
Qed.
Lemma ate2_ok l E m F p q r s a b c d : ecp2A l E p a -> ecpX m F q b -> p = Inf \/ (safe p /\ (q = Inf -> noinf p)) ->
  ecp2A l E r c -> ecpX m F s d -> r = Inf \/ (safe r /\ (s = Inf -> noinf r)) -> 1 <= l <= 8 -> 1 <= m <= 8 -> E <= 100000 -> F <= 1000000 ->
  ok (bind (ate2 a b c d) fexp) (fp12C (kmul (epair p q) (epair r s))).
Proof.
  intros A B P C D R L M HE HF. destruct (inv_pair l E m F p q a b A B P) as (xb & yb & qx & qy & I & H1 & H2 & H3 & H4 & H5 & H6 & HI).
  destruct (inv_pair l E m F r s c d C D R) as (xd & yd & sx & sy & J & J1 & J2 & J3 & J4 & J5 & J6 & HJ).
  eapply ok_bind; [exact (ate2_gen p r xb yb xd yd qx qy sx sy I J H1 J1 a c b d l E m F H2 J2 H3 H4 J3 J4 H5 H6 J5 J6 L M HE HF)|].
  intros w (x & y & IX & JY & W). rewrite <- (HI x IX), <- (HJ y JY), <- ee_mul, <- kconj_mul, ee_def. apply (fexp_ok 4 (5 * KB)); [exact W|lia|]. unfold KB. lia.
Qed.
