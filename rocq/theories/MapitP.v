(* Hashing to the groups of order r: ECP::mapit and ECP2::mapit. *)
From Coq Require Import ZArith List Bool Lia.
From Verif Require Import Prim PrimP Rom Big BigP BigP2 BigP3 BigL NumT FieldQ FieldQ2 Fp FpP FpP2 JacobiM JacP Fp2 Fp2P SpecBytes Utils Api SpecCurve CurveP GroupP Ecp EcpP EcpC Ecp2 Ecp2P Ecp2C Sqrt2P GenP G1Grp G1Ord Denote
  KeysP KeysP2 KeysP3 LayerP MapP SigsP SigsP2 FexpP PsiP TwGrp TwistP ClearP VerifyP VerifyP2 Glv Mul4P PinP GlvP.
Import ListNotations.
Open Scope Z_scope.

(* ------------------------------- G1 ------------------------------------ *)
Lemma redc_fv y w : mkq (lval w) = y -> 0 <= lval w <= q381 -> y <> f0 -> lval w = fv y.
Proof.
  intros E B N. rewrite <- E. rewrite fv_mkq. assert (lval w <> q381).
  { intros C. apply N. rewrite <- E, C. apply (mkq_eq q381 0). rewrite Z_mod_same_full, Z.mod_0_l by apply q381_nz. reflexivity. }
  symmetry. apply Z.mod_small. lia.
Qed.
Lemma even_mod0 v : v mod 2 = 0 -> Z.even v = true.
Proof. intros H. rewrite Zeven_mod, H. reflexivity. Qed.
Lemma even_neg v : v mod 2 <> 0 -> Z.even (q381 - v) = true.
Proof.
  intros H. pose proof q381_oddb as O. rewrite Z.even_sub, <- (Z.negb_odd q381), O. rewrite Zeven_mod.
  pose proof (Z.mod_pos_bound v 2 ltac:(lia)). assert (E : v mod 2 = 1) by lia. rewrite E. reflexivity.
Qed.
Lemma ecp_new_bigint_ok ix u : rep 7 ix u ->
  ok (ecp_new_bigint ix 0) (fun a =>
    (exists y, on1 (Aff (mkq u) y) /\ Z.even (fv y) = true /\ ecpR 2 2 (Aff (mkq u) y) a) \/
    ((forall y, ~ on1 (Aff (mkq u) y)) /\ ecpR 1 2 Inf a)).
Proof.
  intros U. unfold ecp_new_bigint, fp_new_big.
  eapply ok_bind; [apply (fp_nres_ok _ _ U)|]. intros x X.
  eapply ok_bind; [apply fp_one_ok|]. intros z Z1.
  eapply ok_bind; [apply (ecp_rhs_ok 1 2 _ x X); lia|]. intros [r x'] (R & X' & XL). apply fpC_R in R.
  eapply ok_bind; [apply (fp_jacobi_ok 1 1 _ r R); lia|]. intros j (J1 & _ & _).
  pose proof (rhs1_nz (mkq u)) as NZ.
  destruct (Z.eqb_spec j 1) as [EJ|EJ].
  - apply J1 in EJ. destruct EJ as [_ SQ]. eapply ok_bind; [apply (fp_sqrt_ok 1 1 _ r R); lia|]. intros y Y. apply fpC_R in Y.
    change (fpw (rhs1 (mkq u)) qp14) with (fsqrt (rhs1 (mkq u))) in Y. pose proof (fsqrt_on _ SQ) as ON. revert Y ON. generalize (fsqrt (rhs1 (mkq u))). intros s Y ON.
    pose proof (on1_y _ _ ON) as SN.
    eapply ok_bind; [apply (fp_redc_ok 1 1 _ y Y); lia|]. intros w (W & WX & WB). rewrite (B_parity w _ (rep_nrep _ _ _ W)), (redc_fv _ _ WX WB SN).
    destruct (Z.eqb_spec (fv s mod 2) 0) as [E|E].
    + cbn [bind ok]. left. exists s. split; [exact ON|]. split; [apply even_mod0, E|].
      split; [exact ON|]. exists (mkq u), s, f1. split; [eapply fpR_weak; [exact X'|lia|lia]|]. split; [eapply fpR_weak; [exact Y|lia|lia]|].
      split; [eapply fpR_weak; [exact Z1|lia|lia]|]. cbn [prep]. split; [exact f1_neq_0|]. split; ring.
    + eapply ok_bind; [apply (fp_neg_ok 1 1 _ y Y); lia|]. intros ny NY. cbn [ok]. left. exists (fopp s).
      assert (ON' : on1 (Aff (mkq u) (fopp s))) by exact (pneg1_on _ ON). split; [exact ON'|]. split.
      * rewrite (MapP.fv_fopp s SN). apply even_neg. intros C. apply E. exact C.
      * split; [exact ON'|]. exists (mkq u), (fopp s), f1. split; [eapply fpR_weak; [exact X'|lia|lia]|]. split; [eapply fpR_weak; [exact NY|lia|lia]|].
        split; [eapply fpR_weak; [exact Z1|lia|lia]|]. cbn [prep]. split; [exact f1_neq_0|]. split; ring.
  - assert (NS : ~ is_sq (rhs1 (mkq u))) by (intros C; apply EJ, J1; split; assumption).
    pose proof ecp_inf_ok as IO. destruct ecp_inf as [a|]; [|exact IO]. cbn [ok] in *. right. split; [|exact IO].
    intros y ON. apply NS. exists y. symmetry. exact (proj1 (on1_rhs _ _) ON).
Qed.
Lemma h1c_nn : 0 <= h1c. Proof. vm_compute. discriminate. Qed.
Lemma h1c_small : h1c + 2 < 2 ^ 404. Proof. vm_compute. reflexivity. Qed.
Lemma cof_rep : rep 7 CURVE_COF h1c. 
Proof. split; [reflexivity|]. split; [|vm_compute; reflexivity]. repeat (constructor; [lia|]). constructor. Qed.
Lemma zm1_h1 p : zm1 h1c p = nmul1 (Z.to_nat h1c) p. Proof. exact (zm1_nmul h1c p h1c_nn). Qed.
Opaque h1c.
(* the multiple of one of the two points with a given abscissa is the point at infinity when the other's is *)
Lemma two_kill n x y z : on1 (Aff x y) -> on1 (Aff x z) -> zm1 n (Aff x y) = Inf -> zm1 n (Aff x z) = Inf.
Proof.
  intros O1 O2 K. destruct (on1_two _ _ _ O1 O2) as [E|E]; [rewrite E; exact K|]. rewrite E.
  change (Aff x (fopp y)) with (pneg1 (Aff x y)). rewrite (zm1_neg n _ O1), K. reflexivity.
Qed.
Definition hit1 (x : Fq) (y : Fq) : Prop := on1 (Aff x y) /\ zm1 h1c (Aff x y) <> Inf.
Lemma mapit_step x v : rep 7 x v -> v + 1 < 2 ^ 406 ->
  (exists y c, on1 (Aff (mkq v) y) /\ Z.even (fv y) = true /\ zm1 h1c (Aff (mkq v) y) <> Inf /\
     ecpA 1 5 (zm1 h1c (Aff (mkq v) y)) c /\ forall f, mapit_go (S f) x = Some c) \/
  ((forall y, on1 (Aff (mkq v) y) -> zm1 h1c (Aff (mkq v) y) = Inf) /\
   exists x', rep 7 x' (v + 1) /\ forall f, mapit_go (S f) x = mapit_go f x').
Proof.
  intros R V. pose proof (rep_bound7 _ _ R) as VB.
  destruct (ok_ex _ _ (ecp_new_bigint_ok x v R)) as (P & EP & HP).
  destruct (ok_ex _ _ (inc_norm_spec x v 1 (rep_nrep _ _ _ R) ltac:(lia) ltac:(lia))) as (x' & EX & HX).
  assert (RX : rep 7 x' (v + 1)) by (apply nrep_rep; [exact HX|change (58 * Z.of_nat 7) with 406; lia]).
  destruct (big_inc x 1) as [x1|] eqn:X1; [|discriminate EX]. cbn [bind] in EX.
  destruct HP as [(y & ON & EV & RP)|(NO & RP)].
  - destruct (ok_ex _ _ (ecp_is_infinity_ok 2 2 _ P RP ltac:(lia) ltac:(lia))) as (b & EB & HB).
    assert (b = false) by (destruct b; [discriminate (proj1 HB eq_refl)|reflexivity]). subst b.
    destruct (ok_ex _ _ (ecp_mul_ok 2 2 _ P CURVE_COF h1c RP ltac:(lia) ltac:(lia) cof_rep h1c_small)) as (c & EC & HC).
    assert (HR : ecpR 1 5 (zm1 h1c (Aff (mkq v) y)) c) by (apply ecpA_R; [lia|lia|exact HC]).
    destruct (ok_ex _ _ (ecp_is_infinity_ok 1 5 _ c HR ltac:(lia) ltac:(lia))) as (b & EB2 & HB2).
    destruct b.
    + right. split.
      * intros z OZ. apply (two_kill _ _ _ _ ON OZ). apply HB2. reflexivity.
      * exists x'. split; [exact RX|]. intros f. cbn [mapit_go]. rewrite EP. cbn [bind]. rewrite X1. cbn [bind]. rewrite EX. cbn [bind]. rewrite EB. cbn [bind].
        unfold ecp_cfp. rewrite EC. cbn [bind]. rewrite EB2. reflexivity.
    + left. exists y, c. split; [exact ON|]. split; [exact EV|]. split; [intros C; discriminate (proj2 HB2 C)|]. split; [exact HC|].
      intros f. cbn [mapit_go]. rewrite EP. cbn [bind]. rewrite X1. cbn [bind]. rewrite EX. cbn [bind]. rewrite EB. cbn [bind].
      unfold ecp_cfp. rewrite EC. cbn [bind]. rewrite EB2. reflexivity.
  - right. destruct (ok_ex _ _ (ecp_is_infinity_ok 1 2 _ P RP ltac:(lia) ltac:(lia))) as (b & EB & HB).
    rewrite (proj2 HB eq_refl) in EB. split; [intros y C; destruct (NO y C)|]. exists x'. split; [exact RX|].
    intros f. cbn [mapit_go]. rewrite EP. cbn [bind]. rewrite X1. cbn [bind]. rewrite EX. cbn [bind]. rewrite EB. reflexivity.
Qed.
Lemma mapit_loop : forall k x v, rep 7 x v -> v + Z.of_nat k + 1 < 2 ^ 406 -> (exists y, hit1 (mkq (v + Z.of_nat k)) y) ->
  exists (j : nat) y c, (j <= k)%nat /\ hit1 (mkq (v + Z.of_nat j)) y /\ Z.even (fv y) = true /\
    (forall i z, (i < j)%nat -> ~ hit1 (mkq (v + Z.of_nat i)) z) /\ ecpA 1 5 (zm1 h1c (Aff (mkq (v + Z.of_nat j)) y)) c /\
    forall fuel, (j < fuel)%nat -> mapit_go fuel x = Some c.
Proof.
  induction k as [|k IH]; intros x v R V (w & W).
  - destruct (mapit_step x v R ltac:(lia)) as [(y & c & O & EV & NI & HC & F)|(NO & _)].
    + exists 0%nat, y, c. change (Z.of_nat 0) with 0. rewrite Z.add_0_r. split; [lia|]. split; [split; assumption|]. split; [exact EV|].
      split; [intros i z C; lia|]. split; [exact HC|]. intros [|f] L; [lia|apply F].
    + change (Z.of_nat 0) with 0 in W. rewrite Z.add_0_r in W. destruct W as [W1 W2]. destruct (W2 (NO w W1)).
  - destruct (mapit_step x v R ltac:(lia)) as [(y & c & O & EV & NI & HC & F)|(NO & x' & RX & F)].
    + exists 0%nat, y, c. change (Z.of_nat 0) with 0. rewrite Z.add_0_r. split; [lia|]. split; [split; assumption|]. split; [exact EV|].
      split; [intros i z C; lia|]. split; [exact HC|]. intros [|f] L; [lia|apply F].
    + assert (SH : forall i, v + Z.of_nat (S i) = v + 1 + Z.of_nat i) by (intros; lia). rewrite SH in W.
      destruct (IH x' (v + 1) RX ltac:(lia) (ex_intro _ w W)) as (j & y & c & J & H & EV & MIN & HC & G).
      exists (S j), y, c. rewrite SH. split; [lia|]. split; [exact H|]. split; [exact EV|]. split.
      { intros [|i] z L.
        - change (Z.of_nat 0) with 0. rewrite Z.add_0_r. intros [C1 C2]. exact (C2 (NO z C1)).
        - rewrite SH. apply MIN. lia. }
      split; [exact HC|]. intros [|f] L; [lia|]. rewrite F. apply G. lia.
Qed.
Lemma gen_hit : hit1 (mkq GXZ) (mkq GYZ).
Proof.
  split; [exact G1gen_on|]. intros C. 
  assert (E : G1gen = Inf) by exact (bez1 h1c r255 G1gen G1gen_on C G1gen_order h1_coprime). discriminate E.
Qed.
Lemma reach u t : exists k : nat, Z.of_nat k < q381 /\ mkq (u + Z.of_nat k) = mkq t.
Proof.
  exists (Z.to_nat ((t - u) mod q381)). pose proof q381_pos as Q.
  pose proof (Z.mod_pos_bound (t - u) q381 ltac:(lia)) as B. rewrite Z2Nat.id by lia. split; [lia|].
  apply mkq_eq. rewrite Zplus_mod_idemp_r. assert (E : u + (t - u) = t) by ring. rewrite E. reflexivity.
Qed.
Lemma mkq_modadd u k : mkq (u mod q381 + k) = mkq (u + k).
Proof. apply mkq_eq. rewrite Zplus_mod_idemp_l. reflexivity. Qed.
Lemma mapit_spec : forall h, bytes h -> (48 <= length h)%nat ->
  exists (k : nat) y c, Z.of_nat k < q381 /\
    on1 (Aff (mkq (be_int (firstn 48 h) + Z.of_nat k)) y) /\ Z.even (fv y) = true /\
    (forall i z, (i < k)%nat -> on1 (Aff (mkq (be_int (firstn 48 h) + Z.of_nat i)) z) ->
       nmul1 (Z.to_nat h1c) (Aff (mkq (be_int (firstn 48 h) + Z.of_nat i)) z) = Inf) /\
    (forall fuel, (k < fuel)%nat -> ecp_mapit fuel h = Some c) /\
    adm c /\ ecp_pt c = nmul1 (Z.to_nat h1c) (Aff (mkq (be_int (firstn 48 h) + Z.of_nat k)) y) /\
    ecp_pt c <> Inf /\ nmul1 (Z.to_nat r255) (ecp_pt c) = Inf.
Proof.
  intros h B L. set (u := be_int (firstn 48 h)). pose proof q381_lt as QL. pose proof q381_pos as QP.
  assert (BF : bytes (firstn 48 h)) by (apply bytes_firstn; exact B).
  destruct (ok_ex _ _ (frombytes_rep (firstn 48 h) BF (firstn_length_le h L))) as (w & EW & W). fold u in W. rewrite <- frombytes_48 in EW.
  destruct (B_rmod w u MODULUS q381 W (rep_nrep _ _ _ mod_rep) QP) as (x & EX & X).
  pose proof (Z.mod_pos_bound u q381 QP) as UB.
  destruct (reach (u mod q381) GXZ) as (k & KB & KE).
  assert (HK : exists y, hit1 (mkq (u mod q381 + Z.of_nat k)) y) by (exists (mkq GYZ); rewrite KE; exact gen_hit).
  destruct (mapit_loop k x (u mod q381) X ltac:(lia) HK) as (j & y & c & J & [O N] & EV & MIN & HC & F).
  rewrite (mkq_modadd u) in O, N, HC. exists j, y, c. split; [lia|]. split; [exact O|]. split; [exact EV|]. split.
  { intros i z I OZ. rewrite <- zm1_h1. pose proof (MIN i z I) as M. rewrite (mkq_modadd u) in M. unfold hit1 in M.
    destruct (zm1 h1c (Aff (mkq (u + Z.of_nat i)) z)) as [|a b]; [reflexivity|]. destruct M. split; [exact OZ|discriminate]. }
  split. { intros fuel FL. unfold ecp_mapit. rewrite EW. cbn [bind]. rewrite EX. cbn [bind]. apply F, FL. }
  destruct (out1 1 5 _ (Some c) HC ltac:(lia) ltac:(lia)) as (c' & E & AD & PT). injection E as E. subst c'.
  split; [exact AD|]. rewrite PT. split; [apply zm1_h1|]. split; [exact N|].
  apply (of_zm r255 _ r255_pos). rewrite <- (zm1_mul r255 h1c _ O), Z.mul_comm. exact (cofactor_kills _ O).
Qed.
Lemma mapit_short : forall h fuel, (length h < 48)%nat -> ecp_mapit fuel h = None.
Proof. intros h fuel L. unfold ecp_mapit. rewrite (big_frombytes_short _ L). reflexivity. Qed.

(* ------------------------------- G2 ------------------------------------ *)
Section Comb2.
  Variables (x : TP) (v : Z).
  Lemma clear_comb : tadd (tadd (tpsi (tpsi (tadd x x))) (tadd (tadd (tsm v (tsm v x)) (tneg (tneg (tsm v x)))) (tneg x))) (tpsi (tadd (tneg (tsm v x)) (tneg x)))
    = tlc x (v * v + v - 1) (- v - 1) 2 0.
  Proof.
    assert (E0 : x = tlc x 1 0 0 0) by (symmetry; apply t_lc_1).
    assert (E1 : tsm v x = tlc x v 0 0 0) by (rewrite <- (t_lc_1 x) at 1; rewrite t_lc_sm; f_equal; ring).
    assert (E4 : tneg x = tlc x (- (1)) 0 0 0) by (rewrite t_opp1; rewrite <- (t_lc_1 x) at 1; rewrite t_lc_sm; f_equal; ring).
    assert (E5 : tadd x x = tlc x 2 0 0 0) by (rewrite <- (t_lc_1 x) at 1 2; rewrite t_lc_add; f_equal; ring).
    rewrite E4, E5, E1, !t_opp1, !t_lc_sm, !t_lc_psi, !t_lc_add, !t_lc_psi, !t_lc_add. f_equal; ring.
  Qed.
End Comb2.
Lemma tclear_comb a : tclear a = tadd (tadd (tpsi (tpsi (tadd a a))) (tadd (tadd (tsm bnx (tsm bnx a)) (tneg (tneg (tsm bnx a)))) (tneg a))) (tpsi (tadd (tneg (tsm bnx a)) (tneg a))).
Proof. rewrite clear_comb. reflexivity. Qed.
Lemma heff_nn : 0 <= heff. Proof. vm_compute. discriminate. Qed.
Lemma heff_val : heff = 3 * (bnx * bnx - 1) * h2. Proof. vm_compute. reflexivity. Qed.
Opaque heff.
Lemma clear_point p : on2 p ->
  padd2 (padd2 (psi (psi (padd2 p p))) (padd2 (padd2 (zm2 bnx (zm2 bnx p)) (pneg2 (pneg2 (zm2 bnx p)))) (pneg2 p))) (psi (padd2 (pneg2 (zm2 bnx p)) (pneg2 p)))
  = zm2 heff p.
Proof.
  intros O. pose proof (f_equal tp (clear_heff (mk p O))) as H. rewrite tclear_comb in H.
  rewrite !tp_add, !tp_psi, !tp_add, !tp_neg, !tp_sm, tp_mk in H. exact H.
Qed.
Lemma bnx_404 : bnx + 2 < 2 ^ 404. Proof. vm_compute. reflexivity. Qed.
Lemma mapit2_clear_ok l E p a : ecp2R l E p a -> 1 <= l <= 8 -> 1 <= E <= 262144 -> ok (mapit2_clear a) (ecp2A 1 17 (zm2 heff p)).
Proof.
  intros R L HE. unfold mapit2_clear. pose proof (proj1 R) as O.
  eapply ok_bind; [exact gf_const|]. intros f0 F0.
  eapply ok_bind; [eapply fp2_inverse_ok; [exact F0|lia|lia]|]. intros f1 F1. rewrite gfi_eq in F1.
  eapply ok_bind; [eapply fp2_norm_ok; [exact F1|lia|lia]|]. intros f F.
  eapply ok_bind; [apply (ecp2_mul_ok l E p a CURVE_BNX bnx R L); [lia|exact bnx_rep|exact bnx_404]|]. intros xQ RX. apply ecp2A_R in RX.
  eapply ok_bind; [apply (ecp2_mul_ok 1 17 _ xQ CURVE_BNX bnx RX); [lia|lia|exact bnx_rep|exact bnx_404]|]. intros x2 RX2. apply ecp2A_R in RX2.
  eapply ok_bind; [apply (ecp2_neg_ok 1 17 _ xQ RX); lia|]. intros nx RN.
  eapply ok_bind; [eapply ecp2_sub_ok; [exact RX2|exact RN|lia..]|]. intros s1 RS1.
  eapply ok_bind; [eapply ecp2_sub_ok; [exact RS1|exact R|lia..]|]. intros s2 RS2.
  eapply ok_bind; [eapply ecp2_sub_ok; [exact RN|exact R|lia..]|]. intros s3 RS3.
  eapply ok_bind; [eapply ecp2_frob_ok; [exact RS3|exact F|lia|lia]|]. intros s4 RS4.
  eapply ok_bind; [eapply ecp2_dbl_ok; [exact R|lia|lia]|]. intros d RD.
  eapply ok_bind; [eapply ecp2_frob_ok; [exact RD|exact F|lia|lia]|]. intros d1 RD1.
  eapply ok_bind; [eapply ecp2_frob_ok; [exact RD1|exact F|lia|lia]|]. intros d2 RD2.
  eapply ok_bind; [eapply ecp2_add_ok; [exact RD2|exact RS2|lia..]|]. intros t1 RT1.
  eapply ok_bind; [eapply ecp2_add_ok; [exact RT1|exact RS4|lia..]|]. intros t2 RT2.
  rewrite (clear_point p O) in RT2. eapply ecp2_affine_ok; [exact RT2|lia|lia].
Qed.
Lemma big1_rep : rep 7 big_one 1. Proof. apply (rep_small 1). lia. Qed.
Definition cx2 (v : Z) : Prop := curve_x (mkq 1, mkq v).
Lemma mapit2_step x v : rep 7 x v -> v + 1 < 2 ^ 406 ->
  (exists y Q, on2 (Aff (mkq 1, mkq v) y) /\ is_sq (fst y) /\ cx2 v /\ ecp2R 1 2 (Aff (mkq 1, mkq v) y) Q /\ forall f, mapit2_go (S f) x = Some Q) \/
  (~ cx2 v /\ exists x', rep 7 x' (v + 1) /\ forall f, mapit2_go (S f) x = mapit2_go f x').
Proof.
  intros R V. pose proof (rep_bound7 _ _ R) as VB.
  destruct (ok_ex _ _ (fp2_new_bigs_ok _ _ _ _ big1_rep R)) as (X & EX & HX).
  destruct (ok_ex _ _ (ecp2_new_fp2_ok 1 2 _ X HX ltac:(lia) ltac:(lia))) as (Q & EQ & H1 & H2 & H3).
  destruct H3 as [H|H].
  - left. destruct (H1 H) as (y & ON & FX & FY & FZ & SQ & _). exists y, Q.
    assert (RQ : ecp2R 1 2 (Aff (mkq 1, mkq v) y) Q) by (apply (ecp2F_R 2 _ _ Q ltac:(lia) ON); split; [exact FX|split; [exact FY|exact FZ]]).
    split; [exact ON|]. split; [exact SQ|]. split; [apply curve_x_root, H|]. split; [exact RQ|].
    destruct (ok_ex _ _ (ecp2_is_infinity_ok 1 2 _ Q RQ ltac:(lia) ltac:(lia))) as (b & EB & HB).
    assert (b = false) by (destruct b; [discriminate (proj1 HB eq_refl)|reflexivity]). subst b.
    intros f. cbn [mapit2_go]. rewrite EX. cbn [bind]. rewrite EQ. cbn [bind]. rewrite EB. reflexivity.
  - right. split; [intros C; apply H; apply curve_x_root, C|]. pose proof (H2 H) as RQ.
    destruct (ok_ex _ _ (ecp2_is_infinity_ok 1 2 _ Q RQ ltac:(lia) ltac:(lia))) as (b & EB & HB).
    rewrite (proj2 HB eq_refl) in EB.
    destruct (ok_ex _ _ (inc_norm_spec x v 1 (rep_nrep _ _ _ R) ltac:(lia) ltac:(lia))) as (x' & EI & HI).
    exists x'. split; [apply nrep_rep; [exact HI|change (58 * Z.of_nat 7) with 406; lia]|].
    destruct (big_inc x 1) as [x1|] eqn:X1; [|discriminate EI]. cbn [bind] in EI.
    intros f. cbn [mapit2_go]. rewrite EX. cbn [bind]. rewrite EQ. cbn [bind]. rewrite EB. cbn [bind negb]. rewrite X1. cbn [bind]. rewrite EI. reflexivity.
Qed.
Lemma mapit2_loop : forall k x v, rep 7 x v -> v + Z.of_nat k + 1 < 2 ^ 406 -> cx2 (v + Z.of_nat k) ->
  exists (j : nat) y Q, (j <= k)%nat /\ on2 (Aff (mkq 1, mkq (v + Z.of_nat j)) y) /\ is_sq (fst y) /\ cx2 (v + Z.of_nat j) /\
    (forall i, (i < j)%nat -> ~ cx2 (v + Z.of_nat i)) /\ ecp2R 1 2 (Aff (mkq 1, mkq (v + Z.of_nat j)) y) Q /\
    forall fuel, (j < fuel)%nat -> mapit2_go fuel x = Some Q.
Proof.
  induction k as [|k IH]; intros x v R V W.
  - destruct (mapit2_step x v R ltac:(lia)) as [(y & Q & O & SQ & CX & RQ & F)|(NO & _)].
    + exists 0%nat, y, Q. change (Z.of_nat 0) with 0. rewrite Z.add_0_r. split; [lia|]. split; [exact O|]. split; [exact SQ|]. split; [exact CX|].
      split; [intros i C; lia|]. split; [exact RQ|]. intros [|f] L; [lia|apply F].
    + change (Z.of_nat 0) with 0 in W. rewrite Z.add_0_r in W. destruct (NO W).
  - destruct (mapit2_step x v R ltac:(lia)) as [(y & Q & O & SQ & CX & RQ & F)|(NO & x' & RX & F)].
    + exists 0%nat, y, Q. change (Z.of_nat 0) with 0. rewrite Z.add_0_r. split; [lia|]. split; [exact O|]. split; [exact SQ|]. split; [exact CX|].
      split; [intros i C; lia|]. split; [exact RQ|]. intros [|f] L; [lia|apply F].
    + assert (SH : forall i, v + Z.of_nat (S i) = v + 1 + Z.of_nat i) by (intros; lia). rewrite SH in W.
      destruct (IH x' (v + 1) RX ltac:(lia) W) as (j & y & Q & J & O & SQ & CX & MIN & RQ & G).
      exists (S j), y, Q. rewrite SH. split; [lia|]. split; [exact O|]. split; [exact SQ|]. split; [exact CX|]. split.
      { intros [|i] L.
        - change (Z.of_nat 0) with 0. rewrite Z.add_0_r. exact NO.
        - rewrite SH. apply MIN. lia. }
      split; [exact RQ|]. intros [|f] L; [lia|]. rewrite F. apply G. lia.
Qed.
Definition t11y0 : Z := 0x17faa6201231304f270b858dad9462089f2a5b83388e4b10773abc1eef6d193b9fce4e8ea2d9d28e3c3a315aa7de14ca.
Definition t11y1 : Z := 0xcc12449be6ac4e7f367e7242250427c4fb4c39325d3164ad397c1837a90f0ea1a534757df374dd6569345eb41ed76e.
Lemma t11_on : on2 (Aff (z2 1 1) (z2 t11y0 t11y1)). Proof. z2on. Qed.
Lemma t11_ne : mkq t11y0 <> f0. Proof. unfold f0. mkne. Qed.
Lemma cx_11 : cx2 1.
Proof. exists (z2 t11y0 t11y1). split; [exact t11_on|exact t11_ne]. Qed.
Lemma zm2_heff p : zm2 heff p = nmul2 (Z.to_nat heff) p. Proof. exact (zm2_nmul heff p heff_nn). Qed.
Lemma heff_r p : on2 p -> zm2 r255 (zm2 heff p) = Inf.
Proof.
  intros O. pose proof (f_equal tp (tclear_r (mk p O))) as H. rewrite clear_heff in H. rewrite !tp_sm, tp_mk, tp_z in H. exact H.
Qed.
Lemma nm_gen n p : 0 <= n -> zm2 n p = Inf -> nmul2 (Z.to_nat n) p = Inf.
Proof. intros N H. rewrite <- (zm2_nmul n p N). exact H. Qed.
Lemma r_nm p : zm2 r255 p = Inf -> nmul2 (Z.to_nat r255) p = Inf.
Proof. exact (nm_gen r255 p r255_pos). Qed.
Lemma adm2_17 p c : ecp2R 1 17 p c -> adm2 c /\ ecp2_pt c = p.
Proof. intros R. apply (ecp2R_weak _ _ 8 262144) in R; [|lia|lia]. apply ecp2R_wf_pt in R. exact R. Qed.
Lemma mapit2_spec : forall h, bytes h -> (48 <= length h)%nat ->
  exists (k : nat) y c, Z.of_nat k < q381 /\
    on2 (Aff (mkq 1, mkq (be_int (firstn 48 h) + Z.of_nat k)) y) /\ fst y <> f0 /\ is_sq (fst y) /\
    (forall i z, (i < k)%nat -> on2 (Aff (mkq 1, mkq (be_int (firstn 48 h) + Z.of_nat i)) z) -> fst z = f0) /\
    (forall fuel, (k < fuel)%nat -> ecp2_mapit fuel h = Some c) /\
    adm2 c /\ ecp2_pt c = nmul2 (Z.to_nat heff) (Aff (mkq 1, mkq (be_int (firstn 48 h) + Z.of_nat k)) y) /\
    nmul2 (Z.to_nat r255) (ecp2_pt c) = Inf.
Proof.
  intros h B L. set (u := be_int (firstn 48 h)). pose proof q381_lt as QL. pose proof q381_pos as QP.
  assert (BF : bytes (firstn 48 h)) by (apply bytes_firstn; exact B).
  destruct (ok_ex _ _ (frombytes_rep (firstn 48 h) BF (firstn_length_le h L))) as (w & EW & W). fold u in W. rewrite <- frombytes_48 in EW.
  destruct (B_rmod w u MODULUS q381 W (rep_nrep _ _ _ mod_rep) QP) as (x & EX & X).
  pose proof (Z.mod_pos_bound u q381 QP) as UB.
  destruct (reach (u mod q381) 1) as (k & KB & KE).
  assert (HK : cx2 (u mod q381 + Z.of_nat k)) by (unfold cx2; rewrite KE; exact cx_11).
  destruct (mapit2_loop k x (u mod q381) X ltac:(lia) HK) as (j & y & Q & J & O & SQ & CX & MIN & RQ & F).
  unfold cx2 in CX. rewrite (mkq_modadd u) in O, CX, RQ.
  assert (NZ : fst y <> f0).
  { destruct CX as (y' & Y1 & Y2). assert (ON' : on2 (Aff (mkq 1, mkq (u + Z.of_nat j)) y')) by exact Y1.
    destruct (on2_two _ _ _ ON' O) as [G|G]; rewrite G; [exact Y2|]. cbn [gopp fst]. intros C. apply Y2.
    assert (E : fst y' = fopp (fopp (fst y'))) by ring. rewrite E, C. ring. }
  destruct (ok_ex _ _ (mapit2_clear_ok 1 2 _ Q RQ ltac:(lia) ltac:(lia))) as (c & EC & RC). apply ecp2A_R in RC.
  exists j, y, c. split; [lia|]. split; [exact O|]. split; [exact NZ|]. split; [exact SQ|]. split.
  { intros i z I OZ. pose proof (MIN i I) as M. unfold cx2 in M. rewrite (mkq_modadd u) in M.
    destruct (Fq_dec (fst z) f0) as [E|E]; [exact E|]. destruct M. exists z. split; [exact OZ|exact E]. }
  split. { intros fuel FL. unfold ecp2_mapit. rewrite EW. cbn [bind]. rewrite EX. cbn [bind]. rewrite (F fuel FL). cbn [bind]. exact EC. }
  destruct (adm2_17 _ _ RC) as [AD PT].
  split; [exact AD|]. rewrite PT. split; [apply zm2_heff|]. exact (r_nm _ (heff_r _ O)).
Qed.
Lemma mapit2_short : forall h fuel, (length h < 48)%nat -> ecp2_mapit fuel h = None.
Proof. intros h fuel L. unfold ecp2_mapit. rewrite (big_frombytes_short _ L). reflexivity. Qed.
(* the cofactor clearing, for any point of the twist *)
Lemma clear_spec : forall a, adm2 a -> exists c, mapit2_clear a = Some c /\ adm2 c /\ ecp2_pt c = nmul2 (Z.to_nat heff) (ecp2_pt a) /\
  nmul2 (Z.to_nat r255) (ecp2_pt c) = Inf.
Proof.
  intros a A. pose proof (ecp2_wf_R _ _ _ A) as R.
  destruct (ok_ex _ _ (mapit2_clear_ok 8 262144 _ a R ltac:(lia) ltac:(lia))) as (c & EC & RC). apply ecp2A_R in RC.
  exists c. split; [exact EC|]. destruct (adm2_17 _ _ RC) as [AD PT].
  split; [exact AD|]. rewrite PT. split; [apply zm2_heff|]. exact (r_nm _ (heff_r _ (proj1 R))).
Qed.
