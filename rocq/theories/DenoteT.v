(* What FP4 and FP12 values denote in the tower, and the results about fp12.rs
   and pair.rs restated with these denotations. *)
From Coq Require Import ZArith List Bool Lia Znumtheory Field.
From Verif Require Import Prim Rom Big Fp Fp2 Fp4 Fp12 Ecp Ecp2 Pair Utils Api PrimP BigP BigP2 SpecBytes BigP3 BigP4 BigP5 NumT FieldQ FieldQ2 FpP FpP2
  SkP SpecCurve CurveP GroupP JacobiM JacP Fp2P Sqrt2P WinP EcpP EcpC Ecp2P Denote GenP KeysP KeysP2 KeysP3 BigL LayerP Ecp2C MapP SigsP SigsP2
  Tower TowerP FrobP CycP Fp4P Fp12P NafP FexpP SpecPairing LineP PairP PairP2 PairP3 MillerP MillerP2 MillerP3 PsiP BilinP FinGrp TwGrp TwPsi TwistP VerifyP VerifyP2.
Import ListNotations.
Open Scope Z_scope.

(* the tower element a value stands for, and the admissible representations *)
Definition fp4_val (a : FP4) : Fq4 := (fp2_val (f4a a), fp2_val (f4b a)).
Definition fp12_val (a : FP12) : Fq12 := mk12 (fp4_val (f12a a)) (fp4_val (f12b a)) (fp4_val (f12c a)).
Definition fp4_wf (l E : Z) (a : FP4) : Prop := fp2_wf l E (f4a a) /\ fp2_wf l E (f4b a).
Definition fp12_wf (l E : Z) (a : FP12) : Prop := fp4_wf l E (f12a a) /\ fp4_wf l E (f12b a) /\ fp4_wf l E (f12c a).

Lemma fp4R_wfv l E x a : fp4R l E x a <-> fp4_wf l E a /\ fp4_val a = x.
Proof.
  destruct x as [u v]. assert (PE : fp4_val a = (u, v) <-> fp2_val (f4a a) = u /\ fp2_val (f4b a) = v) by apply pair_equal_spec.
  unfold fp4R, fp4_wf. rewrite !fp2R_wfv, PE. cbn [fst snd]. tauto.
Qed.
Lemma fp12R_wfv l E x a : fp12R l E x a <-> fp12_wf l E a /\ fp12_val a = x.
Proof.
  destruct x as [u v w].
  assert (PE : fp12_val a = mk12 u v w <-> fp4_val (f12a a) = u /\ fp4_val (f12b a) = v /\ fp4_val (f12c a) = w).
  { unfold fp12_val. split; [intros H; inversion H; auto|intros (-> & -> & ->); reflexivity]. }
  unfold fp12R, fp12_wf. rewrite !fp4R_wfv, PE. cbn [ka kb kc]. tauto.
Qed.
Lemma fp12_R l E a : fp12_wf l E a -> fp12R l E (fp12_val a) a.
Proof. intros H. exact (proj2 (fp12R_wfv l E (fp12_val a) a) (conj H eq_refl)). Qed.
Lemma ok_val l E x (m : option FP12) : ok m (fp12R l E x) -> exists c, m = Some c /\ fp12_wf l E c /\ fp12_val c = x.
Proof. intros H. destruct (ok_ex _ _ H) as (c & C & R). exists c. split; [exact C|]. exact (proj1 (fp12R_wfv l E x c) R). Qed.
Lemma ok_valC x (m : option FP12) : ok m (fp12C x) -> exists c, m = Some c /\ fp12_wf 1 1 c /\ fp12_val c = x.
Proof. intros H. apply ok_val. eapply ok_impl; [exact H|]. intros a. apply fp12C_R. Qed.

Lemma fp12_arithmetic : forall a b, fp12_wf 8 524288 a -> fp12_wf 8 524288 b ->
  (exists c, fp12_mul a b = Some c /\ fp12_wf 1 8192 c /\ fp12_val c = kmul (fp12_val a) (fp12_val b)) /\
  (exists c, fp12_sqr a = Some c /\ fp12_wf 1 8192 c /\ fp12_val c = kmul (fp12_val a) (fp12_val a)) /\
  (exists c, fp12_inverse a = Some c /\ fp12_wf 1 8192 c /\ fp12_val c = kinv (fp12_val a)) /\
  (exists c, fp12_conj a = Some c /\ fp12_wf 1 2621439 c /\ fp12_val c = kconj (fp12_val a)) /\
  (exists c, fp12_norm a = Some c /\ fp12_wf 1 524288 c /\ fp12_val c = fp12_val a) /\
  (exists c, fp12_reduce a = Some c /\ fp12_wf 1 1 c /\ fp12_val c = fp12_val a) /\
  (exists e, fp12_equals a b = Some e /\ (e = true <-> fp12_val a = fp12_val b)).
Proof.
  intros a b A B. apply fp12_R in A, B.
  split; [apply ok_val; eapply fp12_mul_ok; [exact A|exact B|lia..]|].
  split; [apply ok_val; eapply fp12_sqr_ok; [exact A|lia..]|].
  split; [apply ok_val; eapply fp12_inverse_ok; [exact A|lia..]|].
  split; [apply ok_val; exact (fp12_conj_ok 8 524288 _ a A ltac:(lia) ltac:(lia) ltac:(lia))|].
  split; [apply ok_val; eapply fp12_norm_ok; [exact A|lia..]|].
  split; [apply ok_valC; eapply fp12_reduce_ok; [exact A|lia..]|].
  destruct (ok_ex _ _ (fp12_equals_ok 8 8 524288 524288 _ _ a b A B ltac:(lia) ltac:(lia) ltac:(lia) ltac:(lia))) as (e & E & I). exists e. split; [exact E|exact I].
Qed.
(* the sparse product used in the Miller loop *)
Lemma fp12_sparse : forall a b, fp12_wf 8 524288 a -> fp12_wf 8 524288 b -> kb (fp12_val b) = h0 -> fst (kc (fp12_val b)) = g0 ->
  exists c, fp12_smul a b = Some c /\ fp12_wf 1 8192 c /\ fp12_val c = kmul (fp12_val a) (fp12_val b).
Proof. intros a b A B K1 K2. apply fp12_R in A, B. apply ok_val. eapply fp12_smul_ok; [exact A|exact B|exact K1|exact K2|lia..]. Qed.
(* the tower is a field with w^6 = 1+i; conj is the power q^6 *)
Lemma q_6 : q2 * q2 * q2 = q381 ^ 6.
Proof. Transparent q2. unfold q2. Opaque q2. generalize q381. intros z. ring. Qed.
Lemma tower_field : field_theory k0 k1 kadd kmul ksub kopp kdiv kinv (@eq Fq12).
Proof. exact Fq12_field. Qed.
Lemma tower_w : kpw kw 6 = emb2 (f1, f1).
Proof. exact kw_6. Qed.
Lemma tower_conj : forall x, kpw x (q381 ^ 6) = kconj x.
Proof. intros x. rewrite <- q_6. exact (kconj_pw x). Qed.
Lemma tower_frobenius : forall x, kpw x (q381 ^ 12) = x.
Proof.
  intros x. assert (E : q381 ^ 12 = q381 ^ 6 * q381 ^ 6) by (generalize q381; intros z; ring). rewrite E.
  pose proof q381_pos as QP. assert (0 <= q381 ^ 6) by (apply Z.pow_nonneg; lia). rewrite kpw_mul by assumption.
  rewrite (tower_conj x), (tower_conj (kconj x)). apply kconj_conj.
Qed.
(* frob with the constants of the ROM is the power q *)
Lemma fp12_frobenius : exists f, fp2_new_bigs FRA FRB = Some f /\ forall a, fp12_wf 8 524288 a ->
  exists c, fp12_frob a f = Some c /\ fp12_wf 8 1048578 c /\ fp12_val c = kpw (fp12_val a) q381.
Proof.
  destruct (ok_ex _ _ gf_const) as (f & F & R). exists f. split; [exact F|]. intros a A. apply fp12_R in A. apply ok_val.
  rewrite <- (kfrob_pw (fp12_val a)). exact (fp12_frob_ok 8 1 524288 2 _ a gf f A R ltac:(lia) ltac:(lia) ltac:(lia) ltac:(lia)).
Qed.
(* the squaring for elements of the cyclotomic subgroup *)
Lemma fp12_unitary_square : forall a, fp12_wf 8 524288 a -> kpw (fp12_val a) (q381 ^ 4 - q381 ^ 2 + 1) = k1 ->
  exists c, fp12_usqr a = Some c /\ fp12_wf 1 1 c /\ fp12_val c = kmul (fp12_val a) (fp12_val a).
Proof.
  intros a A C. apply fp12_R in A. assert (E : q381 ^ 4 - q381 ^ 2 + 1 = cn).
  { rewrite cn_q2. Transparent q2. unfold q2. Opaque q2. generalize q381. intros z. ring. }
  rewrite E in C. change (cyc (fp12_val a)) in C. rewrite <- (kusqr_ok _ C). apply ok_valC. eapply fp12_usqr_ok; [exact A|lia..].
Qed.
(* the final exponentiation *)
Lemma final_exponentiation : forall a, fp12_wf 8 100000 a ->
  exists c, fexp a = Some c /\ fp12_wf 1 1 c /\ fp12_val c = kpw (fp12_val a) (3 * ((q381 ^ 12 - 1) / r255)).
Proof.
  intros a A. apply fp12_R in A. apply ok_valC.
  assert (E : 3 * ((q381 ^ 12 - 1) / r255) = finexp). { rewrite <- final_finexp. Transparent final_exp. unfold final_exp. Opaque final_exp. reflexivity. }
  rewrite E. apply (fexp_ok 8 100000); [exact A|lia|lia].
Qed.

(* ------------------------- the pairing ---------------------------------- *)
(* an ECP or ECP2 whose coordinates x, y are those of its affine point *)
Definition affine1 (b : ECP) : Prop := ecp_pt b <> Inf -> fp_val (ez b) = f1.
Definition affine2 (a : ECP2) : Prop := ecp2_pt a <> Inf -> fp2_val (e2z a) = g1.
Section DivOne.
Context {K : Type} {z o : K} {ad mu su : K -> K -> K} {op : K -> K} {di : K -> K -> K} {iv : K -> K} (FT : field_theory z o ad mu su op di iv (@eq K)).
Lemma div_one x : di x o = x.
Proof.
  assert (M : forall y, mu y o = y) by (intros y; rewrite (Rmul_comm (F_R FT)); apply (Rmul_1_l (F_R FT))).
  assert (I : iv o = o) by (rewrite <- (M (iv o)); apply (Finv_l FT), (F_1_neq_0 FT)).
  rewrite (Fdiv_def FT), I. apply M.
Qed.
End DivOne.
Lemma fdiv_f1 x : fdiv x f1 = x. Proof. exact (div_one Fq_field x). Qed.
Lemma gdiv_g1 x : gdiv x g1 = x. Proof. exact (div_one Fq2_field x). Qed.
Lemma fpR_val l E x a : fp_wf l E a -> fp_val a = x -> fpR l E x a.
Proof. intros W V. exact (proj2 (fpR_wfv l E x a) (conj W V)). Qed.
Lemma fp2R_val l E x a : fp2_wf l E a -> fp2_val a = x -> fp2R l E x a.
Proof. intros W V. exact (proj2 (fp2R_wfv l E x a) (conj W V)). Qed.
Lemma affine1_X m F b : ecp_wf m F b -> affine1 b -> ecpX m F (ecp_pt b) b.
Proof.
  intros W A. pose proof (ecp_wf_R _ _ _ W) as R. destruct W as (X & Y & Z & ON & _). unfold affine1 in A.
  assert (D : ecp_pt b = Inf \/ ecp_pt b = Aff (fdiv (fp_val (ex b)) (fp_val (ez b))) (fdiv (fp_val (ey b)) (fp_val (ez b)))).
  { unfold ecp_pt. destruct (Fq_dec (fp_val (ez b)) f0); [left|right]; reflexivity. }
  destruct D as [D|D]; [rewrite D in R |- *; exact R|]. assert (V : fp_val (ez b) = f1) by (apply A; rewrite D; discriminate).
  rewrite V, !fdiv_f1 in D. rewrite D in ON |- *. split; [exact ON|].
  split; [exact (fpR_val _ _ _ _ X eq_refl)|exact (fpR_val _ _ _ _ Y eq_refl)].
Qed.
Lemma affine2_A m F b : ecp2_wf m F b -> affine2 b -> ecp2A m F (ecp2_pt b) b.
Proof.
  intros W A. pose proof (ecp2_wf_R _ _ _ W) as R. destruct W as (X & Y & Z & ON & _). unfold affine2 in A.
  assert (D : ecp2_pt b = Inf \/ ecp2_pt b = Aff (gdiv (fp2_val (e2x b)) (fp2_val (e2z b))) (gdiv (fp2_val (e2y b)) (fp2_val (e2z b)))).
  { unfold ecp2_pt. destruct (Fq2_dec (fp2_val (e2z b)) g0); [left|right]; reflexivity. }
  destruct D as [D|D]; [rewrite D in R |- *; exact R|]. assert (V : fp2_val (e2z b) = g1) by (apply A; rewrite D; discriminate).
  rewrite V, !gdiv_g1 in D. rewrite D in ON |- *. split; [exact ON|].
  split; [exact (fp2R_val _ _ _ _ X eq_refl)|]. split; [exact (fp2R_val _ _ _ _ Y eq_refl)|exact (fp2R_val _ _ _ _ Z V)].
Qed.
Lemma ate_pairing_value : forall a b, ecp2_wf 8 100000 a -> affine2 a -> ecp_wf 8 1000000 b -> affine1 b -> (ecp_pt b = Inf -> in_subgroup (ecp2_pt a)) ->
  exists c, ate_pairing a b = Some c /\ fp12_wf 1 1 c /\
    (~ zero_case (ecp2_pt a) (ecp_pt b) -> fp12_val c = pairing (ecp2_pt a) (ecp_pt b)) /\
    (zero_case (ecp2_pt a) (ecp_pt b) -> fp12_val c = k0).
Proof.
  intros a b WA AA WB AB GP. pose proof (affine2_A _ _ _ WA AA) as A. pose proof (affine1_X _ _ _ WB AB) as B.
  assert (ON : on1 (ecp_pt b)) by apply WB. assert (ON2 : on2 (ecp2_pt a)) by apply WA.
  assert (PK : pair_ok (ecp2_pt a) (ecp_pt b)).
  { destruct (ecp_pt b) as [|x y]; [exact (eigen_ok _ _ (sub_eigen _ ON2 (GP eq_refl)))|exact (aff_ok _ x y ON2)]. }
  destruct (ok_valC _ _ (ate_pairing_ok 8 100000 8 1000000 _ _ a b A B PK ltac:(lia) ltac:(lia) ltac:(lia) ltac:(lia))) as (c & C & W & V).
  exists c. split; [exact C|]. split; [exact W|]. rewrite V. split; [intros N; exact (epair_regular _ _ ON N)|intros Z; exact (epair_zero _ _ Z)].
Qed.
Lemma good_sub p : on2 p -> eigen p -> in_subgroup p.
Proof. intros O E. exact (proj2 (sub_zm p) (eigen_r p E)). Qed.
Lemma pairing_bilinear : forall P P' Q Q', on2 P -> on2 P' -> in_subgroup P -> in_subgroup P' -> on1 Q -> on1 Q' ->
  pairing (padd2 P P') Q = kmul (pairing P Q) (pairing P' Q) /\ pairing P (padd1 Q Q') = kmul (pairing P Q) (pairing P Q').
Proof.
  intros P P' Q Q' O O' S1 S2 OQ OQ'. pose proof (sub_eigen P O S1) as E. pose proof (sub_eigen P' O' S2) as E'.
  split; [exact (pairing_add_l P P' Q E E' OQ)|exact (pairing_add_r P Q Q' E OQ OQ')].
Qed.
Lemma pairing_scalar : forall P Q m n, on2 P -> in_subgroup P -> on1 Q ->
  pairing (nmul2 m P) (nmul1 n Q) = kpw (pairing P Q) (Z.of_nat m * Z.of_nat n).
Proof.
  intros P Q m n O S1 OQ. pose proof (sub_eigen P O S1) as E.
  rewrite <- (Nat2Z.id m) at 1. rewrite <- (Nat2Z.id n) at 1. rewrite <- (zm2_nmul (Z.of_nat m)), <- (zm1_nmul (Z.of_nat n)) by lia.
  assert (EM : eigen (zm2 (Z.of_nat m) P)) by (apply (eigen_zm _ P E)).
  rewrite (pairing_zm_r (Z.of_nat n) _ Q ltac:(lia) EM OQ), (pairing_zm_l (Z.of_nat m) P Q ltac:(lia) E OQ). symmetry. apply kpw_mul; lia.
Qed.
Lemma pairing_root_of_unity : forall P Q, on2 P -> on1 Q -> pairing P Q <> k0 /\ kpw (pairing P Q) r255 = k1.
Proof. intros P Q O OQ. split; [exact (pairing_nz P Q O OQ)|exact (pairing_r P Q O OQ)]. Qed.
(* the value 0, which no pairing has, occurs *)
Lemma pairing_zero_refuted : exists a b c, asig_new = Some a /\ apk_new = Some b /\ ecp2_pt a = Inf /\ ecp_pt b = Inf /\
  ate_pairing a b = Some c /\ fp12_val c = k0 /\ pairing (ecp2_pt a) (ecp_pt b) = k1.
Proof.
  destruct (ok_ex _ _ ecp2_inf_ok) as (a & EA & RA). destruct (ok_ex _ _ ecp_inf_ok) as (b & EB & RB).
  pose proof (ecp2R_pt _ _ _ _ RA) as PA. pose proof (ecpR_pt _ _ _ _ RB) as PB.
  assert (A : ecp2_wf 8 100000 a).
  { assert (R8 : ecp2R 8 100000 Inf a) by (eapply ecp2R_weak; [exact RA|lia|lia]). exact (proj1 (proj1 (ecp2R_wf_pt _ _ _ _) R8)). }
  assert (B : ecp_wf 8 1000000 b).
  { assert (R8 : ecpR 8 1000000 Inf b) by (eapply ecpR_weak; [exact RB|lia|lia]). exact (proj1 (proj1 (ecpR_wf_pt _ _ _ _) R8)). }
  assert (A2 : affine2 a) by (intros N; exfalso; exact (N PA)). assert (B1 : affine1 b) by (intros N; exfalso; exact (N PB)).
  assert (GP : ecp_pt b = Inf -> in_subgroup (ecp2_pt a)).
  { intros _. rewrite PA. exact (proj2 (sub_zm Inf) (zm2_zero r255)). }
  destruct (ate_pairing_value a b A A2 B B1 GP) as (c & C & _ & _ & V). exists a, b, c.
  split; [exact EA|]. split; [exact EB|]. split; [exact PA|]. split; [exact PB|]. split; [exact C|]. split.
  - apply V. rewrite PA, PB. split; [reflexivity|exact I].
  - rewrite PA, PB. reflexivity.
Qed.

(* ------------------------- the twist group ------------------------------ *)
Lemma twist_group_order : exists l : list pt2, NoDup l /\ (forall p, In p l <-> on2 p) /\ Z.of_nat (length l) = h2 * r255.
Proof.
  exists (map tp TL). split; [|split].
  - apply FinFun.Injective_map_NoDup; [|exact TL_nd]. intros x y. apply tp_ext.
  - intros p. rewrite in_map_iff. split; [intros (x & <- & _); apply tp_on|]. intros O. exists (mk p O). split; [apply tp_mk|apply TL_in].
  - rewrite map_length. exact twist_order.
Qed.
Lemma twist_subgroup_cyclic : exists G, on2 G /\ in_subgroup G /\ G <> Inf /\ forall p, on2 p -> in_subgroup p -> exists k, 0 <= k < r255 /\ p = nmul2 (Z.to_nat k) G.
Proof.
  exists G2pt. split; [exact (proj1 G2_eigen)|]. split; [exact (good_sub _ (proj1 G2_eigen) G2_eigen)|]. split; [discriminate|].
  intros p O S1. destruct (in_G2 p O (proj1 (sub_zm p) S1)) as (k & K & ->). exists k. split; [exact K|]. apply zm2_nmul. lia.
Qed.
