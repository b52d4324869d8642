(* ate_pairing computes the pairing of the specification. *)
From Coq Require Import ZArith List Bool Lia Znumtheory Field.
From Verif Require Import Prim PrimP Rom Big BigP NumT FieldQ FieldQ2 SpecCurve CurveP GroupP LineP Fp Fp2 Fp4 Fp12 Ecp Ecp2 Pair Utils FpP FpP2 Fp2P
  EcpP Ecp2P Tower TowerP FrobP CycP Fp4P Fp12P NafP FexpP SpecPairing PairP PairP2 PairP3 MillerP MillerP2.
Open Scope Z_scope.

(* values in F_q4 are killed by the final exponentiation *)
Section Kill4.
  Variables (q h f : Z).
  Hypotheses (Q1 : 1 < q) (F0 : 0 <= f).
  Lemma kill4 x : x <> k0 -> kpw x (q * q) = x -> kpw x ((q * q * q - 1) * (q + 1) * f) = k1.
  Proof.
    intros X E. assert (E1 : kpw x (q * q - 1) = k1).
    { apply (kcancel x); [exact X|]. rewrite <- (kpw_1 x) at 1. rewrite <- (kpw_add x 1 (q * q - 1)) by nia.
      replace (1 + (q * q - 1)) with (q * q) by ring. rewrite E. ring. }
    replace ((q * q * q - 1) * (q + 1) * f) with ((q * q - 1) * ((q * q + q + 1) * f)) by ring.
    rewrite kpw_mul by nia. rewrite E1. apply kpw_one.
  Qed.
End Kill4.
Lemma kfrob4_emb h : kfrob4 (kemb h) = kemb h.
Proof.
  destruct h as [a b]. unfold kfrob4, kfrob4c, kemb, hscale, h0. cbn [ka kb kc fst snd]. apply f_equal3; [reflexivity| |]; apply f_equal2; ring.
Qed.
Transparent ee.
Lemma ee_def x : ee x = kpw x finexp. Proof. unfold ee. reflexivity. Qed.
Lemma ee_4 h : kemb h <> k0 -> ee (kemb h) = k1.
Proof.
  intros N. unfold ee. rewrite finexp_eq. pose proof fexpo_3. pose proof fexpo_pos. pose proof q2_gt1 as Q.
  apply (kill4 q2 fexpo Q); [lia|exact N|]. rewrite (kfrob4_pw (kemb h)). apply kfrob4_emb.
Qed.
Lemma ee_0 : ee k0 = k0. Proof. unfold ee. apply kpw_zero. pose proof finexp_pos. lia. Qed.
#[global] Opaque ee.

(* a point with no multiple in the loop's range at infinity *)
Definition noinf (p : pt2) : Prop := on2 p /\ forall m, 0 < m <= 2 ^ 71 -> zm2 m p <> Inf.
Lemma noinf_aff p : noinf p -> exists x y, p = Aff x y.
Proof.
  intros [_ H]. destruct p as [|x y]; [|exists x, y; reflexivity]. exfalso. apply (H 1); [split; [lia|]|apply zm2_1].
  change 1 with (2 ^ 0). apply Z.pow_le_mono_r; lia.
Qed.
(* a point with which the additions of the loop are never tangent *)
Definition safe (p : pt2) : Prop := on2 p /\ p <> Inf /\ (forall k, nafstep k 1 -> zm2 (k + k) p <> p) /\ (forall k, nafstep k (-1) -> zm2 (k + k) p <> pneg2 p).
Lemma safe_aff p : safe p -> exists x y, p = Aff x y.
Proof. intros (_ & N & _). destruct p as [|x y]; [exfalso; apply N; reflexivity|exists x, y; reflexivity]. Qed.
Lemma zm2_eq p j : on2 p -> forall i, zm2 i p = zm2 j p -> zm2 (i - j) p = Inf.
Proof.
  intros O i H. replace (i - j) with (i + - j) by lia. rewrite (zm2_add i (- j) p O), (zm2_opp j p O), H. apply padd2_neg, zm2_on, O.
Qed.
Lemma zm2_pred p k : on2 p -> padd2 (zm2 k p) (pneg2 p) = zm2 (k - 1) p.
Proof. intros O. change (k - 1) with (k + - (1)). rewrite (zm2_add k (- (1)) p O), (zm2_opp 1 p O), zm2_1. reflexivity. Qed.

Section Run.
Variables (a : ECP2) (b : ECP) (p : pt2) (l E m F : Z).
Hypotheses (L : 1 <= l <= 8) (M : 1 <= m <= 8) (HE : E <= 100000) (HF : F <= 1000000).

Section Aff.
Variables (xb yb : Fq2) (qx qy : Fq).
Hypothesis PE : p = Aff xb yb.
Hypothesis A : ecp2A l E p a.
Hypotheses (QX : fpR m F qx (ex b)) (QY : fpR m F qy (ey b)).
(* a point of the curve *)
Section On.
Hypothesis SF : safe p.
Hypothesis CQ : fmul qy qy = fadd (fmul (fmul qx qx) qx) fb.
Definition millI (k : Z) (x : Fq12) : Prop := x <> k0 /\ ee x = fz qx qy k p.
Lemma ate_aff : ok (ate a b) (fun r => exists x, (x <> k0 /\ ee x = fz qx qy bnx p) /\ fp12R 4 (5 * KB) (kconj x) r).
Proof.
  pose proof (proj1 SF) as O. 
  assert (NP : forall k, nafstep k 1 -> zm2 (k + k) p <> Aff xb yb) by (rewrite <- PE; exact (proj1 (proj2 (proj2 SF)))).
  assert (NM : forall k, nafstep k (-1) -> zm2 (k + k) p <> Aff xb (gopp yb)).
  { change (Aff xb (gopp yb)) with (pneg2 (Aff xb yb)). rewrite <- PE. exact (proj2 (proj2 (proj2 SF))). }
  pose proof A as A'. rewrite PE in A'. destruct A' as (_ & XB & YB & _).
  assert (OB : on2 (Aff xb yb)) by (rewrite <- PE; exact O). assert (OBN : on2 (Aff xb (gopp yb))) by (exact (pneg2_on _ OB)).
  apply (ate_gen p xb yb qx qy millI) with (l := l) (E := E) (m := m) (F := F); try assumption.
  - split; [exact k1_neq_0|]. rewrite ee_1. symmetry. exact (fz_1 qx qy p O).
  - intros k x X Y Z K KB [XN XE] P. destruct (vdbl_ok qx qy CQ (zm2 k p) X Y Z (zm2_on k p O) P) as [VN VE].
    split; [apply kmul_nz; [apply kmul_nz; exact XN|exact VN]|].
    rewrite (ee_mul (kmul x x)), (ee_mul x x), XE, VE. symmetry. apply (fz_add qx qy CQ k k p); [lia|lia|exact O].
  - intros k x X Y Z NS K KB [XN XE] P.
    destruct (vadd_ok qx qy CQ (zm2 (k + k) p) xb yb X Y Z (zm2_on _ p O) OB (NP k NS) P) as [VN VE].
    split; [apply kmul_nz; assumption|]. rewrite (ee_mul x), XE, VE, <- PE. symmetry. apply (fz_succ qx qy (k + k) p); [lia|exact O].
  - intros k x X Y Z NS K KB [XN XE] P.
    destruct (vadd_ok qx qy CQ (zm2 (k + k) p) xb (gopp yb) X Y Z (zm2_on _ p O) OBN (NM k NS) P) as [VN VE].
    split; [apply kmul_nz; assumption|]. rewrite (ee_mul x), XE, VE. change (Aff xb (gopp yb)) with (pneg2 (Aff xb yb)). rewrite <- PE.
    pose proof (pneg2_on p O) as ON. pose proof (zm2_on (k + k) p O) as OK.
    assert (S : padd2 (zm2 (k + k) p) (pneg2 p) = zm2 (k + k - 1) p).
    { exact (zm2_pred p (k + k) O). }
    pose proof (fz_succ qx qy (k + k - 1) p ltac:(lia) O) as FS. rewrite (Z.sub_add 1 (k + k)) in FS.
    pose proof (LL_coc qx qy CQ (zm2 (k + k) p) (pneg2 p) p OK ON O) as CC. rewrite S in CC.
    assert (IN : padd2 (pneg2 p) p = Inf) by (rewrite padd2_comm by assumption; apply padd2_neg; exact O).
    rewrite IN, (LL_inf_r qx qy _ OK), (LL_opp qx qy _ _ ON O IN) in CC.
    rewrite FS. transitivity (kmul (fz qx qy (k + k - 1) p) (kmul (LL qx qy (zm2 (k + k) p) (pneg2 p)) (LL qx qy (zm2 (k + k - 1) p) p))); [ring|].
    rewrite CC. ring.
  - exact (ecp2A_R l E p a A).
Qed.
End On.

Hypothesis NI : noinf p.
Lemma p_on : on2 p. Proof. exact (proj1 NI). Qed.
Lemma ne_plus k : 1 <= k -> k + k <= 2 ^ 70 -> zm2 (k + k) p <> Aff xb yb.
Proof.
  intros K KB H. rewrite <- PE in H. rewrite <- (zm2_1 p) in H at 2. apply (zm2_eq p 1 p_on) in H. apply (proj2 NI) in H; [exact H|].
  change (2 ^ 71) with (2 * 2 ^ 70). lia.
Qed.
Lemma ne_minus k : 1 <= k -> k + k <= 2 ^ 70 -> zm2 (k + k) p <> Aff xb (gopp yb).
Proof.
  intros K KB H. change (Aff xb (gopp yb)) with (pneg2 (Aff xb yb)) in H. rewrite <- PE in H. rewrite <- (zm2_1 p) in H at 2.
  rewrite <- (zm2_opp 1 p p_on) in H. apply (zm2_eq p (- (1)) p_on) in H. apply (proj2 NI) in H; [exact H|].
  change (2 ^ 71) with (2 * 2 ^ 70). lia.
Qed.
Lemma ne_inf k : 1 <= k -> k + k <= 2 ^ 70 -> zm2 (k + k) p <> Inf.
Proof. intros K KB. apply (proj2 NI). change (2 ^ 71) with (2 * 2 ^ 70). lia. Qed.


(* infinity, fed to the loop as (0, qy) *)
Hypothesis Q0 : qx = f0.
Hypothesis QN : qy <> f0.
Lemma gemb_nz t : t <> f0 -> gemb t <> g0.
Proof. intros T H. apply T. exact (f_equal fst H). Qed.
Lemma kemb_nz h : h <> h0 -> kemb h <> k0.
Proof. intros T H. apply T. exact (f_equal ka H). Qed.
Lemma h_nz_l c d : c <> g0 -> (c, d) <> h0. Proof. intros T H. apply T. exact (f_equal fst H). Qed.
Lemma h_nz_r c d : d <> g0 -> (c, d) <> h0. Proof. intros T H. apply T. exact (f_equal snd H). Qed.
Lemma gi1_nz : gi1 <> g0. Proof. intros H. apply (f_equal fst) in H. apply f1_neq_0. exact H. Qed.
Lemma vdbl_0 X Y Z q : on2 q -> prep2 X Y Z q -> vdbl X Y Z qx qy <> k0 /\ ee (vdbl X Y Z qx qy) = k1.
Proof.
  intros O P. assert (EV : vdbl X Y Z qx qy = kemb (ka (vdbl X Y Z qx qy))).
  { unfold vdbl, kemb. cbn [ka]. rewrite Q0. apply f_equal3; [reflexivity|reflexivity|]. apply f_equal2; [reflexivity|].
    change (gemb f0) with g0. ring. }
  assert (N : vdbl X Y Z qx qy <> k0).
  { rewrite EV. apply kemb_nz. unfold vdbl. cbn [ka]. destruct q as [|x y].
    - destruct P as (-> & -> & YN). apply h_nz_r.
      replace (gsub _ _) with (gopp (gmul (gadd g1 g1) (gmul Y Y))) by ring.
      apply gopp_nz, gmul_nz; [exact gtwo_nz|]. apply gmul_nz; exact YN.
    - destruct P as (ZN & _ & EY). apply h_nz_l. apply gmul_nz; [exact gi1_nz|]. apply gmul_nz; [|apply gemb_nz; exact QN].
      apply gopp_nz. rewrite g4_eq, EY. apply gmul_nz; [apply gmul_nz; exact gtwo_nz|]. apply gmul_nz; [|exact ZN].
      apply gmul_nz; [exact (y2_nz x y O)|exact ZN]. }
  split; [exact N|]. rewrite EV in N |- *. apply ee_4. exact N.
Qed.
Lemma vadd_emb X Y Z x2 y2 : vadd X Y Z x2 y2 qx qy = kemb (ka (vadd X Y Z x2 y2 qx qy)).
Proof.
  unfold vadd, kemb. cbv zeta. cbn [ka]. rewrite Q0. apply f_equal3; [reflexivity|reflexivity|]. apply f_equal2; [reflexivity|].
  change (gemb f0) with g0. ring.
Qed.
Lemma vadd_0 X Y Z x2 y2 q : on2 q -> on2 (Aff x2 y2) -> q <> Inf -> q <> Aff x2 y2 -> q <> Aff x2 (gopp y2) -> prep2 X Y Z q ->
  vadd X Y Z x2 y2 qx qy <> k0 /\ ee (vadd X Y Z x2 y2 qx qy) = k1.
Proof.
  intros O O2 N1 N2 N3 P. destruct q as [|x y]; [exfalso; apply N1; reflexivity|]. destruct P as (ZN & EX & EY).
  assert (XN : x <> x2).
  { intros H. cbn in O, O2. rewrite <- H in O2.
    assert (H2 : gmul (gsub y y2) (gadd y y2) = g0) by (transitivity (gsub (gmul y y) (gmul y2 y2)); [ring|rewrite O, O2; ring]).
    revert H2. apply gmul_nz.
    - apply gsub_nz. intros W. apply N2. rewrite H, W. reflexivity.
    - intros W. apply N3. rewrite H. apply (f_equal (Aff x2)). transitivity (gsub (gadd y y2) y2); [ring|]. rewrite W. ring. }
  assert (N : vadd X Y Z x2 y2 qx qy <> k0).
  { rewrite vadd_emb. apply kemb_nz. unfold vadd. cbv zeta. cbn [ka]. apply h_nz_l. apply gmul_nz; [exact gi1_nz|].
    apply gmul_nz; [|apply gemb_nz; exact QN]. rewrite EX. replace (gsub (gmul x Z) (gmul Z x2)) with (gmul Z (gsub x x2)) by ring.
    apply gmul_nz; [exact ZN|]. apply gsub_nz. exact XN. }
  split; [exact N|]. rewrite (vadd_emb X Y Z x2 y2) in N |- *. apply ee_4. exact N.
Qed.
Lemma ate_qinf : ok (ate a b) (fun r => exists x, (x <> k0 /\ ee x = k1) /\ fp12R 4 (5 * KB) (kconj x) r).
Proof.
  pose proof p_on as O. pose proof A as A'. rewrite PE in A'. destruct A' as (_ & XB & YB & _).
  assert (OB : on2 (Aff xb yb)) by (rewrite <- PE; exact O). assert (OBN : on2 (Aff xb (gopp yb))) by (exact (pneg2_on _ OB)).
  apply (ate_gen p xb yb qx qy (fun _ x => x <> k0 /\ ee x = k1)) with (l := l) (E := E) (m := m) (F := F); try assumption.
  - split; [exact k1_neq_0|exact ee_1].
  - intros k x X Y Z K KB [XN XE] P. destruct (vdbl_0 X Y Z (zm2 k p) (zm2_on k p O) P) as [VN VE].
    split; [apply kmul_nz; [apply kmul_nz; exact XN|exact VN]|]. rewrite (ee_mul (kmul x x)), (ee_mul x x), XE, VE. ring.
  - intros k x X Y Z NS K KB [XN XE] P.
    destruct (vadd_0 X Y Z xb yb (zm2 (k + k) p) (zm2_on _ p O) OB (ne_inf k K KB) (ne_plus k K KB) (ne_minus k K KB) P) as [VN VE].
    split; [apply kmul_nz; assumption|]. rewrite (ee_mul x), XE, VE. ring.
  - intros k x X Y Z NS K KB [XN XE] P.
    destruct (vadd_0 X Y Z xb (gopp yb) (zm2 (k + k) p) (zm2_on _ p O) OBN (ne_inf k K KB) (ne_minus k K KB)) with (2 := P) as [VN VE].
    + rewrite gopp_opp. exact (ne_plus k K KB).
    + split; [apply kmul_nz; assumption|]. rewrite (ee_mul x), XE, VE. ring.
  - exact (ecp2A_R l E p a A).
Qed.
End Aff.

(* the first argument at infinity *)
Section PInf.
Variables (qx qy : Fq).
Hypothesis A : ecp2R l E Inf a.
Hypotheses (QX : fpR m F qx (ex b)) (QY : fpR m F qy (ey b)).
Lemma ate_pinf : qx <> f0 -> fmul qy qy = fadd (fmul (fmul qx qx) qx) fb ->
  ok (ate a b) (fun r => exists x, (x <> k0 /\ ee x = k1) /\ fp12R 4 (5 * KB) (kconj x) r).
Proof.
  intros QN CQ. pose proof A as (O & X0 & Y0 & Z0 & XB & YB & _ & PB1 & PB2 & PB3). subst X0 Z0.
  apply (ate_gen Inf g0 Y0 qx qy (fun _ x => x <> k0 /\ ee x = k1)) with (l := l) (E := E) (m := m) (F := F); try assumption.
  - split; [exact k1_neq_0|exact ee_1].
  - intros k x X Y Z K KB [XN XE] P. rewrite zm2_zero in P. destruct (vdbl_ok qx qy CQ Inf X Y Z O P) as [VN VE].
    split; [apply kmul_nz; [apply kmul_nz; exact XN|exact VN]|]. rewrite (ee_mul (kmul x x)), (ee_mul x x), XE, VE, (LL_inf_l qx qy Inf O). ring.
  - intros k x X Y Z _ K KB [XN XE] P. rewrite zm2_zero in P. destruct P as (-> & -> & P).
    destruct (vadd_inf_inf qx qy Y Y0 P QN) as [VN VE].
    split; [apply kmul_nz; assumption|]. rewrite (ee_mul x), XE, VE. ring.
  - intros k x X Y Z _ K KB [XN XE] P. rewrite zm2_zero in P. destruct P as (-> & -> & P).
    destruct (vadd_inf_inf qx qy Y (gopp Y0) P QN) as [VN VE].
    split; [apply kmul_nz; assumption|]. rewrite (ee_mul x), XE, VE. ring.
Qed.
(* the invariant of a vanishing value *)
Lemma ate_zero : qx = f0 -> ok (ate a b) (fp12R 4 (5 * KB) k0).
Proof.
  intros QN. pose proof A as (O & X0 & Y0 & Z0 & XB & YB & _ & PB1 & PB2 & PB3). subst X0 Z0.
  assert (V0 : forall Y y, vadd g0 Y g0 g0 y qx qy = k0).
  { intros Y y. rewrite QN. unfold vadd. cbv zeta. change (gemb f0) with g0. apply f_equal3; [|reflexivity|]; apply f_equal2; try reflexivity; ring. }
  eapply ok_impl; [apply (ate_gen Inf g0 Y0 qx qy (fun k x => x = k0 \/ exists j, 0 <= j /\ k = 2 ^ j)) with (l := l) (E := E) (m := m) (F := F); try assumption|].
  - right. exists 0. split; [lia|reflexivity].
  - intros k x X Y Z K KB [XE|(j & J & ->)] _; [left; rewrite XE; ring|]. right. exists (j + 1). split; [lia|]. rewrite Z.pow_add_r by lia. change (2 ^ 1) with 2. lia.
  - intros k x X Y Z _ K KB _ P. rewrite zm2_zero in P. destruct P as (-> & -> & P). left. rewrite V0. ring.
  - intros k x X Y Z _ K KB _ P. rewrite zm2_zero in P. destruct P as (-> & -> & P). left. rewrite V0. ring.
  - intros r (x & [->|(j & J & H)] & R); [rewrite kconj_0 in R; exact R|]. exfalso.
    assert (O3 : ~ (2 ^ 17 | bnx)) by (intros [c C]; assert (H0 : bnx mod 2 ^ 17 = 0) by (rewrite C; apply Z.mod_mul; discriminate); vm_compute in H0; discriminate).
    destruct (Z.leb_spec 17 j) as [J1|J1].
    + apply O3. rewrite H. exists (2 ^ (j - 17)). rewrite <- Z.pow_add_r by lia. f_equal. lia.
    + assert (H0 : 2 ^ j <= 2 ^ 16) by (apply Z.pow_le_mono_r; lia). rewrite <- H in H0. vm_compute in H0. apply H0. reflexivity.
Qed.
End PInf.
End Run.

(* what ate_pairing returns: the pairing, except that it is 0 when the first
   argument is infinity and the second is infinity or has x = 0 *)
Definition epair (P : pt2) (Q : pt1) : Fq12 :=
  match P, Q with
  | Inf, Inf => k0
  | Inf, Aff x _ => if Fq_dec x f0 then k0 else k1
  | _, _ => pairing P Q
  end.
Lemma uabs_bnx : uabs = bnx. Proof. reflexivity. Qed.
Transparent final_exp finexp.
Lemma final_finexp : final_exp = finexp. Proof. unfold final_exp, finexp. reflexivity. Qed.
#[global] Opaque final_exp finexp.
Lemma pairing_fz P qx qy : on2 P -> fmul qy qy = fadd (fmul (fmul qx qx) qx) fb -> pairing P (Aff qx qy) = kinv (fz qx qy bnx P).
Proof.
  intros O CQ. unfold pairing. rewrite final_finexp, uabs_bnx. rewrite <- (ee_def (kinv (miller (twx qx) (twy qy) (Z.to_nat bnx) P))). exact (ee_inv _ (miller_nz qx qy CQ (Z.to_nat bnx) P O)).
Qed.
Lemma ee_kconj x : x <> k0 -> ee (kconj x) = kinv (ee x).
Proof.
  intros N. pose proof (ee_nz x N) as EN. apply (kcancel (ee x)); [exact EN|]. rewrite (ee_conj x N). symmetry. transitivity (kmul (kinv (ee x)) (ee x)); [ring|exact (Finv_l Fq12_field (ee x) EN)].
Qed.
(* the second argument is read as the affine point (x, y): z is ignored *)
Definition ecpX (m F : Z) (q : pt1) (b : ECP) : Prop :=
  match q with
  | Inf => ecpR m F Inf b
  | Aff x y => on1 q /\ fpR m F x (ex b) /\ fpR m F y (ey b)
  end.
Lemma ecpA_X m F q b : ecpA m F q b -> ecpX m F q b.
Proof. destruct q as [|x y]; cbn [ecpA ecpX]; [exact (fun H => H)|]. intros (ON & X & Y & _). split; [exact ON|]. split; assumption. Qed.
Lemma ate_pairing_ok l E m F p q a b : ecp2A l E p a -> ecpX m F q b -> p = Inf \/ (safe p /\ (q = Inf -> noinf p)) -> 1 <= l <= 8 -> 1 <= m <= 8 -> E <= 100000 -> F <= 1000000 ->
  ok (ate_pairing a b) (fp12C (epair p q)).
Proof.
  intros A B P L M HE HF. unfold ate_pairing.
  assert (FX : forall x, kpw x finexp = ee x) by (intros x; symmetry; exact (ee_def x)).
  assert (FE : forall x v r, ee x = v -> x <> k0 -> fp12R 4 (5 * KB) (kconj x) r -> ok (fexp r) (fp12C (kinv v))).
  { intros x v r EX XN R. rewrite <- EX, <- (ee_kconj x XN), <- FX. apply (fexp_ok 4 (5 * KB)); [exact R|lia|]. unfold KB. lia. }
  assert (Q : exists qx qy, fpR m F qx (ex b) /\ fpR m F qy (ey b) /\ match q with Inf => qx = f0 /\ qy <> f0 | Aff u v => u = qx /\ v = qy /\ fmul qy qy = fadd (fmul (fmul qx qx) qx) fb end).
  { destruct q as [|u v].
    - destruct B as (_ & X & Y & Z & BX & BY & _ & P1 & P2 & P3). exists X, Y. split; [exact BX|]. split; [exact BY|]. split; assumption.
    - destruct B as (ON & BX & BY). exists u, v. split; [exact BX|]. split; [exact BY|]. split; [reflexivity|]. split; [reflexivity|]. exact ON. }
  destruct Q as (qx & qy & QX & QY & Q). destruct P as [->|[SF NI]].
  - assert (AR : ecp2R l E Inf a) by (exact A). destruct q as [|u v].
    + destruct Q as [Q0 QN]. eapply ok_bind; [apply (ate_zero a b l E m F L M HE HF qx qy AR QX QY Q0)|]. intros r R.
      cbn [epair]. rewrite <- ee_0, <- FX. apply (fexp_ok 4 (5 * KB)); [exact R|lia|]. unfold KB. lia.
    + destruct Q as (-> & -> & CQ). cbn [epair]. destruct (Fq_dec qx f0) as [Q0|QN].
      * eapply ok_bind; [apply (ate_zero a b l E m F L M HE HF qx qy AR QX QY Q0)|]. intros r R.
        rewrite <- ee_0, <- FX. apply (fexp_ok 4 (5 * KB)); [exact R|lia|]. unfold KB. lia.
      * eapply ok_bind; [apply (ate_pinf a b l E m F L M HE HF qx qy AR QX QY QN CQ)|]. intros r (x & [XN XE] & R).
        pose proof (FE x k1 r XE XN R) as G. rewrite kinv_1 in G. exact G.
  - destruct (safe_aff p SF) as (xb & yb & PE). rewrite PE. cbn [epair]. destruct q as [|u v].
    + destruct Q as [Q0 QN]. eapply ok_bind; [apply (ate_qinf a b p l E m F L M HE HF xb yb qx qy PE A QX QY (NI eq_refl) Q0 QN)|]. intros r (x & [XN XE] & R).
      pose proof (FE x k1 r XE XN R) as G. rewrite kinv_1 in G. exact G.
    + destruct Q as (-> & -> & CQ). eapply ok_bind; [apply (ate_aff a b p l E m F L M HE HF xb yb qx qy PE A QX QY SF CQ)|]. intros r (x & [XN XE] & R).
      pose proof (FE x _ r XE XN R) as G. rewrite <- PE. rewrite (pairing_fz p qx qy (proj1 SF) CQ). exact G.
Qed.
