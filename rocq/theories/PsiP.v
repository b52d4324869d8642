(* The Frobenius endomorphism of the twist, and additivity of the pairing in
   the first argument on its eigenspace. *)
From Coq Require Import ZArith List Bool Lia Znumtheory Field.
From Verif Require Import NumT FieldQ FieldQ2 SpecCurve CurveP GroupP LineP EcpP Ecp2P Tower TowerP FrobP CycP FexpP SpecPairing PairP PairP2 PairP3 MillerP2 MillerP3.
Open Scope Z_scope.

Lemma gconj_add x y : gconj (gadd x y) = gadd (gconj x) (gconj y).
Proof. unfold gconj, gadd. cbn [fst snd]. apply f_equal2; ring. Qed.
Lemma gconj_opp x : gconj (gopp x) = gopp (gconj x).
Proof. unfold gconj, gopp. cbn [fst snd]. apply f_equal2; ring. Qed.
Lemma gconj_sub x y : gconj (gsub x y) = gsub (gconj x) (gconj y).
Proof. unfold gconj, gsub. cbn [fst snd]. apply f_equal2; ring. Qed.
Lemma gconj_1 : gconj g1 = g1. Proof. unfold gconj, g1. cbn [fst snd]. apply f_equal2; [reflexivity|ring]. Qed.
Lemma gconj_0 : gconj g0 = g0. Proof. unfold gconj, g0. cbn [fst snd]. apply f_equal2; [reflexivity|ring]. Qed.
Lemma gconj_inj x y : gconj x = gconj y -> x = y.
Proof. intros H. rewrite <- (gconj_conj x), H. apply gconj_conj. Qed.
Lemma gconj_nz x : x <> g0 -> gconj x <> g0.
Proof. intros N H. apply N. apply gconj_inj. rewrite H, gconj_0. reflexivity. Qed.

Section Psi.
  Variable g : Fq2.
  Hypothesis GN : g <> g0.
  Hypothesis GB : gmul (gconj gb) (gmul (gmul g (gmul g g)) (gmul g (gmul g g))) = gb.
  Definition px (x : Fq2) : Fq2 := gmul (gconj x) (gmul g g).
  Definition py (y : Fq2) : Fq2 := gmul (gconj y) (gmul g (gmul g g)).
  Definition psi_ (p : pt2) : pt2 := match p with Inf => Inf | Aff x y => Aff (px x) (py y) end.
  Lemma px_inj x y : px x = px y -> x = y.
  Proof.
    unfold px. intros H. apply gconj_inj. transitivity (gdiv (gmul (gconj x) (gmul g g)) (gmul g g)); [field; exact GN|]. rewrite H. field. exact GN.
  Qed.
  Lemma py_inj x y : py x = py y -> x = y.
  Proof.
    unfold py. intros H. apply gconj_inj. transitivity (gdiv (gmul (gconj x) (gmul g (gmul g g))) (gmul g (gmul g g))); [field; exact GN|]. rewrite H. field. exact GN.
  Qed.
  Lemma py_opp y : py (gopp y) = gopp (py y). Proof. unfold py. rewrite gconj_opp. ring. Qed.
  Lemma psi_on p : on2 p -> on2 (psi_ p).
  Proof.
    destruct p as [|x y]; intros O; [exact O|]. cbn in *. unfold px, py. apply (f_equal gconj) in O.
    rewrite gconj_add, !gconj_mul in O.
    transitivity (gmul (gmul (gconj y) (gconj y)) (gmul (gmul g (gmul g g)) (gmul g (gmul g g)))); [ring|]. rewrite O.
    transitivity (gadd (gmul (gmul (gmul (gconj x) (gmul g g)) (gmul (gconj x) (gmul g g))) (gmul (gconj x) (gmul g g))) (gmul (gconj gb) (gmul (gmul g (gmul g g)) (gmul g (gmul g g))))); [ring|].
    rewrite GB. reflexivity.
  Qed.
  Lemma psi_neg p : psi_ (pneg2 p) = pneg2 (psi_ p).
  Proof. destruct p as [|x y]; [reflexivity|]. cbn [pneg psi_]. rewrite py_opp. reflexivity. Qed.
  Lemma psi_line_sum l x1 y1 x2 : psi_ (line_sum Fq2 gmul gsub l x1 y1 x2) = line_sum Fq2 gmul gsub (gmul (gconj l) g) (px x1) (py y1) (px x2).
  Proof.
    unfold line_sum. cbn [psi_]. unfold px, py. rewrite !gconj_sub, !gconj_mul, !gconj_sub, !gconj_mul. apply f_equal2; ring.
  Qed.
  Lemma conj_slope e d : d <> g0 -> gconj (gdiv e d) = gdiv (gconj e) (gconj d).
  Proof.
    intros D. assert (H : e = gmul (gdiv e d) d) by (field; exact D). rewrite H at 2. rewrite gconj_mul. generalize (gconj (gdiv e d)). intros l.
    field. apply gconj_nz. exact D.
  Qed.
  Lemma tan_id two three x y : two <> g0 -> y <> g0 ->
    gmul (gdiv (gmul three (gmul x x)) (gmul two y)) g = gdiv (gmul three (gmul (gmul x (gmul g g)) (gmul x (gmul g g)))) (gmul two (gmul y (gmul g (gmul g g)))).
  Proof. intros T Y. field. repeat split; assumption. Qed.
  Lemma psi_add p q : on2 p -> on2 q -> psi_ (padd2 p q) = padd2 (psi_ p) (psi_ q).
  Proof.
    destruct p as [|x1 y1]; [reflexivity|]. destruct q as [|x2 y2]; [reflexivity|]. intros O1 O2.
    pose proof (y2_nz x1 y1 O1) as Y1. cbn [padd psi_]. destruct (Fq2_dec x1 x2) as [E|E].
    - subst x2. destruct (Fq2_dec (px x1) (px x1)) as [_|W]; [|exfalso; apply W; reflexivity].
      destruct (Fq2_dec y1 (gopp y2)) as [G|G].
      + destruct (Fq2_dec (py y1) (gopp (py y2))) as [_|W]; [reflexivity|]. exfalso. apply W. rewrite G, py_opp. reflexivity.
      + destruct (Fq2_dec (py y1) (gopp (py y2))) as [W|_]; [exfalso; apply G; apply py_inj; rewrite py_opp; exact W|].
        rewrite psi_line_sum. apply (f_equal (fun l => line_sum Fq2 gmul gsub l (px x1) (py y1) (px x1))).
        pose proof gtwo_nz as T2. pose proof (gmul_nz _ _ T2 Y1) as D.
        rewrite (conj_slope (gmul (gadd (gadd g1 g1) g1) (gmul x1 x1)) (gmul (gadd g1 g1) y1) D).
        unfold px, py. rewrite !gconj_mul, !gconj_add, !gconj_1. exact (tan_id (gadd g1 g1) _ (gconj x1) (gconj y1) T2 (gconj_nz y1 Y1)).
    - destruct (Fq2_dec (px x1) (px x2)) as [W|_]; [exfalso; apply E; apply px_inj; exact W|].
      rewrite psi_line_sum. apply (f_equal (fun l => line_sum Fq2 gmul gsub l (px x1) (py y1) (px x2))).
      pose proof (gsub_nz x2 x1 (not_eq_sym E)) as D. pose proof (gconj_nz _ D) as D'.
      rewrite (conj_slope (gsub y2 y1) (gsub x2 x1) D).
      unfold px, py. rewrite !gconj_sub in *. field. split; [|exact D'].
      intros H. apply (gmul_nz _ _ D' (gmul_nz g g GN GN)). rewrite <- H. ring.
  Qed.
End Psi.

(* the constants of this curve *)
Definition gfi : Fq2 := ginv gf.
Lemma k2emb_inj x y : k2emb x = k2emb y -> x = y.
Proof. intros H. exact (f_equal (fun k => fst (ka k)) H). Qed.
Lemma gf_6 : gconj gi1 = gmul gi1 (gmul (gmul gf (gmul gf gf)) (gmul gf (gmul gf gf))).
Proof.
  apply k2emb_inj. rewrite <- (frob_k2 gi1), <- kw_6. pose proof q381_pos as Q.
  assert (E : forall x n, 0 <= n -> kpw (kpw x 6) n = kpw (kpw x n) 6).
  { intros x n N. rewrite <- (kpw_mul x 6 n) by lia. rewrite <- (kpw_mul x n 6) by lia. rewrite Z.mul_comm. reflexivity. }
  rewrite (E kw q381) by lia. rewrite frob_w, kpw_base, kw_6. rewrite k2emb_mul. apply (f_equal (kmul (k2emb gi1))).
  rewrite !k2emb_mul. change 6 with (2 + (2 + 2)). rewrite !kpw_add, !kpw_2 by lia. ring.
Qed.
Lemma gf_nz : gf <> g0.
Proof.
  intros H. apply g1_neq_0. transitivity (gopp (gopp g1)); [ring|]. rewrite <- gc_3, <- gc_norm, H. ring.
Qed.
Section GBS.
  Variables (f x cx four : Fq2).
  Lemma gb_scale : f <> g0 -> cx = gmul x (gmul (gmul f (gmul f f)) (gmul f (gmul f f))) ->
    gmul (gmul four cx) (gmul (gmul (ginv f) (gmul (ginv f) (ginv f))) (gmul (ginv f) (gmul (ginv f) (ginv f)))) = gmul four x.
  Proof. intros F ->. field. exact F. Qed.
End GBS.
Lemma gfi_nz : gfi <> g0.
Proof. intros H. apply g1_neq_0. transitivity (gmul gfi gf); [symmetry; exact (Finv_l Fq2_field gf gf_nz)|]. rewrite H. ring. Qed.
Lemma conj_four a x : gconj a = a -> gconj (gmul (gmul (gadd a a) (gadd a a)) x) = gmul (gmul (gadd a a) (gadd a a)) (gconj x).
Proof. intros A. rewrite !gconj_mul, !gconj_add, !A. reflexivity. Qed.
Lemma gfi_gb : gmul (gconj gb) (gmul (gmul gfi (gmul gfi gfi)) (gmul gfi (gmul gfi gfi))) = gb.
Proof.
  rewrite gb_eq, (conj_four g1 gi1 gconj_1). unfold gfi. apply gb_scale; [exact gf_nz|exact gf_6].
Qed.
#[global] Opaque gfi.
Definition psi : pt2 -> pt2 := psi_ gfi.
Lemma psi2_on p : on2 p -> on2 (psi p). Proof. exact (psi_on gfi gfi_gb p). Qed.
Lemma psi2_neg p : psi (pneg2 p) = pneg2 (psi p). Proof. exact (psi_neg gfi p). Qed.
Lemma psi2_add p q : on2 p -> on2 q -> psi (padd2 p q) = padd2 (psi p) (psi q). Proof. exact (psi_add gfi gfi_nz p q). Qed.

(* r-th powers of the values *)
Transparent ee.
Lemma ee_r x : x <> k0 -> kpw (ee x) r255 = k1.
Proof.
  intros N. unfold ee. rewrite finexp_eq. pose proof fexpo_3 as F3. pose proof fexpo_r as FR. pose proof fexpo_pos. pose proof q2_gt1 as Q.
  pose proof cn_pos as CP. assert (R0 : 0 <= r255) by (vm_compute; discriminate).
  assert (Q3 : 1 < q2 * q2 * q2) by nia. assert (B0 : 0 <= (q2 * q2 * q2 - 1) * (q2 + 1)) by nia.
  rewrite <- (kpw_mul x ((q2 * q2 * q2 - 1) * (q2 + 1) * fexpo) r255) by (try exact R0; apply Z.mul_nonneg_nonneg; lia).
  assert (E : (q2 * q2 * q2 - 1) * (q2 + 1) * fexpo * r255 = (q2 * q2 * q2 * (q2 * q2 * q2) - 1) * 3).
  { rewrite F3. transitivity ((q2 * q2 * q2 - 1) * (q2 + 1) * 3 * (fexpo / 3 * r255)); [ring|]. rewrite FR, cn_q2. ring. }
  rewrite E. rewrite (kpw_mul x (q2 * q2 * q2 * (q2 * q2 * q2) - 1) 3) by nia. rewrite (fermat12 x N). apply kpw_one.
Qed.
#[global] Opaque ee.
Lemma r_div : exists c, 0 <= c /\ bnx + q381 = r255 * c.
Proof.
  exists ((bnx + q381) / r255). split; [vm_compute; discriminate|]. vm_compute. reflexivity.
Qed.
Lemma ee_uq x : x <> k0 -> kmul (kpw (ee x) bnx) (kpw (ee x) q381) = k1.
Proof.
  intros N. pose proof q381_pos. rewrite <- (kpw_add (ee x) bnx q381) by (try lia; vm_compute; discriminate).
  destruct r_div as (c & C & E). rewrite E. rewrite (kpw_mul (ee x) r255 c) by (try exact C; vm_compute; discriminate).
  rewrite (ee_r x N). apply kpw_one.
Qed.

Section At.
Variables (qx qy : Fq).
Hypothesis CQ : fmul qy qy = fadd (fmul (fmul qx qx) qx) fb.
Notation LL := (LL qx qy). Notation line := (line qx qy). Notation fz := (fz qx qy).
Section LP.
  Variables (f g l n : Fq2).
  Hypotheses (FG : gmul f g = g1).
  Lemma line_frobf : kfrobf f (line l n) = kmul (k2emb (gmul f (gmul f f))) (line (gmul (gconj l) g) (gmul (gconj n) (gmul g (gmul g g)))).
  Proof.
    assert (CE : forall t, gconj (gemb t) = gemb t) by (intros t; unfold gconj, gemb; cbn [fst snd]; apply f_equal2; [reflexivity|ring]).
    assert (F3 : gmul (gmul f (gmul f f)) (gmul g (gmul g g)) = g1).
    { transitivity (gmul (gmul f g) (gmul (gmul f g) (gmul f g))); [ring|]. rewrite FG. ring. }
    rewrite !line_mk. unfold kfrobf, k2emb, kmul, kemb, hemb, hfrob, hscale, h0. cbn [ka kb kc fst snd].
    rewrite !gconj_opp, !gconj_mul, !CE, !gconj_0.
    apply f_equal3; unfold hadd, hmul, hs; cbn [fst snd]; apply f_equal2; try ring.
    - transitivity (gopp (gmul (gmul (gmul f (gmul f f)) (gmul g (gmul g g))) (gconj n))); [rewrite F3; ring|ring].
    - transitivity (gopp (gmul (gmul (gmul f f) (gmul f g)) (gmul (gconj l) (gemb qx)))); [rewrite FG; ring|ring].
  Qed.
End LP.
Lemma line_frob l n : kpw (line l n) q381 = kmul (k2emb (gmul gf (gmul gf gf))) (line (gmul (gconj l) gfi) (gmul (gconj n) (gmul gfi (gmul gfi gfi)))).
Proof.
  rewrite <- (kfrob_pw (line l n)). unfold kfrob. apply line_frobf. Transparent gfi. unfold gfi. Opaque gfi.
  transitivity (gmul (ginv gf) gf); [ring|exact (Finv_l Fq2_field gf gf_nz)].
Qed.
Section MP.
  Variable g : Fq2.
  Hypothesis GB : gmul (gconj gb) (gmul (gmul g (gmul g g)) (gmul g (gmul g g))) = gb.
  Lemma meets_psi l n x1 y1 x2 y2 x3 y3 : meets2 l n x1 y1 x2 y2 x3 y3 ->
    meets2 (gmul (gconj l) g) (gmul (gconj n) (gmul g (gmul g g))) (px g x1) (py g y1) (px g x2) (py g y2) (px g x3) (py g y3).
  Proof.
    intros [M1 M2 M3 MS MP MC]. unfold px, py.
    apply (f_equal gconj) in M1, M2, M3, MS, MP, MC.
    rewrite gconj_add, gconj_mul in M1. rewrite gconj_add, gconj_mul in M2. rewrite gconj_add, gconj_mul in M3.
    rewrite gconj_mul, !gconj_add in MS. rewrite gconj_sub, gconj_mul, gconj_opp, !gconj_mul in MC.
    split.
    - rewrite M1. ring.
    - rewrite M2. ring.
    - rewrite M3. ring.
    - transitivity (gmul (gmul (gconj l) (gconj l)) (gmul g g)); [ring|]. rewrite MS. ring.
    - assert (MP' : gopp (gmul (gmul (gadd g1 g1) (gconj l)) (gconj n)) =
        gadd (gadd (gmul (gconj x1) (gconj x2)) (gmul (gconj x1) (gconj x3))) (gmul (gconj x2) (gconj x3))).
      { rewrite gconj_opp, !gconj_mul, (gconj_add g1 g1), gconj_1 in MP. rewrite MP, !gconj_add, !gconj_mul. reflexivity. }
      revert MP'. generalize (gadd g1 g1). intros two MP'.
      transitivity (gmul (gopp (gmul (gmul two (gconj l)) (gconj n))) (gmul (gmul g g) (gmul g g))); [ring|]. rewrite MP'. ring.
    - rewrite <- GB at 1. transitivity (gmul (gsub (gconj gb) (gmul (gconj n) (gconj n))) (gmul (gmul g (gmul g g)) (gmul g (gmul g g)))); [ring|].
      rewrite MC. ring.
  Qed.
End MP.
Lemma LL_psi A B : on2 A -> on2 B -> LL (psi A) (psi B) = kpw (LL A B) q381.
Proof.
  intros OA OB. pose proof (psi2_on A OA) as PA. pose proof (psi2_on B OB) as PB. pose proof q381_pos as QP.
  pose proof (psi2_add A B OA OB) as PS.
  destruct A as [|x1 y1]; [rewrite (LL_inf_l qx qy B OB); change (psi Inf) with (@Inf Fq2); rewrite (LL_inf_l qx qy _ PB); symmetry; apply kpw_one|].
  destruct B as [|x2 y2]; [rewrite (LL_inf_r qx qy _ OA); change (psi Inf) with (@Inf Fq2); rewrite (LL_inf_r qx qy _ PA); symmetry; apply kpw_one|].
  destruct (padd2 (Aff x1 y1) (Aff x2 y2)) as [|x3 y3] eqn:S.
  - rewrite (LL_opp qx qy _ _ OA OB S). change (psi Inf) with (@Inf Fq2) in PS. rewrite (LL_opp qx qy _ _ PA PB (eq_sym PS)). symmetry. apply kpw_one.
  - destruct (LL_aff qx qy _ _ _ _ _ _ OA OB S) as (l & n & M & E & _). rewrite E.
    rewrite <- (ee_pw (line l n) q381) by lia. rewrite (line_frob l n).
    rewrite (ee_mul (k2emb (gmul gf (gmul gf gf)))). rewrite (ee_2 (gmul gf (gmul gf gf))) by (apply gmul_nz; [exact gf_nz|apply gmul_nz; exact gf_nz]).
    apply (meets_psi gfi gfi_gb) in M. rewrite py_opp in M.
    transitivity (ee (line (gmul (gconj l) gfi) (gmul (gconj n) (gmul gfi (gmul gfi gfi))))); [|ring].
    exact (LL_meets qx qy _ _ _ _ _ _ _ _ PA PB (eq_sym PS) M).
Qed.

(* the eigenspace on which the endomorphism is multiplication by -bnx *)
Definition eigen (p : pt2) : Prop := on2 p /\ zm2 bnx p = pneg2 (psi p).
Lemma eigen_inf : eigen Inf. Proof. split; [exact I|]. apply zm2_zero. Qed.
Lemma eigen_add p q : eigen p -> eigen q -> eigen (padd2 p q).
Proof.
  intros [P1 P2] [Q1 Q2]. split; [apply padd2_on; assumption|].
  rewrite (zm2_dist bnx p q P1 Q1), P2, Q2, (psi2_add p q P1 Q1). apply pneg2_dist; apply psi2_on; assumption.
Qed.
Lemma eigen_neg p : eigen p -> eigen (pneg2 p).
Proof.
  intros [P1 P2]. split; [apply pneg2_on; exact P1|]. rewrite (zm2_neg bnx p P1), P2, psi2_neg. reflexivity.
Qed.
Lemma eigen_nmul n p : eigen p -> eigen (zm2 (Z.of_nat n) p).
Proof.
  intros P. induction n as [|n IH]; [exact eigen_inf|]. rewrite Nat2Z.inj_succ, <- Z.add_1_r, (zm2_add _ 1 p (proj1 P)), zm2_1. apply eigen_add; assumption.
Qed.
Lemma eigen_zm k p : eigen p -> eigen (zm2 k p).
Proof.
  intros P. destruct (Z.le_ge_cases 0 k) as [K|K].
  - rewrite <- (Z2Nat.id k K). apply eigen_nmul. exact P.
  - rewrite <- (Z.opp_involutive k), (zm2_opp (- k) p (proj1 P)). apply eigen_neg. rewrite <- (Z2Nat.id (- k)) by lia. apply eigen_nmul. exact P.
Qed.

Lemma fz_bilin P R : eigen P -> eigen R -> fz bnx (padd2 P R) = kmul (fz bnx P) (fz bnx R).
Proof.
  intros [OP EP] [OR ER]. assert (B0 : 0 <= bnx) by (vm_compute; discriminate).
  pose proof (fz_sum qx qy CQ bnx P R B0 OP OR) as E. rewrite EP, ER in E.
  pose proof (LL_neg qx qy CQ (psi P) (psi R) (psi2_on P OP) (psi2_on R OR)) as N. rewrite (LL_psi P R OP OR) in N.
  pose proof (chord_nz qx qy CQ P R OP OR) as CN. pose proof (ee_uq _ CN) as U. rewrite (LL_def qx qy P R) in U.
  revert E N U. generalize (kpw (LL P R) bnx), (kpw (LL P R) q381), (LL (pneg2 (psi P)) (pneg2 (psi R))).
  intros a b c E N U.
  transitivity (kmul (kmul (fz bnx (padd2 P R)) a) b).
  - transitivity (kmul (fz bnx (padd2 P R)) (kmul a b)); [rewrite U; ring|ring].
  - rewrite E. transitivity (kmul (kmul (fz bnx P) (fz bnx R)) (kmul b c)); [ring|]. rewrite N. ring.
Qed.
End At.
