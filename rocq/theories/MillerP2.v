(* The line values of the Miller loop after the final exponentiation. *)
From Coq Require Import ZArith List Bool Lia Znumtheory Field.
From Verif Require Import NumT FieldQ FieldQ2 SpecCurve CurveP GroupP LineP EcpP Ecp2P Tower TowerP FrobP CycP FexpP SpecPairing PairP PairP2 PairP3 MillerP.
Open Scope Z_scope.

Lemma w3mul c a b d : kmul (kemb hs) (kmul (emb2 c) (mk12 (a, b) h0 (d, g0))) = mk12 (gmul gi1 (gmul c b), gmul c a) h0 (g0, gmul c d).
Proof.
  assert (E : kmul (emb2 c) (mk12 (a, b) h0 (d, g0)) = mk12 (gmul c a, gmul c b) h0 (gmul c d, g0)).
  { unfold kmul, kemb, emb2, hemb, kemb. cbn [ka kb kc]. apply f_equal3; unfold hs, hadd, hmul, h0; cbn [fst snd]; apply f_equal2; ring. }
  rewrite E. unfold kmul, kemb. cbn [ka kb kc]. apply f_equal3; unfold hs, hadd, hmul, h0; cbn [fst snd]; apply f_equal2; ring.
Qed.
Lemma hs_nz : kemb hs <> k0.
Proof. intros H. apply (f_equal (fun k => fst (snd (ka k)))) in H. cbn in H. apply f1_neq_0. exact H. Qed.
Lemma ee_hs : ee (kemb hs) = k1.
Proof. apply ee_odd; [exact hs_nz|]. rewrite <- w3_hs, !kconj_mul, kconj_w. ring. Qed.
Lemma ee_w3 c v : c <> g0 -> v <> k0 -> kmul (kemb hs) (kmul (emb2 c) v) <> k0 /\ ee (kmul (kemb hs) (kmul (emb2 c) v)) = ee v.
Proof.
  intros C V. split.
  - apply kmul_nz; [exact hs_nz|]. apply kmul_nz; [exact (k2emb_nz c C)|exact V].
  - rewrite (ee_mul (kemb hs) (kmul (emb2 c) v)), (ee_mul (emb2 c) v), ee_hs. change (emb2 c) with (k2emb c). rewrite (ee_2 c C). ring.
Qed.
Lemma gmul_nz a b : a <> g0 -> b <> g0 -> gmul a b <> g0.
Proof.
  intros A B H. apply B. transitivity (gdiv (gmul a b) a); [field; exact A|]. rewrite H. field. exact A.
Qed.
Lemma gopp_nz a : a <> g0 -> gopp a <> g0.
Proof. intros A H. apply A. transitivity (gopp (gopp a)); [ring|]. rewrite H. ring. Qed.
Lemma gsub_nz a b : a <> b -> gsub a b <> g0.
Proof. intros A H. apply A. transitivity (gadd (gsub a b) b); [ring|]. rewrite H. ring. Qed.
Lemma mkq_4 : mkq 4 = fmul (fadd f1 f1) (fadd f1 f1). Proof. unfold f1. rewrite <- mkq_add, <- mkq_mul. reflexivity. Qed.
Lemma mkq_6 : mkq 6 = fmul (fadd f1 f1) (fadd (fadd f1 f1) f1). Proof. unfold f1. rewrite <- !mkq_add, <- mkq_mul. reflexivity. Qed.
Lemma mkq_12 : mkq 12 = fmul (fmul (fadd f1 f1) (fadd f1 f1)) (fadd (fadd f1 f1) f1). Proof. unfold f1. rewrite <- !mkq_add, <- !mkq_mul. reflexivity. Qed.
Lemma g4_eq : g4 = gmul (gadd g1 g1) (gadd g1 g1).
Proof. unfold g4, gemb, g1. rewrite mkq_4. unfold gmul, gadd. cbn [fst snd]. apply f_equal2; ring. Qed.
Lemma g6_eq : g6 = gmul (gadd g1 g1) (gadd (gadd g1 g1) g1).
Proof. unfold g6, gemb, g1. rewrite mkq_6. unfold gmul, gadd. cbn [fst snd]. apply f_equal2; ring. Qed.
Lemma g12_eq : g12 = gmul (gmul (gadd g1 g1) (gadd g1 g1)) (gadd (gadd g1 g1) g1).
Proof. unfold g12, gemb, g1. rewrite mkq_12. unfold gmul, gadd. cbn [fst snd]. apply f_equal2; ring. Qed.
Lemma gb_eq : gb = gmul (gmul (gadd g1 g1) (gadd g1 g1)) gi1.
Proof. unfold gb, gi1, g1. rewrite mkq_4. unfold gmul, gadd. cbn [fst snd]. apply f_equal2; ring. Qed.
#[global] Opaque g4 g6 g12.

(* field identities with the constants abstracted *)
Section Ids.
  Variables (two xi : Fq2) (T : two <> g0) (T2 : two = gadd g1 g1).
  Let three := gadd two g1.
  Lemma dbl_id2 x y Z : y <> g0 -> gmul y y = gadd (gmul (gmul x x) x) (gmul (gmul two two) xi) ->
    gmul (gopp (gmul (gmul two two) (gmul (gmul y Z) Z))) (gopp (gsub y (gmul (gdiv (gmul three (gmul x x)) (gmul two y)) x))) =
    gsub (gadd (gmul xi (gmul (gmul (gmul two two) three) (gmul Z Z))) (gmul xi (gmul (gmul (gmul two two) three) (gmul Z Z))))
      (gadd (gmul (gmul y Z) (gmul y Z)) (gmul (gmul y Z) (gmul y Z))).
  Proof.
    intros N C. assert (XI : gmul (gmul two two) xi = gsub (gmul y y) (gmul (gmul x x) x)) by (rewrite C; ring).
    transitivity (gsub (gmul (gmul two three) (gmul (gmul (gmul two two) xi) (gmul Z Z))) (gmul two (gmul (gmul y Z) (gmul y Z)))); [|subst three; rewrite T2; ring].
    rewrite XI. transitivity (gmul (gmul Z Z) (gsub (gmul (gmul two two) (gmul y y)) (gmul (gmul two three) (gmul (gmul x x) x)))).
    - field. split; assumption.
    - subst three. rewrite T2. ring.
  Qed.
  Lemma dbl_id3 x y Z q : y <> g0 ->
    gmul (gopp (gmul (gmul two two) (gmul (gmul y Z) Z))) (gopp (gmul (gdiv (gmul three (gmul x x)) (gmul two y)) q)) =
    gmul (gmul (gmul two three) (gmul (gmul x Z) (gmul x Z))) q.
  Proof. intros N. subst three. field. split; assumption. Qed.
End Ids.
Lemma gy_dbl y : y <> g0 -> y <> gopp y.
Proof.
  intros N H. assert (E : gmul (gadd g1 g1) y = g0) by (transitivity (gadd y y); [ring|rewrite H at 2; ring]).
  revert E. apply gmul_nz; [exact gtwo_nz|exact N].
Qed.

Section At.
Variables (qx qy : Fq).
Hypothesis CQ : fmul qy qy = fadd (fmul (fmul qx qx) qx) fb.
Notation LL := (LL qx qy).

Lemma vdbl_aff x y X Y Z : y <> g0 -> gmul y y = gadd (gmul (gmul x x) x) gb -> prep2 X Y Z (Aff x y) ->
  exists c n, c <> g0 /\ vdbl X Y Z qx qy = kmul (kemb hs) (kmul (emb2 c) (line qx qy (gdiv (gmul (gadd (gadd g1 g1) g1) (gmul x x)) (gmul (gadd g1 g1) y)) n)) /\
    n = gsub y (gmul (gdiv (gmul (gadd (gadd g1 g1) g1) (gmul x x)) (gmul (gadd g1 g1) y)) x).
Proof.
  intros YN C (ZN & EX & EY). subst X Y. exists (gopp (gmul g4 (gmul (gmul y Z) Z))). eexists. split; [|split; [|reflexivity]].
  - rewrite g4_eq. apply gopp_nz. apply gmul_nz; [apply gmul_nz; exact gtwo_nz|]. apply gmul_nz; [apply gmul_nz; assumption|assumption].
  - rewrite line_mk, w3mul. unfold vdbl. apply f_equal3; [|reflexivity|]; apply f_equal2; try reflexivity.
    + rewrite g12_eq, g4_eq. rewrite gb_eq in C. symmetry.
      exact (dbl_id2 (gadd g1 g1) gi1 gtwo_nz eq_refl x y Z YN C).
    + rewrite g6_eq, g4_eq. symmetry. exact (dbl_id3 (gadd g1 g1) gtwo_nz x y Z (gemb qx) YN).
Qed.

Lemma vert_mk xb yb : vert (twx qx) (Aff xb yb) = mk12 (gopp xb, g0) h0 (gemb qx, g0).
Proof.
  cbn [vert]. rewrite X_mk. unfold emb2, kemb, ksub. cbn [ka kb kc]. apply f_equal3; [|ring|]; unfold hemb, hsub, h0; cbn [fst snd]; apply f_equal2; ring.
Qed.
Lemma vdbl_inf Y : vdbl g0 Y g0 qx qy = kmul (kemb hs) (kmul (emb2 (gopp (gmul (gadd g1 g1) (gmul Y Y)))) k1).
Proof.
  change k1 with (mk12 (g1, g0) h0 (g0, g0)). rewrite w3mul. unfold vdbl. apply f_equal3; [|reflexivity|]; apply f_equal2; try reflexivity; ring.
Qed.
Lemma vdbl_ok p X Y Z : on2 p -> prep2 X Y Z p -> vdbl X Y Z qx qy <> k0 /\ ee (vdbl X Y Z qx qy) = LL p p.
Proof.
  intros O P. destruct p as [|x y].
  - destruct P as (-> & -> & YN). rewrite (vdbl_inf Y), (LL_inf_l qx qy Inf O).
    destruct (ee_w3 (gopp (gmul (gadd g1 g1) (gmul Y Y))) k1) as [N E].
    + apply gopp_nz, gmul_nz; [exact gtwo_nz|]. apply gmul_nz; exact YN.
    + exact k1_neq_0.
    + split; [exact N|]. rewrite E. exact ee_1.
  - pose proof (y2_nz x y O) as YN. destruct (vdbl_aff x y X Y Z YN O P) as (c & n & CN & E & EN).
    rewrite E. destruct (ee_w3 c _ CN (line_nz qx qy CQ (gdiv (gmul (gadd (gadd g1 g1) g1) (gmul x x)) (gmul (gadd g1 g1) y)) n)) as [N1 N2].
    split; [exact N1|]. rewrite N2, <- (LL_def qx qy (Aff x y) (Aff x y)). cbn [chord].
    destruct (Fq2_dec x x) as [_|W]; [|exfalso; apply W; reflexivity].
    destruct (Fq2_dec y (gopp y)) as [W|_]; [exfalso; exact (gy_dbl y YN W)|].
    rewrite cut_line, <- EN. reflexivity.
Qed.
Lemma vadd_vert Y1 xb yb : gsub (gmul Y1 xb) (gmul g0 yb) = gmul (gopp Y1) (gopp xb). Proof. ring. Qed.
Lemma vadd_w3_vert xb yb X Y Z : gsub X (gmul Z xb) = g0 ->
  vadd X Y Z xb yb qx qy = kmul (kemb hs) (kmul (emb2 (gopp (gsub Y (gmul Z yb)))) (vert (twx qx) (Aff xb yb))).
Proof.
  intros H. rewrite vert_mk, w3mul. unfold vadd. cbv zeta. rewrite H. apply f_equal3; [|reflexivity|]; apply f_equal2; try reflexivity; ring.
Qed.
Lemma vadd_ok p xb yb X Y Z : on2 p -> on2 (Aff xb yb) -> p <> Aff xb yb -> prep2 X Y Z p ->
  vadd X Y Z xb yb qx qy <> k0 /\ ee (vadd X Y Z xb yb qx qy) = LL p (Aff xb yb).
Proof.
  intros O OB NE P. pose proof (vert_nz qx (Aff xb yb) OB) as VN. pose proof (vert_1 qx (Aff xb yb) OB) as V1.
  destruct p as [|x y].
  - destruct P as (-> & -> & YN). rewrite (vadd_w3_vert xb yb g0 Y g0) by ring. rewrite (LL_inf_l qx qy (Aff xb yb) OB).
    destruct (ee_w3 (gopp (gsub Y (gmul g0 yb))) _ ltac:(apply gopp_nz; replace (gsub Y (gmul g0 yb)) with Y by ring; exact YN) VN) as [N E].
    split; [exact N|]. rewrite E. exact V1.
  - destruct P as (ZN & EX & EY). destruct (Fq2_dec x xb) as [XE|XN].
    + assert (SO : padd2 (Aff x y) (Aff xb yb) = Inf).
      { apply aff_opp. split; [exact XE|]. destruct (Fq2_dec y (gopp yb)) as [H|H]; [exact H|]. exfalso. apply NE. rewrite XE.
        apply (f_equal (Aff xb)). cbn in O, OB. rewrite <- XE in OB.
        assert (H2 : gmul (gsub y yb) (gadd y yb) = g0) by (transitivity (gsub (gmul y y) (gmul yb yb)); [ring|rewrite O, OB; ring]).
        destruct (Fq2_dec y yb) as [G|G]; [exact G|]. exfalso. revert H2. apply gmul_nz; [apply gsub_nz; exact G|].
        intros S. apply H. transitivity (gsub (gadd y yb) yb); [ring|]. rewrite S. ring. }
      rewrite (LL_opp qx qy _ _ O OB SO). apply aff_opp in SO. destruct SO as [_ SY].
      assert (YB : yb <> g0) by (exact (y2_nz xb yb OB)).
      rewrite (vadd_w3_vert xb yb X Y Z) by (rewrite EX, XE; ring).
      destruct (ee_w3 (gopp (gsub Y (gmul Z yb))) (vert (twx qx) (Aff xb yb))) with (2 := VN) as [N E].
      * apply gopp_nz. replace (gsub Y (gmul Z yb)) with (gopp (gmul Z (gmul (gadd g1 g1) yb))) by (rewrite EY, SY; ring).
        apply gopp_nz, gmul_nz; [exact ZN|]. apply gmul_nz; [exact gtwo_nz|exact YB].
      * split; [exact N|]. rewrite E. exact V1.
    + pose proof (gsub_nz x xb XN) as D. rewrite (LL_sym qx qy _ _ O OB), <- (LL_def qx qy (Aff xb yb) (Aff x y)). cbn [chord].
      destruct (Fq2_dec xb x) as [W|_]; [exfalso; apply XN; symmetry; exact W|]. rewrite cut_line.
      assert (CN : gmul Z (gsub x xb) <> g0) by (apply gmul_nz; assumption).
      match goal with |- _ /\ _ = ee (line _ _ ?l ?n) => assert (E : vadd X Y Z xb yb qx qy = kmul (kemb hs) (kmul (emb2 (gmul Z (gsub x xb))) (line qx qy l n)));
        [|rewrite E; exact (ee_w3 (gmul Z (gsub x xb)) (line qx qy l n) CN (line_nz qx qy CQ l n))] end.
      rewrite line_mk, w3mul. unfold vadd. cbv zeta. apply f_equal3; [|reflexivity|]; apply f_equal2; try reflexivity.
      * apply (f_equal (gmul gi1)). apply (f_equal (fun t => gmul t (gemb qy))). rewrite EX. ring.
      * rewrite EX, EY. field. exact D.
      * rewrite EY. field. exact D.
Qed.
Lemma vadd_inf_inf Y yb : Y <> g0 -> qx <> f0 -> vadd g0 Y g0 g0 yb qx qy <> k0 /\ ee (vadd g0 Y g0 g0 yb qx qy) = k1.
Proof.
  intros YN QN. rewrite (vadd_w3_vert g0 yb g0 Y g0) by ring. cbn [vert].
  assert (XN : ksub (twx qx) (emb2 g0) <> k0).
  { intros H. pose proof (vert_mk g0 g0) as V. cbn [vert] in V. rewrite V in H. apply (f_equal (fun k => fst (fst (kc k)))) in H. apply QN. exact H. }
  destruct (ee_w3 (gopp (gsub Y (gmul g0 yb))) _ ltac:(apply gopp_nz; replace (gsub Y (gmul g0 yb)) with Y by ring; exact YN) XN) as [N E].
  split; [exact N|]. rewrite E. apply ee_fixed; [exact XN|]. rewrite kconj_sub, conjX. change emb2 with k2emb. rewrite kconj_2. reflexivity.
Qed.
End At.
