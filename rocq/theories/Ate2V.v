(* ate2 followed by the final exponentiation, restated with the denotations of DenoteT. *)
From Coq Require Import ZArith List Bool Lia Znumtheory Field.
From Verif Require Import Prim Rom Big Fp Fp2 Fp4 Fp12 Ecp Ecp2 Pair Pair2 Utils Api PrimP BigP NumT FieldQ FieldQ2 FpP FpP2 SpecCurve CurveP GroupP Fp2P EcpP Ecp2P Denote SigsP2
  Tower TowerP Fp12P FexpP SpecPairing PairP MillerP MillerP2 MillerP3 PsiP BilinP TwistP VerifyP VerifyP2 DenoteT Ate2P.
Open Scope Z_scope.

Lemma ate2_value : forall a b c d, ecp2_wf 8 100000 a -> affine2 a -> ecp_wf 8 1000000 b -> affine1 b ->
  ecp2_wf 8 100000 c -> affine2 c -> ecp_wf 8 1000000 d -> affine1 d ->
  (ecp_pt b = Inf -> in_subgroup (ecp2_pt a)) -> (ecp_pt d = Inf -> in_subgroup (ecp2_pt c)) ->
  exists m g, ate2 a b c d = Some m /\ fexp m = Some g /\ fp12_wf 1 1 g /\
    (~ zero_case (ecp2_pt a) (ecp_pt b) -> ~ zero_case (ecp2_pt c) (ecp_pt d) ->
       fp12_val g = kmul (pairing (ecp2_pt a) (ecp_pt b)) (pairing (ecp2_pt c) (ecp_pt d))) /\
    (zero_case (ecp2_pt a) (ecp_pt b) \/ zero_case (ecp2_pt c) (ecp_pt d) -> fp12_val g = k0).
Proof.
  intros a b c d WA AA WB AB WC AC WD AD GA GC.
  pose proof (affine2_A _ _ _ WA AA) as A. pose proof (affine1_X _ _ _ WB AB) as B.
  pose proof (affine2_A _ _ _ WC AC) as C. pose proof (affine1_X _ _ _ WD AD) as D.
  assert (OB : on1 (ecp_pt b)) by apply WB. assert (OA : on2 (ecp2_pt a)) by apply WA.
  assert (OD : on1 (ecp_pt d)) by apply WD. assert (OC : on2 (ecp2_pt c)) by apply WC.
  assert (P1 : pair_ok (ecp2_pt a) (ecp_pt b)).
  { destruct (ecp_pt b) as [|x y]; [exact (eigen_ok _ _ (sub_eigen _ OA (GA eq_refl)))|exact (aff_ok _ x y OA)]. }
  assert (P2 : pair_ok (ecp2_pt c) (ecp_pt d)).
  { destruct (ecp_pt d) as [|x y]; [exact (eigen_ok _ _ (sub_eigen _ OC (GC eq_refl)))|exact (aff_ok _ x y OC)]. }
  destruct (ok_valC _ _ (ate2_ok 8 100000 8 1000000 _ _ _ _ a b c d A B P1 C D P2 ltac:(lia) ltac:(lia) ltac:(lia) ltac:(lia))) as (g & G & W & V).
  destruct (ate2 a b c d) as [m|] eqn:M; [|discriminate G]. exists m, g. split; [reflexivity|]. split; [exact G|]. split; [exact W|]. rewrite V. split.
  - intros N1 N2. rewrite (epair_regular _ _ OB N1), (epair_regular _ _ OD N2). reflexivity.
  - intros [Z|Z]; rewrite (epair_zero _ _ Z); ring.
Qed.
