(* Concrete cases meeting the hypotheses of the theorem in PropsAte2: the generators. *)
From Coq Require Import ZArith List Bool Lia.
From Verif Require Import Prim PrimP Rom Big Fp Fp2 Fp4 Fp12 Ecp Ecp2 EcpP EcpC Ecp2P Denote DenoteT SpecCurve CurveP FieldQ FieldQ2 FpP FpP2 Fp2P Tower Fp12P SpecPairing MillerP3 PsiP TwistP VerifyP VerifyP2 Pair Pair2 GenP KeysP SpecMpin MpinP Ate2V.
Open Scope Z_scope.

Lemma gen_a : exists a, ecp2_generator = Some a /\ ecp2_wf 8 100000 a /\ affine2 a /\ ecp2_pt a = G2gen.
Proof.
  destruct (ok_ex _ _ gen2_ok) as (a & E & A). exists a. split; [exact E|]. pose proof (proj1 (ecp2R_wf_pt 1 2 G2gen a) (ecp2A_R _ _ _ _ A)) as [W P].
  split; [exact (ecp2_wf_weak 1 2 8 100000 a W ltac:(lia) ltac:(lia))|]. split; [|exact P]. intros _. destruct A as (_ & _ & _ & Z). exact (proj2 (proj1 (fp2R_wfv _ _ _ _) Z)).
Qed.
Lemma gen_b : exists b, ecp_wf 8 1000000 b /\ affine1 b /\ ecp_pt b = G1gen.
Proof.
  destruct (ok_ex _ _ ecp_generator_ok) as (b0 & _ & B0). destruct (ok_ex _ _ (ecp_affine_ok 1 2 G1gen b0 B0 ltac:(lia) ltac:(lia))) as (b & _ & B). exists b.
  pose proof (proj1 (ecpR_wf_pt _ _ G1gen b) (ecpA_R 1 2 G1gen b ltac:(lia) ltac:(lia) B)) as [W P].
  split; [refine (ecp_wf_weak _ _ 8 1000000 b W _ _); lia|]. split; [|exact P]. intros _. destruct B as (_ & _ & _ & Z). exact (proj2 (proj1 (fpR_wfv _ _ _ _) (fpC_R _ _ Z))).
Qed.
Example ex_ate2 : exists a b m g, ecp2_pt a = G2gen /\ ecp_pt b = G1gen /\ ate2 a b a b = Some m /\ fexp m = Some g /\ fp12_val g = kmul (pairing G2gen G1gen) (pairing G2gen G1gen).
Proof.
  destruct gen_a as (a & _ & WA & AA & PA). destruct gen_b as (b & WB & AB & PB).
  destruct (ate2_value a b a b WA AA WB AB WA AA WB AB) as (m & g & M & G & _ & V & _); try (rewrite PB; discriminate).
  exists a, b, m, g. split; [exact PA|]. split; [exact PB|]. split; [exact M|]. split; [exact G|]. rewrite PA, PB in V. apply V; intros [C _]; discriminate C.
Qed.
