(* Property theorem about ate2 of pair.rs, the product of two pairings in one loop.  None is a
   panic.  zero_case and pairing are those of PropsPairing. *)
From Coq Require Import ZArith List.
From Verif Require Import Prim SpecCurve SpecPairing FieldQ FieldQ2 Tower Fp12P Ecp Ecp2 EcpP Ecp2P Denote DenoteT SpecBytes Pair Pair2 Ate2P Ate2V VerifyP2 VerifyP.
Import ListNotations.
Open Scope Z_scope.

(* all pairs of points *)
Theorem C123_ate2 : forall a b c d, ecp2_wf 8 100000 a -> affine2 a -> ecp_wf 8 1000000 b -> affine1 b ->
  ecp2_wf 8 100000 c -> affine2 c -> ecp_wf 8 1000000 d -> affine1 d ->
  (ecp_pt b = Inf -> in_subgroup (ecp2_pt a)) -> (ecp_pt d = Inf -> in_subgroup (ecp2_pt c)) ->
  exists m g, ate2 a b c d = Some m /\ fexp m = Some g /\ fp12_wf 1 1 g /\
    (~ zero_case (ecp2_pt a) (ecp_pt b) -> ~ zero_case (ecp2_pt c) (ecp_pt d) ->
       fp12_val g = kmul (pairing (ecp2_pt a) (ecp_pt b)) (pairing (ecp2_pt c) (ecp_pt d))) /\
    (zero_case (ecp2_pt a) (ecp_pt b) \/ zero_case (ecp2_pt c) (ecp_pt d) -> fp12_val g = k0).
Proof. exact ate2_value. Qed.
Print Assumptions C123_ate2.
