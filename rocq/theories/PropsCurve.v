(* Property theorems about the curve layer (C26, C47, C48, C49). ecp_pt/ecp2_pt
   (Denote) is the affine point projective coordinates stand for, adm/adm2 the
   admissible representations, padd1/padd2, nmul1/nmul2 (SpecCurve) the chord and
   tangent law and repeated addition. *)
From Coq Require Import ZArith List.
From Verif Require Import Prim Big Fp Fp2 Ecp Ecp2 BigP2 NumT FieldQ FieldQ2 SpecCurve CurveP GroupP EcpP Ecp2P Denote KeysP LayerP.
Import ListNotations.
Open Scope Z_scope.

Theorem C47_ecp_add : forall a b, adm a -> adm b -> exists c, ecp_add a b = Some c /\ adm c /\ ecp_pt c = padd1 (ecp_pt a) (ecp_pt b).
Proof. exact K1_add. Qed.
Print Assumptions C47_ecp_add.

Theorem C47_ecp_dbl : forall a, adm a -> exists c, ecp_dbl a = Some c /\ adm c /\ ecp_pt c = padd1 (ecp_pt a) (ecp_pt a).
Proof. exact K1_dbl. Qed.
Print Assumptions C47_ecp_dbl.

Theorem C47_ecp_sub : forall a b, adm a -> ecp_wf 8 8388608 b -> exists c, ecp_sub a b = Some c /\ adm c /\ ecp_pt c = padd1 (ecp_pt a) (pneg1 (ecp_pt b)).
Proof. exact K1_sub. Qed.
Print Assumptions C47_ecp_sub.

Theorem C47_ecp_neg : forall a, ecp_wf 8 8388608 a -> exists c, ecp_neg a = Some c /\ adm c /\ ecp_pt c = pneg1 (ecp_pt a).
Proof. exact K1_neg. Qed.
Print Assumptions C47_ecp_neg.

Theorem C47_ecp_affine : forall a, adm a -> exists c, ecp_affine a = Some c /\ adm c /\ ecp_pt c = ecp_pt a /\
  (ecp_pt a <> Inf -> fp_val (ez c) = f1).
Proof. exact K1_affine. Qed.
Print Assumptions C47_ecp_affine.

Theorem C47_ecp_infinity : forall a, adm a -> exists r, ecp_is_infinity a = Some r /\ (r = true <-> ecp_pt a = Inf).
Proof. exact K1_infinity. Qed.
Print Assumptions C47_ecp_infinity.

Theorem C47_ecp2_add : forall a b, adm2 a -> adm2 b -> exists c, ecp2_add a b = Some c /\ adm2 c /\ ecp2_pt c = padd2 (ecp2_pt a) (ecp2_pt b).
Proof. exact K2_add. Qed.
Print Assumptions C47_ecp2_add.

Theorem C47_ecp2_dbl : forall a, adm2 a -> exists c, ecp2_dbl a = Some c /\ adm2 c /\ ecp2_pt c = padd2 (ecp2_pt a) (ecp2_pt a).
Proof. exact K2_dbl. Qed.
Print Assumptions C47_ecp2_dbl.

Theorem C47_ecp2_sub : forall a b, adm2 a -> adm2 b -> exists c, ecp2_sub a b = Some c /\ adm2 c /\ ecp2_pt c = padd2 (ecp2_pt a) (pneg2 (ecp2_pt b)).
Proof. exact K2_sub. Qed.
Print Assumptions C47_ecp2_sub.

Theorem C47_ecp2_neg : forall a, ecp2_wf 8 52428 a -> exists c, ecp2_neg a = Some c /\ adm2 c /\ ecp2_pt c = pneg2 (ecp2_pt a).
Proof. exact K2_neg. Qed.
Print Assumptions C47_ecp2_neg.

Theorem C47_ecp2_affine : forall a, adm2 a -> exists c, ecp2_affine a = Some c /\ adm2 c /\ ecp2_pt c = ecp2_pt a /\
  (ecp2_pt a <> Inf -> fp2_val (e2z c) = g1).
Proof. exact K2_affine. Qed.
Print Assumptions C47_ecp2_affine.

Theorem C47_ecp2_infinity : forall a, adm2 a -> exists r, ecp2_is_infinity a = Some r /\ (r = true <-> ecp2_pt a = Inf).
Proof. exact K2_infinity. Qed.
Print Assumptions C47_ecp2_infinity.

Theorem C26_ecp_equals : forall a b, adm a -> adm b -> exists r, ecp_equals a b = Some r /\ (r = true <-> ecp_pt a = ecp_pt b).
Proof. exact K1_equals. Qed.
Print Assumptions C26_ecp_equals.

Theorem C26_ecp2_equals : forall a b, adm2 a -> adm2 b -> exists r, ecp2_equals a b = Some r /\ (r = true <-> ecp2_pt a = ecp2_pt b).
Proof. exact K2_equals. Qed.
Print Assumptions C26_ecp2_equals.

Theorem C48_group_g1 : (forall p q, on1 p -> on1 q -> on1 (padd1 p q)) /\ (forall p, on1 p -> on1 (pneg1 p)) /\
  (forall p q r, on1 p -> on1 q -> on1 r -> padd1 p (padd1 q r) = padd1 (padd1 p q) r) /\
  (forall p q, on1 p -> on1 q -> padd1 p q = padd1 q p) /\
  (forall p, padd1 Inf p = p /\ padd1 p Inf = p) /\ (forall p, on1 p -> padd1 p (pneg1 p) = Inf).
Proof. exact group1. Qed.
Print Assumptions C48_group_g1.

Theorem C48_group_g2 : (forall p q, on2 p -> on2 q -> on2 (padd2 p q)) /\ (forall p, on2 p -> on2 (pneg2 p)) /\
  (forall p q r, on2 p -> on2 q -> on2 r -> padd2 p (padd2 q r) = padd2 (padd2 p q) r) /\
  (forall p q, on2 p -> on2 q -> padd2 p q = padd2 q p) /\
  (forall p, padd2 Inf p = p /\ padd2 p Inf = p) /\ (forall p, on2 p -> padd2 p (pneg2 p) = Inf).
Proof. exact group2. Qed.
Print Assumptions C48_group_g2.

(* C49 for scalars below 2^404 *)
Theorem C49_ecp2_mul_partial : forall a e v, adm2 a -> rep 7 e v -> v + 2 < 2 ^ 404 ->
  exists c, ecp2_mul a e = Some c /\ adm2 c /\ ecp2_pt c = nmul2 (Z.to_nat v) (ecp2_pt a).
Proof. exact K2_mul. Qed.
Print Assumptions C49_ecp2_mul_partial.

(* C49 fails above: the scalar is a normalised BIG, and the window table is too small *)
Theorem C49_ecp2_mul_panics : forall a e v, adm2 a -> ecp2_pt a <> Inf -> rep 7 e v -> 2 ^ 404 <= v -> v + 2 < 2 ^ 406 -> ecp2_mul a e = None.
Proof. exact K2_mul_panics. Qed.
Print Assumptions C49_ecp2_mul_panics.

(* the same for G1 *)
Theorem ecp_mul_correct : forall a e v, ecp_wf 8 8388608 a -> rep 7 e v -> v + 2 < 2 ^ 404 ->
  exists c, ecp_mul a e = Some c /\ adm c /\ ecp_pt c = nmul1 (Z.to_nat v) (ecp_pt a).
Proof. exact K1_mul. Qed.
Print Assumptions ecp_mul_correct.

Theorem ecp_mul_panics : forall a e v, adm a -> ecp_pt a <> Inf -> rep 7 e v -> 2 ^ 404 <= v -> v + 2 < 2 ^ 406 -> ecp_mul a e = None.
Proof. exact K1_mul_panics. Qed.
Print Assumptions ecp_mul_panics.
