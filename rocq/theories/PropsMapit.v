(* Property theorems about hashing to the groups of order r (ECP::mapit, ECP2::mapit). h1c: the
   cofactor of the curve over F_q; heff = 3(x^2-1)h2, x the curve parameter and h2 the cofactor of
   the twist (C87_heff); nmul1, nmul2: multiples of a point; adm, adm2: a value of the type with
   its limbs and excess within the bounds. *)
From Coq Require Import ZArith List.
From Verif Require Import Prim Big Fp Fp2 Ecp Ecp2 BigP BigP2 SpecBytes NumT FieldQ FieldQ2 JacobiM SpecCurve Denote EcpP Ecp2P KeysP LayerP MapP FexpP G1Ord ClearP Glv MapitP.
Import ListNotations.
Open Scope Z_scope.

(* C86 *)
Theorem C86_mapit : forall h, bytes h -> (48 <= length h)%nat ->
  exists (k : nat) y c, Z.of_nat k < q381 /\
    on1 (Aff (mkq (be_int (firstn 48 h) + Z.of_nat k)) y) /\ Z.even (fv y) = true /\
    (forall i z, (i < k)%nat -> on1 (Aff (mkq (be_int (firstn 48 h) + Z.of_nat i)) z) ->
       nmul1 (Z.to_nat h1c) (Aff (mkq (be_int (firstn 48 h) + Z.of_nat i)) z) = Inf) /\
    (forall fuel, (k < fuel)%nat -> ecp_mapit fuel h = Some c) /\
    adm c /\ ecp_pt c = nmul1 (Z.to_nat h1c) (Aff (mkq (be_int (firstn 48 h) + Z.of_nat k)) y) /\
    ecp_pt c <> Inf /\ nmul1 (Z.to_nat r255) (ecp_pt c) = Inf.
Proof. exact mapit_spec. Qed.
Print Assumptions C86_mapit.

(* shorter strings panic *)
Theorem C86_mapit_short : forall h fuel, (length h < 48)%nat -> ecp_mapit fuel h = None.
Proof. exact mapit_short. Qed.
Print Assumptions C86_mapit_short.

(* C87 *)
Theorem C87_mapit : forall h, bytes h -> (48 <= length h)%nat ->
  exists (k : nat) y c, Z.of_nat k < q381 /\
    on2 (Aff (mkq 1, mkq (be_int (firstn 48 h) + Z.of_nat k)) y) /\ fst y <> f0 /\ is_sq (fst y) /\
    (forall i z, (i < k)%nat -> on2 (Aff (mkq 1, mkq (be_int (firstn 48 h) + Z.of_nat i)) z) -> fst z = f0) /\
    (forall fuel, (k < fuel)%nat -> ecp2_mapit fuel h = Some c) /\
    adm2 c /\ ecp2_pt c = nmul2 (Z.to_nat heff) (Aff (mkq 1, mkq (be_int (firstn 48 h) + Z.of_nat k)) y) /\
    nmul2 (Z.to_nat r255) (ecp2_pt c) = Inf.
Proof. exact mapit2_spec. Qed.
Print Assumptions C87_mapit.

(* shorter strings panic *)
Theorem C87_mapit_short : forall h fuel, (length h < 48)%nat -> ecp2_mapit fuel h = None.
Proof. exact mapit2_short. Qed.
Print Assumptions C87_mapit_short.

(* the cofactor clearing alone, on every point of the twist *)
Theorem C87_clearing : forall a, adm2 a -> exists c, mapit2_clear a = Some c /\ adm2 c /\ ecp2_pt c = nmul2 (Z.to_nat heff) (ecp2_pt a) /\
  nmul2 (Z.to_nat r255) (ecp2_pt c) = Inf.
Proof. exact clear_spec. Qed.
Print Assumptions C87_clearing.

Theorem C87_heff : heff = 3 * (bnx * bnx - 1) * h2.
Proof. exact heff_val. Qed.
Print Assumptions C87_heff.
