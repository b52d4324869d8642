(* Property theorems about the multiplications and powers that use the endomorphisms, two or four
   scalars at once, or a small scalar. rep 7 e v: e is the normalised BIG of v. ecp_wf, ecp2_wf,
   fp12_wf l E: a value of the type, its limbs and excess within the bounds; ecp_pt, ecp2_pt,
   fp12_val: the point or field element it stands for. kpw: powers in F_q^12. *)
From Coq Require Import ZArith List.
From Verif Require Import Prim Big Fp Fp2 Fp12 Ecp Ecp2 Utils Api BigP BigP2 SpecBytes NumT FieldQ FieldQ2 SpecCurve Denote DenoteT Tower EcpP Ecp2P FpP2 KeysP LayerP GroupP SigsP VerifyP2 Glv PinP GlvP.
Import ListNotations.
Open Scope Z_scope.

(* C78 *)
Theorem C78_g1mul : forall a e v, ecp_wf 8 4194304 a -> nmul1 (Z.to_nat r255) (ecp_pt a) = Inf -> rep 7 e v -> v < 2 ^ 382 ->
  exists c, g1mul a e = Some c /\ adm c /\ ecp_pt c = nmul1 (Z.to_nat v) (ecp_pt a).
Proof. exact g1mul_sub. Qed.
Print Assumptions C78_g1mul.

(* C79 fails: a decoded key outside the group of order r *)
Theorem C79_g1mul_refuted : exists bs pk e v c, bytes bs /\ pk_from_bytes bs = Some (Ok pk) /\ rep 7 e v /\ v < r255 /\
  g1mul pk e = Some c /\ ecp_pt c <> nmul1 (Z.to_nat v) (ecp_pt pk).
Proof. exact g1mul_refuted. Qed.
Print Assumptions C79_g1mul_refuted.

(* and it fails for every point outside the group *)
Theorem C79_g1mul_wrong_outside : forall a, ecp_wf 8 4194304 a -> nmul1 (Z.to_nat r255) (ecp_pt a) <> Inf ->
  exists e v c, rep 7 e v /\ v < r255 /\ g1mul a e = Some c /\ ecp_pt c <> nmul1 (Z.to_nat v) (ecp_pt a).
Proof. exact g1mul_wrong. Qed.
Print Assumptions C79_g1mul_wrong_outside.

(* C80 *)
Theorem C80_mul2 : forall a b e f v w, ecp_wf 8 8388608 a -> ecp_wf 8 8388608 b -> rep 7 e v -> rep 7 f w -> v + w + 4 < 2 ^ 404 ->
  exists c, ecp_mul2 a e b f = Some c /\ adm c /\ ecp_pt c = padd1 (nmul1 (Z.to_nat v) (ecp_pt a)) (nmul1 (Z.to_nat w) (ecp_pt b)).
Proof. exact mul2_all. Qed.
Print Assumptions C80_mul2.

(* C81 *)
Theorem C81_g2mul : forall a e v, ecp2_wf 8 52000 a -> in_subgroup (ecp2_pt a) -> rep 7 e v ->
  exists c, g2mul a e = Some c /\ ecp2_wf 8 2097152 c /\ ecp2_pt c = nmul2 (Z.to_nat v) (ecp2_pt a).
Proof. exact g2mul_sub. Qed.
Print Assumptions C81_g2mul.

(* C82 fails: a decoded signature of order 13 *)
Theorem C82_g2mul_refuted : exists bs s e v c, bytes bs /\ sig_from_bytes bs = Some (Ok s) /\ rep 7 e v /\ v < r255 /\
  g2mul s e = Some c /\ ecp2_pt c <> nmul2 (Z.to_nat v) (ecp2_pt s).
Proof. exact g2mul_refuted. Qed.
Print Assumptions C82_g2mul_refuted.

(* and it fails for every point outside the group *)
Theorem C82_g2mul_wrong_outside : forall a, ecp2_wf 8 52000 a -> ~ in_subgroup (ecp2_pt a) ->
  exists e v c, rep 7 e v /\ v < r255 /\ g2mul a e = Some c /\ ecp2_pt c <> nmul2 (Z.to_nat v) (ecp2_pt a).
Proof. exact g2mul_wrong. Qed.
Print Assumptions C82_g2mul_wrong_outside.

(* C83 *)
Theorem C83_mul4 : forall a0 a1 a2 a3 e0 e1 e2 e3 v0 v1 v2 v3, adm2 a0 -> adm2 a1 -> adm2 a2 -> adm2 a3 ->
  rep 7 e0 v0 -> rep 7 e1 v1 -> rep 7 e2 v2 -> rep 7 e3 v3 -> v0 + 1 < 2 ^ 406 ->
  exists c, ecp2_mul4 a0 a1 a2 a3 [e0; e1; e2; e3] = Some c /\ ecp2_wf 8 2097152 c /\
    ecp2_pt c = padd2 (padd2 (nmul2 (Z.to_nat v0) (ecp2_pt a0)) (nmul2 (Z.to_nat v1) (ecp2_pt a1))) (padd2 (nmul2 (Z.to_nat v2) (ecp2_pt a2)) (nmul2 (Z.to_nat v3) (ecp2_pt a3))).
Proof. exact mul4_all. Qed.
Print Assumptions C83_mul4.

(* C84 *)
Theorem C84_gtpow : forall a e v, fp12_wf 8 50000 a -> kpw (fp12_val a) r255 = k1 -> rep 7 e v ->
  exists c, gtpow a e = Some c /\ fp12_wf 1 1 c /\ fp12_val c = kpw (fp12_val a) v.
Proof. exact gtpow_sub. Qed.
Print Assumptions C84_gtpow.

(* the simultaneous powers it is made of, on the cyclotomic subgroup *)
Theorem C84_pow4 : forall a0 a1 a2 a3 e0 e1 e2 e3 v0 v1 v2 v3,
  fp12_wf 8 400000 a0 -> fp12_wf 8 2097152 a1 -> fp12_wf 8 2097152 a2 -> fp12_wf 8 2097152 a3 ->
  Forall (fun a => kpw (fp12_val a) (q381 ^ 4 - q381 ^ 2 + 1) = k1) [a0; a1; a2; a3] ->
  rep 7 e0 v0 -> rep 7 e1 v1 -> rep 7 e2 v2 -> rep 7 e3 v3 -> v0 + 1 < 2 ^ 406 ->
  exists c, fp12_pow4 a0 a1 a2 a3 [e0; e1; e2; e3] = Some c /\ fp12_wf 1 1 c /\
    fp12_val c = kmul (kmul (kpw (fp12_val a0) v0) (kpw (fp12_val a1) v1)) (kmul (kpw (fp12_val a2) v2) (kpw (fp12_val a3) v3)).
Proof. exact pow4_all. Qed.
Print Assumptions C84_pow4.

(* C85: the low n bits of the scalar count *)
Theorem C85_pinmul : forall a e n, adm a -> (n <= 32)%nat ->
  exists c, ecp_pinmul a e n = Some c /\ adm c /\ ecp_pt c = nmul1 (Z.to_nat (e mod 2 ^ Z.of_nat n)) (ecp_pt a).
Proof. exact ecp_pinmul_ok. Qed.
Print Assumptions C85_pinmul.

Theorem C85_pinpow : forall a e n, fp12_wf 8 524288 a -> kpw (fp12_val a) (q381 ^ 4 - q381 ^ 2 + 1) = k1 -> (n <= 32)%nat ->
  exists c, fp12_pinpow a e n = Some c /\ fp12_wf 8 524288 c /\ fp12_val c = kpw (fp12_val a) (e mod 2 ^ Z.of_nat n).
Proof. exact pinpow_all. Qed.
Print Assumptions C85_pinpow.
