(* Property theorems about FP12, the pairing and the twist group. fp12_val (DenoteT) is the
   element of the tower (Tower) an FP12 stands for, fp12_wf l E says that the limbs are at
   most l*2^58 and the excess at most E; kpw x e is x multiplied by itself e times. *)
From Coq Require Import ZArith List Field_theory.
From Verif Require Import Prim Rom Big Fp Fp2 Fp4 Fp12 Ecp Ecp2 Pair Utils Api NumT FieldQ FieldQ2 SpecCurve Denote Tower SpecPairing EcpP Ecp2P GenP MapP SpecBytes SigsP2
  VerifyP VerifyP2 DenoteT.
Import ListNotations.
Open Scope Z_scope.

(* C55 *)
Theorem C55_tower_is_a_field : field_theory k0 k1 kadd kmul ksub kopp kdiv kinv (@eq Fq12).
Proof. exact tower_field. Qed.
Print Assumptions C55_tower_is_a_field.

Theorem C55_w_is_a_sixth_root : kpw kw 6 = emb2 (f1, f1).
Proof. exact tower_w. Qed.
Print Assumptions C55_w_is_a_sixth_root.

Theorem C55_fp12_arithmetic : forall a b, fp12_wf 8 524288 a -> fp12_wf 8 524288 b ->
  (exists c, fp12_mul a b = Some c /\ fp12_wf 1 8192 c /\ fp12_val c = kmul (fp12_val a) (fp12_val b)) /\
  (exists c, fp12_sqr a = Some c /\ fp12_wf 1 8192 c /\ fp12_val c = kmul (fp12_val a) (fp12_val a)) /\
  (exists c, fp12_inverse a = Some c /\ fp12_wf 1 8192 c /\ fp12_val c = kinv (fp12_val a)) /\
  (exists c, fp12_conj a = Some c /\ fp12_wf 1 2621439 c /\ fp12_val c = kconj (fp12_val a)) /\
  (exists c, fp12_norm a = Some c /\ fp12_wf 1 524288 c /\ fp12_val c = fp12_val a) /\
  (exists c, fp12_reduce a = Some c /\ fp12_wf 1 1 c /\ fp12_val c = fp12_val a) /\
  (exists e, fp12_equals a b = Some e /\ (e = true <-> fp12_val a = fp12_val b)).
Proof. exact fp12_arithmetic. Qed.
Print Assumptions C55_fp12_arithmetic.

(* the product with a sparse factor *)
Theorem C55_fp12_sparse_product : forall a b, fp12_wf 8 524288 a -> fp12_wf 8 524288 b -> kb (fp12_val b) = h0 -> fst (kc (fp12_val b)) = g0 ->
  exists c, fp12_smul a b = Some c /\ fp12_wf 1 8192 c /\ fp12_val c = kmul (fp12_val a) (fp12_val b).
Proof. exact fp12_sparse. Qed.
Print Assumptions C55_fp12_sparse_product.

(* the squaring of elements of the cyclotomic subgroup *)
Theorem C55_fp12_unitary_square : forall a, fp12_wf 8 524288 a -> kpw (fp12_val a) (q381 ^ 4 - q381 ^ 2 + 1) = k1 ->
  exists c, fp12_usqr a = Some c /\ fp12_wf 1 1 c /\ fp12_val c = kmul (fp12_val a) (fp12_val a).
Proof. exact fp12_unitary_square. Qed.
Print Assumptions C55_fp12_unitary_square.

(* conj is the power q^6 and frob, with the constants of the ROM, the power q *)
Theorem C55_conjugation_is_a_power : forall x, kpw x (q381 ^ 6) = kconj x.
Proof. exact tower_conj. Qed.
Print Assumptions C55_conjugation_is_a_power.

Theorem C55_fp12_frobenius : exists f, fp2_new_bigs FRA FRB = Some f /\ forall a, fp12_wf 8 524288 a ->
  exists c, fp12_frob a f = Some c /\ fp12_wf 8 1048578 c /\ fp12_val c = kpw (fp12_val a) q381.
Proof. exact fp12_frobenius. Qed.
Print Assumptions C55_fp12_frobenius.

(* C56 *)
Theorem C56_final_exponentiation : forall a, fp12_wf 8 100000 a ->
  exists c, fexp a = Some c /\ fp12_wf 1 1 c /\ fp12_val c = kpw (fp12_val a) (3 * ((q381 ^ 12 - 1) / r255)).
Proof. exact final_exponentiation. Qed.
Print Assumptions C56_final_exponentiation.

(* C57: affine1, affine2 (DenoteT): infinity, or z = 1; zero_case (VerifyP): the first point is
   infinity, and the second is infinity or has x = 0 *)
Theorem C57_ate_pairing_is_the_pairing : forall a b, ecp2_wf 8 100000 a -> affine2 a -> ecp_wf 8 1000000 b -> affine1 b ->
  (ecp_pt b = Inf -> in_subgroup (ecp2_pt a)) ->
  exists c, ate_pairing a b = Some c /\ fp12_wf 1 1 c /\
    (~ zero_case (ecp2_pt a) (ecp_pt b) -> fp12_val c = pairing (ecp2_pt a) (ecp_pt b)) /\
    (zero_case (ecp2_pt a) (ecp_pt b) -> fp12_val c = k0).
Proof. exact ate_pairing_value. Qed.
Print Assumptions C57_ate_pairing_is_the_pairing.

(* C58 *)
Theorem C58_pairing_bilinear : forall P P' Q Q', on2 P -> on2 P' -> in_subgroup P -> in_subgroup P' -> on1 Q -> on1 Q' ->
  pairing (padd2 P P') Q = kmul (pairing P Q) (pairing P' Q) /\ pairing P (padd1 Q Q') = kmul (pairing P Q) (pairing P Q').
Proof. exact pairing_bilinear. Qed.
Print Assumptions C58_pairing_bilinear.

Theorem C58_pairing_of_multiples : forall P Q m n, on2 P -> in_subgroup P -> on1 Q ->
  pairing (nmul2 m P) (nmul1 n Q) = kpw (pairing P Q) (Z.of_nat m * Z.of_nat n).
Proof. exact pairing_scalar. Qed.
Print Assumptions C58_pairing_of_multiples.

Theorem C58_pairing_is_a_root_of_unity : forall P Q, on2 P -> on1 Q -> pairing P Q <> k0 /\ kpw (pairing P Q) r255 = k1.
Proof. exact pairing_root_of_unity. Qed.
Print Assumptions C58_pairing_is_a_root_of_unity.

(* C59: the implemented pairing of infinity with infinity is 0, not 1 *)
Theorem C59_pairing_of_infinity_refuted : exists a b c, asig_new = Some a /\ apk_new = Some b /\ ecp2_pt a = Inf /\ ecp_pt b = Inf /\
  ate_pairing a b = Some c /\ fp12_val c = k0 /\ pairing (ecp2_pt a) (ecp_pt b) = k1.
Proof. exact pairing_zero_refuted. Qed.
Print Assumptions C59_pairing_of_infinity_refuted.

(* C60: h2 is the cofactor the implementation multiplies by *)
Theorem C60_twist_group_order : exists l : list pt2, NoDup l /\ (forall p, In p l <-> on2 p) /\ Z.of_nat (length l) = h2 * r255.
Proof. exact twist_group_order. Qed.
Print Assumptions C60_twist_group_order.

Theorem C60_subgroup_is_cyclic : exists G, on2 G /\ in_subgroup G /\ G <> Inf /\
  forall p, on2 p -> in_subgroup p -> exists k, 0 <= k < r255 /\ p = nmul2 (Z.to_nat k) G.
Proof. exact twist_subgroup_cyclic. Qed.
Print Assumptions C60_subgroup_is_cyclic.

Theorem C60_message_points_in_subgroup : forall hash msg d, digests hash -> 0 <= d < 2 ^ 64 ->
  exists h, hash_on_g2 hash msg d = Some h /\ on2 (ecp2_pt h) /\ in_subgroup (ecp2_pt h).
Proof. exact (fun hash msg d p0 p1 => hash_subgroup hash msg d p0 p1 (hash_findable_all hash msg d)). Qed.
Print Assumptions C60_message_points_in_subgroup.

Theorem C60_mapped_points_in_subgroup : forall re im, bytes re -> bytes im -> (48 <= length re)%nat -> (48 <= length im)%nat ->
  exists h, map_to_g2 re im = Some h /\ on2 (ecp2_pt h) /\ in_subgroup (ecp2_pt h).
Proof. exact (fun re im p0 p1 p2 p3 => map_subgroup re im p0 p1 p2 p3 (findable_all re im)). Qed.
Print Assumptions C60_mapped_points_in_subgroup.
