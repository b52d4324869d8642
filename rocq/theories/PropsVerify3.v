(* Property theorems, third part: the curve over F_q and the keys outside the group of order r,
   and the search for a curve point. h1c (G1Ord) is the cofactor of the curve,
   0x396c8c005555e1568c00aaab0000aaab; the other words are those of PropsVerify. *)
From Coq Require Import ZArith List.
From Verif Require Import Prim Big Fp Fp2 Ecp Ecp2 Utils Api SpecBytes NumT FieldQ FieldQ2 SpecCurve Denote Tower SpecPairing EcpP Ecp2P GenP KeysP KeysP2 KeysP3 LayerP MapP SigsP SigsP2
  VerifyP VerifyP2 VerifyP5 VerifyP6 G1Ord VerifyP7.
Import ListNotations.
Open Scope Z_scope.

(* C71, exactly: which keys accept a signature at infinity *)
Theorem C71_infinity_signature_exact : forall hash msg d s pk, digests hash -> 0 <= d < 2 ^ 64 -> pk_built pk -> sig_built hash s -> ecp2_pt s = Inf ->
  exists h r, hash_on_g2 hash msg d = Some h /\ sig_verify hash s msg d pk = Some r /\
    (r = true <-> (ecp2_pt h = Inf \/ nmul1 (Z.to_nat h1c) (ecp_pt pk) = Inf) /\ ~ zero_case (ecp2_pt h) (ecp_pt pk)).
Proof. exact infinity_exact. Qed.
Print Assumptions C71_infinity_signature_exact.

(* C73 in the other argument *)
Theorem C73_pairing_nondegenerate_right : forall P Q, on2 P -> in_subgroup P -> P <> Inf -> on1 Q ->
  (pairing P Q = k1 <-> nmul1 (Z.to_nat h1c) Q = Inf).
Proof. exact pairing_right_nondegenerate. Qed.
Print Assumptions C73_pairing_nondegenerate_right.

(* C74 *)
Theorem C74_keys_with_a_secret : forall pk, pk_built pk ->
  (nmul1 (Z.to_nat r255) (ecp_pt pk) = Inf <->
   exists b sk pk', bytes b /\ sk_from_bytes b = Some (Ok sk) /\ be_int b < r255 /\ pk_from_secret_key sk = Some pk' /\ pk_eq pk pk' = Some true).
Proof. exact derived_iff. Qed.
Print Assumptions C74_keys_with_a_secret.

(* C75 *)
Theorem C75_curve_group_order : exists l : list pt1, NoDup l /\ (forall p, In p l <-> on1 p) /\ Z.of_nat (length l) = h1c * r255.
Proof. exact curve_group_order. Qed.
Print Assumptions C75_curve_group_order.

Theorem C75_curve_exponent : forall p, on1 p -> nmul1 (Z.to_nat (h1c * r255)) p = Inf.
Proof. exact cofactor_kills_n. Qed.
Print Assumptions C75_curve_exponent.

(* C76 *)
Theorem C76_key_classes : forall hash msg d pk1 pk2, digests hash -> 0 <= d < 2 ^ 64 -> pk_built pk1 -> pk_built pk2 ->
  exists h, hash_on_g2 hash msg d = Some h /\ (ecp2_pt h <> Inf ->
    (nmul1 (Z.to_nat h1c) (ecp_pt pk1) = nmul1 (Z.to_nat h1c) (ecp_pt pk2) -> forall s, sig_built hash s -> sig_verify hash s msg d pk1 = sig_verify hash s msg d pk2) /\
    (nmul1 (Z.to_nat h1c) (ecp_pt pk1) <> nmul1 (Z.to_nat h1c) (ecp_pt pk2) ->
     forall s, sig_built hash s -> ~ (sig_verify hash s msg d pk1 = Some true /\ sig_verify hash s msg d pk2 = Some true))).
Proof. exact key_classes. Qed.
Print Assumptions C76_key_classes.

Theorem C76_key_classes_hashed : forall hash re im h pk1 pk2, digests hash -> bytes re -> bytes im -> (48 <= length re)%nat -> (48 <= length im)%nat ->
  map_to_g2 re im = Some h -> ecp2_pt h <> Inf -> pk_built pk1 -> pk_built pk2 ->
    (nmul1 (Z.to_nat h1c) (ecp_pt pk1) = nmul1 (Z.to_nat h1c) (ecp_pt pk2) -> forall s, sig_built hash s -> sig_verify_hashed s re im pk1 = sig_verify_hashed s re im pk2) /\
    (nmul1 (Z.to_nat h1c) (ecp_pt pk1) <> nmul1 (Z.to_nat h1c) (ecp_pt pk2) ->
     forall s, sig_built hash s -> ~ (sig_verify_hashed s re im pk1 = Some true /\ sig_verify_hashed s re im pk2 = Some true)).
Proof. exact key_classes_hashed. Qed.
Print Assumptions C76_key_classes_hashed.

(* C77: no premise about the search remains anywhere *)
Theorem C77_candidate_exists : forall u w, exists k : nat, Z.of_nat k < q381 /\ curve_x (mkq (u + Z.of_nat k), mkq w).
Proof. exact candidate_exists. Qed.
Print Assumptions C77_candidate_exists.

Theorem C77_map_to_g2_ends : forall re im, bytes re -> bytes im -> (48 <= length re)%nat -> (48 <= length im)%nat -> exists h, map_to_g2 re im = Some h.
Proof. exact map_total. Qed.
Print Assumptions C77_map_to_g2_ends.

Theorem C77_hash_on_g2_ends : forall hash msg d, digests hash -> 0 <= d < 2 ^ 64 -> exists h, hash_on_g2 hash msg d = Some h.
Proof. exact hash_total. Qed.
Print Assumptions C77_hash_on_g2_ends.
