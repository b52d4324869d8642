(* Concrete cases meeting the hypotheses of the theorems in PropsPairing. *)
From Coq Require Import ZArith List Bool Lia.
From Verif Require Import Prim PrimP Rom Big Fp Fp2 Fp4 Fp12 Ecp Ecp2 Pair Utils Api BigP BigP2 NumT FieldQ FieldQ2 FpP FpP2 Fp2P SpecBytes SpecCurve CurveP EcpP Ecp2P Denote GenP KeysP
  Tower TowerP FrobP Fp4P Fp12P CycP NafP FexpP SpecPairing MillerP3 PsiP TwistP VerifyP VerifyP2 DenoteT.
Import ListNotations.
Open Scope Z_scope.

(* C55, C56: the integer 7 as an FP12 *)
Lemma wf_weak l E l' E' a : fp12_wf l E a -> 1 <= l <= l' -> E <= E' -> fp12_wf l' E' a.
Proof. intros H L M. apply fp12_R in H. exact (proj1 (proj1 (fp12R_wfv l' E' _ a) (fp12R_weak l E l' E' _ a H L M))). Qed.
Example ex_fp12 : exists a, fp12_new_int 7 = Some a /\ fp12_wf 8 100000 a /\ fp12_val a = emb2 (gemb (mkq 7)) /\ kb (fp12_val a) = h0 /\ fst (kc (fp12_val a)) = g0.
Proof.
  destruct (ok_val _ _ _ _ (fp12_new_int_ok 7 ltac:(lia))) as (a & A & W & V). exists a. split; [exact A|].
  split; [eapply wf_weak; [exact W|lia|lia]|]. rewrite V. split; [reflexivity|]. split; reflexivity.
Qed.
(* C55: the element 1 lies in the cyclotomic subgroup, and so does every pairing value *)
Example ex_cyclotomic : forall a, fp12_wf 8 100000 a -> fp12_val a <> k0 -> exists c, fexp a = Some c /\ fp12_wf 8 524288 c /\
  kpw (fp12_val c) (q381 ^ 4 - q381 ^ 2 + 1) = k1.
Proof.
  intros a A N. destruct (final_exponentiation a A) as (c & C & W & V). exists c. split; [exact C|]. split; [eapply wf_weak; [exact W|lia|lia]|].
  assert (E : q381 ^ 4 - q381 ^ 2 + 1 = cn).
  { rewrite cn_q2. Transparent q2. unfold q2. Opaque q2. generalize q381. intros z. ring. }
  assert (F : 3 * ((q381 ^ 12 - 1) / r255) = finexp). { rewrite <- final_finexp. Transparent final_exp. unfold final_exp. Opaque final_exp. reflexivity. }
  rewrite E, V, F, <- (zp_finexp (fp12_val a) N). exact (zp_cyc (keasy (fp12_val a)) fexpo (keasy_cyc (fp12_val a) N)).
Qed.
(* C57, C58, C60: the generator of the order-r group of the twist *)
Example ex_points : on2 G2pt /\ in_subgroup G2pt /\ G2pt <> Inf /\ on1 G1gen /\ G1gen <> Inf /\ ~ zero_case G2pt G1gen.
Proof.
  split; [exact (proj1 G2_eigen)|]. split; [exact (good_sub _ (proj1 G2_eigen) G2_eigen)|]. split; [discriminate|]. split; [exact G1gen_on|].
  split; [discriminate|]. intros [C _]. discriminate C.
Qed.
