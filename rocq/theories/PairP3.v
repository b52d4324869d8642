(* Miller functions after the final exponentiation: they do not depend on the
   addition chain, and they are additive in the first argument up to lines. *)
From Coq Require Import ZArith List Bool Lia Znumtheory Field.
From Verif Require Import NumT FieldQ FieldQ2 SpecCurve CurveP GroupP LineP EcpP Ecp2P Tower TowerP FrobP CycP FexpP SpecPairing PairP PairP2.
Open Scope Z_scope.
Lemma LL_def qx qy A B : ee (chord (twx qx) (twy qy) A B) = LL qx qy A B. Proof. reflexivity. Qed.
#[global] Opaque LL.
Lemma kinv_1 : kinv k1 = k1.
Proof. transitivity (kmul (kinv k1) k1); [ring|exact (Finv_l Fq12_field k1 k1_neq_0)]. Qed.

Section At.
Variables (qx qy : Fq).
Hypothesis CQ : fmul qy qy = fadd (fmul (fmul qx qx) qx) fb.
Notation X := (twx qx). Notation Y := (twy qy).
Notation LL := (LL qx qy).
Notation coc := (LL_coc qx qy CQ).
Lemma LL_coc4 a b c d : on2 a -> on2 b -> on2 c -> on2 d ->
  kmul (LL (padd2 a b) (padd2 c d)) (kmul (LL a b) (LL c d)) = kmul (kmul (LL a c) (LL b d)) (LL (padd2 a c) (padd2 b d)).
Proof.
  assert (H : forall a b c d, on2 a -> on2 b -> on2 c -> on2 d ->
    kmul (LL (padd2 a b) (padd2 c d)) (kmul (LL a b) (LL c d)) =
    kmul (kmul (LL b c) (LL (padd2 b c) d)) (LL a (padd2 (padd2 b c) d))).
  { clear a b c d. intros a b c d A B C D. pose proof (padd2_on _ _ C D) as CD.
    pose proof (coc a b (padd2 c d) A B CD) as E1. pose proof (coc b c d B C D) as E2.
    rewrite <- (padd2_assoc b c d B C D) in E1. rewrite E2.
    transitivity (kmul (LL c d) (kmul (LL a b) (LL (padd2 a b) (padd2 c d)))); [ring|]. rewrite E1. ring. }
  intros A B C D. rewrite (H a b c d A B C D). transitivity (kmul (LL (padd2 a c) (padd2 b d)) (kmul (LL a c) (LL b d))); [|ring].
  rewrite (H a c b d A C B D), (padd2_comm c b C B), (LL_sym qx qy c b C B). reflexivity.
Qed.

Lemma addf_nz A B : on2 A -> on2 B -> addf X Y A B <> k0.
Proof.
  intros OA OB. unfold addf, kdiv. apply kmul_nz; [apply chord_nz; assumption|]. apply kinv_nz, vert_nz, padd2_on; assumption.
Qed.
Lemma addf_ee A B : on2 A -> on2 B -> ee (addf X Y A B) = LL A B.
Proof.
  intros OA OB. pose proof (padd2_on _ _ OA OB) as OS. unfold addf, kdiv.
  rewrite (ee_mul (chord X Y A B) (kinv (vert X (padd2 A B)))), (ee_inv (vert X (padd2 A B))) by (apply vert_nz; exact OS).
  rewrite (vert_1 qx _ OS). rewrite (LL_def qx qy A B). rewrite kinv_1. ring.
Qed.
Lemma nmul2_on n P : on2 P -> on2 (nmul2 n P).
Proof. intros O. rewrite <- nm_nmul2. eapply nm_on; g2s. Qed.
Lemma miller_nz n P : on2 P -> miller X Y n P <> k0.
Proof.
  intros O. induction n as [|n IH]; [exact k1_neq_0|]. cbn [miller]. apply kmul_nz; [exact IH|]. apply addf_nz; [apply nmul2_on; exact O|exact O].
Qed.
(* the exponentiated Miller function of k P *)
Definition fz (k : Z) (P : pt2) : Fq12 := ee (miller X Y (Z.to_nat k) P).
Lemma fz_nz k P : on2 P -> fz k P <> k0.
Proof. intros O. apply ee_nz, miller_nz, O. Qed.
Lemma fz_0 P : fz 0 P = k1. Proof. exact ee_1. Qed.
Lemma fz_succ k P : 0 <= k -> on2 P -> fz (k + 1) P = kmul (fz k P) (LL (zm2 k P) P).
Proof.
  intros K O. unfold fz. replace (Z.to_nat (k + 1)) with (S (Z.to_nat k)) by lia. cbn [miller].
  rewrite (ee_mul (miller X Y (Z.to_nat k) P)), (addf_ee (nmul2 (Z.to_nat k) P) P) by (try apply nmul2_on; exact O).
  rewrite <- (zm2_nmul k P K). reflexivity.
Qed.
#[local] Opaque fz.
Lemma fz_1 P : on2 P -> fz 1 P = k1.
Proof. intros O. change 1 with (0 + 1). rewrite (fz_succ 0 P) by (try lia; exact O). rewrite fz_0, zm2_0, (LL_inf_l qx qy P O). ring. Qed.
Lemma fz_add a b P : 0 <= a -> 0 <= b -> on2 P -> fz (a + b) P = kmul (kmul (fz a P) (fz b P)) (LL (zm2 a P) (zm2 b P)).
Proof.
  intros A B O. pose proof (zm2_on a P O) as OA. revert b B. apply natlike_ind.
  - rewrite Z.add_0_r, fz_0, zm2_0, (LL_inf_r qx qy _ OA). ring.
  - intros b B IH. pose proof (zm2_on b P O) as OB. rewrite <- !Z.add_1_r, Z.add_assoc.
    rewrite (fz_succ (a + b) P), (fz_succ b P), IH by (try lia; exact O).
    pose proof (coc (zm2 a P) (zm2 b P) P OA OB O) as E. rewrite <- (zm2_add a b P O) in E.
    rewrite (zm2_add b 1 P O), zm2_1.
    transitivity (kmul (kmul (fz a P) (fz b P)) (kmul (LL (zm2 a P) (zm2 b P)) (LL (zm2 (a + b) P) P))); [ring|]. rewrite E. ring.
Qed.
(* additivity in the first argument *)
Lemma fz_sum k P R : 0 <= k -> on2 P -> on2 R ->
  kmul (fz k (padd2 P R)) (kpw (LL P R) k) = kmul (kmul (fz k P) (fz k R)) (LL (zm2 k P) (zm2 k R)).
Proof.
  intros K OP OR. pose proof (padd2_on _ _ OP OR) as OS. revert k K. apply natlike_ind.
  - rewrite !fz_0, !zm2_0, kpw_0, (LL_inf_l qx qy Inf I). ring.
  - intros k K IH. rewrite (kpw_succ (LL P R) k K). rewrite <- !Z.add_1_r.
    rewrite !fz_succ by assumption. rewrite !zm2_add, !zm2_1 by assumption. rewrite (zm2_dist k P R OP OR).
    pose proof (LL_coc4 (zm2 k P) (zm2 k R) P R (zm2_on k P OP) (zm2_on k R OR) OP OR) as E.
    apply (kcancel (LL (zm2 k P) (zm2 k R))); [apply LL_nz; try exact CQ; apply zm2_on; assumption|].
    transitivity (kmul (kmul (fz k (padd2 P R)) (kpw (LL P R) k))
      (kmul (LL (padd2 (zm2 k P) (zm2 k R)) (padd2 P R)) (kmul (LL (zm2 k P) (zm2 k R)) (LL P R)))); [ring|].
    rewrite IH, E. ring.
Qed.
End At.
