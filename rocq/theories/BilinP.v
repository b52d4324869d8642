(* The pairing is bilinear: on the eigenspace of the twist in the first
   argument, on the whole curve over F_q in the second. *)
From Coq Require Import ZArith List Bool Lia Znumtheory Field.
From Verif Require Import NumT FieldQ FieldQ2 SpecCurve CurveP GroupP LineP EcpP Ecp2P Tower TowerP FrobP CycP FexpP SpecPairing PairP PairP2 PairP3 MillerP2 MillerP3 PsiP RecipP.
Open Scope Z_scope.

Lemma line_conj_neg qx qy l n : line qx (fopp qy) l n = kconj (line qx qy l n).
Proof.
  rewrite !line_mk. unfold kconj, hconj, hopp, h0. cbn [ka kb kc fst snd]. apply f_equal3; apply f_equal2; try ring.
  unfold gemb, gopp. cbn [fst snd]. apply f_equal2; ring.
Qed.
Section At.
Variables (qx qy : Fq).
Hypothesis CQ : fmul qy qy = fadd (fmul (fmul qx qx) qx) fb.
Lemma CQ_neg : fmul (fopp qy) (fopp qy) = fadd (fmul (fmul qx qx) qx) fb.
Proof. rewrite <- CQ. ring. Qed.
Lemma LL_negQ A B : on2 A -> on2 B -> kmul (LL qx qy A B) (LL qx (fopp qy) A B) = k1.
Proof.
  intros OA OB.
  destruct A as [|u1 v1]; [rewrite (LL_inf_l qx qy B OB), (LL_inf_l qx (fopp qy) B OB); ring|].
  destruct B as [|u2 v2]; [rewrite (LL_inf_r qx qy _ OA), (LL_inf_r qx (fopp qy) _ OA); ring|].
  destruct (padd2 (Aff u1 v1) (Aff u2 v2)) as [|u3 v3] eqn:S.
  - rewrite (LL_opp qx qy _ _ OA OB S), (LL_opp qx (fopp qy) _ _ OA OB S). ring.
  - destruct (LL_aff qx qy _ _ _ _ _ _ OA OB S) as (l & n & M & E & _). rewrite E, (LL_meets qx (fopp qy) l n _ _ _ _ _ _ OA OB S M).
    rewrite (line_conj_neg qx qy l n). exact (ee_conj (line qx qy l n) (line_nz qx qy CQ l n)).
Qed.
Lemma fz_negQ k P : 0 <= k -> on2 P -> kmul (fz qx qy k P) (fz qx (fopp qy) k P) = k1.
Proof.
  intros K O. revert k K. apply natlike_ind.
  - rewrite (fz_0 qx qy P), (fz_0 qx (fopp qy) P). ring.
  - intros k K IH. rewrite <- Z.add_1_r, (fz_succ qx qy k P K O), (fz_succ qx (fopp qy) k P K O).
    pose proof (LL_negQ (zm2 k P) P (zm2_on k P O) O) as E.
    transitivity (kmul (kmul (fz qx qy k P) (fz qx (fopp qy) k P)) (kmul (LL qx qy (zm2 k P) P) (LL qx (fopp qy) (zm2 k P) P))); [ring|].
    rewrite IH, E. ring.
Qed.
End At.

Definition meets1_sum := meets_sum Fq f0 f1 fadd fmul fsub fopp fdiv finv Fq_field Fq_dec fb two_nz fb_noroot.
Lemma aff_opp1 x1 y1 x2 y2 : padd1 (Aff x1 y1) (Aff x2 y2) = Inf -> x1 = x2 /\ y1 = fopp y2.
Proof.
  cbn [padd]. destruct (Fq_dec x1 x2) as [E|E]; [|unfold line_sum; discriminate].
  destruct (Fq_dec y1 (fopp y2)) as [G|G]; [intros _; split; assumption|unfold line_sum; discriminate].
Qed.
Lemma bnx_nonneg : 0 <= bnx. Proof. vm_compute. discriminate. Qed.
Lemma kinv_mul a b : a <> k0 -> b <> k0 -> kinv (kmul a b) = kmul (kinv a) (kinv b).
Proof. intros A B. field. split; assumption. Qed.
Lemma kinv_uniq a b : kmul a b = k1 -> b = kinv a.
Proof.
  intros H. assert (A : a <> k0). { intros E. apply k1_neq_0. rewrite <- H, E. ring. }
  apply (kcancel a); [exact A|]. rewrite H. transitivity (kmul (kinv a) a); [symmetry; exact (Finv_l Fq12_field a A)|ring].
Qed.
Lemma kinv_inv a : a <> k0 -> kinv (kinv a) = a.
Proof. intros A. symmetry. apply kinv_uniq. exact (Finv_l Fq12_field a A). Qed.

Lemma pairing_nz P Q : on2 P -> on1 Q -> pairing P Q <> k0.
Proof.
  intros OP OQ. destruct Q as [|qx qy]; [exact k1_neq_0|]. rewrite (pairing_fz P qx qy OP OQ). apply kinv_nz. exact (fz_nz qx qy OQ bnx P OP).
Qed.
Lemma pairing_inf_r P : pairing P Inf = k1. Proof. reflexivity. Qed.
Lemma fz_inf qx qy k : 0 <= k -> fz qx qy k Inf = k1.
Proof.
  revert k. apply natlike_ind; [exact (fz_0 qx qy Inf)|]. intros k K IH. rewrite <- Z.add_1_r, (fz_succ qx qy k Inf K I), IH, zm2_zero, (LL_inf_l qx qy Inf I). ring.
Qed.
Lemma pairing_inf_l Q : on1 Q -> pairing Inf Q = k1.
Proof.
  intros O. destruct Q as [|qx qy]; [reflexivity|]. rewrite (pairing_fz Inf qx qy I O), (fz_inf qx qy bnx bnx_nonneg). exact kinv_1.
Qed.
Lemma pairing_add_l P R Q : eigen P -> eigen R -> on1 Q -> pairing (padd2 P R) Q = kmul (pairing P Q) (pairing R Q).
Proof.
  intros EP ER OQ. pose proof (proj1 EP) as OP. pose proof (proj1 ER) as OR. pose proof (padd2_on _ _ OP OR) as OS.
  destruct Q as [|qx qy]; [rewrite !pairing_inf_r; ring|].
  rewrite (pairing_fz _ qx qy OS OQ), (pairing_fz _ qx qy OP OQ), (pairing_fz _ qx qy OR OQ), (fz_bilin qx qy OQ P R EP ER).
  apply kinv_mul; apply fz_nz; assumption.
Qed.
Lemma pairing_add_r P Q R : eigen P -> on1 Q -> on1 R -> pairing P (padd1 Q R) = kmul (pairing P Q) (pairing P R).
Proof.
  intros EP OQ OR. pose proof (proj1 EP) as OP. pose proof (padd1_on Q R OQ OR) as OS.
  destruct Q as [|x1 y1]; [cbn [padd]; rewrite pairing_inf_r; ring|].
  destruct R as [|x2 y2]; [cbn [padd]; rewrite pairing_inf_r; ring|].
  destruct (padd1 (Aff x1 y1) (Aff x2 y2)) as [|x3 y3] eqn:S.
  - apply aff_opp1 in S. destruct S as [-> ->]. rewrite pairing_inf_r. rewrite (pairing_fz P x2 _ OP OQ), (pairing_fz P x2 _ OP OR).
    pose proof (fz_negQ x2 y2 OR bnx P bnx_nonneg OP) as N. pose proof (fz_nz x2 y2 OR bnx P OP) as N1. pose proof (fz_nz x2 (fopp y2) OQ bnx P OP) as N2.
    rewrite <- (kinv_mul _ _ N2 N1). transitivity (kinv k1); [symmetry; exact kinv_1|]. apply f_equal. rewrite <- N. ring.
  - destruct (meets1_sum x1 y1 x2 y2 OQ OR) as (u & v & E & M).
    { intros [E1 E2]. revert S. cbn [padd]. destruct (Fq_dec x1 x2); [|contradiction]. destruct (Fq_dec y1 (fopp y2)); [discriminate|contradiction]. }
    rewrite S in E. injection E as -> ->. cbv zeta in M.
    pose proof (CQ_neg u v OS) as ON.
    pose proof (fz3_1 _ _ _ _ _ _ _ _ M P EP) as T.
    pose proof (fz_negQ u v OS bnx P bnx_nonneg OP) as N.
    rewrite (pairing_fz P u v OP OS), (pairing_fz P x1 y1 OP OQ), (pairing_fz P x2 y2 OP OR).
    rewrite <- (kinv_mul _ _ (fz_nz x1 y1 OQ bnx P OP) (fz_nz x2 y2 OR bnx P OP)). apply f_equal.
    revert T N. generalize (fz x1 y1 bnx P), (fz x2 y2 bnx P), (fz u (fopp v) bnx P), (fz u v bnx P). intros a b c d T N.
    transitivity (kmul (kmul (kmul a b) c) d); [rewrite T; ring|]. transitivity (kmul (kmul a b) (kmul d c)); [ring|]. rewrite N. ring.
Qed.
Lemma pairing_r P Q : on2 P -> on1 Q -> kpw (pairing P Q) r255 = k1.
Proof.
  intros OP OQ. destruct Q as [|qx qy]; [apply kpw_one|]. unfold pairing. rewrite final_finexp.
  rewrite <- (ee_def (kinv (miller (twx qx) (twy qy) (Z.to_nat uabs) P))). apply ee_r.
  apply kinv_nz. exact (miller_nz qx qy OQ _ P OP).
Qed.
Lemma pairing_zm_l k P Q : 0 <= k -> eigen P -> on1 Q -> pairing (zm2 k P) Q = kpw (pairing P Q) k.
Proof.
  intros K EP OQ. revert k K. apply natlike_ind.
  - rewrite zm2_0, kpw_0. apply pairing_inf_l. exact OQ.
  - intros k K IH. rewrite (kpw_succ (pairing P Q) k K), <- IH, <- Z.add_1_r, (zm2_add k 1 P (proj1 EP)), zm2_1.
    rewrite (pairing_add_l (zm2 k P) P Q (eigen_zm k P EP) EP OQ). ring.
Qed.
Lemma pairing_zm_r k P Q : 0 <= k -> eigen P -> on1 Q -> pairing P (zm1 k Q) = kpw (pairing P Q) k.
Proof.
  intros K EP OQ. revert k K. apply natlike_ind.
  - rewrite zm1_0, kpw_0. reflexivity.
  - intros k K IH. rewrite (kpw_succ (pairing P Q) k K), <- IH, <- Z.add_1_r, (zm1_add k 1 Q OQ), zm1_1.
    rewrite (pairing_add_r P (zm1 k Q) Q EP (zm1_on k Q OQ) OQ). ring.
Qed.
