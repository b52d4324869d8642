(* What the model's data denotes: field elements, curve points, and which
   internal representations are admissible. *)
From Coq Require Import ZArith List Bool Lia Field.
From Verif Require Import Prim Rom Big Fp Fp2 Ecp Ecp2 PrimP BigP BigP2 SpecBytes BigP3 BigP4 BigP5 NumT FieldQ FieldQ2
  FpP FpP2 SpecCurve CurveP Fp2P EcpP Ecp2P.
Import ListNotations.
Open Scope Z_scope.

(* the element of F_q an FP stands for: its integer times 2^-406 (Montgomery form) *)
Definition fp_val (a : FP) : Fq := fmul (mkq (lval (fx a))) (finv (mkq (2 ^ 406))).
Definition fp2_val (a : FP2) : Fq2 := (fp_val (f2a a), fp_val (f2b a)).
(* the affine point projective coordinates stand for *)
Definition ecp_pt (a : ECP) : pt1 :=
  if Fq_dec (fp_val (ez a)) f0 then Inf
  else Aff (fdiv (fp_val (ex a)) (fp_val (ez a))) (fdiv (fp_val (ey a)) (fp_val (ez a))).
Definition ecp2_pt (a : ECP2) : pt2 :=
  if Fq2_dec (fp2_val (e2z a)) g0 then Inf
  else Aff (gdiv (fp2_val (e2x a)) (fp2_val (e2z a))) (gdiv (fp2_val (e2y a)) (fp2_val (e2z a))).

(* admissible FP: seven limbs, limbs at most l*2^58 in size (exactly 58-bit
   digits when l = 1), value within the recorded excess, excess at most E *)
Definition fp_wf (l E : Z) (a : FP) : Prop :=
  length (fx a) = 7%nat /\ lim l (fx a) /\ 0 <= lval (fx a) <= fxes a * q381 /\ 1 <= fxes a <= E.
Definition fp2_wf (l E : Z) (a : FP2) : Prop := fp_wf l E (f2a a) /\ fp_wf l E (f2b a).
(* admissible point: admissible coordinates, on the curve, and (0:y:0), y <> 0,
   if z = 0 *)
Definition ecp_wf (l E : Z) (a : ECP) : Prop :=
  fp_wf l E (ex a) /\ fp_wf l E (ey a) /\ fp_wf l E (ez a) /\ on1 (ecp_pt a) /\
  (fp_val (ez a) = f0 -> fp_val (ex a) = f0 /\ fp_val (ey a) <> f0).
Definition ecp2_wf (l E : Z) (a : ECP2) : Prop :=
  fp2_wf l E (e2x a) /\ fp2_wf l E (e2y a) /\ fp2_wf l E (e2z a) /\ on2 (ecp2_pt a) /\
  (fp2_val (e2z a) = g0 -> fp2_val (e2x a) = g0 /\ fp2_val (e2y a) <> g0).

Lemma fpR_wfv l E x a : fpR l E x a <-> fp_wf l E a /\ fp_val a = x.
Proof. unfold fpR, fp_wf, fp_val. fold RI. tauto. Qed.
Lemma fp2R_wfv l E x a : fp2R l E x a <-> fp2_wf l E a /\ fp2_val a = x.
Proof.
  destruct x as [u v]. assert (PE : fp2_val a = (u, v) <-> fp_val (f2a a) = u /\ fp_val (f2b a) = v) by apply pair_equal_spec.
  unfold fp2R, fp2_wf. rewrite !fpR_wfv, PE. cbn [fst snd]. tauto.
Qed.
Lemma ecpR_wf_pt l E p a : ecpR l E p a <-> ecp_wf l E a /\ ecp_pt a = p.
Proof.
  split.
  - intros (ON & X & Y & Z & A & B & C & P). apply fpR_wfv in A, B, C. destruct A as [A A'], B as [B B'], C as [C C'].
    assert (EP : ecp_pt a = p).
    { unfold ecp_pt. rewrite A', B', C'. destruct p as [|x y]; destruct P as (P1 & P2 & P3).
      - destruct (Fq_dec Z f0); [reflexivity|contradiction].
      - destruct (Fq_dec Z f0); [contradiction|]. rewrite P2, P3. f_equal; field; assumption. }
    split; [|exact EP]. split; [exact A|]. split; [exact B|]. split; [exact C|]. rewrite EP. split; [exact ON|].
    rewrite A', B', C'. intros Z0. destruct p as [|x y]; destruct P as (P1 & P2 & P3); [split; assumption|contradiction].
  - intros [(A & B & C & ON & Z0) EP]. rewrite EP in ON. split; [exact ON|].
    exists (fp_val (ex a)), (fp_val (ey a)), (fp_val (ez a)). rewrite !fpR_wfv.
    split; [auto|]. split; [auto|]. split; [auto|]. unfold ecp_pt in EP. destruct (Fq_dec (fp_val (ez a)) f0) as [Z1|Z1].
    + rewrite <- EP. destruct (Z0 Z1). cbn [prep]. auto.
    + rewrite <- EP. cbn [prep]. split; [exact Z1|]. split; field; exact Z1.
Qed.
Lemma ecp2R_wf_pt l E p a : ecp2R l E p a <-> ecp2_wf l E a /\ ecp2_pt a = p.
Proof.
  split.
  - intros (ON & X & Y & Z & A & B & C & P). apply fp2R_wfv in A, B, C. destruct A as [A A'], B as [B B'], C as [C C'].
    assert (EP : ecp2_pt a = p).
    { unfold ecp2_pt. rewrite A', B', C'. destruct p as [|x y]; destruct P as (P1 & P2 & P3).
      - destruct (Fq2_dec Z g0); [reflexivity|contradiction].
      - destruct (Fq2_dec Z g0); [contradiction|]. rewrite P2, P3. f_equal; field; assumption. }
    split; [|exact EP]. split; [exact A|]. split; [exact B|]. split; [exact C|]. rewrite EP. split; [exact ON|].
    rewrite A', B', C'. intros Z0. destruct p as [|x y]; destruct P as (P1 & P2 & P3); [split; assumption|contradiction].
  - intros [(A & B & C & ON & Z0) EP]. rewrite EP in ON. split; [exact ON|].
    exists (fp2_val (e2x a)), (fp2_val (e2y a)), (fp2_val (e2z a)). rewrite !fp2R_wfv.
    split; [auto|]. split; [auto|]. split; [auto|]. unfold ecp2_pt in EP. destruct (Fq2_dec (fp2_val (e2z a)) g0) as [Z1|Z1].
    + rewrite <- EP. destruct (Z0 Z1). cbn [prep]. auto.
    + rewrite <- EP. cbn [prep]. split; [exact Z1|]. split; field; exact Z1.
Qed.
Lemma ecp_wf_R l E a : ecp_wf l E a -> ecpR l E (ecp_pt a) a.
Proof. intros H. apply ecpR_wf_pt. auto. Qed.
Lemma ecp2_wf_R l E a : ecp2_wf l E a -> ecp2R l E (ecp2_pt a) a.
Proof. intros H. apply ecp2R_wf_pt. auto. Qed.
Lemma ecpR_pt l E p a : ecpR l E p a -> ecp_pt a = p. Proof. intros H. apply ecpR_wf_pt in H. apply H. Qed.
Lemma ecp2R_pt l E p a : ecp2R l E p a -> ecp2_pt a = p. Proof. intros H. apply ecp2R_wf_pt in H. apply H. Qed.
Lemma ecp_wf_weak l E l' E' a : ecp_wf l E a -> 1 <= l <= l' -> E <= E' -> ecp_wf l' E' a.
Proof. intros H L HE. apply ecp_wf_R in H. eapply ecpR_weak in H; [|exact L|exact HE]. apply ecpR_wf_pt in H. apply H. Qed.
Lemma ecp2_wf_weak l E l' E' a : ecp2_wf l E a -> 1 <= l <= l' -> E <= E' -> ecp2_wf l' E' a.
Proof. intros H L HE. apply ecp2_wf_R in H. eapply ecp2R_weak in H; [|exact L|exact HE]. apply ecp2R_wf_pt in H. apply H. Qed.
