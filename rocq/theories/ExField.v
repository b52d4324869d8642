(* Concrete cases meeting the hypotheses of the theorems in PropsBig and PropsField. *)
From Coq Require Import ZArith List Bool Lia Field.
From Verif Require Import Prim Rom Big Fp Fp2 PrimP BigP BigP2 SpecBytes BigP3 BigP4 BigP5 NumT FieldQ FieldQ2 FpP FpP2 Fp2P Denote GenP KeysP BigL LayerP.
Import ListNotations.
Open Scope Z_scope.

Definition ex_a : BIG := [5; 288230376151711743; 7; 0; 1; 288230376151711743; 3].
Definition ex_m : BIG := [11; 0; 0; 0; 0; 0; 0].
(* digit lists: a seven-limb number and a small modulus *)
Example ex_rep : rep 7 ex_a (lval ex_a) /\ rep 7 ex_m 11 /\ 1 < lval ex_a.
Proof.
  split; [|split; [|vm_compute; reflexivity]]; (split; [reflexivity|split; [|reflexivity]]; repeat constructor; vm_compute; congruence).
Qed.
(* an unnormalised limb list with negative limbs *)
Example ex_unnormalised : length [-5; 2 ^ 60; -2 ^ 59; 0; 1; 2; 3] = 7%nat /\ lb (2 ^ 63 - 64) [-5; 2 ^ 60; -2 ^ 59; 0; 1; 2; 3].
Proof. split; [reflexivity|]. repeat constructor; vm_compute; congruence. Qed.
Example ex_product : exists d, big_mul ex_a ex_a = Some d /\ rep 14 d (lval ex_a * lval ex_a).
Proof. apply B_mul; apply ex_rep. Qed.
(* Montgomery constant of q *)
Example ex_monty : (qn * MCONST + 1) mod 2 ^ 58 = 0. Proof. vm_compute. reflexivity. Qed.

(* an admissible field element with an oversized limb and a negative one *)
Definition ex_fp : FP := mkFP [- 288230376151711744; 576460752303423487; 0; 0; 0; 0; 0] 3.
Example ex_fp_wf : fp_wf 2 3 ex_fp /\ fp_wf 2 FEX ex_fp /\ fp_wf 8 FEX ex_fp.
Proof.
  assert (G : forall l E, 2 <= l -> 3 <= E -> fp_wf l E ex_fp).
  { intros l E L HE. split; [reflexivity|]. split; [|split; [|unfold ex_fp; cbn [fxes]; lia]].
    - unfold lim. destruct (Z.leb_spec l 1); [lia|]. cbn [fx ex_fp]. repeat (apply Forall_cons; [lia|]). apply Forall_nil.
    - split; [vm_compute; congruence|]. rewrite <- qn_q. vm_compute. congruence. }
  split; [apply G; lia|]. split; apply G; unfold FEX; lia.
Qed.
(* normalised ones: the constants one and zero; and elements of F_q2 built of them *)
Example ex_fp_one : exists o, fp_one = Some o /\ fp_wf 1 2 o /\ fp_val o = f1 /\ fp_val o <> f0.
Proof.
  destruct (outR _ _ _ _ fp_one_ok) as (o & E & W & V). exists o. split; [exact E|]. split; [exact W|]. split; [exact V|]. rewrite V. exact f1_neq_0.
Qed.
Example ex_fp2 : exists o, fp2_wf 8 FEX (mkFP2 o ex_fp) /\ fp2_wf 8 8388608 (mkFP2 o ex_fp) /\ fp2_val (mkFP2 o ex_fp) <> g0.
Proof.
  destruct ex_fp_one as (o & _ & W & _ & V). exists o. assert (G : fp_wf 8 8388608 o).
  { pose proof (toR _ _ _ W) as R. eapply fpR_weak in R; [apply fpR_wfv in R; apply R|lia|lia]. }
  assert (H : fp_wf 8 8388608 ex_fp).
  { pose proof (toR _ _ _ (proj1 ex_fp_wf)) as R. eapply fpR_weak in R; [apply fpR_wfv in R; apply R|lia|lia]. }
  assert (W1 : fp2_wf 8 8388608 (mkFP2 o ex_fp)) by (split; assumption).
  split.
  - pose proof (toR2 _ _ _ W1) as R. eapply fp2R_weak in R; [apply fp2R_wfv in R; apply R|lia|unfold FEX; lia].
  - split; [exact W1|]. intros C. apply V. apply (f_equal fst) in C. exact C.
Qed.
(* pow: exponent 3 *)
Example ex_pow : length [3;0;0;0;0;0;0] = 7%nat /\ lb (2 ^ 63 - 64) [3;0;0;0;0;0;0] /\ 0 <= lval [3;0;0;0;0;0;0] < 2 ^ 406.
Proof. split; [reflexivity|]. split; [repeat constructor; lia|vm_compute; split; congruence]. Qed.
(* sqrt: the square 1 *)
Example ex_square : exists o y, fp_wf 1 2 o /\ fp_val o = fmul y y.
Proof. destruct ex_fp_one as (o & _ & W & V & _). exists o, f1. split; [exact W|]. rewrite V. ring. Qed.
