(* The field and curve layers, restated over the abstraction functions of
   Denote in the form used by PropsField and PropsCurve. *)
From Coq Require Import ZArith List Bool Lia Field.
From Verif Require Import Prim Rom Big Fp Fp2 Ecp Ecp2 PrimP BigP BigP2 SpecBytes BigP3 BigP4 BigP5 NumT FieldQ FieldQ2
  FpP FpP2 SpecCurve CurveP GroupP JacobiM JacP Fp2P Sqrt2P WinP EcpP Ecp2P EcpC Denote GenP KeysP.
Import ListNotations.
Open Scope Z_scope.

(* the library's FEXCESS *)
Definition FEX : Z := 33554432.
(* a canonical element: reduced, digits in range, excess 1 *)
Definition fp_canon (a : FP) : Prop := fp_wf 1 1 a /\ lval (fx a) < q381.
Definition fp2_canon (a : FP2) : Prop := fp_canon (f2a a) /\ fp_canon (f2b a).

Lemma toR l E a : fp_wf l E a -> fpR l E (fp_val a) a.
Proof. intros H. apply fpR_wfv. auto. Qed.
Lemma toR2 l E a : fp2_wf l E a -> fp2R l E (fp2_val a) a.
Proof. intros H. apply fp2R_wfv. auto. Qed.
Lemma outR l E x m : ok m (fpR l E x) -> exists c, m = Some c /\ fp_wf l E c /\ fp_val c = x.
Proof. intros H. apply ok_ex in H. destruct H as (c & E1 & R). exists c. split; [exact E1|]. apply fpR_wfv, R. Qed.
Lemma outR2 l E x m : ok m (fp2R l E x) -> exists c, m = Some c /\ fp2_wf l E c /\ fp2_val c = x.
Proof. intros H. apply ok_ex in H. destruct H as (c & E1 & R). exists c. split; [exact E1|]. apply fp2R_wfv, R. Qed.
Lemma C_canon x a : fpC x a -> fp_canon a /\ fp_val a = x.
Proof.
  intros C. pose proof (fpC_R _ _ C) as R. apply fpR_wfv in R. destruct R as [R V]. destruct C as (C1 & C2).
  split; [|exact V]. split; [exact R|]. destruct C1 as (_ & _ & C1). rewrite C1. apply fv_range.
Qed.
Lemma outC x m : ok m (fpC x) -> exists c, m = Some c /\ fp_canon c /\ fp_val c = x.
Proof. intros H. apply ok_ex in H. destruct H as (c & E1 & R). exists c. split; [exact E1|]. apply C_canon, R. Qed.

Lemma L_add : forall l m a b, fp_wf l FEX a -> fp_wf m FEX b -> 1 <= l -> 1 <= m -> l + m <= 31 ->
  exists c, fp_add a b = Some c /\ fp_wf (l + m) FEX c /\ fp_val c = fadd (fp_val a) (fp_val b).
Proof. intros l m a b A B L M LM. apply outR. apply fp_add_gen; [apply toR; assumption..|lia|lia|lia]. Qed.
Lemma L_sub : forall l m a b, fp_wf l FEX a -> fp_wf m FEX b -> 1 <= l -> 1 <= m -> l + (m + 1) <= 31 ->
  exists c, fp_sub a b = Some c /\ fp_wf (l + (m + 1)) FEX c /\ fp_val c = fsub (fp_val a) (fp_val b).
Proof. intros l m a b A B L M LM. apply outR. apply fp_sub_gen; [apply toR; assumption..|lia|lia|lia]. Qed.
Lemma L_dbl : forall l a, fp_wf l FEX a -> 1 <= l -> l + l <= 31 ->
  exists c, fp_dbl a = Some c /\ fp_wf (l + l) FEX c /\ fp_val c = fadd (fp_val a) (fp_val a).
Proof. intros l a A L LM. apply outR. apply fp_dbl_gen; [apply toR; assumption|lia|lia]. Qed.
Lemma L_neg : forall l a, fp_wf l FEX a -> 1 <= l <= 30 ->
  exists c, fp_neg a = Some c /\ fp_wf (l + 1) FEX c /\ fp_val c = fopp (fp_val a).
Proof. intros l a A L. apply outR. eapply fp_neg_gen; [apply toR; eassumption|lia|unfold FEX; lia]. Qed.
Lemma L_mul : forall l m a b, fp_wf l FEX a -> fp_wf m FEX b -> 1 <= l <= 8 -> 1 <= m <= 8 ->
  exists c, fp_mul a b = Some c /\ fp_wf 1 2 c /\ fp_val c = fmul (fp_val a) (fp_val b).
Proof. intros l m a b A B L M. apply outR. eapply fp_mul_ok; [apply toR; eassumption..|lia|lia|unfold FEX; lia|unfold FEX; lia]. Qed.
Lemma L_sqr : forall l a, fp_wf l FEX a -> 1 <= l <= 8 ->
  exists c, fp_sqr a = Some c /\ fp_wf 1 2 c /\ fp_val c = fmul (fp_val a) (fp_val a).
Proof. intros l a A L. apply outR. eapply fp_sqr_ok; [apply toR; eassumption|lia|unfold FEX; lia]. Qed.
Lemma L_norm : forall l E a, fp_wf l E a -> 1 <= l <= 31 -> E <= FEX ->
  exists c, fp_norm a = Some c /\ fp_wf 1 E c /\ fp_val c = fp_val a.
Proof. intros l E a A L HE. apply outR. eapply fp_norm_ok; [apply toR; eassumption|lia|unfold FEX in *; lia]. Qed.
Lemma L_reduce : forall l a, fp_wf l (2 * FEX) a -> 1 <= l <= 31 ->
  exists c, fp_reduce a = Some c /\ fp_canon c /\ fp_val c = fp_val a.
Proof. intros l a A L. apply outC. eapply fp_reduce_ok; [apply toR; eassumption|lia|unfold FEX; lia]. Qed.
Lemma L_div2 : forall E a, fp_wf 1 E a -> 2 * E <= FEX ->
  exists c, fp_div2 a = Some c /\ fp_wf 1 E c /\ fadd (fp_val c) (fp_val c) = fp_val a.
Proof.
  intros E a A HE. destruct (outR _ _ _ _ (fp_div2_ok E _ a (toR _ _ _ A) ltac:(unfold FEX in HE; lia))) as (c & E1 & W & V).
  exists c. split; [exact E1|]. split; [exact W|]. rewrite V. rewrite fdbl. unfold ftwo. pose proof ftwo_nz as T. unfold ftwo in T.
  set (t := mkq 2) in *. clearbody t. field. exact T.
Qed.
Lemma L_imul : forall l a c, fp_wf l FEX a -> 1 <= l <= 8 -> c <> 0 -> fxes a * Z.abs c < 2 ^ 31 ->
  exists d, fp_imul a c = Some d /\ fp_wf 1 FEX d /\ fp_val d = fmul (mkq c) (fp_val a).
Proof. intros l a c A L C X. apply outR. eapply fp_imul_gen; [apply toR; eassumption|lia|exact C|exact X]. Qed.
Lemma L_inverse : forall l a, fp_wf l FEX a -> 1 <= l <= 31 ->
  exists c, fp_inverse a = Some c /\ fp_canon c /\ (fp_val a <> f0 -> fmul (fp_val c) (fp_val a) = f1) /\ (fp_val a = f0 -> fp_val c = f0).
Proof.
  intros l a A L. destruct (outC _ _ (fp_inverse_ok l FEX _ a (toR _ _ _ A) L ltac:(unfold FEX; lia))) as (c & E & C & V).
  exists c. split; [exact E|]. split; [exact C|]. rewrite V. set (x := fp_val a). clearbody x. split; intros H; [field; exact H|].
  rewrite H. apply finv_0.
Qed.
Lemma L_pow : forall l a e, fp_wf l FEX a -> 1 <= l <= 31 -> length e = 7%nat -> lb (2 ^ 63 - 64) e -> 0 <= lval e < 2 ^ 406 ->
  exists c, fp_pow a e = Some c /\ fp_canon c /\ fp_val c = fpw (fp_val a) (lval e).
Proof. intros l a e A L L7 LB V. apply outC. eapply fp_pow_ok; [apply toR; eassumption|lia|unfold FEX; lia|exact L7|exact LB|exact V]. Qed.
Lemma L_sqrt : forall l a, fp_wf l FEX a -> 1 <= l <= 31 ->
  exists c, fp_sqrt a = Some c /\ fp_canon c /\ ((exists y, fp_val a = fmul y y) -> fmul (fp_val c) (fp_val c) = fp_val a).
Proof.
  intros l a A L. destruct (outC _ _ (fp_sqrt_ok l FEX _ a (toR _ _ _ A) L ltac:(unfold FEX; lia))) as (c & E & C & V).
  exists c. split; [exact E|]. split; [exact C|]. intros [y Y]. rewrite V, Y. apply sqrt_square.
Qed.
Lemma L_jacobi : forall l a, fp_wf l FEX a -> 1 <= l <= 31 ->
  exists r, fp_jacobi a = Some r /\ (r = 1 \/ r = 0 \/ r = -1) /\ (r = 0 <-> fp_val a = f0) /\
    (r = 1 <-> fp_val a <> f0 /\ exists y, fp_val a = fmul y y).
Proof.
  intros l a A L. destruct (ok_ex _ _ (fp_jacobi_ok l FEX _ a (toR _ _ _ A) L ltac:(unfold FEX; lia))) as (r & E & H1 & H2 & H3).
  exists r. auto.
Qed.
Lemma L_equals : forall l m a b, fp_wf l FEX a -> fp_wf m FEX b -> 1 <= l <= 31 -> 1 <= m <= 31 ->
  exists r a' b', fp_equals a b = Some (r, a', b') /\ (r = true <-> fp_val a = fp_val b) /\
    fp_canon a' /\ fp_val a' = fp_val a /\ fp_canon b' /\ fp_val b' = fp_val b.
Proof.
  intros l m a b A B L M.
  destruct (ok_ex _ _ (fp_equals_ok l m FEX FEX _ _ a b (toR _ _ _ A) (toR _ _ _ B) L M ltac:(unfold FEX; lia) ltac:(unfold FEX; lia)))
    as ([[r a'] b'] & E & H1 & H2 & H3).
  exists r, a', b'. split; [exact E|]. split; [exact H1|]. apply C_canon in H2, H3. tauto.
Qed.
Lemma L_iszilch : forall l a, fp_wf l FEX a -> 1 <= l <= 31 ->
  exists r a', fp_iszilch a = Some (r, a') /\ (r = true <-> fp_val a = f0) /\ fp_canon a' /\ fp_val a' = fp_val a.
Proof.
  intros l a A L. destruct (ok_ex _ _ (fp_iszilch_ok l FEX _ a (toR _ _ _ A) L ltac:(unfold FEX; lia))) as ([r a'] & E & H1 & H2).
  exists r, a'. split; [exact E|]. split; [exact H1|]. apply C_canon, H2.
Qed.
(* into and out of the Montgomery representation *)
Lemma L_nres : forall w v, rep 7 w v -> exists c, fp_nres w = Some c /\ fp_wf 1 2 c /\ fp_val c = mkq v.
Proof. intros w v R. apply outR, fp_nres_ok, R. Qed.
Lemma L_redc : forall l a, fp_wf l FEX a -> 1 <= l <= 31 ->
  exists w, fp_redc a = Some w /\ length w = 7%nat /\ digs w /\ 0 <= lval w <= q381 /\ mkq (lval w) = fp_val a.
Proof.
  intros l a A L. destruct (ok_ex _ _ (fp_redc_ok l FEX _ a (toR _ _ _ A) L ltac:(unfold FEX; lia))) as (w & E & (R1 & R2 & _) & V & B).
  exists w. auto.
Qed.

(* ------------------------- F_q2 --------------------------------------- *)
Lemma L2_add : forall l m E F a b, fp2_wf l E a -> fp2_wf m F b -> 1 <= l -> 1 <= m -> l + m <= 31 -> E + F <= FEX ->
  exists c, fp2_add a b = Some c /\ fp2_wf (l + m) (E + F) c /\ fp2_val c = gadd (fp2_val a) (fp2_val b).
Proof. intros. apply outR2. apply fp2_add_ok; [apply toR2; assumption..|lia|lia|lia|unfold FEX in *; lia]. Qed.
Lemma L2_sub : forall l m E F a b, fp2_wf l E a -> fp2_wf m F b -> 1 <= l -> 1 <= m -> l + (3 * m + 1) <= 31 -> E + (5 * F - 1) <= FEX ->
  exists c, fp2_sub a b = Some c /\ fp2_wf (l + (3 * m + 1)) (E + (5 * F - 1)) c /\ fp2_val c = gsub (fp2_val a) (fp2_val b).
Proof. intros. apply outR2. apply fp2_sub_ok; [apply toR2; assumption..|lia|lia|lia|unfold FEX in *; lia]. Qed.
Lemma L2_neg : forall l E a, fp2_wf l E a -> 1 <= l -> 3 * l + 1 <= 31 -> 5 * E - 1 <= FEX ->
  exists c, fp2_neg a = Some c /\ fp2_wf (3 * l + 1) (5 * E - 1) c /\ fp2_val c = gopp (fp2_val a).
Proof. intros. apply outR2. apply fp2_neg_ok; [apply toR2; assumption|lia|lia|unfold FEX in *; lia]. Qed.
Lemma L2_conj : forall l E a, fp2_wf l E a -> 1 <= l <= 30 -> 2 * E - 1 <= FEX ->
  exists c, fp2_conj a = Some c /\ fp2_wf l (2 * E - 1) c /\ fp2_val c = gconj (fp2_val a).
Proof. intros. apply outR2. apply fp2_conj_ok; [apply toR2; assumption|lia|unfold FEX in *; lia]. Qed.
Lemma L2_mul : forall l m a b, fp2_wf l FEX a -> fp2_wf m 8388608 b -> 1 <= l <= 8 -> 1 <= m <= 8 ->
  exists c, fp2_mul a b = Some c /\ fp2_wf 1 3 c /\ fp2_val c = gmul (fp2_val a) (fp2_val b).
Proof. intros. apply outR2. eapply fp2_mul_ok; [apply toR2; eassumption..|lia|lia|unfold FEX in *; lia|lia]. Qed.
Lemma L2_sqr : forall l E a, fp2_wf l E a -> 1 <= l <= 8 -> 3 * E - 1 <= FEX ->
  exists c, fp2_sqr a = Some c /\ fp2_wf 1 2 c /\ fp2_val c = gmul (fp2_val a) (fp2_val a).
Proof. intros. apply outR2. eapply fp2_sqr_ok; [apply toR2; eassumption|lia|lia|lia|unfold FEX in *; lia]. Qed.
Lemma ginv_r x : x <> g0 -> gmul (ginv x) x = g1.
Proof. intros H. pose proof (Finv_l Fq2_field x H) as G. exact G. Qed.
Lemma L2_inverse : forall l a, fp2_wf l FEX a -> 1 <= l <= 31 ->
  exists c, fp2_inverse a = Some c /\ fp2_wf 1 2 c /\ (fp2_val a <> g0 -> gmul (fp2_val c) (fp2_val a) = g1).
Proof.
  intros l a A L. destruct (outR2 _ _ _ _ (fp2_inverse_ok l FEX _ a (toR2 _ _ _ A) L ltac:(unfold FEX; lia))) as (c & E & W & V).
  exists c. split; [exact E|]. split; [exact W|]. rewrite V. apply ginv_r.
Qed.
Lemma L2_mul_ip : forall l E a, fp2_wf l E a -> 1 <= l -> 2 * l + 1 <= 31 -> 3 * E - 1 <= FEX ->
  exists c, fp2_mul_ip a = Some c /\ fp2_wf (2 * l + 1) (3 * E - 1) c /\ fp2_val c = gmul (f1, f1) (fp2_val a).
Proof. intros. apply outR2. apply fp2_mul_ip_ok; [apply toR2; assumption|lia|lia|unfold FEX in *; lia]. Qed.
Lemma L2_pmul : forall l m a s, fp2_wf l FEX a -> fp_wf m FEX s -> 1 <= l <= 8 -> 1 <= m <= 8 ->
  exists c, fp2_pmul a s = Some c /\ fp2_wf 1 2 c /\ fp2_val c = gmul (fp2_val a) (fp_val s, f0).
Proof. intros. apply outR2. eapply fp2_pmul_ok; [apply toR2; eassumption|apply toR; eassumption|lia|lia|unfold FEX in *; lia|unfold FEX in *; lia]. Qed.
Lemma L2_equals : forall l m a b, fp2_wf l FEX a -> fp2_wf m FEX b -> 1 <= l <= 31 -> 1 <= m <= 31 ->
  exists r a' b', fp2_equals a b = Some (r, a', b') /\ (r = true <-> fp2_val a = fp2_val b) /\
    fp2_val a' = fp2_val a /\ fp2_val b' = fp2_val b.
Proof.
  intros l m a b A B L M.
  destruct (ok_ex _ _ (fp2_equals_ok l m FEX FEX _ _ a b (toR2 _ _ _ A) (toR2 _ _ _ B) L M ltac:(unfold FEX; lia) ltac:(unfold FEX; lia)))
    as ([[r a'] b'] & E & H1 & H2 & H3).
  exists r, a', b'. split; [exact E|]. split; [exact H1|]. apply fp2R_wfv in H2, H3. tauto.
Qed.
Lemma L2_iszilch : forall l a, fp2_wf l FEX a -> 1 <= l <= 31 ->
  exists r a', fp2_iszilch a = Some (r, a') /\ (r = true <-> fp2_val a = g0) /\ fp2_canon a' /\ fp2_val a' = fp2_val a.
Proof.
  intros l a A L. destruct (ok_ex _ _ (fp2_iszilch_ok l FEX _ a (toR2 _ _ _ A) L ltac:(unfold FEX; lia))) as ([r a'] & E & H1 & H2).
  exists r, a'. split; [exact E|]. split; [exact H1|]. pose proof (fp2C_R _ _ H2) as R2. apply fp2R_wfv in R2.
  destruct H2 as [C1 C2]. apply C_canon in C1, C2. split; [split; [apply C1|apply C2]|apply R2].
Qed.
Lemma L2_sqrt : forall l a, fp2_wf l FEX a -> 1 <= l <= 31 ->
  exists f c, fp2_sqrt a = Some (f, c) /\
    (f = true -> fp2_wf 1 2 c /\ gmul (fp2_val c) (fp2_val c) = fp2_val a /\ exists u, fst (fp2_val c) = fmul u u) /\
    (f = true <-> (exists y, fp2_val a = gmul y y) /\ (snd (fp2_val a) = f0 -> exists y, fst (fp2_val a) = fmul y y)).
Proof.
  intros l a A L. destruct (ok_ex _ _ (fp2_sqrt_ok l FEX _ a (toR2 _ _ _ A) L ltac:(unfold FEX; lia))) as ([f c] & E & H1 & H2 & H3).
  exists f, c. split; [exact E|]. split; [|exact H3]. intros F. destruct (H1 F) as (v & R & V & RS & _). apply fp2R_wfv in R.
  destruct R as [R1 R2]. rewrite R2. auto.
Qed.
(* -1 is a square in F_q2 for which the routine reports failure *)
Lemma L2_sqrt_refuted : exists a y c, fp2_wf 2 3 a /\ fp2_val a = gmul y y /\ fp2_sqrt a = Some (false, c).
Proof.
  destruct (ok_ex _ _ fp_one_ok) as (o & _ & O1). destruct (ok_ex _ _ (fp_neg_ok 1 2 _ o O1 ltac:(lia) ltac:(lia))) as (n & _ & N).
  set (a := mkFP2 n fp_new). assert (R : fp2R 2 3 (fopp f1, f0) a).
  { split; [exact N|]. eapply fpR_weak; [apply fp_new_ok|lia|lia]. }
  pose proof R as R'. apply fp2R_wfv in R'. destruct R' as [W V].
  destruct (ok_ex _ _ (fp2_sqrt_ok 2 3 _ a R ltac:(lia) ltac:(lia))) as ([f c] & E & _ & _ & H3).
  exists a, (f0, f1), c. split; [exact W|]. rewrite V. split.
  { unfold gmul. cbn [fst snd]. apply pair_equal_spec. split; ring. }
  rewrite E. f_equal. f_equal. destruct f; [exfalso|reflexivity]. destruct (proj1 H3 eq_refl) as [_ H]. destruct (H eq_refl) as [y Y].
  exact (neg1_nonsquare y (eq_sym Y)).
Qed.

(* ------------------------- curves ------------------------------------- *)
Definition adm2 (a : ECP2) : Prop := ecp2_wf 8 262144 a.
Lemma toE1 l E a : ecp_wf l E a -> ecpR l E (ecp_pt a) a. Proof. apply ecp_wf_R. Qed.
Lemma toE2 l E a : ecp2_wf l E a -> ecp2R l E (ecp2_pt a) a. Proof. apply ecp2_wf_R. Qed.
Lemma outE1 l E p m : ok m (ecpR l E p) -> exists c, m = Some c /\ ecp_wf l E c /\ ecp_pt c = p.
Proof. intros H. apply ok_ex in H. destruct H as (c & E1 & R). exists c. split; [exact E1|]. apply ecpR_wf_pt, R. Qed.
Lemma outE2 l E p m : ok m (ecp2R l E p) -> exists c, m = Some c /\ ecp2_wf l E c /\ ecp2_pt c = p.
Proof. intros H. apply ok_ex in H. destruct H as (c & E1 & R). exists c. split; [exact E1|]. apply ecp2R_wf_pt, R. Qed.
Lemma weak5 a : ecp_wf 1 5 a -> adm a. Proof. intros H. eapply ecp_wf_weak; [exact H|lia|lia]. Qed.
Lemma weak17 a : ecp2_wf 1 17 a -> adm2 a. Proof. intros H. eapply ecp2_wf_weak; [exact H|lia|lia]. Qed.

Lemma K1_add : forall a b, adm a -> adm b -> exists c, ecp_add a b = Some c /\ adm c /\ ecp_pt c = padd1 (ecp_pt a) (ecp_pt b).
Proof.
  intros a b A B. destruct (outE1 _ _ _ _ (ecp_add_ok 8 8 _ _ _ _ a b (toE1 _ _ _ A) (toE1 _ _ _ B) ltac:(lia) ltac:(lia) ltac:(lia) ltac:(lia))) as (c & E & W & P).
  exists c. split; [exact E|]. split; [apply weak5, W|exact P].
Qed.
Lemma K1_dbl : forall a, adm a -> exists c, ecp_dbl a = Some c /\ adm c /\ ecp_pt c = padd1 (ecp_pt a) (ecp_pt a).
Proof.
  intros a A. destruct (outE1 _ _ _ _ (ecp_dbl_ok 8 _ _ a (toE1 _ _ _ A) ltac:(lia) ltac:(lia))) as (c & E & W & P).
  exists c. split; [exact E|]. split; [apply weak5, W|exact P].
Qed.
Lemma K1_sub : forall a b, adm a -> ecp_wf 8 8388608 b -> exists c, ecp_sub a b = Some c /\ adm c /\ ecp_pt c = padd1 (ecp_pt a) (pneg1 (ecp_pt b)).
Proof.
  intros a b A B. destruct (outE1 _ _ _ _ (ecp_sub_ok 8 8 _ _ _ _ a b (toE1 _ _ _ A) (toE1 _ _ _ B) ltac:(lia) ltac:(lia) ltac:(lia) ltac:(lia))) as (c & E & W & P).
  exists c. split; [exact E|]. split; [apply weak5, W|exact P].
Qed.
Lemma K1_neg : forall a, ecp_wf 8 8388608 a -> exists c, ecp_neg a = Some c /\ adm c /\ ecp_pt c = pneg1 (ecp_pt a).
Proof.
  intros a A. destruct (outE1 _ _ _ _ (ecp_neg_ok 8 _ _ a (toE1 _ _ _ A) ltac:(lia) ltac:(lia))) as (c & E & W & P).
  exists c. split; [exact E|]. split; [eapply ecp_wf_weak; [exact W|lia|lia]|exact P].
Qed.
(* affine form: z is one, unless the point is infinity *)
Lemma K1_affine : forall a, adm a -> exists c, ecp_affine a = Some c /\ adm c /\ ecp_pt c = ecp_pt a /\
  (ecp_pt a <> Inf -> fp_val (ez c) = f1).
Proof.
  intros a A. destruct (ok_ex _ _ (ecp_affine_ok 8 _ _ a (toE1 _ _ _ A) ltac:(lia) ltac:(lia))) as (c & E & W).
  exists c. split; [exact E|]. pose proof (ecpA_R 8 16777216 _ _ ltac:(lia) ltac:(lia) W) as R. apply ecpR_wf_pt in R. destruct R as [R P].
  split; [exact R|]. split; [exact P|]. intros N. destruct (ecp_pt a) as [|x y]; [contradiction|].
  destruct W as (_ & _ & _ & W). apply C_canon in W. apply W.
Qed.
Lemma K1_infinity : forall a, adm a -> exists r, ecp_is_infinity a = Some r /\ (r = true <-> ecp_pt a = Inf).
Proof. intros a A. apply ok_ex. eapply ecp_is_infinity_ok; [apply toE1; exact A|lia|lia]. Qed.
Lemma K1_equals : forall a b, adm a -> adm b -> exists r, ecp_equals a b = Some r /\ (r = true <-> ecp_pt a = ecp_pt b).
Proof. intros a b A B. apply ok_ex. eapply ecp_equals_ok; [apply toE1; exact A|apply toE1; exact B|lia..]. Qed.
Lemma K1_mul : forall a e v, ecp_wf 8 8388608 a -> rep 7 e v -> v + 2 < 2 ^ 404 ->
  exists c, ecp_mul a e = Some c /\ adm c /\ ecp_pt c = nmul1 (Z.to_nat v) (ecp_pt a).
Proof.
  intros a e v A R V. destruct (ok_ex _ _ (ecp_mul_ok 8 _ _ a e v (toE1 _ _ _ A) ltac:(lia) ltac:(lia) R V)) as (c & E & W).
  exists c. split; [exact E|]. apply (ecpA_R 1 5 _ _ ltac:(lia) ltac:(lia)) in W. apply ecpR_wf_pt in W. destruct W as [W P].
  split; [apply weak5, W|]. rewrite P. apply zm1_nmul. apply (rep_bound7 _ _ R).
Qed.
Lemma K2_add : forall a b, adm2 a -> adm2 b -> exists c, ecp2_add a b = Some c /\ adm2 c /\ ecp2_pt c = padd2 (ecp2_pt a) (ecp2_pt b).
Proof.
  intros a b A B. destruct (outE2 _ _ _ _ (ecp2_add_ok 8 8 _ _ _ _ a b (toE2 _ _ _ A) (toE2 _ _ _ B) ltac:(lia) ltac:(lia) ltac:(lia) ltac:(lia))) as (c & E & W & P).
  exists c. split; [exact E|]. split; [apply weak17, W|exact P].
Qed.
Lemma K2_dbl : forall a, adm2 a -> exists c, ecp2_dbl a = Some c /\ adm2 c /\ ecp2_pt c = padd2 (ecp2_pt a) (ecp2_pt a).
Proof.
  intros a A. destruct (outE2 _ _ _ _ (ecp2_dbl_ok 8 _ _ a (toE2 _ _ _ A) ltac:(lia) ltac:(lia))) as (c & E & W & P).
  exists c. split; [exact E|]. split; [apply weak17, W|exact P].
Qed.
Lemma K2_sub : forall a b, adm2 a -> adm2 b -> exists c, ecp2_sub a b = Some c /\ adm2 c /\ ecp2_pt c = padd2 (ecp2_pt a) (pneg2 (ecp2_pt b)).
Proof.
  intros a b A B. destruct (outE2 _ _ _ _ (ecp2_sub_ok 8 8 _ _ _ _ a b (toE2 _ _ _ A) (toE2 _ _ _ B) ltac:(lia) ltac:(lia) ltac:(lia) ltac:(lia))) as (c & E & W & P).
  exists c. split; [exact E|]. split; [apply weak17, W|exact P].
Qed.
Lemma K2_neg : forall a, ecp2_wf 8 52428 a -> exists c, ecp2_neg a = Some c /\ adm2 c /\ ecp2_pt c = pneg2 (ecp2_pt a).
Proof.
  intros a A. destruct (outE2 _ _ _ _ (ecp2_neg_ok 8 _ _ a (toE2 _ _ _ A) ltac:(lia) ltac:(lia))) as (c & E & W & P).
  exists c. split; [exact E|]. split; [eapply ecp2_wf_weak; [exact W|lia|lia]|exact P].
Qed.
Lemma K2_affine : forall a, adm2 a -> exists c, ecp2_affine a = Some c /\ adm2 c /\ ecp2_pt c = ecp2_pt a /\
  (ecp2_pt a <> Inf -> fp2_val (e2z c) = g1).
Proof.
  intros a A. destruct (ok_ex _ _ (ecp2_affine_ok 8 _ _ a (toE2 _ _ _ A) ltac:(lia) ltac:(lia))) as (c & E & W).
  exists c. split; [exact E|]. pose proof (ecp2A_R _ _ _ _ W) as R. apply ecp2R_wf_pt in R. destruct R as [R P].
  split; [exact R|]. split; [exact P|]. intros N. destruct (ecp2_pt a) as [|x y]; [contradiction|].
  destruct W as (_ & _ & _ & W). apply fp2R_wfv in W. apply W.
Qed.
Lemma K2_infinity : forall a, adm2 a -> exists r, ecp2_is_infinity a = Some r /\ (r = true <-> ecp2_pt a = Inf).
Proof. intros a A. apply ok_ex. eapply ecp2_is_infinity_ok; [apply toE2; exact A|lia|lia]. Qed.
Lemma K2_equals : forall a b, adm2 a -> adm2 b -> exists r, ecp2_equals a b = Some r /\ (r = true <-> ecp2_pt a = ecp2_pt b).
Proof. intros a b A B. apply ok_ex. eapply ecp2_equals_ok; [apply toE2; exact A|apply toE2; exact B|lia..]. Qed.
Lemma K2_mul : forall a e v, adm2 a -> rep 7 e v -> v + 2 < 2 ^ 404 ->
  exists c, ecp2_mul a e = Some c /\ adm2 c /\ ecp2_pt c = nmul2 (Z.to_nat v) (ecp2_pt a).
Proof.
  intros a e v A R V. destruct (ok_ex _ _ (ecp2_mul_ok 8 _ _ a e v (toE2 _ _ _ A) ltac:(lia) ltac:(lia) R V)) as (c & E & W).
  exists c. split; [exact E|]. apply ecp2A_R in W. apply ecp2R_wf_pt in W. destruct W as [W P].
  split; [apply weak17, W|]. rewrite P. apply zm2_nmul. apply (rep_bound7 _ _ R).
Qed.
(* the spec is an abelian group *)
Lemma group1 : (forall p q, on1 p -> on1 q -> on1 (padd1 p q)) /\ (forall p, on1 p -> on1 (pneg1 p)) /\
  (forall p q r, on1 p -> on1 q -> on1 r -> padd1 p (padd1 q r) = padd1 (padd1 p q) r) /\
  (forall p q, on1 p -> on1 q -> padd1 p q = padd1 q p) /\
  (forall p, padd1 Inf p = p /\ padd1 p Inf = p) /\ (forall p, on1 p -> padd1 p (pneg1 p) = Inf).
Proof.
  split; [exact padd1_on|]. split; [exact pneg1_on|]. split; [intros p q r A B C; exact (eq_sym (padd1_assoc p q r A B C))|].
  split; [exact padd1_comm|]. split; [intros p; split; [apply padd1_0l|apply padd1_0r]|]. intros p A. exact (padd1_neg p A).
Qed.
Lemma group2 : (forall p q, on2 p -> on2 q -> on2 (padd2 p q)) /\ (forall p, on2 p -> on2 (pneg2 p)) /\
  (forall p q r, on2 p -> on2 q -> on2 r -> padd2 p (padd2 q r) = padd2 (padd2 p q) r) /\
  (forall p q, on2 p -> on2 q -> padd2 p q = padd2 q p) /\
  (forall p, padd2 Inf p = p /\ padd2 p Inf = p) /\ (forall p, on2 p -> padd2 p (pneg2 p) = Inf).
Proof.
  split; [exact padd2_on|]. split; [exact pneg2_on|]. split; [intros p q r A B C; exact (eq_sym (padd2_assoc p q r A B C))|].
  split; [exact padd2_comm|]. split; [intros p; split; [apply padd2_0l|apply padd2_0r]|]. intros p A. exact (padd2_neg p A).
Qed.
(* scalars of 404 bits or more overrun the window array *)
Lemma bind_none {A B} (m : option A) (f : A -> option B) : (forall x, m = Some x -> f x = None) -> bind m f = None.
Proof. destruct m as [x|]; intros H; [apply H; reflexivity|reflexivity]. Qed.
Lemma win_recode_panics e v : rep 7 e v -> 2 ^ 404 <= v -> v + 2 < 2 ^ 406 -> win_recode e = None.
Proof.
  intros R V V2. pose proof (rep_nrep _ _ _ R) as N. unfold win_recode. rewrite (parity_spec _ _ N). cbv zeta. rewrite <- bind_assoc.
  destruct (ok_ex _ _ (inc_norm_spec e v 1 N ltac:(lia) ltac:(lia))) as (t & E1 & T).
  match goal with |- bind ?m _ = None => assert (E1' : m = Some t) by exact E1; rewrite E1' end. cbn [bind].
  rewrite (parity_spec _ _ T). rewrite <- bind_assoc.
  destruct (ok_ex _ _ (inc_norm_spec t (v + 1) 1 T ltac:(lia) ltac:(lia))) as (mt & E2 & MT).
  match goal with |- bind ?m _ = None => assert (E2' : m = Some mt) by exact E2; rewrite E2' end. cbn [bind].
  replace (v + 1 + 1) with (v + 2) in MT by lia. cbv zeta.
  set (tt := big_cmove t mt (v mod 2)).
  assert (K : exists u, nrep 7 tt u /\ 2 ^ 404 <= u < 2 ^ 406).
  { unfold tt. destruct T as (T1 & T2 & T3), MT as (M1 & M2 & M3). destruct (Z.eq_dec (v mod 2) 0) as [G|G].
    - rewrite G, cmove0 by congruence. exists (v + 1). split; [split; auto|]. lia.
    - replace (v mod 2) with 1 by (clear - G; mlia). rewrite cmove1 by congruence. exists (v + 2). split; [split; auto|]. lia. }
  destruct K as (u & U1 & U2). clearbody tt.
  assert (UR : rep 7 tt u) by (apply nrep_rep; [exact U1|change (58 * Z.of_nat 7) with 406; lia]).
  rewrite (big_nbits_spec _ _ UR). cbn [bind].
  assert (BL : 405 <= bitlen u).
  { pose proof (bitlen_bound u ltac:(lia)) as B1. pose proof (bitlen_nonneg u) as B2. destruct (Z.le_gt_cases 405 (bitlen u)) as [G|G]; [exact G|exfalso].
    assert (2 ^ bitlen u <= 2 ^ 404) by (apply Z.pow_le_mono_r; lia). lia. }
  set (nb := Z.to_nat (1 + (bitlen u + 3) / 4)). assert (NB : (103 <= nb)%nat) by (unfold nb; clear - BL; mlia).
  destruct (Nat.leb_spec 103 nb); [reflexivity|lia].
Qed.
Lemma K1_mul_panics : forall a e v, adm a -> ecp_pt a <> Inf -> rep 7 e v -> 2 ^ 404 <= v -> v + 2 < 2 ^ 406 -> ecp_mul a e = None.
Proof.
  intros a e v A NI R V1 V2. unfold ecp_mul. rewrite (iszilch_spec e v (rep_nrep _ _ _ R)) by lia.
  destruct (Z.eqb_spec v 0); [lia|]. destruct (K1_infinity a A) as (r & E & RI). rewrite E. cbn [bind].
  destruct r; [exfalso; apply NI, RI; reflexivity|]. apply bind_none. intros q _. apply bind_none. intros tl _.
  rewrite (win_recode_panics e v R V1 V2). reflexivity.
Qed.
Lemma K2_mul_panics : forall a e v, adm2 a -> ecp2_pt a <> Inf -> rep 7 e v -> 2 ^ 404 <= v -> v + 2 < 2 ^ 406 -> ecp2_mul a e = None.
Proof.
  intros a e v A NI R V1 V2. unfold ecp2_mul. destruct (K2_infinity a A) as (r & E & RI). rewrite E. cbn [bind].
  destruct r; [exfalso; apply NI, RI; reflexivity|]. apply bind_none. intros q _. apply bind_none. intros tl _.
  rewrite (win_recode_panics e v R V1 V2). reflexivity.
Qed.
