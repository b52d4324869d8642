(* Correctness of ecp.rs against the affine group law of y^2 = x^3 + 4. *)
From Coq Require Import Lia ZifyBool Znumtheory Field.
From Verif Require Import Prim PrimP Rom Big BigP BigP2 BigP3 BigP4 BigP5 NumT FieldQ FieldQ2 Fp FpP FpP2 Fp2P SpecCurve CurveP GroupP Ecp WinP.

Notation pt1 := (pt Fq).
Notation on1 := (on_curve Fq fadd fmul fb).
Notation padd1 := (padd Fq f1 fadd fmul fsub fopp fdiv Fq_dec).
Notation pneg1 := (pneg Fq fopp).
Notation prep1 := (prep Fq f0 fmul).
Notation nmul1 := (nmul Fq f1 fadd fmul fsub fopp fdiv Fq_dec).
Notation psum1 := (psum Fq f1 fadd fmul fsub fopp fdiv Fq_dec).

(* a denotes the point p: projective coordinates with limb bound l and excess E *)
Definition ecpR (l E : Z) (p : pt1) (a : ECP) : Prop :=
  on1 p /\ exists X Y Z, fpR l E X (ex a) /\ fpR l E Y (ey a) /\ fpR l E Z (ez a) /\ prep1 X Y Z p.

Ltac fstep :=
  rewrite ?bind_assoc;
  match goal with
  | |- ok (bind (fp_mul _ _) _) _ => eapply ok_bind; [eapply fp_mul_ok; [eassumption|eassumption|lia..]|]
  | |- ok (bind (fp_sqr _) _) _ => eapply ok_bind; [eapply fp_sqr_ok; [eassumption|lia..]|]
  | |- ok (bind (fp_add _ _) _) _ => eapply ok_bind; [eapply fp_add_ok; [eassumption|eassumption|lia..]|]
  | |- ok (bind (fp_sub _ _) _) _ => eapply ok_bind; [eapply fp_sub_ok; [eassumption|eassumption|lia..]|]
  | |- ok (bind (fp_rsub _ _) _) _ => eapply ok_bind; [eapply fp_rsub_ok; [eassumption|eassumption|lia..]|]
  | |- ok (bind (fp_dbl _) _) _ => eapply ok_bind; [eapply fp_dbl_ok; [eassumption|lia..]|]
  | |- ok (bind (fp_neg _) _) _ => eapply ok_bind; [eapply fp_neg_ok; [eassumption|lia..]|]
  | |- ok (bind (fp_norm _) _) _ => eapply ok_bind; [eapply fp_norm_ok; [eassumption|lia..]|]
  | |- ok (bind (fp_imul _ _) _) _ => eapply ok_bind; [eapply fp_imul_ok; [eassumption|lia..]|]
  | |- ok (bind (fp_reduce _) _) _ => eapply ok_bind; [eapply fp_reduce_ok1; [eassumption|lia..]|]
  end; let r := fresh "r" in let R := fresh "R" in intros r R.

Lemma fb3 : mkq 12 = fadd (fadd fb fb) fb.
Proof. unfold fb. rewrite <- !mkq_add. reflexivity. Qed.

(* instances of the group facts *)
Lemma on1_inf : on1 Inf. Proof. exact I. Qed.
Definition padd1_on := padd_on Fq f0 f1 fadd fmul fsub fopp fdiv finv Fq_field Fq_dec fb two_nz fb_noroot.
Definition pneg1_on := pneg_on Fq f0 f1 fadd fmul fsub fopp fdiv finv Fq_field fb.
Definition padd1_comm := padd_comm Fq f0 f1 fadd fmul fsub fopp fdiv finv Fq_field Fq_dec fb two_nz fb_noroot.
Definition padd1_neg := padd_neg_r Fq f0 f1 fadd fmul fsub fopp fdiv finv Fq_field Fq_dec fb.
Definition padd1_assoc := padd_assoc Fq f0 f1 fadd fmul fsub fopp fdiv finv Fq_field Fq_dec fb two_nz fb_noroot.
Definition add1_prep := add_prep Fq f0 f1 fadd fmul fsub fopp fdiv finv Fq_field Fq_dec fb two_nz fb_noroot.
Definition dbl1_prep := dbl_prep Fq f0 f1 fadd fmul fsub fopp fdiv finv Fq_field Fq_dec fb two_nz fb_noroot.

Lemma ecpR_weak l E l' E' p a : ecpR l E p a -> 1 <= l <= l' -> E <= E' -> ecpR l' E' p a.
Proof.
  intros (O & X & Y & Z & A & B & C & P) L M. split; [exact O|]. exists X, Y, Z.
  split; [eapply fpR_weak; eauto|]. split; [eapply fpR_weak; eauto|]. split; [eapply fpR_weak; eauto|exact P].
Qed.
Lemma ecpR_inf o : fpR 1 2 f1 o -> ecpR 1 2 Inf (mkECP fp_new o fp_new).
Proof.
  intros O. split; [exact I|]. exists f0, f1, f0. cbn [ex ey ez].
  split; [eapply fpR_weak; [exact fp_new_ok|lia|lia]|]. split; [exact O|].
  split; [eapply fpR_weak; [exact fp_new_ok|lia|lia]|].
  cbn [prep]. split; [reflexivity|]. split; [reflexivity|exact f1_neq_0].
Qed.
Lemma ecp_new_ok : ok ecp_new (ecpR 1 2 Inf).
Proof. unfold ecp_new. eapply ok_bind; [apply (fp_new_int_ok 1); lia|]. intros o O. apply ecpR_inf. exact O. Qed.
Lemma ecp_inf_ok : ok ecp_inf (ecpR 1 2 Inf).
Proof. unfold ecp_inf. eapply ok_bind; [apply fp_one_ok|]. intros o O. apply ecpR_inf. exact O. Qed.

Lemma ecp_add_ok l m E F p q a b : ecpR l E p a -> ecpR m F q b -> 1 <= l <= 8 -> 1 <= m <= 8 ->
  E <= 16777216 -> F <= 16777216 -> ok (ecp_add a b) (ecpR 1 5 (padd1 p q)).
Proof.
  intros (OP & X1 & Y1 & Z1 & A1 & A2 & A3 & P) (OQ & X2 & Y2 & Z2 & B1 & B2 & B3 & Q) L M HE HF.
  unfold ecp_add. change (3 * CURVE_B_I) with 12. cbv zeta.
  repeat fstep. cbn [ok]. pose proof (add1_prep _ _ _ _ _ _ _ _ OP OQ P Q) as PR. rewrite <- fb3 in PR.
  split; [apply padd1_on; assumption|].
  do 3 eexists. cbn [ex ey ez].
  split; [eapply fpR_weak; [eassumption|lia|lia]|]. split; [eapply fpR_weak; [eassumption|lia|lia]|].
  split; [eapply fpR_weak; [eassumption|lia|lia]|].
  match goal with |- prep1 ?a ?b ?c _ => 
    assert (EX : a = AX Fq fadd fmul fsub X1 Y1 Z1 X2 Y2 Z2 (mkq 12)) by (unfold AX; ring);
    assert (EY : b = AY Fq f1 fadd fmul fsub X1 Y1 Z1 X2 Y2 Z2 (mkq 12)) by (unfold AY; ring);
    assert (EZ : c = AZ Fq f1 fadd fmul X1 Y1 Z1 X2 Y2 Z2 (mkq 12)) by (unfold AZ; ring) end.
  rewrite EX, EY, EZ. exact PR.
Qed.

Lemma ecp_dbl_ok l E p a : ecpR l E p a -> 1 <= l <= 8 -> E <= 16777216 -> ok (ecp_dbl a) (ecpR 1 5 (padd1 p p)).
Proof.
  intros (OP & X & Y & Z & A1 & A2 & A3 & P) L HE. unfold ecp_dbl. change (3 * CURVE_B_I) with 12.
  repeat fstep. cbn [ok]. pose proof (dbl1_prep _ _ _ _ OP P) as PR. rewrite <- fb3 in PR.
  split; [apply padd1_on; assumption|].
  do 3 eexists. cbn [ex ey ez].
  split; [eapply fpR_weak; [eassumption|lia|lia]|]. split; [eapply fpR_weak; [eassumption|lia|lia]|].
  split; [eapply fpR_weak; [eassumption|lia|lia]|].
  match goal with |- prep1 ?a ?b ?c _ => 
    assert (EX : a = DX Fq f1 fadd fmul fsub X Y Z (mkq 12)) by (unfold DX; ring);
    assert (EY : b = DY Fq f1 fadd fmul fsub X Y Z (mkq 12)) by (unfold DY; ring);
    assert (EZ : c = DZ Fq f1 fadd fmul X Y Z) by (unfold DZ; ring) end.
  rewrite EX, EY, EZ. exact PR.
Qed.

Lemma ecp_neg_ok l E p a : ecpR l E p a -> 1 <= l <= 8 -> 2 * E - 1 <= 33554432 -> ok (ecp_neg a) (ecpR l (2 * E - 1) (pneg1 p)).
Proof.
  intros (OP & X & Y & Z & A1 & A2 & A3 & P) L HE. unfold ecp_neg.
  assert (1 <= E) by (destruct A1 as (_ & _ & _ & A1 & _); lia).
  repeat fstep. cbn [ok]. split; [apply pneg1_on; exact OP|]. exists X, (fopp Y), Z. cbn [ex ey ez].
  split; [eapply fpR_weak; [eassumption|lia|lia]|]. split; [eapply fpR_weak; [eassumption|lia|lia]|].
  split; [eapply fpR_weak; [eassumption|lia|lia]|].
  destruct p as [|x y]; cbn [pneg prep] in *.
  - destruct P as (P1 & P2 & P3). split; [exact P1|]. split; [exact P2|]. intros N. apply P3. apply fopp_eq0. exact N.
  - destruct P as (P1 & P2 & P3). split; [exact P1|]. split; [exact P2|]. rewrite P3. ring.
Qed.
Lemma ecp_sub_ok l m E F p q a b : ecpR l E p a -> ecpR m F q b -> 1 <= l <= 8 -> 1 <= m <= 8 ->
  E <= 16777216 -> F <= 8388608 -> ok (ecp_sub a b) (ecpR 1 5 (padd1 p (pneg1 q))).
Proof.
  intros P Q L M HE HF. unfold ecp_sub. eapply ok_bind; [eapply ecp_neg_ok; eauto; lia|]. intros n N.
  eapply ecp_add_ok; [exact P|exact N|lia..].
Qed.

Lemma prep1_inf X Y Z p : prep1 X Y Z p -> X = f0 /\ Z = f0 <-> p = Inf.
Proof.
  destruct p as [|x y]; cbn [prep]; intros (A & B & C).
  - split; [reflexivity|]. intros _. split; assumption.
  - split; [intros [_ G]; contradiction|discriminate].
Qed.
Lemma ecp_is_infinity_ok l E p a : ecpR l E p a -> 1 <= l <= 31 -> E <= 33554432 ->
  ok (ecp_is_infinity a) (fun b => b = true <-> p = Inf).
Proof.
  intros (OP & X & Y & Z & A1 & A2 & A3 & P) L HE. pose proof (prep1_inf _ _ _ _ P) as PI. unfold ecp_is_infinity.
  eapply ok_bind; [eapply (fp_iszilch_ok l E); eauto; lia|]. intros [zx r] [Z1 _]. destruct zx.
  - eapply ok_bind; [eapply (fp_iszilch_ok l E); eauto; lia|]. intros [zz r2] [Z2 _]. cbn [ok].
    rewrite Z2, <- PI. destruct Z1 as [Z1 _]. specialize (Z1 eq_refl). split; [intros G; split; assumption|intros [_ G]; exact G].
  - cbn [ok]. rewrite <- PI. split; [discriminate|]. intros [G _]. apply Z1 in G. discriminate.
Qed.

Lemma ecp_equals_ok l m E F p q a b : ecpR l E p a -> ecpR m F q b -> 1 <= l <= 8 -> 1 <= m <= 8 ->
  E <= 33554432 -> F <= 33554432 -> ok (ecp_equals a b) (fun r => r = true <-> p = q).
Proof.
  intros (OP & X1 & Y1 & Z1 & A1 & A2 & A3 & P) (OQ & X2 & Y2 & Z2 & B1 & B2 & B3 & Q) L M HE HF.
  unfold ecp_equals.
  pose proof (prep_eq_iff Fq f0 f1 fadd fmul fsub fopp fdiv finv Fq_field Fq_dec _ _ _ _ _ _ _ _ P Q) as PE.
  repeat fstep. eapply ok_bind; [eapply fp_equals_ok; [eassumption|eassumption|lia..]|]. intros [[e u] v] (EX & _).
  destruct e; cbn [negb].
  - repeat fstep. eapply ok_bind; [eapply fp_equals_ok; [eassumption|eassumption|lia..]|]. intros [[e u'] v'] (EY & _).
    cbn [ok]. rewrite EY, <- PE. destruct EX as [EX _]. specialize (EX eq_refl).
    split; [intros G; split; assumption|intros [_ G]; exact G].
  - cbn [ok]. rewrite <- PE. split; [discriminate|]. intros [G _]. apply EX in G. discriminate.
Qed.

(* the affine form of a point *)
Definition ecpA (l E : Z) (p : pt1) (a : ECP) : Prop :=
  match p with
  | Inf => ecpR l E Inf a
  | Aff x y => on1 p /\ fpR l E x (ex a) /\ fpR l E y (ey a) /\ fpC f1 (ez a)
  end.
Lemma ecpA_R l E p a : 1 <= l -> 1 <= E -> ecpA l E p a -> ecpR l E p a.
Proof.
  intros L HE. destruct p as [|x y]; cbn [ecpA]; [auto|]. intros (O & A & B & C). split; [exact O|].
  exists x, y, f1. split; [exact A|]. split; [exact B|]. split; [eapply fpR_weak; [apply fpC_R; exact C|lia|lia]|].
  cbn [prep]. split; [exact f1_neq_0|]. split; ring.
Qed.
Lemma ecp_affine_ok l E p a : ecpR l E p a -> 1 <= l <= 8 -> E <= 33554432 ->
  ok (ecp_affine a) (ecpA l E p).
Proof.
  intros H L HE. unfold ecp_affine.
  eapply ok_bind; [eapply (ecp_is_infinity_ok l E); eauto; lia|]. intros b B. destruct b.
  - destruct B as [B _]. rewrite (B eq_refl) in H |- *. exact H.
  - destruct H as (OP & X & Y & Z & A1 & A2 & A3 & P).
    destruct p as [|x y]; [destruct B as [_ B]; discriminate (B eq_refl)|]. cbn [prep] in P. destruct P as (P1 & P2 & P3).
    eapply ok_bind; [apply (fp_new_int_ok 1); lia|]. intros one ONE. change (mkq 1) with f1 in ONE.
    eapply ok_bind; [eapply fp_equals_ok; [eassumption|eassumption|lia..]|]. intros [[e z] one'] (EX & ZC & OC).
    destruct e.
    + destruct EX as [EX _]. specialize (EX eq_refl). cbn [ok ecpA]. cbn [ex ey ez]. subst Z. split; [exact OP|].
      assert (EX1 : X = x) by (rewrite P2; ring). assert (EY1 : Y = y) by (rewrite P3; ring).
      rewrite EX1 in A1. rewrite EY1 in A2. split; [exact A1|]. split; [exact A2|exact ZC].
    + apply fpC_R in ZC. eapply ok_bind; [eapply (fp_inverse_ok 1 1); [eassumption|lia..]|]. intros zi ZI. apply fpC_R in ZI.
      assert (1 <= E) by (destruct A1 as (_ & _ & _ & A1 & _); lia).
      repeat fstep. cbn [ok ecpA]. cbn [ex ey ez]. split; [exact OP|].
      split; [eapply fpR_eq; [eapply fpR_weak; [eassumption|lia|lia]|rewrite P2; field; exact P1]|].
      split; [eapply fpR_eq; [eapply fpR_weak; [eassumption|lia|lia]|rewrite P3; field; exact P1]|exact OC].
Qed.

(* ------------------------- scalar multiplication --------------------- *)
Notation zm1 := (zm pt1 padd1 Inf pneg1).
Definition wf1 (a : ECP) : Prop := length (fx (ex a)) = 7%nat /\ length (fx (ey a)) = 7%nat /\ length (fx (ez a)) = 7%nat.
Lemma ecpR_wf l E p a : ecpR l E p a -> wf1 a.
Proof. intros (_ & X & Y & Z & (A & _) & (B & _) & (C & _) & _). split; [exact A|]. split; [exact B|exact C]. Qed.
Lemma ecp_cmove0 a b : wf1 a -> wf1 b -> ecp_cmove a b 0 = a.
Proof.
  intros (A1 & A2 & A3) (B1 & B2 & B3). unfold ecp_cmove. rewrite !fp_cmove0 by congruence. destruct a; reflexivity.
Qed.
Lemma ecp_cmove1 a b : wf1 a -> wf1 b -> ecp_cmove a b 1 = b.
Proof.
  intros (A1 & A2 & A3) (B1 & B2 & B3). unfold ecp_cmove. rewrite !fp_cmove1 by congruence. destruct b; reflexivity.
Qed.

Lemma padd1_0l p : padd1 Inf p = p. Proof. reflexivity. Qed.
Lemma padd1_0r p : padd1 p Inf = p. Proof. destruct p; reflexivity. Qed.
Ltac g1s := first [exact on1_inf|exact padd1_on|exact pneg1_on|exact padd1_0l|exact padd1_0r|exact padd1_comm|
  exact padd1_neg|exact padd1_assoc|assumption].
Lemma zm1_on k p : on1 p -> on1 (zm1 k p). Proof. intros. eapply zm_on; g1s. Qed.
Lemma zm1_0 p : zm1 0 p = Inf. Proof. reflexivity. Qed.
Lemma zm1_1 p : zm1 1 p = p. Proof. eapply zm_1; g1s. Qed.
Lemma zm1_2 p : zm1 2 p = padd1 p p. Proof. eapply zm_2; g1s. Qed.
Lemma zm1_add a b p : on1 p -> zm1 (a + b) p = padd1 (zm1 a p) (zm1 b p). Proof. intros. eapply zm_add; g1s. Qed.
Lemma zm1_opp k p : on1 p -> zm1 (- k) p = pneg1 (zm1 k p). Proof. intros. eapply zm_opp; g1s. Qed.
Lemma zm1_mul a b p : on1 p -> zm1 (a * b) p = zm1 a (zm1 b p). Proof. intros. eapply zm_mul; g1s. Qed.
Lemma zm1_dist k p q : on1 p -> on1 q -> zm1 k (padd1 p q) = padd1 (zm1 k p) (zm1 k q). Proof. intros. eapply zm_dist; g1s. Qed.
Lemma zm1_neg k p : on1 p -> zm1 k (pneg1 p) = pneg1 (zm1 k p). Proof. intros. eapply zm_neg; g1s. Qed.
Lemma zm1_zero k : zm1 k Inf = Inf. Proof. eapply zm_zero; g1s. Qed.
Lemma zm1_mod k n p : on1 p -> zm1 n p = Inf -> n <> 0 -> zm1 (k mod n) p = zm1 k p. Proof. intros. eapply zm_mod; g1s. Qed.
Lemma nm_nmul1 n p : nm pt1 padd1 Inf n p = nmul1 n p.
Proof. induction n as [|n IH]; [reflexivity|]. cbn [nm nmul]. rewrite IH. reflexivity. Qed.
Lemma zm1_nmul k p : 0 <= k -> zm1 k p = nmul1 (Z.to_nat k) p.
Proof. intros K. rewrite zm_nonneg by exact K. apply nm_nmul1. Qed.
Lemma zm1_double k p : on1 p -> padd1 (zm1 k p) (zm1 k p) = zm1 (2 * k) p.
Proof. intros O. rewrite <- zm1_add by exact O. f_equal. lia. Qed.

Definition tab1 (l E : Z) (p : pt1) (W : list ECP) : Prop :=
  length W = 8%nat /\ forall k a, nth_error W k = Some a -> ecpR l E (zm1 (2 * Z.of_nat k + 1) p) a.
Lemma tab1_wf l E p W : tab1 l E p W -> Forall wf1 W.
Proof.
  intros [_ H]. apply Forall_forall. intros a A. apply In_nth_error in A. destruct A as [k A]. apply H in A.
  eapply ecpR_wf; eauto.
Qed.
Lemma tab1_get l E p W k : tab1 l E p W -> (k < 8)%nat -> exists a, getM W k = Some a /\ ecpR l E (zm1 (2 * Z.of_nat k + 1) p) a.
Proof.
  intros [L H] K. unfold getM. destruct (nth_error W k) as [a|] eqn:G; [exists a; split; [reflexivity|apply H; exact G]|].
  apply nth_error_None in G. lia.
Qed.
Lemma ecp_selector_ok l E p W self d : tab1 l E p W -> on1 p -> wf1 self -> wdig d -> 1 <= l <= 8 -> 2 * E - 1 <= 33554432 ->
  ok (ecp_selector self W d) (ecpR l (2 * E - 1) (zm1 d p)).
Proof.
  intros T OP WS D L HE. unfold ecp_selector. destruct (wdig_case d D) as (k & K & SB & C). rewrite SB. cbn [bind].
  rewrite (sel_fold wf1 ecp_cmove ecp_cmove0 ecp_cmove1 W k K (proj1 T) (tab1_wf _ _ _ _ T) 8 0 self WS ltac:(lia)).
  destruct (tab1_get _ _ _ _ _ T K) as (a & G & A).
  destruct (Nat.leb_spec 0 k); [|lia]. destruct (Nat.ltb_spec k (0 + 8)); [|lia]. cbn [andb]. rewrite G. cbn [bind].
  assert (1 <= E) by (destruct A as (_ & ? & ? & ? & (_ & _ & _ & A1 & _) & _); lia).
  eapply ok_bind; [eapply ecp_neg_ok; [exact A|lia|lia]|]. intros n N. cbn [ok].
  pose proof (ecpR_wf _ _ _ _ A) as WA. pose proof (ecpR_wf _ _ _ _ N) as WN.
  destruct C as [[-> S1]|[-> S1]]; rewrite S1.
  - rewrite ecp_cmove0 by assumption. eapply ecpR_weak; [exact A|lia|lia].
  - rewrite ecp_cmove1 by assumption. rewrite zm1_opp by exact OP. exact N.
Qed.

Lemma ecp_wtable_ok l E p q : ecpR 1 5 (zm1 2 p) q -> on1 p -> 1 <= l <= 8 -> 5 <= E <= 16777216 ->
  forall n k last, 0 <= k -> ecpR l E (zm1 (2 * k + 1) p) last ->
  ok (ecp_wtable n last q) (fun W => length W = n /\ forall i a, nth_error W i = Some a -> ecpR l E (zm1 (2 * (k + 1 + Z.of_nat i) + 1) p) a).
Proof.
  intros Q OP L HE. induction n as [|n IH]; intros k last K LA; cbn [ecp_wtable].
  - cbn [ok]. split; [reflexivity|]. intros [|i] a G; discriminate.
  - eapply ok_bind; [eapply ecp_add_ok; [exact LA|exact Q|lia..]|]. intros c C.
    rewrite <- zm1_add in C by exact OP. replace (2 * k + 1 + 2) with (2 * (k + 1) + 1) in C by lia.
    eapply ecpR_weak in C; [|split; [lia|apply (proj1 L)]|apply (proj1 HE)].
    eapply ok_bind; [apply (IH (k + 1) c); [lia|exact C]|]. intros W [W1 W2]. cbn [ok].
    split; [cbn [length]; lia|]. intros [|i] a G; cbn [nth_error] in G.
    + injection G as <-. replace (k + 1 + Z.of_nat 0) with (k + 1) by lia. exact C.
    + apply W2 in G. replace (k + 1 + Z.of_nat (S i)) with (k + 1 + 1 + Z.of_nat i) by lia. exact G.
Qed.

Lemma ecp_mul_step_ok l E p W k r q d : tab1 l E p W -> on1 p -> wdig d -> 1 <= l <= 8 -> 1 <= E <= 8388608 ->
  ecpR l E (zm1 k p) r -> wf1 q -> 5 <= E ->
  ok (ecp_mul_step W (r, q) d) (fun '(r', q') => ecpR l E (zm1 (16 * k + d) p) r' /\ wf1 q').
Proof.
  intros T OP D L HE R Q E5. unfold ecp_mul_step.
  eapply ok_bind; [eapply ecp_selector_ok; eauto; lia|]. intros s SE.
  eapply ok_bind; [eapply ecp_dbl_ok; [exact R|lia|lia]|]. intros r1 R1.
  eapply ok_bind; [eapply ecp_dbl_ok; [exact R1|lia|lia]|]. intros r2 R2.
  eapply ok_bind; [eapply ecp_dbl_ok; [exact R2|lia|lia]|]. intros r3 R3.
  eapply ok_bind; [eapply ecp_dbl_ok; [exact R3|lia|lia]|]. intros r4 R4.
  eapply ok_bind; [eapply ecp_add_ok; [exact R4|exact SE|lia..]|]. intros r5 R5. cbn [ok].
  split; [|eapply ecpR_wf; eauto].
  rewrite !zm1_double in R5 by exact OP. rewrite <- zm1_add in R5 by exact OP.
  replace (16 * k + d) with (2 * (2 * (2 * (2 * k))) + d) by lia. eapply ecpR_weak; [exact R5|lia|lia].
Qed.
Lemma wval_rev ws d : wval (ws ++ [d]) = wval ws + 16 ^ Z.of_nat (length ws) * d.
Proof.
  induction ws as [|w ws IH]; cbn [app wval length]; [change (16 ^ Z.of_nat 0) with 1; lia|].
  rewrite IH. replace (Z.of_nat (S (length ws))) with (1 + Z.of_nat (length ws)) by lia. rewrite Z.pow_add_r by lia.
  change (16 ^ 1) with 16. lia.
Qed.
Lemma ecp_mul_fold_ok l E p W : tab1 l E p W -> on1 p -> 1 <= l <= 8 -> 5 <= E <= 8388608 ->
  forall ws k r q, Forall wdig ws -> ecpR l E (zm1 k p) r -> wf1 q ->
  ok (foldM (ecp_mul_step W) (rev ws) (r, q)) (fun '(r', q') => ecpR l E (zm1 (16 ^ Z.of_nat (length ws) * k + wval ws) p) r').
Proof.
  intros T OP L HE ws. induction ws as [|w ws IH] using rev_ind; intros k r q D R Q.
  - cbn [rev foldM ok length wval]. change (16 ^ Z.of_nat 0) with 1. replace (1 * k + 0) with k by lia. exact R.
  - rewrite rev_app_distr. cbn [rev app foldM]. apply Forall_app in D. destruct D as [D1 D2]. inversion D2; subst.
    eapply ok_bind; [eapply ecp_mul_step_ok; eauto; lia|]. intros [r' q'] [R' Q'].
    eapply ok_impl; [apply (IH _ _ _ D1 R' Q')|]. cbv beta. intros [r2 q2] R2.
    rewrite wval_rev, app_length. cbn [length]. rewrite Nat2Z.inj_add. change (Z.of_nat 1) with 1. rewrite Z.pow_add_r by lia.
    change (16 ^ 1) with 16.
    replace (16 ^ Z.of_nat (length ws) * 16 * k + (wval ws + 16 ^ Z.of_nat (length ws) * w)) with
      (16 ^ Z.of_nat (length ws) * (16 * k + w) + wval ws) by ring. exact R2.
Qed.

Lemma ecp_mul_ok l E p a e v : ecpR l E p a -> 1 <= l <= 8 -> E <= 8388608 -> rep 7 e v -> v + 2 < 2 ^ 404 ->
  ok (ecp_mul a e) (ecpA 1 5 (zm1 v p)).
Proof.
  intros A L HE R V. pose proof (rep_bound7 _ _ R) as VB. unfold ecp_mul.
  rewrite (iszilch_spec e v (rep_nrep _ _ _ R)) by lia.
  assert (N0 : ok ecp_new (ecpR 1 5 Inf)).
  { eapply ok_impl; [exact ecp_new_ok|]. intros r H. eapply ecpR_weak; [exact H|lia|lia]. }
  destruct (Z.eqb_spec v 0) as [->|NZ]; [rewrite zm1_0; exact N0|].
  eapply ok_bind; [eapply ecp_is_infinity_ok; [exact A|lia|lia]|]. intros b B. destruct b.
  { destruct B as [B _]. rewrite (B eq_refl), zm1_zero. exact N0. }
  pose proof (proj1 A) as OP.
  eapply ok_bind; [eapply ecp_dbl_ok; [exact A|lia|lia]|]. intros q Q. rewrite <- zm1_2 in Q.
  set (M := Z.max E 5). assert (AM : ecpR l M (zm1 1 p) a) by (rewrite zm1_1; eapply ecpR_weak; [exact A|lia|lia]).
  eapply ok_bind; [apply (ecp_wtable_ok l M p q Q OP); [lia|lia|apply (Z.le_refl 0)|exact AM]|]. intros tl [T1 T2]. cbv zeta.
  assert (T : tab1 l M p (a :: tl)).
  { split; [cbn [length]; lia|]. intros [|i] b0 G; cbn [nth_error] in G.
    - injection G as <-. exact AM.
    - apply T2 in G. replace (2 * Z.of_nat (S i) + 1) with (2 * (0 + 1 + Z.of_nat i) + 1) by lia. exact G. }
  eapply ok_bind; [apply (win_recode_ok e v R V)|]. intros [[ns ws] top] (TP & WD & NS). subst top.
  pose proof (ecpR_wf _ _ _ _ A) as WA. pose proof (ecpR_wf _ _ _ _ Q) as WQ.
  change (cku64 (1 - 1)) with (Some 0). cbn [bind]. change (getM (a :: tl) (Z.to_nat (0 / 2))) with (Some a). cbn [bind].
  set (c := ecp_cmove q a ns).
  assert (C : wf1 c /\ exists n, ecpR l M (zm1 n p) c /\ v + n = wval ws + 16 ^ Z.of_nat (length ws)).
  { unfold c. destruct NS as [[-> NS]|[-> NS]].
    - rewrite ecp_cmove0 by assumption. split; [exact WQ|]. exists 2. split; [eapply ecpR_weak; [exact Q|lia|lia]|exact NS].
    - rewrite ecp_cmove1 by assumption. split; [exact WA|]. exists 1. split; [exact AM|exact NS]. }
  destruct C as (WC & n & C & CN).
  eapply ok_bind; [apply (ecp_mul_fold_ok l M p (a :: tl) T OP); [lia|lia|exact WD|exact AM|exact WC]|]. intros [r q'] RR.
  eapply ok_bind; [eapply ecp_sub_ok; [exact RR|exact C|lia..]|]. intros s SS.
  rewrite <- zm1_opp, <- zm1_add in SS by exact OP.
  replace (16 ^ Z.of_nat (length ws) * 1 + wval ws + - n) with v in SS by lia.
  eapply ecp_affine_ok; [exact SS|lia|lia].
Qed.
