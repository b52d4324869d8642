(* Correctness of ecp2.rs against the affine group law of y^2 = x^3 + 4(1+i) over F_q2. *)
From Coq Require Import Lia ZifyBool Znumtheory Field.
From Verif Require Import Prim PrimP Rom Big BigP BigP2 BigP3 BigP4 BigP5 NumT FieldQ FieldQ2 Fp FpP FpP2 Fp2 Fp2P SpecCurve CurveP GroupP Ecp WinP Ecp2 EcpP.

Notation pt2 := (pt Fq2).
Notation on2 := (on_curve Fq2 gadd gmul gb).
Notation padd2 := (padd Fq2 g1 gadd gmul gsub gopp gdiv Fq2_dec).
Notation pneg2 := (pneg Fq2 gopp).
Notation prep2 := (prep Fq2 g0 gmul).
Notation nmul2 := (nmul Fq2 g1 gadd gmul gsub gopp gdiv Fq2_dec).
Notation psum2 := (psum Fq2 g1 gadd gmul gsub gopp gdiv Fq2_dec).

(* a denotes the point p: projective coordinates with limb bound l and excess E *)
Definition ecp2R (l E : Z) (p : pt2) (a : ECP2) : Prop :=
  on2 p /\ exists X Y Z, fp2R l E X (e2x a) /\ fp2R l E Y (e2y a) /\ fp2R l E Z (e2z a) /\ prep2 X Y Z p.

Ltac gstep :=
  rewrite ?bind_assoc;
  match goal with
  | |- ok (bind (fp2_mul _ _) _) _ => eapply ok_bind; [eapply fp2_mul_ok; [eassumption|eassumption|lia..]|]
  | |- ok (bind (fp2_sqr _) _) _ => eapply ok_bind; [eapply fp2_sqr_ok; [eassumption|lia..]|]
  | |- ok (bind (fp2_add _ _) _) _ => eapply ok_bind; [eapply fp2_add_ok; [eassumption|eassumption|lia..]|]
  | |- ok (bind (fp2_sub _ _) _) _ => eapply ok_bind; [eapply fp2_sub_ok; [eassumption|eassumption|lia..]|]
  | |- ok (bind (fp2_rsub _ _) _) _ => eapply ok_bind; [eapply fp2_rsub_ok; [eassumption|eassumption|lia..]|]
  | |- ok (bind (fp2_dbl _) _) _ => eapply ok_bind; [eapply fp2_dbl_ok; [eassumption|lia..]|]
  | |- ok (bind (fp2_neg _) _) _ => eapply ok_bind; [eapply fp2_neg_ok; [eassumption|lia..]|]
  | |- ok (bind (fp2_norm _) _) _ => eapply ok_bind; [eapply fp2_norm_ok; [eassumption|lia..]|]
  | |- ok (bind (fp2_imul _ _) _) _ => eapply ok_bind; [eapply fp2_imul_ok; [eassumption|lia..]|]
  | |- ok (bind (fp2_mul_ip _) _) _ => eapply ok_bind; [eapply fp2_mul_ip_ok; [eassumption|lia..]|]
  end; let r := fresh "r" in let R := fresh "R" in intros r R.

Lemma gopp_eq0 y : gopp y = g0 -> y = g0.
Proof. intros H. transitivity (gopp (gopp y)); [ring|]. rewrite H. ring. Qed.
Definition gb12 : Fq2 := gmul gi1 (gemb (mkq 12)).
Lemma gb3 : gb12 = gadd (gadd gb gb) gb.
Proof.
  assert (E : mkq 12 = fadd (fadd (mkq 4) (mkq 4)) (mkq 4)) by (rewrite <- !mkq_add; reflexivity).
  unfold gb12. rewrite E. unfold gb, gi1, gemb, gadd, gmul. cbn [fst snd]. f_equal; ring.
Qed.

(* instances of the group facts *)
Lemma on2_inf : on2 Inf. Proof. exact I. Qed.
Definition padd2_on := padd_on Fq2 g0 g1 gadd gmul gsub gopp gdiv ginv Fq2_field Fq2_dec gb gtwo_nz gb_noroot.
Definition pneg2_on := pneg_on Fq2 g0 g1 gadd gmul gsub gopp gdiv ginv Fq2_field gb.
Definition padd2_comm := padd_comm Fq2 g0 g1 gadd gmul gsub gopp gdiv ginv Fq2_field Fq2_dec gb gtwo_nz gb_noroot.
Definition padd2_neg := padd_neg_r Fq2 g0 g1 gadd gmul gsub gopp gdiv ginv Fq2_field Fq2_dec gb.
Definition padd2_assoc := padd_assoc Fq2 g0 g1 gadd gmul gsub gopp gdiv ginv Fq2_field Fq2_dec gb gtwo_nz gb_noroot.
Definition add2_prep := add_prep Fq2 g0 g1 gadd gmul gsub gopp gdiv ginv Fq2_field Fq2_dec gb gtwo_nz gb_noroot.
Definition dbl2_prep := dbl_prep Fq2 g0 g1 gadd gmul gsub gopp gdiv ginv Fq2_field Fq2_dec gb gtwo_nz gb_noroot.

Lemma ecp2R_weak l E l' E' p a : ecp2R l E p a -> 1 <= l <= l' -> E <= E' -> ecp2R l' E' p a.
Proof.
  intros (O & X & Y & Z & A & B & C & P) L M. split; [exact O|]. exists X, Y, Z.
  split; [eapply fp2R_weak; eauto|]. split; [eapply fp2R_weak; eauto|]. split; [eapply fp2R_weak; eauto|exact P].
Qed.
Lemma ecp2R_inf o : fp2R 1 2 g1 o -> ecp2R 1 2 Inf (mkECP2 fp2_new o fp2_new).
Proof.
  intros O. split; [exact I|]. exists g0, g1, g0. cbn [e2x e2y e2z].
  split; [eapply fp2R_weak; [exact fp2_new_ok|lia|lia]|]. split; [exact O|].
  split; [eapply fp2R_weak; [exact fp2_new_ok|lia|lia]|].
  cbn [prep]. split; [reflexivity|]. split; [reflexivity|exact g1_neq_0].
Qed.
Lemma ecp2_new_ok : ok ecp2_new (ecp2R 1 2 Inf).
Proof. unfold ecp2_new. eapply ok_bind; [apply (fp2_new_int_ok 1); lia|]. intros o O. apply ecp2R_inf. exact O. Qed.
Lemma ecp2_inf_ok : ok ecp2_inf (ecp2R 1 2 Inf).
Proof. unfold ecp2_inf. eapply ok_bind; [apply fp2_one_ok|]. intros o O. apply ecp2R_inf. exact O. Qed.

Lemma ecp2_add_ok l m E F p q a b : ecp2R l E p a -> ecp2R m F q b -> 1 <= l <= 8 -> 1 <= m <= 8 ->
  E <= 2097152 -> F <= 2097152 -> ok (ecp2_add a b) (ecp2R 1 17 (padd2 p q)).
Proof.
  intros (OP & X1 & Y1 & Z1 & A1 & A2 & A3 & P) (OQ & X2 & Y2 & Z2 & B1 & B2 & B3 & Q) L M HE HF.
  unfold ecp2_add. change (3 * CURVE_B_I) with 12. cbv zeta.
  repeat gstep. cbn [ok]. pose proof (add2_prep _ _ _ _ _ _ _ _ OP OQ P Q) as PR. rewrite <- gb3 in PR.
  split; [apply padd2_on; assumption|].
  do 3 eexists. cbn [e2x e2y e2z].
  split; [eapply fp2R_weak; [eassumption|lia|lia]|]. split; [eapply fp2R_weak; [eassumption|lia|lia]|].
  split; [eapply fp2R_weak; [eassumption|lia|lia]|].
  match goal with |- prep2 ?a ?b ?c _ => 
    assert (EX : a = AX Fq2 gadd gmul gsub X1 Y1 Z1 X2 Y2 Z2 gb12) by (unfold AX, gb12; ring);
    assert (EY : b = AY Fq2 g1 gadd gmul gsub X1 Y1 Z1 X2 Y2 Z2 gb12) by (unfold AY, gb12; ring);
    assert (EZ : c = AZ Fq2 g1 gadd gmul X1 Y1 Z1 X2 Y2 Z2 gb12) by (unfold AZ, gb12; ring) end.
  rewrite EX, EY, EZ. exact PR.
Qed.

Lemma ecp2_dbl_ok l E p a : ecp2R l E p a -> 1 <= l <= 8 -> E <= 2097152 -> ok (ecp2_dbl a) (ecp2R 1 17 (padd2 p p)).
Proof.
  intros (OP & X & Y & Z & A1 & A2 & A3 & P) L HE. unfold ecp2_dbl. change (3 * CURVE_B_I) with 12.
  repeat gstep. cbn [ok]. pose proof (dbl2_prep _ _ _ _ OP P) as PR. rewrite <- gb3 in PR.
  split; [apply padd2_on; assumption|].
  do 3 eexists. cbn [e2x e2y e2z].
  split; [eapply fp2R_weak; [eassumption|lia|lia]|]. split; [eapply fp2R_weak; [eassumption|lia|lia]|].
  split; [eapply fp2R_weak; [eassumption|lia|lia]|].
  match goal with |- prep2 ?a ?b ?c _ => 
    assert (EX : a = DX Fq2 g1 gadd gmul gsub X Y Z gb12) by (unfold DX, gb12; ring);
    assert (EY : b = DY Fq2 g1 gadd gmul gsub X Y Z gb12) by (unfold DY, gb12; ring);
    assert (EZ : c = DZ Fq2 g1 gadd gmul X Y Z) by (unfold DZ, gb12; ring) end.
  rewrite EX, EY, EZ. exact PR.
Qed.

Lemma ecp2_neg_ok l E p a : ecp2R l E p a -> 1 <= l <= 8 -> 5 * E - 1 <= 33554432 -> ok (ecp2_neg a) (ecp2R l (5 * E - 1) (pneg2 p)).
Proof.
  intros (OP & X & Y & Z & A1 & A2 & A3 & P) L HE. unfold ecp2_neg.
  assert (1 <= E) by (destruct A1 as ((_ & _ & _ & A1 & _) & _); lia).
  repeat gstep. cbn [ok]. split; [apply pneg2_on; exact OP|]. exists X, (gopp Y), Z. cbn [e2x e2y e2z].
  split; [eapply fp2R_weak; [eassumption|lia|lia]|]. split; [eapply fp2R_weak; [eassumption|lia|lia]|].
  split; [eapply fp2R_weak; [eassumption|lia|lia]|].
  destruct p as [|x y]; cbn [pneg prep] in *.
  - destruct P as (P1 & P2 & P3). split; [exact P1|]. split; [exact P2|]. intros N. apply P3. apply gopp_eq0. exact N.
  - destruct P as (P1 & P2 & P3). split; [exact P1|]. split; [exact P2|]. rewrite P3. ring.
Qed.
Lemma ecp2_sub_ok l m E F p q a b : ecp2R l E p a -> ecp2R m F q b -> 1 <= l <= 8 -> 1 <= m <= 8 ->
  E <= 2097152 -> F <= 262144 -> ok (ecp2_sub a b) (ecp2R 1 17 (padd2 p (pneg2 q))).
Proof.
  intros P Q L M HE HF. unfold ecp2_sub. eapply ok_bind; [eapply ecp2_neg_ok; eauto; lia|]. intros n N.
  eapply ecp2_add_ok; [exact P|exact N|lia..].
Qed.

Lemma prep2_inf X Y Z p : prep2 X Y Z p -> X = g0 /\ Z = g0 <-> p = Inf.
Proof.
  destruct p as [|x y]; cbn [prep]; intros (A & B & C).
  - split; [reflexivity|]. intros _. split; assumption.
  - split; [intros [_ G]; contradiction|discriminate].
Qed.
Lemma ecp2_is_infinity_ok l E p a : ecp2R l E p a -> 1 <= l <= 31 -> E <= 33554432 ->
  ok (ecp2_is_infinity a) (fun b => b = true <-> p = Inf).
Proof.
  intros (OP & X & Y & Z & A1 & A2 & A3 & P) L HE. pose proof (prep2_inf _ _ _ _ P) as PI. unfold ecp2_is_infinity.
  eapply ok_bind; [eapply (fp2_iszilch_ok l E); eauto; lia|]. intros [zx r] [Z1 _]. destruct zx.
  - eapply ok_bind; [eapply (fp2_iszilch_ok l E); eauto; lia|]. intros [zz r2] [Z2 _]. cbn [ok].
    rewrite Z2, <- PI. destruct Z1 as [Z1 _]. specialize (Z1 eq_refl). split; [intros G; split; assumption|intros [_ G]; exact G].
  - cbn [ok]. rewrite <- PI. split; [discriminate|]. intros [G _]. apply Z1 in G. discriminate.
Qed.

Lemma ecp2_equals_ok l m E F p q a b : ecp2R l E p a -> ecp2R m F q b -> 1 <= l <= 8 -> 1 <= m <= 8 ->
  E <= 8388608 -> F <= 8388608 -> ok (ecp2_equals a b) (fun r => r = true <-> p = q).
Proof.
  intros (OP & X1 & Y1 & Z1 & A1 & A2 & A3 & P) (OQ & X2 & Y2 & Z2 & B1 & B2 & B3 & Q) L M HE HF.
  unfold ecp2_equals.
  pose proof (prep_eq_iff Fq2 g0 g1 gadd gmul gsub gopp gdiv ginv Fq2_field Fq2_dec _ _ _ _ _ _ _ _ P Q) as PE.
  repeat gstep. eapply ok_bind; [eapply fp2_equals_ok; [eassumption|eassumption|lia..]|]. intros [[e u] v] (EX & _).
  destruct e; cbn [negb].
  - repeat gstep. eapply ok_bind; [eapply fp2_equals_ok; [eassumption|eassumption|lia..]|]. intros [[e u'] v'] (EY & _).
    cbn [ok]. rewrite EY, <- PE. destruct EX as [EX _]. specialize (EX eq_refl).
    split; [intros G; split; assumption|intros [_ G]; exact G].
  - cbn [ok]. rewrite <- PE. split; [discriminate|]. intros [G _]. apply EX in G. discriminate.
Qed.

(* the affine form of a point *)
Definition ecp2A (l E : Z) (p : pt2) (a : ECP2) : Prop :=
  match p with
  | Inf => ecp2R l E Inf a
  | Aff x y => on2 p /\ fp2R l E x (e2x a) /\ fp2R l E y (e2y a) /\ fp2R l E g1 (e2z a)
  end.
Lemma ecp2A_R l E p a : ecp2A l E p a -> ecp2R l E p a.
Proof.
  destruct p as [|x y]; cbn [ecp2A]; [auto|]. intros (O & A & B & C). split; [exact O|].
  exists x, y, g1. split; [exact A|]. split; [exact B|]. split; [exact C|].
  cbn [prep]. split; [exact g1_neq_0|]. split; ring.
Qed.
Lemma ecp2_affine_ok l E p a : ecp2R l E p a -> 1 <= l <= 8 -> 2 <= E <= 33554432 ->
  ok (ecp2_affine a) (ecp2A l E p).
Proof.
  intros H L HE. unfold ecp2_affine.
  eapply ok_bind; [eapply (ecp2_is_infinity_ok l E); eauto; lia|]. intros b B. destruct b.
  - destruct B as [B _]. rewrite (B eq_refl) in H |- *. exact H.
  - destruct H as (OP & X & Y & Z & A1 & A2 & A3 & P).
    destruct p as [|x y]; [destruct B as [_ B]; discriminate (B eq_refl)|]. cbn [prep] in P. destruct P as (P1 & P2 & P3).
    eapply ok_bind; [apply (fp2_new_int_ok 1); lia|]. intros one ONE. change (gemb (mkq 1)) with g1 in ONE.
    eapply ok_bind; [eapply fp2_equals_ok; [eassumption|eassumption|lia..]|]. intros [[e z] one'] (EX & ZC & OC).
    destruct e.
    + destruct EX as [EX _]. specialize (EX eq_refl). cbn [ok ecp2A]. cbn [e2x e2y e2z]. subst Z. split; [exact OP|].
      assert (EX1 : X = x) by (rewrite P2; ring). assert (EY1 : Y = y) by (rewrite P3; ring).
      rewrite EX1 in A1. rewrite EY1 in A2. split; [exact A1|]. split; [exact A2|exact ZC].
    + eapply ok_bind; [eapply (fp2_inverse_ok l E); [eassumption|lia..]|]. intros zi ZI.
      gstep. eapply ok_bind; [eapply fp2_reduce_ok; [eassumption|lia..]|]. intros u U. apply fp2C_R in U.
      gstep. eapply ok_bind; [eapply fp2_reduce_ok; [eassumption|lia..]|]. intros v V. apply fp2C_R in V.
      cbn [ok ecp2A]. cbn [e2x e2y e2z]. split; [exact OP|].
      split; [eapply fp2R_eq; [eapply fp2R_weak; [exact U|lia|lia]|rewrite P2; field; exact P1]|].
      split; [eapply fp2R_eq; [eapply fp2R_weak; [exact V|lia|lia]|rewrite P3; field; exact P1]|].
      eapply fp2R_weak; [exact OC|lia|lia].
Qed.

(* ------------------------- scalar multiplication --------------------- *)
Notation zm2 := (zm pt2 padd2 Inf pneg2).
Definition wfF (a : FP2) : Prop := length (fx (f2a a)) = 7%nat /\ length (fx (f2b a)) = 7%nat.
Definition wf2 (a : ECP2) : Prop := wfF (e2x a) /\ wfF (e2y a) /\ wfF (e2z a).
Lemma fp2R_wf l E x a : fp2R l E x a -> wfF a.
Proof. intros [(A & _) (B & _)]. split; assumption. Qed.
Lemma wfF_cmove0 a b : wfF a -> wfF b -> fp2_cmove a b 0 = a.
Proof. intros [A1 A2] [B1 B2]. unfold fp2_cmove. rewrite !fp_cmove0 by congruence. destruct a; reflexivity. Qed.
Lemma wfF_cmove1 a b : wfF a -> wfF b -> fp2_cmove a b 1 = b.
Proof. intros [A1 A2] [B1 B2]. unfold fp2_cmove. rewrite !fp_cmove1 by congruence. destruct b; reflexivity. Qed.
Lemma ecp2R_wf l E p a : ecp2R l E p a -> wf2 a.
Proof.
  intros (_ & X & Y & Z & A & B & C & _). split; [eapply fp2R_wf; exact A|]. split; [eapply fp2R_wf; exact B|eapply fp2R_wf; exact C].
Qed.
Lemma ecp2_cmove0 a b : wf2 a -> wf2 b -> ecp2_cmove a b 0 = a.
Proof.
  intros (A1 & A2 & A3) (B1 & B2 & B3). unfold ecp2_cmove. rewrite !wfF_cmove0 by assumption. destruct a; reflexivity.
Qed.
Lemma ecp2_cmove1 a b : wf2 a -> wf2 b -> ecp2_cmove a b 1 = b.
Proof.
  intros (A1 & A2 & A3) (B1 & B2 & B3). unfold ecp2_cmove. rewrite !wfF_cmove1 by assumption. destruct b; reflexivity.
Qed.

Lemma padd2_0l p : padd2 Inf p = p. Proof. reflexivity. Qed.
Lemma padd2_0r p : padd2 p Inf = p. Proof. destruct p; reflexivity. Qed.
Ltac g2s := first [exact on2_inf|exact padd2_on|exact pneg2_on|exact padd2_0l|exact padd2_0r|exact padd2_comm|
  exact padd2_neg|exact padd2_assoc|assumption].
Lemma zm2_on k p : on2 p -> on2 (zm2 k p). Proof. intros. eapply zm_on; g2s. Qed.
Lemma zm2_0 p : zm2 0 p = Inf. Proof. reflexivity. Qed.
Lemma zm2_1 p : zm2 1 p = p. Proof. eapply zm_1; g2s. Qed.
Lemma zm2_2 p : zm2 2 p = padd2 p p. Proof. eapply zm_2; g2s. Qed.
Lemma zm2_add a b p : on2 p -> zm2 (a + b) p = padd2 (zm2 a p) (zm2 b p). Proof. intros. eapply zm_add; g2s. Qed.
Lemma zm2_opp k p : on2 p -> zm2 (- k) p = pneg2 (zm2 k p). Proof. intros. eapply zm_opp; g2s. Qed.
Lemma zm2_mul a b p : on2 p -> zm2 (a * b) p = zm2 a (zm2 b p). Proof. intros. eapply zm_mul; g2s. Qed.
Lemma zm2_dist k p q : on2 p -> on2 q -> zm2 k (padd2 p q) = padd2 (zm2 k p) (zm2 k q). Proof. intros. eapply zm_dist; g2s. Qed.
Lemma zm2_neg k p : on2 p -> zm2 k (pneg2 p) = pneg2 (zm2 k p). Proof. intros. eapply zm_neg; g2s. Qed.
Lemma zm2_zero k : zm2 k Inf = Inf. Proof. eapply zm_zero; g2s. Qed.
Lemma zm2_mod k n p : on2 p -> zm2 n p = Inf -> n <> 0 -> zm2 (k mod n) p = zm2 k p. Proof. intros. eapply zm_mod; g2s. Qed.
Lemma nm_nmul2 n p : nm pt2 padd2 Inf n p = nmul2 n p.
Proof. induction n as [|n IH]; [reflexivity|]. cbn [nm nmul]. rewrite IH. reflexivity. Qed.
Lemma zm2_nmul k p : 0 <= k -> zm2 k p = nmul2 (Z.to_nat k) p.
Proof. intros K. rewrite zm_nonneg by exact K. apply nm_nmul2. Qed.
Lemma zm2_double k p : on2 p -> padd2 (zm2 k p) (zm2 k p) = zm2 (2 * k) p.
Proof. intros O. rewrite <- zm2_add by exact O. f_equal. lia. Qed.

Definition tab2 (l E : Z) (p : pt2) (W : list ECP2) : Prop :=
  length W = 8%nat /\ forall k a, nth_error W k = Some a -> ecp2R l E (zm2 (2 * Z.of_nat k + 1) p) a.
Lemma tab2_wf l E p W : tab2 l E p W -> Forall wf2 W.
Proof.
  intros [_ H]. apply Forall_forall. intros a A. apply In_nth_error in A. destruct A as [k A]. apply H in A.
  eapply ecp2R_wf; eauto.
Qed.
Lemma tab2_get l E p W k : tab2 l E p W -> (k < 8)%nat -> exists a, getM W k = Some a /\ ecp2R l E (zm2 (2 * Z.of_nat k + 1) p) a.
Proof.
  intros [L H] K. unfold getM. destruct (nth_error W k) as [a|] eqn:G; [exists a; split; [reflexivity|apply H; exact G]|].
  apply nth_error_None in G. lia.
Qed.
Lemma ecp2_selector_ok l E p W self d : tab2 l E p W -> on2 p -> wf2 self -> wdig d -> 1 <= l <= 8 -> 5 * E - 1 <= 33554432 ->
  ok (ecp2_selector self W d) (ecp2R l (5 * E - 1) (zm2 d p)).
Proof.
  intros T OP WS D L HE. unfold ecp2_selector. destruct (wdig_case d D) as (k & K & SB & C). rewrite SB. cbn [bind].
  rewrite (sel_fold wf2 ecp2_cmove ecp2_cmove0 ecp2_cmove1 W k K (proj1 T) (tab2_wf _ _ _ _ T) 8 0 self WS ltac:(lia)).
  destruct (tab2_get _ _ _ _ _ T K) as (a & G & A).
  destruct (Nat.leb_spec 0 k); [|lia]. destruct (Nat.ltb_spec k (0 + 8)); [|lia]. cbn [andb]. rewrite G. cbn [bind].
  assert (1 <= E) by (destruct A as (_ & ? & ? & ? & ((_ & _ & _ & A1 & _) & _) & _); lia).
  eapply ok_bind; [eapply ecp2_neg_ok; [exact A|lia|lia]|]. intros n N. cbn [ok].
  pose proof (ecp2R_wf _ _ _ _ A) as WA. pose proof (ecp2R_wf _ _ _ _ N) as WN.
  destruct C as [[-> S1]|[-> S1]]; rewrite S1.
  - rewrite ecp2_cmove0 by assumption. eapply ecp2R_weak; [exact A|lia|lia].
  - rewrite ecp2_cmove1 by assumption. rewrite zm2_opp by exact OP. exact N.
Qed.

Lemma ecp2_wtable_ok l E p q : ecp2R 1 17 (zm2 2 p) q -> on2 p -> 1 <= l <= 8 -> 17 <= E <= 2097152 ->
  forall n k last, 0 <= k -> ecp2R l E (zm2 (2 * k + 1) p) last ->
  ok (ecp2_wtable n last q) (fun W => length W = n /\ forall i a, nth_error W i = Some a -> ecp2R l E (zm2 (2 * (k + 1 + Z.of_nat i) + 1) p) a).
Proof.
  intros Q OP L HE. induction n as [|n IH]; intros k last K LA; cbn [ecp2_wtable].
  - cbn [ok]. split; [reflexivity|]. intros [|i] a G; discriminate.
  - eapply ok_bind; [eapply ecp2_add_ok; [exact LA|exact Q|lia..]|]. intros c C.
    rewrite <- zm2_add in C by exact OP. replace (2 * k + 1 + 2) with (2 * (k + 1) + 1) in C by lia.
    eapply ecp2R_weak in C; [|split; [lia|apply (proj1 L)]|apply (proj1 HE)].
    eapply ok_bind; [apply (IH (k + 1) c); [lia|exact C]|]. intros W [W1 W2]. cbn [ok].
    split; [cbn [length]; lia|]. intros [|i] a G; cbn [nth_error] in G.
    + injection G as <-. replace (k + 1 + Z.of_nat 0) with (k + 1) by lia. exact C.
    + apply W2 in G. replace (k + 1 + Z.of_nat (S i)) with (k + 1 + 1 + Z.of_nat i) by lia. exact G.
Qed.

Lemma ecp2_mul_step_ok l E p W k r q d : tab2 l E p W -> on2 p -> wdig d -> 1 <= l <= 8 -> 1 <= E <= 262144 ->
  ecp2R l E (zm2 k p) r -> wf2 q -> 17 <= E ->
  ok (ecp2_mul_step W (r, q) d) (fun '(r', q') => ecp2R l E (zm2 (16 * k + d) p) r' /\ wf2 q').
Proof.
  intros T OP D L HE R Q E5. unfold ecp2_mul_step.
  eapply ok_bind; [eapply ecp2_selector_ok; eauto; lia|]. intros s SE.
  eapply ok_bind; [eapply ecp2_dbl_ok; [exact R|lia|lia]|]. intros r1 R1.
  eapply ok_bind; [eapply ecp2_dbl_ok; [exact R1|lia|lia]|]. intros r2 R2.
  eapply ok_bind; [eapply ecp2_dbl_ok; [exact R2|lia|lia]|]. intros r3 R3.
  eapply ok_bind; [eapply ecp2_dbl_ok; [exact R3|lia|lia]|]. intros r4 R4.
  eapply ok_bind; [eapply ecp2_add_ok; [exact R4|exact SE|lia..]|]. intros r5 R5. cbn [ok].
  split; [|eapply ecp2R_wf; eauto].
  rewrite !zm2_double in R5 by exact OP. rewrite <- zm2_add in R5 by exact OP.
  replace (16 * k + d) with (2 * (2 * (2 * (2 * k))) + d) by lia. eapply ecp2R_weak; [exact R5|lia|lia].
Qed.
Lemma ecp2_mul_fold_ok l E p W : tab2 l E p W -> on2 p -> 1 <= l <= 8 -> 17 <= E <= 262144 ->
  forall ws k r q, Forall wdig ws -> ecp2R l E (zm2 k p) r -> wf2 q ->
  ok (foldM (ecp2_mul_step W) (rev ws) (r, q)) (fun '(r', q') => ecp2R l E (zm2 (16 ^ Z.of_nat (length ws) * k + wval ws) p) r').
Proof.
  intros T OP L HE ws. induction ws as [|w ws IH] using rev_ind; intros k r q D R Q.
  - cbn [rev foldM ok length wval]. change (16 ^ Z.of_nat 0) with 1. replace (1 * k + 0) with k by lia. exact R.
  - rewrite rev_app_distr. cbn [rev app foldM]. apply Forall_app in D. destruct D as [D1 D2]. inversion D2; subst.
    eapply ok_bind; [eapply ecp2_mul_step_ok; eauto; lia|]. intros [r' q'] [R' Q'].
    eapply ok_impl; [apply (IH _ _ _ D1 R' Q')|]. cbv beta. intros [r2 q2] R2.
    rewrite wval_rev, app_length. cbn [length]. rewrite Nat2Z.inj_add. change (Z.of_nat 1) with 1. rewrite Z.pow_add_r by lia.
    change (16 ^ 1) with 16.
    replace (16 ^ Z.of_nat (length ws) * 16 * k + (wval ws + 16 ^ Z.of_nat (length ws) * w)) with
      (16 ^ Z.of_nat (length ws) * (16 * k + w) + wval ws) by ring. exact R2.
Qed.

Lemma ecp2_mul_ok l E p a e v : ecp2R l E p a -> 1 <= l <= 8 -> E <= 262144 -> rep 7 e v -> v + 2 < 2 ^ 404 ->
  ok (ecp2_mul a e) (ecp2A 1 17 (zm2 v p)).
Proof.
  intros A L HE R V. pose proof (rep_bound7 _ _ R) as VB. unfold ecp2_mul.
  assert (N0 : ok ecp2_new (ecp2R 1 17 Inf)).
  { eapply ok_impl; [exact ecp2_new_ok|]. intros r H. eapply ecp2R_weak; [exact H|lia|lia]. }
  eapply ok_bind; [eapply ecp2_is_infinity_ok; [exact A|lia|lia]|]. intros b B. destruct b.
  { destruct B as [B _]. rewrite (B eq_refl), zm2_zero. exact N0. }
  pose proof (proj1 A) as OP.
  eapply ok_bind; [eapply ecp2_dbl_ok; [exact A|lia|lia]|]. intros q Q. rewrite <- zm2_2 in Q.
  set (M := Z.max E 17). assert (AM : ecp2R l M (zm2 1 p) a) by (rewrite zm2_1; eapply ecp2R_weak; [exact A|lia|lia]).
  eapply ok_bind; [apply (ecp2_wtable_ok l M p q Q OP); [lia|lia|apply (Z.le_refl 0)|exact AM]|]. intros tl [T1 T2]. cbv zeta.
  assert (T : tab2 l M p (a :: tl)).
  { split; [cbn [length]; lia|]. intros [|i] b0 G; cbn [nth_error] in G.
    - injection G as <-. exact AM.
    - apply T2 in G. replace (2 * Z.of_nat (S i) + 1) with (2 * (0 + 1 + Z.of_nat i) + 1) by lia. exact G. }
  eapply ok_bind; [apply (win_recode_ok e v R V)|]. intros [[ns ws] top] (TP & WD & NS). subst top.
  pose proof (ecp2R_wf _ _ _ _ A) as WA. pose proof (ecp2R_wf _ _ _ _ Q) as WQ.
  change (cku64 (1 - 1)) with (Some 0). cbn [bind]. change (getM (a :: tl) (Z.to_nat (0 / 2))) with (Some a). cbn [bind].
  set (c := ecp2_cmove q a ns).
  assert (C : wf2 c /\ exists n, ecp2R l M (zm2 n p) c /\ v + n = wval ws + 16 ^ Z.of_nat (length ws)).
  { unfold c. destruct NS as [[-> NS]|[-> NS]].
    - rewrite ecp2_cmove0 by assumption. split; [exact WQ|]. exists 2. split; [eapply ecp2R_weak; [exact Q|lia|lia]|exact NS].
    - rewrite ecp2_cmove1 by assumption. split; [exact WA|]. exists 1. split; [exact AM|exact NS]. }
  destruct C as (WC & n & C & CN).
  eapply ok_bind; [apply (ecp2_mul_fold_ok l M p (a :: tl) T OP); [lia|lia|exact WD|exact AM|exact WC]|]. intros [r q'] RR.
  eapply ok_bind; [eapply ecp2_sub_ok; [exact RR|exact C|lia..]|]. intros s SS.
  rewrite <- zm2_opp, <- zm2_add in SS by exact OP.
  replace (16 ^ Z.of_nat (length ws) * 1 + wval ws + - n) with v in SS by lia.
  eapply ecp2_affine_ok; [exact SS|lia|lia].
Qed.
