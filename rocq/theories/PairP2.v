(* Addition of Miller functions after the final exponentiation: the line
   values form a symmetric cocycle on the points of the twist. *)
From Coq Require Import ZArith List Bool Lia Znumtheory Field.
From Verif Require Import NumT FieldQ FieldQ2 SpecCurve CurveP GroupP LineP EcpP Ecp2P Tower TowerP FrobP CycP FexpP SpecPairing PairP.
Open Scope Z_scope.

Notation meets2 := (meets Fq2 g1 gadd gmul gsub gopp gb).
Notation slope2 := (slope Fq2 g1 gadd gmul gsub gdiv Fq2_dec).
Notation qa2 := (qa Fq2 gadd gmul). Notation qc2 := (qc Fq2 gadd gmul).
Definition meets2_sum := meets_sum Fq2 g0 g1 gadd gmul gsub gopp gdiv ginv Fq2_field Fq2_dec gb gtwo_nz gb_noroot.
Definition meets2_perm := meets_perm Fq2 g0 g1 gadd gmul gsub gopp gdiv ginv Fq2_field gb.
Definition meets2_swap := meets_swap Fq2 g0 g1 gadd gmul gsub gopp gdiv ginv Fq2_field gb.
Definition meets2_neg := meets_neg Fq2 g0 g1 gadd gmul gsub gopp gdiv ginv Fq2_field gb.
Definition meets2_uniq := meets_uniq Fq2 g0 g1 gadd gmul gsub gopp gdiv ginv Fq2_field Fq2_dec gb gtwo_nz.
Definition conic2 := conic Fq2 g0 g1 gadd gmul gsub gopp gdiv ginv Fq2_field Fq2_dec gb gtwo_nz gb_noroot.
Definition q_rem2 := q_rem Fq2 g0 g1 gadd gmul gsub gopp gdiv ginv Fq2_field gb.
Definition q_lin2 := q_lin Fq2 g0 g1 gadd gmul gsub gopp gdiv ginv Fq2_field gb.
Definition y2_nz := y_nz Fq2 g0 g1 gadd gmul gsub gopp gdiv ginv Fq2_field gb gb_noroot.

Lemma aff_opp x1 y1 x2 y2 : padd2 (Aff x1 y1) (Aff x2 y2) = Inf <-> x1 = x2 /\ y1 = gopp y2.
Proof.
  cbn [padd]. destruct (Fq2_dec x1 x2) as [E|E]; [|split; [unfold line_sum; discriminate|intros [? ?]; contradiction]].
  destruct (Fq2_dec y1 (gopp y2)) as [G|G]; [tauto|]. split; [unfold line_sum; discriminate|intros [? ?]; contradiction].
Qed.
Lemma gopp_opp x : gopp (gopp x) = x. Proof. ring. Qed.
Lemma pneg2_dist A B : on2 A -> on2 B -> padd2 (pneg2 A) (pneg2 B) = pneg2 (padd2 A B).
Proof.
  intros OA OB. pose proof (padd2_on _ _ OA OB) as OS.
  assert (E : forall P, on2 P -> pneg2 P = zm2 (-1) P) by (intros P OP; change (-1) with (- (1)); rewrite (zm2_opp 1 P OP), zm2_1; reflexivity).
  rewrite (E _ OA), (E _ OB), (E _ OS), zm2_dist by assumption. reflexivity.
Qed.

Section At.
Variables (qx qy : Fq).
Hypothesis CQ : fmul qy qy = fadd (fmul (fmul qx qx) qx) fb.
Notation X := (twx qx). Notation Y := (twy qy).
Notation line := (line qx qy).
Definition LL (A B : pt2) : Fq12 := ee (chord X Y A B).

Lemma LL_inf_l B : on2 B -> LL Inf B = k1.
Proof. intros O. unfold LL. cbn [chord]. destruct B; apply (vert_1 qx); exact O. Qed.
Lemma LL_inf_r A : on2 A -> LL A Inf = k1.
Proof. intros O. unfold LL. destruct A; cbn [chord]; apply (vert_1 qx); exact O. Qed.
Lemma LL_opp A B : on2 A -> on2 B -> padd2 A B = Inf -> LL A B = k1.
Proof.
  intros OA OB S. destruct A as [|x1 y1]; [apply LL_inf_l; exact OB|]. destruct B as [|x2 y2]; [apply LL_inf_r; exact OA|].
  apply aff_opp in S. destruct S as [S1 S2]. unfold LL. cbn [chord].
  destruct (Fq2_dec x1 x2); [|contradiction]. destruct (Fq2_dec y1 (gopp y2)); [|contradiction]. apply (vert_1 qx). exact OA.
Qed.
Lemma LL_aff x1 y1 x2 y2 x3 y3 : on2 (Aff x1 y1) -> on2 (Aff x2 y2) -> padd2 (Aff x1 y1) (Aff x2 y2) = Aff x3 y3 ->
  exists l n, meets2 l n x1 y1 x2 y2 x3 (gopp y3) /\ LL (Aff x1 y1) (Aff x2 y2) = ee (line l n) /\
    chord X Y (Aff x1 y1) (Aff x2 y2) = line l n.
Proof.
  intros O1 O2 S. assert (N : ~ (x1 = x2 /\ y1 = gopp y2)) by (intros G; apply aff_opp in G; congruence).
  destruct (meets2_sum x1 y1 x2 y2 O1 O2 N) as (x & y & E & M). rewrite S in E. injection E as E1 E2. subst x y.
  cbv zeta in M. exists (slope2 x1 y1 x2 y2), (gsub y1 (gmul (slope2 x1 y1 x2 y2) x1)). split; [exact M|].
  assert (C : chord X Y (Aff x1 y1) (Aff x2 y2) = line (slope2 x1 y1 x2 y2) (gsub y1 (gmul (slope2 x1 y1 x2 y2) x1))); [|split; [unfold LL; rewrite C; reflexivity|exact C]].
  rewrite <- cut_line. cbn [chord]. unfold slope.
  destruct (Fq2_dec x1 x2) as [G|G]; [|reflexivity]. destruct (Fq2_dec y1 (gopp y2)); [exfalso; apply N; auto|reflexivity].
Qed.
Lemma LL_meets l n x1 y1 x2 y2 x3 y3 : on2 (Aff x1 y1) -> on2 (Aff x2 y2) -> padd2 (Aff x1 y1) (Aff x2 y2) = Aff x3 y3 ->
  meets2 l n x1 y1 x2 y2 x3 (gopp y3) -> LL (Aff x1 y1) (Aff x2 y2) = ee (line l n).
Proof.
  intros O1 O2 S M. destruct (LL_aff _ _ _ _ _ _ O1 O2 S) as (l' & n' & M' & E & _).
  destruct (meets2_uniq _ _ _ _ _ _ _ _ _ _ (y2_nz _ _ O1) M M') as [-> ->]. exact E.
Qed.
Lemma LL_sym A B : on2 A -> on2 B -> LL A B = LL B A.
Proof.
  intros OA OB. destruct (padd2 A B) as [|x3 y3] eqn:S.
  - rewrite LL_opp by assumption. symmetry. apply LL_opp; [assumption|assumption|]. rewrite padd2_comm by assumption. exact S.
  - destruct A as [|x1 y1]; [rewrite LL_inf_l, LL_inf_r by assumption; reflexivity|].
    destruct B as [|x2 y2]; [rewrite LL_inf_l, LL_inf_r by assumption; reflexivity|].
    destruct (LL_aff _ _ _ _ _ _ OA OB S) as (l & n & M & E & _). rewrite E. symmetry. apply (LL_meets l n _ _ _ _ x3 y3); [exact OB|exact OA| |].
    + rewrite padd2_comm by assumption. exact S.
    + apply meets2_swap. exact M.
Qed.
Lemma chord_nz A B : on2 A -> on2 B -> chord X Y A B <> k0.
Proof.
  intros OA OB. destruct A as [|x1 y1]; [destruct B; apply vert_nz; exact OB|]. destruct B as [|x2 y2]; [apply (vert_nz qx (Aff x1 y1)); exact OA|].
  destruct (padd2 (Aff x1 y1) (Aff x2 y2)) as [|x3 y3] eqn:S.
  - apply aff_opp in S. destruct S as [S1 S2]. cbn [chord].
    destruct (Fq2_dec x1 x2); [|contradiction]. destruct (Fq2_dec y1 (gopp y2)); [|contradiction]. apply vert_nz. exact OA.
  - destruct (LL_aff _ _ _ _ _ _ OA OB S) as (l & n & _ & _ & C). rewrite C. apply line_nz. exact CQ.
Qed.
(* opposite points *)
Lemma LL_neg A B : on2 A -> on2 B -> kmul (LL A B) (LL (pneg2 A) (pneg2 B)) = k1.
Proof.
  intros OA OB. pose proof (pneg2_on _ OA) as NA. pose proof (pneg2_on _ OB) as NB.
  destruct A as [|x1 y1]; [cbn [pneg]; rewrite !LL_inf_l by assumption; ring|].
  destruct B as [|x2 y2]; [cbn [pneg]; rewrite !LL_inf_r by assumption; ring|].
  cbn [pneg] in *. destruct (padd2 (Aff x1 y1) (Aff x2 y2)) as [|x3 y3] eqn:S.
  - rewrite (LL_opp _ _ OA OB S). rewrite LL_opp; [ring|exact NA|exact NB|]. apply aff_opp in S. apply aff_opp. destruct S as [S1 S2].
    split; [exact S1|rewrite S2; reflexivity].
  - destruct (LL_aff _ _ _ _ _ _ OA OB S) as (l & n & M & E & _). rewrite E.
    destruct (padd2 (Aff x1 (gopp y1)) (Aff x2 (gopp y2))) as [|x4 y4] eqn:S4.
    + exfalso. apply aff_opp in S4. destruct S4 as [S1 S2]. assert (G : padd2 (Aff x1 y1) (Aff x2 y2) = Inf); [|congruence].
      apply aff_opp. split; [exact S1|]. rewrite <- (gopp_opp y1), S2. ring.
    + destruct (LL_aff _ _ _ _ _ _ NA NB S4) as (l' & n' & M' & E' & _). rewrite E'.
      pose proof (meets2_neg _ _ _ _ _ _ _ _ M) as MN.
      assert (G : gopp l = l' /\ gopp n = n').
      { assert (D : Aff x4 y4 = pneg2 (Aff x3 y3)).
        { rewrite <- S, <- S4. exact (pneg2_dist (Aff x1 y1) (Aff x2 y2) OA OB). }
        cbn [pneg] in D. injection D as D1 D2. subst x4 y4. eapply meets2_uniq; [|exact MN|exact M']. apply (y2_nz _ _ NA). }
      destruct G as [<- <-]. apply line_neg. exact CQ.
Qed.
(* the line through A and B also goes through -(A+B) *)
Lemma LL_rot A B : on2 A -> on2 B -> LL A B = LL B (pneg2 (padd2 A B)).
Proof.
  intros OA OB. pose proof (padd2_on _ _ OA OB) as OS. pose proof (pneg2_on _ OS) as NS.
  destruct (padd2 A B) as [|x3 y3] eqn:S.
  - rewrite (LL_opp _ _ OA OB S). cbn [pneg]. rewrite LL_inf_r by exact OB. reflexivity.
  - destruct A as [|x1 y1].
    { rewrite (LL_inf_l _ OB). symmetry. cbn [padd] in S. rewrite <- S. apply LL_opp; [exact OB|apply pneg2_on; exact OB|]. apply padd2_neg. exact OB. }
    destruct B as [|x2 y2]; [rewrite (LL_inf_r _ OA), (LL_inf_l _ NS); reflexivity|].
    destruct (LL_aff _ _ _ _ _ _ OA OB S) as (l & n & M & E & _). rewrite E. symmetry. cbn [pneg] in *.
    apply (LL_meets l n _ _ _ _ x1 (gopp y1)); [exact OB|exact NS| |].
    + change (Aff x3 (gopp y3)) with (pneg2 (Aff x3 y3)). rewrite <- S. change (Aff x1 (gopp y1)) with (pneg2 (Aff x1 y1)).
      rewrite <- (pneg2_dist _ _ OA OB). pose proof (pneg2_on _ OA) as NA. pose proof (pneg2_on _ OB) as NB.
      rewrite (padd2_comm (pneg2 (Aff x1 y1)) (pneg2 (Aff x2 y2)) NA NB), <- (padd2_assoc (Aff x2 y2) (pneg2 (Aff x2 y2)) (pneg2 (Aff x1 y1)) OB NB NA).
      rewrite (padd2_neg (Aff x2 y2) OB). reflexivity.
    + rewrite gopp_opp. apply meets2_perm. exact M.
Qed.
Lemma neg2_eq A B : on2 A -> on2 B -> padd2 A B = Inf -> A = pneg2 B.
Proof.
  intros OA OB S. pose proof (pneg2_on _ OB) as NB.
  transitivity (padd2 A (padd2 B (pneg2 B))).
  - rewrite (padd2_neg B OB). destruct A; reflexivity.
  - rewrite <- (padd2_assoc A B (pneg2 B) OA OB NB), S. reflexivity.
Qed.
(* two lines through opposite points *)
Lemma two_lines l1 n1 l2 n2 d yd xa ya xb yb xc yc xs ys :
  gmul yd yd = gadd (gmul (gmul d d) d) gb ->
  meets2 l1 n1 xa ya xb yb d (gopp yd) -> meets2 l2 n2 d yd xc yc xs ys ->
  kmul (line l1 n1) (line l2 n2) = kmul (vert X (Aff d yd))
    (ksub (kadd (kadd (kmul X X) (kmul (emb2 (qa2 l1 l2 d)) X)) (emb2 (qc2 l1 n1 l2 n2 d))) (kmul (emb2 (gadd l1 l2)) Y)).
Proof.
  intros CD M1 M2. pose proof (q_rem2 _ _ _ _ _ _ _ _ _ _ _ _ _ _ CD M1 M2) as R. pose proof (q_lin2 _ _ _ _ _ _ _ _ _ _ _ _ _ _ M1 M2) as L.
  apply (f_equal emb2) in R, L. rewrite emb2_0 in R, L. rewrite !emb2_add, !emb2_mul in R. rewrite !emb2_add, emb2_mul, emb2_add in L.
  pose proof (XY_curve qx qy CQ) as C. cbn [vert]. unfold PairP.line, qc in *. unfold qa in *. rewrite !emb2_add, !emb2_mul in *. rewrite !emb2_add, !emb2_mul in *.
  revert R L C. generalize (twx qx), (twy qy), (emb2 l1), (emb2 n1), (emb2 l2), (emb2 n2), (emb2 d), (emb2 gb). clear.
  intros x y l1 n1 l2 n2 d b R L C.
  match type of R with ?r = _ => match type of L with ?l = _ => match goal with |- ?a = ?c =>
    assert (G : ksub a c = kadd (kadd r (kopp (kmul y l))) (ksub (kmul y y) (kadd (kmul (kmul x x) x) b))) by ring end end end.
  rewrite R, L, C in G.
  match goal with |- ?a = ?c => transitivity (kadd (ksub a c) c); [ring|rewrite G; ring] end.
Qed.
Lemma LL_coc A B C : on2 A -> on2 B -> on2 C ->
  kmul (LL A B) (LL (padd2 A B) C) = kmul (LL B C) (LL A (padd2 B C)).
Proof.
  intros OA OB OC. pose proof (padd2_on _ _ OA OB) as OD. pose proof (padd2_on _ _ OB OC) as OE.
  pose proof (pneg2_on _ OA) as NA. pose proof (pneg2_on _ OB) as NB. pose proof (pneg2_on _ OC) as NC.
  pose proof (padd2_assoc A B C OA OB OC) as AS.
  destruct (padd2 A B) as [|d yd] eqn:SD.
  { rewrite (LL_opp A B OA OB SD), (LL_inf_l C OC). rewrite (neg2_eq A B OA OB SD).
    rewrite <- (LL_neg B C OB OC) at 1. transitivity (kmul (LL B C) (LL (pneg2 B) (pneg2 C))); [ring|]. apply (f_equal (kmul (LL B C))).
    rewrite (LL_sym (pneg2 B) (pneg2 C) NB NC), (LL_rot (pneg2 C) (pneg2 B) NC NB), (pneg2_dist C B OC OB), (padd2_comm C B OC OB).
    apply (f_equal (LL (pneg2 B))). destruct (padd2 B C); cbn [pneg]; [reflexivity|]. rewrite gopp_opp. reflexivity. }
  destruct (padd2 B C) as [|e ye] eqn:SE.
  { rewrite (LL_opp B C OB OC SE), (LL_inf_r A OA). assert (CB : C = pneg2 B) by (apply neg2_eq; [exact OC|exact OB|]; rewrite padd2_comm; assumption).
    subst C. transitivity (kmul (LL A B) (LL (pneg2 A) (pneg2 B))); [|rewrite (LL_neg A B OA OB); ring]. apply (f_equal (kmul (LL A B))).
    rewrite (LL_rot (pneg2 A) (pneg2 B) NA NB), (pneg2_dist A B OA OB), SD. cbn [pneg]. rewrite gopp_opp. apply LL_sym; assumption. }
  destruct (padd2 (Aff d yd) C) as [|xs ys] eqn:SS.
  { rewrite (LL_opp (Aff d yd) C OD OC SS). symmetry in AS. rewrite (LL_opp A (Aff e ye) OA OE AS).
    rewrite (LL_rot A B OA OB), SD. rewrite padd2_comm in SS by assumption. rewrite (neg2_eq C (Aff d yd) OC OD SS). ring. }
  symmetry in AS.
  destruct A as [|xa ya]; [rewrite (LL_inf_l B OB), (LL_inf_l _ OE); cbn [padd] in SD; rewrite SD; ring|].
  destruct B as [|xb yb].
  { rewrite (LL_inf_r _ OA), (LL_inf_l C OC). cbn [padd] in SD, SE. rewrite SD, SE. reflexivity. }
  destruct C as [|xc yc].
  { rewrite (LL_inf_r _ OD), (LL_inf_r _ OB). cbn [padd] in SE. rewrite SE. ring. }
  destruct (LL_aff _ _ _ _ _ _ OA OB SD) as (l1 & n1 & M1 & E1 & _). rewrite E1.
  destruct (LL_aff _ _ _ _ _ _ OD OC SS) as (l2 & n2 & M2 & E2 & _). rewrite E2.
  destruct (LL_aff _ _ _ _ _ _ OB OC SE) as (l3 & n3 & M3 & E3 & _). rewrite E3.
  rewrite (LL_sym _ _ OA OE). rewrite padd2_comm in AS by assumption.
  destruct (LL_aff _ _ _ _ _ _ OE OA AS) as (l4 & n4 & M4 & E4 & _). rewrite E4.
  destruct (conic2 _ _ _ _ _ _ _ _ _ _ _ _ _ _ _ _ _ _ _ _ OA OD OE M1 M2 M3 M4) as (Q1 & Q2 & Q3).
  rewrite <- !ee_mul. rewrite (two_lines _ _ _ _ _ _ _ _ _ _ _ _ _ _ OD M1 M2), (two_lines _ _ _ _ _ _ _ _ _ _ _ _ _ _ OE M3 M4).
  rewrite Q1, Q2, Q3. clear Q1 Q2 Q3.
  match goal with |- ee (kmul _ ?c) = _ => generalize c end. intros c.
  rewrite (ee_mul (vert X (Aff d yd)) c), (ee_mul (vert X (Aff e ye)) c), (vert_1 qx _ OD), (vert_1 qx _ OE). reflexivity.
Qed.
Lemma LL_nz A B : on2 A -> on2 B -> LL A B <> k0.
Proof. intros OA OB. apply ee_nz, chord_nz; assumption. Qed.
End At.
