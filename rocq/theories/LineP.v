(* Lines through points of y^2 = x^3 + b: the three intersections of a line,
   and the identity behind the addition of Miller functions. *)
From Coq Require Import ZArith List Field Ring Setoid.
From Verif Require Import SpecCurve CurveP.

Section L.
Variable F : Type.
Variables (z0 z1 : F) (add mul sub : F -> F -> F) (opp : F -> F) (div : F -> F -> F) (inv : F -> F).
Hypothesis FT : field_theory z0 z1 add mul sub opp div inv (@eq F).
Add Field FF : FT.
Variable dec : forall x y : F, {x = y} + {x <> y}.
Variable b : F.
Infix "+" := add. Infix "*" := mul. Infix "-" := sub. Infix "/" := div. Notation "- x" := (opp x).
Notation "0" := z0. Notation "1" := z1.
Hypothesis two_nz : 1 + 1 <> 0.
Hypothesis noroot : forall x, x * x * x + b <> 0.

Notation pt := (pt F).
Notation on := (on_curve F add mul b).
Notation padd := (padd F z1 add mul sub opp div dec).
Notation pneg := (pneg F opp).
Let Integral := integral F z0 z1 add mul sub opp div inv FT dec.
Let Sub0 := sub0 F z0 z1 add mul sub opp div inv FT.
Let Cancel := cancel F z0 z1 add mul sub opp div inv FT dec.
Let Y_nz := y_nz F z0 z1 add mul sub opp div inv FT b noroot.
Let Sq_eq := sq_eq F z0 z1 add mul sub opp div inv FT dec.

(* the slope of the line through two affine points *)
Definition slope (x1 y1 x2 y2 : F) : F :=
  if dec x1 x2 then (1 + 1 + 1) * (x1 * x1) / ((1 + 1) * y1) else (y2 - y1) / (x2 - x1).

(* the line y = l x + n meets the curve in the points with these x and y *)
Record meets (l n x1 y1 x2 y2 x3 y3 : F) : Prop := {
  m_1 : y1 = l * x1 + n; m_2 : y2 = l * x2 + n; m_3 : y3 = l * x3 + n;
  m_s : l * l = x1 + x2 + x3;
  m_p : - ((1 + 1) * l * n) = x1 * x2 + x1 * x3 + x2 * x3;
  m_c : b - n * n = - (x1 * x2 * x3) }.

Lemma eqz x y : x = y -> x - y = 0. Proof. intros ->. ring. Qed.

Lemma meets_sum x1 y1 x2 y2 : y1 * y1 = x1 * x1 * x1 + b -> y2 * y2 = x2 * x2 * x2 + b -> ~ (x1 = x2 /\ y1 = - y2) ->
  exists x3 y3, padd (Aff x1 y1) (Aff x2 y2) = Aff x3 y3 /\
    let l := slope x1 y1 x2 y2 in meets l (y1 - l * x1) x1 y1 x2 y2 x3 (- y3).
Proof.
  intros H1 H2 N. unfold slope. cbn [SpecCurve.padd]. pose proof (Y_nz _ _ H1) as Y1. pose proof (Y_nz _ _ H2) as Y2.
  destruct (dec x1 x2) as [E|E].
  - subst x2. destruct (dec y1 (- y2)) as [E2|E2]; [exfalso; apply N; auto|].
    assert (YY : y1 = y2). { destruct (Sq_eq y1 y2) as [G|G]; [rewrite H1, H2; ring|exact G|contradiction]. }
    subst y2. unfold line_sum. set (l := (1 + 1 + 1) * (x1 * x1) / ((1 + 1) * y1)).
    assert (EL : (1 + 1) * y1 * l = (1 + 1 + 1) * (x1 * x1)) by (unfold l; field; auto). clearbody l.
    eexists _, _. split; [reflexivity|]. cbn zeta. constructor; try ring.
    + apply (Cancel 1); [exact (F_1_neq_0 FT)|]. apply Sub0.
      assert (G : 1 * - ((1 + 1) * l * (y1 - l * x1)) - 1 * (x1 * x1 + x1 * (l * l - x1 - x1) + x1 * (l * l - x1 - x1)) =
        - ((1 + 1) * y1 * l - (1 + 1 + 1) * (x1 * x1))) by ring.
      rewrite G, EL. ring.
    + apply Sub0.
      assert (G : b - (y1 - l * x1) * (y1 - l * x1) - - (x1 * x1 * (l * l - x1 - x1)) =
        - (y1 * y1 - (x1 * x1 * x1 + b)) + x1 * ((1 + 1) * y1 * l - (1 + 1 + 1) * (x1 * x1))) by ring.
      rewrite G, EL, H1. ring.
  - unfold line_sum. set (l := (y2 - y1) / (x2 - x1)). assert (DN : x2 - x1 <> 0) by (intros G; apply Sub0 in G; congruence).
    assert (EL : l * (x2 - x1) = y2 - y1) by (unfold l; field; exact DN). clearbody l.
    eexists _, _. split; [reflexivity|]. cbn zeta. constructor; try ring.
    + apply Sub0. assert (G : y2 - (l * x2 + (y1 - l * x1)) = y2 - y1 - l * (x2 - x1)) by ring. rewrite G, EL. ring.
    + apply (Cancel (x2 - x1)); [exact DN|]. apply Sub0.
      assert (Y : y2 = y1 + l * (x2 - x1)) by (rewrite EL; ring). subst y2.
      assert (G : (x2 - x1) * - ((1 + 1) * l * (y1 - l * x1)) - (x2 - x1) * (x1 * x2 + x1 * (l * l - x1 - x2) + x2 * (l * l - x1 - x2)) =
        - (((y1 + l * (x2 - x1)) * (y1 + l * (x2 - x1)) - (x2 * x2 * x2 + b)) - (y1 * y1 - (x1 * x1 * x1 + b)))) by ring.
      rewrite G, H2, H1. ring.
    + apply (Cancel (x2 - x1)); [exact DN|]. apply Sub0.
      assert (Y : y2 = y1 + l * (x2 - x1)) by (rewrite EL; ring). subst y2.
      assert (G : (x2 - x1) * (b - (y1 - l * x1) * (y1 - l * x1)) - (x2 - x1) * - (x1 * x2 * (l * l - x1 - x2)) =
        x1 * ((y1 + l * (x2 - x1)) * (y1 + l * (x2 - x1)) - (x2 * x2 * x2 + b)) - x2 * (y1 * y1 - (x1 * x1 * x1 + b))) by ring.
      rewrite G, H2, H1. ring.
Qed.
Lemma meets_perm l n x1 y1 x2 y2 x3 y3 : meets l n x1 y1 x2 y2 x3 y3 -> meets l n x2 y2 x3 y3 x1 y1.
Proof.
  intros [A B C D E G]. constructor; auto.
  - rewrite D. ring.
  - rewrite E. ring.
  - rewrite G. ring.
Qed.
Lemma meets_swap l n x1 y1 x2 y2 x3 y3 : meets l n x1 y1 x2 y2 x3 y3 -> meets l n x2 y2 x1 y1 x3 y3.
Proof.
  intros [A B C D E G]. constructor; auto.
  - rewrite D. ring.
  - rewrite E. ring.
  - rewrite G. ring.
Qed.
Lemma meets_neg l n x1 y1 x2 y2 x3 y3 : meets l n x1 y1 x2 y2 x3 y3 -> meets (- l) (- n) x1 (- y1) x2 (- y2) x3 (- y3).
Proof.
  intros [A B C D E G]. constructor.
  - rewrite A. ring.
  - rewrite B. ring.
  - rewrite C. ring.
  - rewrite <- D. ring.
  - rewrite <- E. ring.
  - rewrite <- G. ring.
Qed.
(* a line is determined by its three points *)
Lemma meets_uniq l n l' n' x1 y1 x2 y2 x3 y3 : y1 <> 0 ->
  meets l n x1 y1 x2 y2 x3 y3 -> meets l' n' x1 y1 x2 y2 x3 y3 -> l = l' /\ n = n'.
Proof.
  intros Y [A B C D E G] [A' B' C' D' E' G'].
  assert (LL : l * l = l' * l') by congruence.
  assert (NN : n * n = n' * n'). { apply Sub0. assert (H : n * n - n' * n' = (b - n' * n') - (b - n * n)) by ring. rewrite H, G, G'. ring. }
  assert (LN : l * n = l' * n').
  { apply (Cancel (1 + 1) _ _ two_nz). apply Sub0. assert (H : (1 + 1) * (l * n) - (1 + 1) * (l' * n') = - (- ((1 + 1) * l * n) - - ((1 + 1) * l' * n'))) by ring.
    rewrite H, E, E'. ring. }
  destruct (Sq_eq _ _ LL) as [L|L].
  - split; [exact L|]. apply Sub0. assert (H : n - n' = (l * x1 + n) - (l' * x1 + n')) by (rewrite L; ring). rewrite H, <- A, <- A'. ring.
  - destruct (dec l l') as [L2|L2].
    + split; [exact L2|]. apply Sub0. assert (H : n - n' = (l * x1 + n) - (l' * x1 + n')) by (rewrite L2; ring). rewrite H, <- A, <- A'. ring.
    + assert (L0 : l' <> 0). { intros L0. apply L2. rewrite L, L0. ring. }
      assert (N1 : n = - n'). { apply (Cancel l' _ _ L0). apply Sub0. assert (H : l' * n - l' * - n' = - (- l' * n - l' * n')) by ring. rewrite H, <- L, LN. ring. }
      exfalso. apply Y. assert (T : (1 + 1) * y1 = 0). { assert (H : (1 + 1) * y1 = y1 + y1) by ring. rewrite H. rewrite A at 1. rewrite A', L, N1. ring. }
      apply Integral in T. tauto.
Qed.

(* two lines meeting in opposite points (d,-yd), (d,yd): their product is
   (x - d) (x^2 + qa x + qc - (l1 + l2) y) on the curve *)
Section Two.
  Variables (l1 n1 l2 n2 d yd xa ya xb yb xc yc xd ye : F).
  Hypothesis CD : yd * yd = d * d * d + b.
  Hypothesis M1 : meets l1 n1 xa ya xb yb d (- yd).
  Hypothesis M2 : meets l2 n2 d yd xc yc xd ye.
  Definition qa : F := l1 * l2 + d.
  Definition qc : F := l1 * n2 + l2 * n1 + qa * d.
  Lemma n1e : n1 = - yd - l1 * d. Proof. rewrite (m_3 _ _ _ _ _ _ _ _ M1). ring. Qed.
  Lemma n2e : n2 = yd - l2 * d. Proof. rewrite (m_1 _ _ _ _ _ _ _ _ M2). ring. Qed.
  Lemma be : b = yd * yd - d * d * d. Proof. rewrite CD. ring. Qed.
  Lemma S1 : xa + xb = l1 * l1 - d. Proof. rewrite (m_s _ _ _ _ _ _ _ _ M1). ring. Qed.
  Lemma S2 : xc + xd = l2 * l2 - d. Proof. rewrite (m_s _ _ _ _ _ _ _ _ M2). ring. Qed.
  Lemma P1 : xa * xb = - ((1 + 1) * l1 * n1) - d * (l1 * l1 - d).
  Proof. rewrite (m_p _ _ _ _ _ _ _ _ M1), <- S1. ring. Qed.
  Lemma P2 : xc * xd = - ((1 + 1) * l2 * n2) - d * (l2 * l2 - d).
  Proof. rewrite (m_p _ _ _ _ _ _ _ _ M2), <- S2. ring. Qed.
  Lemma q_rem : n1 * n2 + b + qc * d = 0.
  Proof. unfold qc, qa. rewrite n1e, n2e, be. ring. Qed.
  Lemma q_lin : n1 + n2 + (l1 + l2) * d = 0. Proof. rewrite n1e, n2e. ring. Qed.
  Lemma q_3 : (1 + 1) * qa - (l1 + l2) * (l1 + l2) = - ((xa + xb) + (xc + xd)).
  Proof. rewrite S1, S2. unfold qa. ring. Qed.
  Lemma q_2 : qa * qa + (1 + 1) * qc = xa * xb + xc * xd + (xa + xb) * (xc + xd).
  Proof. rewrite S1, S2, P1, P2. unfold qc, qa. rewrite n1e, n2e. ring. Qed.
  Lemma q_1 : (1 + 1) * (qa * qc) - 0 = - (xa * xb * (xc + xd) + xc * xd * (xa + xb)).
  Proof. rewrite S1, S2, P1, P2. unfold qc, qa. rewrite n1e, n2e. ring. Qed.
  Lemma q_0 : qc * qc - (l1 + l2) * (l1 + l2) * b = xa * xb * (xc * xd).
  Proof. rewrite P1, P2. unfold qc, qa. rewrite n1e, n2e, be. ring. Qed.
  Lemma q_at_a : ya * ya = xa * xa * xa + b -> xa * xa + qa * xa + qc - (l1 + l2) * ya = 0.
  Proof.
    intros CA. destruct (dec xa d) as [E|E].
    - assert (YA : ya = - yd). { rewrite (m_1 _ _ _ _ _ _ _ _ M1), E, (m_3 _ _ _ _ _ _ _ _ M1). ring. }
      assert (T : (1 + 1 + 1) * (d * d) + (1 + 1) * (yd * l1) = 0).
      { pose proof S1 as HS. pose proof P1 as HP. rewrite E in HS, HP. rewrite n1e in HP.
        assert (HB : xb = l1 * l1 - d - d) by (rewrite <- HS; ring). rewrite HB in HP. apply eqz in HP. apply (f_equal opp) in HP. etransitivity; [|etransitivity; [exact HP|]]; ring. }
      rewrite <- T, YA, E. unfold qc, qa. rewrite n1e, n2e. ring.
    - apply (Cancel (xa - d)); [intros G; apply Sub0 in G; contradiction|].
      assert (G : (xa - d) * (xa * xa + qa * xa + qc - (l1 + l2) * ya) =
        (ya - (l1 * xa + n1)) * (ya - (l2 * xa + n2)) - (ya * ya - (xa * xa * xa + b))).
      { unfold qc, qa. rewrite n1e, n2e, be. ring. }
      rewrite G, CA. rewrite (m_1 _ _ _ _ _ _ _ _ M1) at 1. ring.
  Qed.
  Lemma q_at_c : yc * yc = xc * xc * xc + b -> xc * xc + qa * xc + qc - (l1 + l2) * yc = 0.
  Proof.
    intros CC. destruct (dec xc d) as [E|E].
    - assert (YC : yc = yd). { rewrite (m_2 _ _ _ _ _ _ _ _ M2), E, (m_1 _ _ _ _ _ _ _ _ M2). ring. }
      assert (T : (1 + 1 + 1) * (d * d) - (1 + 1) * (yd * l2) = 0).
      { pose proof S2 as HS. pose proof P2 as HP. rewrite E in HS, HP. rewrite n2e in HP.
        assert (HB : xd = l2 * l2 - d - d) by (rewrite <- HS; ring). rewrite HB in HP. apply eqz in HP. apply (f_equal opp) in HP. etransitivity; [|etransitivity; [exact HP|]]; ring. }
      rewrite <- T, YC, E. unfold qc, qa. rewrite n1e, n2e. ring.
    - apply (Cancel (xc - d)); [intros G; apply Sub0 in G; contradiction|].
      assert (G : (xc - d) * (xc * xc + qa * xc + qc - (l1 + l2) * yc) =
        (yc - (l1 * xc + n1)) * (yc - (l2 * xc + n2)) - (yc * yc - (xc * xc * xc + b))).
      { unfold qc, qa. rewrite n1e, n2e, be. ring. }
      rewrite G, CC, (eqz _ _ (m_2 _ _ _ _ _ _ _ _ M2)). ring.
  Qed.
End Two.

(* the two ways of adding three points cut out the same conic *)
Lemma conic_uniq a c s a' c' s' x y :
  (1 + 1) * a - s * s = (1 + 1) * a' - s' * s' ->
  a * a + (1 + 1) * c = a' * a' + (1 + 1) * c' ->
  (1 + 1) * (a * c) - 0 = (1 + 1) * (a' * c') - 0 ->
  c * c - s * s * b = c' * c' - s' * s' * b ->
  x * x + a * x + c - s * y = 0 -> x * x + a' * x + c' - s' * y = 0 -> y <> 0 ->
  a = a' /\ c = c' /\ s = s'.
Proof.
  intros E3 E2 E1 E0 A A' Y. apply eqz in E3, E2, E1, E0.
  assert (AL : a = a').
  { destruct (dec a a') as [|N]; [assumption|exfalso]. set (al := a - a') in *. assert (AN : al <> 0) by (intros G; apply Sub0 in G; contradiction).
    apply (noroot (- (c - c') / al)). apply (Cancel ((1 + 1) * al * al * al)).
    - intros G. apply Integral in G. destruct G as [G|G]; [|auto]. apply Integral in G. destruct G as [G|G]; [|auto]. apply Integral in G. destruct G; auto.
    - assert (G : (1 + 1) * al * al * al * (- (c - c') / al * (- (c - c') / al) * (- (c - c') / al) + b) =
        (1 + 1) * (- (c - c') * (c - c') * (c - c') + al * al * al * b)) by (field; exact AN).
      rewrite G.
      set (be := c - c') in *.
      assert (X2 : al * (a + a') + (1 + 1) * be = 0) by (rewrite <- E2; unfold al, be; ring).
      assert (X1 : al * (c + c') + be * (a + a') = 0) by (rewrite <- E1; unfold al, be; ring).
      assert (X0 : be * (c + c') - (1 + 1) * al * b = 0).
      { assert (H : be * (c + c') - (1 + 1) * al * b = (c * c - s * s * b - (c' * c' - s' * s' * b)) - b * ((1 + 1) * a - s * s - ((1 + 1) * a' - s' * s'))) by (unfold al, be; ring).
        rewrite H, E0, E3. ring. }
      assert (H : (1 + 1) * (- be * be * be + al * al * al * b) =
        - be * be * (al * (a + a') + (1 + 1) * be) + al * be * (al * (c + c') + be * (a + a')) - al * al * (be * (c + c') - (1 + 1) * al * b)) by ring.
      rewrite H, X2, X1, X0. ring. }
  subst a'. assert (CC : c = c').
  { apply (Cancel (1 + 1) _ _ two_nz). apply Sub0. rewrite <- E2. ring. }
  subst c'. split; [reflexivity|]. split; [reflexivity|].
  apply (Cancel y _ _ Y). apply Sub0.
  assert (H : y * s - y * s' = (x * x + a * x + c - s' * y) - (x * x + a * x + c - s * y)) by ring. rewrite H, A, A'. ring.
Qed.
Lemma conic l1 n1 l2 n2 l3 n3 l4 n4 xa ya xb yb xc yc d yd e ye xs ys :
  ya * ya = xa * xa * xa + b -> yd * yd = d * d * d + b -> ye * ye = e * e * e + b ->
  meets l1 n1 xa ya xb yb d (- yd) -> meets l2 n2 d yd xc yc xs ys ->
  meets l3 n3 xb yb xc yc e (- ye) -> meets l4 n4 e ye xa ya xs ys ->
  qa l1 l2 d = qa l3 l4 e /\ qc l1 n1 l2 n2 d = qc l3 n3 l4 n4 e /\ l1 + l2 = l3 + l4.
Proof.
  intros CA CD CE M1 M2 M3 M4.
  apply (conic_uniq _ _ _ _ _ _ xa ya).
  - rewrite (q_3 _ _ _ _ _ _ _ _ _ _ _ _ _ _ M1 M2), (q_3 _ _ _ _ _ _ _ _ _ _ _ _ _ _ M3 M4). ring.
  - rewrite (q_2 _ _ _ _ _ _ _ _ _ _ _ _ _ _ M1 M2), (q_2 _ _ _ _ _ _ _ _ _ _ _ _ _ _ M3 M4). ring.
  - rewrite (q_1 _ _ _ _ _ _ _ _ _ _ _ _ _ _ M1 M2), (q_1 _ _ _ _ _ _ _ _ _ _ _ _ _ _ M3 M4). ring.
  - rewrite (q_0 _ _ _ _ _ _ _ _ _ _ _ _ _ _ CD M1 M2), (q_0 _ _ _ _ _ _ _ _ _ _ _ _ _ _ CE M3 M4). ring.
  - exact (q_at_a _ _ _ _ _ _ _ _ _ _ _ _ _ _ CD M1 M2 CA).
  - exact (q_at_c _ _ _ _ _ _ _ _ _ _ _ _ _ _ CE M3 M4 CA).
  - exact (Y_nz _ _ CA).
Qed.
End L.
