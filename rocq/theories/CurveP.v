(* The affine law of SpecCurve is an abelian group when x^3 + b has no root and
   2 <> 0, and the complete projective formulas compute it. *)
From Coq Require Import ZArith List Field Ring Setoid.
From Verif Require Import SpecCurve.

Section C.
Variable F : Type.
Variables (z0 z1 : F) (add mul sub : F -> F -> F) (opp : F -> F) (div : F -> F -> F) (inv : F -> F).
Hypothesis FT : field_theory z0 z1 add mul sub opp div inv (@eq F).
Add Field FF : FT.
Variable dec : forall x y : F, {x = y} + {x <> y}.
Variable b : F.
Infix "+" := add. Infix "*" := mul. Infix "-" := sub. Infix "/" := div. Notation "- x" := (opp x).
Notation "0" := z0. Notation "1" := z1.
Hypothesis two_nz : 1 + 1 <> 0.
Hypothesis noroot : forall x, x * x * x + b <> 0.

Notation pt := (pt F).
Notation on := (on_curve F add mul b).
Notation padd := (padd F z1 add mul sub opp div dec).
Notation pneg := (pneg F opp).
Notation line_sum := (line_sum F mul sub).

Lemma integral x y : x * y = 0 -> x = 0 \/ y = 0.
Proof.
  intros H. destruct (dec x 0) as [|N]; [auto|right].
  assert (E : y = inv x * (x * y)) by (field; auto). rewrite E, H. ring.
Qed.
Lemma mul_nz x y : x <> 0 -> y <> 0 -> x * y <> 0.
Proof. intros A B H. apply integral in H. tauto. Qed.
Ltac nz := repeat match goal with |- mul _ _ <> _ => apply mul_nz end; auto.
Lemma sub0 x y : x - y = 0 -> x = y.
Proof. intros H. assert (E : x = (x - y) + y) by ring. rewrite E, H. ring. Qed.
Lemma sub_nz x y : x <> y -> x - y <> 0.
Proof. intros H E. apply H, sub0, E. Qed.
Lemma cancel d x y : d <> 0 -> d * x = d * y -> x = y.
Proof.
  intros D H. apply sub0. assert (E : d * (x - y) = 0).
  { assert (E2 : d * (x - y) = d * x - d * y) by ring. rewrite E2, H. ring. }
  apply integral in E. tauto.
Qed.
Lemma y_nz x y : y * y = x * x * x + b -> y <> 0.
Proof. intros H E. apply (noroot x). rewrite <- H, E. ring. Qed.
Lemma opp_neq y : y <> 0 -> y <> - y.
Proof.
  intros N E. assert (H : (1 + 1) * y = 0).
  { assert (E2 : (1 + 1) * y = y - - y) by ring. rewrite E2, <- E. ring. }
  apply integral in H. tauto.
Qed.
Lemma sq_eq y1 y2 : y1 * y1 = y2 * y2 -> y1 = y2 \/ y1 = - y2.
Proof.
  intros H. assert (E : (y1 - y2) * (y1 + y2) = 0).
  { assert (E2 : (y1 - y2) * (y1 + y2) = y1 * y1 - y2 * y2) by ring. rewrite E2, H. ring. }
  apply integral in E. destruct E as [E|E]; [left; apply sub0; auto|right].
  apply sub0. assert (E2 : y1 - - y2 = y1 + y2) by ring. rewrite E2. exact E.
Qed.

(* chord through two points with different x *)
Lemma chord_on x1 y1 x2 y2 : y1 * y1 = x1 * x1 * x1 + b -> y2 * y2 = x2 * x2 * x2 + b -> x1 <> x2 ->
  on (line_sum ((y2 - y1) / (x2 - x1)) x1 y1 x2).
Proof.
  intros H1 H2 N. unfold line_sum, on_curve.
  assert (D : x2 - x1 <> 0) by (apply sub_nz; auto).
  set (d := x2 - x1) in *. set (l := (y2 - y1) / d).
  assert (L : d * l = y2 - y1) by (unfold l; field; auto).
  clearbody l.
  apply (cancel (d * d * d * d * d * d)); [nz|].
  assert (X : d * d * (l * l - x1 - x2) = (y2 - y1) * (y2 - y1) - d * d * (x1 + x2)).
  { rewrite <- L. ring. }
  set (x3 := l * l - x1 - x2) in *. clearbody x3.
  assert (Y : d * d * d * (l * (x1 - x3) - y1) = (y2 - y1) * (d * d * x1 - (d * d) * x3) - d * d * d * y1).
  { rewrite <- L. ring. }
  rewrite X in Y. set (y3 := l * (x1 - x3) - y1) in *. clearbody y3.
  transitivity ((d * d * d * y3) * (d * d * d * y3)); [ring|].
  transitivity ((d * d * x3) * (d * d * x3) * (d * d * x3) + b * (d * d * d * d * d * d)); [|ring].
  rewrite X, Y. unfold d. ring [H1 H2].
Qed.
Lemma tangent_on x1 y1 : y1 * y1 = x1 * x1 * x1 + b ->
  on (line_sum ((1 + 1 + 1) * (x1 * x1) / ((1 + 1) * y1)) x1 y1 x1).
Proof.
  intros H1. unfold line_sum, on_curve.
  assert (D : (1 + 1) * y1 <> 0) by (apply mul_nz; [auto|eapply y_nz; eauto]).
  set (d := (1 + 1) * y1) in *. set (l := (1 + 1 + 1) * (x1 * x1) / d).
  assert (L : d * l = (1 + 1 + 1) * (x1 * x1)) by (unfold l; field; auto).
  clearbody l.
  apply (cancel (d * d * d * d * d * d)); [nz|].
  assert (X : d * d * (l * l - x1 - x1) = (1 + 1 + 1) * (x1 * x1) * ((1 + 1 + 1) * (x1 * x1)) - d * d * (x1 + x1)).
  { rewrite <- L. ring. }
  set (x3 := l * l - x1 - x1) in *. clearbody x3.
  assert (Y : d * d * d * (l * (x1 - x3) - y1) = (1 + 1 + 1) * (x1 * x1) * (d * d * x1 - (d * d) * x3) - d * d * d * y1).
  { rewrite <- L. ring. }
  rewrite X in Y. set (y3 := l * (x1 - x3) - y1) in *. clearbody y3.
  transitivity ((d * d * d * y3) * (d * d * d * y3)); [ring|].
  transitivity ((d * d * x3) * (d * d * x3) * (d * d * x3) + b * (d * d * d * d * d * d)); [|ring].
  rewrite X, Y. unfold d. ring [H1].
Qed.
Lemma pneg_on p : on p -> on (pneg p).
Proof. destruct p as [|x y]; auto. cbn. intros H. rewrite <- H. ring. Qed.
Lemma padd_on p q : on p -> on q -> on (padd p q).
Proof.
  destruct p as [|x1 y1], q as [|x2 y2]; auto. unfold SpecCurve.padd. cbn [on_curve]. intros H1 H2.
  destruct (dec x1 x2) as [->|N].
  - destruct (dec y1 (- y2)); [exact I|]. apply tangent_on. auto.
  - apply chord_on; auto.
Qed.

(* ------------------- projective representation ---------------------- *)
Definition prep (X Y Z : F) (p : pt) : Prop :=
  match p with Inf => X = 0 /\ Z = 0 /\ Y <> 0 | Aff x y => Z <> 0 /\ X = x * Z /\ Y = y * Z end.

Definition AX X1 Y1 Z1 X2 Y2 Z2 b3 := (X1*Y2+X2*Y1)*(Y1*Y2-b3*(Z1*Z2)) - b3*(Y1*Z2+Y2*Z1)*(X1*Z2+X2*Z1).
Definition AY X1 Y1 Z1 X2 Y2 Z2 b3 := (Y1*Y2+b3*(Z1*Z2))*(Y1*Y2-b3*(Z1*Z2)) + b3*(X1*Z2+X2*Z1)*((1+1+1)*(X1*X2)).
Definition AZ X1 Y1 Z1 X2 Y2 Z2 b3 := (Y1*Z2+Y2*Z1)*(Y1*Y2+b3*(Z1*Z2)) + (1+1+1)*(X1*X2)*(X1*Y2+X2*Y1).
Notation B3 := (b + b + b).

Lemma prep_inj X Y Z p q : prep X Y Z p -> prep X Y Z q -> p = q.
Proof.
  destruct p as [|x y], q as [|x' y']; cbn; auto.
  - intros (A & B & C) (D & _). contradiction.
  - intros (D & _) (A & B & C). contradiction.
  - intros (D & A & B) (_ & C & E). f_equal; apply (cancel Z); auto.
    + rewrite A in C. transitivity (x * Z); [ring|]. rewrite C. ring.
    + rewrite B in E. transitivity (y * Z); [ring|]. rewrite E. ring.
Qed.
Lemma prep_scale k X Y Z p : k <> 0 -> prep X Y Z p -> prep (k * X) (k * Y) (k * Z) p.
Proof.
  intros K. destruct p as [|x y]; cbn.
  - intros (-> & -> & N). split; [ring|]. split; [ring|]. apply mul_nz; auto.
  - intros (N & -> & ->). split; [apply mul_nz; auto|]. split; ring.
Qed.
(* two nonzero proportional vectors represent the same point *)
Lemma prep_cross X Y Z X' Y' Z' p q : prep X Y Z p -> prep X' Y' Z' q ->
  X * Z' = X' * Z -> Y * Z' = Y' * Z -> p = q.
Proof.
  destruct p as [|x y], q as [|x' y']; cbn; auto.
  - intros (-> & -> & N) (M & -> & ->) H1 H2. exfalso. assert (E : Y * Z' = 0) by (rewrite H2; ring).
    apply integral in E. tauto.
  - intros (M & -> & ->) (-> & -> & N) H1 H2. exfalso. assert (E : Y' * Z = 0) by (rewrite <- H2; ring).
    apply integral in E. tauto.
  - intros (N & -> & ->) (M & -> & ->) H1 H2. f_equal; apply (cancel (Z * Z')); try (apply mul_nz; auto).
    + transitivity (x * Z * Z'); [ring|]. rewrite H1. ring.
    + transitivity (y * Z * Z'); [ring|]. rewrite H2. ring.
Qed.
Lemma prep_eq_iff X Y Z X' Y' Z' p q : prep X Y Z p -> prep X' Y' Z' q ->
  (X * Z' = X' * Z /\ Y * Z' = Y' * Z) <-> p = q.
Proof.
  intros P Q. split; [intros [A B]; eapply prep_cross; eauto|]. intros <-. revert P Q.
  destruct p as [|x y]; cbn.
  - intros (-> & -> & N) (-> & -> & M). split; ring.
  - intros (M & -> & ->) (M' & -> & ->). split; ring.
Qed.

Lemma eqz x y : x = y -> x - y = 0. Proof. intros ->. ring. Qed.

(* the denominator is the numerator of y(P - Q), so it does not vanish *)
Lemma AZ_nz x1 y1 x2 y2 : y1 * y1 = x1 * x1 * x1 + b -> y2 * y2 = x2 * x2 * x2 + b -> x1 <> x2 ->
  AZ x1 y1 1 x2 y2 1 B3 <> 0.
Proof.
  intros H1 H2 N E. assert (H2' : (- y2) * (- y2) = x2 * x2 * x2 + b) by (rewrite <- H2; ring).
  pose proof (chord_on x1 y1 x2 (- y2) H1 H2' N) as ON. unfold line_sum, on_curve in ON.
  assert (D : x2 - x1 <> 0) by (apply sub_nz; auto).
  set (d := x2 - x1) in *. set (l := (- y2 - y1) / d) in *.
  assert (L : d * l = - y2 - y1) by (unfold l; field; auto). clearbody l.
  assert (X : d * d * (l * l - x1 - x2) = (- y2 - y1) * (- y2 - y1) - d * d * (x1 + x2)).
  { rewrite <- L. ring. }
  set (x3 := l * l - x1 - x2) in *. clearbody x3.
  assert (Y : d * d * d * (l * (x1 - x3) - y1) = (- y2 - y1) * (d * d * x1 - (d * d) * x3) - d * d * d * y1).
  { rewrite <- L. ring. }
  rewrite X in Y. set (y3 := l * (x1 - x3) - y1) in *. clearbody y3.
  assert (K : d * d * d * y3 = AZ x1 y1 1 x2 y2 1 B3 \/ d * d * d * y3 = - AZ x1 y1 1 x2 y2 1 B3).
  { rewrite Y. unfold AZ, d. first [left; ring [H1 H2] | right; ring [H1 H2]]. }
  assert (Z : d * d * d * y3 = 0) by (destruct K as [K|K]; rewrite K, E; ring).
  apply integral in Z. destruct Z as [Z|Z].
  - revert Z. change (d * d * d <> 0). nz.
  - apply (y_nz x3 y3); auto.
Qed.

Lemma add_chord x1 y1 x2 y2 : y1 * y1 = x1 * x1 * x1 + b -> y2 * y2 = x2 * x2 * x2 + b -> x1 <> x2 ->
  prep (AX x1 y1 1 x2 y2 1 B3) (AY x1 y1 1 x2 y2 1 B3) (AZ x1 y1 1 x2 y2 1 B3) (line_sum ((y2 - y1) / (x2 - x1)) x1 y1 x2).
Proof.
  intros H1 H2 N. unfold line_sum. cbn [prep]. split; [apply AZ_nz; auto|].
  assert (D : x2 - x1 <> 0) by (apply sub_nz; auto).
  set (d := x2 - x1) in *. set (l := (y2 - y1) / d).
  assert (L : d * l = y2 - y1) by (unfold l; field; auto). clearbody l.
  assert (X : d * d * (l * l - x1 - x2) = (y2 - y1) * (y2 - y1) - d * d * (x1 + x2)).
  { rewrite <- L. ring. }
  set (x3 := l * l - x1 - x2) in *. clearbody x3.
  assert (Y : d * d * d * (l * (x1 - x3) - y1) = (y2 - y1) * (d * d * x1 - (d * d) * x3) - d * d * d * y1).
  { rewrite <- L. ring. }
  rewrite X in Y. set (y3 := l * (x1 - x3) - y1) in *. clearbody y3.
  split.
  - apply (cancel (d * d)); [nz|].
    transitivity ((d * d * x3) * AZ x1 y1 1 x2 y2 1 B3); [|ring]. rewrite X. unfold AX, AZ, d. ring [H1 H2].
  - apply (cancel (d * d * d)); [nz|].
    transitivity ((d * d * d * y3) * AZ x1 y1 1 x2 y2 1 B3); [|ring]. rewrite Y. unfold AY, AZ, d. ring [H1 H2].
Qed.

Lemma tangent_eqs x1 y1 : y1 * y1 = x1 * x1 * x1 + b ->
  exists x3 y3, line_sum ((1 + 1 + 1) * (x1 * x1) / ((1 + 1) * y1)) x1 y1 x1 = Aff x3 y3 /\
   (let d := (1 + 1) * y1 in d * d * x3 = (1 + 1 + 1) * (x1 * x1) * ((1 + 1 + 1) * (x1 * x1)) - d * d * (x1 + x1) /\
   d * d * d * y3 = (1 + 1 + 1) * (x1 * x1) * (d * d * x1 - ((1 + 1 + 1) * (x1 * x1) * ((1 + 1 + 1) * (x1 * x1)) - d * d * (x1 + x1))) - d * d * d * y1).
Proof.
  intros H1. cbv zeta. unfold line_sum.
  assert (D : (1 + 1) * y1 <> 0) by (apply mul_nz; [auto|eapply y_nz; eauto]).
  set (d := (1 + 1) * y1) in *. set (l := (1 + 1 + 1) * (x1 * x1) / d).
  assert (L : d * l = (1 + 1 + 1) * (x1 * x1)) by (unfold l; field; auto).
  clearbody l. eexists _, _. split; [reflexivity|].
  split; rewrite <- !L; ring.
Qed.

Lemma add_tangent x1 y1 : y1 * y1 = x1 * x1 * x1 + b ->
  prep (AX x1 y1 1 x1 y1 1 B3) (AY x1 y1 1 x1 y1 1 B3) (AZ x1 y1 1 x1 y1 1 B3)
    (line_sum ((1 + 1 + 1) * (x1 * x1) / ((1 + 1) * y1)) x1 y1 x1).
Proof.
  intros H1. pose proof (y_nz _ _ H1) as NY. destruct (tangent_eqs x1 y1 H1) as (x3 & y3 & E & X & Y). rewrite E. cbv zeta in X, Y.
  assert (D : (1 + 1) * y1 <> 0) by (apply mul_nz; auto).
  assert (AZE : AZ x1 y1 1 x1 y1 1 B3 = (1 + 1) * y1 * ((1 + 1) * y1) * ((1 + 1) * y1)) by (unfold AZ; ring [H1]).
  cbn [prep]. split; [rewrite AZE; nz|].
  split.
  - apply (cancel ((1 + 1) * y1 * ((1 + 1) * y1))); [nz|].
    transitivity (((1 + 1) * y1 * ((1 + 1) * y1) * x3) * AZ x1 y1 1 x1 y1 1 B3); [|ring]. rewrite X. unfold AX, AZ. ring [H1].
  - rewrite AZE. transitivity ((1 + 1) * y1 * ((1 + 1) * y1) * ((1 + 1) * y1) * y3); [|ring]. rewrite Y. unfold AY. ring [H1].
Qed.
Lemma add_opposite x y : y * y = x * x * x + b ->
  prep (AX x (- y) 1 x y 1 B3) (AY x (- y) 1 x y 1 B3) (AZ x (- y) 1 x y 1 B3) Inf.
Proof.
  intros H1. cbn [prep]. split; [unfold AX; ring|]. split; [unfold AZ; ring|].
  pose proof (y_nz _ _ H1) as NY. pose proof (tangent_on x y H1) as ON.
  destruct (tangent_eqs x y H1) as (x3 & y3 & E & X & Y). rewrite E in ON. cbv zeta in Y.
  assert (K : AY x (- y) 1 x y 1 B3 = (1 + 1) * y * ((1 + 1) * y) * ((1 + 1) * y) * y3).
  { rewrite Y. unfold AY. ring [H1]. }
  rewrite K. assert (D : (1 + 1) * y <> 0) by (apply mul_nz; auto).
  nz. apply (y_nz x3). exact ON.
Qed.

Lemma add_prep X1 Y1 Z1 X2 Y2 Z2 p q : on p -> on q -> prep X1 Y1 Z1 p -> prep X2 Y2 Z2 q ->
  prep (AX X1 Y1 Z1 X2 Y2 Z2 B3) (AY X1 Y1 Z1 X2 Y2 Z2 B3) (AZ X1 Y1 Z1 X2 Y2 Z2 B3) (padd p q).
Proof.
  intros OP OQ P Q.
  assert (SC : forall k X Y Z X' Y' Z' r, k <> 0 -> prep X Y Z r -> X' = k * X -> Y' = k * Y -> Z' = k * Z -> prep X' Y' Z' r).
  { intros k X Y Z X' Y' Z' r K R -> -> ->. apply prep_scale; auto. }
  destruct p as [|x1 y1], q as [|x2 y2]; cbn [prep] in P, Q.
  - destruct P as (-> & -> & N), Q as (-> & -> & M). unfold AX, AY, AZ. cbn [padd SpecCurve.padd prep].
    split; [ring|]. split; [ring|].
    assert (K : (Y1 * Y2 + B3 * (0 * 0)) * (Y1 * Y2 - B3 * (0 * 0)) + B3 * (0 * 0 + 0 * 0) * ((1 + 1 + 1) * (0 * 0)) = (Y1 * Y2) * (Y1 * Y2)) by ring.
    rewrite K. nz.
  - destruct P as (-> & -> & N). cbn [SpecCurve.padd]. destruct Q as (M & -> & ->). cbn in OQ. pose proof (y_nz _ _ OQ).
    apply (SC (Y1 * Y1 * (y2 * Z2)) (x2 * Z2) (y2 * Z2) Z2); [nz| cbn; auto | | |]; unfold AX, AY, AZ; ring.
  - destruct Q as (-> & -> & N). cbn [SpecCurve.padd]. destruct P as (M & -> & ->). cbn in OP. pose proof (y_nz _ _ OP).
    apply (SC (Y2 * Y2 * (y1 * Z1)) (x1 * Z1) (y1 * Z1) Z1); [nz| cbn; auto | | |]; unfold AX, AY, AZ; ring.
  - destruct P as (N & -> & ->), Q as (M & -> & ->). cbn [on_curve] in OP, OQ.
    apply (SC (Z1 * Z1 * (Z2 * Z2)) (AX x1 y1 1 x2 y2 1 B3) (AY x1 y1 1 x2 y2 1 B3) (AZ x1 y1 1 x2 y2 1 B3));
      [nz| |unfold AX; ring|unfold AY; ring|unfold AZ; ring].
    unfold SpecCurve.padd. destruct (dec x1 x2) as [->|NX].
    + destruct (dec y1 (- y2)) as [->|NY].
      * apply add_opposite; auto.
      * assert (E : y1 = y2). { destruct (sq_eq y1 y2); [congruence|auto|contradiction]. } subst y2. apply add_tangent; auto.
    + apply add_chord; auto.
Qed.

(* doubling formulas *)
Definition DX X Y Z b3 := (1+1)*((X*Y)*(Y*Y - (1+1+1)*(b3*(Z*Z)))).
Definition DY (X Y Z b3 : F) := (Y*Y + b3*(Z*Z))*(Y*Y - (1+1+1)*(b3*(Z*Z))) + (b3*(Z*Z))*((1+1)*(1+1)*(1+1)*(Y*Y)).
Definition DZ (X Y Z : F) := (1+1)*(1+1)*(1+1)*(Y*Y)*(Y*Z).
Lemma dbl_prep X Y Z p : on p -> prep X Y Z p -> prep (DX X Y Z B3) (DY X Y Z B3) (DZ X Y Z) (padd p p).
Proof.
  intros O P. destruct p as [|x y]; cbn [prep] in P.
  - destruct P as (-> & -> & N). cbn. split; [unfold DX; ring|]. split; [unfold DZ; ring|].
    assert (K : DY 0 Y 0 B3 = (Y * Y) * (Y * Y)) by (unfold DY; ring). rewrite K. nz.
  - cbn [on_curve] in O. destruct P as (N & -> & ->). unfold SpecCurve.padd. destruct (dec x x) as [_|C]; [|contradiction].
    pose proof (y_nz _ _ O) as NY. destruct (dec y (- y)) as [E|_]; [apply opp_neq in E; tauto|].
    pose proof (add_tangent x y O) as T.
    apply (prep_scale (Z * Z * (Z * Z))) in T; [|nz].
    revert T. match goal with |- prep ?a ?b ?c _ -> prep ?d ?e ?f _ =>
      assert (E1 : a = d) by (unfold DX, AX; ring [O]); assert (E2 : b = e) by (unfold DY, AY; ring [O]);
      assert (E3 : c = f) by (unfold DZ, AZ; ring [O]); rewrite E1, E2, E3 end. auto.
Qed.

(* ------------------- group laws -------------------------------------- *)
Definition canon (p : pt) : F * F * F := match p with Inf => (0, 1, 0) | Aff x y => (x, y, 1) end.
Lemma one_nz : 1 <> 0. Proof. exact (F_1_neq_0 FT). Qed.
Lemma canon_prep p : let '(X, Y, Z) := canon p in prep X Y Z p.
Proof. destruct p; cbn; pose proof one_nz; repeat split; auto; ring. Qed.

Lemma padd_0_l p : padd Inf p = p. Proof. reflexivity. Qed.
Lemma padd_0_r p : padd p Inf = p. Proof. destruct p; reflexivity. Qed.
Lemma padd_comm p q : on p -> on q -> padd p q = padd q p.
Proof.
  intros P Q. pose proof (canon_prep p) as RP. pose proof (canon_prep q) as RQ.
  destruct (canon p) as [[X1 Y1] Z1], (canon q) as [[X2 Y2] Z2].
  pose proof (add_prep _ _ _ _ _ _ _ _ P Q RP RQ) as A. pose proof (add_prep _ _ _ _ _ _ _ _ Q P RQ RP) as B.
  eapply prep_cross; [exact A|exact B| |]; unfold AX, AY, AZ; ring.
Qed.
Lemma padd_neg_r p : on p -> padd p (pneg p) = Inf.
Proof.
  destruct p as [|x y]; [reflexivity|]. cbn [pneg SpecCurve.pneg]. intros O. unfold SpecCurve.padd.
  destruct (dec x x); [|contradiction]. destruct (dec y (- - y)) as [|N]; [reflexivity|]. exfalso. apply N. ring.
Qed.
Lemma padd_assoc p q r : on p -> on q -> on r -> padd (padd p q) r = padd p (padd q r).
Proof.
  intros P Q R.
  destruct p as [|x1 y1]; [reflexivity|]. destruct q as [|x2 y2]; [rewrite padd_0_r; reflexivity|].
  destruct r as [|x3 y3]; [rewrite !padd_0_r; reflexivity|].
  pose proof (canon_prep (Aff x1 y1)) as RP. pose proof (canon_prep (Aff x2 y2)) as RQ. pose proof (canon_prep (Aff x3 y3)) as RR.
  cbn [canon] in RP, RQ, RR.
  pose proof (add_prep _ _ _ _ _ _ _ _ P Q RP RQ) as A. pose proof (add_prep _ _ _ _ _ _ _ _ Q R RQ RR) as B.
  pose proof (add_prep _ _ _ _ _ _ _ _ (padd_on _ _ P Q) R A RR) as C.
  pose proof (add_prep _ _ _ _ _ _ _ _ P (padd_on _ _ Q R) RP B) as D.
  cbn [on_curve] in P, Q, R.
  eapply prep_cross; [exact C|exact D| |].
  - unfold AX, AY, AZ. ring [P Q R].
  - unfold AX, AY, AZ. ring [P Q R].
Qed.
End C.
