(* Specification: the affine group law of a curve y^2 = x^3 + b (chord and
   tangent), independent of the model. *)
From Coq Require Import ZArith List.

Section Curve.
Variable F : Type.
Variables (z0 z1 : F) (add mul sub : F -> F -> F) (opp : F -> F) (div : F -> F -> F).
Variable dec : forall x y : F, {x = y} + {x <> y}.
Variable b : F.
Infix "+" := add. Infix "*" := mul. Infix "-" := sub. Infix "/" := div.

(* a point: the point at infinity, or a pair of coordinates *)
Inductive pt := Inf | Aff (x y : F).

Definition on_curve (p : pt) : Prop :=
  match p with Inf => True | Aff x y => y * y = x * x * x + b end.

Definition pneg (p : pt) : pt := match p with Inf => Inf | Aff x y => Aff x (opp y) end.

(* third point on the line of slope l through (x1,y1) and (x2,_), reflected *)
Definition line_sum (l x1 y1 x2 : F) : pt :=
  let x3 := l * l - x1 - x2 in Aff x3 (l * (x1 - x3) - y1).

Definition padd (p q : pt) : pt :=
  match p, q with
  | Inf, _ => q
  | _, Inf => p
  | Aff x1 y1, Aff x2 y2 =>
      if dec x1 x2 then
        if dec y1 (opp y2) then Inf
        else line_sum ((z1 + z1 + z1) * (x1 * x1) / ((z1 + z1) * y1)) x1 y1 x1
      else line_sum ((y2 - y1) / (x2 - x1)) x1 y1 x2
  end.

(* n-fold sum *)
Fixpoint nmul (n : nat) (p : pt) : pt :=
  match n with O => Inf | S n' => padd (nmul n' p) p end.
Definition psum (l : list pt) : pt := fold_right padd Inf l.
End Curve.
Arguments Inf {F}. Arguments Aff {F}.
