(* Specification: Miller functions and the ate pairing, from the definition
   with lines and vertical lines; independent of the model.

   The first argument is a point of the twist E' : y^2 = x^3 + 4(1+i) over
   F_q2.  The second argument (qx, qy) is a point of E : y^2 = x^3 + 4 over
   F_q; it is moved to E' over F_q12 by (qx w^2, qy w^3), w^6 = 1+i. *)
From Coq Require Import ZArith List.
From Verif Require Import NumT FieldQ FieldQ2 SpecCurve Tower.
Open Scope Z_scope.

Definition emb2 (x : Fq2) : Fq12 := kemb (hemb x).
Definition twx (qx : Fq) : Fq12 := kmul (emb2 (gemb qx)) (kmul kw kw).
Definition twy (qy : Fq) : Fq12 := kmul (emb2 (gemb qy)) (kmul kw (kmul kw kw)).

Section Miller.
(* the point of E' over F_q12 at which the functions are evaluated *)
Variables (x y : Fq12).
Notation padd2 := (padd Fq2 g1 gadd gmul gsub gopp gdiv Fq2_dec).
Notation nmul2 := (nmul Fq2 g1 gadd gmul gsub gopp gdiv Fq2_dec).

(* the vertical line through A *)
Definition vert (A : pt Fq2) : Fq12 := match A with Inf => k1 | Aff xa _ => ksub x (emb2 xa) end.
(* the line of slope l through (xa, ya) *)
Definition cut (l xa ya : Fq2) : Fq12 := ksub (ksub y (emb2 ya)) (kmul (emb2 l) (ksub x (emb2 xa))).
(* the line through A and B: the tangent if they are equal, the vertical line
   if they are opposite or one of them is infinity *)
Definition chord (A B : pt Fq2) : Fq12 :=
  match A, B with
  | Inf, _ => vert B
  | _, Inf => vert A
  | Aff x1 y1, Aff x2 y2 =>
      if Fq2_dec x1 x2 then
        if Fq2_dec y1 (gopp y2) then vert A
        else cut (gdiv (gmul (gadd (gadd g1 g1) g1) (gmul x1 x1)) (gmul (gadd g1 g1) y1)) x1 y1
      else cut (gdiv (gsub y2 y1) (gsub x2 x1)) x1 y1
  end.
(* the function with divisor A + B - (A+B) - O *)
Definition addf (A B : pt Fq2) : Fq12 := kdiv (chord A B) (vert (padd2 A B)).
(* the function with divisor n P - (nP) - (n-1) O *)
Fixpoint miller (n : nat) (P : pt Fq2) : Fq12 :=
  match n with O => k1 | S m => kmul (miller m P) (addf (nmul2 m P) P) end.
End Miller.

(* the curve parameter is -uabs *)
Definition uabs : Z := 15132376222941642752.
Definition final_exp : Z := 3 * ((q381 ^ 12 - 1) / r255).
(* the cube of the reduced ate pairing f_{-uabs,P}(Q)^((q^12-1)/r) *)
Definition pairing (P : pt Fq2) (Q : pt Fq) : Fq12 :=
  match Q with
  | Inf => k1
  | Aff qx qy => kpw (kinv (miller (twx qx) (twy qy) (Z.to_nat uabs) P)) final_exp
  end.
