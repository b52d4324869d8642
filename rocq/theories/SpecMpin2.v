(* Specification: the point that stands for a number and a parity in the encoding of points as
   pairs of random-looking numbers: the first abscissa from the number on that has a point, and
   of its two points the one whose ordinate has the parity. *)
From Coq Require Import ZArith List.
From Verif Require Import NumT FieldQ SpecCurve EcpP SpecMpin.
Open Scope Z_scope.

Definition emap_pt (u s : Z) (A : pt1) : Prop :=
  exists (k : nat) y, on1 (Aff (mkq (u + Z.of_nat k)) y) /\ fv y mod 2 = s /\ A = Aff (mkq (u + Z.of_nat k)) y /\
    forall i z, (i < k)%nat -> ~ on1 (Aff (mkq (u + Z.of_nat i)) z).
(* a coordinate in a string, from a position on *)
Definition coord (e : list Z) (off : nat) : Fq := mkq (num_of (skipn off e)).
