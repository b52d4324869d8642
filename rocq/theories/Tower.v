(* The tower over F_q2 that the pairing takes its values in:
     F_q4  = F_q2[s]/(s^2 - (1+i))   pairs  (a, b)     = a + b s
     F_q12 = F_q4[w]/(w^3 - s)       triples (a, b, c) = a + b w + c w^2
   with Leibniz equality, textbook multiplication, and powers. *)
From Coq Require Import ZArith List Bool Lia Znumtheory Field.
From Verif Require Import NumT FieldQ FieldQ2.
Open Scope Z_scope.

(* ------------------------------ Fq4 ---------------------------------- *)
Definition Fq4 : Type := (Fq2 * Fq2)%type.
Definition h0 : Fq4 := (g0, g0).
Definition h1 : Fq4 := (g1, g0).
Definition hs : Fq4 := (g0, g1).
Definition hemb (x : Fq2) : Fq4 := (x, g0).
Definition hadd (x y : Fq4) : Fq4 := (gadd (fst x) (fst y), gadd (snd x) (snd y)).
Definition hsub (x y : Fq4) : Fq4 := (gsub (fst x) (fst y), gsub (snd x) (snd y)).
Definition hopp (x : Fq4) : Fq4 := (gopp (fst x), gopp (snd x)).
Definition hmul (x y : Fq4) : Fq4 :=
  (gadd (gmul (fst x) (fst y)) (gmul gi1 (gmul (snd x) (snd y))),
   gadd (gmul (fst x) (snd y)) (gmul (snd x) (fst y))).
Definition hconj (x : Fq4) : Fq4 := (fst x, gopp (snd x)).
Definition hnorm (x : Fq4) : Fq2 := gsub (gmul (fst x) (fst x)) (gmul gi1 (gmul (snd x) (snd x))).
Definition hinv (x : Fq4) : Fq4 := let n := ginv (hnorm x) in (gmul (fst x) n, gopp (gmul (snd x) n)).
Definition hdiv (x y : Fq4) : Fq4 := hmul x (hinv y).

Ltac h2 := intros; unfold hdiv, hadd, hsub, hmul, hopp, hconj, h0, h1, hs, hemb in *;
  repeat match goal with x : Fq4 |- _ => destruct x end; cbn [fst snd] in *.
Lemma Fq4_ring : ring_theory h0 h1 hadd hmul hsub hopp (@eq Fq4).
Proof. constructor; h2; f_equal; ring. Qed.
Add Ring Fq4R : Fq4_ring.

(* ------------------------------ Fq12 --------------------------------- *)
Record Fq12 : Type := mk12 { ka : Fq4; kb : Fq4; kc : Fq4 }.
Definition k0 : Fq12 := mk12 h0 h0 h0.
Definition k1 : Fq12 := mk12 h1 h0 h0.
Definition kw : Fq12 := mk12 h0 h1 h0.
Definition kemb (x : Fq4) : Fq12 := mk12 x h0 h0.
Definition kadd (x y : Fq12) : Fq12 := mk12 (hadd (ka x) (ka y)) (hadd (kb x) (kb y)) (hadd (kc x) (kc y)).
Definition ksub (x y : Fq12) : Fq12 := mk12 (hsub (ka x) (ka y)) (hsub (kb x) (kb y)) (hsub (kc x) (kc y)).
Definition kopp (x : Fq12) : Fq12 := mk12 (hopp (ka x)) (hopp (kb x)) (hopp (kc x)).
Definition kmul (x y : Fq12) : Fq12 :=
  mk12 (hadd (hmul (ka x) (ka y)) (hmul hs (hadd (hmul (kb x) (kc y)) (hmul (kc x) (kb y)))))
       (hadd (hadd (hmul (ka x) (kb y)) (hmul (kb x) (ka y))) (hmul hs (hmul (kc x) (kc y))))
       (hadd (hadd (hmul (ka x) (kc y)) (hmul (kb x) (kb y))) (hmul (kc x) (ka y))).
(* the automorphism w -> -w *)
Definition kconj (x : Fq12) : Fq12 := mk12 (hconj (ka x)) (hopp (hconj (kb x))) (hconj (kc x)).
(* cofactor and norm over Fq4: x * cof x = norm x *)
Definition kcof (x : Fq12) : Fq12 :=
  mk12 (hsub (hmul (ka x) (ka x)) (hmul hs (hmul (kb x) (kc x))))
       (hsub (hmul hs (hmul (kc x) (kc x))) (hmul (ka x) (kb x)))
       (hsub (hmul (kb x) (kb x)) (hmul (ka x) (kc x))).
Definition knorm (x : Fq12) : Fq4 :=
  hadd (hadd (hmul (ka x) (ka (kcof x))) (hmul hs (hmul (kb x) (kc (kcof x))))) (hmul hs (hmul (kc x) (kb (kcof x)))).
Definition kscale (c : Fq4) (x : Fq12) : Fq12 := mk12 (hmul c (ka x)) (hmul c (kb x)) (hmul c (kc x)).
Definition kinv (x : Fq12) : Fq12 := kscale (hinv (knorm x)) (kcof x).
Definition kdiv (x y : Fq12) : Fq12 := kmul x (kinv y).

Ltac k2 := intros; unfold kdiv, kinv, kscale, kcof, knorm, kadd, ksub, kmul, kopp, k0, k1, kw, kemb in *;
  repeat match goal with x : Fq12 |- _ => destruct x end; cbn [ka kb kc] in *.
Lemma Fq12_ring : ring_theory k0 k1 kadd kmul ksub kopp (@eq Fq12).
Proof. constructor; k2; f_equal; ring. Qed.
Add Ring Fq12R : Fq12_ring.

Definition Fq4_dec (x y : Fq4) : {x = y} + {x <> y}.
Proof.
  destruct x as [a b], y as [c d]. destruct (Fq2_dec a c) as [->|]; [destruct (Fq2_dec b d) as [->|]|];
    [left; reflexivity|right; congruence|right; congruence].
Defined.
Definition Fq12_dec (x y : Fq12) : {x = y} + {x <> y}.
Proof.
  destruct x as [a b c], y as [d e f].
  destruct (Fq4_dec a d) as [->|]; [destruct (Fq4_dec b e) as [->|]; [destruct (Fq4_dec c f) as [->|]|]|];
    [left; reflexivity|right; congruence|right; congruence|right; congruence].
Defined.

(* ------------------------- powers ------------------------------------ *)
(* x multiplied by itself e times *)
Definition rpow {A} (mul : A -> A -> A) (one : A) (x : A) (e : Z) : A := Nat.iter (Z.to_nat e) (mul x) one.
Definition gpw : Fq2 -> Z -> Fq2 := rpow gmul g1.
Definition hpw : Fq4 -> Z -> Fq4 := rpow hmul h1.
Definition kpw : Fq12 -> Z -> Fq12 := rpow kmul k1.
