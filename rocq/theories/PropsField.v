(* Property theorems about the field layer (C41, C42, C45, C46). fp_val/fp2_val
   (Denote) is the field element an FP/FP2 stands for; fp_wf l E the representations
   with limbs up to l*2^58 and excess up to E. Each theorem says that the operation
   does not panic, that its result is again admissible (C41), and what it is (C42,
   C45). FEX = 2^25 is the library's excess limit. *)
From Coq Require Import ZArith List.
From Verif Require Import Prim Big Fp Fp2 BigP BigP2 NumT FieldQ FieldQ2 Denote LayerP.
Import ListNotations.
Open Scope Z_scope.

Theorem C42_fp_add : forall l m a b, fp_wf l FEX a -> fp_wf m FEX b -> 1 <= l -> 1 <= m -> l + m <= 31 ->
  exists c, fp_add a b = Some c /\ fp_wf (l + m) FEX c /\ fp_val c = fadd (fp_val a) (fp_val b).
Proof. exact L_add. Qed.
Print Assumptions C42_fp_add.

Theorem C42_fp_sub : forall l m a b, fp_wf l FEX a -> fp_wf m FEX b -> 1 <= l -> 1 <= m -> l + (m + 1) <= 31 ->
  exists c, fp_sub a b = Some c /\ fp_wf (l + (m + 1)) FEX c /\ fp_val c = fsub (fp_val a) (fp_val b).
Proof. exact L_sub. Qed.
Print Assumptions C42_fp_sub.

Theorem C42_fp_dbl : forall l a, fp_wf l FEX a -> 1 <= l -> l + l <= 31 ->
  exists c, fp_dbl a = Some c /\ fp_wf (l + l) FEX c /\ fp_val c = fadd (fp_val a) (fp_val a).
Proof. exact L_dbl. Qed.
Print Assumptions C42_fp_dbl.

Theorem C42_fp_neg : forall l a, fp_wf l FEX a -> 1 <= l <= 30 ->
  exists c, fp_neg a = Some c /\ fp_wf (l + 1) FEX c /\ fp_val c = fopp (fp_val a).
Proof. exact L_neg. Qed.
Print Assumptions C42_fp_neg.

Theorem C42_fp_mul : forall l m a b, fp_wf l FEX a -> fp_wf m FEX b -> 1 <= l <= 8 -> 1 <= m <= 8 ->
  exists c, fp_mul a b = Some c /\ fp_wf 1 2 c /\ fp_val c = fmul (fp_val a) (fp_val b).
Proof. exact L_mul. Qed.
Print Assumptions C42_fp_mul.

Theorem C42_fp_sqr : forall l a, fp_wf l FEX a -> 1 <= l <= 8 ->
  exists c, fp_sqr a = Some c /\ fp_wf 1 2 c /\ fp_val c = fmul (fp_val a) (fp_val a).
Proof. exact L_sqr. Qed.
Print Assumptions C42_fp_sqr.

Theorem C42_fp_norm : forall l E a, fp_wf l E a -> 1 <= l <= 31 -> E <= FEX ->
  exists c, fp_norm a = Some c /\ fp_wf 1 E c /\ fp_val c = fp_val a.
Proof. exact L_norm. Qed.
Print Assumptions C42_fp_norm.

(* the result is the least residue *)
Theorem C42_fp_reduce : forall l a, fp_wf l (2 * FEX) a -> 1 <= l <= 31 ->
  exists c, fp_reduce a = Some c /\ fp_canon c /\ fp_val c = fp_val a.
Proof. exact L_reduce. Qed.
Print Assumptions C42_fp_reduce.

(* halving *)
Theorem C42_fp_div2 : forall E a, fp_wf 1 E a -> 2 * E <= FEX ->
  exists c, fp_div2 a = Some c /\ fp_wf 1 E c /\ fadd (fp_val c) (fp_val c) = fp_val a.
Proof. exact L_div2. Qed.
Print Assumptions C42_fp_div2.

(* multiplication by a small integer *)
Theorem C42_fp_imul : forall l a c, fp_wf l FEX a -> 1 <= l <= 8 -> c <> 0 -> fxes a * Z.abs c < 2 ^ 31 ->
  exists d, fp_imul a c = Some d /\ fp_wf 1 FEX d /\ fp_val d = fmul (mkq c) (fp_val a).
Proof. exact L_imul. Qed.
Print Assumptions C42_fp_imul.

(* the inverse, and 0 for 0 *)
Theorem C42_fp_inverse : forall l a, fp_wf l FEX a -> 1 <= l <= 31 ->
  exists c, fp_inverse a = Some c /\ fp_canon c /\ (fp_val a <> f0 -> fmul (fp_val c) (fp_val a) = f1) /\ (fp_val a = f0 -> fp_val c = f0).
Proof. exact L_inverse. Qed.
Print Assumptions C42_fp_inverse.

Theorem C42_fp_pow : forall l a e, fp_wf l FEX a -> 1 <= l <= 31 -> length e = 7%nat -> lb (2 ^ 63 - 64) e -> 0 <= lval e < 2 ^ 406 ->
  exists c, fp_pow a e = Some c /\ fp_canon c /\ fp_val c = fpw (fp_val a) (lval e).
Proof. exact L_pow. Qed.
Print Assumptions C42_fp_pow.

(* a square root whenever there is one *)
Theorem C42_fp_sqrt : forall l a, fp_wf l FEX a -> 1 <= l <= 31 ->
  exists c, fp_sqrt a = Some c /\ fp_canon c /\ ((exists y, fp_val a = fmul y y) -> fmul (fp_val c) (fp_val c) = fp_val a).
Proof. exact L_sqrt. Qed.
Print Assumptions C42_fp_sqrt.

(* quadratic character *)
Theorem C42_fp_jacobi : forall l a, fp_wf l FEX a -> 1 <= l <= 31 ->
  exists r, fp_jacobi a = Some r /\ (r = 1 \/ r = 0 \/ r = -1) /\ (r = 0 <-> fp_val a = f0) /\
    (r = 1 <-> fp_val a <> f0 /\ exists y, fp_val a = fmul y y).
Proof. exact L_jacobi. Qed.
Print Assumptions C42_fp_jacobi.

Theorem C42_fp_equals : forall l m a b, fp_wf l FEX a -> fp_wf m FEX b -> 1 <= l <= 31 -> 1 <= m <= 31 ->
  exists r a' b', fp_equals a b = Some (r, a', b') /\ (r = true <-> fp_val a = fp_val b) /\
    fp_canon a' /\ fp_val a' = fp_val a /\ fp_canon b' /\ fp_val b' = fp_val b.
Proof. exact L_equals. Qed.
Print Assumptions C42_fp_equals.

Theorem C42_fp_iszilch : forall l a, fp_wf l FEX a -> 1 <= l <= 31 ->
  exists r a', fp_iszilch a = Some (r, a') /\ (r = true <-> fp_val a = f0) /\ fp_canon a' /\ fp_val a' = fp_val a.
Proof. exact L_iszilch. Qed.
Print Assumptions C42_fp_iszilch.

(* into Montgomery form *)
Theorem C42_fp_nres : forall w v, rep 7 w v -> exists c, fp_nres w = Some c /\ fp_wf 1 2 c /\ fp_val c = mkq v.
Proof. exact L_nres. Qed.
Print Assumptions C42_fp_nres.

(* out of Montgomery form *)
Theorem C42_fp_redc : forall l a, fp_wf l FEX a -> 1 <= l <= 31 ->
  exists w, fp_redc a = Some w /\ length w = 7%nat /\ digs w /\ 0 <= lval w <= q381 /\ mkq (lval w) = fp_val a.
Proof. exact L_redc. Qed.
Print Assumptions C42_fp_redc.

Theorem C45_fp2_add : forall l m E F a b, fp2_wf l E a -> fp2_wf m F b -> 1 <= l -> 1 <= m -> l + m <= 31 -> E + F <= FEX ->
  exists c, fp2_add a b = Some c /\ fp2_wf (l + m) (E + F) c /\ fp2_val c = gadd (fp2_val a) (fp2_val b).
Proof. exact L2_add. Qed.
Print Assumptions C45_fp2_add.

Theorem C45_fp2_sub : forall l m E F a b, fp2_wf l E a -> fp2_wf m F b -> 1 <= l -> 1 <= m -> l + (3 * m + 1) <= 31 -> E + (5 * F - 1) <= FEX ->
  exists c, fp2_sub a b = Some c /\ fp2_wf (l + (3 * m + 1)) (E + (5 * F - 1)) c /\ fp2_val c = gsub (fp2_val a) (fp2_val b).
Proof. exact L2_sub. Qed.
Print Assumptions C45_fp2_sub.

Theorem C45_fp2_neg : forall l E a, fp2_wf l E a -> 1 <= l -> 3 * l + 1 <= 31 -> 5 * E - 1 <= FEX ->
  exists c, fp2_neg a = Some c /\ fp2_wf (3 * l + 1) (5 * E - 1) c /\ fp2_val c = gopp (fp2_val a).
Proof. exact L2_neg. Qed.
Print Assumptions C45_fp2_neg.

Theorem C45_fp2_conj : forall l E a, fp2_wf l E a -> 1 <= l <= 30 -> 2 * E - 1 <= FEX ->
  exists c, fp2_conj a = Some c /\ fp2_wf l (2 * E - 1) c /\ fp2_val c = gconj (fp2_val a).
Proof. exact L2_conj. Qed.
Print Assumptions C45_fp2_conj.

Theorem C45_fp2_mul : forall l m a b, fp2_wf l FEX a -> fp2_wf m 8388608 b -> 1 <= l <= 8 -> 1 <= m <= 8 ->
  exists c, fp2_mul a b = Some c /\ fp2_wf 1 3 c /\ fp2_val c = gmul (fp2_val a) (fp2_val b).
Proof. exact L2_mul. Qed.
Print Assumptions C45_fp2_mul.

Theorem C45_fp2_sqr : forall l E a, fp2_wf l E a -> 1 <= l <= 8 -> 3 * E - 1 <= FEX ->
  exists c, fp2_sqr a = Some c /\ fp2_wf 1 2 c /\ fp2_val c = gmul (fp2_val a) (fp2_val a).
Proof. exact L2_sqr. Qed.
Print Assumptions C45_fp2_sqr.

Theorem C45_fp2_inverse : forall l a, fp2_wf l FEX a -> 1 <= l <= 31 ->
  exists c, fp2_inverse a = Some c /\ fp2_wf 1 2 c /\ (fp2_val a <> g0 -> gmul (fp2_val c) (fp2_val a) = g1).
Proof. exact L2_inverse. Qed.
Print Assumptions C45_fp2_inverse.

(* multiplication by 1+i *)
Theorem C45_fp2_mul_ip : forall l E a, fp2_wf l E a -> 1 <= l -> 2 * l + 1 <= 31 -> 3 * E - 1 <= FEX ->
  exists c, fp2_mul_ip a = Some c /\ fp2_wf (2 * l + 1) (3 * E - 1) c /\ fp2_val c = gmul (f1, f1) (fp2_val a).
Proof. exact L2_mul_ip. Qed.
Print Assumptions C45_fp2_mul_ip.

(* multiplication by an element of F_q *)
Theorem C45_fp2_pmul : forall l m a s, fp2_wf l FEX a -> fp_wf m FEX s -> 1 <= l <= 8 -> 1 <= m <= 8 ->
  exists c, fp2_pmul a s = Some c /\ fp2_wf 1 2 c /\ fp2_val c = gmul (fp2_val a) (fp_val s, f0).
Proof. exact L2_pmul. Qed.
Print Assumptions C45_fp2_pmul.

Theorem C45_fp2_equals : forall l m a b, fp2_wf l FEX a -> fp2_wf m FEX b -> 1 <= l <= 31 -> 1 <= m <= 31 ->
  exists r a' b', fp2_equals a b = Some (r, a', b') /\ (r = true <-> fp2_val a = fp2_val b) /\
    fp2_val a' = fp2_val a /\ fp2_val b' = fp2_val b.
Proof. exact L2_equals. Qed.
Print Assumptions C45_fp2_equals.

Theorem C45_fp2_iszilch : forall l a, fp2_wf l FEX a -> 1 <= l <= 31 ->
  exists r a', fp2_iszilch a = Some (r, a') /\ (r = true <-> fp2_val a = g0) /\ fp2_canon a' /\ fp2_val a' = fp2_val a.
Proof. exact L2_iszilch. Qed.
Print Assumptions C45_fp2_iszilch.

(* C46: when FP2::sqrt answers true, and that it then leaves a root *)
Theorem C46_fp2_sqrt_exact : forall l a, fp2_wf l FEX a -> 1 <= l <= 31 ->
  exists f c, fp2_sqrt a = Some (f, c) /\
    (f = true -> fp2_wf 1 2 c /\ gmul (fp2_val c) (fp2_val c) = fp2_val a /\ exists u, fst (fp2_val c) = fmul u u) /\
    (f = true <-> (exists y, fp2_val a = gmul y y) /\ (snd (fp2_val a) = f0 -> exists y, fst (fp2_val a) = fmul y y)).
Proof. exact L2_sqrt. Qed.
Print Assumptions C46_fp2_sqrt_exact.

(* C46 fails: a square (-1 = i^2) for which FP2::sqrt answers false *)
Theorem C46_fp2_sqrt_refuted : exists a y c, fp2_wf 2 3 a /\ fp2_val a = gmul y y /\ fp2_sqrt a = Some (false, c).
Proof. exact L2_sqrt_refuted. Qed.
Print Assumptions C46_fp2_sqrt_refuted.
