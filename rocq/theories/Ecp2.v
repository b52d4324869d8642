(* Model of amcl/src/bls381/ecp2.rs (SEXTIC_TWIST = M_TYPE, ecp.rs:46). *)
From Verif Require Import Prim Rom Big Fp Fp2 Ecp.

(* ecp2.rs:26-32 *)
Record ECP2 := mkECP2 { e2x : FP2; e2y : FP2; e2z : FP2 }.

(* ecp2.rs:37-44 new *)
Definition ecp2_new : option ECP2 := o <- fp2_new_int 1 ;; Some (mkECP2 fp2_new o fp2_new).
(* ecp2.rs:94-99 inf *)
Definition ecp2_inf : option ECP2 := o <- fp2_one ;; Some (mkECP2 fp2_new o fp2_new).

(* ecp2.rs:250-269 rhs: x^3 + B(1+i); returns (rhs, x normalised) *)
Definition ecp2_rhs (x0 : FP2) : option (FP2 * FP2) :=
  x <- fp2_norm x0 ;;
  r <- fp2_sqr x ;;
  b0 <- fp_new_big CURVE_B ;;
  let b := mkFP2 b0 fp_new in
  b <- fp2_norm b ;; b <- fp2_mul_ip b ;; b <- fp2_norm b ;;
  r <- fp2_mul r x ;;
  r <- fp2_add r b ;;
  r <- fp2_reduce r ;;
  Some (r, x).

(* ecp2.rs:47-60 new_fp2s *)
Definition ecp2_new_fp2s (ix iy : FP2) : option ECP2 :=
  z <- fp2_one ;;
  '(rhs, x) <- ecp2_rhs ix ;;
  y2 <- fp2_sqr iy ;;
  '(e, _, _) <- fp2_equals y2 rhs ;;
  if negb e then ecp2_inf else Some (mkECP2 x iy z).

(* ecp2.rs:63-75 new_fp2 *)
Definition ecp2_new_fp2 (ix : FP2) : option ECP2 :=
  z <- fp2_one ;;
  '(rhs, x) <- ecp2_rhs ix ;;
  '(s, r) <- fp2_sqrt rhs ;;
  if s : bool then Some (mkECP2 x r z) else ecp2_inf.

(* ecp2.rs:78-83 is_infinity *)
Definition ecp2_is_infinity (p : ECP2) : option bool :=
  '(zx, _) <- fp2_iszilch (e2x p) ;;
  if zx : bool then '(zz, _) <- fp2_iszilch (e2z p) ;; Some zz else Some false.

(* ecp2.rs:102-105 neg *)
Definition ecp2_neg (p : ECP2) : option ECP2 :=
  y <- fp2_norm (e2y p) ;; y <- fp2_neg y ;; y <- fp2_norm y ;;
  Some (mkECP2 (e2x p) y (e2z p)).

(* ecp2.rs:108-118 cmove *)
Definition ecp2_cmove (p q : ECP2) (d : Z) : ECP2 :=
  mkECP2 (fp2_cmove (e2x p) (e2x q) d) (fp2_cmove (e2y p) (e2y q) d) (fp2_cmove (e2z p) (e2z q) d).

(* ecp2.rs:128-147 selector *)
Definition ecp2_selector (self : ECP2) (W : list ECP2) (b : Z) : option ECP2 :=
  babs <- sel_babs b ;;
  s <- foldM (fun s i =>
         w <- getM W i ;;
         t <- teq babs (Z.of_nat i) ;;
         Some (ecp2_cmove s w t)) (seq 0 8) self ;;
  mp <- ecp2_neg s ;;
  Some (ecp2_cmove s mp (Z.land (Z.shiftr b 31) 1)).

(* ecp2.rs:150-165 equals *)
Definition ecp2_equals (p q : ECP2) : option bool :=
  a <- fp2_mul (e2x p) (e2z q) ;;
  b <- fp2_mul (e2x q) (e2z p) ;;
  '(e, _, _) <- fp2_equals a b ;;
  if negb e then Some false else
  a <- fp2_mul (e2y p) (e2z q) ;;
  b <- fp2_mul (e2y q) (e2z p) ;;
  '(e, _, _) <- fp2_equals a b ;;
  Some (e : bool).

(* ecp2.rs:168-177 affine *)
Definition ecp2_affine (p : ECP2) : option ECP2 :=
  inf <- ecp2_is_infinity p ;;
  if inf : bool then Some p else
  one <- fp2_new_int 1 ;;
  '(e, z, one) <- fp2_equals (e2z p) one ;;
  if e : bool then Some (mkECP2 (e2x p) (e2y p) z) else
  z <- fp2_inverse z ;;
  x <- fp2_mul (e2x p) z ;; x <- fp2_reduce x ;;
  y <- fp2_mul (e2y p) z ;; y <- fp2_reduce y ;;
  Some (mkECP2 x y one).

(* ecp2.rs:180-183 getx, 186-189 gety *)
Definition ecp2_getx (p : ECP2) : option (FP2 * ECP2) :=
  p' <- ecp2_affine p ;; Some (e2x p', p').
Definition ecp2_gety (p : ECP2) : option (FP2 * ECP2) :=
  p' <- ecp2_affine p ;; Some (e2y p', p').

(* ecp2.rs:272-319 dbl, M_TYPE *)
Definition ecp2_dbl (p : ECP2) : option ECP2 :=
  t0 <- fp2_sqr (e2y p) ;;
  t1 <- fp2_mul (e2y p) (e2z p) ;;
  t2 <- fp2_sqr (e2z p) ;;
  z <- fp2_add t0 t0 ;; z <- fp2_norm z ;;
  z <- fp2_dbl z ;; z <- fp2_dbl z ;; z <- fp2_norm z ;;
  t2 <- fp2_imul t2 (3 * CURVE_B_I) ;;
  t2 <- fp2_mul_ip t2 ;; t2 <- fp2_norm t2 ;;
  x3 <- fp2_mul t2 z ;;
  y3 <- fp2_add t0 t2 ;; y3 <- fp2_norm y3 ;;
  z <- fp2_mul z t1 ;;
  t1 <- fp2_add t2 t2 ;; t2 <- fp2_add t2 t1 ;; t2 <- fp2_norm t2 ;;
  t0 <- fp2_sub t0 t2 ;; t0 <- fp2_norm t0 ;;
  y3 <- fp2_mul y3 t0 ;; y3 <- fp2_add y3 x3 ;;
  t1 <- fp2_mul (e2x p) (e2y p) ;;
  x <- fp2_norm t0 ;; x <- fp2_mul x t1 ;; x <- fp2_dbl x ;;
  x <- fp2_norm x ;;
  y <- fp2_norm y3 ;;
  Some (mkECP2 x y z).

(* ecp2.rs:322-396 add, M_TYPE *)
Definition ecp2_add (p q : ECP2) : option ECP2 :=
  let b := 3 * CURVE_B_I in
  t0 <- fp2_mul (e2x p) (e2x q) ;;
  t1 <- fp2_mul (e2y p) (e2y q) ;;
  t2 <- fp2_mul (e2z p) (e2z q) ;;
  t3 <- fp2_add (e2x p) (e2y p) ;; t3 <- fp2_norm t3 ;;
  t4 <- fp2_add (e2x q) (e2y q) ;; t4 <- fp2_norm t4 ;;
  t3 <- fp2_mul t3 t4 ;;
  t4 <- fp2_add t0 t1 ;;
  t3 <- fp2_sub t3 t4 ;; t3 <- fp2_norm t3 ;;
  t4 <- fp2_add (e2y p) (e2z p) ;; t4 <- fp2_norm t4 ;;
  x3 <- fp2_add (e2y q) (e2z q) ;; x3 <- fp2_norm x3 ;;
  t4 <- fp2_mul t4 x3 ;;
  x3 <- fp2_add t1 t2 ;;
  t4 <- fp2_sub t4 x3 ;; t4 <- fp2_norm t4 ;;
  x3 <- fp2_add (e2x p) (e2z p) ;; x3 <- fp2_norm x3 ;;
  y3 <- fp2_add (e2x q) (e2z q) ;; y3 <- fp2_norm y3 ;;
  x3 <- fp2_mul x3 y3 ;;
  y3 <- fp2_add t0 t2 ;;
  y3 <- fp2_rsub y3 x3 ;; y3 <- fp2_norm y3 ;;
  x3 <- fp2_add t0 t0 ;;
  t0 <- fp2_add t0 x3 ;; t0 <- fp2_norm t0 ;;
  t2 <- fp2_imul t2 b ;;
  t2 <- fp2_mul_ip t2 ;;
  z3 <- fp2_add t1 t2 ;; z3 <- fp2_norm z3 ;;
  t1 <- fp2_sub t1 t2 ;; t1 <- fp2_norm t1 ;;
  y3 <- fp2_imul y3 b ;;
  y3 <- fp2_mul_ip y3 ;; y3 <- fp2_norm y3 ;;
  x3 <- fp2_mul y3 t4 ;;
  t2 <- fp2_mul t3 t1 ;;
  x3 <- fp2_rsub x3 t2 ;;
  y3 <- fp2_mul y3 t0 ;; t1 <- fp2_mul t1 z3 ;; y3 <- fp2_add y3 t1 ;;
  t0 <- fp2_mul t0 t3 ;; z3 <- fp2_mul z3 t4 ;; z3 <- fp2_add z3 t0 ;;
  x <- fp2_norm x3 ;;
  y <- fp2_norm y3 ;;
  z <- fp2_norm z3 ;;
  Some (mkECP2 x y z).

(* ecp2.rs:399-404 sub *)
Definition ecp2_sub (p q : ECP2) : option ECP2 := nq <- ecp2_neg q ;; ecp2_add p nq.

(* ecp2.rs:407-418 frob *)
Definition ecp2_frob (p : ECP2) (x : FP2) : option ECP2 :=
  x2 <- fp2_sqr x ;;
  px <- fp2_conj (e2x p) ;;
  py <- fp2_conj (e2y p) ;;
  pz <- fp2_conj (e2z p) ;; pz <- fp2_reduce pz ;;
  px <- fp2_mul px x2 ;;
  py <- fp2_mul py x2 ;;
  py <- fp2_mul py x ;;
  Some (mkECP2 px py pz).

(* ecp2.rs:421-480 mul: as ECP::mul, without the test for a zero exponent *)
Fixpoint ecp2_wtable (n : nat) (last q : ECP2) : option (list ECP2) :=
  match n with
  | O => Some []
  | S n' => c <- ecp2_add last q ;; r <- ecp2_wtable n' c q ;; Some (c :: r)
  end.
Definition ecp2_mul_step (W : list ECP2) (st : ECP2 * ECP2) (d : Z) : option (ECP2 * ECP2) :=
  let '(p, q) := st in
  q <- ecp2_selector q W d ;;
  p <- ecp2_dbl p ;; p <- ecp2_dbl p ;; p <- ecp2_dbl p ;; p <- ecp2_dbl p ;;
  p <- ecp2_add p q ;;
  Some (p, q).
Definition ecp2_mul (self : ECP2) (e : BIG) : option ECP2 :=
  inf <- ecp2_is_infinity self ;;
  if inf : bool then ecp2_new else
  q <- ecp2_dbl self ;;
  tl <- ecp2_wtable 7 self q ;;
  let W := self :: tl in
  '(ns, w, top) <- win_recode e ;;
  let q := ecp2_cmove q self ns in
  let c := q in
  i <- cku64 (top - 1) ;;
  p <- getM W (Z.to_nat (i / 2)) ;;
  '(p, _) <- foldM (ecp2_mul_step W) (rev w) (p, q) ;;
  p <- ecp2_sub p c ;;
  ecp2_affine p.

(* ecp2.rs:633-635 generator *)
Definition ecp2_generator : option ECP2 :=
  x <- fp2_new_bigs CURVE_PXA CURVE_PXB ;;
  y <- fp2_new_bigs CURVE_PYA CURVE_PYB ;;
  ecp2_new_fp2s x y.
