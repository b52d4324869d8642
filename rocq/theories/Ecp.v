(* Model of amcl/src/bls381/ecp.rs for the configuration compiled in
   (ecp.rs:44-47: WEIERSTRASS, rom.rs:33 CURVE_A = 0, CURVE_B_I = 4): only
   those branches are modelled.  Homogeneous projective coordinates. *)
From Verif Require Import Prim Rom Big Fp.

(* ecp.rs:26-31 *)
Record ECP := mkECP { ex : FP; ey : FP; ez : FP }.

(* ecp.rs:55-63 pnew, 65-71 new; the point at infinity (0 : 1 : 0) *)
Definition ecp_new : option ECP := o <- fp_new_int 1 ;; Some (mkECP fp_new o fp_new).

(* ecp.rs:126-135 inf *)
Definition ecp_inf : option ECP := o <- fp_one ;; Some (mkECP fp_new o fp_new).

(* ecp.rs:138-175 rhs: x^3 + B; returns (rhs, x normalised) *)
Definition ecp_rhs (x0 : FP) : option (FP * FP) :=
  x <- fp_norm x0 ;;
  r <- fp_sqr x ;;
  b <- fp_new_big CURVE_B ;;
  r <- fp_mul r x ;;
  r <- fp_add r b ;;
  r <- fp_reduce r ;;
  Some (r, x).

(* ecp.rs:74-92 new_bigs *)
Definition ecp_new_bigs (ix iy : BIG) : option ECP :=
  x <- fp_new_big ix ;;
  y <- fp_new_big iy ;;
  z <- fp_one ;;
  '(rhs, x) <- ecp_rhs x ;;
  y2 <- fp_sqr y ;;
  '(e, _, _) <- fp_equals y2 rhs ;;
  if e : bool then Some (mkECP x y z) else ecp_inf.

(* ecp.rs:95-109 new_bigint *)
Definition ecp_new_bigint (ix : BIG) (s : Z) : option ECP :=
  x <- fp_new_big ix ;;
  z <- fp_one ;;
  '(rhs, x) <- ecp_rhs x ;;
  j <- fp_jacobi rhs ;;
  if j =? 1 then
    ny <- fp_sqrt rhs ;;
    w <- fp_redc ny ;;
    ny <- (if big_parity w =? s then Some ny else fp_neg ny) ;;
    Some (mkECP x ny z)
  else ecp_inf.

(* ecp.rs:113-123 new_big *)
Definition ecp_new_big (ix : BIG) : option ECP :=
  x <- fp_new_big ix ;;
  z <- fp_one ;;
  '(rhs, x) <- ecp_rhs x ;;
  j <- fp_jacobi rhs ;;
  if j =? 1 then y <- fp_sqrt rhs ;; Some (mkECP x y z) else ecp_inf.

(* ecp.rs:178-194 is_infinity: works on copies; && short-circuits *)
Definition ecp_is_infinity (p : ECP) : option bool :=
  '(zx, _) <- fp_iszilch (ex p) ;;
  if zx : bool then '(zz, _) <- fp_iszilch (ez p) ;; Some zz else Some false.

(* ecp.rs:197-207 cswap *)
Definition ecp_cswap (p q : ECP) (d : Z) : ECP * ECP :=
  let '(px, qx) := fp_cswap (ex p) (ex q) d in
  let '(py, qy) := fp_cswap (ey p) (ey q) d in
  let '(pz, qz) := fp_cswap (ez p) (ez q) d in
  (mkECP px py pz, mkECP qx qy qz).

(* ecp.rs:210-218 cmove *)
Definition ecp_cmove (p q : ECP) (d : Z) : ECP :=
  mkECP (fp_cmove (ex p) (ex q) d) (fp_cmove (ey p) (ey q) d) (fp_cmove (ez p) (ez q) d).

(* ecp.rs:221-225 teq *)
Definition teq (b c : Z) : option Z :=
  x <- ck32 (Z.lxor b c - 1) ;; Some (Z.land (Z.shiftr x 31) 1).

(* ecp.rs:236-245 neg *)
Definition ecp_neg (p : ECP) : option ECP :=
  y <- fp_neg (ey p) ;; y <- fp_norm y ;; Some (mkECP (ex p) y (ez p)).

(* ecp.rs:247-249 mulx *)
Definition ecp_mulx (p : ECP) (c : FP) : option ECP :=
  x <- fp_mul (ex p) c ;; Some (mkECP x (ey p) (ez p)).

(* ecp.rs:252-271 selector: eight conditional moves, then conditional
   negation.  (babs-1)/2 truncates toward zero. *)
Definition sel_babs (b : Z) : option Z :=
  let m := Z.shiftr b 31 in
  ba <- ck32 (Z.lxor b m - m) ;;
  ba1 <- ck32 (ba - 1) ;;
  Some (Z.quot ba1 2).
Definition ecp_selector (self : ECP) (W : list ECP) (b : Z) : option ECP :=
  babs <- sel_babs b ;;
  s <- foldM (fun s i =>
         w <- getM W i ;;
         t <- teq babs (Z.of_nat i) ;;
         Some (ecp_cmove s w t)) (seq 0 8) self ;;
  mp <- ecp_neg s ;;
  Some (ecp_cmove s mp (Z.land (Z.shiftr b 31) 1)).

(* ecp.rs:274-289 equals (works on copies) *)
Definition ecp_equals (p q : ECP) : option bool :=
  a <- fp_mul (ex p) (ez q) ;;
  b <- fp_mul (ex q) (ez p) ;;
  '(e, _, _) <- fp_equals a b ;;
  if negb e then Some false else
  a <- fp_mul (ey p) (ez q) ;;
  b <- fp_mul (ey q) (ez p) ;;
  '(e, _, _) <- fp_equals a b ;;
  Some (e : bool).

(* ecp.rs:292-303 affine *)
Definition ecp_affine (p : ECP) : option ECP :=
  inf <- ecp_is_infinity p ;;
  if inf : bool then Some p else
  one <- fp_new_int 1 ;;
  '(e, z, one) <- fp_equals (ez p) one ;;
  if e : bool then Some (mkECP (ex p) (ey p) z) else
  z <- fp_inverse z ;;
  x <- fp_mul (ex p) z ;; x <- fp_reduce x ;;
  y <- fp_mul (ey p) z ;; y <- fp_reduce y ;;
  Some (mkECP x y one).

(* ecp.rs:306-309 getx, 312-315 gety: value and the (now affine) point *)
Definition ecp_getx (p : ECP) : option (BIG * ECP) :=
  p' <- ecp_affine p ;; x <- fp_redc (ex p') ;; Some (x, p').
Definition ecp_gety (p : ECP) : option (BIG * ECP) :=
  p' <- ecp_affine p ;; y <- fp_redc (ey p') ;; Some (y, p').

(* ecp.rs:406-558 dbl, lines 411-435 (CURVE_A = 0) *)
Definition ecp_dbl (p : ECP) : option ECP :=
  t0 <- fp_sqr (ey p) ;;
  t1 <- fp_mul (ey p) (ez p) ;;
  t2 <- fp_sqr (ez p) ;;
  z <- fp_add t0 t0 ;; z <- fp_norm z ;;
  z <- fp_dbl z ;; z <- fp_dbl z ;; z <- fp_norm z ;;
  t2 <- fp_imul t2 (3 * CURVE_B_I) ;;
  x3 <- fp_mul t2 z ;;
  y3 <- fp_add t0 t2 ;; y3 <- fp_norm y3 ;;
  z <- fp_mul z t1 ;;
  t1 <- fp_add t2 t2 ;; t2 <- fp_add t2 t1 ;;
  t0 <- fp_sub t0 t2 ;; t0 <- fp_norm t0 ;;
  y3 <- fp_mul y3 t0 ;; y3 <- fp_add y3 x3 ;;
  t1 <- fp_mul (ex p) (ey p) ;;
  x <- fp_norm t0 ;; x <- fp_mul x t1 ;; x <- fp_dbl x ;;
  x <- fp_norm x ;;
  y <- fp_norm y3 ;;
  Some (mkECP x y z).

(* ecp.rs:561-749 add, lines 571-618 (CURVE_A = 0) *)
Definition ecp_add (p q : ECP) : option ECP :=
  let b := 3 * CURVE_B_I in
  t0 <- fp_mul (ex p) (ex q) ;;
  t1 <- fp_mul (ey p) (ey q) ;;
  t2 <- fp_mul (ez p) (ez q) ;;
  t3 <- fp_add (ex p) (ey p) ;; t3 <- fp_norm t3 ;;
  t4 <- fp_add (ex q) (ey q) ;; t4 <- fp_norm t4 ;;
  t3 <- fp_mul t3 t4 ;;
  t4 <- fp_add t0 t1 ;;
  t3 <- fp_sub t3 t4 ;; t3 <- fp_norm t3 ;;
  t4 <- fp_add (ey p) (ez p) ;; t4 <- fp_norm t4 ;;
  x3 <- fp_add (ey q) (ez q) ;; x3 <- fp_norm x3 ;;
  t4 <- fp_mul t4 x3 ;;
  x3 <- fp_add t1 t2 ;;
  t4 <- fp_sub t4 x3 ;; t4 <- fp_norm t4 ;;
  x3 <- fp_add (ex p) (ez p) ;; x3 <- fp_norm x3 ;;
  y3 <- fp_add (ex q) (ez q) ;; y3 <- fp_norm y3 ;;
  x3 <- fp_mul x3 y3 ;;
  y3 <- fp_add t0 t2 ;;
  y3 <- fp_rsub y3 x3 ;; y3 <- fp_norm y3 ;;
  x3 <- fp_add t0 t0 ;;
  t0 <- fp_add t0 x3 ;; t0 <- fp_norm t0 ;;
  t2 <- fp_imul t2 b ;;
  z3 <- fp_add t1 t2 ;; z3 <- fp_norm z3 ;;
  t1 <- fp_sub t1 t2 ;; t1 <- fp_norm t1 ;;
  y3 <- fp_imul y3 b ;;
  x3 <- fp_mul y3 t4 ;;
  t2 <- fp_mul t3 t1 ;;
  x3 <- fp_rsub x3 t2 ;;
  y3 <- fp_mul y3 t0 ;; t1 <- fp_mul t1 z3 ;; y3 <- fp_add y3 t1 ;;
  t0 <- fp_mul t0 t3 ;; z3 <- fp_mul z3 t4 ;; z3 <- fp_add z3 t0 ;;
  x <- fp_norm x3 ;;
  y <- fp_norm y3 ;;
  z <- fp_norm z3 ;;
  Some (mkECP x y z).

(* ecp.rs:782-786 sub *)
Definition ecp_sub (p q : ECP) : option ECP := nq <- ecp_neg q ;; ecp_add p nq.

(* ecp.rs:814-892 mul: signed fixed-window method.
   wtable: W[i] = W[i-1] + Q for i = 1..7 (ecp.rs:855-859). *)
Fixpoint ecp_wtable (n : nat) (last q : ECP) : option (list ECP) :=
  match n with
  | O => Some []
  | S n' => c <- ecp_add last q ;; r <- ecp_wtable n' c q ;; Some (c :: r)
  end.
(* ecp.rs:872-876: w[i]=(lastbits(5)-16) as i8; t.dec(w[i]); norm; fshr(4).
   Shared with ecp2.rs mul.  Returns the digits and the final t. *)
Fixpoint win_digits (n : nat) (t : BIG) : option (list Z * BIG) :=
  match n with
  | O => Some ([], t)
  | S n' =>
      '(l, t1) <- big_lastbits t 5 ;;
      let wi := l - 16 in
      t2 <- big_dec t1 wi ;;
      t3 <- big_norm t2 ;;
      '(ws, t') <- win_digits n' (big_fshr t3 4) ;;
      Some (wi :: ws, t')
  end.
(* ecp.rs:861-877: make the exponent odd and recode it.  Returns ns (whether
   the correction point is self rather than 2*self), the digits w[0..nb), and
   w[nb].  The array w has CT = 103 entries. *)
Definition win_recode (e : BIG) : option (Z * list Z * Z) :=
  let s := big_parity e in
  t <- big_inc e 1 ;; t <- big_norm t ;;
  let ns := big_parity t in
  mt <- big_inc t 1 ;; mt <- big_norm mt ;;
  let t := big_cmove t mt s in
  bits <- big_nbits t ;;
  let nb := Z.to_nat (1 + (bits + 3) / 4) in
  if (103 <=? nb)%nat then None else
  '(w, t) <- win_digits nb t ;;
  '(top, _) <- big_lastbits t 5 ;;
  Some (ns, w, top).
(* ecp.rs:880-887, one window *)
Definition ecp_mul_step (W : list ECP) (st : ECP * ECP) (d : Z) : option (ECP * ECP) :=
  let '(p, q) := st in
  q <- ecp_selector q W d ;;
  p <- ecp_dbl p ;; p <- ecp_dbl p ;; p <- ecp_dbl p ;; p <- ecp_dbl p ;;
  p <- ecp_add p q ;;
  Some (p, q).
Definition ecp_mul (self : ECP) (e : BIG) : option ECP :=
  if big_iszilch e then ecp_new else
  inf <- ecp_is_infinity self ;;
  if inf : bool then ecp_new else
  q <- ecp_dbl self ;;
  tl <- ecp_wtable 7 self q ;;
  let W := self :: tl in
  '(ns, w, top) <- win_recode e ;;
  let q := ecp_cmove q self ns in
  let c := q in
  i <- cku64 (top - 1) ;;
  p <- getM W (Z.to_nat (i / 2)) ;;
  '(p, _) <- foldM (ecp_mul_step W) (rev w) (p, q) ;;
  p <- ecp_sub p c ;;
  ecp_affine p.

(* ecp.rs:1012-1024 generator *)
Definition ecp_generator : option ECP := ecp_new_bigs CURVE_GX CURVE_GY.
