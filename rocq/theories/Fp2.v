(* Model of amcl/src/bls381/fp2.rs: F_q[i]. *)
From Verif Require Import Prim Rom Big Fp.

(* fp2.rs:26-30 *)
Record FP2 := mkFP2 { f2a : FP; f2b : FP }.

(* fp2.rs:34-39 new, 134-137 zero *)
Definition fp2_new : FP2 := mkFP2 fp_new fp_new.
(* fp2.rs:41-46 new_int *)
Definition fp2_new_int (a : Z) : option FP2 := x <- fp_new_int a ;; Some (mkFP2 x fp_new).
(* fp2.rs:62-67 new_bigs *)
Definition fp2_new_bigs (c d : BIG) : option FP2 :=
  x <- fp_new_big c ;; y <- fp_new_big d ;; Some (mkFP2 x y).
(* fp2.rs:84-87 reduce *)
Definition fp2_reduce (x : FP2) : option FP2 :=
  a <- fp_reduce (f2a x) ;; b <- fp_reduce (f2b x) ;; Some (mkFP2 a b).
(* fp2.rs:90-93 norm *)
Definition fp2_norm (x : FP2) : option FP2 :=
  a <- fp_norm (f2a x) ;; b <- fp_norm (f2b x) ;; Some (mkFP2 a b).
(* fp2.rs:96-99 iszilch (reduces self; && short-circuits) *)
Definition fp2_iszilch (x : FP2) : option (bool * FP2) :=
  x' <- fp2_reduce x ;;
  '(za, a) <- fp_iszilch (f2a x') ;;
  if za : bool then '(zb, b) <- fp_iszilch (f2b x') ;; Some (zb, mkFP2 a b)
  else Some (false, mkFP2 a (f2b x')).
(* fp2.rs:101-104 cmove *)
Definition fp2_cmove (x g : FP2) (d : Z) : FP2 :=
  mkFP2 (fp_cmove (f2a x) (f2a g) d) (fp_cmove (f2b x) (f2b g) d).
(* fp2.rs:107-110 isunity *)
Definition fp2_isunity (x : FP2) : option (bool * FP2) :=
  one <- fp_new_int 1 ;;
  '(ea, a, _) <- fp_equals (f2a x) one ;;
  if ea : bool then '(zb, b) <- fp_iszilch (f2b x) ;; Some (zb, mkFP2 a b)
  else Some (false, mkFP2 a (f2b x)).
(* fp2.rs:113-115 equals (result, self, x) *)
Definition fp2_equals (x y : FP2) : option (bool * FP2 * FP2) :=
  '(ea, xa, ya) <- fp_equals (f2a x) (f2a y) ;;
  if ea : bool then
    '(eb, xb, yb) <- fp_equals (f2b x) (f2b y) ;;
    Some (eb, mkFP2 xa xb, mkFP2 ya yb)
  else Some (false, mkFP2 xa (f2b x), mkFP2 ya (f2b y)).
(* fp2.rs:118-120 geta, 123-125 getb *)
Definition fp2_geta (x : FP2) : option BIG := fp_redc (f2a x).
Definition fp2_getb (x : FP2) : option BIG := fp_redc (f2b x).
(* fp2.rs:140-143 one *)
Definition fp2_one : option FP2 := o <- fp_one ;; Some (mkFP2 o fp_new).
(* fp2.rs:146-158 neg *)
Definition fp2_neg (x : FP2) : option FP2 :=
  m0 <- fp_add (f2a x) (f2b x) ;;
  m <- fp_neg m0 ;;
  t <- fp_add m (f2b x) ;;
  b <- fp_add m (f2a x) ;;
  Some (mkFP2 t b).
(* fp2.rs:161-164 conj *)
Definition fp2_conj (x : FP2) : option FP2 :=
  n <- fp_neg (f2b x) ;; b <- fp_norm n ;; Some (mkFP2 (f2a x) b).
(* fp2.rs:167-170 add *)
Definition fp2_add (x y : FP2) : option FP2 :=
  a <- fp_add (f2a x) (f2a y) ;; b <- fp_add (f2b x) (f2b y) ;; Some (mkFP2 a b).
(* fp2.rs:172-175 dbl *)
Definition fp2_dbl (x : FP2) : option FP2 :=
  a <- fp_dbl (f2a x) ;; b <- fp_dbl (f2b x) ;; Some (mkFP2 a b).
(* fp2.rs:178-182 sub *)
Definition fp2_sub (x y : FP2) : option FP2 := m <- fp2_neg y ;; fp2_add x m.
(* fp2.rs:185-188 rsub: y - x *)
Definition fp2_rsub (x y : FP2) : option FP2 := m <- fp2_neg x ;; fp2_add m y.
(* fp2.rs:191-194 pmul *)
Definition fp2_pmul (x : FP2) (s : FP) : option FP2 :=
  a <- fp_mul (f2a x) s ;; b <- fp_mul (f2b x) s ;; Some (mkFP2 a b).
(* fp2.rs:197-200 imul *)
Definition fp2_imul (x : FP2) (c : Z) : option FP2 :=
  a <- fp_imul (f2a x) c ;; b <- fp_imul (f2b x) c ;; Some (mkFP2 a b).
(* fp2.rs:203-222 sqr *)
Definition fp2_sqr (x : FP2) : option FP2 :=
  w1 <- fp_add (f2a x) (f2b x) ;;
  w3 <- fp_add (f2a x) (f2a x) ;;
  w3' <- fp_norm w3 ;;
  b <- fp_mul (f2b x) w3' ;;
  mb <- fp_neg (f2b x) ;;
  a1 <- fp_add (f2a x) mb ;;
  w1' <- fp_norm w1 ;;
  a2 <- fp_norm a1 ;;
  a <- fp_mul a2 w1' ;;
  Some (mkFP2 a b).
(* fp2.rs:225-258 mul *)
Definition fp2_mul (x y : FP2) : option FP2 :=
  e1 <- ck32 (fxes (f2a x) + fxes (f2b x)) ;;
  e2 <- ck32 (fxes (f2a y) + fxes (f2b y)) ;;
  ee <- ck64 (e1 * e2) ;;
  xa <- (if (FEXCESS <? ee) && (1 <? fxes (f2a x)) then fp_reduce (f2a x) else Some (f2a x)) ;;
  xb <- (if (FEXCESS <? ee) && (1 <? fxes (f2b x)) then fp_reduce (f2b x) else Some (f2b x)) ;;
  let pr := dbig_ucopy MODULUS in
  a <- big_mul (fx xa) (fx (f2a y)) ;;
  b <- big_mul (fx xb) (fx (f2b y)) ;;
  c0 <- big_add (fx xa) (fx xb) ;;
  c <- big_norm c0 ;;
  d0 <- big_add (fx (f2a y)) (fx (f2b y)) ;;
  d <- big_norm d0 ;;
  e <- big_mul c d ;;
  f <- big_add a b ;;
  b' <- big_rsub b pr ;;
  a1 <- big_add a b' ;;
  a2 <- dbig_norm a1 ;;
  e1 <- big_sub e f ;;
  e2 <- dbig_norm e1 ;;
  ra <- fp_modulo a2 ;;
  rb <- fp_modulo e2 ;;
  Some (mkFP2 (mkFP ra 3) (mkFP rb 2)).
(* fp2.rs:289-301 inverse *)
Definition fp2_inverse (x0 : FP2) : option FP2 :=
  x <- fp2_norm x0 ;;
  w1 <- fp_sqr (f2a x) ;;
  w2 <- fp_sqr (f2b x) ;;
  w <- fp_add w1 w2 ;;
  w <- fp_inverse w ;;
  a <- fp_mul (f2a x) w ;;
  n <- fp_neg w ;;
  n <- fp_norm n ;;
  b <- fp_mul (f2b x) n ;;
  Some (mkFP2 a b).
(* fp2.rs:304-307 div2 *)
Definition fp2_div2 (x : FP2) : option FP2 :=
  a <- fp_div2 (f2a x) ;; b <- fp_div2 (f2b x) ;; Some (mkFP2 a b).
(* fp2.rs:310-315 times_i *)
Definition fp2_times_i (x : FP2) : option FP2 :=
  a <- fp_neg (f2b x) ;; Some (mkFP2 a (f2a x)).
(* fp2.rs:319-328 mul_ip: times (1+i) *)
Definition fp2_mul_ip (x : FP2) : option FP2 :=
  a <- fp_neg (f2b x) ;; fp2_add (mkFP2 a (f2a x)) x.
(* fp2.rs:330-336 div_ip2 *)
Definition fp2_div_ip2 (x0 : FP2) : option FP2 :=
  x <- fp2_norm x0 ;;
  a <- fp_add (f2a x) (f2b x) ;;
  b <- fp_sub (f2b x) (f2a x) ;;
  fp2_norm (mkFP2 a b).
(* fp2.rs:339-346 div_ip: divide by (1+i) *)
Definition fp2_div_ip (x0 : FP2) : option FP2 :=
  x <- fp2_div_ip2 x0 ;; fp2_div2 x.
(* fp2.rs:262-280 sqrt: (result flag, self) *)
Definition fp2_sqrt (x0 : FP2) : option (bool * FP2) :=
  '(z, x) <- fp2_iszilch x0 ;;
  if z : bool then Some (true, x) else
  w1 <- fp_sqr (f2b x) ;;
  w2 <- fp_sqr (f2a x) ;;
  n <- fp_add w1 w2 ;;
  j <- fp_jacobi n ;;
  if negb (j =? 1) then Some (false, fp2_new) else
  w <- fp_sqrt n ;;
  s <- fp_add (f2a x) w ;;
  s <- fp_norm s ;;
  s <- fp_div2 s ;;
  j1 <- fp_jacobi s ;;
  s' <- (if negb (j1 =? 1) then
           d <- fp_sub (f2a x) w ;;
           d <- fp_norm d ;;
           d <- fp_div2 d ;;
           j2 <- fp_jacobi d ;;
           if negb (j2 =? 1) then Some None else Some (Some d)
         else Some (Some s)) ;;
  match s' with
  | None => Some (false, fp2_new)
  | Some s =>
      r <- fp_sqrt s ;;
      w <- fp_dbl r ;;
      w <- fp_inverse w ;;
      b <- fp_mul (f2b x) w ;;
      Some (true, mkFP2 r b)
  end.
