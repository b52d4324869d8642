(* Model of amcl/src/bls381/fp12.rs: F_q4[w] with w^3 = s. *)
From Verif Require Import Prim Rom Big Fp Fp2 Fp4.

(* fp12.rs:27-32 *)
Record FP12 := mkFP12 { f12a : FP4; f12b : FP4; f12c : FP4 }.

(* fp12.rs:36-42 new *)
Definition fp12_new : FP12 := mkFP12 fp4_new fp4_new fp4_new.
(* fp12.rs:44-50 new_int *)
Definition fp12_new_int (a : Z) : option FP12 :=
  x <- fp4_new_int a ;; Some (mkFP12 x fp4_new fp4_new).
(* fp12.rs:77-81 reduce *)
Definition fp12_reduce (x : FP12) : option FP12 :=
  a <- fp4_reduce (f12a x) ;; b <- fp4_reduce (f12b x) ;; c <- fp4_reduce (f12c x) ;;
  Some (mkFP12 a b c).
(* fp12.rs:84-88 norm *)
Definition fp12_norm (x : FP12) : option FP12 :=
  a <- fp4_norm (f12a x) ;; b <- fp4_norm (f12b x) ;; c <- fp4_norm (f12c x) ;;
  Some (mkFP12 a b c).
(* fp12.rs:139-141 equals (the reduced operands are dropped: both are locals
   of the callers modelled) *)
Definition fp12_equals (x y : FP12) : option bool :=
  ea <- fp4_equals (f12a x) (f12a y) ;;
  if negb ea then Some false else
  eb <- fp4_equals (f12b x) (f12b y) ;;
  if negb eb then Some false else
  fp4_equals (f12c x) (f12c y).
(* fp12.rs:173-177 conj *)
Definition fp12_conj (x : FP12) : option FP12 :=
  a <- fp4_conj (f12a x) ;; b <- fp4_nconj (f12b x) ;; c <- fp4_conj (f12c x) ;;
  Some (mkFP12 a b c).
(* fp12.rs:180-216 usqr *)
Definition fp12_usqr (x : FP12) : option FP12 :=
  let a := f12a x in
  let b := f12c x in
  let c := f12b x in
  xa <- fp4_sqr (f12a x) ;;
  d <- fp4_add xa xa ;;
  xa <- fp4_add xa d ;;
  xa <- fp4_norm xa ;;
  a <- fp4_nconj a ;;
  a <- fp4_dbl a ;;
  xa <- fp4_add xa a ;;
  b <- fp4_sqr b ;;
  b <- fp4_times_i b ;;
  d <- fp4_add b b ;;
  b <- fp4_add b d ;;
  b <- fp4_norm b ;;
  c <- fp4_sqr c ;;
  d <- fp4_add c c ;;
  c <- fp4_add c d ;;
  c <- fp4_norm c ;;
  xb <- fp4_conj (f12b x) ;;
  xb <- fp4_dbl xb ;;
  xc <- fp4_nconj (f12c x) ;;
  xc <- fp4_dbl xc ;;
  xb <- fp4_add xb b ;;
  xc <- fp4_add xc c ;;
  fp12_reduce (mkFP12 xa xb xc).
(* fp12.rs:219-252 sqr *)
Definition fp12_sqr (x : FP12) : option FP12 :=
  a <- fp4_sqr (f12a x) ;;
  b <- fp4_mul (f12b x) (f12c x) ;;
  b <- fp4_dbl b ;; b <- fp4_norm b ;;
  c <- fp4_sqr (f12c x) ;;
  d <- fp4_mul (f12a x) (f12b x) ;;
  d <- fp4_dbl d ;;
  xc <- fp4_add (f12c x) (f12a x) ;;
  xc <- fp4_add xc (f12b x) ;; xc <- fp4_norm xc ;;
  xc <- fp4_sqr xc ;;
  let xa := a in
  a <- fp4_add a b ;;
  a <- fp4_norm a ;;
  a <- fp4_add a c ;;
  a <- fp4_add a d ;;
  a <- fp4_norm a ;;
  a <- fp4_neg a ;;
  b <- fp4_times_i b ;;
  c <- fp4_times_i c ;;
  xa <- fp4_add xa b ;;
  xb <- fp4_add c d ;;
  xc <- fp4_add xc a ;;
  fp12_norm (mkFP12 xa xb xc).
(* fp12.rs:256-308 mul *)
Definition fp12_mul (x y : FP12) : option FP12 :=
  z0 <- fp4_mul (f12a x) (f12a y) ;;
  z2 <- fp4_mul (f12b x) (f12b y) ;;
  t0 <- fp4_add (f12a x) (f12b x) ;;
  t1 <- fp4_add (f12a y) (f12b y) ;;
  t0 <- fp4_norm t0 ;; t1 <- fp4_norm t1 ;;
  z1 <- fp4_mul t0 t1 ;;
  t0 <- fp4_add (f12b x) (f12c x) ;;
  t1 <- fp4_add (f12b y) (f12c y) ;;
  t0 <- fp4_norm t0 ;; t1 <- fp4_norm t1 ;;
  z3 <- fp4_mul t0 t1 ;;
  t0 <- fp4_neg z0 ;;
  t1 <- fp4_neg z2 ;;
  z1 <- fp4_add z1 t0 ;;
  xb <- fp4_add z1 t1 ;;
  z3 <- fp4_add z3 t1 ;;
  z2 <- fp4_add z2 t0 ;;
  t0 <- fp4_add (f12a x) (f12c x) ;; t0 <- fp4_norm t0 ;;
  t1 <- fp4_add (f12a y) (f12c y) ;; t1 <- fp4_norm t1 ;;
  t0 <- fp4_mul t0 t1 ;;
  z2 <- fp4_add z2 t0 ;;
  t0 <- fp4_mul (f12c x) (f12c y) ;;
  t1 <- fp4_neg t0 ;;
  xc <- fp4_add z2 t1 ;;
  z3 <- fp4_add z3 t1 ;;
  t0 <- fp4_times_i t0 ;;
  xb <- fp4_add xb t0 ;;
  z3 <- fp4_norm z3 ;;
  z3 <- fp4_times_i z3 ;;
  xa <- fp4_add z0 z3 ;;
  fp12_norm (mkFP12 xa xb xc).
(* fp12.rs:311-401 smul, lines 350-400 (twist = M_TYPE) *)
Definition fp12_smul (x y : FP12) : option FP12 :=
  z0 <- fp4_mul (f12a x) (f12a y) ;;
  t0 <- fp4_add (f12a x) (f12b x) ;;
  t0 <- fp4_norm t0 ;;
  z1 <- fp4_mul t0 (f12a y) ;;
  t0 <- fp4_add (f12b x) (f12c x) ;;
  t0 <- fp4_norm t0 ;;
  z3 <- fp4_pmul t0 (f4b (f12c y)) ;;
  z3 <- fp4_times_i z3 ;;
  t0 <- fp4_neg z0 ;;
  z1 <- fp4_add z1 t0 ;;
  let xb := z1 in
  let z2 := t0 in
  t0 <- fp4_add (f12a x) (f12c x) ;;
  t1 <- fp4_add (f12a y) (f12c y) ;;
  t0 <- fp4_norm t0 ;;
  t1 <- fp4_norm t1 ;;
  t0 <- fp4_mul t0 t1 ;;
  z2 <- fp4_add z2 t0 ;;
  t0 <- fp4_pmul (f12c x) (f4b (f12c y)) ;;
  t0 <- fp4_times_i t0 ;;
  t1 <- fp4_neg t0 ;;
  xc <- fp4_add z2 t1 ;;
  z3 <- fp4_add z3 t1 ;;
  t0 <- fp4_times_i t0 ;;
  xb <- fp4_add xb t0 ;;
  z3 <- fp4_norm z3 ;;
  z3 <- fp4_times_i z3 ;;
  xa <- fp4_add z0 z3 ;;
  fp12_norm (mkFP12 xa xb xc).
(* fp12.rs:404-437 inverse.  f0, f1, f2 are copied before self.norm(). *)
Definition fp12_inverse (x0 : FP12) : option FP12 :=
  x <- fp12_norm x0 ;;
  f0 <- fp4_sqr (f12a x0) ;;
  f1 <- fp4_mul (f12b x0) (f12c x) ;;
  f1 <- fp4_times_i f1 ;;
  f0 <- fp4_sub f0 f1 ;; f0 <- fp4_norm f0 ;;
  f1 <- fp4_sqr (f12c x) ;;
  f1 <- fp4_times_i f1 ;;
  f2 <- fp4_mul (f12a x0) (f12b x) ;;
  f1 <- fp4_sub f1 f2 ;; f1 <- fp4_norm f1 ;;
  f2 <- fp4_sqr (f12b x) ;;
  f3 <- fp4_mul (f12a x) (f12c x) ;;
  f2 <- fp4_sub f2 f3 ;; f2 <- fp4_norm f2 ;;
  f3 <- fp4_mul (f12b x) f2 ;;
  f3 <- fp4_times_i f3 ;;
  xa <- fp4_mul (f12a x) f0 ;;
  f3 <- fp4_add f3 xa ;;
  xc <- fp4_mul (f12c x) f1 ;;
  xc <- fp4_times_i xc ;;
  f3 <- fp4_add f3 xc ;; f3 <- fp4_norm f3 ;;
  f3 <- fp4_inverse f3 ;;
  a <- fp4_mul f0 f3 ;;
  b <- fp4_mul f1 f3 ;;
  c <- fp4_mul f2 f3 ;;
  Some (mkFP12 a b c).
(* fp12.rs:440-453 frob *)
Definition fp12_frob (x : FP12) (f : FP2) : option FP12 :=
  f2 <- fp2_sqr f ;;
  f3 <- fp2_mul f f2 ;;
  a <- fp4_frob (f12a x) f3 ;;
  b <- fp4_frob (f12b x) f3 ;;
  c <- fp4_frob (f12c x) f3 ;;
  b <- fp4_pmul b f ;;
  c <- fp4_pmul c f2 ;;
  Some (mkFP12 a b c).
(* fp12.rs:557-581 pow: signed-digit exponentiation with the bits of 3e and e.
   r is conjugated twice when a digit is -1 (line 575). *)
Definition fp12_pow_step (e1 e3 : BIG) (st : FP12 * FP12) (i : nat) : option (FP12 * FP12) :=
  let '(w, r) := st in
  w <- fp12_usqr w ;;
  b3 <- big_bit e3 (Z.of_nat i) ;;
  b1 <- big_bit e1 (Z.of_nat i) ;;
  let bt := b3 - b1 in
  if bt =? 1 then w <- fp12_mul w r ;; Some (w, r)
  else if bt =? -1 then
    r <- fp12_conj r ;; w <- fp12_mul w r ;; r <- fp12_conj r ;; Some (w, r)
  else Some (w, r).
Definition fp12_pow (x : FP12) (e : BIG) : option FP12 :=
  r <- fp12_norm x ;;
  e1 <- big_norm e ;;
  e3 <- big_pmul e1 3 ;;
  e3 <- big_norm e3 ;;
  nb <- big_nbits e3 ;;
  n <- cku64 (nb - 1) ;;
  '(w, _) <- foldM (fp12_pow_step e1 e3) (rev (seq 1 (Z.to_nat n - 1))) (r, r) ;;
  fp12_reduce w.
