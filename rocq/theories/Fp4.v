(* Model of amcl/src/bls381/fp4.rs: F_q2[s] with s^2 = 1+i. *)
From Verif Require Import Prim Rom Big Fp Fp2.

(* fp4.rs:24-28 *)
Record FP4 := mkFP4 { f4a : FP2; f4b : FP2 }.

(* fp4.rs:32-37 new, 127-130 zero *)
Definition fp4_new : FP4 := mkFP4 fp2_new fp2_new.
(* fp4.rs:39-44 new_int *)
Definition fp4_new_int (a : Z) : option FP4 := x <- fp2_new_int a ;; Some (mkFP4 x fp2_new).
(* fp4.rs:133-136 one *)
Definition fp4_one : option FP4 := x <- fp2_one ;; Some (mkFP4 x fp2_new).
(* fp4.rs:68-71 reduce *)
Definition fp4_reduce (x : FP4) : option FP4 :=
  a <- fp2_reduce (f4a x) ;; b <- fp2_reduce (f4b x) ;; Some (mkFP4 a b).
(* fp4.rs:74-77 norm *)
Definition fp4_norm (x : FP4) : option FP4 :=
  a <- fp2_norm (f4a x) ;; b <- fp2_norm (f4b x) ;; Some (mkFP4 a b).
(* fp4.rs:79-82 cmove *)
Definition fp4_cmove (x g : FP4) (d : Z) : FP4 :=
  mkFP4 (fp2_cmove (f4a x) (f4a g) d) (fp2_cmove (f4b x) (f4b g) d).
(* fp4.rs:85-88 iszilch (the reduced self is dropped: no caller modelled
   uses it again) *)
Definition fp4_iszilch (x : FP4) : option bool :=
  x' <- fp4_reduce x ;;
  '(za, _) <- fp2_iszilch (f4a x') ;;
  if za : bool then '(zb, _) <- fp2_iszilch (f4b x') ;; Some zb else Some false.
(* fp4.rs:117-119 equals (the reduced operands are dropped likewise) *)
Definition fp4_equals (x y : FP4) : option bool :=
  '(ea, _, _) <- fp2_equals (f4a x) (f4a y) ;;
  if ea : bool then '(eb, _, _) <- fp2_equals (f4b x) (f4b y) ;; Some eb else Some false.
(* fp4.rs:139-152 neg *)
Definition fp4_neg (x0 : FP4) : option FP4 :=
  x <- fp4_norm x0 ;;
  m <- fp2_add (f4a x) (f4b x) ;;
  m <- fp2_neg m ;;
  t <- fp2_add m (f4b x) ;;
  b <- fp2_add m (f4a x) ;;
  fp4_norm (mkFP4 t b).
(* fp4.rs:155-158 conj *)
Definition fp4_conj (x : FP4) : option FP4 :=
  b <- fp2_neg (f4b x) ;; fp4_norm (mkFP4 (f4a x) b).
(* fp4.rs:161-163 nconj *)
Definition fp4_nconj (x : FP4) : option FP4 :=
  a <- fp2_neg (f4a x) ;; fp4_norm (mkFP4 a (f4b x)).
(* fp4.rs:166-169 add *)
Definition fp4_add (x y : FP4) : option FP4 :=
  a <- fp2_add (f4a x) (f4a y) ;; b <- fp2_add (f4b x) (f4b y) ;; Some (mkFP4 a b).
(* fp4.rs:175-178 dbl *)
Definition fp4_dbl (x : FP4) : option FP4 :=
  a <- fp2_dbl (f4a x) ;; b <- fp2_dbl (f4b x) ;; Some (mkFP4 a b).
(* fp4.rs:181-185 sub *)
Definition fp4_sub (x y : FP4) : option FP4 := m <- fp4_neg y ;; fp4_add x m.
(* fp4.rs:188-191 rsub *)
Definition fp4_rsub (x y : FP4) : option FP4 := m <- fp4_neg x ;; fp4_add m y.
(* fp4.rs:194-197 pmul *)
Definition fp4_pmul (x : FP4) (s : FP2) : option FP4 :=
  a <- fp2_mul (f4a x) s ;; b <- fp2_mul (f4b x) s ;; Some (mkFP4 a b).
(* fp4.rs:206-209 imul *)
Definition fp4_imul (x : FP4) (c : Z) : option FP4 :=
  a <- fp2_imul (f4a x) c ;; b <- fp2_imul (f4b x) c ;; Some (mkFP4 a b).
(* fp4.rs:212-243 sqr *)
Definition fp4_sqr (x : FP4) : option FP4 :=
  t3 <- fp2_mul (f4a x) (f4b x) ;;
  t1 <- fp2_add (f4a x) (f4b x) ;;
  t2 <- fp2_mul_ip (f4b x) ;;
  t2 <- fp2_add t2 (f4a x) ;;
  t1 <- fp2_norm t1 ;;
  t2 <- fp2_norm t2 ;;
  a <- fp2_mul t1 t2 ;;
  t2 <- fp2_mul_ip t3 ;;
  t2 <- fp2_add t2 t3 ;; t2 <- fp2_norm t2 ;;
  t2 <- fp2_neg t2 ;;
  a <- fp2_add a t2 ;;
  b <- fp2_dbl t3 ;;
  fp4_norm (mkFP4 a b).
(* fp4.rs:246-279 mul *)
Definition fp4_mul (x0 y : FP4) : option FP4 :=
  x <- fp4_norm x0 ;;
  t1 <- fp2_mul (f4a x) (f4a y) ;;
  t2 <- fp2_mul (f4b x) (f4b y) ;;
  t3 <- fp2_add (f4b y) (f4a y) ;;
  t4 <- fp2_add (f4b x) (f4a x) ;;
  t3 <- fp2_norm t3 ;; t4 <- fp2_norm t4 ;;
  t4 <- fp2_mul t4 t3 ;;
  t3 <- fp2_neg t1 ;;
  t4 <- fp2_add t4 t3 ;;
  t4 <- fp2_norm t4 ;;
  t3 <- fp2_neg t2 ;;
  b <- fp2_add t4 t3 ;;
  t2 <- fp2_mul_ip t2 ;;
  a <- fp2_add t2 t1 ;;
  fp4_norm (mkFP4 a b).
(* fp4.rs:288-302 inverse *)
Definition fp4_inverse (x0 : FP4) : option FP4 :=
  x <- fp4_norm x0 ;;
  t1 <- fp2_sqr (f4a x) ;;
  t2 <- fp2_sqr (f4b x) ;;
  t2 <- fp2_mul_ip t2 ;; t2 <- fp2_norm t2 ;;
  t1 <- fp2_sub t1 t2 ;;
  t1 <- fp2_inverse t1 ;;
  a <- fp2_mul (f4a x) t1 ;;
  t1 <- fp2_neg t1 ;; t1 <- fp2_norm t1 ;;
  b <- fp2_mul (f4b x) t1 ;;
  Some (mkFP4 a b).
(* fp4.rs:305-315 times_i: multiplication by s *)
Definition fp4_times_i (x : FP4) : option FP4 :=
  s <- fp2_times_i (f4b x) ;;
  t <- fp2_add (f4b x) s ;;
  fp4_norm (mkFP4 t (f4a x)).
(* fp4.rs:318-322 frob *)
Definition fp4_frob (x : FP4) (f : FP2) : option FP4 :=
  a <- fp2_conj (f4a x) ;;
  b <- fp2_conj (f4b x) ;;
  b <- fp2_mul b f ;;
  Some (mkFP4 a b).
