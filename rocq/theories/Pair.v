(* Model of amcl/src/bls381/pair.rs (CURVE_PAIRING_TYPE = BLS,
   SEXTIC_TWIST = M_TYPE, SIGN_OF_X = NEGATIVEX: ecp.rs:44-47). *)
From Verif Require Import Prim Rom Big Fp Fp2 Fp4 Fp12 Ecp Ecp2.

(* pair.rs:33-81 linedbl: the line value and the doubled A *)
Definition linedbl (A : ECP2) (qx qy : FP) : option (FP12 * ECP2) :=
  let xx := e2x A in
  let yy := e2y A in
  let zz := e2z A in
  yz <- fp2_mul yy zz ;;
  xx <- fp2_sqr xx ;;
  yy <- fp2_sqr yy ;;
  zz <- fp2_sqr zz ;;
  yz <- fp2_imul yz 4 ;;
  yz <- fp2_neg yz ;; yz <- fp2_norm yz ;;
  yz <- fp2_pmul yz qy ;;
  xx <- fp2_imul xx 6 ;;
  xx <- fp2_pmul xx qx ;;
  let sb := 3 * CURVE_B_I in
  zz <- fp2_imul zz sb ;;
  zz <- fp2_mul_ip zz ;;
  zz <- fp2_dbl zz ;;
  yz <- fp2_mul_ip yz ;;
  yz <- fp2_norm yz ;;
  zz <- fp2_norm zz ;;
  yy <- fp2_dbl yy ;;
  zz <- fp2_sub zz yy ;; zz <- fp2_norm zz ;;
  let a := mkFP4 yz zz in
  c <- fp4_times_i (mkFP4 xx fp2_new) ;;
  A' <- ecp2_dbl A ;;
  Some (mkFP12 a fp4_new c, A').

(* pair.rs:84-126 lineadd *)
Definition lineadd (A B : ECP2) (qx qy : FP) : option (FP12 * ECP2) :=
  let x1 := e2x A in
  let y1 := e2y A in
  t1 <- fp2_mul (e2z A) (e2y B) ;;
  t2 <- fp2_mul (e2z A) (e2x B) ;;
  x1 <- fp2_sub x1 t2 ;; x1 <- fp2_norm x1 ;;
  y1 <- fp2_sub y1 t1 ;; y1 <- fp2_norm y1 ;;
  let t1 := x1 in
  x1 <- fp2_pmul x1 qy ;;
  x1 <- fp2_mul_ip x1 ;;
  x1 <- fp2_norm x1 ;;
  t1 <- fp2_mul t1 (e2y B) ;;
  t2 <- fp2_mul y1 (e2x B) ;;
  t2 <- fp2_sub t2 t1 ;; t2 <- fp2_norm t2 ;;
  y1 <- fp2_pmul y1 qx ;; y1 <- fp2_neg y1 ;; y1 <- fp2_norm y1 ;;
  let a := mkFP4 x1 t2 in
  c <- fp4_times_i (mkFP4 y1 fp2_new) ;;
  A' <- ecp2_add A B ;;
  Some (mkFP12 a fp4_new c, A').

(* pair.rs:130-210 ate; one round of the Miller loop is lines 168-183 *)
Definition ate_step (n n3 : BIG) (P NP : ECP2) (qx qy : FP) (st : FP12 * ECP2) (i : nat)
  : option (FP12 * ECP2) :=
  let '(r, A) := st in
  r <- fp12_sqr r ;;
  '(lv, A) <- linedbl A qx qy ;;
  r <- fp12_smul r lv ;;
  b3 <- big_bit n3 (Z.of_nat i) ;;
  b1 <- big_bit n (Z.of_nat i) ;;
  let bt := b3 - b1 in
  if bt =? 1 then
    '(lv, A) <- lineadd A P qx qy ;; r <- fp12_smul r lv ;; Some (r, A)
  else if bt =? -1 then
    '(lv, A) <- lineadd A NP qx qy ;; r <- fp12_smul r lv ;; Some (r, A)
  else Some (r, A).
Definition ate (P : ECP2) (Q : ECP) : option FP12 :=
  n <- big_norm CURVE_BNX ;;
  n3 <- big_pmul n 3 ;;
  n3 <- big_norm n3 ;;
  let qx := ex Q in
  let qy := ey Q in
  r <- fp12_new_int 1 ;;
  NP <- ecp2_neg P ;;
  nb <- big_nbits n3 ;;
  m <- cku64 (nb - 1) ;;
  '(r, _) <- foldM (ate_step n n3 P NP qx qy) (rev (seq 1 (Z.to_nat m - 1))) (r, P) ;;
  fp12_conj r.

(* pair.rs:320-483 fexp, of which lines 321 to 334 and 391 to 436 (BLS, NEGATIVEX) *)
Definition fexp (m : FP12) : option FP12 :=
  f <- fp2_new_bigs FRA FRB ;;
  let x := CURVE_BNX in
  lv <- fp12_inverse m ;;
  r <- fp12_conj m ;;
  r <- fp12_mul r lv ;;
  let lv := r in
  r <- fp12_frob r f ;;
  r <- fp12_frob r f ;;
  r <- fp12_mul r lv ;;
  y0 <- fp12_usqr r ;;
  y1 <- fp12_pow y0 x ;; y1 <- fp12_conj y1 ;;
  let x := big_fshr x 1 in
  y2 <- fp12_pow y1 x ;; y2 <- fp12_conj y2 ;;
  let x := big_fshl x 1 in
  y3 <- fp12_conj r ;;
  y1 <- fp12_mul y1 y3 ;;
  y1 <- fp12_conj y1 ;;
  y1 <- fp12_mul y1 y2 ;;
  y2 <- fp12_pow y1 x ;; y2 <- fp12_conj y2 ;;
  y3 <- fp12_pow y2 x ;; y3 <- fp12_conj y3 ;;
  y1 <- fp12_conj y1 ;;
  y3 <- fp12_mul y3 y1 ;;
  y1 <- fp12_conj y1 ;;
  y1 <- fp12_frob y1 f ;; y1 <- fp12_frob y1 f ;; y1 <- fp12_frob y1 f ;;
  y2 <- fp12_frob y2 f ;; y2 <- fp12_frob y2 f ;;
  y1 <- fp12_mul y1 y2 ;;
  y2 <- fp12_pow y3 x ;; y2 <- fp12_conj y2 ;;
  y2 <- fp12_mul y2 y0 ;;
  y2 <- fp12_mul y2 r ;;
  y1 <- fp12_mul y1 y2 ;;
  y2 <- fp12_frob y3 f ;;
  y1 <- fp12_mul y1 y2 ;;
  fp12_reduce y1.
