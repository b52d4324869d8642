(* Model of ate2 in amcl/src/bls381/pair.rs. *)
From Verif Require Import Prim Rom Big Fp Fp2 Fp4 Fp12 Ecp Ecp2 Pair.

(* pair.rs:259-284
   one turn of the loop; the state is r, A and B *)
Definition ate2_step (n n3 : BIG) (P NP R NR : ECP2) (qx qy sx sy : FP) (st : FP12 * ECP2 * ECP2) (i : nat) : option (FP12 * ECP2 * ECP2) :=
  let '(r, A, B) := st in
  r <- fp12_sqr r ;;
  '(lv, A) <- linedbl A qx qy ;;
  r <- fp12_smul r lv ;;
  '(lv, B) <- linedbl B sx sy ;;
  r <- fp12_smul r lv ;;
  b3 <- big_bit n3 (Z.of_nat i) ;;
  b1 <- big_bit n (Z.of_nat i) ;;
  let bt := b3 - b1 in
  if bt =? 1 then
    '(lv, A) <- lineadd A P qx qy ;; r <- fp12_smul r lv ;;
    '(lv, B) <- lineadd B R sx sy ;; r <- fp12_smul r lv ;; Some (r, A, B)
  else if bt =? -1 then
    '(lv, A) <- lineadd A NP qx qy ;; r <- fp12_smul r lv ;;
    '(lv, B) <- lineadd B NR sx sy ;; r <- fp12_smul r lv ;; Some (r, A, B)
  else Some (r, A, B).
(* pair.rs:214-317
   ate2 for a BLS curve with negative x *)
Definition ate2 (P : ECP2) (Q : ECP) (R : ECP2) (S : ECP) : option FP12 :=
  n <- big_norm CURVE_BNX ;;
  n3 <- big_pmul n 3 ;;
  n3 <- big_norm n3 ;;
  let qx := ex Q in let qy := ey Q in
  let sx := ex S in let sy := ey S in
  r <- fp12_new_int 1 ;;
  NP <- ecp2_neg P ;;
  NR <- ecp2_neg R ;;
  nb <- big_nbits n3 ;;
  m <- cku64 (nb - 1) ;;
  '(r, _, _) <- foldM (ate2_step n n3 P NP R NR qx qy sx sy) (rev (seq 1 (Z.to_nat m - 1))) (r, P, R) ;;
  fp12_conj r.
