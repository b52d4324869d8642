(* Model of the endomorphism-accelerated scalar multiplications of amcl:
   pair.rs glv, gs, g1mul, g2mul, gtpow with ECP::mul2, ECP2::mul4, FP12::pow4
   and BIG::smul, and of ECP::pinmul, cfp, mapit, ECP2::mapit, FP12::pinpow.
   Only the branches compiled in are modelled: CURVE_PAIRING_TYPE = BLS,
   SIGN_OF_X = NEGATIVEX, SEXTIC_TWIST = M_TYPE (ecp.rs:44-47), USE_GLV,
   USE_GS_G2 and USE_GS_GT all true (rom.rs:53-55), CURVETYPE = WEIERSTRASS. *)
From Verif Require Import Prim Rom Big Fp Fp2 Fp4 Fp12 Ecp Ecp2.

(* big.rs:443-455 smul: schoolbook product, the carry out of the top limb is
   dropped.  Row i works on limbs i.. of c: smul_row is the loop over j,
   smul_go the loop over i (each call gets the suffix of c it touches). *)
Fixpoint smul_row (ai carry : Z) (b c : list Z) : option (list Z) :=
  match b, c with
  | bj :: b', cj :: c' =>
      '(top, bot) <- big_muladd ai bj carry cj ;;
      r <- smul_row ai top b' c' ;; Some (bot :: r)
  | _, _ => Some c
  end.
Fixpoint smul_go (a b c : list Z) : option (list Z) :=
  match a with
  | [] => Some c
  | ai :: a' =>
      r <- smul_row ai 0 b c ;;
      match r with
      | [] => Some []
      | c0 :: c' => r' <- smul_go a' b c' ;; Some (c0 :: r')
      end
  end.
Definition big_smul (a b : BIG) : option BIG := smul_go a b big_new.

(* pair.rs:487-520 glv, lines 510-517 (BLS): u[0] = e mod x^2,
   u[1] = q - e / x^2, the latter not normalised *)
Definition glv (e : BIG) : option (BIG * BIG) :=
  x2 <- big_smul CURVE_BNX CURVE_BNX ;;
  u0 <- big_rmod e x2 ;;
  u1 <- big_div e x2 ;;
  u1 <- big_rsub u1 CURVE_ORDER ;;
  Some (u0, u1).

(* pair.rs:524-565 gs, lines 547-564 (BLS, NEGATIVEX): digits of e in base x,
   those of odd index replaced by their negatives modulo q (not normalised) *)
Definition gs (e : BIG) : option (list BIG) :=
  u0 <- big_rmod e CURVE_BNX ;; w <- big_div e CURVE_BNX ;;
  u1 <- big_rmod w CURVE_BNX ;; w <- big_div w CURVE_BNX ;;
  u2 <- big_rmod w CURVE_BNX ;; w <- big_div w CURVE_BNX ;;
  u1 <- big_modneg u1 CURVE_ORDER ;;
  u3 <- big_modneg w CURVE_ORDER ;;
  Some [u0; u1; u2; u3].

(* pair.rs:581-599 (g1mul), 626-635 (g2mul), 669-677 (gtpow): take the shorter
   of u mod q and its negative; the flag says that the base is negated.
   modneg (big.rs:995-998) reduces its argument in place. *)
Definition glv_pick (u : BIG) : option (BIG * bool) :=
  np <- big_nbits u ;;
  u <- big_rmod u CURVE_ORDER ;;
  t <- big_sub CURVE_ORDER u ;;
  nn <- big_nbits t ;;
  if nn <? np then t <- big_norm t ;; Some (t, true)
  else u <- big_norm u ;; Some (u, false).

(* ecp.rs:927-939: add 2 to an odd multiplier, 1 to an even one.  Returns ns
   (the parity of t+1) and the odd multiplier. *)
Definition make_odd (t : BIG) : option (Z * BIG) :=
  let s := big_parity t in
  t <- big_inc t 1 ;; t <- big_norm t ;;
  let ns := big_parity t in
  mt <- big_inc t 1 ;; mt <- big_norm mt ;;
  Some (ns, big_cmove t mt s).

(* ecp.rs:945-953: the signed 2-bit windows of both multipliers *)
Definition win2_step (t : BIG) : option (Z * BIG) :=
  '(l, t) <- big_lastbits t 3 ;;
  let a := l - 4 in
  t <- big_dec t a ;; t <- big_norm t ;;
  Some (a, big_fshr t 2).
Fixpoint win2_digits (n : nat) (te tf : BIG) : option (list Z * BIG * BIG) :=
  match n with
  | O => Some ([], te, tf)
  | S n' =>
      '(a, te) <- win2_step te ;;
      '(b, tf) <- win2_step tf ;;
      '(ws, te, tf) <- win2_digits n' te tf ;;
      Some (4 * a + b :: ws, te, tf)
  end.

(* ecp.rs:914-923: the table P-3Q, P-Q, P+Q, P+3Q, 3P-3Q, 3P-Q, 3P+Q, 3P+3Q;
   also 2P and 2Q *)
Definition ecp_tab2 (p q : ECP) : option (list ECP * ECP * ECP) :=
  w1 <- ecp_sub p q ;;
  w2 <- ecp_add p q ;;
  s <- ecp_dbl q ;;
  w0 <- ecp_sub w1 s ;;
  w3 <- ecp_add w2 s ;;
  t <- ecp_dbl p ;;
  w5 <- ecp_add w1 t ;;
  w6 <- ecp_add w2 t ;;
  w4 <- ecp_sub w5 s ;;
  w7 <- ecp_add w6 s ;;
  Some ([w0; w1; w2; w3; w4; w5; w6; w7], s, t).

(* ecp.rs:957-962, one window *)
Definition ecp_mul2_step (W : list ECP) (st : ECP * ECP) (d : Z) : option (ECP * ECP) :=
  let '(s, t) := st in
  t <- ecp_selector t W d ;;
  s <- ecp_dbl s ;; s <- ecp_dbl s ;;
  s <- ecp_add s t ;;
  Some (s, t).

(* ecp.rs:896-967 mul2.  The array w has CT = 204 entries. *)
Definition ecp_mul2 (self : ECP) (e : BIG) (q : ECP) (f : BIG) : option ECP :=
  '(W, s, t) <- ecp_tab2 self q ;;
  '(ns, te) <- make_odd e ;;
  let t := ecp_cmove t self ns in
  '(ns, tf) <- make_odd f ;;
  let s := ecp_cmove s q ns in
  c <- ecp_add t s ;;
  mt <- big_add te tf ;; mt <- big_norm mt ;;
  bits <- big_nbits mt ;;
  let nb := Z.to_nat (1 + (bits + 1) / 2) in
  if (204 <=? nb)%nat then None else
  '(w, te, tf) <- win2_digits nb te tf ;;
  '(le, _) <- big_lastbits te 3 ;;
  '(lf, _) <- big_lastbits tf 3 ;;
  i <- cku64 (4 * le + lf - 1) ;;
  s <- getM W (Z.to_nat (i / 2)) ;;
  '(s, _) <- foldM (ecp_mul2_step W) (rev w) (s, t) ;;
  s <- ecp_sub s c ;;
  ecp_affine s.

(* pair.rs:569-604 g1mul *)
Definition g1mul (P : ECP) (e : BIG) : option ECP :=
  cru <- fp_new_big CURVE_CRU ;;
  '(u0, u1) <- glv e ;;
  Q <- ecp_mulx P cru ;;
  '(u0, n0) <- glv_pick u0 ;;
  R <- (if n0 : bool then ecp_neg P else Some P) ;;
  '(u1, n1) <- glv_pick u1 ;;
  Q <- (if n1 : bool then ecp_neg Q else Some Q) ;;
  ecp_mul2 R u0 Q u1.

(* ecp2.rs:529-536, fp12.rs:678-684: the sign pivot, n = nb-1 signs *)
Fixpoint sign_pivot (n : nat) (t : BIG) : list Z :=
  match n with
  | O => []
  | S n' => let t := big_fshr t 1 in (2 * big_parity t - 1) :: sign_pivot n' t
  end.
(* ecp2.rs:543-546, fp12.rs:691-694: one digit of one multiplier *)
Definition pivot_step (s : Z) (t : BIG) : option (Z * BIG) :=
  let bt := s * big_parity t in
  t <- big_dec (big_fshr t 1) (Z.shiftr bt 1) ;; t <- big_norm t ;;
  Some (bt, t).
(* ecp2.rs:538-550, fp12.rs:686-698: the digits 2 w[i] + s[i], all of them in
   -15..15, so that the i8 arithmetic does not overflow *)
Fixpoint pivot_digits (ss : list Z) (t1 t2 t3 : BIG) : option (list Z) :=
  match ss with
  | [] => Some []
  | s :: ss' =>
      '(b1, t1) <- pivot_step s t1 ;;
      '(b2, t2) <- pivot_step s t2 ;;
      '(b3, t3) <- pivot_step s t3 ;;
      ds <- pivot_digits ss' t1 t2 t3 ;;
      Some (2 * (b1 + 2 * b2 + 4 * b3) + s :: ds)
  end.
(* ecp2.rs:496-550, fp12.rs:646-698: normalise, make t[0] odd, recode.
   Returns pb and the nb digits; the arrays have CT = 407 entries. *)
Definition mul4_recode (u : list BIG) : option (Z * list Z) :=
  t0 <- getM u 0 ;; t0 <- big_norm t0 ;;
  t1 <- getM u 1 ;; t1 <- big_norm t1 ;;
  t2 <- getM u 2 ;; t2 <- big_norm t2 ;;
  t3 <- getM u 3 ;; t3 <- big_norm t3 ;;
  let pb := 1 - big_parity t0 in
  t0 <- big_inc t0 pb ;; t0 <- big_norm t0 ;;
  let mt := big_or (big_or (big_or (big_or big_new t0) t1) t2) t3 in
  bits <- big_nbits mt ;;
  let nb := Z.to_nat (1 + bits) in
  if (407 <? nb)%nat then None else
  ds <- pivot_digits (sign_pivot (nb - 1) t0 ++ [1]) t1 t2 t3 ;;
  Some (pb, ds).

(* ecp2.rs:507-514: the table *)
Definition ecp2_tab4 (q0 q1 q2 q3 : ECP2) : option (list ECP2) :=
  t1 <- ecp2_add q0 q1 ;;
  t2 <- ecp2_add q0 q2 ;;
  t3 <- ecp2_add t1 q2 ;;
  t4 <- ecp2_add q0 q3 ;;
  t5 <- ecp2_add t1 q3 ;;
  t6 <- ecp2_add t2 q3 ;;
  t7 <- ecp2_add t3 q3 ;;
  Some [q0; t1; t2; t3; t4; t5; t6; t7].
(* ecp2.rs:554-559, one digit *)
Definition ecp2_mul4_step (T : list ECP2) (st : ECP2 * ECP2) (d : Z) : option (ECP2 * ECP2) :=
  let '(p, w) := st in
  p <- ecp2_dbl p ;;
  w <- ecp2_selector w T d ;;
  p <- ecp2_add p w ;;
  Some (p, w).
(* ecp2.rs:488-568 mul4.  The digits are most significant last. *)
Definition ecp2_mul4 (q0 q1 q2 q3 : ECP2) (u : list BIG) : option ECP2 :=
  q0 <- ecp2_affine q0 ;; q1 <- ecp2_affine q1 ;;
  q2 <- ecp2_affine q2 ;; q3 <- ecp2_affine q3 ;;
  T <- ecp2_tab4 q0 q1 q2 q3 ;;
  '(pb, ds) <- mul4_recode u ;;
  p <- ecp2_new ;;
  w <- getM T 3 ;;
  match rev ds with
  | [] => None
  | d :: ds' =>
      p <- ecp2_selector p T d ;;
      '(p, _) <- foldM (ecp2_mul4_step T) ds' (p, w) ;;
      w <- ecp2_sub p q0 ;;
      ecp2_affine (ecp2_cmove p w pb)
  end.

(* pair.rs:626-635: the loop body on a point *)
Definition g2_pick (u : BIG) (Q : ECP2) : option (BIG * ECP2) :=
  '(u, n) <- glv_pick u ;;
  Q <- (if n : bool then ecp2_neg Q else Some Q) ;;
  Some (u, Q).
(* pair.rs:608-647 g2mul *)
Definition g2mul (P : ECP2) (e : BIG) : option ECP2 :=
  f <- fp2_new_bigs FRA FRB ;;
  u <- gs e ;;
  f <- fp2_inverse f ;; f <- fp2_norm f ;;
  Q1 <- ecp2_frob P f ;;
  Q2 <- ecp2_frob Q1 f ;;
  Q3 <- ecp2_frob Q2 f ;;
  u0 <- getM u 0 ;; '(u0, Q0) <- g2_pick u0 P ;;
  u1 <- getM u 1 ;; '(u1, Q1) <- g2_pick u1 Q1 ;;
  u2 <- getM u 2 ;; '(u2, Q2) <- g2_pick u2 Q2 ;;
  u3 <- getM u 3 ;; '(u3, Q3) <- g2_pick u3 Q3 ;;
  ecp2_mul4 Q0 Q1 Q2 Q3 [u0; u1; u2; u3].

(* fp12.rs:97-101 cmove *)
Definition fp12_cmove (x g : FP12) (d : Z) : FP12 :=
  mkFP12 (fp4_cmove (f12a x) (f12a g) d) (fp4_cmove (f12b x) (f12b g) d) (fp4_cmove (f12c x) (f12c g) d).
(* fp12.rs:104-108 teq is the same function as ecp.rs:221-225.
   fp12.rs:111-129 selector *)
Definition fp12_selector (self : FP12) (W : list FP12) (b : Z) : option FP12 :=
  babs <- sel_babs b ;;
  s <- foldM (fun s i =>
         w <- getM W i ;;
         t <- teq babs (Z.of_nat i) ;;
         Some (fp12_cmove s w t)) (seq 0 8) self ;;
  mp <- fp12_conj s ;;
  Some (fp12_cmove s mp (Z.land (Z.shiftr b 31) 1)).
(* fp12.rs:655-662: the table *)
Definition fp12_tab4 (q0 q1 q2 q3 : FP12) : option (list FP12) :=
  t1 <- fp12_mul q0 q1 ;;
  t2 <- fp12_mul q0 q2 ;;
  t3 <- fp12_mul t1 q2 ;;
  t4 <- fp12_mul q0 q3 ;;
  t5 <- fp12_mul t1 q3 ;;
  t6 <- fp12_mul t2 q3 ;;
  t7 <- fp12_mul t3 q3 ;;
  Some [q0; t1; t2; t3; t4; t5; t6; t7].
(* fp12.rs:702-706, one digit *)
Definition fp12_pow4_step (T : list FP12) (st : FP12 * FP12) (d : Z) : option (FP12 * FP12) :=
  let '(p, r) := st in
  p <- fp12_usqr p ;;
  r <- fp12_selector r T d ;;
  p <- fp12_mul p r ;;
  Some (p, r).
(* fp12.rs:638-714 pow4 *)
Definition fp12_pow4 (q0 q1 q2 q3 : FP12) (u : list BIG) : option FP12 :=
  '(pb, ds) <- mul4_recode u ;;
  T <- fp12_tab4 q0 q1 q2 q3 ;;
  r <- getM T 3 ;;
  match rev ds with
  | [] => None
  | d :: ds' =>
      p <- fp12_selector fp12_new T d ;;
      '(p, _) <- foldM (fp12_pow4_step T) ds' (p, r) ;;
      r <- fp12_conj q0 ;;
      r <- fp12_mul r p ;;
      fp12_reduce (fp12_cmove p r pb)
  end.
(* pair.rs:669-677: the loop body on a field element *)
Definition gt_pick (u : BIG) (g : FP12) : option (BIG * FP12) :=
  '(u, n) <- glv_pick u ;;
  g <- (if n : bool then fp12_conj g else Some g) ;;
  Some (u, g).
(* pair.rs:651-682 gtpow *)
Definition gtpow (d : FP12) (e : BIG) : option FP12 :=
  f <- fp2_new_bigs FRA FRB ;;
  u <- gs e ;;
  g1 <- fp12_frob d f ;;
  g2 <- fp12_frob g1 f ;;
  g3 <- fp12_frob g2 f ;;
  u0 <- getM u 0 ;; '(u0, g0) <- gt_pick u0 d ;;
  u1 <- getM u 1 ;; '(u1, g1) <- gt_pick u1 g1 ;;
  u2 <- getM u 2 ;; '(u2, g2) <- gt_pick u2 g2 ;;
  u3 <- getM u 3 ;; '(u3, g3) <- gt_pick u3 g3 ;;
  fp12_pow4 g0 g1 g2 g3 [u0; u1; u2; u3].

(* ecp.rs:789-810 pinmul: bits bts-1..0 of e, a ladder with conditional swaps;
   e>>i panics for i > 31 *)
Definition pin_step (e : Z) (st : ECP * ECP) (i : nat) : option (ECP * ECP) :=
  let '(r0, r1) := st in
  if (31 <? i)%nat then None else
  let b := Z.land (Z.shiftr e (Z.of_nat i)) 1 in
  p <- ecp_add r1 r0 ;;
  let '(r0, r1) := ecp_cswap r0 r1 b in
  r0 <- ecp_dbl r0 ;;
  Some (ecp_cswap r0 p b).
Definition ecp_pinmul (self : ECP) (e : Z) (bts : nat) : option ECP :=
  r0 <- ecp_new ;;
  '(r0, _) <- foldM (pin_step e) (rev (seq 0 bts)) (r0, self) ;;
  ecp_affine r0.

(* fp12.rs:584-595 pinpow; e>>i panics for i > 31 *)
Definition pinpow_step (e : Z) (st : FP12 * FP12) (i : nat) : option (FP12 * FP12) :=
  let '(r0, r1) := st in
  if (31 <? i)%nat then None else
  if Z.land (Z.shiftr e (Z.of_nat i)) 1 =? 1 then
    r0 <- fp12_mul r0 r1 ;; r1 <- fp12_usqr r1 ;; Some (r0, r1)
  else
    r1 <- fp12_mul r1 r0 ;; r0 <- fp12_usqr r0 ;; Some (r0, r1).
Definition fp12_pinpow (self : FP12) (e : Z) (bts : nat) : option FP12 :=
  r0 <- fp12_new_int 1 ;;
  '(r0, _) <- foldM (pinpow_step e) (rev (seq 0 bts)) (r0, self) ;;
  Some r0.

(* ecp.rs:969-985 cfp: CURVE_COF_I = 0 (rom.rs:32), so multiply by CURVE_COF *)
Definition ecp_cfp (p : ECP) : option ECP := ecp_mul p CURVE_COF.

(* ecp.rs:989-1010 mapit: the two nested loops; the fuel bounds the number of
   abscissae tried *)
Fixpoint mapit_go (fuel : nat) (x : BIG) : option ECP :=
  match fuel with
  | O => None
  | S f =>
      P <- ecp_new_bigint x 0 ;;
      x <- big_inc x 1 ;; x <- big_norm x ;;
      inf <- ecp_is_infinity P ;;
      if inf : bool then mapit_go f x else
      P <- ecp_cfp P ;;
      inf <- ecp_is_infinity P ;;
      if inf : bool then mapit_go f x else Some P
  end.
Definition ecp_mapit (fuel : nat) (h : list Z) : option ECP :=
  x <- big_frombytes h ;;
  x <- big_rmod x MODULUS ;;
  mapit_go fuel x.

(* ecp2.rs:572-631 mapit, lines 579-584: first abscissa (1, x) on the twist *)
Fixpoint mapit2_go (fuel : nat) (x : BIG) : option ECP2 :=
  match fuel with
  | O => None
  | S f =>
      X <- fp2_new_bigs big_one x ;;
      Q <- ecp2_new_fp2 X ;;
      inf <- ecp2_is_infinity Q ;;
      if negb inf then Some Q else
      x <- big_inc x 1 ;; x <- big_norm x ;;
      mapit2_go f x
  end.
(* ecp2.rs:585-630 (BLS, NEGATIVEX, M_TYPE): clear the cofactor *)
Definition mapit2_clear (Q : ECP2) : option ECP2 :=
  X <- fp2_new_bigs FRA FRB ;;
  X <- fp2_inverse X ;; X <- fp2_norm X ;;
  xQ <- ecp2_mul Q CURVE_BNX ;;
  x2Q <- ecp2_mul xQ CURVE_BNX ;;
  xQ <- ecp2_neg xQ ;;
  x2Q <- ecp2_sub x2Q xQ ;;
  x2Q <- ecp2_sub x2Q Q ;;
  xQ <- ecp2_sub xQ Q ;;
  xQ <- ecp2_frob xQ X ;;
  Q <- ecp2_dbl Q ;;
  Q <- ecp2_frob Q X ;;
  Q <- ecp2_frob Q X ;;
  Q <- ecp2_add Q x2Q ;;
  Q <- ecp2_add Q xQ ;;
  ecp2_affine Q.
Definition ecp2_mapit (fuel : nat) (h : list Z) : option ECP2 :=
  x <- big_frombytes h ;;
  x <- big_rmod x MODULUS ;;
  Q <- mapit2_go fuel x ;;
  mapit2_clear Q.
