(* Model of amcl/src/bls381/fp.rs (MODTYPE = NOT_SPECIAL, MOD8 = 3, so only
   the Montgomery branches are reachable and modelled).
   An FP is a limb vector plus the excess counter xes. *)
From Verif Require Import Prim Rom Big.

(* fp.rs:28-32 *)
Record FP := mkFP { fx : BIG; fxes : Z }.

(* fp.rs:53-58 new, 212-215 zero *)
Definition fp_new : FP := mkFP big_new 1.

(* fp.rs:107-177 modulo, NOT_SPECIAL branch 164-167 *)
Definition fp_modulo (d : DBIG) : option BIG := big_monty MODULUS MCONST d.

(* fp.rs:81-91 nres *)
Definition fp_nres (x : BIG) : option FP :=
  d <- big_mul x R2MODP ;; r <- fp_modulo d ;; Some (mkFP r 2).

(* fp.rs:60-65 new_int: inc normalises the zero BIG and adds a *)
Definition fp_new_int (a : Z) : option FP :=
  x <- big_inc big_new a ;; fp_nres x.

(* fp.rs:74-79 new_big, 206-209 bcopy *)
Definition fp_new_big (y : BIG) : option FP := fp_nres y.

(* fp.rs:94-102 redc *)
Definition fp_redc (a : FP) : option BIG := fp_modulo (dbig_scopy (fx a)).

(* fp.rs:187-191 reduce *)
Definition fp_reduce (a : FP) : option FP :=
  x <- big_rmod (fx a) MODULUS ;; Some (mkFP x 1).

(* fp.rs:194-197 iszilch: reduces self *)
Definition fp_iszilch (a : FP) : option (bool * FP) :=
  a' <- fp_reduce a ;; Some (big_iszilch (fx a'), a').

(* fp.rs:218-220 one *)
Definition fp_one : option FP := fp_nres big_one.

(* fp.rs:223-225 norm *)
Definition fp_norm (a : FP) : option FP :=
  x <- big_norm (fx a) ;; Some (mkFP x (fxes a)).

(* fp.rs:227-234 cswap *)
Definition fp_cswap (a b : FP) (d : Z) : FP * FP :=
  let '(x, y) := big_cswap (fx a) (fx b) d in
  let c := Z.lnot (d - 1) in
  let t := Z.land c (Z.lxor (fxes a) (fxes b)) in
  (mkFP x (Z.lxor (fxes a) t), mkFP y (Z.lxor (fxes b) t)).

(* fp.rs:237-241 cmove *)
Definition fp_cmove (a b : FP) (d : Z) : FP :=
  mkFP (big_cmove (fx a) (fx b) d)
       (Z.lxor (fxes a) (Z.land (Z.lxor (fxes a) (fxes b)) (- d))).

(* fp.rs:244-251 mul *)
Definition fp_mul (a b : FP) : option FP :=
  c <- ck64 (fxes a * fxes b) ;;
  a' <- (if FEXCESS <? c then fp_reduce a else Some a) ;;
  d <- big_mul (fx a') (fx b) ;;
  r <- fp_modulo d ;;
  Some (mkFP r 2).

(* fp.rs:253-265 logb2: u32 bit smearing and population count *)
Definition fp_logb2 (w : Z) : option Z :=
  let v := Z.lor w (Z.shiftr w 1) in
  let v := Z.lor v (Z.shiftr v 2) in
  let v := Z.lor v (Z.shiftr v 4) in
  let v := Z.lor v (Z.shiftr v 8) in
  let v := Z.lor v (Z.shiftr v 16) in
  let s := v - Z.land (Z.shiftr v 1) 0x55555555 in
  if s <? 0 then None else
  let s2 := Z.land s 0x33333333 + Z.land (Z.shiftr s 2) 0x33333333 in
  if 4294967295 <? s2 then None else
  let s3 := s2 + Z.shiftr s2 4 in
  if 4294967295 <? s3 then None else
  Some (Z.shiftr (Z.land (Z.land s3 0xF0F0F0F * 0x1010101) 4294967295) 24).

(* fp.rs:268-277 neg.  (self.xes-1) as u32: two's complement; 1<<sb in i32
   panics for sb >= 32. *)
Definition fp_neg (a : FP) : option FP :=
  e <- ck32 (fxes a - 1) ;;
  sb <- fp_logb2 (Z.land e 4294967295) ;;
  let p := big_fshl MODULUS sb in
  x <- big_rsub (fx a) p ;;
  if 32 <=? sb then None else
  let r := mkFP x (wrap32 (Z.shiftl 1 sb)) in
  if FEXCESS <? fxes r then fp_reduce r else Some r.

(* fp.rs:280-305 imul *)
Definition fp_imul (a : FP) (c : Z) : option FP :=
  let neg := c <? 0 in
  cc <- (if neg then ck64 (- c) else Some c) ;;
  pr <- ck32 (fxes a * wrap32 cc) ;;
  r <- (if pr <=? FEXCESS
        then x <- big_pmul (fx a) cc ;; e <- ck32 (fxes a * wrap32 cc) ;; Some (mkFP x e)
        else n <- fp_new_int cc ;; fp_mul a n) ;;
  if neg then r' <- fp_neg r ;; fp_norm r' else Some r.

(* fp.rs:308-316 sqr *)
Definition fp_sqr (a : FP) : option FP :=
  c <- ck64 (fxes a * fxes a) ;;
  a' <- (if FEXCESS <? c then fp_reduce a else Some a) ;;
  d <- big_sqr (fx a') ;;
  r <- fp_modulo d ;;
  Some (mkFP r 2).

(* fp.rs:319-323 add *)
Definition fp_add (a b : FP) : option FP :=
  x <- big_add (fx a) (fx b) ;;
  e <- ck32 (fxes a + fxes b) ;;
  let r := mkFP x e in
  if FEXCESS <? e then fp_reduce r else Some r.

(* fp.rs:326-330 dbl *)
Definition fp_dbl (a : FP) : option FP :=
  x <- big_dbl (fx a) ;;
  e <- ck32 (fxes a + fxes a) ;;
  let r := mkFP x e in
  if FEXCESS <? e then fp_reduce r else Some r.

(* fp.rs:333-338 sub *)
Definition fp_sub (a b : FP) : option FP :=
  n <- fp_neg b ;; fp_add a n.

(* fp.rs:341-345 rsub: b - self *)
Definition fp_rsub (a b : FP) : option FP :=
  n <- fp_neg a ;; fp_add n b.

(* fp.rs:348-358 div2 *)
Definition fp_div2 (a : FP) : option FP :=
  if big_parity (fx a) =? 0 then Some (mkFP (big_fshr (fx a) 1) (fxes a))
  else s <- big_add (fx a) MODULUS ;;
       n <- big_norm s ;;
       Some (mkFP (big_fshr n 1) (fxes a)).

(* fp.rs:375-380 equals: reduces both operands (returned: result, self, a) *)
Definition fp_equals (a b : FP) : option (bool * FP * FP) :=
  b' <- fp_reduce b ;;
  a' <- fp_reduce a ;;
  Some (big_comp (fx b') (fx a') =? 0, a', b').

(* fp.rs:384-420 pow.  Digits: nb windows of 4 bits, least significant first;
   the array w has CT = 103 entries. *)
Fixpoint pow_digits (n : nat) (t : BIG) : option (list Z) :=
  match n with
  | O => Some []
  | S n' =>
      '(lsbs, t1) <- big_lastbits t 4 ;;
      t2 <- big_dec t1 lsbs ;;
      t3 <- big_norm t2 ;;
      r <- pow_digits n' (big_fshr t3 4) ;;
      Some (lsbs :: r)
  end.
(* fp.rs:404-409: tb[i] = tb[i-1]*self for i = 2..15 *)
Fixpoint pow_table (n : nat) (last self : FP) : option (list FP) :=
  match n with
  | O => Some []
  | S n' => c <- fp_mul last self ;; r <- pow_table n' c self ;; Some (c :: r)
  end.
(* fp.rs:411-417: one window *)
Definition pow_step (tb : list FP) (r : FP) (d : Z) : option FP :=
  r1 <- fp_sqr r ;; r2 <- fp_sqr r1 ;; r3 <- fp_sqr r2 ;; r4 <- fp_sqr r3 ;;
  m <- getM tb (Z.to_nat d) ;;
  fp_mul r4 m.
Definition fp_pow (a : FP) (e : BIG) : option FP :=
  self <- fp_norm a ;;
  t <- big_norm e ;;
  bits <- big_nbits t ;;
  let nb := Z.to_nat (1 + (bits + 3) / 4) in
  if (103 <? nb)%nat then None else
  w <- pow_digits nb t ;;
  one <- fp_one ;;
  tl <- pow_table 14 self self ;;
  let tb := one :: self :: tl in
  match rev w with
  | [] => None
  | top :: rest =>
      r0 <- getM tb (Z.to_nat top) ;;
      r <- foldM (pow_step tb) rest r0 ;;
      fp_reduce r
  end.

(* fp.rs:360-372 inverse *)
Definition fp_inverse (a : FP) : option FP :=
  m <- big_dec MODULUS 2 ;;
  m2 <- big_norm m ;;
  fp_pow a m2.

(* fp.rs:441-460 sqrt, MOD8 = 3 branch; self is reduced first *)
Definition fp_sqrt (a : FP) : option FP :=
  a' <- fp_reduce a ;;
  p <- big_inc MODULUS 1 ;;
  p1 <- big_norm p ;;
  p2 <- big_shr p1 2 ;;
  fp_pow a' p2.

(* fp.rs:462-467 jacobi *)
Definition fp_jacobi (a : FP) : option Z :=
  w <- fp_redc a ;; big_jacobi w MODULUS.
