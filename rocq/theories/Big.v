(* Model of amcl/src/bls381/big.rs and dbig.rs.
   BIG is a list of 7 limbs, DBIG a list of 14 limbs, least significant first.
   Functions that mutate `self` return the new value. *)
From Verif Require Import Prim Rom.

Definition BIG := list Z.
Definition DBIG := list Z.

(* big.rs:58-62 new *)
Definition big_new : BIG := [0;0;0;0;0;0;0].
(* dbig.rs:31-35 new *)
Definition dbig_new : DBIG := [0;0;0;0;0;0;0;0;0;0;0;0;0;0].
(* big.rs:64-68 new_int *)
Definition big_new_int (x : Z) : BIG := [x;0;0;0;0;0;0].
(* big.rs:135-140 one *)
Definition big_one : BIG := big_new_int 1.
(* big.rs:88-92 new_dcopy, big.rs:149-152 dcopy: the low 7 limbs *)
Definition big_dcopy (d : DBIG) : BIG := firstn 7 d.

(* big.rs:111-116 iszilch *)
Definition big_iszilch (a : BIG) : bool := forallb (fun x => x =? 0) a.

(* big.rs:126-132 isunity: the loop starts at limb 0 *)
Definition big_isunity (a : BIG) : bool :=
  if negb (forallb (fun x => x =? 0) a) then false
  else if negb (limb a 0 =? 1) then false else true.

(* big.rs:157-162 muladd; i128 arithmetic, results truncated to i64 *)
Definition big_muladd (a b c r : Z) : option (Z * Z) :=
  p0 <- ck128 (a * b) ;;
  p1 <- ck128 (p0 + c) ;;
  p <- ck128 (p1 + r) ;;
  let bot := wrap64 (Z.land p BMASK) in
  let top := wrap64 (Z.shiftr p BASEBITS) in
  Some (top, bot).

(* big.rs:187-197 norm; dbig.rs:152-160 norm is the same loop over 14 limbs.
   The returned excess (top limb >> 36) is not used by any caller modelled. *)
Fixpoint norm_go (carry : Z) (w : list Z) : option (list Z) :=
  match w with
  | [] => Some []
  | [t] => t' <- ck64 (t + carry) ;; Some [t']
  | x :: w' =>
      d <- ck64 (x + carry) ;;
      r <- norm_go (Z.shiftr d BASEBITS) w' ;;
      Some (Z.land d BMASK :: r)
  end.
Definition big_norm (a : BIG) : option BIG := norm_go 0 a.
Definition dbig_norm (a : DBIG) : option DBIG := norm_go 0 a.

(* big.rs:200-208 cswap with XOR masks *)
Definition big_cswap (a b : BIG) (d : Z) : BIG * BIG :=
  let c := Z.lnot (d - 1) in
  let t := map2 (fun x y => Z.land c (Z.lxor x y)) a b in
  (map2 Z.lxor a t, map2 Z.lxor b t).

(* big.rs:210-215 cmove; dbig.rs:112-117 cmove *)
Definition big_cmove (a g : list Z) (d : Z) : list Z :=
  map2 (fun x y => Z.lxor x (Z.land (Z.lxor x y) (- d))) a g.

(* big.rs:218-226 fshr: shift right by k < 58 bits (the bits shifted out are
   returned by the code and ignored by every caller modelled) *)
Fixpoint fshr_go (k : Z) (w : list Z) : list Z :=
  match w with
  | [] => []
  | [t] => [Z.shiftr t k]
  | x :: ((y :: _) as w') =>
      Z.lor (Z.shiftr x k) (Z.land (shl64 y (BASEBITS - k)) BMASK) :: fshr_go k w'
  end.
Definition big_fshr (a : BIG) (k : Z) : BIG := fshr_go k a.

(* big.rs:229-238 shr; dbig.rs:86-94 shr.  Panics (usize underflow) when
   k/58 reaches the number of limbs. *)
Definition shr_gen (a : list Z) (k : Z) : option (list Z) :=
  let n := k mod BASEBITS in
  let m := Z.to_nat (k / BASEBITS) in
  if (m <? length a)%nat
  then Some (fshr_go n (skipn m a) ++ repeat 0 m)
  else None.
Definition big_shr (a : BIG) (k : Z) : option BIG := shr_gen a k.
Definition dbig_shr (a : DBIG) (k : Z) : option DBIG := shr_gen a k.

(* big.rs:241-249 fshl: shift left by k < 58 bits.  prev is the next lower
   limb (0 below limb 0, where the code ORs nothing in). *)
Fixpoint fshl_go (k prev : Z) (w : list Z) : list Z :=
  match w with
  | [] => []
  | [t] => [Z.lor (shl64 t k) (Z.shiftr prev (BASEBITS - k))]
  | x :: w' =>
      Z.lor (Z.land (shl64 x k) BMASK) (Z.shiftr prev (BASEBITS - k))
        :: fshl_go k x w'
  end.
Definition big_fshl (a : BIG) (k : Z) : BIG := fshl_go k 0 a.

(* big.rs:252-263 shl; dbig.rs:72-83 shl.  When only one limb survives
   (m = length-1) the code masks that limb as well in BIG::shl, and indexes
   out of range in DBIG::shl; neither happens for a shift below 58 bits,
   the only use in the code modelled. *)
Definition big_shl (a : BIG) (k : Z) : option BIG :=
  let n := k mod BASEBITS in
  let m := Z.to_nat (k / BASEBITS) in
  if (m <? 6)%nat then Some (repeat 0 m ++ fshl_go n 0 (firstn (7 - m) a))
  else if (m =? 6)%nat then
    Some (repeat 0 6 ++ [Z.land (shl64 (limb a 0) n) BMASK])
  else None.
Definition dbig_shl (a : DBIG) (k : Z) : option DBIG :=
  let n := k mod BASEBITS in
  let m := Z.to_nat (k / BASEBITS) in
  if (m <? 13)%nat then Some (repeat 0 m ++ fshl_go n 0 (firstn (14 - m) a))
  else None.

(* big.rs:266-276 nbits: bit length of the normalised value, scanning limbs
   from the top; `c/=2` truncates toward zero.  nlimb counts the bits of the
   top nonzero limb; 64 halvings always reach 0 for an i64. *)
Fixpoint nlimb (fuel : nat) (c bts : Z) : Z :=
  match fuel with
  | O => bts
  | S f => if c =? 0 then bts else nlimb f (Z.quot c 2) (bts + 1)
  end.
Fixpoint nbits_go (k : nat) (w : list Z) : Z :=
  match k with
  | O => 0
  | S k' => if limb w k' =? 0 then nbits_go k' w
            else nlimb 64 (limb w k') (BASEBITS * Z.of_nat k')
  end.
Definition big_nbits (a : BIG) : option Z :=
  s <- big_norm a ;; Some (nbits_go 7 s).
(* dbig.rs:240-249 nbits (self is normalised in place) *)
Definition dbig_nbits (a : DBIG) : option Z :=
  s <- dbig_norm a ;; Some (nbits_go 14 s).

(* big.rs:301-305 add, 320-326 plus; dbig.rs:120-124 add *)
Definition big_add (a r : list Z) : option (list Z) := map2M (fun x y => ck64 (x + y)) a r.
(* big.rs:313-317 dbl *)
Definition big_dbl (a : BIG) : option BIG := mapM (fun x => ck64 (x + x)) a.
(* big.rs:307-311 or *)
Definition big_or (a r : BIG) : BIG := map2 Z.lor a r.
(* big.rs:348-352 sub, 339-345 minus; dbig.rs:127-131 sub *)
Definition big_sub (a x : list Z) : option (list Z) := map2M (fun u v => ck64 (u - v)) a x.
(* big.rs:355-359 rsub; dbig.rs:134-138 rsub: x - self *)
Definition big_rsub (a x : list Z) : option (list Z) := map2M (fun u v => ck64 (v - u)) a x.
(* big.rs:328-331 inc *)
Definition big_inc (a : BIG) (x : Z) : option BIG :=
  a' <- big_norm a ;;
  match a' with w0 :: r => w <- ck64 (w0 + x) ;; Some (w :: r) | [] => None end.
(* big.rs:362-365 dec *)
Definition big_dec (a : BIG) (x : Z) : option BIG :=
  a' <- big_norm a ;;
  match a' with w0 :: r => w <- ck64 (w0 - x) ;; Some (w :: r) | [] => None end.
(* big.rs:368-372 imul *)
Definition big_imul (a : BIG) (c : Z) : option BIG := mapM (fun x => ck64 (x * c)) a.

(* big.rs:375-383 tobytearray / 394-396 tobytes: the 48 bytes written, most
   significant first, and the normalised self *)
Fixpoint tobytes_go (n : nat) (c : BIG) (acc : list Z) : list Z :=
  match n with
  | O => acc
  | S n' => tobytes_go n' (big_fshr c 8) (Z.land (limb c 0) 255 :: acc)
  end.
Definition big_tobytes (a : BIG) : option (list Z) :=
  a' <- big_norm a ;; Some (tobytes_go MODBYTES a' []).

(* big.rs:386-392 frombytearray / 398-400 frombytes: reads b[n..n+48],
   panics when the slice is too short *)
Definition frombytes_step (m : BIG) (b : Z) : option BIG :=
  match big_fshl m 8 with
  | w0 :: r => w <- ck64 (w0 + Z.land b 255) ;; Some (w :: r)
  | [] => None
  end.
Definition big_frombytearray (b : list Z) (n : nat) : option BIG :=
  let s := firstn MODBYTES (skipn n b) in
  if (length s =? MODBYTES)%nat then foldM frombytes_step s big_new else None.
Definition big_frombytes (b : list Z) : option BIG := big_frombytearray b 0.

(* big.rs:404-413 pmul (the carry out is ignored by FP::imul) *)
Fixpoint pmul_go (c carry : Z) (w : list Z) : option (list Z) :=
  match w with
  | [] => Some []
  | x :: w' =>
      '(top, bot) <- big_muladd x c carry 0 ;;
      r <- pmul_go c top w' ;; Some (bot :: r)
  end.
Definition big_pmul (a : BIG) (c : Z) : option BIG := pmul_go c 0 a.

(* big.rs:458-465 comp; dbig.rs:142-149 comp: scan from the top limb.  The
   recursive call on the tail looks at the more significant limbs first. *)
Fixpoint big_comp (a b : list Z) : Z :=
  match a, b with
  | x :: a', y :: b' =>
      let c := big_comp a' b' in
      if c =? 0 then (if x =? y then 0 else if y <? x then 1 else -1) else c
  | _, _ => 0
  end.

(* big.rs:468-475 mod2m *)
Definition big_mod2m (a : BIG) (m : Z) : option BIG :=
  let wd := Z.to_nat (m / BASEBITS) in
  let bt := m mod BASEBITS in
  let msk := Z.shiftl 1 bt - 1 in
  if (wd <? 7)%nat
  then Some (firstn wd a ++ [Z.land (limb a wd) msk] ++ repeat 0 (6 - wd))
  else None.

(* big.rs:513-515 parity: w[0] % 2 (sign of the dividend) *)
Definition big_parity (a : BIG) : Z := Z.rem (limb a 0) 2.
(* big.rs:518-521 bit *)
Definition big_bit (a : BIG) (n : Z) : option Z :=
  w <- getM a (Z.to_nat (n / BASEBITS)) ;;
  Some (if 0 <? Z.land w (Z.shiftl 1 (n mod BASEBITS)) then 1 else 0).
(* big.rs:524-529 lastbits: normalises self and returns the low n bits *)
Definition big_lastbits (a : BIG) (n : Z) : option (Z * BIG) :=
  a' <- big_norm a ;;
  Some (Z.land (limb a' 0) (Z.shiftl 1 n - 1), a').

(* sign test used by rmod/div/dmod: 1 - ((top >> 63) & 1) *)
Definition nonneg_flag (t : Z) : Z := 1 - Z.land (Z.shiftr t 63) 1.

(* big.rs:568-594 rmod.  First loop: double m until self < m; second loop:
   k conditional subtractions.  The first loop does not terminate when n = 0;
   the model gives it 2000 rounds. *)
Fixpoint rmod_up (fuel : nat) (a m : BIG) (k : nat) : option (BIG * nat) :=
  match fuel with
  | O => None
  | S f => let m' := big_fshl m 1 in
           if big_comp a m' <? 0 then Some (m', S k) else rmod_up f a m' (S k)
  end.
Fixpoint rmod_down (k : nat) (a m : BIG) : option BIG :=
  match k with
  | O => Some a
  | S k' =>
      let m' := big_fshr m 1 in
      r0 <- big_sub a m' ;;
      r <- big_norm r0 ;;
      rmod_down k' (big_cmove a r (nonneg_flag (limb r 6))) m'
  end.
Definition big_rmod (a n : BIG) : option BIG :=
  a' <- big_norm a ;;
  if big_comp a' n <? 0 then Some a' else
  '(m, k) <- rmod_up 2000 a' n 0 ;;
  rmod_down k a' m.

(* big.rs:597-634 div *)
Fixpoint div_up (fuel : nat) (b m e : BIG) (k : nat) : option (BIG * BIG * nat) :=
  match fuel with
  | O => None
  | S f => if 0 <=? big_comp b m
           then div_up f b (big_fshl m 1) (big_fshl e 1) (S k)
           else Some (m, e, k)
  end.
Fixpoint div_down (k : nat) (q b m e : BIG) : option BIG :=
  match k with
  | O => Some q
  | S k' =>
      let m' := big_fshr m 1 in
      let e' := big_fshr e 1 in
      r0 <- big_sub b m' ;;
      r <- big_norm r0 ;;
      let d := nonneg_flag (limb r 6) in
      let b' := big_cmove b r d in
      s0 <- big_add q e' ;;
      s <- big_norm s0 ;;
      div_down k' (big_cmove q s d) b' m' e'
  end.
Definition big_div (a n : BIG) : option BIG :=
  b <- big_norm a ;;
  '(m, e, k) <- div_up 2000 b n (big_new_int 1) 0 ;;
  div_down k big_new b m e.

(* big.rs:675-708 jacobi.  `n8*n8-1`, `n8-1`, `x4-1` are usize and would
   underflow on 0.  Fuel: 1000 rounds of each loop. *)
Fixpoint jac_halve (fuel : nat) (x : BIG) (k : Z) : option (BIG * Z) :=
  match fuel with
  | O => None
  | S f => if big_parity x =? 0
           then x' <- big_shr x 1 ;; jac_halve f x' (k + 1)
           else Some (x, k)
  end.
Fixpoint jac_loop (fuel : nat) (x n : BIG) (m : Z) : option Z :=
  match fuel with
  | O => None
  | S f =>
      if 0 <? big_comp n big_one then
        if big_comp x big_new =? 0 then Some 0 else
        '(n8, n') <- big_lastbits n 3 ;;
        '(x1, k) <- jac_halve 1000 x 0 ;;
        m1 <- (if k mod 2 =? 1 then q <- cku64 (n8 * n8 - 1) ;; Some (m + q / 8)
               else Some m) ;;
        '(x4, x2) <- big_lastbits x1 2 ;;
        u <- cku64 (n8 - 1) ;;
        v <- cku64 (x4 - 1) ;;
        let m2 := m1 + u * v / 4 in
        t <- big_rmod n' x2 ;;
        jac_loop f t x2 (m2 mod 2)
      else Some (if m =? 0 then 1 else -1)
  end.
Definition big_jacobi (a p : BIG) : option Z :=
  if (big_parity p =? 0) || (big_comp a big_new =? 0) || (big_comp p big_one <=? 0)
  then Some 0
  else a' <- big_norm a ;;
       x <- big_rmod a' p ;;
       jac_loop 1000 x p 0.

(* big.rs:777-809 mul.  Column k adds s (the running sum of the a_i*b_i) and
   the cross terms (a_i-a_(k-i))*(b_(k-i)-b_i), i from 1+k/2. *)
Definition mul_inner (a b : BIG) (k : nat) (is : list nat) (t : Z) : option Z :=
  foldM (fun t i =>
    da <- ck64 (limb a i - limb a (k - i)) ;;
    db <- ck64 (limb b (k - i) - limb b i) ;;
    p <- ck128 (da * db) ;;
    ck128 (t + p)) is t.
Definition mul_lo (a b : BIG) (d : list Z) (st : Z * Z * list Z) (k : nat)
  : option (Z * Z * list Z) :=
  let '(s, co, c) := st in
  s' <- ck128 (s + limb d k) ;;
  t0 <- ck128 (co + s') ;;
  t <- mul_inner a b k (seq (1 + k / 2) (k - k / 2)) t0 ;;
  Some (s', Z.shiftr t BASEBITS, c ++ [Z.land t BMASK]).
Definition mul_hi (a b : BIG) (d : list Z) (st : Z * Z * list Z) (k : nat)
  : option (Z * Z * list Z) :=
  let '(s, co, c) := st in
  s' <- ck128 (s - limb d (k - 7)) ;;
  t0 <- ck128 (co + s') ;;
  t <- mul_inner a b k (seq (1 + k / 2) (7 - (1 + k / 2))) t0 ;;
  Some (s', Z.shiftr t BASEBITS, c ++ [Z.land t BMASK]).
Definition big_mul (a b : BIG) : option DBIG :=
  d <- map2M (fun x y => ck128 (x * y)) a b ;;
  let s := limb d 0 in
  st <- foldM (mul_lo a b d) (seq 1 6) (s, Z.shiftr s BASEBITS, [Z.land s BMASK]) ;;
  '(_, co, c) <- foldM (mul_hi a b d) (seq 7 6) st ;;
  Some (c ++ [wrap64 co]).

(* big.rs:813-854 sqr *)
Definition sqr_inner (a : BIG) (j : nat) (is : list nat) (t : Z) : option Z :=
  foldM (fun t i => p <- ck128 (limb a (j - i) * limb a i) ;; ck128 (t + p)) is t.
(* one column: t = a[h]*a[l] + cross; t += t; t += co; (even j) t += a[j/2]^2 *)
Definition sqr_col (a : BIG) (j h l : nat) (is : list nat) (even : bool)
  (st : Z * list Z) : option (Z * list Z) :=
  let '(co, c) := st in
  t0 <- ck128 (limb a h * limb a l) ;;
  t1 <- sqr_inner a j is t0 ;;
  t2 <- ck128 (t1 + t1) ;;
  t3 <- ck128 (t2 + co) ;;
  t <- (if even then p <- ck128 (limb a (j / 2) * limb a (j / 2)) ;; ck128 (t3 + p)
        else Some t3) ;;
  Some (Z.shiftr t BASEBITS, c ++ [Z.land t BMASK]).
Definition sqr_lo (a : BIG) (st : Z * list Z) (j : nat) : option (Z * list Z) :=
  st' <- sqr_col a j j 0 (seq 1 ((j + 1) / 2 - 1)) false st ;;
  let j' := S j in
  sqr_col a j' j' 0 (seq 1 ((j' + 1) / 2 - 1)) true st'.
Definition sqr_hi (a : BIG) (st : Z * list Z) (j : nat) : option (Z * list Z) :=
  st' <- sqr_col a j 6 (j + 1 - 7) (seq (j + 2 - 7) ((j + 1) / 2 - (j + 2 - 7))) false st ;;
  let j' := S j in
  sqr_col a j' 6 (j' + 1 - 7) (seq (j' + 2 - 7) ((j' + 1) / 2 - (j' + 2 - 7))) true st'.
Definition big_sqr (a : BIG) : option DBIG :=
  t <- ck128 (limb a 0 * limb a 0) ;;
  st <- foldM (sqr_lo a) [1; 3; 5]%nat (Z.shiftr t BASEBITS, [Z.land t BMASK]) ;;
  '(co, c) <- foldM (sqr_hi a) [7; 9]%nat st ;;
  t0 <- ck128 (limb a 5 * limb a 6) ;;
  t1 <- ck128 (t0 + t0) ;;
  t2 <- ck128 (t1 + co) ;;
  u0 <- ck128 (limb a 6 * limb a 6) ;;
  u1 <- ck128 (u0 + Z.shiftr t2 BASEBITS) ;;
  Some (c ++ [Z.land t2 BMASK; Z.land u1 BMASK; wrap64 (Z.shiftr u1 BASEBITS)]).

(* big.rs:858-895 monty *)
Definition monty_inner (md v : list Z) (k : nat) (is : list nat) (t : Z) : option Z :=
  foldM (fun t i =>
    dv <- ck64 (limb v (k - i) - limb v i) ;;
    dm <- ck64 (limb md i - limb md (k - i)) ;;
    p <- ck128 (dv * dm) ;;
    ck128 (t + p)) is t.
Definition monty_v (mc t : Z) : Z := Z.land (wrap64 (Z.land t BMASK * mc)) BMASK.
(* state: v (limbs so far), dd (indexed as in the code, dd[0]=0), c, s *)
Definition monty_lo (md : BIG) (mc : Z) (d : DBIG) (st : list Z * list Z * Z * Z) (k : nat)
  : option (list Z * list Z * Z * Z) :=
  let '(v, dd, c, s) := st in
  p0 <- ck128 (limb v 0 * limb md k) ;;
  t0 <- ck128 (c + s) ;;
  t1 <- ck128 (t0 + p0) ;;
  t2 <- monty_inner md v k (seq (1 + k / 2) (k - (1 + k / 2))) t1 ;;
  let vk := monty_v mc t2 in
  p1 <- ck128 (vk * limb md 0) ;;
  t <- ck128 (t2 + p1) ;;
  c' <- ck128 (limb d (k + 1) + Z.shiftr t BASEBITS) ;;
  ddk <- ck128 (vk * limb md k) ;;
  s' <- ck128 (s + ddk) ;;
  Some (v ++ [vk], dd ++ [ddk], c', s').
Definition monty_hi (md : BIG) (v dd : list Z) (d : DBIG) (st : list Z * Z * Z) (k : nat)
  : option (list Z * Z * Z) :=
  let '(b, c, s) := st in
  t0 <- ck128 (c + s) ;;
  t <- monty_inner md v k (seq (1 + k / 2) (7 - (1 + k / 2))) t0 ;;
  c' <- ck128 (limb d (k + 1) + Z.shiftr t BASEBITS) ;;
  s' <- ck128 (s - limb dd (k + 1 - 7)) ;;
  Some (b ++ [Z.land t BMASK], c', s').
Definition big_monty (md : BIG) (mc : Z) (d : DBIG) : option BIG :=
  let t := limb d 0 in
  let v0 := monty_v mc t in
  p0 <- ck128 (v0 * limb md 0) ;;
  t1 <- ck128 (t + p0) ;;
  c <- ck128 (limb d 1 + Z.shiftr t1 BASEBITS) ;;
  '(v, dd, c, s) <- foldM (monty_lo md mc d) (seq 1 6) ([v0], [0], c, 0) ;;
  '(b, c, _) <- foldM (monty_hi md v dd d) (seq 7 6) ([], c, s) ;;
  Some (b ++ [Z.land c BMASK]).

(* dbig.rs:43-53 new_scopy *)
Definition dbig_scopy (x : BIG) : DBIG :=
  firstn 6 x ++ [Z.land (limb x 6) BMASK; Z.shiftr (limb x 6) BASEBITS; 0;0;0;0;0;0].
(* dbig.rs:103-110 ucopy: x * 2^406 *)
Definition dbig_ucopy (x : BIG) : DBIG := repeat 0 7 ++ x.

(* dbig.rs:163-196 dmod *)
Fixpoint dmod_up (fuel : nat) (a m : DBIG) (k : nat) : option (DBIG * nat) :=
  match fuel with
  | O => None
  | S f => m' <- dbig_shl m 1 ;;
           if big_comp a m' <? 0 then Some (m', S k) else dmod_up f a m' (S k)
  end.
Fixpoint dmod_down (k : nat) (a m : DBIG) : option DBIG :=
  match k with
  | O => Some a
  | S k' =>
      m' <- dbig_shr m 1 ;;
      r0 <- big_sub a m' ;;
      r <- dbig_norm r0 ;;
      dmod_down k' (big_cmove a r (nonneg_flag (limb r 13))) m'
  end.
Definition dbig_dmod (a : DBIG) (c : BIG) : option BIG :=
  a' <- dbig_norm a ;;
  let m := dbig_scopy c in
  if big_comp a' m <? 0 then Some (big_dcopy a') else
  '(m1, k) <- dmod_up 2000 a' m 0 ;;
  r <- dmod_down k a' m1 ;;
  Some (big_dcopy r).

(* big.rs:980-985 modmul, 988-992 modsqr, 995-998 modneg *)
Definition big_modmul (a b m : BIG) : option BIG :=
  a' <- big_rmod a m ;; b' <- big_rmod b m ;;
  d <- big_mul a' b' ;; dbig_dmod d m.
Definition big_modsqr (a m : BIG) : option BIG :=
  a' <- big_rmod a m ;; d <- big_sqr a' ;; dbig_dmod d m.
Definition big_modneg (a m : BIG) : option BIG :=
  a' <- big_rmod a m ;; big_sub m a'.
