(* Model of src/amcl_utils.rs, src/errors.rs and the byte codecs of ecp.rs and
   ecp2.rs it uses.  A byte (u8) is a Z in [0,256). *)
From Verif Require Import Prim Rom Big Fp Fp2 Fp4 Fp12 Ecp Ecp2 Pair.

(* src/errors.rs:2-7 *)
Inductive DecodeError := BadPoint | IncorrectSize | Infinity | InvalidCFlag.
(* Rust's Result<A, DecodeError> *)
Inductive result (A : Type) := Ok (a : A) | Err (e : DecodeError).
Arguments Ok {A}. Arguments Err {A}.

(* amcl_utils.rs:35-39 *)
Definition Q_BYTES : list Z :=
  [26; 1; 17; 234; 57; 127; 230; 154; 75; 27; 167; 182; 67; 75; 172; 215; 100; 119; 75; 132; 243;
   133; 18; 191; 103; 48; 210; 160; 246; 176; 246; 36; 30; 171; 255; 254; 177; 83; 255; 255; 185;
   254; 255; 255; 255; 255; 170; 171].
(* amcl_utils.rs:42-50 *)
Definition G2_COFACTOR_HIGH : BIG :=
  [0x01537E293A6691AE; 0x023C72D367A0BBC8; 0x0205B2E5A7DDFA62; 0x01151C216AEA9A28;
   0x012876A202CD91DE; 0x010539FC4247541E; 0x000000005D543A95].
(* amcl_utils.rs:51-59 *)
Definition G2_COFACTOR_LOW : BIG :=
  [0x031C38E31C7238E5; 0x01BB1B9E1BC31C33; 0x0000000000000161; 0; 0; 0; 0].
(* amcl_utils.rs:60-68 *)
Definition G2_COFACTOR_SHIFT : BIG := [0; 0; 0x1000; 0; 0; 0; 0].

(* ---------------- byte codecs of the curve types ------------------- *)
(* ecp.rs:342-365 tobytes with compress = false: the 97 bytes written and the
   (now affine) point *)
Definition ecp_tobytes (p : ECP) : option (list Z * ECP) :=
  p' <- ecp_affine p ;;
  x <- fp_redc (ex p') ;; bx <- big_tobytes x ;;
  y <- fp_redc (ey p') ;; by_ <- big_tobytes y ;;
  Some (4 :: bx ++ by_, p').
(* ecp.rs:342-365 tobytes with compress = true (49 bytes) *)
Definition ecp_tobytes_compressed (p : ECP) : option (list Z * ECP) :=
  p' <- ecp_affine p ;;
  x <- fp_redc (ex p') ;; bx <- big_tobytes x ;;
  y <- fp_redc (ey p') ;;
  Some ((if big_parity y =? 1 then 3 else 2) :: bx, p').
(* ecp.rs:368-393 frombytes *)
Definition ecp_frombytes (b : list Z) : option ECP :=
  if (length b <? 49)%nat then None else
  px <- big_frombytes (firstn 48 (skipn 1 b)) ;;
  if 0 <=? big_comp px MODULUS then ecp_new else
  if limb b 0 =? 4 then
    if (length b <? 97)%nat then None else
    py <- big_frombytes (firstn 48 (skipn 49 b)) ;;
    if 0 <=? big_comp py MODULUS then ecp_new else ecp_new_bigs px py
  else if (limb b 0 =? 2) || (limb b 0 =? 3) then ecp_new_bigint px (Z.land (limb b 0) 1)
  else ecp_new.
(* ecp2.rs:222-239 frombytes *)
Definition ecp2_frombytes (b : list Z) : option ECP2 :=
  if (length b <? 192)%nat then None else
  ra <- big_frombytes (firstn 48 b) ;;
  rb <- big_frombytes (firstn 48 (skipn 48 b)) ;;
  rx <- fp2_new_bigs ra rb ;;
  ra <- big_frombytes (firstn 48 (skipn 96 b)) ;;
  rb <- big_frombytes (firstn 48 (skipn 144 b)) ;;
  ry <- fp2_new_bigs ra rb ;;
  ecp2_new_fp2s rx ry.
(* ecp2.rs:205-219 tobytes: the 192 bytes written and the (now affine) point *)
Definition ecp2_tobytes (p : ECP2) : option (list Z * ECP2) :=
  p' <- ecp2_affine p ;;
  xa <- fp2_geta (e2x p') ;; b0 <- big_tobytes xa ;;
  xb <- fp2_getb (e2x p') ;; b1 <- big_tobytes xb ;;
  ya <- fp2_geta (e2y p') ;; b2 <- big_tobytes ya ;;
  yb <- fp2_getb (e2y p') ;; b3 <- big_tobytes yb ;;
  Some (b0 ++ b1 ++ b2 ++ b3, p').

(* ------------------------- a_flag ----------------------------------- *)
(* amcl_utils.rs:358-381 calc_a_flag.  First loop (lines 363-369) in u64. *)
Fixpoint flag_double (carry : Z) (ys : list Z) : option (list Z) :=
  match ys with
  | [] => Some []
  | y :: ys' =>
      y2 <- cku64 (y * 2) ;;
      res <- cku64 (y2 + carry) ;;
      carry' <- cku64 (res - res mod 256) ;;
      r <- flag_double carry' ys' ;;
      Some (res mod 256 :: r)
  end.
(* lines 371-380 *)
Fixpoint flag_compare (rs qs : list Z) : Z :=
  match rs, qs with
  | r :: rs', q :: qs' => if q <? r then 1 else if r <? q then 0 else flag_compare rs' qs'
  | _, _ => 1
  end.
Definition calc_a_flag (y : BIG) : option Z :=
  yb <- big_tobytes y ;;
  rs <- flag_double 0 yb ;;
  Some (flag_compare rs Q_BYTES).

(* result[0] += 32*a_flag; result[0] += 128 (u8, checked) *)
Definition set_flags (bs : list Z) (a_flag : Z) : option (list Z) :=
  match bs with
  | [] => None
  | b0 :: r =>
      f <- cku8 (32 * a_flag) ;;
      b1 <- cku8 (b0 + f) ;;
      b2 <- cku8 (b1 + 128) ;;
      Some (b2 :: r)
  end.

(* ------------------------- G1 codec -------------------------------- *)
(* amcl_utils.rs:178-207 compress_g1: bytes and the (now affine) point *)
Definition compress_g1 (g : ECP) : option (list Z * ECP) :=
  inf <- ecp_is_infinity g ;;
  if inf : bool then Some (192 :: repeat 0 47, g) else
  '(bs, g') <- ecp_tobytes g ;;
  let r := firstn 48 (skipn 1 bs) in
  y <- big_frombytes (skipn 49 bs) ;;
  a <- calc_a_flag y ;;
  r' <- set_flags r a ;;
  Some (r', g').

(* amcl_utils.rs:210-260 decompress_g1 *)
Definition decompress_g1 (bs : list Z) : option (result ECP) :=
  if negb (length bs =? 48)%nat then Some (Err IncorrectSize) else
  match bs with
  | [] => None
  | b0 :: tl =>
      let a_flag := b0 mod 64 / 32 in
      if negb (b0 / 128 =? 1) then Some (Err InvalidCFlag) else
      if b0 mod 128 / 64 =? 1 then
        if negb (a_flag =? 0) || negb (b0 mod 32 =? 0) then Some (Err BadPoint) else
        if negb (forallb (fun b => b =? 0) tl) then Some (Err BadPoint) else
        p <- ecp_new ;; Some (Ok p)
      else
        x <- big_frombytes (b0 mod 32 :: tl) ;;
        p <- ecp_new_big x ;;
        inf <- ecp_is_infinity p ;;
        if inf : bool then Some (Err BadPoint) else
        '(y, p) <- ecp_gety p ;;
        f <- calc_a_flag y ;;
        if negb (f =? a_flag) then p <- ecp_neg p ;; Some (Ok p)
        else Some (Ok p)
  end.

(* ------------------------- G2 codec -------------------------------- *)
(* amcl_utils.rs:263-297 compress_g2 *)
Definition compress_g2 (g : ECP2) : option (list Z * ECP2) :=
  inf <- ecp2_is_infinity g ;;
  if inf : bool then Some (192 :: repeat 0 95, g) else
  '(bs, g') <- ecp2_tobytes g ;;
  let x_real := firstn 48 bs in
  let x_im := firstn 48 (skipn 48 bs) in
  y <- big_frombytes (skipn 144 bs) ;;
  a <- calc_a_flag y ;;
  r <- set_flags (x_im ++ x_real) a ;;
  Some (r, g').

(* amcl_utils.rs:300-353 decompress_g2 *)
Definition decompress_g2 (bs : list Z) : option (result ECP2) :=
  if negb (length bs =? 96)%nat then Some (Err IncorrectSize) else
  match bs with
  | [] => None
  | b0 :: tl =>
      if negb (b0 / 128 =? 1) then Some (Err InvalidCFlag) else
      if b0 mod 128 / 64 =? 1 then
        if negb (b0 mod 64 =? 0) then Some (Err BadPoint) else
        if negb (forallb (fun b => b =? 0) tl) then Some (Err BadPoint) else
        p <- ecp2_new ;; Some (Ok p)
      else
        let a_flag := b0 mod 64 / 32 in
        let bs' := b0 mod 32 :: tl in
        x_im <- big_frombytes (firstn 48 bs') ;;
        x_re <- big_frombytes (skipn 48 bs') ;;
        x <- fp2_new_bigs x_re x_im ;;
        p <- ecp2_new_fp2 x ;;
        inf <- ecp2_is_infinity p ;;
        if inf : bool then Some (Err BadPoint) else
        '(y, p) <- ecp2_gety p ;;
        yb <- fp2_getb y ;;
        f <- calc_a_flag yb ;;
        if negb (f =? a_flag) then p <- ecp2_neg p ;; Some (Ok p)
        else Some (Ok p)
  end.

(* ------------------------- hashing to G2 --------------------------- *)
(* amcl_utils.rs:128-141 cmp_fp2 *)
Definition cmp_fp2 (a b : FP2) : option Z :=
  ab <- fp2_getb a ;;
  bb <- fp2_getb b ;;
  let r := big_comp ab bb in
  if r =? 0 then
    aa <- fp2_geta a ;;
    ba <- fp2_geta b ;;
    Some (big_comp aa ba)
  else Some r.

(* amcl_utils.rs:144-160 multiply_cofactor *)
Definition multiply_cofactor (p : ECP2) : option ECP2 :=
  c <- ecp2_mul p G2_COFACTOR_HIGH ;;
  c <- ecp2_mul c G2_COFACTOR_SHIFT ;;
  l <- ecp2_mul p G2_COFACTOR_LOW ;;
  ecp2_add c l.

(* Rust `loop` with early exit; the fuel is a binary number so that it can be
   astronomically large.  inl = not finished, inr = value passed to break. *)
Fixpoint loopP {S A} (fuel : positive) (f : S -> S + A) (s : S) : S + A :=
  match fuel with
  | xH => f s
  | xO p => match loopP p f s with inl s' => loopP p f s' | inr a => inr a end
  | xI p => match f s with
            | inl s' => match loopP p f s' with inl s'' => loopP p f s'' | inr a => inr a end
            | inr a => inr a
            end
  end.

(* amcl_utils.rs:104-112, one round: inr None = panic *)
Definition map_step (one : FP2) (x : FP2) : FP2 + option ECP2 :=
  match (x <- fp2_norm x ;;
         p <- ecp2_new_fp2 x ;;
         inf <- ecp2_is_infinity p ;;
         if negb inf then Some (inr p) else x' <- fp2_add x one ;; Some (inl x')) with
  | None => inr None
  | Some (inr p) => inr (Some p)
  | Some (inl x') => inl x'
  end.
(* amcl_utils.rs:91-120, the part of map_to_g2 before the cofactor multiplication:
   the point found and sign-adjusted.  The search loop gets 2^400 rounds. *)
Definition map_fuel : positive := Eval vm_compute in (2 ^ 400)%positive.
Definition map_point (re im : list Z) : option ECP2 :=
  a <- big_frombytes re ;;
  b <- big_frombytes im ;;
  a <- big_rmod a MODULUS ;;
  b <- big_rmod b MODULUS ;;
  x <- fp2_new_bigs a b ;;
  one <- fp2_one ;;
  match loopP map_fuel (map_step one) x with
  | inl _ => None
  | inr None => None
  | inr (Some p) =>
      ny <- fp2_neg (e2y p) ;;
      c <- cmp_fp2 (e2y p) ny ;;
      if c <? 0 then ecp2_neg p else Some p
  end.
(* amcl_utils.rs:89-124 map_to_g2 *)
Definition map_to_g2 (re im : list Z) : option ECP2 :=
  p <- map_point re im ;; multiply_cofactor p.

(* u64::to_be_bytes *)
Definition be_bytes8 (d : Z) : list Z :=
  map (fun k => Z.land (Z.shiftr d (8 * Z.of_nat k)) 255) [7;6;5;4;3;2;1;0]%nat.

(* amcl_utils.rs:77-85 hash_on_g2.  `hash` is Keccak-256 (lines 163-169, an
   external crate): a parameter of the model. *)
Definition hash_on_g2 (hash : list Z -> list Z) (msg : list Z) (d : Z) : option ECP2 :=
  map_to_g2 (repeat 0 16 ++ hash (msg ++ be_bytes8 d ++ [1]))
            (repeat 0 16 ++ hash (msg ++ be_bytes8 d ++ [2])).

(* amcl_utils.rs:172-175 ate_pairing *)
Definition ate_pairing (p : ECP2) (q : ECP) : option FP12 := e <- ate p q ;; fexp e.
