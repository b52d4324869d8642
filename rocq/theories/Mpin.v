(* Model of amcl/src/bls381/mpin.rs without the clock, the kangaroo search (Kang.v), the encoding of
   points as random strings and the keys of M-Pin Full.  `chk` says whether the hash functions
   are built with overflow checks; `fuel` bounds the rounds of the loop of ECP::mapit.  A slice
   written by a function is passed in and its new content returned. *)
From Verif Require Import Prim Rom Big Fp Fp2 Fp4 Fp12 Ecp Ecp2 Pair Pair2 Utils Rand Glv Ecdh.

(* mpin.rs:48-51 *)
Definition BAD_PARAMS : Z := -11.
Definition INVALID_POINT : Z := -14.
Definition BAD_PIN : Z := -19.
(* mpin.rs:58-59 *)
Definition MAXPIN : Z := 10000.
Definition PBLEN : nat := 14.

(* fp12.rs:133-136 isunity; that equals and iszilch reduce self is not modelled, as its value
   stays the same *)
Definition fp12_isunity (x : FP12) : option bool :=
  one <- fp4_new_int 1 ;;
  e <- fp4_equals (f12a x) one ;;
  if negb e then Some false else
  z <- fp4_iszilch (f12b x) ;; if negb z then Some false else
  fp4_iszilch (f12c x).
(* fp12.rs:518-548 tobytes: the 576 bytes written *)
Definition fp2_bytes (x : FP2) : option (list Z) :=
  a <- fp2_geta x ;; ba <- big_tobytes a ;;
  b <- fp2_getb x ;; bb <- big_tobytes b ;; Some (ba ++ bb).
Definition fp4_bytes (x : FP4) : option (list Z) := a <- fp2_bytes (f4a x) ;; b <- fp2_bytes (f4b x) ;; Some (a ++ b).
Definition fp12_tobytes (x : FP12) : option (list Z) :=
  a <- fp4_bytes (f12a x) ;; b <- fp4_bytes (f12b x) ;; c <- fp4_bytes (f12c x) ;; Some (a ++ b ++ c).

(* mpin.rs:105-148 hashit: the flag and w.  Processing the empty array first (hash_r) changes
   nothing; hash_r and the number are those of ecdh.rs *)
Definition mhashit (chk : bool) (sha : nat) (n : Z) (id w : list Z) : option (bool * list Z) :=
  if negb ((sha =? 32) || (sha =? 48) || (sha =? 64))%nat then Some (false, w) else
  r <- hash_r chk sha [] n (Some id) ;;
  if (48 <? sha)%nat then w <- put w 0 (firstn 48 r) ;; Some (true, w)
  else w <- put w (48 - sha) (firstn sha r) ;; w <- put w 0 (repeat 0 (48 - sha)) ;; Some (true, w).
(* mpin.rs:189-191 hash_id *)
Definition hash_id (chk : bool) (sha : nat) (id w : list Z) : option (bool * list Z) := mhashit chk sha 0 id w.
(* mpin.rs:360-363, 435-438, 464-467, 508-510: hash into an array of zeros and map; the flag
   is ignored *)
Definition map_id (chk : bool) (fuel sha : nat) (n : Z) (id : list Z) : option (list Z * ECP) :=
  '(_, h) <- mhashit chk sha n id (repeat 0 48) ;;
  P <- ecp_mapit fuel h ;; Some (h, P).

(* mpin.rs:257-267 recombine_g1 *)
Definition recombine_g1 (r1 r2 r : list Z) : option (Z * list Z) :=
  P <- ecp_frombytes r1 ;;
  Q <- ecp_frombytes r2 ;;
  i <- ecp_is_infinity P ;; j <- (if i : bool then Some true else ecp_is_infinity Q) ;;
  if j : bool then Some (INVALID_POINT, r) else
  P <- ecp_add P Q ;;
  '(bs, _) <- ecp_tobytes P ;;
  r <- put r 0 bs ;; Some (0, r).
(* mpin.rs:271-281 recombine_g2 *)
Definition recombine_g2 (w1 w2 w : list Z) : option (Z * list Z) :=
  P <- ecp2_frombytes w1 ;;
  Q <- ecp2_frombytes w2 ;;
  i <- ecp2_is_infinity P ;; j <- (if i : bool then Some true else ecp2_is_infinity Q) ;;
  if j : bool then Some (INVALID_POINT, w) else
  P <- ecp2_add P Q ;;
  '(bs, _) <- ecp2_tobytes P ;;
  w <- put w 0 bs ;; Some (0, w).
(* mpin.rs:284-292 random_generate *)
Definition random_generate (rng : RAND) (s : list Z) : option (Z * list Z * RAND) :=
  '(sc, rng) <- big_randomnum CURVE_ORDER rng ;;
  bs <- big_tobytes sc ;; s <- put s 0 bs ;; Some (0, s, rng).
(* mpin.rs:296-304 get_server_secret *)
Definition get_server_secret (s sst : list Z) : option (Z * list Z) :=
  Q <- ecp2_generator ;;
  sc <- big_frombytes s ;;
  Q <- g2mul Q sc ;;
  '(bs, _) <- ecp2_tobytes Q ;;
  sst <- put sst 0 bs ;; Some (0, sst).
(* mpin.rs:317-326 and 452-461: the secret, drawn and written to x or read from x *)
Definition secret (rng : option RAND) (x : list Z) : option (BIG * list Z * option RAND) :=
  match rng with
  | Some rd => '(sx, rd) <- big_randomnum CURVE_ORDER rd ;; bs <- big_tobytes sx ;; x <- put x 0 bs ;; Some (sx, x, Some rd)
  | None => sx <- big_frombytes x ;; Some (sx, x, None)
  end.
(* mpin.rs:313-340 get_g1_multiple: result, x, w and the generator *)
Definition get_g1_multiple (fuel : nat) (rng : option RAND) (typ : nat) (x g w : list Z) : option (Z * list Z * list Z * option RAND) :=
  '(sx, x, rng) <- secret rng x ;;
  P <- (if (typ =? 0)%nat then ecp_frombytes g else ecp_mapit fuel g) ;;
  i <- (if (typ =? 0)%nat then ecp_is_infinity P else Some false) ;;
  if i : bool then Some (INVALID_POINT, x, w, rng) else
  P <- g1mul P sx ;;
  '(bs, _) <- ecp_tobytes P ;;
  w <- put w 0 bs ;; Some (0, x, w, rng).
(* mpin.rs:345-347 get_client_secret *)
Definition get_client_secret (fuel : nat) (s cid cst : list Z) : option (Z * list Z) :=
  '(res, _, cst, _) <- get_g1_multiple fuel None 1 s cid cst ;; Some (res, cst).

(* mpin.rs:357-371 extract_factor and 375-389 restore_factor, which adds *)
Definition factor_op (add : bool) (chk : bool) (fuel sha : nat) (cid : list Z) (factor : Z) (facbits : nat) (token : list Z) : option (Z * list Z) :=
  P <- ecp_frombytes token ;;
  i <- ecp_is_infinity P ;;
  if i : bool then Some (INVALID_POINT, token) else
  '(_, R) <- map_id chk fuel sha 0 cid ;;
  R <- ecp_pinmul R factor facbits ;;
  P <- (if add then ecp_add P R else ecp_sub P R) ;;
  '(bs, _) <- ecp_tobytes P ;;
  token <- put token 0 bs ;; Some (0, token).
Definition extract_factor := factor_op false.
Definition restore_factor := factor_op true.
(* mpin.rs:351-353 extract_pin *)
Definition extract_pin (chk : bool) (fuel sha : nat) (cid : list Z) (pin : Z) (token : list Z) : option (Z * list Z) :=
  extract_factor chk fuel sha cid (Z.rem pin MAXPIN) PBLEN token.
(* mpin.rs:434-443 get_client_permit *)
Definition get_client_permit (chk : bool) (fuel sha : nat) (date : Z) (s cid ctt : list Z) : option (Z * list Z) :=
  '(_, P) <- map_id chk fuel sha date cid ;;
  sc <- big_frombytes s ;;
  P <- g1mul P sc ;;
  '(bs, _) <- ecp_tobytes P ;;
  ctt <- put ctt 0 bs ;; Some (0, ctt).

(* `if let Some(w)=o {P.tobytes(w,false)}` *)
Definition write_opt (o : option (list Z)) (P : ECP) : option (option (list Z)) :=
  match o with
  | Some w => '(bs, _) <- ecp_tobytes P ;; w <- put w 0 bs ;; Some (Some w)
  | None => Some None
  end.
(* what client_1 returns: result, x, sec, xid, xcid, generator *)
Definition client_out : Type := Z * list Z * list Z * option (list Z) * option (list Z) * option RAND.
(* mpin.rs:474-496: P, T and W on entry; T, xid and xcid, or None where INVALID_POINT is returned *)
Definition client_1_date (chk : bool) (fuel sha : nat) (date : Z) (h : list Z) (sx : BIG) (P T W : ECP) (xid xcid permit : option (list Z))
    : option (option (ECP * option (list Z) * option (list Z))) :=
  if negb (date =? 0) then
    W <- match permit with Some b => ecp_frombytes b | None => Some W end ;;
    i <- ecp_is_infinity W ;;
    if i : bool then Some None else
    T <- ecp_add T W ;;
    '(_, W) <- map_id chk fuel sha date h ;;
    '(P, xid) <- match xid with
                 | Some _ => P <- g1mul P sx ;; xid <- write_opt xid P ;; W <- g1mul W sx ;; P <- ecp_add P W ;; Some (P, xid)
                 | None => P <- ecp_add P W ;; P <- g1mul P sx ;; Some (P, None)
                 end ;;
    xcid <- write_opt xcid P ;;
    Some (Some (T, xid, xcid))
  else
    match xid with
    | Some _ => P <- g1mul P sx ;; xid <- write_opt xid P ;; Some (Some (T, xid, xcid))
    | None => Some (Some (T, None, xcid))
    end.
(* mpin.rs:447-500 client_1 *)
Definition client_1 (chk : bool) (fuel sha : nat) (date : Z) (client_id : list Z) (rng : option RAND) (x : list Z) (pin : Z) (token sec : list Z)
    (xid xcid permit : option (list Z)) : option client_out :=
  '(sx, x, rng) <- secret rng x ;;
  '(h, P) <- map_id chk fuel sha 0 client_id ;;
  T <- ecp_frombytes token ;;
  i <- ecp_is_infinity T ;;
  if i : bool then Some (INVALID_POINT, x, sec, xid, xcid, rng) else
  W <- ecp_pinmul P (Z.rem (as_i32 pin) MAXPIN) PBLEN ;;
  T <- ecp_add T W ;;
  o <- client_1_date chk fuel sha date h sx P T W xid xcid permit ;;
  match o with
  | None => Some (INVALID_POINT, x, sec, xid, xcid, rng)
  | Some (T, xid, xcid) =>
      '(bs, _) <- ecp_tobytes T ;; sec <- put sec 0 bs ;; Some (0, x, sec, xid, xcid, rng)
  end.
(* mpin.rs:504-520 server_1 *)
Definition server_1 (chk : bool) (fuel sha : nat) (date : Z) (cid hid : list Z) (htid : option (list Z)) : option (list Z * option (list Z)) :=
  '(h, P) <- map_id chk fuel sha 0 cid ;;
  '(bs, P) <- ecp_tobytes P ;;
  hid <- put hid 0 bs ;;
  if negb (date =? 0) then
    '(_, R) <- map_id chk fuel sha date h ;;
    P <- ecp_add P R ;;
    htid <- write_opt htid P ;; Some (hid, htid)
  else Some (hid, htid).
(* mpin.rs:524-540 client_2 *)
Definition client_2 (x y sec : list Z) : option (Z * list Z) :=
  P <- ecp_frombytes sec ;;
  i <- ecp_is_infinity P ;;
  if i : bool then Some (INVALID_POINT, sec) else
  px <- big_frombytes x ;;
  py <- big_frombytes y ;;
  px <- big_add px py ;;
  px <- big_rmod px CURVE_ORDER ;;
  P <- g1mul P px ;;
  P <- ecp_neg P ;;
  '(bs, _) <- ecp_tobytes P ;;
  sec <- put sec 0 bs ;; Some (0, sec).
(* mpin.rs:549-562 get_y *)
Definition get_y (chk : bool) (sha : nat) (timevalue : Z) (xcid y : list Z) : option (list Z) :=
  '(_, h) <- mhashit chk sha timevalue xcid (repeat 0 48) ;;
  sy <- big_frombytes h ;;
  sy <- big_rmod sy CURVE_ORDER ;;
  bs <- big_tobytes sy ;; put y 0 bs.

(* mpin.rs:607-626: the two values written when the answer is wrong; None where
   INVALID_POINT is returned, e being written *)
Definition server_2_diag (date : Z) (hid : list Z) (xid : option (list Z)) (e f : option (list Z)) (Q : ECP2) (P : ECP) (sy : BIG) (g : FP12)
    : option (bool * option (list Z) * option (list Z)) :=
  match xid, e, f with
  | Some rxid, Some re, Some rf =>
      bs <- fp12_tobytes g ;; re <- put re 0 bs ;;
      '(inv, P) <- (if negb (date =? 0) then
        P <- ecp_frombytes hid ;; i <- ecp_is_infinity P ;; if i : bool then Some (true, P) else
        R <- ecp_frombytes rxid ;; i <- ecp_is_infinity R ;; if i : bool then Some (true, P) else
        P <- g1mul P sy ;; P <- ecp_add P R ;; P <- ecp_affine P ;; Some (false, P)
      else Some (false, P)) ;;
      if inv : bool then Some (true, Some re, Some rf) else
      m <- ate Q P ;; g <- fexp m ;;
      bs <- fp12_tobytes g ;; rf <- put rf 0 bs ;; Some (false, Some re, Some rf)
  | _, _, _ => Some (false, e, f)
  end.
(* mpin.rs:566-632 server_2: result, e and f *)
Definition server_2 (date : Z) (hid : list Z) (htid : option (list Z)) (y sst : list Z) (xid xcid : option (list Z)) (msec : list Z)
    (e f : option (list Z)) : option (Z * option (list Z) * option (list Z)) :=
  Q <- ecp2_generator ;;
  sQ <- ecp2_frombytes sst ;;
  i <- ecp2_is_infinity sQ ;;
  if i : bool then Some (INVALID_POINT, e, f) else
  match (if negb (date =? 0) then xcid else xid) with
  | None => Some (BAD_PARAMS, e, f)
  | Some u =>
    R <- ecp_frombytes u ;;
    i <- ecp_is_infinity R ;;
    if i : bool then Some (INVALID_POINT, e, f) else
    sy <- big_frombytes y ;;
    match (if negb (date =? 0) then htid else Some hid) with
    | None => Some (BAD_PARAMS, e, f)
    | Some a =>
      P <- ecp_frombytes a ;;
      i <- ecp_is_infinity P ;;
      if i : bool then Some (INVALID_POINT, e, f) else
      P <- g1mul P sy ;;
      P <- ecp_add P R ;; P <- ecp_affine P ;;
      R <- ecp_frombytes msec ;;
      i <- ecp_is_infinity R ;;
      if i : bool then Some (INVALID_POINT, e, f) else
      m <- ate2 Q R sQ P ;;
      g <- fexp m ;;
      u <- fp12_isunity g ;;
      if negb u then
        '(inv, e, f) <- server_2_diag date hid xid e f Q P sy g ;;
        Some ((if inv : bool then INVALID_POINT else BAD_PIN), e, f)
      else Some (0, e, f)
    end
  end.
