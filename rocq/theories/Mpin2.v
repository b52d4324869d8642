(* Model of further functions of amcl/src/bls381/mpin.rs: the encoding of points as pairs of
   random-looking numbers, and of M-Pin Full precompute and hash_all.  The fuel bounds the rounds
   of the loops; conventions as in Mpin.v. *)
From Coq Require Import ZArith List Bool.
From Verif Require Import Prim Rom Big Fp Fp2 Fp4 Fp12 Ecp Ecp2 Utils Pair Rand Glv Ecdh Mpin.
Import ListNotations.
Open Scope Z_scope.

(* ecp.rs:318-322 gets; the affine form is what P is afterwards *)
Definition ecp_gets (P : ECP) : option (Z * ECP) :=
  P <- ecp_affine P ;; '(y, P) <- ecp_gety P ;; Some (big_parity y, P).
(* mpin.rs:164-168: the loop of emap *)
Fixpoint emap_go (fuel : nat) (x : BIG) (cb : Z) : option ECP :=
  match fuel with
  | O => None
  | S f =>
      P <- ecp_new_bigint x cb ;;
      i <- ecp_is_infinity P ;;
      if i : bool then x <- big_inc x 1 ;; x <- big_norm x ;; emap_go f x cb else Some P
  end.
(* mpin.rs:159-170 emap *)
Definition emap (fuel : nat) (u : BIG) (cb : Z) : option ECP :=
  x <- big_rmod u MODULUS ;; emap_go fuel x cb.
(* mpin.rs:180-185: the loop of unmap; u and r *)
Fixpoint unmap_go (fuel : nat) (u : BIG) (s r : Z) : option (BIG * Z) :=
  match fuel with
  | O => None
  | S f =>
      u <- big_dec u 1 ;; u <- big_norm u ;;
      R <- ecp_new_bigint u s ;;
      i <- ecp_is_infinity R ;;
      if i : bool then unmap_go f u s (r + 1) else Some (u, r + 1)
  end.
(* mpin.rs:174-187 unmap *)
Definition unmap (fuel : nat) (P : ECP) : option (BIG * Z) :=
  '(s, P) <- ecp_gets P ;;
  '(x, P) <- ecp_getx P ;;
  unmap_go fuel x s 0.
(* mpin.rs:197-226 encoding: result, e and the generator *)
Definition encoding (fuel : nat) (rng : RAND) (e : list Z) : option (Z * list Z * RAND) :=
  if (length e <? 97)%nat then None else
  u <- big_frombytes (firstn 48 (skipn 1 e)) ;;
  v <- big_frombytes (firstn 48 (skipn 49 e)) ;;
  P <- ecp_new_bigs u v ;;
  i <- ecp_is_infinity P ;;
  if i : bool then Some (INVALID_POINT, e, rng) else
  '(u, rng) <- big_randomnum MODULUS rng ;;
  '(b, rng) <- getbyte rng ;;
  let su := b mod 2 in
  W <- emap fuel u su ;;
  P <- ecp_sub P W ;;
  '(sv, P) <- ecp_gets P ;;
  '(v, rn) <- unmap fuel P ;;
  '(b, rng) <- getbyte rng ;;
  let m := b mod rn in
  v <- big_inc v (m + 1) ;;
  bu <- big_tobytes u ;;
  bv <- big_tobytes v ;;
  Some (0, (su + 2 * sv) :: bu ++ bv ++ skipn 97 e, rng).
(* mpin.rs:229-253 decoding: result and d *)
Definition decoding (fuel : nat) (d : list Z) : option (Z * list Z) :=
  d0 <- getM d 0 ;;
  if negb (Z.land d0 4 =? 0) then Some (INVALID_POINT, d) else
  if (length d <? 97)%nat then None else
  u <- big_frombytes (firstn 48 (skipn 1 d)) ;;
  v <- big_frombytes (firstn 48 (skipn 49 d)) ;;
  let su := Z.land d0 1 in
  let sv := Z.land (Z.shiftr d0 1) 1 in
  W <- emap fuel u su ;;
  P <- emap fuel v sv ;;
  P <- ecp_add P W ;;
  '(u, P) <- ecp_getx P ;;
  '(v, P) <- ecp_gety P ;;
  bu <- big_tobytes u ;;
  bv <- big_tobytes v ;;
  Some (0, 4 :: bu ++ bv ++ skipn 97 d).

(* mpin.rs:413-430 precompute: result, g1 and g2 *)
Definition precompute (fuel : nat) (token cid g1 g2 : list Z) : option (Z * list Z * list Z) :=
  T <- ecp_frombytes token ;;
  i <- ecp_is_infinity T ;;
  if i : bool then Some (INVALID_POINT, g1, g2) else
  P <- ecp_mapit fuel cid ;;
  Q <- ecp2_generator ;;
  m <- ate Q T ;; g <- fexp m ;; bs <- fp12_tobytes g ;; g1 <- put g1 0 bs ;;
  m <- ate Q P ;; g <- fexp m ;; bs <- fp12_tobytes g ;; g2 <- put g2 0 bs ;;
  Some (0, g1, g2).
(* mpin.rs:682-709 hash_all: the flag and h; t has 10*48+4 bytes *)
Definition hash_all (chk : bool) (sha : nat) (hid xid : list Z) (xcid : option (list Z)) (sec y r w h : list Z) : option (bool * list Z) :=
  t <- put (repeat 0 484) 0 hid ;;
  let n := length hid in
  let x := match xcid with Some b => b | None => xid end in
  t <- put t n x ;; let n := (n + length x)%nat in
  t <- put t n sec ;; let n := (n + length sec)%nat in
  t <- put t n y ;; let n := (n + length y)%nat in
  t <- put t n r ;; let n := (n + length r)%nat in
  t <- put t n w ;; let n := (n + length w)%nat in
  if negb (n =? 484)%nat then Some (false, h) else mhashit chk sha 0 t h.
