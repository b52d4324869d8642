(* Model of amcl/src/bls381/ecdh.rs without the AES part: hashing, key derivation,
   HMAC, key pairs, Diffie-Hellman and ECDSA.  `chk` says whether the hash functions
   are built with overflow checks.  A slice written by a function is passed in and
   its new content returned. *)
From Verif Require Import Prim Rom Big BigX Fp Ecp Utils Hash256 Hash512 Rand Glv.

(* ecdh.rs:34-43 *)
Definition INVALID_PUBLIC_KEY : Z := -2.
Definition ERROR : Z := -3.
Definition INVALID : Z := -4.
Definition EFS : nat := 48.

(* the loop `for i in 0..l.len() {w[off+i]=l[i]}`, which panics when w is too short *)
Definition put (w : list Z) (off : nat) (l : list Z) : option (list Z) :=
  if (off + length l <=? length w)%nat then Some (firstn off w ++ l ++ skipn (off + length l) w) else None.

(* ecdh.rs:49-57 inttobytes; i runs down from the length of b *)
Fixpoint itb_go (i : nat) (m : Z) (b : list Z) : list Z :=
  match i with
  | O => b
  | S i' => if 0 <? m then itb_go i' (m / 256) (upd b i' (Z.land m 255)) else b
  end.
Definition inttobytes (n : Z) (b : list Z) : list Z := itb_go (length b) n b.

(* `n as i32` for n: usize *)
Definition as_i32 (n : Z) : Z := (n + 2147483648) mod 4294967296 - 2147483648.
(* ecdh.rs:61-70, SHA-256: the digest *)
Definition run256 (chk : bool) (a : list Z) (n : Z) (b : option (list Z)) : option (list Z) :=
  h <- h_process_array chk h_new a ;;
  h <- (if 0 <? n then h_process_num chk h (as_i32 n) else Some h) ;;
  h <- match b with Some x => h_process_array chk h x | None => Some h end ;;
  '(hs, _) <- h_hash chk h ;; Some hs.
(* ecdh.rs:71-80, SHA-384, and 81-90, SHA-512 *)
Definition run512 (st chk : bool) (h0 : list Z) (len : nat) (a : list Z) (n : Z) (b : option (list Z)) : option (list Z) :=
  h <- q_process_array st chk (q_new h0) a ;;
  h <- (if 0 <? n then q_process_num st chk h (as_i32 n) else Some h) ;;
  h <- match b with Some x => q_process_array st chk h x | None => Some h end ;;
  '(hs, _) <- q_hash st chk h0 len h ;; Some hs.
(* ecdh.rs:59-91: the array r of 64 bytes *)
Definition hash_r (chk : bool) (sha : nat) (a : list Z) (n : Z) (b : option (list Z)) : option (list Z) :=
  hs <- (if (sha =? 32)%nat then run256 chk a n b
         else if (sha =? 48)%nat then run512 chk chk HASH384_H 48 a n b
         else if (sha =? 64)%nat then run512 false chk HASH512_H 64 a n b
         else Some []) ;;
  put (repeat 0 64) 0 hs.
(* ecdh.rs:59-107 hashit *)
Definition hashit (chk : bool) (sha : nat) (a : list Z) (n : Z) (b : option (list Z)) (pad : nat) (w : list Z) : option (list Z) :=
  r <- hash_r chk sha a n b ;;
  if (64 <? sha)%nat then None else
  if (pad =? 0)%nat then put w 0 (firstn sha r)
  else if (pad <=? sha)%nat then put w 0 (firstn pad r)
  else w <- put w (pad - sha) (firstn sha r) ;; put w 0 (repeat 0 (pad - sha)).

(* ecdh.rs:119-127 and 137-145: one round of kdf1 and of kdf2; lk bytes of k are written *)
Definition kdf_step (chk : bool) (sha : nat) (z : list Z) (p : option (list Z)) (olen : nat) (st : list Z * nat) (counter : nat) : option (list Z * nat) :=
  let '(k, lk) := st in
  b <- hashit chk sha z (Z.of_nat counter) p 0 (repeat 0 64) ;;
  if (olen <? lk + sha)%nat then k <- put k lk (firstn (olen mod sha) b) ;; Some (k, (lk + olen mod sha)%nat)
  else k <- put k lk (firstn sha b) ;; Some (k, (lk + sha)%nat).
(* ecdh.rs:117, 135 cthreshold; a division by zero panics *)
Definition kdf_rounds (sha olen : nat) : option nat :=
  if (sha =? 0)%nat then None else Some (olen / sha + (if (olen mod sha =? 0)%nat then 0 else 1))%nat.
(* ecdh.rs:112-128 kdf1 *)
Definition kdf1 (chk : bool) (sha : nat) (z : list Z) (olen : nat) (k : list Z) : option (list Z) :=
  ct <- kdf_rounds sha olen ;;
  '(k, _) <- foldM (kdf_step chk sha z None olen) (seq 0 ct) (k, 0%nat) ;; Some k.
(* ecdh.rs:130-146 kdf2 *)
Definition kdf2 (chk : bool) (sha : nat) (z : list Z) (p : option (list Z)) (olen : nat) (k : list Z) : option (list Z) :=
  ct <- kdf_rounds sha olen ;;
  '(k, _) <- foldM (kdf_step chk sha z p olen) (seq 1 ct) (k, 0%nat) ;; Some k.

(* ecdh.rs:191-198: the key, hashed if it is longer than a block, in the array k0 *)
Definition hmac_k0 (chk : bool) (sha lb : nat) (k : list Z) : option (list Z) :=
  if (lb <? length k)%nat then
    b <- hashit chk sha k 0 None 0 (repeat 0 64) ;;
    put (repeat 0 128) 0 (firstn sha b)
  else put (repeat 0 128) 0 k.
(* ecdh.rs:178-207 hmac: the returned flag and the tag.  b is reused and only its
   first sha bytes are read. *)
Definition hmac (chk : bool) (sha : nat) (m k : list Z) (olen : nat) (tag : list Z) : option (bool * list Z) :=
  if (olen <? 4)%nat then Some (false, tag) else
  let lb := if (32 <? sha)%nat then 128%nat else 64%nat in
  k0 <- hmac_k0 chk sha lb k ;;
  let ki := map (fun x => Z.lxor x 54) (firstn lb k0) in
  b <- hashit chk sha ki 0 (Some m) 0 (repeat 0 64) ;;
  let ko := map (fun x => Z.lxor x 106) ki in
  tag <- hashit chk sha ko 0 (Some (firstn sha b)) olen tag ;;
  Some (true, tag).

(* ecdh.rs:169-172: one repetition; state (f, u, ku) *)
Definition pbk_rep (chk : bool) (sha : nat) (pass : list Z) (st : list Z * list Z * list Z) (_ : nat) : option (list Z * list Z * list Z) :=
  let '(f, u, ku) := st in
  '(_, ku) <- hmac chk sha u pass sha ku ;;
  u <- put u 0 (firstn sha ku) ;;
  f <- put f 0 (map2 Z.lxor (firstn sha f) (firstn sha u)) ;;
  Some (f, u, ku).
(* ecdh.rs:161-174: one block; state (k, kp, f, u, ku, s, n) *)
Definition pbk_block (chk : bool) (sha : nat) (pass salt : list Z) (rep olen : nat)
    (st : list Z * nat * list Z * list Z * list Z * list Z * list Z) (i : nat) : option (list Z * nat * list Z * list Z * list Z * list Z * list Z) :=
  let '(k, kp, f, u, ku, s, n) := st in
  s <- put s 0 salt ;;
  let n := inttobytes (Z.of_nat i + 1) n in
  s <- put s (length salt) n ;;
  '(_, f) <- hmac chk sha (firstn (length salt + 4) s) pass sha f ;;
  u <- put u 0 (firstn sha f) ;;
  '(f, u, ku) <- foldM (pbk_rep chk sha pass) (seq 1 (rep - 1)) (f, u, ku) ;;
  k <- (if (olen <=? kp)%nat then Some k else put k kp (firstn (olen - kp) (firstn EFS f))) ;;
  Some (k, (kp + EFS)%nat, f, u, ku, s, n).
(* ecdh.rs:151-175 pbkdf2; s has room for a salt of 32 bytes *)
Definition pbkdf2 (chk : bool) (sha : nat) (pass salt : list Z) (rep olen : nat) (k : list Z) : option (list Z) :=
  d <- kdf_rounds sha olen ;;
  '(k, _, _, _, _, _, _) <- foldM (pbk_block chk sha pass salt rep olen) (seq 0 d)
     (k, 0%nat, repeat 0 64, repeat 0 64, repeat 0 64, repeat 0 36, repeat 0 4) ;;
  Some k.

(* ecdh.rs:315-339 key_pair_generate: result, secret, public key, generator *)
Definition key_pair_generate (rng : option RAND) (s w : list Z) : option (Z * list Z * list Z * option RAND) :=
  G <- ecp_generator ;;
  '(sc, rng') <- match rng with
                 | Some x => '(sc, x) <- big_randomnum CURVE_ORDER x ;; Some (sc, Some x)
                 | None => sc <- big_frombytes s ;; sc <- big_rmod sc CURVE_ORDER ;; Some (sc, None)
                 end ;;
  bs <- big_tobytes sc ;; s <- put s 0 bs ;;
  WP <- ecp_mul G sc ;;
  '(bw, _) <- ecp_tobytes WP ;; w <- put w 0 bw ;;
  Some (0, s, w, rng').

(* ecdh.rs:358-361: halving k and doubling WP; k = 0 would loop for ever *)
Fixpoint val_halve (fuel : nat) (k : BIG) (WP : ECP) : option (BIG * ECP) :=
  match fuel with
  | O => None
  | S f => if big_parity k =? 0 then k <- big_shr k 1 ;; WP <- ecp_dbl WP ;; val_halve f k WP else Some (k, WP)
  end.
(* ecdh.rs:343-368 public_key_validate *)
Definition public_key_validate (w : list Z) : option Z :=
  WP <- ecp_frombytes w ;;
  inf <- ecp_is_infinity WP ;;
  if inf : bool then Some INVALID_PUBLIC_KEY else
  nb <- big_nbits MODULUS ;;
  k <- big_shl big_one ((nb + 4) / 2) ;;
  k <- big_add k MODULUS ;;
  k <- big_div k CURVE_ORDER ;;
  '(k, WP) <- val_halve 1000 k WP ;;
  WP <- (if negb (big_isunity k) then ecp_mul WP k else Some WP) ;;
  inf <- ecp_is_infinity WP ;;
  Some (if inf : bool then INVALID_PUBLIC_KEY else 0).

(* ecdh.rs:372-393 ecpsvdp_dh: result and z *)
Definition ecpsvdp_dh (s wd z : list Z) : option (Z * list Z) :=
  sc <- big_frombytes s ;;
  W <- ecp_frombytes wd ;;
  inf <- ecp_is_infinity W ;;
  if inf : bool then Some (ERROR, z) else
  sc <- big_rmod sc CURVE_ORDER ;;
  W <- ecp_mul W sc ;;
  inf <- ecp_is_infinity W ;;
  if inf : bool then Some (ERROR, z) else
  '(x, _) <- ecp_getx W ;; t <- big_tobytes x ;;
  z <- put z 0 t ;; Some (0, z).

(* ecdh.rs:416-441: the loop; returns cb, db and the generator *)
Fixpoint dsa_loop (fuel : nat) (G : ECP) (sc fb : BIG) (rng : RAND) : option (BIG * BIG * RAND) :=
  match fuel with
  | O => None
  | S f =>
      '(u, rng) <- big_randomnum CURVE_ORDER rng ;;
      '(w, rng) <- big_randomnum CURVE_ORDER rng ;;
      V <- ecp_mul G u ;;
      '(vx, _) <- ecp_getx V ;;
      cb <- big_rmod vx CURVE_ORDER ;;
      if big_iszilch cb then dsa_loop f G sc fb rng else
      u <- big_modmul u w CURVE_ORDER ;;
      u <- big_invmodp u CURVE_ORDER ;;
      db <- big_modmul sc cb CURVE_ORDER ;;
      db <- big_add db fb ;;
      db <- big_modmul db w CURVE_ORDER ;;
      db <- big_modmul u db CURVE_ORDER ;;
      if big_iszilch db then dsa_loop f G sc fb rng else Some (cb, db, rng)
  end.
(* ecdh.rs:397-448 ecpsp_dsa: result, c, d and the generator; fuel rounds of the loop *)
Definition ecpsp_dsa (chk : bool) (fuel sha : nat) (rng : RAND) (s f c d : list Z) : option (Z * list Z * list Z * RAND) :=
  b <- hashit chk sha f 0 None 48 (repeat 0 48) ;;
  G <- ecp_generator ;;
  sc <- big_frombytes s ;;
  fb <- big_frombytes b ;;
  '(cb, db, rng) <- dsa_loop fuel G sc fb rng ;;
  t <- big_tobytes cb ;; c <- put c 0 t ;;
  t <- big_tobytes db ;; d <- put d 0 t ;;
  Some (0, c, d, rng).

(* ecdh.rs:452-499 ecpvp_dsa *)
Definition ecpvp_dsa (chk : bool) (sha : nat) (w f c d : list Z) : option Z :=
  b <- hashit chk sha f 0 None 48 (repeat 0 48) ;;
  G <- ecp_generator ;;
  cb <- big_frombytes c ;;
  db <- big_frombytes d ;;
  fb <- big_frombytes b ;;
  if big_iszilch cb || (0 <=? big_comp cb CURVE_ORDER) || big_iszilch db || (0 <=? big_comp db CURVE_ORDER)
  then Some INVALID else
  db <- big_invmodp db CURVE_ORDER ;;
  fb <- big_modmul fb db CURVE_ORDER ;;
  h2 <- big_modmul cb db CURVE_ORDER ;;
  WP <- ecp_frombytes w ;;
  inf <- ecp_is_infinity WP ;;
  if inf : bool then Some ERROR else
  P <- ecp_mul2 WP h2 G fb ;;
  inf <- ecp_is_infinity P ;;
  if inf : bool then Some INVALID else
  '(x, _) <- ecp_getx P ;;
  db <- big_rmod x CURVE_ORDER ;;
  Some (if big_comp db cb =? 0 then 0 else INVALID).
