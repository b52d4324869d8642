(* Model of amcl/src/rand.rs, src/rng.rs and BIG::random / randomnum. *)
From Verif Require Import Prim Rom Big Hash256.

(* rand.rs:28-34 *)
Record RAND := mkRAND { ira : list Z; rndptr : nat; borrow : Z; pool_ptr : nat; pool : list Z }.

(* rand.rs:38-46 new, 48-53 clean *)
Definition rand_new : RAND := mkRAND (repeat 0 21) 0 0 0 (repeat 0 32).

(* rand.rs:55-70 sbrand; lines 60-68 are the loop body *)
Definition sb_step (st : list Z * Z * nat) (i : nat) : option (list Z * Z * nat) :=
  let '(ira, borrow, k) := st in
  let k := if (k =? 21)%nat then 0%nat else k in
  t <- getM ira k ;;
  x <- getM ira i ;;
  let pdiff := wsub (wsub t x) borrow in
  let borrow := if pdiff <? t then 0 else borrow in
  let borrow := if t <? pdiff then 1 else borrow in
  ira' <- setM ira i pdiff ;;
  Some (ira', borrow, S k).
Definition sbrand (r : RAND) : option (Z * RAND) :=
  let p := S (rndptr r) in
  if (p <? 21)%nat then x <- getM (ira r) p ;; Some (x, mkRAND (ira r) p (borrow r) (pool_ptr r) (pool r))
  else
    '(ira', b, _) <- foldM sb_step (seq 0 21) (ira r, borrow r, 15%nat) ;;
    x <- getM ira' 0 ;;
    Some (x, mkRAND ira' 0 b (pool_ptr r) (pool r)).

(* rand.rs:72-86 sirand *)
Definition si_step (st : list Z * Z * Z) (i : nat) : option (list Z * Z * Z) :=
  let '(ira, m, sd) := st in
  let inn := ((8 * i) mod 21)%nat in
  x <- getM ira inn ;;
  ira' <- setM ira inn (Z.lxor x m) ;;
  Some (ira', wsub sd m, m).
Definition sirand (r : RAND) (seed : Z) : option RAND :=
  x <- getM (ira r) 0 ;;
  ira0 <- setM (ira r) 0 (Z.lxor x seed) ;;
  '(ira1, _, _) <- foldM si_step (seq 1 20) (ira0, 1, seed) ;;
  N.iter 10000 (fun m => r <- m ;; '(_, r) <- sbrand r ;; Some r)
         (Some (mkRAND ira1 0 0 (pool_ptr r) (pool r))).

(* rand.rs:88-94 fill_pool *)
Definition fill_step (st : HASH256 * RAND) (_ : nat) : option (HASH256 * RAND) :=
  let '(sh, r) := st in
  '(v, r) <- sbrand r ;;
  sh <- h_process true sh (Z.land v 255) ;; Some (sh, r).
Definition fill_pool (r : RAND) : option RAND :=
  '(sh, r) <- foldM fill_step (seq 0 128) (h_new, r) ;;
  '(w, _) <- h_hash true sh ;;
  Some (mkRAND (ira r) (rndptr r) (borrow r) 0 w).

(* rand.rs:96-98 pack *)
Definition rand_pack (b0 b1 b2 b3 : Z) : Z :=
  Z.lor (Z.lor (Z.lor (Z.shiftl (Z.land b3 255) 24) (Z.shiftl (Z.land b2 255) 16))
               (Z.shiftl (Z.land b1 255) 8)) (Z.land b0 255).

(* rand.rs:101-121 seed; rawlen bytes are read from raw *)
Definition rand_seed (r : RAND) (rawlen : nat) (raw : list Z) : option RAND :=
  let r := mkRAND (repeat 0 21) (rndptr r) (borrow r) 0 (pool r) in
  r <- (if (0 <? rawlen)%nat then
          if (length raw <? rawlen)%nat then None else
          sh <- h_process_array true h_new (firstn rawlen raw) ;;
          '(dg, _) <- h_hash true sh ;;
          foldM (fun r i => sirand r (rand_pack (limb dg (4*i)) (limb dg (4*i+1))
                                                (limb dg (4*i+2)) (limb dg (4*i+3))))
                (seq 0 8) r
        else Some r) ;;
  fill_pool r.

(* rand.rs:124-129 getbyte *)
Definition getbyte (r : RAND) : option (Z * RAND) :=
  v <- getM (pool r) (pool_ptr r) ;;
  let r := mkRAND (ira r) (rndptr r) (borrow r) (S (pool_ptr r)) (pool r) in
  r <- (if (32 <=? pool_ptr r)%nat then fill_pool r else Some r) ;;
  Some (Z.land v 255, r).

(* n calls of getbyte, rand.rs:124-129; not in the source, used to speak of a stream *)
Fixpoint getbytes (n : nat) (r : RAND) : option (list Z * RAND) :=
  match n with
  | O => Some ([], r)
  | S m => '(b, r) <- getbyte r ;; '(l, r) <- getbytes m r ;; Some (b :: l, r)
  end.

(* src/rng.rs:8-18 get_seeded_rng; `entropy` is what rng.fill_bytes wrote *)
Definition get_seeded_rng (entropy_size : nat) (entropy : list Z) : option RAND :=
  rand_seed rand_new entropy_size entropy.

(* big.rs:655-671 randomnum; one round: state (d, j, r, rng) *)
Definition randnum_step (st : DBIG * Z * Z * RAND) (_ : nat) : option (DBIG * Z * Z * RAND) :=
  let '(d, j, r, rng) := st in
  '(r, rng) <- (if j =? 0 then getbyte rng else Some (Z.shiftr r 1, rng)) ;;
  let b := Z.land r 1 in
  d <- dbig_shl d 1 ;;
  match d with
  | w0 :: tl => w <- ck64 (w0 + b) ;; Some (w :: tl, Z.land (j + 1) 7, r, rng)
  | [] => None
  end.
Definition big_randomnum (q : BIG) (rng : RAND) : option (BIG * RAND) :=
  bits <- big_nbits q ;;
  '(d, _, _, rng) <- foldM randnum_step (seq 0 (Z.to_nat (2 * bits))) (dbig_new, 0, 0, rng) ;;
  m <- dbig_dmod d q ;;
  Some (m, rng).

(* big.rs:637-652 random *)
Definition random_step (st : BIG * Z * Z * RAND) (_ : nat) : option (BIG * Z * Z * RAND) :=
  let '(m, j, r, rng) := st in
  '(r, rng) <- (if j =? 0 then getbyte rng else Some (Z.shiftr r 1, rng)) ;;
  let b := Z.land r 1 in
  m <- big_shl m 1 ;;
  match m with
  | w0 :: tl => w <- ck64 (w0 + b) ;; Some (w :: tl, Z.land (j + 1) 7, r, rng)
  | [] => None
  end.
Definition big_random (rng : RAND) : option (BIG * RAND) :=
  '(m, _, _, rng) <- foldM random_step (seq 0 384) (big_new, 0, 0, rng) ;;
  Some (m, rng).
