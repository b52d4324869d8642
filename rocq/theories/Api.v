(* Model of the public types: src/keys.rs, src/signature.rs,
   src/aggregates.rs, src/g1.rs, src/g2.rs.  SecretKey is its BIG, PublicKey and
   AggregatePublicKey are their ECP point, Signature and AggregateSignature
   their ECP2 point (single-field structs).  `clone` is the identity. *)
From Verif Require Import Prim Rom Big Fp Fp2 Fp4 Fp12 Ecp Ecp2 Pair Utils Hash256 Rand.

Definition SecretKey := BIG.
Definition PublicKey := ECP.
Definition Signature := ECP2.
Definition AggregatePublicKey := ECP.
Definition AggregateSignature := ECP2.

(* ---------------------------- keys.rs ------------------------------- *)
(* keys.rs:20-24 random; entropy = the 256 bytes supplied by the caller's RNG *)
Definition sk_random (entropy : list Z) : option SecretKey :=
  r <- get_seeded_rng 256 entropy ;;
  '(x, _) <- big_randomnum CURVE_ORDER r ;;
  Some x.
(* keys.rs:27-34 from_bytes *)
Definition sk_from_bytes (bs : list Z) : option (result SecretKey) :=
  if negb (length bs =? 48)%nat then Some (Err IncorrectSize) else
  x <- big_frombytes bs ;; Some (Ok x).
(* keys.rs:37-42 as_bytes *)
Definition sk_as_bytes (sk : SecretKey) : option (list Z) := big_tobytes sk.
(* keys.rs:55-57 eq *)
Definition list_eqb (a b : list Z) : bool :=
  (length a =? length b)%nat && forallb (fun p => fst p =? snd p) (combine a b).
Definition sk_eq (a b : SecretKey) : option bool :=
  x <- sk_as_bytes a ;; y <- sk_as_bytes b ;; Some (list_eqb x y).

(* keys.rs:71-84 from_secret_key *)
Definition pk_from_secret_key (sk : SecretKey) : option PublicKey :=
  g <- ecp_generator ;; ecp_mul g sk.
(* keys.rs:87-91 new_from_raw *)
Definition pk_new_from_raw (p : ECP) : PublicKey := p.
(* keys.rs:94-97 from_bytes, g1.rs:50-53 *)
Definition pk_from_bytes (bs : list Z) : option (result PublicKey) := decompress_g1 bs.
(* keys.rs:100-103 as_bytes, g1.rs:56-58 *)
Definition pk_as_bytes (p : PublicKey) : option (list Z) :=
  '(b, _) <- compress_g1 p ;; Some b.
(* keys.rs:106-118 as_uncompressed_bytes (self becomes affine) *)
Definition pk_as_uncompressed_bytes (p : PublicKey) : option (list Z * PublicKey) :=
  inf <- ecp_is_infinity p ;;
  if inf : bool then Some (repeat 0 96, p) else
  '(x, p) <- ecp_getx p ;; bx <- big_tobytes x ;;
  '(y, p) <- ecp_gety p ;; by_ <- big_tobytes y ;;
  Some (bx ++ by_, p).
(* keys.rs:121-146 from_uncompressed_bytes *)
Definition pk_from_uncompressed_bytes (bs : list Z) : option (result PublicKey) :=
  if negb (length bs =? 96)%nat then Some (Err IncorrectSize) else
  if forallb (fun b => b =? 0) bs then p <- ecp_new ;; Some (Ok p) else
  x <- big_frombytes (firstn 48 bs) ;;
  y <- big_frombytes (skipn 48 bs) ;;
  p <- ecp_new_bigs x y ;;
  inf <- ecp_is_infinity p ;;
  if inf : bool then Some (Err BadPoint) else Some (Ok p).
(* g1.rs:79-84 eq (derived on PublicKey, AggregatePublicKey) *)
Definition pk_eq (a b : PublicKey) : option bool := ecp_equals a b.
(* keys.rs:159-163 Keypair::random *)
Definition keypair_random (entropy : list Z) : option (SecretKey * PublicKey) :=
  sk <- sk_random entropy ;; pk <- pk_from_secret_key sk ;; Some (sk, pk).

(* -------------------------- signature.rs ---------------------------- *)
Section WithHash.
(* Keccak-256, amcl_utils.rs:163-169 *)
Variable hash : list Z -> list Z.

(* signature.rs:16-23 new *)
Definition sig_new (msg : list Z) (d : Z) (sk : SecretKey) : option Signature :=
  h <- hash_on_g2 hash msg d ;; s <- ecp2_mul h sk ;; ecp2_affine s.
(* signature.rs:27-34 new_hashed *)
Definition sig_new_hashed (re im : list Z) (sk : SecretKey) : option Signature :=
  h <- map_to_g2 re im ;; s <- ecp2_mul h sk ;; ecp2_affine s.
(* the comparison of pairings shared by the verify functions *)
Definition pairing_check (sig hp : ECP2) (pk : ECP) : option bool :=
  g <- ecp_generator ;;
  lhs <- ate_pairing sig g ;;
  rhs <- ate_pairing hp pk ;;
  fp12_equals lhs rhs.
(* signature.rs:40-55 verify *)
Definition sig_verify (s : Signature) (msg : list Z) (d : Z) (pk : PublicKey) : option bool :=
  h <- hash_on_g2 hash msg d ;; h <- ecp2_affine h ;; pairing_check s h pk.
(* signature.rs:63-83 verify_hashed *)
Definition sig_verify_hashed (s : Signature) (re im : list Z) (pk : PublicKey) : option bool :=
  h <- map_to_g2 re im ;; h <- ecp2_affine h ;; pairing_check s h pk.
(* signature.rs:86-89 from_bytes, g2.rs:42-45 *)
Definition sig_from_bytes (bs : list Z) : option (result Signature) := decompress_g2 bs.
(* signature.rs:92-95 as_bytes, g2.rs:48-50 *)
Definition sig_as_bytes (s : Signature) : option (list Z) :=
  '(b, _) <- compress_g2 s ;; Some b.
(* g2.rs:71-76 eq *)
Definition sig_eq (a b : Signature) : option bool := ecp2_equals a b.

(* -------------------------- aggregates.rs --------------------------- *)
(* aggregates.rs:23-28 AggregatePublicKey::new *)
Definition apk_new : option AggregatePublicKey := ecp_inf.
(* aggregates.rs:42-45 add *)
Definition apk_add (a : AggregatePublicKey) (p : PublicKey) : option AggregatePublicKey :=
  s <- ecp_add a p ;; ecp_affine s.
(* aggregates.rs:33-39 from_public_keys *)
Definition apk_from_public_keys (ks : list PublicKey) : option AggregatePublicKey :=
  a <- apk_new ;; foldM apk_add ks a.
(* aggregates.rs:48-51 add_aggregate *)
Definition apk_add_aggregate (a b : AggregatePublicKey) : option AggregatePublicKey :=
  s <- ecp_add a b ;; ecp_affine s.
(* aggregates.rs:54-57 from_bytes, 60-63 as_bytes *)
Definition apk_from_bytes (bs : list Z) : option (result AggregatePublicKey) := decompress_g1 bs.
Definition apk_as_bytes (p : AggregatePublicKey) : option (list Z) :=
  '(b, _) <- compress_g1 p ;; Some b.

(* aggregates.rs:85-89 AggregateSignature::new *)
Definition asig_new : option AggregateSignature := ecp2_inf.
(* aggregates.rs:92-95 add *)
Definition asig_add (a : AggregateSignature) (s : Signature) : option AggregateSignature :=
  r <- ecp2_add a s ;; ecp2_affine r.
(* aggregates.rs:98-101 add_aggregate *)
Definition asig_add_aggregate (a b : AggregateSignature) : option AggregateSignature :=
  r <- ecp2_add a b ;; ecp2_affine r.
(* aggregates.rs:107-126 verify *)
Definition asig_verify (s : AggregateSignature) (msg : list Z) (d : Z)
  (avk : AggregatePublicKey) : option bool :=
  sp <- ecp2_affine s ;;
  kp <- ecp_affine avk ;;
  h <- hash_on_g2 hash msg d ;; h <- ecp2_affine h ;;
  pairing_check sp h kp.
(* aggregates.rs:132-167 verify_multiple; lines 143-154 are the loop.  acc is
   None before the first round (FP12::new() is overwritten when i = 0). *)
Definition vm_step (d : Z) (msg : list Z) (acc : option FP12) (ik : nat * AggregatePublicKey)
  : option (option FP12) :=
  let '(i, key) := ik in
  kp <- ecp_affine key ;;
  h <- hash_on_g2 hash (firstn 32 (skipn (32 * i) msg)) d ;;
  h <- ecp2_affine h ;;
  pr <- ate_pairing h kp ;;
  match acc with
  | None => Some (Some pr)
  | Some l => l' <- fp12_mul l pr ;; Some (Some l')
  end.
Definition asig_verify_multiple (s : AggregateSignature) (msg : list Z) (d : Z)
  (avks : list AggregatePublicKey) : option bool :=
  sp <- ecp2_affine s ;;
  if negb (length msg =? 32 * length avks)%nat || (length avks =? 0)%nat then Some false else
  acc <- foldM (vm_step d msg) (combine (seq 0 (length avks)) avks) None ;;
  let lhs := match acc with None => fp12_new | Some l => l end in
  g <- ecp_generator ;;
  rhs <- ate_pairing sp g ;;
  fp12_equals lhs rhs.
(* aggregates.rs:170-173 from_bytes, 176-179 as_bytes *)
Definition asig_from_bytes (bs : list Z) : option (result AggregateSignature) := decompress_g2 bs.
Definition asig_as_bytes (s : AggregateSignature) : option (list Z) :=
  '(b, _) <- compress_g2 s ;; Some b.
End WithHash.
