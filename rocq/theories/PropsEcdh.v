(* Property theorems about key pairs, Diffie-Hellman, key validation and ECDSA of
   ecdh.rs.  gives r f: the generator r will return the bytes f 0, f 1, ... (every
   generator that was seeded with a non-empty seed gives some f, see C53).  good o: no
   generator, or one that gives some stream.  noov: see PropsMac.  None is a panic or a
   loop that does not end. *)
From Coq Require Import ZArith List.
From Verif Require Import Prim SpecBytes SpecRand SpecMac SpecCurve NumT FieldQ EcpP GenP G1Ord SpecEcdh Rand RandP Ecdh EcdhH EcdhP EcdhQ EcdhS.
Import ListNotations.
Open Scope Z_scope.

(* the secret given in s is reduced modulo r and replaced *)
Theorem C96_key_pair : forall s w, bytes s -> (48 <= length s)%nat -> (97 <= length w)%nat ->
  let d := be_int (firstn 48 s) mod r255 in
  key_pair_generate None s w = Some (0, be_bytes 48 d ++ skipn 48 s, enc_pt (nmul1 (Z.to_nat d) G1gen) ++ skipn 97 w, None).
Proof. exact keypair_none. Qed.
Print Assumptions C96_key_pair.

(* a random secret: 510 bits of the stream modulo r *)
Theorem C96_key_pair_random : forall r f s w, gives r f -> (48 <= length s)%nat -> (97 <= length w)%nat ->
  let d := stream_num f 510 mod r255 in
  exists r', key_pair_generate (Some r) s w = Some (0, be_bytes 48 d ++ skipn 48 s, enc_pt (nmul1 (Z.to_nat d) G1gen) ++ skipn 97 w, Some r') /\
    gives r' (fun k => f (64 + k)%nat).
Proof. exact keypair_rng. Qed.
Print Assumptions C96_key_pair_random.

(* the shared secret for any secret and any encoding of a point *)
Theorem C96_shared_secret : forall s wd z p, bytes s -> (48 <= length s)%nat -> bytes wd -> long_enough wd -> (48 <= length z)%nat -> decodes wd p ->
  match nmul1 (Z.to_nat (be_int (firstn 48 s) mod r255)) p with
  | Inf => ecpsvdp_dh s wd z = Some (-3, z)
  | Aff x y => exists v, ecpsvdp_dh s wd z = Some (0, be_bytes 48 v ++ skipn 48 z) /\ v mod q381 = fv x /\ (x <> f0 -> v = fv x)
  end.
Proof. exact dh_all. Qed.
Print Assumptions C96_shared_secret.

(* both sides get the same secret *)
Theorem C96_agreement : forall o1 o2 s1 s2 w1 w2 k1 k2 p1 p2 r1 r2 z, good o1 -> good o2 -> bytes s1 -> bytes s2 -> bytes w1 -> bytes w2 ->
  (48 <= length s1)%nat -> (48 <= length s2)%nat -> (97 <= length w1)%nat -> (97 <= length w2)%nat -> (48 <= length z)%nat ->
  key_pair_generate o1 s1 w1 = Some (0, k1, p1, r1) -> key_pair_generate o2 s2 w2 = Some (0, k2, p2, r2) ->
  be_int (firstn 48 k1) <> 0 -> be_int (firstn 48 k2) <> 0 ->
  exists x y, nmul1 (Z.to_nat (be_int (firstn 48 k1) * be_int (firstn 48 k2))) G1gen = Aff x y /\
    ecpsvdp_dh k1 p2 z = Some (0, be_bytes 48 (fv x) ++ skipn 48 z) /\ ecpsvdp_dh k2 p1 z = Some (0, be_bytes 48 (fv x) ++ skipn 48 z).
Proof. exact dh_agree. Qed.
Print Assumptions C96_agreement.

(* what public_key_validate accepts *)
Theorem C97_validate : forall w p, bytes w -> long_enough w -> decodes w p ->
  (p <> Inf -> nmul1 (Z.to_nat h1c) p <> Inf -> public_key_validate w = Some 0) /\
  (p = Inf \/ nmul1 (Z.to_nat h1c) p = Inf -> public_key_validate w = Some (-2)).
Proof. exact validate_all. Qed.
Print Assumptions C97_validate.

(* the nonzero elements of the group of order r are accepted *)
Theorem C97_validate_group : forall w p, bytes w -> long_enough w -> decodes w p -> p <> Inf -> nmul1 (Z.to_nat r255) p = Inf -> public_key_validate w = Some 0.
Proof. exact validate_group. Qed.
Print Assumptions C97_validate_group.

(* but not only they *)
Theorem C97_validate_refuted : exists w p, bytes w /\ long_enough w /\ decodes w p /\ public_key_validate w = Some 0 /\ nmul1 (Z.to_nat r255) p <> Inf.
Proof. exact validate_refuted. Qed.
Print Assumptions C97_validate_refuted.

(* signing: the first round that succeeds *)
Theorem C98_sign : forall chk n sha r f s m c d j, is_sha sha -> bytes m -> noov chk sha (length m) -> gives r f -> bytes s -> (48 <= length s)%nat -> (48 <= length c)%nat -> (48 <= length d)%nat ->
  let e := msg_int sha m in let k := be_int (firstn 48 s) in
  (forall i, (i < j)%nat -> dsa_retry e k f i) -> dsa_succeeds e k f j -> (j < n)%nat ->
  exists v r', ecpsp_dsa chk n sha r s m c d = Some (0, be_bytes 48 (dsa_c (draw f (2 * j))) ++ skipn 48 c, be_bytes 48 v ++ skipn 48 d, r') /\
    dsa_d e k (draw f (2 * j)) v /\ gives r' (fun i => f (128 * S j + i)%nat).
Proof. exact sign_ok. Qed.
Print Assumptions C98_sign.

(* whenever signing ends, a round succeeded and those before it failed *)
Theorem C98_sign_converse : forall chk n sha r f s m c d x, is_sha sha -> bytes m -> noov chk sha (length m) -> gives r f -> bytes s -> (48 <= length s)%nat ->
  let e := msg_int sha m in let k := be_int (firstn 48 s) in
  ecpsp_dsa chk n sha r s m c d = Some x -> exists j, (j < n)%nat /\ (forall i, (i < j)%nat -> dsa_retry e k f i) /\ dsa_succeeds e k f j.
Proof. exact sign_inv. Qed.
Print Assumptions C98_sign_converse.

(* C98 *)
Theorem C98_signatures_verify : forall chk n sha r f s m c d x c' d' r' w, is_sha sha -> bytes m -> noov chk sha (length m) -> gives r f -> bytes s -> (48 <= length s)%nat ->
  bytes c -> bytes d -> (48 <= length c)%nat -> (48 <= length d)%nat -> be_int (firstn 48 s) mod r255 <> 0 ->
  ecpsp_dsa chk n sha r s m c d = Some (x, c', d', r') ->
  bytes w -> long_enough w -> decodes w (nmul1 (Z.to_nat (be_int (firstn 48 s))) G1gen) -> ecpvp_dsa chk sha w m c' d' = Some 0.
Proof. exact sign_verify. Qed.
Print Assumptions C98_signatures_verify.

(* C99 *)
Theorem C99_verify : forall chk sha w m c d W, is_sha sha -> bytes m -> noov chk sha (length m) -> bytes w -> long_enough w -> bytes c -> bytes d -> (48 <= length c)%nat -> (48 <= length d)%nat ->
  decodes w W -> W <> Inf -> nmul1 (Z.to_nat r255) W = Inf ->
  let valid := dsa_valid (msg_int sha m) (be_int (firstn 48 c)) (be_int (firstn 48 d)) W in
  (valid /\ ecpvp_dsa chk sha w m c d = Some 0) \/ (~ valid /\ ecpvp_dsa chk sha w m c d = Some (-4)).
Proof. exact verify_all. Qed.
Print Assumptions C99_verify.

(* a string that encodes no point of the curve is refused *)
Theorem C99_verify_no_key : forall chk sha w m c d, is_sha sha -> bytes m -> noov chk sha (length m) -> bytes w -> long_enough w -> bytes c -> bytes d -> (48 <= length c)%nat -> (48 <= length d)%nat ->
  decodes w Inf -> 1 <= be_int (firstn 48 c) < r255 -> 1 <= be_int (firstn 48 d) < r255 -> ecpvp_dsa chk sha w m c d = Some (-3).
Proof. exact verify_inf. Qed.
Print Assumptions C99_verify_no_key.

(* the integer of the message is not that of FIPS 186 *)
Theorem C100_fips_refuted : exists w m c d W, bytes w /\ long_enough w /\ bytes m /\ bytes c /\ bytes d /\ length c = 48%nat /\ length d = 48%nat /\
  decodes w W /\ W <> Inf /\ nmul1 (Z.to_nat r255) W = Inf /\
  ecpvp_dsa true 32 w m c d = Some 0 /\ ~ dsa_valid (fips_int 32 m) (be_int c) (be_int d) W.
Proof. exact fips_refuted. Qed.
Print Assumptions C100_fips_refuted.
