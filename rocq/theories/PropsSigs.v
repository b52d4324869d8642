(* Property theorems about signatures. ecp2_pt (Denote) is the affine twist point
   an ECP2 stands for, adm2 the admissible representations (every signature the
   interface produces is one: signatures_admissible), padd2/psum2/nmul2 the group
   law of SpecCurve, fv the residue of a field element in [0, q). hash stands for
   Keccak-256: the theorems hold for every function with 32-byte results. *)
From Coq Require Import ZArith List Permutation.
From Verif Require Import Prim Big Fp Fp2 Ecp2 Utils Api SpecBytes NumT FieldQ FieldQ2 SpecCurve Denote BigP2 CurveP GroupP Ecp2P KeysP KeysP3 LayerP MapP SigsP SigsP2.
Import ListNotations.
Open Scope Z_scope.

(* every signature the interface can produce, from a hash, from bytes or by aggregation *)
Theorem signatures_admissible : forall hash s, digests hash -> sig_built hash s -> adm2 s.
Proof. exact sig_built_adm. Qed.
Print Assumptions signatures_admissible.

(* C08 (signatures) *)
Theorem C08_signature_infinity_decoding : forall bs, bytes bs ->
  ((exists s, sig_from_bytes bs = Some (Ok s) /\ ecp2_pt s = Inf) <-> bs = 192 :: repeat 0 95).
Proof. exact sig_infinity_decoding. Qed.
Print Assumptions C08_signature_infinity_decoding.

Theorem C08_signature_infinity_encoding : forall a, adm2 a -> (sig_as_bytes a = Some (192 :: repeat 0 95) <-> ecp2_pt a = Inf).
Proof. exact sig_infinity_encoding. Qed.
Print Assumptions C08_signature_infinity_encoding.

(* C14: total and exactly classified. A root counts only if its real part is not 0,
   so the property as stated fails *)
Theorem C14_signature_decoder : forall bs, bytes bs ->
  let v := be_int (firstn 48 bs) in let w := be_int (skipn 48 bs) in let x := (mkq w, mkq (v mod 2 ^ 381)) in
  exists r, sig_from_bytes bs = Some r /\
  (length bs <> 96%nat -> r = Err IncorrectSize) /\
  (length bs = 96%nat -> Z.testbit v 383 = false -> r = Err InvalidCFlag) /\
  (length bs = 96%nat -> Z.testbit v 383 = true -> Z.testbit v 382 = true ->
     (v = 2 ^ 383 + 2 ^ 382 /\ w = 0 -> exists s, r = Ok s /\ ecp2_pt s = Inf) /\
     (~ (v = 2 ^ 383 + 2 ^ 382 /\ w = 0) -> r = Err BadPoint)) /\
  (length bs = 96%nat -> Z.testbit v 383 = true -> Z.testbit v 382 = false ->
     ((forall y, gmul y y = gadd (gmul (gmul x x) x) (mkq 4, mkq 4) -> fst y = f0) -> r = Err BadPoint) /\
     (forall y, gmul y y = gadd (gmul (gmul x x) x) (mkq 4, mkq 4) -> fst y <> f0 ->
        exists s, r = Ok s /\ (ecp2_pt s = Aff x y \/ ecp2_pt s = Aff x (gopp y)))).
Proof. exact sig_decoder_class. Qed.
Print Assumptions C14_signature_decoder.

(* x with a curve point (y imaginary) that is refused *)
Theorem C14_signature_decoder_refuted : exists bs x y, bytes bs /\ length bs = 96%nat /\ Z.testbit (be_int (firstn 48 bs)) 383 = true /\
  Z.testbit (be_int (firstn 48 bs)) 382 = false /\ x = (mkq (be_int (skipn 48 bs)), mkq (be_int (firstn 48 bs) mod 2 ^ 381)) /\
  gmul y y = gadd (gmul (gmul x x) x) (mkq 4, mkq 4) /\ sig_from_bytes bs = Some (Err BadPoint).
Proof. exact sig_decoder_refuted. Qed.
Print Assumptions C14_signature_decoder_refuted.

(* C15 *)
Theorem C15_decoded_on_twist : forall bs s, bytes bs ->
  (sig_from_bytes bs = Some (Ok s) \/ asig_from_bytes bs = Some (Ok s)) -> on2 (ecp2_pt s).
Proof. exact sig_decoder_on_curve. Qed.
Print Assumptions C15_decoded_on_twist.

(* C16: the exact result of decoding an encoded signature. ambiguous (KeysP): the sign
   flag does not separate the value from its negative *)
Theorem C16_round_trip_exact : forall a, adm2 a -> exists bs r, sig_as_bytes a = Some bs /\ sig_from_bytes bs = Some r /\
  match ecp2_pt a with
  | Inf => exists s, r = Ok s /\ sig_eq s a = Some true
  | Aff x y => (fst y = f0 -> r = Err BadPoint) /\
      (fst y <> f0 -> exists s e, r = Ok s /\ sig_eq s a = Some e /\ (ecp2_pt s = ecp2_pt a \/ ecp2_pt s = pneg2 (ecp2_pt a)) /\
         (snd y <> f0 -> (e = true <-> ~ ambiguous (snd y) \/ exists t, fst y = fmul t t)))
  end.
Proof. exact sig_round_trip. Qed.
Print Assumptions C16_round_trip_exact.

(* C16 fails: a signature that comes back as its negative *)
Theorem C16_round_trip_refuted : exists bs a cs a', bytes bs /\ sig_from_bytes bs = Some (Ok a) /\ sig_as_bytes a = Some cs /\
  sig_from_bytes cs = Some (Ok a') /\ sig_eq a' a = Some false.
Proof. exact sig_round_trip_refuted. Qed.
Print Assumptions C16_round_trip_refuted.

(* C16 fails: the aggregate of two decoded signatures whose encoding is refused *)
Theorem C16_aggregate_refuted : exists b1 b2 s1 s2 n a1 agg cs, bytes b1 /\ bytes b2 /\ sig_from_bytes b1 = Some (Ok s1) /\ sig_from_bytes b2 = Some (Ok s2) /\
  asig_new = Some n /\ asig_add n s1 = Some a1 /\ asig_add a1 s2 = Some agg /\ asig_as_bytes agg = Some cs /\ asig_from_bytes cs = Some (Err BadPoint).
Proof. exact aggregate_not_decodable. Qed.
Print Assumptions C16_aggregate_refuted.

(* C17 (signatures) *)
Theorem C17_signature_encoding : forall a, adm2 a -> exists bs, sig_as_bytes a = Some bs /\ bytes bs /\ length bs = 96%nat /\
  Z.testbit (be_int (firstn 48 bs)) 383 = true /\ (Z.testbit (be_int (firstn 48 bs)) 382 = true <-> ecp2_pt a = Inf).
Proof. exact sig_encoded_shape. Qed.
Print Assumptions C17_signature_encoding.

(* C23: asig_of ks a says a was built from exactly the signatures ks by some sequence of
   new, add and add_aggregate *)
Theorem C23_aggregate_signature_is_group_sum : forall ks a, Forall adm2 ks -> asig_of ks a -> ecp2_pt a = psum2 (map ecp2_pt ks).
Proof. exact asig_group_sum. Qed.
Print Assumptions C23_aggregate_signature_is_group_sum.

Theorem C23_aggregate_signature_any_order : forall ks ls a b, Forall adm2 ks -> Permutation ks ls -> asig_of ks a -> asig_of ls b -> sig_eq a b = Some true.
Proof. exact asig_any_order. Qed.
Print Assumptions C23_aggregate_signature_any_order.

Theorem C23_aggregate_signature_total : forall ks, Forall adm2 ks -> exists a, asig_of ks a.
Proof. exact asig_total. Qed.
Print Assumptions C23_aggregate_signature_total.

(* C24 for a key that is the sum of the secret keys as integers *)
Theorem C24_aggregate_integer_sum : forall hash msg d bs ss agg b sk s, digests hash -> 0 <= d < 2 ^ 64 ->
  signatures_on hash msg d bs ss -> asig_of ss agg -> bytes b -> sk_from_bytes b = Some (Ok sk) -> sig_new hash msg d sk = Some s ->
  be_int b = fold_right Z.add 0 (map be_int bs) -> sig_eq agg s = Some true.
Proof. exact (fun hash msg d bs ss agg b sk s p0 p1 => aggregate_signatures_sum hash msg d bs ss agg b sk s p0 p1 (hash_findable_all hash msg d)). Qed.
Print Assumptions C24_aggregate_integer_sum.

(* C25 (signatures) *)
Theorem C25_empty_aggregate_signature : forall k, adm2 k -> exists a s, asig_new = Some a /\ asig_add a k = Some s /\ sig_eq s k = Some true /\
  asig_as_bytes a = Some (192 :: repeat 0 95).
Proof. exact asig_neutral. Qed.
Print Assumptions C25_empty_aggregate_signature.

(* C26 (signatures) *)
Theorem C26_signature_equality : forall a b, adm2 a -> adm2 b -> exists r, sig_eq a b = Some r /\ (r = true <-> ecp2_pt a = ecp2_pt b).
Proof. exact sig_eq_ok. Qed.
Print Assumptions C26_signature_equality.

(* C27: what is hashed *)
Theorem C27_hash_input : forall hash msg d, 0 <= d < 2 ^ 64 -> hash_on_g2 hash msg d =
  map_to_g2 (repeat 0 16 ++ hash (hash_input msg d 1)) (repeat 0 16 ++ hash (hash_input msg d 2)).
Proof. exact hash_on_g2_input. Qed.
Print Assumptions C27_hash_input.

Theorem C27_hash_input_injective : forall m1 d1 t1 m2 d2 t2, 0 <= d1 < 2 ^ 64 -> 0 <= d2 < 2 ^ 64 ->
  hash_input m1 d1 t1 = hash_input m2 d2 t2 -> m1 = m2 /\ d1 = d2 /\ t1 = t2.
Proof. exact hash_input_inj. Qed.
Print Assumptions C27_hash_input_injective.

(* C28, C29: the point. h2 is the cofactor; for a real y it is the root whose negative is a
   square that is taken *)
Theorem C28_first_x : forall re im k, bytes re -> bytes im -> (48 <= length re)%nat -> (48 <= length im)%nat ->
  let u := be_int (firstn 48 re) in let w := be_int (firstn 48 im) in
  first_x u w k ->
  exists p y, map_point re im = Some p /\ ecp2_pt p = Aff (mkq (u + Z.of_nat k), mkq w) y /\
    gmul y y = (let x := (mkq (u + Z.of_nat k), mkq w) in gadd (gmul (gmul x x) x) (mkq 4, mkq 4)) /\
    (snd y <> f0 -> fv (snd y) > fv (snd (gopp y))) /\
    (snd y = f0 -> exists t, fst (gopp y) = fmul t t) /\
    exists h, map_to_g2 re im = Some h /\ adm2 h /\ ecp2_pt h = zm2 h2 (ecp2_pt p).
Proof. exact map_point_spec. Qed.
Print Assumptions C28_first_x.

(* the search ends exactly when some candidate is on the curve *)
Theorem C28_search_ends : forall re im, bytes re -> bytes im -> (48 <= length re)%nat -> (48 <= length im)%nat ->
  let u := be_int (firstn 48 re) in let w := be_int (firstn 48 im) in
  (exists h, map_to_g2 re im = Some h) <-> (exists k : nat, curve_x (mkq (u + Z.of_nat k), mkq w)).
Proof. exact search_ends. Qed.
Print Assumptions C28_search_ends.

(* C29 fails: a real y, where the smaller one is taken *)
Theorem C29_larger_y_refuted : exists re im p x y, bytes re /\ bytes im /\ length re = 48%nat /\ length im = 48%nat /\
  map_point re im = Some p /\ ecp2_pt p = Aff x y /\ snd y = f0 /\ fv (fst y) < fv (fst (gopp y)).
Proof. exact larger_y_refuted. Qed.
Print Assumptions C29_larger_y_refuted.

(* C30 *)
Theorem C30_new_is_new_hashed : forall hash msg d sk, 0 <= d < 2 ^ 64 -> sig_new hash msg d sk =
  sig_new_hashed (repeat 0 16 ++ hash (hash_input msg d 1)) (repeat 0 16 ++ hash (hash_input msg d 2)) sk.
Proof. exact new_is_new_hashed. Qed.
Print Assumptions C30_new_is_new_hashed.

Theorem C30_verify_is_verify_hashed : forall hash s msg d pk, 0 <= d < 2 ^ 64 -> sig_verify hash s msg d pk =
  sig_verify_hashed s (repeat 0 16 ++ hash (hash_input msg d 1)) (repeat 0 16 ++ hash (hash_input msg d 2)) pk.
Proof. exact verify_is_verify_hashed. Qed.
Print Assumptions C30_verify_is_verify_hashed.

(* C31 *)
Theorem C31_first_48_bytes : forall re im sk s pk,
  sig_new_hashed re im sk = sig_new_hashed (firstn 48 re) (firstn 48 im) sk /\
  sig_verify_hashed s re im pk = sig_verify_hashed s (firstn 48 re) (firstn 48 im) pk.
Proof. exact hashed_48. Qed.
Print Assumptions C31_first_48_bytes.

Theorem C31_short_panics : forall re im sk s pk, (length re < 48)%nat \/ (length im < 48)%nat ->
  sig_new_hashed re im sk = None /\ sig_verify_hashed s re im pk = None.
Proof. exact hashed_short. Qed.
Print Assumptions C31_short_panics.

(* C35 *)
Theorem C35_multiple_guards : forall hash s msg d avks, adm2 s -> length avks = 0%nat \/ length msg <> (32 * length avks)%nat ->
  asig_verify_multiple hash s msg d avks = Some false.
Proof. exact multiple_guards. Qed.
Print Assumptions C35_multiple_guards.

(* C37 *)
Theorem C37_one_message : forall hash s msg d avk, length msg = 32%nat ->
  asig_verify_multiple hash s msg d [avk] = asig_verify hash s msg d avk.
Proof. exact multiple_one. Qed.
Print Assumptions C37_one_message.

(* C49 fails for scalars of 2^404 and above *)
Theorem C49_ecp2_mul_refuted : exists a e v, adm2 a /\ rep 7 e v /\ ecp2_mul a e = None.
Proof. exact ecp2_mul_refuted. Qed.
Print Assumptions C49_ecp2_mul_refuted.

(* C51 fails: coordinates are reduced, not checked *)
Theorem C51_signature_canonical_refuted : exists b1 b2 s1 s2, bytes b1 /\ bytes b2 /\ b1 <> b2 /\ sig_from_bytes b1 = Some (Ok s1) /\ sig_from_bytes b2 = Some (Ok s2) /\
  sig_eq s1 s2 = Some true.
Proof. exact sig_canonical_refuted. Qed.
Print Assumptions C51_signature_canonical_refuted.

(* what holds: reduced coordinates *)
Theorem C51_signature_canonical_partial : forall b1 b2 s1 s2, bytes b1 -> bytes b2 -> sig_from_bytes b1 = Some (Ok s1) -> sig_from_bytes b2 = Some (Ok s2) ->
  be_int (firstn 48 b1) mod 2 ^ 381 < q381 -> be_int (skipn 48 b1) < q381 ->
  be_int (firstn 48 b2) mod 2 ^ 381 < q381 -> be_int (skipn 48 b2) < q381 ->
  sig_eq s1 s2 = Some true -> b1 = b2.
Proof. exact sig_decoder_injective. Qed.
Print Assumptions C51_signature_canonical_partial.

(* C52 *)
Theorem C52_signature_is_multiple : forall hash msg d b sk, digests hash -> 0 <= d < 2 ^ 64 ->
  bytes b -> sk_from_bytes b = Some (Ok sk) ->
  exists h s, hash_on_g2 hash msg d = Some h /\ sig_new hash msg d sk = Some s /\ ecp2_pt s = nmul2 (Z.to_nat (be_int b)) (ecp2_pt h).
Proof. exact (fun hash msg d b sk p0 p1 => signature_point hash msg d b sk p0 p1 (hash_findable_all hash msg d)). Qed.
Print Assumptions C52_signature_is_multiple.
