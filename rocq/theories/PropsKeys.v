(* Property theorems about public keys and aggregate public keys
   (C04-C13, C17-C22, C25, C26, C50). ecp_pt (Denote) is the affine point a key
   stands for, adm the admissible internal representations; SpecCurve is the
   group law. *)
From Coq Require Import ZArith List Permutation.
From Verif Require Import Prim Ecp Utils Api SpecBytes NumT FieldQ SpecCurve EcpP Denote GenP KeysP KeysP2 KeysP3.
Import ListNotations.
Open Scope Z_scope.

(* every key the public interface can produce is admissible, so the theorems
   below apply to it *)
Theorem api_keys_admissible : forall pk, pk_built pk -> adm pk.
Proof. exact built_adm. Qed.
Print Assumptions api_keys_admissible.

(* C04: no panic, and the outcome decided by length, top bit, infinity flag and
   curve equation, in that order. *)
Theorem C04_compressed_decoder : forall bs, bytes bs -> let v := be_int bs in let x := mkq (v mod 2 ^ 381) in
  exists r, pk_from_bytes bs = Some r /\
  (length bs <> 48%nat -> r = Err IncorrectSize) /\
  (length bs = 48%nat -> Z.testbit v 383 = false -> r = Err InvalidCFlag) /\
  (length bs = 48%nat -> Z.testbit v 383 = true -> Z.testbit v 382 = true ->
     (v = 2 ^ 383 + 2 ^ 382 -> exists pk, r = Ok pk /\ ecp_pt pk = Inf) /\
     (v <> 2 ^ 383 + 2 ^ 382 -> r = Err BadPoint)) /\
  (length bs = 48%nat -> Z.testbit v 383 = true -> Z.testbit v 382 = false ->
     ((forall y, fmul y y <> fadd (fmul (fmul x x) x) (mkq 4)) -> r = Err BadPoint) /\
     (forall y, fmul y y = fadd (fmul (fmul x x) x) (mkq 4) ->
        exists pk, r = Ok pk /\ (ecp_pt pk = Aff x y \/ ecp_pt pk = Aff x (fopp y)))).
Proof. exact decoder_class. Qed.
Print Assumptions C04_compressed_decoder.

(* C05 *)
Theorem C05_decoded_on_curve : forall bs pk, bytes bs ->
  (pk_from_bytes bs = Some (Ok pk) \/ apk_from_bytes bs = Some (Ok pk) \/ pk_from_uncompressed_bytes bs = Some (Ok pk)) ->
  on1 (ecp_pt pk).
Proof. exact decoder_on_curve. Qed.
Print Assumptions C05_decoded_on_curve.

(* C06 fails: some derived key decodes to a different key. *)
Theorem C06_round_trip_refuted : exists b sk pk bs pk', bytes b /\ sk_from_bytes b = Some (Ok sk) /\ pk_from_secret_key sk = Some pk /\
  pk_as_bytes pk = Some bs /\ pk_from_bytes bs = Some (Ok pk') /\ pk_eq pk' pk = Some false.
Proof. exact round_trip_refuted. Qed.
Print Assumptions C06_round_trip_refuted.
(* The exact extent: the key comes back, or its negative does; it is the key
   unless the sign flag is ambiguous and y is not a square. *)
Theorem C06_round_trip_exact : forall a, adm a -> exists bs pk' r, pk_as_bytes a = Some bs /\ pk_from_bytes bs = Some (Ok pk') /\
  pk_eq pk' a = Some r /\
  (r = true <-> match ecp_pt a with Inf => True | Aff x y => ~ ambiguous y \/ exists t, y = fmul t t end) /\
  (ecp_pt pk' = ecp_pt a \/ ecp_pt pk' = pneg1 (ecp_pt a)).
Proof. exact round_trip_exact. Qed.
Print Assumptions C06_round_trip_exact.

(* C07 fails: x and x+q are both accepted. *)
Theorem C07_canonical_refuted : exists bs pk cs, bytes bs /\ pk_from_bytes bs = Some (Ok pk) /\ pk_as_bytes pk = Some cs /\ cs <> bs.
Proof. exact canonical_refuted. Qed.
Print Assumptions C07_canonical_refuted.
Theorem C07_two_encodings_refuted : exists bs1 bs2 pk1 pk2, bytes bs1 /\ bytes bs2 /\ bs1 <> bs2 /\ pk_from_bytes bs1 = Some (Ok pk1) /\
  pk_from_bytes bs2 = Some (Ok pk2) /\ pk_eq pk1 pk2 = Some true.
Proof. exact two_encodings_refuted. Qed.
Print Assumptions C07_two_encodings_refuted.
(* what holds: reduced x and an unambiguous flag *)
Theorem C07_canonical_partial : forall bs pk, bytes bs -> pk_from_bytes bs = Some (Ok pk) ->
  be_int bs mod 2 ^ 381 < q381 ->
  match ecp_pt pk with Inf => True | Aff x y => ~ ambiguous y end -> pk_as_bytes pk = Some bs.
Proof. exact canonical_partial. Qed.
Print Assumptions C07_canonical_partial.

(* C08 (public keys) *)
Theorem C08_infinity_decoding : forall bs, bytes bs ->
  ((exists pk, pk_from_bytes bs = Some (Ok pk) /\ ecp_pt pk = Inf) <-> bs = 192 :: repeat 0 47).
Proof. exact infinity_encoding. Qed.
Print Assumptions C08_infinity_decoding.
Theorem C08_infinity_encoding : forall a, adm a -> (pk_as_bytes a = Some (192 :: repeat 0 47) <-> ecp_pt a = Inf).
Proof. exact infinity_encodes. Qed.
Print Assumptions C08_infinity_encoding.

(* C09 fails for some derived key. *)
Theorem C09_sign_flag_refuted : exists b sk pk bs x y, bytes b /\ sk_from_bytes b = Some (Ok sk) /\ pk_from_secret_key sk = Some pk /\
  ecp_pt pk = Aff x y /\ pk_as_bytes pk = Some bs /\ 2 * fv y / q381 = 1 /\ Z.testbit (be_int bs) 381 = false.
Proof. exact flag_bit_refuted. Qed.
Print Assumptions C09_sign_flag_refuted.
(* The exact extent: the flag is right outside two short intervals. *)
Theorem C09_sign_flag_exact : forall a x y, adm a -> ecp_pt a = Aff x y -> exists bs, pk_as_bytes a = Some bs /\
  (Z.b2z (Z.testbit (be_int bs) 381) = 2 * fv y / q381 <-> ~ flag_gap (fv y)).
Proof. exact flag_bit. Qed.
Print Assumptions C09_sign_flag_exact.

(* C10 *)
Theorem C10_uncompressed_round_trip : forall a, adm a -> exists bs a' pk', pk_as_uncompressed_bytes a = Some (bs, a') /\
  pk_from_uncompressed_bytes bs = Some (Ok pk') /\ pk_eq pk' a = Some true /\ pk_eq a' a = Some true.
Proof. exact unc_round_trip_eq. Qed.
Print Assumptions C10_uncompressed_round_trip.

(* C11 *)
Theorem C11_uncompressed_decoder : forall bs, bytes bs -> let u := be_int (firstn 48 bs) in let v := be_int (skipn 48 bs) in
  exists r, pk_from_uncompressed_bytes bs = Some r /\
  (length bs <> 96%nat -> r = Err IncorrectSize) /\
  (length bs = 96%nat -> Forall (eq 0) bs -> exists pk, r = Ok pk /\ ecp_pt pk = Inf) /\
  (length bs = 96%nat -> ~ Forall (eq 0) bs ->
     (on1 (Aff (mkq u) (mkq v)) -> exists pk, r = Ok pk /\ ecp_pt pk = Aff (mkq u) (mkq v)) /\
     (~ on1 (Aff (mkq u) (mkq v)) -> r = Err BadPoint)).
Proof. exact unc_class. Qed.
Print Assumptions C11_uncompressed_decoder.

(* C12 fails: coordinates at or above q are accepted. *)
Theorem C12_uncompressed_canonical_refuted : exists bs pk, bytes bs /\ pk_from_uncompressed_bytes bs = Some (Ok pk) /\
  forall pk', pk_as_uncompressed_bytes pk <> Some (bs, pk').
Proof. exact unc_canonical_refuted. Qed.
Print Assumptions C12_uncompressed_canonical_refuted.
Theorem C12_uncompressed_canonical_partial : forall bs pk, bytes bs -> pk_from_uncompressed_bytes bs = Some (Ok pk) ->
  be_int (firstn 48 bs) < q381 -> be_int (skipn 48 bs) < q381 ->
  exists pk', pk_as_uncompressed_bytes pk = Some (bs, pk').
Proof. exact unc_canonical_partial. Qed.
Print Assumptions C12_uncompressed_canonical_partial.

(* C13 fails in both directions. *)
Theorem C13_serialization_refuted :
  (exists pk1 pk2 bs1 bs2, pk_built pk1 /\ pk_built pk2 /\ pk_eq pk1 pk2 = Some true /\
     pk_as_bytes pk1 = Some bs1 /\ pk_as_bytes pk2 = Some bs2 /\ bs1 <> bs2) /\
  (exists pk1 pk2 bs, pk_built pk1 /\ pk_built pk2 /\ pk_as_bytes pk1 = Some bs /\ pk_as_bytes pk2 = Some bs /\
     pk_eq pk1 pk2 = Some false).
Proof. exact serialization_refuted. Qed.
Print Assumptions C13_serialization_refuted.
Theorem C13_serialization_partial : forall a b, adm a -> adm b ->
  ((forall y, ecp_pt a <> Aff f0 y) -> pk_eq a b = Some true -> pk_as_bytes a = pk_as_bytes b) /\
  (match ecp_pt a with Inf => True | Aff x y => ~ ambiguous y end -> pk_as_bytes a = pk_as_bytes b -> pk_eq a b = Some true).
Proof. exact serialization_partial. Qed.
Print Assumptions C13_serialization_partial.

(* C17 (public keys) *)
Theorem C17_public_key_encoding : forall a, adm a -> exists bs, pk_as_bytes a = Some bs /\ bytes bs /\ length bs = 48%nat /\
  Z.testbit (be_int bs) 383 = true /\ (Z.testbit (be_int bs) 382 = true <-> ecp_pt a = Inf).
Proof. exact encoded_shape. Qed.
Print Assumptions C17_public_key_encoding.
Theorem C17_uncompressed_encoding : forall a, adm a -> exists bs a', pk_as_uncompressed_bytes a = Some (bs, a') /\ bytes bs /\ length bs = 96%nat.
Proof. exact unc_shape. Qed.
Print Assumptions C17_uncompressed_encoding.

(* C18 fails: there is no subgroup check. *)
Theorem C18_subgroup_refuted : exists bs pk, bytes bs /\ pk_from_bytes bs = Some (Ok pk) /\ nmul1 (Z.to_nat r255) (ecp_pt pk) <> Inf.
Proof. exact subgroup_refuted. Qed.
Print Assumptions C18_subgroup_refuted.
(* what holds: derived keys and their aggregates are in the subgroup *)
Theorem C18_honest_keys_partial : forall pk, honest_key pk -> nmul1 (Z.to_nat r255) (ecp_pt pk) = Inf.
Proof. exact honest_order. Qed.
Print Assumptions C18_honest_keys_partial.

(* C19 *)
Theorem C19_public_key_derivation : forall b sk, bytes b -> sk_from_bytes b = Some (Ok sk) ->
  exists pk, pk_from_secret_key sk = Some pk /\ ecp_pt pk = nmul1 (Z.to_nat (be_int b)) G1gen.
Proof. exact derive_nmul. Qed.
Print Assumptions C19_public_key_derivation.

(* C20 (public keys): equal exactly when congruent modulo r *)
Theorem C20_secret_keys_modulo_r : forall b1 b2 sk1 sk2 pk1 pk2, bytes b1 -> bytes b2 ->
  sk_from_bytes b1 = Some (Ok sk1) -> sk_from_bytes b2 = Some (Ok sk2) ->
  pk_from_secret_key sk1 = Some pk1 -> pk_from_secret_key sk2 = Some pk2 ->
  exists r, pk_eq pk1 pk2 = Some r /\ (r = true <-> be_int b1 mod r255 = be_int b2 mod r255).
Proof. exact derive_eq. Qed.
Print Assumptions C20_secret_keys_modulo_r.

(* C21: apk_of ks a says a was built from exactly the keys ks by some sequence
   of new, from_public_keys, add and add_aggregate *)
Theorem C21_aggregate_is_group_sum : forall ks a, Forall adm ks -> apk_of ks a -> ecp_pt a = psum1 (map ecp_pt ks).
Proof. exact aggregate_group_sum. Qed.
Print Assumptions C21_aggregate_is_group_sum.
Theorem C21_aggregate_any_order : forall ks ls a b, Forall adm ks -> Permutation ks ls -> apk_of ks a -> apk_of ls b -> pk_eq a b = Some true.
Proof. exact aggregate_any_order. Qed.
Print Assumptions C21_aggregate_any_order.
Theorem C21_aggregate_total : forall ks, Forall adm ks -> exists a, apk_from_public_keys ks = Some a /\ apk_of ks a.
Proof. exact aggregate_total. Qed.
Print Assumptions C21_aggregate_total.

(* C22 *)
Theorem C22_aggregate_of_derived_keys : forall bs pks agg b sk pk, derived_keys bs pks -> apk_of pks agg ->
  bytes b -> sk_from_bytes b = Some (Ok sk) -> pk_from_secret_key sk = Some pk ->
  be_int b = fold_right Z.add 0 (map be_int bs) mod r255 -> pk_eq agg pk = Some true.
Proof. exact aggregate_derived. Qed.
Print Assumptions C22_aggregate_of_derived_keys.

(* C25 (public keys) *)
Theorem C25_empty_aggregate_key : forall k, adm k -> exists a s, apk_new = Some a /\ apk_add a k = Some s /\ pk_eq s k = Some true /\
  apk_as_bytes a = Some (192 :: repeat 0 47).
Proof. exact aggregate_neutral. Qed.
Print Assumptions C25_empty_aggregate_key.

(* C26 (public keys) *)
Theorem C26_key_equality : forall a b, adm a -> adm b -> exists r, pk_eq a b = Some r /\ (r = true <-> ecp_pt a = ecp_pt b).
Proof. exact equality_denotes. Qed.
Print Assumptions C26_key_equality.

(* C50: an aggregate can be steered to any target by one more decodable key *)
Theorem C50_rogue_key : forall pk target, adm pk -> adm target -> exists bs pk' agg, bytes bs /\
  pk_from_uncompressed_bytes bs = Some (Ok pk') /\ apk_from_public_keys [pk; pk'] = Some agg /\ pk_eq agg target = Some true.
Proof. exact rogue_key. Qed.
Print Assumptions C50_rogue_key.
