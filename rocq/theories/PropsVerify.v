(* Property theorems about verification. pairing (SpecPairing) is the cube of the
   reduced ate pairing defined from Miller functions, G1gen the generator of the ROM,
   ecp_pt and ecp2_pt (Denote) the affine points keys and signatures stand for,
   sig_built and pk_built everything the interface can produce, hash stands for
   Keccak-256 (any function with 32-byte results).
   zero_case H K (VerifyP): H is infinity, and K is infinity or has x = 0. *)
From Coq Require Import ZArith List Permutation.
From Verif Require Import Prim Big Fp Fp2 Ecp Ecp2 Utils Api SpecBytes NumT FieldQ FieldQ2 SpecCurve Denote Tower SpecPairing EcpP Ecp2P GenP KeysP KeysP2 KeysP3 LayerP MapP SigsP SigsP2
  VerifyP VerifyP2 VerifyP3 VerifyP4.
Import ListNotations.
Open Scope Z_scope.

(* C20 (signatures) *)
Theorem C20_signatures_modulo_r : forall hash msg d b1 b2 sk1 sk2 s1 s2, digests hash -> 0 <= d < 2 ^ 64 ->
  bytes b1 -> bytes b2 -> sk_from_bytes b1 = Some (Ok sk1) -> sk_from_bytes b2 = Some (Ok sk2) ->
  sig_new hash msg d sk1 = Some s1 -> sig_new hash msg d sk2 = Some s2 ->
  be_int b1 mod r255 = be_int b2 mod r255 -> sig_eq s1 s2 = Some true.
Proof. exact (fun hash msg d b1 b2 sk1 sk2 s1 s2 p0 p1 => congruent_sign hash msg d b1 b2 sk1 sk2 s1 s2 p0 p1 (hash_findable_all hash msg d)). Qed.
Print Assumptions C20_signatures_modulo_r.

(* C24 *)
Theorem C24_aggregate_sum_mod_r : forall hash msg d bs ss agg b sk s, digests hash -> 0 <= d < 2 ^ 64 ->
  signatures_on hash msg d bs ss -> asig_of ss agg -> bytes b -> sk_from_bytes b = Some (Ok sk) -> sig_new hash msg d sk = Some s ->
  be_int b = fold_right Z.add 0 (map be_int bs) mod r255 -> sig_eq agg s = Some true.
Proof. exact (fun hash msg d bs ss agg b sk s p0 p1 => aggregate_sum_mod hash msg d bs ss agg b sk s p0 p1 (hash_findable_all hash msg d)). Qed.
Print Assumptions C24_aggregate_sum_mod_r.

(* C32 *)
Theorem C32_honest_signatures_verify : forall hash msg d b sk, digests hash -> 0 <= d < 2 ^ 64 ->
  bytes b -> sk_from_bytes b = Some (Ok sk) -> be_int b mod r255 <> 0 ->
  exists s pk, sig_new hash msg d sk = Some s /\ pk_from_secret_key sk = Some pk /\ sig_verify hash s msg d pk = Some true.
Proof. exact (fun hash msg d b sk p0 p1 => honest_verifies hash msg d b sk p0 p1 (hash_findable_all hash msg d)). Qed.
Print Assumptions C32_honest_signatures_verify.

(* C33: the verdict on an honest signature, for every key. It is negative only when the key
   is 0 mod r and the message hashes to the identity *)
Theorem C33_honest_verdict : forall hash msg d b sk, digests hash -> 0 <= d < 2 ^ 64 ->
  bytes b -> sk_from_bytes b = Some (Ok sk) ->
  exists h s pk r, hash_on_g2 hash msg d = Some h /\ sig_new hash msg d sk = Some s /\ pk_from_secret_key sk = Some pk /\
    sig_verify hash s msg d pk = Some r /\ (r = true <-> ~ (ecp2_pt h = Inf /\ be_int b mod r255 = 0)).
Proof. exact (fun hash msg d b sk p0 p1 => honest_verdict hash msg d b sk p0 p1 (hash_findable_all hash msg d)). Qed.
Print Assumptions C33_honest_verdict.

Theorem C33_honest_verdict_hashed : forall re im b sk, bytes re -> bytes im -> (48 <= length re)%nat -> (48 <= length im)%nat ->
  bytes b -> sk_from_bytes b = Some (Ok sk) ->
  exists h s pk r, map_to_g2 re im = Some h /\ sig_new_hashed re im sk = Some s /\ pk_from_secret_key sk = Some pk /\
    sig_verify_hashed s re im pk = Some r /\ (r = true <-> ~ (ecp2_pt h = Inf /\ be_int b mod r255 = 0)).
Proof. exact (fun re im b sk p0 p1 p2 p3 => honest_verdict_hashed re im b sk p0 p1 p2 p3 (findable_all re im)). Qed.
Print Assumptions C33_honest_verdict_hashed.

(* and that case occurs for the hashed interface: the honest signature of a zero key is rejected *)
Theorem C33_zero_key_refuted : exists re im b sk s pk, bytes re /\ bytes im /\ length re = 48%nat /\ length im = 48%nat /\ bytes b /\ be_int b mod r255 = 0 /\
  sk_from_bytes b = Some (Ok sk) /\ sig_new_hashed re im sk = Some s /\ pk_from_secret_key sk = Some pk /\ sig_verify_hashed s re im pk = Some false.
Proof. exact zero_key_refuted. Qed.
Print Assumptions C33_zero_key_refuted.

(* C34: the signers' order and the keys' order may differ, and both aggregates may be built
   in any way *)
Theorem C34_honest_aggregates_verify : forall hash msg d bs ss agg cs pks apk, digests hash -> 0 <= d < 2 ^ 64 ->
  signatures_on hash msg d bs ss -> asig_of ss agg -> Permutation bs cs -> derived_keys cs pks -> apk_of pks apk ->
  fold_right Z.add 0 (map be_int bs) mod r255 <> 0 -> asig_verify hash agg msg d apk = Some true.
Proof. exact (fun hash msg d bs ss agg cs pks apk p0 p1 => aggregate_verifies hash msg d bs ss agg cs pks apk p0 p1 (hash_findable_all hash msg d)). Qed.
Print Assumptions C34_honest_aggregates_verify.

Theorem C34_aggregate_verdict : forall hash msg d bs ss agg cs pks apk, digests hash -> 0 <= d < 2 ^ 64 ->
  signatures_on hash msg d bs ss -> asig_of ss agg -> Permutation bs cs -> derived_keys cs pks -> apk_of pks apk ->
  exists h r, hash_on_g2 hash msg d = Some h /\ asig_verify hash agg msg d apk = Some r /\
    (r = true <-> ~ (ecp2_pt h = Inf /\ fold_right Z.add 0 (map be_int bs) mod r255 = 0)).
Proof. exact (fun hash msg d bs ss agg cs pks apk p0 p1 => aggregate_verdict hash msg d bs ss agg cs pks apk p0 p1 (hash_findable_all hash msg d)). Qed.
Print Assumptions C34_aggregate_verdict.

(* C36: multi (VerifyP3) lists messages of 32 bytes, each with a list of signatures by keys whose
   sum is not 0 mod r and the aggregate of the signers' public keys *)
Theorem C36_honest_multi_message : forall hash d msgs sigs keys sigs' agg, digests hash -> 0 <= d < 2 ^ 64 -> multi hash d msgs sigs keys -> msgs <> [] ->
  Permutation sigs sigs' -> asig_of sigs' agg -> asig_verify_multiple hash agg (concat msgs) d keys = Some true.
Proof. exact multiple_verifies. Qed.
Print Assumptions C36_honest_multi_message.

(* C61: any signature, any key: the verdict is the pairing equation, with one exception *)
Theorem C61_verify_is_pairing_equation : forall hash s msg d pk, digests hash -> 0 <= d < 2 ^ 64 ->
  sig_built hash s -> pk_built pk ->
  exists h r, hash_on_g2 hash msg d = Some h /\ sig_verify hash s msg d pk = Some r /\
    (r = true <-> pairing (ecp2_pt s) G1gen = pairing (ecp2_pt h) (ecp_pt pk) /\ ~ zero_case (ecp2_pt h) (ecp_pt pk)).
Proof. exact (fun hash s msg d pk p0 p1 => verify_equation hash s msg d pk p0 p1 (hash_findable_all hash msg d)). Qed.
Print Assumptions C61_verify_is_pairing_equation.

Theorem C61_verify_hashed_is_pairing_equation : forall hash s re im pk, digests hash -> bytes re -> bytes im -> (48 <= length re)%nat -> (48 <= length im)%nat ->
  sig_built hash s -> pk_built pk ->
  exists h r, map_to_g2 re im = Some h /\ sig_verify_hashed s re im pk = Some r /\
    (r = true <-> pairing (ecp2_pt s) G1gen = pairing (ecp2_pt h) (ecp_pt pk) /\ ~ zero_case (ecp2_pt h) (ecp_pt pk)).
Proof. exact (fun hash s re im pk p0 p1 p2 p3 p4 => verify_hashed_equation hash s re im pk p0 p1 p2 p3 p4 (findable_all re im)). Qed.
Print Assumptions C61_verify_hashed_is_pairing_equation.

Theorem C61_aggregate_verify_is_pairing_equation : forall hash s msg d pk, digests hash -> 0 <= d < 2 ^ 64 ->
  sig_built hash s -> pk_built pk ->
  exists h r, hash_on_g2 hash msg d = Some h /\ asig_verify hash s msg d pk = Some r /\
    (r = true <-> pairing (ecp2_pt s) G1gen = pairing (ecp2_pt h) (ecp_pt pk) /\ ~ zero_case (ecp2_pt h) (ecp_pt pk)).
Proof. exact (fun hash s msg d pk p0 p1 => aggregate_verify_equation hash s msg d pk p0 p1 (hash_findable_all hash msg d)). Qed.
Print Assumptions C61_aggregate_verify_is_pairing_equation.

(* C62: the message point can be the identity, and then the signature at infinity is valid for every honest key *)
Theorem C62_message_point_identity_refuted : exists re im h, bytes re /\ bytes im /\ length re = 48%nat /\ length im = 48%nat /\
  map_to_g2 re im = Some h /\ ecp2_pt h = Inf.
Proof. exact identity_hash_refuted. Qed.
Print Assumptions C62_message_point_identity_refuted.

Theorem C62_universal_signature_refuted : exists re im s, bytes re /\ bytes im /\ length re = 48%nat /\ length im = 48%nat /\
  sig_from_bytes (192 :: repeat 0 95) = Some (Ok s) /\
  forall b sk pk, bytes b -> sk_from_bytes b = Some (Ok sk) -> pk_from_secret_key sk = Some pk -> be_int b mod r255 <> 0 ->
    sig_verify_hashed s re im pk = Some true.
Proof. exact identity_forgery. Qed.
Print Assumptions C62_universal_signature_refuted.

(* C63 *)
Theorem C63_verify_multiple_is_product_equation : forall hash s msgs d keys, digests hash -> 0 <= d < 2 ^ 64 -> msgs <> [] -> length msgs = length keys ->
  Forall (fun m => length m = 32%nat) msgs ->
  sig_built hash s -> Forall pk_built keys ->
  exists hs r, Forall2 (fun m h => hash_on_g2 hash m d = Some h) msgs hs /\
    asig_verify_multiple hash s (concat msgs) d keys = Some r /\
    (r = true <-> pairing (ecp2_pt s) G1gen = pairing_product (map ecp2_pt hs) (map ecp_pt keys) /\
       Forall2 (fun H K => ~ zero_case H K) (map ecp2_pt hs) (map ecp_pt keys)).
Proof. exact (fun hash s msgs d keys p0 p1 p2 p3 p4 => multiple_equation hash s msgs d keys p0 p1 p2 p3 p4 (hash_findable_each hash d msgs)). Qed.
Print Assumptions C63_verify_multiple_is_product_equation.
