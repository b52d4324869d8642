(* Property theorems about verification, second part: what verification accepts, exactly.
   The vocabulary is that of PropsVerify; in_subgroup (VerifyP2) is the group of order r of
   the twist, nmul1 and nmul2 (SpecCurve) repeated addition on the two curves and
   combination ks hs (VerifyP5) the sum of the k_i-fold h_i. *)
From Coq Require Import ZArith List Permutation.
From Verif Require Import Prim Big Fp Fp2 Ecp Ecp2 Utils Api SpecBytes NumT FieldQ FieldQ2 SpecCurve Denote Tower SpecPairing EcpP Ecp2P GenP KeysP KeysP2 KeysP3 LayerP MapP SigsP SigsP2
  VerifyP VerifyP2 VerifyP3 VerifyP4 VerifyP5 VerifyP6 G1Ord VerifyP7.
Import ListNotations.
Open Scope Z_scope.

(* C64: every key acts as a multiplier k, and among the signatures of order r accepts the
   k-fold message point alone *)
Theorem C64_verify_exact : forall pk, pk_built pk -> exists k, 0 <= k < r255 /\
  forall hash s msg d, digests hash -> 0 <= d < 2 ^ 64 -> sig_built hash s -> in_subgroup (ecp2_pt s) ->
  exists h r, hash_on_g2 hash msg d = Some h /\ sig_verify hash s msg d pk = Some r /\ asig_verify hash s msg d pk = Some r /\
    (r = true <-> ecp2_pt s = nmul2 (Z.to_nat k) (ecp2_pt h) /\ ~ zero_case (ecp2_pt h) (ecp_pt pk)).
Proof. exact verify_exact_all. Qed.
Print Assumptions C64_verify_exact.

Theorem C64_verify_hashed_exact : forall pk, pk_built pk -> exists k, 0 <= k < r255 /\
  forall hash s re im, digests hash -> bytes re -> bytes im -> (48 <= length re)%nat -> (48 <= length im)%nat ->
  sig_built hash s -> in_subgroup (ecp2_pt s) ->
  exists h r, map_to_g2 re im = Some h /\ sig_verify_hashed s re im pk = Some r /\
    (r = true <-> ecp2_pt s = nmul2 (Z.to_nat k) (ecp2_pt h) /\ ~ zero_case (ecp2_pt h) (ecp_pt pk)).
Proof. exact verify_hashed_exact_all. Qed.
Print Assumptions C64_verify_hashed_exact.

(* C65 *)
Theorem C65_verify_accepts_what_signing_returns : forall hash s msg d b sk pk, digests hash -> 0 <= d < 2 ^ 64 ->
  sig_built hash s -> in_subgroup (ecp2_pt s) ->
  bytes b -> sk_from_bytes b = Some (Ok sk) -> pk_from_secret_key sk = Some pk -> be_int b mod r255 <> 0 ->
  exists s' r, sig_new hash msg d sk = Some s' /\ sig_verify hash s msg d pk = Some r /\ sig_eq s s' = Some r.
Proof. exact (fun hash s msg d b sk pk p0 p1 => verify_is_sign hash s msg d b sk pk p0 p1 (hash_findable_all hash msg d)). Qed.
Print Assumptions C65_verify_accepts_what_signing_returns.

Theorem C65_derived_key_exact : forall hash s msg d b sk pk, digests hash -> 0 <= d < 2 ^ 64 ->
  sig_built hash s -> in_subgroup (ecp2_pt s) ->
  bytes b -> sk_from_bytes b = Some (Ok sk) -> pk_from_secret_key sk = Some pk ->
  exists h r, hash_on_g2 hash msg d = Some h /\ sig_verify hash s msg d pk = Some r /\
    (r = true <-> ecp2_pt s = nmul2 (Z.to_nat (be_int b)) (ecp2_pt h) /\ ~ (ecp2_pt h = Inf /\ be_int b mod r255 = 0)).
Proof. exact (fun hash s msg d b sk pk p0 p1 => derived_exact hash s msg d b sk pk p0 p1 (hash_findable_all hash msg d)). Qed.
Print Assumptions C65_derived_key_exact.

(* C66 *)
Theorem C66_signatures_are_unique : forall hash s1 s2 msg d pk, digests hash -> 0 <= d < 2 ^ 64 -> pk_built pk ->
  sig_built hash s1 -> sig_built hash s2 -> in_subgroup (ecp2_pt s1) -> in_subgroup (ecp2_pt s2) ->
  sig_verify hash s1 msg d pk = Some true -> sig_verify hash s2 msg d pk = Some true -> sig_eq s1 s2 = Some true.
Proof. exact (fun hash s1 s2 msg d pk p0 p1 => unique_signature hash s1 s2 msg d pk p0 p1 (hash_findable_all hash msg d)). Qed.
Print Assumptions C66_signatures_are_unique.

(* C67 *)
Theorem C67_other_key : forall hash msg d b1 b2 sk1 sk2 s pk, digests hash -> 0 <= d < 2 ^ 64 ->
  bytes b1 -> bytes b2 -> sk_from_bytes b1 = Some (Ok sk1) -> sk_from_bytes b2 = Some (Ok sk2) ->
  sig_new hash msg d sk1 = Some s -> pk_from_secret_key sk2 = Some pk ->
  exists h r, hash_on_g2 hash msg d = Some h /\ sig_verify hash s msg d pk = Some r /\
    (r = true <-> (be_int b1 mod r255 = be_int b2 mod r255 \/ ecp2_pt h = Inf) /\ ~ (ecp2_pt h = Inf /\ be_int b2 mod r255 = 0)).
Proof. exact (fun hash msg d b1 b2 sk1 sk2 s pk p0 p1 => other_key hash msg d b1 b2 sk1 sk2 s pk p0 p1 (hash_findable_all hash msg d)). Qed.
Print Assumptions C67_other_key.

Theorem C67_other_key_hashed : forall re im b1 b2 sk1 sk2 s pk, bytes re -> bytes im -> (48 <= length re)%nat -> (48 <= length im)%nat ->
  bytes b1 -> bytes b2 -> sk_from_bytes b1 = Some (Ok sk1) -> sk_from_bytes b2 = Some (Ok sk2) ->
  sig_new_hashed re im sk1 = Some s -> pk_from_secret_key sk2 = Some pk ->
  exists h r, map_to_g2 re im = Some h /\ sig_verify_hashed s re im pk = Some r /\
    (r = true <-> (be_int b1 mod r255 = be_int b2 mod r255 \/ ecp2_pt h = Inf) /\ ~ (ecp2_pt h = Inf /\ be_int b2 mod r255 = 0)).
Proof. exact (fun re im b1 b2 sk1 sk2 s pk p0 p1 p2 p3 => other_key_hashed re im b1 b2 sk1 sk2 s pk p0 p1 p2 p3 (findable_all re im)). Qed.
Print Assumptions C67_other_key_hashed.

(* C68 *)
Theorem C68_other_message : forall hash msg1 d1 msg2 d2 b sk s pk, digests hash -> 0 <= d1 < 2 ^ 64 -> 0 <= d2 < 2 ^ 64 ->
  bytes b -> sk_from_bytes b = Some (Ok sk) ->
  sig_new hash msg1 d1 sk = Some s -> pk_from_secret_key sk = Some pk -> be_int b mod r255 <> 0 ->
  exists h1 h2 r, hash_on_g2 hash msg1 d1 = Some h1 /\ hash_on_g2 hash msg2 d2 = Some h2 /\ sig_verify hash s msg2 d2 pk = Some r /\
    (r = true <-> ecp2_pt h1 = ecp2_pt h2).
Proof. exact (fun hash msg1 d1 msg2 d2 b sk s pk p0 p1 p2 => other_message hash msg1 d1 msg2 d2 b sk s pk p0 p1 p2 (hash_findable_all hash msg1 d1) (hash_findable_all hash msg2 d2)). Qed.
Print Assumptions C68_other_message.

(* C69 *)
Theorem C69_multiple_exact : forall keys, Forall pk_built keys -> exists ks, Forall (fun k => 0 <= k < r255) ks /\ length ks = length keys /\
  forall hash s msgs d, digests hash -> 0 <= d < 2 ^ 64 -> msgs <> [] -> length msgs = length keys ->
  Forall (fun m => length m = 32%nat) msgs -> sig_built hash s -> in_subgroup (ecp2_pt s) ->
  exists hs r, Forall2 (fun m h => hash_on_g2 hash m d = Some h) msgs hs /\
    asig_verify_multiple hash s (concat msgs) d keys = Some r /\
    (r = true <-> ecp2_pt s = combination ks (map ecp2_pt hs) /\ Forall2 (fun H K => ~ zero_case H K) (map ecp2_pt hs) (map ecp_pt keys)).
Proof. exact multiple_exact_all. Qed.
Print Assumptions C69_multiple_exact.

Theorem C69_multiple_derived_exact : forall hash s msgs d bs pks, digests hash -> 0 <= d < 2 ^ 64 -> msgs <> [] -> length msgs = length pks ->
  Forall (fun m => length m = 32%nat) msgs -> sig_built hash s -> in_subgroup (ecp2_pt s) ->
  derived_keys bs pks -> Forall (fun b => be_int b mod r255 <> 0) bs ->
  exists hs r, Forall2 (fun m h => hash_on_g2 hash m d = Some h) msgs hs /\
    asig_verify_multiple hash s (concat msgs) d pks = Some r /\ (r = true <-> ecp2_pt s = combination (map be_int bs) (map ecp2_pt hs)).
Proof. exact (fun hash s msgs d bs pks p0 p1 p2 p3 p4 => multiple_derived_exact hash s msgs d bs pks p0 p1 p2 p3 p4 (hash_findable_each hash d msgs)). Qed.
Print Assumptions C69_multiple_derived_exact.

(* C70 fails: adding the key t, a point of order 3, to any key gives a different key with
   the same verdict on every signature, message and domain *)
Theorem C70_equivalent_keys_refuted : exists t, pk_from_bytes (128 :: repeat 0 47) = Some (Ok t) /\
  forall pk, pk_built pk -> exists pk', apk_add pk t = Some pk' /\ pk_built pk' /\ pk_eq pk pk' = Some false /\
  forall hash s msg d, digests hash -> 0 <= d < 2 ^ 64 -> sig_built hash s ->
    sig_verify hash s msg d pk' = sig_verify hash s msg d pk.
Proof. exact shifted_keys_all. Qed.
Print Assumptions C70_equivalent_keys_refuted.

(* C71 fails: the key t accepts the signature at infinity *)
Theorem C71_low_order_key_refuted : exists pk s, pk_from_bytes (128 :: repeat 0 47) = Some (Ok pk) /\ ecp_pt pk <> Inf /\
  sig_from_bytes (192 :: repeat 0 95) = Some (Ok s) /\
  forall hash msg d h, digests hash -> 0 <= d < 2 ^ 64 -> hash_on_g2 hash msg d = Some h -> ecp2_pt h <> Inf ->
    sig_verify hash s msg d pk = Some true.
Proof. exact low_order_key_all. Qed.
Print Assumptions C71_low_order_key_refuted.

(* C72 *)
Theorem C72_rogue_aggregate_verifies : forall victim b sk, pk_built victim -> bytes b -> sk_from_bytes b = Some (Ok sk) -> be_int b mod r255 <> 0 ->
  exists bs rogue apk, bytes bs /\ pk_from_uncompressed_bytes bs = Some (Ok rogue) /\ apk_from_public_keys [victim; rogue] = Some apk /\
  forall hash msg d s agg, digests hash -> 0 <= d < 2 ^ 64 -> sig_new hash msg d sk = Some s -> asig_of [s] agg ->
    asig_verify hash agg msg d apk = Some true.
Proof. exact rogue_key_all. Qed.
Print Assumptions C72_rogue_aggregate_verifies.

(* C73 *)
Theorem C73_pairing_nondegenerate : forall P Q, on2 P -> on2 Q -> in_subgroup P -> in_subgroup Q ->
  (pairing P G1gen = pairing Q G1gen <-> P = Q) /\ (pairing P G1gen = k1 <-> P = Inf).
Proof. exact pairing_nondegenerate. Qed.
Print Assumptions C73_pairing_nondegenerate.

Theorem C73_pairing_with_multiples : forall P k, on2 P -> in_subgroup P ->
  (pairing P (nmul1 k G1gen) = k1 <-> P = Inf \/ Z.of_nat k mod r255 = 0).
Proof. exact pairing_multiples_nondegenerate. Qed.
Print Assumptions C73_pairing_with_multiples.
