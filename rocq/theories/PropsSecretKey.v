(* Property theorems C01-C03, C44. *)
From Coq Require Import ZArith List.
From Verif Require Import Prim Rom Big Utils Api SpecBytes BigP SkP.

(* C01: every 48-byte string decodes and encodes back to itself. *)
Theorem C01_secret_key_round_trip : forall b, bytes b -> length b = 48%nat ->
  exists sk, sk_from_bytes b = Some (Ok sk) /\ sk_as_bytes sk = Some b.
Proof. exact sk_round_trip. Qed.
Print Assumptions C01_secret_key_round_trip.

(* C02: the length is the only thing checked, and there is no panic. *)
Theorem C02_secret_key_length_check : forall b, bytes b ->
  (length b <> 48%nat -> sk_from_bytes b = Some (Err IncorrectSize)) /\
  (length b = 48%nat -> exists sk, sk_from_bytes b = Some (Ok sk)).
Proof. exact sk_length_check. Qed.
Print Assumptions C02_secret_key_length_check.

(* C03: decoded keys are equal exactly when the byte strings are. *)
Theorem C03_secret_key_equality : forall a b ska skb, bytes a -> bytes b ->
  sk_from_bytes a = Some (Ok ska) -> sk_from_bytes b = Some (Ok skb) ->
  exists r, sk_eq ska skb = Some r /\ (r = true <-> a = b).
Proof. exact sk_equality. Qed.
Print Assumptions C03_secret_key_equality.

(* C44: the test for one answers false on every input, in particular on one. *)
Theorem C44_isunity_refuted :
  lval big_one = 1%Z /\ big_isunity big_one = false /\ forall a, big_isunity a = false.
Proof. exact (conj eq_refl (conj eq_refl isunity_false)). Qed.
Print Assumptions C44_isunity_refuted.
