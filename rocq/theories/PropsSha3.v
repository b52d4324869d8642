(* Property theorems about sha3.rs.  sha3_run and shake_run call new, process on each byte
   and hash or shake, and return the new content of the digest array; sha3_twice hashes a
   second message with the same object; unflat is the array s of the code with given lanes.
   None is a panic. *)
From Coq Require Import ZArith List.
From Verif Require Import Prim SpecBytes SpecSha3 Sha3 Sha3P Sha3Q.
Import ListNotations.
Open Scope Z_scope.

(* every length below 100, among them 28, 32, 48 and 64 *)
Theorem C118_hash : forall n m digest, (0 < n < 100)%nat -> bytes m -> Z.of_nat (S (length m / (200 - 2 * n)) * (200 - 2 * n)) < 2 ^ 64 -> (n <= length digest)%nat ->
  sha3_run n m digest = Some (SHA3_hash n m ++ skipn n digest) /\ length (SHA3_hash n m) = n.
Proof. exact sha3_hashes. Qed.
Print Assumptions C118_hash.

(* the lengths from 100 on *)
Theorem C118_long : forall n m digest, (100 <= n)%nat -> sha3_run n m digest = None.
Proof. exact sha3_long. Qed.
Print Assumptions C118_long.

(* n = 16 is SHAKE128, n = 32 is SHAKE256 *)
Theorem C119_shake : forall n m digest olen, (n < 100)%nat -> bytes m -> Z.of_nat (S (length m / (200 - 2 * n)) * (200 - 2 * n)) < 2 ^ 64 -> (0 < olen <= length digest)%nat ->
  shake_run n m digest olen = Some (SHAKE n m olen ++ skipn olen digest) /\ length (SHAKE n m olen) = olen.
Proof. exact shake_runs. Qed.
Print Assumptions C119_shake.

(* an output of no bytes *)
Theorem C120_zero : forall n m x digest, (n < 100)%nat -> bytes m -> Z.of_nat (S (length m / (200 - 2 * n)) * (200 - 2 * n)) < 2 ^ 64 ->
  shake_run n m (x :: digest) 0 = Some (SHAKE n m 1 ++ digest) /\ shake_run n m [] 0 = None.
Proof. exact shake_zero. Qed.
Print Assumptions C120_zero.

(* it panics *)
Theorem C120_zero_refuted : exists n m digest, (0 < n < 100)%nat /\ bytes m /\ (forall olen, (0 < olen <= length digest)%nat -> shake_run n m digest olen = Some (SHAKE n m olen ++ skipn olen digest)) /\ shake_run n m digest 0 <> Some digest.
Proof. exact shake_zero_refuted. Qed.
Print Assumptions C120_zero_refuted.

(* what a second message is hashed to *)
Theorem C121_again : forall n m m2 digest, (0 < n <= 66)%nat -> bytes m -> bytes m2 -> (n <= length digest)%nat ->
  let r := (200 - 2 * n)%nat in let T := m ++ padding r 6 (length m) ++ m2 in Z.of_nat (S (length T / r) * r) < 2 ^ 64 ->
  sha3_twice n m m2 digest = Some (SHA3_hash n T ++ skipn n digest).
Proof. exact sha3_again. Qed.
Print Assumptions C121_again.

(* the empty message twice *)
Theorem C121_reuse_refuted : exists n m m2 digest, (0 < n < 100)%nat /\ bytes m /\ bytes m2 /\ length digest = n /\ sha3_run n m2 digest = Some (SHA3_hash n m2) /\ sha3_twice n m m2 digest <> Some (SHA3_hash n m2).
Proof. exact sha3_reuse_refuted. Qed.
Print Assumptions C121_reuse_refuted.

(* any state *)
Theorem C122_transform : forall f, length f = 25%nat -> Forall (fun x => 0 <= x < 2 ^ 64) f -> k_transform (unflat f) = unflat (keccak_f f) /\ length (keccak_f f) = 25%nat.
Proof. exact transform_keccak. Qed.
Print Assumptions C122_transform.
