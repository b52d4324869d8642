(* Property theorems about the hash based functions of ecdh.rs: hmac, kdf1, kdf2 and
   pbkdf2.  sha is the digest length (32, 48 or 64: is_sha); noov chk sha n: the hash
   functions are built without overflow checks (chk = false) or the checks cannot fire
   on n bytes (never so for SHA-384, see C91). *)
From Coq Require Import ZArith List.
From Verif Require Import Prim SpecBytes SpecMac Ecdh EcdhH EcdhK.
Import ListNotations.
Open Scope Z_scope.

(* C92; the rest of the slice stays as it was *)
Theorem C92_hmac : forall chk sha m k olen tag, is_sha sha -> bytes m -> bytes k -> (4 <= olen <= length tag)%nat -> noov chk sha (length k + length m + 192) ->
  hmac chk sha m k olen tag = Some (true, fit olen (HMAC sha k m) ++ skipn olen tag).
Proof. exact hmac_ok. Qed.
Print Assumptions C92_hmac.

(* a tag of fewer than 4 bytes is refused *)
Theorem C92_short_tag : forall chk sha m k olen tag, (olen < 4)%nat -> hmac chk sha m k olen tag = Some (false, tag).
Proof. exact hmac_short. Qed.
Print Assumptions C92_short_tag.

(* C93; opt None = [], opt (Some p) = p *)
Theorem C93_kdf2 : forall chk sha z p olen k, is_sha sha -> bytes z -> bytes (opt p) -> noov chk sha (length z + 4 + length (opt p)) -> (olen <= length k)%nat ->
  kdf2 chk sha z p olen k = Some (KDF sha z (opt p) 1 olen ++ skipn olen k).
Proof. exact kdf2_ok. Qed.
Print Assumptions C93_kdf2.

(* what kdf1 computes: the hash of z alone, then the blocks with the counters 1, 2, ... *)
Theorem C94_kdf1 : forall chk sha z olen k, is_sha sha -> bytes z -> noov chk sha (length z + 4) -> (olen <= length k)%nat ->
  kdf1 chk sha z olen k = Some (firstn olen (hfun sha z ++ KDF sha z [] 1 olen) ++ skipn olen k).
Proof. exact kdf1_ok. Qed.
Print Assumptions C94_kdf1.

(* no more than one block: the hash of z, cut *)
Theorem C94_kdf1_short : forall chk sha z olen k, is_sha sha -> bytes z -> noov chk sha (length z + 4) -> (olen <= length k)%nat -> (olen <= sha)%nat ->
  kdf1 chk sha z olen k = Some (firstn olen (hfun sha z) ++ skipn olen k).
Proof. exact kdf1_short. Qed.
Print Assumptions C94_kdf1_short.

(* this is not KDF1 of ISO 18033-2, whose blocks have the counters 0, 1, ... *)
Theorem C94_kdf1_refuted : exists z r, bytes z /\ kdf1 false 32 z 32 (repeat 0 32) = Some r /\ r <> KDF 32 z [] 0 32.
Proof. exact kdf1_refuted. Qed.
Print Assumptions C94_kdf1_refuted.

(* where pbkdf2 is PBKDF2; elsewhere it is not, see below *)
Theorem C95_pbkdf2_partial : forall chk sha pass salt rep olen k, is_sha sha -> bytes pass -> bytes salt -> (length salt <= 32)%nat -> noov chk sha (length pass + 256) -> (olen <= length k)%nat ->
  (rep <= 1 \/ sha = 64)%nat -> (olen <= sha /\ olen <= 48 \/ sha = 48)%nat ->
  pbkdf2 chk sha pass salt rep olen k = Some (PBKDF2 sha pass salt rep olen ++ skipn olen k).
Proof. exact pbkdf2_right. Qed.
Print Assumptions C95_pbkdf2_partial.

(* not when the output is longer than a digest *)
Theorem C95_pbkdf2_refuted : exists pass salt r, bytes pass /\ bytes salt /\
  pbkdf2 false 32 pass salt 1 48 (repeat 0 48) = Some r /\ r <> PBKDF2 32 pass salt 1 48.
Proof. exact pbkdf2_refuted. Qed.
Print Assumptions C95_pbkdf2_refuted.

(* nor when there are repetitions, except for SHA-512 *)
Theorem C95_repetitions_refuted : exists pass salt r, bytes pass /\ bytes salt /\
  pbkdf2 false 32 pass salt 2 32 (repeat 0 32) = Some r /\ r <> PBKDF2 32 pass salt 2 32.
Proof. exact pbkdf2_rep_refuted. Qed.
Print Assumptions C95_repetitions_refuted.

(* a salt of more than 32 bytes makes it panic *)
Theorem C95_salt : forall chk sha pass salt rep olen k, is_sha sha -> (32 < length salt)%nat -> (0 < olen)%nat -> pbkdf2 chk sha pass salt rep olen k = None.
Proof. exact pbkdf2_salt. Qed.
Print Assumptions C95_salt.
