(* Property theorems about SHA-256, the random generator and random keys. sha256 is
   the standard's function (SpecSha), rand_stream the specified stream (SpecRand).
   The model functions carry a flag: true with overflow checks (debug build), false
   without. *)
From Coq Require Import ZArith List.
From Verif Require Import Prim Big Hash256 Rand Utils Api SpecBytes SpecSha SpecRand NumT FieldQ FieldQ2 SpecCurve Denote CurveP EcpP GenP KeysP2 HashP RandP.
Import ListNotations.
Open Scope Z_scope.

(* C40: any message in any chunking; the state is ready for the next message *)
Theorem C40_sha256 : forall cs, Forall bytes cs ->
  (s <- foldM (h_process_array false) cs h_new ;; h_hash false s) = Some (sha256 (concat cs), h_new).
Proof. exact sha_release. Qed.
Print Assumptions C40_sha256.

(* with overflow checks, below 2^29 - 8 bytes *)
Theorem C40_sha256_checked : forall cs, Forall bytes cs -> Z.of_nat (length (concat cs)) < 2 ^ 29 - 8 ->
  (s <- foldM (h_process_array true) cs h_new ;; h_hash true s) = Some (sha256 (concat cs), h_new).
Proof. exact sha_checked. Qed.
Print Assumptions C40_sha256_checked.

(* and from there on a panic *)
Theorem C40_sha256_checked_panics : forall cs, Forall bytes cs -> 2 ^ 29 - 8 <= Z.of_nat (length (concat cs)) ->
  (s <- foldM (h_process_array true) cs h_new ;; h_hash true s) = None.
Proof. exact sha_checked_panic. Qed.
Print Assumptions C40_sha256_checked_panics.

(* so with overflow checks C40 fails: 2^29 zero bytes *)
Theorem C40_sha256_refuted : exists cs, Forall bytes cs /\ Z.of_nat (length (concat cs)) < 2 ^ 61 /\
  (s <- foldM (h_process_array true) cs h_new ;; h_hash true s) = None.
Proof. exact sha_refuted. Qed.
Print Assumptions C40_sha256_refuted.

(* an i32 is fed as four bytes, most significant first *)
Theorem C40_process_num : forall chk s n, - 2 ^ 31 <= n < 2 ^ 31 -> h_process_num chk s n = h_process_array chk s (be_bytes 4 (n mod 2 ^ 32)).
Proof. exact sha_num. Qed.
Print Assumptions C40_process_num.

(* C39, C53: whatever the generator was used for before, any seed below 2^29 - 8 bytes, any
   number of bytes asked for *)
Theorem C39_no_panic : forall r raw n, bytes raw -> (0 < length raw)%nat -> Z.of_nat (length raw) < 2 ^ 29 - 8 ->
  exists r1 r2, rand_seed r (length raw) raw = Some r1 /\ getbytes n r1 = Some (map (rand_stream raw) (seq 0 n), r2).
Proof. exact rand_total. Qed.
Print Assumptions C39_no_panic.

(* C39 fails with overflow checks: a seed of 2^29 bytes *)
Theorem C39_refuted : exists raw, bytes raw /\ rand_seed rand_new (length raw) raw = None.
Proof. exact rand_refuted. Qed.
Print Assumptions C39_refuted.

Theorem C39_large_seed_panics : forall r raw, bytes raw -> 2 ^ 29 - 8 <= Z.of_nat (length raw) -> rand_seed r (length raw) raw = None.
Proof. exact rand_big_seed. Qed.
Print Assumptions C39_large_seed_panics.

(* the empty seed: a stream that repeats every 32 bytes *)
Theorem C39_empty_seed : forall n, exists r1 r2, rand_seed rand_new 0 [] = Some r1 /\
  getbytes n r1 = Some (map (fun i => nth (i mod 32) (sha256 (repeat 0 128)) 0) (seq 0 n), r2).
Proof. exact rand_empty. Qed.
Print Assumptions C39_empty_seed.

(* C39, C53 fail for the empty seed: what the generator was used for before shows *)
Theorem C39_reseed_refuted : exists r r1 r2 a b s1 s2, rand_seed rand_new 1 [0] = Some r /\
  rand_seed rand_new 0 [] = Some r1 /\ rand_seed r 0 [] = Some r2 /\ getbyte r1 = Some (a, s1) /\ getbyte r2 = Some (b, s2) /\ a <> b.
Proof. exact rand_reseed. Qed.
Print Assumptions C39_reseed_refuted.

(* the stream consists of bytes *)
Theorem C53_stream_bytes : forall raw i, 0 <= rand_stream raw i < 256.
Proof. exact stream_bytes. Qed.
Print Assumptions C53_stream_bytes.

(* C38: the key is the number made of the first 510 bits, modulo r *)
Theorem C38_random_secret_key : forall e, bytes e -> length e = 256%nat ->
  let v := stream_num (rand_stream e) 510 mod r255 in
  exists sk, sk_random e = Some sk /\ sk_from_bytes (be_bytes 48 v) = Some (Ok sk) /\ sk_as_bytes sk = Some (be_bytes 48 v) /\ 0 <= v < r255.
Proof. exact sk_random_ok. Qed.
Print Assumptions C38_random_secret_key.

(* C54 *)
Theorem C54_random_key_pair : forall e, bytes e -> length e = 256%nat ->
  let v := stream_num (rand_stream e) 510 mod r255 in
  exists sk pk, keypair_random e = Some (sk, pk) /\ sk_as_bytes sk = Some (be_bytes 48 v) /\
    pk_from_secret_key sk = Some pk /\ ecp_pt pk = nmul1 (Z.to_nat v) G1gen.
Proof. exact keypair_random_ok. Qed.
Print Assumptions C54_random_key_pair.
