(* Property theorems about SHA-512 and SHA-384.  q_process_array st chk, q_hash st
   chk: chk, the build has overflow checks on the byte counter; st, it has them on
   the additions of HASH384 (which are plain `+`; HASH512 uses wrapping_add).
   small chk n: n < 2^61 - 16 if chk. *)
From Coq Require Import ZArith List.
From Verif Require Import Prim Utils SpecBytes SpecSha5 Hash512 HashQ.
Import ListNotations.
Open Scope Z_scope.

(* C90, for the message given in any number of pieces; the state is then ready for the next message *)
Theorem C90_sha512 : forall chk cs, Forall bytes cs -> small chk (Z.of_nat (length (concat cs))) ->
  (s <- foldM (q_process_array false chk) cs (q_new HASH512_H) ;; q_hash false chk HASH512_H 64 s) = Some (sha512 (concat cs), q_new HASH512_H).
Proof. exact sha512_ok. Qed.
Print Assumptions C90_sha512.

(* process_num is process_array of the four bytes *)
Theorem C90_num : forall st chk s n, - 2 ^ 31 <= n < 2 ^ 31 -> q_process_num st chk s n = q_process_array st chk s (be_bytes 4 (n mod 2 ^ 32)).
Proof. exact sha_num. Qed.
Print Assumptions C90_num.

(* a build without overflow checks computes SHA-384 *)
Theorem C91_sha384_release : forall cs, Forall bytes cs ->
  (s <- foldM (q_process_array false false) cs (q_new HASH384_H) ;; q_hash false false HASH384_H 48 s) = Some (sha384 (concat cs), q_new HASH384_H).
Proof. exact sha384_release. Qed.
Print Assumptions C91_sha384_release.

(* any run that does not panic computes SHA-384 *)
Theorem C91_sha384_any : forall st chk cs r, Forall bytes cs ->
  (s <- foldM (q_process_array st chk) cs (q_new HASH384_H) ;; q_hash st chk HASH384_H 48 s) = Some r -> r = (sha384 (concat cs), q_new HASH384_H).
Proof. exact sha384_any. Qed.
Print Assumptions C91_sha384_any.

(* a build with overflow checks panics *)
Theorem C91_sha384_refuted : exists m, bytes m /\ (length m < 100)%nat /\ (s <- foldM (q_process_array true true) [m] (q_new HASH384_H) ;; q_hash true true HASH384_H 48 s) = None.
Proof. exact sha384_refuted. Qed.
Print Assumptions C91_sha384_refuted.
