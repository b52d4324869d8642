(* Property theorems about gcm.rs.  gcm_run calls init, add_header on each piece of hs,
   add_plain (first argument true) or add_cipher (false) on each piece of ps, and finish; it
   returns the conjunction of the flags, the data written and the tag.  Its second argument
   says whether u32 additions are checked.  None is a panic. *)
From Coq Require Import ZArith List.
From Verif Require Import Prim SpecBytes SpecAes SpecGcm Aes Gcm GcmR.
Import ListNotations.
Open Scope Z_scope.

(* keys of 16 and 24 bytes *)
Theorem C113_encrypt : forall g key iv hs ps, bytes key -> length key = 16%nat \/ length key = 24%nat -> bytes iv -> Forall bytes hs -> Forall bytes ps -> aligned hs -> aligned ps ->
  let c := gcm_cipher (AES_enc key) iv (concat ps) in
  gcm_run true false g key iv hs ps = Some (true, c, gcm_tag (AES_enc key) iv (concat hs) c) /\ length c = length (concat ps).
Proof. exact gcm_encrypts. Qed.
Print Assumptions C113_encrypt.

(* any ciphertext: the data written and the tag to compare *)
Theorem C114_decrypt : forall g key iv hs cs, bytes key -> length key = 16%nat \/ length key = 24%nat -> bytes iv -> Forall bytes hs -> Forall bytes cs -> aligned hs -> aligned cs ->
  gcm_run false false g key iv hs cs = Some (true, gcm_cipher (AES_enc key) iv (concat cs), gcm_tag (AES_enc key) iv (concat hs) (concat cs)) /\
  forall p, concat cs = gcm_cipher (AES_enc key) iv p -> gcm_cipher (AES_enc key) iv (concat cs) = p.
Proof. exact gcm_decrypts. Qed.
Print Assumptions C114_decrypt.

(* every accepted key length; the pieces need not be the same *)
Theorem C114_round_trip : forall g g' key iv hs ps cs, bytes key -> In (length key / 4)%nat [4; 6; 8]%nat -> bytes iv -> Forall bytes hs -> Forall bytes ps -> aligned hs -> aligned ps -> aligned cs ->
  exists c t, gcm_run true false g key iv hs ps = Some (true, c, t) /\ (concat cs = c -> gcm_run false false g' key iv hs cs = Some (true, concat ps, t)).
Proof. exact gcm_round_trip. Qed.
Print Assumptions C114_round_trip.

(* after a piece of header that does not fill its last block *)
Theorem C115_header : forall chk g b c g', add_header chk g b (length b) = Some (true, g') -> (length b mod 16 <> 0)%nat -> add_header chk g' c (length c) = Some (false, g').
Proof. exact gcm_unaligned. Qed.
Print Assumptions C115_header.

(* after a piece of data *)
Theorem C115_data : forall enc chk g d b o g', add_data enc chk g d b (length b) = Some (true, o, g') ->
  (forall c, add_header chk g' c (length c) = Some (false, g')) /\ ((length b mod 16 <> 0)%nat -> forall enc' d' c, add_data enc' chk g' d' c (length c) = Some (false, d', g')).
Proof. exact gcm_data_unaligned. Qed.
Print Assumptions C115_data.

(* with overflow checks the product of blocks panics unless all 128 bits are set *)
Theorem C116_product : forall tab x, length x = 16%nat -> bytes x -> x <> repeat 255 16 -> gf2mul true tab x = None.
Proof. exact gf2mul_checked. Qed.
Print Assumptions C116_product.

(* so authenticating nothing panics *)
Theorem C116_empty : forall enc g key iv, length iv = 12%nat -> gcm_run enc true g key iv [] [] = None.
Proof. exact gcm_checked_empty. Qed.
Print Assumptions C116_empty.

(* and almost every header *)
Theorem C116_header : forall enc g key iv h hs ps, length iv = 12%nat -> bytes h -> h <> [] -> firstn 16 h <> repeat 255 16 -> gcm_run enc true g key iv (h :: hs) ps = None.
Proof. exact gcm_checked_header. Qed.
Print Assumptions C116_header.

(* a header of one byte *)
Theorem C116_checked_refuted : exists key iv p r, length key = 16%nat /\ length iv = 12%nat /\ bytes p /\ gcm_run true false gcm_new key iv [p] [] = Some r /\ gcm_run true true gcm_new key iv [p] [] = None.
Proof. exact gcm_checked_refuted. Qed.
Print Assumptions C116_checked_refuted.

(* keys of 32 bytes *)
Theorem C117_gcm256_refuted : exists key iv p c t, length key = 32%nat /\ bytes key /\ length iv = 12%nat /\ bytes iv /\ bytes p /\
  gcm_run true false gcm_new key iv [] [p] = Some (true, c, t) /\ c <> gcm_cipher (AES_enc key) iv p.
Proof. exact gcm256_refuted. Qed.
Print Assumptions C117_gcm256_refuted.
