(* Specification: ECIES (IEEE 1363a) with KDF2, AES-128 in CBC mode with a zero initial vector
   and PKCS #7 padding, and HMAC, on the curve of SpecEcdh. *)
From Coq Require Import ZArith List.
From Verif Require Import SpecBytes SpecMac SpecAes.
Import ListNotations.
Open Scope Z_scope.

(* the keys of encryption and of authentication, from the sender's public key V and the shared secret z *)
Definition ecies_k1 (sha : nat) (p1 V z : list Z) : list Z := firstn 16 (KDF sha (V ++ z) p1 1 32).
Definition ecies_k2 (sha : nat) (p1 V z : list Z) : list Z := skipn 16 (KDF sha (V ++ z) p1 1 32).
(* the ciphertext of m *)
Definition ecies_cipher (k1 m : list Z) : list Z := concat (cbc_enc (AES_enc k1) (repeat 0 16) (blocks16 (length m / 16 + 1) (pkcs7 m))).
(* c is a whole number of blocks, and its decryption is m, padded *)
Definition ecies_plain (k1 c m : list Z) : Prop :=
  (length c mod 16 = 0)%nat /\ concat (cbc_dec (AES_dec k1) (repeat 0 16) (blocks16 (length c / 16) c)) = pkcs7 m.
(* the tag of n bytes; the length of p2 in bytes is encoded in 8 bytes *)
Definition ecies_tag (sha : nat) (k2 c p2 : list Z) (n : nat) : list Z :=
  fit n (HMAC sha k2 (c ++ p2 ++ be_bytes 8 (Z.of_nat (length p2)))).
