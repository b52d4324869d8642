(* Property theorems about aes.rs and the CBC functions of ecdh.rs.  blocks_run calls
   encrypt (or decrypt) on one block after the other.  iv_of: the initial vector, zeros if
   none is given; good_iv: it has 16 bytes.  damaged m: the bytes of m behind the last full
   block replaced by the padding byte.  The mode of n bytes has the number
   M_CFB1 + n - 1, M_OFB1 + n - 1 or M_CTR1 + n - 1.  None is a panic. *)
From Coq Require Import ZArith List.
From Verif Require Import Prim SpecBytes SpecAes Aes AesK AesM Ecies EciesP.
Import ListNotations.
Open Scope Z_scope.

(* keys of 16 and 24 bytes *)
Theorem C101_aes : forall a m key iv, length (a_fkey a) = 60%nat -> length (a_rkey a) = 60%nat -> bytes key -> length key = 16%nat \/ length key = 24%nat ->
  exists a', aes_init a m (length key) key iv = Some (true, a') /\
    forall b, length b = 16%nat -> bytes b -> ecb_encrypt a' b = Some (AES_enc key b) /\ ecb_decrypt a' b = Some (AES_dec key b) /\ AES_dec key (AES_enc key b) = b.
Proof. exact block_fips. Qed.
Print Assumptions C101_aes.

(* keys of 32 bytes: the vector of FIPS 197, appendix C.3 *)
Theorem C102_aes256_refuted : exists key b c, length key = 32%nat /\ bytes key /\ length b = 16%nat /\ bytes b /\
  ('(_, a) <- aes_init aes_new M_ECB (length key) key None ;; ecb_encrypt a b) = Some c /\ c <> AES_enc key b.
Proof. exact aes256_refuted. Qed.
Print Assumptions C102_aes256_refuted.

(* every mode, every accepted key length, any number of blocks *)
Theorem C103_decrypt_inverts : forall chk m key iv bs, bytes key -> In (length key / 4)%nat [4; 6; 8]%nat -> good_iv iv -> Forall (fun b => length b = 16%nat /\ bytes b) bs ->
  exists a, aes_init aes_new m (length key) key iv = Some (true, a) /\
    forall a' cs, blocks_run (aes_encrypt chk) a bs = Some (a', cs) -> blocks_run (aes_decrypt chk) a cs = Some (a', bs).
Proof. exact modes_invert. Qed.
Print Assumptions C103_decrypt_inverts.

(* CBC *)
Theorem C104_cbc : forall chk key iv bs, bytes key -> length key = 16%nat \/ length key = 24%nat -> good_iv iv -> Forall (fun b => length b = 16%nat /\ bytes b) bs ->
  exists a a', aes_init aes_new M_CBC (length key) key iv = Some (true, a) /\ blocks_run (aes_encrypt chk) a bs = Some (a', cbc_enc (AES_enc key) (iv_of iv) bs).
Proof. exact cbc_std. Qed.
Print Assumptions C104_cbc.

(* CFB; the bytes of a block behind the first n are left alone *)
Theorem C104_cfb : forall chk n key iv bs, In n [1; 2; 4]%nat -> bytes key -> length key = 16%nat \/ length key = 24%nat -> good_iv iv -> Forall (fun b => length b = 16%nat /\ bytes b) bs ->
  exists a a' cs, aes_init aes_new (M_CFB1 + n - 1) (length key) key iv = Some (true, a) /\ blocks_run (aes_encrypt chk) a bs = Some (a', cs) /\
    map (firstn n) cs = cfb_enc (AES_enc key) n (iv_of iv) (map (firstn n) bs) /\ map (skipn n) cs = map (skipn n) bs.
Proof. exact cfb_std. Qed.
Print Assumptions C104_cfb.

(* OFB *)
Theorem C104_ofb : forall chk n key iv bs, In n [1; 2; 4; 8; 16]%nat -> bytes key -> length key = 16%nat \/ length key = 24%nat -> good_iv iv -> Forall (fun b => length b = 16%nat /\ bytes b) bs ->
  exists a a' cs, aes_init aes_new (M_OFB1 + n - 1) (length key) key iv = Some (true, a) /\ blocks_run (aes_encrypt chk) a bs = Some (a', cs) /\
    map (firstn n) cs = ofb_enc (AES_enc key) n (iv_of iv) (map (firstn n) bs) /\ map (skipn n) cs = map (skipn n) bs.
Proof. exact ofb_std. Qed.
Print Assumptions C104_ofb.

(* CTR without overflow checks: a counter with the least significant byte first *)
Theorem C105_ctr : forall n key iv bs, In n [1; 2; 4; 8; 16]%nat -> bytes key -> length key = 16%nat \/ length key = 24%nat -> good_iv iv -> Forall (fun b => length b = 16%nat /\ bytes b) bs ->
  exists a a' cs, aes_init aes_new (M_CTR1 + n - 1) (length key) key iv = Some (true, a) /\ blocks_run (aes_encrypt false) a bs = Some (a', cs) /\
    map (firstn n) cs = ctr_enc (AES_enc key) inc_le n (iv_of iv) (map (firstn n) bs) /\ map (skipn n) cs = map (skipn n) bs.
Proof. exact ctr_std. Qed.
Print Assumptions C105_ctr.

(* it is not the counter of SP 800-38A *)
Theorem C105_ctr_refuted : exists key iv bs a a' cs, length key = 16%nat /\ bytes key /\ length iv = 16%nat /\ bytes iv /\ Forall (fun b => length b = 16%nat /\ bytes b) bs /\
  aes_init aes_new (M_CTR1 + 15) (length key) key (Some iv) = Some (true, a) /\ blocks_run (aes_encrypt false) a bs = Some (a', cs) /\
  cs <> ctr_enc (AES_enc key) inc_be 16 iv bs.
Proof. exact ctr_refuted. Qed.
Print Assumptions C105_ctr_refuted.

(* with overflow checks, when CTR panics *)
Theorem C105_ctr_panics : forall n key iv bs, In n [1; 2; 4; 8; 16]%nat -> bytes key -> In (length key / 4)%nat [4; 6; 8]%nat -> good_iv iv -> Forall (fun b => length b = 16%nat /\ bytes b) bs ->
  exists a, aes_init aes_new (M_CTR1 + n - 1) (length key) key iv = Some (true, a) /\
    (blocks_run (aes_encrypt true) a bs = None <-> 255 < nth 0 (iv_of iv) 0 + Z.of_nat (length bs)).
Proof. exact ctr_panics. Qed.
Print Assumptions C105_ctr_panics.

(* 256 blocks always are too many *)
Theorem C105_ctr_checked_refuted : exists key bs a, length key = 16%nat /\ Forall (fun b => length b = 16%nat /\ bytes b) bs /\ length bs = 256%nat /\
  aes_init aes_new (M_CTR1 + 15) (length key) key None = Some (true, a) /\ blocks_run (aes_encrypt true) a bs = None.
Proof. exact ctr_chk_refuted. Qed.
Print Assumptions C105_ctr_checked_refuted.

(* cbc_iv0_encrypt *)
Theorem C106_cbc_encrypt : forall chk k m, bytes k -> length k = 16%nat \/ length k = 24%nat -> bytes m ->
  cbc_iv0_encrypt chk k m = Some (concat (cbc_enc (AES_enc k) (repeat 0 16) (blocks16 (length m / 16 + 1) (pkcs7 m)))).
Proof. exact cbc_encrypt_ok. Qed.
Print Assumptions C106_cbc_encrypt.

(* cbc_iv0_decrypt: what is accepted, and what comes out *)
Theorem C107_cbc_decrypt : forall chk k c, bytes k -> length k = 16%nat \/ length k = 24%nat -> bytes c ->
  exists r, cbc_iv0_decrypt chk k c = Some r /\
    forall m', r = Some m' <-> exists m, (length c mod 16 = 0)%nat /\ concat (cbc_dec (AES_dec k) (repeat 0 16) (blocks16 (length c / 16) c)) = pkcs7 m /\ m' = damaged m.
Proof. exact cbc_decrypt_ok. Qed.
Print Assumptions C107_cbc_decrypt.

(* decryption after encryption, every accepted key length *)
Theorem C107_round_trip : forall chk k m, bytes k -> In (length k / 4)%nat [4; 6; 8]%nat -> bytes m ->
  exists c, cbc_iv0_encrypt chk k m = Some c /\ cbc_iv0_decrypt chk k c = Some (Some (damaged m)).
Proof. exact cbc_round_trip. Qed.
Print Assumptions C107_round_trip.

(* messages of whole blocks are not damaged *)
Theorem C107_whole_blocks : forall m, (length m mod 16 = 0)%nat -> damaged m = m.
Proof. exact damaged_whole. Qed.
Print Assumptions C107_whole_blocks.

(* others are *)
Theorem C107_round_trip_refuted : exists k m c m', length k = 16%nat /\ bytes k /\ bytes m /\ cbc_iv0_encrypt true k m = Some c /\ cbc_iv0_decrypt true k c = Some (Some m') /\ m' <> m.
Proof. exact cbc_round_refuted. Qed.
Print Assumptions C107_round_trip_refuted.

(* with a key of another length the key has no effect *)
Theorem C108_no_key : forall chk k k' x, ~ In (length k / 4)%nat [4; 6; 8]%nat -> ~ In (length k' / 4)%nat [4; 6; 8]%nat ->
  cbc_iv0_encrypt chk k x = cbc_iv0_encrypt chk k' x /\ cbc_iv0_decrypt chk k x = cbc_iv0_decrypt chk k' x.
Proof. exact cbc_no_key. Qed.
Print Assumptions C108_no_key.

(* so that any other such key decrypts *)
Theorem C108_no_key_refuted : exists k k' m c, k <> k' /\ length k = 20%nat /\ length k' = 20%nat /\ bytes m /\ cbc_iv0_encrypt true k m = Some c /\ cbc_iv0_decrypt true k' c = Some (Some m).
Proof. exact cbc_no_key_refuted. Qed.
Print Assumptions C108_no_key_refuted.
