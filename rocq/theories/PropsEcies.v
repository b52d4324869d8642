(* Property theorems about ecies_encrypt and ecies_decrypt.  gives, good and noov: see
   PropsEcdh and PropsMac; damaged: see PropsAes.  The outer None is a panic, the inner one
   the None of Rust. *)
From Coq Require Import ZArith List.
From Verif Require Import Prim SpecBytes SpecRand SpecMac SpecCurve NumT FieldQ EcpP GenP G1Ord SpecEcdh Rand RandP Ecdh EcdhH EcdhP EcdhQ SpecAes SpecEcies Ecies EciesP EciesQ.
Import ListNotations.
Open Scope Z_scope.

(* C109 *)
Theorem C109_encrypt : forall chk sha p1 p2 rng f w m v t W, is_sha sha -> bytes p1 -> bytes p2 -> bytes w -> bytes m -> gives rng f -> long_enough w -> decodes w W ->
  (97 <= length v)%nat -> (4 <= length t)%nat -> noov chk sha (149 + length p1) -> noov chk sha (length m + length p2 + 232) ->
  let d := stream_num f 510 mod r255 in let V := enc_pt (nmul1 (Z.to_nat d) G1gen) in exists rng', gives rng' (fun i => f (64 + i)%nat) /\
  match nmul1 (Z.to_nat d) W with
  | Inf => ecies_encrypt chk sha p1 p2 rng w m v t = Some (None, V ++ skipn 97 v, t, Some rng')
  | Aff x y => x <> f0 -> let z := be_bytes 48 (fv x) in let c := ecies_cipher (ecies_k1 sha p1 V z) m in
      ecies_encrypt chk sha p1 p2 rng w m v t = Some (Some c, V ++ skipn 97 v, ecies_tag sha (ecies_k2 sha p1 V z) c p2 (length t), Some rng')
  end.
Proof. exact encrypt_ok. Qed.
Print Assumptions C109_encrypt.

(* tags of 4 to 32 bytes: what is accepted, and what comes out *)
Theorem C110_decrypt : forall chk sha p1 p2 v c t u P, is_sha sha -> bytes p1 -> bytes p2 -> bytes v -> bytes c -> bytes u -> (48 <= length u)%nat -> long_enough v -> decodes v P ->
  (97 <= length v)%nat -> (4 <= length t <= 32)%nat -> noov chk sha (149 + length p1) -> noov chk sha (length c + length p2 + 216) ->
  match nmul1 (Z.to_nat (be_int (firstn 48 u) mod r255)) P with
  | Inf => ecies_decrypt chk sha p1 p2 v c t u = Some None
  | Aff x y => x <> f0 -> let z := be_bytes 48 (fv x) in let V := firstn 97 v in exists r, ecies_decrypt chk sha p1 p2 v c t u = Some r /\
      forall m', r = Some m' <-> (exists m, ecies_plain (ecies_k1 sha p1 V z) c m /\ m' = damaged m) /\ t = ecies_tag sha (ecies_k2 sha p1 V z) c p2 (length t)
  end.
Proof. exact decrypt_ok. Qed.
Print Assumptions C110_decrypt.

(* the receiver accepts what the sender made *)
Theorem C110_round_trip : forall chk sha p1 p2 o s w0 u w r rng f m v t c v' t' r', is_sha sha -> bytes p1 -> bytes p2 -> bytes m -> bytes s -> bytes w0 -> bytes v ->
  good o -> (48 <= length s)%nat -> (97 <= length w0)%nat -> key_pair_generate o s w0 = Some (0, u, w, r) -> gives rng f -> (97 <= length v)%nat -> (4 <= length t <= 32)%nat ->
  noov chk sha (149 + length p1) -> noov chk sha (length m + length p2 + 232) ->
  ecies_encrypt chk sha p1 p2 rng w m v t = Some (Some c, v', t', r') -> ecies_decrypt chk sha p1 p2 v' c t' u = Some (Some (damaged m)).
Proof. exact ecies_round. Qed.
Print Assumptions C110_round_trip.

(* tags of fewer than 4 bytes have no effect *)
Theorem C111_short_tags : forall chk sha p1 p2 v c t t' u P, is_sha sha -> bytes p1 -> bytes p2 -> bytes v -> bytes c -> bytes u -> (48 <= length u)%nat -> long_enough v -> decodes v P ->
  (97 <= length v)%nat -> (length t < 4)%nat -> (length t' < 4)%nat -> noov chk sha (149 + length p1) -> ecies_decrypt chk sha p1 p2 v c t u = ecies_decrypt chk sha p1 p2 v c t' u.
Proof. exact short_tags. Qed.
Print Assumptions C111_short_tags.

(* a ciphertext accepted with every such tag *)
Theorem C111_short_tags_refuted : exists v c u m, bytes v /\ bytes c /\ bytes u /\ forall t, (length t < 4)%nat -> ecies_decrypt true 32 [] [] v c t u = Some (Some m).
Proof. exact short_refuted. Qed.
Print Assumptions C111_short_tags_refuted.

(* tags of more than 32 bytes make decryption panic *)
Theorem C111_long_tags : forall chk sha p1 p2 v c t u, (32 < length t)%nat -> ecies_decrypt chk sha p1 p2 v c t u = None.
Proof. exact long_tags. Qed.
Print Assumptions C111_long_tags.

(* a compressed key V makes decryption panic *)
Theorem C112_compressed : forall chk sha p1 p2 v c t u P, bytes v -> bytes u -> (48 <= length u)%nat -> long_enough v -> decodes v P -> (length v < 97)%nat -> (length t <= 32)%nat ->
  nmul1 (Z.to_nat (be_int (firstn 48 u) mod r255)) P <> Inf -> ecies_decrypt chk sha p1 p2 v c t u = None.
Proof. exact compressed_panics. Qed.
Print Assumptions C112_compressed.

(* the compressed generator, which public_key_validate accepts *)
Theorem C112_compressed_refuted : exists v u, bytes v /\ bytes u /\ length u = 48%nat /\ public_key_validate v = Some 0 /\
  forall chk sha p1 p2 c t, (length t <= 32)%nat -> ecies_decrypt chk sha p1 p2 v c t u = None.
Proof. exact compressed_refuted. Qed.
Print Assumptions C112_compressed_refuted.
