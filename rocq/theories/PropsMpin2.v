(* Property theorems about precompute, hash_all, encoding and decoding of mpin.rs.  The specs are
   SpecMpin and SpecMpin2; ident is that of PropsMpin, xval (EcdhQ) says that a number below or
   equal to q stands for a field element, q itself only for 0.  fuel bounds the search for a
   point, q steps suffice.  None is a panic. *)
From Coq Require Import ZArith List.
From Verif Require Import Prim SpecBytes SpecMac SpecRand NumT FieldQ FieldQ2 SpecCurve EcpP Ecp2P Denote Tower SpecPairing Rand RandP SpecEcdh Ecdh EcdhP EcdhQ SpecMpin Mpin MpinT SpecMpin2 Mpin2 MpinW MpinX.
Import ListNotations.
Open Scope Z_scope.

(* the six parts must have 484 bytes in all *)
Theorem C133_hash_all : forall chk sha hid xid xcid sec y r w h, ident chk sha (repeat 0 484) -> bytes hid -> bytes xid -> (forall b, xcid = Some b -> bytes b) -> bytes sec -> bytes y -> bytes r -> bytes w -> (48 <= length h)%nat ->
  let m := hid ++ (match xcid with Some b => b | None => xid end) ++ sec ++ y ++ r ++ w in
  hash_all chk sha hid xid xcid sec y r w h =
    if (length m =? 484)%nat then Some (true, mp_hash sha 0 m ++ skipn 48 h) else if (length m <? 484)%nat then Some (false, h) else None.
Proof. exact hash_all_value. Qed.
Print Assumptions C133_hash_all.

(* both pairings *)
Theorem C134_precompute : forall fuel token cid g1 g2 T A, bytes token -> long_enough token -> decodes token T -> T <> Inf -> bytes cid -> (48 <= length cid)%nat -> map_pt cid A -> q381 <= Z.of_nat fuel ->
  (576 <= length g1)%nat -> (576 <= length g2)%nat ->
  exists b1 b2, precompute fuel token cid g1 g2 = Some (0, b1 ++ skipn 576 g1, b2 ++ skipn 576 g2) /\ bytes b1 /\ length b1 = 576%nat /\ bytes b2 /\ length b2 = 576%nat /\
    (forall t, decodes12 (b1 ++ t) = pairing G2gen T) /\ (forall t, decodes12 (b2 ++ t) = pairing G2gen A).
Proof. exact precompute_value. Qed.
Print Assumptions C134_precompute.

(* a token that decodes to no point *)
Theorem C134_invalid : forall fuel token cid g1 g2, bytes token -> long_enough token -> decodes token Inf -> precompute fuel token cid g1 g2 = Some (-14, g1, g2).
Proof. exact precompute_invalid. Qed.
Print Assumptions C134_invalid.

(* every number and parity have one point *)
Theorem C135_point : forall u s, 0 <= u < 2 ^ 384 -> s = 0 \/ s = 1 -> exists A, emap_pt u s A /\ on1 A /\ A <> Inf /\ forall B, emap_pt u s B -> B = A.
Proof. exact emap_total. Qed.
Print Assumptions C135_point.

(* the sum of the two points *)
Theorem C135_decoding : forall fuel d0 t W P x y, bytes (d0 :: t) -> (96 <= length t)%nat -> q381 <= Z.of_nat fuel -> d0 / 4 mod 2 = 0 ->
  emap_pt (num_of t) (d0 mod 2) W -> emap_pt (num_of (skipn 48 t)) (d0 / 2 mod 2) P -> padd1 P W = Aff x y ->
  exists u, xval x u /\ decoding fuel (d0 :: t) = Some (0, 4 :: be_bytes 48 u ++ be_bytes 48 (fv y) ++ skipn 96 t).
Proof. exact decoding_value. Qed.
Print Assumptions C135_decoding.

(* the bit of an ordinary encoding is refused *)
Theorem C135_flag : forall fuel d0 t, 0 <= d0 -> d0 / 4 mod 2 = 1 -> decoding fuel (d0 :: t) = Some (-14, d0 :: t).
Proof. exact decoding_flag. Qed.
Print Assumptions C135_flag.

(* what is written; n is the distance to the next smaller abscissa with a point *)
Theorem C136_encoding : forall fuel rng f e W dx dy, gives rng f -> bytes e -> (97 <= length e)%nat -> q381 <= Z.of_nat fuel -> on1 (Aff (coord e 1) (coord e 49)) ->
  emap_pt (stream_num f 762 mod q381) (f 96%nat mod 2) W -> padd1 (Aff (coord e 1) (coord e 49)) (pneg1 W) = Aff dx dy -> dx <> f0 ->
  exists n rng', 0 < n <= fv dx /\ (exists z, on1 (Aff (mkq (fv dx - n)) z)) /\ (forall t z, fv dx - n < t < fv dx -> ~ on1 (Aff (mkq t) z)) /\
    encoding fuel rng e = Some (0, (f 96%nat mod 2 + 2 * (fv dy mod 2)) :: be_bytes 48 (stream_num f 762 mod q381) ++ be_bytes 48 (fv dx - n + 1 + f 97%nat mod n) ++ skipn 97 e, rng') /\
    gives rng' (fun k => f (98 + k)%nat).
Proof. exact encoding_value. Qed.
Print Assumptions C136_encoding.

(* a string that is not on the curve *)
Theorem C136_invalid : forall fuel rng e, bytes e -> (97 <= length e)%nat -> ~ on1 (Aff (coord e 1) (coord e 49)) -> encoding fuel rng e = Some (-14, e, rng).
Proof. exact encoding_invalid. Qed.
Print Assumptions C136_invalid.

(* decoding undoes encoding *)
Theorem C136_round_trip : forall fuel rng f x y t W dx dy, gives rng f -> bytes t -> q381 <= Z.of_nat fuel -> on1 (Aff x y) -> x <> f0 ->
  emap_pt (stream_num f 762 mod q381) (f 96%nat mod 2) W -> padd1 (Aff x y) (pneg1 W) = Aff dx dy -> dx <> f0 ->
  exists e rng', encoding fuel rng (enc_pt (Aff x y) ++ t) = Some (0, e, rng') /\ length e = (97 + length t)%nat /\ nth 0 e 0 < 4 /\ decoding fuel e = Some (0, enc_pt (Aff x y) ++ t).
Proof. exact encode_decode. Qed.
Print Assumptions C136_round_trip.

(* 0 and 0 with different parities *)
Theorem C137_opposite : forall t, bytes t -> exists u, (u = 0 \/ u = q381) /\ forall fuel, q381 <= Z.of_nat fuel ->
  decoding fuel (2 :: be_bytes 48 0 ++ be_bytes 48 0 ++ t) = Some (0, 4 :: be_bytes 48 u ++ be_bytes 48 (fv m128) ++ t).
Proof. exact decoding_opposite. Qed.
Print Assumptions C137_opposite.

(* success, but no point *)
Theorem C137_opposite_refuted : exists d d', bytes d /\ length d = 97%nat /\ (forall fuel, q381 <= Z.of_nat fuel -> decoding fuel d = Some (0, d')) /\ decodes d' Inf.
Proof. exact decoding_refuted. Qed.
Print Assumptions C137_opposite_refuted.
