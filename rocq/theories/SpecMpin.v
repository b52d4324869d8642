(* Specification: the points and strings of M-Pin (M. Scott, "M-Pin: A Multi-Factor Zero
   Knowledge Authentication Protocol"), over the groups of order r of the two curves. *)
From Coq Require Import ZArith List.
From Verif Require Import SpecBytes SpecMac NumT FieldQ FieldQ2 SpecCurve EcpP Ecp2P Tower G1Ord.
Import ListNotations.
Open Scope Z_scope.

(* an identity is hashed on 48 bytes; a positive number, on 4 bytes, is hashed before it *)
Definition mp_hash (sha : nat) (n : Z) (id : list Z) : list Z := fit 48 (hfun sha ((if 0 <? n then be_bytes 4 n else []) ++ id)).
(* the point of a string: the first abscissa, counting from the number it encodes, with a point
   that the cofactor does not kill; of its two points the one with the even ordinate, times the
   cofactor *)
Definition map_pt (h : list Z) (A : pt1) : Prop :=
  exists (k : nat) y, on1 (Aff (mkq (be_int (firstn 48 h) + Z.of_nat k)) y) /\ Z.even (fv y) = true /\
    (forall i z, (i < k)%nat -> on1 (Aff (mkq (be_int (firstn 48 h) + Z.of_nat i)) z) ->
       nmul1 (Z.to_nat h1c) (Aff (mkq (be_int (firstn 48 h) + Z.of_nat i)) z) = Inf) /\
    A = nmul1 (Z.to_nat h1c) (Aff (mkq (be_int (firstn 48 h) + Z.of_nat k)) y) /\ A <> Inf.
(* the number of a string *)
Definition num_of (w : list Z) : Z := be_int (firstn 48 w).
(* a point of the twist as four numbers modulo q; the point at infinity stands for strings
   that are not on the twist *)
Definition fq_at (w : list Z) (i : nat) : Fq := mkq (be_int (firstn 48 (skipn (48 * i) w))).
Definition decodes2 (w : list Z) (p : pt2) : Prop :=
  let c := Aff (fq_at w 0, fq_at w 1) (fq_at w 2, fq_at w 3) in
  match p with
  | Aff _ _ => p = c /\ on2 c
  | Inf => ~ on2 c
  end.
(* an element of the tower as twelve numbers modulo q *)
Definition decodes12 (w : list Z) : Fq12 :=
  mk12 ((fq_at w 0, fq_at w 1), (fq_at w 2, fq_at w 3)) ((fq_at w 4, fq_at w 5), (fq_at w 6, fq_at w 7)) ((fq_at w 8, fq_at w 9), (fq_at w 10, fq_at w 11)).
(* the generator of the group of order r of the twist *)
Definition G2gen : pt2 :=
  Aff (mkq 0x24aa2b2f08f0a91260805272dc51051c6e47ad4fa403b02b4510b647ae3d1770bac0326a805bbefd48056c8c121bdb8,
       mkq 0x13e02b6052719f607dacd3a088274f65596bd0d09920b61ab5da61bbdc7f5049334cf11213945d57e5ac7d055d042b7e)
      (mkq 0xce5d527727d6e118cc9cdc6da2e351aadfd9baa8cbdd3a76d429a695160d12c923ac9cc3baca289e193548608b82801,
       mkq 0x606c4a02ea734cc32acd2b02bc28b99cb3e287e85a763af267492ab572e99ab3f370d275cec1da1aaa9075ff05f79be).
(* a PIN counts modulo 10000; as an i32 it may be negative and then has a negative remainder,
   of which the low 14 bits count *)
Definition pin_val (pin : Z) : Z := Z.rem ((pin + 2 ^ 31) mod 2 ^ 32 - 2 ^ 31) 10000 mod 2 ^ 14.
