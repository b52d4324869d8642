(* Specification: encoding of points (SEC 1, section 2.3), Diffie-Hellman and ECDSA
   (IEEE 1363) over the group of order r generated by G1gen. *)
From Coq Require Import ZArith List.
From Verif Require Import SpecBytes SpecRand SpecMac NumT FieldQ SpecCurve EcpP GenP.
Import ListNotations.
Open Scope Z_scope.

(* the string w, of at least 97 bytes (49 if it does not start with 4), is an encoding of
   the point (x, y): 4 || x || y, or 2 || x with y even, or 3 || x with y odd *)
Definition encodes (w : list Z) (x y : Fq) : Prop :=
  on1 (Aff x y) /\ be_int (firstn 48 (skipn 1 w)) = fv x /\
  (nth 0 w 0 = 4 /\ be_int (firstn 48 (skipn 49 w)) = fv y \/ nth 0 w 0 = 2 + fv y mod 2).
(* what a decoder makes of it; the point at infinity stands for anything else *)
Definition decodes (w : list Z) (p : pt1) : Prop :=
  match p with
  | Aff x y => encodes w x y
  | Inf => forall x y, ~ encodes w x y
  end.
Definition long_enough (w : list Z) : Prop := (49 <= length w)%nat /\ (nth 0 w 0 = 4 -> (97 <= length w)%nat).
(* the encoding the library writes *)
Definition enc_pt (p : pt1) : list Z :=
  match p with
  | Aff x y => 4 :: be_bytes 48 (fv x) ++ be_bytes 48 (fv y)
  | Inf => 4 :: be_bytes 48 0 ++ be_bytes 48 1
  end.
(* the integer of a message: the digest on 48 bytes *)
Definition msg_int (sha : nat) (m : list Z) : Z := be_int (fit 48 (hfun sha m)).
(* (c, d) is a signature of the integer e under the public key W: with u1 = e/d and
   u2 = c/d modulo r, the point u1 G + u2 W has an abscissa congruent to c *)
Definition dsa_valid (e c d : Z) (W : pt1) : Prop :=
  1 <= c < r255 /\ 1 <= d < r255 /\
  exists i x y, (d * i) mod r255 = 1 /\
    padd1 (nmul1 (Z.to_nat ((e * i) mod r255)) G1gen) (nmul1 (Z.to_nat ((c * i) mod r255)) W) = Aff x y /\ fv x mod r255 = c.
(* signing tries numbers u.  c is the abscissa of u G modulo r (0 for the point at infinity)
   and d = (e + s c)/u modulo r; the try fails if one of them is 0 *)
Definition dsa_c (u : Z) : Z :=
  match nmul1 (Z.to_nat u) G1gen with
  | Inf => 0
  | Aff x _ => fv x mod r255
  end.
Definition dsa_d (e s u d : Z) : Prop := 1 <= d < r255 /\ (d * u) mod r255 = (e + s * dsa_c u) mod r255.
Definition dsa_fails (e s u : Z) : Prop := dsa_c u = 0 \/ (e + s * dsa_c u) mod r255 = 0.
(* the i-th number modulo r drawn from a stream of bytes, 64 bytes each *)
Definition draw (f : nat -> Z) (i : nat) : Z := stream_num (fun k => f (64 * i + k)%nat) 510 mod r255.
(* round i of signing draws u and a blinding factor: it fails and is tried again, succeeds, or
   divides by 0 *)
Definition dsa_retry (e s : Z) (f : nat -> Z) (i : nat) : Prop :=
  dsa_fails e s (draw f (2 * i)) /\ (dsa_c (draw f (2 * i)) = 0 \/ draw f (2 * i + 1) <> 0).
Definition dsa_succeeds (e s : Z) (f : nat -> Z) (i : nat) : Prop := ~ dsa_fails e s (draw f (2 * i)) /\ draw f (2 * i + 1) <> 0.
Definition dsa_hangs (f : nat -> Z) (i : nat) : Prop := dsa_c (draw f (2 * i)) <> 0 /\ draw f (2 * i + 1) = 0.
(* the integer of a message by FIPS 186: the leftmost 255 bits of the digest, r having 255 bits *)
Definition fips_int (sha : nat) (m : list Z) : Z := be_int (hfun sha m) / 2 ^ (8 * Z.of_nat sha - 255).
