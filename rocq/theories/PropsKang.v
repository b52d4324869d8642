(* Property theorems about kangaroo of mpin.rs and about what server_2 writes.  The spec
   is SpecMpin; fp12_val and fp12_wf are those of DenoteT, scalar, in_G1, mul1, mul2 (MpinT), buf, answer (MpinU) and reads (MpinV) are those of
   PropsMpin.  None is a panic. *)
From Coq Require Import ZArith List.
From Verif Require Import Prim SpecBytes NumT FieldQ FieldQ2 SpecCurve EcpP Ecp2P Denote Tower SpecPairing DenoteT G1Ord SpecEcdh EcdhP SpecMpin Mpin MpinT MpinU MpinV Kang KangP MpinY.
Import ListNotations.
Open Scope Z_scope.

(* what the two comparisons tell, for f in the subgroup of order q^4 - q^2 + 1 *)
Theorem C138_sound : forall e f, bytes e -> bytes f -> (576 <= length e)%nat -> (576 <= length f)%nat -> kpw (decodes12 f) (q381 ^ 4 - q381 ^ 2 + 1) = k1 ->
  exists d, kangaroo e f = Some d /\
    (d = 0 \/
     (exists dm dn, 0 < dm <= dn + 10511 /\ 200 <= dn <= 102400 /\ d = dm - dn /\ d < 10000 /\ kmul (decodes12 e) (kpw (decodes12 f) dm) = kpw (decodes12 f) dn) \/
     (exists dm dn, 0 < dm <= dn + 10511 /\ 200 <= dn <= 102400 /\ d = dn - dm /\ kmul (decodes12 e) (kpw (decodes12 f) (dm + dn)) = k1)).
Proof. exact kangaroo_sound. Qed.
Print Assumptions C138_sound.

(* the PIN p given for v; the third case is the second comparison, which tells p - v = dm + dn and returns dn - dm *)
Theorem C138_pin : forall e f p v, bytes e -> bytes f -> (576 <= length e)%nat -> (576 <= length f)%nat -> kpw (decodes12 f) r255 = k1 -> decodes12 f <> k1 ->
  0 <= p < 2 ^ 14 -> 0 <= v < 2 ^ 14 -> kmul (decodes12 e) (kpw (decodes12 f) p) = kpw (decodes12 f) v ->
  exists d, kangaroo e f = Some d /\ (d = 0 \/ d = p - v \/ (200 < p - v /\ Z.abs d < p - v)).
Proof. exact kangaroo_pin. Qed.
Print Assumptions C138_pin.

(* on what a failed run of C127 leaves in e and f *)
Theorem C138_run : forall run v p, answer run v p -> v <> p -> 0 <= v < 10000 -> 0 <= p < 10000 -> forall e0 f0, buf 576 e0 -> buf 576 f0 ->
  exists e f d, run (Some e0) (Some f0) = Some (-19, Some e, Some f) /\ kangaroo e f = Some d /\ (d = 0 \/ d = p - v \/ (200 < p - v /\ Z.abs d < p - v)).
Proof. exact answer_kangaroo. Qed.
Print Assumptions C138_run.

(* strings that are too short *)
Theorem C138_short : forall e f, (length e < 576)%nat \/ (length f < 576)%nat -> kangaroo e f = None.
Proof. exact kangaroo_short. Qed.
Print Assumptions C138_short.

(* a rejected response, with e and f asked for *)
Theorem C139_diagnosis : forall date hid htid y sst rx xcid msec e0 f0 u a s U A V,
  bytes sst -> (192 <= length sst)%nat -> 0 <= s -> s mod r255 <> 0 -> decodes2 sst (mul2 s G2gen) ->
  (if date =? 0 then Some rx else xcid) = Some u -> reads u U -> U <> Inf -> scalar y -> (if date =? 0 then Some hid else htid) = Some a -> in_G1 a A -> reads msec V -> V <> Inf ->
  (576 <= length e0)%nat -> (576 <= length f0)%nat ->
  let D := padd1 V (mul1 s (padd1 (mul1 (num_of y) A) U)) in
  let run := server_2 date hid htid y sst (Some rx) xcid msec (Some e0) (Some f0) in
  mul1 h1c D <> Inf ->
  (date = 0 -> exists be bf, run = Some (-19, Some (be ++ skipn 576 e0), Some (bf ++ skipn 576 f0)) /\ length be = 576%nat /\ length bf = 576%nat /\
     decodes12 be = pairing G2gen D /\ decodes12 bf = pairing G2gen (padd1 (mul1 (num_of y) A) U)) /\
  (forall A' U', date <> 0 -> in_G1 hid A' -> reads rx U' -> U' <> Inf ->
     exists be bf, run = Some (-19, Some (be ++ skipn 576 e0), Some (bf ++ skipn 576 f0)) /\ length be = 576%nat /\ length bf = 576%nat /\
     decodes12 be = pairing G2gen D /\ decodes12 bf = pairing G2gen (padd1 (mul1 (num_of y) A') U')) /\
  (forall A' U', date <> 0 -> reads hid A' -> reads rx U' -> A' = Inf \/ U' = Inf ->
     exists be, run = Some (-14, Some (be ++ skipn 576 e0), Some f0) /\ length be = 576%nat /\ decodes12 be = pairing G2gen D).
Proof. exact server_2_tells. Qed.
Print Assumptions C139_diagnosis.
