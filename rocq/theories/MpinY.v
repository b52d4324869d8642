(* What server_2 of mpin.rs writes to e and f when it rejects. *)
From Coq Require Import ZArith List Bool Lia Znumtheory.
From Verif Require Import Prim PrimP Rom Big BigP BigP2 BigP3 BigP5 BigL NumT FieldQ FieldQ2 Fp Fp2 Fp4 Fp12 FpP FpP2 Fp2P Sqrt2P SpecBytes SpecMac SpecRand Utils Api SpecCurve CurveP GroupP
  Ecp Ecp2 EcpP EcpC Ecp2P Ecp2C GenP G1Grp G1Ord Denote KeysP KeysP2 LayerP MapP Tower TowerP Fp4P Fp12P FexpP SpecPairing MillerP3 PsiP BilinP TwistP VerifyP VerifyP2 VerifyP7 DenoteT Rand RandP
  Glv Mul2P Mul4P PinP GlvP MapitP SpecEcdh Ecdh EcdhH EcdhP EcdhQ Pair Pair2 Ate2P SpecMpin Mpin MpinP MpinQ MpinR MpinS MpinT MpinU MpinV Kang KangP.
Import ListNotations.
Open Scope Z_scope.
Opaque h1c.

Lemma server_2_tells : forall date hid htid y sst rx xcid msec e0 f0 u a s U A V,
  bytes sst -> (192 <= length sst)%nat -> 0 <= s -> s mod r255 <> 0 -> decodes2 sst (mul2 s G2gen) ->
  (if date =? 0 then Some rx else xcid) = Some u -> reads u U -> U <> Inf -> scalar y -> (if date =? 0 then Some hid else htid) = Some a -> in_G1 a A -> reads msec V -> V <> Inf ->
  (576 <= length e0)%nat -> (576 <= length f0)%nat ->
  let D := padd1 V (mul1 s (padd1 (mul1 (num_of y) A) U)) in
  let run := server_2 date hid htid y sst (Some rx) xcid msec (Some e0) (Some f0) in
  mul1 h1c D <> Inf ->
  (date = 0 -> exists be bf, run = Some (-19, Some (be ++ skipn 576 e0), Some (bf ++ skipn 576 f0)) /\ length be = 576%nat /\ length bf = 576%nat /\
     decodes12 be = pairing G2gen D /\ decodes12 bf = pairing G2gen (padd1 (mul1 (num_of y) A) U)) /\
  (forall A' U', date <> 0 -> in_G1 hid A' -> reads rx U' -> U' <> Inf ->
     exists be bf, run = Some (-19, Some (be ++ skipn 576 e0), Some (bf ++ skipn 576 f0)) /\ length be = 576%nat /\ length bf = 576%nat /\
     decodes12 be = pairing G2gen D /\ decodes12 bf = pairing G2gen (padd1 (mul1 (num_of y) A') U')) /\
  (forall A' U', date <> 0 -> reads hid A' -> reads rx U' -> A' = Inf \/ U' = Inf ->
     exists be, run = Some (-14, Some (be ++ skipn 576 e0), Some f0) /\ length be = 576%nat /\ decodes12 be = pairing G2gen D).
Proof.
  intros date hid htid y sst rx xcid msec e0 f0 u a s U A V BS LS S0 NS DS HU (BU & LU & DU) NU HY HA GA (BV & LV & DV) NV L0 L1 D run. pose proof (scal_nn _ HY) as Y0. destruct HY as (BY & LY & VY).
  apply G1_to in GA. rewrite mul2_zm in DS by exact S0. rewrite <- sel in HU, HA. pose proof (decodes_on _ _ (proj1 (proj2 (proj2 GA)))) as OA. pose proof (decodes_on _ _ DU) as OU. pose proof (decodes_on _ _ DV) as OV.
  unfold D, run. clear D run. rewrite (mul1_zm h1c) by exact h1c_pos. rewrite (mul1_zm s) by exact S0. rewrite (mul1_zm (num_of y)) by exact Y0.
  pose proof (padd1_on _ _ (zm1_on (num_of y) _ OA) OU) as OK.
  pose proof (verdict2_iff s V (padd1 (zm1 (num_of y) A) U) S0 OV OK) as VI. rewrite <- (verdict2_pt s V _ S0 OV OK). intros Z0.
  assert (NV2 : verdict2 (zm2 s G2gen) V (padd1 (zm1 (num_of y) A) U) <> k1) by (intros VV; exact (Z0 (proj1 VI VV))). clear Z0 VI. split; [|split].
  - intros D0. destruct (server2_diag0 date hid htid y sst (Some rx) xcid msec (Some e0) (Some f0) u a _ U A V BS LS DS (s_ne s NS) (eig_s s) HU BU LU DU NU BY LY VY HA GA BV LV DV NV e0 f0 D0 eq_refl eq_refl L0 L1 NV2)
      as (e1 & f1 & SV & (be & -> & _ & M1 & X1) & (bf & -> & _ & M2 & X2)).
    exists be, bf. split; [exact SV|]. split; [exact M1|]. split; [exact M2|]. split; [rewrite <- (app_nil_r be); apply X1|rewrite <- (app_nil_r bf); apply X2].
  - intros A' U' D0 GA' (BX & LX & DX) NX. apply G1_to in GA'. rewrite (mul1_zm (num_of y)) by exact Y0.
    destruct (server2_diagd date hid htid y sst (Some rx) xcid msec (Some e0) (Some f0) u a _ U A V BS LS DS (s_ne s NS) (eig_s s) HU BU LU DU NU BY LY VY HA GA BV LV DV NV e0 f0 rx A' U' D0 eq_refl eq_refl eq_refl L0 L1 GA' BX LX DX NX NV2)
      as (e1 & f1 & SV & (be & -> & _ & M1 & X1) & (bf & -> & _ & M2 & X2)).
    exists be, bf. split; [exact SV|]. split; [exact M1|]. split; [exact M2|]. split; [rewrite <- (app_nil_r be); apply X1|rewrite <- (app_nil_r bf); apply X2].
  - intros A' U' D0 RH RX BAD.
    destruct (server2_core date hid htid y sst (Some rx) xcid msec (Some e0) (Some f0) u a _ U A V BS LS DS (s_ne s NS) (eig_s s) HU BU LU DU NU BY LY VY HA GA BV LV DV NV) as (Q & P & sy & g & _ & _ & _ & RG & _ & H).
    rewrite (H NV2). clear H. destruct (ok_ex _ _ (fp12_tobytes_ok 1 1 _ g (fp12C_R _ _ RG) ltac:(lia) ltac:(lia))) as (be & EB & BB & LB & DB).
    exists be. split; [|split; [exact LB|rewrite <- (app_nil_r be); apply DB]]. unfold server_2_diag. rewrite EB. cbn [bind]. rewrite (put_front e0 be 576 LB L0). cbn [bind].
    rewrite (proj2 (Z.eqb_neq date 0) D0). cbn [negb]. destruct (read_any hid A' RH) as (pa & EA & _ & ba & EBA & HBA). rewrite EA. cbn [bind]. rewrite EBA. cbn [bind].
    destruct ba; [reflexivity|]. assert (UI : U' = Inf) by (destruct BAD as [C|C]; [discriminate (proj2 HBA C)|exact C]).
    destruct (read_any rx U' RX) as (pr & ER & _ & br & EBR & HBR). rewrite ER. cbn [bind]. rewrite EBR. cbn [bind]. rewrite (proj2 HBR UI). reflexivity.
Qed.
(* kangaroo on what a failed run leaves *)
Lemma answer_kangaroo : forall run v p, answer run v p -> v <> p -> 0 <= v < 10000 -> 0 <= p < 10000 -> forall e0 f0, buf 576 e0 -> buf 576 f0 ->
  exists e f d, run (Some e0) (Some f0) = Some (-19, Some e, Some f) /\ kangaroo e f = Some d /\ (d = 0 \/ d = p - v \/ (200 < p - v /\ Z.abs d < p - v)).
Proof.
  intros run v p [_ AN] NE V P e0 f0 B0 B1. destruct (proj2 (AN NE) e0 f0 B0 B1) as (e & f & R & [BE LE] & [BF LF] & N1 & KR & EQ).
  destruct (kangaroo_pin e f p v BE BF LE LF KR N1 ltac:(lia) ltac:(lia) EQ) as (d & KD & D). exists e, f, d. split; [exact R|]. split; [exact KD|exact D].
Qed.
