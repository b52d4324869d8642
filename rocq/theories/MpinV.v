(* The server's decision of mpin.rs in general, and what is wrong with it. *)
From Coq Require Import ZArith List Bool Lia Znumtheory.
From Verif Require Import Prim PrimP Rom Big BigP BigP2 BigP3 BigP5 BigL NumT FieldQ FieldQ2 Fp Fp2 Fp4 Fp12 FpP FpP2 Fp2P Sqrt2P SpecBytes SpecMac SpecRand Utils Api SpecCurve CurveP GroupP
  Ecp Ecp2 EcpP EcpC Ecp2P Ecp2C GenP G1Grp G1Ord Denote KeysP KeysP2 LayerP MapP Tower TowerP Fp4P Fp12P FexpP SpecPairing MillerP3 PsiP BilinP TwistP VerifyP VerifyP2 VerifyP7 DenoteT Rand RandP
  Glv Mul2P Mul4P PinP GlvP MapitP SpecEcdh Ecdh EcdhH EcdhP EcdhQ Pair Pair2 Ate2P SpecMpin Mpin MpinP MpinQ MpinR MpinS MpinT MpinU.
Import ListNotations.
Open Scope Z_scope.
Opaque h1c.

Lemma bytes_repeat0 n : bytes (repeat 0 n).
Proof. induction n as [|n I]; [constructor|]. cbn [repeat]. constructor; [split; lia|exact I]. Qed.
Lemma sel (date : Z) (a b : option (list Z)) : (if negb (date =? 0) then b else a) = (if date =? 0 then a else b). Proof. destruct (date =? 0); reflexivity. Qed.
Lemma eig_s s : eigen (zm2 s G2gen). Proof. apply PsiP.eigen_zm, G2gen_eigen. Qed.
Lemma s_ne s : s mod r255 <> 0 -> zm2 s G2gen <> Inf.
Proof. apply zm2_ne; [exact (proj1 G2gen_eigen)|exact G2gen_ne|exact (eigen_r _ G2gen_eigen)]. Qed.
(* strings that the functions read *)
Definition reads (w : list Z) (p : pt1) : Prop := bytes w /\ long_enough w /\ decodes w p.
Lemma server_2_exact : forall date hid htid y sst xid xcid msec e f u a s U A V,
  bytes sst -> (192 <= length sst)%nat -> 0 <= s -> s mod r255 <> 0 -> decodes2 sst (mul2 s G2gen) ->
  (if date =? 0 then xid else xcid) = Some u -> reads u U -> U <> Inf -> scalar y -> (if date =? 0 then Some hid else htid) = Some a -> in_G1 a A -> reads msec V -> V <> Inf ->
  let D := padd1 V (mul1 s (padd1 (mul1 (num_of y) A) U)) in
  (mul1 h1c D = Inf -> server_2 date hid htid y sst xid xcid msec e f = Some (0, e, f)) /\
  (mul1 h1c D <> Inf -> xid = None \/ e = None \/ f = None -> server_2 date hid htid y sst xid xcid msec e f = Some (-19, e, f)).
Proof.
  intros date hid htid y sst xid xcid msec e f u a s U A V BS LS S0 NS DS HU (BU & LU & DU) NU HY HA GA (BV & LV & DV) NV D. pose proof (scal_nn _ HY) as Y0. destruct HY as (BY & LY & VY).
  apply G1_to in GA. rewrite mul2_zm in DS by exact S0. rewrite <- sel in HU, HA. pose proof (decodes_on _ _ (proj1 (proj2 (proj2 GA)))) as OA. pose proof (decodes_on _ _ DU) as OU. pose proof (decodes_on _ _ DV) as OV.
  unfold D. rewrite (mul1_zm h1c) by exact h1c_pos. rewrite (mul1_zm s) by exact S0. rewrite (mul1_zm (num_of y)) by exact Y0.
  pose proof (verdict2_iff s V (padd1 (zm1 (num_of y) A) U) S0 OV (padd1_on _ _ (zm1_on _ _ OA) OU)) as VI. split.
  - intros Z0. exact (server2_accept date hid htid y sst xid xcid msec e f u a _ U A V BS LS DS (s_ne s NS) (eig_s s) HU BU LU DU NU BY LY VY HA GA BV LV DV NV (proj2 VI Z0)).
  - intros Z0 C. refine (server2_reject date hid htid y sst xid xcid msec e f u a _ U A V BS LS DS (s_ne s NS) (eig_s s) HU BU LU DU NU BY LY VY HA GA BV LV DV NV _ C). intros VV. exact (Z0 (proj1 VI VV)).
Qed.
(* what is not a point, or is missing *)
Lemma read_any w p : reads w p -> exists a, ecp_frombytes w = Some a /\ ecpR 2 2 p a /\ exists b, ecp_is_infinity a = Some b /\ (b = true <-> p = Inf).
Proof. intros (B & L & D). destruct (frombytes_eq w p B L D) as (a & E & R). exists a. split; [exact E|]. split; [exact R|]. apply (inf_eq 2 2 p a R); lia. Qed.
Lemma inf2_eq p a : ecp2A 1 2 p a -> exists b, ecp2_is_infinity a = Some b /\ (b = true <-> p = Inf).
Proof. intros R. exact (ok_ex _ _ (ecp2_is_infinity_ok 1 2 p a (ecp2A_R _ _ _ _ R) ltac:(lia) ltac:(lia))). Qed.
Lemma server_2_invalid : forall date hid htid y sst xid xcid msec e f S, bytes sst -> (192 <= length sst)%nat -> decodes2 sst S ->
  let run := server_2 date hid htid y sst xid xcid msec e f in
  (S = Inf -> run = Some (-14, e, f)) /\
  (S <> Inf -> (if date =? 0 then xid else xcid) = None -> run = Some (-11, e, f)) /\
  (forall u U, S <> Inf -> (if date =? 0 then xid else xcid) = Some u -> reads u U ->
     (U = Inf -> run = Some (-14, e, f)) /\
     (U <> Inf -> scalar y ->
        ((if date =? 0 then Some hid else htid) = None -> run = Some (-11, e, f)) /\
        (forall a A, (if date =? 0 then Some hid else htid) = Some a -> reads a A ->
           (A = Inf -> run = Some (-14, e, f)) /\
           (forall V, A <> Inf -> mul1 r255 A = Inf -> reads msec V -> V = Inf -> run = Some (-14, e, f))))).
Proof.
  intros date hid htid y sst xid xcid msec e f S BS LS DS run. unfold run, server_2. rewrite !sel. destruct (ok_ex _ _ gen2_ok) as (Q & EQ & RQ). rewrite EQ. cbn [bind].
  destruct (ok_ex _ _ (from2 sst S BS LS DS)) as (sq & ESQ & RSQ). rewrite ESQ. cbn [bind]. destruct (inf2_eq S sq RSQ) as (b & EB & HB). rewrite EB. cbn [bind].
  split; [intros E; rewrite (proj2 HB E); reflexivity|]. assert (BF : S <> Inf -> b = false) by (intros N; destruct b; [destruct (N (proj1 HB eq_refl))|reflexivity]).
  split; [intros N HU; rewrite (BF N), HU; reflexivity|]. intros u U N HU RU. rewrite (BF N), HU. destruct (read_any u U RU) as (r & ER & RR & bu & EBU & HBU). rewrite ER. cbn [bind]. rewrite EBU. cbn [bind].
  split; [intros E; rewrite (proj2 HBU E); reflexivity|]. intros NU (BY & LY & VY). assert (FU : bu = false) by (destruct bu; [destruct (NU (proj1 HBU eq_refl))|reflexivity]). rewrite FU.
  destruct (num_rep y BY LY) as (sy & ESY & RSY). rewrite ESY. cbn [bind]. split; [intros HA; rewrite HA; reflexivity|]. intros a A HA RA. rewrite HA.
  destruct (read_any a A RA) as (pa & EA & RPA & ba & EBA & HBA). rewrite EA. cbn [bind]. rewrite EBA. cbn [bind]. split; [intros E; rewrite (proj2 HBA E); reflexivity|].
  intros V NA KA RV EV. rewrite mul1_zm in KA by (pose proof r255_pos; lia). assert (FA : ba = false) by (destruct ba; [destruct (NA (proj1 HBA eq_refl))|reflexivity]). rewrite FA.
  destruct (g1_R2 A pa sy _ RPA KA RSY VY) as (m & EM & RM). rewrite EM. cbn [bind].
  destruct (ok_ex _ _ (ecp_add_ok 1 2 5 2 _ _ m r (ecpA_R5 _ _ RM) RR ltac:(lia) ltac:(lia) ltac:(lia) ltac:(lia))) as (k & EK & RK). rewrite EK. cbn [bind].
  destruct (ok_ex _ _ (ecp_affine_ok 1 5 _ k RK ltac:(lia) ltac:(lia))) as (P & EP & RP). rewrite EP. cbn [bind].
  destruct (read_any msec V RV) as (v & EMV & RMV & bv & EBV & HBV). rewrite EMV. cbn [bind]. rewrite EBV. cbn [bind]. rewrite (proj2 HBV EV). reflexivity.
Qed.

(* ------------------------------ small orders ------------------------------ *)
Definition T3 : pt1 := Aff f0 (mkq 2).
Lemma T3_on : on1 T3. Proof. exact on02. Qed.
Lemma T3_h : zm1 h1c T3 = Inf. Proof. exact (h1c_div3 T3 on02 (order3 _ on02)). Qed.
Lemma T3_r : zm1 r255 T3 = T3.
Proof. rewrite <- (zm1_mod r255 3 T3 on02 (order3 _ on02) ltac:(lia)), r3. apply zm1_1. Qed.
Lemma T3_ne : T3 <> Inf. Proof. discriminate. Qed.
#[global] Opaque T3.
Lemma enc_reads p t : on1 p -> bytes t -> reads (enc_pt p ++ t) p.
Proof. intros O B. split; [apply bytes_app; [apply enc_bytes|exact B]|]. split; [apply enc_long|apply enc_decodes, O]. Qed.
Lemma num_be v t : 0 <= v < 2 ^ 384 -> num_of (be_bytes 48 v ++ t) = v.
Proof. intros V. unfold num_of. rewrite firstn_exact by apply be_bytes_length. apply be_int_48, V. Qed.
(* a response by someone who knows no secret, to a commitment made after the challenge *)
Lemma outsider : forall hid y sst e f A s t, bytes sst -> (192 <= length sst)%nat -> 0 <= s -> s mod r255 <> 0 -> decodes2 sst (mul2 s G2gen) -> scalar y -> in_G1 hid A -> bytes t ->
  let U := padd1 (pneg1 (mul1 (num_of y) A)) T3 in
  server_2 0 hid None y sst (Some (enc_pt U ++ t)) None (enc_pt T3 ++ t) e f = Some (0, e, f).
Proof.
  intros hid y sst e f A s t BS LS S0 NS DS HY GA BT U. pose proof (G1_to _ _ GA) as (_ & _ & DA & _ & KA). pose proof (decodes_on _ _ DA) as OA. pose proof (scal_nn _ HY) as Y0.
  pose proof T3_on as OT. assert (OY : on1 (zm1 (num_of y) A)) by apply zm1_on, OA. assert (EU : U = padd1 (pneg1 (zm1 (num_of y) A)) T3) by (unfold U; rewrite mul1_zm by exact Y0; reflexivity).
  assert (OU : on1 U) by (rewrite EU; apply padd1_on; [apply pneg1_on, OY|exact OT]).
  assert (NU : U <> Inf).
  { intros C. assert (R : zm1 r255 U = T3). { rewrite EU, zm1_dist by (try exact OT; apply pneg1_on, OY). rewrite (sub_neg _ OY (sub_on _ A OA KA)), T3_r. reflexivity. } rewrite C, zm1_zero in R. exact (T3_ne (eq_sym R)). }
  refine (proj1 (server_2_exact 0 hid None y sst (Some (enc_pt U ++ t)) None (enc_pt T3 ++ t) e f _ hid s U A T3 BS LS S0 NS DS eq_refl (enc_reads U t OU BT) NU HY eq_refl GA (enc_reads T3 t OT BT) T3_ne) _).
  rewrite (mul1_zm h1c) by exact h1c_pos. rewrite (mul1_zm s) by exact S0. rewrite (mul1_zm (num_of y)) by exact Y0.
  assert (E : padd1 (zm1 (num_of y) A) U = T3).
  { rewrite EU, <- padd1_assoc by (try assumption; apply pneg1_on, OY). rewrite (padd1_neg _ OY). reflexivity. }
  rewrite E. rewrite zm1_dist by (try exact OT; apply zm1_on, OT). rewrite <- zm1_mul, Z.mul_comm, zm1_mul, T3_h by exact OT. rewrite zm1_zero. reflexivity.
Qed.
Lemma sec_one : exists sst, bytes sst /\ (192 <= length sst)%nat /\ decodes2 sst (mul2 1 G2gen).
Proof.
  destruct (server_S (be_bytes 48 1) (repeat 0 192) (be_bytes_bytes 48 1) ltac:(rewrite be_bytes_length; lia)) as (w & _ & B & L & D & _).
  - rewrite <- (app_nil_r (be_bytes 48 1)), num_be by lia. discriminate.
  - split; [apply bytes_repeat0|rewrite repeat_length; lia].
  - exists w. split; [exact B|]. split; [exact L|]. rewrite mul2_zm by lia. rewrite <- (app_nil_r (be_bytes 48 1)), num_be in D by lia. exact D.
Qed.
Lemma scal_be v t : 0 <= v < 2 ^ 382 -> bytes t -> scalar (be_bytes 48 v ++ t).
Proof. intros V B. split; [apply bytes_app; [apply be_bytes_bytes|exact B]|]. split; [rewrite app_length, be_bytes_length; lia|]. rewrite num_be by lia. lia. Qed.
Lemma G1gen_in t : bytes t -> in_G1 (enc_pt G1gen ++ t) G1gen.
Proof. intros B. apply G1_of, isG1_enc; [exact G1gen_on|discriminate|exact G1gen_order|exact B]. Qed.
(* an accepted response need not lie in the group of order r, and is not the only one *)
Lemma response_refuted : exists hid y sst xid A U V V', (exists s, 0 <= s /\ s mod r255 <> 0 /\ decodes2 sst (mul2 s G2gen)) /\ in_G1 hid A /\ scalar y /\ in_G1 xid U /\
  in_G1 (enc_pt V) V /\ on1 V' /\ V' <> V /\ mul1 r255 V' <> Inf /\
  (forall e f, server_2 0 hid None y sst (Some xid) None (enc_pt V) e f = Some (0, e, f)) /\
  (forall e f, server_2 0 hid None y sst (Some xid) None (enc_pt V') e f = Some (0, e, f)).
Proof.
  destruct sec_one as (sst & BS & LS & DS). set (y := be_bytes 48 1 ++ []). assert (HY : scalar y) by (apply scal_be; [lia|constructor]). assert (NY : num_of y = 1) by (apply num_be; lia).
  pose proof (G1gen_in [] (Forall_nil _)) as GG. set (g := enc_pt G1gen ++ []) in GG. set (V := zm1 (-2) G1gen). pose proof T3_on as OT. pose proof G1gen_on as OG.
  assert (OV : on1 V) by (apply zm1_on, OG). assert (KV : zm1 r255 V = Inf) by (apply sub_on; [exact OG|exact G1gen_order]).
  assert (NV : V <> Inf) by (apply zm1_ne; [exact OG|discriminate|exact G1gen_order|vm_compute; discriminate]). set (V' := padd1 V T3).
  assert (OV' : on1 V') by (apply padd1_on; assumption). assert (RV' : zm1 r255 V' = T3) by (unfold V'; rewrite zm1_dist, KV, T3_r by assumption; reflexivity).
  assert (NV' : V' <> Inf) by (intros C; rewrite C, zm1_zero in RV'; exact (T3_ne (eq_sym RV'))).
  assert (R0 : 0 <= r255) by (pose proof r255_pos; lia).
  assert (EK : padd1 (mul1 (num_of y) G1gen) G1gen = zm1 2 G1gen) by (rewrite NY, mul1_zm, zm1_1, zm1_2 by lia; reflexivity).
  assert (OK2 : on1 (zm1 2 G1gen)) by (apply zm1_on, OG). assert (EV : padd1 V (zm1 2 G1gen) = Inf) by (unfold V; rewrite <- zm1_add by exact OG; apply zm1_0).
  assert (X : forall W, reads (enc_pt W) W -> W <> Inf -> zm1 h1c (padd1 W (zm1 2 G1gen)) = Inf -> forall e f, server_2 0 g None y sst (Some g) None (enc_pt W) e f = Some (0, e, f)).
  { intros W RW NW HW e f. refine (proj1 (server_2_exact 0 g None y sst (Some g) None (enc_pt W) e f g g 1 G1gen G1gen W BS LS ltac:(lia) ltac:(discriminate) DS eq_refl _ ltac:(discriminate) HY eq_refl GG RW NW) _).
    - destruct GG as (A1 & A2 & A3 & _). split; [exact A1|]. split; assumption.
    - rewrite EK, (mul1_zm 1), zm1_1, (mul1_zm h1c) by (try exact h1c_pos; lia). exact HW. }
  assert (ER : forall W, on1 W -> reads (enc_pt W) W) by (intros W OW; rewrite <- (app_nil_r (enc_pt W)); apply enc_reads; [exact OW|constructor]).
  exists g, y, sst, g, G1gen, G1gen, V, V'. split; [exists 1; split; [lia|]; split; [discriminate|exact DS]|]. split; [exact GG|]. split; [exact HY|]. split; [exact GG|].
  split; [rewrite <- (app_nil_r (enc_pt V)); apply G1_of, isG1_enc; [exact OV|exact NV|exact KV|constructor]|]. split; [exact OV'|].
  split; [intros C; rewrite C, KV in RV'; exact (T3_ne (eq_sym RV'))|]. split; [rewrite mul1_zm, RV' by exact R0; exact T3_ne|]. split.
  - apply X; [apply ER, OV|exact NV|rewrite EV; apply zm1_zero].
  - apply X; [apply ER, OV'|exact NV'|]. unfold V'. rewrite (padd1_comm V T3), padd1_assoc, EV, padd1_0r by assumption. exact T3_h.
Qed.

(* --------------------------- unsupported hash sizes --------------------------- *)
Lemma map_id_bad chk fuel sha n id : ~ is_sha sha -> map_id chk fuel sha n id = (P <- ecp_mapit fuel (repeat 0 48) ;; Some (repeat 0 48, P)).
Proof. intros NS. unfold map_id. rewrite mhashit_bad by exact NS. reflexivity. Qed.
Lemma unsupported_hash : forall chk fuel sha date id id' hid htid w, ~ is_sha sha ->
  hash_id chk sha id w = Some (false, w) /\ server_1 chk fuel sha date id hid htid = server_1 chk fuel sha date id' hid htid.
Proof. intros chk fuel sha date id id' hid htid w NS. split; [exact (mhashit_bad chk sha 0 id w NS)|]. unfold server_1. rewrite !map_id_bad by exact NS. reflexivity. Qed.
Lemma unsupported_refuted : exists fuel sha id id' hid A, ~ is_sha sha /\ id <> id' /\ in_G1 hid A /\
  (forall chk, server_1 chk fuel sha 0 id (repeat 0 97) None = Some (hid, None)) /\ (forall chk, server_1 chk fuel sha 0 id' (repeat 0 97) None = Some (hid, None)).
Proof.
  destruct (mapit_R (repeat 0 48) (bytes_repeat0 48) ltac:(rewrite repeat_length; lia)) as (A & a & M & OA & NA & KA & RA & FA). exists (Z.to_nat q381), 20%nat, [1], [2], (enc_pt A ++ []), A.
  assert (NS : ~ is_sha 20) by (intros [C|[C|C]]; discriminate C). assert (F : q381 <= Z.of_nat (Z.to_nat q381)) by lia.
  assert (X : forall chk id, server_1 chk (Z.to_nat q381) 20 0 id (repeat 0 97) None = Some (enc_pt A ++ [], None)).
  { intros chk id. unfold server_1. rewrite map_id_bad by exact NS. rewrite (FA _ F). cbn [bind].
    destruct (write1 1 5 A a (repeat 0 97) RA ltac:(lia) ltac:(lia) NA KA ltac:(rewrite repeat_length; lia)) as (a' & E1 & _ & E2). rewrite E1. cbn [bind]. rewrite E2. cbn [bind Z.eqb negb]. reflexivity. }
  split; [exact NS|]. split; [discriminate|]. split; [apply G1_of, isG1_enc; [exact OA|exact NA|exact KA|constructor]|]. split; intros chk; apply X.
Qed.

(* ------------------------------ a date without a permit ------------------------------ *)
Lemma no_permit : forall chk fuel sha date id x pin token sec xid xcid A p, ident chk sha id -> q381 <= Z.of_nat fuel -> map_pt (mp_hash sha 0 id) A -> date <> 0 -> scalar x ->
  in_G1 token p -> pin_val pin <> 0 -> buf 97 sec -> padd1 (padd1 p (mul1 (pin_val pin) A)) (mul1 (pin_val pin) A) <> Inf ->
  (xid = None /\ xcid = None) ->
  client_1 chk fuel sha date id None x pin token sec xid xcid None =
    Some (0, x, enc_pt (padd1 (padd1 p (mul1 (pin_val pin) A)) (mul1 (pin_val pin) A)) ++ skipn 97 sec, None, None, None).
Proof.
  intros chk fuel sha date id x pin token sec xid xcid A p ID FU M D0 HX GT NP [_ LS] N [-> ->]. destruct ID as (IS & BI & HS). destruct HX as (BX & LX & VX). apply G1_to in GT. destruct GT as (BT & LT & DT & NT & KT).
  destruct (map_id_ok chk fuel sha 0 id A IS BI HS FU M) as (OA & NA & KA & a & MA & RA).
  destruct (every_point chk sha date (mp_hash sha 0 id) (conj IS (conj (mp_hash_bytes sha 0 id IS BI) (hsafe_le chk sha id _ HS ltac:(rewrite mp_hash_len; lia))))) as (B & MB & _).
  destruct (map_id_ok chk fuel sha date (mp_hash sha 0 id) B IS (mp_hash_bytes sha 0 id IS BI) (hsafe_le chk sha id _ HS ltac:(rewrite mp_hash_len; lia)) FU MB) as (OB & NB & KB & b & EB & RB).
  destruct (read1 token p BT LT DT NT) as (t & ET & RT & IT). destruct (num_rep x BX LX) as (sx & EX & RSX). pose proof (pin_range pin) as PR. rewrite mul1_zm in * by apply PR.
  unfold client_1, secret. rewrite EX. cbn [bind]. rewrite MA. cbn [bind]. rewrite ET. cbn [bind]. rewrite IT. cbn [bind].
  destruct (pinmul_R a (Z.rem (as_i32 pin) MAXPIN) PBLEN A RA pbl) as (c & EC & RC). rewrite EC. cbn [bind]. rewrite pin_eq in RC.
  destruct (ok_ex _ _ (ecp_add_ok 2 1 2 5 _ _ t c RT RC ltac:(lia) ltac:(lia) ltac:(lia) ltac:(lia))) as (d & ED & RD). rewrite ED. cbn [bind].
  assert (NW : zm1 (pin_val pin) A <> Inf). { apply zm1_ne; try assumption. assert (R : 2 ^ 14 < r255) by reflexivity. rewrite Z.mod_small by lia. exact NP. }
  unfold client_1_date. rewrite (proj2 (Z.eqb_neq date 0) D0). cbn [negb bind]. rewrite (is_inf_false 1 5 _ c RC ltac:(lia) ltac:(lia) NW). cbn [bind].
  destruct (ok_ex _ _ (ecp_add_ok 1 1 5 5 _ _ d c RD RC ltac:(lia) ltac:(lia) ltac:(lia) ltac:(lia))) as (d2 & ED2 & RD2). rewrite ED2. cbn [bind]. rewrite EB. cbn [bind].
  destruct (ok_ex _ _ (ecp_add_ok 1 1 5 5 _ _ a b RA RB ltac:(lia) ltac:(lia) ltac:(lia) ltac:(lia))) as (k & EK & RK). rewrite EK. cbn [bind].
  destruct (g1_R 1 _ k sx _ RK ltac:(lia) (sub_add A B OA OB KA KB) RSX VX) as (m & EM & RM). rewrite EM. cbn [bind write_opt].
  assert (OP : on1 p) by exact (decodes_on _ _ DT). assert (OW : on1 (zm1 (pin_val pin) A)) by apply zm1_on, OA. assert (KW : zm1 r255 (zm1 (pin_val pin) A) = Inf) by (apply sub_on; assumption).
  assert (K2 : zm1 r255 (padd1 (padd1 p (zm1 (pin_val pin) A)) (zm1 (pin_val pin) A)) = Inf) by (apply sub_add; [apply padd1_on; assumption|exact OW|apply sub_add; assumption|exact KW]).
  destruct (write1 1 5 _ d2 sec RD2 ltac:(lia) ltac:(lia) N K2 LS) as (d' & E1 & _ & E2). rewrite E1. cbn [bind]. rewrite E2. reflexivity.
Qed.
Lemma no_permit_refuted : exists fuel sha date id x pin token sec, date <> 0 /\ client_1 false fuel sha date id None x pin token (repeat 0 97) None None None = Some (0, x, sec, None, None, None).
Proof.
  assert (ID : ident false 32 []) by (split; [left; reflexivity|]; split; [constructor|left; reflexivity]). destruct (every_point false 32 0 [] ID) as (A & M & OA & NA & KA & _).
  assert (R0 : 0 <= r255) by (pose proof r255_pos; lia). rewrite mul1_zm in KA by exact R0. assert (RB : 3 < r255) by reflexivity. assert (P1 : pin_val 1 = 1) by reflexivity.
  assert (E3 : padd1 (padd1 A (mul1 (pin_val 1) A)) (mul1 (pin_val 1) A) = zm1 3 A). { rewrite P1, mul1_zm, zm1_1 by lia. rewrite <- (zm1_1 A) at 1 2 3. rewrite <- !zm1_add by exact OA. reflexivity. }
  exists (Z.to_nat q381), 32%nat, 1, [], (be_bytes 48 1 ++ []), 1, (enc_pt A ++ []), (enc_pt (zm1 3 A) ++ skipn 97 (repeat 0 97)). split; [discriminate|]. rewrite <- E3.
  apply (no_permit false (Z.to_nat q381) 32 1 [] _ 1 _ (repeat 0 97) None None A A ID ltac:(lia) M ltac:(discriminate)).
  - apply scal_be; [lia|constructor].
  - apply G1_of, isG1_enc; [exact OA|exact NA|exact KA|constructor].
  - rewrite P1. discriminate.
  - split; [apply bytes_repeat0|rewrite repeat_length; lia].
  - rewrite E3. apply zm1_ne; [exact OA|exact NA|exact KA|]. rewrite Z.mod_small by lia. discriminate.
  - split; reflexivity.
Qed.
(* y of the one-pass protocol *)
Lemma get_y_value : forall chk sha t u y, ident chk sha u -> buf 48 y -> get_y chk sha t u y = Some (be_bytes 48 (be_int (mp_hash sha t u) mod r255) ++ skipn 48 y).
Proof.
  intros chk sha t u y (IS & BU & HS) [_ LY]. unfold get_y. rewrite (mhashit_ok chk sha t u (repeat 0 48) IS BU HS (Nat.le_refl 48)). cbn [bind]. assert (Z48 : skipn 48 (repeat 0 48) = []) by reflexivity. rewrite Z48, app_nil_r.
  destruct (num_rep (mp_hash sha t u) (mp_hash_bytes sha t u IS BU) ltac:(rewrite mp_hash_len; lia)) as (c & EC & RC). rewrite EC. cbn [bind].
  destruct (B_rmod c _ CURVE_ORDER r255 RC order_nrep r255_pos) as (d & ED & RD). rewrite ED. cbn [bind]. rewrite (B_tobytes _ _ RD). cbn [bind].
  unfold num_of. rewrite firstn_all2 by (rewrite mp_hash_len; lia). apply put_front; [apply be_bytes_length|exact LY].
Qed.
(* a multiple of a given point *)
Lemma g1_multiple : forall fuel x g w p, scalar x -> num_of x mod r255 <> 0 -> in_G1 g p -> (97 <= length w)%nat ->
  get_g1_multiple fuel None 0 x g w = Some (0, x, enc_pt (mul1 (num_of x) p) ++ skipn 97 w, None).
Proof.
  intros fuel x g w p HX NX GG LW. rewrite mul1_zm by (apply scal_nn, HX). destruct HX as (BX & LX & VX). apply G1_to in GG. destruct GG as (BG & LG & DG & NG & KG). destruct (read1 g p BG LG DG NG) as (a & EA & RA & IA).
  destruct (num_rep x BX LX) as (e & EE & RE). unfold get_g1_multiple, secret. rewrite EE. cbn [bind Nat.eqb]. rewrite EA. cbn [bind]. rewrite IA. cbn [bind]. destruct (g1_R2 p a e _ RA KG RE VX) as (c & EC & RC). rewrite EC. cbn [bind].
  pose proof (decodes_on _ _ DG) as OG. destruct (write1 1 5 _ c w (ecpA_R5 _ _ RC) ltac:(lia) ltac:(lia) (zm1_ne _ p OG NG KG NX) (sub_on _ p OG KG) LW) as (a' & E1 & _ & E2). rewrite E1. cbn [bind]. rewrite E2. reflexivity.
Qed.
(* PINs that agree modulo 10000 are the same *)
Lemma pins_refuted : exists fuel sha id s pin pin' x y cst token sst sec xid hid sec2 hcid, pin <> pin' /\ 0 <= pin < 100000 /\ 0 <= pin' < 100000 /\
  hash_id false sha id (repeat 0 48) = Some (true, hcid) /\ get_client_secret fuel s hcid (repeat 0 97) = Some (0, cst) /\ extract_pin false fuel sha id pin cst = Some (0, token) /\
  get_server_secret s (repeat 0 192) = Some (0, sst) /\ client_1 false fuel sha 0 id None x pin' token (repeat 0 97) (Some (repeat 0 97)) None None = Some (0, x, sec, Some xid, None, None) /\
  server_1 false fuel sha 0 id (repeat 0 97) None = Some (hid, None) /\ client_2 x y sec = Some (0, sec2) /\ server_2 0 hid None y sst (Some xid) None sec2 None None = Some (0, None, None).
Proof.
  assert (R : 40000 < r255) by reflexivity. assert (NB : forall v, 0 <= v < 2 ^ 382 -> num_of (be_bytes 48 v) = v) by (intros v V; rewrite <- (app_nil_r (be_bytes 48 v)); apply num_be; lia).
  assert (SB : forall v, 0 <= v < 2 ^ 382 -> scalar (be_bytes 48 v)) by (intros v V; rewrite <- (app_nil_r (be_bytes 48 v)); apply scal_be; [exact V|constructor]).
  assert (BB : forall n, buf n (repeat 0 n)) by (intros n; split; [apply bytes_repeat0|rewrite repeat_length; lia]).
  destruct (mpin_run false (Z.to_nat q381) 32 [] (be_bytes 48 20000) 2345 12345 (be_bytes 48 1) (be_bytes 48 1) (repeat 0 97) (repeat 0 192) (repeat 0 97) (repeat 0 97) (repeat 0 97))
    as (hcid & cst & token & sst & sec & xid & hid & sec2 & H1 & H2 & H3 & H4 & H5 & H6 & H7 & H8 & _).
  - split; [left; reflexivity|]. split; [constructor|]. left. reflexivity.
  - lia.
  - apply SB. lia.
  - apply SB. lia.
  - apply SB. lia.
  - lia.
  - lia.
  - apply BB.
  - apply BB.
  - apply BB.
  - apply BB.
  - apply BB.
  - rewrite NB, Z.mod_small by lia. lia.
  - rewrite NB by lia. change (2345 mod 10000) with 2345. rewrite Z.mod_small by lia. lia.
  - rewrite NB by lia. change (2345 mod 10000) with 2345. change (12345 mod 10000) with 2345. rewrite Z.mod_small by lia. lia.
  - rewrite NB, Z.mod_small by lia. lia.
  - rewrite NB, Z.mod_small by lia. lia.
  - exists (Z.to_nat q381), 32%nat, [], (be_bytes 48 20000), 2345, 12345, (be_bytes 48 1), (be_bytes 48 1), cst, token, sst, sec, xid, hid, sec2, hcid.
    split; [lia|]. split; [lia|]. split; [lia|]. split; [exact H1|]. split; [exact H2|]. split; [exact H3|]. split; [exact H4|]. split; [exact H5|]. split; [exact H6|]. split; [exact H7|]. exact (H8 eq_refl None None).
Qed.
