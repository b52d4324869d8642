(* Proofs about mpin.rs: the server's decision. *)
From Coq Require Import ZArith List Bool Lia Znumtheory.
From Verif Require Import Prim PrimP Rom Big BigP BigP2 BigP3 BigP5 BigL NumT FieldQ FieldQ2 Fp Fp2 Fp4 Fp12 FpP FpP2 Fp2P Sqrt2P SpecBytes SpecMac SpecRand Utils Api SpecCurve CurveP GroupP
  Ecp Ecp2 EcpP EcpC Ecp2P Ecp2C GenP G1Grp G1Ord Denote KeysP KeysP2 LayerP MapP Tower TowerP Fp4P Fp12P FexpP SpecPairing MillerP3 PsiP BilinP TwistP VerifyP VerifyP2 VerifyP7 DenoteT Rand RandP
  Glv Mul2P Mul4P PinP GlvP MapitP SpecEcdh Ecdh EcdhH EcdhP EcdhQ Pair Pair2 Ate2P SpecMpin Mpin MpinP MpinQ MpinR.
Import ListNotations.
Open Scope Z_scope.

(* a point read from a string has the third coordinate one, if it is not the point at infinity *)
Lemma new_bigs_z ix iy a : ecp_new_bigs ix iy = Some a -> fp_one = Some (Ecp.ez a) \/ ecp_inf = Some a.
Proof.
  unfold ecp_new_bigs. destruct (fp_new_big ix) as [x|]; [|discriminate]. cbn [bind]. destruct (fp_new_big iy) as [y|]; [|discriminate]. cbn [bind].
  destruct fp_one as [z|] eqn:EZ; [|discriminate]. cbn [bind]. destruct (ecp_rhs x) as [[r x']|]; [|discriminate]. cbn [bind]. destruct (fp_sqr y) as [y2|]; [|discriminate]. cbn [bind].
  destruct (fp_equals y2 r) as [[[e u] v]|]; [|discriminate]. cbn [bind]. destruct e; [|intros H; right; exact H]. intros H. left. apply some_eq in H. subst a. reflexivity.
Qed.
Lemma new_bigint_z ix s a : ecp_new_bigint ix s = Some a -> fp_one = Some (Ecp.ez a) \/ ecp_inf = Some a.
Proof.
  unfold ecp_new_bigint. destruct (fp_new_big ix) as [x|]; [|discriminate]. cbn [bind].
  destruct fp_one as [z|] eqn:EZ; [|discriminate]. cbn [bind]. destruct (ecp_rhs x) as [[r x']|]; [|discriminate]. cbn [bind]. destruct (fp_jacobi r) as [j|]; [|discriminate]. cbn [bind].
  destruct (j =? 1); [|intros H; right; exact H]. destruct (fp_sqrt r) as [ny|]; [|discriminate]. cbn [bind]. destruct (fp_redc ny) as [w|]; [|discriminate]. cbn [bind].
  destruct (if big_parity w =? s then Some ny else fp_neg ny) as [n|]; [|discriminate]. cbn [bind]. intros H. left. apply some_eq in H. subst a. reflexivity.
Qed.
Lemma inf_same : ecp_inf = ecp_new. Proof. vm_compute. reflexivity. Qed.
Lemma frombytes_z w a : ecp_frombytes w = Some a -> fp_one = Some (Ecp.ez a) \/ ecp_new = Some a.
Proof.
  unfold ecp_frombytes. destruct (length w <? 49)%nat; [discriminate|]. destruct (big_frombytes _) as [px|]; [|discriminate]. cbn [bind].
  destruct (0 <=? big_comp px MODULUS); [intros H; right; exact H|]. destruct (limb w 0 =? 4).
  - destruct (length w <? 97)%nat; [discriminate|]. destruct (big_frombytes (firstn 48 (skipn 49 w))) as [py|]; [|discriminate]. cbn [bind].
    destruct (0 <=? big_comp py MODULUS); [intros H; right; exact H|]. intros H. rewrite <- inf_same. exact (new_bigs_z _ _ _ H).
  - destruct ((limb w 0 =? 2) || (limb w 0 =? 3)); [|intros H; right; exact H]. intros H. rewrite <- inf_same. exact (new_bigint_z _ _ _ H).
Qed.
Lemma read_X w a p : ecp_frombytes w = Some a -> ecpR 2 2 p a -> p <> Inf -> ecpX 2 2 p a.
Proof.
  intros E R N. apply frombytes_z in E. apply ecpR_wf_pt in R. destruct R as [W P]. rewrite <- P. apply affine1_X; [exact W|]. intros _. destruct E as [E|E].
  - destruct (ok_ex _ _ fp_one_ok) as (o & EO & RO). rewrite EO in E. apply some_eq in E. rewrite <- E. exact (proj2 (proj1 (fpR_wfv _ _ _ _) RO)).
  - exfalso. destruct (ok_ex _ _ ecp_new_ok) as (o & EO & RO). rewrite EO in E. apply some_eq in E. subst o. apply ecpR_wf_pt in RO. rewrite (proj2 RO) in P. apply N. symmetry. exact P.
Qed.
Lemma ecpX_weak m F m' F' q b : ecpX m F q b -> 1 <= m <= m' -> F <= F' -> ecpX m' F' q b.
Proof.
  intros H L M. destruct q as [|x y]; cbn [ecpX] in *; [eapply ecpR_weak; eassumption|]. destruct H as (O & X & Y). split; [exact O|]. split; eapply fpR_weak; eassumption.
Qed.

(* ------------------------------- server_2 ------------------------------- *)
Definition verdict2 (S : pt2) (V K : pt1) : Fq12 := kmul (pairing G2gen V) (pairing S K).
Section Server.
Variables (date : Z) (hid : list Z) (htid : option (list Z)) (y sst : list Z) (xid xcid : option (list Z)) (msec : list Z) (e f : option (list Z)).
Variables (u ah : list Z) (S : pt2) (U A V : pt1).
Hypotheses (HBS : bytes sst) (HLS : (192 <= length sst)%nat) (HDS : decodes2 sst S) (HNS : S <> Inf) (HES : eigen S).
Hypotheses (HU : (if negb (date =? 0) then xcid else xid) = Some u) (HBU : bytes u) (HLU : long_enough u) (HDU : decodes u U) (HNU : U <> Inf).
Hypotheses (HBY : bytes y) (HLY : (48 <= length y)%nat) (HVY : num_of y < 2 ^ 382).
Hypotheses (HA : (if negb (date =? 0) then htid else Some hid) = Some ah) (HIA : isG1 ah A).
Hypotheses (HBV : bytes msec) (HLV : long_enough msec) (HDV : decodes msec V) (HNV : V <> Inf).
Local Notation K := (padd1 (zm1 (num_of y) A) U).
Lemma K_on : on1 K. Proof. apply padd1_on; [apply zm1_on, (decodes_on ah), HIA|exact (decodes_on _ _ HDU)]. Qed.
Lemma server2_core : exists Q P sy g, ecp2A 1 2 G2gen Q /\ ecpA 1 5 K P /\ rep 7 sy (num_of y) /\ fp12C (verdict2 S V K) g /\
  (verdict2 S V K = k1 -> server_2 date hid htid y sst xid xcid msec e f = Some (0, e, f)) /\
  (verdict2 S V K <> k1 -> server_2 date hid htid y sst xid xcid msec e f =
     ('(inv, e, f) <- server_2_diag date hid xid e f Q P sy g ;; Some ((if inv : bool then INVALID_POINT else BAD_PIN), e, f))).
Proof.
  destruct (ok_ex _ _ gen2_ok) as (Q & EQ & RQ). destruct (ok_ex _ _ (from2 sst S HBS HLS HDS)) as (sq & ESQ & RSQ).
  destruct (read1 u U HBU HLU HDU HNU) as (r & ER & RR & IR). destruct (num_rep y HBY HLY) as (sy & ESY & RSY). destruct HIA as (BA & LA & DA & NA & KA).
  destruct (read1 ah A BA LA DA NA) as (a & EA & RA & IA). destruct (g1_R2 A a sy _ RA KA RSY HVY) as (m & EM & RM).
  destruct (ok_ex _ _ (ecp_add_ok 1 2 5 2 _ _ m r (ecpA_R5 _ _ RM) RR ltac:(lia) ltac:(lia) ltac:(lia) ltac:(lia))) as (k & EK & RK).
  destruct (ok_ex _ _ (ecp_affine_ok 1 5 _ k RK ltac:(lia) ltac:(lia))) as (P & EP & RP).
  destruct (read1 msec V HBV HLV HDV HNV) as (v & EV & RV & IV). pose proof (read_X _ _ _ EV RV HNV) as XV. pose proof (ecpA_X _ _ _ _ RP) as XP.
  pose proof (ate2_ok 1 2 2 5 G2gen V S K Q v sq P RQ (ecpX_weak _ _ 2 5 _ _ XV ltac:(lia) ltac:(lia)) (eigen_ok _ _ G2gen_eigen) RSQ (ecpX_weak _ _ 2 5 _ _ XP ltac:(lia) ltac:(lia)) (eigen_ok _ _ HES)
    ltac:(lia) ltac:(lia) ltac:(lia) ltac:(lia)) as AT.
  rewrite (epair_regular G2gen V (decodes_on _ _ HDV) (not_zero_case _ _ G2gen_ne)), (epair_regular S K K_on (not_zero_case _ _ HNS)) in AT. fold (verdict2 S V K) in AT.
  destruct (ok_ex _ _ AT) as (g & EG & RG). destruct (ate2 Q v sq P) as [mm|] eqn:EA2; [|discriminate EG]. cbn [bind] in EG.
  destruct (ok_ex _ _ (fp12_isunity_ok 1 1 _ g (fp12C_R _ _ RG) ltac:(lia) ltac:(lia))) as (un & EU & HUn).
  exists Q, P, sy, g. split; [exact RQ|]. split; [exact RP|]. split; [exact RSY|]. split; [exact RG|].
  unfold server_2. rewrite EQ. cbn [bind]. rewrite ESQ. cbn [bind]. rewrite (inf2_false 1 2 S sq (ecp2A_R _ _ _ _ RSQ) ltac:(lia) ltac:(lia) HNS). cbn [bind].
  rewrite HU, ER. cbn [bind]. rewrite IR. cbn [bind]. rewrite ESY. cbn [bind]. rewrite HA, EA. cbn [bind]. rewrite IA. cbn [bind]. rewrite EM. cbn [bind]. rewrite EK. cbn [bind]. rewrite EP. cbn [bind].
  rewrite EV. cbn [bind]. rewrite IV. cbn [bind]. rewrite EA2. cbn [bind]. rewrite EG. cbn [bind]. rewrite EU. cbn [bind]. split; intros D.
  - rewrite (proj2 HUn D). reflexivity.
  - destruct un; [destruct (D (proj1 HUn eq_refl))|]. reflexivity.
Qed.
Lemma server2_accept : verdict2 S V K = k1 -> server_2 date hid htid y sst xid xcid msec e f = Some (0, e, f).
Proof. destruct server2_core as (Q & P & sy & g & _ & _ & _ & _ & H & _). exact H. Qed.
Lemma server2_reject : verdict2 S V K <> k1 -> xid = None \/ e = None \/ f = None -> server_2 date hid htid y sst xid xcid msec e f = Some (-19, e, f).
Proof.
  destruct server2_core as (Q & P & sy & g & _ & _ & _ & _ & _ & H). intros N D. rewrite (H N). unfold server_2_diag.
  destruct xid as [x0|]; [|reflexivity]. destruct e as [e0|]; [|reflexivity]. destruct f as [f0|]; [|reflexivity]. destruct D as [D|[D|D]]; discriminate D.
Qed.
Definition written (o : option (list Z)) (w : list Z) (x : Fq12) : Prop := exists bs, o = Some (bs ++ skipn 576 w) /\ bytes bs /\ length bs = 576%nat /\ forall t, decodes12 (bs ++ t) = x.
Lemma diag_tail Q P K' e0 f0 g : ecp2A 1 2 G2gen Q -> ecpX 2 5 K' P -> on1 K' -> fp12C (verdict2 S V K) g -> (576 <= length e0)%nat -> (576 <= length f0)%nat ->
  exists be bf gm gf, fp12_tobytes g = Some be /\ put e0 0 be = Some (be ++ skipn 576 e0) /\ ate Q P = Some gm /\ fexp gm = Some gf /\ fp12_tobytes gf = Some bf /\
    put f0 0 bf = Some (bf ++ skipn 576 f0) /\ written (Some (be ++ skipn 576 e0)) e0 (verdict2 S V K) /\ written (Some (bf ++ skipn 576 f0)) f0 (pairing G2gen K').
Proof.
  intros RQ XP OK' RG L0 L1. destruct (ok_ex _ _ (fp12_tobytes_ok 1 1 _ g (fp12C_R _ _ RG) ltac:(lia) ltac:(lia))) as (be & EB & BB & LB & DB).
  pose proof (ate_pairing_ok 1 2 2 5 G2gen K' Q P RQ XP (eigen_ok _ _ G2gen_eigen) ltac:(lia) ltac:(lia) ltac:(lia) ltac:(lia)) as AT.
  rewrite (epair_regular G2gen K' OK' (not_zero_case _ _ G2gen_ne)) in AT. destruct (ok_ex _ _ AT) as (gf & EF & RF). unfold ate_pairing in EF.
  destruct (ate Q P) as [gm|] eqn:EAt; [|discriminate EF]. cbn [bind] in EF.
  destruct (ok_ex _ _ (fp12_tobytes_ok 1 1 _ gf (fp12C_R _ _ RF) ltac:(lia) ltac:(lia))) as (bf & EBF & BBF & LBF & DBF).
  exists be, bf, gm, gf. split; [exact EB|]. split; [apply put_front; assumption|]. split; [reflexivity|]. split; [exact EF|]. split; [exact EBF|]. split; [apply put_front; assumption|].
  split; [exists be|exists bf]; (split; [reflexivity|]; split; [assumption|]; split; assumption).
Qed.
Lemma server2_diag0 e0 f0 : date = 0 -> e = Some e0 -> f = Some f0 -> (576 <= length e0)%nat -> (576 <= length f0)%nat -> verdict2 S V K <> k1 ->
  exists e1 f1, server_2 date hid htid y sst xid xcid msec e f = Some (-19, e1, f1) /\ written e1 e0 (verdict2 S V K) /\ written f1 f0 (pairing G2gen K).
Proof.
  intros D0 HE HF L0 L1 N. destruct server2_core as (Q & P & sy & g & RQ & RP & _ & RG & _ & H). rewrite (H N).
  destruct (diag_tail Q P K e0 f0 g RQ (ecpX_weak _ _ 2 5 _ _ (ecpA_X _ _ _ _ RP) ltac:(lia) ltac:(lia)) K_on RG L0 L1) as (be & bf & gm & gf & E1 & E2 & E3 & E4 & E5 & E6 & W1 & W2).
  exists (Some (be ++ skipn 576 e0)), (Some (bf ++ skipn 576 f0)). split; [|split; assumption]. unfold server_2_diag. rewrite HE, HF, D0. rewrite D0 in HU. cbn [Z.eqb negb] in HU |- *. rewrite HU, E1.
  cbn [bind]. rewrite E2. cbn [bind]. rewrite E3. cbn [bind]. rewrite E4. cbn [bind]. rewrite E5. cbn [bind]. rewrite E6. reflexivity.
Qed.
Lemma server2_diagd e0 f0 rx A' U' : date <> 0 -> e = Some e0 -> f = Some f0 -> xid = Some rx -> (576 <= length e0)%nat -> (576 <= length f0)%nat -> isG1 hid A' ->
  bytes rx -> long_enough rx -> decodes rx U' -> U' <> Inf -> verdict2 S V K <> k1 ->
  exists e1 f1, server_2 date hid htid y sst xid xcid msec e f = Some (-19, e1, f1) /\ written e1 e0 (verdict2 S V K) /\ written f1 f0 (pairing G2gen (padd1 (zm1 (num_of y) A') U')).
Proof.
  intros D0 HE HF HX L0 L1 (BA & LA & DA & NA & KA) BX LX DX NX N. destruct server2_core as (Q & P & sy & g & RQ & RP & RSY & RG & _ & H). rewrite (H N).
  destruct (read1 rx U' BX LX DX NX) as (r & ER & RR & IR). destruct (read1 hid A' BA LA DA NA) as (a & EA & RA & IA). destruct (g1_R2 A' a sy _ RA KA RSY HVY) as (m & EM & RM).
  destruct (ok_ex _ _ (ecp_add_ok 1 2 5 2 _ _ m r (ecpA_R5 _ _ RM) RR ltac:(lia) ltac:(lia) ltac:(lia) ltac:(lia))) as (k & EK & RK).
  destruct (ok_ex _ _ (ecp_affine_ok 1 5 _ k RK ltac:(lia) ltac:(lia))) as (P' & EP & RP').
  assert (OK' : on1 (padd1 (zm1 (num_of y) A') U')) by (apply padd1_on; [apply zm1_on, (decodes_on _ _ DA)|exact (decodes_on _ _ DX)]).
  destruct (diag_tail Q P' _ e0 f0 g RQ (ecpX_weak _ _ 2 5 _ _ (ecpA_X _ _ _ _ RP') ltac:(lia) ltac:(lia)) OK' RG L0 L1) as (be & bf & gm & gf & E1 & E2 & E3 & E4 & E5 & E6 & W1 & W2).
  exists (Some (be ++ skipn 576 e0)), (Some (bf ++ skipn 576 f0)). split; [|split; assumption]. unfold server_2_diag. rewrite HE, HF, HX, E1. cbn [bind]. rewrite E2. cbn [bind].
  rewrite (proj2 (Z.eqb_neq date 0) D0). cbn [negb]. rewrite EA. cbn [bind]. rewrite IA. cbn [bind]. rewrite ER. cbn [bind]. rewrite IR. cbn [bind]. rewrite EM. cbn [bind]. rewrite EK. cbn [bind]. rewrite EP. cbn [bind].
  rewrite E3. cbn [bind]. rewrite E4. cbn [bind]. rewrite E5. cbn [bind]. rewrite E6. reflexivity.
Qed.
End Server.
(* with the server secret s times the generator the decision is about one point *)
Lemma verdict2_pt s V K : 0 <= s -> on1 V -> on1 K -> verdict2 (zm2 s G2gen) V K = pairing G2gen (padd1 V (zm1 s K)).
Proof.
  intros H OV OK. unfold verdict2. rewrite (pairing_zm_l s G2gen K H G2gen_eigen OK), <- (pairing_zm_r s G2gen K H G2gen_eigen OK). symmetry. apply pairing_add_r; [exact G2gen_eigen|exact OV|apply zm1_on, OK].
Qed.
Lemma verdict2_iff s V K : 0 <= s -> on1 V -> on1 K -> (verdict2 (zm2 s G2gen) V K = k1 <-> zm1 h1c (padd1 V (zm1 s K)) = Inf).
Proof. intros H OV OK. rewrite verdict2_pt by assumption. apply pairing_right; [exact G2gen_eigen|exact G2gen_ne|apply padd1_on; [exact OV|apply zm1_on, OK]]. Qed.
Lemma verdict2_sub s V K : 0 <= s -> on1 V -> on1 K -> zm1 r255 V = Inf -> zm1 r255 K = Inf -> (verdict2 (zm2 s G2gen) V K = k1 <-> padd1 V (zm1 s K) = Inf).
Proof.
  intros H OV OK KV KK. rewrite verdict2_iff by assumption. assert (O : on1 (padd1 V (zm1 s K))) by (apply padd1_on; [exact OV|apply zm1_on, OK]). split; [|intros ->; apply zm1_zero].
  intros D. refine (bez1 _ _ _ O D _ h1_coprime). apply sub_add; [exact OV|apply zm1_on, OK|exact KV|apply sub_on; assumption].
Qed.
