(* What the endomorphism-accelerated multiplications compute: on the groups of order r, the
   multiple; outside them, something else for at least one scalar. *)
From Coq Require Import ZArith List Lia Bool.
From Verif Require Import Prim PrimP Rom Big BigP BigP2 BigP3 BigL NumT FieldQ FieldQ2 Fp FpP FpP2 Fp2 Fp2P Fp4 Fp12 SpecBytes Utils Api SpecCurve CurveP GroupP Ecp WinP EcpP Ecp2 Ecp2P RandP GenP G1Grp G1Ord Denote DenoteT
  KeysP KeysP2 KeysP3 LayerP Ecp2C MapP Sqrt2P Tower TowerP FrobP CycP Fp4P Fp12P FexpP PsiP TwistP SigsP SigsP2 VerifyP VerifyP2 VerifyP4 Glv RecodeP Mul2P Mul4P Pow4P PinP.
Import ListNotations.
Open Scope Z_scope.

Lemma out1 l E p (m : option ECP) : ok m (ecpA l E p) -> 1 <= l <= 8 -> 5 <= E <= 16777216 -> exists c, m = Some c /\ adm c /\ ecp_pt c = p.
Proof.
  intros H L HE. destruct (ok_ex _ _ H) as (c & C & R). exists c. split; [exact C|]. apply ecpA_R in R; [|lia|lia].
  apply (ecpR_weak _ _ 8 16777216) in R; [|lia|lia]. apply ecpR_wf_pt in R. exact R.
Qed.
Lemma r255_pos : 0 <= r255. Proof. vm_compute. discriminate. Qed.
Lemma ru_big : 2 ^ 382 < r255 * (uZ * uZ). Proof. vm_compute. reflexivity. Qed.
Lemma ecp_bounds l E a : ecp_wf l E a -> 1 <= E. Proof. intros ((_ & _ & _ & H) & _). lia. Qed.
Lemma ecp2_bounds l E a : ecp2_wf l E a -> 1 <= E. Proof. intros (((_ & _ & _ & H) & _) & _). lia. Qed.

Lemma to_zm n p : 0 <= n -> nmul1 (Z.to_nat n) p = Inf -> zm1 n p = Inf.
Proof. intros N H. rewrite zm1_nmul by exact N. exact H. Qed.
Lemma of_zm n p : 0 <= n -> zm1 n p = Inf -> nmul1 (Z.to_nat n) p = Inf.
Proof. intros N H. rewrite zm1_nmul in H by exact N. exact H. Qed.
(* -------------------------------- G1 ---------------------------------- *)
Lemma g1mul_sub : forall a e v, ecp_wf 8 4194304 a -> nmul1 (Z.to_nat r255) (ecp_pt a) = Inf -> rep 7 e v -> v < 2 ^ 382 ->
  exists c, g1mul a e = Some c /\ adm c /\ ecp_pt c = nmul1 (Z.to_nat v) (ecp_pt a).
Proof.
  intros a e v A K RE V. pose proof (rep_bound7 _ _ RE) as VB. apply (to_zm r255 _ r255_pos) in K. rewrite <- (zm1_nmul v _ (proj1 VB)).
  apply (out1 1 5); [|lia|lia]. apply (g1mul_ok 8 4194304 (ecp_pt a) a e v (ecp_wf_R _ _ _ A)); [lia|lia|exact K|exact RE|].
  eapply Z.lt_trans; [exact V|exact ru_big].
Qed.
Lemma mul2_all : forall a b e f v w, ecp_wf 8 8388608 a -> ecp_wf 8 8388608 b -> rep 7 e v -> rep 7 f w -> v + w + 4 < 2 ^ 404 ->
  exists c, ecp_mul2 a e b f = Some c /\ adm c /\ ecp_pt c = padd1 (nmul1 (Z.to_nat v) (ecp_pt a)) (nmul1 (Z.to_nat w) (ecp_pt b)).
Proof.
  intros a b e f v w A B RE RF V. pose proof (rep_bound7 _ _ RE) as VB. pose proof (rep_bound7 _ _ RF) as WB.
  rewrite <- (zm1_nmul v _ (proj1 VB)), <- (zm1_nmul w _ (proj1 WB)). apply (out1 1 5); [|lia|lia].
  apply (ecp_mul2_ok 8 8388608 8 8388608 _ _ a b e f v w (ecp_wf_R _ _ _ A) (ecp_wf_R _ _ _ B)); [lia|lia|lia|lia|exact RE|exact RF|exact V].
Qed.
Lemma picked_0 u n : picked 0 u n -> rep 7 u 0 /\ n = false.
Proof. unfold picked. assert (H : (bitlen (r255 - 0 mod r255) <? bitlen 0) = false) by (vm_compute; reflexivity). cbv zeta. rewrite H. exact (fun x => x). Qed.
Lemma picked_r1 u n : picked (r255 - 1) u n -> rep 7 u 1 /\ n = true.
Proof.
  unfold picked. assert (H : (bitlen (r255 - (r255 - 1) mod r255) <? bitlen (r255 - 1)) = true) by (vm_compute; reflexivity).
  assert (E : r255 - (r255 - 1) mod r255 = 1) by (vm_compute; reflexivity). cbv zeta. rewrite H, E. exact (fun x => x).
Qed.
Lemma picked_r u n : picked r255 u n -> rep 7 u 0 /\ n = false.
Proof.
  unfold picked. assert (H : (bitlen (r255 - r255 mod r255) <? bitlen r255) = false) by (vm_compute; reflexivity).
  assert (E : r255 mod r255 = 0) by (vm_compute; reflexivity). cbv zeta. rewrite H, E. exact (fun x => x).
Qed.
Lemma g1mul_x l E p a e : ecpR l E p a -> 1 <= l <= 8 -> 2 <= E <= 4194304 -> rep 7 e (uZ * uZ) -> ok (g1mul a e) (ecpA 1 5 (pneg1 (phi p))).
Proof.
  intros R L HE RE. pose proof (proj1 R) as OP. unfold g1mul.
  eapply ok_bind; [apply (fp_nres_ok CURVE_CRU betaZ cru_rep)|]. intros cru CRU.
  eapply ok_bind; [apply (glv_ok e _ RE)|]. intros [u0 u1] (U0 & L1 & B1 & V1).
  assert (E0 : (uZ * uZ) mod (uZ * uZ) = 0) by (vm_compute; reflexivity). assert (E1 : r255 - uZ * uZ / (uZ * uZ) = r255 - 1) by (vm_compute; reflexivity).
  rewrite E0 in U0. rewrite E1 in V1. clear E0 E1 RE. pose proof r255_bnd as RB.
  eapply ok_bind; [apply (ecp_mulx_ok l E p a cru R CRU); [lia|lia]|]. intros Q RQ.
  destruct (rep_loose _ _ U0) as (L0 & B0 & V0).
  eapply ok_bind; [apply (glv_pick_eq u0 0 L0 B0 V0); lia|]. intros [u0' n0] P0. apply picked_0 in P0. destruct P0 as [R0 ->].
  eapply ok_bind; [apply (sg_neg_ok false l E p a R); lia|]. intros P' RP'.
  eapply ok_bind; [apply (glv_pick_eq u1 (r255 - 1) L1 B1 V1); lia|]. intros [u1' n1] P1. apply picked_r1 in P1. destruct P1 as [R1 ->].
  eapply ok_bind; [apply (sg_neg_ok true l E _ Q RQ); lia|]. intros Q' RQ'.
  eapply ok_impl; [apply (ecp_mul2_ok _ _ _ _ _ _ _ _ u0' u1' 0 1 RP' RQ' L L); [lia|lia|exact R0|exact R1|lia]|].
  intros r H. unfold lc in H. rewrite zm1_0, zm1_1, padd1_0l in H. exact H.
Qed.

Lemma phi_conv_gen X P : 0 <= X -> (X + 1) mod 3 <> 0 -> on1 P -> zm1 X P = pneg1 (phi P) -> zm1 (X * X - X + 1) P = Inf.
Proof.
  intros XP X3 O E. destruct P as [|x y]; [apply zm1_zero|]. destruct (Fq_dec x f0) as [->|N].
  - exfalso. assert (EP : phi (Aff f0 y) = Aff f0 y) by (cbn [phi]; f_equal; ring). rewrite EP in E.
    assert (Z1 : zm1 (X + 1) (Aff f0 y) = Inf).
    { rewrite (zm1_add X 1 _ O), E, zm1_1. rewrite (padd1_comm _ _ (pneg1_on _ O) O). apply padd1_neg, O. }
    pose proof (order3 y O) as T3. assert (C : Aff f0 y = Inf); [|discriminate C].
    apply (bez_1 (X + 1) 3 _ O Z1 T3). pose proof (Z.mod_pos_bound (X + 1) 3 ltac:(lia)) as B. pose proof (Z.div_mod (X + 1) 3 ltac:(lia)) as D.
    rewrite Z.gcd_comm. rewrite <- Z.gcd_mod by lia.
    assert (K : (X + 1) mod 3 = 1 \/ (X + 1) mod 3 = 2) by lia. destruct K as [->| ->]; reflexivity.
  - pose proof (phi_sum x y N) as S. set (P := Aff x y) in *. clearbody P. pose proof (phi_on P O) as OP.
    assert (E1 : phi P = zm1 (- X) P).
    { rewrite (zm1_opp X P O), E. destruct (phi P) as [|a b]; [reflexivity|]. cbn [pneg]. f_equal. ring. }
    assert (E2 : phi (phi P) = zm1 (X * X) P).
    { assert (Q : pneg1 (phi (phi P)) = zm1 X (phi P)) by (rewrite <- phi_neg, <- E; apply phi_zm; assumption).
      rewrite E1 in Q at 2. rewrite <- (zm1_mul X (- X) P O) in Q.
      replace (X * X) with (- (X * - X)) by ring. rewrite (zm1_opp _ P O), <- Q. destruct (phi (phi P)) as [|a b]; [reflexivity|]. cbn [pneg]. f_equal. ring. }
    rewrite E2, E1 in S. replace (X * X - X + 1) with (X * X + - X + 1) by ring. rewrite (zm1_add (X * X + - X) 1 P O), (zm1_add (X * X) (- X) P O), zm1_1. exact S.
Qed.
Lemma u2_mod3 : (uZ * uZ + 1) mod 3 <> 0. Proof. vm_compute. discriminate. Qed.
Lemma u2_r : (uZ * uZ) * (uZ * uZ) - uZ * uZ + 1 = r255. Proof. vm_compute. reflexivity. Qed.
Lemma u2_nonneg : 0 <= uZ * uZ. Proof. vm_compute. discriminate. Qed.
Lemma phi_conv P : on1 P -> zm1 (uZ * uZ) P = pneg1 (phi P) -> zm1 r255 P = Inf.
Proof. intros O E. rewrite <- u2_r. exact (phi_conv_gen (uZ * uZ) P u2_nonneg u2_mod3 O E). Qed.
(* the normalised BIG of a value *)
Fixpoint limbs (n : nat) (v : Z) : list Z := match n with O => [] | S n' => v mod 2 ^ 58 :: limbs n' (v / 2 ^ 58) end.
Lemma limbs_rep n : forall v, 0 <= v < 2 ^ (58 * Z.of_nat n) -> rep n (limbs n v) v.
Proof.
  induction n as [|n IH]; intros v V.
  - change (2 ^ (58 * Z.of_nat 0)) with 1 in V. split; [reflexivity|]. split; [constructor|]. cbn [limbs lval]. lia.
  - replace (58 * Z.of_nat (S n)) with (58 + 58 * Z.of_nat n) in V by lia. rewrite Z.pow_add_r in V by lia.
    pose proof (Z.mod_pos_bound v (2 ^ 58) ltac:(lia)) as M. pose proof (Z.div_mod v (2 ^ 58) ltac:(lia)) as D.
    destruct (IH (v / 2 ^ 58)) as (I1 & I2 & I3).
    { split; [apply Z.div_pos; lia|apply Z.div_lt_upper_bound; lia]. }
    cbn [limbs]. split; [cbn [length]; rewrite I1; reflexivity|]. split; [constructor; [exact M|exact I2]|]. cbn [lval]. rewrite I3. lia.
Qed.
Lemma u2_lt : uZ * uZ < 2 ^ (58 * Z.of_nat 7). Proof. vm_compute. reflexivity. Qed.
Lemma u2_lt_r : uZ * uZ < r255. Proof. vm_compute. reflexivity. Qed.
Lemma back1 X P Q : 0 <= X -> Q = nmul1 (Z.to_nat X) P -> zm1 X P = Q.
Proof. intros N ->. apply zm1_nmul, N. Qed.
Lemma back2 X P Q : 0 <= X -> Q = nmul2 (Z.to_nat X) P -> zm2 X P = Q.
Proof. intros N ->. apply zm2_nmul, N. Qed.
Lemma g1mul_wrong : forall a, ecp_wf 8 4194304 a -> nmul1 (Z.to_nat r255) (ecp_pt a) <> Inf ->
  exists e v c, rep 7 e v /\ v < r255 /\ g1mul a e = Some c /\ ecp_pt c <> nmul1 (Z.to_nat v) (ecp_pt a).
Proof.
  intros a A N. pose proof (limbs_rep 7 _ (conj u2_nonneg u2_lt)) as RE.
  destruct (out1 1 5 _ _ (g1mul_x 8 4194304 _ a _ (ecp_wf_R _ _ _ A) ltac:(lia) ltac:(lia) RE) ltac:(lia) ltac:(lia)) as (c & C & _ & P).
  exists (limbs 7 (uZ * uZ)), (uZ * uZ), c. split; [exact RE|]. split; [exact u2_lt_r|]. split; [exact C|]. rewrite P. clear C P RE c.
  intros H. apply N. apply (of_zm r255 _ r255_pos). apply (phi_conv _ (proj1 (ecp_wf_R _ _ _ A))). exact (back1 _ _ _ u2_nonneg H).
Qed.
Lemma pk_small bs pk : bytes bs -> pk_from_bytes bs = Some (Ok pk) -> ecp_wf 8 4194304 pk.
Proof.
  intros B D. destruct (decoded_R bs pk B D) as (p & R). apply (ecpR_weak _ _ 8 4194304) in R; [|lia|lia]. apply ecpR_wf_pt in R. exact (proj1 R).
Qed.
Lemma g1mul_refuted : exists bs pk e v c, bytes bs /\ pk_from_bytes bs = Some (Ok pk) /\ rep 7 e v /\ v < r255 /\
  g1mul pk e = Some c /\ ecp_pt c <> nmul1 (Z.to_nat v) (ecp_pt pk).
Proof.
  destruct subgroup_refuted as (bs & pk & B & D & N). destruct (g1mul_wrong pk (pk_small bs pk B D) N) as (e & v & c & R & V & C & W).
  exists bs, pk, e, v, c. split; [exact B|]. split; [exact D|]. split; [exact R|]. split; [exact V|]. split; [exact C|exact W].
Qed.

(* -------------------------------- G2 ---------------------------------- *)
Lemma out2 E p (m : option ECP2) : ok m (ecp2A 8 E p) -> E <= 2097152 -> exists c, m = Some c /\ ecp2_wf 8 2097152 c /\ ecp2_pt c = p.
Proof.
  intros H HE. destruct (ok_ex _ _ H) as (c & C & R). exists c. split; [exact C|]. apply ecp2A_R in R.
  apply (ecp2R_weak _ _ 8 2097152) in R; [|lia|lia]. apply ecp2R_wf_pt in R. exact R.
Qed.
Lemma g2mul_sub : forall a e v, ecp2_wf 8 52000 a -> in_subgroup (ecp2_pt a) -> rep 7 e v ->
  exists c, g2mul a e = Some c /\ ecp2_wf 8 2097152 c /\ ecp2_pt c = nmul2 (Z.to_nat v) (ecp2_pt a).
Proof.
  intros a e v A K RE. pose proof (rep_bound7 _ _ RE) as VB. pose proof (ecp2_wf_R _ _ _ A) as R. rewrite <- (zm2_nmul v _ (proj1 VB)).
  apply (out2 2097152); [|lia]. apply (g2mul_ok 8 52000 _ a e v R); [lia|lia|exact (sub_eigen _ (proj1 R) K)|exact RE].
Qed.
Lemma mul4_all : forall a0 a1 a2 a3 e0 e1 e2 e3 v0 v1 v2 v3, adm2 a0 -> adm2 a1 -> adm2 a2 -> adm2 a3 ->
  rep 7 e0 v0 -> rep 7 e1 v1 -> rep 7 e2 v2 -> rep 7 e3 v3 -> v0 + 1 < 2 ^ 406 ->
  exists c, ecp2_mul4 a0 a1 a2 a3 [e0; e1; e2; e3] = Some c /\ ecp2_wf 8 2097152 c /\
    ecp2_pt c = padd2 (padd2 (nmul2 (Z.to_nat v0) (ecp2_pt a0)) (nmul2 (Z.to_nat v1) (ecp2_pt a1))) (padd2 (nmul2 (Z.to_nat v2) (ecp2_pt a2)) (nmul2 (Z.to_nat v3) (ecp2_pt a3))).
Proof.
  intros a0 a1 a2 a3 e0 e1 e2 e3 v0 v1 v2 v3 A0 A1 A2 A3 R0 R1 R2 R3 V.
  pose proof (rep_bound7 _ _ R0) as B0. pose proof (rep_bound7 _ _ R1) as B1. pose proof (rep_bound7 _ _ R2) as B2. pose proof (rep_bound7 _ _ R3) as B3.
  rewrite <- (zm2_nmul v0), <- (zm2_nmul v1), <- (zm2_nmul v2), <- (zm2_nmul v3) by lia. apply (out2 2097152); [|lia].
  apply (ecp2_mul4_ok 8 262144 _ _ _ _ a0 a1 a2 a3 e0 e1 e2 e3 v0 v1 v2 v3 (ecp2_wf_R _ _ _ A0) (ecp2_wf_R _ _ _ A1) (ecp2_wf_R _ _ _ A2) (ecp2_wf_R _ _ _ A3)); try assumption; lia.
Qed.
Lemma g2_pick_eq l E u v q Q : ecp2R l E q Q -> 1 <= l <= 8 -> 1 <= E <= 1000000 -> loose u v -> 0 <= v <= r255 ->
  ok (g2_pick u Q) (fun '(u', Q') => exists n : bool, picked v u' n /\ ecp2R l (5 * E - 1) (sg2 n q) Q').
Proof.
  intros R L HE (U1 & U2 & U3) V. unfold g2_pick.
  eapply ok_bind; [apply (glv_pick_eq u v U1 U2 U3 V)|]. intros [u' n] P.
  eapply (ok_bind _ _ (ecp2R l (5 * E - 1) (sg2 n q))).
  { destruct n; cbn [sg2]; [apply ecp2_neg_ok; [exact R|lia|lia]|]. cbn [ok]. eapply ecp2R_weak; [exact R|lia|lia]. }
  intros Q' RQ. cbn [ok]. exists n. split; [exact P|exact RQ].
Qed.
Lemma base_x x d0 d1 d2 d3 : 1 < x -> 0 <= d0 < x -> 0 <= d1 < x -> 0 <= d2 < x -> 0 <= d3 -> x = d0 + x * (d1 + x * (d2 + x * d3)) ->
  d0 = 0 /\ d1 = 1 /\ d2 = 0 /\ d3 = 0.
Proof.
  intros X D0 D1 D2 D3 E.
  assert (E0 : d0 = 0). { assert (H : (d0 + x * (d1 + x * (d2 + x * d3))) mod x = 0) by (rewrite <- E; apply Z.mod_same; lia).
    rewrite (Z.mul_comm x), Z.mod_add, Z.mod_small in H by lia. exact H. }
  subst d0. assert (E1 : 1 = d1 + x * (d2 + x * d3)) by (apply (Z.mul_reg_l _ _ x); lia).
  assert (E2 : d1 = 1). { assert (H : (d1 + x * (d2 + x * d3)) mod x = 1) by (rewrite <- E1; apply Z.mod_small; lia).
    rewrite (Z.mul_comm x), Z.mod_add, Z.mod_small in H by lia. exact H. }
  subst d1. assert (E3 : 0 = d2 + x * d3) by (apply (Z.mul_reg_l _ _ x); lia). split; [reflexivity|]. split; [reflexivity|].
  assert (d2 = 0) by nia. split; [assumption|nia].
Qed.
Lemma g2mul_x l E p a e : ecp2R l E p a -> 1 <= l <= 8 -> 4 <= E <= 52000 -> rep 7 e bnx -> ok (g2mul a e) (ecp2A 8 2097152 (pneg2 (psi p))).
Proof.
  intros R L HE RE. pose proof (proj1 R) as O. unfold g2mul.
  eapply ok_bind; [exact gf_const|]. intros f0 F0.
  eapply ok_bind; [apply (gs_ok e _ RE)|]. intros u (u0 & u1 & u2 & u3 & d0 & d1 & d2 & d3 & -> & U0 & U1 & U2 & U3 & D0 & D1 & D2 & D3 & V).
  assert (XR : 1 < uZ) by reflexivity. change bnx with uZ in V.
  destruct (base_x uZ d0 d1 d2 d3 XR D0 D1 D2 (proj1 D3) V) as (-> & -> & -> & ->). clear D0 D1 D2 D3 V. rewrite Z.sub_0_r in U3.
  eapply ok_bind; [eapply fp2_inverse_ok; [exact F0|lia|lia]|]. intros f1 F1. rewrite gfi_eq in F1.
  eapply ok_bind; [eapply fp2_norm_ok; [exact F1|lia|lia]|]. intros f F.
  eapply ok_bind; [eapply ecp2_frob_ok; [exact R|exact F|lia|lia]|]. intros Q1 R1.
  eapply ok_bind; [eapply ecp2_frob_ok; [exact R1|exact F|lia|lia]|]. intros Q2 R2.
  eapply ok_bind; [eapply ecp2_frob_ok; [exact R2|exact F|lia|lia]|]. intros Q3 R3.
  assert (CV : forall q Q, ecp2R 1 3 q Q -> ecp2R l E q Q) by (intros q Q H; eapply ecp2R_weak; [exact H|lia|lia]).
  apply CV in R1, R2, R3. cbn [getM nth_error bind]. pose proof r255_bnd as RB.
  eapply ok_bind; [apply (g2_pick_eq l E u0 0 _ _ R L); [lia|exact U0|lia]|]. intros [w0 P0] (n0 & A0 & S0). apply picked_0 in A0. destruct A0 as [A0 ->].
  eapply ok_bind; [apply (g2_pick_eq l E u1 (r255 - 1) _ _ R1 L); [lia|exact U1|lia]|]. intros [w1 P1] (n1 & A1 & S1). apply picked_r1 in A1. destruct A1 as [A1 ->].
  eapply ok_bind; [apply (g2_pick_eq l E u2 0 _ _ R2 L); [lia|exact U2|lia]|]. intros [w2 P2] (n2 & A2 & S2). apply picked_0 in A2. destruct A2 as [A2 ->].
  eapply ok_bind; [apply (g2_pick_eq l E u3 r255 _ _ R3 L); [lia|exact U3|lia]|]. intros [w3 P3] (n3 & A3 & S3). apply picked_r in A3. destruct A3 as [A3 ->].
  eapply ok_impl; [apply (ecp2_mul4_ok l (5 * E - 1) _ _ _ _ P0 P1 P2 P3 w0 w1 w2 w3 0 1 0 0 S0 S1 S2 S3 L); [lia|assumption..|lia]|].
  intros b H. unfold lc4 in H. rewrite !zm2_0, zm2_1, !padd2_0l, padd2_0r in H. exact H.
Qed.
Lemma bnx_lt_r : bnx < r255. Proof. vm_compute. reflexivity. Qed.
Lemma bnx_nonneg : 0 <= bnx. Proof. vm_compute. discriminate. Qed.
Lemma eigen_sub p : eigen p -> in_subgroup p.
Proof. intros H. exact (good_sub p (proj1 H) H). Qed.
Lemma g2mul_wrong : forall a, ecp2_wf 8 52000 a -> ~ in_subgroup (ecp2_pt a) ->
  exists e v c, rep 7 e v /\ v < r255 /\ g2mul a e = Some c /\ ecp2_pt c <> nmul2 (Z.to_nat v) (ecp2_pt a).
Proof.
  intros a A N. pose proof (ecp2_wf_R _ _ _ A) as R.
  destruct (out2 _ _ _ (g2mul_x 8 52000 _ a _ R ltac:(lia) ltac:(lia) bnx_rep) ltac:(lia)) as (c & C & _ & P).
  exists CURVE_BNX, bnx, c. split; [exact bnx_rep|]. split; [exact bnx_lt_r|]. split; [exact C|]. rewrite P. clear C P c.
  intros H. apply N. apply eigen_sub. split; [exact (proj1 R)|]. exact (back2 _ _ _ bnx_nonneg H).
Qed.
Lemma sig_small b a : bytes b -> sig_from_bytes b = Some (Ok a) -> ecp2_wf 8 52000 a.
Proof.
  intros B H. destruct (sig_decoded b a B H) as (_ & [(_ & _ & _ & R)|(_ & s & _ & _ & _ & R)]);
    (apply (ecp2R_weak _ _ 8 52000) in R; [|lia|lia]; apply ecp2R_wf_pt in R; exact (proj1 R)).
Qed.
Lemma not_sub_13 y : on2 (Aff (SigsP2.z2 k13_re k13_im) y) -> ~ in_subgroup (Aff (SigsP2.z2 k13_re k13_im) y).
Proof.
  intros O S. apply (sub_eigen _ O) in S. apply eigen_r in S.
  assert (K : zm2 13 (Aff (SigsP2.z2 k13_re k13_im) y) = Inf).
  { destruct (on2_two _ _ _ on13 O) as [E|E]; rewrite E; [exact kill13|].
    change (Aff (SigsP2.z2 k13_re k13_im) (gopp (SigsP2.z2 k13_y0 k13_y1))) with (pneg2 (Aff (SigsP2.z2 k13_re k13_im) (SigsP2.z2 k13_y0 k13_y1))).
    rewrite (zm2_neg 13 _ on13), kill13. reflexivity. }
  assert (G : Z.gcd 13 r255 = 1) by (vm_compute; reflexivity). assert (C := bez2 _ _ _ O K S G). discriminate C.
Qed.
Lemma sig13 : exists s, sig_from_bytes (sig_code 0 k13_re k13_im) = Some (Ok s) /\ ~ in_subgroup (ecp2_pt s).
Proof.
  pose proof (sig_decoder_class (sig_code 0 k13_re k13_im) (sig_code_bytes _ _ _)) as D. cbv zeta in D.
  assert (B1 : 0 <= k13_re < 2 ^ 381) by (split; vm_compute; [discriminate|reflexivity]). assert (B2 : 0 <= k13_im < 2 ^ 381) by (split; vm_compute; [discriminate|reflexivity]).
  rewrite (sig_code_hi 0 k13_re k13_im (or_introl eq_refl) B2), (sig_code_lo 0 k13_re k13_im B1) in D.
  destruct D as (r & R & _ & _ & _ & D). specialize (D (sig_code_len _ _ _)).
  assert (T1 : Z.testbit (k13_im + 0 * 2 ^ 381 + 2 ^ 383) 383 = true) by (vm_compute; reflexivity).
  assert (T2 : Z.testbit (k13_im + 0 * 2 ^ 381 + 2 ^ 383) 382 = false) by (vm_compute; reflexivity).
  assert (M : (k13_im + 0 * 2 ^ 381 + 2 ^ 383) mod 2 ^ 381 = k13_im) by (vm_compute; reflexivity).
  destruct (D T1 T2) as [_ DY]. rewrite M in DY. change (mkq k13_re, mkq k13_im) with (SigsP2.z2 k13_re k13_im) in DY.
  destruct (DY (SigsP2.z2 k13_y0 k13_y1)) as (s & -> & P).
  - apply (proj1 (on2_rhs _ _) on13).
  - cbn [SigsP2.z2 fst]. mkne.
  - exists s. split; [exact R|]. destruct P as [P|P]; rewrite P; apply not_sub_13; [exact on13|]. exact (pneg2_on _ on13).
Qed.
Lemma g2mul_refuted : exists bs s e v c, bytes bs /\ sig_from_bytes bs = Some (Ok s) /\ rep 7 e v /\ v < r255 /\
  g2mul s e = Some c /\ ecp2_pt c <> nmul2 (Z.to_nat v) (ecp2_pt s).
Proof.
  destruct sig13 as (s & D & N). pose proof (sig_code_bytes 0 k13_re k13_im) as B. destruct (g2mul_wrong s (sig_small _ s B D) N) as (e & v & c & R & V & C & W).
  exists (sig_code 0 k13_re k13_im), s, e, v, c. split; [exact B|]. split; [exact D|]. split; [exact R|]. split; [exact V|]. split; [exact C|exact W].
Qed.

(* -------------------------------- GT ---------------------------------- *)
Lemma cyc_spec z : kpw z (q381 ^ 4 - q381 ^ 2 + 1) = k1 -> cyc z.
Proof.
  intros H. unfold cyc. assert (E : q381 ^ 4 - q381 ^ 2 + 1 = cn).
  { rewrite cn_q2. Transparent q2. unfold q2. Opaque q2. generalize q381. intros n. ring. }
  rewrite <- E. exact H.
Qed.
Lemma gtpow_sub : forall a e v, fp12_wf 8 50000 a -> kpw (fp12_val a) r255 = k1 -> rep 7 e v ->
  exists c, gtpow a e = Some c /\ fp12_wf 1 1 c /\ fp12_val c = kpw (fp12_val a) v.
Proof.
  intros a e v A K RE. pose proof (rep_bound7 _ _ RE) as VB. apply fp12_R in A. apply ok_valC.
  rewrite <- (zp_pw (fp12_val a) v (r_cyc _ K) (proj1 VB)). exact (gtpow_ok 50000 _ a e v A ltac:(lia) K RE).
Qed.
Lemma pow4_all : forall a0 a1 a2 a3 e0 e1 e2 e3 v0 v1 v2 v3,
  fp12_wf 8 400000 a0 -> fp12_wf 8 2097152 a1 -> fp12_wf 8 2097152 a2 -> fp12_wf 8 2097152 a3 ->
  Forall (fun a => kpw (fp12_val a) (q381 ^ 4 - q381 ^ 2 + 1) = k1) [a0; a1; a2; a3] ->
  rep 7 e0 v0 -> rep 7 e1 v1 -> rep 7 e2 v2 -> rep 7 e3 v3 -> v0 + 1 < 2 ^ 406 ->
  exists c, fp12_pow4 a0 a1 a2 a3 [e0; e1; e2; e3] = Some c /\ fp12_wf 1 1 c /\
    fp12_val c = kmul (kmul (kpw (fp12_val a0) v0) (kpw (fp12_val a1) v1)) (kmul (kpw (fp12_val a2) v2) (kpw (fp12_val a3) v3)).
Proof.
  intros a0 a1 a2 a3 e0 e1 e2 e3 v0 v1 v2 v3 A0 A1 A2 A3 C R0 R1 R2 R3 V.
  pose proof (rep_bound7 _ _ R0) as B0. pose proof (rep_bound7 _ _ R1) as B1. pose proof (rep_bound7 _ _ R2) as B2. pose proof (rep_bound7 _ _ R3) as B3.
  pose proof (cyc_spec _ (Forall_inv C)) as C0. apply Forall_inv_tail in C. pose proof (cyc_spec _ (Forall_inv C)) as C1. apply Forall_inv_tail in C.
  pose proof (cyc_spec _ (Forall_inv C)) as C2. apply Forall_inv_tail in C. pose proof (cyc_spec _ (Forall_inv C)) as C3. clear C.
  apply fp12_R in A0, A1, A2, A3. apply ok_valC.
  rewrite <- (zp_pw _ v0 C0 (proj1 B0)), <- (zp_pw _ v1 C1 (proj1 B1)), <- (zp_pw _ v2 C2 (proj1 B2)), <- (zp_pw _ v3 C3 (proj1 B3)).
  exact (fp12_pow4_ok 400000 _ _ _ _ a0 a1 a2 a3 e0 e1 e2 e3 v0 v1 v2 v3 A0 A1 A2 A3 ltac:(lia) C0 C1 C2 C3 R0 R1 R2 R3 V).
Qed.
Lemma pinpow_all : forall a e n, fp12_wf 8 524288 a -> kpw (fp12_val a) (q381 ^ 4 - q381 ^ 2 + 1) = k1 -> (n <= 32)%nat ->
  exists c, fp12_pinpow a e n = Some c /\ fp12_wf 8 524288 c /\ fp12_val c = kpw (fp12_val a) (e mod 2 ^ Z.of_nat n).
Proof.
  intros a e n A C N. apply fp12_R in A. apply ok_val. exact (fp12_pinpow_ok _ a e n A (cyc_spec _ C) N).
Qed.
