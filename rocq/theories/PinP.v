(* The short-exponent ladders: ECP::pinmul and FP12::pinpow. *)
From Coq Require Import ZArith List Lia Bool.
From Verif Require Import Prim PrimP Rom Big BigP BigP2 NumT FieldQ FieldQ2 Fp Fp2 Fp4 Fp12 Ecp FpP FpP2 Fp2P SpecCurve CurveP GroupP EcpP Denote Tower TowerP FrobP Fp4P Fp12P CycP FexpP KeysP LayerP GenP Glv Pow4P.
Import ListNotations.
Open Scope Z_scope.

Lemma lnot0 : Z.lnot (0 - 1) = 0. Proof. reflexivity. Qed.
Lemma lnot1 : Z.lnot (1 - 1) = -1. Proof. reflexivity. Qed.
Lemma xswap_l x y : Z.lxor x (Z.land (-1) (Z.lxor x y)) = y.
Proof. rewrite Z.land_m1_l, <- Z.lxor_assoc, Z.lxor_nilpotent, Z.lxor_0_l. reflexivity. Qed.
Lemma xswap_r x y : Z.lxor y (Z.land (-1) (Z.lxor x y)) = x.
Proof. rewrite Z.land_m1_l, (Z.lxor_comm x y), <- Z.lxor_assoc, Z.lxor_nilpotent, Z.lxor_0_l. reflexivity. Qed.
Lemma cswap0 : forall a b, length a = length b -> big_cswap a b 0 = (a, b).
Proof.
  unfold big_cswap. rewrite lnot0. induction a as [|x a IH]; intros [|y b] H; try discriminate H; [reflexivity|].
  cbn [map2]. injection H as H. specialize (IH b H). pose proof (f_equal fst IH) as I1. pose proof (f_equal snd IH) as I2. cbn [fst snd] in I1, I2. rewrite I1, I2, Z.land_0_l, !Z.lxor_0_r. reflexivity.
Qed.
Lemma cswap1 : forall a b, length a = length b -> big_cswap a b 1 = (b, a).
Proof.
  unfold big_cswap. rewrite lnot1. induction a as [|x a IH]; intros [|y b] H; try discriminate H; [reflexivity|].
  cbn [map2]. injection H as H. specialize (IH b H). pose proof (f_equal fst IH) as I1. pose proof (f_equal snd IH) as I2. cbn [fst snd] in I1, I2. rewrite I1, I2, xswap_l, xswap_r. reflexivity.
Qed.
Lemma fp_cswap0 a b : length (fx a) = length (fx b) -> fp_cswap a b 0 = (a, b).
Proof. intros H. unfold fp_cswap. rewrite (cswap0 _ _ H), lnot0, Z.land_0_l, !Z.lxor_0_r. destruct a, b. reflexivity. Qed.
Lemma fp_cswap1 a b : length (fx a) = length (fx b) -> fp_cswap a b 1 = (b, a).
Proof. intros H. unfold fp_cswap. rewrite (cswap1 _ _ H), lnot1, xswap_l, xswap_r. destruct a, b. reflexivity. Qed.
Lemma ecp_cswap0 a b : adm a -> adm b -> ecp_cswap a b 0 = (a, b).
Proof.
  intros ((A1 & _) & (A2 & _) & (A3 & _) & _) ((B1 & _) & (B2 & _) & (B3 & _) & _). unfold ecp_cswap.
  rewrite !fp_cswap0 by congruence. destruct a, b. reflexivity.
Qed.
Lemma ecp_cswap1 a b : adm a -> adm b -> ecp_cswap a b 1 = (b, a).
Proof.
  intros ((A1 & _) & (A2 & _) & (A3 & _) & _) ((B1 & _) & (B2 & _) & (B3 & _) & _). unfold ecp_cswap.
  rewrite !fp_cswap1 by congruence. destruct a, b. reflexivity.
Qed.

(* the bit read at position i and the number made of the bits from i up *)
Lemma bit_cases e i : 0 <= i -> Z.land (Z.shiftr e i) 1 = (e / 2 ^ i) mod 2.
Proof. intros I. rewrite Z.shiftr_div_pow2 by lia. change 1 with (Z.ones 1). rewrite Z.land_ones by lia. reflexivity. Qed.
(* bits i .. n-1 of e *)
Definition hi (e : Z) (n i : nat) : Z := (e mod 2 ^ Z.of_nat n) / 2 ^ Z.of_nat i.
Lemma hi_top e n : hi e n n = 0.
Proof. unfold hi. apply Z.div_small, Z.mod_pos_bound. apply Z.pow_pos_nonneg; lia. Qed.
Lemma hi_0 e n : hi e n 0 = e mod 2 ^ Z.of_nat n. Proof. unfold hi. apply Z.div_1_r. Qed.
Lemma hi_step e n i : (i < n)%nat -> hi e n i = 2 * hi e n (S i) + (e / 2 ^ Z.of_nat i) mod 2.
Proof.
  intros L. unfold hi. set (m := e mod 2 ^ Z.of_nat n).
  assert (P : forall k, 0 < 2 ^ Z.of_nat k) by (intros k; apply Z.pow_pos_nonneg; lia).
  rewrite Nat2Z.inj_succ, Z.pow_succ_r, (Z.mul_comm 2 (2 ^ Z.of_nat i)), <- Z.div_div by (try apply P; lia).
  assert (E : (e / 2 ^ Z.of_nat i) mod 2 = (m / 2 ^ Z.of_nat i) mod 2).
  { assert (D : e = m + (2 ^ (Z.of_nat n - Z.of_nat i - 1) * (e / 2 ^ Z.of_nat n)) * 2 * 2 ^ Z.of_nat i).
    { unfold m. rewrite (Z.div_mod e (2 ^ Z.of_nat n)) at 1 by (specialize (P n); lia).
      replace (2 ^ Z.of_nat n) with (2 ^ (Z.of_nat n - Z.of_nat i - 1) * (2 * 2 ^ Z.of_nat i)) at 1; [ring|].
      rewrite <- (Z.pow_succ_r 2 (Z.of_nat i)), <- Z.pow_add_r by lia. f_equal. lia. }
    rewrite D at 1. rewrite Z.div_add by (specialize (P i); lia). rewrite Z.mod_add by lia. reflexivity. }
  rewrite E. apply Z.div_mod. lia.
Qed.
Lemma hi_pos e n i : 0 <= hi e n i.
Proof. unfold hi. apply Z.div_pos; [apply Z.mod_pos_bound|]; apply Z.pow_pos_nonneg; lia. Qed.

(* ---------------------------------- pinmul ---------------------------- *)
Lemma pin_step_ok e n i r0 r1 p : (i < n)%nat -> (n <= 32)%nat -> on1 p -> adm r0 -> adm r1 ->
  ecp_pt r0 = zm1 (hi e n (S i)) p -> ecp_pt r1 = zm1 (hi e n (S i) + 1) p ->
  exists r0' r1', pin_step e (r0, r1) i = Some (r0', r1') /\ adm r0' /\ adm r1' /\ ecp_pt r0' = zm1 (hi e n i) p /\ ecp_pt r1' = zm1 (hi e n i + 1) p.
Proof.
  intros I N O A0 A1 V0 V1. unfold pin_step. destruct (Nat.ltb_spec 31 i) as [L|_]; [lia|].
  rewrite (bit_cases e (Z.of_nat i)) by lia. pose proof (hi_step e n i I) as H.
  destruct (K1_add r1 r0 A1 A0) as (s & E & AS & VS). rewrite E. cbn [bind]. rewrite V0, V1, <- zm1_add in VS by exact O.
  pose proof (Z.mod_pos_bound (e / 2 ^ Z.of_nat i) 2 ltac:(lia)) as MB.
  assert (C : (e / 2 ^ Z.of_nat i) mod 2 = 0 \/ (e / 2 ^ Z.of_nat i) mod 2 = 1) by lia.
  revert H C. generalize ((e / 2 ^ Z.of_nat i) mod 2). clear MB E. intros b H [->| ->].
  - rewrite (ecp_cswap0 r0 r1 A0 A1). destruct (K1_dbl r0 A0) as (d & E & AD & VD). rewrite E. cbn [bind].
    rewrite (ecp_cswap0 d s AD AS). rewrite V0, <- zm1_add in VD by exact O. exists d, s. split; [reflexivity|]. split; [exact AD|]. split; [exact AS|].
    rewrite VD, VS, H. split; f_equal; lia.
  - rewrite (ecp_cswap1 r0 r1 A0 A1). destruct (K1_dbl r1 A1) as (d & E & AD & VD). rewrite E. cbn [bind].
    rewrite (ecp_cswap1 d s AD AS). rewrite V1, <- zm1_add in VD by exact O. exists s, d. split; [reflexivity|]. split; [exact AS|]. split; [exact AD|].
    rewrite VD, VS, H. split; f_equal; lia.
Qed.
Lemma rev_seq_S n : rev (seq 0 (S n)) = n :: rev (seq 0 n).
Proof. rewrite seq_S, rev_app_distr. reflexivity. Qed.
Lemma pin_fold_ok e n p : (n <= 32)%nat -> on1 p -> forall i r0 r1, (i <= n)%nat -> adm r0 -> adm r1 ->
  ecp_pt r0 = zm1 (hi e n i) p -> ecp_pt r1 = zm1 (hi e n i + 1) p ->
  exists r0' r1', foldM (pin_step e) (rev (seq 0 i)) (r0, r1) = Some (r0', r1') /\ adm r0' /\ ecp_pt r0' = zm1 (hi e n 0) p.
Proof.
  intros N O. induction i as [|i IH]; intros r0 r1 I A0 A1 V0 V1.
  - exists r0, r1. split; [reflexivity|]. split; assumption.
  - rewrite rev_seq_S. cbn [foldM]. destruct (pin_step_ok e n i r0 r1 p I N O A0 A1 V0 V1) as (s0 & s1 & E & B0 & B1 & W0 & W1).
    rewrite E. cbn [bind]. apply IH; try assumption. lia.
Qed.
Lemma ecp_pinmul_ok : forall a e n, adm a -> (n <= 32)%nat ->
  exists c, ecp_pinmul a e n = Some c /\ adm c /\ ecp_pt c = nmul1 (Z.to_nat (e mod 2 ^ Z.of_nat n)) (ecp_pt a).
Proof.
  intros a e n A N. unfold ecp_pinmul. destruct (ok_ex _ _ ecp_new_ok) as (o & E & O). rewrite E. cbn [bind].
  apply (ecpR_weak _ _ 8 16777216) in O; [|lia|lia]. apply ecpR_wf_pt in O. destruct O as [O V].
  pose proof (proj1 (ecp_wf_R _ _ _ A)) as ON.
  destruct (pin_fold_ok e n (ecp_pt a) N ON n o a (Nat.le_refl n) O A) as (r0 & r1 & F & AR & VR).
  - rewrite V, hi_top. symmetry. apply zm1_zero.
  - rewrite hi_top. symmetry. apply zm1_1.
  - rewrite F. cbn [bind]. destruct (K1_affine r0 AR) as (c & C & AC & VC & _). exists c. split; [exact C|]. split; [exact AC|].
    rewrite VC, VR, hi_0. apply zm1_nmul. apply Z.mod_pos_bound. apply Z.pow_pos_nonneg; lia.
Qed.

(* ---------------------------------- pinpow ---------------------------- *)
Lemma pinpow_step_ok e n i r0 r1 z : (i < n)%nat -> (n <= 32)%nat -> cyc z -> fp12R 8 524288 (zp z (hi e n (S i))) r0 -> fp12R 8 524288 (zp z (hi e n (S i) + 1)) r1 ->
  ok (pinpow_step e (r0, r1) i) (fun '(r0', r1') => fp12R 8 524288 (zp z (hi e n i)) r0' /\ fp12R 8 524288 (zp z (hi e n i + 1)) r1').
Proof.
  intros I N C V0 V1. unfold pinpow_step. destruct (Nat.ltb_spec 31 i) as [L|_]; [lia|].
  rewrite (bit_cases e (Z.of_nat i)) by lia. pose proof (hi_step e n i I) as H.
  pose proof (Z.mod_pos_bound (e / 2 ^ Z.of_nat i) 2 ltac:(lia)) as MB.
  assert (K : (e / 2 ^ Z.of_nat i) mod 2 = 0 \/ (e / 2 ^ Z.of_nat i) mod 2 = 1) by lia.
  assert (WK : forall a x, fp12R 1 KB x a -> fp12R 8 524288 x a) by (intros a x X; eapply fp12R_weak; [exact X|lia|unfold KB; lia]).
  assert (WC : forall a x, fp12C x a -> fp12R 8 524288 x a) by (intros a x X; apply fp12C_R in X; eapply fp12R_weak; [exact X|lia|lia]).
  revert H K. generalize ((e / 2 ^ Z.of_nat i) mod 2). clear MB. intros b H [->| ->]; cbn [Z.eqb Pos.eqb].
  - eapply ok_bind; [eapply fp12_mul_ok; [exact V1|exact V0|lia..]|]. intros s S. rewrite (zp_mul z _ _ C) in S.
    eapply ok_bind; [eapply fp12_usqr_ok; [exact V0|lia..]|]. intros d D. rewrite (kusqr_ok _ (zp_cyc z _ C)), (zp_mul z _ _ C) in D.
    cbn [ok]. split.
    + replace (hi e n i) with (hi e n (Datatypes.S i) + hi e n (Datatypes.S i)) by lia. apply WC, D.
    + replace (hi e n i + 1) with (hi e n (Datatypes.S i) + 1 + hi e n (Datatypes.S i)) by lia. apply WK, S.
  - eapply ok_bind; [eapply fp12_mul_ok; [exact V0|exact V1|lia..]|]. intros s S. rewrite (zp_mul z _ _ C) in S.
    eapply ok_bind; [eapply fp12_usqr_ok; [exact V1|lia..]|]. intros d D. rewrite (kusqr_ok _ (zp_cyc z _ C)), (zp_mul z _ _ C) in D.
    cbn [ok]. split.
    + replace (hi e n i) with (hi e n (Datatypes.S i) + (hi e n (Datatypes.S i) + 1)) by lia. apply WK, S.
    + replace (hi e n i + 1) with (hi e n (Datatypes.S i) + 1 + (hi e n (Datatypes.S i) + 1)) by lia. apply WC, D.
Qed.
Lemma pinpow_fold_ok e n z : (n <= 32)%nat -> cyc z -> forall i r0 r1, (i <= n)%nat -> fp12R 8 524288 (zp z (hi e n i)) r0 -> fp12R 8 524288 (zp z (hi e n i + 1)) r1 ->
  ok (foldM (pinpow_step e) (rev (seq 0 i)) (r0, r1)) (fun '(r0', _) => fp12R 8 524288 (zp z (hi e n 0)) r0').
Proof.
  intros N C. induction i as [|i IH]; intros r0 r1 I V0 V1.
  - cbn [seq rev foldM ok]. exact V0.
  - rewrite rev_seq_S. cbn [foldM]. eapply ok_bind; [apply (pinpow_step_ok e n i r0 r1 z I N C V0 V1)|].
    intros [s0 s1] [W0 W1]. apply IH; try assumption. lia.
Qed.
Lemma fp12_pinpow_ok z a e n : fp12R 8 524288 z a -> cyc z -> (n <= 32)%nat ->
  ok (fp12_pinpow a e n) (fp12R 8 524288 (kpw z (e mod 2 ^ Z.of_nat n))).
Proof.
  intros R C N. unfold fp12_pinpow. eapply ok_bind; [apply (fp12_new_int_ok 1 ltac:(lia))|]. intros o O.
  eapply ok_bind; [apply (pinpow_fold_ok e n z N C n o a (Nat.le_refl n))|].
  - rewrite hi_top, zp_0. eapply fp12R_weak; [exact O|lia|lia].
  - rewrite hi_top. change (0 + 1) with 1. rewrite (zp_1 z C). exact R.
  - intros [r0 r1] V. cbn [ok]. rewrite hi_0 in V. rewrite (zp_pw z _ C) in V; [exact V|]. apply Z.mod_pos_bound, Z.pow_pos_nonneg; lia.
Qed.
