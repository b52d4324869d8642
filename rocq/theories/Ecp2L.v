(* Twist points whose x-coordinate carries the full excess: what map_to_g2 builds after
   a long search.  The excess counter is capped by the reductions inside FP::add, and the
   value itself stays below half of what the counter allows. *)
From Coq Require Import ZArith List Bool Lia ZifyBool Znumtheory Field.
From Verif Require Import Prim PrimP Rom Big BigP BigP2 BigP3 BigP4 BigP5 NumT FieldQ FieldQ2 Fp FpP FpP2 Fp2 Fp2P SpecCurve CurveP GroupP
  JacobiM JacP Sqrt2P Ecp WinP Ecp2 EcpP Ecp2P EcpC Ecp2C.
Import ListNotations.
Open Scope Z_scope.

Definition val2 (a : FP2) : Z := lval (fx (f2a a)) + lval (fx (f2b a)).
Lemma val2_R l E x a : fp2R l E x a -> 0 <= val2 a <= 2 * E * q381.
Proof.
  intros [(_ & _ & A & B & _) (_ & _ & C & D & _)]. unfold val2. pose proof q381_pos.
  assert (fxes (f2a a) * q381 <= E * q381) by (apply Z.mul_le_mono_nonneg_r; lia).
  assert (fxes (f2b a) * q381 <= E * q381) by (apply Z.mul_le_mono_nonneg_r; lia). lia.
Qed.

(* ------------------------- FP ----------------------------------------- *)
Lemma fpC_le x a v : fpC x a -> 0 <= v -> fmul (mkq v) RI = x -> lval (fx a) <= v /\ lval (fx a) < q381.
Proof.
  intros ((_ & _ & C) & _) V X. rewrite C, <- X. replace (fmul (fmul (mkq v) RI) (mkq (2 ^ 406))) with (mkq v).
  - rewrite fv_mkq. pose proof q381_pos. split; [apply Z.mod_le; lia|apply Z.mod_pos_bound; lia].
  - transitivity (fmul (mkq v) (fmul (mkq (2 ^ 406)) RI)); [rewrite RI_R; ring|ring].
Qed.
(* addition: either the counters add up, or the sum has been reduced *)
Lemma fp_add_cases l m E F x y a b : fpR l E x a -> fpR m F y b -> 1 <= l -> 1 <= m -> l + m <= 31 ->
  E <= 33554432 -> F <= 33554432 ->
  ok (fp_add a b) (fun c => fpR (l + m) (Z.min 33554432 (E + F)) (fadd x y) c /\
    ((lval (fx c) = lval (fx a) + lval (fx b) /\ fxes c = fxes a + fxes b) \/ (lval (fx c) < q381 /\ lval (fx c) <= lval (fx a) + lval (fx b) /\ fxes c = 1))).
Proof.
  intros (A1 & A2 & A3 & A4 & A5) (B1 & B2 & B3 & B4 & B5) L M LM HE HF. unfold fp_add.
  eapply ok_bind; [apply (big_add_spec (fx a) (fx b) (l * B58) (m * B58)); try lia; apply lim_lb; auto|].
  intros r (R1 & R2 & R3). rewrite ck32_ok by lia. cbn [bind]. change FEXCESS with 33554432. cbv zeta.
  assert (R : fpR (l + m) (fxes a + fxes b) (fadd x y) (mkFP r (fxes a + fxes b))).
  { unfold fpR. cbn [fx fxes]. split; [lia|]. split; [|split; [|split; [lia|]]].
    - unfold lim. destruct (Z.leb_spec (l + m) 1); [lia|]. replace ((l + m) * B58) with (l * B58 + m * B58) by ring. auto.
    - rewrite R3. lia.
    - rewrite R3, mkq_add, <- A5, <- B5. ring. }
  destruct (Z.ltb_spec 33554432 (fxes a + fxes b)).
  - eapply ok_impl; [eapply fp_reduce_ok; [exact R|lia|lia]|]. intros c C. pose proof (fpC_R _ _ C) as CR. split; [eapply fpR_weak; [exact CR|lia|lia]|].
    right. destruct R as (_ & _ & RV & _ & RX). cbn [fx] in RV, RX. destruct (fpC_le _ _ (lval r) C) as [V1 V2]; [lia|exact RX|].
    split; [exact V2|]. split; [lia|]. exact (proj2 C).
  - cbn [ok]. split; [|left; split; [exact R3|reflexivity]]. eapply fpR_weak; [exact R|lia|lia].
Qed.
Lemma fp_add_cap l m E F x y a b : fpR l E x a -> fpR m F y b -> 1 <= l -> 1 <= m -> l + m <= 31 ->
  E <= 33554432 -> F <= 33554432 ->
  ok (fp_add a b) (fun c => fpR (l + m) 33554432 (fadd x y) c /\ lval (fx c) <= lval (fx a) + lval (fx b)).
Proof.
  intros A B L M LM HE HF. eapply ok_impl; [apply (fp_add_cases l m E F x y a b A B L M LM HE HF)|]. intros c [C V].
  split; [eapply fpR_weak; [exact C|lia|lia]|]. lia.
Qed.
Lemma fp_neg_cap l E x a : fpR l E x a -> 1 <= l <= 30 -> E <= 33554432 ->
  ok (fp_neg a) (fpR (l + 1) 33554432 (fopp x)).
Proof.
  intros (A1 & A2 & A3 & A4 & A5) L HE. unfold fp_neg. pose proof q381_lt. pose proof q381_bound2.
  rewrite ck32_ok by lia. cbn [bind]. change 4294967295 with (2 ^ 32 - 1). rewrite land_ones_mod by lia.
  rewrite Z.mod_small by lia. rewrite logb2_spec by lia. cbn [bind].
  set (sb := bitlen (fxes a - 1)).
  pose proof (bitlen_pow (fxes a) ltac:(lia)) as BP. fold sb in BP.
  assert (SB : 0 <= sb <= 25).
  { split; [apply bitlen_nonneg|]. apply bitlen_le; lia. }
  clearbody sb. assert (P25 : 2 ^ sb <= 2 ^ 25) by (apply Z.pow_le_mono_r; lia). change (2 ^ 25) with 33554432 in P25.
  assert (PQ : q381 * 2 ^ sb <= q381 * 33554432) by (apply Z.mul_le_mono_nonneg_l; lia).
  assert (PQ2 : fxes a * q381 <= q381 * 2 ^ sb) by (rewrite (Z.mul_comm (fxes a)); apply Z.mul_le_mono_nonneg_l; lia).
  pose proof (fshl_spec7 MODULUS q381 sb (rep_nrep _ _ _ mod_rep) ltac:(lia) ltac:(lia)) as FS.
  apply nrep_rep in FS; [|change (58 * Z.of_nat 7) with 406; lia]. destruct FS as (F1 & F2 & F3).
  eapply ok_bind; [apply (big_rsub_spec (fx a) (big_fshl MODULUS sb) (l * B58) B58); try lia|].
  { apply lim_lb; auto; lia. }
  { apply digs_lb; auto. }
  intros r (R1 & R2 & R3). destruct (Z.leb_spec 32 sb); [lia|].
  rewrite Z.shiftl_1_l. rewrite wrap32_id by lia. cbv zeta. cbn [fxes]. change FEXCESS with 33554432.
  destruct (Z.ltb_spec 33554432 (2 ^ sb)); [lia|]. cbn [ok]. unfold fpR. cbn [fx fxes].
  split; [lia|]. split; [|split; [|split; [lia|]]].
  - unfold lim. destruct (Z.leb_spec (l + 1) 1); [lia|]. replace ((l + 1) * B58) with (l * B58 + B58) by ring. auto.
  - rewrite R3, F3. lia.
  - rewrite R3, F3. rewrite mkq_sub, (Z.mul_comm q381), mkq_mul_q, <- A5. change (mkq 0) with f0. ring.
Qed.
Lemma fp_norm_keep l E x a : fpR l E x a -> 1 <= l <= 31 -> E <= 33554432 ->
  ok (fp_norm a) (fun c => fpR 1 E x c /\ lval (fx c) = lval (fx a) /\ fxes c = fxes a).
Proof.
  intros H L HE. pose proof (fpR_val25 _ _ _ _ H HE) as V. destruct H as (A & B & C & D & F).
  unfold fp_norm. eapply ok_bind; [apply norm_spec7; auto; eapply lim_lb63; eauto|].
  intros r R. assert (R' : rep 7 r (lval (fx a))) by (apply nrep_rep; auto).
  destruct R' as (R1 & R2 & R3). cbn [ok]. unfold fpR. cbn [fx fxes]. rewrite R3.
  split; [|split; reflexivity]. fpsplit. assumption.
Qed.

(* ------------------------- FP2 ---------------------------------------- *)
Lemma fp2_add_cap l m E F x y a b : fp2R l E x a -> fp2R m F y b -> 1 <= l -> 1 <= m -> l + m <= 31 ->
  E <= 33554432 -> F <= 33554432 ->
  ok (fp2_add a b) (fun c => fp2R (l + m) 33554432 (gadd x y) c /\ val2 c <= val2 a + val2 b).
Proof.
  intros [A1 A2] [B1 B2] L M LM HE HF. unfold fp2_add.
  eapply ok_bind; [apply (fp_add_cap l m E F _ _ _ _ A1 B1); lia|]. intros r [R RV].
  eapply ok_bind; [apply (fp_add_cap l m E F _ _ _ _ A2 B2); lia|]. intros s [S2 SV]. cbn [ok]. split; [split; assumption|].
  unfold val2. cbn [f2a f2b]. lia.
Qed.
Lemma fp2_norm_keep l E x a : fp2R l E x a -> 1 <= l <= 31 -> E <= 33554432 ->
  ok (fp2_norm a) (fun c => fp2R 1 E x c /\ val2 c = val2 a).
Proof.
  intros [A B] L HE. unfold fp2_norm.
  eapply ok_bind; [apply (fp_norm_keep l E _ _ A); lia|]. intros r (R & RV & _).
  eapply ok_bind; [apply (fp_norm_keep l E _ _ B); lia|]. intros s (S2 & SV & _). cbn [ok]. split; [split; assumption|].
  unfold val2. cbn [f2a f2b]. lia.
Qed.
Lemma fp2_sqr_cap x a : fp2R 1 33554432 x a -> ok (fp2_sqr a) (fp2R 1 2 (gmul x x)).
Proof.
  intros [A1 A2]. unfold fp2_sqr.
  eapply ok_bind; [apply (fp_add_cap 1 1 _ _ _ _ _ _ A1 A2); lia|]. intros w1 [W1 _].
  eapply ok_bind; [apply (fp_add_cap 1 1 _ _ _ _ _ _ A1 A1); lia|]. intros w3 [W3 _].
  eapply ok_bind; [eapply (fp_norm_ok (1 + 1)); [exact W3|lia|lia]|]. intros w3' W3'.
  eapply ok_bind; [eapply (fp_mul_ok 1 1); [exact A2|exact W3'|lia..]|]. intros b B.
  eapply ok_bind; [apply (fp_neg_cap 1 _ _ _ A2); lia|]. intros mb MB.
  eapply ok_bind; [eapply (fp_add_cap 1 (1 + 1) _ _ _ _ _ _ A1 MB); lia|]. intros a1 [A3 _].
  eapply ok_bind; [eapply (fp_norm_ok (1 + 1)); [exact W1|lia|lia]|]. intros w1' W1'.
  eapply ok_bind; [eapply (fp_norm_ok (1 + (1 + 1))); [exact A3|lia|lia]|]. intros a2 A4.
  eapply ok_bind; [eapply (fp_mul_ok 1 1); [exact A4|exact W1'|lia..]|]. intros r R. cbn [ok].
  split; cbn [f2a f2b gmul fst snd].
  - eapply fpR_eq; [exact R|ring].
  - eapply fpR_eq; [exact B|ring].
Qed.

Lemma norm_sum_val l E F x y a b : fpR l E x a -> fpR l F y b -> 1 <= l <= 8 -> lval (fx a) + lval (fx b) < 2 ^ 406 ->
  ok (c0 <- big_add (fx a) (fx b) ;; big_norm c0) (fun c => rep 7 c (lval (fx a) + lval (fx b))).
Proof.
  intros (A1 & A2 & A3 & A4 & A5) (B1 & B2 & B3 & B4 & B5) L H.
  eapply ok_bind; [apply (big_add_spec (fx a) (fx b) (l * B58) (l * B58)); try lia; apply lim_lb; auto; lia|].
  intros c0 (C1 & C2 & C3). eapply ok_impl; [apply norm_spec7; [lia|eapply lb_weak; [exact C2|lia]]|].
  cbv beta. intros c N. rewrite C3 in N. apply nrep_rep; [exact N|]. change (58 * Z.of_nat 7) with 406. lia.
Qed.
Lemma fp2_mul_core_val l m E F x1 x2 y1 y2 xa xb ya yb :
  fpR l E x1 xa -> fpR l E x2 xb -> fpR m F y1 ya -> fpR m F y2 yb -> 1 <= l <= 8 -> 1 <= m <= 8 ->
  lval (fx xa) + lval (fx xb) < 2 ^ 406 -> lval (fx ya) + lval (fx yb) < 2 ^ 406 ->
  (lval (fx xa) + lval (fx xb)) * (lval (fx ya) + lval (fx yb)) <= 2 ^ 406 * q381 ->
  ok (a <- big_mul (fx xa) (fx ya) ;;
  b <- big_mul (fx xb) (fx yb) ;;
  c0 <- big_add (fx xa) (fx xb) ;;
  c <- big_norm c0 ;;
  d0 <- big_add (fx ya) (fx yb) ;;
  d <- big_norm d0 ;;
  e <- big_mul c d ;;
  f <- big_add a b ;;
  b' <- big_rsub b (dbig_ucopy MODULUS) ;;
  a1 <- big_add a b' ;;
  a2 <- dbig_norm a1 ;;
  e1 <- big_sub e f ;;
  e2 <- dbig_norm e1 ;;
  ra <- fp_modulo a2 ;;
  rb <- fp_modulo e2 ;;
  Some (mkFP2 (mkFP ra 3) (mkFP rb 2))) (fp2R 1 3 (gmul (x1, x2) (y1, y2))).
Proof.
  intros HXA HXB HYA HYB L M P1 P2 KB. pose proof q381_lt. pose proof q381_bound2.
  pose proof HXA as (XA1 & XA2 & XA3 & XA4 & XA5). pose proof HXB as (XB1 & XB2 & XB3 & XB4 & XB5).
  pose proof HYA as (YA1 & YA2 & YA3 & YA4 & YA5). pose proof HYB as (YB1 & YB2 & YB3 & YB4 & YB5).
  pose proof (karat _ _ _ _ 0 0 (proj1 XA3) (proj1 XB3) (proj1 YA3) (proj1 YB3) KB) as (K1 & K2 & K3).
  set (Q := 2 ^ 406 * q381) in *. assert (QB : 0 <= Q < 2 ^ 787) by (unfold Q; lia).
  eapply ok_bind; [apply (big_mul_spec (fx xa) (fx ya) (2 ^ 61) (2 ^ 61)); auto; try lia; eapply lim_lb61; eauto|]. intros a A.
  eapply ok_bind; [apply (big_mul_spec (fx xb) (fx yb) (2 ^ 61) (2 ^ 61)); auto; try lia; eapply lim_lb61; eauto|]. intros b B.
  rewrite <- bind_assoc. eapply ok_bind; [eapply (norm_sum_val l); eauto|]. intros c C.
  rewrite <- bind_assoc. eapply ok_bind; [eapply (norm_sum_val m); eauto|]. intros d D.
  pose proof C as (C1 & C2 & C3). pose proof D as (D1 & D2 & D3).
  assert (KP : 0 <= (lval (fx xa) + lval (fx xb)) * (lval (fx ya) + lval (fx yb))) by (apply Z.mul_nonneg_nonneg; lia).
  eapply ok_bind; [apply (big_mul_spec c d B58 B58); auto; try (apply digs_lb; auto); try lia; rewrite C3, D3; lia|]. intros e EE.
  rewrite C3, D3 in EE.
  assert (LA : lb B58 a) by (eapply nrep14_lb; [exact A|lia]). assert (LB : lb B58 b) by (eapply nrep14_lb; [exact B|lia]).
  assert (LE : lb B58 e) by (eapply nrep14_lb; [exact EE|lia]).
  destruct A as (A1 & A2 & A3), B as (B1 & B2 & B3), EE as (E1 & E2 & E3).
  eapply ok_bind; [apply (big_add_spec a b B58 B58); auto; try lia|]. intros f (F1 & F2 & F3).
  eapply ok_bind; [apply (big_rsub_spec b (dbig_ucopy MODULUS) B58 B58); auto; try lia; try exact ucopy_mod_lb; rewrite ucopy_mod_len; lia|].
  intros b' (B1' & B2' & B3'). rewrite ucopy_mod_val in B3'. fold Q in B3'.
  eapply ok_bind; [apply (big_add_spec a b' B58 (B58 + B58)); auto; lia|]. intros a1 (AA1 & AA2 & AA3).
  eapply ok_bind; [apply norm_spec14; [lia|eapply lb_weak; [exact AA2|lia]]|]. intros a2 N2.
  eapply ok_bind; [apply (big_sub_spec e f B58 (B58 + B58)); auto; lia|]. intros e1 (EE1 & EE2 & EE3).
  eapply ok_bind; [apply norm_spec14; [lia|eapply lb_weak; [exact EE2|lia]]|]. intros e2 N3.
  rewrite AA3, B3', A3, B3 in N2. rewrite EE3, F3, E3, A3, B3 in N3.
  eapply ok_bind; [eapply (modulo_R3 a2 _ (fsub (fmul x1 y1) (fmul x2 y2)) N2); [fold Q; lia|]|].
  { replace (lval (fx xa) * lval (fx ya) + (Q - lval (fx xb) * lval (fx yb))) with
      (lval (fx xa) * lval (fx ya) - lval (fx xb) * lval (fx yb) + 2 ^ 406 * q381) by (unfold Q; ring).
    rewrite mkq_add_q, mkq_sub, !mkq_mul, <- XA5, <- XB5, <- YA5, <- YB5. ring. }
  intros ra RA.
  eapply ok_bind; [eapply (modulo_R e2 _ (fadd (fmul x1 y2) (fmul x2 y1)) N3); [fold Q; lia|]|].
  { rewrite mkq_sub, mkq_add, !mkq_mul, !mkq_add, <- XA5, <- XB5, <- YA5, <- YB5. ring. }
  intros rb RB. cbn [ok]. split; cbn [f2a f2b gmul fst snd]; [exact RA|eapply fpR_weak; [exact RB|lia|lia]].
Qed.
Lemma q381_40m : 40000000 * q381 <= 2 ^ 406. Proof. vm_compute. discriminate. Qed.
Lemma fp2_mul_val l m E F x y a b : fp2R l E x a -> fp2R m F y b -> 1 <= l <= 8 -> 1 <= m <= 8 ->
  E <= 33554432 -> F <= 33554432 -> val2 b <= 20000000 * q381 ->
  ok (fp2_mul a b) (fp2R 1 3 (gmul x y)).
Proof.
  intros [A1 A2] [B1 B2] L M HE HF HV. unfold fp2_mul. unfold val2 in HV. pose proof q381_40m as Q40. pose proof q381_pos as QP.
  pose proof A1 as (_ & _ & A1v & A1' & _). pose proof A2 as (_ & _ & A2v & A2' & _).
  pose proof B1 as (_ & _ & B1v & B1' & _). pose proof B2 as (_ & _ & B2v & B2' & _).
  rewrite ck32_ok by lia. cbn [bind]. rewrite ck32_ok by lia. cbn [bind].
  assert (P : 0 <= (fxes (f2a a) + fxes (f2b a)) * (fxes (f2a b) + fxes (f2b b)) <= 67108864 * 67108864).
  { split; [apply Z.mul_nonneg_nonneg; lia|apply Z.mul_le_mono_nonneg; lia]. }
  rewrite ck64_ok by lia. cbn [bind]. change FEXCESS with 33554432.
  destruct x as [x1 x2], y as [y1 y2]. cbn [fst snd] in *.
  destruct (Z.ltb_spec 33554432 ((fxes (f2a a) + fxes (f2b a)) * (fxes (f2a b) + fxes (f2b b)))) as [G|G].
  - cbn [andb].
    assert (RX : forall x u, fpR l E x u -> ok (if 1 <? fxes u then fp_reduce u else Some u) (fun u' => fpR l 1 x u')).
    { intros x u U. destruct (Z.ltb_spec 1 (fxes u)) as [V|V].
      - eapply ok_impl; [eapply fp_reduce_ok; [exact U|lia|lia]|]. intros r R. eapply fpR_weak; [apply fpC_R; exact R|lia|lia].
      - cbn [ok]. destruct U as (U1 & U2 & U3 & U4 & U5). fpsplit; auto. }
    eapply ok_bind; [apply RX; exact A1|]. intros xa XA. eapply ok_bind; [apply RX; exact A2|]. intros xb XB.
    cbv zeta.
    assert (S1 : 0 <= lval (fx xa) + lval (fx xb) <= 2 * q381).
    { destruct XA as (_ & _ & XA & XAe & _), XB as (_ & _ & XB & XBe & _).
      assert (EA : fxes xa = 1) by lia. assert (EB : fxes xb = 1) by lia. rewrite EA in XA. rewrite EB in XB. lia. }
    eapply (fp2_mul_core_val l m 1 F); eauto; try lia.
    apply Z.le_trans with ((2 * q381) * (20000000 * q381)); [apply Z.mul_le_mono_nonneg; lia|].
    replace (2 * q381 * (20000000 * q381)) with ((40000000 * q381) * q381) by ring. apply Z.mul_le_mono_nonneg_r; lia.
  - cbn [andb bind]. cbv zeta. eapply (fp2_mul_core l m E F); eauto.
Qed.

(* ------------------------- points ------------------------------------- *)
(* a denotes p; x may carry the whole excess, but its value is at most 16777300 q *)
Definition ecp2V (E : Z) (p : pt2) (a : ECP2) : Prop :=
  on2 p /\ exists X Y Z, fp2R 1 33554432 X (e2x a) /\ val2 (e2x a) <= 16777300 * q381 /\
    fp2R 1 E Y (e2y a) /\ fp2R 1 E Z (e2z a) /\ prep2 X Y Z p.
Lemma ecp2V_on E p a : ecp2V E p a -> on2 p. Proof. intros [H _]. exact H. Qed.
Lemma ecp2R_V E p a : ecp2R 1 E p a -> E <= 8388650 -> ecp2V E p a.
Proof.
  intros (OP & X & Y & Z & A & B & C & P) HE. split; [exact OP|]. exists X, Y, Z.
  split; [eapply fp2R_weak; [exact A|lia|lia]|]. split; [|split; [exact B|split; [exact C|exact P]]].
  pose proof (val2_R _ _ _ _ A) as V. pose proof q381_pos. assert (E * q381 <= 8388650 * q381) by (apply Z.mul_le_mono_nonneg_r; lia). lia.
Qed.
Lemma ecp2V_weak E E' p a : ecp2V E p a -> E <= E' -> ecp2V E' p a.
Proof.
  intros (OP & X & Y & Z & A & V & B & C & P) HE. split; [exact OP|]. exists X, Y, Z.
  split; [exact A|]. split; [exact V|]. split; [eapply fp2R_weak; [exact B|lia|lia]|]. split; [eapply fp2R_weak; [exact C|lia|lia]|exact P].
Qed.
Lemma ecp2V_wf E p a : ecp2V E p a -> wf2 a.
Proof.
  intros (_ & X & Y & Z & A & _ & B & C & _). split; [eapply fp2R_wf; exact A|]. split; [eapply fp2R_wf; exact B|eapply fp2R_wf; exact C].
Qed.
Lemma ecp2V_R E p a : ecp2V E p a -> E <= 33554432 -> ecp2R 1 33554432 p a.
Proof.
  intros (OP & X & Y & Z & A & V & B & C & P) HE. split; [exact OP|]. exists X, Y, Z.
  split; [exact A|]. split; [eapply fp2R_weak; [exact B|lia|lia]|]. split; [eapply fp2R_weak; [exact C|lia|lia]|exact P].
Qed.

Lemma ecp2_add_V E F p q a b : ecp2V E p a -> ecp2V F q b -> E <= 65536 -> F <= 65536 -> ok (ecp2_add a b) (ecp2R 1 17 (padd2 p q)).
Proof.
  intros (OP & X1 & Y1 & Z1 & A1 & AV & A2 & A3 & P) (OQ & X2 & Y2 & Z2 & B1 & BV & B2 & B3 & Q) HE HF.
  pose proof (val2_R _ _ _ _ A2) as V1. pose proof (val2_R _ _ _ _ A3) as V2. pose proof (val2_R _ _ _ _ B2) as V3. pose proof (val2_R _ _ _ _ B3) as V4.
  pose proof q381_pos as QP. assert (W1 : E * q381 <= 65536 * q381) by (apply Z.mul_le_mono_nonneg_r; lia).
  assert (W2 : F * q381 <= 65536 * q381) by (apply Z.mul_le_mono_nonneg_r; lia).
  assert (E1 : 1 <= E) by (destruct A2 as ((_ & _ & _ & K & _) & _); lia). assert (F1 : 1 <= F) by (destruct B2 as ((_ & _ & _ & K & _) & _); lia).
  unfold ecp2_add. change (3 * CURVE_B_I) with 12. cbv zeta.
  eapply ok_bind; [eapply fp2_mul_val; [exact A1|exact B1|lia..]|]. intros t0 T0.
  eapply ok_bind; [eapply fp2_mul_ok; [exact A2|exact B2|lia..]|]. intros t1 T1.
  eapply ok_bind; [eapply fp2_mul_ok; [exact A3|exact B3|lia..]|]. intros t2 T2.
  eapply ok_bind; [eapply fp2_add_cap; [exact A1|exact A2|lia..]|]. intros s1 [S1 _].
  eapply ok_bind; [eapply fp2_norm_ok; [exact S1|lia..]|]. intros s1' S1'.
  eapply ok_bind; [eapply fp2_add_cap; [exact B1|exact B2|lia..]|]. intros s2 [S2 SV2].
  eapply ok_bind; [eapply fp2_norm_keep; [exact S2|lia..]|]. intros s2' [S2' SV2'].
  eapply ok_bind; [eapply fp2_mul_val; [exact S1'|exact S2'|lia..]|]. intros t3 T3.
  do 8 gstep. do 3 gstep.
  eapply ok_bind; [eapply fp2_add_cap; [exact A1|exact A3|lia..]|]. intros s3 [S3 _].
  eapply ok_bind; [eapply fp2_norm_ok; [exact S3|lia..]|]. intros s3' S3'.
  eapply ok_bind; [eapply fp2_add_cap; [exact B1|exact B3|lia..]|]. intros s4 [S4 SV4].
  eapply ok_bind; [eapply fp2_norm_keep; [exact S4|lia..]|]. intros s4' [S4' SV4'].
  eapply ok_bind; [eapply fp2_mul_val; [exact S3'|exact S4'|lia..]|]. intros x3 X3.
  repeat gstep. cbn [ok]. pose proof (add2_prep _ _ _ _ _ _ _ _ OP OQ P Q) as PR. rewrite <- gb3 in PR.
  split; [apply padd2_on; assumption|].
  do 3 eexists. cbn [e2x e2y e2z].
  split; [eapply fp2R_weak; [eassumption|lia|lia]|]. split; [eapply fp2R_weak; [eassumption|lia|lia]|].
  split; [eapply fp2R_weak; [eassumption|lia|lia]|].
  match goal with |- prep2 ?a ?b ?c _ => 
    assert (EX : a = AX Fq2 gadd gmul gsub X1 Y1 Z1 X2 Y2 Z2 gb12) by (unfold AX, gb12; ring);
    assert (EY : b = AY Fq2 g1 gadd gmul gsub X1 Y1 Z1 X2 Y2 Z2 gb12) by (unfold AY, gb12; ring);
    assert (EZ : c = AZ Fq2 g1 gadd gmul X1 Y1 Z1 X2 Y2 Z2 gb12) by (unfold AZ, gb12; ring) end.
  rewrite EX, EY, EZ. exact PR.
Qed.
Lemma ecp2_dbl_V E p a : ecp2V E p a -> E <= 65536 -> ok (ecp2_dbl a) (ecp2R 1 17 (padd2 p p)).
Proof.
  intros (OP & X & Y & Z & A1 & AV & A2 & A3 & P) HE. unfold ecp2_dbl. change (3 * CURVE_B_I) with 12.
  repeat gstep. cbn [ok]. pose proof (dbl2_prep _ _ _ _ OP P) as PR. rewrite <- gb3 in PR.
  split; [apply padd2_on; assumption|].
  do 3 eexists. cbn [e2x e2y e2z].
  split; [eapply fp2R_weak; [eassumption|lia|lia]|]. split; [eapply fp2R_weak; [eassumption|lia|lia]|].
  split; [eapply fp2R_weak; [eassumption|lia|lia]|].
  match goal with |- prep2 ?a ?b ?c _ => 
    assert (EX : a = DX Fq2 g1 gadd gmul gsub X Y Z gb12) by (unfold DX, gb12; ring);
    assert (EY : b = DY Fq2 g1 gadd gmul gsub X Y Z gb12) by (unfold DY, gb12; ring);
    assert (EZ : c = DZ Fq2 g1 gadd gmul X Y Z) by (unfold DZ, gb12; ring) end.
  rewrite EX, EY, EZ. exact PR.
Qed.
Lemma ecp2_neg_V E p a : ecp2V E p a -> 5 * E - 1 <= 33554432 -> ok (ecp2_neg a) (ecp2V (5 * E - 1) (pneg2 p)).
Proof.
  intros (OP & X & Y & Z & A1 & AV & A2 & A3 & P) HE. unfold ecp2_neg.
  assert (1 <= E) by (destruct A2 as ((_ & _ & _ & K & _) & _); lia).
  repeat gstep. cbn [ok]. split; [apply pneg2_on; exact OP|]. exists X, (gopp Y), Z. cbn [e2x e2y e2z].
  split; [exact A1|]. split; [exact AV|]. split; [eapply fp2R_weak; [eassumption|lia|lia]|].
  split; [eapply fp2R_weak; [eassumption|lia|lia]|].
  destruct p as [|x y]; cbn [pneg prep] in *.
  - destruct P as (P1 & P2 & P3). split; [exact P1|]. split; [exact P2|]. intros N. apply P3. apply gopp_eq0. exact N.
  - destruct P as (P1 & P2 & P3). split; [exact P1|]. split; [exact P2|]. rewrite P3. ring.
Qed.
Lemma ecp2_sub_V E F p q a b : ecp2V E p a -> ecp2V F q b -> E <= 8192 -> F <= 8192 -> ok (ecp2_sub a b) (ecp2R 1 17 (padd2 p (pneg2 q))).
Proof.
  intros P Q HE HF. unfold ecp2_sub. eapply ok_bind; [apply (ecp2_neg_V F _ _ Q); lia|]. intros n N.
  eapply ecp2_add_V; [exact P|exact N|lia..].
Qed.

(* ------------------------- scalar multiplication ---------------------- *)
Definition tabV (E : Z) (p : pt2) (W : list ECP2) : Prop :=
  length W = 8%nat /\ forall k a, nth_error W k = Some a -> ecp2V E (zm2 (2 * Z.of_nat k + 1) p) a.
Lemma tabV_wf E p W : tabV E p W -> Forall wf2 W.
Proof.
  intros [_ H]. apply Forall_forall. intros a A. apply In_nth_error in A. destruct A as [k A]. apply H in A.
  eapply ecp2V_wf; eauto.
Qed.
Lemma tabV_get E p W k : tabV E p W -> (k < 8)%nat -> exists a, getM W k = Some a /\ ecp2V E (zm2 (2 * Z.of_nat k + 1) p) a.
Proof.
  intros [L H] K. unfold getM. destruct (nth_error W k) as [a|] eqn:G; [exists a; split; [reflexivity|apply H; exact G]|].
  apply nth_error_None in G. lia.
Qed.
Lemma ecp2_selector_V E p W self d : tabV E p W -> on2 p -> wf2 self -> wdig d -> 5 * E - 1 <= 33554432 ->
  ok (ecp2_selector self W d) (ecp2V (5 * E - 1) (zm2 d p)).
Proof.
  intros T OP WS D HE. unfold ecp2_selector. destruct (wdig_case d D) as (k & K & SB & C). rewrite SB. cbn [bind].
  rewrite (sel_fold wf2 ecp2_cmove ecp2_cmove0 ecp2_cmove1 W k K (proj1 T) (tabV_wf _ _ _ T) 8 0 self WS ltac:(lia)).
  destruct (tabV_get _ _ _ _ T K) as (a & G & A).
  destruct (Nat.leb_spec 0 k); [|lia]. destruct (Nat.ltb_spec k (0 + 8)); [|lia]. cbn [andb]. rewrite G. cbn [bind].
  assert (1 <= E) by (destruct A as (_ & ? & ? & ? & _ & _ & ((_ & _ & _ & A1 & _) & _) & _); lia).
  eapply ok_bind; [apply (ecp2_neg_V E _ _ A); lia|]. intros n N. cbn [ok].
  pose proof (ecp2V_wf _ _ _ A) as WA. pose proof (ecp2V_wf _ _ _ N) as WN.
  destruct C as [[-> S1]|[-> S1]]; rewrite S1.
  - rewrite ecp2_cmove0 by assumption. eapply ecp2V_weak; [exact A|lia].
  - rewrite ecp2_cmove1 by assumption. rewrite zm2_opp by exact OP. exact N.
Qed.
Lemma ecp2_wtable_V E p q : ecp2R 1 17 (zm2 2 p) q -> on2 p -> 17 <= E <= 8192 ->
  forall n k last, 0 <= k -> ecp2V E (zm2 (2 * k + 1) p) last ->
  ok (ecp2_wtable n last q) (fun W => length W = n /\ forall i a, nth_error W i = Some a -> ecp2V E (zm2 (2 * (k + 1 + Z.of_nat i) + 1) p) a).
Proof.
  intros Q OP HE. induction n as [|n IH]; intros k last K LA; cbn [ecp2_wtable].
  - cbn [ok]. split; [reflexivity|]. intros [|i] a G; discriminate.
  - eapply ok_bind; [eapply ecp2_add_V; [exact LA|exact (ecp2R_V 17 _ _ Q ltac:(lia))|lia..]|]. intros c C.
    rewrite <- zm2_add in C by exact OP. replace (2 * k + 1 + 2) with (2 * (k + 1) + 1) in C by lia.
    apply ecp2R_V in C; [|lia]. eapply ecp2V_weak in C; [|apply (proj1 HE)].
    eapply ok_bind; [apply (IH (k + 1) c); [lia|exact C]|]. intros W [W1 W2]. cbn [ok].
    split; [cbn [length]; lia|]. intros [|i] a G; cbn [nth_error] in G.
    + injection G as <-. replace (k + 1 + Z.of_nat 0) with (k + 1) by lia. exact C.
    + apply W2 in G. replace (k + 1 + Z.of_nat (S i)) with (k + 1 + 1 + Z.of_nat i) by lia. exact G.
Qed.
Lemma ecp2_mul_step_V E p W k r q d : tabV E p W -> on2 p -> wdig d -> 17 <= E <= 8192 ->
  ecp2V E (zm2 k p) r -> wf2 q ->
  ok (ecp2_mul_step W (r, q) d) (fun '(r', q') => ecp2V E (zm2 (16 * k + d) p) r' /\ wf2 q').
Proof.
  intros T OP D HE R Q. unfold ecp2_mul_step.
  eapply ok_bind; [apply (ecp2_selector_V E p W q d T OP Q D); lia|]. intros s SE.
  eapply ok_bind; [apply (ecp2_dbl_V E _ _ R); lia|]. intros r1 R1.
  eapply ok_bind; [eapply ecp2_dbl_ok; [exact R1|lia|lia]|]. intros r2 R2.
  eapply ok_bind; [eapply ecp2_dbl_ok; [exact R2|lia|lia]|]. intros r3 R3.
  eapply ok_bind; [eapply ecp2_dbl_ok; [exact R3|lia|lia]|]. intros r4 R4.
  eapply ok_bind; [eapply ecp2_add_V; [exact (ecp2R_V 17 _ _ R4 ltac:(lia))|exact SE|lia..]|]. intros r5 R5. cbn [ok].
  split; [|eapply ecp2V_wf; eauto].
  rewrite !zm2_double in R5 by exact OP. rewrite <- zm2_add in R5 by exact OP.
  replace (16 * k + d) with (2 * (2 * (2 * (2 * k))) + d) by lia. eapply ecp2V_weak; [apply ecp2R_V; [exact R5|lia]|lia].
Qed.
Lemma ecp2_mul_fold_V E p W : tabV E p W -> on2 p -> 17 <= E <= 8192 ->
  forall ws k r q, Forall wdig ws -> ecp2V E (zm2 k p) r -> wf2 q ->
  ok (foldM (ecp2_mul_step W) (rev ws) (r, q)) (fun '(r', q') => ecp2V E (zm2 (16 ^ Z.of_nat (length ws) * k + wval ws) p) r').
Proof.
  intros T OP HE ws. induction ws as [|w ws IH] using rev_ind; intros k r q D R Q.
  - cbn [rev foldM ok length wval]. change (16 ^ Z.of_nat 0) with 1. replace (1 * k + 0) with k by lia. exact R.
  - rewrite rev_app_distr. cbn [rev app foldM]. apply Forall_app in D. destruct D as [D1 D2]. inversion D2; subst.
    eapply ok_bind; [eapply ecp2_mul_step_V; eauto; lia|]. intros [r' q'] [R' Q'].
    eapply ok_impl; [apply (IH _ _ _ D1 R' Q')|]. cbv beta. intros [r2 q2] R2.
    rewrite wval_rev, app_length. cbn [length]. rewrite Nat2Z.inj_add. change (Z.of_nat 1) with 1. rewrite Z.pow_add_r by lia.
    change (16 ^ 1) with 16.
    replace (16 ^ Z.of_nat (length ws) * 16 * k + (wval ws + 16 ^ Z.of_nat (length ws) * w)) with
      (16 ^ Z.of_nat (length ws) * (16 * k + w) + wval ws) by ring. exact R2.
Qed.
Lemma ecp2_mul_V E p a e v : ecp2V E p a -> E <= 8192 -> rep 7 e v -> v + 2 < 2 ^ 404 ->
  ok (ecp2_mul a e) (ecp2A 1 17 (zm2 v p)).
Proof.
  intros A HE R V. pose proof (rep_bound7 _ _ R) as VB. unfold ecp2_mul.
  assert (N0 : ok ecp2_new (ecp2R 1 17 Inf)).
  { eapply ok_impl; [exact ecp2_new_ok|]. intros r H. eapply ecp2R_weak; [exact H|lia|lia]. }
  eapply ok_bind; [eapply ecp2_is_infinity_ok; [exact (ecp2V_R _ _ _ A ltac:(lia))|lia|lia]|]. intros b B. destruct b.
  { destruct B as [B _]. rewrite (B eq_refl), zm2_zero. exact N0. }
  pose proof (proj1 A) as OP.
  eapply ok_bind; [apply (ecp2_dbl_V E _ _ A); lia|]. intros q Q. rewrite <- zm2_2 in Q.
  set (M := Z.max E 17). assert (AM : ecp2V M (zm2 1 p) a) by (rewrite zm2_1; eapply ecp2V_weak; [exact A|lia]).
  eapply ok_bind; [apply (ecp2_wtable_V M p q Q OP); [lia|apply (Z.le_refl 0)|exact AM]|]. intros tl [T1 T2]. cbv zeta.
  assert (T : tabV M p (a :: tl)).
  { split; [cbn [length]; lia|]. intros [|i] b0 G; cbn [nth_error] in G.
    - injection G as <-. exact AM.
    - apply T2 in G. replace (2 * Z.of_nat (S i) + 1) with (2 * (0 + 1 + Z.of_nat i) + 1) by lia. exact G. }
  eapply ok_bind; [apply (win_recode_ok e v R V)|]. intros [[ns ws] top] (TP & WD & NS). subst top.
  pose proof (ecp2V_wf _ _ _ A) as WA. pose proof (ecp2R_wf _ _ _ _ Q) as WQ.
  change (cku64 (1 - 1)) with (Some 0). cbn [bind]. change (getM (a :: tl) (Z.to_nat (0 / 2))) with (Some a). cbn [bind].
  set (c := ecp2_cmove q a ns).
  assert (C : wf2 c /\ exists n, ecp2V M (zm2 n p) c /\ v + n = wval ws + 16 ^ Z.of_nat (length ws)).
  { unfold c. destruct NS as [[-> NS]|[-> NS]].
    - rewrite ecp2_cmove0 by assumption. split; [exact WQ|]. exists 2. split; [eapply ecp2V_weak; [apply ecp2R_V; [exact Q|lia]|lia]|exact NS].
    - rewrite ecp2_cmove1 by assumption. split; [exact WA|]. exists 1. split; [exact AM|exact NS]. }
  destruct C as (WC & n & C & CN).
  eapply ok_bind; [apply (ecp2_mul_fold_V M p (a :: tl) T OP); [lia|exact WD|exact AM|exact WC]|]. intros [r q'] RR.
  eapply ok_bind; [eapply ecp2_sub_V; [exact RR|exact C|lia..]|]. intros s SS.
  rewrite <- zm2_opp, <- zm2_add in SS by exact OP.
  replace (16 ^ Z.of_nat (length ws) * 1 + wval ws + - n) with v in SS by lia.
  eapply ecp2_affine_ok; [exact SS|lia|lia].
Qed.

(* ------------------------- building a point from x --------------------- *)
Lemma ecp2_rhs_V x a : fp2R 1 33554432 x a -> val2 a <= 16777300 * q381 ->
  ok (ecp2_rhs a) (fun '(r, x') => fp2C (rhs2 x) r /\ fp2R 1 33554432 x x' /\ val2 x' <= 16777300 * q381).
Proof.
  intros A AV. unfold ecp2_rhs. pose proof q381_pos.
  eapply ok_bind; [apply (fp2_norm_keep 1 _ _ _ A); lia|]. intros x' [X XV].
  eapply ok_bind; [apply (fp2_sqr_cap _ _ X)|]. intros r R.
  unfold fp_new_big. eapply ok_bind; [apply (fp_nres_ok CURVE_B 4 curve_b_rep)|]. intros b B. cbv zeta.
  assert (B0 : fp2R 1 2 (mkq 4, f0) (mkFP2 b fp_new)).
  { split; [exact B|]. eapply fpR_weak; [apply fp_new_ok|lia|lia]. }
  eapply ok_bind; [apply (fp2_norm_ok 1 2 _ _ B0); lia|]. intros b1 B1.
  eapply ok_bind; [apply (fp2_mul_ip_ok 1 2 _ _ B1); lia|]. intros b2 B2. rewrite gb_mul_ip in B2.
  eapply ok_bind; [eapply fp2_norm_ok; [exact B2|lia|lia]|]. intros b3 B3.
  eapply ok_bind; [apply (fp2_mul_val 1 1 2 _ _ _ r x' R X); lia|]. intros s S1.
  eapply ok_bind; [eapply fp2_add_ok; [exact S1|exact B3|lia..]|]. intros t T.
  eapply ok_bind; [eapply fp2_reduce_ok; [exact T|lia|lia]|]. intros u U. cbn [ok]. split; [exact U|]. split; [exact X|lia].
Qed.
Lemma ecp2_new_fp2_V x ix : fp2R 1 33554432 x ix -> val2 ix <= 16777300 * q381 ->
  ok (ecp2_new_fp2 ix) (fun a =>
    (root_like (rhs2 x) -> exists y, on2 (Aff x y) /\ (fp2R 1 33554432 x (e2x a) /\ val2 (e2x a) <= 16777300 * q381) /\
      fp2R 1 2 y (e2y a) /\ fp2R 1 2 g1 (e2z a) /\
      is_sq (fst y) /\ (snd y = f0 -> lval (fx (f2b (e2y a))) = 0)) /\
    (~ root_like (rhs2 x) -> ecp2R 1 2 Inf a) /\ (root_like (rhs2 x) \/ ~ root_like (rhs2 x))).
Proof.
  intros X XV. unfold ecp2_new_fp2.
  eapply ok_bind; [apply fp2_one_ok|]. intros z Z1.
  eapply ok_bind; [apply (ecp2_rhs_V _ ix X XV)|]. intros [r x'] (R & X'). apply fp2C_R in R.
  eapply ok_bind; [eapply fp2_sqrt_ok; [exact R|lia|lia]|]. intros [s y] (S1 & S2 & S3). destruct s.
  - cbn [ok]. destruct (S1 eq_refl) as (v & V & VV & VS & VZ). split; [|split].
    + intros _. exists v. split; [exact VV|]. split; [exact X'|]. split; [exact V|]. split; [exact Z1|]. split; [exact VS|exact VZ].
    + intros C. exfalso. apply C, S3. reflexivity.
    + left. apply S3. reflexivity.
  - pose proof ecp2_inf_ok as IO. destruct ecp2_inf as [a|]; [|exact IO]. cbn [ok] in *.
    split; [intros C; apply S3 in C; discriminate|]. split; [intros _; exact IO|]. right. intros C. apply S3 in C. discriminate.
Qed.
(* the constant one: value below q, imaginary part zero *)
Lemma fp2_one_val : ok fp2_one (fun o => fp2R 1 2 g1 o /\ 0 <= lval (fx (f2a o)) <= q381 /\ fxes (f2a o) = 2 /\ lval (fx (f2b o)) = 0).
Proof.
  apply ok_and; [exact fp2_one_ok|]. unfold ok. 
  assert (E : match fp2_one with Some o => (0 <=? lval (fx (f2a o))) && (lval (fx (f2a o)) <=? q381) && (fxes (f2a o) =? 2) && (lval (fx (f2b o)) =? 0) | None => false end = true)
    by (vm_compute; reflexivity).
  destruct fp2_one as [o|]; [|discriminate]. lia.
Qed.
