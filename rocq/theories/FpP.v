(* Correctness of the field layer fp.rs: every operation computes in F_q and
   keeps the excess bookkeeping valid. *)
From Coq Require Import Lia ZifyBool Znumtheory Field.
From Verif Require Import Prim PrimP Rom Big BigP BigP2 BigP3 BigP4 BigP5 NumT FieldQ Fp.

(* ------------------------- constants -------------------------------- *)
Lemma mod_rep : rep 7 MODULUS q381.
Proof. split; [reflexivity|]. split; [repeat (constructor; [lia|]); constructor|vm_compute; reflexivity]. Qed.
Lemma q381_lt : 2 ^ 380 < q381 < 2 ^ 381.
Proof. split; vm_compute; reflexivity. Qed.
Lemma q381_bound2 : 2 * (33554432 * q381) < 2 ^ 407. Proof. vm_compute. reflexivity. Qed.
Lemma q381_odd : q381 mod 2 = 1. Proof. vm_compute. reflexivity. Qed.
Lemma q381_mod4 : q381 mod 4 = 3. Proof. vm_compute. reflexivity. Qed.

Definition RI : Fq := finv (mkq (2 ^ 406)).
Lemma R_nz : mkq (2 ^ 406) <> f0.
Proof. intros H. apply mkq_inj in H. vm_compute in H. discriminate. Qed.
Lemma RI_R : fmul (mkq (2 ^ 406)) RI = f1.
Proof. unfold RI. field. apply R_nz. Qed.

(* ------------------------- representation --------------------------- *)
(* l = 1: limbs are digits; otherwise only |limb| <= l * 2^58 *)
Definition lim (l : Z) (w : list Z) : Prop := if l <=? 1 then digs w else lb (l * B58) w.
Definition fpR (l E : Z) (x : Fq) (a : FP) : Prop :=
  length (fx a) = 7%nat /\ lim l (fx a) /\ 0 <= lval (fx a) <= fxes a * q381 /\
  1 <= fxes a <= E /\ fmul (mkq (lval (fx a))) RI = x.

Lemma lim_lb l w : 1 <= l -> lim l w -> lb (l * B58) w.
Proof.
  unfold lim. destruct (Z.leb_spec l 1); auto. intros L D. eapply lb_weak; [apply digs_lb; exact D|]. lia.
Qed.
Lemma lim_weak l m w : 1 <= l <= m -> lim l w -> lim m w.
Proof.
  intros L H. unfold lim at 1. destruct (Z.leb_spec m 1).
  - replace l with m in H by lia. unfold lim in H. destruct (Z.leb_spec m 1); auto; lia.
  - eapply lb_weak; [apply (lim_lb l); auto; lia|]. lia.
Qed.
Lemma fpR_weak l E l' E' x a : fpR l E x a -> 1 <= l <= l' -> E <= E' -> fpR l' E' x a.
Proof.
  intros (A & B & C & D & F) L H. split; [auto|]. split; [eapply lim_weak; eauto|]. split; [lia|]. split; [lia|auto].
Qed.
Lemma fpR_digs E x a : fpR 1 E x a -> digs (fx a).
Proof. intros (A & B & _). exact B. Qed.
Lemma xes_val x e E : 0 <= x <= e * q381 -> 1 <= e <= E -> 0 <= x <= E * q381.
Proof. intros. pose proof q381_lt. split; [lia|]. apply Z.le_trans with (e * q381); [lia|]. apply Z.mul_le_mono_nonneg_r; lia. Qed.
Lemma fpR_val l E x a : fpR l E x a -> 0 <= lval (fx a) <= E * q381.
Proof. intros (A & B & C & D & _). eapply xes_val; eauto. Qed.
Lemma fpR_val25 l E x a : fpR l E x a -> E <= 33554432 -> 0 <= lval (fx a) < 2 ^ 406.
Proof.
  intros H HE. apply fpR_val in H. pose proof q381_bound2. pose proof q381_lt.
  assert (E * q381 <= 33554432 * q381) by (apply Z.mul_le_mono_nonneg_r; lia). lia.
Qed.
Lemma fpR_val26 l E x a : fpR l E x a -> E <= 67108864 -> 0 <= lval (fx a) < 2 ^ 407.
Proof.
  intros H HE. apply fpR_val in H. pose proof q381_bound2. pose proof q381_lt.
  assert (E * q381 <= 67108864 * q381) by (apply Z.mul_le_mono_nonneg_r; lia). lia.
Qed.

Ltac fpsplit := split; [try assumption; try reflexivity; try lia|split; [try assumption|split; [try lia|split; [try lia|]]]].

(* ------------------------- Montgomery ------------------------------- *)
Lemma q381_limb0 : (limb MODULUS 0 * MCONST + 1) mod B58 = 0.
Proof. vm_compute. reflexivity. Qed.

(* the reduced number may have unnormalised limbs *)
Lemma modulo_gen d v : length d = 14%nat -> limw d -> lval d = v -> 0 <= v <= 2 ^ 811 ->
  ok (fp_modulo d) (fun r => rep 7 r (lval r) /\ mkq (lval r) = fmul (mkq v) RI /\
     2 ^ 406 * lval r < v + 2 ^ 406 * q381 /\ v <= 2 ^ 406 * lval r).
Proof.
  intros D1 D2 D3 V. pose proof mod_rep as (M1 & M2 & M3). pose proof q381_lt. unfold fp_modulo.
  eapply ok_impl; [apply (big_monty_gen MODULUS MCONST d M1 D1 M2 D2); [lia|exact q381_limb0|rewrite D3, M3; lia]|].
  cbv beta. intros r (R1 & R2 & W & WB & E). rewrite D3, M3 in E.
  split; [split; auto|]. split.
  - assert (X : fmul (mkq (2 ^ 406)) (mkq (lval r)) = mkq v).
    { rewrite <- mkq_mul, E. apply mkq_add_q. }
    rewrite <- X. transitivity (fmul (mkq (lval r)) (fmul (mkq (2 ^ 406)) RI)); [rewrite RI_R|]; ring.
  - assert (W * q381 < 2 ^ 406 * q381) by (apply Z.mul_lt_mono_pos_r; lia).
    assert (0 <= W * q381) by (apply Z.mul_nonneg_nonneg; lia). lia.
Qed.
Lemma modulo_ok d v : nrep 14 d v -> 0 <= v <= 2 ^ 811 ->
  ok (fp_modulo d) (fun r => rep 7 r (lval r) /\ mkq (lval r) = fmul (mkq v) RI /\
     2 ^ 406 * lval r < v + 2 ^ 406 * q381 /\ v <= 2 ^ 406 * lval r).
Proof.
  intros H V. assert (R : rep 14 d v) by (apply nrep_rep; [exact H|change (58 * Z.of_nat 14) with 812; lia]).
  destruct R as (D1 & D2 & D3). apply modulo_gen; auto. apply digs_limw, D2.
Qed.

Lemma mkrep7 r v : rep 7 r v -> length r = 7%nat /\ digs r /\ lval r = v. Proof. auto. Qed.

(* d <= 2^406 q: the result is at most 2q *)
Lemma modulo_R d v x : nrep 14 d v -> 0 <= v <= 2 ^ 406 * q381 -> fmul (fmul (mkq v) RI) RI = x ->
  ok (fp_modulo d) (fun r => fpR 1 2 x (mkFP r 2)).
Proof.
  intros H V X. pose proof q381_lt.
  eapply ok_impl; [apply (modulo_ok d v); auto; lia|]. cbv beta.
  intros r ((R1 & R2 & _) & E & B & B2). unfold fpR. cbn [fx fxes].
  split; [auto|]. split; [exact R2|]. split; [lia|]. split; [lia|]. rewrite E. exact X.
Qed.
Lemma modulo_R3 d v x : nrep 14 d v -> 0 <= v <= 2 * (2 ^ 406 * q381) -> fmul (fmul (mkq v) RI) RI = x ->
  ok (fp_modulo d) (fun r => fpR 1 3 x (mkFP r 3)).
Proof.
  intros H V X. pose proof q381_lt.
  eapply ok_impl; [apply (modulo_ok d v); auto; lia|]. cbv beta.
  intros r ((R1 & R2 & _) & E & B & B2). unfold fpR. cbn [fx fxes].
  split; [auto|]. split; [exact R2|]. split; [lia|]. split; [lia|]. rewrite E. exact X.
Qed.

Lemma lim_lb63 l w : lim l w -> 1 <= l <= 31 -> lb (2 ^ 63 - 64) w.
Proof. intros H L. eapply lb_weak; [apply (lim_lb l); auto; lia|]. lia. Qed.
Lemma lim_lb61 l w : lim l w -> 1 <= l <= 8 -> lb (2 ^ 61) w.
Proof. intros H L. eapply lb_weak; [apply (lim_lb l); auto; lia|]. lia. Qed.

(* ------------------------- norm, reduce ----------------------------- *)
Lemma fp_norm_ok l E x a : fpR l E x a -> 1 <= l <= 31 -> E <= 33554432 ->
  ok (fp_norm a) (fpR 1 E x).
Proof.
  intros H L HE. pose proof (fpR_val25 _ _ _ _ H HE) as V. destruct H as (A & B & C & D & F).
  unfold fp_norm. eapply ok_bind; [apply norm_spec7; auto; eapply lim_lb63; eauto|].
  intros r R. assert (R' : rep 7 r (lval (fx a))) by (apply nrep_rep; auto).
  destruct R' as (R1 & R2 & R3). cbn [ok]. unfold fpR. cbn [fx fxes]. rewrite R3.
  fpsplit. assumption.
Qed.

(* canonical Montgomery representative *)
Definition fpC (x : Fq) (a : FP) : Prop := rep 7 (fx a) (fv (fmul x (mkq (2 ^ 406)))) /\ fxes a = 1.

Lemma fpC_R x a : fpC x a -> fpR 1 1 x a.
Proof.
  intros ((A & B & C) & X). unfold fpR. rewrite C, X. pose proof (fv_range (fmul x (mkq (2 ^ 406)))).
  fpsplit. rewrite mkq_fv. transitivity (fmul x (fmul (mkq (2 ^ 406)) RI)); [ring|].
  rewrite RI_R. ring.
Qed.
Lemma fpC_inj x a b : fpC x a -> fpC x b -> a = b.
Proof.
  intros (A & X) (B & Y). destruct a as [a e], b as [b f]. cbn [fx fxes] in *. subst. f_equal. eapply rep_inj; eauto.
Qed.

Lemma fp_reduce_ok l E x a : fpR l E x a -> 1 <= l <= 31 -> E <= 67108864 ->
  ok (fp_reduce a) (fpC x).
Proof.
  intros H L HE. pose proof (fpR_val26 _ _ _ _ H HE) as V. destruct H as (A & B & C & D & F).
  pose proof q381_lt. unfold fp_reduce.
  eapply ok_bind; [apply (big_rmod_spec (fx a) MODULUS q381); auto|].
  - eapply lim_lb63; eauto.
  - lia.
  - apply rep_nrep, mod_rep.
  - lia.
  - intros r R. cbn [ok]. split; [cbn [fx]|reflexivity].
    replace (fv (fmul x (mkq (2 ^ 406)))) with (lval (fx a) mod q381).
    + apply nrep_rep; auto. pose proof (Z.mod_pos_bound (lval (fx a)) q381 ltac:(lia)).
      change (58 * Z.of_nat 7) with 406. lia.
    + rewrite <- F, <- fv_mkq. f_equal. transitivity (fmul (mkq (lval (fx a))) (fmul (mkq (2 ^ 406)) RI)); [rewrite RI_R; ring|ring].
Qed.
Lemma fp_reduce_ok1 l E x a : fpR l E x a -> 1 <= l <= 31 -> E <= 67108864 ->
  ok (fp_reduce a) (fpR 1 1 x).
Proof. intros. eapply ok_impl; [eapply fp_reduce_ok; eauto|]. apply fpC_R. Qed.

(* ------------------------- mul, sqr --------------------------------- *)
Lemma mul_val a b e f : 0 <= a <= e * q381 -> 0 <= b <= f * q381 -> 0 <= e * f <= 33554432 -> 
  0 <= a * b <= 2 ^ 406 * q381.
Proof.
  intros HA HB HE. pose proof q381_bound2. pose proof q381_lt. split; [apply Z.mul_nonneg_nonneg; lia|].
  apply Z.le_trans with ((e * q381) * (f * q381)); [apply Z.mul_le_mono_nonneg; lia|].
  replace (e * q381 * (f * q381)) with ((e * f) * q381 * q381) by ring.
  apply Z.mul_le_mono_nonneg_r; [lia|].
  apply Z.le_trans with (33554432 * q381); [apply Z.mul_le_mono_nonneg_r; lia|]. lia.
Qed.

Lemma mul_core l m E F x y a b : fpR l E x a -> fpR m F y b -> 1 <= l <= 8 -> 1 <= m <= 8 ->
  fxes a * fxes b <= 33554432 ->
  ok (d <- big_mul (fx a) (fx b) ;; r <- fp_modulo d ;; Some (mkFP r 2)) (fpR 1 2 (fmul x y)).
Proof.
  intros (A1 & A2 & A3 & A4 & A5) (B1 & B2 & B3 & B4 & B5) L M X.
  assert (XP : 0 <= fxes a * fxes b) by (apply Z.mul_nonneg_nonneg; lia).
  pose proof (mul_val _ _ _ _ A3 B3 (conj XP X)) as V. pose proof q381_lt.
  eapply ok_bind; [apply (big_mul_spec (fx a) (fx b) (2 ^ 61) (2 ^ 61)); auto; try lia; eapply lim_lb61; eauto|].
  intros d D. eapply ok_bind; [apply (modulo_R d (lval (fx a) * lval (fx b)) (fmul x y)); [exact D|exact V|]|].
  - rewrite mkq_mul, <- A5, <- B5. ring.
  - intros r R. exact R.
Qed.

Lemma fp_mul_ok l m E F x y a b : fpR l E x a -> fpR m F y b -> 1 <= l <= 8 -> 1 <= m <= 8 ->
  E <= 33554432 -> F <= 33554432 ->
  ok (fp_mul a b) (fpR 1 2 (fmul x y)).
Proof.
  intros HA HB L M HE HF. unfold fp_mul.
  pose proof HA as (_ & _ & _ & A4 & _). pose proof HB as (_ & _ & _ & B4 & _).
  assert (P : 0 <= fxes a * fxes b <= 33554432 * 33554432).
  { split; [apply Z.mul_nonneg_nonneg; lia|apply Z.mul_le_mono_nonneg; lia]. }
  rewrite ck64_ok by lia. cbn [bind]. change FEXCESS with 33554432.
  destruct (Z.ltb_spec 33554432 (fxes a * fxes b)).
  - eapply ok_bind; [eapply fp_reduce_ok; eauto; lia|]. intros a' HA'.
    pose proof (fpC_R _ _ HA') as HR. destruct HA' as [_ X]. eapply mul_core; eauto; try lia.
  - cbn [bind]. eapply mul_core; eauto.
Qed.

Lemma fp_sqr_ok l E x a : fpR l E x a -> 1 <= l <= 8 -> E <= 33554432 ->
  ok (fp_sqr a) (fpR 1 2 (fmul x x)).
Proof.
  intros HA L HE. unfold fp_sqr. pose proof HA as (_ & _ & _ & A4 & _).
  assert (P : 0 <= fxes a * fxes a <= 33554432 * 33554432).
  { split; [apply Z.mul_nonneg_nonneg; lia|apply Z.mul_le_mono_nonneg; lia]. }
  rewrite ck64_ok by lia. cbn [bind]. change FEXCESS with 33554432.
  assert (C : forall l E a, fpR l E x a -> 1 <= l <= 8 -> fxes a * fxes a <= 33554432 ->
    ok (d <- big_sqr (fx a) ;; r <- fp_modulo d ;; Some (mkFP r 2)) (fpR 1 2 (fmul x x))).
  { clear. intros l E a (A1 & A2 & A3 & A4 & A5) L X.
    assert (XP : 0 <= fxes a * fxes a) by (apply Z.mul_nonneg_nonneg; lia).
    pose proof (mul_val _ _ _ _ A3 A3 (conj XP X)) as V. pose proof q381_lt.
    eapply ok_bind; [apply (big_sqr_spec (fx a) (2 ^ 61)); auto; try lia; eapply lim_lb61; eauto|].
    intros d D. eapply ok_bind; [apply (modulo_R d (lval (fx a) * lval (fx a)) (fmul x x)); [exact D|exact V|]|].
    - rewrite mkq_mul, <- A5. ring.
    - intros r R. exact R. }
  destruct (Z.ltb_spec 33554432 (fxes a * fxes a)).
  - eapply ok_bind; [eapply fp_reduce_ok; eauto; lia|]. intros a' HA'.
    pose proof (fpC_R _ _ HA') as HR. destruct HA' as [_ X]. eapply C; eauto; try lia.
  - cbn [bind]. eapply C; eauto.
Qed.

(* ------------------------- add, dbl --------------------------------- *)
Lemma fp_add_ok l m E F x y a b : fpR l E x a -> fpR m F y b -> 1 <= l -> 1 <= m -> l + m <= 31 ->
  E + F <= 33554432 ->
  ok (fp_add a b) (fpR (l + m) (E + F) (fadd x y)).
Proof.
  intros (A1 & A2 & A3 & A4 & A5) (B1 & B2 & B3 & B4 & B5) L M LM EF. unfold fp_add.
  eapply ok_bind; [apply (big_add_spec (fx a) (fx b) (l * B58) (m * B58)); try lia; apply lim_lb; auto|].
  intros r (R1 & R2 & R3). rewrite ck32_ok by lia. cbn [bind]. change FEXCESS with 33554432. cbv zeta.
  destruct (Z.ltb_spec 33554432 (fxes a + fxes b)); [lia|]. cbn [ok]. unfold fpR. cbn [fx fxes].
  split; [lia|]. split; [|split; [|split; [lia|]]].
  - unfold lim. destruct (Z.leb_spec (l + m) 1); [lia|]. replace ((l + m) * B58) with (l * B58 + m * B58) by ring. auto.
  - rewrite R3. lia.
  - rewrite R3, mkq_add, <- A5, <- B5. ring.
Qed.

Lemma fp_dbl_ok l E x a : fpR l E x a -> 1 <= l -> l + l <= 31 -> E + E <= 33554432 ->
  ok (fp_dbl a) (fpR (l + l) (E + E) (fadd x x)).
Proof.
  intros (A1 & A2 & A3 & A4 & A5) L LL EE. unfold fp_dbl.
  eapply ok_bind; [apply (big_dbl_spec (fx a) (l * B58)); try lia; apply lim_lb; auto|].
  intros r (R1 & R2 & R3). rewrite ck32_ok by lia. cbn [bind]. change FEXCESS with 33554432. cbv zeta.
  destruct (Z.ltb_spec 33554432 (fxes a + fxes a)); [lia|]. cbn [ok]. unfold fpR. cbn [fx fxes].
  split; [lia|]. split; [|split; [|split; [lia|]]].
  - unfold lim. destruct (Z.leb_spec (l + l) 1); [lia|]. replace ((l + l) * B58) with (l * B58 + l * B58) by ring. auto.
  - rewrite R3. lia.
  - rewrite R3. replace (2 * lval (fx a)) with (lval (fx a) + lval (fx a)) by ring. rewrite mkq_add, <- A5. ring.
Qed.

(* ------------------------- neg -------------------------------------- *)
(* bits (n-j, n] of w are set, none above n *)
Definition topset (w n j : Z) := 0 <= w /\ (forall i, n < i -> Z.testbit w i = false) /\
  (forall i, n - j < i <= n -> 0 <= i -> Z.testbit w i = true).
Lemma topset_step w n j : 0 < j -> topset w n j -> topset (Z.lor w (Z.shiftr w j)) n (j + j).
Proof.
  intros J (W & H1 & H2). split; [|split].
  - apply Z.lor_nonneg. split; auto. apply Z.shiftr_nonneg. auto.
  - intros i I. rewrite Z.lor_spec. destruct (Z.leb_spec 0 i).
    + rewrite Z.shiftr_spec by auto. rewrite !H1 by lia. reflexivity.
    + rewrite !Z.testbit_neg_r by lia. reflexivity.
  - intros i I I0. rewrite Z.lor_spec, Z.shiftr_spec by auto.
    destruct (Z.lt_ge_cases (n - j) i); [rewrite H2 by lia; reflexivity|].
    rewrite (H2 (i + j)) by lia. apply orb_true_r.
Qed.
Lemma topset_ones w n j : 0 <= n < j -> topset w n j -> w = 2 ^ (n + 1) - 1.
Proof.
  intros N (W & H1 & H2). rewrite <- Z.sub_1_r || idtac.
  replace (2 ^ (n + 1) - 1) with (Z.ones (n + 1)) by (rewrite Z.ones_equiv; lia).
  apply Z.bits_inj'. intros i I. destruct (Z.lt_ge_cases n i).
  - rewrite H1, Z.ones_spec_high by lia. reflexivity.
  - rewrite H2, Z.ones_spec_low by lia. reflexivity.
Qed.

Lemma logb2_spec w : 0 <= w < 2 ^ 31 -> fp_logb2 w = Some (bitlen w).
Proof.
  intros W. destruct (Z.eq_dec w 0) as [->|NZ]; [reflexivity|].
  set (n := Z.log2 w). assert (N : 0 <= n < 31).
  { split; [apply Z.log2_nonneg|]. apply Z.log2_lt_pow2; lia. }
  assert (T : topset w n 1).
  { split; [lia|]. split.
    - intros i I. apply Z.bits_above_log2; auto. lia.
    - intros i I _. replace i with n by lia. apply Z.bit_log2. lia. }
  apply topset_step in T; [|lia]. apply topset_step in T; [|lia]. apply topset_step in T; [|lia].
  apply topset_step in T; [|lia]. apply topset_step in T; [|lia].
  apply topset_ones in T; [|lia].
  change (1 + 1) with 2 in T. change (2 + 2) with 4 in T. change (4 + 4) with 8 in T. change (8 + 8) with 16 in T.
  unfold fp_logb2. cbv zeta. rewrite T.
  replace (bitlen w) with (n + 1) by (unfold bitlen; destruct (Z.eqb_spec w 0); [lia|reflexivity]).
  clearbody n. clear - N.
  assert (C : n = 0 \/ n = 1 \/ n = 2 \/ n = 3 \/ n = 4 \/ n = 5 \/ n = 6 \/ n = 7 \/ n = 8 \/ n = 9 \/ n = 10 \/
    n = 11 \/ n = 12 \/ n = 13 \/ n = 14 \/ n = 15 \/ n = 16 \/ n = 17 \/ n = 18 \/ n = 19 \/ n = 20 \/ n = 21 \/
    n = 22 \/ n = 23 \/ n = 24 \/ n = 25 \/ n = 26 \/ n = 27 \/ n = 28 \/ n = 29 \/ n = 30) by lia.
  repeat (destruct C as [->|C]; [reflexivity|]). subst. reflexivity.
Qed.

Lemma bitlen_pow e : 1 <= e -> e <= 2 ^ bitlen (e - 1) <= 2 * e - 1.
Proof.
  intros H. pose proof (bitlen_bound (e - 1) ltac:(lia)). unfold bitlen in *.
  destruct (Z.eqb_spec (e - 1) 0) as [E|E]; [change (2 ^ 0) with 1 in *; lia|].
  pose proof (Z.log2_spec (e - 1) ltac:(lia)) as [L1 L2].
  pose proof (Z.log2_nonneg (e - 1)).
  rewrite Z.pow_add_r in * by lia. change (2 ^ 1) with 2 in *. lia.
Qed.

Lemma fp_neg_ok l E x a : fpR l E x a -> 1 <= l <= 30 -> 2 * E - 1 <= 33554432 ->
  ok (fp_neg a) (fpR (l + 1) (2 * E - 1) (fopp x)).
Proof.
  intros (A1 & A2 & A3 & A4 & A5) L HE. unfold fp_neg. pose proof q381_lt. pose proof q381_bound2.
  rewrite ck32_ok by lia. cbn [bind]. change 4294967295 with (2 ^ 32 - 1). rewrite land_ones_mod by lia.
  rewrite Z.mod_small by lia. rewrite logb2_spec by lia. cbn [bind].
  set (sb := bitlen (fxes a - 1)).
  pose proof (bitlen_pow (fxes a) ltac:(lia)) as BP. fold sb in BP.
  assert (SB : 0 <= sb <= 25).
  { split; [apply bitlen_nonneg|]. apply bitlen_le; lia. }
  clearbody sb.
  assert (PQ : q381 * 2 ^ sb <= q381 * 33554432) by (apply Z.mul_le_mono_nonneg_l; lia).
  assert (PQ2 : fxes a * q381 <= q381 * 2 ^ sb) by (rewrite (Z.mul_comm (fxes a)); apply Z.mul_le_mono_nonneg_l; lia).
  pose proof (fshl_spec7 MODULUS q381 sb (rep_nrep _ _ _ mod_rep) ltac:(lia) ltac:(lia)) as FS.
  apply nrep_rep in FS; [|change (58 * Z.of_nat 7) with 406; lia]. destruct FS as (F1 & F2 & F3).
  eapply ok_bind; [apply (big_rsub_spec (fx a) (big_fshl MODULUS sb) (l * B58) B58); try lia|].
  { apply lim_lb; auto; lia. }
  { apply digs_lb; auto. }
  intros r (R1 & R2 & R3). destruct (Z.leb_spec 32 sb); [lia|].
  rewrite Z.shiftl_1_l. rewrite wrap32_id by lia. cbv zeta. cbn [fxes]. change FEXCESS with 33554432.
  destruct (Z.ltb_spec 33554432 (2 ^ sb)); [lia|]. cbn [ok]. unfold fpR. cbn [fx fxes].
  split; [lia|]. split; [|split; [|split; [lia|]]].
  - unfold lim. destruct (Z.leb_spec (l + 1) 1); [lia|]. replace ((l + 1) * B58) with (l * B58 + B58) by ring. auto.
  - rewrite R3, F3. lia.
  - rewrite R3, F3. rewrite mkq_sub, (Z.mul_comm q381), mkq_mul_q, <- A5. change (mkq 0) with f0. ring.
Qed.

Lemma fp_sub_ok l m E F x y a b : fpR l E x a -> fpR m F y b -> 1 <= l -> 1 <= m -> l + (m + 1) <= 31 ->
  E + (2 * F - 1) <= 33554432 ->
  ok (fp_sub a b) (fpR (l + (m + 1)) (E + (2 * F - 1)) (fsub x y)).
Proof.
  intros HA HB L M LM EF. unfold fp_sub.
  pose proof HA as (_ & _ & _ & A4 & _). pose proof HB as (_ & _ & _ & B4 & _).
  eapply ok_bind; [apply (fp_neg_ok m F y b HB); lia|]. intros n N.
  replace (fsub x y) with (fadd x (fopp y)) by ring. apply (fp_add_ok l (m + 1) E (2 * F - 1)); auto; lia.
Qed.
Lemma fp_rsub_ok l m E F x y a b : fpR l E x a -> fpR m F y b -> 1 <= l -> 1 <= m -> l + 1 + m <= 31 ->
  2 * E - 1 + F <= 33554432 ->
  ok (fp_rsub a b) (fpR (l + 1 + m) (2 * E - 1 + F) (fsub y x)).
Proof.
  intros HA HB L M LM EF. unfold fp_rsub.
  pose proof HA as (_ & _ & _ & A4 & _). pose proof HB as (_ & _ & _ & B4 & _).
  eapply ok_bind; [apply (fp_neg_ok l E x a HA); lia|]. intros n N.
  replace (fsub y x) with (fadd (fopp x) y) by ring. apply (fp_add_ok (l + 1) m (2 * E - 1) F); auto; lia.
Qed.

(* ------------------------- imul ------------------------------------- *)
Lemma pmul_go_spec c w : forall carry, 0 <= c < 2 ^ 31 -> lb (31 * B58) w -> - 2 ^ 36 <= carry <= 2 ^ 36 ->
  ok (pmul_go c carry w) (fun r => length r = length w /\ digs r /\
     exists t, lval r = lval w * c + carry - 2 ^ (58 * Z.of_nat (length w)) * t).
Proof.
  induction w as [|x w IH]; intros carry C W K; cbn [pmul_go].
  - cbn [ok]. split; [reflexivity|]. split; [constructor|]. exists carry. cbn. lia.
  - apply lb_cons in W. destruct W as [WX W]. unfold big_muladd.
    assert (P : - (31 * B58 * (2 ^ 31)) <= x * c <= 31 * B58 * (2 ^ 31)).
    { apply Z.abs_le. apply abs_mul_le; apply Z.abs_le; lia. }
    rewrite (ck128_ok (x * c)) by lia. cbn [bind]. rewrite (ck128_ok (x * c + carry)) by lia. cbn [bind].
    rewrite (ck128_ok (x * c + carry + 0)) by lia. cbn [bind]. rewrite Z.add_0_r, land_bmask, shr_base.
    set (p := x * c + carry) in *. pose proof (Z.mod_pos_bound p B58 ltac:(lia)).
    assert (Q : - 2 ^ 36 <= p / B58 <= 2 ^ 36).
    { split; [apply Z.div_le_lower_bound; lia|apply Z.div_le_upper_bound; lia]. }
    rewrite (wrap64_id (p mod B58)) by lia. rewrite (wrap64_id (p / B58)) by lia.
    eapply ok_bind; [apply (IH (p / B58)); auto|]. intros r (R1 & R2 & t & R3). cbn [ok].
    split; [cbn [length]; lia|]. split; [apply digs_cons; auto|]. exists t.
    cbn [lval length]. rewrite R3. replace (58 * Z.of_nat (S (length w))) with (58 + 58 * Z.of_nat (length w)) by lia.
    rewrite Z.pow_add_r by lia. change (2 ^ 58) with B58. pose proof (Z.div_mod p B58 ltac:(lia)). 
    assert (E : p mod B58 = p - B58 * (p / B58)) by lia. rewrite E. subst p. ring.
Qed.

Lemma fp_imul_ok l E x a c : fpR l E x a -> 1 <= l <= 31 -> 1 <= c -> E * c <= 33554432 ->
  ok (fp_imul a c) (fpR 1 (E * c) (fmul (mkq c) x)).
Proof.
  intros (A1 & A2 & A3 & A4 & A5) L C EC. unfold fp_imul.
  assert (C31 : c <= 33554432).
  { apply Z.le_trans with (E * c); [|lia]. rewrite <- (Z.mul_1_l c) at 1. apply Z.mul_le_mono_nonneg_r; lia. }
  assert (XC : 1 <= fxes a * c <= E * c).
  { split; [apply Z.le_trans with (1 * 1); [lia|apply Z.mul_le_mono_nonneg; lia]|apply Z.mul_le_mono_nonneg_r; lia]. }
  destruct (Z.ltb_spec c 0); [lia|]. cbn [bind]. rewrite wrap32_id by lia. rewrite ck32_ok by lia. cbn [bind].
  change FEXCESS with 33554432. destruct (Z.leb_spec (fxes a * c) 33554432); [|lia].
  rewrite bind_assoc. eapply ok_bind; [apply (pmul_go_spec c (fx a) 0); try lia; eapply lb_weak; [apply (lim_lb l); auto; lia|lia]|].
  intros r (R1 & R2 & t & R3). rewrite A1 in *. change (58 * Z.of_nat 7) with 406 in R3.
  cbn [bind ok].
  assert (V : 0 <= lval (fx a) * c <= fxes a * c * q381).
  { split; [apply Z.mul_nonneg_nonneg; lia|]. replace (fxes a * c * q381) with (fxes a * q381 * c) by ring.
    apply Z.mul_le_mono_nonneg_r; lia. }
  pose proof q381_bound2. pose proof q381_lt.
  assert (fxes a * c * q381 <= 33554432 * q381) by (apply Z.mul_le_mono_nonneg_r; lia).
  pose proof (digs_val r R2) as RV. rewrite R1 in RV. change (58 * Z.of_nat 7) with 406 in RV.
  assert (T : t = 0) by lia. subst t. rewrite Z.mul_0_r, Z.sub_0_r, Z.add_0_r in R3.
  unfold fpR. cbn [fx fxes]. rewrite R3. fpsplit.
  rewrite mkq_mul, <- A5. ring.
Qed.

(* ------------------------- constants in Montgomery form ------------- *)
Lemma r2_rep : rep 7 R2MODP (2 ^ 812 mod q381).
Proof. split; [reflexivity|]. split; [repeat (constructor; [lia|]); constructor|vm_compute; reflexivity]. Qed.
Lemma mkq_mod z : mkq (z mod q381) = mkq z.
Proof. apply mkq_eq. apply Z.mod_mod. apply q381_nz. Qed.

Lemma fp_nres_ok w v : rep 7 w v -> ok (fp_nres w) (fpR 1 2 (mkq v)).
Proof.
  intros W. pose proof (rep_bound7 _ _ W) as B. destruct W as (W1 & W2 & W3). unfold fp_nres.
  pose proof r2_rep as (R1 & R2 & R3). pose proof q381_lt.
  pose proof (Z.mod_pos_bound (2 ^ 812) q381 ltac:(lia)) as RB.
  assert (V : 0 <= v * (2 ^ 812 mod q381) <= 2 ^ 406 * q381).
  { split; [apply Z.mul_nonneg_nonneg; lia|apply Z.mul_le_mono_nonneg; lia]. }
  eapply ok_bind; [apply (big_mul_spec w R2MODP B58 B58); auto; try lia; try (apply digs_lb; auto)|].
  intros d D. rewrite W3, R3 in D.
  eapply ok_bind; [apply (modulo_R d (v * (2 ^ 812 mod q381)) (mkq v)); [exact D|exact V|]|].
  - rewrite mkq_mul, mkq_mod. change (2 ^ 812) with (2 ^ 406 * 2 ^ 406). rewrite mkq_mul.
    transitivity (fmul (mkq v) (fmul (fmul (mkq (2 ^ 406)) RI) (fmul (mkq (2 ^ 406)) RI))); [ring|]. rewrite RI_R. ring.
  - intros r R. exact R.
Qed.

Lemma rep_zero : rep 7 big_new 0.
Proof. split; [reflexivity|]. split; [repeat (constructor; [lia|]); constructor|reflexivity]. Qed.
Lemma rep_small x : 0 <= x < B58 -> rep 7 (big_new_int x) x.
Proof. intros. split; [reflexivity|]. split; [repeat (constructor; [lia|]); constructor|cbn [lval big_new_int]; ring]. Qed.

Lemma fp_new_int_ok n : 0 <= n < 2 ^ 31 -> ok (fp_new_int n) (fpR 1 2 (mkq n)).
Proof.
  intros N. unfold fp_new_int. change (big_inc big_new n) with (t <- ck64 (0 + n) ;; Some [t; 0; 0; 0; 0; 0; 0]).
  rewrite ck64_ok by lia. cbn [bind]. apply fp_nres_ok. apply rep_small. lia.
Qed.
Lemma fp_one_ok : ok fp_one (fpR 1 2 f1).
Proof. apply (fp_nres_ok big_one 1). apply rep_small. lia. Qed.
Lemma fp_new_ok : fpR 1 1 f0 fp_new.
Proof.
  pose proof q381_lt. unfold fpR, fp_new. cbn [fx fxes]. fpsplit.
  - apply rep_zero.
  - cbn. lia.
  - change (lval big_new) with 0. change (mkq 0) with f0. ring.
Qed.

(* ------------------------- redc, tests ------------------------------ *)
(* redc: the canonical integer, or q when a nonzero multiple of q came in *)
Lemma scopy_val w : length w = 7%nat -> length (dbig_scopy w) = 14%nat /\ lval (dbig_scopy w) = lval w.
Proof.
  intros A. do 7 (destruct w as [|? w]; [discriminate A|]). destruct w; [|discriminate A].
  unfold dbig_scopy, limb in *. cbn [firstn app nth] in *. rewrite land_bmask, shr_base.
  pose proof (Z.div_mod z5 B58 ltac:(lia)). split; [reflexivity|]. cbn [lval]. lia.
Qed.
Lemma scopy_limw w : length w = 7%nat -> lb (31 * B58) w -> limw (dbig_scopy w).
Proof.
  intros A B. do 7 (destruct w as [|? w]; [discriminate A|]). destruct w; [|discriminate A].
  unfold dbig_scopy, limb in *. cbn [firstn app nth] in *. rewrite land_bmask, shr_base.
  pose proof (Z.mod_pos_bound z5 B58 ltac:(lia)) as M. pose proof (Z.div_mod z5 B58 ltac:(lia)) as D.
  unfold lb in B. repeat match goal with H : Forall _ (_ :: _) |- _ => inversion_clear H end.
  assert (Q : - 32 <= z5 / B58 <= 32) by lia.
  intros i. unfold limb. do 14 (destruct i as [|i]; [cbn [nth]; lia|]). destruct i; cbn [nth]; lia.
Qed.
Lemma fp_redc_ok l E x a : fpR l E x a -> 1 <= l <= 31 -> E <= 33554432 ->
  ok (fp_redc a) (fun w => rep 7 w (lval w) /\ mkq (lval w) = x /\ 0 <= lval w <= q381).
Proof.
  intros H HL HE. pose proof (fpR_val25 _ _ _ _ H HE) as V. destruct H as (A & B & C & D & F).
  unfold fp_redc. pose proof q381_lt. pose proof (scopy_val _ A) as [S1 S2].
  eapply ok_impl; [apply (modulo_gen (dbig_scopy (fx a)) (lval (fx a)) S1); [|exact S2|lia]|].
  { apply scopy_limw; [exact A|]. eapply lb_weak; [apply (lim_lb l); [lia|exact B]|lia]. }
  cbv beta. intros r (R & Q & B1 & B2). split; [exact R|]. split; [rewrite Q; exact F|]. 
  destruct R as (_ & R2 & _). apply digs_val in R2. lia.
Qed.
(* on a canonical representative redc is exact *)
Lemma fp_redc_C x a : fpC x a -> ok (fp_redc a) (fun w => rep 7 w (fv x)).
Proof.
  intros H. pose proof (fpC_R _ _ H) as HR. pose proof (fpR_val25 _ _ _ _ HR ltac:(lia)) as V.
  destruct H as ((A & B & C) & X). pose proof q381_lt.
  assert (N : nrep 7 (fx a) (lval (fx a))) by (repeat split; auto; apply digs_norml; exact B).
  unfold fp_redc.
  eapply ok_impl; [apply (modulo_ok (dbig_scopy (fx a)) (lval (fx a))); [apply dbig_scopy_spec; [auto|lia]|lia]|].
  cbv beta. intros r (R & Q & B1 & B2). destruct HR as (_ & _ & _ & _ & F). rewrite F in Q.
  assert (E : lval r mod q381 = fv x) by (rewrite <- Q, fv_mkq; reflexivity).
  pose proof R as (R0 & R2 & _). apply digs_val in R2.
  destruct (Z.eq_dec (lval r) q381) as [G|G].
  - (* only possible from 0 *)
    rewrite G, Z.mod_same in E by lia.
    assert (X0 : x = f0) by (apply fv_zero; auto).
    assert (Z0 : lval (fx a) = 0). { rewrite C, X0. rewrite fmul_0_l. apply fv_f0. }
    rewrite Z0, G in B1. lia.
  - rewrite Z.mod_small in E by lia. rewrite <- E. exact R.
Qed.

Lemma fp_iszilch_ok l E x a : fpR l E x a -> 1 <= l <= 31 -> E <= 67108864 ->
  ok (fp_iszilch a) (fun '(b, a') => (b = true <-> x = f0) /\ fpC x a').
Proof.
  intros H L HE. unfold fp_iszilch. eapply ok_bind; [eapply fp_reduce_ok; eauto|].
  intros a' H'. cbn [ok]. split; [|exact H']. destruct H' as [H' _].
  pose proof (fv_range (fmul x (mkq (2 ^ 406)))). pose proof q381_lt.
  rewrite (iszilch_spec _ _ (rep_nrep _ _ _ H')) by lia. rewrite Z.eqb_eq. split; intros G.
  - apply fv_zero in G. apply fq_integral in G. destruct G as [G|G]; auto. apply R_nz in G. contradiction.
  - subst x. rewrite fmul_0_l. apply fv_f0.
Qed.

Lemma fmul_R_inj x y : fmul x (mkq (2 ^ 406)) = fmul y (mkq (2 ^ 406)) -> x = y.
Proof.
  intros H.
  assert (K : forall z, z = fmul (fmul z (mkq (2 ^ 406))) RI).
  { intros z. transitivity (fmul z (fmul (mkq (2 ^ 406)) RI)); [rewrite RI_R; ring|ring]. }
  rewrite (K x), H. symmetry. apply K.
Qed.

Lemma fp_equals_ok l m E F x y a b : fpR l E x a -> fpR m F y b -> 1 <= l <= 31 -> 1 <= m <= 31 ->
  E <= 67108864 -> F <= 67108864 ->
  ok (fp_equals a b) (fun '(e, a', b') => (e = true <-> x = y) /\ fpC x a' /\ fpC y b').
Proof.
  intros HA HB L M HE HF. unfold fp_equals.
  eapply ok_bind; [apply (fp_reduce_ok m F y b); auto|]. intros b' B'.
  eapply ok_bind; [apply (fp_reduce_ok l E x a); auto|]. intros a' A'.
  cbn [ok]. split; [|auto]. destruct A' as [A' _], B' as [B' _].
  pose proof (rep_nrep _ _ _ A') as (A1 & A2 & A3). pose proof (rep_nrep _ _ _ B') as (B1 & B2 & B3).
  rewrite big_comp_eqb by (auto; congruence). rewrite Z.eqb_eq, A3, B3. split; intros G.
  - apply Fq_ext in G. apply fmul_R_inj in G. auto.
  - subst. reflexivity.
Qed.

(* ------------------------- cmove ------------------------------------ *)
Lemma fp_cmove0 a b : length (fx a) = length (fx b) -> fp_cmove a b 0 = a.
Proof.
  intros H. unfold fp_cmove. rewrite cmove0 by auto. change (- 0) with 0. rewrite xor_keep. destruct a; reflexivity.
Qed.
Lemma fp_cmove1 a b : length (fx a) = length (fx b) -> fp_cmove a b 1 = b.
Proof.
  intros H. unfold fp_cmove. rewrite cmove1 by auto. change (- (1)) with (-1). rewrite xor_sel. destruct b; reflexivity.
Qed.

(* ------------------------- div2 ------------------------------------- *)
Lemma mkq_half v x : fmul (mkq (2 * v)) RI = x -> fmul (mkq v) RI = fdiv x (mkq 2).
Proof.
  intros H. rewrite <- H, mkq_mul. field. intros E. apply mkq_inj in E. vm_compute in E. discriminate.
Qed.
Lemma fp_div2_ok E x a : fpR 1 E x a -> E <= 16777216 -> ok (fp_div2 a) (fpR 1 E (fdiv x (mkq 2))).
Proof.
  intros H HE. pose proof (fpR_val25 _ _ _ _ H ltac:(lia)) as V. pose proof q381_lt. pose proof q381_odd as O.
  pose proof (fpR_val _ _ _ _ H) as V2. pose proof q381_bound2.
  assert (VE : E * q381 <= 16777216 * q381) by (apply Z.mul_le_mono_nonneg_r; lia).
  destruct H as (A & B & C & D & F). unfold fp_div2.
  assert (N : nrep 7 (fx a) (lval (fx a))) by (repeat split; auto; apply digs_norml; exact B).
  rewrite (parity_spec _ _ N). destruct (Z.eqb_spec (lval (fx a) mod 2) 0) as [P|P].
  - cbn [ok]. pose proof (fshr_spec7 _ _ 1 N ltac:(lia)) as S. change (2 ^ 1) with 2 in S.
    pose proof (Z.div_mod (lval (fx a)) 2 ltac:(lia)) as DM.
    set (h := lval (fx a) / 2) in *.
    apply nrep_rep in S; [|change (58 * Z.of_nat 7) with 406; lia]. destruct S as (S1 & S2 & S3).
    unfold fpR. cbn [fx fxes]. rewrite S3. fpsplit.
    apply mkq_half. rewrite <- F. do 2 f_equal. lia.
  - pose proof mod_rep as (M1 & M2 & M3).
    eapply ok_bind; [apply (big_add_spec (fx a) MODULUS B58 B58); try lia; apply digs_lb; auto|].
    intros s (S1 & S2 & S3). eapply ok_bind; [apply norm_spec7; [congruence|eapply lb_weak; [exact S2|lia]]|].
    intros n Hn. cbn [ok]. rewrite S3, M3 in Hn.
    pose proof (fshr_spec7 _ _ 1 Hn ltac:(lia)) as S. change (2 ^ 1) with 2 in S.
    pose proof (Z.mod_pos_bound (lval (fx a)) 2 ltac:(lia)).
    assert (PM : (lval (fx a) + q381) mod 2 = 0).
    { rewrite Z.add_mod, O by lia. replace (lval (fx a) mod 2) with 1 by lia. reflexivity. }
    pose proof (Z.div_mod (lval (fx a) + q381) 2 ltac:(lia)) as DM.
    set (h := (lval (fx a) + q381) / 2) in *.
    apply nrep_rep in S; [|change (58 * Z.of_nat 7) with 406; lia]. destruct S as (T1 & T2 & T3).
    assert (XQ : 1 * q381 <= fxes a * q381) by (apply Z.mul_le_mono_nonneg_r; lia).
    unfold fpR. cbn [fx fxes]. rewrite T3. fpsplit.
    apply mkq_half. rewrite <- F. f_equal. replace (2 * h) with (lval (fx a) + 1 * q381) by lia. apply mkq_add_q.
Qed.
