(* fp.rs continued: overflow branches of the excess counter, pow, inverse, sqrt. *)
From Coq Require Import Lia ZifyBool Znumtheory Field.
From Verif Require Import Prim PrimP Rom Big BigP BigP2 BigP3 BigP4 BigP5 NumT FieldQ Fp FpP.

(* ---------------- results whatever the excess ------------------------ *)
Lemma fp_add_gen l m x y a b : fpR l 33554432 x a -> fpR m 33554432 y b -> 1 <= l -> 1 <= m -> l + m <= 31 ->
  ok (fp_add a b) (fpR (l + m) 33554432 (fadd x y)).
Proof.
  intros HA HB L M LM. pose proof HA as (A1 & A2 & A3 & A4 & A5). pose proof HB as (B1 & B2 & B3 & B4 & B5). unfold fp_add.
  eapply ok_bind; [apply (big_add_spec (fx a) (fx b) (l * B58) (m * B58)); try lia; apply lim_lb; auto|].
  intros r (R1 & R2 & R3). rewrite ck32_ok by lia. cbn [bind]. change FEXCESS with 33554432. cbv zeta.
  assert (R : fpR (l + m) 67108864 (fadd x y) (mkFP r (fxes a + fxes b))).
  { unfold fpR. cbn [fx fxes]. fpsplit.
    - unfold lim. destruct (Z.leb_spec (l + m) 1); [lia|]. replace ((l + m) * B58) with (l * B58 + m * B58) by ring. auto.
    - rewrite R3, mkq_add, <- A5, <- B5. ring. }
  destruct (Z.ltb_spec 33554432 (fxes a + fxes b)).
  - eapply ok_impl; [apply (fp_reduce_ok1 (l + m) 67108864 (fadd x y)); [exact R|lia|lia]|].
    intros r' R'. eapply fpR_weak; [exact R'|lia|lia].
  - cbn [ok]. destruct R as (Q1 & Q2 & Q3 & Q4 & Q5). cbn [fx fxes] in *. unfold fpR. cbn [fx fxes]. fpsplit. exact Q5.
Qed.

Lemma fp_dbl_gen l x a : fpR l 33554432 x a -> 1 <= l -> l + l <= 31 ->
  ok (fp_dbl a) (fpR (l + l) 33554432 (fadd x x)).
Proof.
  intros HA L LM. pose proof HA as (A1 & A2 & A3 & A4 & A5). unfold fp_dbl.
  eapply ok_bind; [apply (big_dbl_spec (fx a) (l * B58)); try lia; apply lim_lb; auto|].
  intros r (R1 & R2 & R3). rewrite ck32_ok by lia. cbn [bind]. change FEXCESS with 33554432. cbv zeta.
  assert (R : fpR (l + l) 67108864 (fadd x x) (mkFP r (fxes a + fxes a))).
  { unfold fpR. cbn [fx fxes]. fpsplit.
    - unfold lim. destruct (Z.leb_spec (l + l) 1); [lia|]. replace ((l + l) * B58) with (l * B58 + l * B58) by ring. auto.
    - rewrite R3. replace (2 * lval (fx a)) with (lval (fx a) + lval (fx a)) by ring. rewrite mkq_add, <- A5. ring. }
  destruct (Z.ltb_spec 33554432 (fxes a + fxes a)).
  - eapply ok_impl; [apply (fp_reduce_ok1 (l + l) 67108864 (fadd x x)); [exact R|lia|lia]|].
    intros r' R'. eapply fpR_weak; [exact R'|lia|lia].
  - cbn [ok]. destruct R as (Q1 & Q2 & Q3 & Q4 & Q5). cbn [fx fxes] in *. unfold fpR. cbn [fx fxes]. fpsplit. exact Q5.
Qed.

(* xes <= 2^25, a power of two: 2^sb <= 2^25 as well *)
Lemma fp_neg_gen l E x a : fpR l E x a -> 1 <= l <= 30 -> E <= 33554432 ->
  ok (fp_neg a) (fpR (l + 1) 33554432 (fopp x)).
Proof.
  intros (A1 & A2 & A3 & A4 & A5) L HE. unfold fp_neg. pose proof q381_lt. pose proof q381_bound2.
  rewrite ck32_ok by lia. cbn [bind]. change 4294967295 with (2 ^ 32 - 1). rewrite land_ones_mod by lia.
  rewrite Z.mod_small by lia. rewrite logb2_spec by lia. cbn [bind].
  set (sb := bitlen (fxes a - 1)).
  pose proof (bitlen_pow (fxes a) ltac:(lia)) as BP. fold sb in BP.
  assert (SB : 0 <= sb <= 25).
  { split; [apply bitlen_nonneg|]. apply bitlen_le; lia. }
  assert (P25 : 2 ^ sb <= 2 ^ 25) by (apply Z.pow_le_mono_r; lia).
  clearbody sb.
  assert (PQ : q381 * 2 ^ sb <= q381 * 33554432) by (apply Z.mul_le_mono_nonneg_l; lia).
  assert (PQ2 : fxes a * q381 <= q381 * 2 ^ sb) by (rewrite (Z.mul_comm (fxes a)); apply Z.mul_le_mono_nonneg_l; lia).
  pose proof (fshl_spec7 MODULUS q381 sb (rep_nrep _ _ _ mod_rep) ltac:(lia) ltac:(lia)) as FS.
  apply nrep_rep in FS; [|change (58 * Z.of_nat 7) with 406; lia]. destruct FS as (F1 & F2 & F3).
  eapply ok_bind; [apply (big_rsub_spec (fx a) (big_fshl MODULUS sb) (l * B58) B58); try lia|].
  { apply lim_lb; auto; lia. }
  { apply digs_lb; auto. }
  intros r (R1 & R2 & R3). destruct (Z.leb_spec 32 sb); [lia|].
  rewrite Z.shiftl_1_l. rewrite wrap32_id by lia. cbv zeta. cbn [fxes]. change FEXCESS with 33554432.
  destruct (Z.ltb_spec 33554432 (2 ^ sb)); [lia|]. cbn [ok]. unfold fpR. cbn [fx fxes].
  split; [lia|]. split; [|split; [|split; [lia|]]].
  - unfold lim. destruct (Z.leb_spec (l + 1) 1); [lia|]. replace ((l + 1) * B58) with (l * B58 + B58) by ring. auto.
  - rewrite R3, F3. lia.
  - rewrite R3, F3. rewrite mkq_sub, (Z.mul_comm q381), mkq_mul_q, <- A5. change (mkq 0) with f0. ring.
Qed.

Lemma fp_sub_gen l m x y a b : fpR l 33554432 x a -> fpR m 33554432 y b -> 1 <= l -> 1 <= m -> l + (m + 1) <= 31 ->
  ok (fp_sub a b) (fpR (l + (m + 1)) 33554432 (fsub x y)).
Proof.
  intros HA HB L M LM. unfold fp_sub.
  eapply ok_bind; [apply (fp_neg_gen m 33554432 y b HB); lia|]. intros n N.
  assert (E : fsub x y = fadd x (fopp y)) by ring. rewrite E. apply (fp_add_gen l (m + 1)); auto; lia.
Qed.
Lemma fp_rsub_gen l m x y a b : fpR l 33554432 x a -> fpR m 33554432 y b -> 1 <= l -> 1 <= m -> l + 1 + m <= 31 ->
  ok (fp_rsub a b) (fpR (l + 1 + m) 33554432 (fsub y x)).
Proof.
  intros HA HB L M LM. unfold fp_rsub.
  eapply ok_bind; [apply (fp_neg_gen l 33554432 x a HA); lia|]. intros n N.
  assert (E : fsub y x = fadd (fopp x) y) by ring. rewrite E. apply (fp_add_gen (l + 1) m); auto; lia.
Qed.

(* imul by any constant c with |c| < 2^31 and xes*|c| in i32 *)
Definition imul_pos (a : FP) (c : Z) : option FP :=
  pr <- ck32 (fxes a * wrap32 c) ;;
  (if pr <=? FEXCESS
   then x <- big_pmul (fx a) c ;; e <- ck32 (fxes a * wrap32 c) ;; Some (mkFP x e)
   else n <- fp_new_int c ;; fp_mul a n).
Lemma imul_pos_eq a c : 0 < c -> fp_imul a c = imul_pos a c.
Proof.
  intros C. unfold fp_imul, imul_pos. destruct (Z.ltb_spec c 0); [lia|]. cbn [bind].
  destruct (ck32 (fxes a * wrap32 c)); [|reflexivity]. cbn [bind].
  destruct (if z <=? FEXCESS then _ else _); reflexivity.
Qed.
Lemma imul_neg_eq a c : 0 < c < 2 ^ 62 -> fp_imul a (- c) = (r <- imul_pos a c ;; r' <- fp_neg r ;; fp_norm r').
Proof.
  intros C. unfold fp_imul, imul_pos. destruct (Z.ltb_spec (- c) 0); [|lia]. rewrite Z.opp_involutive.
  rewrite ck64_ok by lia. cbn [bind]. destruct (ck32 (fxes a * wrap32 c)); reflexivity.
Qed.
Lemma imul_pos_ok l x a c : fpR l 33554432 x a -> 1 <= l <= 8 -> 0 < c -> fxes a * c < 2 ^ 31 ->
  ok (imul_pos a c) (fpR 1 33554432 (fmul (mkq c) x)).
Proof.
  intros HA L C XC. pose proof HA as (A1 & A2 & A3 & A4 & A5).
  assert (C31 : c <= fxes a * c).
  { rewrite <- (Z.mul_1_l c) at 1. apply Z.mul_le_mono_nonneg_r; lia. }
  destruct (Z.le_gt_cases (fxes a * c) 33554432) as [K|K].
  - assert (HA' : fpR l (fxes a) x a) by (unfold fpR; fpsplit; exact A5).
    pose proof (fp_imul_ok l (fxes a) x a c HA' ltac:(lia) ltac:(lia) K) as I.
    rewrite imul_pos_eq in I by lia. eapply ok_impl; [exact I|]. intros r R. eapply fpR_weak; [exact R|lia|lia].
  - unfold imul_pos. rewrite wrap32_id by lia. rewrite ck32_ok by lia. cbn [bind].
    assert (G : (fxes a * c <=? FEXCESS) = false) by (change FEXCESS with 33554432; lia). rewrite G.
    eapply ok_bind; [apply fp_new_int_ok; lia|]. intros n N.
    assert (E : fmul (mkq c) x = fmul x (mkq c)) by ring. rewrite E.
    eapply ok_impl; [apply (fp_mul_ok l 1 33554432 2 x (mkq c)); [exact HA|exact N|lia|lia|lia|lia]|].
    intros r R. eapply fpR_weak; [exact R|lia|lia].
Qed.
Lemma fp_imul_gen l x a c : fpR l 33554432 x a -> 1 <= l <= 8 -> c <> 0 -> fxes a * Z.abs c < 2 ^ 31 ->
  ok (fp_imul a c) (fpR 1 33554432 (fmul (mkq c) x)).
Proof.
  intros HA L C XC. pose proof HA as (A1 & A2 & A3 & A4 & A5).
  assert (C31 : Z.abs c <= fxes a * Z.abs c).
  { rewrite <- (Z.mul_1_l (Z.abs c)) at 1. apply Z.mul_le_mono_nonneg_r; lia. }
  destruct (Z.le_gt_cases 0 c).
  - rewrite Z.abs_eq in * by lia. rewrite imul_pos_eq by lia. apply (imul_pos_ok l); auto; lia.
  - rewrite Z.abs_neq in * by lia. rewrite <- (Z.opp_involutive c) at 1. rewrite imul_neg_eq by lia.
    eapply ok_bind; [apply (imul_pos_ok l x a (- c)); auto; lia|]. intros r R.
    eapply ok_bind; [eapply fp_neg_gen; [exact R|lia|lia]|]. intros n N.
    eapply ok_impl; [eapply fp_norm_ok; [exact N|lia|lia]|]. intros r' R'.
    assert (E : fmul (mkq c) x = fopp (fmul (mkq (- c)) x)) by (rewrite mkq_opp; ring). rewrite E. exact R'.
Qed.

(* ---------------- pow ------------------------------------------------ *)
Fixpoint dval (ds : list Z) : Z := match ds with [] => 0 | d :: r => d + 16 * dval r end.
Lemma dval_app a b : dval (a ++ b) = dval a + 16 ^ Z.of_nat (length a) * dval b.
Proof.
  induction a as [|x a IH]; cbn [app dval length]; [rewrite Z.pow_0_r; lia|].
  rewrite IH, Nat2Z.inj_succ, Z.pow_succ_r by lia. ring.
Qed.
Definition dig4 (d : Z) := 0 <= d < 16.

Lemma pow_digits_ok n : forall t v, nrep 7 t v -> 0 <= v < 2 ^ 406 ->
  ok (pow_digits n t) (fun ds => length ds = n /\ Forall dig4 ds /\ dval ds = v mod 16 ^ Z.of_nat n).
Proof.
  induction n as [|n IH]; intros t v T V; cbn [pow_digits].
  - cbn [ok dval]. split; [reflexivity|]. split; [constructor|]. change (16 ^ Z.of_nat 0) with 1. rewrite Z.mod_1_r. reflexivity.
  - pose proof (nrep7_lb61 _ _ T ltac:(lia)) as LB. pose proof T as (T1 & T2 & T3).
    eapply ok_bind; [apply (lastbits_spec t 4); auto; [eapply lb_weak; [exact LB|lia]|lia]|].
    intros (lsb, t1) (E & N1). rewrite T3 in *. change (2 ^ 4) with 16 in E.
    pose proof (Z.mod_pos_bound v 16 ltac:(lia)) as MB. rewrite big_dec_inc by lia.
    rewrite <- bind_assoc. eapply ok_bind; [apply (inc_norm_spec t1 v (- lsb)); auto; lia|].
    intros t3 N3. pose proof (fshr_spec7 _ _ 4 N3 ltac:(lia)) as S.
    pose proof (Z.div_mod v 16 ltac:(lia)) as DM.
    assert (Q : (v + - lsb) / 2 ^ 4 = v / 16).
    { change (2 ^ 4) with 16. rewrite E. replace (v + - (v mod 16)) with (v / 16 * 16) by lia. apply Z.div_mul. lia. }
    rewrite Q in S. assert (0 <= v / 16 <= v) by (split; [apply Z.div_pos; lia|apply Z.div_le_upper_bound; lia]).
    eapply ok_bind; [apply (IH _ _ S); lia|]. intros r (R1 & R2 & R3). cbn [ok].
    split; [cbn; lia|]. split; [constructor; auto; unfold dig4; lia|].
    cbn [dval]. rewrite R3, E. rewrite Nat2Z.inj_succ, Z.pow_succ_r by lia.
    rewrite Z.rem_mul_r; lia.
Qed.

Lemma pow_table_ok x : forall n k last self, fpR 1 33554432 x self -> fpR 1 33554432 (fpw x k) last -> 0 <= k ->
  ok (pow_table n last self) (fun tl => length tl = n /\ forall i, (i < n)%nat -> 
    fpR 1 33554432 (fpw x (k + 1 + Z.of_nat i)) (nth i tl fp_new)).
Proof.
  induction n as [|n IH]; intros k last self SF L K; cbn [pow_table].
  - cbn [ok]. split; [reflexivity|]. intros i I. lia.
  - eapply ok_bind; [apply (fp_mul_ok 1 1 33554432 33554432 (fpw x k) x); auto; lia|].
    intros c C. rewrite <- (fpw_1 x) in C at 2. rewrite <- fpw_add in C by lia.
    assert (C' : fpR 1 33554432 (fpw x (k + 1)) c) by (eapply fpR_weak; [exact C|lia|lia]).
    eapply ok_bind; [apply (IH (k + 1) c self); auto; lia|]. intros tl (T1 & T2). cbn [ok].
    split; [cbn; lia|]. intros [|i] I; cbn [nth].
    + change (Z.of_nat 0) with 0. rewrite Z.add_0_r. exact C'.
    + replace (k + 1 + Z.of_nat (S i)) with (k + 1 + 1 + Z.of_nat i) by lia. apply T2. lia.
Qed.

Definition tabR (x : Fq) (tb : list FP) : Prop := length tb = 16%nat /\
  forall d, 0 <= d < 16 -> fpR 1 33554432 (fpw x d) (nth (Z.to_nat d) tb fp_new).

Lemma getM_tab x tb d : tabR x tb -> dig4 d ->
  getM tb (Z.to_nat d) = Some (nth (Z.to_nat d) tb fp_new) /\ fpR 1 33554432 (fpw x d) (nth (Z.to_nat d) tb fp_new).
Proof.
  intros (T1 & T2) D. split; [|apply T2; auto]. unfold getM. apply nth_error_nth'. unfold dig4 in D. lia.
Qed.

Lemma pow_step_ok x tb k r d : tabR x tb -> dig4 d -> 0 <= k -> fpR 1 33554432 (fpw x k) r ->
  ok (pow_step tb r d) (fpR 1 33554432 (fpw x (16 * k + d))).
Proof.
  intros T D K R. unfold pow_step. destruct (getM_tab x tb d T D) as [G1 G2]. unfold dig4 in D.
  eapply ok_bind; [eapply fp_sqr_ok; [exact R|lia|lia]|]. intros r1 R1.
  eapply ok_bind; [eapply fp_sqr_ok; [exact R1|lia|lia]|]. intros r2 R2.
  eapply ok_bind; [eapply fp_sqr_ok; [exact R2|lia|lia]|]. intros r3 R3.
  eapply ok_bind; [eapply fp_sqr_ok; [exact R3|lia|lia]|]. intros r4 R4.
  rewrite G1. cbn [bind]. eapply ok_impl; [eapply fp_mul_ok; [exact R4|exact G2| lia | lia | lia | lia]|].
  intros s SR. rewrite <- !fpw_add in SR by lia. replace (16 * k + d) with (k + k + (k + k) + (k + k + (k + k)) + (k + k + (k + k) + (k + k + (k + k))) + d) by lia.
  eapply fpR_weak; [exact SR|lia|lia].
Qed.

Lemma pow_fold_ok x tb : forall ds k r, tabR x tb -> Forall dig4 ds -> 0 <= k -> fpR 1 33554432 (fpw x k) r ->
  ok (foldM (pow_step tb) ds r) (fpR 1 33554432 (fpw x (16 ^ Z.of_nat (length ds) * k + dval (rev ds)))).
Proof.
  induction ds as [|d ds IH]; intros k r T D K R; cbn [foldM].
  - cbn [ok rev dval length]. change (16 ^ Z.of_nat 0) with 1. rewrite Z.mul_1_l, Z.add_0_r. exact R.
  - inversion D as [|? ? D1 D2]; subst. eapply ok_bind; [apply (pow_step_ok x tb k r d); auto|].
    intros r' R'. unfold dig4 in D1. eapply ok_impl; [apply (IH (16 * k + d) r'); auto; lia|].
    intros s SR. cbn [rev length]. rewrite dval_app, rev_length. cbn [dval].
    rewrite Nat2Z.inj_succ, Z.pow_succ_r by lia.
    replace (16 * 16 ^ Z.of_nat (length ds) * k + (dval (rev ds) + 16 ^ Z.of_nat (length ds) * (d + 16 * 0))) with
      (16 ^ Z.of_nat (length ds) * (16 * k + d) + dval (rev ds)) by ring. exact SR.
Qed.

Lemma fp_pow_ok l E x a e : fpR l E x a -> 1 <= l <= 31 -> E <= 33554432 ->
  length e = 7%nat -> lb (2 ^ 63 - 64) e -> 0 <= lval e < 2 ^ 406 ->
  ok (fp_pow a e) (fpC (fpw x (lval e))).
Proof.
  intros A L HE E1 E2 E3. unfold fp_pow.
  eapply ok_bind; [eapply fp_norm_ok; eauto|]. intros s SF.
  assert (S' : fpR 1 33554432 x s) by (eapply fpR_weak; [exact SF|lia|lia]).
  eapply ok_bind; [apply norm_spec7; auto|]. intros t T.
  assert (T' : rep 7 t (lval e)) by (apply nrep_rep; auto).
  rewrite (big_nbits_spec _ _ T'). cbn [bind].
  pose proof (bitlen_nonneg (lval e)) as B0. pose proof (bitlen_le (lval e) 406 ltac:(lia) E3) as B1.
  pose proof (bitlen_bound (lval e) ltac:(lia)) as B2.
  set (nb := Z.to_nat (1 + (bitlen (lval e) + 3) / 4)).
  assert (NB : Z.of_nat nb = 1 + (bitlen (lval e) + 3) / 4).
  { unfold nb. rewrite Z2Nat.id; auto. pose proof (Z.div_pos (bitlen (lval e) + 3) 4 ltac:(lia) ltac:(lia)). lia. }
  assert (NB2 : 0 < Z.of_nat nb <= 103).
  { rewrite NB. pose proof (Z.div_pos (bitlen (lval e) + 3) 4 ltac:(lia) ltac:(lia)).
    pose proof (Z.div_le_mono (bitlen (lval e) + 3) 409 4 ltac:(lia) ltac:(lia)) as X. change (409 / 4) with 102 in X. lia. }
  assert (NB3 : lval e < 16 ^ Z.of_nat nb).
  { change 16 with (2 ^ 4). rewrite <- Z.pow_mul_r by lia. eapply Z.lt_le_trans; [exact B2|].
    apply Z.pow_le_mono_r; [lia|]. rewrite NB. pose proof (Z.div_mod (bitlen (lval e) + 3) 4 ltac:(lia)).
    pose proof (Z.mod_pos_bound (bitlen (lval e) + 3) 4 ltac:(lia)). lia. }
  clearbody nb. destruct (Nat.ltb_spec 103 nb); [lia|].
  eapply ok_bind; [apply (pow_digits_ok nb t (lval e)); auto|]. intros w (W1 & W2 & W3).
  rewrite Z.mod_small in W3 by lia.
  eapply ok_bind; [apply fp_one_ok|]. intros one O.
  assert (S1 : fpR 1 33554432 (fpw x 1) s) by (rewrite fpw_1; exact S').
  eapply ok_bind; [apply (pow_table_ok x 14 1 s s); auto; lia|]. intros tl (T1 & T2). cbv zeta.
  assert (TB : tabR x (one :: s :: tl)).
  { split; [cbn; lia|]. intros d D. destruct (Z.eq_dec d 0) as [->|]; [|destruct (Z.eq_dec d 1) as [->|]].
    - cbn [Z.to_nat nth]. rewrite fpw_0. eapply fpR_weak; [exact O|lia|lia].
    - exact S1.
    - replace (Z.to_nat d) with (S (S (Z.to_nat (d - 2)))) by lia. cbn [nth].
      replace d with (1 + 1 + Z.of_nat (Z.to_nat (d - 2))) at 1 by lia. apply T2. lia. }
  destruct (rev w) as [|top rest] eqn:RW.
  { apply (f_equal (@length Z)) in RW. rewrite rev_length in RW. cbn in RW. lia. }
  assert (WF : Forall dig4 (top :: rest)) by (rewrite <- RW; apply Forall_rev; auto).
  inversion WF as [|? ? D1 D2]; subst.
  destruct (getM_tab x _ top TB D1) as [G1 G2]. rewrite G1. cbn [bind]. unfold dig4 in D1.
  eapply ok_bind; [apply (pow_fold_ok x _ rest top _ TB D2); [lia|exact G2]|]. intros r R.
  assert (V : 16 ^ Z.of_nat (length rest) * top + dval (rev rest) = lval e).
  { rewrite <- W3. rewrite <- (rev_involutive w), RW. cbn [rev]. rewrite dval_app, rev_length. cbn [dval]. ring. }
  rewrite V in R. eapply fp_reduce_ok; [exact R|lia|lia].
Qed.

(* ---------------- inverse, sqrt --------------------------------------- *)
Lemma fp_inverse_ok l E x a : fpR l E x a -> 1 <= l <= 31 -> E <= 33554432 ->
  ok (fp_inverse a) (fpC (finv x)).
Proof.
  intros A L HE. unfold fp_inverse. rewrite big_dec_inc by lia. pose proof q381_lt.
  rewrite <- bind_assoc. eapply ok_bind; [apply (inc_norm_spec MODULUS q381 (- 2)); [apply rep_nrep, mod_rep|lia|lia]|].
  intros m M. assert (M' : rep 7 m (q381 + - 2)) by (apply nrep_rep; [exact M|change (58 * Z.of_nat 7) with 406; lia]).
  destruct M' as (M1 & M2 & M3).
  rewrite finv_pw. replace (q381 - 2) with (lval m) by lia.
  apply (fp_pow_ok l E x a m A L HE M1); [eapply lb_weak; [apply digs_lb; exact M2|lia]|lia].
Qed.

Definition qp14 : Z := (q381 + 1) / 4.
Lemma qp14_4 : 4 * qp14 = q381 + 1. Proof. vm_compute. reflexivity. Qed.
Lemma fp_sqrt_ok l E x a : fpR l E x a -> 1 <= l <= 31 -> E <= 67108864 ->
  ok (fp_sqrt a) (fpC (fpw x qp14)).
Proof.
  intros A L HE. unfold fp_sqrt. pose proof q381_lt.
  eapply ok_bind; [eapply fp_reduce_ok1; eauto|]. intros a' A'.
  rewrite <- bind_assoc. eapply ok_bind; [apply (inc_norm_spec MODULUS q381 1); [apply rep_nrep, mod_rep|lia|lia]|].
  intros m M. eapply ok_bind; [apply (big_shr_spec m _ 2 M); lia|]. intros p P.
  change (2 ^ 2) with 4 in P. fold qp14 in P. pose proof qp14_4.
  assert (M' : rep 7 p qp14) by (apply nrep_rep; [exact P|change (58 * Z.of_nat 7) with 406; lia]).
  destruct M' as (M1 & M2 & M3). rewrite <- M3.
  apply (fp_pow_ok 1 1 x a' p A'); auto; try lia. eapply lb_weak; [apply digs_lb; exact M2|lia].
Qed.

(* for squares the result is a root *)
Lemma sqrt_square y : let r := fpw (fmul y y) qp14 in fmul r r = fmul y y.
Proof.
  cbv zeta. pose proof q381_lt. pose proof qp14_4.
  rewrite <- fpw_add by lia. rewrite <- fpw_2 at 1. rewrite <- fpw_mul by lia.
  replace (2 * (qp14 + qp14)) with ((q381 - 1) + 2) by lia. rewrite fpw_add by lia. rewrite fpw_2.
  destruct (Fq_dec y f0) as [->|N]; [rewrite fmul_0_l, fmul_0_r; reflexivity|]. rewrite fpw_fermat by auto. ring.
Qed.
