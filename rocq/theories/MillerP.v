(* The Miller loop of pair.rs: the lines it multiplies and the points it
   passes through. *)
From Coq Require Import Lia ZifyBool Znumtheory Field.
From Verif Require Import Prim PrimP Rom Big BigP BigP2 BigP3 BigP4 BigP5 NumT FieldQ FieldQ2 Fp FpP FpP2 Fp2 Fp2P SpecCurve CurveP GroupP
  Fp4 Fp12 Ecp Ecp2 Pair EcpP Ecp2P Tower TowerP FrobP CycP Fp4P Fp12P NafP FexpP.

(* the line values of linedbl and lineadd *)
Definition g4 : Fq2 := gemb (mkq 4). Definition g6 : Fq2 := gemb (mkq 6). Definition g12 : Fq2 := gemb (mkq 12).
Definition vdbl (X Y Z : Fq2) (qx qy : Fq) : Fq12 :=
  mk12 (gmul gi1 (gmul (gopp (gmul g4 (gmul Y Z))) (gemb qy)),
        gsub (gadd (gmul gi1 (gmul g12 (gmul Z Z))) (gmul gi1 (gmul g12 (gmul Z Z)))) (gadd (gmul Y Y) (gmul Y Y)))
       h0 (g0, gmul (gmul g6 (gmul X X)) (gemb qx)).
Definition vadd (X Y Z xb yb : Fq2) (qx qy : Fq) : Fq12 :=
  let x1 := gsub X (gmul Z xb) in let y1 := gsub Y (gmul Z yb) in
  mk12 (gmul gi1 (gmul x1 (gemb qy)), gsub (gmul y1 xb) (gmul x1 yb)) h0 (g0, gopp (gmul y1 (gemb qx))).
Definition lineR (v : Fq12) (lv : FP12) : Prop := fp12R 1 200 v lv /\ kb v = h0 /\ fst (kc v) = g0.

Lemma hs_emb x : hmul hs (x, g0) = (g0, x).
Proof. unfold hmul, hs. cbn [fst snd]. apply f_equal2; ring. Qed.
Lemma linedbl_ok l E m F p a qx qy ax ay : ecp2R l E p a -> fpR m F qx ax -> fpR m F qy ay -> 1 <= l <= 8 -> 1 <= m <= 8 ->
  E <= 1000000 -> F <= 1000000 ->
  ok (linedbl a ax ay) (fun '(lv, a') => ecp2R 1 17 (padd2 p p) a' /\
    exists X Y Z, prep2 X Y Z p /\ lineR (vdbl X Y Z qx qy) lv).
Proof.
  intros A QX QY L M HE HF. pose proof A as (OP & X & Y & Z & A1 & A2 & A3 & P). unfold linedbl. change (3 * CURVE_B_I) with 12. cbv zeta.
  repeat xstep.
  eapply ok_bind; [eapply fp4_times_i_ok; [apply fp4R_mk; [eassumption|eapply fp2R_weak; [exact fp2_new_ok|lia|lia]]|lia..]|]. intros c C.
  eapply ok_bind; [eapply ecp2_dbl_ok; [exact A|lia|lia]|]. intros a' A'. cbn [ok]. split; [exact A'|].
  exists X, Y, Z. split; [exact P|]. split; [|split; reflexivity].
  rewrite hs_emb in C. split; [|split]; cbn [f12a f12b f12c ka kb kc vdbl].
  - split; cbn [fst snd f4a f4b]; (eapply fp2R_weak; [eassumption|lia|lia]).
  - eapply fp4R_weak; [exact fp4_new_ok|lia|lia].
  - eapply fp4R_weak; [exact C|lia|lia].
Qed.
Lemma lineadd_ok l E m F n G p q a b qx qy ax ay xb yb : ecp2R l E p a -> ecp2R n G q b -> fp2R n G xb (e2x b) -> fp2R n G yb (e2y b) ->
  fpR m F qx ax -> fpR m F qy ay -> 1 <= l <= 8 -> 1 <= m <= 8 -> 1 <= n <= 8 ->
  E <= 1000000 -> F <= 1000000 -> G <= 1000000 ->
  ok (lineadd a b ax ay) (fun '(lv, a') => ecp2R 1 17 (padd2 p q) a' /\
    exists X Y Z, prep2 X Y Z p /\ lineR (vadd X Y Z xb yb qx qy) lv).
Proof.
  intros A B XB YB QX QY L M N HE HF HG. pose proof A as (OP & X & Y & Z & A1 & A2 & A3 & P). unfold lineadd. cbv zeta.
  repeat xstep.
  eapply ok_bind; [eapply fp4_times_i_ok; [apply fp4R_mk; [eassumption|eapply fp2R_weak; [exact fp2_new_ok|lia|lia]]|lia..]|]. intros c C.
  eapply ok_bind; [eapply ecp2_add_ok; [exact A|exact B|lia..]|]. intros a' A'. cbn [ok]. split; [exact A'|].
  exists X, Y, Z. split; [exact P|]. split; [|split; reflexivity].
  rewrite hs_emb in C. split; [|split]; cbn [f12a f12b f12c ka kb kc vadd].
  - split; cbn [fst snd f4a f4b]; (eapply fp2R_weak; [eassumption|lia|lia]).
  - eapply fp4R_weak; [exact fp4_new_ok|lia|lia].
  - eapply fp4R_weak; [exact C|lia|lia].
Qed.

(* the loop, for any invariant of the multiple k of P and the value m *)
(* a point of the loop where the digit s is met, the multiple so far being k *)
Definition nafstep (k s : Z) : Prop := exists i, 1 <= i /\ i + 1 < bitlen (3 * bnx) /\ sd bnx i = s /\ k = dd bnx (i + 1).
Section Loop.
  Variables (p : pt2) (xb yb : Fq2) (qx qy : Fq) (I : Z -> Fq12 -> Prop).
  Hypothesis I1 : I 1 k1.
  Hypothesis ID : forall k m X Y Z, 1 <= k -> k + k <= 2 ^ 70 -> I k m -> prep2 X Y Z (zm2 k p) -> I (k + k) (kmul (kmul m m) (vdbl X Y Z qx qy)).
  Hypothesis IA : forall k m X Y Z, nafstep k 1 -> 1 <= k -> k + k <= 2 ^ 70 -> I (k + k) m -> prep2 X Y Z (zm2 (k + k) p) -> I (k + k + 1) (kmul m (vadd X Y Z xb yb qx qy)).
  Hypothesis IS : forall k m X Y Z, nafstep k (-1) -> 1 <= k -> k + k <= 2 ^ 70 -> I (k + k) m -> prep2 X Y Z (zm2 (k + k) p) -> I (k + k - 1) (kmul m (vadd X Y Z xb (gopp yb) qx qy)).
  Variables (a : ECP2) (b : ECP) (l E m F : Z).
  Hypothesis A : ecp2R l E p a.
  Hypotheses (XB : fp2R l E xb (e2x a)) (YB : fp2R l E yb (e2y a)).
  Hypotheses (QX : fpR m F qx (ex b)) (QY : fpR m F qy (ey b)).
  Hypotheses (L : 1 <= l <= 8) (M : 1 <= m <= 8) (HE : E <= 100000) (HF : F <= 1000000).
  Definition ateI (v i : Z) (st : FP12 * ECP2) : Prop :=
    exists x, I (dd v i) x /\ fp12R 1 KB x (fst st) /\ ecp2R l (E + 17) (zm2 (dd v i) p) (snd st).
  Lemma ate_step_ok v e1 e3 np st i : rep 7 e1 v -> rep 7 e3 (3 * v) -> ecp2R l (5 * E) (pneg2 p) np -> fp2R l (5 * E) xb (e2x np) ->
    fp2R l (5 * E) (gopp yb) (e2y np) -> v = bnx -> 1 <= v -> 3 * v < 2 ^ 68 -> (1 <= i)%nat -> Z.of_nat i + 1 < bitlen (3 * v) ->
    ateI v (Z.of_nat i + 1) st -> ok (ate_step e1 e3 a np (ex b) (ey b) st i) (ateI v (Z.of_nat i)).
  Proof.
    intros R1 R3 NP NX NY VE V0 VB HI IB (x & IX & W & R). destruct st as [w r]. cbn [fst snd] in W, R.
    pose proof A as (ON & _). pose proof (fp2R_pos _ _ _ _ XB) as EP.
    pose proof (dd_ge1 v (Z.of_nat i + 1) V0 ltac:(lia)) as K1. pose proof (dd_step v (Z.of_nat i) ltac:(lia)) as DS.
    assert (KB2 : dd v (Z.of_nat i + 1) + dd v (Z.of_nat i + 1) <= 2 ^ 70).
    { unfold dd. pose proof (Z.div_le_upper_bound (3 * v) (2 ^ (Z.of_nat i + 1)) (3 * v) ltac:(apply Z.pow_pos_nonneg; lia)) as DU.
      assert (1 <= 2 ^ (Z.of_nat i + 1)) by (change 1 with (2 ^ 0) at 1; apply Z.pow_le_mono_r; lia).
      specialize (DU ltac:(nia)). pose proof (Z.div_pos v (2 ^ (Z.of_nat i + 1)) ltac:(lia) ltac:(lia)).
      change (2 ^ 70) with (4 * 2 ^ 68). lia. }
    assert (NS : forall s, sd v (Z.of_nat i) = s -> nafstep (dd v (Z.of_nat i + 1)) s).
    { intros s S1. rewrite VE in *. exists (Z.of_nat i). split; [lia|]. split; [exact IB|]. split; [exact S1|reflexivity]. }
    set (k := dd v (Z.of_nat i + 1)) in *. unfold ate_step. unfold KB in *.
    eapply ok_bind; [eapply fp12_sqr_ok; [exact W|lia|lia]|]. intros w1 W1. unfold KB in W1.
    eapply ok_bind; [eapply linedbl_ok; [exact R|exact QX|exact QY|lia..]|]. intros [lv r1] (RR1 & X & Y & Z & PP & LV & LV1 & LV2).
    eapply ok_bind; [eapply fp12_smul_ok; [exact W1|exact LV|exact LV1|exact LV2|lia..]|]. intros w2 W2. unfold KB in W2.
    pose proof (ID k x X Y Z K1 KB2 IX PP) as I2. rewrite <- (zm2_add k k p ON) in RR1.
    pose proof (bitlen_le (3 * v) 68 ltac:(lia) ltac:(lia)) as BL.
    rewrite (big_bit_ok e3 (3 * v)) by (auto; lia). cbn [bind]. rewrite (big_bit_ok e1 v) by (auto; lia). cbn [bind]. cbv zeta.
    fold (sd v (Z.of_nat i)). unfold ateI, KB. rewrite DS.
    destruct (sd_cases v (Z.of_nat i)) as [C|[C|C]]; rewrite C.
    - change (1 =? 1) with true. cbv iota.
      eapply ok_bind; [eapply lineadd_ok; [exact RR1|exact A|exact XB|exact YB|exact QX|exact QY|lia..]|]. intros [lv' r2] (RR2 & X' & Y' & Z' & PP' & LV' & LV1' & LV2').
      eapply ok_bind; [eapply fp12_smul_ok; [exact W2|exact LV'|exact LV1'|exact LV2'|lia..]|]. intros w3 W3. cbn [ok fst snd].
      replace (2 * k + 1) with (k + k + 1) by lia. eexists. split; [exact (IA k _ X' Y' Z' (NS 1 C) K1 KB2 I2 PP')|]. split; [exact W3|].
      rewrite (zm2_add (k + k) 1 p ON), zm2_1. eapply ecp2R_weak; [exact RR2|lia|lia].
    - change (0 =? 1) with false. change (0 =? -1) with false. cbv iota. cbn [ok fst snd].
      replace (2 * k + 0) with (k + k) by lia. eexists. split; [exact I2|]. split; [exact W2|]. eapply ecp2R_weak; [exact RR1|lia|lia].
    - change (-1 =? 1) with false. change (-1 =? -1) with true. cbv iota.
      eapply ok_bind; [eapply lineadd_ok; [exact RR1|exact NP|exact NX|exact NY|exact QX|exact QY|lia..]|]. intros [lv' r2] (RR2 & X' & Y' & Z' & PP' & LV' & LV1' & LV2').
      eapply ok_bind; [eapply fp12_smul_ok; [exact W2|exact LV'|exact LV1'|exact LV2'|lia..]|]. intros w3 W3. cbn [ok fst snd].
      replace (2 * k + -1) with (k + k - 1) by lia. eexists. split; [exact (IS k _ X' Y' Z' (NS (-1) C) K1 KB2 I2 PP')|]. split; [exact W3|].
      replace (zm2 (k + k - 1) p) with (padd2 (zm2 (k + k) p) (pneg2 p)); [eapply ecp2R_weak; [exact RR2|lia|lia]|].
      replace (k + k - 1) with (k + k + - (1)) by lia. rewrite (zm2_add (k + k) (- (1)) p ON), (zm2_opp 1 p ON), zm2_1. reflexivity.
  Qed.
  Lemma ate_gen : ok (ate a b) (fun r => exists x, I bnx x /\ fp12R 4 (5 * KB) (kconj x) r).
  Proof.
    pose proof (fp2R_pos _ _ _ _ XB) as EP. unfold ate. cbv zeta.
    eapply ok_bind; [apply (big_norm_rep _ _ bnx_rep)|]. intros e1 R1.
    assert (B0 : 1 <= bnx) by (vm_compute; discriminate). assert (B1 : 3 * bnx < 2 ^ 68) by (vm_compute; reflexivity).
    assert (B2 : 3 * bnx < 2 ^ 406) by (eapply Z.lt_trans; [exact B1|]; apply Z.pow_lt_mono_r; lia).
    eapply ok_bind; [apply (big_pmul3_ok _ _ R1 B2)|]. intros e3 R3.
    eapply ok_bind; [apply (big_norm_rep _ _ R3)|]. intros e3' R3'.
    eapply ok_bind; [apply (fp12_new_int_ok 1); lia|]. intros r RR.
    eapply ok_bind; [apply (ok_and (ecp2_neg a) _ (fun np => fp2R l (5 * E) xb (e2x np) /\ fp2R l (5 * E) (gopp yb) (e2y np))
      (ecp2_neg_ok l E p a A L ltac:(lia)))|].
    - unfold ecp2_neg. repeat gstep. cbn [ok e2x e2y e2z]. split; (eapply fp2R_weak; [eassumption|lia|lia]).
    - intros np (NP & NX & NY). rewrite (big_nbits_spec _ _ R3'). cbn [bind].
      pose proof (bitlen_le (3 * bnx) 68 ltac:(lia) ltac:(lia)) as BL. pose proof (bitlen3 bnx B0) as B3.
      rewrite cku64_ok by lia. cbn [bind].
      eapply ok_bind; [apply (naf_run (ate_step e1 e3' a np (ex b) (ey b)) (ateI bnx) bnx (r, a) B0)|].
      + intros st i HI IB H. apply (ate_step_ok bnx e1 e3' np st i R1 R3'); auto. eapply ecp2R_weak; [exact NP|lia|lia].
      + exists k1. rewrite dd_top by exact B0. split; [exact I1|]. cbn [fst snd]. unfold KB. split; [eapply fp12R_weak; [exact RR|lia|lia]|].
        rewrite zm2_1. eapply ecp2R_weak; [exact A|lia|lia].
      + intros [w r'] (x & IX & W & _). cbn [fst] in W. rewrite dd_1 in IX. unfold KB in *.
        eapply ok_impl; [eapply fp12_conj_ok; [exact W|lia..]|]. intros c C. exists x. split; [exact IX|]. eapply fp12R_weak; [exact C|lia|lia].
  Qed.
End Loop.
