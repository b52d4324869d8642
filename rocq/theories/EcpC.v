(* G1 constructors and byte codecs: what compress_g1 / decompress_g1 and the
   uncompressed codec compute. *)
From Coq Require Import ZArith List Bool Lia Znumtheory.
From Verif Require Import Prim Rom Big Fp Ecp Utils Api PrimP BigP BigP2 SpecBytes BigP3 BigP4 BigP5 NumT FieldQ FieldQ2 FpP FpP2
  SpecCurve CurveP GroupP JacobiM JacP Fp2P Sqrt2P WinP EcpP.
Import ListNotations.
Open Scope Z_scope.

(* ------------------------- exact values out of redc ------------------- *)
(* the integer redc returns: canonical, except that a nonzero multiple of q
   becomes q *)
Definition rval (x : Fq) (a : FP) : Z :=
  if Fq_dec x f0 then (if lval (fx a) =? 0 then 0 else q381) else fv x.
Lemma rval_nz x a : x <> f0 -> rval x a = fv x.
Proof. intros N. unfold rval. destruct (Fq_dec x f0); [contradiction|reflexivity]. Qed.
Lemma rval_range x a : 0 <= rval x a <= q381.
Proof.
  unfold rval. pose proof (fv_range x). pose proof q381_pos. destruct (Fq_dec x f0); [|lia]. destruct (lval (fx a) =? 0); lia.
Qed.
Lemma rval_mkq x a : mkq (rval x a) = x.
Proof.
  unfold rval. destruct (Fq_dec x f0) as [->|]; [|apply mkq_fv].
  destruct (lval (fx a) =? 0); [reflexivity|]. apply mkq_eq. rewrite Z.mod_same, Z.mod_0_l by apply q381_nz. reflexivity.
Qed.
Lemma fp_redc_exact l E x a : fpR l E x a -> 1 <= l <= 31 -> E <= 33554432 ->
  ok (fp_redc a) (fun w => rep 7 w (rval x a)).
Proof.
  intros H HL HE. pose proof (fpR_val25 _ _ _ _ H HE) as V. destruct H as (A & B & C & D & F).
  unfold fp_redc. pose proof q381_lt. pose proof (scopy_val _ A) as [S1 S2].
  eapply ok_impl; [apply (modulo_gen (dbig_scopy (fx a)) (lval (fx a)) S1); [|exact S2|lia]|].
  { apply scopy_limw; [exact A|]. eapply lb_weak; [apply (lim_lb l); [lia|exact B]|lia]. }
  cbv beta. intros r (R & Q & B1 & B2). pose proof R as (_ & R2 & _). apply digs_val in R2.
  rewrite F in Q. assert (E0 : lval r mod q381 = fv x) by (rewrite <- Q, fv_mkq; reflexivity).
  assert (RV : rval x a = lval r); [|rewrite RV; exact R].
  unfold rval. destruct (Fq_dec x f0) as [X0|X0].
  - rewrite X0, fv_f0 in E0. apply Z.mod_divide in E0; [|lia]. destruct E0 as [k K].
    destruct (Z.eqb_spec (lval (fx a)) 0) as [Z0|Z0].
    + rewrite Z0 in B1. assert (k < 1) by nia. assert (0 <= k) by nia. nia.
    + assert (0 < k) by nia. assert (k < 2) by nia. nia.
  - destruct (Z.eq_dec (lval r) q381) as [G|G].
    + rewrite G, Z.mod_same in E0 by lia. exfalso. apply X0. apply fv_zero. auto.
    + rewrite Z.mod_small in E0 by lia. lia.
Qed.
(* conversion to Montgomery form keeps zero and only zero at zero *)
Lemma fp_nres_exact w v : rep 7 w v -> ok (fp_nres w) (fun a => fpR 1 2 (mkq v) a /\ (lval (fx a) = 0 <-> v = 0)).
Proof.
  intros W. pose proof (fp_nres_ok w v W) as H. unfold ok in *. destruct (fp_nres w) as [a|] eqn:N; [|exact H].
  split; [exact H|]. unfold fp_nres in N.
  pose proof (rep_bound _ _ _ W) as VB. change (58 * Z.of_nat 7) with 406 in VB.
  pose proof r2_rep as R2. pose proof (rep_bound _ _ _ R2) as RB. pose proof q381_lt as QL.
  pose proof (Z.mod_pos_bound (2 ^ 812) q381 q381_pos) as RM.
  assert (RP : 2 ^ 812 mod q381 <> 0).
  { intros E0. apply R_nz. assert (E1 : fmul (mkq (2 ^ 406)) (mkq (2 ^ 406)) = f0).
    { rewrite <- mkq_mul, <- Z.pow_add_r by lia. change (406 + 406) with 812. apply mkq_eq. rewrite E0, Z.mod_0_l by lia. reflexivity. }
    apply fq_integral in E1. tauto. }
  set (rr := 2 ^ 812 mod q381) in *. clearbody rr.
  pose proof W as (W1 & W2 & W3). pose proof R2 as (P1 & P2 & P3).
  pose proof (big_mul_spec w R2MODP (2 ^ 58) (2 ^ 58)) as MS.
  destruct (big_mul w R2MODP) as [d|] eqn:MD; [|discriminate N].
  cbn [bind] in N.
  assert (D : nrep 14 d (v * rr)).
  { rewrite <- W3, <- P3. apply MS; [exact W1|exact P1| | |lia|lia|rewrite W3, P3; nia].
    - eapply lb_weak; [apply digs_lb; exact W2|lia].
    - eapply lb_weak; [apply digs_lb; exact P2|lia]. }
  assert (DB : 0 <= v * rr <= 2 ^ 811) by nia.
  pose proof (modulo_ok d (v * rr) D DB) as MO. destruct (fp_modulo d) as [r|]; [|discriminate N].
  cbn [bind] in N. injection N as <-. cbn [fx]. destruct MO as (R & _ & B1 & B2).
  destruct R as (_ & DR & _). apply digs_val in DR. split.
  - intros L0. rewrite L0 in B2. nia.
  - intros ->. rewrite Z.mul_0_l in B1.
    assert (M0 : lval r < q381) by lia. destruct H as (_ & _ & _ & _ & F). cbn [fx] in F.
    assert (E0 : mkq (lval r) = f0).
    { change (mkq 0) with f0 in F. transitivity (fmul (fmul (mkq (lval r)) RI) (mkq (2 ^ 406))).
      - transitivity (fmul (mkq (lval r)) (fmul (mkq (2 ^ 406)) RI)); [rewrite RI_R; ring|ring].
      - rewrite F. ring. }
    apply mkq_inj in E0. rewrite Z.mod_0_l, Z.mod_small in E0 by lia. exact E0.
Qed.

(* ------------------------- curve equation ----------------------------- *)
Definition rhs1 (x : Fq) : Fq := fadd (fmul (fmul x x) x) fb.
Lemma curve_b_rep : rep 7 CURVE_B 4.
Proof. apply (rep_small 4). lia. Qed.
Lemma ecp_rhs_ok l E x a : fpR l E x a -> 1 <= l <= 31 -> E <= 33554432 ->
  ok (ecp_rhs a) (fun '(r, x') => fpC (rhs1 x) r /\ fpR 1 E x x' /\ (lval (fx x') = lval (fx a))).
Proof.
  intros A L HE. unfold ecp_rhs.
  eapply (ok_bind _ _ (fun x' => fpR 1 E x x' /\ lval (fx x') = lval (fx a))).
  { pose proof (fp_norm_ok l E x a A L HE) as H. pose proof A as (A1 & A2 & _).
    unfold fp_norm in *. pose proof (norm_spec7 (fx a) A1) as NS. 
    assert (LB : lb (2 ^ 63 - 64) (fx a)) by (eapply lb_weak; [apply (lim_lb l); [lia|exact A2]|lia]).
    specialize (NS LB). destruct (big_norm (fx a)) as [w|]; [|exact NS]. cbn [bind ok] in *. split; [exact H|]. cbn [fx].
    destruct NS as (_ & _ & NS). exact NS. }
  intros x' [X XL].
  eapply ok_bind; [apply (fp_sqr_ok 1 E x x' X); lia|]. intros r R.
  unfold fp_new_big. eapply ok_bind; [apply (fp_nres_ok CURVE_B 4 curve_b_rep)|]. intros b B.
  eapply ok_bind; [apply (fp_mul_ok 1 1 2 E _ _ r x' R X); lia|]. intros s S1.
  eapply ok_bind; [apply (fp_add_ok 1 1 2 2 _ _ s b S1 B); lia|]. intros t T.
  eapply ok_bind; [apply (fp_reduce_ok _ _ _ t T); lia|]. intros u U. cbn [ok].
  split; [exact U|]. split; [exact X|exact XL].
Qed.
Lemma on1_rhs x y : on1 (Aff x y) <-> fmul y y = rhs1 x. Proof. reflexivity. Qed.
Lemma rhs1_nz x : rhs1 x <> f0.
Proof. intros E. apply (fb_noroot x). exact E. Qed.

(* a freshly built affine key: z = 1 *)
Definition ecpF (E : Z) (x y : Fq) (a : ECP) : Prop := fpR 1 E x (ex a) /\ fpR 1 E y (ey a) /\ fpR 1 2 f1 (ez a).
Lemma ecpF_R E x y a : 2 <= E -> on1 (Aff x y) -> ecpF E x y a -> ecpR 1 E (Aff x y) a.
Proof.
  intros HE ON (A & B & C). split; [exact ON|]. exists x, y, f1. split; [exact A|]. split; [exact B|].
  split; [eapply fpR_weak; [exact C|lia|lia]|]. cbn [prep]. split; [exact f1_neq_0|]. split; ring.
Qed.
Lemma ecp_new_bigs_ok ix iy u v : rep 7 ix u -> rep 7 iy v ->
  ok (ecp_new_bigs ix iy) (fun a =>
    (on1 (Aff (mkq u) (mkq v)) -> ecpF 2 (mkq u) (mkq v) a /\ (lval (fx (ex a)) = 0 <-> u = 0) /\ (lval (fx (ey a)) = 0 <-> v = 0)) /\
    (~ on1 (Aff (mkq u) (mkq v)) -> ecpR 1 2 Inf a)).
Proof.
  intros U V. unfold ecp_new_bigs, fp_new_big.
  eapply ok_bind; [apply (fp_nres_exact _ _ U)|]. intros x [X X0].
  eapply ok_bind; [apply (fp_nres_exact _ _ V)|]. intros y [Y Y0].
  eapply ok_bind; [apply fp_one_ok|]. intros z Z1.
  eapply ok_bind; [apply (ecp_rhs_ok 1 2 _ x X); lia|]. intros [r x'] (R & X' & XL).
  eapply ok_bind; [apply (fp_sqr_ok 1 2 _ y Y); lia|]. intros y2 Y2. apply fpC_R in R.
  eapply ok_bind; [eapply fp_equals_ok; [exact Y2|exact R|lia..]|]. intros [[e p1] p2] (EX & _ & _).
  destruct e.
  - cbn [ok]. destruct EX as [EX _]. specialize (EX eq_refl). split; [|intros C; contradiction].
    intros _. split; [split; [exact X'|split; [exact Y|exact Z1]]|]. cbn [ex ey]. rewrite XL. split; assumption.
  - pose proof ecp_inf_ok as IO. destruct ecp_inf as [a|]; [|exact IO]. cbn [ok] in *.
    split; [intros C; apply EX in C; discriminate|]. intros _. exact IO.
Qed.
Lemma ecp_new_big_ok ix u : rep 7 ix u ->
  ok (ecp_new_big ix) (fun a =>
    (is_sq (rhs1 (mkq u)) -> ecpF 2 (mkq u) (fsqrt (rhs1 (mkq u))) a /\ (lval (fx (ex a)) = 0 <-> u = 0)) /\
    (~ is_sq (rhs1 (mkq u)) -> ecpR 1 2 Inf a)).
Proof.
  intros U. unfold ecp_new_big, fp_new_big.
  eapply ok_bind; [apply (fp_nres_exact _ _ U)|]. intros x [X X0].
  eapply ok_bind; [apply fp_one_ok|]. intros z Z1.
  eapply ok_bind; [apply (ecp_rhs_ok 1 2 _ x X); lia|]. intros [r x'] (R & X' & XL). apply fpC_R in R.
  eapply ok_bind; [apply (fp_jacobi_ok 1 1 _ r R); lia|]. intros j (J1 & _ & _).
  pose proof (rhs1_nz (mkq u)) as NZ.
  destruct (Z.eqb_spec j 1) as [EJ|EJ].
  - apply J1 in EJ. destruct EJ as [_ SQ]. eapply ok_bind; [apply (fp_sqrt_ok 1 1 _ r R); lia|]. intros y Y. apply fpC_R in Y.
    cbn [ok]. split; [|intros C; contradiction]. intros _. split; [|cbn [ex]; rewrite XL; exact X0].
    split; [exact X'|]. split; [eapply fpR_weak; [exact Y|lia|lia]|exact Z1].
  - assert (NS : ~ is_sq (rhs1 (mkq u))) by (intros C; apply EJ, J1; split; assumption).
    pose proof ecp_inf_ok as IO. destruct ecp_inf as [a|]; [|exact IO]. cbn [ok] in *. split; [intros C; contradiction|intros _; exact IO].
Qed.
Lemma fsqrt_on x : is_sq (rhs1 x) -> on1 (Aff x (fsqrt (rhs1 x))).
Proof. intros H. apply on1_rhs. apply fsqrt_sq, H. Qed.
Lemma on1_y x y : on1 (Aff x y) -> y <> f0.
Proof. intros H ->. apply on1_rhs in H. apply (rhs1_nz x). rewrite <- H. ring. Qed.
(* the two points with a given x *)
Lemma on1_two x y z : on1 (Aff x y) -> on1 (Aff x z) -> z = y \/ z = fopp y.
Proof.
  intros H1 H2. apply on1_rhs in H1, H2. assert (P : fmul (fsub z y) (fsub z (fopp y)) = f0).
  { assert (E : fmul (fsub z y) (fsub z (fopp y)) = fsub (fmul z z) (fmul y y)) by ring. rewrite E, H1, H2. ring. }
  apply fq_integral in P. destruct P as [P|P]; apply fsub_eq0 in P; [left|right]; exact P.
Qed.

(* ------------------------- the sign flag ------------------------------ *)
(* what calc_a_flag computes on 0 <= v < 2^383: only the two top bytes of v
   decide *)
Definition a_flag_code (v : Z) : Z :=
  if (14 * 2 ^ 376 <=? v) || ((13 * 2 ^ 376 <=? v) && negb ((v / 2 ^ 368) mod 128 =? 0)) then 1 else 0.
Lemma be_bytes_cons k : forall v, be_bytes (S k) v = (v / 256 ^ Z.of_nat k) mod 256 :: be_bytes k v.
Proof.
  induction k as [|k IH]; intros v.
  - cbn [be_bytes app]. change (256 ^ Z.of_nat 0) with 1. rewrite Z.div_1_r. reflexivity.
  - change (be_bytes (S (S k)) v) with (be_bytes (S k) (v / 256) ++ [v mod 256]). rewrite IH.
    change (be_bytes (S k) v) with (be_bytes k (v / 256) ++ [v mod 256]). cbn [app]. f_equal. f_equal.
    rewrite Z.div_div by (try lia; apply Z.pow_pos_nonneg; lia). f_equal.
    rewrite Nat2Z.inj_succ, Z.pow_succ_r by lia. reflexivity.
Qed.
Lemma flag_double_ok ys : bytes ys -> forall k c, 0 <= c -> c + 512 * Z.of_nat (length ys) <= 2 ^ 63 -> c = 256 * k ->
  flag_double c ys = Some (map (fun b => (2 * b) mod 256) ys).
Proof.
  induction ys as [|y ys IH]; intros B k c C0 C1 CK; [reflexivity|].
  apply Forall_cons_iff in B. destruct B as [Y B]. cbn [flag_double map length] in *. rewrite Nat2Z.inj_succ in C1.
  rewrite (cku64_in (y * 2)) by lia. cbn [bind]. rewrite (cku64_in (y * 2 + c)) by lia. cbn [bind].
  assert (M : (y * 2 + c) mod 256 = (2 * y) mod 256).
  { rewrite CK. replace (y * 2 + 256 * k) with (2 * y + k * 256) by ring. apply Z.mod_add. lia. }
  rewrite M. pose proof (Z.mod_pos_bound (2 * y) 256 ltac:(lia)) as MB. pose proof (Z.mod_le (2 * y) 256 ltac:(lia) ltac:(lia)) as ML.
  rewrite (cku64_in (y * 2 + c - (2 * y) mod 256)) by lia. cbn [bind].
  rewrite (IH B (k + (2 * y) / 256)); [reflexivity|lia|lia|]. rewrite CK. pose proof (Z.div_mod (2 * y) 256 ltac:(lia)). lia.
Qed.
Lemma calc_a_flag_ok w v : rep 7 w v -> v < 2 ^ 383 -> calc_a_flag w = Some (a_flag_code v).
Proof.
  intros W V. pose proof (rep_bound _ _ _ W) as VB. unfold calc_a_flag. rewrite (big_tobytes_rep w v W). cbn [bind].
  pose proof (be_bytes_bytes 48 v) as BB.
  rewrite (flag_double_ok _ BB 0 0) by (rewrite ?be_bytes_length; lia). cbn [bind]. f_equal.
  rewrite (be_bytes_cons 47), (be_bytes_cons 46). cbn [map]. unfold Q_BYTES. cbn [flag_compare].
  change (256 ^ Z.of_nat 47) with (2 ^ 376). change (256 ^ Z.of_nat 46) with (2 ^ 368).
  assert (Y0 : 0 <= v / 2 ^ 376 < 128) by (split; [apply Z.div_pos; lia|apply Z.div_lt_upper_bound; lia]).
  rewrite (Z.mod_small (v / 2 ^ 376)) by lia. rewrite (Z.mod_small (2 * (v / 2 ^ 376))) by lia.
  assert (M2 : (2 * ((v / 2 ^ 368) mod 256)) mod 256 = 2 * ((v / 2 ^ 368) mod 128)).
  { change 256 with (2 * 128) at 2. rewrite Z.mul_mod_distr_l by lia. f_equal. generalize (v / 2 ^ 368). intros z. clear. mlia. }
  rewrite M2. pose proof (Z.mod_pos_bound (v / 2 ^ 368) 128 ltac:(lia)) as MB.
  assert (D : v / 2 ^ 376 * 2 ^ 376 <= v < (v / 2 ^ 376 + 1) * 2 ^ 376) by (clear; mlia).
  unfold a_flag_code. set (y0 := v / 2 ^ 376) in *. set (y1 := (v / 2 ^ 368) mod 128) in *. clearbody y0 y1.
  destruct (Z.ltb_spec 26 (2 * y0)).
  - destruct (Z.leb_spec (14 * 2 ^ 376) v); [reflexivity|lia].
  - destruct (Z.ltb_spec (2 * y0) 26).
    + destruct (Z.leb_spec (14 * 2 ^ 376) v); [lia|]. destruct (Z.leb_spec (13 * 2 ^ 376) v); [lia|reflexivity].
    + destruct (Z.leb_spec (14 * 2 ^ 376) v); [lia|]. destruct (Z.leb_spec (13 * 2 ^ 376) v); [|lia]. cbn [orb andb].
      destruct (Z.ltb_spec 1 (2 * y1)).
      * destruct (Z.eqb_spec y1 0); [lia|reflexivity].
      * destruct (Z.ltb_spec (2 * y1) 1); [|lia]. destruct (Z.eqb_spec y1 0); [reflexivity|lia].
Qed.
Lemma a_flag_01 v : a_flag_code v = 0 \/ a_flag_code v = 1.
Proof. unfold a_flag_code. destruct (_ || _); auto. Qed.

(* ------------------------- compression ------------------------------- *)
Lemma set_flags_ok v a k : 0 <= v < 2 ^ 381 -> a = 0 \/ a = 1 -> (47 <= k)%nat ->
  forall tl, length tl = (k - 47)%nat ->
  set_flags (be_bytes 48 v ++ tl) a = Some (be_bytes 48 (v + a * 2 ^ 381 + 2 ^ 383) ++ tl).
Proof.
  intros V A K tl L. rewrite !(be_bytes_cons 47). cbn [app set_flags].
  change (256 ^ Z.of_nat 47) with (2 ^ 376).
  assert (Y0 : 0 <= v / 2 ^ 376 < 32) by (split; [apply Z.div_pos; lia|apply Z.div_lt_upper_bound; lia]).
  assert (C : forall z, 0 <= z < 256 -> cku8 z = Some z) by (intros; apply cku8_ok; lia).
  rewrite (Z.mod_small (v / 2 ^ 376)) by lia.
  rewrite C by lia. cbn [bind]. rewrite C by lia. cbn [bind]. rewrite C by lia. cbn [bind].
  assert (E1 : (v + a * 2 ^ 381 + 2 ^ 383) / 2 ^ 376 = v / 2 ^ 376 + 32 * a + 128).
  { replace (v + a * 2 ^ 381 + 2 ^ 383) with (v + (32 * a + 128) * 2 ^ 376) by lia. rewrite Z.div_add by lia. lia. }
  rewrite E1, Z.mod_small by lia.
  assert (E2 : be_bytes 47 (v + a * 2 ^ 381 + 2 ^ 383) = be_bytes 47 v).
  { rewrite <- (be_bytes_mod 47 (v + a * 2 ^ 381 + 2 ^ 383)), <- (be_bytes_mod 47 v). f_equal.
    change (256 ^ Z.of_nat 47) with (2 ^ 376). replace (v + a * 2 ^ 381 + 2 ^ 383) with (v + (32 * a + 128) * 2 ^ 376) by lia.
    apply Z.mod_add. lia. }
  rewrite E2. reflexivity.
Qed.
Lemma firstn_app_len {A} (a b : list A) n : length a = n -> firstn n (a ++ b) = a.
Proof. intros <-. rewrite firstn_app, firstn_all, Nat.sub_diag, firstn_O, app_nil_r. reflexivity. Qed.
Lemma skipn_app_len {A} (a b : list A) n : length a = n -> skipn n (a ++ b) = b.
Proof. intros <-. rewrite skipn_app, skipn_all, Nat.sub_diag, skipn_O. reflexivity. Qed.
Lemma frombytes_rep bs : bytes bs -> length bs = 48%nat -> ok (big_frombytes bs) (fun r => rep 7 r (be_int bs)).
Proof.
  intros B L. eapply ok_impl; [apply big_frombytes_spec; [exact B|lia]|]. intros r R. rewrite firstn_all2 in R by lia. exact R.
Qed.
Lemma be_int_48 v : 0 <= v < 2 ^ 384 -> be_int (be_bytes 48 v) = v.
Proof. intros V. rewrite be_int_bytes. change (256 ^ Z.of_nat 48) with (2 ^ 384). apply Z.mod_small, V. Qed.
Lemma q381_b381 : q381 < 2 ^ 381. Proof. apply q381_lt. Qed.

Lemma ok_eq {A} (m : option A) P : ok m P -> ok m (fun a => P a /\ m = Some a).
Proof. destruct m; cbn [ok]; [auto|contradiction]. Qed.
Lemma ecp_tobytes_ok l E x y a : ecpR l E (Aff x y) a -> 1 <= l <= 8 -> E <= 33554432 ->
  ok (ecp_tobytes a) (fun '(bs, a') => (ecpA l E (Aff x y) a' /\ ecp_affine a = Some a') /\
    bs = 4 :: be_bytes 48 (rval x (ex a')) ++ be_bytes 48 (fv y)).
Proof.
  intros H L HE. pose proof H as (ON & _). unfold ecp_tobytes.
  eapply ok_bind; [apply ok_eq; eapply ecp_affine_ok; [exact H|lia|lia]|]. intros a' A'. pose proof A' as ((_ & AX & AY & AZ) & _).
  eapply ok_bind; [apply (fp_redc_exact l E x (ex a') AX); lia|]. intros wx WX.
  rewrite (big_tobytes_rep _ _ WX). cbn [bind].
  eapply ok_bind; [apply (fp_redc_exact l E y (ey a') AY); lia|]. intros wy WY.
  rewrite (big_tobytes_rep _ _ WY). cbn [bind ok]. split; [exact A'|].
  rewrite (rval_nz y) by (eapply on1_y; exact ON). reflexivity.
Qed.
(* the 48 bytes compress_g1 writes *)
Definition g1_inf_bytes : list Z := be_bytes 48 (2 ^ 383 + 2 ^ 382).
Lemma compress_g1_ok l E p a : ecpR l E p a -> 1 <= l <= 8 -> E <= 33554432 ->
  ok (compress_g1 a) (fun '(bs, a') => match p with
    | Inf => bs = g1_inf_bytes /\ a' = a
    | Aff x y => (ecpA l E p a' /\ ecp_affine a = Some a') /\ bs = be_bytes 48 (rval x (ex a') + a_flag_code (fv y) * 2 ^ 381 + 2 ^ 383)
    end).
Proof.
  intros H L HE. unfold compress_g1.
  eapply ok_bind; [eapply (ecp_is_infinity_ok l E); [exact H|lia|lia]|]. intros b B. destruct b.
  - destruct B as [B _]. rewrite (B eq_refl). cbn [ok]. split; [vm_compute; reflexivity|reflexivity].
  - destruct p as [|x y]; [destruct B as [_ B]; discriminate (B eq_refl)|]. clear B.
    eapply ok_bind; [apply (ecp_tobytes_ok l E x y a H L HE)|]. intros [bs a'] [A' ->].
    change (skipn 1 (4 :: be_bytes 48 (rval x (ex a')) ++ be_bytes 48 (fv y))) with (be_bytes 48 (rval x (ex a')) ++ be_bytes 48 (fv y)).
    change (skipn 49 (4 :: be_bytes 48 (rval x (ex a')) ++ be_bytes 48 (fv y))) with (skipn 48 (be_bytes 48 (rval x (ex a')) ++ be_bytes 48 (fv y))).
    rewrite firstn_app_len, skipn_app_len by apply be_bytes_length.
    eapply ok_bind; [apply frombytes_rep; [apply be_bytes_bytes|apply be_bytes_length]|]. intros w W.
    pose proof (fv_range y) as FY. pose proof q381_b381 as QB. rewrite be_int_48 in W by lia.
    rewrite (calc_a_flag_ok w (fv y) W) by lia. cbn [bind].
    pose proof (rval_range x (ex a')) as RX.
    pose proof (set_flags_ok (rval x (ex a')) (a_flag_code (fv y)) 47 ltac:(lia) (a_flag_01 _) ltac:(lia) [] eq_refl) as SF.
    rewrite !app_nil_r in SF. rewrite SF. cbn [bind ok]. split; [exact A'|reflexivity].
Qed.

(* ------------------------- decompression ------------------------------ *)
(* normalising a key with z = 1 does not touch its coordinates *)
Lemma ecp_affine_F E x y a : ecpF E x y a -> on1 (Aff x y) -> 2 <= E <= 33554432 ->
  ok (ecp_affine a) (fun a' => ex a' = ex a /\ ey a' = ey a /\ fpC f1 (ez a')).
Proof.
  intros H ON HE. pose proof (ecpF_R E x y a ltac:(lia) ON H) as R. destruct H as (A & B & C). unfold ecp_affine.
  eapply ok_bind; [eapply (ecp_is_infinity_ok 1 E); [exact R|lia|lia]|]. intros b I. destruct b.
  { destruct I as [I _]. discriminate (I eq_refl). }
  eapply ok_bind; [apply (fp_new_int_ok 1); lia|]. intros o O1. change (mkq 1) with f1 in O1.
  eapply ok_bind; [eapply fp_equals_ok; [exact C|exact O1|lia..]|]. intros [[e z] o'] (EX & Z1 & _).
  destruct e; [|destruct EX as [_ EX]; discriminate (EX eq_refl)].
  cbn [ok ex ey ez]. split; [reflexivity|]. split; [reflexivity|exact Z1].
Qed.
Lemma be_int_cons b tl : be_int (b :: tl) = b * 256 ^ Z.of_nat (length tl) + be_int tl.
Proof. change (b :: tl) with ([b] ++ tl). rewrite be_int_app. unfold be_int at 1. cbn [fold_left]. lia. Qed.
Lemma be_int_zero tl : bytes tl -> (forallb (fun b => b =? 0) tl = true <-> be_int tl = 0).
Proof.
  induction tl as [|b tl IH]; intros B; [split; reflexivity|]. apply Forall_cons_iff in B. destruct B as [B0 B].
  rewrite be_int_cons. cbn [forallb]. rewrite andb_true_iff, (IH B), Z.eqb_eq.
  pose proof (be_int_range tl B) as R. assert (0 < 256 ^ Z.of_nat (length tl)) by (apply Z.pow_pos_nonneg; lia). nia.
Qed.
(* the flag bits of the first byte, as arithmetic on the whole integer *)
Lemma flags_arith n b0 t : 0 <= n -> 0 <= b0 < 256 -> 0 <= t < 2 ^ n -> let v := b0 * 2 ^ n + t in
  b0 / 128 = v / 2 ^ (n + 7) /\ b0 mod 128 / 64 = (v / 2 ^ (n + 6)) mod 2 /\ b0 mod 64 / 32 = (v / 2 ^ (n + 5)) mod 2 /\
  b0 mod 32 * 2 ^ n + t = v mod 2 ^ (n + 5) /\ b0 mod 64 * 2 ^ n + t = v mod 2 ^ (n + 6).
Proof.
  intros N B T v. assert (P : 0 < 2 ^ n) by (apply Z.pow_pos_nonneg; lia).
  rewrite !Z.pow_add_r by lia. change (2 ^ 5) with 32. change (2 ^ 6) with 64. change (2 ^ 7) with 128.
  set (P2 := 2 ^ n) in *. clearbody P2.
  assert (V0 : v / P2 = b0) by (unfold v; rewrite Z.div_add_l by lia; rewrite Z.div_small by lia; lia).
  rewrite <- !Z.div_div by lia. rewrite V0. split; [reflexivity|].
  assert (VM : v mod P2 = t) by (unfold v; rewrite Z.add_comm, Z.mod_add by lia; apply Z.mod_small; lia).
  split; [clear -B; mlia|]. split; [clear -B; mlia|]. rewrite !Z.rem_mul_r by lia. rewrite V0, VM. split; ring.
Qed.
Definition dec_y1 (x : Fq) (f : Z) : Fq :=
  let s := fsqrt (rhs1 x) in if a_flag_code (fv s) =? f then s else fopp s.
Lemma dec_y1_on x f : is_sq (rhs1 x) -> on1 (Aff x (dec_y1 x f)).
Proof.
  intros H. pose proof (fsqrt_on x H) as ON. unfold dec_y1. destruct (_ =? _); [exact ON|].
  apply (pneg1_on (Aff x (fsqrt (rhs1 x)))). exact ON.
Qed.
Lemma decompress_g1_len bs : length bs <> 48%nat -> decompress_g1 bs = Some (Err IncorrectSize).
Proof. intros L. unfold decompress_g1. apply Nat.eqb_neq in L. rewrite L. reflexivity. Qed.
Lemma decompress_g1_ok bs v x : bytes bs -> length bs = 48%nat -> v = be_int bs -> x = mkq (v mod 2 ^ 381) ->
  ok (decompress_g1 bs) (fun r =>
    (v / 2 ^ 383 <> 1 -> r = Err InvalidCFlag) /\
    (v / 2 ^ 383 = 1 -> (v / 2 ^ 382) mod 2 = 1 -> v mod 2 ^ 382 <> 0 -> r = Err BadPoint) /\
    (v / 2 ^ 383 = 1 -> (v / 2 ^ 382) mod 2 = 1 -> v mod 2 ^ 382 = 0 -> exists a, r = Ok a /\ ecpR 1 2 Inf a) /\
    (v / 2 ^ 383 = 1 -> (v / 2 ^ 382) mod 2 <> 1 -> ~ is_sq (rhs1 x) -> r = Err BadPoint) /\
    (v / 2 ^ 383 = 1 -> (v / 2 ^ 382) mod 2 <> 1 -> is_sq (rhs1 x) -> exists a, r = Ok a /\
       ecpF 3 x (dec_y1 x ((v / 2 ^ 381) mod 2)) a /\ (lval (fx (ex a)) = 0 <-> v mod 2 ^ 381 = 0))).
Proof.
  intros B L V X. unfold decompress_g1. rewrite L. change (negb (48 =? 48)%nat) with false. cbv iota.
  destruct bs as [|b0 tl]; [discriminate L|]. pose proof B as B'. apply Forall_cons_iff in B'. destruct B' as [B0 BT].
  cbn [length] in L. assert (LT : length tl = 47%nat) by lia.
  pose proof (be_int_range tl BT) as RT. rewrite LT in RT. change (256 ^ Z.of_nat 47) with (2 ^ 376) in RT.
  assert (VE : v = b0 * 2 ^ 376 + be_int tl) by (rewrite V, be_int_cons, LT; reflexivity).
  pose proof (flags_arith 376 b0 (be_int tl) ltac:(lia) B0 RT) as FA. cbv zeta in FA. rewrite <- VE in FA.
  change (376 + 7) with 383 in FA. change (376 + 6) with 382 in FA. change (376 + 5) with 381 in FA.
  destruct FA as (F1 & F2 & F3 & F4 & F5). cbv zeta. rewrite F1, F2, F3.
  destruct (Z.eqb_spec (v / 2 ^ 383) 1) as [C1|C1]; cbn [negb ok].
  2:{ split; [reflexivity|]. repeat split; intros; contradiction. }
  destruct (Z.eqb_spec ((v / 2 ^ 382) mod 2) 1) as [C2|C2].
  - assert (ZT : v mod 2 ^ 382 = 0 <-> ((v / 2 ^ 381) mod 2 = 0 /\ b0 mod 32 = 0) /\ be_int tl = 0).
    { rewrite <- F5, <- F3. clear -RT B0. mlia. }
    destruct (Z.eqb_spec ((v / 2 ^ 381) mod 2) 0) as [C3|C3]; cbn [negb orb ok].
    2:{ split; [intros; contradiction|]. split; [reflexivity|]. split; [intros _ _ G; apply ZT in G; lia|]. split; intros; contradiction. }
    destruct (Z.eqb_spec (b0 mod 32) 0) as [C4|C4]; cbn [negb orb ok].
    2:{ split; [intros; contradiction|]. split; [reflexivity|]. split; [intros _ _ G; apply ZT in G; lia|]. split; intros; contradiction. }
    pose proof (be_int_zero tl BT) as BZ. destruct (forallb (fun b => b =? 0) tl); cbn [negb ok].
    + eapply ok_bind; [apply ecp_new_ok|]. intros a A. cbn [ok]. split; [intros; contradiction|].
      split; [intros _ _ G; exfalso; apply G, ZT; split; [split; assumption|apply BZ; reflexivity]|].
      split; [intros; exists a; split; [reflexivity|exact A]|]. split; intros; contradiction.
    + split; [intros; contradiction|]. split; [reflexivity|]. split; [|split; intros; contradiction].
      intros _ _ G. apply ZT in G. destruct G as [_ G]. apply BZ in G. discriminate.
  - assert (BM : bytes (b0 mod 32 :: tl)) by (apply Forall_cons; [pose proof (Z.mod_pos_bound b0 32 ltac:(lia)); lia|exact BT]).
    eapply ok_bind; [apply frombytes_rep; [exact BM|cbn [length]; lia]|]. intros w W.
    rewrite be_int_cons, LT in W. change (256 ^ Z.of_nat 47) with (2 ^ 376) in W. rewrite F4 in W.
    eapply ok_bind; [apply (ecp_new_big_ok w _ W)|]. intros a [A1 A2]. rewrite <- X in A1, A2.
    assert (DS : is_sq (rhs1 x) \/ ~ is_sq (rhs1 x)).
    { pose proof (sq_cases (rhs1 x)) as SC. pose proof (sq_not_both (rhs1 x) (rhs1_nz x)) as SN. tauto. }
    destruct DS as [SQ|NS].
    + destruct (A1 SQ) as [AF AZ]. pose proof (fsqrt_on x SQ) as ON.
      eapply ok_bind; [eapply (ecp_is_infinity_ok 1 2); [eapply ecpF_R; [lia|exact ON|exact AF]|lia|lia]|].
      intros b I. destruct b; [destruct I as [I _]; discriminate (I eq_refl)|].
      unfold ecp_gety. rewrite bind_assoc.
      eapply ok_bind; [eapply (ecp_affine_F 2); [exact AF|exact ON|lia]|]. intros a' (E1 & E2 & E3).
      destruct AF as (X1 & Y1 & Z1). rewrite <- E1 in X1. rewrite <- E2 in Y1. rewrite <- E1 in AZ.
      rewrite bind_assoc. eapply ok_bind; [apply (fp_redc_exact 1 2 _ (ey a') Y1); lia|]. intros wy WY. cbn [bind].
      rewrite (rval_nz (fsqrt (rhs1 x))) in WY by (eapply on1_y; exact ON).
      pose proof (fv_range (fsqrt (rhs1 x))) as FR. pose proof q381_b381 as QB.
      rewrite (calc_a_flag_ok wy _ WY) by lia. cbn [bind].
      set (f := (v / 2 ^ 381) mod 2) in *. pose proof (eq_refl (dec_y1 x f)) as DY. unfold dec_y1 at 2 in DY. cbv zeta in DY.
      set (s := fsqrt (rhs1 x)) in *.
      assert (CONC : forall a2, ecpF 3 x (dec_y1 x f) a2 -> ex a2 = ex a' -> ok (Some (Ok a2)) (fun r =>
        (v / 2 ^ 383 <> 1 -> r = Err InvalidCFlag) /\
        (v / 2 ^ 383 = 1 -> (v / 2 ^ 382) mod 2 = 1 -> v mod 2 ^ 382 <> 0 -> r = Err BadPoint) /\
        (v / 2 ^ 383 = 1 -> (v / 2 ^ 382) mod 2 = 1 -> v mod 2 ^ 382 = 0 -> exists a, r = Ok a /\ ecpR 1 2 Inf a) /\
        (v / 2 ^ 383 = 1 -> (v / 2 ^ 382) mod 2 <> 1 -> ~ is_sq (rhs1 x) -> r = Err BadPoint) /\
        (v / 2 ^ 383 = 1 -> (v / 2 ^ 382) mod 2 <> 1 -> is_sq (rhs1 x) -> exists a, r = Ok a /\
          ecpF 3 x (dec_y1 x f) a /\ (lval (fx (ex a)) = 0 <-> v mod 2 ^ 381 = 0)))).
      { intros a2 F EX2. cbn [ok]. split; [intros; contradiction|]. split; [intros; contradiction|]. split; [intros; contradiction|].
        split; [intros; contradiction|]. intros _ _ _. exists a2. split; [reflexivity|]. split; [exact F|]. rewrite EX2. exact AZ. }
      destruct (Z.eqb_spec (a_flag_code (fv s)) f) as [FE|FE]; cbn [negb].
      * apply CONC; [|reflexivity]. rewrite DY. split; [eapply fpR_weak; [exact X1|lia|lia]|].
        split; [eapply fpR_weak; [exact Y1|lia|lia]|]. apply fpC_R in E3. eapply fpR_weak; [exact E3|lia|lia].
      * unfold ecp_neg. rewrite !bind_assoc. eapply ok_bind; [apply (fp_neg_ok 1 2 _ (ey a') Y1); lia|]. intros ny NY.
        rewrite !bind_assoc. eapply ok_bind; [eapply fp_norm_ok; [exact NY|lia|lia]|]. intros nn NN. cbn [bind].
        apply CONC; [|reflexivity]. rewrite DY. split; [cbn [ex]; eapply fpR_weak; [exact X1|lia|lia]|].
        split; [cbn [ey]; eapply fpR_weak; [exact NN|lia|lia]|]. cbn [ez]. apply fpC_R in E3. eapply fpR_weak; [exact E3|lia|lia].
    + pose proof (A2 NS) as AI. eapply ok_bind; [eapply (ecp_is_infinity_ok 1 2); [exact AI|lia|lia]|].
      intros b I. destruct b; [|destruct I as [_ I]; discriminate (I eq_refl)]. cbn [ok].
      split; [intros; contradiction|]. split; [intros; contradiction|]. split; [intros; contradiction|].
      split; [reflexivity|]. intros; contradiction.
Qed.

(* ------------------------- uncompressed codec ------------------------- *)
Lemma ecp_affine_A l E x y a : ecpA l E (Aff x y) a -> 1 <= l <= 8 -> 1 <= E <= 33554432 ->
  ok (ecp_affine a) (fun a' => ex a' = ex a /\ ey a' = ey a /\ fpC f1 (ez a')).
Proof.
  intros H HL HE. pose proof (ecpA_R l E _ a ltac:(lia) ltac:(lia) H) as R. destruct H as (ON & A & B & C). unfold ecp_affine.
  eapply ok_bind; [eapply (ecp_is_infinity_ok l E); [exact R|lia|lia]|]. intros b I. destruct b.
  { destruct I as [I _]. discriminate (I eq_refl). }
  eapply ok_bind; [apply (fp_new_int_ok 1); lia|]. intros o O1. change (mkq 1) with f1 in O1. apply fpC_R in C.
  eapply ok_bind; [eapply fp_equals_ok; [exact C|exact O1|lia..]|]. intros [[e z] o'] (EX & Z1 & _).
  destruct e; [|destruct EX as [_ EX]; discriminate (EX eq_refl)].
  cbn [ok ex ey ez]. split; [reflexivity|]. split; [reflexivity|exact Z1].
Qed.
Lemma pk_as_unc_ok l E p a : ecpR l E p a -> 1 <= l <= 8 -> E <= 33554432 ->
  ok (pk_as_uncompressed_bytes a) (fun '(bs, a2) => match p with
    | Inf => bs = be_bytes 96 0 /\ a2 = a
    | Aff x y => exists a', (ecpA l E p a' /\ ecp_affine a = Some a') /\ ecpA l E p a2 /\ ex a2 = ex a' /\
        bs = be_bytes 48 (rval x (ex a')) ++ be_bytes 48 (fv y)
    end).
Proof.
  intros H L HE. unfold pk_as_uncompressed_bytes.
  eapply ok_bind; [eapply (ecp_is_infinity_ok l E); [exact H|lia|lia]|]. intros b B. destruct b.
  - destruct B as [B _]. rewrite (B eq_refl). cbn [ok]. split; [vm_compute; reflexivity|reflexivity].
  - destruct p as [|x y]; [destruct B as [_ B]; discriminate (B eq_refl)|]. clear B.
    assert (1 <= E) by (destruct H as (_ & X & Y & Z & H & _); destruct H as (_ & _ & _ & H & _); lia).
    unfold ecp_getx. rewrite !bind_assoc.
    eapply ok_bind; [apply ok_eq; eapply ecp_affine_ok; [exact H|lia|lia]|]. intros a' A'. pose proof A' as ((ON & AX & AY & AZ) & _).
    rewrite !bind_assoc. eapply ok_bind; [apply (fp_redc_exact l E x (ex a') AX); lia|]. intros wx WX. cbn [bind].
    rewrite (big_tobytes_rep _ _ WX). cbn [bind]. unfold ecp_gety. rewrite !bind_assoc.
    eapply ok_bind; [eapply (ecp_affine_A l E); [exact (proj1 A')|lia|lia]|]. intros a2 (E1 & E2 & E3).
    rewrite <- E2 in AY. rewrite !bind_assoc.
    eapply ok_bind; [apply (fp_redc_exact l E y (ey a2) AY); lia|]. intros wy WY. cbn [bind].
    rewrite (big_tobytes_rep _ _ WY). cbn [bind ok]. exists a'. split; [exact A'|].
    split; [split; [exact ON|]; split; [rewrite E1; exact AX|]; split; [exact AY|exact E3]|].
    split; [exact E1|]. rewrite (rval_nz y) by (eapply on1_y; exact ON). reflexivity.
Qed.
Lemma on1_dec p : on1 p \/ ~ on1 p.
Proof.
  destruct p as [|x y]; [left; exact I|]. unfold on1, on_curve. destruct (Fq_dec (fmul y y) (fadd (fmul (fmul x x) x) fb)); auto.
Qed.
Lemma bytes_firstn n bs : bytes bs -> bytes (firstn n bs).
Proof. intros B. unfold bytes in *. rewrite Forall_forall in *. intros z I. apply B. rewrite <- (firstn_skipn n bs). apply in_or_app. auto. Qed.
Lemma bytes_skipn n bs : bytes bs -> bytes (skipn n bs).
Proof. intros B. unfold bytes in *. rewrite Forall_forall in *. intros z I. apply B. rewrite <- (firstn_skipn n bs). apply in_or_app. auto. Qed.
Lemma pk_from_unc_len bs : length bs <> 96%nat -> pk_from_uncompressed_bytes bs = Some (Err IncorrectSize).
Proof. intros L. unfold pk_from_uncompressed_bytes. apply Nat.eqb_neq in L. rewrite L. reflexivity. Qed.
Lemma pk_from_unc_ok bs u v : bytes bs -> length bs = 96%nat -> u = be_int (firstn 48 bs) -> v = be_int (skipn 48 bs) ->
  ok (pk_from_uncompressed_bytes bs) (fun r =>
    (u = 0 /\ v = 0 -> exists a, r = Ok a /\ ecpR 1 2 Inf a) /\
    (~ (u = 0 /\ v = 0) -> ~ on1 (Aff (mkq u) (mkq v)) -> r = Err BadPoint) /\
    (~ (u = 0 /\ v = 0) -> on1 (Aff (mkq u) (mkq v)) -> exists a, r = Ok a /\ ecpF 2 (mkq u) (mkq v) a /\
       (lval (fx (ex a)) = 0 <-> u = 0))).
Proof.
  intros B L U V. unfold pk_from_uncompressed_bytes. rewrite L. change (negb (96 =? 96)%nat) with false. cbv iota.
  pose proof (bytes_firstn 48 bs B) as B1. pose proof (bytes_skipn 48 bs B) as B2.
  assert (L1 : length (firstn 48 bs) = 48%nat) by (rewrite firstn_length; lia).
  assert (L2 : length (skipn 48 bs) = 48%nat) by (rewrite skipn_length; lia).
  assert (BZ : forallb (fun b => b =? 0) bs = true <-> u = 0 /\ v = 0).
  { rewrite U, V, <- (be_int_zero _ B1), <- (be_int_zero _ B2), <- andb_true_iff, <- forallb_app, firstn_skipn. reflexivity. }
  destruct (forallb (fun b => b =? 0) bs).
  - pose proof (proj1 BZ eq_refl) as Z0. eapply ok_bind; [apply ecp_new_ok|]. intros a A. cbn [ok].
    split; [intros _; exists a; split; [reflexivity|exact A]|]. split; intros; contradiction.
  - assert (N0 : ~ (u = 0 /\ v = 0)) by (intros G; apply BZ in G; discriminate).
    eapply ok_bind; [apply (frombytes_rep _ B1 L1)|]. intros wx WX. rewrite <- U in WX.
    eapply ok_bind; [apply (frombytes_rep _ B2 L2)|]. intros wy WY. rewrite <- V in WY.
    eapply ok_bind; [apply (ecp_new_bigs_ok wx wy u v WX WY)|]. intros a [A1 A2].
    destruct (on1_dec (Aff (mkq u) (mkq v))) as [ON|NO].
    + destruct (A1 ON) as (AF & AZ & _).
      eapply ok_bind; [eapply (ecp_is_infinity_ok 1 2); [eapply ecpF_R; [lia|exact ON|exact AF]|lia|lia]|].
      intros b I. destruct b; [destruct I as [I _]; discriminate (I eq_refl)|]. cbn [ok].
      split; [intros; contradiction|]. split; [intros; contradiction|]. intros _ _. exists a. split; [reflexivity|].
      split; [exact AF|exact AZ].
    + eapply ok_bind; [eapply (ecp_is_infinity_ok 1 2); [exact (A2 NO)|lia|lia]|].
      intros b I. destruct b; [|destruct I as [_ I]; discriminate (I eq_refl)]. cbn [ok].
      split; [intros; contradiction|]. split; [reflexivity|]. intros; contradiction.
Qed.
