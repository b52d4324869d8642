(* FP2::sqrt: finds a root of every square except the reals that are not
   squares of reals. *)
From Coq Require Import ZArith List Bool Lia Znumtheory Field.
From Verif Require Import Prim Rom Big Fp Fp2 PrimP BigP BigP2 BigP3 BigP4 NumT FieldQ FieldQ2 FpP FpP2 JacobiM JacP Fp2P.
Import ListNotations.
Open Scope Z_scope.

Lemma sq_cases_gen n h k x : n = q381 -> n = 2 * h + 1 -> h = 2 * k + 1 -> 0 <= k -> is_sq x \/ is_sq (fopp x).
Proof.
  intros NQ NH HK K. destruct (Fq_dec x f0) as [->|X]; [left; exists f0; ring|].
  assert (F : fmul (fpw x h) (fpw x h) = f1).
  { rewrite <- fpw_add by lia. replace (h + h) with (q381 - 1) by lia. apply fpw_fermat, X. }
  assert (R : forall y, fpw y h = f1 -> is_sq y).
  { intros y Y. exists (fpw y (k + 1)). rewrite <- fpw_add by lia. replace (k + 1 + (k + 1)) with (1 + h) by lia.
    rewrite fpw_add, fpw_1, Y by lia. ring. }
  assert (P : fmul (fsub (fpw x h) f1) (fadd (fpw x h) f1) = f0).
  { assert (E : fmul (fsub (fpw x h) f1) (fadd (fpw x h) f1) = fsub (fmul (fpw x h) (fpw x h)) f1) by ring. rewrite E, F. ring. }
  apply fq_integral in P. destruct P as [P|P].
  - left. apply R. apply fsub_eq0. exact P.
  - right. apply R. assert (E : fopp x = fmul (fopp f1) x) by ring. rewrite E, fpw_mul_base, HK, fpw_opp1_odd, <- HK by lia.
    assert (E2 : fmul (fopp f1) (fpw x h) = fsub f1 (fadd (fpw x h) f1)) by ring. rewrite E2, P. ring.
Qed.
Lemma sq_cases x : is_sq x \/ is_sq (fopp x).
Proof.
  pose proof q381_mod4 as M. pose proof q381_pos as P.
  apply (sq_cases_gen q381 ((q381 - 1) / 2) (q381 / 4)); [reflexivity| | |].
  - mlia.
  - mlia.
  - apply Z.div_pos; lia.
Qed.
(* not both, except for zero *)
Lemma sq_not_both x : x <> f0 -> is_sq x -> is_sq (fopp x) -> False.
Proof.
  intros X [y Y] [z Zz]. assert (Y0 : y <> f0) by (intros ->; apply X; rewrite Y; ring).
  apply (neg1_nonsquare (fdiv z y)). transitivity (fdiv (fmul z z) (fmul y y)); [field; exact Y0|].
  rewrite <- Zz, <- Y. field. exact X.
Qed.
Lemma sq_mul x y : is_sq x -> is_sq y -> is_sq (fmul x y).
Proof. intros [a ->] [b ->]. exists (fmul a b). ring. Qed.
Lemma sq_inv x : x <> f0 -> is_sq x -> is_sq (finv x).
Proof. intros X [a E]. exists (finv a). rewrite E. field. intros ->. apply X. rewrite E. ring. Qed.
Lemma sq_div_r x y : y <> f0 -> is_sq y -> is_sq (fmul x y) -> is_sq x.
Proof.
  intros Y SY SXY. assert (E : x = fmul (fmul x y) (finv y)) by (field; exact Y). rewrite E.
  apply sq_mul; [exact SXY|apply sq_inv; assumption].
Qed.

(* the value fp_sqrt computes, a root when there is one *)
Definition fsqrt (x : Fq) : Fq := fpw x qp14.
Lemma fsqrt_sq x : is_sq x -> fmul (fsqrt x) (fsqrt x) = x.
Proof. intros [y ->]. apply sqrt_square. Qed.

Definition is_sq2 (x : Fq2) : Prop := exists y, x = gmul y y.
Definition ftwo : Fq := mkq 2.
Lemma ftwo_nz : ftwo <> f0. Proof. unfold ftwo, f0. intros E. apply mkq_inj in E. vm_compute in E. discriminate. Qed.
Lemma ftwo_eq : ftwo = fadd f1 f1. Proof. unfold ftwo, f1. rewrite <- mkq_add. reflexivity. Qed.

Lemma sqrt2_norm x : is_sq2 x -> is_sq (gnorm x).
Proof. intros [y ->]. exists (gnorm y). apply gnorm_mul. Qed.

(* success branch: s = (a + w)/2 is a nonzero square, w^2 = a^2+b^2 *)
Lemma sqrt2_root_gen t a b w r s : t <> f0 -> fmul w w = fadd (fmul a a) (fmul b b) -> s = fdiv (fadd a w) t -> s <> f0 -> fmul r r = s ->
  fadd a a = fmul t a ->
  fsub (fmul r r) (fmul (fmul b (finv (fmul t r))) (fmul b (finv (fmul t r)))) = a /\
  fmul t (fmul r (fmul b (finv (fmul t r)))) = b.
Proof.
  intros T W E S0 R TA. assert (R0 : r <> f0) by (intros ->; apply S0; rewrite <- R; ring).
  assert (E2 : fmul t (fmul r r) = fadd a w) by (rewrite R, E; field; exact T).
  split.
  - apply (fcancel _ _ (fmul (fmul t t) (fmul r r))).
    { intros C. apply fq_integral in C. destruct C as [C|C]; apply fq_integral in C; destruct C; contradiction. }
    transitivity (fsub (fmul (fmul t (fmul r r)) (fmul t (fmul r r))) (fmul b b)); [field; split; assumption|].
    transitivity (fmul (fmul t a) (fmul t (fmul r r))); [|ring].
    rewrite !E2, <- TA. assert (W2 : fmul b b = fsub (fmul w w) (fmul a a)) by (rewrite W; ring). rewrite W2. ring.
  - field. split; assumption.
Qed.
Lemma fdbl x : fadd x x = fmul ftwo x.
Proof. rewrite ftwo_eq. ring. Qed.
Lemma sqrt2_root a b w r s : fmul w w = fadd (fmul a a) (fmul b b) -> s = fdiv (fadd a w) ftwo -> s <> f0 -> fmul r r = s ->
  gmul (r, fmul b (finv (fadd r r))) (r, fmul b (finv (fadd r r))) = (a, b).
Proof.
  intros W E S0 R. destruct (sqrt2_root_gen ftwo a b w r s ftwo_nz W E S0 R (fdbl a)) as [H1 H2].
  rewrite fdbl. unfold gmul. cbn [fst snd]. rewrite H1. f_equal.
  set (u := fmul b (finv (fmul ftwo r))) in *. clearbody u. transitivity (fadd (fmul r u) (fmul r u)); [ring|].
  rewrite fdbl. exact H2.
Qed.
(* the two candidates *)
Lemma sqrt2_cand a b w : fmul w w = fadd (fmul a a) (fmul b b) ->
  fmul (fdiv (fadd a w) ftwo) (fdiv (fsub a w) ftwo) = fopp (fmul (fdiv b ftwo) (fdiv b ftwo)).
Proof.
  intros W. pose proof ftwo_nz as T. set (t := ftwo) in *. clearbody t.
  assert (W2 : fmul b b = fsub (fmul w w) (fmul a a)) by (rewrite W; ring).
  transitivity (fdiv (fsub (fmul a a) (fmul w w)) (fmul t t)); [field; exact T|].
  transitivity (fdiv (fopp (fmul b b)) (fmul t t)); [rewrite W2; field; exact T|field; exact T].
Qed.

Lemma half_of x : fdiv (fmul ftwo x) ftwo = x.
Proof. pose proof ftwo_nz as T. set (t := ftwo) in *. clearbody t. field. exact T. Qed.
Definition root_like (x : Fq2) : Prop := is_sq2 x /\ (snd x = f0 -> is_sq (fst x)).
(* the candidates decide the outcome *)
Lemma sqrt2_fail a b w : fmul w w = fadd (fmul a a) (fmul b b) -> w <> f0 ->
  ~ (fdiv (fadd a w) ftwo <> f0 /\ is_sq (fdiv (fadd a w) ftwo)) ->
  ~ (fdiv (fsub a w) ftwo <> f0 /\ is_sq (fdiv (fsub a w) ftwo)) ->
  ~ root_like (a, b).
Proof.
  intros W W0 N1 N2 [SQ RE]. cbn [fst snd] in RE. pose proof ftwo_nz as T.
  destruct (Fq_dec b f0) as [B0|B0].
  - specialize (RE B0). subst b.
    assert (P : fmul (fsub w a) (fadd w a) = f0).
    { assert (E : fmul (fsub w a) (fadd w a) = fsub (fmul w w) (fmul a a)) by ring. rewrite E, W. ring. }
    apply fq_integral in P. destruct P as [P|P].
    + apply fsub_eq0 in P. subst w. apply N1. rewrite fdbl, half_of. split; assumption.
    + assert (E : w = fopp a) by (apply fsub_eq0; assert (E : fsub w (fopp a) = fadd w a) by ring; rewrite E; exact P).
      subst w. apply N2. assert (E2 : fsub a (fopp a) = fmul ftwo a) by (rewrite <- fdbl; ring). rewrite E2, half_of.
      split; [|exact RE]. intros ->. apply W0. ring.
  - pose proof (sqrt2_cand a b w W) as C. set (s := fdiv (fadd a w) ftwo) in *. set (d := fdiv (fsub a w) ftwo) in *.
    set (h := fdiv b ftwo) in *.
    assert (H0 : h <> f0).
    { intros E. apply B0. rewrite <- (half_of b). unfold h in E. transitivity (fmul ftwo (fdiv b ftwo)).
      - clear - T. set (t := ftwo) in *. clearbody t. field. exact T.
      - rewrite E. ring. }
    assert (HH : fmul h h <> f0) by (intros E; apply fq_integral in E; tauto).
    assert (HS : is_sq (fmul h h)) by (exists h; reflexivity).
    assert (SD : fmul s d <> f0) by (rewrite C; intros E; apply fopp_eq0 in E; contradiction).
    assert (S0 : s <> f0) by (intros E; apply SD; rewrite E; ring).
    assert (D0 : d <> f0) by (intros E; apply SD; rewrite E; ring).
    destruct (sq_cases s) as [Q|Q]; [apply N1; split; assumption|].
    apply N2. split; [exact D0|].
    apply (sq_div_r d (fopp s)); [intros E; apply fopp_eq0 in E; contradiction|exact Q|].
    assert (E : fmul d (fopp s) = fmul h h).
    { assert (E : fmul d (fopp s) = fopp (fmul s d)) by ring. rewrite E, C. ring. }
    rewrite E. exact HS.
Qed.
Lemma root_real v a : gmul v v = (a, f0) -> fst v <> f0 -> is_sq a.
Proof.
  destruct v as [r u]. unfold gmul. cbn [fst snd]. intros E R0. apply pair_equal_spec in E. destruct E as [E1 E2].
  assert (E3 : fmul (fmul ftwo r) u = f0) by (rewrite <- E2, <- fdbl; ring).
  apply fq_integral in E3. destruct E3 as [E3|E3].
  - exfalso. apply fq_integral in E3. destruct E3 as [E3|E3]; [apply ftwo_nz in E3; exact E3|contradiction].
  - subst u. exists r. rewrite <- E1. ring.
Qed.

(* the root the exponentiation gives is itself a square *)
Lemma fsqrt_is_sq x : is_sq x -> is_sq (fsqrt x).
Proof. intros [y ->]. exists (fpw y qp14). unfold fsqrt. apply fpw_mul_base. Qed.
(* a product with a factor represented by 0 is represented by 0 *)
Lemma fp_mul_zero l m E F x y a b : fpR l E x a -> fpR m F y b -> 1 <= l <= 8 -> 1 <= m <= 8 -> fxes a * fxes b <= 33554432 ->
  ok (fp_mul a b) (fun c => lval (fx a) = 0 -> lval (fx c) = 0).
Proof.
  intros (A1 & A2 & A3 & A4 & A5) (B1 & B2 & B3 & B4 & B5) L M X. unfold fp_mul.
  assert (XP : 0 <= fxes a * fxes b) by (apply Z.mul_nonneg_nonneg; lia).
  pose proof (mul_val _ _ _ _ A3 B3 (conj XP X)) as V. pose proof q381_lt as QL.
  rewrite ck64_ok by lia. cbn [bind]. change FEXCESS with 33554432.
  destruct (Z.ltb_spec 33554432 (fxes a * fxes b)); [lia|]. cbn [bind].
  eapply ok_bind; [apply (big_mul_spec (fx a) (fx b) (2 ^ 61) (2 ^ 61)); auto; try lia; eapply lim_lb61; eauto|].
  intros d D. eapply ok_bind; [apply (modulo_ok d _ D); lia|]. intros r (R & Q & B & _). cbn [ok fx]. intros Z0.
  rewrite Z0, Z.mul_0_l in Q, B.
  destruct R as (_ & R2 & _). apply digs_val in R2.
  assert (E0 : mkq (lval r) = mkq 0) by (rewrite Q; change (mkq 0) with f0; ring).
  apply mkq_inj in E0. rewrite Z.mod_0_l, Z.mod_small in E0 by lia. exact E0.
Qed.
Lemma fpC_zero a : fpC f0 a -> lval (fx a) = 0.
Proof. intros ((_ & _ & V) & _). rewrite V. replace (fmul f0 (mkq (2 ^ 406))) with f0 by ring. apply fv_f0. Qed.
(* FP2::sqrt: answers true exactly on root_like elements, and then leaves the root
   whose real part is a square; an imaginary part 0 is left as the integer 0 *)
Lemma fp2_sqrt_ok l E x x0 : fp2R l E x x0 -> 1 <= l <= 31 -> E <= 33554432 ->
  ok (fp2_sqrt x0) (fun '(f, y) =>
    (f = true -> exists v, fp2R 1 2 v y /\ gmul v v = x /\ is_sq (fst v) /\ (snd v = f0 -> lval (fx (f2b y)) = 0)) /\ (f = false -> y = fp2_new) /\ (f = true <-> root_like x)).
Proof.
  intros H L HE. unfold fp2_sqrt.
  eapply ok_bind; [eapply fp2_iszilch_ok; [exact H|lia|lia]|]. intros [z a] [Z1 [A B]].
  destruct x as [xa xb]. cbn [fst snd] in A, B.
  destruct z.
  { assert (X0 : (xa, xb) = g0) by (apply Z1; reflexivity). cbn [ok]. split; [|split].
    - intros _. exists g0. split; [|split; [rewrite X0; g2; f_equal; ring|]].
      + apply pair_equal_spec in X0. destruct X0 as [-> ->]. split; cbn [g0 fst snd]; (eapply fpR_weak; [apply fpC_R; eassumption|lia|lia]).
      + split; [exists f0; cbn [g0 fst]; ring|]. intros _. apply pair_equal_spec in X0. destruct X0 as [_ ->]. apply fpC_zero. exact B.
    - discriminate.
    - split; [intros _|reflexivity]. apply pair_equal_spec in X0. destruct X0 as [-> ->]. split; [exists g0; g2; f_equal; ring|intros _; exists f0; cbn [fst]; ring]. }
  assert (X0 : (xa, xb) <> g0) by (intros C; apply Z1 in C; discriminate). clear Z1.
  pose proof B as BC. apply fpC_R in A, B.
  eapply ok_bind; [apply (fp_sqr_ok 1 1 xb); [exact B|lia|lia]|]. intros w1 W1.
  eapply ok_bind; [apply (fp_sqr_ok 1 1 xa); [exact A|lia|lia]|]. intros w2 W2.
  eapply ok_bind; [apply (fp_add_ok 1 1 2 2 _ _ w1 w2 W1 W2); lia|]. intros n N.
  change (1 + 1) with 2 in N. change (2 + 2) with 4 in N. 
  assert (NN : fadd (fmul xb xb) (fmul xa xa) = gnorm (xa, xb)) by (unfold gnorm; cbn [fst snd]; ring).
  rewrite NN in N. pose proof (gnorm_nz _ X0) as NZ.
  eapply ok_bind; [apply (fp_jacobi_ok 2 4 _ n N); lia|]. intros j (J1 & J0 & JC).
  destruct (Z.eqb_spec j 1) as [EJ|EJ]; cbn [negb].
  2:{ cbn [ok]. split; [discriminate|]. split; [reflexivity|]. split; [discriminate|]. intros [SQ _]. exfalso. apply EJ. apply J1.
      split; [exact NZ|apply sqrt2_norm, SQ]. }
  assert (SN : is_sq (gnorm (xa, xb))) by (apply J1; exact EJ).
  eapply ok_bind; [apply (fp_sqrt_ok 2 4 _ n N); lia|]. intros w W. fold (fsqrt (gnorm (xa, xb))) in W.
  pose proof (fsqrt_sq _ SN) as WW. set (wv := fsqrt (gnorm (xa, xb))) in *. clearbody wv. clear N J1 J0 JC EJ j.
  assert (WW2 : fmul wv wv = fadd (fmul xa xa) (fmul xb xb)) by (rewrite WW; unfold gnorm; cbn [fst snd]; reflexivity).
  assert (WV0 : wv <> f0) by (intros C; apply NZ; rewrite <- WW, C; ring).
  apply fpC_R in W.
  eapply ok_bind; [apply (fp_add_ok 1 1 1 1 _ _ _ _ A W); lia|]. intros s0 S0.
  eapply ok_bind; [apply (fp_norm_ok _ _ _ _ S0); lia|]. intros s1 S1.
  eapply ok_bind; [apply (fp_div2_ok _ _ _ S1); lia|]. intros s S2. fold ftwo in S2.
  change (1 + 1) with 2 in S2.
  eapply ok_bind; [apply (fp_jacobi_ok 1 2 _ s S2); lia|]. intros j (J1 & _ & _).
  set (sv := fdiv (fadd xa wv) ftwo) in *.
  set (dv := fdiv (fsub xa wv) ftwo) in *.
  eapply (ok_bind _ _ (fun s' => match s' with
    | Some t => exists tv, fpR 1 3 tv t /\ tv <> f0 /\ is_sq tv /\ (tv = sv \/ tv = dv)
    | None => ~ (sv <> f0 /\ is_sq sv) /\ ~ (dv <> f0 /\ is_sq dv) end)).
  { destruct (Z.eqb_spec j 1) as [EJ|EJ]; cbn [negb].
    - cbn [ok]. exists sv. apply J1 in EJ. destruct EJ. split; [eapply fpR_weak; [exact S2|lia|lia]|]. split; [assumption|]. split; [assumption|left; reflexivity].
    - eapply ok_bind; [apply (fp_sub_ok 1 1 1 1 _ _ _ _ A W); lia|]. intros d0 D0.
      eapply ok_bind; [apply (fp_norm_ok _ _ _ _ D0); lia|]. intros d1 D1.
      eapply ok_bind; [apply (fp_div2_ok _ _ _ D1); lia|]. intros d D2. fold ftwo in D2. fold dv in D2.
      eapply ok_bind; [apply (fp_jacobi_ok _ _ _ d D2); lia|]. intros j2 (JJ & _ & _).
      destruct (Z.eqb_spec j2 1) as [EJ2|EJ2]; cbn [negb ok].
      + exists dv. apply JJ in EJ2. destruct EJ2. split; [eapply fpR_weak; [exact D2|lia|lia]|]. split; [assumption|]. split; [assumption|right; reflexivity].
      + split; intros C; [apply EJ, J1, C|apply EJ2, JJ, C]. }
  intros [t|] T.
  - destruct T as (tv & TR & T0 & TS & TC).
    eapply ok_bind; [apply (fp_sqrt_ok _ _ _ t TR); lia|]. intros r R. fold (fsqrt tv) in R. apply fpC_R in R.
    pose proof (fsqrt_sq _ TS) as RR. pose proof (fsqrt_is_sq _ TS) as RS. set (rv := fsqrt tv) in *. clearbody rv.
    eapply ok_bind; [apply (fp_dbl_ok _ _ _ r R); lia|]. intros u U.
    eapply ok_bind; [apply (fp_inverse_ok _ _ _ u U); lia|]. intros v V. apply fpC_R in V.
    assert (XX : fxes (f2b a) * fxes v <= 33554432) by (destruct B as (_ & _ & _ & B4 & _), V as (_ & _ & _ & V4 & _); nia).
    eapply ok_bind; [apply ok_and; [apply (fp_mul_ok 1 1 1 1 _ _ _ _ B V); lia|apply (fp_mul_zero 1 1 1 1 _ _ _ _ B V); lia]|].
    intros m [M ME]. cbn [ok].
    assert (ROOT : gmul (rv, fmul xb (finv (fadd rv rv))) (rv, fmul xb (finv (fadd rv rv))) = (xa, xb)).
    { destruct TC as [TC|TC]; subst tv.
      - apply (sqrt2_root xa xb wv rv sv); [exact WW2|reflexivity|exact T0|exact RR].
      - apply (sqrt2_root xa xb (fopp wv) rv dv); [rewrite <- WW2; ring| |exact T0|exact RR].
        unfold dv. f_equal. ring. }
    split; [|split; [discriminate|]].
    + intros _. exists (rv, fmul xb (finv (fadd rv rv))). split; [|split; [exact ROOT|]].
      * split; cbn [f2a f2b fst snd]; [eapply fpR_weak; [exact R|lia|lia]|exact M].
      * split; [exact RS|]. cbn [f2b snd]. intros Z0.
        assert (R0 : rv <> f0) by (intros C2; apply T0; rewrite <- RR, C2; ring).
        assert (XB : xb = f0).
        { assert (N2 : fadd rv rv <> f0).
          { rewrite fdbl. intros C2. apply fq_integral in C2. destruct C2 as [C2|C2]; [exact (ftwo_nz C2)|contradiction]. }
          apply fq_integral in Z0. destruct Z0 as [Z0|Z0]; [exact Z0|]. exfalso. apply f1_neq_0.
          rewrite <- (Finv_l Fq_field _ N2), Z0. ring. }
        apply ME. rewrite XB in BC. apply fpC_zero. exact BC.
    + split; [intros _|reflexivity]. split; [exists (rv, fmul xb (finv (fadd rv rv))); symmetry; exact ROOT|].
      cbn [fst snd]. intros C. apply (root_real (rv, fmul xb (finv (fadd rv rv)))); [rewrite ROOT, C; reflexivity|].
      cbn [fst]. intros C2. apply T0. rewrite <- RR, C2. ring.
  - cbn [ok]. destruct T as [T1 T2]. split; [discriminate|]. split; [reflexivity|]. split; [discriminate|]. intros C.
    exfalso. apply (sqrt2_fail xa xb wv); assumption.
Qed.
