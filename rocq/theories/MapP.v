(* Hashing to the twist: the search for x, the choice of y and the cofactor. *)
From Coq Require Import ZArith List Bool Lia Znumtheory Field.
From Verif Require Import Prim Rom Big Fp Fp2 Ecp Ecp2 Utils Api PrimP BigP BigP2 SpecBytes BigP3 BigP4 BigP5 NumT FieldQ FieldQ2 FpP FpP2
  SpecCurve CurveP GroupP JacobiM JacP Fp2P Sqrt2P WinP EcpP Ecp2P EcpC Denote KeysP BigL LayerP Ecp2C Ecp2L.
Import ListNotations.
Open Scope Z_scope.

(* ------------------------- the search loop ---------------------------- *)
(* loopP with n rounds, n counted in unary *)
Fixpoint run {S A} (n : nat) (f : S -> S + A) (s : S) : S + A :=
  match n with O => inl s | Datatypes.S k => match f s with inl s' => run k f s' | inr a => inr a end end.
Lemma run_add {S A} n m (f : S -> S + A) s :
  run (n + m) f s = match run n f s with inl s' => run m f s' | inr a => inr a end.
Proof. revert s. induction n as [|n IH]; intros s; [reflexivity|]. cbn [Nat.add run]. destruct (f s); [apply IH|reflexivity]. Qed.
Lemma loopP_run {S A} p (f : S -> S + A) s : loopP p f s = run (Pos.to_nat p) f s.
Proof.
  revert s. induction p as [p IH|p IH|]; intros s.
  - rewrite Pos2Nat.inj_xI. cbn [loopP run]. destruct (f s) as [s'|]; [|reflexivity].
    replace (2 * Pos.to_nat p)%nat with (Pos.to_nat p + Pos.to_nat p)%nat by lia. rewrite run_add, <- IH.
    destruct (loopP p f s'); [apply IH|reflexivity].
  - rewrite Pos2Nat.inj_xO. cbn [loopP]. replace (2 * Pos.to_nat p)%nat with (Pos.to_nat p + Pos.to_nat p)%nat by lia. rewrite run_add, <- IH.
    destruct (loopP p f s); [apply IH|reflexivity].
  - change (Pos.to_nat 1) with 1%nat. cbn [loopP run]. destruct (f s); reflexivity.
Qed.
Lemma run_find {S A} (f : S -> S + A) (Q : A -> Prop) (I : nat -> S -> Prop) k :
  (forall j s, (j < k)%nat -> I j s -> exists s', f s = inl s' /\ I (Datatypes.S j) s') ->
  (forall s, I k s -> exists a, f s = inr a /\ Q a) ->
  forall n s, (k < n)%nat -> I O s -> exists a, run n f s = inr a /\ Q a.
Proof.
  intros H1 H2. assert (G : forall d n s, (d <= k)%nat -> (d < n)%nat -> I (k - d)%nat s -> exists a, run n f s = inr a /\ Q a).
  { induction d as [|d IH]; intros n s D N IS.
    - rewrite Nat.sub_0_r in IS. destruct (H2 s IS) as (a & E & QA). exists a. destruct n as [|n]; [lia|]. cbn [run]. rewrite E. auto.
    - destruct (H1 (k - Datatypes.S d)%nat s ltac:(lia) IS) as (s' & E & IS'). destruct n as [|n]; [lia|]. cbn [run]. rewrite E.
      apply IH; [lia|lia|]. replace (k - d)%nat with (Datatypes.S (k - Datatypes.S d)) by lia. exact IS'. }
  intros n s N I0. apply (G k n s); [lia|exact N|]. rewrite Nat.sub_diag. exact I0.
Qed.

(* the j-th candidate for x *)
Definition cand (u w : Z) (j : nat) : Fq2 := (mkq (u + Z.of_nat j), mkq w).
Lemma cand_S u w j : gadd (cand u w j) g1 = cand u w (S j).
Proof.
  unfold cand, gadd, g1. cbn [fst snd]. apply pair_equal_spec. split.
  - unfold f1. rewrite <- mkq_add. f_equal. lia.
  - ring.
Qed.
(* the candidates repeat after q steps, so a first success comes within the rounds
   the model allows *)
Lemma cand_period u w j : cand u w (j + Z.to_nat q381) = cand u w j.
Proof.
  unfold cand. apply pair_equal_spec. split; [|reflexivity]. pose proof q381_pos. rewrite Nat2Z.inj_add, Z2Nat.id by lia.
  apply mkq_eq. replace (u + (Z.of_nat j + q381)) with (u + Z.of_nat j + 1 * q381) by ring. apply Z.mod_add, q381_nz.
Qed.
Lemma map_fuel_big : q381 < Z.pos map_fuel. Proof. vm_compute. reflexivity. Qed.
Lemma first_fuel u w k : (forall j, (j < k)%nat -> ~ root_like (rhs2 (cand u w j))) -> root_like (rhs2 (cand u w k)) ->
  (k < Pos.to_nat map_fuel)%nat.
Proof.
  intros LT RL. pose proof map_fuel_big as MF. pose proof q381_pos as QP.
  destruct (Z_lt_le_dec (Z.of_nat k) q381) as [K|K]; [apply Nat2Z.inj_lt; rewrite positive_nat_Z; lia|].
  exfalso. apply (LT (k - Z.to_nat q381)%nat); [lia|]. rewrite <- cand_period. replace (k - Z.to_nat q381 + Z.to_nat q381)%nat with k by lia. exact RL.
Qed.
Opaque map_fuel.

(* what new_fp2 leaves: the point with x-coordinate x whose y has a square real part *)
Definition wide (x : Fq2) (a : FP2) : Prop := fp2R 1 33554432 x a /\ val2 a <= 16777300 * q381.
Definition fresh2 (x y : Fq2) (a : ECP2) : Prop :=
  on2 (Aff x y) /\ wide x (e2x a) /\ fp2R 1 2 y (e2y a) /\ fp2R 1 2 g1 (e2z a) /\
  is_sq (fst y) /\ (snd y = f0 -> lval (fx (f2b (e2y a))) = 0).
(* the candidate carried by the loop: the excess counter of the real part grows by 2 a
   round until FP::add reduces, its value by at most q *)
Definition loopx (x : Fq2) (a : FP2) : Prop :=
  fp2R 2 33554432 x a /\ 2 * lval (fx (f2a a)) <= (fxes (f2a a) + 4) * q381 /\ lval (fx (f2b a)) <= 2 * q381.
Definition one_ok (o : FP2) : Prop := fp2R 1 2 g1 o /\ 0 <= lval (fx (f2a o)) <= q381 /\ fxes (f2a o) = 2 /\ lval (fx (f2b o)) = 0.

Lemma map_step_ok one x a : one_ok one -> loopx x a ->
  (root_like (rhs2 x) -> exists p y, map_step one a = inr (Some p) /\ fresh2 x y p) /\
  (~ root_like (rhs2 x) -> exists a', map_step one a = inl a' /\ loopx (gadd x g1) a').
Proof.
  intros ([O1 O2] & OV & OE & OB) ([A1 A2] & AV & BV). unfold map_step, fp2_norm. pose proof q381_pos as QP.
  destruct (ok_ex _ _ (fp_norm_keep 2 _ _ _ A1 ltac:(lia) ltac:(lia))) as (n1 & E1 & N1 & V1 & X1). rewrite E1. cbn [bind].
  destruct (ok_ex _ _ (fp_norm_keep 2 _ _ _ A2 ltac:(lia) ltac:(lia))) as (n2 & E2 & N2 & V2 & X2). rewrite E2. cbn [bind].
  assert (FE : fxes (f2a a) <= 33554432) by (destruct A1 as (_ & _ & _ & A1 & _); lia).
  assert (FQ : (fxes (f2a a) + 4) * q381 <= 33554436 * q381) by (apply Z.mul_le_mono_nonneg_r; lia).
  assert (R : fp2R 1 33554432 x (mkFP2 n1 n2)) by (split; assumption).
  assert (RV : val2 (mkFP2 n1 n2) <= 16777300 * q381) by (unfold val2; cbn [f2a f2b]; lia).
  destruct (ok_ex _ _ (ecp2_new_fp2_V x _ R RV)) as (p & EP & P1 & P2 & _). rewrite EP. cbn [bind]. split; intros RL.
  - destruct (P1 RL) as (y & ON & PX & PY & PZ & PS & PV).
    assert (RR : ecp2R 1 33554432 (Aff x y) p).
    { apply ecp2A_R. split; [exact ON|]. split; [exact (proj1 PX)|]. split; (eapply fp2R_weak; [eassumption|lia|lia]). }
    destruct (ok_ex _ _ (ecp2_is_infinity_ok 1 _ _ p RR ltac:(lia) ltac:(lia))) as (b & EB & B). rewrite EB. cbn [bind].
    destruct b; [destruct B as [B _]; discriminate (B eq_refl)|]. cbn [negb]. exists p, y. split; [reflexivity|].
    split; [exact ON|]. split; [exact PX|]. split; [exact PY|]. split; [exact PZ|]. split; [exact PS|exact PV].
  - pose proof (P2 RL) as RR.
    destruct (ok_ex _ _ (ecp2_is_infinity_ok 1 2 _ p RR ltac:(lia) ltac:(lia))) as (b & EB & B). rewrite EB. cbn [bind].
    destruct b; [|destruct B as [_ B]; discriminate (B eq_refl)]. cbn [negb]. unfold fp2_add. cbn [f2a f2b].
    destruct (ok_ex _ _ (fp_add_cases 1 1 _ _ _ _ _ _ N1 O1 ltac:(lia) ltac:(lia) ltac:(lia) ltac:(lia) ltac:(lia))) as (c1 & EC1 & C1 & CV1). rewrite EC1. cbn [bind].
    destruct (ok_ex _ _ (fp_add_cases 1 1 _ _ _ _ _ _ N2 O2 ltac:(lia) ltac:(lia) ltac:(lia) ltac:(lia) ltac:(lia))) as (c2 & EC2 & C2 & CV2). rewrite EC2. cbn [bind].
    exists (mkFP2 c1 c2). split; [reflexivity|]. split; [split; [eapply fpR_weak; [exact C1|lia|lia]|eapply fpR_weak; [exact C2|lia|lia]]|].
    cbn [f2a f2b]. split.
    + destruct CV1 as [[CV CE]|(CV & _ & CE)]; rewrite CE; [|lia]. rewrite CV, X1, V1, OE.
      replace ((fxes (f2a a) + 2 + 4) * q381) with ((fxes (f2a a) + 4) * q381 + 2 * q381) by ring. lia.
    + destruct CV2 as [[CV CE]|(CV & _ & CE)]; lia.
Qed.
Lemma map_loop_ok one u w k a : one_ok one -> fp2R 1 2 (mkq u, mkq w) a ->
  (forall j, (j < k)%nat -> ~ root_like (rhs2 (cand u w j))) -> root_like (rhs2 (cand u w k)) ->
  exists p y, loopP map_fuel (map_step one) a = inr (Some p) /\ fresh2 (cand u w k) y p.
Proof.
  intros ONE A LT RL. rewrite loopP_run.
  destruct (run_find (map_step one) (fun r => exists p y, r = Some p /\ fresh2 (cand u w k) y p)
    (fun j s => (j <= k)%nat /\ loopx (cand u w j) s) k) with (n := Pos.to_nat map_fuel) (s := a) as (r & E & p & y & -> & F).
  - intros j s J [_ IS]. destruct (map_step_ok one _ s ONE IS) as [_ H]. destruct (H (LT j J)) as (s' & E & R).
    exists s'. split; [exact E|]. split; [lia|]. rewrite cand_S in R. exact R.
  - intros s [_ IS]. destruct (map_step_ok one _ s ONE IS) as [H _]. destruct (H RL) as (p & y & E & F).
    exists (Some p). split; [exact E|]. exists p, y. auto.
  - apply (first_fuel u w k LT RL).
  - split; [lia|]. assert (EC : cand u w 0 = (mkq u, mkq w)) by (unfold cand; rewrite (Z.add_0_r u : u + Z.of_nat 0 = u); reflexivity). rewrite EC.
    pose proof q381_pos as QP. pose proof A as [(_ & _ & AV & AE & _) (_ & _ & BV & BE & _)].
    split; [eapply fp2R_weak; [exact A|lia|lia]|].
    assert (C : fxes (f2a a) = 1 \/ fxes (f2a a) = 2) by lia. assert (C' : fxes (f2b a) = 1 \/ fxes (f2b a) = 2) by lia.
    split; [destruct C as [C|C]; rewrite C in *; lia|destruct C' as [C'|C']; rewrite C' in *; lia].
  - exists p, y. auto.
Qed.
(* no candidate at all: the loop never ends, which the model renders as None *)
Lemma run_never {S A} (f : S -> S + A) (I : nat -> S -> Prop) :
  (forall j s, I j s -> exists s', f s = inl s' /\ I (Datatypes.S j) s') ->
  forall n j s, I j s -> exists s', run n f s = inl s'.
Proof.
  intros H. induction n as [|n IH]; intros j s IS; [exists s; reflexivity|]. cbn [run]. destruct (H j s IS) as (s' & E & IS'). rewrite E.
  exact (IH _ _ IS').
Qed.

(* ------------------------- the choice of y ---------------------------- *)
Lemma fp_add_lval l m E F x y a b : fpR l E x a -> fpR m F y b -> 1 <= l -> 1 <= m -> l + m <= 31 -> E + F <= 33554432 ->
  ok (fp_add a b) (fun c => lval (fx c) = lval (fx a) + lval (fx b)).
Proof.
  intros (A1 & A2 & A3 & A4 & A5) (B1 & B2 & B3 & B4 & B5) L M LM EF. unfold fp_add.
  eapply ok_bind; [apply (big_add_spec (fx a) (fx b) (l * B58) (m * B58)); try lia; apply lim_lb; auto|].
  intros r (R1 & R2 & R3). rewrite ck32_ok by lia. cbn [bind]. change FEXCESS with 33554432. cbv zeta.
  destruct (Z.ltb_spec 33554432 (fxes a + fxes b)); [lia|]. cbn [ok fx]. exact R3.
Qed.
Lemma fp_neg_lval l E x a : fpR l E x a -> 1 <= l <= 30 -> 2 * E - 1 <= 33554432 ->
  ok (fp_neg a) (fun c => q381 <= lval (fx c) + lval (fx a)).
Proof.
  intros (A1 & A2 & A3 & A4 & A5) L HE. unfold fp_neg. pose proof q381_lt. pose proof q381_bound2.
  rewrite ck32_ok by lia. cbn [bind]. change 4294967295 with (2 ^ 32 - 1). rewrite land_ones_mod by lia.
  rewrite Z.mod_small by lia. rewrite logb2_spec by lia. cbn [bind].
  set (sb := bitlen (fxes a - 1)).
  pose proof (bitlen_pow (fxes a) ltac:(lia)) as BP. fold sb in BP.
  assert (SB : 0 <= sb <= 25).
  { split; [apply bitlen_nonneg|]. apply bitlen_le; lia. }
  clearbody sb.
  assert (PQ : q381 * 2 ^ sb <= q381 * 33554432) by (apply Z.mul_le_mono_nonneg_l; lia).
  assert (PQ2 : q381 * 1 <= q381 * 2 ^ sb) by (apply Z.mul_le_mono_nonneg_l; lia).
  pose proof (fshl_spec7 MODULUS q381 sb (rep_nrep _ _ _ mod_rep) ltac:(lia) ltac:(lia)) as FS.
  apply nrep_rep in FS; [|change (58 * Z.of_nat 7) with 406; lia]. destruct FS as (F1 & F2 & F3).
  eapply ok_bind; [apply (big_rsub_spec (fx a) (big_fshl MODULUS sb) (l * B58) B58); try lia|].
  { apply lim_lb; auto; lia. }
  { apply digs_lb; auto. }
  intros r (R1 & R2 & R3). destruct (Z.leb_spec 32 sb); [lia|].
  rewrite Z.shiftl_1_l. rewrite wrap32_id by lia. cbv zeta. cbn [fxes]. change FEXCESS with 33554432.
  destruct (Z.ltb_spec 33554432 (2 ^ sb)); [lia|]. cbn [ok fx]. rewrite R3, F3. lia.
Qed.
(* negating an element with imaginary part 0: the new imaginary part is a nonzero
   multiple of q *)
Lemma fp2_neg_im0 y a : fp2R 1 2 y a ->
  ok (fp2_neg a) (fun c => fp2R 4 9 (gopp y) c /\ (lval (fx (f2b a)) = 0 -> lval (fx (f2b c)) <> 0)).
Proof.
  intros H. apply ok_and; [apply (fp2_neg_ok 1 2 y a H); lia|]. destruct H as [A1 A2]. unfold fp2_neg.
  eapply ok_bind; [apply ok_and; [apply (fp_add_ok 1 1 2 2 _ _ _ _ A1 A2); lia|apply (fp_add_lval 1 1 2 2 _ _ _ _ A1 A2); lia]|]. intros m0 [M0 V0].
  eapply ok_bind; [apply ok_and; [eapply (fp_neg_ok _ _ _ m0 M0); lia|eapply (fp_neg_lval _ _ _ m0 M0); lia]|]. intros m [M V1].
  eapply ok_bind; [eapply (fp_add_ok _ _ _ _ _ _ _ _ M A2); lia|]. intros t T.
  eapply ok_bind; [eapply (fp_add_lval _ _ _ _ _ _ _ _ M A1); lia|]. intros b B. cbn [ok f2b]. intros Z0. cbv beta in V0, V1, B. rewrite Z0 in V0. rewrite V0 in V1. rewrite B.
  pose proof q381_pos. lia.
Qed.
Lemma q381_oddb : Z.odd q381 = true. Proof. vm_compute. reflexivity. Qed.
(* the y kept: -s when the imaginary part of s is below q/2 (0 included), s otherwise *)
Definition hash_y (s : Fq2) : Fq2 := if 2 * fv (snd s) <? q381 then gopp s else s.
Lemma fv_fopp x : x <> f0 -> fv (fopp x) = q381 - fv x.
Proof.
  intros N. pose proof (fv_range x) as R. pose proof (fv_range (fopp x)) as R'.
  assert (N0 : fv x <> 0) by (intros C; apply N; apply fv_zero; exact C).
  assert (E : fopp x = mkq (q381 - fv x)).
  { rewrite mkq_sub, mkq_fv. replace (mkq q381) with f0; [ring|]. apply mkq_eq. rewrite Z.mod_same, Z.mod_0_l by apply q381_nz. reflexivity. }
  rewrite E, fv_mkq, Z.mod_small by lia. reflexivity.
Qed.
(* a freshly built affine point after the search *)
Definition ecp2G (x y : Fq2) (a : ECP2) : Prop := wide x (e2x a) /\ fp2R 1 9 y (e2y a) /\ fp2R 1 2 g1 (e2z a).
Lemma ecp2G_V x y a : on2 (Aff x y) -> ecp2G x y a -> ecp2V 9 (Aff x y) a.
Proof.
  intros ON ((A & V) & B & C). split; [exact ON|]. exists x, y, g1. split; [exact A|]. split; [exact V|]. split; [exact B|].
  split; [eapply fp2R_weak; [exact C|lia|lia]|]. cbn [prep]. split; [exact g1_neq_0|]. split; ring.
Qed.
Lemma map_sign_ok x s p : fresh2 x s p ->
  ok (ny <- fp2_neg (e2y p) ;; c <- cmp_fp2 (e2y p) ny ;; if c <? 0 then ecp2_neg p else Some p)
     (ecp2G x (hash_y s)).
Proof.
  intros (ON & PX & PY & PZ & PS & PV).
  eapply ok_bind; [apply (fp2_neg_im0 s _ PY)|]. intros ny [NY NV].
  unfold cmp_fp2, fp2_getb, fp2_geta. rewrite bind_assoc.
  eapply ok_bind; [apply (fp_redc_exact 1 2 _ _ (proj2 PY)); lia|]. intros n1 N1.
  rewrite bind_assoc. eapply ok_bind; [apply (fp_redc_exact 4 9 _ _ (proj2 NY)); lia|]. intros n2 N2.
  rewrite (B_comp _ _ _ _ (rep_nrep _ _ _ N1) (rep_nrep _ _ _ N2)). cbn [gopp snd] in N1, N2 |- *.
  set (v1 := rval (snd s) (f2b (e2y p))) in *. set (v2 := rval (fopp (snd s)) (f2b ny)) in *.
  assert (NE : v1 <> v2 /\ (v1 < v2 <-> 2 * fv (snd s) < q381)).
  { pose proof (fv_range (snd s)) as FR. pose proof q381_pos. unfold v1, v2. destruct (Fq_dec (snd s) f0) as [Z0|Z0].
    - specialize (PV Z0). specialize (NV PV). rewrite Z0. unfold rval. destruct (Fq_dec f0 f0); [|contradiction].
      assert (Z1 : fopp f0 = f0) by ring. rewrite Z1. destruct (Fq_dec f0 f0); [|contradiction].
      apply Z.eqb_eq in PV. apply Z.eqb_neq in NV. rewrite PV, NV, fv_f0. lia.
    - rewrite rval_nz by exact Z0. rewrite rval_nz by (intros C; apply Z0; apply fopp_eq0; exact C).
      rewrite fv_fopp by exact Z0. pose proof q381_oddb as OD. apply Z.odd_spec in OD. destruct OD as [h OD]. lia. }
  destruct NE as [NE LT]. destruct (Z.eqb_spec (Z.sgn (v1 - v2)) 0) as [C|C]; [lia|]. cbn [bind].
  unfold hash_y. destruct (Z.ltb_spec (2 * fv (snd s)) q381) as [LE|GE].
  - destruct (Z.ltb_spec (Z.sgn (v1 - v2)) 0) as [_|C1]; [|exfalso; assert (v1 < v2) by tauto; lia].
    unfold ecp2_neg. eapply ok_bind; [apply (fp2_norm_ok 1 2 _ _ PY); lia|]. intros my MY.
    eapply ok_bind; [apply (fp2_neg_ok 1 2 _ _ MY); lia|]. intros nn NN.
    eapply ok_bind; [eapply fp2_norm_ok; [exact NN|lia|lia]|]. intros n3 N3. cbn [ok].
    split; [cbn [e2x]; exact PX|].
    split; [cbn [e2y]; eapply fp2R_weak; [exact N3|lia|lia]|exact PZ].
  - destruct (Z.ltb_spec (Z.sgn (v1 - v2)) 0) as [C1|_]; [exfalso; assert (v1 < v2) by lia; lia|]. cbn [ok].
    split; [exact PX|]. split; [eapply fp2R_weak; [exact PY|lia|lia]|exact PZ].
Qed.
Lemma hash_y_on x s : on2 (Aff x s) -> on2 (Aff x (hash_y s)).
Proof. intros ON. unfold hash_y. destruct (2 * fv (snd s) <? q381); [apply (pneg2_on _ ON)|exact ON]. Qed.
Lemma map_point_start re im u w : bytes re -> bytes im -> (48 <= length re)%nat -> (48 <= length im)%nat ->
  u = be_int (firstn 48 re) -> w = be_int (firstn 48 im) ->
  exists x one, one_ok one /\ fp2R 1 2 (mkq u, mkq w) x /\ map_point re im =
    match loopP map_fuel (map_step one) x with
    | inr (Some p) => ny <- fp2_neg (e2y p) ;; c <- cmp_fp2 (e2y p) ny ;; if c <? 0 then ecp2_neg p else Some p
    | _ => None
    end.
Proof.
  intros BR BI LR LI HU HW. unfold map_point.
  destruct (proj1 (B_frombytes re BR) LR) as (a0 & EA & A). rewrite EA. cbn [bind]. rewrite <- HU in A.
  destruct (proj1 (B_frombytes im BI) LI) as (b0 & EB & B). rewrite EB. cbn [bind]. rewrite <- HW in B.
  destruct (B_rmod _ _ _ _ A (rep_nrep _ _ _ mod_rep) q381_pos) as (a1 & EA1 & A1). rewrite EA1. cbn [bind].
  destruct (B_rmod _ _ _ _ B (rep_nrep _ _ _ mod_rep) q381_pos) as (b1 & EB1 & B1). rewrite EB1. cbn [bind].
  destruct (ok_ex _ _ (fp2_new_bigs_ok _ _ _ _ A1 B1)) as (x & EX & X). rewrite EX. cbn [bind].
  assert (MM : forall z, mkq (z mod q381) = mkq z) by (intros z; apply mkq_eq; apply Z.mod_mod, q381_nz).
  rewrite !MM in X.
  destruct (ok_ex _ _ fp2_one_val) as (one & EO & ONE). rewrite EO. cbn [bind].
  exists x, one. split; [exact ONE|]. split; [exact X|]. destruct (loopP map_fuel (map_step one) x) as [s|[p|]]; reflexivity.
Qed.
Lemma map_point_ok re im u w k : bytes re -> bytes im -> (48 <= length re)%nat -> (48 <= length im)%nat ->
  u = be_int (firstn 48 re) -> w = be_int (firstn 48 im) ->
  (forall j, (j < k)%nat -> ~ root_like (rhs2 (cand u w j))) -> root_like (rhs2 (cand u w k)) ->
  ok (map_point re im) (fun a => exists s, on2 (Aff (cand u w k) s) /\ is_sq (fst s) /\ ecp2G (cand u w k) (hash_y s) a).
Proof.
  intros BR BI LR LI HU HW LT RL. destruct (map_point_start re im u w BR BI LR LI HU HW) as (x & one & ONE & X & EQ). rewrite EQ.
  destruct (map_loop_ok one u w k x ONE X LT RL) as (p & s & EL & F). rewrite EL.
  eapply ok_impl; [apply (map_sign_ok _ _ _ F)|]. intros a H. exists s.
  destruct F as (ON & _ & _ & _ & PS & _). split; [exact ON|]. split; [exact PS|exact H].
Qed.
Lemma map_point_never re im u w : bytes re -> bytes im -> (48 <= length re)%nat -> (48 <= length im)%nat ->
  u = be_int (firstn 48 re) -> w = be_int (firstn 48 im) ->
  (forall j, ~ root_like (rhs2 (cand u w j))) -> map_point re im = None.
Proof.
  intros BR BI LR LI HU HW LT. destruct (map_point_start re im u w BR BI LR LI HU HW) as (x & one & ONE & X & EQ). rewrite EQ, loopP_run.
  destruct (run_never (map_step one) (fun j s => loopx (cand u w j) s)) with (n := Pos.to_nat map_fuel) (j := 0%nat) (s := x) as (s' & E).
  - intros j s IS. destruct (map_step_ok one _ s ONE IS) as [_ H]. destruct (H (LT j)) as (s' & E & R).
    exists s'. split; [exact E|]. rewrite cand_S in R. exact R.
  - assert (EC : cand u w 0 = (mkq u, mkq w)) by (unfold cand; rewrite (Z.add_0_r u : u + Z.of_nat 0 = u); reflexivity). rewrite EC.
    pose proof q381_pos as QP. pose proof X as [(_ & _ & AV & AE & _) (_ & _ & BV & BE & _)].
    split; [eapply fp2R_weak; [exact X|lia|lia]|].
    assert (C : fxes (f2a x) = 1 \/ fxes (f2a x) = 2) by lia. assert (C' : fxes (f2b x) = 1 \/ fxes (f2b x) = 2) by lia.
    split; [destruct C as [C|C]; rewrite C in *; lia|destruct C' as [C'|C']; rewrite C' in *; lia].
  - rewrite E. reflexivity.
Qed.

(* ------------------------- the cofactor ------------------------------- *)
Definition h2 : Z := 305502333931268344200999753193121504214466019254188142667664032982267604182971884026507427359259977847832272839041616661285803823378372096355777062779109.
Lemma cof_high : rep 7 G2_COFACTOR_HIGH (h2 / 2 ^ 128).
Proof. split; [reflexivity|]. split; [repeat (constructor; [lia|]); constructor|vm_compute; reflexivity]. Qed.
Lemma cof_low : rep 7 G2_COFACTOR_LOW (h2 mod 2 ^ 128).
Proof. split; [reflexivity|]. split; [repeat (constructor; [lia|]); constructor|vm_compute; reflexivity]. Qed.
Lemma cof_shift : rep 7 G2_COFACTOR_SHIFT (2 ^ 128).
Proof. split; [reflexivity|]. split; [repeat (constructor; [lia|]); constructor|vm_compute; reflexivity]. Qed.
Lemma multiply_cofactor_ok E p a : ecp2V E p a -> E <= 8192 ->
  ok (multiply_cofactor a) (ecp2R 1 17 (zm2 h2 p)).
Proof.
  intros A HE. unfold multiply_cofactor. pose proof (proj1 A) as ON.
  eapply ok_bind; [apply (ecp2_mul_V E p a _ _ A HE cof_high); vm_compute; reflexivity|]. intros c1 C1. apply ecp2A_R in C1.
  eapply ok_bind; [apply (ecp2_mul_ok 1 17 _ c1 _ _ C1 ltac:(lia) ltac:(lia) cof_shift); vm_compute; reflexivity|]. intros c2 C2. apply ecp2A_R in C2.
  eapply ok_bind; [apply (ecp2_mul_V E p a _ _ A HE cof_low); vm_compute; reflexivity|]. intros c3 C3. apply ecp2A_R in C3.
  eapply ok_impl; [eapply ecp2_add_ok; [exact C2|exact C3|lia..]|]. intros r R.
  assert (EQ : zm2 h2 p = padd2 (zm2 (2 ^ 128) (zm2 (h2 / 2 ^ 128) p)) (zm2 (h2 mod 2 ^ 128) p)).
  { rewrite <- zm2_mul by exact ON. rewrite <- zm2_add by exact ON. rewrite (Z.mul_comm (2 ^ 128)), (Z.mul_comm (h2 / _)), <- Z.div_mod by lia. reflexivity. }
  rewrite EQ. exact R.
Qed.
Lemma map_to_g2_ok re im u w k : bytes re -> bytes im -> (48 <= length re)%nat -> (48 <= length im)%nat ->
  u = be_int (firstn 48 re) -> w = be_int (firstn 48 im) ->
  (forall j, (j < k)%nat -> ~ root_like (rhs2 (cand u w j))) -> root_like (rhs2 (cand u w k)) ->
  ok (map_to_g2 re im) (fun a => exists s, on2 (Aff (cand u w k) s) /\ is_sq (fst s) /\
    ecp2R 1 17 (zm2 h2 (Aff (cand u w k) (hash_y s))) a).
Proof.
  intros BR BI LR LI HU HW LT RL. unfold map_to_g2.
  eapply ok_bind; [apply (map_point_ok re im u w k); assumption|]. intros p (s & ON & PS & F).
  eapply ok_impl; [eapply multiply_cofactor_ok; [exact (ecp2G_V _ _ _ (hash_y_on _ _ ON) F)|lia]|].
  intros r R. exists s. auto.
Qed.
(* only the first 48 bytes of each part matter, and fewer make it panic *)
Lemma frombytes_48 b : big_frombytes b = big_frombytes (firstn 48 b).
Proof. unfold big_frombytes, big_frombytearray. cbn [skipn]. change MODBYTES with 48%nat. rewrite firstn_firstn. reflexivity. Qed.
Lemma map_to_g2_48 re im : map_to_g2 re im = map_to_g2 (firstn 48 re) (firstn 48 im).
Proof. unfold map_to_g2, map_point. rewrite (frombytes_48 re), (frombytes_48 im). reflexivity. Qed.
Lemma map_to_g2_short re im : (length re < 48)%nat \/ (length im < 48)%nat -> map_to_g2 re im = None.
Proof.
  unfold map_to_g2, map_point. intros [L|L]; rewrite (big_frombytes_short _ L); [reflexivity|].
  destruct (big_frombytes re); reflexivity.
Qed.
