(* ECP2::mul4 computes a combination of four points; g2mul computes e*P on the
   subgroup of order r of the twist. *)
From Coq Require Import Lia ZifyBool.
From Verif Require Import Prim PrimP Rom Big BigP BigP2 BigP3 BigL NumT FieldQ FieldQ2 Fp FpP FpP2 Fp2 Fp2P SpecCurve CurveP GroupP Ecp WinP Ecp2 Ecp2P Tower TowerP FrobP FexpP GenP PsiP TwistP Glv RecodeP.

Lemma padd2_4 p q r s : on2 p -> on2 q -> on2 r -> on2 s -> padd2 (padd2 p q) (padd2 r s) = padd2 (padd2 p r) (padd2 q s).
Proof. intros. eapply add4; g2s. Qed.
Lemma pneg2_add p q : on2 p -> on2 q -> pneg2 (padd2 p q) = padd2 (pneg2 p) (pneg2 q).
Proof.
  intros O P. assert (A : on2 (padd2 p q)) by (apply padd2_on; assumption).
  rewrite <- (zm2_1 (padd2 p q)), <- zm2_opp, zm2_dist, !zm2_opp, !zm2_1 by assumption. reflexivity.
Qed.

Definition tabg (l E : Z) (f : nat -> pt2) (W : list ECP2) : Prop :=
  length W = 8%nat /\ forall k a, nth_error W k = Some a -> ecp2R l E (f k) a.
Lemma tabg_wf l E f W : tabg l E f W -> Forall wf2 W.
Proof.
  intros [_ H]. apply Forall_forall. intros a A. apply In_nth_error in A. destruct A as [k A]. apply H in A.
  eapply ecp2R_wf; eauto.
Qed.
Lemma tabg_get l E f W k : tabg l E f W -> (k < 8)%nat -> exists a, getM W k = Some a /\ ecp2R l E (f k) a.
Proof.
  intros [L H] K. unfold getM. destruct (nth_error W k) as [a|] eqn:G; [exists a; split; [reflexivity|apply H; exact G]|].
  apply nth_error_None in G. lia.
Qed.
Lemma ecp2_selector_f l E f W self d p : tabg l E f W -> wf2 self -> wdig d -> 1 <= l <= 8 -> 5 * E - 1 <= 33554432 ->
  (forall k, (k < 8)%nat -> (d = 2 * Z.of_nat k + 1 -> p = f k) /\ (d = - (2 * Z.of_nat k + 1) -> p = pneg2 (f k))) ->
  ok (ecp2_selector self W d) (ecp2R l (5 * E - 1) p).
Proof.
  intros T WS D L HE P. unfold ecp2_selector. destruct (wdig_case d D) as (k & K & SB & C). rewrite SB. cbn [bind].
  rewrite (sel_fold wf2 ecp2_cmove ecp2_cmove0 ecp2_cmove1 W k K (proj1 T) (tabg_wf _ _ _ _ T) 8 0 self WS ltac:(lia)).
  destruct (tabg_get _ _ _ _ _ T K) as (a & G & A). destruct (P k K) as [P1 P2].
  destruct (Nat.leb_spec 0 k); [|lia]. destruct (Nat.ltb_spec k (0 + 8)); [|lia]. cbn [andb]. rewrite G. cbn [bind].
  assert (1 <= E) by (destruct A as (_ & ? & ? & ? & ((_ & _ & _ & A1 & _) & _) & _); lia).
  eapply ok_bind; [eapply ecp2_neg_ok; [exact A|lia|lia]|]. intros n N. cbn [ok].
  pose proof (ecp2R_wf _ _ _ _ A) as WA. pose proof (ecp2R_wf _ _ _ _ N) as WN.
  destruct C as [[D1 S1]|[D1 S1]]; rewrite S1.
  - rewrite ecp2_cmove0 by assumption. rewrite (P1 D1). eapply ecp2R_weak; [exact A|lia|lia].
  - rewrite ecp2_cmove1 by assumption. rewrite (P2 D1). exact N.
Qed.

Lemma pv_snoc ss d : pv (ss ++ [d]) = pv ss + 2 ^ Z.of_nat (length ss) * d.
Proof.
  induction ss as [|s ss IH]; cbn [app pv length]; [change (2 ^ Z.of_nat 0) with 1; lia|].
  rewrite IH. replace (Z.of_nat (S (length ss))) with (1 + Z.of_nat (length ss)) by lia. rewrite Z.pow_add_r by lia.
  change (2 ^ 1) with 2. lia.
Qed.
Definition b0 (k : nat) : Z := Z.of_nat (k mod 2).
Definition b1 (k : nat) : Z := Z.of_nat (k / 2 mod 2).
Definition b2 (k : nat) : Z := Z.of_nat (k / 4).
Lemma col_dig c k : colok c -> (k < 8)%nat ->
  (dg c = 2 * Z.of_nat k + 1 -> cs c = 1 /\ c1 c = b0 k /\ c2 c = b1 k /\ c3 c = b2 k) /\
  (dg c = - (2 * Z.of_nat k + 1) -> cs c = - (1) /\ c1 c = - b0 k /\ c2 c = - b1 k /\ c3 c = - b2 k).
Proof.
  destruct c as [s x y z]. unfold colok, dg. cbn [cs c1 c2 c3]. intros (S & X & Y & Z) K.
  do 8 (destruct k as [|k]; [destruct S as [-> | ->]; destruct X as [->| ->]; destruct Y as [->| ->]; destruct Z as [->| ->];
    (split; intros E; [try discriminate E|try discriminate E]); (split; [reflexivity|split; [reflexivity|split; reflexivity]])|]). lia.
Qed.

Section Lin4.
  Variables (q0 q1 q2 q3 : pt2).
  Hypothesis (O0 : on2 q0) (O1 : on2 q1) (O2 : on2 q2) (O3 : on2 q3).
  Definition lc4 (a b c d : Z) : pt2 := padd2 (padd2 (zm2 a q0) (zm2 b q1)) (padd2 (zm2 c q2) (zm2 d q3)).
  Lemma lc4_add a b c d a' b' c' d' : padd2 (lc4 a b c d) (lc4 a' b' c' d') = lc4 (a + a') (b + b') (c + c') (d + d').
  Proof.
    unfold lc4. pose proof (zm2_on a q0 O0). pose proof (zm2_on b q1 O1). pose proof (zm2_on c q2 O2). pose proof (zm2_on d q3 O3).
    pose proof (zm2_on a' q0 O0). pose proof (zm2_on b' q1 O1). pose proof (zm2_on c' q2 O2). pose proof (zm2_on d' q3 O3).
    rewrite padd2_4 by (apply padd2_on; assumption). rewrite (padd2_4 (zm2 a q0)), (padd2_4 (zm2 c q2)) by assumption.
    rewrite <- !zm2_add by assumption. reflexivity.
  Qed.
  Lemma lc4_opp a b c d : pneg2 (lc4 a b c d) = lc4 (- a) (- b) (- c) (- d).
  Proof.
    unfold lc4. pose proof (zm2_on a q0 O0). pose proof (zm2_on b q1 O1). pose proof (zm2_on c q2 O2). pose proof (zm2_on d q3 O3).
    rewrite pneg2_add by (apply padd2_on; assumption). rewrite !pneg2_add by assumption. rewrite !zm2_opp by assumption. reflexivity.
  Qed.
  Lemma lc4_0 : lc4 1 0 0 0 = q0. Proof. unfold lc4. rewrite zm2_1, !zm2_0, !padd2_0r. reflexivity. Qed.
  Lemma lc4_1 : lc4 0 1 0 0 = q1. Proof. unfold lc4. rewrite zm2_1, !zm2_0, padd2_0l, !padd2_0r. reflexivity. Qed.
  Lemma lc4_2 : lc4 0 0 1 0 = q2. Proof. unfold lc4. rewrite zm2_1, !zm2_0, !padd2_0l, !padd2_0r. reflexivity. Qed.
  Lemma lc4_3 : lc4 0 0 0 1 = q3. Proof. unfold lc4. rewrite zm2_1, !zm2_0, !padd2_0l. reflexivity. Qed.
  Definition f4 (k : nat) : pt2 := lc4 1 (b0 k) (b1 k) (b2 k).
  Definition lcc (c : col) : pt2 := lc4 (cs c) (c1 c) (c2 c) (c3 c).
  Lemma f4_dig c : colok c -> forall k, (k < 8)%nat -> (dg c = 2 * Z.of_nat k + 1 -> lcc c = f4 k) /\ (dg c = - (2 * Z.of_nat k + 1) -> lcc c = pneg2 (f4 k)).
  Proof.
    intros C k K. destruct (col_dig c k C K) as [H1 H2]. unfold lcc, f4. rewrite lc4_opp.
    split; intros E; [destruct (H1 E) as (-> & -> & -> & ->)|destruct (H2 E) as (-> & -> & -> & ->)]; reflexivity.
  Qed.
  Lemma ecp2_tab4_ok l E Q0 Q1 Q2 Q3 : ecp2R l E q0 Q0 -> ecp2R l E q1 Q1 -> ecp2R l E q2 Q2 -> ecp2R l E q3 Q3 -> 1 <= l <= 8 -> 17 <= E <= 2097152 ->
    ok (ecp2_tab4 Q0 Q1 Q2 Q3) (tabg l E f4).
  Proof.
    intros R0 R1 R2 R3 L HE. rewrite <- lc4_0 in R0. rewrite <- lc4_1 in R1. rewrite <- lc4_2 in R2. rewrite <- lc4_3 in R3. unfold ecp2_tab4.
    eapply ok_bind; [eapply ecp2_add_ok; [exact R0|exact R1|lia..]|]. intros t1 T1. rewrite lc4_add in T1.
    eapply ok_bind; [eapply ecp2_add_ok; [exact R0|exact R2|lia..]|]. intros t2 T2. rewrite lc4_add in T2.
    eapply ok_bind; [eapply ecp2_add_ok; [exact T1|exact R2|lia..]|]. intros t3 T3. rewrite lc4_add in T3.
    eapply ok_bind; [eapply ecp2_add_ok; [exact R0|exact R3|lia..]|]. intros t4 T4. rewrite lc4_add in T4.
    eapply ok_bind; [eapply ecp2_add_ok; [exact T1|exact R3|lia..]|]. intros t5 T5. rewrite lc4_add in T5.
    eapply ok_bind; [eapply ecp2_add_ok; [exact T2|exact R3|lia..]|]. intros t6 T6. rewrite lc4_add in T6.
    eapply ok_bind; [eapply ecp2_add_ok; [exact T3|exact R3|lia..]|]. intros t7 T7. rewrite lc4_add in T7. cbn [ok].
    split; [reflexivity|]. intros k a G.
    destruct k as [|k]; [cbn [nth_error] in G; injection G as <-; exact R0|].
    do 7 (destruct k as [|k]; [cbn [nth_error] in G; injection G as <-; eapply ecp2R_weak; [eassumption|lia|lia]|]). destruct k; discriminate G.
  Qed.
  Lemma ecp2_mul4_step_ok l E W A B C D r t c : tabg l E f4 W -> colok c -> 1 <= l <= 8 -> 17 <= E <= 400000 -> ecp2R l (5 * E - 1) (lc4 A B C D) r -> wf2 t ->
    ok (ecp2_mul4_step W (r, t) (dg c)) (fun '(r', t') => ecp2R l (5 * E - 1) (lc4 (2 * A + cs c) (2 * B + c1 c) (2 * C + c2 c) (2 * D + c3 c)) r' /\ wf2 t').
  Proof.
    intros T CO L HE R Q. unfold ecp2_mul4_step.
    eapply ok_bind; [eapply ecp2_dbl_ok; [exact R|lia..]|]. intros r1 R1. rewrite lc4_add in R1.
    eapply ok_bind; [eapply (ecp2_selector_f l E f4 W t (dg c) (lcc c) T Q (dg_wdig c CO)); [lia|lia|apply f4_dig; exact CO]|]. intros s SE.
    eapply ok_bind; [eapply ecp2_add_ok; [exact R1|exact SE|lia..]|]. intros r3 R3. cbn [ok]. unfold lcc in R3. rewrite lc4_add in R3.
    split; [|eapply ecp2R_wf; exact SE].
    replace (2 * A) with (A + A) by lia. replace (2 * B) with (B + B) by lia. replace (2 * C) with (C + C) by lia. replace (2 * D) with (D + D) by lia.
    eapply ecp2R_weak; [exact R3|lia|lia].
  Qed.
  Lemma ecp2_mul4_fold_ok l E W : tabg l E f4 W -> 1 <= l <= 8 -> 17 <= E <= 400000 -> forall cl A B C D r t, Forall colok cl -> ecp2R l (5 * E - 1) (lc4 A B C D) r -> wf2 t ->
    ok (foldM (ecp2_mul4_step W) (rev (map dg cl)) (r, t)) (fun '(r', t') => let n := 2 ^ Z.of_nat (length cl) in
      ecp2R l (5 * E - 1) (lc4 (n * A + pv (map cs cl)) (n * B + pv (map c1 cl)) (n * C + pv (map c2 cl)) (n * D + pv (map c3 cl))) r').
  Proof.
    intros T L HE cl. induction cl as [|c cl IH] using rev_ind; intros A B C D r t CO R Q.
    - cbn [map rev foldM ok length pv]. change (2 ^ Z.of_nat 0) with 1. cbv zeta. rewrite !Z.mul_1_l, !Z.add_0_r. exact R.
    - rewrite !map_app. cbn [map]. rewrite rev_app_distr. cbn [rev app foldM].
      apply Forall_app in CO. destruct CO as [CO1 CO2]. inversion CO2; subst.
      eapply ok_bind; [eapply ecp2_mul4_step_ok; eauto|]. intros [r' t'] [R' Q'].
      eapply ok_impl; [apply (IH _ _ _ _ _ _ CO1 R' Q')|]. cbv beta zeta. intros [r2 t2] R2.
      rewrite !pv_snoc, app_length, !map_length. cbn [length]. rewrite !Nat2Z.inj_add. change (Z.of_nat 1) with 1. rewrite !Z.pow_add_r by lia.
      change (2 ^ 1) with 2. set (n := 2 ^ Z.of_nat (length cl)) in *.
      replace (n * 2 * A + (pv (map cs cl) + n * cs c)) with (n * (2 * A + cs c) + pv (map cs cl)) by ring.
      replace (n * 2 * B + (pv (map c1 cl) + n * c1 c)) with (n * (2 * B + c1 c) + pv (map c1 cl)) by ring.
      replace (n * 2 * C + (pv (map c2 cl) + n * c2 c)) with (n * (2 * C + c2 c) + pv (map c2 cl)) by ring.
      replace (n * 2 * D + (pv (map c3 cl) + n * c3 c)) with (n * (2 * D + c3 c) + pv (map c3 cl)) by ring.
      exact R2.
  Qed.
End Lin4.

Lemma ecp2_mul4_ok l E q0 q1 q2 q3 Q0 Q1 Q2 Q3 u0 u1 u2 u3 v0 v1 v2 v3 :
  ecp2R l E q0 Q0 -> ecp2R l E q1 Q1 -> ecp2R l E q2 Q2 -> ecp2R l E q3 Q3 -> 1 <= l <= 8 -> 17 <= E <= 262144 ->
  rep 7 u0 v0 -> rep 7 u1 v1 -> rep 7 u2 v2 -> rep 7 u3 v3 -> v0 + 1 < 2 ^ 406 ->
  ok (ecp2_mul4 Q0 Q1 Q2 Q3 [u0; u1; u2; u3]) (ecp2A 8 2097152 (lc4 q0 q1 q2 q3 v0 v1 v2 v3)).
Proof.
  intros R0 R1 R2 R3 L HE U0 U1 U2 U3 V. unfold ecp2_mul4.
  eapply ok_bind; [eapply ecp2_affine_ok; [exact R0|lia|lia]|]. clear Q0 R0. intros Q0 R0. apply ecp2A_R in R0.
  eapply ok_bind; [eapply ecp2_affine_ok; [exact R1|lia|lia]|]. clear Q1 R1. intros Q1 R1. apply ecp2A_R in R1.
  eapply ok_bind; [eapply ecp2_affine_ok; [exact R2|lia|lia]|]. clear Q2 R2. intros Q2 R2. apply ecp2A_R in R2.
  eapply ok_bind; [eapply ecp2_affine_ok; [exact R3|lia|lia]|]. clear Q3 R3. intros Q3 R3. apply ecp2A_R in R3.
  pose proof (proj1 R0) as O0. pose proof (proj1 R1) as O1. pose proof (proj1 R2) as O2. pose proof (proj1 R3) as O3.
  eapply ok_bind; [apply (ecp2_tab4_ok q0 q1 q2 q3 O0 O1 O2 O3 l E Q0 Q1 Q2 Q3 R0 R1 R2 R3 L); lia|]. intros W T.
  eapply ok_bind; [apply (mul4_recode_ok u0 u1 u2 u3 v0 v1 v2 v3 U0 U1 U2 U3 V)|].
  intros [pb ds] (cl & D1 & D2 & D3 & D4 & D5 & D6 & D7 & D8). subst ds.
  eapply ok_bind; [exact ecp2_new_ok|]. intros z Z. 
  destruct (tabg_get _ _ _ _ 3%nat T ltac:(lia)) as (w & G & WR). rewrite G. cbn [bind].
  destruct cl as [|c cl _] using rev_ind; [contradiction D2; reflexivity|].
  rewrite map_app, rev_app_distr. cbn [map rev app].
  apply Forall_app in D3. destruct D3 as [C1 C2]. inversion C2 as [|? ? C3 _ X]; subst.
  eapply ok_bind; [eapply (ecp2_selector_f l E _ W z (dg c) (lcc q0 q1 q2 q3 c) T (ecp2R_wf _ _ _ _ Z) (dg_wdig c C3)); [lia|lia|apply f4_dig; assumption]|].
  intros p0 P0. unfold lcc in P0.
  eapply ok_bind; [apply (ecp2_mul4_fold_ok q0 q1 q2 q3 O0 O1 O2 O3 l E W T L ltac:(lia) cl _ _ _ _ p0 w C1 P0 (ecp2R_wf _ _ _ _ WR))|].
  intros [p w'] PR. cbv beta zeta in PR.
  rewrite !map_app in D5. rewrite !map_app. cbn [map] in *. rewrite !pv_snoc, !map_length in *.
  set (n := 2 ^ Z.of_nat (length cl)) in *.
  eapply ok_bind; [eapply ecp2_sub_ok; [exact PR|exact R0|lia..]|]. intros w2 W2.
  rewrite <- (lc4_0 q0 q1 q2 q3) in W2 at 2. rewrite lc4_opp, lc4_add in W2 by assumption.
  rewrite (Z.add_comm (pv (map c1 cl))), (Z.add_comm (pv (map c2 cl))), (Z.add_comm (pv (map c3 cl))).
  pose proof (ecp2R_wf _ _ _ _ PR) as WP. pose proof (ecp2R_wf _ _ _ _ W2) as WW.
  destruct D4 as [->| ->].
  - rewrite ecp2_cmove0 by assumption. replace v0 with (n * cs c + pv (map cs cl)) by lia.
    eapply ecp2_affine_ok; [eapply ecp2R_weak; [exact PR|lia|lia]|lia|lia].
  - rewrite ecp2_cmove1 by assumption. replace v0 with (n * cs c + pv (map cs cl) + - (1)) by lia.
    rewrite !Z.add_0_r in W2.
    eapply ecp2_affine_ok; [eapply ecp2R_weak; [exact W2|lia|lia]|lia|lia].
Qed.

(* ------------------------------- g2mul -------------------------------- *)
Lemma gfi_eq : ginv gf = gfi. Proof. Transparent gfi. reflexivity. Qed.
#[local] Opaque gfi.
Lemma gi_const : ok (f <- fp2_new_bigs FRA FRB ;; f <- fp2_inverse f ;; fp2_norm f) (fp2R 1 2 gfi).
Proof.
  eapply ok_bind; [exact gf_const|]. intros f F. eapply ok_bind; [eapply fp2_inverse_ok; [exact F|lia|lia]|]. intros g G.
  rewrite gfi_eq in G. eapply fp2_norm_ok; [exact G|lia|lia].
Qed.
Lemma frob_x g x z : gmul (gconj (gmul x z)) (gmul g g) = gmul (px g x) (gconj z).
Proof. rewrite gconj_mul. unfold px. ring. Qed.
Lemma frob_y g y z : gmul (gmul (gconj (gmul y z)) (gmul g g)) g = gmul (py g y) (gconj z).
Proof. rewrite gconj_mul. unfold py. ring. Qed.
Lemma ecp2_frob_ok l E p a f : ecp2R l E p a -> fp2R 1 2 gfi f -> 1 <= l <= 8 -> 3 <= E <= 2097152 -> ok (ecp2_frob a f) (ecp2R 1 3 (psi p)).
Proof.
  intros (O & X & Y & Z & A & B & C & P) G L HE. unfold ecp2_frob.
  eapply ok_bind; [eapply fp2_sqr_ok; [exact G|lia..]|]. intros x2 X2.
  eapply ok_bind; [eapply fp2_conj_ok; [exact A|lia..]|]. intros px PX.
  eapply ok_bind; [eapply fp2_conj_ok; [exact B|lia..]|]. intros py PY.
  eapply ok_bind; [eapply fp2_conj_ok; [exact C|lia..]|]. intros pz PZ.
  eapply ok_bind; [eapply fp2_reduce_ok; [exact PZ|lia..]|]. intros pz' PZ'. apply fp2C_R in PZ'.
  eapply ok_bind; [eapply fp2_mul_ok; [exact PX|exact X2|lia..]|]. intros px' PX'.
  eapply ok_bind; [eapply fp2_mul_ok; [exact PY|exact X2|lia..]|]. intros py1 PY1.
  eapply ok_bind; [eapply fp2_mul_ok; [exact PY1|exact G|lia..]|]. intros py' PY'. cbn [ok].
  split; [apply psi2_on; exact O|]. do 3 eexists. cbn [e2x e2y e2z].
  split; [exact PX'|]. split; [exact PY'|]. split; [eapply fp2R_weak; [exact PZ'|lia|lia]|].
  destruct p as [|x y]; cbn [prep psi psi_] in *.
  - destruct P as (P1 & P2 & P3). rewrite P1, P2, gconj_0. split; [ring|]. split; [reflexivity|].
    intros H. pose proof gfi_nz as N. apply gconj_nz in P3.
    destruct (g_integral _ _ H) as [H1|H1]; [|exact (N H1)]. destruct (g_integral _ _ H1) as [H2|H2]; [exact (P3 H2)|].
    destruct (g_integral _ _ H2) as [H3|H3]; exact (N H3).
  - destruct P as (P1 & P2 & P3). split; [apply gconj_nz; exact P1|]. subst X Y. split; [apply frob_x|apply frob_y].
Qed.

Lemma eigen_psi p : eigen p -> psi p = zm2 (- bnx) p.
Proof.
  intros [O E]. rewrite zm2_opp by exact O. rewrite E. destruct (psi p) as [|x y]; [reflexivity|]. cbn [pneg]. f_equal. ring.
Qed.
Definition sg2 (n : bool) (P : pt2) : pt2 := if n then pneg2 P else P.
Lemma sg2_zm (n : bool) v v' k r P : on2 P -> zm2 r P = Inf -> (if n then - v' else v') = v + k * r -> zm2 v' (sg2 n P) = zm2 v P.
Proof.
  intros O K E. transitivity (zm2 (v + k * r) P).
  - rewrite <- E. destruct n; cbn [sg2]; [|reflexivity]. rewrite zm2_neg, zm2_opp by exact O. reflexivity.
  - rewrite zm2_add, zm2_mul, K, zm2_zero by exact O. apply padd2_0r.
Qed.
Lemma gs_split r x v (n0 n1 n2 n3 : bool) v0 v1 v2 v3 k0 k1 k2 k3 d0 d1 d2 d3 P : on2 P -> zm2 r P = Inf ->
  v = d0 + x * (d1 + x * (d2 + x * d3)) ->
  (if n0 then - v0 else v0) = d0 + k0 * r -> (if n1 then - v1 else v1) = r - d1 + k1 * r ->
  (if n2 then - v2 else v2) = d2 + k2 * r -> (if n3 then - v3 else v3) = r - d3 + k3 * r ->
  lc4 (sg2 n0 P) (sg2 n1 (zm2 (- x) P)) (sg2 n2 (zm2 (- x) (zm2 (- x) P))) (sg2 n3 (zm2 (- x) (zm2 (- x) (zm2 (- x) P)))) v0 v1 v2 v3 = zm2 v P.
Proof.
  intros O K V E0 E1 E2 E3. rewrite <- !zm2_mul by exact O.
  assert (KK : forall z, zm2 r (zm2 z P) = Inf) by (intros z; rewrite <- zm2_mul, Z.mul_comm, zm2_mul, K by exact O; apply zm2_zero).
  unfold lc4. rewrite (sg2_zm n0 _ _ _ _ _ O K E0). rewrite (sg2_zm n1 _ _ _ _ _ (zm2_on _ _ O) (KK _) E1).
  rewrite (sg2_zm n2 _ _ _ _ _ (zm2_on _ _ O) (KK _) E2), (sg2_zm n3 _ _ _ _ _ (zm2_on _ _ O) (KK _) E3).
  rewrite <- !zm2_mul, <- !zm2_add by exact O. subst v.
  transitivity (zm2 (d0 + x * (d1 + x * (d2 + x * d3)) + (- x + - (x * x * x)) * r) P); [f_equal; ring|].
  rewrite zm2_add, zm2_mul, K, zm2_zero by exact O. apply padd2_0r.
Qed.
Lemma g2_pick_ok l E u v q Q : ecp2R l E q Q -> 1 <= l <= 8 -> 1 <= E <= 1000000 -> loose u v -> 0 <= v <= r255 ->
  ok (g2_pick u Q) (fun '(u', Q') => exists (n : bool) v' k, rep 7 u' v' /\ 0 <= v' <= r255 /\ (if n then - v' else v') = v + k * r255 /\ ecp2R l (5 * E - 1) (sg2 n q) Q').
Proof.
  intros R L HE (U1 & U2 & U3) V. unfold g2_pick.
  eapply ok_bind; [apply (glv_pick_ok u v U1 U2 U3 V)|]. intros [u' n] (v' & k & H1 & H2 & H3).
  eapply (ok_bind _ _ (ecp2R l (5 * E - 1) (sg2 n q))).
  { destruct n; cbn [sg2]; [apply ecp2_neg_ok; [exact R|lia|lia]|]. cbn [ok]. eapply ecp2R_weak; [exact R|lia|lia]. }
  intros Q' RQ. cbn [ok]. exists n, v', k. split; [exact H1|]. split; [exact H2|]. split; [exact H3|exact RQ].
Qed.
Lemma g2mul_ok l E p a e v : ecp2R l E p a -> 1 <= l <= 8 -> 4 <= E <= 52000 -> eigen p -> rep 7 e v ->
  ok (g2mul a e) (ecp2A 8 2097152 (zm2 v p)).
Proof.
  intros R L HE EI RE. pose proof (proj1 EI) as O. pose proof (eigen_r p EI) as K. unfold g2mul.
  eapply ok_bind; [exact gf_const|]. intros f0 F0.
  eapply ok_bind; [apply (gs_ok e v RE)|]. intros u (u0 & u1 & u2 & u3 & d0 & d1 & d2 & d3 & -> & U0 & U1 & U2 & U3 & D0 & D1 & D2 & D3 & V).
  assert (XR : uZ < r255) by reflexivity. change uZ with bnx in *.
  eapply ok_bind; [eapply fp2_inverse_ok; [exact F0|lia|lia]|]. intros f1 F1. rewrite gfi_eq in F1.
  eapply ok_bind; [eapply fp2_norm_ok; [exact F1|lia|lia]|]. intros f F.
  eapply ok_bind; [eapply ecp2_frob_ok; [exact R|exact F|lia|lia]|]. intros Q1 R1.
  eapply ok_bind; [eapply ecp2_frob_ok; [exact R1|exact F|lia|lia]|]. intros Q2 R2.
  eapply ok_bind; [eapply ecp2_frob_ok; [exact R2|exact F|lia|lia]|]. intros Q3 R3.
  rewrite (eigen_psi _ EI) in R1, R2, R3. pose proof (eigen_zm (- bnx) p EI) as EI1.
  rewrite (eigen_psi _ EI1) in R2, R3. pose proof (eigen_zm (- bnx) _ EI1) as EI2. rewrite (eigen_psi _ EI2) in R3. clear EI1 EI2.
  assert (CV : forall q Q, ecp2R 1 3 q Q -> ecp2R l E q Q) by (intros q Q H; eapply ecp2R_weak; [exact H|lia|lia]).
  apply CV in R1, R2, R3. cbn [getM nth_error bind].
  revert K XR V D0 D1 D2 D3 U1 U3 R1 R2 R3. generalize bnx as x.
  intros x K XR V D0 D1 D2 D3 U1 U3 R1 R2 R3.
  eapply ok_bind; [apply (g2_pick_ok l E u0 d0 _ _ R L); [lia|exact U0|lia]|]. intros [w0 P0] (n0 & v0 & k0 & A0 & B0 & C0 & S0).
  eapply ok_bind; [apply (g2_pick_ok l E u1 (r255 - d1) _ _ R1 L); [lia|exact U1|lia]|]. intros [w1 P1] (n1 & v1 & k1 & A1 & B1 & C1 & S1).
  eapply ok_bind; [apply (g2_pick_ok l E u2 d2 _ _ R2 L); [lia|exact U2|lia]|]. intros [w2 P2] (n2 & v2 & k2 & A2 & B2 & C2 & S2).
  eapply ok_bind; [apply (g2_pick_ok l E u3 (r255 - d3) _ _ R3 L); [lia|exact U3|lia]|]. intros [w3 P3] (n3 & v3 & k3 & A3 & B3 & C3 & S3).
  pose proof r255_bnd as RB.
  eapply ok_impl; [apply (ecp2_mul4_ok l (5 * E - 1) _ _ _ _ P0 P1 P2 P3 w0 w1 w2 w3 v0 v1 v2 v3 S0 S1 S2 S3 L); [lia|assumption..|lia]|].
  intros b H. rewrite (gs_split r255 x v n0 n1 n2 n3 v0 v1 v2 v3 k0 k1 k2 k3 d0 d1 d2 d3 p O K V C0 C1 C2 C3) in H. exact H.
Qed.
