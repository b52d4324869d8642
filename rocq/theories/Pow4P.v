(* FP12::pow4 computes a product of four powers of unitary elements; gtpow
   computes d^e for the elements d of order r. *)
From Coq Require Import Lia ZifyBool.
From Verif Require Import Prim PrimP Rom Big BigP BigP2 BigP3 BigL NumT FieldQ FieldQ2 Fp FpP FpP2 Fp2 Fp2P Fp4 Fp12 Ecp WinP Ecp2 Ecp2P Tower TowerP FrobP CycP Fp4P Fp12P FexpP GenP PsiP Glv RecodeP Mul4P.

Definition wf12 (a : FP12) : Prop :=
  (wfF (f4a (f12a a)) /\ wfF (f4b (f12a a))) /\ (wfF (f4a (f12b a)) /\ wfF (f4b (f12b a))) /\ (wfF (f4a (f12c a)) /\ wfF (f4b (f12c a))).
Lemma fp12R_wf l E x a : fp12R l E x a -> wf12 a.
Proof.
  intros ((A1 & A2) & (B1 & B2) & (C1 & C2)). apply fp2R_wf in A1, A2, B1, B2, C1, C2.
  split; [split; assumption|]. split; split; assumption.
Qed.
Lemma fp12_new_wf : wf12 fp12_new.
Proof. repeat split. Qed.
Lemma fp12_cmove0 a b : wf12 a -> wf12 b -> fp12_cmove a b 0 = a.
Proof.
  intros ((A1 & A2) & (A3 & A4) & A5 & A6) ((B1 & B2) & (B3 & B4) & B5 & B6). unfold fp12_cmove, fp4_cmove.
  rewrite !wfF_cmove0 by assumption. destruct a as [[] [] []]. reflexivity.
Qed.
Lemma fp12_cmove1 a b : wf12 a -> wf12 b -> fp12_cmove a b 1 = b.
Proof.
  intros ((A1 & A2) & (A3 & A4) & A5 & A6) ((B1 & B2) & (B3 & B4) & B5 & B6). unfold fp12_cmove, fp4_cmove.
  rewrite !wfF_cmove1 by assumption. destruct b as [[] [] []]. reflexivity.
Qed.
Definition tabk (E : Z) (f : nat -> Fq12) (W : list FP12) : Prop :=
  length W = 8%nat /\ forall k a, nth_error W k = Some a -> fp12R 8 E (f k) a.
Lemma tabk_wf E f W : tabk E f W -> Forall wf12 W.
Proof.
  intros [_ H]. apply Forall_forall. intros a A. apply In_nth_error in A. destruct A as [k A]. apply H in A.
  eapply fp12R_wf; exact A.
Qed.
Lemma tabk_get E f W k : tabk E f W -> (k < 8)%nat -> exists a, getM W k = Some a /\ fp12R 8 E (f k) a.
Proof.
  intros [L H] K. unfold getM. destruct (nth_error W k) as [a|] eqn:G; [exists a; split; [reflexivity|apply H; exact G]|].
  apply nth_error_None in G. lia.
Qed.
Lemma fp12_selector_f E f W self d p : tabk E f W -> wf12 self -> wdig d -> 5 * E - 1 <= 33554432 ->
  (forall k, (k < 8)%nat -> (d = 2 * Z.of_nat k + 1 -> p = f k) /\ (d = - (2 * Z.of_nat k + 1) -> p = kconj (f k))) ->
  ok (fp12_selector self W d) (fp12R 8 (5 * E - 1) p).
Proof.
  intros T WS D HE P. unfold fp12_selector. destruct (wdig_case d D) as (k & K & SB & C). rewrite SB. cbn [bind].
  rewrite (sel_fold wf12 fp12_cmove fp12_cmove0 fp12_cmove1 W k K (proj1 T) (tabk_wf _ _ _ T) 8 0 self WS ltac:(lia)).
  destruct (tabk_get _ _ _ _ T K) as (a & G & A). destruct (P k K) as [P1 P2].
  destruct (Nat.leb_spec 0 k); [|lia]. destruct (Nat.ltb_spec k (0 + 8)); [|lia]. cbn [andb]. rewrite G. cbn [bind].
  pose proof (fp12R_pos _ _ _ _ A).
  eapply ok_bind; [eapply fp12_conj_ok; [exact A|lia|lia|lia]|]. intros n N. cbn [ok].
  pose proof (fp12R_wf _ _ _ _ A) as WA. pose proof (fp12R_wf _ _ _ _ N) as WN.
  destruct C as [[D1 S1]|[D1 S1]]; rewrite S1.
  - rewrite fp12_cmove0 by assumption. rewrite (P1 D1). eapply fp12R_weak; [exact A|lia|lia].
  - rewrite fp12_cmove1 by assumption. rewrite (P2 D1). eapply fp12R_weak; [exact N|lia|lia].
Qed.

Section Lin4.
  Variables (q0 q1 q2 q3 : Fq12).
  Hypothesis (O0 : cyc q0) (O1 : cyc q1) (O2 : cyc q2) (O3 : cyc q3).
  Definition km4 (a b c d : Z) : Fq12 := kmul (kmul (zp q0 a) (zp q1 b)) (kmul (zp q2 c) (zp q3 d)).
  Lemma km4_cyc a b c d : cyc (km4 a b c d).
  Proof. unfold km4. apply cyc_mul; apply cyc_mul; apply zp_cyc; assumption. Qed.
  Lemma km4_add a b c d a' b' c' d' : kmul (km4 a b c d) (km4 a' b' c' d') = km4 (a + a') (b + b') (c + c') (d + d').
  Proof.
    unfold km4. rewrite <- (zp_mul q0 a a' O0), <- (zp_mul q1 b b' O1), <- (zp_mul q2 c c' O2), <- (zp_mul q3 d d' O3).
    generalize (zp q0 a) (zp q0 a') (zp q1 b) (zp q1 b') (zp q2 c) (zp q2 c') (zp q3 d) (zp q3 d'). intros. ring.
  Qed.
  Lemma km4_conj a b c d : kconj (km4 a b c d) = km4 (- a) (- b) (- c) (- d).
  Proof. unfold km4. rewrite !kconj_mul. rewrite (zp_conj q0 a O0), (zp_conj q1 b O1), (zp_conj q2 c O2), (zp_conj q3 d O3). reflexivity. Qed.
  Lemma km4_0 : km4 1 0 0 0 = q0. Proof. unfold km4. rewrite (zp_1 q0 O0), !zp_0. generalize q0. intros. ring. Qed.
  Lemma km4_1 : km4 0 1 0 0 = q1. Proof. unfold km4. rewrite (zp_1 q1 O1), !zp_0. generalize q1. intros. ring. Qed.
  Lemma km4_2 : km4 0 0 1 0 = q2. Proof. unfold km4. rewrite (zp_1 q2 O2), !zp_0. generalize q2. intros. ring. Qed.
  Lemma km4_3 : km4 0 0 0 1 = q3. Proof. unfold km4. rewrite (zp_1 q3 O3), !zp_0. generalize q3. intros. ring. Qed.
  Definition k4 (k : nat) : Fq12 := km4 1 (b0 k) (b1 k) (b2 k).
  Definition kcc (c : col) : Fq12 := km4 (cs c) (c1 c) (c2 c) (c3 c).
  Lemma k4_dig c : colok c -> forall k, (k < 8)%nat -> (dg c = 2 * Z.of_nat k + 1 -> kcc c = k4 k) /\ (dg c = - (2 * Z.of_nat k + 1) -> kcc c = kconj (k4 k)).
  Proof.
    intros C k K. destruct (col_dig c k C K) as [H1 H2]. unfold kcc, k4. rewrite km4_conj.
    split; intros E; [destruct (H1 E) as (-> & -> & -> & ->)|destruct (H2 E) as (-> & -> & -> & ->)]; reflexivity.
  Qed.
  Lemma fp12_tab4_ok E Q0 Q1 Q2 Q3 : fp12R 8 E q0 Q0 -> fp12R 8 2097152 q1 Q1 -> fp12R 8 2097152 q2 Q2 -> fp12R 8 2097152 q3 Q3 -> 8192 <= E <= 2097152 ->
    ok (fp12_tab4 Q0 Q1 Q2 Q3) (tabk E k4).
  Proof.
    intros R0 R1 R2 R3 HE. rewrite <- km4_0 in R0. rewrite <- km4_1 in R1. rewrite <- km4_2 in R2. rewrite <- km4_3 in R3. unfold fp12_tab4.
    assert (M : forall a b c d a' b' c' d' F X Y, F <= 4194304 -> fp12R 8 F (km4 a b c d) X -> fp12R 8 2097152 (km4 a' b' c' d') Y ->
      ok (fp12_mul X Y) (fp12R 8 8192 (km4 (a + a') (b + b') (c + c') (d + d')))).
    { intros a b c d a' b' c' d' F X Y HF HX HY. rewrite <- km4_add. eapply ok_impl; [eapply fp12_mul_ok; [exact HX|exact HY|lia..]|].
      intros z Z. eapply fp12R_weak; [exact Z|lia|reflexivity || (unfold KB; lia)]. }
    eapply ok_bind; [refine (M _ _ _ _ _ _ _ _ E _ _ _ R0 R1); lia|]. intros t1 T1.
    eapply ok_bind; [refine (M _ _ _ _ _ _ _ _ E _ _ _ R0 R2); lia|]. intros t2 T2.
    eapply ok_bind; [refine (M _ _ _ _ _ _ _ _ 8192 _ _ _ T1 R2); lia|]. intros t3 T3.
    eapply ok_bind; [refine (M _ _ _ _ _ _ _ _ E _ _ _ R0 R3); lia|]. intros t4 T4.
    eapply ok_bind; [refine (M _ _ _ _ _ _ _ _ 8192 _ _ _ T1 R3); lia|]. intros t5 T5.
    eapply ok_bind; [refine (M _ _ _ _ _ _ _ _ 8192 _ _ _ T2 R3); lia|]. intros t6 T6.
    eapply ok_bind; [refine (M _ _ _ _ _ _ _ _ 8192 _ _ _ T3 R3); lia|]. intros t7 T7. cbn [ok].
    split; [reflexivity|]. intros k a G.
    destruct k as [|k]; [cbn [nth_error] in G; injection G as <-; exact R0|].
    destruct k as [|k]; [cbn [nth_error] in G; injection G as <-; eapply fp12R_weak; [exact T1|lia|lia]|].
    destruct k as [|k]; [cbn [nth_error] in G; injection G as <-; eapply fp12R_weak; [exact T2|lia|lia]|].
    destruct k as [|k]; [cbn [nth_error] in G; injection G as <-; eapply fp12R_weak; [exact T3|lia|lia]|].
    destruct k as [|k]; [cbn [nth_error] in G; injection G as <-; eapply fp12R_weak; [exact T4|lia|lia]|].
    destruct k as [|k]; [cbn [nth_error] in G; injection G as <-; eapply fp12R_weak; [exact T5|lia|lia]|].
    destruct k as [|k]; [cbn [nth_error] in G; injection G as <-; eapply fp12R_weak; [exact T6|lia|lia]|].
    destruct k as [|k]; [cbn [nth_error] in G; injection G as <-; eapply fp12R_weak; [exact T7|lia|lia]|].
    destruct k; discriminate G.
  Qed.
  Lemma fp12_pow4_step_ok E W A B C D r t c : tabk E k4 W -> colok c -> 8192 <= E <= 400000 -> fp12R 8 2097152 (km4 A B C D) r -> wf12 t ->
    ok (fp12_pow4_step W (r, t) (dg c)) (fun '(r', t') => fp12R 8 8192 (km4 (2 * A + cs c) (2 * B + c1 c) (2 * C + c2 c) (2 * D + c3 c)) r' /\ wf12 t').
  Proof.
    intros T CO HE R Q. unfold fp12_pow4_step.
    eapply ok_bind; [eapply fp12_usqr_ok; [exact R|lia..]|]. intros r1 R1. apply fp12C_R in R1. rewrite (kusqr_ok _ (km4_cyc A B C D)), km4_add in R1.
    eapply ok_bind; [eapply (fp12_selector_f E k4 W t (dg c) (kcc c) T Q (dg_wdig c CO)); [lia|apply k4_dig; exact CO]|]. intros s SE.
    eapply ok_bind; [eapply fp12_mul_ok; [exact R1|exact SE|lia..]|]. intros r3 R3. cbn [ok]. unfold kcc in R3. rewrite km4_add in R3.
    split; [|eapply fp12R_wf; exact SE].
    replace (2 * A) with (A + A) by lia. replace (2 * B) with (B + B) by lia. replace (2 * C) with (C + C) by lia. replace (2 * D) with (D + D) by lia.
    eapply fp12R_weak; [exact R3|lia|unfold KB; lia].
  Qed.
  Lemma fp12_pow4_fold_ok E W : tabk E k4 W -> 8192 <= E <= 400000 -> forall cl A B C D r t, Forall colok cl -> fp12R 8 2097152 (km4 A B C D) r -> wf12 t ->
    ok (foldM (fp12_pow4_step W) (rev (map dg cl)) (r, t)) (fun '(r', t') => let n := 2 ^ Z.of_nat (length cl) in
      fp12R 8 2097152 (km4 (n * A + pv (map cs cl)) (n * B + pv (map c1 cl)) (n * C + pv (map c2 cl)) (n * D + pv (map c3 cl))) r').
  Proof.
    intros T HE cl. induction cl as [|c cl IH] using rev_ind; intros A B C D r t CO R Q.
    - cbn [map rev foldM ok length pv]. change (2 ^ Z.of_nat 0) with 1. cbv zeta. rewrite !Z.mul_1_l, !Z.add_0_r. exact R.
    - rewrite !map_app. cbn [map]. rewrite rev_app_distr. cbn [rev app foldM].
      apply Forall_app in CO. destruct CO as [CO1 CO2]. inversion CO2 as [|? ? CO3 _ X]; subst.
      eapply ok_bind; [apply (fp12_pow4_step_ok E W A B C D r t c T CO3 HE R Q)|]. intros [r' t'] [R' Q'].
      eapply fp12R_weak in R'; [|split; [lia|apply Z.le_refl]|exact (ltac:(lia) : 8192 <= 2097152)].
      eapply ok_impl; [apply (IH _ _ _ _ _ _ CO1 R' Q')|]. cbv beta zeta. intros [r2 t2] R2.
      rewrite !pv_snoc, app_length, !map_length. cbn [length]. rewrite !Nat2Z.inj_add. change (Z.of_nat 1) with 1. rewrite !Z.pow_add_r by lia.
      change (2 ^ 1) with 2. set (n := 2 ^ Z.of_nat (length cl)) in *.
      replace (n * 2 * A + (pv (map cs cl) + n * cs c)) with (n * (2 * A + cs c) + pv (map cs cl)) by ring.
      replace (n * 2 * B + (pv (map c1 cl) + n * c1 c)) with (n * (2 * B + c1 c) + pv (map c1 cl)) by ring.
      replace (n * 2 * C + (pv (map c2 cl) + n * c2 c)) with (n * (2 * C + c2 c) + pv (map c2 cl)) by ring.
      replace (n * 2 * D + (pv (map c3 cl) + n * c3 c)) with (n * (2 * D + c3 c) + pv (map c3 cl)) by ring.
      exact R2.
  Qed.
End Lin4.

Lemma fp12_pow4_ok E q0 q1 q2 q3 Q0 Q1 Q2 Q3 u0 u1 u2 u3 v0 v1 v2 v3 :
  fp12R 8 E q0 Q0 -> fp12R 8 2097152 q1 Q1 -> fp12R 8 2097152 q2 Q2 -> fp12R 8 2097152 q3 Q3 -> 8192 <= E <= 400000 ->
  cyc q0 -> cyc q1 -> cyc q2 -> cyc q3 ->
  rep 7 u0 v0 -> rep 7 u1 v1 -> rep 7 u2 v2 -> rep 7 u3 v3 -> v0 + 1 < 2 ^ 406 ->
  ok (fp12_pow4 Q0 Q1 Q2 Q3 [u0; u1; u2; u3]) (fp12C (km4 q0 q1 q2 q3 v0 v1 v2 v3)).
Proof.
  intros R0 R1 R2 R3 HE O0 O1 O2 O3 U0 U1 U2 U3 V. unfold fp12_pow4.
  eapply ok_bind; [apply (mul4_recode_ok u0 u1 u2 u3 v0 v1 v2 v3 U0 U1 U2 U3 V)|].
  intros [pb ds] (cl & D1 & D2 & D3 & D4 & D5 & D6 & D7 & D8). subst ds.
  eapply ok_bind; [apply (fp12_tab4_ok q0 q1 q2 q3 O0 O1 O2 O3 E Q0 Q1 Q2 Q3 R0 R1 R2 R3); lia|]. intros W T.
  destruct (tabk_get _ _ _ 3%nat T ltac:(lia)) as (w & G & WR). rewrite G. cbn [bind].
  destruct cl as [|c cl _] using rev_ind; [contradiction D2; reflexivity|].
  rewrite map_app, rev_app_distr. cbn [map rev app].
  apply Forall_app in D3. destruct D3 as [C1 C2]. inversion C2 as [|? ? C3 _ X]; subst.
  eapply ok_bind; [eapply (fp12_selector_f E _ W fp12_new (dg c) (kcc q0 q1 q2 q3 c) T fp12_new_wf (dg_wdig c C3)); [lia|apply k4_dig; assumption]|].
  intros p0 P0. unfold kcc in P0.
  eapply fp12R_weak in P0; [|split; [lia|apply Z.le_refl]|exact (ltac:(lia) : 5 * E - 1 <= 2097152)].
  eapply ok_bind; [apply (fp12_pow4_fold_ok q0 q1 q2 q3 O0 O1 O2 O3 E W T HE cl _ _ _ _ p0 w C1 P0 (fp12R_wf _ _ _ _ WR))|].
  intros [p w'] PR. cbv beta zeta in PR.
  rewrite !map_app in D5. rewrite !map_app. cbn [map] in *. rewrite !pv_snoc, !map_length in *.
  set (n := 2 ^ Z.of_nat (length cl)) in *.
  rewrite <- (km4_0 q0 q1 q2 q3 O0) in R0 at 1.
  eapply ok_bind; [eapply fp12_conj_ok; [exact R0|lia..]|]. intros w1 W1. rewrite km4_conj in W1 by assumption.
  eapply ok_bind; [eapply fp12_mul_ok; [exact W1|exact PR|lia..]|]. intros w2 W2. rewrite km4_add in W2 by assumption.
  rewrite (Z.add_comm (pv (map c1 cl))), (Z.add_comm (pv (map c2 cl))), (Z.add_comm (pv (map c3 cl))).
  pose proof (fp12R_wf _ _ _ _ PR) as WP. pose proof (fp12R_wf _ _ _ _ W2) as WW.
  destruct D4 as [->| ->].
  - rewrite fp12_cmove0 by assumption. replace v0 with (n * cs c + pv (map cs cl)) by lia.
    eapply fp12_reduce_ok; [exact PR|lia|lia].
  - rewrite fp12_cmove1 by assumption. replace v0 with (- (1) + (n * cs c + pv (map cs cl))) by lia.
    change (- 0) with 0 in W2. rewrite !Z.add_0_l in W2.
    eapply fp12_reduce_ok; [exact W2|lia|unfold KB; lia].
Qed.

(* ------------------------------- gtpow -------------------------------- *)
Lemma zp_zp z a b : cyc z -> zp (zp z a) b = zp z (a * b).
Proof.
  intros C. pose proof cn_pos as P. unfold zp at 1. rewrite zp_kpw by (try exact C; apply Z.mod_pos_bound; lia).
  apply zp_congr. rewrite Z.mul_mod_idemp_r by lia. reflexivity.
Qed.
Lemma cyc_of_r r c z : 0 <= c -> 0 <= r -> r * c = cn -> kpw z r = k1 -> cyc z.
Proof. intros C R E H. unfold cyc. rewrite <- E, (kpw_mul z r c R C), H. apply kpw_one. Qed.
Lemma r_cyc z : kpw z r255 = k1 -> cyc z.
Proof.
  intros H. pose proof fexpo_r as E. rewrite Z.mul_comm in E.
  assert (F : 0 <= fexpo / 3) by (vm_compute; discriminate). assert (R : 0 <= r255) by (vm_compute; discriminate).
  exact (cyc_of_r r255 (fexpo / 3) z F R E H).
Qed.
Lemma zp_r r z k : cyc z -> 0 <= r -> kpw z r = k1 -> zp z (k * r) = k1.
Proof.
  intros C R H. rewrite Z.mul_comm. rewrite <- (zp_zp z r k C). rewrite (zp_pw z r C R), H. unfold zp. apply kpw_one.
Qed.
Lemma zp_add_r r z a k : cyc z -> 0 <= r -> kpw z r = k1 -> zp z (a + k * r) = zp z a.
Proof. intros C R H. rewrite <- (zp_mul z a (k * r) C), (zp_r r z k C R H). generalize (zp z a). intros. ring. Qed.
Lemma frob_eig r x c z : cyc z -> 0 <= r -> kpw z r = k1 -> x + q381 = r * c -> kfrob z = zp z (- x).
Proof.
  intros C R H E. rewrite (kfrob_pw z). pose proof q381_pos as QP. rewrite <- (zp_pw z q381 C) by lia.
  replace q381 with (- x + c * r) by lia. apply zp_add_r; assumption.
Qed.
Definition sgk (n : bool) (z : Fq12) : Fq12 := if n then kconj z else z.
Lemma sgk_cyc n z : cyc z -> cyc (sgk n z). Proof. intros C. destruct n; [apply cyc_conj; exact C|exact C]. Qed.
Lemma sgk_zp (n : bool) v v' k r z : cyc z -> 0 <= r -> kpw z r = k1 -> (if n then - v' else v') = v + k * r -> zp (sgk n z) v' = zp z v.
Proof.
  intros C R H E. transitivity (zp z (v + k * r)); [|apply zp_add_r; assumption]. rewrite <- E.
  destruct n; cbn [sgk]; [|reflexivity]. rewrite <- (zp_1 z C) at 1. rewrite (zp_conj z 1 C), (zp_zp z _ _ C). apply (f_equal (zp z)). ring.
Qed.
Lemma gt_split r x v (n0 n1 n2 n3 : bool) v0 v1 v2 v3 k0 k1' k2 k3 d0 d1 d2 d3 z : cyc z -> 0 <= r -> kpw z r = k1 ->
  v = d0 + x * (d1 + x * (d2 + x * d3)) ->
  (if n0 then - v0 else v0) = d0 + k0 * r -> (if n1 then - v1 else v1) = r - d1 + k1' * r ->
  (if n2 then - v2 else v2) = d2 + k2 * r -> (if n3 then - v3 else v3) = r - d3 + k3 * r ->
  km4 (sgk n0 z) (sgk n1 (zp z (- x))) (sgk n2 (zp (zp z (- x)) (- x))) (sgk n3 (zp (zp (zp z (- x)) (- x)) (- x))) v0 v1 v2 v3 = zp z v.
Proof.
  intros C R H V E0 E1 E2 E3. rewrite !zp_zp by (try apply zp_cyc; exact C).
  assert (KK : forall a, kpw (zp z a) r = k1) by (intros a; rewrite (zp_kpw z a r C R); apply zp_r; assumption).
  pose proof (fun a => zp_cyc z a C) as CC.
  unfold km4. rewrite (sgk_zp n0 _ _ _ _ _ C R H E0). rewrite (sgk_zp n1 _ _ _ _ _ (CC _) R (KK _) E1).
  rewrite (sgk_zp n2 _ _ _ _ _ (CC _) R (KK _) E2), (sgk_zp n3 _ _ _ _ _ (CC _) R (KK _) E3).
  rewrite !zp_zp by exact C. rewrite !(zp_mul z _ _ C). subst v.
  transitivity (zp z (d0 + x * (d1 + x * (d2 + x * d3)) + (- x + - (x * x * x)) * r)); [f_equal; ring|]. apply zp_add_r; assumption.
Qed.
Lemma gt_pick_ok E u v z d : fp12R 8 E z d -> E <= 419000 -> loose u v -> 0 <= v <= r255 ->
  ok (gt_pick u d) (fun '(u', d') => exists (n : bool) v' k, rep 7 u' v' /\ 0 <= v' <= r255 /\ (if n then - v' else v') = v + k * r255 /\ fp12R 8 (5 * E - 1) (sgk n z) d').
Proof.
  intros R HE (U1 & U2 & U3) V. pose proof (fp12R_pos _ _ _ _ R) as EP. unfold gt_pick.
  eapply ok_bind; [apply (glv_pick_ok u v U1 U2 U3 V)|]. intros [u' n] (v' & k & H1 & H2 & H3).
  eapply (ok_bind _ _ (fp12R 8 (5 * E - 1) (sgk n z))).
  { destruct n; cbn [sgk]; [|cbn [ok]; eapply fp12R_weak; [exact R|lia|lia]].
    eapply ok_impl; [eapply fp12_conj_ok; [exact R|lia..]|]. intros b B. eapply fp12R_weak; [exact B|lia|lia]. }
  intros Q' RQ. cbn [ok]. exists n, v', k. split; [exact H1|]. split; [exact H2|]. split; [exact H3|exact RQ].
Qed.
Lemma gtpow_ok E z d e v : fp12R 8 E z d -> E <= 50000 -> kpw z r255 = k1 -> rep 7 e v ->
  ok (gtpow d e) (fp12C (zp z v)).
Proof.
  intros R HE0 H RE. pose proof (fp12R_pos _ _ _ _ R) as EP. pose proof (r_cyc z H) as C. unfold gtpow.
  assert (R' : fp12R 8 50000 z d) by (eapply fp12R_weak; [exact R|lia|lia]). clear R HE0 EP E. rename R' into R.
  eapply ok_bind; [exact gf_const|]. intros f F.
  eapply ok_bind; [apply (gs_ok e v RE)|]. intros u (u0 & u1 & u2 & u3 & d0 & d1 & d2 & d3 & -> & U0 & U1 & U2 & U3 & D0 & D1 & D2 & D3 & V).
  assert (XR : uZ < r255) by reflexivity. change uZ with bnx in *.
  destruct r_div as (c & CP & RD). assert (RP : 0 <= r255) by (vm_compute; discriminate). pose proof r255_bnd as RB.
  eapply ok_bind; [eapply fp12_frob_ok; [exact R|exact F|lia..]|]. intros Q1 R1.
  eapply ok_bind; [eapply fp12_frob_ok; [exact R1|exact F|lia..]|]. intros Q2 R2.
  eapply ok_bind; [eapply fp12_frob_ok; [exact R2|exact F|lia..]|]. intros Q3 R3.
  change (kfrobf gf) with kfrob in R1, R2, R3.
  rewrite (frob_eig r255 bnx c z C RP H RD) in R1, R2, R3.
  assert (KK : forall a, kpw (zp z a) r255 = k1) by (intros a; rewrite (zp_kpw z a r255 C RP); apply zp_r; assumption).
  rewrite (frob_eig r255 bnx c _ (zp_cyc z _ C) RP (KK _) RD) in R2, R3. rewrite (zp_zp z _ _ C) in R3.
  rewrite (frob_eig r255 bnx c _ (zp_cyc z _ C) RP (KK _) RD) in R3. rewrite <- (zp_zp z _ _ C) in R3.
  cbn [getM nth_error bind]. clear CP RD KK.
  revert H RP RB XR V D0 D1 D2 D3 U1 U3 R1 R2 R3. generalize bnx as x.
  intros x H RP RB XR V D0 D1 D2 D3 U1 U3 R1 R2 R3.
  eapply ok_bind; [apply (gt_pick_ok _ u0 d0 _ _ R); [lia|exact U0|lia]|]. intros [w0 P0] (n0 & v0 & k0 & A0 & B0 & C0 & S0).
  eapply ok_bind; [apply (gt_pick_ok _ u1 (r255 - d1) _ _ R1); [lia|exact U1|lia]|]. intros [w1 P1] (n1 & v1 & k1' & A1 & B1 & C1 & S1).
  eapply ok_bind; [apply (gt_pick_ok _ u2 d2 _ _ R2); [lia|exact U2|lia]|]. intros [w2 P2] (n2 & v2 & k2 & A2 & B2 & C2 & S2).
  eapply ok_bind; [apply (gt_pick_ok _ u3 (r255 - d3) _ _ R3); [lia|exact U3|lia]|]. intros [w3 P3] (n3 & v3 & k3 & A3 & B3 & C3 & S3).
  assert (WK : forall E q Q, fp12R 8 E q Q -> E <= 2097152 -> fp12R 8 2097152 q Q) by (intros E q Q HQ HL; eapply fp12R_weak; [exact HQ|lia|exact HL]).
  eapply ok_impl; [apply (fp12_pow4_ok (5 * 50000 - 1) _ _ _ _ P0 P1 P2 P3 w0 w1 w2 w3 v0 v1 v2 v3 S0 (WK _ _ _ S1 ltac:(lia)) (WK _ _ _ S2 ltac:(lia)) (WK _ _ _ S3 ltac:(lia)))|].
  - lia.
  - apply sgk_cyc; exact C.
  - apply sgk_cyc, zp_cyc; exact C.
  - apply sgk_cyc, zp_cyc, zp_cyc; exact C.
  - apply sgk_cyc, zp_cyc, zp_cyc, zp_cyc; exact C.
  - exact A0.
  - exact A1.
  - exact A2.
  - exact A3.
  - lia.
  - intros b Hb. rewrite (gt_split r255 x v n0 n1 n2 n3 v0 v1 v2 v3 k0 k1' k2 k3 d0 d1 d2 d3 z C RP H V C0 C1 C2 C3) in Hb. exact Hb.
Qed.
