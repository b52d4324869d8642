(* The order of the twist group is h2 * r, and the points killed by r are the eigenspace of psi. *)
From Coq Require Import ZArith List Bool Lia Znumtheory.
From Verif Require Import Dig PowD NumT FieldQ FieldQ2 SpecCurve CurveP GroupP EcpP Ecp2P Ecp2C MapP FexpP FinGrp PsiP TwD TwGrp TwPts TwPsi PrimesD.
Import ListNotations.
Open Scope Z_scope.

Lemma tpsi_4 a : tadd (tpsi (tpsi (tpsi (tpsi a)))) a = tpsi (tpsi a).
Proof. apply tp_ext. rewrite tp_add, !tp_psi. apply psi_4, tp_on. Qed.
Lemma t_eigen_kills u a : tpsi a = tsm u a -> tsm (u * u * u * u - u * u + 1) a = tz.
Proof. exact (eigen_kills TP tz tadd tneg taddC taddA tadd0 taddN tpsi tpsi_add tpsi_4 u a). Qed.
Notation tlc := (lc TP tz tadd tneg tpsi).
Lemma t_norm_kills a b c x : tlc x a b c 0 = tz -> forall X Y, X = a * a - c * c -> Y = 2 * a * c + c * c - b * b -> tsm (X * X + X * Y + Y * Y) x = tz.
Proof. exact (norm_kills TP tz tadd tneg taddC taddA tadd0 taddN tpsi tpsi_add tpsi_4 a b c x). Qed.
Lemma t_bez k l a : tsm k a = tz -> tsm l a = tz -> Z.gcd k l = 1 -> a = tz.
Proof. exact (sm_bez TP tz tadd tneg taddC taddA tadd0 taddN k l a). Qed.
Lemma t_mul k l a : tsm (k * l) a = tsm k (tsm l a). Proof. exact (sm_mul TP tz tadd tneg taddC taddA tadd0 taddN k l a). Qed.
Lemma t_z k : tsm k tz = tz. Proof. exact (sm_z TP tz tadd tneg taddC taddA tadd0 taddN k). Qed.
Lemma t_lc_add x a b c d a' b' c' d' : tadd (tlc x a b c d) (tlc x a' b' c' d') = tlc x (a + a') (b + b') (c + c') (d + d').
Proof. exact (lc_add TP tz tadd tneg taddC taddA tadd0 taddN tpsi x a b c d a' b' c' d'). Qed.
Lemma t_lc_sm k x a b c d : tsm k (tlc x a b c d) = tlc x (k * a) (k * b) (k * c) (k * d).
Proof. exact (lc_sm TP tz tadd tneg taddC taddA tadd0 taddN tpsi k x a b c d). Qed.
Lemma t_lc_psi x a b c d : tpsi (tlc x a b c d) = tlc x (- d) a (b + d) c.
Proof. exact (lc_psi TP tz tadd tneg taddC taddA tadd0 taddN tpsi tpsi_add tpsi_4 x a b c d). Qed.
Lemma t_lc_1 x : tlc x 1 0 0 0 = x. Proof. exact (lc_1 TP tz tadd tneg taddC taddA tadd0 taddN tpsi x). Qed.
Lemma t_opp1 a : tneg a = tsm (- (1)) a.
Proof. symmetry. etransitivity; [exact (sm_opp TP tz tadd tneg taddC taddA tadd0 taddN 1 a)|]. apply (f_equal tneg). exact (sm_1 TP tz tadd tneg taddC taddA tadd0 taddN a). Qed.
Lemma psi_sm_t k a : tpsi (tsm k a) = tsm k (tpsi a).
Proof. exact (psi_sm TP tz tadd tneg taddC taddA tadd0 taddN tpsi tpsi_add k a). Qed.

Lemma tp_aff a p : tp a = vp p -> a <> tz.
Proof. intros H E. rewrite E in H. discriminate. Qed.

(* from the certificates *)
Lemma zm_pred l p : on2 p -> zm2 (l - 1) p = pneg2 p -> zm2 l p = Inf.
Proof.
  intros O H. replace l with ((l - 1) + 1) by lia. rewrite (zm2_add (l - 1) 1 p O), H, zm2_1.
  rewrite padd2_comm; [apply padd2_neg; exact O|apply pneg2_on; exact O|exact O].
Qed.
Lemma kills l b n os c : onk b c = true -> neg2 b n = true -> runk b n os (fst b, n) = true -> fold_left kop os 1 = l - 1 ->
  exists a : TP, tp a = vp b /\ tsm l a = tz.
Proof.
  intros O N R K. apply onk_ok in O. exists (mk (vp b) O). split; [reflexivity|]. apply tp_ext. rewrite tp_sm, tp_mk, tp_z.
  apply (runk_ok _ _ _ _ O) in R. rewrite K, (neg2_ok _ _ N) in R. apply zm_pred; [exact O|]. symmetry. exact R.
Qed.
Definition t2713_c : ocert := Eval vm_compute in mkon t2713_z.
Definition t11953_c : ocert := Eval vm_compute in mkon t11953_z.
Definition t262069_c : ocert := Eval vm_compute in mkon t262069_z.
Definition t13_c : ocert := Eval vm_compute in mkon t13_z.
Definition t23_c : ocert := Eval vm_compute in mkon t23_z.
Definition tG_c : ocert := Eval vm_compute in mkon tG_z.
Definition tM_c : ocert := Eval vm_compute in mkon tM_z.
Lemma kills_2713 : exists a : TP, tp a = vp t2713_p /\ tsm 2713 a = tz.
Proof. apply (kills 2713 t2713_p t2713_n (fst t2713_o) t2713_c); [vmt|vmt|vmt|vm_cast_no_check (eq_refl 2712)]. Qed.
Lemma kills_11953 : exists a : TP, tp a = vp t11953_p /\ tsm 11953 a = tz.
Proof. apply (kills 11953 t11953_p t11953_n (fst t11953_o) t11953_c); [vmt|vmt|vmt|vm_cast_no_check (eq_refl 11952)]. Qed.
Lemma kills_262069 : exists a : TP, tp a = vp t262069_p /\ tsm 262069 a = tz.
Proof. apply (kills 262069 t262069_p t262069_n (fst t262069_o) t262069_c); [vmt|vmt|vmt|vm_cast_no_check (eq_refl 262068)]. Qed.
Lemma kills_13 : exists a : TP, tp a = vp t13_p /\ tsm 13 a = tz.
Proof. apply (kills 13 t13_p t13_n (fst t13_o) t13_c); [vmt|vmt|vmt|vm_cast_no_check (eq_refl 12)]. Qed.
Lemma kills_23 : exists a : TP, tp a = vp t23_p /\ tsm 23 a = tz.
Proof. apply (kills 23 t23_p t23_n (fst t23_o) t23_c); [vmt|vmt|vmt|vm_cast_no_check (eq_refl 22)]. Qed.

Lemma div_2713 : (2713 | tord).
Proof. destruct kills_2713 as (a & A & K). exact (tord_prime 2713 a p2713 (tp_aff _ _ A) K). Qed.
Lemma div_11953 : (11953 | tord).
Proof. destruct kills_11953 as (a & A & K). exact (tord_prime 11953 a p11953 (tp_aff _ _ A) K). Qed.
Lemma div_262069 : (262069 | tord).
Proof. destruct kills_262069 as (a & A & K). exact (tord_prime 262069 a p262069 (tp_aff _ _ A) K). Qed.
Lemma div_23 : (23 * 23 | tord).
Proof.
  destruct kills_23 as (a & A & K). pose proof (tp_aff _ _ A) as NZ. apply (tord_prime2 23 a (tpsi a) p23 NZ K).
  - rewrite <- psi_sm_t, K. apply tp_ext. reflexivity.
  - intros i I E. apply NZ. apply t_eigen_kills in E. apply (t_bez _ _ _ E K).
    assert (F : forallb (fun i => Z.gcd (i * i * i * i - i * i + 1) 23 =? 1) (zr 23) = true) by (vm_compute; reflexivity).
    rewrite forallb_forall in F. apply Z.eqb_eq. apply F. apply zr_in. exact I.
Qed.
(* psi T is none of 2T, -2T, 6T, -6T *)
Definition lastp (os : list op) (p : dpt) : dpt := match rev os with (OD c | OA c | OS c) :: _ => c_p c | [] => p end.
Definition t13_o2 : list op := Eval cbv in firstn 1 (fst t13_o).
Definition t13_o6 : list op := Eval cbv in firstn 3 (fst t13_o).
Definition t13_e2 : dpt := Eval cbv in lastp t13_o2 t13_p.
Definition t13_e6 : dpt := Eval cbv in lastp t13_o6 t13_p.
Definition t13psi_c : pcert := Eval vm_compute in mkpsi t13_z t13psi_z.
Definition redn (a b : d2) : bool := red2 a && red2 b && ne2 a b.
Lemma redn_ok a b : redn a b = true -> v2 a <> v2 b.
Proof. unfold redn. intros H. apply andb_true_iff in H. destruct H as [H H3]. apply andb_true_iff in H. destruct H as [H1 H2]. apply ne2_ok; assumption. Qed.
Lemma vp_x p e : v2 (fst p) <> v2 (fst e) -> vp p <> vp e /\ vp p <> pneg2 (vp e).
Proof.
  intros N. unfold vp. split; intros H; apply N; apply (f_equal (fun p => match p with Inf => g0 | Aff x _ => x end)) in H; exact H.
Qed.
Lemma t13_2 : vp t13_e2 = zm2 2 (vp t13_p).
Proof.
  assert (O : on2 (vp t13_p)) by (apply (onk_ok _ t13_c); vmt).
  pose proof (runk_ok t13_p t13_n t13_o2 t13_e2 O) as H. change (fold_left kop t13_o2 1) with 2 in H. apply H. vmt.
Qed.
Lemma t13_6 : vp t13_e6 = zm2 6 (vp t13_p).
Proof.
  assert (O : on2 (vp t13_p)) by (apply (onk_ok _ t13_c); vmt).
  pose proof (runk_ok t13_p t13_n t13_o6 t13_e6 O) as H. change (fold_left kop t13_o6 1) with 6 in H. apply H. vmt.
Qed.
Lemma t13_psi : psi (vp t13_p) = vp t13psi_p. Proof. apply (psik_ok _ _ t13psi_c). vmt. Qed.
Lemma t13_n2 : v2 (fst t13psi_p) <> v2 (fst t13_e2). Proof. apply redn_ok. vmt. Qed.
Lemma t13_n6 : v2 (fst t13psi_p) <> v2 (fst t13_e6). Proof. apply redn_ok. vmt. Qed.
Lemma zm_compl j k p : on2 p -> zm2 (j + k) p = Inf -> zm2 k p = pneg2 (zm2 j p).
Proof.
  intros O H. rewrite (zm2_add j k p O) in H. 
  pose proof (zm2_on j p O) as OJ. pose proof (zm2_on k p O) as OK.
  transitivity (padd2 (padd2 (pneg2 (zm2 j p)) (zm2 j p)) (zm2 k p)).
  - rewrite (padd2_comm (pneg2 (zm2 j p)) (zm2 j p)) by (try apply pneg2_on; assumption). rewrite padd2_neg by exact OJ. symmetry. apply padd2_0l.
  - rewrite padd2_assoc by (try apply pneg2_on; assumption). rewrite H. apply padd2_0r.
Qed.
Lemma div_13 : (13 * 13 | tord).
Proof.
  destruct kills_13 as (a & A & K). pose proof (tp_aff _ _ A) as NZ. apply (tord_prime2 13 a (tpsi a) p13 NZ K).
  - rewrite <- psi_sm_t, K. apply tp_ext. reflexivity.
  - intros i I E. pose proof E as E0. apply t_eigen_kills in E.
    assert (F : forallb (fun i => (Z.gcd (i * i * i * i - i * i + 1) 13 =? 1) || (i =? 2) || (i =? 6) || (i =? 7) || (i =? 11)) (zr 13) = true) by (vm_compute; reflexivity).
    rewrite forallb_forall in F. specialize (F i (proj2 (zr_in 13 i) I)).
    apply (f_equal tp) in E0. rewrite tp_psi, tp_sm, A, t13_psi in E0.
    assert (K' : zm2 13 (vp t13_p) = Inf) by (rewrite <- A, <- tp_sm, K; reflexivity).
    assert (O : on2 (vp t13_p)) by (rewrite <- A; apply tp_on).
    destruct (Z.eqb_spec i 2) as [->|_]; [rewrite <- t13_2 in E0; exact (proj1 (vp_x _ _ t13_n2) E0)|].
    destruct (Z.eqb_spec i 6) as [->|_]; [rewrite <- t13_6 in E0; exact (proj1 (vp_x _ _ t13_n6) E0)|].
    destruct (Z.eqb_spec i 7) as [->|_]; [rewrite (zm_compl 6 7 _ O K'), <- t13_6 in E0; exact (proj2 (vp_x _ _ t13_n6) E0)|].
    destruct (Z.eqb_spec i 11) as [->|_]; [rewrite (zm_compl 2 11 _ O K'), <- t13_2 in E0; exact (proj2 (vp_x _ _ t13_n2) E0)|].
    rewrite !orb_false_r in F. apply Z.eqb_eq in F. apply NZ. exact (t_bez _ _ _ E K F).
Qed.

(* the generator *)
Definition tGpsi_z : zpt := Eval vm_compute in zneg (snd tG_o).
Definition tGpsi_p : dpt := Eval vm_compute in ofD tGpsi_z.
Definition tGpsi_c : pcert := Eval vm_compute in mkpsi tG_z tGpsi_z.
Definition eqp (p e : dpt) : bool := eqn (fst (fst p)) (fst (fst e)) && eqn (snd (fst p)) (snd (fst e)) && eqn (fst (snd p)) (fst (snd e)) && eqn (snd (snd p)) (snd (snd e)).
Definition G2pt : pt2 := vp tG_p.
Lemma G2_eigen : eigen G2pt.
Proof.
  assert (O : on2 (vp tG_p)) by (apply (onk_ok _ tG_c); vmt). split; [exact O|]. unfold G2pt.
  assert (P : psi (vp tG_p) = vp tGpsi_p) by (apply (psik_ok _ _ tGpsi_c); vmt).
  assert (N : vp (fst tGpsi_p, snd tG_e) = pneg2 (vp tGpsi_p)) by (apply neg2_ok; vmt).
  assert (E : vp (fst tGpsi_p, snd tG_e) = vp tG_e) by (apply vp_ext; vmt).
  assert (R : vp tG_e = zm2 (fold_left kop (fst tG_o) 1) (vp tG_p)) by (apply (runk_ok tG_p tG_n); [exact O|vmt]).
  assert (B : fold_left kop (fst tG_o) 1 = bnx) by (vm_cast_no_check (eq_refl bnx)).
  rewrite B in R. rewrite P, <- N, E. symmetry. exact R.
Qed.
Lemma psi_u p : eigen p -> psi p = zm2 (- bnx) p.
Proof.
  intros [O H]. rewrite (zm2_opp bnx p O), H. pose proof (psi2_on p O) as OP. destruct (psi p) as [|x y]; [reflexivity|].
  cbn [pneg]. apply (f_equal2 (@Aff Fq2)); [reflexivity|ring].
Qed.
Lemma r_u : - bnx * - bnx * - bnx * - bnx - - bnx * - bnx + 1 = r255.
Proof. vm_compute. reflexivity. Qed.
Lemma eigen_r p : eigen p -> zm2 r255 p = Inf.
Proof.
  intros E. pose proof (psi_u p E) as U. destruct E as [O _].
  assert (H : tpsi (mk p O) = tsm (- bnx) (mk p O)) by (apply tp_ext; rewrite tp_psi, tp_sm, tp_mk; exact U).
  apply t_eigen_kills in H. rewrite r_u in H. apply (f_equal tp) in H. rewrite tp_sm, tp_mk in H. exact H.
Qed.
Definition tG : TP := mk G2pt (proj1 G2_eigen).
Lemma tG_nz : tG <> tz. Proof. apply (tp_aff _ tG_p). reflexivity. Qed.
Lemma tG_r : tsm r255 tG = tz. Proof. apply tp_ext. rewrite tp_sm. unfold tG. rewrite tp_mk. exact (eigen_r _ G2_eigen). Qed.
Lemma div_r : (r255 | tord). Proof. exact (tord_prime r255 tG r255_prime tG_nz tG_r). Qed.

(* the big prime *)
Definition p448 : Z := 402096035359507321594726366720466575392706800671181159425656785868777272553337714697862511267018014931937703598282857976535744623203249.
Definition s9 : Z := 6837970941253162269.
Definition tpM_c : pcert := Eval vm_compute in mkpsi tM_z tpM_z.
Definition tppM_c : pcert := Eval vm_compute in mkpsi tpM_z tppM_z.
Lemma on_M : on2 (vp tM_p). Proof. apply (onk_ok _ tM_c). vmt. Qed.
Lemma psi_M : psi (vp tM_p) = vp tpM_p. Proof. apply (psik_ok _ _ tpM_c). vmt. Qed.
Lemma psi_pM : psi (vp tpM_p) = vp tppM_p. Proof. apply (psik_ok _ _ tppM_c). vmt. Qed.
Lemma M_v : zm2 bnx (vp tM_p) = vp tM_e.
Proof.
  pose proof (runk_ok tM_p tM_n (fst tM_o) tM_e on_M) as R. assert (B : fold_left kop (fst tM_o) 1 = bnx) by (vm_cast_no_check (eq_refl bnx)).
  rewrite B in R. symmetry. apply R. vmt.
Qed.
Lemma Q1_eq : padd2 (vp tM_e) (vp tM_p) = vp tQ1_e.
Proof. transitivity (vp (c_p (fst tQ1_c))); [apply addck_ok; vmt|apply vp_ext; vmt]. Qed.
Lemma npM_eq : vp tnpM_p = pneg2 (vp tpM_p).
Proof. transitivity (vp (fst tpM_p, snd tnpM_p)); [apply vp_ext; vmt|apply neg2_ok; vmt]. Qed.
Lemma Q2_eq : padd2 (vp tQ1_e) (vp tnpM_p) = vp tQ3_p.
Proof. transitivity (vp (c_p (fst tQ2_c))); [apply addck_ok; vmt|apply vp_ext; vmt]. Qed.
Lemma on_Q2 : on2 (vp tQ3_p).
Proof.
  rewrite <- Q2_eq, npM_eq, <- psi_M, <- Q1_eq, <- M_v. pose proof on_M as O.
  apply padd2_on; [apply padd2_on; [apply zm2_on; exact O|exact O]|apply pneg2_on, psi2_on; exact O].
Qed.
Lemma Q3_eq : zm2 bnx (vp tQ3_p) = vp tQ3_e.
Proof.
  pose proof (runk_ok tQ3_p tQ3_n (fst tQ3_o) tQ3_e on_Q2) as R. assert (B : fold_left kop (fst tQ3_o) 1 = bnx) by (vm_cast_no_check (eq_refl bnx)).
  rewrite B in R. symmetry. apply R. vmt.
Qed.
Lemma R1_eq : padd2 (vp tM_p) (vp tpM_p) = vp tR1_e.
Proof. transitivity (vp (c_p (fst tR1_c))); [apply addck_ok; vmt|apply vp_ext; vmt]. Qed.
Lemma R2_eq : zm2 2 (vp tppM_p) = vp tR2_e.
Proof.
  assert (O : on2 (vp tR2_p)). { replace (vp tR2_p) with (vp tppM_p) by (apply vp_ext; vmt). rewrite <- psi_pM, <- psi_M. apply psi2_on, psi2_on, on_M. }
  replace (vp tppM_p) with (vp tR2_p) by (apply vp_ext; vmt).
  pose proof (runk_ok tR2_p tR2_n (fst tR2_o) tR2_e O) as R. assert (B : fold_left kop (fst tR2_o) 1 = 2) by (vm_cast_no_check (eq_refl 2)).
  rewrite B in R. symmetry. apply R. vmt.
Qed.
Lemma R3_eq : padd2 (vp tQ3_e) (vp tR2_e) = vp tR1_e.
Proof. transitivity (vp (c_p (fst tR3_c))); [apply addck_ok; vmt|apply vp_ext; vmt]. Qed.
Lemma S_eq : zm2 s9 (vp tM_p) = vp tS_e.
Proof.
  replace (vp tM_p) with (vp tS_p) by (apply vp_ext; vmt). assert (O : on2 (vp tS_p)) by (replace (vp tS_p) with (vp tM_p) by (apply vp_ext; vmt); exact on_M).
  pose proof (runk_ok tS_p tS_n (fst tS_o) tS_e O) as R. assert (B : fold_left kop (fst tS_o) 1 = s9) by (vm_cast_no_check (eq_refl s9)).
  rewrite B in R. symmetry. apply R. vmt.
Qed.
Section Comb.
  Variables (x : TP) (v : Z).
  Lemma comb : tadd (tsm v (tadd (tadd (tsm v x) x) (tneg (tpsi x)))) (tsm 2 (tpsi (tpsi x))) = tadd x (tpsi x) ->
    tlc x (v * v + v - 1) (- v - 1) 2 0 = tz.
  Proof.
    intros H.
    assert (E1 : tsm v x = tlc x v 0 0 0) by (rewrite <- (t_lc_1 x) at 1; rewrite t_lc_sm; f_equal; ring).
    assert (E2 : tpsi x = tlc x 0 1 0 0) by (rewrite <- (t_lc_1 x) at 1; rewrite t_lc_psi; reflexivity).
    assert (E3 : tpsi (tpsi x) = tlc x 0 0 1 0) by (rewrite E2 at 1; rewrite t_lc_psi; reflexivity).
    assert (E0 : x = tlc x 1 0 0 0) by (symmetry; apply t_lc_1).
    assert (EL : tadd (tsm v (tadd (tadd (tsm v x) x) (tneg (tpsi x)))) (tsm 2 (tpsi (tpsi x))) = tlc x (v * v + v) (- v) 2 0).
    { rewrite E1, E3, (t_opp1 (tpsi x)), E2. rewrite E0 at 2. rewrite !t_lc_sm, !t_lc_add, !t_lc_sm, !t_lc_add. f_equal; ring. }
    assert (ER : tadd x (tpsi x) = tlc x 1 1 0 0).
    { rewrite E2. rewrite E0 at 1. rewrite t_lc_add. reflexivity. }
    rewrite EL, ER in H.
    transitivity (tadd (tlc x (v * v + v) (- v) 2 0) (tneg (tlc x 1 1 0 0))).
    - rewrite t_opp1, t_lc_sm, t_lc_add. f_equal; ring.
    - rewrite H. apply taddN.
  Qed.
End Comb.
Definition tM : TP := mk (vp tM_p) on_M.
Lemma M_rel : tadd (tsm bnx (tadd (tadd (tsm bnx tM) tM) (tneg (tpsi tM)))) (tsm 2 (tpsi (tpsi tM))) = tadd tM (tpsi tM).
Proof.
  apply tp_ext. rewrite !tp_add, !tp_sm, !tp_psi, !tp_add, tp_neg, tp_sm, tp_psi. unfold tM. rewrite tp_mk.
  rewrite M_v, Q1_eq, psi_M, <- npM_eq, Q2_eq, Q3_eq, psi_pM, R2_eq, R3_eq. symmetry. exact R1_eq.
Qed.
Definition nX : Z := Eval vm_compute in (bnx * bnx + bnx - 1) * (bnx * bnx + bnx - 1) - 2 * 2.
Definition nY : Z := Eval vm_compute in 2 * (bnx * bnx + bnx - 1) * 2 + 2 * 2 - (- bnx - 1) * (- bnx - 1).
Lemma nXY : nX * nX + nX * nY + nY * nY = p448 * s9. Proof. vm_compute. reflexivity. Qed.
Lemma div_448 : (p448 | tord).
Proof.
  apply (tord_prime p448 (tsm s9 tM)).
  - exact p448_prime.
  - apply (tp_aff _ tS_e). rewrite tp_sm. exact S_eq.
  - rewrite <- t_mul, <- nXY. apply (t_norm_kills _ _ _ _ (comb tM bnx M_rel)); vm_compute; reflexivity.
Qed.

(* the order *)
Lemma div_mul a b n : Z.gcd a b = 1 -> (a | n) -> (b | n) -> (a * b | n).
Proof.
  intros G [k K] B. rewrite K in B. rewrite Z.mul_comm in B. apply Z.gauss in B; [|rewrite Z.gcd_comm; exact G].
  destruct B as [j J]. exists j. rewrite K, J. ring.
Qed.
Lemma h2_fac : h2 * r255 = ((13 * 13) * (23 * 23) * (2713 * (11953 * 262069))) * p448 * r255.
Proof. vm_compute. reflexivity. Qed.
Lemma div_h2r : (h2 * r255 | tord).
Proof.
  rewrite h2_fac. apply div_mul; [vm_compute; reflexivity| |exact div_r]. apply div_mul; [vm_compute; reflexivity| |exact div_448].
  apply div_mul; [vm_compute; reflexivity| |].
  - apply div_mul; [vm_compute; reflexivity|exact div_13|exact div_23].
  - apply div_mul; [vm_compute; reflexivity|exact div_2713|]. apply div_mul; [vm_compute; reflexivity|exact div_11953|exact div_262069].
Qed.
Lemma h2r_big : 2 * (q381 * q381) + 1 < 2 * (h2 * r255).
Proof. Transparent q381. vm_compute. Opaque q381. reflexivity. Qed.
Theorem twist_order : tord = h2 * r255.
Proof.
  pose proof tord_pos as P. pose proof tord_le as L. pose proof h2r_big as B. destruct div_h2r as [k K].
  revert P L B K. generalize (h2 * r255) (q381 * q381) tord. intros n qq t P L B K. 
  assert (k = 1) by nia. subst k. lia.
Qed.
Theorem twist_kills p : on2 p -> zm2 (h2 * r255) p = Inf.
Proof.
  intros O. rewrite <- twist_order. pose proof (tord_kills (mk p O)) as H. apply (f_equal tp) in H. rewrite tp_sm, tp_mk in H. exact H.
Qed.
Lemma r_h2 : ~ (r255 | h2). Proof. intros D. apply Zdivide_mod in D. revert D. vm_compute. discriminate. Qed.
Lemma in_G2 p : on2 p -> zm2 r255 p = Inf -> exists k, 0 <= k < r255 /\ p = zm2 k G2pt.
Proof.
  intros O R. set (b := mk p O).
  destruct (Exists_dec (fun i => b = tsm i tG) (zr r255) (fun i => teqd b (tsm i tG))) as [E|E].
  - apply Exists_exists in E. destruct E as (i & I & E). exists i. split; [apply zr_in; exact I|].
    apply (f_equal tp) in E. rewrite tp_sm in E. exact E.
  - exfalso. apply r_h2. assert (D : (r255 * r255 | tord)).
    { apply (tord_prime2 r255 tG b r255_prime tG_nz tG_r); [apply tp_ext; rewrite tp_sm; exact R|].
      intros i I H. apply E. apply Exists_exists. exists i. split; [apply zr_in; exact I|exact H]. }
    rewrite twist_order in D. apply Z.mul_divide_cancel_r in D; [exact D|]. vm_compute. discriminate.
Qed.
Theorem eigen_iff p : eigen p <-> on2 p /\ zm2 r255 p = Inf.
Proof.
  split; [intros E; split; [exact (proj1 E)|exact (eigen_r p E)]|]. intros [O R].
  destruct (in_G2 p O R) as (k & _ & ->). apply eigen_zm. exact G2_eigen.
Qed.
Theorem cofactor_r p : on2 p -> zm2 r255 (zm2 h2 p) = Inf.
Proof. intros O. rewrite <- (zm2_mul r255 h2 p O), Z.mul_comm. exact (twist_kills p O). Qed.
Theorem cofactor_eigen p : on2 p -> eigen (zm2 h2 p).
Proof. intros O. exact (proj2 (eigen_iff (zm2 h2 p)) (conj (zm2_on h2 p O) (cofactor_r p O))). Qed.
