(* The map Q |-> (x^2-x-1)Q + (x-1)psi(Q) + 2 psi^2(Q), x = -bnx, is the multiplication by
   3(x^2-1)h2 on the whole twist. *)
From Coq Require Import ZArith List Bool Lia Znumtheory.
From Verif Require Import Dig PowD NumT FieldQ FieldQ2 SpecCurve CurveP GroupP EcpP Ecp2P Ecp2C MapP FexpP FinGrp KerP PsiP TwD TwGrp TwPts TwPts2 TwPsi PrimesD TwistP.
Import ListNotations.
Open Scope Z_scope.

Notation tlc := (lc TP tz tadd tneg tpsi).
Lemma t_addr k a b : tsm k (tadd a b) = tadd (tsm k a) (tsm k b). Proof. exact (sm_addr TP tz tadd tneg taddC taddA tadd0 taddN k a b). Qed.
Lemma t_add4 a b c d : tadd (tadd a b) (tadd c d) = tadd (tadd a c) (tadd b d). Proof. exact (add4 TP tadd taddC taddA a b c d). Qed.
Lemma t_0 a : tsm 0 a = tz. Proof. reflexivity. Qed.
Lemma t_plus k l a : tsm (k + l) a = tadd (tsm k a) (tsm l a). Proof. exact (sm_add TP tz tadd tneg taddC taddA tadd0 taddN k l a). Qed.
Lemma t_add0r a : tadd a tz = a. Proof. rewrite taddC. apply tadd0. Qed.
Lemma t_1 a : tsm 1 a = a. Proof. exact (sm_1 TP tz tadd tneg taddC taddA tadd0 taddN a). Qed.
Lemma lc_eq x a b c d : tlc x a b c d = tadd (tadd (tsm a x) (tsm b (tpsi x))) (tadd (tsm c (tpsi (tpsi x))) (tsm d (tpsi (tpsi (tpsi x))))).
Proof. reflexivity. Qed.
Local Opaque tsm.
Lemma lc_hom a b c d x y : tlc (tadd x y) a b c d = tadd (tlc x a b c d) (tlc y a b c d).
Proof. rewrite !lc_eq. rewrite !tpsi_add, !t_addr. rewrite (t_add4 (tsm a x)), (t_add4 (tsm c (tpsi (tpsi x)))), t_add4. reflexivity. Qed.
Lemma lc_psi' a b c d x : tlc (tpsi x) a b c d = tpsi (tlc x a b c d).
Proof. rewrite !lc_eq. rewrite !tpsi_add, !psi_sm_t. reflexivity. Qed.
Lemma lc_eig i a b c x : tpsi x = tsm i x -> tlc x a b c 0 = tsm (a + b * i + c * i * i) x.
Proof.
  intros H. rewrite !lc_eq. rewrite (t_0 (tpsi (tpsi (tpsi x)))), t_add0r, H, psi_sm_t, H, <- !t_mul, <- !t_plus. f_equal; ring.
Qed.
(* psi^2 = m + n psi *)
Lemma lc_two m n a b c x : tpsi (tpsi x) = tadd (tsm m x) (tsm n (tpsi x)) -> tlc x a b c 0 = tadd (tsm (a + c * m) x) (tsm (b + c * n) (tpsi x)).
Proof.
  intros H. rewrite !lc_eq. rewrite (t_0 (tpsi (tpsi (tpsi x)))), t_add0r, H, t_addr, <- !t_mul, t_add4, <- !t_plus. reflexivity.
Qed.
Lemma t_dvd l k a : tsm l a = tz -> (l | k) -> tsm k a = tz.
Proof. intros H [j ->]. rewrite t_mul, H. apply t_z. Qed.

Definition cA : Z := Eval vm_compute in bnx * bnx + bnx - 1.
Definition cB : Z := Eval vm_compute in - bnx - 1.
Definition tclear (x : TP) : TP := tlc x cA cB 2 0.
Lemma tclear_add x y : tclear (tadd x y) = tadd (tclear x) (tclear y). Proof. apply lc_hom. Qed.
Lemma tclear_psi x : tclear (tpsi x) = tpsi (tclear x). Proof. apply lc_psi'. Qed.
Lemma tclear_sm k x : tclear (tsm k x) = tsm k (tclear x).
Proof.
  unfold tclear. rewrite t_lc_sm. rewrite !lc_eq. rewrite !psi_sm_t, <- !t_mul. rewrite !(Z.mul_comm _ k). reflexivity.
Qed.
Lemma eig_ker l i x : tsm l x = tz -> tpsi x = tsm i x -> (l | cA + cB * i + 2 * i * i) -> tclear x = tz.
Proof. intros K E D. unfold tclear. rewrite (lc_eig i _ _ _ x E). exact (t_dvd l _ x K D). Qed.
Lemma tpsi_z : tpsi tz = tz. Proof. apply tp_ext. reflexivity. Qed.
Lemma two_ker l m n x : tsm l x = tz -> tpsi (tpsi x) = tadd (tsm m x) (tsm n (tpsi x)) -> (l | cA + 2 * m) -> (l | cB + 2 * n) -> tclear x = tz.
Proof.
  intros K E D1 D2. unfold tclear. rewrite (lc_two m n _ _ _ x E), (t_dvd l _ x K D1), tadd0. apply (t_dvd l); [|exact D2].
  rewrite <- psi_sm_t, K. exact tpsi_z.
Qed.
Lemma eig_run l b n os e i c (a : TP) : tp a = vp b -> tsm l a = tz -> runk b n os e = true -> fold_left kop os 1 = i -> psik b e c = true ->
  (l | cA + cB * i + 2 * i * i) -> tclear a = tz.
Proof.
  intros A K R I P D. apply (eig_ker l i a K); [|exact D]. apply tp_ext. rewrite tp_psi, tp_sm, A.
  assert (O : on2 (vp b)) by (rewrite <- A; apply tp_on). rewrite <- I, <- (runk_ok b n os e O R). exact (psik_ok b e c P).
Qed.
Definition e2713_c : pcert := Eval vm_compute in mkpsi t2713_z (snd e2713_o).
Definition e11953_c : pcert := Eval vm_compute in mkpsi t11953_z (snd e11953_o).
Definition e262069_c : pcert := Eval vm_compute in mkpsi t262069_z (snd e262069_o).
Lemma dvd_mod l k : k mod l = 0 -> l <> 0 -> (l | k). Proof. intros H N. apply Z.mod_divide; assumption. Qed.
Ltac dv := apply dvd_mod; [vm_compute; reflexivity|discriminate].
Lemma ker_2713 (a : TP) : tp a = vp t2713_p -> tsm 2713 a = tz -> tclear a = tz.
Proof. intros A K. apply (eig_run 2713 t2713_p e2713_n (fst e2713_o) e2713_e 2017 e2713_c a A K); [vmt|vm_cast_no_check (eq_refl 2017)|vmt|dv]. Qed.
Lemma ker_11953 (a : TP) : tp a = vp t11953_p -> tsm 11953 a = tz -> tclear a = tz.
Proof. intros A K. apply (eig_run 11953 t11953_p e11953_n (fst e11953_o) e11953_e 3605 e11953_c a A K); [vmt|vm_cast_no_check (eq_refl 3605)|vmt|dv]. Qed.
Lemma ker_262069 (a : TP) : tp a = vp t262069_p -> tsm 262069 a = tz -> tclear a = tz.
Proof. intros A K. apply (eig_run 262069 t262069_p e262069_n (fst e262069_o) e262069_e 88066 e262069_c a A K); [vmt|vm_cast_no_check (eq_refl 88066)|vmt|dv]. Qed.
(* order 13: psi^2 T = T + 5 psi T *)
Definition pp13_c : pcert := Eval vm_compute in mkpsi t13psi_z pp13_z.
Lemma ker_13 (a : TP) : tp a = vp t13_p -> tsm 13 a = tz -> tclear a = tz.
Proof.
  intros A K. apply (two_ker 13 1 5 a K); [|dv|dv]. apply tp_ext. rewrite t_1, tp_add, tp_sm, !tp_psi, A, t13_psi.
  assert (P2 : psi (vp t13psi_p) = vp pp13_p) by (apply (psik_ok _ _ pp13_c); vmt). rewrite P2.
  assert (U : vp u13_p = vp t13psi_p) by (apply vp_ext; vmt). rewrite <- U.
  assert (O : on2 (vp u13_p)) by (rewrite U, <- t13_psi, <- A; apply psi2_on, tp_on).
  pose proof (runk_ok u13_p u13_n (fst u13_o) u13_e O) as R. change (fold_left kop (fst u13_o) 1) with 5 in R.
  rewrite <- R by vmt. symmetry. transitivity (vp (c_p (fst w13_c))); [apply addck_ok; vmt|apply vp_ext; vmt].
Qed.
(* order 23: psi^2 T = - (T + 7 psi T) *)
Definition u23_c : pcert := Eval vm_compute in mkpsi t23_z u23_z.
Definition pp23_c : pcert := Eval vm_compute in mkpsi u23_z pp23_z.
Lemma ker_23 (a : TP) : tp a = vp t23_p -> tsm 23 a = tz -> tclear a = tz.
Proof.
  intros A K. apply (two_ker 23 (- (1)) (- (1) * 7) a K); [|dv|dv]. rewrite t_mul, <- t_addr, <- t_opp1. apply tp_ext.
  rewrite tp_neg, tp_add, tp_sm, !tp_psi, A.
  assert (P1 : psi (vp t23_p) = vp u23_p) by (apply (psik_ok _ _ u23_c); vmt). rewrite P1.
  assert (P2 : psi (vp u23_p) = vp pp23_p) by (apply (psik_ok _ _ pp23_c); vmt). rewrite P2.
  assert (O : on2 (vp u23_p)) by (rewrite <- P1, <- A; apply psi2_on, tp_on).
  pose proof (runk_ok u23_p u23_n (fst u23_o) u23_e O) as R. change (fold_left kop (fst u23_o) 1) with 7 in R.
  rewrite <- R by vmt. assert (W : padd2 (vp t23_p) (vp u23_e) = vp (c_p (fst w23_c))) by (apply addck_ok; vmt). rewrite W.
  assert (N : neg2 (c_p (fst w23_c)) (snd pp23_p) = true) by vmt. rewrite <- (neg2_ok _ _ N). apply vp_ext. vmt.
Qed.
Lemma ker_M : tclear tM = tz. Proof. exact (comb tM bnx M_rel). Qed.


(* ------------------- the kernel has order divisible by h2 --------------- *)
Definition ckord : Z := kord TP teqd tz tadd tneg taddC taddA tadd0 taddN TL tclear tclear_add.
Lemma ck_prime l x : prime l -> tclear x = tz -> x <> tz -> tsm l x = tz -> (l | ckord).
Proof. exact (ker_prime TP teqd tz tadd tneg taddC taddA tadd0 taddN TL TL_nd TL_in tclear tclear_add l x). Qed.
Lemma ck_prime2 l x y : prime l -> tclear x = tz -> tclear y = tz -> x <> tz -> tsm l x = tz -> tsm l y = tz -> (forall i, 0 <= i < l -> y <> tsm i x) -> (l * l | ckord).
Proof. exact (ker_prime2 TP teqd tz tadd tneg taddC taddA tadd0 taddN TL TL_nd TL_in tclear tclear_add l x y). Qed.
Lemma ck_2713 : (2713 | ckord).
Proof. destruct kills_2713 as (a & A & K). exact (ck_prime 2713 a p2713 (ker_2713 a A K) (tp_aff _ _ A) K). Qed.
Lemma ck_11953 : (11953 | ckord).
Proof. destruct kills_11953 as (a & A & K). exact (ck_prime 11953 a p11953 (ker_11953 a A K) (tp_aff _ _ A) K). Qed.
Lemma ck_262069 : (262069 | ckord).
Proof. destruct kills_262069 as (a & A & K). exact (ck_prime 262069 a p262069 (ker_262069 a A K) (tp_aff _ _ A) K). Qed.
Lemma psi_tor l a : tsm l a = tz -> tsm l (tpsi a) = tz. Proof. intros K. rewrite <- psi_sm_t, K. exact tpsi_z. Qed.
Lemma psi_ker a : tclear a = tz -> tclear (tpsi a) = tz. Proof. intros K. rewrite tclear_psi, K. exact tpsi_z. Qed.
Lemma ck_23 : (23 * 23 | ckord).
Proof.
  destruct kills_23 as (a & A & K). pose proof (tp_aff _ _ A) as NZ. pose proof (ker_23 a A K) as C.
  apply (ck_prime2 23 a (tpsi a) p23 C (psi_ker a C) NZ K (psi_tor _ _ K)).
  intros i I E. apply NZ. apply t_eigen_kills in E. apply (t_bez _ _ _ E K).
  assert (F : forallb (fun i => Z.gcd (i * i * i * i - i * i + 1) 23 =? 1) (zr 23) = true) by (vm_compute; reflexivity).
  rewrite forallb_forall in F. apply Z.eqb_eq. apply F. apply zr_in. exact I.
Qed.
Lemma ck_13 : (13 * 13 | ckord).
Proof.
  destruct kills_13 as (a & A & K). pose proof (tp_aff _ _ A) as NZ. pose proof (ker_13 a A K) as C.
  apply (ck_prime2 13 a (tpsi a) p13 C (psi_ker a C) NZ K (psi_tor _ _ K)).
  intros i I E. pose proof E as E0. apply t_eigen_kills in E.
  assert (F : forallb (fun i => (Z.gcd (i * i * i * i - i * i + 1) 13 =? 1) || (i =? 2) || (i =? 6) || (i =? 7) || (i =? 11)) (zr 13) = true) by (vm_compute; reflexivity).
  rewrite forallb_forall in F. specialize (F i (proj2 (zr_in 13 i) I)).
  apply (f_equal tp) in E0. rewrite tp_psi, tp_sm, A, t13_psi in E0.
  assert (K' : zm2 13 (vp t13_p) = Inf) by (rewrite <- A, <- tp_sm, K; reflexivity).
  assert (O : on2 (vp t13_p)) by (rewrite <- A; apply tp_on).
  destruct (Z.eqb_spec i 2) as [->|_]; [rewrite <- t13_2 in E0; exact (proj1 (vp_x _ _ t13_n2) E0)|].
  destruct (Z.eqb_spec i 6) as [->|_]; [rewrite <- t13_6 in E0; exact (proj1 (vp_x _ _ t13_n6) E0)|].
  destruct (Z.eqb_spec i 7) as [->|_]; [rewrite (zm_compl 6 7 _ O K'), <- t13_6 in E0; exact (proj2 (vp_x _ _ t13_n6) E0)|].
  destruct (Z.eqb_spec i 11) as [->|_]; [rewrite (zm_compl 2 11 _ O K'), <- t13_2 in E0; exact (proj2 (vp_x _ _ t13_n2) E0)|].
  rewrite !orb_false_r in F. apply Z.eqb_eq in F. apply NZ. exact (t_bez _ _ _ E K F).
Qed.
Lemma ck_448 : (p448 | ckord).
Proof.
  apply (ck_prime p448 (tsm s9 tM)).
  - exact p448_prime.
  - rewrite tclear_sm, ker_M. apply t_z.
  - apply (tp_aff _ tS_e). rewrite tp_sm. exact S_eq.
  - rewrite <- t_mul, <- nXY. apply (t_norm_kills _ _ _ _ (comb tM bnx M_rel)); vm_compute; reflexivity.
Qed.
Lemma h2_fac' : h2 = ((13 * 13) * (23 * 23) * (2713 * (11953 * 262069))) * p448.
Proof. vm_compute. reflexivity. Qed.
Lemma ck_h2 : (h2 | ckord).
Proof.
  rewrite h2_fac'. apply div_mul; [vm_compute; reflexivity| |exact ck_448].
  apply div_mul; [vm_compute; reflexivity| |].
  - apply div_mul; [vm_compute; reflexivity|exact ck_13|exact ck_23].
  - apply div_mul; [vm_compute; reflexivity|exact ck_2713|]. apply div_mul; [vm_compute; reflexivity|exact ck_11953|exact ck_262069].
Qed.
Lemma h2_pos : 0 < h2. Proof. vm_compute. reflexivity. Qed.
Lemma r_pos : 0 < r255. Proof. vm_compute. reflexivity. Qed.
Local Transparent tsm.
Lemma tclear_gen h r : 0 < h -> 0 < r -> tord = h * r -> (h | ckord) -> forall a, tsm r (tclear a) = tz.
Proof. exact (ker_index TP teqd tz tadd tneg taddC taddA tadd0 taddN TL TL_nd TL_in tclear tclear_add h r). Qed.
Local Opaque tsm.
Lemma tclear_r a : tsm r255 (tclear a) = tz.
Proof. exact (tclear_gen h2 r255 h2_pos r_pos twist_order ck_h2 a). Qed.

(* -------------------- it is a multiplication ----------------------------- *)
Lemma teigen a : eigen (tp a) -> tpsi a = tsm (- bnx) a.
Proof. intros E. apply tp_ext. rewrite tp_psi, tp_sm. exact (psi_u _ E). Qed.
Lemma tcof a : tpsi (tsm h2 a) = tsm (- bnx) (tsm h2 a).
Proof. apply teigen. rewrite tp_sm. apply cofactor_eigen, tp_on. Qed.
Definition heff : Z := Eval vm_compute in 3 * (bnx * bnx - 1) * h2.
Section Mult.
  Variables (h r cf e u w : Z).
  Hypothesis BZ : u * h + w * r = 1.
  Hypothesis RC : forall a, tsm r (tclear a) = tz.
  Hypothesis HR : forall a, tsm r (tsm h a) = tz.
  Hypothesis CF : forall a, tclear (tsm h a) = tsm cf (tsm h a).
  Hypothesis EQ : (r | cf * u - e).
  Lemma clear_mult a : tclear a = tsm (e * h) a.
  Proof.
    assert (E1 : tclear a = tsm cf (tsm u (tsm h a))).
    { rewrite <- (t_1 a) at 1. rewrite <- BZ, t_plus, tclear_add, !t_mul, !tclear_sm, RC, t_z, t_add0r, <- (tclear_sm h), CF.
      rewrite <- !t_mul. f_equal. ring. }
    rewrite E1, <- !t_mul. destruct EQ as [j J]. assert (X : cf * u * h = e * h + j * (r * h)) by (rewrite Z.mul_assoc, <- J; ring). rewrite X.
    rewrite t_plus, (t_mul j), (t_mul r h), HR, t_z. apply t_add0r.
  Qed.
End Mult.
Definition ubez : Z := Eval vm_compute in snd (fst (let fix go (n : nat) (a b : Z) {struct n} : Z * Z * Z := match n with O => (a, 1, 0) | S n' => if b =? 0 then (a, 1, 0) else let '(g, x, y) := go n' b (a mod b) in (g, y, x - (a / b) * y) end in go 2000%nat h2 r255)).
Definition wbez : Z := Eval vm_compute in (1 - ubez * h2) / r255.
Lemma bez_eq : ubez * h2 + wbez * r255 = 1. Proof. vm_compute. reflexivity. Qed.
Definition cfe : Z := Eval vm_compute in cA + cB * - bnx + 2 * - bnx * - bnx.
Definition e3 : Z := Eval vm_compute in 3 * (bnx * bnx - 1).
Lemma cf_eq a : tclear (tsm h2 a) = tsm cfe (tsm h2 a).
Proof. unfold tclear. rewrite (lc_eig (- bnx) _ _ _ _ (tcof a)). f_equal. Qed.
Lemma e_dvd : (r255 | cfe * ubez - e3). Proof. dv. Qed.
Lemma hr_kills a : tsm r255 (tsm h2 a) = tz.
Proof. apply tp_ext. rewrite !tp_sm, tp_z. apply cofactor_r, tp_on. Qed.
Lemma heff_eq : heff = e3 * h2. Proof. vm_compute. reflexivity. Qed.
Theorem clear_heff a : tclear a = tsm heff a.
Proof. rewrite heff_eq. exact (clear_mult h2 r255 cfe e3 ubez wbez bez_eq tclear_r hr_kills cf_eq e_dvd a). Qed.
