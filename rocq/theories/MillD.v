(* The Miller loop of the pairing of G2pt with the generator of the first group, in base-256
   digits. *)
From Coq Require Import ZArith List Bool Lia Field.
From Verif Require Import Dig PowD NumT FieldQ FieldQ2 SpecCurve CurveP GroupP EcpP Ecp2P Ecp2C GenP Tower TowerP FrobP CycP FexpP SpecPairing LineP PairP PairP2 PairP3
  MillerP MillerP2 MillerP3 PsiP BilinP TwD TwPsi TwPts F12D.
Import ListNotations.
Open Scope Z_scope.

(* the slopes *)
Lemma dblk_slope x y c : on2 (vp (x, y)) -> dblk (x, y) c = true ->
  v2 (c_l c) = gdiv (gmul (gadd (gadd g1 g1) g1) (gmul (v2 x) (v2 x))) (gmul (gadd g1 g1) (v2 y)).
Proof.
  destruct x as [a0 a1]. unfold dblk. intros O H. apply andb_true_iff in H. destruct H as [M _]. apply mul2_ok in M.
  unfold vp in O. cbn [fst snd] in O. pose proof (on2_y _ _ O) as Y. apply slope2.
  - apply gmul_nz; [exact gtwo_nz|exact Y].
  - rewrite add2_ok in M. rewrite !v2_pair in M. rewrite !add_ok, !mul_ok, !mkq_add, !mkq_mul in M.
    rewrite v2_pair. apply dbl_id. exact M.
Qed.
Lemma addk_slope x1 y1 x2 y2 c : red2 x1 = true -> red2 x2 = true -> addk (x1, y1) (x2, y2) c = true ->
  v2 x1 <> v2 x2 /\ v2 (c_l c) = gdiv (gsub (v2 y2) (v2 y1)) (gsub (v2 x2) (v2 x1)).
Proof.
  unfold addk. intros R1 R2 H.
  apply andb_true_iff in H. destruct H as [H _]. apply andb_true_iff in H. destruct H as [H M]. apply andb_true_iff in H. destruct H as [N D].
  apply (ne2_ok _ _ R1 R2) in N. split; [exact N|]. apply dif2_ok in D. apply mul2_ok in M.
  assert (ED : v2 (c_d c) = gsub (v2 x2) (v2 x1)) by (rewrite <- D; ring).
  apply slope2; [apply gsub_nz'; exact N|]. rewrite <- ED. apply gadd_move. exact M.
Qed.

(* the line of slope l through (x, y), divided by the ordinate of the generator *)
Definition qyi : Z := 0x741562129f355847bb6f265c0f0fb8a7f7b590b6dd3bf24a54d84ca64272ebef8eb8826316d0a89d114b9e63cf4c53e.
Definition tzz : Z := 0x733af64c1dde31ee0944c460528ce94947f365775303b9613d8309c7a68ff761cb0217eed27bd1d32bf233d66370554.
Definition qyd : num := Eval vm_compute in ofZ 48 GYZ.
Definition td : num := Eval vm_compute in ofZ 48 tzz.
Lemma qyd_ok : nval qyd = GYZ. Proof. vm_cast_no_check (eq_refl GYZ). Qed.
Lemma td_ok : nval td = tzz. Proof. vm_cast_no_check (eq_refl tzz). Qed.
Local Notation qx := (mkq GXZ). Local Notation qy := (mkq GYZ).
Lemma tzz_mul : fadd (fmul qy (mkq tzz)) qx = f0.
Proof. rewrite <- mkq_mul, <- mkq_add. change f0 with (mkq 0). apply mkq_eq. rewrite <- qn_q. vm_compute. reflexivity. Qed.
Lemma CQ : fmul qy qy = fadd (fmul (fmul qx qx) qx) fb. Proof. exact G1gen_on. Qed.
#[local] Opaque GXZ GYZ tzz.
Lemma tzz_opp : gmul (gemb qy) (gemb (mkq tzz)) = gopp (gemb qx).
Proof.
  pose proof tzz_mul as H. unfold gmul, gemb, gopp. cbn [fst snd]. apply f_equal2; [|ring].
  transitivity (fsub (fadd (fmul qy (mkq tzz)) qx) qx); [ring|]. rewrite H. ring.
Qed.
Lemma qyF_nz : gemb qy <> g0.
Proof. apply gemb_nz. exact (qy_nz qx qy CQ). Qed.
Record lcert : Set := LCert { l_n : d2; l_e : d2; l_kn : kd2; l_ke : kd2 }.
Definition linek (l xa ya : d2) (c : lcert) : bool :=
  let (n0, n1) := l_n c in let (l0, l1) := l in
  if ck2 (l_kn c) (ssub2 (pm2 l xa) (sof ya)) (mul qyd n0, mul qyd n1) then ck2 (l_ke c) ((mul l0 td, E), (mul l1 td, E)) (l_e c) else false.
Definition lv (c : lcert) : Fq12 := mk12 (v2 (l_n c), g1) h0 (v2 (l_e c), g0).
Lemma linek_ok l xa ya c : linek l xa ya c = true -> line qx qy (v2 l) (gsub (v2 ya) (gmul (v2 l) (v2 xa))) = kmul (k2emb (gemb qy)) (lv c).
Proof.
  unfold linek. destruct (l_n c) as [n0 n1] eqn:N. destruct l as [l0 l1].
  destruct (ck2 (l_kn c) (ssub2 (pm2 (l0, l1) xa) (sof ya)) (mul qyd n0, mul qyd n1)) eqn:H1; [|discriminate]. intros H2.
  apply ck2_ok in H1. apply ck2_ok in H2. rewrite ssub2_v, pm2_v, sof_v in H1.
  assert (E1 : v2 (mul qyd n0, mul qyd n1) = gmul (gemb qy) (v2 (l_n c))).
  { rewrite N. unfold v2, gmul, gemb. cbn [fst snd]. rewrite !mul_ok, !mkq_mul, qyd_ok. apply f_equal2; ring. }
  assert (E2 : v2 (l_e c) = gmul (v2 (l0, l1)) (gemb (mkq tzz))).
  { rewrite <- H2. unfold vs2, v2, gmul, gemb. cbn [fst snd]. rewrite !vs_E, !mul_ok, !mkq_mul, td_ok. apply f_equal2; ring. }
  rewrite E1 in H1. revert H1 E2. generalize (v2 (l0, l1)). intros L H1 E2. unfold lv. rewrite E2, line_mk.
  assert (E3 : gopp (gsub (v2 ya) (gmul L (v2 xa))) = gmul (gemb qy) (v2 (l_n c))) by (rewrite <- H1; ring).
  assert (E4 : gopp (gmul L (gemb qx)) = gmul (gemb qy) (gmul L (gemb (mkq tzz)))).
  { transitivity (gmul L (gmul (gemb qy) (gemb (mkq tzz)))); [rewrite tzz_opp; ring|ring]. }
  rewrite E3, E4. unfold k2emb, kemb, kmul. cbn [ka kb kc].
  apply f_equal3; [|ring|]; unfold hemb, hadd, hmul, hs, h0; cbn [fst snd]; apply f_equal2; ring.
Qed.
Lemma chord_dbl x y : on2 (Aff x y) -> chord (twx qx) (twy qy) (Aff x y) (Aff x y) =
  cut (twx qx) (twy qy) (gdiv (gmul (gadd (gadd g1 g1) g1) (gmul x x)) (gmul (gadd g1 g1) y)) x y.
Proof.
  intros O. pose proof (on2_y _ _ O) as Y. cbn [chord]. destruct (Fq2_dec x x) as [_|X]; [|exfalso; apply X; reflexivity].
  destruct (Fq2_dec y (gopp y)) as [X|_]; [|reflexivity].
  exfalso. apply (gmul_nz _ _ gtwo_nz Y). transitivity (gadd y y); [ring|]. rewrite X at 1. ring.
Qed.
Lemma chord_add x1 y1 x2 y2 : x1 <> x2 -> chord (twx qx) (twy qy) (Aff x1 y1) (Aff x2 y2) =
  cut (twx qx) (twy qy) (gdiv (gsub y2 y1) (gsub x2 x1)) x1 y1.
Proof. intros N. cbn [chord]. destruct (Fq2_dec x1 x2); [contradiction|reflexivity]. Qed.
Lemma cut_lv l p c : linek l (fst p) (snd p) c = true -> cut (twx qx) (twy qy) (v2 l) (v2 (fst p)) (v2 (snd p)) = kmul (k2emb (gemb qy)) (lv c).
Proof. intros H. rewrite cut_line. apply linek_ok. exact H. Qed.
Lemma ee_lv A B c : on2 A -> on2 B -> chord (twx qx) (twy qy) A B = kmul (k2emb (gemb qy)) (lv c) -> lv c <> k0 /\ ee (lv c) = LL qx qy A B.
Proof.
  intros OA OB H. pose proof (chord_nz qx qy CQ A B OA OB) as N. rewrite H in N. split.
  - intros Z. apply N. rewrite Z. ring.
  - rewrite <- (LL_def qx qy A B), H, (ee_mul (k2emb (gemb qy)) (lv c)), (ee_2 _ qyF_nz). ring.
Qed.

(* the loop *)
Inductive mop : Set := MD (c : cert) (lc : lcert) (ks : kd12) (s : d12) (km : kd12) (m : d12) | MA (c : cert) (lc : lcert) (km : kd12) (m : d12).
Definition eq2 (a b : d2) : bool := if eqn (fst a) (fst b) then eqn (snd a) (snd b) else false.
Definition eq4 (a b : d4) : bool := if eq2 (fst a) (fst b) then eq2 (snd a) (snd b) else false.
Definition eq12 (a b : d12) : bool := if eq4 (fst a) (fst b) then if eq4 (fst (snd a)) (fst (snd b)) then eq4 (snd (snd a)) (snd (snd b)) else false else false.
Fixpoint mrun (b p : dpt) (f : d12) (os : list mop) (e : d12) : bool := match os with
  | [] => eq12 f e
  | MD c lc ks s km m :: os' =>
      if dblk p c then if linek (c_l c) (fst p) (snd p) lc then if ck12 ks (psq12 f) s then if ck12 km (lm12 s (l_n lc) (l_e lc)) m then
        mrun b (c_p c) m os' e else false else false else false else false
  | MA c lc km m :: os' =>
      if addk p b c then if linek (c_l c) (fst p) (snd p) lc then if ck12 km (lm12 f (l_n lc) (l_e lc)) m then
        mrun b (c_p c) m os' e else false else false else false
  end.
Lemma eq2_ok a b : eq2 a b = true -> v2 a = v2 b.
Proof. unfold eq2, v2. intros H. destruct (eqn (fst a) (fst b)) eqn:H1; [|discriminate]. apply eqn_ok in H1. apply eqn_ok in H. rewrite H1, H. reflexivity. Qed.
Lemma eq4_ok a b : eq4 a b = true -> v4 a = v4 b.
Proof. unfold eq4, v4. intros H. destruct (eq2 (fst a) (fst b)) eqn:H1; [|discriminate]. apply eq2_ok in H1. apply eq2_ok in H. rewrite H1, H. reflexivity. Qed.
Lemma eq12_ok a b : eq12 a b = true -> v12 a = v12 b.
Proof.
  unfold eq12, v12. intros H. destruct (eq4 (fst a) (fst b)) eqn:H1; [|discriminate]. destruct (eq4 (fst (snd a)) (fst (snd b))) eqn:H2; [|discriminate].
  apply eq4_ok in H1. apply eq4_ok in H2. apply eq4_ok in H. rewrite H1, H2, H. reflexivity.
Qed.
Definition mstep (k : Z) (o : mop) : Z := match o with MD _ _ _ _ _ _ => k + k | MA _ _ _ _ => k + 1 end.
Definition mI (b : dpt) (k : Z) (f : d12) : Prop := v12 f <> k0 /\ ee (v12 f) = fz qx qy k (vp b).
Lemma lm_lv f c : vs12 (lm12 f (l_n c) (l_e c)) = kmul (v12 f) (lv c). Proof. apply lm12_v. Qed.
Lemma mrun_ok b e : on2 (vp b) -> red1 b = true -> forall os p f k, 1 <= k -> red1 p = true -> vp p = zm2 k (vp b) -> mI b k f -> mrun b p f os e = true ->
  mI b (fold_left mstep os k) e.
Proof.
  intros O RB. induction os as [|o os IH]; intros p f k K RP P [FN FE] H; cbn [mrun fold_left] in *.
  { apply eq12_ok in H. unfold mI. rewrite <- H. split; assumption. }
  assert (OP : on2 (vp p)) by (rewrite P; apply zm2_on; exact O).
  destruct o as [c lc ks s km m|c lc km m].
  - destruct (dblk p c) eqn:H1; [|discriminate]. destruct (linek (c_l c) (fst p) (snd p) lc) eqn:H2; [|discriminate].
    destruct (ck12 ks (psq12 f) s) eqn:H3; [|discriminate]. destruct (ck12 km (lm12 s (l_n lc) (l_e lc)) m) eqn:H4; [|discriminate].
    apply ck12_ok in H3. apply ck12_ok in H4. rewrite psq12_v in H3. rewrite lm_lv in H4. apply cut_lv in H2.
    destruct p as [px py]. pose proof (dblk_slope px py c OP H1) as SL. cbn [fst snd] in H2. rewrite SL in H2.
    rewrite <- (chord_dbl (v2 px) (v2 py) OP) in H2. destruct (ee_lv _ _ _ OP OP H2) as [LN LE].
    destruct (dblk_ok (px, py) c OP H1) as (D1 & R1 & R2).
    apply (IH (c_p c) m (k + k)); [lia|exact R1| | |exact H].
    + rewrite <- D1, P, (zm2_add k k (vp b) O). reflexivity.
    + split.
      * rewrite <- H4, <- H3. apply kmul_nz; [apply kmul_nz; exact FN|exact LN].
      * change (Aff (v2 px) (v2 py)) with (vp (px, py)) in LE. rewrite P in LE.
        rewrite <- H4, <- H3, (ee_mul (kmul (v12 f) (v12 f)) (lv lc)), (ee_mul (v12 f) (v12 f)), LE, FE, (fz_add qx qy CQ k k (vp b)) by (try lia; exact O). reflexivity.
  - destruct (addk p b c) eqn:H1; [|discriminate]. destruct (linek (c_l c) (fst p) (snd p) lc) eqn:H2; [|discriminate].
    destruct (ck12 km (lm12 f (l_n lc) (l_e lc)) m) eqn:H4; [|discriminate].
    apply ck12_ok in H4. rewrite lm_lv in H4. apply cut_lv in H2. destruct (addk_ok p b c RP RB H1) as (D1 & R1 & R2).
    destruct p as [px py], b as [bx bY]. destruct (addk_slope px py bx bY c RP RB H1) as [XN SL]. cbn [fst snd] in H2. rewrite SL in H2.
    rewrite <- (chord_add (v2 px) (v2 py) (v2 bx) (v2 bY) XN) in H2. destruct (ee_lv _ _ _ OP O H2) as [LN LE].
    apply (IH (c_p c) m (k + 1)); [lia|exact R1| | |exact H].
    + rewrite <- D1, P, (zm2_add k 1 _ O), zm2_1. reflexivity.
    + split.
      * rewrite <- H4. apply kmul_nz; [exact FN|exact LN].
      * change (Aff (v2 px) (v2 py)) with (vp (px, py)) in LE. rewrite P in LE. change (Aff (v2 bx) (v2 bY)) with (vp (bx, bY)) in LE.
        rewrite <- H4, (ee_mul (v12 f) (lv lc)), LE, FE, (fz_succ qx qy k (vp (bx, bY))) by (try lia; exact O). reflexivity.
Qed.

(* powers of a cyclotomic element *)
Inductive xop : Set := XS (k : kd12) (m : d12) | XM (k : kd12) (m : d12).
Fixpoint xrun (b p : d12) (os : list xop) (e : d12) : bool := match os with
  | [] => eq12 p e
  | XS k m :: os' => if ck12 k (usq12 p) m then xrun b m os' e else false
  | XM k m :: os' => if ck12 k (pm12 p b) m then xrun b m os' e else false
  end.
Definition xstep (k : Z) (o : xop) : Z := match o with XS _ _ => k + k | XM _ _ => k + 1 end.
Section X.
  Variable z : Fq12.
  Hypothesis CZ : cyc z.
  Lemma xrun_ok b e a : v12 b = zp z a -> forall os p k, v12 p = zp z (a * k) -> xrun b p os e = true -> v12 e = zp z (a * fold_left xstep os k).
  Proof.
    intros B. induction os as [|o os IH]; intros p k P H; cbn [xrun fold_left] in *.
    { apply eq12_ok in H. rewrite <- H. exact P. }
    destruct o as [c m|c m].
    - destruct (ck12 c (usq12 p) m) eqn:H1; [|discriminate]. apply ck12_ok in H1. rewrite usq12_v in H1. apply (IH m); [|exact H]. cbn [xstep].
      rewrite <- H1, kusqr_ok, P, (zp_mul z (a * k) (a * k) CZ) by (rewrite P; apply zp_cyc; exact CZ). apply f_equal. ring.
    - destruct (ck12 c (pm12 p b) m) eqn:H1; [|discriminate]. apply ck12_ok in H1. rewrite pm12_v in H1. apply (IH m); [|exact H]. cbn [xstep].
      rewrite <- H1, P, B, (zp_mul z (a * k) a CZ). apply f_equal. ring.
  Qed.
  Lemma xrun1 b e a os n : v12 b = zp z a -> xrun b b os e = true -> fold_left xstep os 1 = n -> v12 e = zp z (a * n).
  Proof. intros B H <-. apply (xrun_ok b e a B os b 1); [rewrite B; apply f_equal; ring|exact H]. Qed.
  Lemma xmul k b c e a d : v12 b = zp z a -> v12 c = zp z d -> ck12 k (pm12 b c) e = true -> v12 e = zp z (a + d).
  Proof. intros B C H. apply ck12_ok in H. rewrite pm12_v in H. rewrite <- H, B, C. apply zp_mul. exact CZ. Qed.
  Lemma xfrob k b e a : v12 b = zp z a -> ck12 k (fr12 b) e = true -> v12 e = zp z (a * q381).
  Proof. intros B H. apply ck12_ok in H. rewrite fr12_v in H. rewrite <- H, B. apply zp_frob. exact CZ. Qed.
  Lemma xconj k b e a : v12 b = zp z a -> ck12 k (cj12 b) e = true -> v12 e = zp z (- a).
  Proof. intros B H. apply ck12_ok in H. rewrite cj12_v in H. rewrite <- H, B. apply zp_conj. exact CZ. Qed.
End X.

(* --------------------- making the certificates ------------------------ *)
Section Make.
Definition mkl (l : z22) (p : zpt) : lcert * (z22 * z22) :=
  let n := m2 (s2 (m2 l (fst p)) (snd p)) (qyi, 0) in let e := m2 l (tzz, 0) in
  let qn := (GYZ * fst n, GYZ * snd n) in
  (LCert (ofP 48 n) (ofP 48 e) (fst (ur2 (us2 (us2 (um2 l (fst p)) (snd p)) qn))) (fst (ur2 (fst l * tzz, snd l * tzz))), (n, e)).
Fixpoint mkm (b p : zpt) (f : z12) (ss : list sl) : list mop * z12 := match ss with
  | [] => ([], f)
  | SD u v :: ss' => let (c, p') := mkdbl (u, v) p in let (lc, ne) := mkl (u, v) p in let (n, e) := ne in
      let (ks, s) := ur12 (uq12 f) in let (km, m) := ur12 (ul12 s n e) in
      let (l, r) := mkm b p' m ss' in (MD c lc ks (of12 s) km (of12 m) :: l, r)
  | (SA u v | SS u v) :: ss' => let (c, p') := mkadd (u, v) p b in let (lc, ne) := mkl (u, v) p in let (n, e) := ne in
      let (km, m) := ur12 (ul12 f n e) in
      let (l, r) := mkm b p' m ss' in (MA c lc km (of12 m) :: l, r)
  end.
Fixpoint mkx (b p : z12) (bs : list bool) : list xop * z12 := match bs with
  | [] => ([], p)
  | c :: bs' => let (k, s) := ur12 (uu12 p) in
      if c then let (k', m) := ur12 (um12 s b) in let (l, r) := mkx b m bs' in (XS k (of12 s) :: XM k' (of12 m) :: l, r)
      else let (l, r) := mkx b s bs' in (XS k (of12 s) :: l, r)
  end.
Definition z12_1 : z12 := (((1, 0), (0, 0)), (((0, 0), (0, 0)), ((0, 0), (0, 0)))).
End Make.
