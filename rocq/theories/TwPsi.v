(* psi^4 + 1 = psi^2 on the twist, and psi in base-256 digits. *)
From Coq Require Import ZArith List Bool Lia Field.
From Verif Require Import Dig PowD NumT FieldQ FieldQ2 SpecCurve CurveP GroupP EcpP Ecp2P Ecp2C Tower TowerP FrobP MillerP2 PsiP TwD.
Import ListNotations.
Open Scope Z_scope.

Lemma gthree_nz : gadd (gadd g1 g1) g1 <> g0.
Proof.
  intros H. apply (f_equal fst) in H. unfold g1, gadd, g0 in H. cbn [fst] in H.
  apply (f_equal fv) in H. revert H. Transparent q381 fv mkq fadd. vm_compute. Opaque q381 fv mkq fadd. discriminate.
Qed.
Section Psi4.
  Variable g : Fq2.
  Notation c := (gmul (gconj g) g).
  Hypothesis C2 : gmul c c = gsub c g1.
  Lemma c_m1 : gadd c g1 <> g0.
  Proof.
    intros H. apply gthree_nz. revert C2 H. generalize c. intros d D H.
    transitivity (gadd (gmul (gadd d g1) (gsub (gadd g1 g1) d)) (gadd (gsub (gmul d d) d) g1)); [ring|].
    rewrite H, D. ring.
  Qed.
  Lemma px2 x : px g (px g x) = gmul (gsub c g1) x.
  Proof. unfold px. rewrite !gconj_mul, gconj_conj. rewrite <- C2. ring. Qed.
  Lemma c3 : gmul c (gmul c c) = gopp g1.
  Proof. rewrite C2. transitivity (gsub (gmul c c) c); [ring|]. rewrite C2. ring. Qed.
  Lemma py2 y : py g (py g y) = gopp y.
  Proof.
    unfold py. rewrite !gconj_mul, gconj_conj. transitivity (gmul y (gmul c (gmul c c))); [ring|]. rewrite c3. ring.
  Qed.
  Lemma line_flat x1 y x2 : line_sum Fq2 gmul gsub g0 x1 y x2 = Aff (gopp (gadd x1 x2)) (gopp y).
  Proof. unfold line_sum. cbv zeta. apply (f_equal2 (@Aff Fq2)); ring. Qed.
  Lemma psi4 p : on2 p -> padd2 (psi_ g (psi_ g (psi_ g (psi_ g p)))) p = psi_ g (psi_ g p).
  Proof.
    destruct p as [|x y]; [reflexivity|]. intros O. pose proof (on2_y _ _ O) as Y. cbn [psi_].
    assert (EY : py g (py g (py g (py g y))) = y) by (rewrite !py2; ring).
    assert (EX : px g (px g (px g (px g x))) = gopp (gmul c x)).
    { rewrite !px2. transitivity (gmul (gadd (gsub (gmul c c) (gadd c c)) g1) x); [ring|]. rewrite C2. ring. }
    rewrite EY, EX, px2, py2. assert (CM : gadd c g1 <> g0) by exact c_m1. clear C2. revert EX CM. generalize c. intros d EX CM. cbn [padd].
    destruct (Fq2_dec (gopp (gmul d x)) x) as [E|E].
    - assert (X : x = g0).
      { destruct (Fq2_dec x g0) as [X|X]; [exact X|]. exfalso. apply (gmul_nz _ _ CM X).
        transitivity (gsub x (gopp (gmul d x))); [ring|]. rewrite E. ring. }
      subst x. destruct (Fq2_dec y (gopp y)) as [W|_].
      { exfalso. apply (gmul_nz _ _ gtwo_nz Y). transitivity (gadd y y); [ring|]. rewrite W at 1. ring. }
      match goal with |- line_sum _ _ _ ?l _ _ _ = _ => assert (L : l = g0) end.
      { unfold gdiv. ring. }
      rewrite L, line_flat. apply (f_equal2 (@Aff Fq2)); ring.
    - match goal with |- line_sum _ _ _ ?l _ _ _ = _ => assert (L : l = g0) end.
      { unfold gdiv. ring. }
      rewrite L, line_flat. apply (f_equal2 (@Aff Fq2)); ring.
  Qed.
End Psi4.
Section GI.
  Variables f c : Fq2.
  Hypothesis FN : f <> g0.
  Hypothesis CN : gmul (gconj f) f = c.
  Hypothesis C2 : gmul c c = gsub c g1.
  Lemma gi_root : gmul (gmul (gconj (ginv f)) (ginv f)) (gmul (gconj (ginv f)) (ginv f)) = gsub (gmul (gconj (ginv f)) (ginv f)) g1.
  Proof.
    set (d := gmul (gconj (ginv f)) (ginv f)).
    assert (D : gmul d c = g1).
    { unfold d. rewrite <- CN. transitivity (gmul (gconj (gmul (ginv f) f)) (gmul (ginv f) f)); [rewrite gconj_mul; ring|].
      rewrite (Finv_l Fq2_field f FN), gconj_1. ring. }
    assert (DE : d = gsub g1 c).
    { transitivity (gmul d (gmul c (gsub g1 c))).
      - transitivity (gmul d (gsub c (gmul c c))); [|ring]. rewrite C2. ring.
      - transitivity (gmul (gmul d c) (gsub g1 c)); [ring|]. rewrite D. ring. }
    clearbody d. rewrite DE. transitivity (gadd (gsub (gmul c c) (gadd c c)) g1); [ring|]. rewrite C2. ring.
  Qed.
End GI.
Lemma psi_4 p : on2 p -> padd2 (psi (psi (psi (psi p)))) p = psi (psi p).
Proof.
  unfold psi. apply psi4. Transparent gfi. unfold gfi. Opaque gfi. exact (gi_root gf gc gf_nz gc_norm gc_root).
Qed.

(* psi in digits *)
Definition gfd : d2 := Eval vm_compute in ofP 48 (fra, qZ - fra).
Definition gf2z : z22 := Eval vm_compute in m2 (fra, qZ - fra) (fra, qZ - fra).
Definition gf3z : z22 := Eval vm_compute in m2 gf2z (fra, qZ - fra).
Definition gf2d : d2 := Eval vm_compute in ofP 48 gf2z.
Definition gf3d : d2 := Eval vm_compute in ofP 48 gf3z.
Definition gf2k : (bool * num) * (bool * num) := Eval vm_compute in kk (fra, qZ - fra) (fra, qZ - fra) (0, 0) gf2z.
Definition gf3k : (bool * num) * (bool * num) := Eval vm_compute in kk gf2z (fra, qZ - fra) (0, 0) gf3z.
Definition mul2k : (bool * num) * (bool * num) -> d2 -> d2 -> d2 -> d2 -> bool := Eval cbv
  [mul2 eqk fst snd andb] in mul2.
Lemma mul2k_ok k l d b : mul2k k l d z2 b = true -> gmul (v2 l) (v2 d) = v2 b.
Proof. change mul2k with mul2. intros H. apply mul2_ok in H. rewrite v2_z in H. rewrite <- H. ring. Qed.
Lemma gfd_ok : v2 gfd = gf.
Proof.
  Transparent gf. unfold gf. Opaque gf. unfold v2. 
  assert (H1 : nval (fst gfd) = fra) by (vm_cast_no_check (eq_refl fra)).
  Transparent q381. assert (H2 : nval (fst gfd) + nval (snd gfd) = q381) by (vm_cast_no_check (eq_refl q381)).
  Opaque q381. rewrite (fopp_q _ _ H2), H1. reflexivity.
Qed.
Lemma gf2_ok : v2 gf2d = gmul gf gf.
Proof. rewrite <- gfd_ok. symmetry. apply (mul2k_ok gf2k). vmt. Qed.
Lemma gf3_ok : v2 gf3d = gmul gf (gmul gf gf).
Proof. rewrite <- gf2_ok, <- gfd_ok. transitivity (gmul (v2 gf2d) (v2 gfd)); [|ring]. symmetry. apply (mul2k_ok gf3k). vmt. Qed.
Definition cj2 (a c : d2) : bool := eqn (fst a) (fst c) && eqn (add (snd a) (snd c)) qd.
Lemma cj2_ok a c : cj2 a c = true -> v2 c = gconj (v2 a).
Proof.
  unfold cj2. intros H. apply andb_true_iff in H. destruct H as [H1 H2]. apply eqn_ok in H1. apply eqn_ok in H2. rewrite add_ok, qd_val in H2.
  unfold v2, gconj. cbn [fst snd]. rewrite (fopp_q _ _ H2), H1. reflexivity.
Qed.
Record pcert : Set := PCert { pc_x : d2; pc_y : d2; pc_k1 : (bool * num) * (bool * num); pc_k2 : (bool * num) * (bool * num) }.
Definition psik (p e : dpt) (c : pcert) : bool :=
  cj2 (fst p) (pc_x c) && cj2 (snd p) (pc_y c) && mul2k (pc_k1 c) (fst e) gf2d z2 (pc_x c) && mul2k (pc_k2 c) (snd e) gf3d z2 (pc_y c).
Definition cjz (a : z22) : z22 := (fst a, qZ - snd a).
Definition mkpsi (p e : zpt) : pcert := PCert (ofP 48 (cjz (fst p))) (ofP 48 (cjz (snd p))) (kk (fst e) gf2z (0, 0) (cjz (fst p))) (kk (snd e) gf3z (0, 0) (cjz (snd p))).
Lemma ginv_mul f g x c : gmul f g = g1 -> gmul x f = c -> gmul c g = x.
Proof. intros F <-. transitivity (gmul x (gmul f g)); [ring|]. rewrite F. ring. Qed.
Lemma gf_gfi : gmul gf gfi = g1.
Proof. Transparent gfi. unfold gfi. Opaque gfi. transitivity (gmul (ginv gf) gf); [ring|exact (Finv_l Fq2_field gf gf_nz)]. Qed.
Lemma psik_ok p e c : psik p e c = true -> psi (vp p) = vp e.
Proof.
  unfold psik. intros H. apply andb_true_iff in H. destruct H as [H H4]. apply andb_true_iff in H. destruct H as [H H3]. apply andb_true_iff in H. destruct H as [H1 H2].
  apply cj2_ok in H1. apply cj2_ok in H2. apply mul2k_ok in H3. apply mul2k_ok in H4. rewrite H1, gf2_ok in H3. rewrite H2, gf3_ok in H4.
  pose proof gf_gfi as FG. unfold vp, psi. cbn [psi_]. unfold px, py. apply (f_equal2 (@Aff Fq2)).
  - apply (ginv_mul (gmul gf gf) _ _ _); [|exact H3]. transitivity (gmul (gmul gf gfi) (gmul gf gfi)); [ring|]. rewrite FG. ring.
  - apply (ginv_mul (gmul gf (gmul gf gf)) _ _ _); [|exact H4]. transitivity (gmul (gmul gf gfi) (gmul (gmul gf gfi) (gmul gf gfi))); [ring|]. rewrite FG. ring.
Qed.
(* the curve equation in digits *)
Definition gbd : d2 := Eval vm_compute in ofP 48 (4, 4).
Lemma gbd_ok : v2 gbd = gb.
Proof. unfold v2. change (nval (fst gbd)) with 4. change (nval (snd gbd)) with 4. reflexivity. Qed.
Record ocert : Set := OCert { oc_x2 : d2; oc_y2 : d2; oc_k1 : (bool * num) * (bool * num); oc_k2 : (bool * num) * (bool * num); oc_k3 : (bool * num) * (bool * num) }.
Lemma mul2k_oka k l d a b : mul2k k l d a b = true -> gadd (gmul (v2 l) (v2 d)) (v2 a) = v2 b.
Proof. change mul2k with mul2. apply mul2_ok. Qed.
Definition onk (p : dpt) (c : ocert) : bool :=
  mul2k (oc_k1 c) (fst p) (fst p) z2 (oc_x2 c) && mul2k (oc_k2 c) (snd p) (snd p) z2 (oc_y2 c) && mul2k (oc_k3 c) (oc_x2 c) (fst p) gbd (oc_y2 c).
Definition mkon (p : zpt) : ocert :=
  let x2 := m2 (fst p) (fst p) in let y2 := m2 (snd p) (snd p) in
  OCert (ofP 48 x2) (ofP 48 y2) (kk (fst p) (fst p) (0, 0) x2) (kk (snd p) (snd p) (0, 0) y2) (kk x2 (fst p) (4, 4) y2).
Lemma onk_ok p c : onk p c = true -> on2 (vp p).
Proof.
  unfold onk. intros H. apply andb_true_iff in H. destruct H as [H H3]. apply andb_true_iff in H. destruct H as [H1 H2].
  apply mul2k_oka in H1. apply mul2k_oka in H2. apply mul2k_oka in H3. rewrite gbd_ok in H3. rewrite v2_z in H1, H2. unfold vp. cbn [on2 on_curve].
  rewrite <- H2, <- H1 in H3. transitivity (gadd (gmul (v2 (snd p)) (v2 (snd p))) g0); [ring|]. rewrite <- H3. ring.
Qed.
