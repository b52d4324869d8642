(* Additivity of the pairing in the second argument: the product of a line of
   the twist over three collinear points equals the product of the line
   through those points over the three points of the twist. *)
From Coq Require Import ZArith List Bool Lia Znumtheory Field.
From Verif Require Import NumT FieldQ FieldQ2 SpecCurve CurveP GroupP LineP EcpP Ecp2P Tower TowerP FrobP CycP FexpP SpecPairing PairP PairP2 PairP3 MillerP2 MillerP3 PsiP.
Open Scope Z_scope.

Section Core.
  Variables (al ga la nu X1 X2 X3 x1 x2 x3 B two : Fq12).
  Hypotheses (TW : two = kadd k1 k1).
  Hypotheses (S : kmul al al = kadd (kadd X1 X2) X3) (P : kopp (kmul (kmul two al) ga) = kadd (kadd (kmul X1 X2) (kmul X1 X3)) (kmul X2 X3))
    (C : ksub B (kmul ga ga) = kopp (kmul (kmul X1 X2) X3)).
  Hypotheses (S' : kmul la la = kadd (kadd x1 x2) x3) (P' : kopp (kmul (kmul two la) nu) = kadd (kadd (kmul x1 x2) (kmul x1 x3)) (kmul x2 x3))
    (C' : ksub B (kmul nu nu) = kopp (kmul (kmul x1 x2) x3)).
  Let f X := ksub (ksub (kadd (kmul al X) ga) (kmul la X)) nu.
  Let h x := ksub (ksub (kadd (kmul la x) nu) (kmul al x)) ga.
  Lemma recip_core : kmul (kmul (f X1) (f X2)) (f X3) = kopp (kmul (kmul (h x1) (h x2)) (h x3)).
  Proof.
    set (m := ksub al la). set (n := ksub ga nu).
    transitivity (kadd (kadd (kadd (kmul (kmul m (kmul m m)) (kmul (kmul X1 X2) X3)) (kmul (kmul (kmul m m) n) (kadd (kadd (kmul X1 X2) (kmul X1 X3)) (kmul X2 X3))))
      (kmul (kmul m (kmul n n)) (kadd (kadd X1 X2) X3))) (kmul n (kmul n n))).
    { unfold f, m, n. ring. }
    transitivity (kadd (kadd (kadd (kmul (kmul m (kmul m m)) (kmul (kmul x1 x2) x3)) (kmul (kmul (kmul m m) n) (kadd (kadd (kmul x1 x2) (kmul x1 x3)) (kmul x2 x3))))
      (kmul (kmul m (kmul n n)) (kadd (kadd x1 x2) x3))) (kmul n (kmul n n))); [|unfold h, m, n; ring].
    rewrite <- S, <- P, <- S', <- P'.
    replace (kmul (kmul X1 X2) X3) with (ksub (kmul ga ga) B) by (transitivity (kopp (ksub B (kmul ga ga))); [ring|rewrite C; ring]).
    replace (kmul (kmul x1 x2) x3) with (ksub (kmul nu nu) B) by (transitivity (kopp (ksub B (kmul nu nu))); [ring|rewrite C'; ring]).
    rewrite TW. unfold m, n. ring.
  Qed.
End Core.

Notation meets1 := (meets Fq f1 fadd fmul fsub fopp fb).
Section Trip.
Variables (a c x1 y1 x2 y2 x3 y3 : Fq).
Hypothesis MQ : meets1 a c x1 y1 x2 y2 x3 y3.
Hypotheses (C1 : fmul y1 y1 = fadd (fmul (fmul x1 x1) x1) fb) (C2 : fmul y2 y2 = fadd (fmul (fmul x2 x2) x2) fb)
  (C3 : fmul y3 y3 = fadd (fmul (fmul x3 x3) x3) fb).
Definition e1 (x : Fq) : Fq12 := emb2 (gemb x).
Lemma e1_add x y : e1 (fadd x y) = kadd (e1 x) (e1 y).
Proof. unfold e1. rewrite <- emb2_add. apply f_equal. unfold gemb, gadd. cbn [fst snd]. apply f_equal2; ring. Qed.
Lemma e1_mul x y : e1 (fmul x y) = kmul (e1 x) (e1 y).
Proof. unfold e1. rewrite gemb_mul. apply emb2_mul. Qed.
Lemma e1_opp x : e1 (fopp x) = kopp (e1 x).
Proof. unfold e1. rewrite <- emb2_opp. apply f_equal. unfold gemb, gopp. cbn [fst snd]. apply f_equal2; ring. Qed.
Lemma e1_sub x y : e1 (fsub x y) = ksub (e1 x) (e1 y).
Proof. unfold e1. rewrite <- emb2_sub. apply f_equal. unfold gemb, gsub. cbn [fst snd]. apply f_equal2; ring. Qed.
Lemma e1_1 : e1 f1 = k1. Proof. reflexivity. Qed.
Let al := kmul (e1 a) kw. Let ga := kmul (e1 c) (kmul kw (kmul kw kw)).
Definition hv (x y : Fq2) : Fq12 := ksub (ksub (emb2 y) (kmul al (emb2 x))) ga.
Lemma w6_gb : emb2 gb = kmul (e1 fb) (kmul (kmul kw (kmul kw kw)) (kmul kw (kmul kw kw))).
Proof.
  assert (W6 : kmul (kmul kw (kmul kw kw)) (kmul kw (kmul kw kw)) = emb2 gi1) by (rewrite w3_hs, <- kemb_mul, hs_sq; reflexivity).
  assert (E3 : gb = gmul (gemb fb) gi1) by (unfold gb, gemb, fb, gi1, gmul; cbn [fst snd]; apply f_equal2; ring).
  rewrite W6, E3, emb2_mul. reflexivity.
Qed.
Lemma emb2_two : emb2 (gadd g1 g1) = kadd k1 k1. Proof. rewrite emb2_add. reflexivity. Qed.
Lemma recip l n u1 v1 u2 v2 u3 v3 : meets2 l n u1 v1 u2 v2 u3 v3 ->
  kmul (kmul (line x1 y1 l n) (line x2 y2 l n)) (line x3 y3 l n) = kopp (kmul (kmul (hv u1 v1) (hv u2 v2)) (hv u3 v3)).
Proof.
  intros [A1 A2 A3 AS AP AC]. pose proof MQ as [B1 B2 B3 BS BP BC].
  apply (f_equal emb2) in A1, A2, A3, AS, AP, AC. apply (f_equal e1) in B1, B2, B3, BS, BP, BC.
  rewrite emb2_add, emb2_mul in A1. rewrite emb2_add, emb2_mul in A2. rewrite emb2_add, emb2_mul in A3.
  rewrite emb2_mul, !emb2_add in AS. rewrite emb2_opp, (emb2_mul (gmul (gadd g1 g1) l) n), (emb2_mul (gadd g1 g1) l), emb2_two, !emb2_add, !emb2_mul in AP.
  rewrite emb2_sub, emb2_opp, !emb2_mul in AC.
  rewrite e1_add, e1_mul in B1. rewrite e1_add, e1_mul in B2. rewrite e1_add, e1_mul in B3.
  rewrite e1_mul, !e1_add in BS. rewrite e1_opp, (e1_mul (fmul (fadd f1 f1) a) c), (e1_mul (fadd f1 f1) a), (e1_add f1 f1), e1_1 in BP. rewrite !e1_add, !e1_mul in BP.
  rewrite e1_sub, e1_opp, !e1_mul in BC.
  pose proof w6_gb as W6.
  assert (X : forall t, twx t = kmul (e1 t) (kmul kw kw)) by reflexivity.
  assert (Y : forall t, twy t = kmul (e1 t) (kmul kw (kmul kw kw))) by reflexivity.
  unfold line, hv. rewrite !X, !Y, A1, A2, A3, B1, B2, B3.
  pose proof (recip_core al ga (emb2 l) (emb2 n) (kmul (e1 x1) (kmul kw kw)) (kmul (e1 x2) (kmul kw kw)) (kmul (e1 x3) (kmul kw kw))
    (emb2 u1) (emb2 u2) (emb2 u3) (emb2 gb) (kadd k1 k1) eq_refl) as RC.
  transitivity (kmul (kmul (ksub (ksub (kadd (kmul al (kmul (e1 x1) (kmul kw kw))) ga) (kmul (emb2 l) (kmul (e1 x1) (kmul kw kw)))) (emb2 n))
    (ksub (ksub (kadd (kmul al (kmul (e1 x2) (kmul kw kw))) ga) (kmul (emb2 l) (kmul (e1 x2) (kmul kw kw)))) (emb2 n)))
    (ksub (ksub (kadd (kmul al (kmul (e1 x3) (kmul kw kw))) ga) (kmul (emb2 l) (kmul (e1 x3) (kmul kw kw)))) (emb2 n))).
  { unfold al, ga. apply f_equal2; [apply f_equal2|]; ring. }
  apply RC; clear RC.
  - transitivity (kmul (kmul (e1 a) (e1 a)) (kmul kw kw)); [unfold al; ring|]. rewrite BS. ring.
  - revert BP. generalize (kadd k1 k1). intros two BP.
    transitivity (kmul (kopp (kmul (kmul two (e1 a)) (e1 c))) (kmul (kmul kw kw) (kmul kw kw))); [unfold al, ga; ring|]. rewrite BP. ring.
  - rewrite W6. transitivity (kmul (ksub (e1 fb) (kmul (e1 c) (e1 c))) (kmul (kmul kw (kmul kw kw)) (kmul kw (kmul kw kw)))); [unfold ga; ring|].
    rewrite BC. ring.
  - exact AS.
  - exact AP.
  - exact AC.
Qed.
Lemma hv_mk x y : hv x y = mk12 (y, gopp (gemb c)) (gopp (gmul (gemb a) x), g0) h0.
Proof.
  unfold hv, al, ga, e1. rewrite w3_hs. unfold emb2, kemb, hemb, kw, ksub, kmul. cbn [ka kb kc].
  apply f_equal3; unfold hsub, hadd, hmul, hs, h0, h1; cbn [fst snd]; apply f_equal2; ring.
Qed.
Lemma hv_nz x y : on2 (Aff x y) -> hv x y <> k0.
Proof. intros O H. rewrite hv_mk in H. apply (y2_nz x y O). exact (f_equal (fun k => fst (ka k)) H). Qed.
Lemma hv_conj x y : kconj (hv x y) = kopp (hv x (gopp y)).
Proof.
  rewrite !hv_mk. unfold kconj, kopp, hconj, hopp, h0. cbn [ka kb kc fst snd]. apply f_equal3; apply f_equal2; ring.
Qed.
Definition HH (p : pt2) : Fq12 := match p with Inf => k1 | Aff x y => ee (hv x y) end.
Lemma HH_neg p : on2 p -> kmul (HH p) (HH (pneg2 p)) = k1.
Proof.
  destruct p as [|x y]; intros O; cbn [HH pneg]; [ring|]. rewrite <- (ee_opp (hv x (gopp y))), <- (hv_conj x y).
  exact (ee_conj (hv x y) (hv_nz x y O)).
Qed.
Section FR.
  Variables (f g x y : Fq2).
  Hypothesis FG : gmul f g = g1.
  Lemma hv_frobf : kfrobf f (hv x y) = kmul (k2emb (gmul f (gmul f f))) (hv (px g x) (py g y)).
  Proof.
    assert (CE : forall t, gconj (gemb t) = gemb t) by (intros t; unfold gconj, gemb; cbn [fst snd]; apply f_equal2; [reflexivity|ring]).
    assert (F3 : gmul (gmul f (gmul f f)) (gmul g (gmul g g)) = g1).
    { transitivity (gmul (gmul f g) (gmul (gmul f g) (gmul f g))); [ring|]. rewrite FG. ring. }
    rewrite !hv_mk. unfold px, py, kfrobf, k2emb, kmul, kemb, hemb, hfrob, hscale, h0. cbn [ka kb kc fst snd].
    rewrite !gconj_opp, !gconj_mul, !CE, !gconj_0.
    apply f_equal3; unfold hadd, hmul, hs; cbn [fst snd]; apply f_equal2; try ring.
    - transitivity (gmul (gmul (gmul f (gmul f f)) (gmul g (gmul g g))) (gconj y)); [rewrite F3; ring|ring].
    - transitivity (gopp (gmul (gmul f (gmul (gmul f g) (gmul f g))) (gmul (gemb a) (gconj x)))); [rewrite FG; ring|ring].
  Qed.
End FR.
Lemma HH_psi p : on2 p -> HH (psi p) = kpw (HH p) q381.
Proof.
  pose proof q381_pos as QP. destruct p as [|x y]; intros O; [symmetry; apply kpw_one|].
  change (psi (Aff x y)) with (Aff (px gfi x) (py gfi y)). cbn [HH].
  rewrite <- (ee_pw (hv x y) q381) by lia. rewrite <- (kfrob_pw (hv x y)). unfold kfrob. rewrite (hv_frobf gf gfi x y).
  - rewrite (ee_mul (k2emb (gmul gf (gmul gf gf)))). rewrite (ee_2 (gmul gf (gmul gf gf))) by (apply gmul_nz; [exact gf_nz|apply gmul_nz; exact gf_nz]). ring.
  - Transparent gfi. unfold gfi. Opaque gfi. transitivity (gmul (ginv gf) gf); [ring|exact (Finv_l Fq2_field gf gf_nz)].
Qed.
Definition L3 (A B : pt2) : Fq12 := kmul (kmul (LL x1 y1 A B) (LL x2 y2 A B)) (LL x3 y3 A B).
Lemma L3_HH A B : on2 A -> on2 B -> kmul (L3 A B) (HH (padd2 A B)) = kmul (HH A) (HH B).
Proof.
  intros OA OB. unfold L3.
  destruct A as [|u1 v1]; [rewrite (LL_inf_l x1 y1 B OB), (LL_inf_l x2 y2 B OB), (LL_inf_l x3 y3 B OB); cbn [padd HH]; ring|].
  destruct B as [|u2 v2]; [rewrite (LL_inf_r x1 y1 _ OA), (LL_inf_r x2 y2 _ OA), (LL_inf_r x3 y3 _ OA); cbn [padd]; change (HH Inf) with k1; ring|].
  destruct (padd2 (Aff u1 v1) (Aff u2 v2)) as [|u3 v3] eqn:S.
  - rewrite (LL_opp x1 y1 _ _ OA OB S), (LL_opp x2 y2 _ _ OA OB S), (LL_opp x3 y3 _ _ OA OB S). change (HH Inf) with k1.
    pose proof (proj1 (aff_opp u1 v1 u2 v2) S) as [E1 E2]. subst u1 v1. change (Aff u2 (gopp v2)) with (pneg2 (Aff u2 v2)).
    pose proof (HH_neg _ OB) as N. transitivity (kmul (HH (Aff u2 v2)) (HH (pneg2 (Aff u2 v2)))); [rewrite N; ring|ring].
  - destruct (LL_aff x1 y1 _ _ _ _ _ _ OA OB S) as (l & n & M & E & _). rewrite E.
    rewrite (LL_meets x2 y2 l n _ _ _ _ _ _ OA OB S M), (LL_meets x3 y3 l n _ _ _ _ _ _ OA OB S M).
    rewrite <- (ee_mul (line x1 y1 l n) (line x2 y2 l n)), <- (ee_mul (kmul (line x1 y1 l n) (line x2 y2 l n)) (line x3 y3 l n)).
    rewrite (recip l n _ _ _ _ _ _ M), (ee_opp (kmul (kmul (hv u1 v1) (hv u2 v2)) (hv u3 (gopp v3)))).
    rewrite (ee_mul (kmul (hv u1 v1) (hv u2 v2)) (hv u3 (gopp v3))), (ee_mul (hv u1 v1) (hv u2 v2)).
    assert (O3 : on2 (Aff u3 v3)) by (rewrite <- S; apply padd2_on; assumption).
    pose proof (HH_neg _ O3) as N. cbn [pneg HH] in N |- *.
    transitivity (kmul (kmul (ee (hv u1 v1)) (ee (hv u2 v2))) (kmul (ee (hv u3 v3)) (ee (hv u3 (gopp v3))))); [ring|]. rewrite N. ring.
Qed.
Lemma fz3 k P : 0 <= k -> on2 P -> kmul (kmul (kmul (fz x1 y1 k P) (fz x2 y2 k P)) (fz x3 y3 k P)) (HH (zm2 k P)) = kpw (HH P) k.
Proof.
  intros K O. revert k K. apply natlike_ind.
  - rewrite (fz_0 x1 y1 P), (fz_0 x2 y2 P), (fz_0 x3 y3 P), zm2_0, kpw_0. change (HH Inf) with k1. ring.
  - intros k K IH. rewrite (kpw_succ (HH P) k K), <- IH, <- Z.add_1_r, (fz_succ x1 y1 k P K O), (fz_succ x2 y2 k P K O), (fz_succ x3 y3 k P K O), (zm2_add k 1 P O), zm2_1.
    pose proof (L3_HH (zm2 k P) P (zm2_on k P O) O) as E. unfold L3 in E.
    transitivity (kmul (kmul (kmul (fz x1 y1 k P) (fz x2 y2 k P)) (fz x3 y3 k P))
      (kmul (kmul (kmul (LL x1 y1 (zm2 k P) P) (LL x2 y2 (zm2 k P) P)) (LL x3 y3 (zm2 k P) P)) (HH (padd2 (zm2 k P) P)))); [ring|].
    rewrite E. ring.
Qed.
Lemma fz3_1 P : eigen P -> kmul (kmul (fz x1 y1 bnx P) (fz x2 y2 bnx P)) (fz x3 y3 bnx P) = k1.
Proof.
  intros [O E]. assert (B0 : 0 <= bnx) by (vm_compute; discriminate).
  pose proof (fz3 bnx P B0 O) as F. rewrite E in F.
  pose proof (HH_neg (psi P) (psi2_on P O)) as N. rewrite (HH_psi P O) in N.
  assert (U : kmul (kpw (HH P) bnx) (kpw (HH P) q381) = k1).
  { destruct P as [|x y]; [change (HH Inf) with k1; rewrite !kpw_one; ring|]. exact (ee_uq (hv x y) (hv_nz x y O)). }
  rewrite <- F in U. revert U N. generalize (kpw (HH P) q381), (HH (pneg2 (psi P))). intros u v U N.
  revert U. generalize (kmul (kmul (fz x1 y1 bnx P) (fz x2 y2 bnx P)) (fz x3 y3 bnx P)). intros w U.
  transitivity (kmul w (kmul u v)); [rewrite N; ring|]. rewrite <- U. ring.
Qed.
End Trip.
