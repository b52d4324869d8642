(* The lines of the Miller functions after the final exponentiation. *)
From Coq Require Import ZArith List Bool Lia Znumtheory Field.
From Verif Require Import NumT FieldQ FieldQ2 SpecCurve CurveP GroupP LineP Ecp2P Tower TowerP FrobP CycP FexpP SpecPairing.
Open Scope Z_scope.
#[global] Opaque finexp uabs final_exp.

Definition ee (x : Fq12) : Fq12 := kpw x finexp.
Lemma ee_mul x y : ee (kmul x y) = kmul (ee x) (ee y).
Proof. unfold ee. apply kpw_base. Qed.
Lemma ee_1 : ee k1 = k1.
Proof. unfold ee. apply kpw_one. Qed.
Lemma ee_pw x e : 0 <= e -> ee (kpw x e) = kpw (ee x) e.
Proof.
  intros E. unfold ee. pose proof finexp_pos. rewrite <- (kpw_mul x e finexp) by lia. rewrite Z.mul_comm. apply kpw_mul; lia.
Qed.
Lemma kmul_nz x y : x <> k0 -> y <> k0 -> kmul x y <> k0.
Proof. intros A B H. apply k_integral in H. tauto. Qed.
Lemma kinv_nz x : x <> k0 -> kinv x <> k0.
Proof.
  intros N H. apply k1_neq_0. transitivity (kmul (kinv x) x); [field; exact N|]. rewrite H. ring.
Qed.
Lemma ee_inv_r x : x <> k0 -> kmul (ee x) (ee (kinv x)) = k1.
Proof. intros N. rewrite <- ee_mul, <- ee_1. f_equal. field. exact N. Qed.
Lemma ee_nz x : x <> k0 -> ee x <> k0.
Proof.
  intros N H. apply k1_neq_0. rewrite <- (ee_inv_r x N), H. ring.
Qed.
Lemma kcancel a x y : a <> k0 -> kmul a x = kmul a y -> x = y.
Proof.
  intros N H. transitivity (kdiv (kmul a x) a); [field; exact N|]. rewrite H. field. exact N.
Qed.
Lemma ee_inv x : x <> k0 -> ee (kinv x) = kinv (ee x).
Proof.
  intros N. apply (kcancel (ee x)); [apply ee_nz; exact N|]. rewrite (ee_inv_r x N). field. apply ee_nz. exact N.
Qed.
(* fixed by conjugation (the values in F_q6), or negated by it (such as w) *)
Section Kill.
  Variables (N h f : Z).
  Hypotheses (N1 : 1 < N) (H0 : 0 <= h) (F0 : 0 <= f).
  Hypothesis CJ : forall x, kpw x N = kconj x.
  Lemma kill_m1 x c : x <> k0 -> kconj x = kmul x c -> kpw x (N - 1) = c.
  Proof.
    intros X C. apply (kcancel x); [exact X|]. rewrite <- (kpw_1 x) at 1. rewrite <- (kpw_add x 1 (N - 1)) by lia.
    replace (1 + (N - 1)) with N by ring. rewrite (CJ x), C. reflexivity.
  Qed.
  Lemma kill x c : x <> k0 -> kconj x = kmul x c -> kmul c c = k1 -> kpw x ((N - 1) * (2 * h) * f) = k1.
  Proof.
    intros X C S. pose proof (kill_m1 x c X C) as E.
    rewrite (kpw_mul x ((N - 1) * (2 * h)) f) by nia. rewrite (kpw_mul x (N - 1) (2 * h)) by nia.
    rewrite E, (kpw_mul c 2 h), kpw_2, S by lia. rewrite !kpw_one. reflexivity.
  Qed.
End Kill.
Lemma q2_odd : exists h, 0 <= h /\ q2 + 1 = 2 * h.
Proof.
  assert (Q : q381 = 2 * ((q381 - 1) / 2) + 1) by (vm_compute; reflexivity). pose proof q381_pos as P.
  change q2 with (q381 * q381). revert Q P. generalize ((q381 - 1) / 2). intros k. generalize q381. intros q Q P.
  exists (2 * k * k + 2 * k + 1). subst q. split; [nia|ring].
Qed.
Lemma ee_kill x c : x <> k0 -> kconj x = kmul x c -> kmul c c = k1 -> ee x = k1.
Proof.
  intros N C S. unfold ee. rewrite finexp_eq. pose proof q2_gt1. pose proof fexpo_3. pose proof fexpo_pos.
  destruct q2_odd as (h & HH & H2). rewrite H2.
  assert (N1 : 1 < q2 * q2 * q2) by nia. assert (F0 : 0 <= fexpo) by lia.
  exact (kill (q2 * q2 * q2) h fexpo N1 HH F0 kconj_pw x c N C S).
Qed.
Lemma ee_fixed x : x <> k0 -> kconj x = x -> ee x = k1.
Proof. intros N C. apply (ee_kill x k1 N); [rewrite C|]; ring. Qed.
Lemma ee_odd x : x <> k0 -> kconj x = kopp x -> ee x = k1.
Proof. intros N C. apply (ee_kill x (kopp k1) N); [rewrite C|]; ring. Qed.
Lemma ee_conj x : x <> k0 -> kmul (ee x) (ee (kconj x)) = k1.
Proof.
  intros N. rewrite <- ee_mul. apply ee_fixed; [apply kmul_nz; [exact N|apply kconj_nz; exact N]|].
  rewrite kconj_mul, kconj_conj. ring.
Qed.
Lemma kconj_2 c : kconj (k2emb c) = k2emb c.
Proof.
  unfold kconj, k2emb, kemb, hemb, hconj, hopp, h0. cbn [ka kb kc fst snd]. apply f_equal3; apply f_equal2; ring.
Qed.
Lemma k2emb_nz c : c <> g0 -> k2emb c <> k0.
Proof. intros N H. apply N. apply (f_equal (fun x => fst (ka x))) in H. exact H. Qed.
Lemma ee_2 c : c <> g0 -> ee (k2emb c) = k1.
Proof. intros N. apply ee_fixed; [apply k2emb_nz; exact N|apply kconj_2]. Qed.

#[global] Opaque ee.
(* ------------------------- lines at one point -------------------------- *)
Lemma emb2_mul x y : emb2 (gmul x y) = kmul (emb2 x) (emb2 y). Proof. exact (k2emb_mul x y). Qed.
Lemma emb2_add x y : emb2 (gadd x y) = kadd (emb2 x) (emb2 y). Proof. exact (k2emb_add x y). Qed.
Lemma emb2_sub x y : emb2 (gsub x y) = ksub (emb2 x) (emb2 y).
Proof. unfold emb2, kemb, hemb, ksub, hsub. cbn [ka kb kc fst snd h0]. apply f_equal3; apply f_equal2; ring. Qed.
Lemma emb2_opp x : emb2 (gopp x) = kopp (emb2 x).
Proof. unfold emb2, kemb, hemb, kopp, hopp. cbn [ka kb kc fst snd h0]. apply f_equal3; apply f_equal2; ring. Qed.
Lemma emb2_0 : emb2 g0 = k0. Proof. reflexivity. Qed.
Lemma emb2_1 : emb2 g1 = k1. Proof. reflexivity. Qed.
Lemma emb2_nz c : c <> g0 -> emb2 c <> k0. Proof. exact (k2emb_nz c). Qed.
Lemma kconj_add x y : kconj (kadd x y) = kadd (kconj x) (kconj y).
Proof.
  destruct x as [[? ?] [? ?] [? ?]], y as [[? ?] [? ?] [? ?]]. unfold kconj, kadd, hconj, hopp, hadd. cbn [ka kb kc fst snd].
  apply f_equal3; apply f_equal2; ring.
Qed.
Lemma kconj_opp x : kconj (kopp x) = kopp (kconj x).
Proof.
  destruct x as [[? ?] [? ?] [? ?]]. unfold kconj, kopp, hconj, hopp. cbn [ka kb kc fst snd].
  apply f_equal3; apply f_equal2; ring.
Qed.
Lemma kconj_sub x y : kconj (ksub x y) = ksub (kconj x) (kconj y).
Proof.
  replace (ksub x y) with (kadd x (kopp y)) by ring. rewrite kconj_add, kconj_opp. ring.
Qed.
Lemma kconj_w : kconj kw = kopp kw.
Proof.
  unfold kconj, kopp, kw, hconj, hopp, h0, h1. cbn [ka kb kc fst snd]. apply f_equal3; apply f_equal2; ring.
Qed.
Lemma gb_nonsquare t : gmul t t <> gb.
Proof.
  intros H. assert (E4 : gb = gmul (gmul (gadd g1 g1) (gadd g1 g1)) gi1).
  { assert (E : mkq 4 = fmul (fadd f1 f1) (fadd f1 f1)) by (unfold f1; rewrite <- mkq_add, <- mkq_mul; reflexivity).
    unfold gb. rewrite E. unfold gi1, gadd, gmul, g1. cbn [fst snd]. apply f_equal2; ring. }
  pose proof gtwo_nz as T. revert H E4 T. generalize (gadd g1 g1). intros two H E4 T.
  apply (gi1_nonsquare (gdiv t two)). transitivity (gdiv (gmul t t) (gmul two two)); [field; exact T|].
  rewrite H, E4. field. exact T.
Qed.

Section At.
Variables (qx qy : Fq).
Hypothesis CQ : fmul qy qy = fadd (fmul (fmul qx qx) qx) fb.
Notation X := (twx qx). Notation Y := (twy qy).
Lemma conjX : kconj X = X.
Proof. unfold twx. rewrite !kconj_mul, kconj_w. change (emb2 (gemb qx)) with (k2emb (gemb qx)). rewrite kconj_2. ring. Qed.
Lemma conjY : kconj Y = kopp Y.
Proof. unfold twy. rewrite !kconj_mul, kconj_w. change (emb2 (gemb qy)) with (k2emb (gemb qy)). rewrite kconj_2. ring. Qed.
Lemma w3_hs : kmul kw (kmul kw kw) = kemb hs.
Proof. unfold kw, kmul, kemb. cbn [ka kb kc]. apply f_equal3; ring. Qed.
Lemma X_mk : X = mk12 h0 h0 (gemb qx, g0).
Proof.
  unfold twx, emb2, kemb, kw, kmul. cbn [ka kb kc]. apply f_equal3; [ring|ring|].
  unfold hemb, hadd, hmul, h0, h1. cbn [fst snd]. apply f_equal2; ring.
Qed.
Lemma Y_mk : Y = mk12 (g0, gemb qy) h0 h0.
Proof.
  unfold twy. rewrite w3_hs. unfold emb2, kemb, kmul. cbn [ka kb kc]. apply f_equal3; [|ring|ring].
  unfold hemb, hs, hadd, hmul, h0, h1. cbn [fst snd]. apply f_equal2; ring.
Qed.
Lemma XY_curve : kmul Y Y = kadd (kmul (kmul X X) X) (emb2 gb).
Proof.
  assert (W6 : kmul (kmul kw (kmul kw kw)) (kmul kw (kmul kw kw)) = emb2 gi1).
  { rewrite w3_hs, <- kemb_mul, hs_sq. reflexivity. }
  assert (E1 : kmul Y Y = kmul (emb2 (gemb (fmul qy qy))) (kmul (kmul kw (kmul kw kw)) (kmul kw (kmul kw kw)))).
  { unfold twy. rewrite gemb_mul, emb2_mul. ring. }
  assert (E2 : kmul (kmul X X) X = kmul (emb2 (gemb (fmul (fmul qx qx) qx))) (kmul (kmul kw (kmul kw kw)) (kmul kw (kmul kw kw)))).
  { unfold twx. rewrite !gemb_mul, !emb2_mul. ring. }
  assert (E3 : gb = gmul (gemb fb) gi1).
  { unfold gb, gemb, fb, gi1, gmul. cbn [fst snd]. apply f_equal2; ring. }
  rewrite E1, E2, W6, CQ, E3. replace (gemb (fadd (fmul (fmul qx qx) qx) fb)) with (gadd (gemb (fmul (fmul qx qx) qx)) (gemb fb)).
  - rewrite emb2_add, !emb2_mul. ring.
  - unfold gadd, gemb. cbn [fst snd]. apply f_equal2; ring.
Qed.

Definition line (l n : Fq2) : Fq12 := ksub (ksub Y (kmul (emb2 l) X)) (emb2 n).
Lemma line_mk l n : line l n = mk12 (gopp n, gemb qy) h0 (gopp (gmul l (gemb qx)), g0).
Proof.
  unfold line. rewrite X_mk, Y_mk. unfold emb2, kemb, ksub, kmul. cbn [ka kb kc]. apply f_equal3; [|ring|].
  - unfold hemb, hsub, hadd, hmul, hs, h0. cbn [fst snd]. apply f_equal2; ring.
  - unfold hemb, hsub, hadd, hmul, hs, h0. cbn [fst snd]. apply f_equal2; ring.
Qed.
Lemma qy_nz : qy <> f0.
Proof. exact (y_nz Fq f0 f1 fadd fmul fsub fopp fdiv finv Fq_field fb fb_noroot qx qy CQ). Qed.
Lemma line_nz l n : line l n <> k0.
Proof.
  rewrite line_mk. intros H. apply (f_equal (fun k => fst (snd (ka k)))) in H. apply qy_nz. exact H.
Qed.
Lemma line_conj l n : kconj (line l n) = kopp (line (gopp l) (gopp n)).
Proof.
  unfold line. rewrite !kconj_sub, kconj_mul, conjX, conjY. change emb2 with k2emb. rewrite !kconj_2. change k2emb with emb2.
  rewrite !emb2_opp. ring.
Qed.
Lemma ee_m1 : ee (kopp k1) = k1.
Proof. replace (kopp k1) with (emb2 (gopp g1)) by (rewrite emb2_opp; reflexivity). apply ee_2. intros H. apply g1_neq_0. transitivity (gopp (gopp g1)); [ring|]. rewrite H. ring. Qed.
Lemma ee_opp x : ee (kopp x) = ee x.
Proof. replace (kopp x) with (kmul (kopp k1) x) by ring. rewrite ee_mul, ee_m1. ring. Qed.
Lemma line_neg l n : kmul (ee (line l n)) (ee (line (gopp l) (gopp n))) = k1.
Proof.
  transitivity (kmul (ee (line l n)) (ee (kconj (line l n)))); [|exact (ee_conj (line l n) (line_nz l n))].
  rewrite (line_conj l n), (ee_opp (line (gopp l) (gopp n))). reflexivity.
Qed.
Lemma vert_nz p : on2 p -> vert X p <> k0.
Proof.
  destruct p as [|xa ya]; intros O; [exact k1_neq_0|]. cbn [vert]. rewrite X_mk. intros H.
  apply (f_equal (fun k => fst (ka k))) in H. cbn in H.
  assert (XA : xa = g0). { transitivity (gopp (gsub g0 xa)); [ring|]. rewrite H. ring. }
  subst xa. cbn [on_curve] in O. apply (gb_nonsquare ya). rewrite O. ring.
Qed.
Lemma vert_1 p : on2 p -> ee (vert X p) = k1.
Proof.
  intros O. apply ee_fixed; [apply vert_nz; exact O|]. destruct p as [|xa ya]; cbn [vert].
  - exact (kconj_2 g1).
  - rewrite kconj_sub, conjX. change emb2 with k2emb. rewrite kconj_2. reflexivity.
Qed.
Lemma cut_line l xa ya : cut X Y l xa ya = line l (gsub ya (gmul l xa)).
Proof. unfold cut, line. rewrite emb2_sub, emb2_mul. ring. Qed.
End At.
