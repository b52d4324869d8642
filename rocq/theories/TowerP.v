(* The tower is a tower of fields; powers; the q-th power map. *)
From Coq Require Import ZArith List Bool Lia Znumtheory Field.
From Verif Require Import NumT FieldQ FieldQ2 Tower.
From Verif Require Export KexpD.
Open Scope Z_scope.

(* ------------------------- powers, in any commutative ring ------------ *)
Section Pow.
  Context {A : Type} (zero one : A) (add mul sub : A -> A -> A) (opp : A -> A).
  Context (RT : ring_theory zero one add mul sub opp (@eq A)).
  Add Ring AR : RT.
  Notation pw := (rpow mul one).
  Lemma rpow_0 x : pw x 0 = one. Proof. reflexivity. Qed.
  Lemma rpow_succ x e : 0 <= e -> pw x (Z.succ e) = mul x (pw x e).
  Proof. intros E. unfold rpow. rewrite Z2Nat.inj_succ by auto. reflexivity. Qed.
  Lemma rpow_1 x : pw x 1 = x. Proof. change (mul x one = x). ring. Qed.
  Lemma rpow_add x a b : 0 <= a -> 0 <= b -> pw x (a + b) = mul (pw x a) (pw x b).
  Proof.
    intros Ha Hb. revert a Ha. apply natlike_ind.
    - rewrite rpow_0. cbn [Z.add]. ring.
    - intros a Ha IH. rewrite Z.add_succ_l, !rpow_succ by lia. rewrite IH. ring.
  Qed.
  Lemma rpow_one e : pw one e = one.
  Proof. unfold rpow. induction (Z.to_nat e) as [|n IH]; [reflexivity|]. cbn [Nat.iter]. change (mul one (Nat.iter n (mul one) one) = one). rewrite IH. ring. Qed.
  Lemma rpow_mul x a b : 0 <= a -> 0 <= b -> pw x (a * b) = pw (pw x a) b.
  Proof.
    intros Ha Hb. revert b Hb. apply natlike_ind.
    - rewrite Z.mul_0_r. reflexivity.
    - intros b Hb IH. rewrite Z.mul_succ_r, rpow_add by nia. rewrite rpow_succ by auto. rewrite IH. ring.
  Qed.
  Lemma rpow_base x y e : pw (mul x y) e = mul (pw x e) (pw y e).
  Proof.
    destruct (Z_le_gt_dec 0 e) as [E|E].
    - revert e E. apply natlike_ind; [rewrite !rpow_0; ring|]. intros e E IH. rewrite !rpow_succ by auto. rewrite IH. ring.
    - unfold rpow. destruct e; try lia. cbn. ring.
  Qed.
  Lemma rpow_2 x : pw x 2 = mul x x.
  Proof. change 2 with (1 + 1). rewrite rpow_add by lia. rewrite rpow_1. reflexivity. Qed.
  Lemma rpow_zero e : 0 < e -> pw zero e = zero.
  Proof. intros E. replace e with (Z.succ (e - 1)) by lia. rewrite rpow_succ by lia. ring. Qed.
End Pow.

(* a ring homomorphism commutes with powers *)
Lemma rpow_hom {A B} (ma : A -> A -> A) (oa : A) (mb : B -> B -> B) (ob : B) (f : A -> B) :
  f oa = ob -> (forall x y, f (ma x y) = mb (f x) (f y)) -> forall x e, f (rpow ma oa x e) = rpow mb ob (f x) e.
Proof.
  intros F1 FM x e. unfold rpow. induction (Z.to_nat e) as [|n IH]; [exact F1|]. change (f (ma x (Nat.iter n (ma x) oa)) = mb (f x) (Nat.iter n (mb (f x)) ob)). rewrite FM, IH. reflexivity.
Qed.

Definition gpw_add := rpow_add _ _ _ _ _ _ Fq2_ring : forall x a b, 0 <= a -> 0 <= b -> gpw x (a + b) = gmul (gpw x a) (gpw x b).
Definition gpw_mul := rpow_mul _ _ _ _ _ _ Fq2_ring : forall x a b, 0 <= a -> 0 <= b -> gpw x (a * b) = gpw (gpw x a) b.
Definition gpw_base := rpow_base _ _ _ _ _ _ Fq2_ring : forall x y e, gpw (gmul x y) e = gmul (gpw x e) (gpw y e).
Definition gpw_1 := rpow_1 _ _ _ _ _ _ Fq2_ring : forall x, gpw x 1 = x.
Definition gpw_2 := rpow_2 _ _ _ _ _ _ Fq2_ring : forall x, gpw x 2 = gmul x x.
Definition gpw_one := rpow_one _ _ _ _ _ _ Fq2_ring : forall e, gpw g1 e = g1.
Definition kpw_0 x : kpw x 0 = k1 := eq_refl.
Definition kpw_succ := rpow_succ k1 kmul : forall x e, 0 <= e -> kpw x (Z.succ e) = kmul x (kpw x e).
Definition kpw_add := rpow_add _ _ _ _ _ _ Fq12_ring : forall x a b, 0 <= a -> 0 <= b -> kpw x (a + b) = kmul (kpw x a) (kpw x b).
Definition kpw_mul := rpow_mul _ _ _ _ _ _ Fq12_ring : forall x a b, 0 <= a -> 0 <= b -> kpw x (a * b) = kpw (kpw x a) b.
Definition kpw_base := rpow_base _ _ _ _ _ _ Fq12_ring : forall x y e, kpw (kmul x y) e = kmul (kpw x e) (kpw y e).
Definition kpw_1 := rpow_1 _ _ _ _ _ _ Fq12_ring : forall x, kpw x 1 = x.
Definition kpw_2 := rpow_2 _ _ _ _ _ _ Fq12_ring : forall x, kpw x 2 = kmul x x.
Definition kpw_one := rpow_one _ _ _ _ _ _ Fq12_ring : forall e, kpw k1 e = k1.
Definition kpw_zero := rpow_zero _ _ _ _ _ _ Fq12_ring : forall e, 0 < e -> kpw k0 e = k0.
#[global] Opaque gpw hpw kpw.

(* ------------------------- the one modular power ---------------------- *)
Lemma kexp_q : q381 - 1 = 6 * (2 * kexp + 1). Proof. vm_compute. reflexivity. Qed.
Lemma kexp_4 : kexp = 4 * (kexp / 4) + 3. Proof. vm_compute. reflexivity. Qed.
Lemma kexp_pos : 0 <= kexp. Proof. intros H. vm_compute in H. discriminate. Qed.
Lemma two_kexp : fpw (mkq 2) kexp = mkq fra.
Proof.
  rewrite <- mkq_pow. apply mkq_eq. exact kpow.
Qed.
#[global] Opaque kexp.

Lemma mkq2_nz : mkq 2 <> f0.
Proof. intros E. apply mkq_inj in E. vm_compute in E. discriminate. Qed.
Lemma fra_6 : (fra ^ 6 * 2 ^ 3) mod q381 <> 1 mod q381.
Proof. vm_compute. discriminate. Qed.
Lemma nonsquare2 x : fmul x x <> mkq 2.
Proof.
  intros H. assert (X : x <> f0).
  { intros ->. rewrite fmul_0_l in H. symmetry in H. exact (mkq2_nz H). }
  pose proof kexp_q as Q. pose proof kexp_pos as K.
  assert (E : fpw (mkq 2) (3 * (2 * kexp + 1)) = f1).
  { rewrite <- H, <- fpw_2, <- fpw_mul by lia. replace (2 * (3 * (2 * kexp + 1))) with (q381 - 1) by lia. apply fpw_fermat. exact X. }
  replace (3 * (2 * kexp + 1)) with (kexp * 6 + 3) in E by lia.
  rewrite fpw_add, fpw_mul, two_kexp, <- !mkq_pow, <- mkq_mul in E by lia.
  exact (fra_6 (mkq_inj _ _ E)).
Qed.
Lemma noncube2 x : fmul x (fmul x x) <> mkq 2.
Proof.
  intros H. assert (X : x <> f0).
  { intros ->. rewrite fmul_0_l in H. symmetry in H. exact (mkq2_nz H). }
  apply c3_ne. unfold c3. rewrite <- H. apply cube_pow. exact X.
Qed.
Lemma gi1_norm : gnorm gi1 = mkq 2.
Proof.
  unfold gnorm, gi1, f1. cbn [fst snd]. rewrite <- !mkq_mul, <- mkq_add. reflexivity.
Qed.
Lemma gi1_nonsquare x : gmul x x <> gi1.
Proof. intros H. apply (nonsquare2 (gnorm x)). rewrite <- gnorm_mul, H. exact gi1_norm. Qed.
Lemma gi1_nz : gi1 <> g0.
Proof. intros H. apply (f_equal fst) in H. apply f1_neq_0. exact H. Qed.
Lemma g_integral x y : gmul x y = g0 -> x = g0 \/ y = g0.
Proof.
  intros H. destruct (Fq2_dec x g0) as [E|N]; [left; exact E|right].
  transitivity (gdiv (gmul x y) x); [field; exact N|]. rewrite H. field. exact N.
Qed.

(* ------------------------------ Fq4 is a field ------------------------ *)
Lemma hnorm_nz x : x <> h0 -> hnorm x <> g0.
Proof.
  intros N H. apply N. destruct x as [a b]. unfold hnorm in H. cbn [fst snd] in H.
  destruct (Fq2_dec b g0) as [->|B].
  - assert (E : gmul a a = g0) by (rewrite <- H; ring). apply g_integral in E. assert (a = g0) by tauto. subst a. reflexivity.
  - exfalso. apply (gi1_nonsquare (gdiv a b)).
    transitivity (gadd (gdiv (gsub (gmul a a) (gmul gi1 (gmul b b))) (gmul b b)) gi1); [field; exact B|].
    rewrite H. field. exact B.
Qed.
Lemma h1_neq_0 : h1 <> h0. Proof. intros H. apply (f_equal fst) in H. apply g1_neq_0. exact H. Qed.
Lemma Fq4_field : field_theory h0 h1 hadd hmul hsub hopp hdiv hinv (@eq Fq4).
Proof.
  constructor; [exact Fq4_ring|exact h1_neq_0|reflexivity|].
  intros x N. pose proof (hnorm_nz x N) as NN. destruct x as [a b]. unfold hinv, hmul, h1. cbn [fst snd].
  unfold hnorm in *. cbn [fst snd] in *. f_equal; field; exact NN.
Qed.
Add Field Fq4F : Fq4_field.
Lemma h_integral x y : hmul x y = h0 -> x = h0 \/ y = h0.
Proof.
  intros H. destruct (Fq4_dec x h0) as [E|N]; [left; exact E|right].
  transitivity (hdiv (hmul x y) x); [field; exact N|]. rewrite H. field. exact N.
Qed.
Lemma hnorm_mul x y : hnorm (hmul x y) = gmul (hnorm x) (hnorm y).
Proof. destruct x, y. unfold hnorm, hmul. cbn [fst snd]. ring. Qed.
Lemma hs_noncube x : hmul x (hmul x x) <> hs.
Proof.
  intros H. apply (noncube2 (gnorm (hnorm x))). rewrite <- !gnorm_mul, <- !hnorm_mul, H.
  assert (E : hnorm hs = gopp gi1) by (unfold hnorm, hs; cbn [fst snd]; ring).
  rewrite E, <- gi1_norm. unfold gnorm, gopp. cbn [fst snd]. ring.
Qed.
Lemma hs_nz : hs <> h0.
Proof. intros H. apply (f_equal snd) in H. apply g1_neq_0. exact H. Qed.

(* ------------------------------ Fq12 is a field ----------------------- *)
Lemma kcof_cof x : kcof (kcof x) = kscale (knorm x) x.
Proof. destruct x as [a b c]. unfold knorm, kcof, kscale. cbn [ka kb kc]. f_equal; ring. Qed.
Lemma kmul_cof x : kmul x (kcof x) = kemb (knorm x).
Proof. destruct x as [a b c]. unfold knorm, kcof, kemb, kmul. cbn [ka kb kc]. f_equal; ring. Qed.
Lemma kcof_0 x : kcof x = k0 -> x = k0.
Proof.
  destruct x as [a b c]. unfold kcof, k0. cbn [ka kb kc]. intros H.
  assert (Ha : hsub (hmul a a) (hmul hs (hmul b c)) = h0) by exact (f_equal ka H).
  assert (Hb : hsub (hmul hs (hmul c c)) (hmul a b) = h0) by exact (f_equal kb H).
  assert (Hc : hsub (hmul b b) (hmul a c) = h0) by exact (f_equal kc H). clear H.
  destruct (Fq4_dec c h0) as [->|C].
  - assert (A : hmul a a = h0) by (rewrite <- Ha; ring). assert (B : hmul b b = h0) by (rewrite <- Hc; ring).
    apply h_integral in A. apply h_integral in B. destruct A as [->| ->], B as [->| ->]; reflexivity.
  - exfalso.
    assert (E : hmul a (hmul a a) = hmul (hmul hs hs) (hmul c (hmul c c))).
    { transitivity (hadd (hmul a (hsub (hmul a a) (hmul hs (hmul b c))))
        (hadd (hmul (hopp (hmul hs c)) (hsub (hmul hs (hmul c c)) (hmul a b))) (hmul (hmul hs hs) (hmul c (hmul c c))))); [ring|].
      rewrite Ha, Hb. ring. }
    assert (A : a <> h0).
    { intros ->. assert (Z1 : hmul (hmul hs hs) (hmul c (hmul c c)) = h0) by (rewrite <- E; ring).
      apply h_integral in Z1. destruct Z1 as [Z1|Z1]; [apply h_integral in Z1; destruct Z1 as [Z1|Z1]; exact (hs_nz Z1)|].
      apply h_integral in Z1. destruct Z1 as [Z1|Z1]; [exact (C Z1)|]. apply h_integral in Z1. destruct Z1 as [Z1|Z1]; exact (C Z1). }
    apply (hs_noncube (hdiv (hmul hs c) a)).
    transitivity (hmul hs (hdiv (hmul (hmul hs hs) (hmul c (hmul c c))) (hmul a (hmul a a)))).
    { field. exact A. } rewrite <- E. field. exact A.
Qed.
Lemma knorm_nz x : x <> k0 -> knorm x <> h0.
Proof.
  intros N H. apply N. apply kcof_0, kcof_0. rewrite kcof_cof, H. destruct x as [a b c]. unfold kscale, k0. cbn [ka kb kc]. f_equal; ring.
Qed.
Lemma k1_neq_0 : k1 <> k0. Proof. intros H. apply (f_equal ka) in H. apply h1_neq_0. exact H. Qed.
Lemma Fq12_field : field_theory k0 k1 kadd kmul ksub kopp kdiv kinv (@eq Fq12).
Proof.
  constructor; [exact Fq12_ring|exact k1_neq_0|reflexivity|].
  intros x N. pose proof (knorm_nz x N) as NN. unfold kinv.
  transitivity (kscale (hinv (knorm x)) (kmul x (kcof x))).
  - unfold kscale, kmul. cbn [ka kb kc]. f_equal; ring.
  - rewrite kmul_cof. unfold kscale, kemb, k1. cbn [ka kb kc]. f_equal; field; exact NN.
Qed.
Add Field Fq12F : Fq12_field.
Lemma k_integral x y : kmul x y = k0 -> x = k0 \/ y = k0.
Proof.
  intros H. destruct (Fq12_dec x k0) as [E|N]; [left; exact E|right].
  transitivity (kdiv (kmul x y) x); [field; exact N|]. rewrite H. field. exact N.
Qed.
