(* F_q2 = F_q[i]/(i^2+1) as pairs, with Leibniz equality; cube facts for the
   two curve coefficients. *)
From Coq Require Import ZArith List Bool Lia Znumtheory Field.
From Verif Require Import NumT FieldQ.
Open Scope Z_scope.

(* the field Fq: 2 <> 0, -1 is not a square *)
Lemma q381_mod4' : q381 mod 4 = 3. Proof. vm_compute. reflexivity. Qed.
Lemma two_nz : (f1 + f1)%fq <> f0.
Proof.
  unfold f1, f0. rewrite <- mkq_add. intros H. apply mkq_inj in H. vm_compute in H. discriminate.
Qed.
Lemma fopp_neq y : y <> f0 -> y <> fopp y.
Proof.
  intros N E. assert (H : ((f1 + f1) * y)%fq = f0).
  { transitivity (fsub y (fopp y)); [ring|]. rewrite <- E. ring. }
  apply fq_integral in H. destruct H; [apply two_nz in H; auto|auto].
Qed.
Lemma fopp_eq0 y : fopp y = f0 -> y = f0.
Proof. intros H. transitivity (fopp (fopp y)); [ring|]. rewrite H. ring. Qed.
Lemma fpw_opp1_odd n : 0 <= n -> fpw (fopp f1) (2 * n + 1) = fopp f1.
Proof.
  intros N. rewrite fpw_add by lia. rewrite fpw_mul by lia. rewrite fpw_2, fpw_1.
  assert (E : (- (1) * - (1))%fq = f1) by ring. rewrite E. destruct (fpw_f1 n) as [H|H]; [rewrite H; ring|lia].
Qed.
Lemma neg1_nonsquare x : fmul x x <> fopp f1.
Proof.
  intros H. assert (X : x <> f0).
  { intros ->. rewrite fmul_0_l in H. symmetry in H. apply fopp_eq0 in H. apply f1_neq_0 in H. exact H. }
  pose proof q381_mod4' as M. pose proof (Z.div_mod q381 4 ltac:(lia)) as D. pose proof q381_pos as QP.
  set (k := q381 / 4) in *. assert (K : 0 <= k) by (apply Z.div_pos; lia).
  assert (E : fpw (fmul x x) (2 * k + 1) = f1).
  { rewrite <- fpw_2, <- fpw_mul by lia. replace (2 * (2 * k + 1)) with (q381 - 1) by lia. apply fpw_fermat; auto. }
  rewrite H, fpw_opp1_odd in E by auto. apply (fopp_neq f1); [apply f1_neq_0|]. symmetry. exact E.
Qed.
Lemma sum_sq_nz a b : fadd (fmul a a) (fmul b b) = f0 -> a = f0 /\ b = f0.
Proof.
  intros H. destruct (Fq_dec b f0) as [->|NB].
  - rewrite fmul_0_l in H. assert (E : fmul a a = f0) by (rewrite <- H; ring).
    apply fq_integral in E. tauto.
  - exfalso. apply (neg1_nonsquare (fdiv a b)).
    assert (E : fmul (fdiv a b) (fdiv a b) = fsub (fdiv (fadd (fmul a a) (fmul b b)) (fmul b b)) f1) by (field; auto).
    rewrite E, H. field. auto.
Qed.

(* ------------------------- Fq2 --------------------------------------- *)
Definition Fq2 : Type := (Fq * Fq)%type.
Definition g0 : Fq2 := (f0, f0).
Definition g1 : Fq2 := (f1, f0).
Definition gadd (x y : Fq2) : Fq2 := (fadd (fst x) (fst y), fadd (snd x) (snd y)).
Definition gsub (x y : Fq2) : Fq2 := (fsub (fst x) (fst y), fsub (snd x) (snd y)).
Definition gmul (x y : Fq2) : Fq2 :=
  (fsub (fmul (fst x) (fst y)) (fmul (snd x) (snd y)), fadd (fmul (fst x) (snd y)) (fmul (snd x) (fst y))).
Definition gopp (x : Fq2) : Fq2 := (fopp (fst x), fopp (snd x)).
Definition gconj (x : Fq2) : Fq2 := (fst x, fopp (snd x)).
Definition gnorm (x : Fq2) : Fq := fadd (fmul (fst x) (fst x)) (fmul (snd x) (snd x)).
Definition ginv (x : Fq2) : Fq2 := let n := finv (gnorm x) in (fmul (fst x) n, fopp (fmul (snd x) n)).
Definition gdiv (x y : Fq2) : Fq2 := gmul x (ginv y).
Definition gi1 : Fq2 := (f1, f1).
(* embedding of Fq and scaling *)
Definition gemb (x : Fq) : Fq2 := (x, f0).

Ltac g2 := intros; unfold gdiv, gadd, gsub, gmul, gopp, gconj, g0, g1, gi1, gemb in *;
  repeat match goal with x : Fq2 |- _ => destruct x end; cbn [fst snd] in *.
Lemma Fq2_ring : ring_theory g0 g1 gadd gmul gsub gopp (@eq Fq2).
Proof. constructor; g2; f_equal; ring. Qed.
Lemma gnorm_nz x : x <> g0 -> gnorm x <> f0.
Proof. intros N H. apply sum_sq_nz in H. apply N. destruct x as [a b]. cbn in H. destruct H as [-> ->]. reflexivity. Qed.
Lemma g1_neq_0 : g1 <> g0. Proof. intros H. apply (f_equal fst) in H. apply f1_neq_0. exact H. Qed.
Lemma Fq2_field : field_theory g0 g1 gadd gmul gsub gopp gdiv ginv (@eq Fq2).
Proof.
  constructor; [exact Fq2_ring|exact g1_neq_0|reflexivity|].
  intros x N. pose proof (gnorm_nz x N) as NN. destruct x as [a b]. unfold ginv, gmul, g1. cbn [fst snd].
  unfold gnorm in *. cbn [fst snd] in *. f_equal; field; auto.
Qed.
Definition Fq2_dec (x y : Fq2) : {x = y} + {x <> y}.
Proof.
  destruct x as [a b], y as [c d]. destruct (Fq_dec a c) as [->|]; [destruct (Fq_dec b d) as [->|]|];
    [left; reflexivity|right; congruence|right; congruence].
Defined.
Add Field Fq2F : Fq2_field.

Lemma gtwo_nz : gadd g1 g1 <> g0.
Proof. intros H. apply (f_equal fst) in H. apply two_nz. exact H. Qed.
Lemma gnorm_mul x y : gnorm (gmul x y) = fmul (gnorm x) (gnorm y).
Proof. destruct x, y. unfold gnorm, gmul. cbn [fst snd]. ring. Qed.

(* ------------------------- coefficients ------------------------------ *)
Definition fb : Fq := mkq 4.
Definition gb : Fq2 := (mkq 4, mkq 4).

Lemma q381_m1_mod3 : 3 * ((q381 - 1) / 3) = q381 - 1. Proof. vm_compute. reflexivity. Qed.
Definition c3 : Fq := fpw (mkq 2) ((q381 - 1) / 3).
Lemma c3_ne : c3 <> f1.
Proof.
  unfold c3, f1. rewrite <- mkq_pow. intros H. apply mkq_inj in H.
  apply q381_noncube2. rewrite H. vm_compute. reflexivity.
Qed.
Lemma c3_cube : fmul c3 (fmul c3 c3) = f1.
Proof.
  unfold c3. pose proof q381_m1_mod3. pose proof q381_pos.
  assert (0 <= (q381 - 1) / 3) by lia.
  rewrite <- !fpw_add by auto with zarith.
  replace ((q381 - 1) / 3 + ((q381 - 1) / 3 + (q381 - 1) / 3)) with (q381 - 1) by lia.
  apply fpw_fermat. intros E. apply mkq_inj in E. vm_compute in E. discriminate.
Qed.
(* a nonzero cube raised to (q-1)/3 is one *)
Lemma cube_pow x : x <> f0 -> fpw (fmul x (fmul x x)) ((q381 - 1) / 3) = f1.
Proof.
  intros X. pose proof q381_m1_mod3. pose proof q381_pos.
  rewrite <- (fpw_1 x) at 1 2 3. rewrite <- !fpw_add by lia. change (1 + (1 + 1)) with 3.
  rewrite <- fpw_mul by lia. rewrite H. apply fpw_fermat. exact X.
Qed.
Lemma c3_sq_ne : fmul c3 c3 <> f1.
Proof. intros H. apply c3_ne. pose proof c3_cube as C. rewrite H in C. rewrite <- C. ring. Qed.
Lemma pow_odd_half : ((q381 - 1) / 3) mod 2 = 0. Proof. vm_compute. reflexivity. Qed.

Lemma fb_pow : fmul (fopp fb) (fopp fb) = fpw (mkq 2) 4.
Proof.
  assert (F4 : fb = fpw (mkq 2) 2) by (rewrite <- mkq_pow; reflexivity).
  rewrite F4. change 4 with (2 + 2). rewrite fpw_add by lia. ring.
Qed.
Lemma fb_pow_even h : 0 <= h -> h mod 2 = 0 -> fpw (fopp fb) h = fpw (mkq 2) (h + h).
Proof.
  intros H P. pose proof (Z.div_mod h 2 ltac:(lia)) as D. set (k := h / 2) in *. assert (K : 0 <= k) by lia.
  clearbody k. assert (E : h = 2 * k) by lia. subst h. rewrite fpw_mul by lia. rewrite fpw_2, fb_pow.
  rewrite <- fpw_mul by lia. f_equal. lia.
Qed.
Lemma fb_noroot x : fadd (fmul (fmul x x) x) fb <> f0.
Proof.
  intros H. assert (E : fmul x (fmul x x) = fopp fb).
  { transitivity (fsub (fadd (fmul (fmul x x) x) fb) fb); [ring|]. rewrite H. ring. }
  assert (X : x <> f0).
  { intros ->. rewrite fmul_0_l in E. symmetry in E. apply fopp_eq0 in E. apply mkq_inj in E. vm_compute in E. discriminate. }
  pose proof (cube_pow x X) as C. rewrite E in C.
  pose proof q381_pos. pose proof q381_m1_mod3. pose proof pow_odd_half as P.
  apply c3_sq_ne. unfold c3. set (h := (q381 - 1) / 3) in *. clearbody h.
  rewrite <- fpw_add by lia. rewrite <- fb_pow_even by lia. exact C.
Qed.

Lemma pow2_5_nz : fpw (mkq 2) 5 <> f0.
Proof.
  rewrite <- mkq_pow. intros Z2. apply mkq_inj in Z2. vm_compute in Z2. discriminate.
Qed.
Lemma mkq2_nz : mkq 2 <> f0.
Proof. intros Z2. apply mkq_inj in Z2. vm_compute in Z2. discriminate. Qed.
Lemma gb_norm : gnorm (gopp gb) = fpw (mkq 2) 5.
Proof.
  rewrite <- mkq_pow. unfold gnorm, gopp, gb. cbn [fst snd]. rewrite <- !mkq_opp, <- !mkq_mul, <- mkq_add. reflexivity.
Qed.
Lemma pow5 h : 0 <= h -> 3 * h = q381 - 1 -> fpw (mkq 2) (5 * h) = fmul (fpw (mkq 2) h) (fpw (mkq 2) h).
Proof.
  intros H E. replace (5 * h) with ((q381 - 1) + (h + h)) by lia. rewrite !fpw_add by lia.
  rewrite (fpw_fermat _ mkq2_nz). ring.
Qed.
Lemma gb_noroot x : gadd (gmul (gmul x x) x) gb <> g0.
Proof.
  intros H. assert (E : gmul x (gmul x x) = gopp gb).
  { transitivity (gsub (gadd (gmul (gmul x x) x) gb) gb); [ring|]. rewrite H. ring. }
  apply (f_equal gnorm) in E. rewrite !gnorm_mul in E. set (n := gnorm x) in *.
  rewrite gb_norm in E.
  assert (X : n <> f0).
  { intros N. rewrite N in E. rewrite fmul_0_l in E. symmetry in E. exact (pow2_5_nz E). }
  pose proof (cube_pow n X) as C. rewrite E in C. pose proof q381_pos. pose proof q381_m1_mod3 as M.
  apply c3_sq_ne. unfold c3. set (h := (q381 - 1) / 3) in *. clearbody h.
  rewrite <- fpw_mul in C by lia. rewrite pow5 in C; [exact C|lia|exact M].
Qed.
