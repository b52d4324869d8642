(* The prime field F_q, q the BLS12-381 base field modulus, with Leibniz equality. *)
From Coq Require Import ZArith List Bool Lia Znumtheory Field Eqdep_dec.
From Verif Require Import NumT.
Open Scope Z_scope.

Definition Fq : Type := {z : Z | (z mod q381 =? z) = true}.
Definition fv (x : Fq) : Z := proj1_sig x.
Lemma mkq_pf z : (((z mod q381) mod q381) =? (z mod q381)) = true.
Proof. apply Z.eqb_eq. apply Z.mod_mod. discriminate. Qed.
Definition mkq (z : Z) : Fq := exist _ (z mod q381) (mkq_pf z).

Lemma q381_pos : 0 < q381. Proof. reflexivity. Qed.
Lemma q381_nz : q381 <> 0. Proof. discriminate. Qed.
#[global] Opaque q381.

Lemma fv_range x : 0 <= fv x < q381.
Proof.
  destruct x as [z H]. cbn [fv proj1_sig]. apply Z.eqb_eq in H. rewrite <- H.
  apply Z.mod_pos_bound. apply q381_pos.
Qed.
Lemma Fq_ext x y : fv x = fv y -> x = y.
Proof.
  destruct x as [x X], y as [y Y]. cbn [fv proj1_sig]. intros ->. f_equal. apply UIP_dec. apply bool_dec.
Qed.
Lemma fv_mkq z : fv (mkq z) = z mod q381. Proof. reflexivity. Qed.
Lemma mkq_fv x : mkq (fv x) = x.
Proof. apply Fq_ext. rewrite fv_mkq. apply Z.mod_small. apply fv_range. Qed.
Lemma mkq_eq a b : a mod q381 = b mod q381 -> mkq a = mkq b.
Proof. intros H. apply Fq_ext. rewrite !fv_mkq. exact H. Qed.
Lemma mkq_inj a b : mkq a = mkq b -> a mod q381 = b mod q381.
Proof. intros H. apply (f_equal fv) in H. rewrite !fv_mkq in H. exact H. Qed.
Lemma mkq_add_q a k : mkq (a + k * q381) = mkq a.
Proof. apply mkq_eq. apply Z.mod_add. apply q381_nz. Qed.
Lemma mkq_mul_q k : mkq (k * q381) = mkq 0.
Proof. apply mkq_eq. rewrite Z.mod_mul, Z.mod_0_l by apply q381_nz. reflexivity. Qed.

Definition f0 : Fq := mkq 0.
Definition f1 : Fq := mkq 1.
Definition fadd (x y : Fq) : Fq := mkq (fv x + fv y).
Definition fsub (x y : Fq) : Fq := mkq (fv x - fv y).
Definition fmul (x y : Fq) : Fq := mkq (fv x * fv y).
Definition fopp (x : Fq) : Fq := mkq (- fv x).
Definition finv (x : Fq) : Fq := mkq (powm q381 (fv x) (q381 - 2)).
Definition fdiv (x y : Fq) : Fq := fmul x (finv y).
Definition fpw (x : Fq) (e : Z) : Fq := mkq (fv x ^ e).

Lemma mkq_add a b : mkq (a + b) = fadd (mkq a) (mkq b).
Proof. apply mkq_eq. rewrite !fv_mkq. symmetry. rewrite <- Z.add_mod by apply q381_nz. reflexivity. Qed.
Lemma mkq_sub a b : mkq (a - b) = fsub (mkq a) (mkq b).
Proof. apply mkq_eq. rewrite !fv_mkq. symmetry. rewrite <- Zminus_mod. reflexivity. Qed.
Lemma mkq_mul a b : mkq (a * b) = fmul (mkq a) (mkq b).
Proof. apply mkq_eq. rewrite !fv_mkq. symmetry. rewrite <- Z.mul_mod by apply q381_nz. reflexivity. Qed.
Lemma mkq_opp a : mkq (- a) = fopp (mkq a).
Proof.
  apply mkq_eq. rewrite !fv_mkq. replace (- a) with (0 - a) by ring. replace (- (a mod q381)) with (0 - a mod q381) by ring.
  rewrite Zminus_mod, (Zminus_mod 0 (a mod q381)), Z.mod_mod by apply q381_nz. reflexivity.
Qed.
Lemma mkq_pow a e : mkq (a ^ e) = fpw (mkq a) e.
Proof.
  apply mkq_eq. rewrite !fv_mkq. destruct (Z.le_gt_cases 0 e) as [E|E].
  - revert e E. apply natlike_ind; [reflexivity|]. intros e E IH.
    rewrite !Z.pow_succ_r by auto. rewrite Z.mul_mod, IH, <- Z.mul_mod by apply q381_nz.
    rewrite <- (Z.mul_mod_idemp_l a) by apply q381_nz. reflexivity.
  - rewrite !Z.pow_neg_r by auto. reflexivity.
Qed.

Ltac fqz := intros; repeat match goal with x : Fq |- _ => rewrite <- (mkq_fv x); generalize (fv x); clear x; intros end;
  unfold f0, f1; rewrite <- ?mkq_add, <- ?mkq_sub, <- ?mkq_mul, <- ?mkq_opp, <- ?mkq_add, <- ?mkq_sub, <- ?mkq_mul, <- ?mkq_opp.

Lemma Fq_ring : ring_theory f0 f1 fadd fmul fsub fopp (@eq Fq).
Proof. constructor; fqz; repeat (rewrite <- ?mkq_add, <- ?mkq_mul, <- ?mkq_sub, <- ?mkq_opp); f_equal; ring. Qed.

Lemma f1_neq_0 : f1 <> f0.
Proof. intros H. apply mkq_inj in H. vm_compute in H. discriminate. Qed.

Lemma fv_zero x : fv x = 0 -> x = f0.
Proof. intros H. rewrite <- (mkq_fv x), H. reflexivity. Qed.
Lemma fq_ndiv x : x <> f0 -> ~ (q381 | fv x).
Proof.
  intros H D. apply H. apply fv_zero. pose proof (fv_range x).
  apply Z.mod_divide in D; [|apply q381_nz]. rewrite Z.mod_small in D; auto.
Qed.
Lemma fpw_fermat x : x <> f0 -> fpw x (q381 - 1) = f1.
Proof.
  intros H. apply mkq_eq. rewrite (fermat q381 (fv x)); [|apply q381_prime|apply fq_ndiv; auto].
  symmetry. apply Z.mod_small. split; [lia|reflexivity].
Qed.
Lemma fpw_add x a b : 0 <= a -> 0 <= b -> fpw x (a + b) = fmul (fpw x a) (fpw x b).
Proof. intros. unfold fpw. rewrite Z.pow_add_r by auto. apply mkq_mul. Qed.
Lemma fpw_mul x a b : 0 <= a -> 0 <= b -> fpw x (a * b) = fpw (fpw x a) b.
Proof. intros. unfold fpw at 1. rewrite Z.pow_mul_r by auto. rewrite mkq_pow. reflexivity. Qed.
Lemma fpw_mul_base x y a : fpw (fmul x y) a = fmul (fpw x a) (fpw y a).
Proof. unfold fmul at 1. rewrite <- mkq_pow, Z.pow_mul_l, mkq_mul. reflexivity. Qed.
Lemma fpw_0 x : fpw x 0 = f1. Proof. reflexivity. Qed.
Lemma fpw_1 x : fpw x 1 = x. Proof. unfold fpw. rewrite Z.pow_1_r. apply mkq_fv. Qed.
Lemma fpw_2 x : fpw x 2 = fmul x x. Proof. unfold fpw, fmul. rewrite Z.pow_2_r. reflexivity. Qed.
Lemma fpw_f1 a : fpw f1 a = f1 \/ a < 0.
Proof.
  destruct (Z.le_gt_cases 0 a); [left|right; auto]. unfold f1. rewrite <- mkq_pow, Z.pow_1_l by auto. reflexivity.
Qed.

Lemma finv_pw x : finv x = fpw x (q381 - 2).
Proof.
  unfold finv, fpw. apply mkq_eq. rewrite powm_spec; [|apply q381_nz|].
  - apply Z.mod_mod, q381_nz.
  - pose proof (prime_ge_2 _ q381_prime). lia.
Qed.

Lemma Fq_field : field_theory f0 f1 fadd fmul fsub fopp fdiv finv (@eq Fq).
Proof.
  constructor; [exact Fq_ring|exact f1_neq_0|reflexivity|].
  intros x H. rewrite finv_pw. rewrite <- (fpw_1 x) at 2. pose proof (prime_ge_2 _ q381_prime).
  rewrite <- fpw_add by lia. replace (q381 - 2 + 1) with (q381 - 1) by ring. apply fpw_fermat. auto.
Qed.

Definition Fq_dec (x y : Fq) : {x = y} + {x <> y}.
Proof.
  destruct (Z.eq_dec (fv x) (fv y)) as [E|E]; [left; apply Fq_ext; auto|right; congruence].
Defined.

Declare Scope fq_scope.
Delimit Scope fq_scope with fq.
Notation "x + y" := (fadd x y) : fq_scope.
Notation "x - y" := (fsub x y) : fq_scope.
Notation "x * y" := (fmul x y) : fq_scope.
Notation "x / y" := (fdiv x y) : fq_scope.
Notation "- x" := (fopp x) : fq_scope.
Notation "0" := f0 : fq_scope.
Notation "1" := f1 : fq_scope.

Add Field FqF : Fq_field.

Lemma fq_integral x y : fmul x y = f0 -> x = f0 \/ y = f0.
Proof.
  intros H. destruct (Fq_dec x f0) as [|N]; [auto|right].
  assert (E : y = fmul (finv x) (fmul x y)) by (field; auto). rewrite E, H. ring.
Qed.
Lemma finv_0 : finv f0 = f0.
Proof. rewrite finv_pw. unfold fpw, f0. rewrite fv_mkq, Z.mod_0_l, Z.pow_0_l; auto; [|apply q381_nz].
  pose proof (prime_ge_2 _ q381_prime). assert (q381 <> 2) by (intros E; discriminate E). lia.
Qed.
Lemma fsub_eq0 x y : fsub x y = f0 -> x = y.
Proof. intros H. replace x with (fadd (fsub x y) y) by ring. rewrite H. ring. Qed.
Lemma fv_f0 : fv f0 = 0. Proof. unfold f0. rewrite fv_mkq. apply Z.mod_0_l. apply q381_nz. Qed.
Lemma fmul_0_l x : fmul f0 x = f0. Proof. ring. Qed.
Lemma fmul_0_r x : fmul x f0 = f0. Proof. ring. Qed.

#[global] Opaque fv mkq fadd fsub fmul fopp finv fpw.
