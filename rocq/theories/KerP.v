(* The kernel and the image of an endomorphism of a finite abelian group given by a list of its
   elements: the order of the group is the product of their orders. *)
From Coq Require Import ZArith List Bool Lia Znumtheory Permutation Eqdep_dec.
From Verif Require Import FinGrp.
Import ListNotations.
Open Scope Z_scope.

Section Ker.
Variable A : Type.
Variable eqd : forall x y : A, {x = y} + {x <> y}.
Variables (z : A) (add : A -> A -> A) (neg : A -> A).
Hypothesis addC : forall x y, add x y = add y x.
Hypothesis addA : forall x y w, add x (add y w) = add (add x y) w.
Hypothesis add0 : forall x, add z x = x.
Hypothesis addN : forall x, add x (neg x) = z.
Variable L : list A.
Hypothesis LND : NoDup L.
Hypothesis Lall : forall x, In x L.
Variable f : A -> A.
Hypothesis f_add : forall x y, f (add x y) = add (f x) (f y).
Notation cancel := (add_cancel A z add neg addC addA add0 addN).
Notation sm := (sm A z add neg).

Lemma f_z : f z = z.
Proof. apply (cancel (f z)). rewrite <- f_add, add0, addC, add0. reflexivity. Qed.
Lemma f_neg x : f (neg x) = neg (f x).
Proof. apply (cancel (f x)). rewrite <- f_add, !addN. exact f_z. Qed.

(* the kernel as a type *)
Definition kb (a : A) : bool := if eqd (f a) z then true else false.
Lemma kb_ok a : kb a = true <-> f a = z.
Proof. unfold kb. destruct (eqd (f a) z) as [H|H]; split; intros K; try reflexivity; try assumption; try discriminate; contradiction. Qed.
Definition KT : Type := {a : A | kb a = true}.
Definition kp (a : KT) : A := proj1_sig a.
Lemma kp_ker a : f (kp a) = z. Proof. apply kb_ok. exact (proj2_sig a). Qed.
Lemma kp_ext a b : kp a = kp b -> a = b.
Proof. destruct a as [p P], b as [q Q]. unfold kp. cbn. intros <-. f_equal. apply UIP_dec. apply bool_dec. Qed.
Definition mkk (a : A) (H : f a = z) : KT := exist _ a (proj2 (kb_ok a) H).
Lemma kp_mk a H : kp (mkk a H) = a. Proof. reflexivity. Qed.
Lemma ker_add a b : f a = z -> f b = z -> f (add a b) = z. Proof. intros HA HB. rewrite f_add, HA, HB. apply add0. Qed.
Lemma ker_neg a : f a = z -> f (neg a) = z.
Proof. intros HA. rewrite f_neg, HA. exact (neg0 A z add neg addC addA add0 addN). Qed.
Definition kz : KT := mkk z f_z.
Definition kadd (a b : KT) : KT := mkk (add (kp a) (kp b)) (ker_add _ _ (kp_ker a) (kp_ker b)).
Definition kneg (a : KT) : KT := mkk (neg (kp a)) (ker_neg _ (kp_ker a)).
Lemma keqd (a b : KT) : {a = b} + {a <> b}.
Proof. destruct (eqd (kp a) (kp b)) as [H|H]; [left; apply kp_ext; exact H|right; intros ->; apply H; reflexivity]. Qed.
Lemma kaddC a b : kadd a b = kadd b a. Proof. apply kp_ext. apply addC. Qed.
Lemma kaddA a b c : kadd a (kadd b c) = kadd (kadd a b) c. Proof. apply kp_ext. apply addA. Qed.
Lemma kadd0 a : kadd kz a = a. Proof. apply kp_ext. apply add0. Qed.
Lemma kaddN a : kadd a (kneg a) = kz. Proof. apply kp_ext. apply addN. Qed.
Definition ksm : Z -> KT -> KT := FinGrp.sm KT kz kadd kneg.
Lemma kp_sm k a : kp (ksm k a) = sm k (kp a).
Proof.
  revert k. apply Z_bi.
  - reflexivity.
  - intros k IH. unfold ksm. rewrite (sm_succ KT kz kadd kneg kaddC kaddA kadd0 kaddN). fold ksm.
    change (add (kp a) (kp (ksm k a)) = sm (k + 1) (kp a)). rewrite IH, (sm_succ A z add neg addC addA add0 addN). reflexivity.
  - intros k IH. unfold ksm. rewrite (sm_pred KT kz kadd kneg kaddC kaddA kadd0 kaddN). fold ksm.
    change (add (neg (kp a)) (kp (ksm k a)) = sm (k - 1) (kp a)). rewrite IH, (sm_pred A z add neg addC addA add0 addN). reflexivity.
Qed.
Definition kmk (a : A) : KT := match bool_dec (kb a) true with left H => exist _ a H | right _ => kz end.
Lemma kmk_kp a : kmk (kp a) = a.
Proof. apply kp_ext. unfold kmk. destruct (bool_dec (kb (kp a)) true) as [H|H]; [reflexivity|]. exfalso. apply H. exact (proj2_sig a). Qed.
Lemma kp_kmk a : kb a = true -> kp (kmk a) = a.
Proof. intros H. unfold kmk. destruct (bool_dec (kb a) true) as [K|K]; [reflexivity|contradiction]. Qed.
Definition KL : list KT := map kmk (filter kb L).
Lemma KL_in a : In a KL.
Proof. apply in_map_iff. exists (kp a). split; [apply kmk_kp|]. apply filter_In. split; [apply Lall|exact (proj2_sig a)]. Qed.
Lemma KL_nd : NoDup KL.
Proof.
  apply map_nodup; [apply NoDup_filter; exact LND|]. intros a b HA HB E. apply filter_In in HA. apply filter_In in HB.
  rewrite <- (kp_kmk a (proj2 HA)), E. apply kp_kmk, HB.
Qed.
Definition kord : Z := ord KT KL.
Lemma ker_prime l x : prime l -> f x = z -> x <> z -> sm l x = z -> (l | kord).
Proof.
  intros P F N S1. apply (ord_prime KT keqd kz kadd kneg kaddC kaddA kadd0 kaddN KL KL_nd KL_in l (mkk x F) P).
  - intros H. apply N. exact (f_equal kp H).
  - apply kp_ext. change (kp (ksm l (mkk x F)) = z). rewrite kp_sm. exact S1.
Qed.
Lemma ker_prime2 l x y : prime l -> f x = z -> f y = z -> x <> z -> sm l x = z -> sm l y = z -> (forall i, 0 <= i < l -> y <> sm i x) -> (l * l | kord).
Proof.
  intros P F G N S1 S2 NI. apply (ord_prime2 KT keqd kz kadd kneg kaddC kaddA kadd0 kaddN KL KL_nd KL_in l (mkk x F) (mkk y G) P).
  - intros H. apply N. exact (f_equal kp H).
  - apply kp_ext. change (kp (ksm l (mkk x F)) = z). rewrite kp_sm. exact S1.
  - apply kp_ext. change (kp (ksm l (mkk y G)) = z). rewrite kp_sm. exact S2.
  - intros i HI E. apply (NI i HI). apply (f_equal kp) in E. change (y = kp (ksm i (mkk x F))) in E. rewrite kp_sm in E. exact E.
Qed.

(* the image *)
Definition fb (y a : A) : bool := if eqd (f a) y then true else false.
Lemma fb_ok y a : fb y a = true <-> f a = y.
Proof. unfold fb. destruct (eqd (f a) y) as [H|H]; split; intros K; try reflexivity; try assumption; try discriminate; contradiction. Qed.
Lemma filter_filter {B} (g h : B -> bool) l : (forall x, h x = true -> g x = true) -> filter h (filter g l) = filter h l.
Proof.
  intros H. induction l as [|a l IH]; [reflexivity|]. cbn [filter]. destruct (h a) eqn:E.
  - rewrite (H a E). cbn [filter]. rewrite E, IH. reflexivity.
  - destruct (g a); cbn [filter]; [rewrite E|]; exact IH.
Qed.
Lemma fibres k : forall I R, NoDup I -> (forall x, In x R -> In (f x) I) -> (forall y, In y I -> length (filter (fb y) R) = k) -> length R = (length I * k)%nat.
Proof.
  induction I as [|y I IH]; intros R ND HR HK.
  - destruct R as [|x R]; [reflexivity|]. destruct (HR x (or_introl eq_refl)).
  - inversion ND as [|? ? NI ND']; subst. pose proof (filter_split (fb y) R) as S1. rewrite (HK y (or_introl eq_refl)) in S1.
    rewrite (IH (filter (fun x => negb (fb y x)) R) ND') in S1; [cbn [length]; lia| |].
    + intros x X. apply filter_In in X. destruct X as [X1 X2]. destruct (HR x X1) as [E|E]; [|exact E]. exfalso.
      apply negb_true_iff in X2. symmetry in E. apply fb_ok in E. congruence.
    + intros w W. rewrite filter_filter; [apply HK; right; exact W|]. intros x E. apply negb_true_iff. destruct (fb y x) eqn:F; [|reflexivity].
      exfalso. apply NI. apply fb_ok in E. apply fb_ok in F. congruence.
Qed.
Definition IM : list A := nodup eqd (map f L).
Lemma IM_in y : In y IM <-> exists a, y = f a.
Proof.
  unfold IM. rewrite nodup_In, in_map_iff. split; [intros (a & E & _); exists a; symmetry; exact E|intros (a & E); exists a; split; [symmetry; exact E|apply Lall]].
Qed.
Lemma ord_split : ord A L = Z.of_nat (length IM) * kord.
Proof.
  unfold kord, ord, KL. rewrite map_length, <- Nat2Z.inj_mul. f_equal. apply fibres; [apply NoDup_nodup|intros x _; apply IM_in; exists x; reflexivity|].
  intros y Y. apply IM_in in Y. destruct Y as (a & ->). rewrite <- (map_length (add a) (filter kb L)). apply Permutation_length, NoDup_Permutation.
  - apply NoDup_filter; exact LND.
  - apply FinFun.Injective_map_NoDup; [intros u v E; exact (cancel a u v E)|apply NoDup_filter; exact LND].
  - intros x. rewrite filter_In, fb_ok, in_map_iff. split.
    + intros [_ E]. exists (add (neg a) x). split; [rewrite addA, addN; apply add0|]. apply filter_In. split; [apply Lall|].
      apply kb_ok. rewrite f_add, f_neg, E, addC. apply addN.
    + intros (k & <- & K). apply filter_In in K. destruct K as [_ K]. apply kb_ok in K. split; [apply Lall|]. rewrite f_add, K, addC. apply add0.
Qed.
Lemma im_kills a : sm (Z.of_nat (length IM)) (f a) = z.
Proof.
  assert (P : Permutation (map (add (f a)) IM) IM).
  { apply NoDup_Permutation; [apply FinFun.Injective_map_NoDup; [intros u v E; exact (cancel (f a) u v E)|apply NoDup_nodup]|apply NoDup_nodup|].
    intros y. rewrite in_map_iff. split.
    - intros (w & <- & W). apply IM_in in W. destruct W as (b & ->). apply IM_in. exists (add a b). symmetry. apply f_add.
    - intros Y. apply IM_in in Y. destruct Y as (b & ->). exists (f (add (neg a) b)). split; [|apply IM_in; exists (add (neg a) b); reflexivity].
      rewrite f_add, f_neg, addA, addN. apply add0. }
  apply (sum_perm A z add addC addA) in P. rewrite (sum_shift A z add addC addA add0) in P. rewrite sm_nm by lia. rewrite Nat2Z.id.
  apply (cancel (sum A z add IM)). rewrite addC, P, addC, add0. reflexivity.
Qed.
(* if h divides the order of the kernel, the cofactor of h kills the image *)
Theorem ker_index h r : 0 < h -> 0 < r -> ord A L = h * r -> (h | kord) -> forall a, sm r (f a) = z.
Proof.
  intros H R E [j J] a. pose proof ord_split as S1. rewrite E, J in S1.
  assert (X : r = j * Z.of_nat (length IM)) by nia. rewrite X, (sm_mul A z add neg addC addA add0 addN), im_kills.
  exact (sm_z A z add neg addC addA add0 addN j).
Qed.
End Ker.
