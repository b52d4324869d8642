(* Integer multiples in an abelian group carried by a predicate. *)
From Coq Require Import ZArith List Lia Permutation.
Import ListNotations.
Open Scope Z_scope.

Section Group.
Variable T : Type.
Variable on : T -> Prop.
Variables (add : T -> T -> T) (zero : T) (neg : T -> T).
Hypothesis on0 : on zero.
Hypothesis onA : forall p q, on p -> on q -> on (add p q).
Hypothesis onN : forall p, on p -> on (neg p).
Hypothesis add0l : forall p, add zero p = p.
Hypothesis add0r : forall p, add p zero = p.
Hypothesis addC : forall p q, on p -> on q -> add p q = add q p.
Hypothesis addN : forall p, on p -> add p (neg p) = zero.
Hypothesis addA : forall p q r, on p -> on q -> on r -> add (add p q) r = add p (add q r).

Fixpoint nm (n : nat) (p : T) : T := match n with O => zero | S n' => add (nm n' p) p end.
Definition zm (k : Z) (p : T) : T := if k <? 0 then nm (Z.to_nat (- k)) (neg p) else nm (Z.to_nat k) p.

Lemma nm_on n p : on p -> on (nm n p).
Proof. intros OP. induction n; cbn [nm]; auto. Qed.
Lemma zm_on k p : on p -> on (zm k p).
Proof. intros OP. unfold zm. destruct (k <? 0); apply nm_on; auto. Qed.
Lemma zm_0 p : zm 0 p = zero. Proof. reflexivity. Qed.
Lemma zm_1 p : zm 1 p = p. Proof. unfold zm. cbn. apply add0l. Qed.
Lemma zm_nonneg k p : 0 <= k -> zm k p = nm (Z.to_nat k) p.
Proof. intros K. unfold zm. destruct (Z.ltb_spec k 0); [lia|reflexivity]. Qed.
Lemma zm_nat n p : zm (Z.of_nat n) p = nm n p.
Proof. rewrite zm_nonneg by lia. rewrite Nat2Z.id. reflexivity. Qed.

Lemma addNl p : on p -> add (neg p) p = zero.
Proof. intros OP. rewrite addC by auto. auto. Qed.
Lemma zm_succ k p : on p -> zm (k + 1) p = add (zm k p) p.
Proof.
  intros OP. unfold zm. destruct (Z.ltb_spec k 0) as [K|K].
  - assert (E : exists n, Z.to_nat (- k) = S n) by (exists (Z.to_nat (- k - 1)); lia). destruct E as [n E].
    rewrite E. cbn [nm]. rewrite addA, addNl, add0r by (auto using nm_on).
    destruct (Z.ltb_spec (k + 1) 0) as [G|G].
    + replace (Z.to_nat (- (k + 1))) with n by lia. reflexivity.
    + replace (k + 1) with 0 by lia. replace n with O by lia. reflexivity.
  - destruct (Z.ltb_spec (k + 1) 0); [lia|]. replace (Z.to_nat (k + 1)) with (S (Z.to_nat k)) by lia. reflexivity.
Qed.
Lemma zm_pred k p : on p -> zm (k - 1) p = add (zm k p) (neg p).
Proof.
  intros OP. replace k with (k - 1 + 1) at 2 by lia. rewrite zm_succ by auto.
  rewrite addA, addN, add0r by (auto using zm_on). reflexivity.
Qed.
Lemma zm_ind (P : Z -> Prop) : P 0 -> (forall k, P k -> P (k + 1)) -> (forall k, P k -> P (k - 1)) -> forall k, P k.
Proof.
  intros H0 HS HP k. apply Z.peano_ind; auto.
Qed.
Lemma zm_add a b p : on p -> zm (a + b) p = add (zm a p) (zm b p).
Proof.
  intros OP. revert b. apply zm_ind.
  - rewrite Z.add_0_r, zm_0, add0r. reflexivity.
  - intros k IH. rewrite Z.add_assoc, !zm_succ, IH by auto. rewrite addA by auto using zm_on. reflexivity.
  - intros k IH. replace (a + (k - 1)) with (a + k - 1) by lia. rewrite !zm_pred, IH by auto.
    rewrite addA by auto using zm_on. reflexivity.
Qed.
Lemma neg_unique p q : on p -> on q -> add p q = zero -> q = neg p.
Proof.
  intros P Q H. rewrite <- (add0l q), <- (addNl p), addA, H, add0r by auto. reflexivity.
Qed.
Lemma neg_0 : neg zero = zero.
Proof. symmetry. apply neg_unique; auto. Qed.
Lemma neg_neg p : on p -> neg (neg p) = p.
Proof. intros OP. symmetry. apply neg_unique; auto. apply addNl. auto. Qed.
Lemma zm_opp k p : on p -> zm (- k) p = neg (zm k p).
Proof.
  intros OP. apply neg_unique; auto using zm_on. rewrite <- zm_add by auto. rewrite Z.add_opp_diag_r. reflexivity.
Qed.
Lemma zm_2 p : zm 2 p = add p p.
Proof. change (zm 2 p) with (add (add zero p) p). rewrite add0l. reflexivity. Qed.
Lemma zm_zero k : zm k zero = zero.
Proof. revert k. apply zm_ind; [reflexivity| |]; intros k IH; [rewrite zm_succ|rewrite zm_pred]; auto; rewrite IH; auto. Qed.
Lemma zm_mul a b p : on p -> zm (a * b) p = zm a (zm b p).
Proof.
  intros OP. revert a. apply zm_ind.
  - reflexivity.
  - intros k IH. rewrite Z.mul_add_distr_r, Z.mul_1_l, zm_add, zm_succ, IH by auto using zm_on. reflexivity.
  - intros k IH. replace ((k - 1) * b) with (k * b + - b) by lia.
    rewrite zm_add, zm_pred, IH, zm_opp by auto using zm_on. reflexivity.
Qed.
Lemma add4 p q r s : on p -> on q -> on r -> on s -> add (add p q) (add r s) = add (add p r) (add q s).
Proof.
  intros P Q R S1. rewrite addA by auto. rewrite <- (addA q r s) by auto. rewrite (addC q r) by auto.
  rewrite (addA r q s) by auto. rewrite <- addA by auto. reflexivity.
Qed.
Lemma zm_dist k p q : on p -> on q -> zm k (add p q) = add (zm k p) (zm k q).
Proof.
  intros P Q. revert k. apply zm_ind.
  - rewrite !zm_0, add0l. reflexivity.
  - intros k IH. rewrite !zm_succ, IH by auto. apply add4; auto using zm_on.
  - intros k IH. rewrite !zm_pred, IH by auto.
    replace (neg (add p q)) with (add (neg p) (neg q)); [apply add4; auto using zm_on|].
    apply neg_unique; auto. rewrite add4 by auto. rewrite !addN by auto. apply add0l.
Qed.
Lemma zm_neg k p : on p -> zm k (neg p) = neg (zm k p).
Proof.
  intros OP. apply neg_unique; auto using zm_on. rewrite <- zm_dist, addN, zm_zero by auto. reflexivity.
Qed.
Lemma zm_mod k n p : on p -> zm n p = zero -> n <> 0 -> zm (k mod n) p = zm k p.
Proof.
  intros O N NZ. rewrite (Z.div_mod k n) at 2 by auto. rewrite zm_add, Z.mul_comm, zm_mul, N, zm_zero, add0l by auto. reflexivity.
Qed.

(* sums of lists *)
Definition gsum (l : list T) : T := fold_right add zero l.
Lemma gsum_on l : Forall on l -> on (gsum l).
Proof. induction 1; cbn; auto. Qed.
Lemma gsum_app l m : Forall on l -> Forall on m -> gsum (l ++ m) = add (gsum l) (gsum m).
Proof.
  intros L M. induction L as [|p l P L IH]; cbn [app gsum fold_right]; [rewrite add0l; reflexivity|].
  fold (gsum (l ++ m)). fold (gsum l). rewrite IH, addA by auto using gsum_on. reflexivity.
Qed.
Lemma gsum_perm l m : Permutation l m -> Forall on l -> gsum l = gsum m.
Proof.
  induction 1 as [|x l m P IH|x y l|l m n P1 IH1 P2 IH2]; intros F; cbn [gsum fold_right]; auto.
  - inversion F; subst. fold (gsum l) (gsum m). rewrite IH; auto.
  - inversion F as [|? ? Y F']; subst. inversion F' as [|? ? X F'']; subst. fold (gsum l).
    rewrite <- !addA by auto using gsum_on. rewrite (addC y x); auto.
  - rewrite IH1 by auto. apply IH2. eapply Permutation_Forall; eauto.
Qed.
Lemma gsum_zm (ks : list Z) p : on p -> gsum (map (fun k => zm k p) ks) = zm (fold_right Z.add 0 ks) p.
Proof.
  intros OP. induction ks as [|k ks IH]; cbn [map gsum fold_right]; [reflexivity|].
  fold (gsum (map (fun k => zm k p) ks)). rewrite IH, zm_add by auto. reflexivity.
Qed.
End Group.
