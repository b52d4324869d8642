(* Finite abelian groups given by a list of their elements: Lagrange's theorem, the order of
   an element, and an operator psi with psi^4 = psi^2 - 1. *)
From Coq Require Import ZArith List Bool Lia Znumtheory Permutation.
Import ListNotations.
Open Scope Z_scope.

Section Group.
Variable A : Type.
Variable eqd : forall x y : A, {x = y} + {x <> y}.
Variables (z : A) (add : A -> A -> A) (neg : A -> A).
Hypothesis addC : forall x y, add x y = add y x.
Hypothesis addA : forall x y w, add x (add y w) = add (add x y) w.
Hypothesis add0 : forall x, add z x = x.
Hypothesis addN : forall x, add x (neg x) = z.

Lemma add0r x : add x z = x. Proof. rewrite addC. apply add0. Qed.
Lemma addNl x : add (neg x) x = z. Proof. rewrite addC. apply addN. Qed.
Lemma add_cancel x y w : add x y = add x w -> y = w.
Proof.
  intros H. assert (E : add (neg x) (add x y) = add (neg x) (add x w)) by (rewrite H; reflexivity).
  rewrite !addA, addNl, !add0 in E. exact E.
Qed.
Lemma neg_uniq x y : add x y = z -> y = neg x.
Proof. intros H. apply (add_cancel x). rewrite H, addN. reflexivity. Qed.
Lemma neg0 : neg z = z. Proof. symmetry. apply neg_uniq. apply add0. Qed.
Lemma neg_neg x : neg (neg x) = x. Proof. symmetry. apply neg_uniq. apply addNl. Qed.
Lemma add4 a b c d : add (add a b) (add c d) = add (add a c) (add b d).
Proof. rewrite <- !addA. f_equal. rewrite !addA, (addC b c). reflexivity. Qed.
Lemma neg_add x y : neg (add x y) = add (neg x) (neg y).
Proof. symmetry. apply neg_uniq. rewrite add4, !addN. apply add0. Qed.

Fixpoint nm (n : nat) (x : A) : A := match n with O => z | S n' => add x (nm n' x) end.
Definition sm (k : Z) (x : A) : A := if k <? 0 then neg (nm (Z.to_nat (- k)) x) else nm (Z.to_nat k) x.
Lemma sm_nm k x : 0 <= k -> sm k x = nm (Z.to_nat k) x.
Proof. intros H. unfold sm. destruct (Z.ltb_spec k 0); [lia|reflexivity]. Qed.
Lemma sm_0 x : sm 0 x = z. Proof. reflexivity. Qed.
Lemma sm_succ k x : sm (k + 1) x = add x (sm k x).
Proof.
  unfold sm. destruct (Z.ltb_spec k 0) as [K|K], (Z.ltb_spec (k + 1) 0) as [K1|K1]; try lia.
  - replace (Z.to_nat (- k)) with (S (Z.to_nat (- (k + 1)))) by lia. cbn [nm].
    rewrite neg_add, addA, addN, add0. reflexivity.
  - replace (Z.to_nat (- k)) with 1%nat by lia. replace (Z.to_nat (k + 1)) with 0%nat by lia. cbn [nm].
    rewrite add0r, addN. reflexivity.
  - replace (Z.to_nat (k + 1)) with (S (Z.to_nat k)) by lia. reflexivity.
Qed.
Lemma sm_pred k x : sm (k - 1) x = add (neg x) (sm k x).
Proof. replace (sm k x) with (sm ((k - 1) + 1) x) by (f_equal; lia). rewrite sm_succ, addA, addNl, add0. reflexivity. Qed.
Lemma Z_bi (P : Z -> Prop) : P 0 -> (forall k, P k -> P (k + 1)) -> (forall k, P k -> P (k - 1)) -> forall k, P k.
Proof.
  intros H0 HS HP k. apply Z.bi_induction; [intros a b ->; reflexivity|exact H0|].
  intros m. split; [apply HS|]. intros H. replace m with (Z.succ m - 1) by lia. apply HP. exact H.
Qed.
Lemma sm_1 x : sm 1 x = x. Proof. change 1 with (0 + 1). rewrite sm_succ, sm_0. apply add0r. Qed.
Lemma sm_add k l x : sm (k + l) x = add (sm k x) (sm l x).
Proof.
  revert k. apply Z_bi.
  - rewrite sm_0, add0. reflexivity.
  - intros k IH. replace (k + 1 + l) with ((k + l) + 1) by lia. rewrite !sm_succ, IH, addA. reflexivity.
  - intros k IH. replace (k - 1 + l) with ((k + l) - 1) by lia. rewrite !sm_pred, IH, addA. reflexivity.
Qed.
Lemma sm_addr k x y : sm k (add x y) = add (sm k x) (sm k y).
Proof.
  revert k. apply Z_bi.
  - rewrite !sm_0, add0. reflexivity.
  - intros k IH. rewrite !sm_succ, IH. apply add4.
  - intros k IH. rewrite !sm_pred, IH, neg_add. apply add4.
Qed.
Lemma sm_z k : sm k z = z.
Proof.
  revert k. apply Z_bi; [apply sm_0| |]; intros k IH; [rewrite sm_succ, IH|rewrite sm_pred, IH, neg0]; apply add0.
Qed.
Lemma sm_opp k x : sm (- k) x = neg (sm k x).
Proof. apply neg_uniq. rewrite <- sm_add. replace (k + - k) with 0 by lia. apply sm_0. Qed.
Lemma sm_mul k l x : sm (k * l) x = sm k (sm l x).
Proof.
  revert k. apply Z_bi.
  - rewrite Z.mul_0_l, !sm_0. reflexivity.
  - intros k IH. replace ((k + 1) * l) with (l + k * l) by ring. rewrite sm_add, IH, sm_succ. reflexivity.
  - intros k IH. replace ((k - 1) * l) with (- l + k * l) by ring. rewrite sm_add, IH, sm_pred, sm_opp. reflexivity.
Qed.
Lemma sm_bez k l x : sm k x = z -> sm l x = z -> Z.gcd k l = 1 -> x = z.
Proof.
  intros K L G. destruct (Z.gcd_bezout k l 1 G) as (u & v & E).
  rewrite <- (sm_1 x), <- E, sm_add, !sm_mul, K, L, !sm_z. apply add0.
Qed.
Lemma sm_prime l x i j : prime l -> x <> z -> sm l x = z -> 0 <= i < l -> 0 <= j < l -> sm i x = sm j x -> i = j.
Proof.
  intros P NZ O I J H. destruct (Z.eq_dec i j) as [|NE]; [assumption|exfalso]. apply NZ. apply (sm_bez (i - j) l); [|exact O|].
  - replace (i - j) with (i + - j) by lia. rewrite sm_add, sm_opp, H, addN. reflexivity.
  - apply Zgcd_1_rel_prime, rel_prime_sym, prime_rel_prime; [exact P|]. intros D.
    assert (D' : (l | Z.abs (i - j))) by (apply Z.divide_abs_r; exact D). apply Z.divide_pos_le in D'; lia.
Qed.

Section Finite.
Variable L : list A.
Hypothesis LND : NoDup L.
Hypothesis Lall : forall x, In x L.

Lemma filter_split {B} (f : B -> bool) l : (length (filter f l) + length (filter (fun x => negb (f x)) l) = length l)%nat.
Proof. induction l as [|a l IH]; [reflexivity|]. cbn [filter]. destruct (f a); cbn [negb length]; lia. Qed.

Lemma coset_count H : NoDup H -> H <> [] -> (forall x y, In x H -> In y H -> In (add x (neg y)) H) ->
  forall n R, (length R <= n)%nat -> NoDup R -> (forall x h, In x R -> In h H -> In (add x h) R) ->
  (Z.of_nat (length H) | Z.of_nat (length R)).
Proof.
  intros HN HE HC. assert (H0 : In z H). { destruct H as [|h H']; [contradiction|]. rewrite <- (addN h). apply HC; left; reflexivity. }
  assert (HNg : forall y, In y H -> In (neg y) H). { intros y Y. rewrite <- (add0 (neg y)). apply HC; assumption. }
  assert (HA : forall x y, In x H -> In y H -> In (add x y) H). { intros x y X Y. rewrite <- (neg_neg y). apply HC; auto. }
  induction n as [|n IH]; intros R RL RN RC.
  - destruct R; [apply Z.divide_0_r|cbn in RL; lia].
  - destruct R as [|x R0]; [apply Z.divide_0_r|]. set (R := x :: R0) in *.
    set (K := map (add x) H). set (f := fun y => if in_dec eqd y K then true else false).
    assert (FK : forall y, f y = true <-> In y K) by (intros y; unfold f; destruct (in_dec eqd y K); split; auto; discriminate).
    assert (KL : length (filter f R) = length H).
    { transitivity (length K); [|apply map_length]. apply Permutation_length, NoDup_Permutation.
      - apply NoDup_filter. exact RN.
      - apply FinFun.Injective_map_NoDup; [|exact HN]. intros a b E. exact (add_cancel x a b E).
      - intros y. rewrite filter_In, FK. split; [tauto|]. intros Y. split; [|exact Y].
        apply in_map_iff in Y. destruct Y as (h & <- & Hh). apply RC; [left; reflexivity|exact Hh]. }
    pose proof (filter_split f R) as FS. rewrite KL in FS.
    assert (HL : (0 < length H)%nat) by (destruct H; [contradiction|cbn; lia]).
    assert (D : (Z.of_nat (length H) | Z.of_nat (length (filter (fun y => negb (f y)) R)))).
    { apply IH; [lia|apply NoDup_filter; exact RN|]. intros y h Y Hh. apply filter_In in Y. destruct Y as [Y1 Y2].
      apply filter_In. split; [apply RC; assumption|]. apply negb_true_iff. apply negb_true_iff in Y2.
      destruct (f (add y h)) eqn:F; [|reflexivity]. apply FK, in_map_iff in F. destruct F as (g & E & G).
      assert (In y K). { apply in_map_iff. exists (add g (neg h)). split; [|apply HC; assumption].
        rewrite addA, E, <- addA, addN, add0r. reflexivity. }
      apply FK in H1. congruence. }
    rewrite <- FS, Nat2Z.inj_add. apply Z.divide_add_r; [apply Z.divide_refl|exact D].
Qed.

Definition ord : Z := Z.of_nat (length L).
Theorem lagrange H : NoDup H -> H <> [] -> (forall x y, In x H -> In y H -> In (add x (neg y)) H) -> (Z.of_nat (length H) | ord).
Proof. intros HN HE HC. apply (coset_count H HN HE HC (length L) L); [apply Nat.le_refl|exact LND|]. intros. apply Lall. Qed.

Definition sum (l : list A) : A := fold_right add z l.
Lemma sum_perm l m : Permutation l m -> sum l = sum m.
Proof.
  unfold sum. induction 1 as [|a l m P IH|a b l|l m k P1 IH1 P2 IH2]; cbn [fold_right]; [reflexivity|rewrite IH; reflexivity| |congruence].
  rewrite !addA, (addC a b). reflexivity.
Qed.
Lemma sum_shift x l : sum (map (add x) l) = add (nm (length l) x) (sum l).
Proof. induction l as [|a l IH]; [cbn; symmetry; apply add0|]. cbn [map sum fold_right length nm] in *. unfold sum in IH. rewrite IH. apply add4. Qed.
Theorem ord_kills x : sm ord x = z.
Proof.
  assert (P : Permutation (map (add x) L) L).
  { apply NoDup_Permutation; [apply FinFun.Injective_map_NoDup; [intros a b E; exact (add_cancel x a b E)|exact LND]|exact LND|].
    intros y. split; [intros _; apply Lall|]. intros _. apply in_map_iff. exists (add (neg x) y).
    split; [rewrite addA, addN; apply add0|apply Lall]. }
  apply sum_perm in P. rewrite sum_shift in P. unfold ord. rewrite sm_nm by lia. rewrite Nat2Z.id.
  apply (add_cancel (sum L)). rewrite addC, P, add0r. reflexivity.
Qed.

(* multiples below l *)
Definition zr (l : Z) : list Z := map Z.of_nat (seq 0 (Z.to_nat l)).
Lemma zr_in l i : In i (zr l) <-> 0 <= i < l.
Proof.
  unfold zr. rewrite in_map_iff. split.
  - intros (k & <- & K). apply in_seq in K. lia.
  - intros I. exists (Z.to_nat i). split; [lia|]. apply in_seq. lia.
Qed.
Lemma zr_nodup l : NoDup (zr l).
Proof. apply FinFun.Injective_map_NoDup; [intros a b E; lia|apply seq_NoDup]. Qed.
Lemma zr_len l : 0 <= l -> Z.of_nat (length (zr l)) = l.
Proof. intros. unfold zr. rewrite map_length, seq_length. lia. Qed.
Lemma sm_mod l x i : 0 < l -> sm l x = z -> sm (i mod l) x = sm i x.
Proof.
  intros P O. rewrite (Z.div_mod i l) at 2 by lia. rewrite sm_add, (Z.mul_comm l), sm_mul, O, sm_z, add0. reflexivity.
Qed.
Lemma map_nodup {B C} (f : B -> C) l : NoDup l -> (forall a b, In a l -> In b l -> f a = f b -> a = b) -> NoDup (map f l).
Proof.
  induction 1 as [|a l NI ND IH]; intros I; [constructor|]. cbn [map]. constructor.
  - intros F. apply in_map_iff in F. destruct F as (b & E & B1). apply NI. rewrite <- (I b a); auto; [right; exact B1|left; reflexivity].
  - apply IH. intros b c B1 C1. apply I; right; assumption.
Qed.
Theorem ord_prime l x : prime l -> x <> z -> sm l x = z -> (l | ord).
Proof.
  intros P NZ O. pose proof (prime_ge_2 l P) as L2. set (H := map (fun i => sm i x) (zr l)).
  assert (HL : Z.of_nat (length H) = l) by (unfold H; rewrite map_length; apply zr_len; lia).
  rewrite <- HL. apply lagrange.
  - apply map_nodup; [apply zr_nodup|]. intros i j I J E. apply zr_in in I. apply zr_in in J. apply (sm_prime l x); auto.
  - intros E. rewrite E in HL. cbn in HL. lia.
  - intros a b I J. apply in_map_iff in I. destruct I as (i & <- & I). apply in_map_iff in J. destruct J as (j & <- & J).
    apply in_map_iff. exists ((i - j) mod l). split; [|apply zr_in, Z.mod_pos_bound; lia].
    rewrite sm_mod by (auto; lia). replace (i - j) with (i + - j) by lia. rewrite sm_add, sm_opp. reflexivity.
Qed.
Theorem ord_prime2 l x y : prime l -> x <> z -> sm l x = z -> sm l y = z -> (forall i, 0 <= i < l -> y <> sm i x) -> (l * l | ord).
Proof.
  intros P NZ OX OY NI. pose proof (prime_ge_2 l P) as L2.
  set (H := map (fun p => add (sm (fst p) x) (sm (snd p) y)) (list_prod (zr l) (zr l))).
  assert (HL : Z.of_nat (length H) = l * l).
  { unfold H. rewrite map_length, prod_length, Nat2Z.inj_mul, zr_len by lia. reflexivity. }
  assert (PN : NoDup (list_prod (zr l) (zr l))).
  { assert (G : forall m n, NoDup m -> NoDup n -> NoDup (@list_prod Z Z m n)); [|apply G; apply zr_nodup].
    clear. induction m as [|a m IH]; intros n M N; [constructor|]. cbn [list_prod]. inversion M as [|? ? M1 M2]; subst.
    assert (AP : forall k, NoDup k -> (forall p, In p k -> fst p <> a) -> NoDup (map (fun y => (a, y)) n ++ k)).
    { clear -N. induction N as [|b n NI ND IH]; intros k K1 K2; [exact K1|]. cbn [map app]. constructor; [|apply IH; assumption].
      intros I. apply in_app_or in I. destruct I as [I|I].
      - apply in_map_iff in I. destruct I as (c & E & I). injection E as ->. contradiction.
      - apply K2 in I. apply I. reflexivity. }
    apply AP; [apply IH; assumption|]. intros [u v] I E. cbn in E. subst. apply in_prod_iff in I. tauto. }
  rewrite <- HL. apply lagrange.
  - apply map_nodup; [exact PN|]. intros [i j] [i' j'] I J E. apply in_prod_iff in I. apply in_prod_iff in J.
    rewrite !zr_in in I, J. cbn [fst snd] in E.
    assert (E2 : sm (j - j') y = sm (i' - i) x).
    { replace (j - j') with (j + - j') by lia. replace (i' - i) with (i' + - i) by lia. rewrite !sm_add, !sm_opp.
      apply (add_cancel (add (sm i x) (sm j' y))). rewrite add4, addN, add0r, E.
      rewrite (addC (sm i' x) (neg (sm i x))), add4, addN, add0. apply addC. }
    destruct (Z.eq_dec j j') as [->|NE].
    { f_equal. apply (sm_prime l x i i' P NZ OX); try lia. rewrite Z.sub_diag, sm_0 in E2.
      apply (add_cancel (neg (sm i x))). rewrite addNl, E2. replace (i' - i) with (- i + i') by lia. rewrite sm_add, sm_opp. reflexivity. }
    exfalso. 
    assert (G : Z.gcd (j - j') l = 1).
    { apply Zgcd_1_rel_prime, rel_prime_sym, prime_rel_prime; [exact P|]. intros D.
      assert (D' : (l | Z.abs (j - j'))) by (apply Z.divide_abs_r; exact D). apply Z.divide_pos_le in D'; lia. }
    destruct (Z.gcd_bezout _ _ 1 G) as (u & v & B).
    apply (NI ((u * (i' - i)) mod l)); [apply Z.mod_pos_bound; lia|]. rewrite sm_mod by (auto; lia).
    rewrite sm_mul, <- E2, <- sm_mul. rewrite <- (sm_1 y) at 1. rewrite <- B, sm_add, (sm_mul v), OY, sm_z, add0r. reflexivity.
  - intros E. rewrite E in HL. cbn in HL. nia.
  - intros a b I J. apply in_map_iff in I. destruct I as ((i & j) & <- & I). apply in_map_iff in J. destruct J as ((i' & j') & <- & J).
    apply in_map_iff. exists ((i - i') mod l, (j - j') mod l). split; [|apply in_prod_iff; rewrite !zr_in; split; apply Z.mod_pos_bound; lia].
    cbn [fst snd]. rewrite !sm_mod by (auto; lia). replace (i - i') with (i + - i') by lia. replace (j - j') with (j + - j') by lia.
    rewrite !sm_add, !sm_opp, neg_add. apply add4.
Qed.
End Finite.

Section Psi.
Variable psi : A -> A.
Hypothesis psi_add : forall x y, psi (add x y) = add (psi x) (psi y).
Hypothesis psi_4 : forall x, add (psi (psi (psi (psi x)))) x = psi (psi x).
Lemma psi_z : psi z = z.
Proof. apply (add_cancel (psi z)). rewrite <- psi_add, add0, add0r. reflexivity. Qed.
Lemma psi_neg x : psi (neg x) = neg (psi x).
Proof. apply neg_uniq. rewrite <- psi_add, addN. apply psi_z. Qed.
Lemma psi_sm k x : psi (sm k x) = sm k (psi x).
Proof.
  revert k. apply Z_bi; [apply psi_z| |]; intros k IH; [rewrite !sm_succ, psi_add, IH|rewrite !sm_pred, psi_add, IH, psi_neg]; reflexivity.
Qed.
(* a + b psi + c psi^2 + d psi^3 *)
Definition lc (x : A) (a b c d : Z) : A := add (add (sm a x) (sm b (psi x))) (add (sm c (psi (psi x))) (sm d (psi (psi (psi x))))).
Lemma lc_add x a b c d a' b' c' d' : add (lc x a b c d) (lc x a' b' c' d') = lc x (a + a') (b + b') (c + c') (d + d').
Proof. unfold lc. rewrite !sm_add. rewrite add4. f_equal; apply add4. Qed.
Lemma lc_sm k x a b c d : sm k (lc x a b c d) = lc x (k * a) (k * b) (k * c) (k * d).
Proof. unfold lc. rewrite !sm_addr, !sm_mul. reflexivity. Qed.
Lemma lc_psi x a b c d : psi (lc x a b c d) = lc x (- d) a (b + d) c.
Proof.
  unfold lc. rewrite !psi_add, !psi_sm.
  assert (P : psi (psi (psi (psi x))) = add (neg x) (psi (psi x))) by (apply (add_cancel x); rewrite addA, addN, add0, addC; exact (psi_4 x)).
  rewrite P, sm_addr, sm_add. replace (sm d (neg x)) with (sm (- d) x).
  2: { rewrite sm_opp. symmetry. apply neg_uniq. rewrite <- sm_addr, addN, sm_z. reflexivity. }
  generalize (sm a (psi x)) (sm b (psi (psi x))) (sm c (psi (psi (psi x)))) (sm (- d) x) (sm d (psi (psi x))). intros u v w s t.
  rewrite (addC w (add s t)). rewrite <- (addA s t w). rewrite (addA (add u v) s (add t w)).
  rewrite <- (addA u v s), (addC v s), (addA u s v), (addC u s). rewrite <- (addA (add s u) v (add t w)). rewrite (addA v t w). reflexivity.
Qed.
Lemma lc_1 x : lc x 1 0 0 0 = x. Proof. unfold lc. rewrite sm_1, !sm_0, !add0r. reflexivity. Qed.
Lemma lc_k x k : lc x k 0 0 0 = sm k x. Proof. unfold lc. rewrite !sm_0, !add0r. reflexivity. Qed.

Lemma eigen_kills u x : psi x = sm u x -> sm (u * u * u * u - u * u + 1) x = z.
Proof.
  intros E. pose proof (psi_4 x) as H.
  assert (E2 : psi (psi x) = sm (u * u) x) by (rewrite E, psi_sm, E, <- sm_mul; reflexivity).
  assert (E4 : psi (psi (psi (psi x))) = sm (u * u * (u * u)) x) by (rewrite E2, !psi_sm, E2, <- sm_mul; reflexivity).
  rewrite E4, E2 in H.
  apply (add_cancel (sm (u * u) x)). rewrite <- sm_add, add0r.
  replace (u * u + (u * u * u * u - u * u + 1)) with (u * u * (u * u) + 1) by ring. rewrite sm_add, sm_1. exact H.
Qed.
Lemma norm_kills a b c x : lc x a b c 0 = z -> forall X Y, X = a * a - c * c -> Y = 2 * a * c + c * c - b * b -> sm (X * X + X * Y + Y * Y) x = z.
Proof.
  intros H X Y EX EY.
  assert (H1 : lc x X 0 Y 0 = z).
  { transitivity (add (sm a (lc x a b c 0)) (add (sm (- b) (psi (lc x a b c 0))) (sm c (psi (psi (lc x a b c 0)))))).
    - rewrite !lc_psi, !lc_sm, !lc_add. f_equal; subst; ring.
    - rewrite H, !psi_z, !sm_z, !add0. reflexivity. }
  rewrite <- lc_k. transitivity (add (sm (X + Y) (lc x X 0 Y 0)) (sm (- Y) (psi (psi (lc x X 0 Y 0))))).
  - rewrite !lc_psi, !lc_sm, !lc_add. f_equal; subst; ring.
  - rewrite H1, !psi_z, !sm_z, !add0. reflexivity.
Qed.
End Psi.
End Group.
