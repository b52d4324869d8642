(* The Jacobi symbol by Gauss-Schering counting: multiplicativity, the value at
   2, quadratic reciprocity by lattice points, and Gauss's lemma for the prime q. *)
From Coq Require Import ZArith List Bool Lia Znumtheory Permutation.
From Verif Require Import NumT FieldQ FieldQ2.
Import ListNotations.
Open Scope Z_scope.

Ltac mlia := Z.to_euclidean_division_equations; lia.

Definition rng (h : Z) : list Z := map Z.of_nat (seq 1 (Z.to_nat h)).
Lemma rng_in h k : In k (rng h) <-> 1 <= k <= h.
Proof.
  unfold rng. rewrite in_map_iff. split.
  - intros (x & <- & H). apply in_seq in H. lia.
  - intros H. exists (Z.to_nat k). split; [lia|]. apply in_seq. lia.
Qed.
Lemma rng_nodup h : NoDup (rng h).
Proof. unfold rng. apply FinFun.Injective_map_NoDup; [intros x y; lia|apply seq_NoDup]. Qed.
Lemma rng_succ h : 0 <= h -> rng (h + 1) = rng h ++ [h + 1].
Proof.
  intros H. unfold rng. replace (Z.to_nat (h + 1)) with (Z.to_nat h + 1)%nat by lia.
  rewrite seq_app, map_app. f_equal. cbn [seq map]. f_equal. lia.
Qed.
Lemma rng_0 : rng 0 = []. Proof. reflexivity. Qed.

Definition sumf (f : Z -> Z) (l : list Z) : Z := fold_right (fun x s => f x + s) 0 l.
Lemma sumf_cons f x l : sumf f (x :: l) = f x + sumf f l. Proof. reflexivity. Qed.
Lemma sumf_app f l m : sumf f (l ++ m) = sumf f l + sumf f m.
Proof. induction l as [|x l IH]; cbn [app sumf fold_right]; [reflexivity|]. fold (sumf f (l ++ m)) (sumf f l). lia. Qed.
Lemma sumf_perm f l m : Permutation l m -> sumf f l = sumf f m.
Proof. induction 1; rewrite ?sumf_cons; lia. Qed.
Lemma sumf_map f g l : sumf f (map g l) = sumf (fun x => f (g x)) l.
Proof. induction l as [|x l IH]; [reflexivity|]. cbn [map]. rewrite !sumf_cons, IH. reflexivity. Qed.
Lemma sumf_ext f g l : (forall x, In x l -> f x = g x) -> sumf f l = sumf g l.
Proof.
  induction l as [|x l IH]; intros H; [reflexivity|]. rewrite !sumf_cons, IH, (H x); [reflexivity|left; reflexivity|].
  intros y Y. apply H. right. exact Y.
Qed.
Lemma sumf_add f g l : sumf (fun x => f x + g x) l = sumf f l + sumf g l.
Proof. induction l as [|x l IH]; [reflexivity|]. rewrite !sumf_cons, IH. lia. Qed.
Lemma sumf_mul c f l : sumf (fun x => c * f x) l = c * sumf f l.
Proof. induction l as [|x l IH]; [cbn; lia|]. rewrite !sumf_cons, IH. lia. Qed.
Lemma sumf_const c l : sumf (fun _ => c) l = c * Z.of_nat (length l).
Proof. induction l as [|x l IH]; [cbn; lia|]. rewrite !sumf_cons, IH. cbn [length]. lia. Qed.
Lemma sumf_mod f g l : (forall x, In x l -> f x mod 2 = g x mod 2) -> sumf f l mod 2 = sumf g l mod 2.
Proof.
  induction l as [|x l IH]; intros H; [reflexivity|]. rewrite !sumf_cons.
  assert (E : sumf f l mod 2 = sumf g l mod 2) by (apply IH; intros y Y; apply H; right; exact Y).
  assert (E2 : f x mod 2 = g x mod 2) by (apply H; left; reflexivity).
  rewrite Z.add_mod, E, E2, <- Z.add_mod by lia. reflexivity.
Qed.
Lemma sumf_swap (c : Z -> Z -> Z) l m : sumf (fun x => sumf (fun y => c x y) m) l = sumf (fun y => sumf (fun x => c x y) l) m.
Proof.
  induction l as [|x l IH].
  - cbn [sumf fold_right]. induction m as [|y m IHm]; [reflexivity|]. rewrite sumf_cons. exact IHm.
  - rewrite sumf_cons, IH, <- sumf_add. apply sumf_ext. intros y _. rewrite sumf_cons. reflexivity.
Qed.
Lemma rng_length h : 0 <= h -> Z.of_nat (length (rng h)) = h.
Proof. intros H. unfold rng. rewrite map_length, seq_length. lia. Qed.
Lemma sumf_count h m : 0 <= m <= h -> sumf (fun k => if k <=? m then 1 else 0) (rng h) = m.
Proof.
  intros M. assert (H : 0 <= h) by lia. revert M. revert h H. apply (natlike_ind (fun h => 0 <= m <= h -> sumf (fun k => if k <=? m then 1 else 0) (rng h) = m)).
  - intros. rewrite rng_0. cbn. lia.
  - intros h H IH M. unfold Z.succ. rewrite rng_succ, sumf_app by lia. cbn [sumf fold_right].
    destruct (Z.leb_spec (h + 1) m).
    + assert (E : sumf (fun k => if k <=? m then 1 else 0) (rng h) = sumf (fun _ => 1) (rng h)).
      { apply sumf_ext. intros k K. apply rng_in in K. destruct (Z.leb_spec k m); lia. }
      rewrite E, sumf_const, rng_length by lia. lia.
    + rewrite IH by lia. lia.
Qed.

(* ------------------------- absolute residues ------------------------- *)
Definition sg (a n k : Z) : Z := if n <? 2 * ((a * k) mod n) then 1 else 0.
Definition ab (a n k : Z) : Z := let r := (a * k) mod n in if n <? 2 * r then n - r else r.
Definition hf (n : Z) : Z := (n - 1) / 2.
Definition mu (a n : Z) : Z := sumf (sg a n) (rng (hf n)).

Section Odd.
Variable n : Z.
Hypothesis N1 : 1 < n.
Hypothesis NO : n mod 2 = 1.
Lemma hf_eq : n = 2 * hf n + 1. Proof. unfold hf. mlia. Qed.

Lemma res_nz a k : Z.gcd a n = 1 -> 1 <= k < n -> 0 < (a * k) mod n < n.
Proof.
  intros G K. pose proof (Z.mod_pos_bound (a * k) n ltac:(lia)).
  assert ((a * k) mod n <> 0); [|lia]. intros E. apply Z.mod_divide in E; [|lia].
  apply Z.gauss in E; [|rewrite Z.gcd_comm; exact G]. apply Z.divide_pos_le in E; lia.
Qed.
Lemma odd_mid r : 2 * r <> n. Proof. pose proof hf_eq. lia. Qed.
Lemma ab_range a k : Z.gcd a n = 1 -> 1 <= k <= hf n -> 1 <= ab a n k <= hf n.
Proof.
  intros G K. pose proof hf_eq. pose proof (res_nz a k G ltac:(lia)). unfold ab.
  pose proof (odd_mid ((a * k) mod n)). destruct (Z.ltb_spec n (2 * ((a * k) mod n))); lia.
Qed.
(* a k = +-ab (mod n) *)
Lemma ab_cong a k : exists q, a * k = n * q + (if n <? 2 * ((a * k) mod n) then - ab a n k else ab a n k).
Proof.
  pose proof (Z.div_mod (a * k) n ltac:(lia)) as D. unfold ab.
  destruct (Z.ltb_spec n (2 * ((a * k) mod n))).
  - exists (a * k / n + 1). lia.
  - exists (a * k / n). lia.
Qed.
Lemma div_small d : (n | d) -> - n < d < n -> d = 0.
Proof. intros [q Q] D. subst d. assert (q = 0) by nia. subst. lia. Qed.
Lemma ab_inj a k k' : Z.gcd a n = 1 -> 1 <= k <= hf n -> 1 <= k' <= hf n -> ab a n k = ab a n k' -> k = k'.
Proof.
  intros G K K' E. pose proof hf_eq. destruct (ab_cong a k) as [q Q]. destruct (ab_cong a k') as [q' Q']. rewrite E in Q.
  assert (GC : Z.gcd n a = 1) by (rewrite Z.gcd_comm; exact G).
  assert (C : (n | a * (k - k')) \/ (n | a * (k + k'))).
  { destruct (n <? 2 * ((a * k) mod n)), (n <? 2 * ((a * k') mod n)).
    - left. exists (q - q'). lia.
    - right. exists (q + q'). lia.
    - right. exists (q + q'). lia.
    - left. exists (q - q'). lia. }
  destruct C as [C|C]; apply Z.gauss in C; auto; apply div_small in C; lia.
Qed.
Lemma nodup_map (f : Z -> Z) l : (forall x y, In x l -> In y l -> f x = f y -> x = y) -> NoDup l -> NoDup (map f l).
Proof.
  intros I D. induction D as [|x l NI D IH]; cbn [map]; [constructor|]. constructor.
  - intros H. apply in_map_iff in H. destruct H as (y & E & Y). apply NI.
    rewrite (I x y); [exact Y|left; reflexivity|right; exact Y|symmetry; exact E].
  - apply IH. intros u v U V. apply I; right; assumption.
Qed.
Lemma ab_perm a : Z.gcd a n = 1 -> Permutation (map (ab a n) (rng (hf n))) (rng (hf n)).
Proof.
  intros G. apply NoDup_Permutation_bis.
  - apply nodup_map; [|apply rng_nodup]. intros x y X Y. apply rng_in in X, Y. apply ab_inj; assumption.
  - rewrite map_length. lia.
  - intros y Y. apply in_map_iff in Y. destruct Y as (x & <- & X). apply rng_in in X. apply rng_in. apply ab_range; assumption.
Qed.

Lemma gcd_mul a b : Z.gcd a n = 1 -> Z.gcd b n = 1 -> Z.gcd (a * b) n = 1.
Proof.
  intros A B. apply Zgcd_1_rel_prime. apply rel_prime_sym, rel_prime_mult; apply rel_prime_sym, Zgcd_1_rel_prime; assumption.
Qed.
Lemma sg_mul a b k : Z.gcd a n = 1 -> Z.gcd b n = 1 -> 1 <= k <= hf n ->
  sg (a * b) n k mod 2 = (sg a n (ab b n k) + sg b n k) mod 2.
Proof.
  intros A B K. pose proof hf_eq. pose proof (ab_range b k B K) as R. pose proof (res_nz a (ab b n k) A ltac:(lia)) as NZ.
  destruct (ab_cong b k) as [q Q]. unfold sg at 1 3. unfold sg.
  destruct (n <? 2 * ((b * k) mod n)) eqn:S1.
  - assert (E : (a * b * k) mod n = n - (a * ab b n k) mod n).
    { symmetry. apply (Z.mod_unique _ _ (a * q - (a * ab b n k) / n - 1)); [left; lia|].
      pose proof (Z.div_mod (a * ab b n k) n ltac:(lia)). replace (a * b * k) with (a * (b * k)) by ring. rewrite Q. lia. }
    rewrite E. pose proof (odd_mid ((a * ab b n k) mod n)).
    destruct (Z.ltb_spec n (2 * ((a * ab b n k) mod n))); destruct (Z.ltb_spec n (2 * (n - (a * ab b n k) mod n))); try lia; reflexivity.
  - assert (E : (a * b * k) mod n = (a * ab b n k) mod n).
    { replace (a * b * k) with (a * (b * k)) by ring. rewrite Q. replace (a * (n * q + ab b n k)) with (a * ab b n k + (a * q) * n) by ring.
      apply Z.mod_add. lia. }
    rewrite E. f_equal. lia.
Qed.
Lemma mu_mul a b : Z.gcd a n = 1 -> Z.gcd b n = 1 -> mu (a * b) n mod 2 = (mu a n + mu b n) mod 2.
Proof.
  intros A B. unfold mu.
  rewrite (sumf_mod (sg (a * b) n) (fun k => sg a n (ab b n k) + sg b n k)).
  2:{ intros k K. apply rng_in in K. apply sg_mul; assumption. }
  rewrite sumf_add. do 2 f_equal. rewrite <- (sumf_map (sg a n) (ab b n)). apply sumf_perm, ab_perm, B.
Qed.
Lemma mu_mod a : mu (a mod n) n = mu a n.
Proof. unfold mu. apply sumf_ext. intros k _. unfold sg. rewrite Z.mul_mod_idemp_l by lia. reflexivity. Qed.
Lemma mu_1 : mu 1 n = 0.
Proof.
  unfold mu. rewrite (sumf_ext _ (fun _ => 0)); [rewrite sumf_const; lia|]. intros k K. apply rng_in in K.
  pose proof hf_eq. unfold sg. rewrite Z.mul_1_l, Z.mod_small by lia. destruct (Z.ltb_spec n (2 * k)); lia.
Qed.
Lemma mu_2 : mu 2 n mod 2 = (((n mod 8) * (n mod 8) - 1) / 8) mod 2.
Proof.
  pose proof hf_eq as H. set (h := hf n) in *.
  assert (E : mu 2 n = h - h / 2).
  { unfold mu. fold h.
    rewrite (sumf_ext _ (fun k => 1 + -1 * (if k <=? h / 2 then 1 else 0))).
    - rewrite sumf_add, sumf_const, sumf_mul, sumf_count, rng_length by mlia. lia.
    - intros k K. apply rng_in in K. unfold sg. rewrite Z.mod_small by lia.
      destruct (Z.ltb_spec n (2 * (2 * k))); destruct (Z.leb_spec k (h / 2)); try lia; exfalso; mlia. }
  rewrite E. clearbody h. pose proof (Z.mod_pos_bound n 8 ltac:(lia)) as B. pose proof (Z.div_mod n 8 ltac:(lia)) as D.
  set (c := n / 8) in *. set (r := n mod 8) in *. clearbody c r.
  assert (C : r = 1 \/ r = 3 \/ r = 5 \/ r = 7) by (clear - D NO B; mlia).
  destruct C as [->|[->|[->| ->]]].
  - change ((1 * 1 - 1) / 8) with 0. assert (h = 4 * c) by lia. mlia.
  - change ((3 * 3 - 1) / 8) with 1. assert (h = 4 * c + 1) by lia. mlia.
  - change ((5 * 5 - 1) / 8) with 3. assert (h = 4 * c + 2) by lia. mlia.
  - change ((7 * 7 - 1) / 8) with 6. assert (h = 4 * c + 3) by lia. mlia.
Qed.

(* Eisenstein: for odd a the count has the parity of a sum of quotients *)
Lemma eisenstein a : Z.gcd a n = 1 -> a mod 2 = 1 -> mu a n mod 2 = sumf (fun k => a * k / n) (rng (hf n)) mod 2.
Proof.
  intros G O. unfold mu.
  assert (P : sumf (fun k => k) (rng (hf n)) = sumf (ab a n) (rng (hf n))).
  { rewrite <- (sumf_perm (fun k => k) _ _ (ab_perm a G)), sumf_map. reflexivity. }
  assert (E : sumf (fun k => a * k) (rng (hf n)) mod 2 = sumf (fun k => (a * k / n + sg a n k) + ab a n k) (rng (hf n)) mod 2).
  { apply sumf_mod. intros k _. pose proof (Z.div_mod (a * k) n ltac:(lia)) as D. unfold sg, ab.
    set (d := a * k / n) in *. set (r := (a * k) mod n) in *. clearbody d r. rewrite D.
    assert (ND : (n * d) mod 2 = d mod 2) by (rewrite Z.mul_mod, NO, Z.mul_1_l, Z.mod_mod by lia; reflexivity).
    set (nd := n * d) in *. clearbody nd. destruct (n <? 2 * r); mlia. }
  rewrite !sumf_add, sumf_mul, <- P in E. set (s := sumf (fun k => k) (rng (hf n))) in *.
  set (u := sumf (fun k => a * k / n) (rng (hf n))) in *. set (v := sumf (sg a n) (rng (hf n))) in *. clearbody s u v.
  assert (AS : (a * s) mod 2 = s mod 2) by (rewrite Z.mul_mod, O, Z.mul_1_l, Z.mod_mod by lia; reflexivity).
  set (t := a * s) in *. clearbody t. mlia.
Qed.
End Odd.

(* lattice points *)
Lemma row_count a n k : 1 < n -> n mod 2 = 1 -> 1 < a -> a mod 2 = 1 -> Z.gcd a n = 1 -> 1 <= k <= hf n ->
  sumf (fun j => if j * n <? a * k then 1 else 0) (rng (hf a)) = a * k / n.
Proof.
  intros N NO A AO G K. pose proof (hf_eq n NO) as HN. pose proof (hf_eq a AO) as HA.
  assert (K0 : 0 <= a * k / n) by (apply Z.div_pos; nia).
  assert (KB : a * k / n <= hf a).
  { assert (a * k / n < hf a + 1); [|lia]. apply Z.div_lt_upper_bound; [lia|]. nia. }
  transitivity (sumf (fun j => if j <=? a * k / n then 1 else 0) (rng (hf a))); [|apply sumf_count; lia]. apply sumf_ext. intros j J. apply rng_in in J.
  pose proof (Z.div_mod (a * k) n ltac:(lia)) as D. pose proof (res_nz n N a k G ltac:(lia)) as R.
  destruct (Z.ltb_spec (j * n) (a * k)) as [L|L]; destruct (Z.leb_spec j (a * k / n)) as [M|M]; try reflexivity; exfalso; nia.
Qed.
Lemma reciprocity a n : 1 < n -> n mod 2 = 1 -> 1 < a -> a mod 2 = 1 -> Z.gcd a n = 1 ->
  (mu a n + mu n a) mod 2 = (hf a * hf n) mod 2.
Proof.
  intros N NO A AO G. assert (G' : Z.gcd n a = 1) by (rewrite Z.gcd_comm; exact G).
  rewrite Z.add_mod, (eisenstein n N NO a G AO), (eisenstein a A AO n G' NO), <- Z.add_mod by lia. f_equal.
  pose proof (hf_eq n NO) as HN. pose proof (hf_eq a AO) as HA.
  rewrite (sumf_ext _ (fun k => sumf (fun j => if j * n <? a * k then 1 else 0) (rng (hf a))) (rng (hf n))).
  2:{ intros k K. apply rng_in in K. symmetry. apply row_count; assumption. }
  rewrite (sumf_ext _ (fun j => sumf (fun k => if k * a <? n * j then 1 else 0) (rng (hf n))) (rng (hf a))).
  2:{ intros k K. apply rng_in in K. symmetry. apply row_count; assumption. }
  rewrite sumf_swap, <- sumf_add.
  rewrite (sumf_ext _ (fun _ => hf n)); [rewrite sumf_const, rng_length by lia; ring|].
  intros j J. apply rng_in in J. rewrite <- sumf_add.
  rewrite (sumf_ext _ (fun _ => 1)); [rewrite sumf_const, rng_length by lia; ring|].
  intros k K. apply rng_in in K. assert (NE : j * n <> a * k).
  { intros E. assert (D : (n | a * k)) by (exists j; lia). apply Z.gauss in D; [|exact G']. apply Z.divide_pos_le in D; lia. }
  destruct (Z.ltb_spec (j * n) (a * k)); destruct (Z.ltb_spec (k * a) (n * j)); lia.
Qed.

(* ------------------------- the symbol -------------------------------- *)
Definition jac (a n : Z) : Z := if Z.gcd a n =? 1 then (if mu a n mod 2 =? 0 then 1 else -1) else 0.
Definition sgn (m : Z) : Z := if m mod 2 =? 0 then 1 else -1.
Lemma jac_cop a n : Z.gcd a n = 1 -> jac a n = sgn (mu a n).
Proof. intros G. unfold jac. rewrite G. reflexivity. Qed.
Lemma jac_ncop a n : Z.gcd a n <> 1 -> jac a n = 0.
Proof. intros G. unfold jac. destruct (Z.eqb_spec (Z.gcd a n) 1); [contradiction|reflexivity]. Qed.
Lemma sgn_cong m m' : m mod 2 = m' mod 2 -> sgn m = sgn m'.
Proof. intros E. unfold sgn. rewrite E. reflexivity. Qed.
Lemma sgn_add m m' : sgn (m + m') = sgn m * sgn m'.
Proof.
  unfold sgn. destruct (Z.eqb_spec (m mod 2) 0); destruct (Z.eqb_spec (m' mod 2) 0);
    destruct (Z.eqb_spec ((m + m') mod 2) 0); try reflexivity; exfalso; mlia.
Qed.
Lemma jac_n1 a : jac a 1 = 1.
Proof. unfold jac. rewrite Z.gcd_1_r. reflexivity. Qed.
Lemma jac_mod a n : 1 < n -> jac (a mod n) n = jac a n.
Proof.
  intros N. unfold jac. rewrite mu_mod by exact N.
  assert (E : Z.gcd (a mod n) n = Z.gcd a n) by (rewrite Z.gcd_mod by lia; apply Z.gcd_comm). rewrite E. reflexivity.
Qed.
Lemma gcd_2_odd n : n mod 2 = 1 -> Z.gcd 2 n = 1.
Proof. intros O. rewrite <- (Z.gcd_mod n 2), O by lia. reflexivity. Qed.
Lemma gcd_2_mul a n : n mod 2 = 1 -> Z.gcd (2 * a) n = Z.gcd a n.
Proof.
  intros O. assert (G : rel_prime 2 n) by (apply Zgcd_1_rel_prime, gcd_2_odd, O).
  apply Z.divide_antisym_nonneg; try apply Z.gcd_nonneg; apply Z.gcd_greatest.
  - apply (Z.gauss _ 2); [apply Z.gcd_divide_l|].
    rewrite (Z.gcd_comm (2 * a) n), <- Z.gcd_assoc, (Z.gcd_comm (2 * a) 2), Z.gcd_assoc, (Z.gcd_comm n 2), gcd_2_odd by exact O.
    apply Z.gcd_1_l.
  - apply Z.gcd_divide_r.
  - apply Z.divide_mul_r, Z.gcd_divide_l.
  - apply Z.gcd_divide_r.
Qed.
Lemma jac_2 a n : 1 < n -> n mod 2 = 1 -> jac (2 * a) n = sgn (((n mod 8) * (n mod 8) - 1) / 8) * jac a n.
Proof.
  intros N O. destruct (Z.eq_dec (Z.gcd a n) 1) as [G|G].
  - rewrite !jac_cop by (rewrite ?gcd_2_mul; assumption). rewrite <- sgn_add. apply sgn_cong.
    rewrite (mu_mul n N O 2 a (gcd_2_odd n O) G), Z.add_mod, (mu_2 n N O), <- Z.add_mod by lia. reflexivity.
  - rewrite !jac_ncop by (rewrite ?gcd_2_mul; assumption). lia.
Qed.
Lemma jac_recip a n : 1 < n -> n mod 2 = 1 -> 1 <= a -> a mod 2 = 1 -> jac a n = sgn (hf a * hf n) * jac n a.
Proof.
  intros N NO A AO. destruct (Z.eq_dec a 1) as [->|A1].
  { rewrite jac_n1, jac_cop, mu_1 by (assumption || apply Z.gcd_1_l). reflexivity. }
  destruct (Z.eq_dec (Z.gcd a n) 1) as [G|G].
  - rewrite !jac_cop by (assumption || (rewrite Z.gcd_comm; assumption)). rewrite <- sgn_add. apply sgn_cong.
    pose proof (reciprocity a n N NO ltac:(lia) AO G) as R. rewrite Z.add_mod, <- R, <- Z.add_mod by lia. mlia.
  - rewrite !jac_ncop by (assumption || (rewrite Z.gcd_comm; assumption)). lia.
Qed.

(* ------------------- Gauss's lemma and Euler's criterion -------------- *)
Definition prodq (f : Z -> Fq) (l : list Z) : Fq := fold_right (fun x s => fmul (f x) s) f1 l.
Lemma prodq_cons f x l : prodq f (x :: l) = fmul (f x) (prodq f l). Proof. reflexivity. Qed.
Lemma prodq_perm f l m : Permutation l m -> prodq f l = prodq f m.
Proof. induction 1; rewrite ?prodq_cons; [reflexivity|congruence|ring|congruence]. Qed.
Lemma prodq_map f g l : prodq f (map g l) = prodq (fun x => f (g x)) l.
Proof. induction l as [|x l IH]; [reflexivity|]. cbn [map]. rewrite !prodq_cons, IH. reflexivity. Qed.
Lemma prodq_ext f g l : (forall x, In x l -> f x = g x) -> prodq f l = prodq g l.
Proof.
  induction l as [|x l IH]; intros H; [reflexivity|]. rewrite !prodq_cons, IH, (H x); [reflexivity|left; reflexivity|].
  intros y Y. apply H. right. exact Y.
Qed.
Lemma prodq_mul f g l : prodq (fun x => fmul (f x) (g x)) l = fmul (prodq f l) (prodq g l).
Proof. induction l as [|x l IH]; [cbn; ring|]. rewrite !prodq_cons, IH. ring. Qed.
Lemma prodq_const c l : prodq (fun _ => c) l = fpw c (Z.of_nat (length l)).
Proof.
  induction l as [|x l IH]; [reflexivity|]. rewrite prodq_cons, IH. cbn [length].
  replace (Z.of_nat (S (length l))) with (1 + Z.of_nat (length l)) by lia. rewrite fpw_add, fpw_1 by lia. reflexivity.
Qed.
Lemma prodq_nz f l : (forall x, In x l -> f x <> f0) -> prodq f l <> f0.
Proof.
  induction l as [|x l IH]; intros H.
  - exact f1_neq_0.
  - rewrite prodq_cons. intros E. apply fq_integral in E. destruct E as [E|E].
    + apply (H x); [left; reflexivity|exact E].
    + apply IH; [|exact E]. intros y Y. apply H. right. exact Y.
Qed.
Definition fsgn (m : Z) : Fq := if m mod 2 =? 0 then f1 else fopp f1.
Lemma fsgn_add m m' : fsgn (m + m') = fmul (fsgn m) (fsgn m').
Proof.
  unfold fsgn. destruct (Z.eqb_spec (m mod 2) 0); destruct (Z.eqb_spec (m' mod 2) 0);
    destruct (Z.eqb_spec ((m + m') mod 2) 0); try ring; exfalso; mlia.
Qed.
Lemma prodq_fsgn f l : prodq (fun x => fsgn (f x)) l = fsgn (sumf f l).
Proof. induction l as [|x l IH]; [reflexivity|]. rewrite prodq_cons, sumf_cons, fsgn_add, IH. reflexivity. Qed.
Lemma fcancel (x y z : Fq) : z <> f0 -> fmul x z = fmul y z -> x = y.
Proof.
  intros Z E. apply fsub_eq0. assert (E2 : fmul (fsub x y) z = f0).
  { assert (E3 : fmul (fsub x y) z = fsub (fmul x z) (fmul y z)) by ring. rewrite E3, E. ring. }
  apply fq_integral in E2. destruct E2 as [E2|E2]; [exact E2|contradiction].
Qed.
Lemma gauss_gen n a : n = q381 -> Z.gcd a n = 1 -> 1 < n -> n mod 2 = 1 -> fpw (mkq a) (hf n) = fsgn (mu a n).
Proof.
  intros NQ G N1 NO. pose proof (hf_eq n NO) as HF.
  apply (fcancel _ _ (prodq mkq (rng (hf n)))).
  - apply prodq_nz. intros k K E. pose proof (proj1 (rng_in _ _) K) as K1. clear K. apply mkq_inj in E. rewrite <- NQ in E.
    rewrite Z.mod_0_l, Z.mod_small in E by lia. lia.
  - assert (L1 : fmul (fpw (mkq a) (hf n)) (prodq mkq (rng (hf n))) = prodq (fun k => mkq (a * k)) (rng (hf n))).
    { rewrite (prodq_ext (fun k => mkq (a * k)) (fun k => fmul (mkq a) (mkq k))) by (intros; apply mkq_mul).
      rewrite prodq_mul, prodq_const, rng_length by lia. reflexivity. }
    assert (L2 : prodq (fun k => mkq (a * k)) (rng (hf n)) = prodq (fun k => fmul (fsgn (sg a n k)) (mkq (ab a n k))) (rng (hf n))).
    { apply prodq_ext. intros k _. destruct (ab_cong n N1 a k) as [c C]. unfold sg. rewrite (f_equal mkq C). clear C.
      assert (ME : forall x, mkq (n * c + x) = mkq x).
      { intros x. rewrite NQ, (Z.add_comm (q381 * c)), (Z.mul_comm q381). apply mkq_add_q. }
      rewrite ME. destruct (n <? 2 * ((a * k) mod n)).
      - rewrite mkq_opp. change (fsgn 1) with (fopp f1). ring.
      - change (fsgn 0) with f1. ring. }
    rewrite L1, L2, prodq_mul, prodq_fsgn. apply (f_equal (fmul _)).
    rewrite <- (prodq_map mkq (ab a n)). apply prodq_perm, ab_perm; assumption.
Qed.
Definition is_sq (x : Fq) : Prop := exists y, x = fmul y y.
(* q = 3 mod 4: nonzero x is a square exactly when its count is even *)
Lemma euler_gen n a : n = q381 -> 1 < n -> n mod 4 = 3 -> Z.gcd a n = 1 -> (is_sq (mkq a) <-> mu a n mod 2 = 0).
Proof.
  intros NQ N1 N4 G. assert (NO : n mod 2 = 1) by mlia. pose proof (gauss_gen n a NQ G N1 NO) as GL.
  pose proof (hf_eq n NO) as HF. set (h := hf n) in *. clearbody h. split.
  - intros [y Y]. assert (Y0 : y <> f0).
    { intros ->. rewrite fmul_0_l in Y. apply mkq_inj in Y. rewrite <- NQ, Z.mod_0_l in Y by lia. apply Z.mod_divide in Y; [|lia].
      assert (D : (n | Z.gcd a n)) by (apply Z.gcd_greatest; [exact Y|apply Z.divide_refl]). rewrite G in D.
      apply Z.divide_pos_le in D; lia. }
    rewrite Y, fpw_mul_base, <- fpw_add in GL by lia. replace (h + h) with (q381 - 1) in GL by lia.
    rewrite fpw_fermat in GL by exact Y0. unfold fsgn in GL. destruct (Z.eqb_spec (mu a n mod 2) 0) as [E|E]; [exact E|].
    exfalso. apply two_nz. rewrite GL at 2. ring.
  - intros E. unfold fsgn in GL. rewrite E in GL. cbn [Z.eqb] in GL.
    assert (E4 : exists k, 0 <= k /\ n + 1 = 4 * k) by (exists ((n + 1) / 4); clear - N1 N4; mlia).
    destruct E4 as (k & K0 & K4). exists (fpw (mkq a) k). rewrite <- fpw_add by lia.
    replace (k + k) with (1 + h) by lia. rewrite fpw_add, fpw_1, GL by lia. ring.
Qed.
