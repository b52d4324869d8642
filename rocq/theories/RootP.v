(* The r-th roots of unity in the field of the pairing are the powers of the pairing of the
   generators; the pairing is injective on the group of signatures. *)
From Coq Require Import ZArith List Bool Lia Znumtheory Field.
From Verif Require Import NumT FieldQ FieldQ2 SpecCurve CurveP GroupP EcpP Ecp2P Ecp2C GenP Tower TowerP FrobP CycP FexpP SpecPairing LineP PairP PairP2 PairP3
  MillerP MillerP2 MillerP3 PsiP BilinP PrimesD FinGrp TwistP PairD.
Import ListNotations.
Open Scope Z_scope.

(* l_0 + l_1 x + ... + x^n *)
Fixpoint mev (l : list Fq12) (x : Fq12) : Fq12 := match l with [] => k1 | c :: l' => kadd c (kmul x (mev l' x)) end.
Fixpoint mdiv (t : Fq12) (l : list Fq12) : list Fq12 := match l with [] => [] | _ :: l' => match l' with [] => [] | _ :: _ => mev l' t :: mdiv t l' end end.
Lemma mdiv_len t l : length (mdiv t l) = pred (length l).
Proof.
  induction l as [|c l IH]; [reflexivity|]. cbn [mdiv]. destruct l as [|c' l]; [reflexivity|]. cbn [length] in *. rewrite IH. reflexivity.
Qed.
Lemma mdiv_ok t x l : l <> [] -> ksub (mev l x) (mev l t) = kmul (ksub x t) (mev (mdiv t l) x).
Proof.
  induction l as [|c l IH]; [contradiction|]. intros _. destruct l as [|c' l]; [cbn [mev mdiv]; ring|].
  change (mev (c :: c' :: l) x) with (kadd c (kmul x (mev (c' :: l) x))). change (mev (c :: c' :: l) t) with (kadd c (kmul t (mev (c' :: l) t))).
  assert (N : c' :: l <> []) by discriminate. specialize (IH N). 
  change (mdiv t (c :: c' :: l)) with (mev (c' :: l) t :: mdiv t (c' :: l)).
  revert IH. generalize (mev (c' :: l) x) (mev (c' :: l) t) (mdiv t (c' :: l)). intros px pt q. cbn [mev]. generalize (mev q x). intros qx IH.
  transitivity (kadd (kmul (ksub x t) pt) (kmul x (ksub px pt))); [ring|]. rewrite IH. ring.
Qed.
Lemma roots_le ts : NoDup ts -> forall l, Forall (fun t => mev l t = k0) ts -> (length ts <= length l)%nat.
Proof.
  induction 1 as [|t ts N ND IH]; intros l F; [cbn; lia|]. apply Forall_cons_iff in F. destruct F as [T F].
  destruct l as [|c l]; [exfalso; exact (k1_neq_0 T)|].
  assert (D : (length ts <= length (mdiv t (c :: l)))%nat).
  { apply IH. apply Forall_forall. intros x IN. rewrite Forall_forall in F. specialize (F x IN).
    assert (NE : c :: l <> []) by discriminate. pose proof (mdiv_ok t x (c :: l) NE) as E. rewrite F, T in E.
    destruct (Fq12_dec (mev (mdiv t (c :: l)) x) k0) as [Z|Z]; [exact Z|]. exfalso.
    assert (X : ksub x t <> k0). { intros C. apply N. replace t with x; [exact IN|]. transitivity (kadd (ksub x t) t); [ring|rewrite C; ring]. }
    apply (kmul_nz _ _ X Z). rewrite <- E. ring. }
  rewrite mdiv_len in D. cbn [length pred] in *. lia.
Qed.
Lemma mev_zeros n x : mev (repeat k0 n) x = kpw x (Z.of_nat n).
Proof.
  induction n as [|n IH]; [symmetry; apply kpw_0|]. cbn [repeat mev]. rewrite IH.
  replace (Z.of_nat (S n)) with (Z.succ (Z.of_nat n)) by lia. rewrite (kpw_succ x (Z.of_nat n)) by lia. ring.
Qed.
Lemma roots_unity n ts : NoDup ts -> Forall (fun t => kpw t (Z.of_nat (S n)) = k1) ts -> (length ts <= S n)%nat.
Proof.
  intros ND F. pose proof (roots_le ts ND (kopp k1 :: repeat k0 n)) as H. cbn [length] in H. rewrite repeat_length in H. apply H.
  apply Forall_forall. intros t IN. rewrite Forall_forall in F. specialize (F t IN). cbn [mev]. rewrite mev_zeros.
  replace (Z.of_nat (S n)) with (Z.succ (Z.of_nat n)) in F by lia. rewrite (kpw_succ t (Z.of_nat n)) in F by lia.
  transitivity (kadd (kopp k1) (kmul (kpw t (Z.of_nat n)) t)); [ring|]. 
  first [rewrite F | (replace (kmul (kpw t (Z.of_nat n)) t) with (kmul t (kpw t (Z.of_nat n))) by ring; rewrite F)]. ring.
Qed.

Section Mu.
  Variables (e : Fq12) (p : Z).
  Hypothesis P : prime p.
  Hypothesis E1 : e <> k1.
  Hypothesis Ep : kpw e p = k1.
  Lemma mu_nz : e <> k0.
  Proof. pose proof (prime_ge_2 _ P). intros ->. rewrite kpw_zero in Ep by lia. exact (k1_neq_0 (eq_sym Ep)). Qed.
  Lemma mu_per k : 0 <= k -> kpw e (p * k) = k1.
  Proof. intros K. pose proof (prime_ge_2 _ P). rewrite kpw_mul by lia. rewrite Ep. apply kpw_one. Qed.
  Lemma mu_mod k : 0 <= k -> kpw e k = kpw e (k mod p).
  Proof.
    intros K. pose proof (prime_ge_2 _ P). pose proof (Z.mod_pos_bound k p). pose proof (Z.div_pos k p).
    rewrite (Z.div_mod k p) at 1 by lia. rewrite kpw_add by nia. rewrite mu_per by lia. ring.
  Qed.
  Lemma mu_one k : 0 < k < p -> kpw e k <> k1.
  Proof.
    intros K C. apply E1. pose proof (prime_ge_2 _ P).
    assert (R : rel_prime k p) by (apply rel_prime_le_prime; [exact P|lia]).
    destruct (rel_prime_bezout _ _ R) as [u v B].
    (* u k = 1 mod p *)
    set (w := u mod p). assert (W : (w * k) mod p = 1).
    { unfold w. rewrite Z.mul_mod_idemp_l by lia. replace (u * k) with (1 + (- v) * p) by lia. rewrite Z_mod_plus_full. apply Z.mod_1_l. lia. }
    assert (W0 : 0 <= w) by (apply Z.mod_pos_bound; lia).
    assert (X : kpw e (w * k) = e). { rewrite mu_mod by nia. rewrite W. change 1 with (Z.succ 0). rewrite kpw_succ by lia. rewrite kpw_0. ring. }
    rewrite <- X, Z.mul_comm, kpw_mul by lia. rewrite C. apply kpw_one.
  Qed.
  Lemma mu_inj i j : 0 <= i < p -> 0 <= j < p -> kpw e i = kpw e j -> i = j.
  Proof.
    assert (H : forall i j, 0 <= i -> i < j < p -> kpw e i <> kpw e j).
    { intros a b A B C. replace b with (a + (b - a)) in C by lia. rewrite kpw_add in C by lia.
      apply (mu_one (b - a)); [lia|]. apply (kcancel (kpw e a)).
      - clear C. revert A. generalize a. apply natlike_ind; [rewrite kpw_0; exact k1_neq_0|]. intros x X IH. rewrite kpw_succ by exact X. apply kmul_nz; [|]; first [exact IH|exact mu_nz].
      - rewrite <- C. ring. }
    intros I J C. destruct (Z.lt_trichotomy i j) as [L|[L|L]]; [exfalso; apply (H i j); [lia|lia|exact C]|exact L|exfalso; apply (H j i); [lia|lia|symmetry; exact C]].
  Qed.
  Theorem mu_powers x : kpw x p = k1 -> exists k, 0 <= k < p /\ x = kpw e k.
  Proof.
    intros X. pose proof (prime_ge_2 _ P) as P2. destruct (in_dec Fq12_dec x (map (kpw e) (zr p))) as [IN|N].
    - apply in_map_iff in IN. destruct IN as (k & K & IN). exists k. split; [apply zr_in; exact IN|symmetry; exact K].
    - exfalso. assert (ND : NoDup (x :: map (kpw e) (zr p))).
      { constructor; [exact N|]. apply map_nodup; [apply zr_nodup|]. intros a b A B C. apply zr_in in A. apply zr_in in B. apply mu_inj; assumption. }
      pose proof (roots_unity (Z.to_nat (p - 1)) _ ND) as L. replace (Z.of_nat (S (Z.to_nat (p - 1)))) with p in L by lia.
      assert (F : Forall (fun t => kpw t p = k1) (x :: map (kpw e) (zr p))).
      { constructor; [exact X|]. apply Forall_forall. intros t IN. apply in_map_iff in IN. destruct IN as (k & <- & IN). apply zr_in in IN.
        rewrite <- kpw_mul by lia. rewrite Z.mul_comm. apply mu_per. lia. }
      specialize (L F). cbn [length] in L. rewrite map_length in L. pose proof (zr_len p). lia.
  Qed.
End Mu.

(* ------------------------------ the pairing ---------------------------- *)
Definition eG : Fq12 := pairing G2pt G1gen.
Lemma eG_1 : eG <> k1. Proof. exact pairing_G_ne. Qed.
Lemma eG_r : kpw eG r255 = k1. Proof. exact (pairing_r G2pt G1gen (proj1 G2_eigen) G1gen_on). Qed.
#[global] Opaque eG.
Lemma eG_def : pairing G2pt G1gen = eG. Proof. Transparent eG. reflexivity. Qed.
#[global] Opaque eG.
Lemma r255_pos : 0 < r255. Proof. vm_compute. reflexivity. Qed.
Lemma eigen_mult P : eigen P -> exists k, 0 <= k < r255 /\ P = zm2 k G2pt.
Proof. intros E. exact (in_G2 P (proj1 E) (eigen_r P E)). Qed.
Theorem pairing_inj P R : eigen P -> eigen R -> pairing P G1gen = pairing R G1gen -> P = R.
Proof.
  intros A B H. destruct (eigen_mult P A) as (i & I & ->). destruct (eigen_mult R B) as (j & J & ->).
  rewrite (pairing_zm_l i G2pt G1gen), (pairing_zm_l j G2pt G1gen), eG_def in H by (first [lia|exact G2_eigen|exact G1gen_on]).
  rewrite (mu_inj eG r255 r255_prime eG_1 eG_r i j I J H). reflexivity.
Qed.
(* every point of the curve acts in the second argument as a multiple of the generator *)
Theorem key_exponent K : on1 K -> exists k, 0 <= k < r255 /\ forall H, eigen H -> pairing H K = pairing (zm2 k H) G1gen.
Proof.
  intros O. pose proof (pairing_r G2pt K (proj1 G2_eigen) O) as R.
  destruct (mu_powers eG r255 r255_prime eG_1 eG_r _ R) as (k & KR & KE). exists k. split; [exact KR|]. intros H EH.
  destruct (eigen_mult H EH) as (i & I & ->). 
  assert (OG : on2 G2pt) by exact (proj1 G2_eigen).
  rewrite (pairing_zm_l i G2pt K) by (first [lia|exact G2_eigen|exact O]). rewrite KE.
  rewrite <- (zm2_mul k i G2pt OG). rewrite (pairing_zm_l (k * i) G2pt G1gen), eG_def by (first [nia|exact G2_eigen|exact G1gen_on]).
  symmetry. apply kpw_mul; lia.
Qed.
