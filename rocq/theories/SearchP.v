(* The search for a curve point ends on every input: among the candidates (u + k, w) there is one
   whose x^3 + 4 (1 + i) has a root that FP2::sqrt finds. *)
From Coq Require Import ZArith List Bool Lia Znumtheory Field.
From Verif Require Import NumT FieldQ FieldQ2 FpP2 JacobiM Sqrt2P KeysP Ecp2C MapP SigsP FinGrp Poly SextP.
Import ListNotations.
Open Scope Z_scope.

(* all the elements of F_q *)
Definition FL : list Fq := map mkq (zr q381).
Lemma FL_in x : In x FL.
Proof. apply in_map_iff. exists (fv x). split; [apply mkq_fv|]. apply zr_in. apply fv_range. Qed.
Lemma FL_len : length FL = Z.to_nat q381.
Proof. pose proof q381_pos. unfold FL. rewrite map_length. apply Nat2Z.inj. rewrite zr_len, Z2Nat.id by lia. reflexivity. Qed.
Lemma FL_nd : NoDup FL.
Proof.
  unfold FL. apply map_nodup; [apply zr_nodup|]. intros a b A B E. apply zr_in in A. apply zr_in in B. apply mkq_inj in E.
  rewrite !Z.mod_small in E by assumption. exact E.
Qed.
Lemma is_sq_dec x : is_sq x \/ ~ is_sq x.
Proof. destruct (Fq_dec x f0) as [->|X]; [left; exists f0; ring|apply sq_dec; exact X]. Qed.

(* a non-square has (q-1)/2-th power -1 *)
Lemma nonsq_pow_gen n h k x : n = q381 -> n = 2 * h + 1 -> h = 2 * k + 1 -> 0 <= k -> ~ is_sq x -> fpw x h = fopp f1.
Proof.
  intros NQ NH HK K NS. destruct (sq_cases x) as [S|[z Zz]]; [contradiction|].
  assert (X0 : x <> f0) by (intros ->; apply NS; exists f0; ring).
  assert (Z0 : z <> f0). { intros ->. apply X0. transitivity (fopp (fopp x)); [ring|]. rewrite Zz. ring. }
  assert (E : x = fmul (fopp f1) (fmul z z)) by (rewrite <- Zz; ring). rewrite E, fpw_mul_base.
  assert (P : fpw (fmul z z) h = f1).
  { rewrite fpw_mul_base, <- fpw_add by lia. replace (h + h) with (q381 - 1) by lia. apply fpw_fermat, Z0. }
  rewrite P, HK, fpw_opp1_odd by lia. ring.
Qed.
Definition hq : nat := Z.to_nat ((q381 - 1) / 2).
Lemma hq_q : q381 = 2 * Z.of_nat hq + 1.
Proof. pose proof q381_mod4' as M. pose proof q381_pos as P. unfold hq. rewrite Z2Nat.id by (apply Z.div_pos; lia). mlia. Qed.
Lemma nonsq_pow x : ~ is_sq x -> fpw x (Z.of_nat hq) = fopp f1.
Proof.
  pose proof hq_q as H. pose proof q381_mod4' as M. pose proof q381_pos as P.
  apply (nonsq_pow_gen q381 (Z.of_nat hq) (q381 / 4)); [reflexivity|exact H| |apply Z.div_pos; lia]. mlia.
Qed.
Lemma frob_q t : fpw t q381 = t.
Proof.
  destruct (Fq_dec t f0) as [->|T].
  - pose proof q381_pos as P. replace q381 with (1 + (q381 - 1)) by lia. rewrite fpw_add, fpw_1 by lia. ring.
  - replace q381 with (1 + (q381 - 1)) by lia. pose proof q381_pos. rewrite fpw_add, fpw_1, fpw_fermat by (lia || exact T). ring.
Qed.
Lemma nF_small m : (0 < m <= 64)%nat -> nF m <> f0.
Proof.
  intros H E. unfold nF in E. change f0 with (mkq 0) in E. apply mkq_inj in E. assert (Q : 64 < q381) by (vm_compute; reflexivity).
  rewrite Z.mod_0_l, Z.mod_small in E by lia. lia.
Qed.

Lemma quad_value E : bd 3 E -> co E 2 = f1 -> exists t, pe E t <> f0.
Proof.
  intros B T. assert (N1 : f1 <> f0) by (exact (nF_small 1 ltac:(lia))).
  destruct (Fq_dec (pe E (nF 0)) f0) as [E0|E0]; [|exists (nF 0); exact E0].
  destruct (Fq_dec (pe E (nF 1)) f0) as [E1|E1]; [|exists (nF 1); exact E1].
  destruct (Fq_dec (pe E (nF 2)) f0) as [E2|E2]; [|exists (nF 2); exact E2].
  exfalso. assert (Z0 : pq E []).
  { apply (root_bound 3 E [nF 0; nF 1; nF 2] B); [|apply Nat.le_refl|].
    - assert (D : forall a b, (a < b <= 64)%nat -> nF a <> nF b).
      { intros a b L H. apply (nF_small (b - a)%nat ltac:(lia)). transitivity (fsub (nF b) (nF a)); [|rewrite H; ring].
        unfold nF. rewrite <- mkq_sub. f_equal. lia. }
      apply NoDup_cons; [|apply NoDup_cons; [|apply NoDup_cons; [|apply NoDup_nil]]]; cbn [In].
      + intros [H|[H|[]]]; [exact (D 0%nat 1%nat ltac:(lia) (eq_sym H))|exact (D 0%nat 2%nat ltac:(lia) (eq_sym H))].
      + intros [H|[]]. exact (D 1%nat 2%nat ltac:(lia) (eq_sym H)).
      + intros [].
    - intros t [<-|[<-|[<-|[]]]]; assumption. }
  apply N1. rewrite <- T, (Z0 _). apply co_nil.
Qed.

Lemma q32 : 32 <= q381. Proof. vm_compute. discriminate. Qed.
Lemma sextic_gen n e qn : Z.of_nat n = qn -> qn = q381 -> Z.of_nat e = Z.of_nat hq -> forall G E, bd 7 G -> co G 6 = f1 -> bd 3 E -> co E 2 = f1 ->
  (forall t, In t FL -> pe E t = f0 \/ ~ is_sq (pe G t)) ->
  exists V, pq (pm V V) (ps (nF 64) (pm (pm G (pm G G)) (pm (pm E (pm E E)) (pm E (pm E E))))).
Proof.
  intros NZ QE EH G E GB GT EB ET N. pose proof hq_q as HQ. rewrite <- QE, <- EH in HQ. pose proof q32 as Q32. rewrite <- QE in Q32.
  assert (A1 : n = (2 * e + 1)%nat) by lia.
  assert (A2 : (32 <= n)%nat) by lia.
  assert (A3 : nF n = f0).
  { unfold nF. rewrite NZ, QE. change f0 with (mkq 0). apply mkq_eq. pose proof q381_pos. rewrite Z.mod_same, Z.mod_0_l by lia. reflexivity. }
  assert (A4 : forall m, (0 < m <= 30)%nat -> nF m <> f0) by (intros m M; apply nF_small; lia).
  assert (A5 : length FL = n) by (apply Nat2Z.inj; rewrite FL_len, NZ, QE; apply Z2Nat.id; pose proof q381_pos; lia).
  assert (A6 : forall t, fpw t (Z.of_nat n) = t) by (intros t; rewrite NZ, QE; apply frob_q).
  assert (A7 : forall t, fmul (pe E t) (fadd (fpw (pe G t) (Z.of_nat e)) f1) = f0).
  { intros t. destruct (N t (FL_in t)) as [Z0|S]; [rewrite Z0; ring|]. rewrite EH, (nonsq_pow _ S). ring. }
  exact (square_sextic n e A1 A2 A3 A4 FL FL_nd A5 A6 G E GB GT EB ET A7).
Qed.
Theorem sextic_square G E : bd 7 G -> co G 6 = f1 -> bd 3 E -> co E 2 = f1 -> exists t, pe E t <> f0 /\ is_sq (pe G t).
Proof.
  intros GB GT EB ET.
  assert (D : forall l, (exists t, pe E t <> f0 /\ is_sq (pe G t)) \/ (forall t, In t l -> pe E t = f0 \/ ~ is_sq (pe G t))).
  { induction l as [|t l IH]; [right; intros t []|]. destruct IH as [IH|IH]; [left; exact IH|].
    destruct (Fq_dec (pe E t) f0) as [Z0|Z0]; [right; intros s [<-|S]; [left; exact Z0|apply IH; exact S]|].
    destruct (is_sq_dec (pe G t)) as [S|S]; [left; exists t; split; assumption|].
    right. intros s [<-|I]; [right; exact S|apply IH; exact I]. }
  destruct (D FL) as [X|N]; [exact X|exfalso].
  destruct (sextic_gen (Z.to_nat q381) hq q381 (Z2Nat.id _ (Z.lt_le_incl _ _ q381_pos)) eq_refl eq_refl G E GB GT EB ET N) as (V & HV).
  destruct (quad_value E EB ET) as (t & T). destruct (N t (FL_in t)) as [Z0|S]; [contradiction|]. apply S.
  pose proof (pe_pq _ _ t HV) as P. rewrite pe_ps, !pe_pm in P.
  assert (G0 : pe G t <> f0) by (intros Z0; apply S; rewrite Z0; exists f0; ring).
  assert (N8 : nF 64 = fmul (nF 8) (nF 8)) by (unfold nF; rewrite <- mkq_mul; reflexivity).
  pose proof (nF_small 8 ltac:(lia)) as E8. rewrite N8 in P. clear - P T G0 E8. revert P T G0 E8.
  generalize (pe V t) (pe G t) (pe E t) (nF 8). intros v g d n P T G0 E8.
  exists (fdiv v (fmul (fmul n g) (fmul d (fmul d d)))).
  transitivity (fdiv (fmul v v) (fmul (fmul (fmul n g) (fmul d (fmul d d))) (fmul (fmul n g) (fmul d (fmul d d))))); [|field; repeat split; assumption].
  rewrite P. field. repeat split; assumption.
Qed.

(* a norm that is a square, of an element that is not real *)
Lemma norm_sq2 a b : b <> f0 -> is_sq (gnorm (a, b)) -> is_sq2 (a, b).
Proof.
  intros B0 [w W]. unfold gnorm in W. cbn [fst snd] in W. symmetry in W. pose proof (sqrt2_cand a b w W) as C. pose proof ftwo_nz as T.
  set (s := fdiv (fadd a w) ftwo) in *. set (d := fdiv (fsub a w) ftwo) in *. set (h := fdiv b ftwo) in *.
  assert (H0 : h <> f0).
  { intros E. apply B0. transitivity (fmul ftwo h); [|rewrite E; ring]. unfold h. clear - T. set (t := ftwo) in *. clearbody t. field. exact T. }
  assert (HH : fmul h h <> f0) by (intros E; apply fq_integral in E; destruct E; contradiction).
  assert (SD : fmul s d <> f0) by (rewrite C; intros E; apply fopp_eq0 in E; contradiction).
  assert (S0 : s <> f0) by (intros E; apply SD; rewrite E; ring).
  assert (D0 : d <> f0) by (intros E; apply SD; rewrite E; ring).
  destruct (sq_cases s) as [[r R]|Q].
  - exists (r, fmul b (finv (fadd r r))). symmetry. apply (sqrt2_root a b w r s W eq_refl S0). symmetry. exact R.
  - assert (SD2 : is_sq d).
    { apply (sq_div_r d (fopp s)); [intros E; apply fopp_eq0 in E; contradiction|exact Q|]. exists h.
      transitivity (fopp (fmul s d)); [ring|]. rewrite C. ring. }
    destruct SD2 as [r R]. exists (r, fmul b (finv (fadd r r))). symmetry.
    assert (W' : fmul (fopp w) (fopp w) = fadd (fmul a a) (fmul b b)) by (rewrite <- W; ring).
    assert (DE : d = fdiv (fadd a (fopp w)) ftwo).
    { unfold d. f_equal. ring. }
    apply (sqrt2_root a b (fopp w) r d W' DE D0). symmetry. exact R.
Qed.

(* real and imaginary part of (t + w i)^3 + 4 (1 + i), as polynomials in t *)
Definition fr : Fq := mkq 4.
Definition re3 (w : Fq) : list Fq := [fr; fopp (fmul (nF 3) (fmul w w)); f0; f1].
Definition im3 (w : Fq) : list Fq := [fsub fr (fmul w (fmul w w)); f0; fmul (nF 3) w].
Lemma rhs2_re t w : fst (rhs2 (t, w)) = pe (re3 w) t.
Proof. unfold rhs2, gb, gadd, gmul, re3, fr. cbn [fst snd pe]. rewrite !nF_S, nF_0. ring. Qed.
Lemma rhs2_im t w : snd (rhs2 (t, w)) = pe (im3 w) t.
Proof. unfold rhs2, gb, gadd, gmul, im3, fr. cbn [fst snd pe]. rewrite !nF_S, nF_0. ring. Qed.
Definition norm6 (w : Fq) : list Fq := pa (pm (re3 w) (re3 w)) (pm (im3 w) (im3 w)).
Lemma bd_list p n : (length p <= n)%nat -> bd n p.
Proof. intros L i I. apply nth_overflow. lia. Qed.
Lemma norm6_bd w : bd 7 (norm6 w).
Proof.
  apply bd_pa; [apply (bd_pm 3 3); apply bd_list; cbn; lia|]. apply (bd_weak 5); [|lia]. apply (bd_pm 2 2); apply bd_list; cbn; lia.
Qed.
Lemma norm6_top w : co (norm6 w) 6 = f1.
Proof.
  unfold norm6. rewrite co_pa. assert (R : bd 4 (re3 w)) by (apply bd_list; cbn; lia). assert (I : bd 3 (im3 w)) by (apply bd_list; cbn; lia).
  pose proof (co_top 3 3 (re3 w) (re3 w) R R) as T. cbn [Nat.add] in T. rewrite T.
  rewrite (bd_pm 2 2 (im3 w) (im3 w) I I 6%nat) by (cbn; lia). unfold re3, co. cbn [nth]. ring.
Qed.
Definition excl (w : Fq) : list Fq := if Fq_dec w f0 then [f0; f0; f1] else [fdiv (fsub fr (fmul w (fmul w w))) (fmul (nF 3) w); f0; f1].
Lemma excl_im w t : pe (excl w) t <> f0 -> pe (im3 w) t <> f0.
Proof.
  unfold excl, im3. pose proof (nF_small 3 ltac:(lia)) as N3. destruct (Fq_dec w f0) as [->|W]; intros H C.
  - assert (F4 : fr = nF 4) by reflexivity. apply (nF_small 4 ltac:(lia)). rewrite <- F4, <- C. cbn [pe]. ring.
  - apply H. cbn [pe] in *. assert (K : fmul (nF 3) w <> f0) by (intros E; apply fq_integral in E; destruct E; contradiction).
    revert C K. generalize (fmul (nF 3) w) (fsub fr (fmul w (fmul w w))). intros a b C K.
    transitivity (fdiv (fadd b (fmul t (fadd f0 (fmul t (fadd a (fmul t f0)))))) a); [field; exact K|]. rewrite C. field. exact K.
Qed.
Theorem search_hits w : exists t, curve_x (t, w).
Proof.
  destruct (sextic_square (norm6 w) (excl w)) as (t & T & S).
  - apply norm6_bd.
  - apply norm6_top.
  - apply bd_list. unfold excl. destruct (Fq_dec w f0); cbn; lia.
  - unfold excl. destruct (Fq_dec w f0); reflexivity.
  - exists t. apply curve_x_root. apply excl_im in T. unfold norm6 in S. rewrite pe_pa, !pe_pm, <- rhs2_re, <- rhs2_im in S. rewrite <- rhs2_im in T.
    destruct (rhs2 (t, w)) as [a b]. cbn [fst snd] in S, T. split; [apply norm_sq2; assumption|intros Z0; cbn [snd] in Z0; contradiction].
Qed.
Theorem search_terminates u w : exists k : nat, curve_x (mkq (u + Z.of_nat k), mkq w).
Proof.
  destruct (search_hits (mkq w)) as (t & T). exists (Z.to_nat ((fv t - u) mod q381)). pose proof q381_pos as Q.
  pose proof (Z.mod_pos_bound (fv t - u) q381 ltac:(lia)) as B. rewrite Z2Nat.id by lia.
  assert (E : mkq (u + (fv t - u) mod q381) = t); [|rewrite E; exact T].
  rewrite <- (mkq_fv t) at 2. apply mkq_eq. rewrite Zplus_mod_idemp_r. f_equal. ring.
Qed.
Theorem first_x_exists u w : exists k, first_x u w k.
Proof.
  destruct (search_terminates u w) as (k & K).
  assert (D : forall n, (exists k, first_x u w k) \/ (forall k, (k < n)%nat -> ~ curve_x (mkq (u + Z.of_nat k), mkq w))).
  { induction n as [|n [F|N]]; [right; intros j J; inversion J|left; exact F|].
    destruct (curve_x_dec (mkq (u + Z.of_nat n), mkq w)) as [C|C]; [left; exists n; split; [exact C|exact N]|].
    right. intros j J. destruct (Nat.eq_dec j n) as [->|NE]; [exact C|apply N; lia]. }
  destruct (D (S k)) as [F|N]; [exact F|]. exfalso. apply (N k); [lia|exact K].
Qed.
