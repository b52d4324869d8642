(* A monic sextic over F_q takes a square value, at a point where a given monic quadratic does not
   vanish. The proof is Stepanov's: if G^((q-1)/2) = -1 wherever E is not 0, then X^q - X divides
   E (G^((q-1)/2) + 1); the quotient satisfies a linear differential equation with coefficients of
   small degree, which forces G^3 E^6 to be a square. *)
From Coq Require Import ZArith List Bool Lia Setoid Morphisms Ring.
From Verif Require Import NumT FieldQ Poly.
Import ListNotations.
Open Scope Z_scope.

Definition tw (p : list Fq) : list Fq := pa p p.
#[global] Instance tw_pq : Proper (pq ==> pq) tw.
Proof. intros p r H. unfold tw. rewrite H. reflexivity. Qed.
Lemma pd_tw p : pq (pd (tw p)) (tw (pd p)). Proof. apply pd_pa. Qed.
Lemma bd_tw n p : bd n p -> bd n (tw p). Proof. intros H. apply bd_pa; exact H. Qed.
Lemma bd_psb n p r : bd n p -> bd n r -> bd n (psb p r). Proof. intros H K. apply bd_pa; [exact H|apply bd_po; exact K]. Qed.

Section Sextic.
Variables n e : nat.
Hypothesis ne : n = (2 * e + 1)%nat.
Hypothesis nbig : (32 <= n)%nat.
Hypothesis n0 : nF n = f0.
Hypothesis small : forall m, (0 < m <= 30)%nat -> nF m <> f0.
Variable all : list Fq.
Hypothesis all_nd : NoDup all.
Hypothesis all_len : length all = n.
Hypothesis frob : forall t, fpw t (Z.of_nat n) = t.

Definition M : list Fq := pa (xn n) (po [f0; f1]).
Lemma pm_M p : pq (pm M p) (psb (repeat f0 n ++ p) (f0 :: p)).
Proof.
  unfold M. assert (E : pq (pm (pa (xn n) (po [f0; f1])) p) (psb (pm (xn n) p) (pm [f0; f1] p))) by ring.
  rewrite E, pm_xn, pm_X_l, pm_1. reflexivity.
Qed.
Lemma co_M p i : co (pm M p) (i + n) = fsub (co p i) (co p (i + n - 1)).
Proof.
  rewrite (pm_M p (i + n)%nat). unfold psb. rewrite co_pa, co_po, co_shift. replace (i + n)%nat with (S (i + n - 1)) at 1 by lia. rewrite co_S. ring.
Qed.
Lemma M_bd N p : bd (N + n) (pm M p) -> bd N p.
Proof.
  intros H. assert (D : forall d i, (N <= i)%nat -> (length p <= i + d)%nat -> co p i = f0).
  { induction d as [|d IH]; intros i I L; [apply nth_overflow; lia|].
    pose proof (co_M p i) as C. rewrite (H (i + n)%nat ltac:(lia)), (IH (i + n - 1)%nat ltac:(lia) ltac:(lia)) in C.
    transitivity (fsub (co p i) f0); [ring|symmetry; exact C]. }
  intros i I. apply (D (length p) i I). lia.
Qed.
Lemma M_top N p : bd (S N) p -> co (pm M p) (N + n) = co p N.
Proof. intros H. rewrite co_M, (H (N + n - 1)%nat ltac:(lia)). ring. Qed.
Lemma pd_M : pq (pd M) (po [f1]).
Proof.
  unfold M. rewrite pd_pa, pd_po. assert (X : pq (pd (xn n)) []).
  { intros i. rewrite co_pd, co_xn, co_nil. destruct (Nat.eq_dec (S i) n) as [->|H]; [rewrite n0|]; ring. }
  assert (Y : pq (pd [f0; f1]) [f1]) by (cbn [pd pa]; intros [|[|[|i]]]; unfold co; cbn [nth]; ring). rewrite X, Y. reflexivity.
Qed.
Lemma co_M_n : co M n = f1.
Proof. unfold M. rewrite co_pa, co_po, co_xn. destruct (Nat.eq_dec n n) as [_|C]; [|contradiction]. assert (Z0 : co [f0; f1] n = f0) by (apply nth_overflow; cbn; lia). rewrite Z0. ring. Qed.
Lemma bd_M : bd (S n) M.
Proof. unfold M. intros i I. rewrite co_pa, co_po, co_xn. destruct (Nat.eq_dec i n) as [C|_]; [lia|]. assert (Z0 : co [f0; f1] i = f0) by (apply nth_overflow; cbn; lia). rewrite Z0. ring. Qed.
Lemma M_div p : exists k r, pq p (pa (pm M k) r) /\ bd n r.
Proof.
  induction p as [|a p (k & r & H & B)]; [exists [], []; split; [rewrite pm_nil_r; reflexivity|intros i _; apply co_nil]|].
  set (c := co (a :: r) n). exists (pa [c] (f0 :: k)), (psb (a :: r) (ps c M)). split.
  - assert (E1 : pq (pm M [c]) (ps c M)).
    { rewrite pm_comm. cbn [pm]. rewrite z_nil. apply pa_0r. }
    assert (E2 : pq (pm M (f0 :: k)) (f0 :: pm M k)) by (rewrite pm_comm, pm_X_l, (pm_comm k); reflexivity).
    assert (E3 : pq (pm M (pa [c] (f0 :: k))) (pa (pm M [c]) (pm M (f0 :: k)))) by ring. rewrite E3, E1, E2.
    assert (E4 : pq (a :: p) (pa (f0 :: pm M k) (a :: r))) by (cbn [pa]; apply pq_cons; [ring|exact H]). rewrite E4. ring.
  - intros i I. unfold psb. rewrite co_pa, co_po, co_ps. destruct (Nat.eq_dec i n) as [->|NE].
    + fold c. rewrite co_M_n. ring.
    + rewrite (bd_M i ltac:(lia)). destruct i as [|i]; [lia|]. rewrite co_S, (B i ltac:(lia)). ring.
Qed.
Lemma M_roots t : pe M t = f0.
Proof. unfold M. rewrite pe_pa, pe_po, pe_xn, frob. cbn [pe]. ring. Qed.
Lemma M_divides p : (forall t, pe p t = f0) -> exists k, pq p (pm M k).
Proof.
  intros R. destruct (M_div p) as (k & r & H & B). exists k. assert (Z0 : pq r []).
  { apply (root_bound n r all B all_nd); [rewrite all_len; apply Nat.le_refl|]. intros t _. pose proof (pe_pq _ _ t H) as E.
    rewrite pe_pa, pe_pm, M_roots, R in E. transitivity (fadd (fmul f0 (pe k t)) (pe r t)); [ring|symmetry; exact E]. }
  rewrite H, Z0. apply pa_0r.
Qed.

(* one round *)
Lemma round c A B0 C0 Y0 Y1 : pq (pd c) [] -> pq Y1 (pa (pm A (pd Y0)) (pm B0 Y0)) -> pq (pm M Y1) (pa (pm c (pm A Y0)) C0) ->
  pq (pm M (pa (pm A (pd Y1)) (pm (psb B0 (pd A)) Y1))) (pa (pm (pa c [f1]) (pm A Y1)) (psb (pm A (pd C0)) (pm (psb (pd A) B0) C0))).
Proof.
  intros DC E0 E1. assert (D1 : pq (pd (pm M Y1)) (pd (pa (pm c (pm A Y0)) C0))) by (rewrite E1; reflexivity).
  rewrite pd_pm, pd_M, pd_pa, pd_pm, DC, pd_pm in D1.
  generalize dependent (pd Y1). intros Y1'. generalize dependent (pd Y0). intros Y0' E0 D1.
  revert D1. generalize (pd C0) (pd A). intros C0' A' D1.
  assert (D2 : pq (pm M Y1') (pa Y1 (pa (pm c (pa (pm A' Y0) (pm A Y0'))) C0'))).
  { assert (S : pq (pm M Y1') (pa (pa (pm (po [f1]) Y1) (pm M Y1')) Y1)) by ring. rewrite S, D1. ring. }
  assert (S : pq (pm M (pa (pm A Y1') (pm (psb B0 A') Y1))) (pa (pm A (pm M Y1')) (pm (psb B0 A') (pm M Y1)))) by ring.
  rewrite S, D2, E1, E0. ring.
Qed.

Variables G E : list Fq.
Hypothesis G_bd : bd 7 G. Hypothesis G_top : co G 6 = f1.
Hypothesis E_bd : bd 3 E. Hypothesis E_top : co E 2 = f1.
Hypothesis vanish : forall t, fmul (pe E t) (fadd (fpw (pe G t) (Z.of_nat e)) f1) = f0.

Definition P : list Fq := pw G e.
Definition y : list Fq := pm E (pa P [f1]).
Definition A : list Fq := tw (pm G E).
Definition B : list Fq := psb (pm E (pd G)) (tw (pm G (pd E))).
Definition C : list Fq := pm (pm E E) (pd G).
Lemma two_e : fadd (nF e) (nF e) = fopp f1.
Proof.
  assert (H : nF n = fadd (fadd (nF e) (nF e)) f1).
  { rewrite ne. unfold nF, f1. rewrite <- !mkq_add. f_equal. lia. }
  rewrite n0 in H. transitivity (fsub (fadd (fadd (nF e) (nF e)) f1) f1); [ring|]. rewrite <- H. ring.
Qed.
Lemma ode0 : pq (tw (pm G (pd P))) (po (pm (pd G) P)).
Proof.
  unfold tw, P. rewrite pd_pw, <- ps_add, two_e. intros i. rewrite co_ps, co_po. ring.
Qed.
Lemma pd_1 : pq (pd [f1]) []. Proof. cbn [pd pa]. exact z_nil. Qed.
Lemma ode1 : pq (pa (pm A (pd y)) (pm B y)) C.
Proof.
  unfold y. rewrite pd_pm, pd_pa, pd_1, pa_0r. pose proof ode0 as H. unfold A, B, C, tw in *. revert H.
  generalize (pd P). intros P'. generalize (pd E) (pd G) P. intros E' G' p H.
  assert (S : pq (pa (pm (pa (pm G E) (pm G E)) (pa (pm E' (pa p [f1])) (pm E P'))) (pm (psb (pm E G') (pa (pm G E') (pm G E'))) (pm E (pa p [f1]))))
    (pa (pm (pm E E) (pa (pm G P') (pm G P'))) (pm (pm E E) (pm G' (pa p [f1]))))) by ring.
  rewrite S, H. ring.
Qed.
Lemma y_top : bd (S (6 * e + 2)) y /\ co y (6 * e + 2) = f1.
Proof.
  destruct (top_pw G 6 f1 e G_bd G_top eq_refl) as [PB PT]. fold P in PB, PT.
  assert (HB : bd (S (e * 6)) (pa P [f1])) by (apply bd_pa; [exact PB|intros i I; destruct i as [|i]; [lia|apply co_nil]]).
  assert (HT : co (pa P [f1]) (e * 6) = f1).
  { rewrite co_pa, PT. assert (Z0 : co [f1] (e * 6) = f0) by (apply nth_overflow; cbn [length]; lia). rewrite Z0. ring. }
  destruct (top_pm E 2 (e * 6) (pa P [f1]) E_bd HB) as [YB YT]. replace (6 * e + 2)%nat with (2 + e * 6)%nat by lia. split; [exact YB|].
  unfold y. rewrite YT, E_top, HT. ring.
Qed.
Lemma y_div : exists k, pq y (pm M k) /\ bd (S (2 * n - 1)) k /\ co k (2 * n - 1) = f1.
Proof.
  destruct (M_divides y) as (k & H).
  { intros t. unfold y, P. rewrite pe_pm, pe_pa, pe_pw. cbn [pe]. transitivity (fmul (pe E t) (fadd (fpw (pe G t) (Z.of_nat e)) f1)); [ring|apply vanish]. }
  destruct y_top as [YB YT]. exists k. split; [exact H|]. assert (KB : bd (S (2 * n - 1)) k).
  { apply M_bd. apply (bd_pq _ _ _ H). apply (bd_weak _ _ _ YB). lia. }
  split; [exact KB|]. rewrite <- (M_top _ k KB), <- (H _), <- YT. f_equal. lia.
Qed.

(* degrees of the coefficients *)
Lemma dG : bd 6 (pd G). Proof. apply bd_pd. exact G_bd. Qed.
Lemma dE : bd 2 (pd E). Proof. apply bd_pd. exact E_bd. Qed.
Lemma GE_bd : bd 9 (pm G E). Proof. exact (bd_pm 6 2 G E G_bd E_bd). Qed.
Lemma GE_top : co (pm G E) 8 = f1. Proof. pose proof (co_top 6 2 G E G_bd E_bd) as H. rewrite G_top, E_top in H. change (6 + 2)%nat with 8%nat in H. rewrite H. ring. Qed.
Lemma A_bd : bd 9 A. Proof. apply bd_tw. exact GE_bd. Qed.
Lemma A_top : co A 8 = fadd f1 f1. Proof. unfold A, tw. rewrite co_pa, GE_top. reflexivity. Qed.
Lemma B_bd : bd 8 B. Proof. apply bd_psb; [exact (bd_pm 2 5 E (pd G) E_bd dG)|apply bd_tw; exact (bd_pm 6 1 G (pd E) G_bd dE)]. Qed.
Lemma C_bd : bd 10 C. Proof. exact (bd_pm 4 5 (pm E E) (pd G) (bd_pm 2 2 E E E_bd E_bd) dG). Qed.
Lemma one_bd : bd 1 [f1]. Proof. intros [|i] I; [lia|apply co_nil]. Qed.

Theorem square_sextic : exists V, pq (pm V V) (ps (nF 64) (pm (pm G (pm G G)) (pm (pm E (pm E E)) (pm E (pm E E))))).
Proof.
  destruct y_div as (k & YK & KB & KT).
  pose proof A_bd as AB. pose proof B_bd as BB. pose proof C_bd as CB. pose proof (bd_pd _ _ AB) as A'B. pose proof one_bd as OB.
  (* the first equation *)
  set (W := pa (pm A (pd k)) (pm B k)).
  assert (MW : pq (pm M W) (pa (pm [f1] (pm A k)) C)).
  { pose proof ode1 as O. rewrite YK, pd_pm, pd_M in O. unfold W. revert O. generalize (pd k). intros k' O.
    assert (S : pq (pm M (pa (pm A k') (pm B k))) (pa (pa (pm A (pa (pm (po [f1]) k) (pm M k'))) (pm B (pm M k))) (pm A k))) by ring.
    rewrite S, O. ring. }
  (* the second and the third *)
  pose proof (round [f1] A B C k W pd_1 (reflexivity W) MW) as MV.
  set (V := pa (pm A (pd W)) (pm (psb B (pd A)) W)) in *. set (C1 := psb (pm A (pd C)) (pm (psb (pd A) B) C)) in *.
  assert (D2 : pq (pd (pa [f1] [f1])) []) by (rewrite pd_pa, pd_1; reflexivity).
  pose proof (round (pa [f1] [f1]) A (psb B (pd A)) C1 W V D2 (reflexivity V) MV) as MU.
  set (U := pa (pm A (pd V)) (pm (psb (psb B (pd A)) (pd A)) V)) in *.
  set (C2 := psb (pm A (pd C1)) (pm (psb (pd A) (psb B (pd A))) C1)) in *.
  (* degrees *)
  assert (AkB : bd (S (8 + (2 * n - 1))) (pm A k)) by (apply bd_pm; assumption).
  assert (AkT : co (pm A k) (8 + (2 * n - 1)) = fadd f1 f1) by (rewrite (co_top _ _ _ _ AB KB), KT, A_top; ring).
  assert (MWe : pq (pm M W) (pa (pm A k) C)) by (rewrite MW, pm_1; reflexivity).
  assert (WB : bd (S (n + 7)) W).
  { apply M_bd. apply (bd_pq _ (pa (pm A k) C)); [symmetry; exact MWe|].
    apply bd_pa; [apply (bd_weak _ _ _ AkB); lia|apply (bd_weak _ _ _ CB); lia]. }
  assert (WT : co W (n + 7) = fadd f1 f1).
  { rewrite <- (M_top _ W WB), (MWe _), co_pa. rewrite (CB (n + 7 + n)%nat ltac:(lia)), <- AkT.
    replace (8 + (2 * n - 1))%nat with (n + 7 + n)%nat by lia. ring. }
  assert (C1B : bd 17 C1).
  { unfold C1. apply bd_psb; [exact (bd_pm 8 8 A (pd C) AB (bd_pd _ _ CB))|exact (bd_pm 7 9 (psb (pd A) B) C (bd_psb 8 _ _ A'B BB) CB)]. }
  assert (AWB : bd (S (8 + (n + 7))) (pm A W)) by (apply bd_pm; assumption).
  assert (AWT : co (pm A W) (8 + (n + 7)) = fadd (fadd f1 f1) (fadd f1 f1)) by (rewrite (co_top _ _ _ _ AB WB), WT, A_top; ring).
  assert (MVe : pq (pm M V) (pa (tw (pm A W)) C1)).
  { rewrite MV. unfold tw. ring. }
  assert (VB : bd 16 V).
  { apply M_bd. apply (bd_pq _ (pa (tw (pm A W)) C1)); [symmetry; exact MVe|].
    apply bd_pa; [apply bd_tw, (bd_weak _ _ _ AWB); lia|apply (bd_weak _ _ _ C1B); lia]. }
  assert (VT : co V 15 = nF 8).
  { rewrite <- (M_top 15 V VB), (MVe _), co_pa. unfold tw. rewrite co_pa. rewrite (C1B (15 + n)%nat ltac:(lia)).
    replace (15 + n)%nat with (8 + (n + 7))%nat by lia. rewrite AWT, !nF_S, nF_0. ring. }
  assert (C2B : bd 24 C2).
  { unfold C2. apply bd_psb; [exact (bd_pm 8 15 A (pd C1) AB (bd_pd _ _ C1B))|].
    exact (bd_pm 7 16 _ C1 (bd_psb 8 _ _ A'B (bd_psb 8 _ _ BB A'B)) C1B). }
  assert (U0 : pq U []).
  { apply bd_0. apply M_bd. apply (bd_weak 24); [|lia].
    apply (bd_pq _ (pa (pm (pa (pa [f1] [f1]) [f1]) (pm A V)) C2)); [symmetry; exact MU|].
    apply bd_pa; [|exact C2B]. apply (bd_pm 0 23); [apply bd_pa; [apply bd_pa|]; exact OB|exact (bd_pm 8 15 A V AB VB)]. }
  (* V^2 satisfies the equation of G^3 E^6 *)
  exists V. set (Y0 := pm (pm G (pm G G)) (pm (pm E (pm E E)) (pm E (pm E E)))).
  set (Q := pa (pm (tw (pm (pd G) E)) (pa (pa [f1] [f1]) [f1])) (pm (tw (pm G (pd E))) (pa (tw (pa (pa [f1] [f1]) [f1])) []))).
  set (R := psb (pm V V) (ps (nF 64) Y0)).
  assert (RE : pq (pm A (pd R)) (pm Q R)).
  { unfold R, psb. rewrite pd_pa, pd_po, pd_ps.
    assert (DV : pq (pm A (pd (pm V V))) (pm Q (pm V V))).
    { rewrite pd_pm. unfold U in U0.
      assert (S1 : pq (pm A (pd V)) (pm (psb (tw (pd A)) B) V)).
      { assert (S : pq (pm A (pd V)) (pa (pa (pm A (pd V)) (pm (psb (psb B (pd A)) (pd A)) V)) (pm (psb (tw (pd A)) B) V))) by (unfold tw; ring).
        rewrite S, U0. reflexivity. }
      assert (S2 : pq (pm A (pa (pm (pd V) V) (pm V (pd V)))) (tw (pm (pm A (pd V)) V))) by (unfold tw; ring).
      rewrite S2, S1. unfold A, B, Q. rewrite pd_tw, pd_pm. unfold tw. ring. }
    assert (DY : pq (pm A (pd Y0)) (pm Q Y0)).
    { unfold Y0. rewrite !pd_pm. unfold A, Q, tw. ring. }
    assert (S : pq (pm A (pa (pd (pm V V)) (po (ps (nF 64) (pd Y0))))) (pa (pm A (pd (pm V V))) (po (ps (nF 64) (pm A (pd Y0)))))).
    { rewrite <- !pm_ps_l. rewrite (pm_comm (ps (nF 64) A)), <- (pm_1 (pd Y0)) at 1. rewrite <- pm_ps_l, (pm_comm A).
      assert (S' : pq (ps (nF 64) A) (pm (ps (nF 64) [f1]) A)) by (rewrite pm_ps_l, pm_1; reflexivity). rewrite S'. ring. }
    rewrite S, DV, DY. 
    assert (S' : forall x z, pq (ps (nF 64) (pm x z)) (pm x (ps (nF 64) z))) by (intros x z; rewrite (pm_comm x z), <- pm_ps_l; apply pm_comm).
    rewrite S'. ring. }
  assert (QB : bd 8 Q).
  { unfold Q. apply bd_pa.
    - apply (bd_pm 7 0); [apply bd_tw; exact (bd_pm 5 2 (pd G) E dG E_bd)|apply bd_pa; [apply bd_pa|]; exact OB].
    - apply (bd_pm 7 0); [apply bd_tw; exact (bd_pm 6 1 G (pd E) G_bd dE)|apply bd_pa; [apply bd_tw; apply bd_pa; [apply bd_pa|]; exact OB|intros i _; apply co_nil]]. }
  assert (QT : co Q 7 = nF 60).
  { pose proof (co_top 5 2 (pd G) E dG E_bd) as T1. pose proof (co_top 6 1 G (pd E) G_bd dE) as T2.
    rewrite co_pd, G_top, E_top in T1. rewrite co_pd, G_top, E_top in T2. change (5 + 2)%nat with 7%nat in T1. change (6 + 1)%nat with 7%nat in T2.
    assert (X : pq Q (pa (ps (nF 6) (pm (pd G) E)) (ps (nF 12) (pm G (pd E))))).
    { unfold Q, tw. intros i. rewrite !co_pa, !co_ps. rewrite !nF_S, nF_0.
      assert (K1 : forall x, pq (pm x (pa (pa [f1] [f1]) [f1])) (pa (pa x x) x)) by (intros x; ring). rewrite (K1 _ _), !co_pa.
      assert (K2 : forall x, pq (pm x (pa (pa (pa (pa [f1] [f1]) [f1]) (pa (pa [f1] [f1]) [f1])) [])) (pa (pa (pa x x) x) (pa (pa x x) x))) by (intros x; ring).
      rewrite (K2 _ _), !co_pa. ring. }
    rewrite (X _), co_pa, !co_ps, T1, T2, !nF_S, nF_0. ring. }
  assert (RB : bd 30 R).
  { intros i I. unfold R, psb. rewrite co_pa, co_po, co_ps.
    pose proof (top_pm V 15 15 V VB VB) as [VVB VVT]. rewrite VT in VVT. change (15 + 15)%nat with 30%nat in VVB, VVT.
    pose proof (top_pm G 6 6 G G_bd G_bd) as [G2B G2T]. pose proof (top_pm G 6 12 (pm G G) G_bd G2B) as [G3B G3T].
    pose proof (top_pm E 2 2 E E_bd E_bd) as [E2B E2T]. pose proof (top_pm E 2 4 (pm E E) E_bd E2B) as [E3B E3T].
    pose proof (top_pm _ 6 6 _ E3B E3B) as [E6B E6T]. pose proof (top_pm _ 18 12 _ G3B E6B) as [YB YT]. fold Y0 in YB, YT.
    cbn [Nat.add] in G2B, G2T, G3B, G3T, E2B, E2T, E3B, E3T, E6B, E6T, YB, YT. rewrite E6T, G3T, G2T, E3T, E2T, G_top, E_top in YT.
    destruct (Nat.eq_dec i 30) as [->|NE].
    - rewrite VVT, YT, !nF_S, nF_0. ring.
    - rewrite (VVB i ltac:(lia)), (YB i ltac:(lia)). ring. }
  assert (RZ : forall m, (m <= 30)%nat -> bd (30 - m) R).
  { induction m as [|m IH]; intros ML; [exact RB|]. specialize (IH ltac:(lia)). set (j := (30 - S m)%nat). replace (30 - m)%nat with (S j) in IH by (unfold j; lia).
    assert (J : (j < 30)%nat) by (unfold j; lia). clearbody j.
    intros i I. destruct (Nat.eq_dec i j) as [->|NE]; [|apply IH; lia].
    pose proof (co_top 7 j Q R QB IH) as TQ. rewrite QT, <- (RE _) in TQ.
    assert (TA : co (pm A (pd R)) (7 + j) = fmul (fadd f1 f1) (fmul (nF j) (co R j))).
    { destruct j as [|j].
      - assert (DZ : pq (pd R) []) by (intros i'; rewrite co_pd, co_nil, (IH (S i') ltac:(lia)); ring).
        assert (PZ : pq (pm A (pd R)) []) by (rewrite DZ; apply pm_nil_r). rewrite (PZ _), co_nil, nF_0. ring.
      - pose proof (co_top 8 j A (pd R) AB (bd_pd _ _ IH)) as T. rewrite A_top, co_pd in T. replace (7 + S j)%nat with (8 + j)%nat by lia. exact T. }
    rewrite TA in TQ. assert (K : nF 60 = fadd (fadd (nF (30 - j)) (nF j)) (fadd (nF (30 - j)) (nF j))).
    { unfold nF. rewrite <- !mkq_add. f_equal. lia. }
    rewrite K in TQ. assert (K2 : fmul (nF 2) (fmul (nF (30 - j)) (co R j)) = f0).
    { transitivity (fsub (fmul (fadd (fadd (nF (30 - j)) (nF j)) (fadd (nF (30 - j)) (nF j))) (co R j)) (fmul (fadd f1 f1) (fmul (nF j) (co R j)))).
      - rewrite !nF_S, nF_0. ring.
      - rewrite TQ. ring. }
    apply fq_integral in K2. destruct K2 as [K2|K2]; [exfalso; exact (small 2 ltac:(lia) K2)|].
    apply fq_integral in K2. destruct K2 as [K2|K2]; [exfalso; exact (small (30 - j)%nat ltac:(lia) K2)|exact K2]. }
  specialize (RZ 30%nat (Nat.le_refl _)). change (30 - 30)%nat with 0%nat in RZ. apply bd_0 in RZ.
  intros i. pose proof (RZ i) as Z0. unfold R, psb in Z0. rewrite co_pa, co_po, co_nil in Z0.
  transitivity (fadd (fadd (co (pm V V) i) (fopp (co (ps (nF 64) Y0) i))) (co (ps (nF 64) Y0) i)); [ring|]. rewrite Z0. ring.
Qed.
End Sextic.
