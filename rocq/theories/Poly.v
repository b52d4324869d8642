(* Polynomials over F_q as coefficient lists, up to trailing zeros: ring, derivative, degree and
   the number of roots. *)
From Coq Require Import ZArith List Bool Lia Setoid Morphisms Ring.
From Verif Require Import NumT FieldQ.
Import ListNotations.
Open Scope Z_scope.

Definition co (p : list Fq) (i : nat) : Fq := nth i p f0.
Arguments co p i%nat_scope.
Definition pq (p r : list Fq) : Prop := forall i, co p i = co r i.
#[global] Instance pq_equiv : Equivalence pq.
Proof. split; [intros p i; reflexivity|intros p r H i; symmetry; apply H|intros p r s H K i; rewrite H; apply K]. Qed.
Lemma co_nil i : co [] i = f0. Proof. destruct i; reflexivity. Qed.
Lemma co_0 a p : co (a :: p) 0 = a. Proof. reflexivity. Qed.
Lemma co_S a p i : co (a :: p) (S i) = co p i. Proof. reflexivity. Qed.
Lemma pq_cons a b p r : a = b -> pq p r -> pq (a :: p) (b :: r).
Proof. intros -> H [|i]; [reflexivity|apply H]. Qed.
Lemma pq_tl a b p r : pq (a :: p) (b :: r) -> a = b /\ pq p r.
Proof. intros H. split; [exact (H O)|intros i; exact (H (S i))]. Qed.
Lemma pq_nil_tl a p : pq (a :: p) [] -> a = f0 /\ pq p [].
Proof. intros H. split; [exact (H O)|intros i; rewrite co_nil; exact (H (S i))]. Qed.
#[global] Instance cons_pq a : Proper (pq ==> pq) (cons a).
Proof. intros p r H. apply pq_cons; [reflexivity|exact H]. Qed.

Fixpoint pa (p r : list Fq) : list Fq := match p, r with
  | [], _ => r | _, [] => p | a :: p', b :: r' => fadd a b :: pa p' r' end.
Definition ps (a : Fq) (p : list Fq) : list Fq := map (fmul a) p.
Definition po (p : list Fq) : list Fq := map fopp p.
Fixpoint pm (p r : list Fq) : list Fq := match p with [] => [] | a :: p' => pa (ps a r) (f0 :: pm p' r) end.
Fixpoint pd (p : list Fq) : list Fq := match p with [] => [] | a :: p' => pa p' (f0 :: pd p') end.
Fixpoint pe (p : list Fq) (t : Fq) : Fq := match p with [] => f0 | a :: p' => fadd a (fmul t (pe p' t)) end.

Lemma co_pa p : forall r i, co (pa p r) i = fadd (co p i) (co r i).
Proof.
  induction p as [|a p IH]; intros r i; [cbn [pa]; rewrite co_nil; ring|].
  destruct r as [|b r]; [cbn [pa]; rewrite co_nil; ring|]. destruct i as [|i]; [reflexivity|]. cbn [pa]. rewrite !co_S. apply IH.
Qed.
Lemma co_ps a p : forall i, co (ps a p) i = fmul a (co p i).
Proof. induction p as [|b p IH]; intros i; [cbn [ps map]; rewrite co_nil; ring|]. destruct i as [|i]; [reflexivity|exact (IH i)]. Qed.
Lemma co_po p : forall i, co (po p) i = fopp (co p i).
Proof. induction p as [|b p IH]; intros i; [cbn [po map]; rewrite co_nil; ring|]. destruct i as [|i]; [reflexivity|exact (IH i)]. Qed.
#[global] Instance pa_pq : Proper (pq ==> pq ==> pq) pa.
Proof. intros p p' H r r' K i. rewrite !co_pa, (H i), (K i). reflexivity. Qed.
#[global] Instance ps_pq a : Proper (pq ==> pq) (ps a).
Proof. intros p p' H i. rewrite !co_ps, (H i). reflexivity. Qed.
#[global] Instance po_pq : Proper (pq ==> pq) po.
Proof. intros p p' H i. rewrite !co_po, (H i). reflexivity. Qed.
Ltac pco := intros ?i; rewrite ?co_pa, ?co_ps, ?co_po, ?co_pa, ?co_ps, ?co_po, ?co_pa, ?co_ps, ?co_po, ?co_nil; ring.
Lemma pa_comm p r : pq (pa p r) (pa r p). Proof. intros i. rewrite !co_pa. ring. Qed.
Lemma pa_assoc p r s : pq (pa p (pa r s)) (pa (pa p r) s). Proof. intros i. rewrite !co_pa. ring. Qed.
Lemma pa_0 p : pq (pa [] p) p. Proof. reflexivity. Qed.
Lemma pa_0r p : pq (pa p []) p. Proof. intros i. rewrite co_pa, co_nil. ring. Qed.
Lemma pa_opp p : pq (pa p (po p)) []. Proof. intros i. rewrite co_pa, co_po, co_nil. ring. Qed.
Lemma ps_pa a p r : pq (ps a (pa p r)) (pa (ps a p) (ps a r)). Proof. intros i. rewrite co_ps, !co_pa, !co_ps. ring. Qed.
Lemma ps_add a b p : pq (ps (fadd a b) p) (pa (ps a p) (ps b p)). Proof. intros i. rewrite co_pa, !co_ps. ring. Qed.
Lemma ps_ps a b p : pq (ps a (ps b p)) (ps (fmul a b) p). Proof. intros i. rewrite !co_ps. ring. Qed.
Lemma ps_0 p : pq (ps f0 p) []. Proof. intros i. rewrite co_ps, co_nil. ring. Qed.
Lemma ps_1 p : pq (ps f1 p) p. Proof. intros i. rewrite co_ps. ring. Qed.
Lemma z_nil : pq [f0] []. Proof. intros [|[|i]]; reflexivity. Qed.
Lemma X_pa p r : pq (f0 :: pa p r) (pa (f0 :: p) (f0 :: r)).
Proof. cbn [pa]. apply pq_cons; [ring|reflexivity]. Qed.
Lemma X_ps a p : pq (ps a (f0 :: p)) (f0 :: ps a p).
Proof. cbn [ps map]. apply pq_cons; [ring|reflexivity]. Qed.
Lemma pa4 a b c d : pq (pa (pa a b) (pa c d)) (pa (pa a c) (pa b d)).
Proof. intros i. rewrite !co_pa. ring. Qed.

Lemma pm_nil_r p : pq (pm p []) [].
Proof. induction p as [|a p IH]; [reflexivity|]. cbn [pm ps map pa]. rewrite IH. exact z_nil. Qed.
Lemma pm_cons_r p b r : pq (pm p (b :: r)) (pa (ps b p) (f0 :: pm p r)).
Proof.
  induction p as [|a p IH]; [cbn [pm ps map pa]; symmetry; exact z_nil|].
  cbn [pm ps map pa]. apply pq_cons; [ring|]. fold (ps a r) (ps b p). rewrite IH, !pa_assoc, (pa_comm (ps a r)). reflexivity.
Qed.
Lemma pm_comm p r : pq (pm p r) (pm r p).
Proof.
  revert r. induction p as [|a p IH]; intros r; [rewrite pm_nil_r; reflexivity|]. rewrite pm_cons_r. cbn [pm]. rewrite IH. reflexivity.
Qed.
Lemma pm_zero p r : pq p [] -> pq (pm p r) [].
Proof.
  revert r. induction p as [|a p IH]; intros r H; [reflexivity|]. apply pq_nil_tl in H. destruct H as [-> H].
  cbn [pm]. rewrite ps_0, (IH r H). exact z_nil.
Qed.
Lemma pm_pq_l p : forall p' r, pq p p' -> pq (pm p r) (pm p' r).
Proof.
  induction p as [|a p IH]; intros p' r H.
  - symmetry. apply pm_zero. symmetry. exact H.
  - destruct p' as [|b p']; [apply pm_zero; exact H|]. apply pq_tl in H. destruct H as [-> H]. cbn [pm]. rewrite (IH _ r H). reflexivity.
Qed.
#[global] Instance pm_pq : Proper (pq ==> pq ==> pq) pm.
Proof.
  intros p p' H r r' K. rewrite (pm_pq_l p p' r H), (pm_comm p' r), (pm_pq_l r r' p' K). apply pm_comm.
Qed.
Lemma pm_pa_l p : forall r s, pq (pm (pa p r) s) (pa (pm p s) (pm r s)).
Proof.
  induction p as [|a p IH]; intros r s; [reflexivity|]. destruct r as [|b r]; [cbn [pa]; rewrite pa_0r; reflexivity|].
  cbn [pa pm]. rewrite IH, ps_add, X_pa. apply pa4.
Qed.
Lemma pm_ps_l a p r : pq (pm (ps a p) r) (ps a (pm p r)).
Proof.
  induction p as [|b p IH]; [reflexivity|]. change (ps a (b :: p)) with (fmul a b :: ps a p). cbn [pm]. rewrite IH, ps_pa, ps_ps, X_ps. reflexivity.
Qed.
Lemma pm_X_l p r : pq (pm (f0 :: p) r) (f0 :: pm p r).
Proof. cbn [pm]. rewrite ps_0. reflexivity. Qed.
Lemma pm_assoc p r s : pq (pm p (pm r s)) (pm (pm p r) s).
Proof.
  induction p as [|a p IH]; [reflexivity|]. cbn [pm]. rewrite pm_pa_l, pm_ps_l, pm_X_l, IH. reflexivity.
Qed.
Lemma pm_1 p : pq (pm [f1] p) p.
Proof. cbn [pm]. rewrite ps_1, z_nil. apply pa_0r. Qed.
Definition psb (p r : list Fq) : list Fq := pa p (po r).
Lemma poly_ring : ring_theory [] [f1] pa pm psb po pq.
Proof.
  constructor.
  - exact pa_0.
  - exact pa_comm.
  - exact pa_assoc.
  - exact pm_1.
  - exact pm_comm.
  - exact pm_assoc.
  - exact pm_pa_l.
  - intros; reflexivity.
  - exact pa_opp.
Qed.
Lemma poly_ext : ring_eq_ext pa pm po pq.
Proof. constructor; [exact pa_pq|exact pm_pq|exact po_pq]. Qed.
Add Ring poly : poly_ring (setoid pq_equiv poly_ext).
#[global] Instance psb_pq : Proper (pq ==> pq ==> pq) psb.
Proof. intros p p' H r r' K. unfold psb. rewrite H, K. reflexivity. Qed.

(* derivative *)
Lemma pd_zero p : pq p [] -> pq (pd p) [].
Proof.
  induction p as [|a p IH]; intros H; [reflexivity|]. apply pq_nil_tl in H. destruct H as [_ H]. cbn [pd]. rewrite (IH H), H. exact z_nil.
Qed.
#[global] Instance pd_pq : Proper (pq ==> pq) pd.
Proof.
  intros p. induction p as [|a p IH]; intros p' H.
  - symmetry. apply pd_zero. symmetry. exact H.
  - destruct p' as [|b p']; [apply pd_zero; exact H|]. apply pq_tl in H. destruct H as [_ H]. cbn [pd]. apply pa_pq; [exact H|].
    apply pq_cons; [reflexivity|exact (IH _ H)].
Qed.
Lemma pd_pa p : forall r, pq (pd (pa p r)) (pa (pd p) (pd r)).
Proof.
  induction p as [|a p IH]; intros r; [reflexivity|]. destruct r as [|b r]; [cbn [pa]; rewrite pa_0r; reflexivity|].
  cbn [pa pd]. rewrite IH, X_pa. apply pa4.
Qed.
Lemma pd_ps a p : pq (pd (ps a p)) (ps a (pd p)).
Proof.
  induction p as [|b p IH]; [reflexivity|]. change (ps a (b :: p)) with (fmul a b :: ps a p). cbn [pd]. rewrite IH, ps_pa, X_ps. reflexivity.
Qed.
Lemma pd_po p : pq (pd (po p)) (po (pd p)).
Proof.
  assert (E : forall r, pq (po r) (ps (fopp f1) r)) by (intros r i; rewrite co_po, co_ps; ring).
  rewrite (E p), (E (pd p)). apply pd_ps.
Qed.
Lemma pm_pm_1 a p r : pq (pm (a :: p) r) (pa (ps a r) (f0 :: pm p r)). Proof. reflexivity. Qed.
Lemma pd_pm p r : pq (pd (pm p r)) (pa (pm (pd p) r) (pm p (pd r))).
Proof.
  induction p as [|a p IH]; [reflexivity|]. cbn [pm pd]. rewrite pd_pa, pd_ps. cbn [pd]. rewrite IH, pm_pa_l, pm_X_l.
  rewrite X_pa. intros i. rewrite !co_pa. ring.
Qed.

(* evaluation *)
Lemma pe_zero p t : pq p [] -> pe p t = f0.
Proof. induction p as [|a p IH]; intros H; [reflexivity|]. apply pq_nil_tl in H. destruct H as [-> H]. cbn [pe]. rewrite (IH H). ring. Qed.
Lemma pe_pq p : forall p' t, pq p p' -> pe p t = pe p' t.
Proof.
  induction p as [|a p IH]; intros p' t H.
  - symmetry. apply pe_zero. symmetry. exact H.
  - destruct p' as [|b p']; [apply pe_zero; exact H|]. apply pq_tl in H. destruct H as [-> H]. cbn [pe]. rewrite (IH _ t H). reflexivity.
Qed.
Lemma pe_pa p t : forall r, pe (pa p r) t = fadd (pe p t) (pe r t).
Proof.
  induction p as [|a p IH]; intros r; [cbn [pa pe]; ring|]. destruct r as [|b r]; [cbn [pa pe]; ring|]. cbn [pa pe]. rewrite IH. ring.
Qed.
Lemma pe_ps a p t : pe (ps a p) t = fmul a (pe p t).
Proof. induction p as [|b p IH]; [cbn [ps map pe]; ring|]. change (ps a (b :: p)) with (fmul a b :: ps a p). cbn [pe]. rewrite IH. ring. Qed.
Lemma pe_po p t : pe (po p) t = fopp (pe p t).
Proof. induction p as [|b p IH]; [cbn [po map pe]; ring|]. change (po (b :: p)) with (fopp b :: po p). cbn [pe]. rewrite IH. ring. Qed.
Lemma pe_pm p r t : pe (pm p r) t = fmul (pe p t) (pe r t).
Proof. induction p as [|a p IH]; [cbn [pm pe]; ring|]. cbn [pm]. rewrite pe_pa, pe_ps. cbn [pe]. rewrite IH. ring. Qed.

(* bound on the degree: coefficients vanish from n on *)
Definition bd (n : nat) (p : list Fq) : Prop := forall i, (n <= i)%nat -> co p i = f0.
Arguments bd n%nat_scope p.
Lemma bd_weak m n p : bd m p -> (m <= n)%nat -> bd n p. Proof. intros H K i I. apply H. lia. Qed.
Lemma bd_pq n p r : pq p r -> bd n p -> bd n r. Proof. intros H K i I. rewrite <- (H i). apply K. exact I. Qed.
Lemma bd_pa n p r : bd n p -> bd n r -> bd n (pa p r).
Proof. intros H K i I. rewrite co_pa, (H i I), (K i I). ring. Qed.
Lemma bd_po n p : bd n p -> bd n (po p).
Proof. intros H i I. rewrite co_po, (H i I). ring. Qed.
Lemma bd_0 p : bd 0 p -> pq p []. Proof. intros H i. rewrite co_nil. apply H. lia. Qed.
Lemma top_pm p : forall m k r, bd (S m) p -> bd (S k) r -> bd (S (m + k)) (pm p r) /\ co (pm p r) (m + k) = fmul (co p m) (co r k).
Proof.
  induction p as [|a p IH]; intros m k r P R.
  - cbn [pm]. split; [intros i _; apply co_nil|rewrite !co_nil; ring].
  - assert (C : forall j, co (pm (a :: p) r) (S j) = fadd (fmul a (co r (S j))) (co (pm p r) j)) by (intros j; cbn [pm]; rewrite co_pa, co_ps, co_S; reflexivity).
    destruct m as [|m].
    + assert (PZ : pq p []) by (intros i; rewrite co_nil; apply (P (S i)); lia).
      assert (PM : pq (pm (a :: p) r) (ps a r)) by (cbn [pm]; rewrite (pm_zero p r PZ), z_nil; apply pa_0r). split.
      * intros i I. rewrite (PM i), co_ps, (R i ltac:(lia)). ring.
      * rewrite (PM _), co_ps. reflexivity.
    + assert (PB : bd (S m) p) by (intros i I; apply (P (S i)); lia). destruct (IH m k r PB R) as [IB IT]. split.
      * intros [|i] I; [lia|]. rewrite C, (R (S i) ltac:(lia)), (IB i ltac:(lia)). ring.
      * change (S m + k)%nat with (S (m + k)). rewrite C, IT, (R (S (m + k)) ltac:(lia)). rewrite co_S. ring.
Qed.
Lemma bd_pm m k p r : bd (S m) p -> bd (S k) r -> bd (S (m + k)) (pm p r). Proof. intros P R. apply (top_pm p m k r P R). Qed.
Lemma co_top m k p r : bd (S m) p -> bd (S k) r -> co (pm p r) (m + k) = fmul (co p m) (co r k). Proof. intros P R. apply (top_pm p m k r P R). Qed.

(* n as a field element *)
Definition nF (n : nat) : Fq := mkq (Z.of_nat n).
Lemma nF_0 : nF 0 = f0. Proof. reflexivity. Qed.
Lemma nF_S n : nF (S n) = fadd (nF n) f1. Proof. unfold nF, f1. rewrite <- mkq_add. f_equal. lia. Qed.
Lemma nF_1 : nF 1 = f1. Proof. reflexivity. Qed.
Lemma co_pd p : forall i, co (pd p) i = fmul (nF (S i)) (co p (S i)).
Proof.
  induction p as [|a p IH]; intros i; [rewrite !co_nil; ring|]. cbn [pd]. rewrite co_pa, co_S. destruct i as [|i].
  - rewrite co_0, nF_1. ring.
  - rewrite co_S, IH, (nF_S (S i)). ring.
Qed.
Lemma bd_pd n p : bd (S n) p -> bd n (pd p).
Proof. intros P i I. rewrite co_pd, (P (S i) ltac:(lia)). ring. Qed.

(* roots *)
Fixpoint sd (t : Fq) (p : list Fq) : list Fq := match p with [] => [] | _ :: p' => pe p' t :: sd t p' end.
Lemma sd_ok t p : pq p (pa (pm [fopp t; f1] (sd t p)) [pe p t]).
Proof.
  induction p as [|a p IH].
  - cbn [sd pe]. rewrite pm_nil_r, z_nil. reflexivity.
  - cbn [sd pe]. rewrite pm_cons_r. set (w := pe p t) in *.
    assert (E : pq (pa (pa (ps w [fopp t; f1]) (f0 :: pm [fopp t; f1] (sd t p))) [fadd a (fmul t w)]) (a :: pa (pm [fopp t; f1] (sd t p)) [w])).
    { intros [|i]; [rewrite !co_pa, co_ps, !co_0; ring|]. rewrite !co_pa, co_ps, !co_S, co_pa, co_nil.
      destruct i as [|i]; [rewrite !co_0; ring|]. rewrite !co_S, !co_nil. ring. }
    rewrite E. apply pq_cons; [reflexivity|exact IH].
Qed.
Lemma sd_bd t p : forall n, bd (S n) p -> bd n (sd t p).
Proof.
  induction p as [|a p IH]; intros n P i I; [apply co_nil|]. cbn [sd]. destruct n as [|n].
  - assert (PZ : pq p []) by (intros j; rewrite co_nil; apply (P (S j)); lia). destruct i as [|i]; [rewrite co_0; apply pe_zero; exact PZ|].
    rewrite co_S. apply (IH 0%nat); [|lia]. intros j _. rewrite (PZ j). apply co_nil.
  - destruct i as [|i]; [lia|]. rewrite co_S. apply (IH n); [|lia]. intros j J. apply (P (S j)). lia.
Qed.
Lemma root_bound n : forall p l, bd n p -> NoDup l -> (n <= length l)%nat -> (forall t, In t l -> pe p t = f0) -> pq p [].
Proof.
  induction n as [|n IH]; intros p l P ND L R; [apply bd_0; exact P|]. destruct l as [|t l]; [cbn in L; lia|]. inversion ND as [|? ? NI ND']; subst.
  pose proof (sd_ok t p) as SD. assert (RT : pe p t = f0) by (apply R; left; reflexivity). rewrite RT in SD.
  assert (S0 : pq (sd t p) []).
  { apply (IH (sd t p) l); [apply sd_bd; exact P|exact ND'|cbn in L; lia|]. intros x X. pose proof (pe_pq _ _ x SD) as E.
    rewrite pe_pa, pe_pm, (R x (or_intror X)) in E. cbn [pe] in E.
    assert (F : fmul (fsub x t) (pe (sd t p) x) = f0) by (transitivity (fadd (fmul (fadd (fopp t) (fmul x (fadd f1 (fmul x f0)))) (pe (sd t p) x)) (fadd f0 (fmul x f0))); [ring|symmetry; exact E]).
    apply fq_integral in F. destruct F as [F|F]; [|exact F]. exfalso. apply NI. apply fsub_eq0 in F. subst x. exact X. }
  rewrite SD, S0, pm_nil_r. exact z_nil.
Qed.

(* powers and X^n - X *)
Fixpoint pw (p : list Fq) (n : nat) : list Fq := match n with O => [f1] | S n' => pm p (pw p n') end.
Lemma pd_pw p n : pq (pm p (pd (pw p n))) (ps (nF n) (pm (pd p) (pw p n))).
Proof.
  induction n as [|n IH].
  - cbn [pw pd]. rewrite nF_0, ps_0, pa_0, z_nil. apply pm_nil_r.
  - cbn [pw]. rewrite pd_pm. rewrite nF_S.
    assert (E : pq (pm p (pa (pm (pd p) (pw p n)) (pm p (pd (pw p n))))) (pa (pm p (pm p (pd (pw p n)))) (pm (pd p) (pm p (pw p n))))) by ring.
    rewrite E, IH, ps_add, ps_1. assert (F : pq (pm p (ps (nF n) (pm (pd p) (pw p n)))) (ps (nF n) (pm (pd p) (pm p (pw p n))))).
    { rewrite (pm_comm p), pm_ps_l. apply ps_pq. ring. }
    rewrite F. reflexivity.
Qed.
Lemma top_pw p m c n : bd (S m) p -> co p m = c -> c = f1 -> bd (S (n * m)) (pw p n) /\ co (pw p n) (n * m) = f1.
Proof.
  intros P C C1. induction n as [|n [IB IT]].
  - split; [intros [|i] I; [cbn in I; lia|apply co_nil]|reflexivity].
  - cbn [pw Nat.mul]. destruct (top_pm p m (n * m) (pw p n) P IB) as [TB TT]. split; [exact TB|]. rewrite TT, IT, C, C1. ring.
Qed.
Lemma pe_pw p n t : pe (pw p n) t = fpw (pe p t) (Z.of_nat n).
Proof.
  induction n as [|n IH]; [cbn [pw pe]; rewrite fpw_0; ring|]. cbn [pw]. rewrite pe_pm, IH.
  rewrite Nat2Z.inj_succ. unfold Z.succ. rewrite fpw_add, fpw_1 by lia. ring.
Qed.
Definition xn (n : nat) : list Fq := repeat f0 n ++ [f1].
Lemma pm_xn n p : pq (pm (xn n) p) (repeat f0 n ++ p).
Proof. induction n as [|n IH]; [apply pm_1|]. change (xn (S n)) with (f0 :: xn n). rewrite pm_X_l, IH. reflexivity. Qed.
Lemma co_shift n p i : co (repeat f0 n ++ p) (i + n) = co p i.
Proof. unfold co. rewrite app_nth2 by (rewrite repeat_length; lia). rewrite repeat_length. f_equal. lia. Qed.
Lemma co_xn n i : co (xn n) i = if Nat.eq_dec i n then f1 else f0.
Proof.
  revert i. induction n as [|n IH]; intros [|i]; try reflexivity.
  - change (co (xn 0) (S i)) with (co [] i). rewrite co_nil. reflexivity.
  - change (xn (S n)) with (f0 :: xn n). rewrite co_S, IH. destruct (Nat.eq_dec i n), (Nat.eq_dec (S i) (S n)); try reflexivity; lia.
Qed.
Lemma pe_xn n t : pe (xn n) t = fpw t (Z.of_nat n).
Proof.
  induction n as [|n IH]; [cbn [xn repeat app pe]; rewrite fpw_0; ring|]. change (xn (S n)) with (f0 :: xn n). cbn [pe]. rewrite IH.
  rewrite Nat2Z.inj_succ. unfold Z.succ. rewrite fpw_add, fpw_1 by lia. ring.
Qed.
