(* ECP::mul2 computes e*P + f*Q; g1mul computes e*P on the subgroup of order r. *)
From Coq Require Import Lia ZifyBool.
From Verif Require Import Prim PrimP Rom Big BigP BigP2 BigP3 BigL NumT FieldQ FieldQ2 Fp FpP FpP2 SpecCurve CurveP GroupP Ecp WinP EcpP RandP GenP G1Grp Denote Glv RecodeP.

Definition padd1_4 p q r s : on1 p -> on1 q -> on1 r -> on1 s -> padd1 (padd1 p q) (padd1 r s) = padd1 (padd1 p r) (padd1 q s).
Proof. intros. eapply add4; g1s. Qed.

(* a table of eight points and the selection of an entry with a sign *)
Definition tabf (l E : Z) (f : nat -> pt1) (W : list ECP) : Prop :=
  length W = 8%nat /\ forall k a, nth_error W k = Some a -> ecpR l E (f k) a.
Lemma tabf_wf l E f W : tabf l E f W -> Forall wf1 W.
Proof.
  intros [_ H]. apply Forall_forall. intros a A. apply In_nth_error in A. destruct A as [k A]. apply H in A.
  eapply ecpR_wf; eauto.
Qed.
Lemma tabf_get l E f W k : tabf l E f W -> (k < 8)%nat -> exists a, getM W k = Some a /\ ecpR l E (f k) a.
Proof.
  intros [L H] K. unfold getM. destruct (nth_error W k) as [a|] eqn:G; [exists a; split; [reflexivity|apply H; exact G]|].
  apply nth_error_None in G. lia.
Qed.
Lemma ecp_selector_f l E f W self d p : tabf l E f W -> wf1 self -> wdig d -> 1 <= l <= 8 -> 2 * E - 1 <= 33554432 ->
  (forall k, (k < 8)%nat -> (d = 2 * Z.of_nat k + 1 -> p = f k) /\ (d = - (2 * Z.of_nat k + 1) -> p = pneg1 (f k))) ->
  ok (ecp_selector self W d) (ecpR l (2 * E - 1) p).
Proof.
  intros T WS D L HE P. unfold ecp_selector. destruct (wdig_case d D) as (k & K & SB & C). rewrite SB. cbn [bind].
  rewrite (sel_fold wf1 ecp_cmove ecp_cmove0 ecp_cmove1 W k K (proj1 T) (tabf_wf _ _ _ _ T) 8 0 self WS ltac:(lia)).
  destruct (tabf_get _ _ _ _ _ T K) as (a & G & A). destruct (P k K) as [P1 P2].
  destruct (Nat.leb_spec 0 k); [|lia]. destruct (Nat.ltb_spec k (0 + 8)); [|lia]. cbn [andb]. rewrite G. cbn [bind].
  assert (1 <= E) by (destruct A as (_ & ? & ? & ? & (_ & _ & _ & A1 & _) & _); lia).
  eapply ok_bind; [eapply ecp_neg_ok; [exact A|lia|lia]|]. intros n N. cbn [ok].
  pose proof (ecpR_wf _ _ _ _ A) as WA. pose proof (ecpR_wf _ _ _ _ N) as WN.
  destruct C as [[D1 S1]|[D1 S1]]; rewrite S1.
  - rewrite ecp_cmove0 by assumption. rewrite (P1 D1). eapply ecpR_weak; [exact A|lia|lia].
  - rewrite ecp_cmove1 by assumption. rewrite (P2 D1). exact N.
Qed.

Section Lin.
  Variables (p q : pt1).
  Hypothesis (OP : on1 p) (OQ : on1 q).
  Definition lc (a b : Z) : pt1 := padd1 (zm1 a p) (zm1 b q).
  Lemma lc_on a b : on1 (lc a b). Proof. apply padd1_on; apply zm1_on; assumption. Qed.
  Lemma lc_add a b c d : padd1 (lc a b) (lc c d) = lc (a + c) (b + d).
  Proof. unfold lc. rewrite padd1_4 by (apply zm1_on; assumption). rewrite <- !zm1_add by assumption. reflexivity. Qed.
  Lemma lc_opp a b : pneg1 (lc a b) = lc (- a) (- b).
  Proof.
    unfold lc. rewrite !zm1_opp by assumption. pose proof (zm1_on a p OP) as A. pose proof (zm1_on b q OQ) as B.
    rewrite <- (zm1_1 (zm1 a p)) at 1. rewrite <- (zm1_1 (zm1 b q)) at 1. rewrite <- zm1_dist by assumption.
    rewrite <- zm1_opp by (apply padd1_on; assumption). rewrite zm1_dist by assumption. rewrite !zm1_opp by assumption. rewrite !zm1_1. reflexivity.
  Qed.
  Lemma lc_p : lc 1 0 = p. Proof. unfold lc. rewrite zm1_1, zm1_0. apply padd1_0r. Qed.
  Lemma lc_q : lc 0 1 = q. Proof. unfold lc. rewrite zm1_1, zm1_0. apply padd1_0l. Qed.
  (* P-3Q, P-Q, P+Q, P+3Q, 3P-3Q, 3P-Q, 3P+Q, 3P+3Q *)
  Definition fe (k : nat) : Z := if (k <? 4)%nat then 1 else 3.
  Definition ff (k : nat) : Z := 2 * Z.of_nat (k mod 4) - 3.
  Definition f2 (k : nat) : pt1 := lc (fe k) (ff k).
  Lemma f2_dig a b : d4 a -> d4 b -> forall k, (k < 8)%nat -> (w4 a b = 2 * Z.of_nat k + 1 -> lc a b = f2 k) /\ (w4 a b = - (2 * Z.of_nat k + 1) -> lc a b = pneg1 (f2 k)).
  Proof.
    intros A B k K. unfold f2. rewrite lc_opp.
    assert (C : (w4 a b = 2 * Z.of_nat k + 1 -> a = fe k /\ b = ff k) /\ (w4 a b = - (2 * Z.of_nat k + 1) -> a = - fe k /\ b = - ff k)).
    { unfold w4. do 8 (destruct k as [|k]; [destruct A as [->|[->|[->| ->]]]; destruct B as [->|[->|[->| ->]]]; split; intros E; try discriminate E; split; reflexivity|]). lia. }
    destruct C as [C1 C2]. split; intros E; [destruct (C1 E) as [-> ->]|destruct (C2 E) as [-> ->]]; reflexivity.
  Qed.
  Lemma ecp_tab2_ok l E m F P Q : ecpR l E p P -> ecpR m F q Q -> 1 <= l <= 8 -> 1 <= m <= 8 -> E <= 8388608 -> F <= 8388608 ->
    ok (ecp_tab2 P Q) (fun '(W, s, t) => tabf 1 5 f2 W /\ ecpR 1 5 (lc 0 2) s /\ ecpR 1 5 (lc 2 0) t).
  Proof.
    intros RP RQ L M HE HF. rewrite <- lc_p in RP. rewrite <- lc_q in RQ. unfold ecp_tab2.
    eapply ok_bind; [eapply ecp_sub_ok; [exact RP|exact RQ|lia..]|]. intros w1 W1. rewrite lc_opp, lc_add in W1.
    eapply ok_bind; [eapply ecp_add_ok; [exact RP|exact RQ|lia..]|]. intros w2 W2. rewrite lc_add in W2.
    eapply ok_bind; [eapply ecp_dbl_ok; [exact RQ|lia..]|]. intros s S. rewrite lc_add in S.
    eapply ok_bind; [eapply ecp_sub_ok; [exact W1|exact S|lia..]|]. intros w0 W0. rewrite lc_opp, lc_add in W0.
    eapply ok_bind; [eapply ecp_add_ok; [exact W2|exact S|lia..]|]. intros w3 W3. rewrite lc_add in W3.
    eapply ok_bind; [eapply ecp_dbl_ok; [exact RP|lia..]|]. intros t T. rewrite lc_add in T.
    eapply ok_bind; [eapply ecp_add_ok; [exact W1|exact T|lia..]|]. intros w5 W5. rewrite lc_add in W5.
    eapply ok_bind; [eapply ecp_add_ok; [exact W2|exact T|lia..]|]. intros w6 W6. rewrite lc_add in W6.
    eapply ok_bind; [eapply ecp_sub_ok; [exact W5|exact S|lia..]|]. intros w4 W4. rewrite lc_opp, lc_add in W4.
    eapply ok_bind; [eapply ecp_add_ok; [exact W6|exact S|lia..]|]. intros w7 W7. rewrite lc_add in W7. cbn [ok].
    split; [split; [reflexivity|]|split; [exact S|exact T]].
    intros k a G. do 8 (destruct k as [|k]; [cbn [nth_error] in G; injection G as <-; assumption|]). destruct k; discriminate G.
  Qed.
  Lemma ecp_mul2_step_ok W A B r t a b : tabf 1 5 f2 W -> d4 a -> d4 b -> ecpR 1 5 (lc A B) r -> wf1 t ->
    ok (ecp_mul2_step W (r, t) (w4 a b)) (fun '(r', t') => ecpR 1 5 (lc (4 * A + a) (4 * B + b)) r' /\ wf1 t').
  Proof.
    intros T DA DB R Q. unfold ecp_mul2_step.
    eapply ok_bind; [eapply (ecp_selector_f 1 5 f2 W t (w4 a b) (lc a b) T Q (d4_wdig a b DA DB)); [lia|lia|apply f2_dig; assumption]|]. intros s SE.
    eapply ok_bind; [eapply ecp_dbl_ok; [exact R|lia..]|]. intros r1 R1.
    eapply ok_bind; [eapply ecp_dbl_ok; [exact R1|lia..]|]. intros r2 R2.
    eapply ok_bind; [eapply ecp_add_ok; [exact R2|exact SE|lia..]|]. intros r3 R3. cbn [ok].
    split; [|eapply ecpR_wf; exact SE]. rewrite !lc_add in R3.
    replace (4 * A + a) with (A + A + (A + A) + a) by lia. replace (4 * B + b) with (B + B + (B + B) + b) by lia. exact R3.
  Qed.
  Lemma wv4_rev ws d : wv4 (ws ++ [d]) = wv4 ws + 4 ^ Z.of_nat (length ws) * d.
  Proof.
    induction ws as [|w ws IH]; cbn [app wv4 length]; [change (4 ^ Z.of_nat 0) with 1; lia|].
    rewrite IH. replace (Z.of_nat (S (length ws))) with (1 + Z.of_nat (length ws)) by lia. rewrite Z.pow_add_r by lia.
    change (4 ^ 1) with 4. lia.
  Qed.
  Lemma map2_snoc es fs a b : length es = length fs -> map2 w4 (es ++ [a]) (fs ++ [b]) = map2 w4 es fs ++ [w4 a b].
  Proof.
    revert fs. induction es as [|e es IH]; intros [|f fs] L; try discriminate L; [reflexivity|].
    cbn [app map2]. rewrite IH by (cbn in L; lia). reflexivity.
  Qed.
  Lemma ecp_mul2_fold_ok W : tabf 1 5 f2 W -> forall es fs A B r t, length es = length fs -> Forall d4 es -> Forall d4 fs -> ecpR 1 5 (lc A B) r -> wf1 t ->
    ok (foldM (ecp_mul2_step W) (rev (map2 w4 es fs)) (r, t)) (fun '(r', t') =>
      ecpR 1 5 (lc (4 ^ Z.of_nat (length es) * A + wv4 es) (4 ^ Z.of_nat (length fs) * B + wv4 fs)) r').
  Proof.
    intros T es. induction es as [|e es IH] using rev_ind; intros fs A B r t L DE DF R Q.
    - destruct fs; [|discriminate L]. cbn [map2 rev foldM ok length wv4]. change (4 ^ Z.of_nat 0) with 1.
      replace (1 * A + 0) with A by lia. replace (1 * B + 0) with B by lia. exact R.
    - destruct fs as [|f fs _] using rev_ind; [rewrite app_length in L; cbn in L; lia|].
      rewrite !app_length in L. cbn [length] in L. assert (L' : length es = length fs) by lia.
      rewrite map2_snoc by exact L'. rewrite rev_app_distr. cbn [rev app foldM].
      apply Forall_app in DE, DF. destruct DE as [E1 E2], DF as [F1 F2]. inversion E2; inversion F2; subst.
      eapply ok_bind; [eapply ecp_mul2_step_ok; eauto|]. intros [r' t'] [R' Q'].
      eapply ok_impl; [apply (IH fs _ _ _ _ L' E1 F1 R' Q')|]. cbv beta. intros [r2 t2] R2.
      rewrite !wv4_rev, !app_length. cbn [length]. rewrite !Nat2Z.inj_add. change (Z.of_nat 1) with 1. rewrite !Z.pow_add_r by lia.
      change (4 ^ 1) with 4.
      replace (4 ^ Z.of_nat (length es) * 4 * A + (wv4 es + 4 ^ Z.of_nat (length es) * e)) with (4 ^ Z.of_nat (length es) * (4 * A + e) + wv4 es) by ring.
      replace (4 ^ Z.of_nat (length fs) * 4 * B + (wv4 fs + 4 ^ Z.of_nat (length fs) * f)) with (4 ^ Z.of_nat (length fs) * (4 * B + f) + wv4 fs) by ring.
      exact R2.
  Qed.
End Lin.

Lemma ecp_mul2_ok l E m F p q P Q e f ve vf : ecpR l E p P -> ecpR m F q Q -> 1 <= l <= 8 -> 1 <= m <= 8 -> E <= 8388608 -> F <= 8388608 ->
  rep 7 e ve -> rep 7 f vf -> ve + vf + 4 < 2 ^ 404 -> ok (ecp_mul2 P e Q f) (ecpA 1 5 (lc p q ve vf)).
Proof.
  intros RP RQ L M HE HF RE RF V. pose proof (proj1 RP) as OP. pose proof (proj1 RQ) as OQ.
  pose proof (rep_bound7 _ _ RE) as BE. pose proof (rep_bound7 _ _ RF) as BF. unfold ecp_mul2.
  eapply ok_bind; [apply (ecp_tab2_ok p q OP OQ l E m F P Q RP RQ); assumption|]. intros [[W s] t] (TW & S & T).
  eapply ok_bind; [apply (make_odd_ok e ve RE); lia|]. intros [n1 te] (ue & TE & OE & CE).
  eapply ok_bind; [apply (make_odd_ok f vf RF); lia|]. intros [n2 tf] (uf & TF & OF & CF).
  assert (C1 : exists k, ecpR 8 8388608 (lc p q k 0) (ecp_cmove t P n1) /\ ue = ve + k).
  { pose proof (ecpR_wf _ _ _ _ T) as W1. pose proof (ecpR_wf _ _ _ _ RP) as W2. destruct CE as [[-> ->]|[-> ->]].
    - rewrite ecp_cmove0 by assumption. exists 2. split; [eapply ecpR_weak; [exact T|lia|lia]|reflexivity].
    - rewrite ecp_cmove1 by assumption. exists 1. rewrite lc_p. split; [eapply ecpR_weak; [exact RP|lia|lia]|reflexivity]. }
  assert (C2 : exists k, ecpR 8 8388608 (lc p q 0 k) (ecp_cmove s Q n2) /\ uf = vf + k).
  { pose proof (ecpR_wf _ _ _ _ S) as W1. pose proof (ecpR_wf _ _ _ _ RQ) as W2. destruct CF as [[-> ->]|[-> ->]].
    - rewrite ecp_cmove0 by assumption. exists 2. split; [eapply ecpR_weak; [exact S|lia|lia]|reflexivity].
    - rewrite ecp_cmove1 by assumption. exists 1. rewrite lc_q. split; [eapply ecpR_weak; [exact RQ|lia|lia]|reflexivity]. }
  destruct C1 as (k1 & C1 & K1), C2 as (k2 & C2 & K2). cbv zeta.
  eapply ok_bind; [eapply ecp_add_ok; [exact C1|exact C2|lia..]|]. intros c C. rewrite lc_add in C by assumption.
  pose proof (rep_bound7 _ _ TE) as BTE. pose proof (rep_bound7 _ _ TF) as BTF.
  assert (SUM : ue + uf < 2 ^ 404) by (destruct CE as [[_ ->]|[_ ->]], CF as [[_ ->]|[_ ->]]; lia).
  assert (ADD : ok (mt <- big_add te tf ;; big_norm mt) (fun mt => rep 7 mt (ue + uf))).
  { destruct TE as (A1 & A2 & A3), TF as (B1 & B2 & B3).
    eapply ok_bind; [apply (big_add_spec te tf (2 ^ 58) (2 ^ 58)); [congruence|apply digs_lb; exact A2|apply digs_lb; exact B2|lia..]|].
    intros mt (D1 & D2 & D3). eapply ok_impl; [apply (norm_spec7 mt); [congruence|eapply lb_weak; [exact D2|lia]]|]. intros r N. rewrite D3, A3, B3 in N.
    apply nrep_rep; [exact N|change (58 * Z.of_nat 7) with 406; lia]. }
  rewrite <- bind_assoc. eapply ok_bind; [exact ADD|]. intros mt MT. rewrite (big_nbits_spec _ _ MT). cbn [bind].
  pose proof (bitlen_bound (ue + uf) ltac:(lia)) as BL. pose proof (bitlen_le (ue + uf) 404 ltac:(lia) ltac:(lia)) as BU. pose proof (bitlen_nonneg (ue + uf)) as BN.
  set (nb := Z.to_nat (1 + (bitlen (ue + uf) + 1) / 2)).
  assert (NB : Z.of_nat nb = 1 + (bitlen (ue + uf) + 1) / 2) by (unfold nb; clear - BN; mlia).
  destruct (Nat.leb_spec 204 nb) as [G|G]; [exfalso; clear - NB BU G; mlia|].
  eapply ok_bind; [apply (win2_digits_ok nb te tf ue uf (rep_nrep _ _ _ TE) (rep_nrep _ _ _ TF) BTE BTF OE OF)|].
  intros [[ws te'] tf'] (es & fs & ve' & vf' & D1 & D2 & D3 & D4 & D5 & D6 & D7 & D8 & D9 & D10 & D11).
  assert (PB : ue + uf < 4 ^ Z.of_nat nb).
  { replace 4 with (2 ^ 2) by reflexivity. rewrite <- Z.pow_mul_r by lia.
    eapply Z.lt_le_trans; [exact BL|]. apply Z.pow_le_mono_r; clear - NB; mlia. }
  assert (UH : 0 <= ue / 2 < 4 ^ Z.of_nat nb) by (clear - BTE BTF PB; mlia).
  assert (UG : 0 <= uf / 2 < 4 ^ Z.of_nat nb) by (clear - BTE BTF PB; mlia).
  rewrite (Z.div_small (ue / 2)) in D10 by exact UH. rewrite (Z.div_small (uf / 2)) in D11 by exact UG.
  change (2 * 0 + 1) with 1 in D10, D11. subst ve' vf'.
  eapply ok_bind; [apply (lastbits_spec te' 3); [exact (proj1 D6)| |lia]|].
  { eapply lb_weak; [apply (nrep7_lb61 te' 1 D6); lia|lia]. }
  intros [le t2] [TL _]. rewrite (proj2 (proj2 D6)) in TL. change (1 mod 2 ^ 3) with 1 in TL. subst le.
  eapply ok_bind; [apply (lastbits_spec tf' 3); [exact (proj1 D7)| |lia]|].
  { eapply lb_weak; [apply (nrep7_lb61 tf' 1 D7); lia|lia]. }
  intros [lf t3] [TL _]. rewrite (proj2 (proj2 D7)) in TL. change (1 mod 2 ^ 3) with 1 in TL. subst lf.
  change (cku64 (4 * 1 + 1 - 1)) with (Some 4). cbn [bind]. change (Z.to_nat (4 / 2)) with 2%nat.
  destruct (tabf_get _ _ _ _ 2%nat TW ltac:(lia)) as (w2 & G2 & W2). rewrite G2. cbn [bind]. change (f2 p q 2) with (lc p q 1 1) in W2.
  assert (WT : wf1 (ecp_cmove t P n1)) by (eapply ecpR_wf; exact C1).
  rewrite D1.
  eapply ok_bind; [apply (ecp_mul2_fold_ok p q OP OQ W TW es fs 1 1 w2 (ecp_cmove t P n1)); [congruence|assumption|assumption|exact W2|exact WT]|].
  intros [r t4] RR. rewrite D2, D3 in RR.
  eapply ok_bind; [eapply ecp_sub_ok; [exact RR|exact C|lia..]|]. intros r' R'.
  rewrite lc_opp, lc_add in R' by assumption.
  replace (4 ^ Z.of_nat nb * 1 + wv4 es + - (k1 + 0)) with ve in R' by lia. replace (4 ^ Z.of_nat nb * 1 + wv4 fs + - (0 + k2)) with vf in R' by lia.
  eapply ecp_affine_ok; [exact R'|lia|lia].
Qed.

(* ------------------------------- g1mul -------------------------------- *)
Lemma cru_rep : rep 7 CURVE_CRU betaZ.
Proof. split; [reflexivity|]. split; [|reflexivity]. repeat (apply Forall_cons; [split; [discriminate|reflexivity]|]). apply Forall_nil. Qed.
Lemma phi_eig P : on1 P -> zm1 r255 P = Inf -> phi P = zm1 (- (uZ * uZ)) P.
Proof.
  intros O K. destruct (r_torsion P O K) as (k & KB & E). clear K. pose proof G1gen_on as GO. pose proof u2_phi as UP.
  revert UP. generalize (uZ * uZ). intros X UP. subst P. rewrite phi_zm by (try exact GO; apply (proj1 KB)).
  assert (E : phi G1gen = zm1 (- X) G1gen).
  { rewrite zm1_opp by exact GO. rewrite UP. destruct (phi G1gen) as [|x y]; [reflexivity|]. cbn [pneg]. f_equal. ring. }
  rewrite E. rewrite <- !zm1_mul by exact GO. f_equal. ring.
Qed.
Definition sg1 (n : bool) (P : pt1) : pt1 := if n then pneg1 P else P.
Lemma sg1_on n P : on1 P -> on1 (sg1 n P). Proof. intros O. destruct n; [apply pneg1_on; exact O|exact O]. Qed.
Lemma sg1_zm (n : bool) v v' k r P : on1 P -> zm1 r P = Inf -> (if n then - v' else v') = v + k * r -> zm1 v' (sg1 n P) = zm1 v P.
Proof.
  intros O K E. transitivity (zm1 (v + k * r) P).
  - rewrite <- E. destruct n; cbn [sg1]; [|reflexivity]. rewrite zm1_neg, zm1_opp by exact O. reflexivity.
  - rewrite zm1_add, zm1_mul, K, zm1_zero by exact O. apply padd1_0r.
Qed.
Lemma glv_split r X v (n0 n1 : bool) v0 v1 k0 k1 P Q : on1 P -> zm1 r P = Inf -> Q = zm1 (- X) P -> 0 < X ->
  (if n0 : bool then - v0 else v0) = v mod X + k0 * r -> (if n1 : bool then - v1 else v1) = r - v / X + k1 * r ->
  lc (sg1 n0 P) (sg1 n1 Q) v0 v1 = zm1 v P.
Proof.
  intros O K EQ XP E0 E1. assert (OQ : on1 Q) by (subst Q; apply zm1_on; exact O).
  assert (KQ : zm1 r Q = Inf) by (subst Q; rewrite <- zm1_mul, Z.mul_comm, zm1_mul, K by exact O; apply zm1_zero).
  unfold lc. rewrite (sg1_zm n0 (v mod X) v0 k0 r P O K E0), (sg1_zm n1 (r - v / X) v1 k1 r Q OQ KQ E1). subst Q.
  rewrite <- zm1_mul, <- zm1_add by exact O. pose proof (Z.div_mod v X ltac:(lia)) as D.
  replace (v mod X + (r - v / X) * - X) with (v + (- X) * r) by lia. rewrite zm1_add, zm1_mul, K, zm1_zero by exact O. apply padd1_0r.
Qed.
Lemma ecp_mulx_ok l E p a c : ecpR l E p a -> fpR 1 2 beta c -> 1 <= l <= 8 -> 2 <= E <= 8388608 -> ok (ecp_mulx a c) (ecpR l E (phi p)).
Proof.
  intros (O & X & Y & Z & A & B & C & P) BE L HE. unfold ecp_mulx.
  eapply ok_bind; [eapply fp_mul_ok; [exact A|exact BE|lia..]|]. intros x R. cbn [ok].
  split; [apply phi_on; exact O|]. exists (fmul X beta), Y, Z. cbn [ex ey ez].
  split; [eapply fpR_weak; [exact R|lia|lia]|]. split; [exact B|]. split; [exact C|].
  destruct p as [|x0 y0]; cbn [phi prep] in *.
  - destruct P as (P1 & P2 & P3). split; [rewrite P1; ring|]. split; [exact P2|exact P3].
  - destruct P as (P1 & P2 & P3). split; [exact P1|]. split; [rewrite P2; ring|exact P3].
Qed.
Lemma sg_neg_ok (n : bool) l E p a : ecpR l E p a -> 1 <= l <= 8 -> 1 <= E <= 4194304 ->
  ok (if n then ecp_neg a else Some a) (ecpR l (2 * E - 1) (sg1 n p)).
Proof.
  intros R L HE. destruct n; cbn [sg1].
  - apply ecp_neg_ok; [exact R|lia|lia].
  - cbn [ok]. eapply ecpR_weak; [exact R|lia|lia].
Qed.
Lemma g1mul_ok l E p a e v : ecpR l E p a -> 1 <= l <= 8 -> 2 <= E <= 4194304 -> zm1 r255 p = Inf -> rep 7 e v -> v < r255 * (uZ * uZ) ->
  ok (g1mul a e) (ecpA 1 5 (zm1 v p)).
Proof.
  intros R L HE K RE V. pose proof (proj1 R) as OP. pose proof (rep_bound7 _ _ RE) as VB. unfold g1mul.
  eapply ok_bind; [apply (fp_nres_ok CURVE_CRU betaZ cru_rep)|]. intros cru CRU.
  pose proof (phi_eig p OP K) as PE. assert (UP : 0 < uZ * uZ) by reflexivity. pose proof r255_bnd as RB.
  eapply ok_bind; [apply (glv_ok e v RE)|]. intros [u0 u1] (U0 & L1 & B1 & V1).
  assert (U2 : uZ * uZ < r255) by reflexivity.
  revert PE UP U0 V1 V U2. generalize (uZ * uZ). intros X PE UP U0 V1 V U2.
  eapply ok_bind; [apply (ecp_mulx_ok l E p a cru R CRU); [lia|lia]|]. intros Q RQ.
  destruct (rep_loose _ _ U0) as (L0 & B0 & V0). pose proof (Z.mod_pos_bound v X UP) as M.
  assert (D : 0 <= v / X < r255) by (split; [apply Z.div_pos; lia|apply Z.div_lt_upper_bound; lia]).
  eapply ok_bind; [apply (glv_pick_ok u0 _ L0 B0 V0); lia|]. intros [u0' n0] (v0 & k0 & R0 & Q0 & E0).
  eapply ok_bind; [apply (sg_neg_ok n0 l E p a R); lia|]. intros P' RP'.
  eapply ok_bind; [apply (glv_pick_ok u1 _ L1 B1 V1); lia|]. intros [u1' n1] (v1 & k1 & R1 & Q1 & E1).
  eapply ok_bind; [apply (sg_neg_ok n1 l E _ Q RQ); lia|]. intros Q' RQ'.
  eapply ok_impl; [apply (ecp_mul2_ok _ _ _ _ _ _ _ _ u0' u1' v0 v1 RP' RQ' L L); [lia|lia|exact R0|exact R1|lia]|].
  intros r H. rewrite (glv_split r255 X v n0 n1 v0 v1 k0 k1 p (phi p) OP K PE UP E0 E1) in H. exact H.
Qed.
