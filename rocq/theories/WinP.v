(* The signed-window recoding shared by ECP::mul and ECP2::mul. *)
From Coq Require Import Lia ZifyBool.
From Verif Require Import Prim PrimP Rom Big BigP BigP2 BigP3 Fp FpP Ecp.

Ltac mlia := Z.to_euclidean_division_equations; lia.

Fixpoint wval (ws : list Z) : Z := match ws with [] => 0 | w :: r => w + 16 * wval r end.
Definition wdig (w : Z) : Prop := -15 <= w <= 15 /\ w mod 2 = 1.

Lemma dec_norm_spec w v x : nrep 7 w v -> - 2 ^ 409 <= v < 2 ^ 409 -> -2 ^ 61 <= x <= 2 ^ 61 ->
  ok (r <- big_dec w x ;; big_norm r) (fun r => nrep 7 r (v - x)).
Proof.
  intros H V X. rewrite big_dec_inc by lia. replace (v - x) with (v + - x) by lia. apply inc_norm_spec; auto; lia.
Qed.

Lemma win_digits_ok n : forall t v, nrep 7 t v -> 0 <= v < 2 ^ 406 -> v mod 2 = 1 ->
  ok (win_digits n t) (fun '(ws, t') => exists v', nrep 7 t' v' /\ v = wval ws + 16 ^ Z.of_nat n * v' /\
     length ws = n /\ Forall wdig ws /\ v' = 2 * (v / 2 / 16 ^ Z.of_nat n) + 1).
Proof.
  induction n as [|n IH]; intros t v T V O; cbn [win_digits].
  - cbn [ok]. exists v. change (16 ^ Z.of_nat 0) with 1. rewrite Z.div_1_r.
    split; [exact T|]. cbn [wval]. split; [lia|]. split; [reflexivity|]. split; [constructor|].
    pose proof (Z.div_mod v 2 ltac:(lia)). lia.
  - pose proof T as (T1 & T2 & T3).
    eapply ok_bind; [apply (lastbits_spec t 5); [auto| |lia]|].
    { eapply lb_weak; [apply (nrep7_lb61 t v); auto; lia|lia]. }
    intros [l t1] [L T1']. rewrite T3 in L, T1'. cbv zeta.
    pose proof (Z.mod_pos_bound v (2 ^ 5) ltac:(lia)) as LB. rewrite <- L in LB. change (2 ^ 5) with 32 in *.
    pose proof (Z.div_mod v 32 ltac:(lia)) as DM. rewrite <- L in DM.
    rewrite <- bind_assoc.
    eapply ok_bind; [apply (dec_norm_spec t1 v (l - 16) T1'); lia|]. intros t3 N3.
    assert (E3 : v - (l - 16) = (2 * (v / 32) + 1) * 16) by lia.
    assert (N4 : nrep 7 (big_fshr t3 4) (2 * (v / 32) + 1)).
    { pose proof (fshr_spec7 t3 _ 4 N3 ltac:(lia)) as H4. change (2 ^ 4) with 16 in H4. rewrite E3, Z.div_mul in H4 by lia. exact H4. }
    assert (V0 : 0 <= v / 32) by (apply Z.div_pos; lia).
    eapply ok_bind; [apply (IH _ _ N4); [lia|rewrite Z.add_comm, Z.mul_comm, Z.mod_add by lia; reflexivity]|].
    intros [ws t'] (v' & A & B & C & D & E). cbn [ok]. exists v'. split; [exact A|].
    replace (Z.of_nat (S n)) with (1 + Z.of_nat n) by lia. rewrite Z.pow_add_r by lia. change (16 ^ 1) with 16.
    split; [cbn [wval]; lia|]. split; [cbn [length]; lia|]. split.
    + constructor; [|exact D]. unfold wdig. clear - LB L O DM. clear L. assert (OL : l mod 2 = 1) by mlia. clear - OL LB. mlia.
    + rewrite E. f_equal. f_equal. rewrite <- Z.div_div by lia. f_equal.
      rewrite Z.div_div by lia. change (2 * 16) with 32. clear. mlia.
Qed.


(* ns = 1: corr 1, ns = 0: corr 2 *)
Lemma win_recode_ok e v : rep 7 e v -> v + 2 < 2 ^ 404 ->
  ok (win_recode e) (fun '(ns, ws, top) => top = 1 /\ Forall wdig ws /\
     (ns = 0 /\ v + 2 = wval ws + 16 ^ Z.of_nat (length ws) \/ ns = 1 /\ v + 1 = wval ws + 16 ^ Z.of_nat (length ws))).
Proof.
  intros R V. pose proof (rep_bound7 _ _ R) as VB. pose proof (rep_nrep _ _ _ R) as N. unfold win_recode.
  rewrite (parity_spec _ _ N). rewrite <- bind_assoc.
  eapply ok_bind; [apply (inc_norm_spec e v 1 N); lia|]. intros t T. rewrite (parity_spec _ _ T).
  rewrite <- bind_assoc.
  eapply ok_bind; [apply (inc_norm_spec t (v + 1) 1 T); lia|]. intros mt MT.
  replace (v + 1 + 1) with (v + 2) in MT by lia.
  set (tt := big_cmove t mt (v mod 2)).
  assert (K : exists u, nrep 7 tt u /\ u mod 2 = 1 /\ 0 <= u < 2 ^ 404 /\ ((v + 1) mod 2 = 0 /\ u = v + 2 \/ (v + 1) mod 2 = 1 /\ u = v + 1)).
  { unfold tt. destruct T as (T1 & T2 & T3), MT as (M1 & M2 & M3). destruct (Z.eq_dec (v mod 2) 0) as [G|G].
    - rewrite G, cmove0 by congruence. exists (v + 1). split; [split; auto|]. clear - V VB G. mlia.
    - replace (v mod 2) with 1 by (clear - G; mlia). rewrite cmove1 by congruence. exists (v + 2). split; [split; auto|]. clear - V VB G. mlia. }
  destruct K as (u & U1 & U2 & U3 & U4). clearbody tt.
  assert (UR : rep 7 tt u) by (apply nrep_rep; [exact U1|change (58 * Z.of_nat 7) with 406; lia]).
  rewrite (big_nbits_spec _ _ UR). cbn [bind]. cbv zeta.
  pose proof (bitlen_bound u ltac:(lia)) as BL. pose proof (bitlen_le u 404 ltac:(lia) ltac:(lia)) as BL2.
  assert (BL0 : 0 <= bitlen u) by (unfold bitlen; destruct (u =? 0); [lia|]; pose proof (Z.log2_nonneg u); lia).
  set (nb := Z.to_nat (1 + (bitlen u + 3) / 4)).
  assert (NB : Z.of_nat nb = 1 + (bitlen u + 3) / 4) by (unfold nb; clear - BL0; mlia).
  destruct (Nat.leb_spec 103 nb); [exfalso; clear - NB BL2 H; mlia|].
  eapply ok_bind; [apply (win_digits_ok nb tt u U1); lia|]. intros [ws t'] (v' & A & B & C & D & E).
  assert (PB : u < 16 ^ Z.of_nat nb).
  { replace 16 with (2 ^ 4) by reflexivity. rewrite <- Z.pow_mul_r by lia.
    eapply Z.lt_le_trans; [exact BL|]. apply Z.pow_le_mono_r; clear - NB; mlia. }
  assert (UH : 0 <= u / 2 < 16 ^ Z.of_nat nb) by (clear - U3 PB; mlia).
  rewrite (Z.div_small (u / 2)) in E by exact UH. change (2 * 0 + 1) with 1 in E. subst v'.
  pose proof A as (A1 & A2 & A3).
  eapply ok_bind; [apply (lastbits_spec t' 5); [auto| |lia]|].
  { eapply lb_weak; [apply (nrep7_lb61 t' 1); auto; lia|lia]. }
  intros [top t2] [TL _]. rewrite A3 in TL. change (1 mod 2 ^ 5) with 1 in TL. cbn [ok].
  split; [exact TL|]. split; [exact D|]. rewrite C. destruct U4 as [[P Q]|[P Q]]; [left|right]; split; try exact P; lia.
Qed.

(* the table selection: eight conditional moves *)
Lemma teq_tab k i : (k < 8)%nat -> (i < 8)%nat -> teq (Z.of_nat k) (Z.of_nat i) = Some (if Nat.eqb k i then 1 else 0).
Proof.
  intros K I. do 8 (destruct k as [|k]; [do 8 (destruct i as [|i]; [reflexivity|]); lia|]). lia.
Qed.
Lemma sel_fold {A} (wf : A -> Prop) (cm : A -> A -> Z -> A)
  (cm0 : forall a b, wf a -> wf b -> cm a b 0 = a) (cm1 : forall a b, wf a -> wf b -> cm a b 1 = b)
  (W : list A) k : (k < 8)%nat -> length W = 8%nat -> Forall wf W ->
  forall n st s, wf s -> (st + n <= 8)%nat -> 
  foldM (fun s i => w <- getM W i ;; t <- teq (Z.of_nat k) (Z.of_nat i) ;; Some (cm s w t)) (seq st n) s =
  if ((st <=? k) && (k <? st + n))%nat then getM W k else Some s.
Proof.
  intros K L FW. induction n as [|n IH]; intros st s S1 B.
  - cbn [seq foldM]. destruct (Nat.leb_spec st k); destruct (Nat.ltb_spec k (st + 0)); cbn [andb]; try reflexivity. lia.
  - cbn [seq foldM]. destruct (getM W st) as [w|] eqn:G; unfold getM in *.
    2:{ apply nth_error_None in G. lia. }
    assert (WW : wf w) by (eapply Forall_forall in FW; [exact FW|eapply nth_error_In; eauto]).
    cbn [bind]. rewrite teq_tab by lia. cbn [bind].
    destruct (Nat.eqb_spec k st) as [->|N].
    + rewrite cm1 by auto. rewrite IH by (auto; lia).
      destruct (Nat.leb_spec (S st) st); [lia|]. cbn [andb].
      destruct (Nat.leb_spec st st); [|lia]. destruct (Nat.ltb_spec st (st + S n)); [|lia]. cbn [andb]. symmetry. exact G.
    + rewrite cm0 by auto. rewrite IH by (auto; lia).
      replace ((S st <=? k) && (k <? S st + n))%nat with ((st <=? k) && (k <? st + S n))%nat; [reflexivity|].
      destruct (Nat.leb_spec st k); destruct (Nat.leb_spec (S st) k); destruct (Nat.ltb_spec k (st + S n)); destruct (Nat.ltb_spec k (S st + n)); cbn [andb]; lia.
Qed.
Lemma wdig_case b : wdig b -> exists k, (k < 8)%nat /\ sel_babs b = Some (Z.of_nat k) /\
  (b = 2 * Z.of_nat k + 1 /\ Z.land (Z.shiftr b 31) 1 = 0 \/ b = - (2 * Z.of_nat k + 1) /\ Z.land (Z.shiftr b 31) 1 = 1).
Proof.
  intros [B O].
  assert (C : b = -15 \/ b = -13 \/ b = -11 \/ b = -9 \/ b = -7 \/ b = -5 \/ b = -3 \/ b = -1 \/
    b = 1 \/ b = 3 \/ b = 5 \/ b = 7 \/ b = 9 \/ b = 11 \/ b = 13 \/ b = 15) by mlia.
  repeat (destruct C as [->|C]); try subst b;
  match goal with |- context [sel_babs ?z] => let k := eval vm_compute in (Z.to_nat ((Z.abs z - 1) / 2)) in exists k end;
  (split; [lia|split; [reflexivity|]]); ((left; split; reflexivity) || (right; split; reflexivity)).
Qed.
