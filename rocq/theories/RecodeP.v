(* The integer parts of glv, gs, mul2 and mul4: splitting and recoding multipliers. *)
From Coq Require Import Lia ZifyBool.
From Verif Require Import Prim PrimP Rom Big BigP BigP2 BigP3 BigL NumT Fp Ecp WinP Ecp2 Fp12 FexpP GenP RandP Glv.

(* ------------------------------- smul --------------------------------- *)
Lemma muladd_ok a b c r : 0 <= a < B58 -> 0 <= b < B58 -> 0 <= c < B58 -> 0 <= r < B58 ->
  exists top bot, big_muladd a b c r = Some (top, bot) /\ 0 <= top < B58 /\ 0 <= bot < B58 /\ a * b + c + r = bot + B58 * top.
Proof.
  intros A B C R. unfold big_muladd in *.
  assert (P : 0 <= a * b <= (288230376151711744 - 1) * (288230376151711744 - 1)) by nia.
  assert (S : 0 <= a * b + c + r < 288230376151711744 * 288230376151711744) by lia.
  rewrite ck128_ok by lia. cbn [bind]. rewrite ck128_ok by lia. cbn [bind]. rewrite ck128_ok by lia. cbn [bind].
  rewrite land_bmask, shr_base.
  pose proof (Z.mod_pos_bound (a * b + c + r) B58 ltac:(lia)) as M.
  pose proof (Z.div_mod (a * b + c + r) B58 ltac:(lia)) as D.
  assert (T : 0 <= (a * b + c + r) / B58 < B58).
  { split; [apply Z.div_pos; lia|apply Z.div_lt_upper_bound; lia]. }
  rewrite !wrap64_id by lia. eexists. eexists. split; [reflexivity|]. lia.
Qed.
Lemma smul_row_ok ai b : forall c carry, 0 <= ai < B58 -> 0 <= carry < B58 -> digs b -> digs c -> (length c <= length b)%nat ->
  ok (smul_row ai carry b c) (fun r => length r = length c /\ digs r /\
    exists k, lval c + ai * lval b + carry = lval r + 2 ^ (58 * Z.of_nat (length c)) * k).
Proof.
  induction b as [|bj b IH]; intros c carry A C DB DC L.
  - destruct c as [|cj c]; [|cbn in L; lia]. cbn [smul_row ok length lval]. split; [reflexivity|]. split; [exact DC|].
    exists carry. cbn. lia.
  - destruct c as [|cj c]; cbn [smul_row].
    + cbn [ok length]. split; [reflexivity|]. split; [exact DC|]. exists (ai * lval (bj :: b) + carry). cbn [lval Z.of_nat]. change (2 ^ (58 * 0)) with 1. lia.
    + apply digs_cons in DB, DC. destruct DB as [B1 B2], DC as [C1 C2].
      destruct (muladd_ok ai bj carry cj A B1 C C1) as (top & bot & E & T & B & V). rewrite E. cbn [bind].
      cbn [length] in L.
      eapply ok_bind; [apply (IH c top A T B2 C2); lia|]. intros r (R1 & R2 & k & R3). cbn [ok length].
      split; [lia|]. split; [apply digs_cons; split; assumption|]. exists k.
      cbn [lval]. rewrite Nat2Z.inj_succ.
      replace (58 * Z.succ (Z.of_nat (length c))) with (58 + 58 * Z.of_nat (length c)) by lia.
      rewrite Z.pow_add_r by lia. change (2 ^ 58) with B58.
      transitivity (bot + B58 * (lval c + ai * lval b + top)); [nia|]. rewrite R3. ring.
Qed.
Lemma smul_go_ok b : digs b -> forall a c, digs a -> digs c -> length a = length c -> (length c <= length b)%nat ->
  ok (smul_go a b c) (fun r => length r = length c /\ digs r /\
    exists k, lval c + lval a * lval b = lval r + 2 ^ (58 * Z.of_nat (length c)) * k).
Proof.
  intros DB. induction a as [|ai a IH]; intros c DA DC L LB; cbn [smul_go].
  - destruct c; [|discriminate]. cbn [ok]. split; [reflexivity|]. split; [exact DC|]. exists 0. cbn [lval]. lia.
  - apply digs_cons in DA. destruct DA as [A1 A2].
    eapply ok_bind; [apply (smul_row_ok ai b c 0 A1 ltac:(lia) DB DC LB)|]. intros r (R1 & R2 & k & R3).
    destruct r as [|c0 c']; [rewrite <- R1 in L; discriminate|]. apply digs_cons in R2. destruct R2 as [D0 D'].
    cbn [length] in *. 
    eapply ok_bind; [apply (IH c' A2 D'); lia|]. intros r' (Q1 & Q2 & k' & Q3). cbn [ok length].
    split; [lia|]. split; [apply digs_cons; split; assumption|]. exists (k + k').
    rewrite <- R1. rewrite <- R1 in R3. cbn [lval] in *. rewrite Nat2Z.inj_succ in *.
    replace (58 * Z.succ (Z.of_nat (length c'))) with (58 + 58 * Z.of_nat (length c')) in * by lia.
    rewrite Z.pow_add_r in * by lia. change (2 ^ 58) with B58 in *.
    transitivity (lval c + ai * lval b + 0 + B58 * (lval a * lval b)); [ring|]. rewrite R3.
    transitivity (c0 + B58 * (lval c' + lval a * lval b) + B58 * 2 ^ (58 * Z.of_nat (length c')) * k); [ring|]. rewrite Q3. ring.
Qed.
Lemma big_smul_ok a b u v : rep 7 a u -> rep 7 b v -> ok (big_smul a b) (fun r => rep 7 r ((u * v) mod 2 ^ 406)).
Proof.
  intros (A1 & A2 & A3) (B1 & B2 & B3). unfold big_smul.
  eapply ok_impl; [apply (smul_go_ok b B2 a big_new A2)|].
  - apply (norml_digs big_new); [apply nrep_zero|]. change (lval big_new) with 0. cbn. lia.
  - rewrite A1. reflexivity.
  - rewrite B1. cbn. lia.
  - intros r (R1 & R2 & k & R3). split; [exact R1|]. split; [exact R2|].
    change (lval big_new) with 0 in R3. change (length big_new) with 7%nat in *. rewrite A3, B3 in R3.
    pose proof (digs_val _ R2) as V. rewrite R1 in V. change (58 * Z.of_nat 7) with 406 in *.
    replace (u * v) with (lval r + k * 2 ^ 406) by lia. rewrite Z.mod_add by lia. symmetry. apply Z.mod_small. exact V.
Qed.

(* --------------------------- mul2 windows ----------------------------- *)
Lemma make_odd_ok e v : rep 7 e v -> v + 2 < 2 ^ 406 ->
  ok (make_odd e) (fun '(ns, t) => exists u, rep 7 t u /\ u mod 2 = 1 /\ (ns = 0 /\ u = v + 2 \/ ns = 1 /\ u = v + 1)).
Proof.
  intros R V. pose proof (rep_bound7 _ _ R) as VB. pose proof (rep_nrep _ _ _ R) as N. unfold make_odd.
  rewrite (parity_spec _ _ N). rewrite <- bind_assoc.
  eapply ok_bind; [apply (inc_norm_spec e v 1 N); lia|]. intros t T. rewrite (parity_spec _ _ T).
  rewrite <- bind_assoc.
  eapply ok_bind; [apply (inc_norm_spec t (v + 1) 1 T); lia|]. intros mt MT. cbn [ok].
  replace (v + 1 + 1) with (v + 2) in MT by lia.
  apply nrep_rep in T; [|change (58 * Z.of_nat 7) with 406; lia]. apply nrep_rep in MT; [|change (58 * Z.of_nat 7) with 406; lia].
  destruct (Z.eq_dec (v mod 2) 0) as [G|G].
  - exists (v + 1). rewrite G, cmove0 by (rewrite (proj1 T), (proj1 MT); reflexivity). split; [exact T|].
    split; [clear - G; mlia|]. right. split; [clear - G; mlia|reflexivity].
  - exists (v + 2). replace (v mod 2) with 1 by (clear - G; mlia). rewrite cmove1 by (rewrite (proj1 T), (proj1 MT); reflexivity). split; [exact MT|].
    split; [clear - G; mlia|]. left. split; [clear - G; mlia|reflexivity].
Qed.

Definition d4 (a : Z) : Prop := a = -3 \/ a = -1 \/ a = 1 \/ a = 3.
Fixpoint wv4 (ws : list Z) : Z := match ws with [] => 0 | w :: r => w + 4 * wv4 r end.
Definition w4 (a b : Z) : Z := 4 * a + b.
Lemma win2_step_ok t v : nrep 7 t v -> 0 <= v < 2 ^ 406 -> v mod 2 = 1 ->
  ok (win2_step t) (fun '(a, t') => d4 a /\ nrep 7 t' (2 * (v / 8) + 1) /\ v = a + 4 * (2 * (v / 8) + 1)).
Proof.
  intros T V O. pose proof T as (T1 & T2 & T3). unfold win2_step.
  eapply ok_bind; [apply (lastbits_spec t 3); [auto| |lia]|].
  { eapply lb_weak; [apply (nrep7_lb61 t v); auto; lia|lia]. }
  intros [l t1] [L T1']. rewrite T3 in L, T1'. cbv zeta. change (2 ^ 3) with 8 in *.
  pose proof (Z.mod_pos_bound v 8 ltac:(lia)) as LB. rewrite <- L in LB.
  pose proof (Z.div_mod v 8 ltac:(lia)) as DM. rewrite <- L in DM.
  rewrite <- bind_assoc.
  eapply ok_bind; [apply (dec_norm_spec t1 v (l - 4) T1'); lia|]. intros t3 N3. cbn [ok].
  assert (E3 : v - (l - 4) = (2 * (v / 8) + 1) * 4) by lia.
  split; [|split; [|lia]].
  - unfold d4. clear L T1' N3 E3. assert (OL : l mod 2 = 1) by (clear - DM O; mlia). clear - OL LB. mlia.
  - pose proof (fshr_spec7 t3 _ 2 N3 ltac:(lia)) as H4. change (2 ^ 2) with 4 in H4. rewrite E3, Z.div_mul in H4 by lia. exact H4.
Qed.
Lemma odd_half a : (2 * a + 1) mod 2 = 1.
Proof. rewrite Z.add_comm, Z.mul_comm, Z.mod_add by lia. reflexivity. Qed.
Lemma win2_digits_ok n : forall te tf ve vf, nrep 7 te ve -> nrep 7 tf vf -> 0 <= ve < 2 ^ 406 -> 0 <= vf < 2 ^ 406 -> ve mod 2 = 1 -> vf mod 2 = 1 ->
  ok (win2_digits n te tf) (fun '(ws, te', tf') => exists es fs ve' vf', ws = map2 w4 es fs /\ length es = n /\ length fs = n /\ Forall d4 es /\ Forall d4 fs /\
     nrep 7 te' ve' /\ nrep 7 tf' vf' /\ ve = wv4 es + 4 ^ Z.of_nat n * ve' /\ vf = wv4 fs + 4 ^ Z.of_nat n * vf' /\
     ve' = 2 * (ve / 2 / 4 ^ Z.of_nat n) + 1 /\ vf' = 2 * (vf / 2 / 4 ^ Z.of_nat n) + 1).
Proof.
  assert (ST : forall v n, v / 2 / 4 ^ (1 + Z.of_nat n) = (2 * (v / 8) + 1) / 2 / 4 ^ Z.of_nat n).
  { intros v m. rewrite Z.pow_add_r by lia. change (4 ^ 1) with 4. rewrite <- Z.div_div by lia. f_equal.
    rewrite Z.div_div by lia. change (2 * 4) with 8. clear. mlia. }
  induction n as [|n IH]; intros te tf ve vf E F VE VF OE OF; cbn [win2_digits].
  - cbn [ok]. exists [], [], ve, vf. change (4 ^ Z.of_nat 0) with 1. rewrite !Z.div_1_r. cbn [wv4 map2 length].
    split; [reflexivity|]. split; [reflexivity|]. split; [reflexivity|]. split; [apply Forall_nil|]. split; [apply Forall_nil|].
    split; [exact E|]. split; [exact F|]. split; [lia|]. split; [lia|]. split; [clear - OE; mlia|clear - OF; mlia].
  - eapply ok_bind; [apply (win2_step_ok te ve E VE OE)|]. intros [a te1] (A1 & A2 & A3).
    eapply ok_bind; [apply (win2_step_ok tf vf F VF OF)|]. intros [b tf1] (B1 & B2 & B3).
    assert (VE' : 0 <= 2 * (ve / 8) + 1 < 2 ^ 406) by (clear - VE OE; mlia).
    assert (VF' : 0 <= 2 * (vf / 8) + 1 < 2 ^ 406) by (clear - VF OF; mlia).
    eapply ok_bind; [apply (IH te1 tf1 _ _ A2 B2 VE' VF' (odd_half _) (odd_half _))|].
    intros [[ws te2] tf2] (es & fs & ve' & vf' & C1 & C2 & C3 & C4 & C5 & C6 & C7 & C8 & C9 & C10 & C11). cbn [ok].
    exists (a :: es), (b :: fs), ve', vf'. replace (Z.of_nat (S n)) with (1 + Z.of_nat n) by lia. rewrite !ST.
    rewrite Z.pow_add_r by lia. change (4 ^ 1) with 4. cbn [wv4 map2 length].
    split; [rewrite C1; reflexivity|]. split; [lia|]. split; [lia|]. split; [constructor; assumption|]. split; [constructor; assumption|].
    split; [exact C6|]. split; [exact C7|]. split; [lia|]. split; [lia|]. split; assumption.
Qed.
Lemma d4_wdig a b : d4 a -> d4 b -> wdig (w4 a b).
Proof. intros [->|[->|[->| ->]]] [->|[->|[->| ->]]]; split; reflexivity || (split; discriminate). Qed.

(* --------------------------- glv, gs, signs --------------------------- *)
Lemma nbits_of w v : length w = 7%nat -> lb (2 ^ 63 - 64) w -> lval w = v -> 0 <= v < 2 ^ 406 -> big_nbits w = Some (bitlen v).
Proof.
  intros L B V VB. destruct (B_norm w L B) as (c & C & N). rewrite V in N.
  assert (R : rep 7 c v) by (apply nrep_rep; [exact N|exact VB]).
  pose proof (big_nbits_spec c v R) as H. unfold big_nbits in *. rewrite C. cbn [bind].
  assert (C2 : big_norm c = Some c).
  { unfold big_norm. apply norm_go_id; [exact (proj1 (proj2 N))|]. eapply rep_lb63; exact R. }
  rewrite C2 in H. exact H.
Qed.
Lemma r255_bnd : 2 ^ 254 < r255 < 2 ^ 255. Proof. split; reflexivity. Qed.
Definition picked (v : Z) (u' : BIG) (n : bool) : Prop :=
  let m := v mod r255 in if bitlen (r255 - m) <? bitlen v then rep 7 u' (r255 - m) /\ n = true else rep 7 u' m /\ n = false.
Lemma glv_pick_eq u v : length u = 7%nat -> lb (2 ^ 62) u -> lval u = v -> 0 <= v <= r255 ->
  ok (glv_pick u) (fun '(u', n) => picked v u' n).
Proof.
  intros L B V VB. pose proof r255_bnd as RB. pose proof order_rep as OR. unfold glv_pick, picked.
  assert (LB : lb (2 ^ 63 - 64) u) by (eapply lb_weak; [exact B|lia]).
  rewrite (nbits_of u v L LB V) by lia. cbn [bind].
  eapply ok_bind; [apply (big_rmod_spec u CURVE_ORDER r255 L LB); [lia|exact (rep_nrep _ _ _ OR)|lia]|].
  intros u1 U1. rewrite V in U1.
  pose proof (Z.mod_pos_bound v r255 ltac:(lia)) as M.
  apply nrep_rep in U1; [|change (58 * Z.of_nat 7) with 406; lia].
  assert (SB : ok (big_sub CURVE_ORDER u1) (fun t => length t = 7%nat /\ lb (2 ^ 63 - 64) t /\ lval t = r255 - v mod r255)).
  { destruct OR as (O1 & O2 & O3), U1 as (Q1 & Q2 & Q3).
    eapply ok_impl; [apply (big_sub_spec CURVE_ORDER u1 B58 B58); [rewrite O1, Q1; reflexivity|apply digs_lb; exact O2|apply digs_lb; exact Q2|lia|lia|lia]|].
    intros t (T1 & T2 & T3). split; [rewrite T1; exact O1|]. split; [eapply lb_weak; [exact T2|lia]|]. rewrite T3, O3, Q3. reflexivity. }
  eapply ok_bind; [exact SB|]. intros t (T1 & T2 & T3).
  rewrite (nbits_of t _ T1 T2 T3) by lia. cbn [bind]. cbv zeta.
  destruct (bitlen (r255 - v mod r255) <? bitlen v).
  - eapply ok_bind; [apply (norm_spec7 t T1 T2)|]. intros t' T'. cbn [ok]. rewrite T3 in T'.
    split; [apply nrep_rep; [exact T'|change (58 * Z.of_nat 7) with 406; lia]|reflexivity].
  - eapply ok_bind; [apply (norm_spec7 u1 (proj1 U1)); eapply rep_lb63; exact U1|]. intros t' T'. cbn [ok]. rewrite (proj2 (proj2 U1)) in T'.
    split; [apply nrep_rep; [exact T'|change (58 * Z.of_nat 7) with 406; lia]|reflexivity].
Qed.
Lemma picked_ok v u' n : 0 <= v <= r255 -> picked v u' n ->
  exists v' k, rep 7 u' v' /\ 0 <= v' <= r255 /\ (if n : bool then - v' else v') = v + k * r255.
Proof.
  intros VB. pose proof r255_bnd as RB. unfold picked. cbv zeta.
  pose proof (Z.mod_pos_bound v r255 ltac:(lia)) as M. pose proof (Z.div_mod v r255 ltac:(lia)) as D.
  destruct (bitlen (r255 - v mod r255) <? bitlen v); intros [R ->].
  - exists (r255 - v mod r255), (- (v / r255) - 1). split; [exact R|]. split; [lia|]. lia.
  - exists (v mod r255), (- (v / r255)). split; [exact R|]. split; [lia|]. lia.
Qed.
Lemma glv_pick_ok u v : length u = 7%nat -> lb (2 ^ 62) u -> lval u = v -> 0 <= v <= r255 ->
  ok (glv_pick u) (fun '(u', n) => exists v' k, rep 7 u' v' /\ 0 <= v' <= r255 /\ (if n : bool then - v' else v') = v + k * r255).
Proof.
  intros L B V VB. eapply ok_impl; [apply (glv_pick_eq u v L B V VB)|]. intros [u' n] P. apply (picked_ok v u' n VB P).
Qed.
Lemma bnx_u : rep 7 CURVE_BNX uZ. Proof. exact bnx_rep. Qed.
Lemma uZ_pos : 2 ^ 63 < uZ < 2 ^ 64. Proof. split; reflexivity. Qed.
Lemma u2_small : (uZ * uZ) mod 2 ^ 406 = uZ * uZ. Proof. reflexivity. Qed.
Lemma rsub_order a v : rep 7 a v -> ok (big_rsub a CURVE_ORDER) (fun t => length t = 7%nat /\ lb (2 ^ 62) t /\ lval t = r255 - v).
Proof.
  intros (Q1 & Q2 & Q3). destruct order_rep as (O1 & O2 & O3).
  eapply ok_impl; [apply (big_rsub_spec a CURVE_ORDER B58 B58); [rewrite O1, Q1; reflexivity|apply digs_lb; exact Q2|apply digs_lb; exact O2|lia|lia|lia]|].
  intros t (T1 & T2 & T3). split; [rewrite T1; exact Q1|]. split; [eapply lb_weak; [exact T2|lia]|]. rewrite T3, O3, Q3. reflexivity.
Qed.
Lemma glv_ok e v : rep 7 e v ->
  ok (glv e) (fun '(u0, u1) => rep 7 u0 (v mod (uZ * uZ)) /\ length u1 = 7%nat /\ lb (2 ^ 62) u1 /\ lval u1 = r255 - v / (uZ * uZ)).
Proof.
  intros E. pose proof uZ_pos as UP. assert (U2 : 0 < uZ * uZ < 2 ^ 409) by (split; reflexivity). unfold glv.
  eapply ok_bind; [apply (big_smul_ok _ _ _ _ bnx_u bnx_u)|]. intros x2 X. rewrite u2_small in X. apply rep_nrep in X.
  generalize dependent (uZ * uZ). intros X2 B X.
  destruct (B_rmod e v x2 X2 E X ltac:(lia)) as (u0 & R0 & U0). rewrite R0. cbn [bind].
  destruct (B_div e v x2 X2 E X ltac:(lia)) as (u1 & R1 & U1). rewrite R1. cbn [bind].
  eapply ok_bind; [apply (rsub_order u1 _ U1)|]. intros t T. cbn [ok]. split; [exact U0|exact T].
Qed.
Lemma modneg_order a v : rep 7 a v -> 0 <= v < r255 -> ok (big_modneg a CURVE_ORDER) (fun t => length t = 7%nat /\ lb (2 ^ 62) t /\ lval t = r255 - v).
Proof.
  intros A V. unfold big_modneg. destruct (B_rmod a v CURVE_ORDER r255 A (rep_nrep _ _ _ order_rep) ltac:(lia)) as (a' & R & A'). rewrite R. cbn [bind].
  rewrite Z.mod_small in A' by exact V. destruct A' as (Q1 & Q2 & Q3). destruct order_rep as (O1 & O2 & O3).
  eapply ok_impl; [apply (big_sub_spec CURVE_ORDER a' B58 B58); [rewrite O1, Q1; reflexivity|apply digs_lb; exact O2|apply digs_lb; exact Q2|lia|lia|lia]|].
  intros t (T1 & T2 & T3). split; [rewrite T1; exact O1|]. split; [eapply lb_weak; [exact T2|lia]|]. rewrite T3, O3, Q3. reflexivity.
Qed.
Definition loose (u : BIG) (v : Z) : Prop := length u = 7%nat /\ lb (2 ^ 62) u /\ lval u = v.
Lemma rep_loose u v : rep 7 u v -> loose u v.
Proof. intros (A & B & C). split; [exact A|]. split; [eapply lb_weak; [apply digs_lb; exact B|lia]|exact C]. Qed.
Lemma gs_ok e v : rep 7 e v ->
  ok (gs e) (fun u => exists u0 u1 u2 u3 d0 d1 d2 d3, u = [u0; u1; u2; u3] /\ loose u0 d0 /\ loose u1 (r255 - d1) /\ loose u2 d2 /\ loose u3 (r255 - d3) /\
    0 <= d0 < uZ /\ 0 <= d1 < uZ /\ 0 <= d2 < uZ /\ 0 <= d3 < r255 /\ v = d0 + uZ * (d1 + uZ * (d2 + uZ * d3))).
Proof.
  intros E. pose proof uZ_pos as UP. pose proof (rep_nrep _ _ _ bnx_u) as X. pose proof (rep_bound7 _ _ E) as VB. unfold gs.
  assert (UR : uZ < r255) by reflexivity. assert (U3 : 2 ^ 406 < uZ * (uZ * (uZ * r255))) by reflexivity.
  revert UP X UR U3. generalize uZ. intros x UP X UR U3.
  destruct (B_rmod e v CURVE_BNX x E X ltac:(lia)) as (u0 & R0 & U0). rewrite R0. cbn [bind].
  destruct (B_div e v CURVE_BNX x E X ltac:(lia)) as (w1 & S1 & W1). rewrite S1. cbn [bind].
  destruct (B_rmod w1 _ CURVE_BNX x W1 X ltac:(lia)) as (u1 & R1 & U1). rewrite R1. cbn [bind].
  destruct (B_div w1 _ CURVE_BNX x W1 X ltac:(lia)) as (w2 & S2 & W2). rewrite S2. cbn [bind].
  destruct (B_rmod w2 _ CURVE_BNX x W2 X ltac:(lia)) as (u2 & R2 & U2). rewrite R2. cbn [bind].
  destruct (B_div w2 _ CURVE_BNX x W2 X ltac:(lia)) as (w3 & S3 & W3). rewrite S3. cbn [bind].
  pose proof (Z.mod_pos_bound v x ltac:(lia)) as M0. pose proof (Z.div_mod v x ltac:(lia)) as D0.
  set (v1 := v / x) in *. assert (V1 : 0 <= v1) by (apply Z.div_pos; lia).
  pose proof (Z.mod_pos_bound v1 x ltac:(lia)) as M1. pose proof (Z.div_mod v1 x ltac:(lia)) as D1.
  set (v2 := v1 / x) in *. assert (V2 : 0 <= v2) by (apply Z.div_pos; lia).
  pose proof (Z.mod_pos_bound v2 x ltac:(lia)) as M2. pose proof (Z.div_mod v2 x ltac:(lia)) as D2.
  set (v3 := v2 / x) in *. assert (V3 : 0 <= v3) by (apply Z.div_pos; lia).
  assert (V3r : v3 < r255).
  { destruct (Z_lt_le_dec v3 r255) as [G|G]; [exact G|exfalso].
    assert (H2 : x * r255 <= v2) by (pose proof (Z.mul_le_mono_nonneg_l r255 v3 x ltac:(lia) G); lia).
    assert (H1 : x * (x * r255) <= v1) by (pose proof (Z.mul_le_mono_nonneg_l _ v2 x ltac:(lia) H2); lia).
    assert (H0 : x * (x * (x * r255)) <= v) by (pose proof (Z.mul_le_mono_nonneg_l _ v1 x ltac:(lia) H1); lia). lia. }
  eapply ok_bind; [apply (modneg_order u1 _ U1); lia|]. intros n1 N1.
  eapply ok_bind; [apply (modneg_order w3 _ W3); lia|]. intros n3 N3. cbn [ok].
  exists u0, n1, u2, n3, (v mod x), (v1 mod x), (v2 mod x), v3. split; [reflexivity|].
  split; [apply rep_loose; exact U0|]. split; [exact N1|]. split; [apply rep_loose; exact U2|]. split; [exact N3|].
  split; [exact M0|]. split; [exact M1|]. split; [exact M2|]. split; [lia|].
  rewrite D0 at 1. rewrite D1 at 1. rewrite D2 at 1. ring.
Qed.

(* ----------------------- the signs of mul4, pow4 ---------------------- *)
Lemma lor_ge_l a b : 0 <= a -> 0 <= b -> a <= Z.lor a b.
Proof.
  intros A B. assert (H : Z.lor a b = a + Z.ldiff b a).
  { rewrite Z.add_nocarry_lxor.
    - apply Z.bits_inj'. intros n N. rewrite Z.lxor_spec, Z.lor_spec, Z.ldiff_spec. destruct (Z.testbit a n), (Z.testbit b n); reflexivity.
    - apply Z.bits_inj'. intros n N. rewrite Z.land_spec, Z.ldiff_spec, Z.bits_0. destruct (Z.testbit a n), (Z.testbit b n); reflexivity. }
  rewrite H. assert (0 <= Z.ldiff b a) by (apply Z.ldiff_nonneg; left; exact B). lia.
Qed.
Lemma lor_ge_r a b : 0 <= a -> 0 <= b -> b <= Z.lor a b.
Proof. intros A B. rewrite Z.lor_comm. apply lor_ge_l; assumption. Qed.
Lemma lor_dig a b : 0 <= a < B58 -> 0 <= b < B58 -> 0 <= Z.lor a b < B58.
Proof.
  intros A B. assert (N : 0 <= Z.lor a b) by (apply Z.lor_nonneg; lia). split; [exact N|].
  destruct (Z.eq_dec (Z.lor a b) 0) as [->|NZ]; [lia|]. change B58 with (2 ^ 58). apply Z.log2_lt_pow2; [lia|].
  rewrite Z.log2_lor by lia.
  assert (forall x, 0 <= x < B58 -> Z.log2 x < 58).
  { intros x X. destruct (Z.eq_dec x 0) as [->|XZ]; [reflexivity|]. apply Z.log2_lt_pow2; [lia|]. exact (proj2 X). }
  pose proof (H a A). pose proof (H b B). lia.
Qed.
Lemma or_go a : forall b, length a = length b -> digs a -> digs b ->
  length (big_or a b) = length a /\ digs (big_or a b) /\ lval a <= lval (big_or a b) /\ lval b <= lval (big_or a b).
Proof.
  induction a as [|x a IH]; intros [|y b] L DA DB; try discriminate L.
  - cbn. split; [reflexivity|]. split; [exact DA|]. lia.
  - apply digs_cons in DA, DB. destruct DA as [A1 A2], DB as [B1 B2]. cbn [length] in L. injection L as L.
    destruct (IH b L A2 B2) as (H1 & H2 & H3 & H4). unfold big_or in *. cbn [map2 length lval].
    split; [lia|]. split; [apply digs_cons; split; [apply lor_dig; assumption|exact H2]|].
    pose proof (lor_ge_l x y ltac:(lia) ltac:(lia)). pose proof (lor_ge_r x y ltac:(lia) ltac:(lia)). lia.
Qed.
Lemma big_or_ok a b u v : rep 7 a u -> rep 7 b v -> exists w, rep 7 (big_or a b) w /\ u <= w /\ v <= w.
Proof.
  intros (A1 & A2 & A3) (B1 & B2 & B3). destruct (or_go a b ltac:(rewrite A1, B1; reflexivity) A2 B2) as (H1 & H2 & H3 & H4).
  exists (lval (big_or a b)). split; [split; [rewrite H1; exact A1|split; [exact H2|reflexivity]]|]. lia.
Qed.

Fixpoint pv (ss : list Z) : Z := match ss with [] => 0 | s :: r => s + 2 * pv r end.
Definition sgn1 (s : Z) : Prop := s = 1 \/ s = -1.
Lemma sign_pivot_ok n : forall t v, nrep 7 t v -> 0 <= v < 2 ^ Z.of_nat (S n) ->
  length (sign_pivot n t) = n /\ Forall sgn1 (sign_pivot n t) /\ pv (sign_pivot n t ++ [1]) = 2 * (v / 2) + 1.
Proof.
  induction n as [|n IH]; intros t v T V.
  - cbn [sign_pivot app length pv]. split; [reflexivity|]. split; [apply Forall_nil|]. change (2 ^ Z.of_nat 1) with 2 in V. rewrite Z.div_small by lia. reflexivity.
  - cbn [sign_pivot]. pose proof (fshr_spec7 t v 1 T ltac:(lia)) as T'. change (2 ^ 1) with 2 in T'.
    rewrite Nat2Z.inj_succ, Z.pow_succ_r in V by lia.
    assert (V' : 0 <= v / 2 < 2 ^ Z.of_nat (S n)) by (split; [apply Z.div_pos; lia|apply Z.div_lt_upper_bound; lia]).
    destruct (IH _ _ T' V') as (H1 & H2 & H3). cbv zeta. rewrite (parity_spec _ _ T').
    pose proof (Z.mod_pos_bound (v / 2) 2 ltac:(lia)) as M. pose proof (Z.div_mod (v / 2) 2 ltac:(lia)) as D.
    split; [cbn [length]; lia|]. split; [apply Forall_cons; [unfold sgn1; lia|exact H2]|].
    cbn [app pv]. rewrite H3. lia.
Qed.
Lemma pivot_step_ok s t v : sgn1 s -> nrep 7 t v -> 0 <= v <= 2 ^ 408 ->
  ok (pivot_step s t) (fun '(b, t') => (b = 0 \/ b = s) /\ exists v', nrep 7 t' v' /\ v = b + 2 * v' /\ 0 <= v' /\ 2 * v' <= v + 1 /\ (s = 1 -> 2 * v' <= v)).
Proof.
  intros S T V. unfold pivot_step. rewrite (parity_spec _ _ T). cbv zeta.
  pose proof (fshr_spec7 t v 1 T ltac:(lia)) as T'. change (2 ^ 1) with 2 in T'.
  pose proof (Z.mod_pos_bound v 2 ltac:(lia)) as M. pose proof (Z.div_mod v 2 ltac:(lia)) as D.
  assert (SH : -1 <= Z.shiftr (s * (v mod 2)) 1 <= 0 /\ v = s * (v mod 2) + 2 * (v / 2 - Z.shiftr (s * (v mod 2)) 1) /\ (s = 1 -> Z.shiftr (s * (v mod 2)) 1 = 0)).
  { destruct (Z.eq_dec (v mod 2) 0) as [G|G]; [rewrite G in *|assert (G1 : v mod 2 = 1) by lia; rewrite G1 in *]; destruct S as [-> | ->].
    - change (Z.shiftr (1 * 0) 1) with 0. lia.
    - change (Z.shiftr (-1 * 0) 1) with 0. lia.
    - change (Z.shiftr (1 * 1) 1) with 0. lia.
    - change (Z.shiftr (-1 * 1) 1) with (-1). lia. }
  destruct SH as (S1 & S2 & S3). set (h := Z.shiftr (s * (v mod 2)) 1) in *.
  rewrite <- bind_assoc. assert (HV : 0 <= v / 2 <= v) by lia.
  eapply ok_bind; [apply (dec_norm_spec _ _ h T'); lia|]. intros t' N. cbn [ok].
  split; [destruct (Z.eq_dec (v mod 2) 0) as [G|G]; [left|right]; [rewrite G|assert (G1 : v mod 2 = 1) by lia; rewrite G1]; lia|].
  exists (v / 2 - h). split; [exact N|]. split; [exact S2|]. split; [lia|].
  assert (X : -1 <= s * (v mod 2)) by (destruct S as [-> | ->]; lia). split; [lia|]. intros G. rewrite (S3 G). lia.
Qed.
(* a column: the sign and the three digits that go with it *)
Record col := Col { cs : Z; c1 : Z; c2 : Z; c3 : Z }.
Definition dg (c : col) : Z := 2 * (c1 c + 2 * c2 c + 4 * c3 c) + cs c.
Definition colok (c : col) : Prop := sgn1 (cs c) /\ (c1 c = 0 \/ c1 c = cs c) /\ (c2 c = 0 \/ c2 c = cs c) /\ (c3 c = 0 \/ c3 c = cs c).
Lemma pow_half n v v' : 2 * v' <= v + 1 -> v <= 2 ^ Z.of_nat (S n) -> v' <= 2 ^ Z.of_nat n.
Proof. intros A B. rewrite Nat2Z.inj_succ, Z.pow_succ_r in B by lia. lia. Qed.
Lemma pivot_digits_ok ss : forall t1 t2 t3 v1 v2 v3, Forall sgn1 ss -> nrep 7 t1 v1 -> nrep 7 t2 v2 -> nrep 7 t3 v3 ->
  0 <= v1 <= 2 ^ Z.of_nat (length ss) -> 0 <= v2 <= 2 ^ Z.of_nat (length ss) -> 0 <= v3 <= 2 ^ Z.of_nat (length ss) -> (length ss <= 406)%nat ->
  ok (pivot_digits (ss ++ [1]) t1 t2 t3) (fun ds => exists cl, ds = map dg cl /\ Forall colok cl /\ map cs cl = ss ++ [1] /\
    pv (map c1 cl) = v1 /\ pv (map c2 cl) = v2 /\ pv (map c3 cl) = v3).
Proof.
  induction ss as [|s ss IH]; intros t1 t2 t3 v1 v2 v3 S T1 T2 T3 V1 V2 V3 L.
  - change (2 ^ Z.of_nat (length (@nil Z))) with 1 in *. cbn [app pivot_digits]. assert (S1 : sgn1 1) by (left; reflexivity).
    eapply ok_bind; [apply (pivot_step_ok 1 t1 v1 S1 T1); lia|]. intros [b1 u1] (B1 & w1 & _ & E1 & P1 & _ & Q1). specialize (Q1 eq_refl).
    eapply ok_bind; [apply (pivot_step_ok 1 t2 v2 S1 T2); lia|]. intros [b2 u2] (B2 & w2 & _ & E2 & P2 & _ & Q2). specialize (Q2 eq_refl).
    eapply ok_bind; [apply (pivot_step_ok 1 t3 v3 S1 T3); lia|]. intros [b3 u3] (B3 & w3 & _ & E3 & P3 & _ & Q3). specialize (Q3 eq_refl).
    cbn [bind ok]. exists [Col 1 b1 b2 b3]. cbn [map dg cs c1 c2 c3 pv]. split; [reflexivity|].
    split; [apply Forall_cons; [split; [exact S1|]; split; [exact B1|]; split; [exact B2|exact B3]|apply Forall_nil]|].
    split; [reflexivity|]. lia.
  - cbn [length] in *. inversion S as [|x y S1 S2 X]; subst x y.
    assert (PB : 2 ^ Z.of_nat (Datatypes.S (length ss)) <= 2 ^ 408) by (apply Z.pow_le_mono_r; lia).
    cbn [app pivot_digits].
    eapply ok_bind; [apply (pivot_step_ok s t1 v1 S1 T1); lia|]. intros [b1 u1] (B1 & w1 & N1 & E1 & P1 & Q1 & _).
    eapply ok_bind; [apply (pivot_step_ok s t2 v2 S1 T2); lia|]. intros [b2 u2] (B2 & w2 & N2 & E2 & P2 & Q2 & _).
    eapply ok_bind; [apply (pivot_step_ok s t3 v3 S1 T3); lia|]. intros [b3 u3] (B3 & w3 & N3 & E3 & P3 & Q3 & _).
    eapply ok_bind; [apply (IH u1 u2 u3 w1 w2 w3 S2 N1 N2 N3)|].
    + split; [exact P1|eapply pow_half; [exact Q1|exact (proj2 V1)]].
    + split; [exact P2|eapply pow_half; [exact Q2|exact (proj2 V2)]].
    + split; [exact P3|eapply pow_half; [exact Q3|exact (proj2 V3)]].
    + lia.
    + intros ds (cl & C1 & C2 & C3 & C4 & C5 & C6). cbn [ok]. exists (Col s b1 b2 b3 :: cl).
      cbn [map dg cs c1 c2 c3 pv]. split; [rewrite C1; reflexivity|].
      split; [apply Forall_cons; [split; [exact S1|]; split; [exact B1|]; split; [exact B2|exact B3]|exact C2]|].
      split; [rewrite C3; reflexivity|]. lia.
Qed.
Lemma norm_rep t v : rep 7 t v -> ok (big_norm t) (fun t' => rep 7 t' v).
Proof.
  intros R. eapply ok_impl; [apply (norm_spec7 t (proj1 R)); eapply rep_lb63; exact R|]. intros t' N. rewrite (proj2 (proj2 R)) in N.
  apply nrep_rep; [exact N|]. exact (rep_bound7 _ _ R).
Qed.
Lemma mul4_recode_ok u0 u1 u2 u3 v0 v1 v2 v3 : rep 7 u0 v0 -> rep 7 u1 v1 -> rep 7 u2 v2 -> rep 7 u3 v3 -> v0 + 1 < 2 ^ 406 ->
  ok (mul4_recode [u0; u1; u2; u3]) (fun '(pb, ds) => exists cl, ds = map dg cl /\ cl <> [] /\ Forall colok cl /\
    (pb = 0 \/ pb = 1) /\ pv (map cs cl) = v0 + pb /\ pv (map c1 cl) = v1 /\ pv (map c2 cl) = v2 /\ pv (map c3 cl) = v3).
Proof.
  intros U0 U1 U2 U3 VB. unfold mul4_recode. cbn [getM nth_error bind].
  eapply ok_bind; [apply (norm_rep u0 v0 U0)|]. clear u0 U0. intros t0 T0.
  eapply ok_bind; [apply (norm_rep u1 v1 U1)|]. clear u1 U1. intros t1 T1.
  eapply ok_bind; [apply (norm_rep u2 v2 U2)|]. clear u2 U2. intros t2 T2.
  eapply ok_bind; [apply (norm_rep u3 v3 U3)|]. clear u3 U3. intros t3 T3.
  pose proof (rep_bound7 _ _ T0) as B0. pose proof (rep_bound7 _ _ T1) as B1. pose proof (rep_bound7 _ _ T2) as B2. pose proof (rep_bound7 _ _ T3) as B3.
  rewrite (parity_spec _ _ (rep_nrep _ _ _ T0)). set (pb := 1 - v0 mod 2).
  pose proof (Z.mod_pos_bound v0 2 ltac:(lia)) as M. pose proof (Z.div_mod v0 2 ltac:(lia)) as D.
  assert (PB : pb = 0 \/ pb = 1) by (unfold pb; lia). cbv zeta. rewrite <- bind_assoc.
  eapply ok_bind; [apply (inc_norm_spec t0 v0 pb (rep_nrep _ _ _ T0)); lia|]. intros s0 N0.
  assert (S0 : rep 7 s0 (v0 + pb)) by (apply nrep_rep; [exact N0|change (58 * Z.of_nat 7) with 406; lia]).
  assert (Z0 : rep 7 big_new 0).
  { split; [reflexivity|]. split; [|reflexivity]. apply (norml_digs big_new); [apply nrep_zero|]. change (lval big_new) with 0. cbn. lia. }
  destruct (big_or_ok _ _ _ _ Z0 S0) as (w0 & W0 & G0 & G0').
  destruct (big_or_ok _ _ _ _ W0 T1) as (w1 & W1 & G1 & G1').
  destruct (big_or_ok _ _ _ _ W1 T2) as (w2 & W2 & G2 & G2').
  destruct (big_or_ok _ _ _ _ W2 T3) as (w3 & W3 & G3 & G3').
  rewrite (big_nbits_spec _ _ W3). cbn [bind]. pose proof (rep_bound7 _ _ W3) as BW.
  pose proof (bitlen_bound w3 ltac:(lia)) as BL. pose proof (bitlen_le w3 406 ltac:(lia) BW) as BU. pose proof (bitlen_nonneg w3) as BN.
  destruct (Nat.ltb_spec 407 (Z.to_nat (1 + bitlen w3))) as [G|G]; [exfalso; lia|].
  replace (Z.to_nat (1 + bitlen w3) - 1)%nat with (Z.to_nat (bitlen w3)) by lia. set (n := Z.to_nat (bitlen w3)).
  assert (NZ : Z.of_nat n = bitlen w3) by (unfold n; lia). rewrite <- NZ in BL. clearbody n.
  assert (PS : 2 ^ Z.of_nat n <= 2 ^ Z.of_nat (S n)) by (apply Z.pow_le_mono_r; lia).
  destruct (sign_pivot_ok n s0 (v0 + pb) N0 ltac:(lia)) as (P1 & P2 & P3).
  eapply ok_bind; [apply (pivot_digits_ok _ t1 t2 t3 v1 v2 v3 P2 (rep_nrep _ _ _ T1) (rep_nrep _ _ _ T2) (rep_nrep _ _ _ T3)); rewrite P1; lia|].
  intros ds (cl & C1 & C2 & C3 & C4 & C5 & C6). cbn [ok]. exists cl. split; [exact C1|].
  split; [intros ->; destruct (sign_pivot n s0); discriminate C3|]. split; [exact C2|]. split; [exact PB|].
  split; [rewrite C3, P3; unfold pb in *; clear - M D PB; mlia|]. split; [exact C4|]. split; [exact C5|exact C6].
Qed.
Lemma dg_wdig c : colok c -> wdig (dg c).
Proof.
  destruct c as [s b1 b2 b3]. unfold colok, dg. cbn [cs c1 c2 c3]. intros (S & [->| ->] & [->| ->] & [->| ->]); destruct S as [-> | ->]; split; reflexivity || (split; discriminate).
Qed.
