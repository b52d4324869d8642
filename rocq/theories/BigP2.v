(* Reduction, division, byte conversion and bit counting on BIG/DBIG. *)
From Coq Require Import Lia ZifyBool Znumtheory.
From Verif Require Import Prim PrimP Rom Big BigP.

(* w is the n-limb list of digits of v *)
Definition rep (n : nat) (w : list Z) (v : Z) : Prop := length w = n /\ digs w /\ lval w = v.
(* the same with an unrestricted top limb *)
Definition nrep (n : nat) (w : list Z) (v : Z) : Prop := length w = n /\ norml w /\ lval w = v.

Lemma rep_nrep n w v : rep n w v -> nrep n w v.
Proof. intros (A & B & C). repeat split; auto using digs_norml. Qed.
Lemma nrep_rep n w v : nrep n w v -> 0 <= v < 2 ^ (58 * Z.of_nat n) -> rep n w v.
Proof. intros (A & B & C) H. repeat split; auto. apply norml_digs; auto. rewrite A, C; auto. Qed.
Lemma rep_bound n w v : rep n w v -> 0 <= v < 2 ^ (58 * Z.of_nat n).
Proof. intros (A & B & C). apply digs_val in B. rewrite A, C in B. exact B. Qed.
Lemma rep_bound7 w v : rep 7 w v -> 0 <= v < 2 ^ 406.
Proof. apply rep_bound. Qed.
Lemma rep_inj n a b v : rep n a v -> rep n b v -> a = b.
Proof. intros (A & B & C) (A' & B' & C'). apply digs_inj; congruence. Qed.
Lemma nrep_inj n a b v : nrep n a v -> nrep n b v -> a = b.
Proof. intros (A & B & C) (A' & B' & C'). apply norml_inj; congruence. Qed.
Lemma rep_lb n w v : rep n w v -> lb B58 w.
Proof. intros (_ & B & _). apply digs_lb, B. Qed.

Lemma nrep_top n w v : nrep (S n) w v -> limb w n = v / 2 ^ (58 * Z.of_nat n).
Proof. intros (A & B & C). rewrite <- C. apply norml_top; auto. Qed.

(* limb bounds of a normalised list with small nonnegative value *)
Lemma norml_lb n w v M : nrep (S n) w v -> 0 < M -> B58 <= M ->
  - M * 2 ^ (58 * Z.of_nat n) <= v < (M + 1) * 2 ^ (58 * Z.of_nat n) -> lb M w.
Proof.
  intros H HM HB Hv.
  assert (T : - M <= limb w n <= M).
  { rewrite (nrep_top _ _ _ H).
    assert (P : 0 < 2 ^ (58 * Z.of_nat n)) by (apply Z.pow_pos_nonneg; lia).
    split.
    - apply Z.div_le_lower_bound; lia.
    - apply Z.lt_succ_r. apply Z.div_lt_upper_bound; lia. }
  destruct H as (A & B & _). clear Hv v. revert w A B T.
  induction n as [|n IH]; intros w A B T.
  - destruct w as [|x [|]]; simpl in A; try lia. unfold limb in T; cbn in T.
    apply lb_cons. split; [lia|constructor].
  - destruct w as [|x [|y r]]; simpl in A; try lia.
    apply norml_cons in B. destruct B as [B1 B2]. apply lb_cons. split; [lia|].
    apply IH; auto.
Qed.
Lemma nrep7_lb w v : nrep 7 w v -> - 2 ^ 408 <= v < 2 ^ 408 -> lb (2 ^ 60) w.
Proof.
  intros H Hv. apply (norml_lb 6 w v); [exact H|lia|lia|].
  change (58 * Z.of_nat 6) with 348. lia.
Qed.
Lemma nrep7_lb61 w v : nrep 7 w v -> - 2 ^ 409 <= v < 2 ^ 409 -> lb (2 ^ 61) w.
Proof.
  intros H Hv. apply (norml_lb 6 w v); [exact H|lia|lia|].
  change (58 * Z.of_nat 6) with 348. lia.
Qed.
Lemma nrep14_lb61 w v : nrep 14 w v -> - 2 ^ 815 <= v < 2 ^ 815 -> lb (2 ^ 61) w.
Proof.
  intros H Hv. apply (norml_lb 13 w v); [exact H|lia|lia|].
  change (58 * Z.of_nat 13) with 754. lia.
Qed.

Lemma norm_spec7 w : length w = 7%nat -> lb (2 ^ 63 - 64) w -> ok (big_norm w) (fun r => nrep 7 r (lval w)).
Proof. intros. apply big_norm_spec; auto. Qed.
Lemma norm_spec14 w : length w = 14%nat -> lb (2 ^ 63 - 64) w -> ok (dbig_norm w) (fun r => nrep 14 r (lval w)).
Proof. intros. apply dbig_norm_spec; auto. Qed.

(* ---- shifts ------------------------------------------------------- *)
Lemma fshl_spec7 w v k : nrep 7 w v -> 0 <= k < 58 -> - 2 ^ 410 <= v * 2 ^ k < 2 ^ 410 ->
  nrep 7 (big_fshl w k) (v * 2 ^ k).
Proof.
  intros H K V. pose proof H as (A & B & C).
  assert (P : 0 < 2 ^ k) by (apply Z.pow_pos_nonneg; lia).
  destruct (fshl_go_spec k w 0) as [F1 F2]; auto; try lia.
  - destruct w; simpl in A; congruence.
  - rewrite A. cbv zeta. cbn [pred]. rewrite (nrep_top 6 w v H).
    change (58 * Z.of_nat 6) with 348.
    pose proof (Z.mul_div_le v (2 ^ 348) ltac:(lia)).
    pose proof (Z.mul_succ_div_gt v (2 ^ 348) ltac:(lia)).
    set (d := v / 2 ^ 348) in *. clearbody d.
    pose proof (Z.mul_le_mono_nonneg_r _ _ (2 ^ k) ltac:(lia) H0).
    assert (v <= 2 ^ 348 * Z.succ d) by lia.
    pose proof (Z.mul_le_mono_nonneg_r _ _ (2 ^ k) ltac:(lia) H2).
    assert (2 ^ k < 2 ^ 58) by (apply Z.pow_lt_mono_r; lia).
    remember (2 ^ k) as K2. clear - H1 H3 H4 H5 V P. nia.
  - repeat split.
    + unfold big_fshl. rewrite fshl_go_length. exact A.
    + exact F1.
    + unfold big_fshl. rewrite F2, C. rewrite Z.div_0_l by (apply Z.pow_nonzero; lia). lia.
Qed.
Lemma fshr_spec7 w v k : nrep 7 w v -> 0 <= k < 58 -> nrep 7 (big_fshr w k) (v / 2 ^ k).
Proof.
  intros (A & B & C) K. destruct (fshr_go_spec k w K B) as [F1 F2]. unfold big_fshr.
  repeat split; auto. rewrite fshr_go_length; auto. congruence.
Qed.
Lemma dbig_shl1_spec w v : nrep 14 w v -> - 2 ^ 815 <= v < 2 ^ 815 ->
  ok (dbig_shl w 1) (fun r => nrep 14 r (2 * v)).
Proof.
  intros H V. pose proof H as (A & B & C).
  unfold dbig_shl. change (1 mod BASEBITS) with 1. change (Z.to_nat (1 / BASEBITS)) with 0%nat.
  cbn [Nat.ltb Nat.leb repeat app Nat.sub ok].
  replace (firstn 14 w) with w by (symmetry; apply firstn_all2; lia).
  destruct (fshl_go_spec 1 w 0) as [F1 F2]; auto; try lia.
  - destruct w; simpl in A; congruence.
  - rewrite A. cbv zeta. cbn [pred]. rewrite (nrep_top 13 w v H).
    change (58 * Z.of_nat 13) with 754.
    pose proof (Z.mul_div_le v (2 ^ 754) ltac:(lia)).
    pose proof (Z.mul_succ_div_gt v (2 ^ 754) ltac:(lia)).
    set (d := v / 2 ^ 754) in *. change (2 ^ 1) with 2. lia.
  - repeat split.
    + rewrite fshl_go_length. exact A.
    + exact F1.
    + rewrite F2, C. rewrite Z.div_0_l by (apply Z.pow_nonzero; lia). change (2 ^ 1) with 2. lia.
Qed.
Lemma dbig_shr1_spec w v : nrep 14 w v -> ok (dbig_shr w 1) (fun r => nrep 14 r (v / 2)).
Proof.
  intros (A & B & C). unfold dbig_shr, shr_gen.
  change (1 mod BASEBITS) with 1. change (Z.to_nat (1 / BASEBITS)) with 0%nat.
  rewrite A. cbn [Nat.ltb Nat.leb repeat skipn ok]. rewrite app_nil_r.
  destruct (fshr_go_spec 1 w ltac:(lia) B) as [F1 F2].
  repeat split; auto. rewrite fshr_go_length; auto. rewrite F2, C. reflexivity.
Qed.
Lemma big_shr_spec w v k : nrep 7 w v -> 0 <= k < 58 -> ok (big_shr w k) (fun r => nrep 7 r (v / 2 ^ k)).
Proof.
  intros H K. pose proof H as (A & B & C). unfold big_shr, shr_gen.
  change BASEBITS with 58. rewrite Z.mod_small by lia. rewrite Z.div_small by lia.
  rewrite A. change (Z.to_nat 0) with 0%nat. cbn [Nat.ltb Nat.leb repeat skipn ok]. rewrite app_nil_r.
  apply fshr_spec7; auto.
Qed.
Lemma big_shl1_spec w v : nrep 7 w v -> - 2 ^ 409 <= v < 2 ^ 409 ->
  ok (big_shl w 1) (fun r => nrep 7 r (2 * v)).
Proof.
  intros H V. unfold big_shl. change (1 mod BASEBITS) with 1. change (Z.to_nat (1 / BASEBITS)) with 0%nat.
  cbn [Nat.ltb Nat.leb repeat app Nat.sub ok].
  replace (firstn 7 w) with w by (symmetry; apply firstn_all2; destruct H; lia).
  replace (2 * v) with (v * 2 ^ 1) by lia.
  apply fshl_spec7; auto; lia.
Qed.

(* ---- conditional move --------------------------------------------- *)
Lemma cmove0 a b : length a = length b -> big_cmove a b 0 = a.
Proof.
  revert b. induction a as [|x a IH]; destruct b as [|y b]; simpl length; intros; try lia; auto.
  unfold big_cmove in *. cbn [map2]. rewrite IH by lia. change (- 0) with 0. rewrite xor_keep. reflexivity.
Qed.
Lemma cmove1 a b : length a = length b -> big_cmove a b 1 = b.
Proof.
  revert b. induction a as [|x a IH]; destruct b as [|y b]; simpl length; intros; try lia; auto.
  unfold big_cmove in *. cbn [map2]. rewrite IH by lia. change (- (1)) with (-1). rewrite xor_sel. reflexivity.
Qed.
Lemma nonneg_flag_spec t : -9223372036854775808 <= t <= 9223372036854775807 ->
  nonneg_flag t = if t <? 0 then 0 else 1.
Proof.
  intros H. unfold nonneg_flag. rewrite shiftr_div by lia.
  destruct (Z.ltb_spec t 0).
  - replace (t / 2 ^ 63) with (-1) by (apply Z.div_unique with (t + 2 ^ 63); lia). reflexivity.
  - rewrite Z.div_small by lia. reflexivity.
Qed.

(* ---- rmod ---------------------------------------------------------- *)
Lemma pow_succ_nat j : 2 ^ Z.of_nat (S j) = 2 * 2 ^ Z.of_nat j.
Proof. replace (Z.of_nat (S j)) with (1 + Z.of_nat j) by lia. rewrite Z.pow_add_r by lia. lia. Qed.
Lemma pow_pos_nat j : 0 < 2 ^ Z.of_nat j.
Proof. apply Z.pow_pos_nonneg; lia. Qed.

Lemma rmod_up_spec fuel : forall a m k av mv,
  nrep 7 a av -> nrep 7 m mv -> 0 < mv <= av -> av < 2 ^ 408 -> av < mv * 2 ^ Z.of_nat fuel ->
  ok (rmod_up fuel a m k) (fun '(m', k') => exists j, k' = (k + j)%nat /\ (1 <= j)%nat /\
     nrep 7 m' (mv * 2 ^ Z.of_nat j) /\ av < mv * 2 ^ Z.of_nat j <= 2 * av).
Proof.
  induction fuel as [|f IH]; intros a m k av mv Ha Hm L U F.
  - change (Z.of_nat 0) with 0 in F. rewrite Z.pow_0_r in F. lia.
  - assert (S : nrep 7 (big_fshl m 1) (mv * 2 ^ 1)) by (apply fshl_spec7; auto; lia).
    cbn [rmod_up].
    pose proof Ha as (A1 & A2 & A3). pose proof S as (S1 & S2 & S3).
    rewrite big_comp_ltb by (auto; congruence). rewrite A3, S3.
    change (2 ^ 1) with 2 in *.
    destruct (Z.ltb_spec av (mv * 2)) as [Lt|Ge].
    + cbn [ok]. exists 1%nat. change (2 ^ Z.of_nat 1) with 2.
      split; [lia|]. split; [lia|]. split; [exact S|lia].
    + eapply ok_impl.
      * apply (IH a (big_fshl m 1) (Datatypes.S k) av (mv * 2)); auto; try lia.
        rewrite pow_succ_nat in F. lia.
      * intros [m' k'] (j & J1 & J2 & J3 & J4). exists (Datatypes.S j).
        rewrite pow_succ_nat.
        replace (mv * (2 * 2 ^ Z.of_nat j)) with (mv * 2 * 2 ^ Z.of_nat j) by ring.
        split; [lia|]. split; [lia|]. split; [exact J3|exact J4].
Qed.

(* one conditional subtraction step, shared by rmod, div *)
Lemma cond_sub7 a m av mv : nrep 7 a av -> nrep 7 m mv -> 0 <= av < 2 ^ 409 -> 0 <= mv < 2 ^ 409 ->
  ok (r0 <- big_sub a m ;; r <- big_norm r0 ;; Some r) (fun r =>
    nonneg_flag (limb r 6) = (if av <? mv then 0 else 1) /\
    nrep 7 r (av - mv) /\
    nrep 7 (big_cmove a r (nonneg_flag (limb r 6))) (if av <? mv then av else av - mv)).
Proof.
  intros Ha Hm Va Vm. pose proof Ha as (A1 & A2 & A3). pose proof Hm as (M1 & M2 & M3).
  eapply ok_bind.
  { eapply big_sub_spec; [congruence|apply (nrep7_lb61 _ _ Ha)|apply (nrep7_lb61 _ _ Hm)|..]; lia. }
  intros r0 (R1 & R2 & R3). eapply ok_bind.
  { apply norm_spec7; [congruence|]. eapply lb_weak; [exact R2|lia]. }
  intros r Hr. rewrite R3, A3, M3 in Hr. cbn [ok].
  assert (F : nonneg_flag (limb r 6) = if av <? mv then 0 else 1).
  { rewrite (nrep_top 6 _ _ Hr). change (58 * Z.of_nat 6) with 348.
    pose proof (Z.mul_div_le (av - mv) (2 ^ 348) ltac:(lia)).
    pose proof (Z.mul_succ_div_gt (av - mv) (2 ^ 348) ltac:(lia)).
    rewrite nonneg_flag_spec by lia.
    destruct (Z.ltb_spec av mv); destruct (Z.ltb_spec ((av - mv) / 2 ^ 348) 0); lia. }
  split; [exact F|]. split; [exact Hr|]. rewrite F.
  pose proof Hr as (X1 & X2 & X3).
  destruct (av <? mv); [rewrite cmove0|rewrite cmove1]; auto; congruence.
Qed.

Lemma fshr_half w n k : nrep 7 w (n * 2 ^ Z.of_nat (S k)) -> nrep 7 (big_fshr w 1) (n * 2 ^ Z.of_nat k).
Proof.
  intros H. replace (n * 2 ^ Z.of_nat k) with (n * 2 ^ Z.of_nat (S k) / 2 ^ 1).
  - apply fshr_spec7; auto; lia.
  - rewrite pow_succ_nat. change (2 ^ 1) with 2.
    replace (n * (2 * 2 ^ Z.of_nat k)) with (n * 2 ^ Z.of_nat k * 2) by ring.
    apply Z.div_mul; lia.
Qed.

Lemma rmod_down_spec k : forall a m av n,
  nrep 7 a av -> nrep 7 m (n * 2 ^ Z.of_nat k) -> 0 < n -> 0 <= av < n * 2 ^ Z.of_nat k ->
  n * 2 ^ Z.of_nat k < 2 ^ 409 ->
  ok (rmod_down k a m) (fun r => nrep 7 r (av mod n)).
Proof.
  induction k as [|k IH]; intros a m av n Ha Hm N V U.
  - change (2 ^ Z.of_nat 0) with 1 in *. cbn [rmod_down ok].
    rewrite Z.mod_small by lia. exact Ha.
  - pose proof (fshr_half _ _ _ Hm) as S. rewrite pow_succ_nat in *. pose proof (pow_pos_nat k) as PK.
    cbn [rmod_down].
    set (M := n * 2 ^ Z.of_nat k) in *.
    assert (M0 : 0 < M) by (subst M; apply Z.mul_pos_pos; lia).
    assert (E2 : n * (2 * 2 ^ Z.of_nat k) = 2 * M) by (subst M; ring). rewrite E2 in *.
    pose proof (cond_sub7 a (big_fshr m 1) av M Ha S ltac:(lia) ltac:(lia)) as C.
    destruct (big_sub a (big_fshr m 1)) as [r0|]; [|contradiction]. cbn [bind] in *.
    destruct (big_norm r0) as [r|]; [|contradiction]. cbn [bind ok] in *.
    destruct C as (_ & _ & C).
    destruct (Z.ltb_spec av M).
    + apply IH; auto; fold M; lia.
    + replace (av mod n) with ((av - M) mod n).
      * apply IH; auto; fold M; lia.
      * rewrite <- (Z_mod_plus_full av (- 2 ^ Z.of_nat k) n). f_equal. subst M. ring.
Qed.

Lemma nrep_lt_rep7 w v : nrep 7 w v -> 0 <= v < 2 ^ 406 -> rep 7 w v.
Proof. intros. apply nrep_rep; auto. Qed.

Lemma big_rmod_spec a n nv : length a = 7%nat -> lb (2 ^ 63 - 64) a -> 0 <= lval a < 2 ^ 408 ->
  nrep 7 n nv -> 0 < nv ->
  ok (big_rmod a n) (fun r => nrep 7 r (lval a mod nv)).
Proof.
  intros La Lb V Hn N. unfold big_rmod.
  eapply ok_bind; [apply norm_spec7; auto|]. intros a' Ha. 
  pose proof Ha as (A1 & A2 & A3). pose proof Hn as (N1 & N2 & N3).
  rewrite big_comp_ltb by (auto; congruence). rewrite A3, N3.
  destruct (Z.ltb_spec (lval a) nv).
  - cbn [ok]. rewrite Z.mod_small by lia. exact Ha.
  - eapply ok_bind.
    + apply (rmod_up_spec 2000 a' n 0 (lval a) nv); auto; try lia.
    + intros [m k] (j & J1 & J2 & J3 & J4). cbn in J1. subst k.
      apply rmod_down_spec; auto; lia.
Qed.

(* ---- div ----------------------------------------------------------- *)
Lemma div_up_spec fuel : forall b m e k bv mv ev,
  nrep 7 b bv -> nrep 7 m mv -> nrep 7 e ev -> 0 < mv -> 0 <= bv < 2 ^ 408 -> 0 < ev <= mv ->
  bv < mv * 2 ^ Z.of_nat fuel -> mv < 2 ^ 409 ->
  ok (div_up (S fuel) b m e k) (fun '(m', e', k') => exists j, k' = (k + j)%nat /\
     nrep 7 m' (mv * 2 ^ Z.of_nat j) /\ nrep 7 e' (ev * 2 ^ Z.of_nat j) /\
     bv < mv * 2 ^ Z.of_nat j < 2 ^ 409).
Proof.
  induction fuel as [|f IH]; intros b m e k bv mv ev Hb Hm He M B E F U.
  - change (2 ^ Z.of_nat 0) with 1 in F. cbn [div_up].
    pose proof Hb as (B1 & B2 & B3). pose proof Hm as (M1 & M2 & M3).
    rewrite big_comp_geb by (auto; congruence). rewrite B3, M3.
    destruct (Z.leb_spec mv bv); [lia|]. cbn [ok]. exists 0%nat. change (2 ^ Z.of_nat 0) with 1.
    rewrite !Z.mul_1_r. split; [lia|]. split; [exact Hm|]. split; [exact He|lia].
  - pose proof Hb as (B1 & B2 & B3). pose proof Hm as (M1 & M2 & M3).
    cbn [div_up]. rewrite big_comp_geb by (auto; congruence). rewrite B3, M3.
    destruct (Z.leb_spec mv bv).
    + assert (Sm : nrep 7 (big_fshl m 1) (mv * 2)) by (apply (fshl_spec7 m mv 1); auto; lia).
      assert (Se : nrep 7 (big_fshl e 1) (ev * 2)) by (apply (fshl_spec7 e ev 1); auto; lia).
      eapply ok_impl.
      * apply (IH b (big_fshl m 1) (big_fshl e 1) (S k) bv (mv * 2) (ev * 2)); auto; try lia.
        rewrite pow_succ_nat in F. lia.
      * intros [[m' e'] k'] (j & J1 & J2 & J3 & J4). exists (S j).
        rewrite pow_succ_nat.
        replace (mv * (2 * 2 ^ Z.of_nat j)) with (mv * 2 * 2 ^ Z.of_nat j) by ring.
        replace (ev * (2 * 2 ^ Z.of_nat j)) with (ev * 2 * 2 ^ Z.of_nat j) by ring.
        split; [lia|]. split; [exact J2|]. split; [exact J3|exact J4].
    + cbn [ok]. exists 0%nat. change (2 ^ Z.of_nat 0) with 1.
      rewrite !Z.mul_1_r. split; [lia|]. split; [exact Hm|]. split; [exact He|lia].
Qed.

Lemma div_down_spec k : forall q b m e qv bv n,
  nrep 7 q qv -> nrep 7 b bv -> nrep 7 m (n * 2 ^ Z.of_nat k) -> nrep 7 e (1 * 2 ^ Z.of_nat k) ->
  0 < n -> 0 <= bv < n * 2 ^ Z.of_nat k -> n * 2 ^ Z.of_nat k < 2 ^ 409 -> 0 <= qv ->
  qv + 2 ^ Z.of_nat k < 2 ^ 409 ->
  ok (div_down k q b m e) (fun r => nrep 7 r (qv + bv / n)).
Proof.
  induction k as [|k IH]; intros q b m e qv bv n Hq Hb Hm He N V U Q QU.
  - change (2 ^ Z.of_nat 0) with 1 in *. cbn [div_down ok].
    rewrite Z.div_small by lia. rewrite Z.add_0_r. exact Hq.
  - pose proof (fshr_half _ _ _ Hm) as Sm. pose proof (fshr_half _ _ _ He) as Se.
    rewrite pow_succ_nat in *. pose proof (pow_pos_nat k) as PK.
    cbn [div_down].
    set (M := n * 2 ^ Z.of_nat k) in *.
    assert (M0 : 0 < M) by (subst M; apply Z.mul_pos_pos; lia).
    assert (E2 : n * (2 * 2 ^ Z.of_nat k) = 2 * M) by (subst M; ring). rewrite E2 in *.
    pose proof (cond_sub7 b (big_fshr m 1) bv M Hb Sm ltac:(lia) ltac:(lia)) as C.
    destruct (big_sub b (big_fshr m 1)) as [r0|]; [|contradiction]. cbn [bind] in *.
    destruct (big_norm r0) as [r|]; [|contradiction]. cbn [bind ok] in *.
    destruct C as (F & _ & C). rewrite F in *.
    rewrite Z.mul_1_l in *.
    pose proof Hq as (Q1 & Q2 & Q3). pose proof Se as (E1 & E3 & E4).
    eapply ok_bind.
    { eapply big_add_spec; [|apply (nrep7_lb61 _ _ Hq)|apply (nrep7_lb61 _ _ Se)|..]; try lia. }
    intros s0 (S1 & S2 & S3). eapply ok_bind.
    { apply norm_spec7; [congruence|]. eapply lb_weak; [exact S2|lia]. }
    intros s Hs. rewrite S3, Q3, E4 in Hs. pose proof Hs as (T1 & T2 & T3).
    destruct (Z.ltb_spec bv M).
    + rewrite (cmove0 q s) by congruence.
      apply IH; auto; fold M; rewrite ?Z.mul_1_l; try lia; auto.
    + rewrite (cmove1 q s) by congruence.
      replace (qv + bv / n) with (qv + 2 ^ Z.of_nat k + (bv - M) / n).
      * apply IH; auto; fold M; rewrite ?Z.mul_1_l; try lia; auto.
      * replace ((bv - M) / n) with (bv / n + (- 2 ^ Z.of_nat k)); [lia|].
        rewrite <- Z.div_add by lia. f_equal. subst M. ring.
Qed.

Lemma nrep_zero : nrep 7 big_new 0.
Proof. repeat split; simpl; lia. Qed.
Lemma nrep_one : nrep 7 big_one 1.
Proof. repeat split; simpl; lia. Qed.

Lemma big_div_spec a n nv : length a = 7%nat -> lb (2 ^ 63 - 64) a -> 0 <= lval a < 2 ^ 408 ->
  nrep 7 n nv -> 0 < nv < 2 ^ 409 ->
  ok (big_div a n) (fun r => nrep 7 r (lval a / nv)).
Proof.
  intros La Lb V Hn N. unfold big_div.
  eapply ok_bind; [apply norm_spec7; auto|]. intros b Hb.
  eapply ok_bind.
  - change 2000%nat with (S 1999).
    apply (div_up_spec 1999 b n (big_new_int 1) 0 (lval a) nv 1); auto; try lia.
    + apply nrep_one.
  - intros [[m e] k] (j & J1 & J2 & J3 & J4). cbn in J1. subst k.
    pose proof (pow_pos_nat j).
    change (lval a / nv) with (0 + lval a / nv).
    apply div_down_spec; auto; try lia; try apply nrep_zero; try nia.
Qed.

(* ---- dmod ----------------------------------------------------------- *)
Lemma dmod_up_spec fuel : forall a m k av mv,
  nrep 14 a av -> nrep 14 m mv -> 0 < mv <= av -> av < 2 ^ 814 -> av < mv * 2 ^ Z.of_nat fuel ->
  ok (dmod_up fuel a m k) (fun '(m', k') => exists j, k' = (k + j)%nat /\ (1 <= j)%nat /\
     nrep 14 m' (mv * 2 ^ Z.of_nat j) /\ av < mv * 2 ^ Z.of_nat j <= 2 * av).
Proof.
  induction fuel as [|f IH]; intros a m k av mv Ha Hm L U F.
  - change (2 ^ Z.of_nat 0) with 1 in F. lia.
  - cbn [dmod_up]. eapply ok_bind; [apply (dbig_shl1_spec _ _ Hm); lia|].
    intros m' S. pose proof Ha as (A1 & A2 & A3). pose proof S as (S1 & S2 & S3).
    rewrite big_comp_ltb by (auto; congruence). rewrite A3, S3.
    destruct (Z.ltb_spec av (2 * mv)) as [Lt|Ge].
    + cbn [ok]. exists 1%nat. change (2 ^ Z.of_nat 1) with 2. rewrite (Z.mul_comm mv 2).
      split; [lia|]. split; [lia|]. split; [exact S|lia].
    + eapply ok_impl.
      * apply (IH a m' (Datatypes.S k) av (2 * mv)); auto; try lia.
        rewrite pow_succ_nat in F. lia.
      * intros [m'' k'] (j & J1 & J2 & J3 & J4). exists (Datatypes.S j).
        rewrite pow_succ_nat.
        replace (mv * (2 * 2 ^ Z.of_nat j)) with (2 * mv * 2 ^ Z.of_nat j) by ring.
        split; [lia|]. split; [lia|]. split; [exact J3|exact J4].
Qed.

Lemma dmod_down_spec k : forall a m av n,
  nrep 14 a av -> nrep 14 m (n * 2 ^ Z.of_nat k) -> 0 < n -> 0 <= av < n * 2 ^ Z.of_nat k ->
  n * 2 ^ Z.of_nat k < 2 ^ 815 ->
  ok (dmod_down k a m) (fun r => nrep 14 r (av mod n)).
Proof.
  induction k as [|k IH]; intros a m av n Ha Hm N V U.
  - change (2 ^ Z.of_nat 0) with 1 in *. cbn [dmod_down ok].
    rewrite Z.mod_small by lia. exact Ha.
  - rewrite pow_succ_nat in *. pose proof (pow_pos_nat k) as PK.
    cbn [dmod_down]. eapply ok_bind; [apply (dbig_shr1_spec _ _ Hm)|].
    set (M := n * 2 ^ Z.of_nat k) in *.
    assert (M0 : 0 < M) by (subst M; apply Z.mul_pos_pos; lia).
    assert (E2 : n * (2 * 2 ^ Z.of_nat k) = M * 2) by (subst M; ring). rewrite E2 in *.
    rewrite Z.div_mul by lia.
    intros m' S. pose proof Ha as (A1 & A2 & A3). pose proof S as (M1 & M2 & M3).
    eapply ok_bind.
    { eapply big_sub_spec; [congruence|apply (nrep14_lb61 _ _ Ha)|apply (nrep14_lb61 _ _ S)|..]; lia. }
    intros r0 (R1 & R2 & R3). eapply ok_bind.
    { apply norm_spec14; [congruence|]. eapply lb_weak; [exact R2|lia]. }
    intros r Hr. rewrite R3, A3, M3 in Hr. cbn [ok].
    assert (F : nonneg_flag (limb r 13) = if av <? M then 0 else 1).
    { rewrite (nrep_top 13 _ _ Hr). change (58 * Z.of_nat 13) with 754.
      pose proof (Z.mul_div_le (av - M) (2 ^ 754) ltac:(lia)).
      pose proof (Z.mul_succ_div_gt (av - M) (2 ^ 754) ltac:(lia)).
      rewrite nonneg_flag_spec by lia.
      destruct (Z.ltb_spec av M); destruct (Z.ltb_spec ((av - M) / 2 ^ 754) 0); lia. }
    rewrite F. pose proof Hr as (X1 & X2 & X3).
    destruct (Z.ltb_spec av M); [rewrite cmove0 by congruence|rewrite cmove1 by congruence].
    + apply IH; auto; fold M; lia.
    + replace (av mod n) with ((av - M) mod n).
      * apply IH; auto; fold M; lia.
      * rewrite <- (Z_mod_plus_full av (- 2 ^ Z.of_nat k) n). f_equal. subst M. ring.
Qed.

Lemma dbig_scopy_spec w v : nrep 7 w v -> 0 <= v < 2 ^ 410 -> nrep 14 (dbig_scopy w) v.
Proof.
  intros H V. pose proof (nrep_top 6 w v H) as T. destruct H as (A & B & C).
  assert (T2 : 0 <= limb w 6 < 2 ^ 62).
  { rewrite T. change (58 * Z.of_nat 6) with 348.
    split; [apply Z.div_pos; lia|apply Z.div_lt_upper_bound; lia]. }
  clear T.
  do 7 (destruct w as [|? w]; [discriminate A|]). destruct w; [|discriminate A].
  unfold dbig_scopy, limb in *. cbn [firstn app nth] in *. rewrite land_bmask, shr_base.
  cbn [norml] in B. pose proof (Z.mod_pos_bound z5 B58 ltac:(lia)).
  pose proof (Z.div_mod z5 B58 ltac:(lia)).
  assert (0 <= z5 / B58 < B58) by (split; [apply Z.div_pos; lia|apply Z.div_lt_upper_bound; lia]).
  split; [reflexivity|]. split; [cbn [norml]; intuition lia|].
  rewrite <- C. cbn [lval]. lia.
Qed.

(* the low limbs of a list whose value fits in them *)
Lemma dcopy_spec d v : nrep 14 d v -> 0 <= v < 2 ^ 406 -> rep 7 (big_dcopy d) v.
Proof.
  intros H V. assert (R : rep 14 d v) by (apply nrep_rep; [exact H|change (58 * Z.of_nat 14) with 812; lia]).
  destruct R as (A & B & C). unfold big_dcopy.
  assert (E : d = firstn 7 d ++ skipn 7 d) by (symmetry; apply firstn_skipn).
  assert (L1 : length (firstn 7 d) = 7%nat) by (rewrite firstn_length; lia).
  assert (D1 : digs (firstn 7 d) /\ digs (skipn 7 d)).
  { rewrite E in B. apply Forall_app in B. exact B. }
  pose proof (digs_val _ (proj1 D1)) as V1. pose proof (digs_val _ (proj2 D1)) as V2.
  rewrite L1 in V1. change (58 * Z.of_nat 7) with 406 in V1.
  assert (X : lval d = lval (firstn 7 d) + 2 ^ 406 * lval (skipn 7 d)).
  { rewrite E at 1. rewrite lval_app, L1. reflexivity. }
  split; [exact L1|]. split; [apply D1|]. nia.
Qed.

Lemma dbig_dmod_spec a n nv : length a = 14%nat -> lb (2 ^ 63 - 64) a -> 0 <= lval a < 2 ^ 814 ->
  nrep 7 n nv -> 0 < nv <= 2 ^ 406 ->
  ok (dbig_dmod a n) (fun r => rep 7 r (lval a mod nv)).
Proof.
  intros La Lb V Hn N. unfold dbig_dmod.
  eapply ok_bind; [apply norm_spec14; auto|]. intros a' Ha.
  pose proof (dbig_scopy_spec _ _ Hn ltac:(lia)) as S.
  pose proof Ha as (A1 & A2 & A3). pose proof S as (N1 & N2 & N3).
  rewrite big_comp_ltb by (auto; congruence). rewrite A3, N3.
  pose proof (Z.mod_pos_bound (lval a) nv ltac:(lia)).
  destruct (Z.ltb_spec (lval a) nv).
  - cbn [ok]. rewrite Z.mod_small by lia. apply dcopy_spec; auto; lia.
  - eapply ok_bind.
    + apply (dmod_up_spec 2000 a' (dbig_scopy n) 0 (lval a) nv); auto; try lia.
    + intros [m k] (j & J1 & J2 & J3 & J4). cbn in J1. subst k.
      eapply ok_bind; [apply (dmod_down_spec j a' m (lval a) nv); auto; lia|].
      intros r Hr. cbn [ok]. apply dcopy_spec; auto; lia.
Qed.
