(* Byte conversion, bit counting, and small operations on BIG. *)
From Coq Require Import Lia ZifyBool Znumtheory.
From Verif Require Import Prim PrimP Rom Big BigP BigP2 SpecBytes.

Lemma land_pow2 z n : 0 <= n -> Z.land z (Z.shiftl 1 n - 1) = z mod 2 ^ n.
Proof. intros. rewrite Z.shiftl_1_l. apply land_ones_mod; lia. Qed.

Lemma nrep_limb0 n w v k : nrep (S n) w v -> 0 <= k <= 58 -> limb w 0 mod 2 ^ k = v mod 2 ^ k.
Proof.
  intros (A & B & C) K. rewrite <- C. symmetry. apply lval_mod; auto. destruct w; simpl in A; congruence.
Qed.
Lemma rep_limb0 n w v : rep (S n) w v -> limb w 0 = v mod B58.
Proof.
  intros H. pose proof (nrep_limb0 n w v 58 (rep_nrep _ _ _ H) ltac:(lia)) as E.
  change (2 ^ 58) with B58 in E. rewrite <- E. rewrite Z.mod_small; auto. apply digs_limb, H.
Qed.
Lemma nrep_limb0' n w v : nrep (S (S n)) w v -> limb w 0 = v mod B58.
Proof.
  intros H. pose proof (nrep_limb0 _ w v 58 H ltac:(lia)) as E.
  change (2 ^ 58) with B58 in E. rewrite <- E. rewrite Z.mod_small; auto.
  destruct H as (A & B & _). destruct w as [|x [|y r]]; simpl in A; try lia.
  apply norml_cons in B. apply B.
Qed.

Lemma tobytes_go_spec n : forall c v acc, nrep 7 c v -> tobytes_go n c acc = be_bytes n v ++ acc.
Proof.
  induction n as [|n IH]; intros c v acc H; [reflexivity|].
  cbn [tobytes_go be_bytes]. rewrite (IH _ (v / 2 ^ 8)); [|apply fshr_spec7; auto; lia].
  rewrite <- app_assoc. cbn [app]. change (2 ^ 8) with 256. do 2 f_equal.
  change 255 with (2 ^ 8 - 1). rewrite land_ones_mod by lia.
  rewrite (nrep_limb0 6 c v 8 H) by lia. reflexivity.
Qed.

Lemma big_tobytes_spec w : length w = 7%nat -> lb (2 ^ 63 - 64) w ->
  big_tobytes w = Some (be_bytes 48 (lval w)).
Proof.
  intros L B. unfold big_tobytes. pose proof (norm_spec7 w L B) as H.
  destruct (big_norm w) as [a|]; [|contradiction]. cbn [ok bind] in *.
  rewrite (tobytes_go_spec _ _ _ _ H), app_nil_r. reflexivity.
Qed.
Lemma big_tobytes_rep w v : rep 7 w v -> big_tobytes w = Some (be_bytes 48 v).
Proof.
  intros (A & B & C). rewrite <- C. apply big_tobytes_spec; auto.
  eapply lb_weak; [apply digs_lb; exact B|]. lia.
Qed.

Lemma frombytes_step_spec m b v : nrep 7 m v -> 0 <= v < 2 ^ 384 -> 0 <= b < 256 ->
  ok (frombytes_step m b) (fun r => nrep 7 r (v * 256 + b)).
Proof.
  intros H V B. assert (S : nrep 7 (big_fshl m 8) (v * 2 ^ 8)) by (apply fshl_spec7; auto; lia).
  unfold frombytes_step. pose proof (nrep_limb0' _ _ _ S) as L0. destruct S as (A & N & C).
  destruct (big_fshl m 8) as [|w0 r]; [discriminate A|].
  unfold limb in L0. cbn [nth] in L0.
  assert (W : 0 <= w0 /\ w0 + b < B58).
  { replace (v * 2 ^ 8) with (v * 2 ^ 8 + 0) in L0 by lia. rewrite L0.
    rewrite Z.add_0_r. change B58 with (2 ^ 50 * 2 ^ 8). rewrite Z.mul_mod_distr_r by lia.
    pose proof (Z.mod_pos_bound v (2 ^ 50) ltac:(lia)). lia. }
  change 255 with (2 ^ 8 - 1). rewrite land_ones_mod by lia. change (2 ^ 8) with 256.
  rewrite (Z.mod_small b) by lia. rewrite ck64_ok by lia. cbn [bind ok].
  split; [exact A|]. split.
  - destruct r; [discriminate A|]. apply norml_cons. apply norml_cons in N. split; [lia|apply N].
  - cbn [lval] in *. change (2 ^ 8) with 256 in C. lia.
Qed.

Lemma big_frombytes_spec bs : bytes bs -> (48 <= length bs)%nat ->
  ok (big_frombytes bs) (fun r => rep 7 r (be_int (firstn 48 bs))).
Proof.
  intros B L. unfold big_frombytes, big_frombytearray. cbn [skipn].
  assert (L1 : length (firstn 48 bs) = 48%nat) by (rewrite firstn_length; lia).
  assert (B1 : bytes (firstn 48 bs)).
  { apply Forall_forall. intros x Hx. eapply Forall_forall in B; [exact B|].
    rewrite <- (firstn_skipn 48 bs). apply in_or_app. auto. }
  change MODBYTES with 48%nat. rewrite L1. cbn [Nat.eqb].
  set (l := firstn 48 bs) in *. clearbody l. clear B L bs.
  assert (G : forall l2 l1 m, bytes (l1 ++ l2) -> length (l1 ++ l2) = 48%nat -> nrep 7 m (be_int l1) ->
     ok (foldM frombytes_step l2 m) (fun r => nrep 7 r (be_int (l1 ++ l2)))).
  { induction l2 as [|b l2 IH]; intros l1 m Hb Hl Hm; cbn [foldM].
    - rewrite app_nil_r in *. exact Hm.
    - pose proof Hb as Hb'. apply Forall_app in Hb'. destruct Hb' as [H1 H2].
      eapply ok_bind.
      + apply frombytes_step_spec with (v := be_int l1); auto.
        * pose proof (be_int_range l1 H1). rewrite app_length in Hl. simpl in Hl.
          assert (256 ^ Z.of_nat (length l1) <= 256 ^ 48) by (apply Z.pow_le_mono_r; lia).
          change (256 ^ 48) with (2 ^ 384) in *. lia.
        * apply (Forall_inv H2).
      + intros a Ha. replace (l1 ++ b :: l2) with ((l1 ++ [b]) ++ l2) in * by (rewrite <- app_assoc; reflexivity).
        apply IH; auto. rewrite be_int_snoc. exact Ha. }
  eapply ok_impl; [apply (G l [] big_new); auto; apply nrep_zero|].
  intros r Hr. cbn [app] in Hr. apply nrep_rep; auto.
  pose proof (be_int_range l B1) as R. rewrite L1 in R. change (256 ^ Z.of_nat 48) with (2 ^ 384) in R.
  change (58 * Z.of_nat 7) with 406. lia.
Qed.
Lemma big_frombytes_short bs : (length bs < 48)%nat -> big_frombytes bs = None.
Proof.
  intros L. unfold big_frombytes, big_frombytearray. cbn [skipn].
  change MODBYTES with 48%nat. rewrite firstn_length.
  destruct (Nat.eqb_spec (Nat.min 48 (length bs)) 48); [lia|reflexivity].
Qed.

(* ---- parity, low bits, inc, dec --------------------------------------- *)
Lemma parity_spec w v : nrep 7 w v -> big_parity w = v mod 2.
Proof.
  intros H. unfold big_parity. pose proof (nrep_limb0' 5 w v H) as L0.
  rewrite Z.rem_mod_nonneg; [|rewrite L0; apply Z.mod_pos_bound; lia|lia].
  pose proof (nrep_limb0 6 w v 1 H ltac:(lia)) as E. exact E.
Qed.

Lemma lastbits_spec w n : length w = 7%nat -> lb (2 ^ 63 - 64) w -> 0 <= n <= 58 ->
  ok (big_lastbits w n) (fun '(b, w') => b = lval w mod 2 ^ n /\ nrep 7 w' (lval w)).
Proof.
  intros L B N. unfold big_lastbits. eapply ok_bind; [apply norm_spec7; auto|].
  intros a Ha. cbn [ok]. split; auto. rewrite land_pow2 by lia.
  apply (nrep_limb0 6 a _ n Ha N).
Qed.

Lemma big_inc_spec w x : length w = 7%nat -> lb (2 ^ 63 - 64) w -> -2 ^ 62 <= x <= 2 ^ 62 ->
  ok (big_inc w x) (fun r => length r = 7%nat /\ lval r = lval w + x /\
     exists w', nrep 7 w' (lval w) /\ r = (limb w' 0 + x) :: skipn 1 w').
Proof.
  intros L B X. unfold big_inc. eapply ok_bind; [apply norm_spec7; auto|].
  intros a Ha. pose proof (nrep_limb0' 5 a _ Ha) as L0. pose proof Ha as (A & N & C).
  destruct a as [|w0 r]; [discriminate A|]. unfold limb in L0. cbn [nth] in L0.
  pose proof (Z.mod_pos_bound (lval w) B58 ltac:(lia)).
  rewrite ck64_ok by lia. cbn [bind ok]. split; [exact A|]. split; [cbn [lval] in *; lia|].
  exists (w0 :: r). split; auto.
Qed.
Lemma big_dec_inc w x : -2 ^ 62 <= x <= 2 ^ 62 -> big_dec w x = big_inc w (- x).
Proof. reflexivity. Qed.

Lemma cons_lb M w w0 : lb M w -> - M <= w0 <= M -> lb M (w0 :: skipn 1 w).
Proof. intros H H0. apply lb_cons. split; auto. destruct w; [constructor|]. apply lb_cons in H. apply H. Qed.

(* inc / dec followed by norm *)
Lemma inc_norm_spec w v x : nrep 7 w v -> - 2 ^ 409 <= v < 2 ^ 409 -> -2 ^ 61 <= x <= 2 ^ 61 ->
  ok (r <- big_inc w x ;; big_norm r) (fun r => nrep 7 r (v + x)).
Proof.
  intros H V X. pose proof H as (A & N & C). pose proof (nrep7_lb61 _ _ H V) as L.
  eapply ok_bind; [apply (big_inc_spec w x); auto; try lia|].
  - eapply lb_weak; [exact L|lia].
  - intros r (R1 & R2 & w' & W1 & W2).
    replace (v + x) with (lval r) by lia.
    apply norm_spec7; auto. subst r.
    assert (w' = w) by (eapply nrep_inj; [exact W1|rewrite C; exact H]). subst w'.
    eapply lb_weak with (2 ^ 61 + 2 ^ 61); [|lia]. apply cons_lb; [eapply lb_weak; [exact L|lia]|].
    pose proof (lb_limb (2 ^ 61) w 0 ltac:(lia) L). lia.
Qed.

(* ---- nbits -------------------------------------------------------------- *)
Definition bitlen (v : Z) : Z := if v =? 0 then 0 else Z.log2 v + 1.

Lemma nlimb_spec fuel : forall c b, 0 < c < 2 ^ Z.of_nat fuel -> nlimb fuel c b = b + Z.log2 c + 1.
Proof.
  induction fuel as [|f IH]; intros c b H.
  - change (2 ^ Z.of_nat 0) with 1 in H. lia.
  - cbn [nlimb]. destruct (Z.eqb_spec c 0); [lia|]. rewrite Z.quot_div_nonneg by lia.
    rewrite pow_succ_nat in H.
    destruct (Z.eq_dec c 1) as [->|N1].
    + change (1 / 2) with 0. destruct f; cbn [nlimb Z.eqb]; change (Z.log2 1) with 0; lia.
    + assert (0 < c / 2) by (apply Z.div_str_pos; lia).
      assert (c / 2 < 2 ^ Z.of_nat f) by (apply Z.div_lt_upper_bound; lia).
      rewrite IH by lia.
      replace (Z.log2 c) with (Z.log2 (c / 2) + 1); [lia|].
      change (c / 2) with (c / 2 ^ 1). rewrite <- Z.shiftr_div_pow2 by lia.
      rewrite Z.log2_shiftr by lia. pose proof (Z.log2_pos c ltac:(lia)). lia.
Qed.

Lemma lval_firstn_S w k : (k < length w)%nat ->
  lval (firstn (S k) w) = lval (firstn k w) + 2 ^ (58 * Z.of_nat k) * limb w k.
Proof.
  intros H. assert (E : firstn (S k) w = firstn k w ++ [limb w k]).
  { clear -H. revert w H. induction k; intros w H; destruct w; simpl in H; try lia; [reflexivity|].
    cbn [firstn app]. f_equal. apply IHk. lia. }
  rewrite E, lval_app, firstn_length. rewrite Nat.min_l by lia. cbn [lval]. lia.
Qed.

Lemma nbits_go_spec k : forall w, digs w -> (k <= length w)%nat ->
  nbits_go k w = bitlen (lval (firstn k w)).
Proof.
  induction k as [|k IH]; intros w D L; [reflexivity|].
  cbn [nbits_go]. rewrite lval_firstn_S by lia.
  pose proof (digs_limb w k D) as LK.
  assert (D2 : digs (firstn k w)).
  { apply Forall_forall. intros x Hx. eapply Forall_forall in D; [exact D|].
    rewrite <- (firstn_skipn k w). apply in_or_app. auto. }
  pose proof (digs_val _ D2) as V. rewrite firstn_length, Nat.min_l in V by lia.
  destruct (Z.eqb_spec (limb w k) 0) as [E|E].
  - rewrite E, Z.mul_0_r, Z.add_0_r. apply IH; auto; lia.
  - change BASEBITS with 58. rewrite nlimb_spec by (change (2 ^ Z.of_nat 64) with 18446744073709551616; lia).
    set (e := 58 * Z.of_nat k) in *. set (l := lval (firstn k w)) in *. set (t := limb w k) in *.
    assert (0 <= e) by (subst e; lia). assert (0 < 2 ^ e) by (apply Z.pow_pos_nonneg; lia).
    unfold bitlen. assert (0 < 2 ^ e * t) by (apply Z.mul_pos_pos; lia).
    destruct (Z.eqb_spec (l + 2 ^ e * t) 0); [lia|].
    replace (Z.log2 (l + 2 ^ e * t)) with (e + Z.log2 t); [lia|].
    symmetry. apply Z.log2_unique; [pose proof (Z.log2_nonneg t); lia|].
    pose proof (Z.log2_spec t ltac:(lia)) as S. pose proof (Z.log2_nonneg t).
    replace (Z.succ (e + Z.log2 t)) with (e + Z.succ (Z.log2 t)) by lia.
    rewrite !Z.pow_add_r by lia. nia.
Qed.

Lemma big_nbits_spec w v : rep 7 w v -> big_nbits w = Some (bitlen v).
Proof.
  intros H. pose proof (rep_lb _ _ _ H) as L. destruct H as (A & D & C). unfold big_nbits, big_norm.
  rewrite norm_go_id; [|apply digs_norml; auto|eapply lb_weak; [exact L|lia]]. cbn [bind].
  rewrite nbits_go_spec by (auto; lia). rewrite firstn_all2 by lia. rewrite C. reflexivity.
Qed.

Lemma bitlen_bound v : 0 <= v -> v < 2 ^ bitlen v.
Proof.
  intros. unfold bitlen. destruct (Z.eqb_spec v 0); [subst; reflexivity|].
  pose proof (Z.log2_spec v ltac:(lia)). replace (Z.log2 v + 1) with (Z.succ (Z.log2 v)) by lia. lia.
Qed.
Lemma bitlen_le v n : 0 <= n -> 0 <= v < 2 ^ n -> bitlen v <= n.
Proof.
  intros. unfold bitlen. destruct (Z.eqb_spec v 0); [lia|].
  assert (Z.log2 v < n) by (apply Z.log2_lt_pow2; lia). lia.
Qed.
Lemma bitlen_nonneg v : 0 <= bitlen v.
Proof. unfold bitlen. destruct (v =? 0); [lia|]. pose proof (Z.log2_nonneg v). lia. Qed.

Lemma iszilch_spec w v : nrep 7 w v -> (0 <= v < 2 ^ 406) -> big_iszilch w = (v =? 0).
Proof.
  intros H V. assert (R : rep 7 w v) by (apply nrep_rep; auto).
  destruct (Z.eqb_spec v 0) as [->|N].
  - replace w with (big_new). reflexivity. eapply rep_inj; [|exact R].
    repeat split; repeat constructor; lia.
  - unfold big_iszilch. destruct (forallb _ w) eqn:F; auto. exfalso. apply N.
    destruct R as (A & D & C). rewrite <- C. clear -F. induction w as [|x w IH]; [reflexivity|].
    cbn [forallb] in F. apply andb_prop in F. cbn [lval]. rewrite IH by apply F.
    destruct F as [F _]. lia.
Qed.
