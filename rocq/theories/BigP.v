(* Values of limb lists, and correctness of the linear BIG/DBIG operations. *)
From Coq Require Import Lia ZifyBool Znumtheory.
From Verif Require Import Prim PrimP Rom Big.

Notation B58 := 288230376151711744 (only parsing).
Lemma B58_pow : B58 = 2 ^ 58. Proof. reflexivity. Qed.

(* integer value of a limb list *)
Fixpoint lval (w : list Z) : Z :=
  match w with [] => 0 | x :: r => x + B58 * lval r end.

(* every limb but the last is a 58-bit digit *)
Fixpoint norml (w : list Z) : Prop :=
  match w with
  | [] => True
  | x :: r => match r with [] => True | _ => 0 <= x < B58 end /\ norml r
  end.

(* all limbs bounded in absolute value *)
Definition lb (M : Z) (w : list Z) : Prop := Forall (fun x => - M <= x <= M) w.
(* all limbs are digits *)
Definition digs (w : list Z) : Prop := Forall (fun x => 0 <= x < B58) w.

Lemma norml_cons x y r : norml (x :: y :: r) <-> 0 <= x < B58 /\ norml (y :: r).
Proof. simpl. tauto. Qed.

Lemma norml_inv x r : norml (x :: r) -> norml r.
Proof. simpl. tauto. Qed.

Lemma lb_cons M x r : lb M (x :: r) <-> - M <= x <= M /\ lb M r.
Proof. unfold lb. rewrite Forall_cons_iff. tauto. Qed.
Lemma lb_nil M : lb M [].
Proof. constructor. Qed.
Lemma lb_weak M N w : lb M w -> M <= N -> lb N w.
Proof. unfold lb. intros H L. eapply Forall_impl; [|exact H]. simpl. lia. Qed.
Lemma lb_limb M w i : 0 <= M -> lb M w -> - M <= limb w i <= M.
Proof.
  unfold lb, limb. intros HM H. destruct (lt_dec i (length w)).
  - eapply Forall_forall in H; [|apply nth_In; exact l]. exact H.
  - rewrite nth_overflow by lia. lia.
Qed.
Lemma digs_cons x r : digs (x :: r) <-> 0 <= x < B58 /\ digs r.
Proof. unfold digs. rewrite Forall_cons_iff. tauto. Qed.
Lemma digs_lb w : digs w -> lb B58 w.
Proof. unfold digs, lb. intros. eapply Forall_impl; [|exact H]. simpl; lia. Qed.
Lemma digs_norml w : digs w -> norml w.
Proof.
  induction w as [|x r IH]; simpl; auto. rewrite digs_cons. intros [H1 H2].
  split; auto. destruct r; auto.
Qed.
Lemma digs_limb w i : digs w -> 0 <= limb w i < B58.
Proof.
  unfold digs, limb. intros H. destruct (lt_dec i (length w)).
  - eapply Forall_forall in H; [|apply nth_In; exact l]. exact H.
  - rewrite nth_overflow by lia. lia.
Qed.
Lemma digs_val w : digs w -> 0 <= lval w < 2 ^ (58 * Z.of_nat (length w)).
Proof.
  induction w as [|x r IH]; simpl length; cbn [lval].
  - intros _. lia.
  - rewrite digs_cons. intros [H1 H2]. specialize (IH H2).
    replace (58 * Z.of_nat (S (length r))) with (58 + 58 * Z.of_nat (length r)) by lia.
    rewrite Z.pow_add_r by lia. change (2^58) with B58. nia.
Qed.

Lemma lval_app a b : lval (a ++ b) = lval a + 2 ^ (58 * Z.of_nat (length a)) * lval b.
Proof.
  induction a as [|x a IH]; cbn [app lval length].
  - lia.
  - rewrite IH. replace (58 * Z.of_nat (S (length a))) with (58 + 58 * Z.of_nat (length a)) by lia.
    rewrite Z.pow_add_r by lia. change (2^58) with B58. lia.
Qed.
Lemma lval_zero n : lval (repeat 0 n) = 0.
Proof. induction n; simpl repeat; cbn [lval]; lia. Qed.

(* the top limb of a normalised list is the high part of its value *)
Lemma norml_top n w : length w = S n -> norml w ->
  limb w n = lval w / 2 ^ (58 * Z.of_nat n) .
Proof.
  revert w. induction n as [|n IH]; intros w L N.
  - destruct w as [|x [|]]; simpl in L; try lia. unfold limb. cbn [nth lval].
    rewrite Z.mul_0_r, Z.pow_0_r, Z.div_1_r. lia.
  - destruct w as [|x [|y r]]; simpl in L; try lia.
    apply norml_cons in N. destruct N as [N1 N2].
    change (limb (x :: y :: r) (S n)) with (limb (y :: r) n).
    rewrite IH by (simpl; lia || auto).
    replace (58 * Z.of_nat (S n)) with (58 + 58 * Z.of_nat n) by lia.
    rewrite Z.pow_add_r by lia. change (2^58) with B58.
    rewrite <- Z.div_div by lia. f_equal.
    change (lval (x :: y :: r)) with (x + B58 * lval (y :: r)).
    apply Z.div_unique with x; lia.
Qed.

Lemma norml_digs w : norml w -> 0 <= lval w < 2 ^ (58 * Z.of_nat (length w)) -> digs w.
Proof.
  induction w as [|x [|y r] IH]; intros N H.
  - constructor.
  - cbn [lval length] in H. change (2 ^ (58 * Z.of_nat 1)) with B58 in H.
    constructor; [lia|constructor].
  - apply norml_cons in N. destruct N as [N1 N2]. apply digs_cons. split; [lia|].
    apply IH; [exact N2|].
    change (lval (x :: y :: r)) with (x + B58 * lval (y :: r)) in H.
    replace (58 * Z.of_nat (length (x :: y :: r))) with (58 + 58 * Z.of_nat (length (y :: r))) in H
      by (simpl length; lia).
    rewrite Z.pow_add_r in H by lia. change (2^58) with B58 in H.
    split; nia.
Qed.

Lemma norml_inj a b : length a = length b -> norml a -> norml b -> lval a = lval b -> a = b.
Proof.
  revert b. induction a as [|x a IH]; destruct b as [|y b]; simpl length; intros L Na Nb E; try lia; auto.
  change (x + B58 * lval a = y + B58 * lval b) in E.
  destruct a as [|x' a]; destruct b as [|y' b]; simpl length in L; try lia.
  - cbn [lval] in E. f_equal. lia.
  - apply norml_cons in Na. apply norml_cons in Nb. destruct Na as [Na1 Na], Nb as [Nb1 Nb].
    assert (x = y /\ lval (x' :: a) = lval (y' :: b)) as [-> E'] by lia.
    f_equal. apply IH; [simpl; lia|auto..].
Qed.
Lemma digs_inj a b : length a = length b -> digs a -> digs b -> lval a = lval b -> a = b.
Proof. intros. apply norml_inj; auto using digs_norml. Qed.

(* BMASK / BASEBITS *)
Lemma land_bmask z : Z.land z BMASK = z mod B58.
Proof. change BMASK with (2 ^ 58 - 1). apply land_ones_mod. lia. Qed.
Lemma shr_base z : Z.shiftr z BASEBITS = z / B58.
Proof. apply shiftr_div. unfold BASEBITS; lia. Qed.

(* ------------------------- norm ------------------------------------- *)
Lemma norm_go_spec w c : w <> [] -> lb (2 ^ 63 - 64) w -> -32 <= c <= 32 ->
  ok (norm_go c w) (fun r => length r = length w /\ norml r /\ lval r = lval w + c).
Proof.
  revert c. induction w as [|x w IH]; intros c NE L C; [congruence|].
  apply lb_cons in L. destruct L as [Lx L].
  destruct w as [|y w].
  - cbn [norm_go]. rewrite ck64_ok by lia. cbn. lia.
  - cbn [norm_go]. rewrite ck64_ok by lia. cbn [bind].
    eapply ok_bind.
    + apply IH; [congruence|exact L|]. rewrite shr_base.
      pose proof (Z.div_le_mono (x + c) (2^63) B58 ltac:(lia) ltac:(lia)).
      pose proof (Z.div_le_mono (-2^63) (x + c) B58 ltac:(lia) ltac:(lia)).
      change (2^63 / B58) with 32 in *. change (-2^63 / B58) with (-32) in *. lia.
    + intros r (R1 & R2 & R3). cbn [ok].
      rewrite shr_base in R3. rewrite land_bmask.
      pose proof (Z.div_mod (x + c) B58 ltac:(lia)).
      pose proof (Z.mod_pos_bound (x + c) B58 ltac:(lia)).
      split; [simpl in *; lia|]. split.
      * destruct r; [simpl in R1; lia|]. apply norml_cons. auto.
      * change (lval (x :: y :: w)) with (x + B58 * lval (y :: w)).
        change (lval ((x + c) mod B58 :: r)) with ((x + c) mod B58 + B58 * lval r).
        rewrite R3. lia.
Qed.

Lemma big_norm_spec w : length w = 7%nat -> lb (2 ^ 63 - 64) w ->
  ok (big_norm w) (fun r => length r = 7%nat /\ norml r /\ lval r = lval w).
Proof.
  intros L H. unfold big_norm. eapply ok_impl; [apply norm_go_spec; auto|].
  - destruct w; simpl in L; congruence.
  - lia.
  - intros r (A & B & C). repeat split; auto; lia.
Qed.
Lemma dbig_norm_spec w : length w = 14%nat -> lb (2 ^ 63 - 64) w ->
  ok (dbig_norm w) (fun r => length r = 14%nat /\ norml r /\ lval r = lval w).
Proof.
  intros L H. unfold dbig_norm. eapply ok_impl; [apply norm_go_spec; auto|].
  - destruct w; simpl in L; congruence.
  - lia.
  - intros r (A & B & C). repeat split; auto; lia.
Qed.

Lemma norm_go_id w : norml w -> lb (2^63 - 64) w -> norm_go 0 w = Some w.
Proof.
  induction w as [|x w IH]; intros N L; [reflexivity|].
  apply lb_cons in L. destruct L as [Lx L].
  destruct w as [|y w].
  - cbn [norm_go]. rewrite ck64_ok by lia. cbn. do 2 f_equal. lia.
  - apply norml_cons in N. destruct N as [N1 N2].
    cbn [norm_go]. rewrite ck64_ok by lia. cbn [bind]. rewrite shr_base, land_bmask, Z.add_0_r.
    rewrite Z.div_small by lia. rewrite Z.mod_small by lia.
    cbn [norm_go] in IH. rewrite (IH N2 L). reflexivity.
Qed.

(* ------------------------- comparison ------------------------------- *)
Lemma big_comp_spec a b : length a = length b -> norml a -> norml b ->
  big_comp a b = Z.sgn (lval a - lval b).
Proof.
  revert b. induction a as [|x a IH]; destruct b as [|y b]; simpl length; intros L Na Nb; try lia; auto.
  cbn [big_comp lval]. rewrite IH by (lia || eauto using norml_inv).
  assert (H : a = [] /\ b = [] \/ (0 <= x < B58 /\ 0 <= y < B58)).
  { destruct a, b; simpl in L; try lia; [left; auto|right].
    apply norml_cons in Na. apply norml_cons in Nb. split; [apply Na|apply Nb]. }
  destruct H as [[-> ->]|H].
  - cbn [lval]. change (Z.sgn (0 - 0) =? 0) with true. cbv iota.
    destruct (Z.eqb_spec x y); [subst; replace (y + B58 * 0 - (y + B58 * 0)) with 0 by lia; reflexivity|].
    destruct (Z.ltb_spec y x).
    + rewrite Z.sgn_pos; lia.
    + rewrite Z.sgn_neg; lia.
  - set (u := lval a) in *. set (v := lval b) in *.
    destruct (Z.lt_trichotomy u v) as [Q|[Q|Q]].
    + rewrite (Z.sgn_neg (u - v)) by lia. change (-1 =? 0) with false. cbv iota. rewrite Z.sgn_neg; lia.
    + rewrite Q, Z.sub_diag. change (Z.sgn 0 =? 0) with true. cbv iota.
      destruct (Z.eqb_spec x y); [rewrite Z.sgn_null; lia|].
      destruct (Z.ltb_spec y x); [rewrite Z.sgn_pos|rewrite Z.sgn_neg]; lia.
    + rewrite (Z.sgn_pos (u - v)) by lia. change (1 =? 0) with false. cbv iota. rewrite Z.sgn_pos; lia.
Qed.

Lemma big_comp_ltb a b : length a = length b -> norml a -> norml b ->
  (big_comp a b <? 0) = (lval a <? lval b).
Proof. intros. rewrite big_comp_spec by auto. lia. Qed.
Lemma big_comp_geb a b : length a = length b -> norml a -> norml b ->
  (0 <=? big_comp a b) = (lval b <=? lval a).
Proof. intros. rewrite big_comp_spec by auto. lia. Qed.
Lemma big_comp_gtb a b : length a = length b -> norml a -> norml b ->
  (0 <? big_comp a b) = (lval b <? lval a).
Proof. intros. rewrite big_comp_spec by auto. lia. Qed.
Lemma big_comp_eqb a b : length a = length b -> norml a -> norml b ->
  (big_comp a b =? 0) = (lval a =? lval b).
Proof. intros. rewrite big_comp_spec by auto. lia. Qed.

(* ------------------------- add / sub -------------------------------- *)
Lemma map2M_spec (f : Z -> Z -> option Z) (g : Z -> Z -> Z) a b :
  length a = length b ->
  (forall i, (i < length a)%nat -> f (limb a i) (limb b i) = Some (g (limb a i) (limb b i))) ->
  map2M f a b = Some (map2 g a b).
Proof.
  revert b. induction a as [|x a IH]; destruct b as [|y b]; simpl length; intros L H; try lia; auto.
  cbn [map2M map2]. pose proof (H 0%nat ltac:(lia)) as H0. unfold limb in H0. cbn in H0. rewrite H0. cbn [bind].
  rewrite IH; [reflexivity|lia|]. intros i Hi. apply (H (S i)). lia.
Qed.

Lemma map2_length {A B C} (g : A -> B -> C) a b : length a = length b -> length (map2 g a b) = length a.
Proof. revert b. induction a; destruct b; simpl; intros; try lia; auto. Qed.

Lemma big_add_spec a b A B : length a = length b -> lb A a -> lb B b -> 0 <= A -> 0 <= B -> A + B <= 2 ^ 63 - 1 ->
  ok (big_add a b) (fun r => length r = length a /\ lb (A + B) r /\ lval r = lval a + lval b).
Proof.
  intros L HA HB A0 B0 S. unfold big_add.
  rewrite map2M_spec with (g := Z.add); auto.
  - cbn [ok]. rewrite map2_length by auto. split; auto.
    clear S. revert b L HB. induction a as [|x a IH]; destruct b as [|y b]; simpl length; intros L HB; try lia.
    + split; [constructor|reflexivity].
    + apply lb_cons in HA. apply lb_cons in HB. destruct (IH (proj2 HA) b ltac:(lia) (proj2 HB)) as [I1 I2].
      cbn [map2 lval]. split; [apply lb_cons; split; [lia|exact I1]|]. rewrite I2. lia.
  - intros i Hi. apply ck64_ok. pose proof (lb_limb A a i A0 HA). pose proof (lb_limb B b i B0 HB). lia.
Qed.
Lemma big_sub_spec a b A B : length a = length b -> lb A a -> lb B b -> 0 <= A -> 0 <= B -> A + B <= 2 ^ 63 - 1 ->
  ok (big_sub a b) (fun r => length r = length a /\ lb (A + B) r /\ lval r = lval a - lval b).
Proof.
  intros L HA HB A0 B0 S. unfold big_sub.
  rewrite map2M_spec with (g := Z.sub); auto.
  - cbn [ok]. rewrite map2_length by auto. split; auto.
    clear S. revert b L HB. induction a as [|x a IH]; destruct b as [|y b]; simpl length; intros L HB; try lia.
    + split; [constructor|reflexivity].
    + apply lb_cons in HA. apply lb_cons in HB. destruct (IH (proj2 HA) b ltac:(lia) (proj2 HB)) as [I1 I2].
      cbn [map2 lval]. split; [apply lb_cons; split; [lia|exact I1]|]. rewrite I2. lia.
  - intros i Hi. apply ck64_ok. pose proof (lb_limb A a i A0 HA). pose proof (lb_limb B b i B0 HB). lia.
Qed.
Lemma big_rsub_spec a b A B : length a = length b -> lb A a -> lb B b -> 0 <= A -> 0 <= B -> A + B <= 2 ^ 63 - 1 ->
  ok (big_rsub a b) (fun r => length r = length a /\ lb (A + B) r /\ lval r = lval b - lval a).
Proof.
  intros L HA HB A0 B0 S. unfold big_rsub.
  rewrite map2M_spec with (g := fun u v => v - u); auto.
  - cbn [ok]. rewrite map2_length by auto. split; auto.
    clear S. revert b L HB. induction a as [|x a IH]; destruct b as [|y b]; simpl length; intros L HB; try lia.
    + split; [constructor|reflexivity].
    + apply lb_cons in HA. apply lb_cons in HB. destruct (IH (proj2 HA) b ltac:(lia) (proj2 HB)) as [I1 I2].
      cbn [map2 lval]. split; [apply lb_cons; split; [lia|exact I1]|]. rewrite I2. lia.
  - intros i Hi. apply ck64_ok. pose proof (lb_limb A a i A0 HA). pose proof (lb_limb B b i B0 HB). lia.
Qed.
Lemma big_dbl_spec a A : lb A a -> 0 <= A -> A + A <= 2 ^ 63 - 1 ->
  ok (big_dbl a) (fun r => length r = length a /\ lb (A + A) r /\ lval r = 2 * lval a).
Proof.
  intros HA A0 S. unfold big_dbl.
  induction a as [|x a IH]; cbn [mapM].
  - cbn. repeat split; auto. constructor.
  - apply lb_cons in HA. rewrite ck64_ok by lia. cbn [bind].
    eapply ok_bind; [apply IH; tauto|]. intros r (R1 & R2 & R3). cbn [ok length lval].
    rewrite R1, R3. repeat split; [|lia]. apply lb_cons. split; [lia|auto].
Qed.

(* ------------------------- shifts ----------------------------------- *)
Lemma shl64_mod x k n : 0 <= k -> 0 <= n <= 64 -> shl64 x k mod 2 ^ n = (x * 2 ^ k) mod 2 ^ n.
Proof. intros. unfold shl64. rewrite wrap64_mod by lia. rewrite shiftl_mul by lia. reflexivity. Qed.

Lemma mul_pow_mod x k : 0 <= k <= 58 -> (x * 2 ^ k) mod B58 = (x mod 2 ^ (58 - k)) * 2 ^ k.
Proof.
  intros. replace B58 with (2 ^ (58 - k) * 2 ^ k)
    by (rewrite <- Z.pow_add_r by lia; replace (58 - k + k) with 58 by lia; reflexivity).
  rewrite Z.mul_mod_distr_r; [reflexivity| |]; apply Z.pow_nonzero; lia.
Qed.

Lemma lval_mod w k : 0 <= k <= 58 -> w <> [] -> lval w mod 2 ^ k = (limb w 0) mod 2 ^ k.
Proof.
  intros. destruct w as [|x r]; [congruence|]. cbn [lval]. unfold limb. cbn [nth].
  replace B58 with (2 ^ (58 - k) * 2 ^ k)
    by (rewrite <- Z.pow_add_r by lia; replace (58 - k + k) with 58 by lia; reflexivity).
  replace (x + 2 ^ (58 - k) * 2 ^ k * lval r) with (x + (2 ^ (58 - k) * lval r) * 2 ^ k) by ring.
  apply Z.mod_add. apply Z.pow_nonzero; lia.
Qed.

Lemma fshl_go_length k p w : length (fshl_go k p w) = length w.
Proof. revert p. induction w as [|x [|y r] IH]; intros; auto. cbn [fshl_go length]. f_equal. apply (IH x). Qed.

Lemma fshl_go_spec k w : forall p, 0 <= k < 58 -> 0 <= p < B58 -> w <> [] -> norml w ->
  (let t := limb w (pred (length w)) in -9223372036854775808 <= t * 2 ^ k <= 9223372036854775807) ->
  norml (fshl_go k p w) /\ lval (fshl_go k p w) = lval w * 2 ^ k + p / 2 ^ (58 - k).
Proof.
  induction w as [|x w IH]; intros p K P NE N T; [congruence|].
  assert (P2 : 0 <= p / 2 ^ (58 - k) < 2 ^ k).
  { split; [apply Z.div_pos; [lia|apply Z.pow_pos_nonneg; lia]|].
    apply Z.div_lt_upper_bound; [apply Z.pow_pos_nonneg; lia|].
    rewrite <- Z.pow_add_r by lia. replace (58 - k + k) with 58 by lia. exact (proj2 P). }
  assert (PK : 0 < 2 ^ k) by (apply Z.pow_pos_nonneg; lia).
  destruct w as [|y w].
  - cbn [fshl_go]. unfold limb in T. cbn in T.
    unfold shl64. rewrite shiftl_mul by lia. rewrite wrap64_id by exact T.
    rewrite shiftr_div by (unfold BASEBITS; lia). change BASEBITS with 58.
    rewrite lor_add by lia. cbn [norml lval]. split; [tauto|]. lia.
  - apply norml_cons in N. destruct N as [N1 N2].
    change (fshl_go k p (x :: y :: w)) with
      (Z.lor (Z.land (shl64 x k) BMASK) (Z.shiftr p (BASEBITS - k)) :: fshl_go k x (y :: w)).
    destruct (IH x K N1 ltac:(congruence) N2 ltac:(exact T)) as [I1 I2].
    assert (HD : Z.lor (Z.land (shl64 x k) BMASK) (Z.shiftr p (BASEBITS - k)) =
                 x mod 2 ^ (58 - k) * 2 ^ k + p / 2 ^ (58 - k)).
    { rewrite land_bmask. rewrite B58_pow. rewrite shl64_mod by lia.
      rewrite <- B58_pow. rewrite mul_pow_mod by lia.
      rewrite shiftr_div by (unfold BASEBITS; lia). change BASEBITS with 58.
      apply lor_add; lia. }
    rewrite HD. clear HD.
    set (x1 := x mod 2 ^ (58 - k)). set (x2 := x / 2 ^ (58 - k)).
    assert (Q : 0 < 2 ^ (58 - k)) by (apply Z.pow_pos_nonneg; lia).
    assert (E : B58 = 2 ^ (58 - k) * 2 ^ k)
      by (rewrite <- Z.pow_add_r by lia; replace (58 - k + k) with 58 by lia; reflexivity).
    pose proof (Z.div_mod x (2 ^ (58 - k)) ltac:(lia)) as D.
    pose proof (Z.mod_pos_bound x (2 ^ (58 - k)) ltac:(lia)) as M.
    fold x1 in D, M. fold x2 in D.
    split.
    + pose proof (fshl_go_length k x (y :: w)).
      destruct (fshl_go k x (y :: w)) eqn:F; [simpl in *; lia|].
      apply norml_cons. split; [|exact I1].
      pose proof (Z.mul_le_mono_nonneg_r x1 (2 ^ (58 - k) - 1) (2 ^ k) ltac:(lia) ltac:(lia)).
      pose proof (Z.mul_nonneg_nonneg x1 (2 ^ k) ltac:(lia) ltac:(lia)). lia.
    + change (lval (x :: y :: w)) with (x + B58 * lval (y :: w)).
      change (lval (x1 * 2 ^ k + p / 2 ^ (58 - k) :: fshl_go k x (y :: w))) with
       (x1 * 2 ^ k + p / 2 ^ (58 - k) + B58 * lval (fshl_go k x (y :: w))).
      rewrite I2. fold x2. clearbody x1 x2. rewrite D, E. ring.
Qed.

Lemma fshr_go_length k w : length (fshr_go k w) = length w.
Proof. induction w as [|x [|y r] IH]; auto. cbn [fshr_go length]. f_equal. exact IH. Qed.

Lemma fshr_go_spec k w : 0 <= k < 58 -> norml w ->
  norml (fshr_go k w) /\ lval (fshr_go k w) = lval w / 2 ^ k.
Proof.
  intros K. assert (PK : 0 < 2 ^ k) by (apply Z.pow_pos_nonneg; lia).
  induction w as [|x w IH]; intros N.
  - split; [exact I|]. cbn [fshr_go lval]. rewrite Z.div_0_l; lia.
  - destruct w as [|y w].
    + cbn [fshr_go norml lval]. split; [tauto|]. rewrite shiftr_div by lia.
      rewrite !Z.mul_0_r, !Z.add_0_r. reflexivity.
    + apply norml_cons in N. destruct N as [N1 N2].
      change (fshr_go k (x :: y :: w)) with
        (Z.lor (Z.shiftr x k) (Z.land (shl64 y (BASEBITS - k)) BMASK) :: fshr_go k (y :: w)).
      destruct (IH N2) as [I1 I2].
      rewrite land_bmask. change BASEBITS with 58.
      rewrite B58_pow. rewrite shl64_mod by lia. rewrite <- B58_pow.
      rewrite mul_pow_mod by lia.
      replace (58 - (58 - k)) with k by lia. rewrite shiftr_div by lia.
      assert (Q : 0 < 2 ^ (58 - k)) by (apply Z.pow_pos_nonneg; lia).
      assert (E : B58 = 2 ^ (58 - k) * 2 ^ k)
        by (rewrite <- Z.pow_add_r by lia; replace (58 - k + k) with 58 by lia; reflexivity).
      assert (X : 0 <= x / 2 ^ k < 2 ^ (58 - k)).
      { split; [apply Z.div_pos; lia|]. apply Z.div_lt_upper_bound; lia. }
      rewrite Z.lor_comm, lor_add by lia.
      pose proof (lval_mod (y :: w) k ltac:(lia) ltac:(congruence)) as LM. unfold limb in LM. cbn [nth] in LM.
      rewrite <- LM. set (v := lval (y :: w)) in *.
      pose proof (Z.mod_pos_bound v (2 ^ k) ltac:(lia)) as M.
      pose proof (Z.div_mod v (2 ^ k) ltac:(lia)) as D.
      split.
      * pose proof (fshr_go_length k (y :: w)).
        destruct (fshr_go k (y :: w)) eqn:F; [simpl in *; lia|].
        apply norml_cons. split; [|exact I1].
        pose proof (Z.mul_le_mono_nonneg_r (v mod 2 ^ k) (2 ^ k - 1) (2 ^ (58 - k)) ltac:(lia) ltac:(lia)).
        pose proof (Z.mul_nonneg_nonneg (v mod 2 ^ k) (2 ^ (58 - k)) ltac:(lia) ltac:(lia)). lia.
      * change (lval (v mod 2 ^ k * 2 ^ (58 - k) + x / 2 ^ k :: fshr_go k (y :: w))) with
          (v mod 2 ^ k * 2 ^ (58 - k) + x / 2 ^ k + B58 * lval (fshr_go k (y :: w))).
        rewrite I2. change (lval (x :: y :: w)) with (x + B58 * v).
        rewrite E.
        pose proof (Z.div_mod x (2 ^ k) ltac:(lia)) as Dx.
        pose proof (Z.mod_pos_bound x (2 ^ k) ltac:(lia)) as Mx.
        apply Z.div_unique with (x mod 2 ^ k); [lia|].
        clearbody v. clear - D Dx.
        remember (v mod 2 ^ k) as vm. remember (v / 2 ^ k) as vd.
        remember (x mod 2 ^ k) as xm. remember (x / 2 ^ k) as xd. clear Heqvm Heqvd Heqxm Heqxd.
        rewrite D, Dx. ring.
Qed.
