(* Correctness of the multiplication and squaring loops. *)
From Coq Require Import Lia ZifyBool Znumtheory.
From Verif Require Import Prim PrimP Rom Big BigP BigP2.

Fixpoint cross (a b : list Z) (k : nat) (is : list nat) : Z :=
  match is with
  | [] => 0
  | i :: r => (limb a i - limb a (k - i)) * (limb b (k - i) - limb b i) + cross a b k r
  end.

Definition P122 : Z := 5316911983139663491615228241121378304.  (* 2^122 *)

Lemma mul_inner_spec a b k is : forall t A B,
  lb A a -> lb B b -> 0 <= A <= 2 ^ 61 -> 0 <= B <= 2 ^ 61 ->
  Z.abs t + 4 * (A * B) * Z.of_nat (length is) <= 2 ^ 127 - 1 ->
  ok (mul_inner a b k is t) (fun r => r = t + cross a b k is /\
     Z.abs r <= Z.abs t + 4 * (A * B) * Z.of_nat (length is)).
Proof.
  unfold mul_inner.
  induction is as [|i is IH]; intros t A B HA HB LA LB T; cbn [foldM cross].
  - cbn [ok]. simpl length in *. lia.
  - pose proof (lb_limb A a i ltac:(lia) HA). pose proof (lb_limb A a (k - i) ltac:(lia) HA).
    pose proof (lb_limb B b i ltac:(lia) HB). pose proof (lb_limb B b (k - i) ltac:(lia) HB).
    set (x := limb a i - limb a (k - i)) in *. set (y := limb b (k - i) - limb b i) in *.
    assert (X : Z.abs x <= 2 * A) by lia. assert (Y : Z.abs y <= 2 * B) by lia.
    pose proof (abs_mul_le x y _ _ X Y) as XY.
    assert (AB : 0 <= A * B) by (apply Z.mul_nonneg_nonneg; lia).
    simpl length in *. rewrite Nat2Z.inj_succ in *.
    assert (XY' : Z.abs (x * y) <= 4 * (A * B)) by lia.
    assert (0 <= 4 * (A * B) * Z.of_nat (length is)) by (apply Z.mul_nonneg_nonneg; lia).
    rewrite !(ck64_ok) by lia. cbn [bind].
    rewrite (ck128_ok (x * y)) by lia. cbn [bind].
    rewrite (ck128_ok (t + x * y)) by lia. cbn [bind].
    eapply ok_impl; [apply (IH (t + x * y) A B); auto; lia|].
    cbv beta. intros r [R1 R2]. split; lia.
Qed.

Lemma mul_col_spec (st' : Z) a b k is co A B :
  lb A a -> lb B b -> 0 <= A <= 2 ^ 61 -> 0 <= B <= 2 ^ 61 -> 1 <= A * B ->
  Z.abs st' <= 7 * (A * B) -> Z.abs co <= A * B -> (length is <= 3)%nat ->
  ok (t0 <- ck128 (co + st') ;; mul_inner a b k is t0) (fun t =>
     t = co + st' + cross a b k is /\ Z.abs (t / B58) <= A * B).
Proof.
  intros HA HB LA LB AB1 S C L.
  assert (AB : A * B <= P122).
  { change P122 with (2 ^ 61 * 2 ^ 61). apply Z.mul_le_mono_nonneg; lia. }
  unfold P122 in AB. rewrite ck128_ok by lia. cbn [bind].
  assert (LL : 4 * (A * B) * Z.of_nat (length is) <= 4 * (A * B) * 3)
    by (apply Z.mul_le_mono_nonneg_l; lia).
  eapply ok_impl; [apply (mul_inner_spec a b k is (co + st') A B); auto; lia|].
  cbv beta. intros t [T1 T2]. split; [lia|].
  assert (Z.abs t <= 20 * (A * B)) by lia.
  assert (- (A * B) <= t / B58).
  { apply Z.div_le_lower_bound; lia. }
  assert (t / B58 <= A * B).
  { apply Z.div_le_upper_bound; lia. }
  lia.
Qed.

Lemma lval_snoc c x : lval (c ++ [x]) = lval c + 2 ^ (58 * Z.of_nat (length c)) * x.
Proof. rewrite lval_app. cbn [lval]. lia. Qed.

Ltac list7 a L := do 7 (destruct a as [|? a]; [discriminate L|]); destruct a; [|discriminate L].

Lemma digs_nil : digs []. Proof. constructor. Qed.
Lemma digs_snoc c x : digs c -> 0 <= x < B58 -> digs (c ++ [x]).
Proof. intros. apply Forall_app. split; auto. Qed.

Lemma mul_lo_spec a b d s co c k A B :
  lb A a -> lb B b -> 0 <= A <= 2 ^ 61 -> 0 <= B <= 2 ^ 61 -> 1 <= A * B ->
  - (7 * (A * B)) <= s + limb d k <= 7 * (A * B) -> - (A * B) <= co <= A * B -> (1 <= k <= 6)%nat -> digs c ->
  ok (mul_lo a b d (s, co, c) k) (fun '(s', co', c') =>
    s' = s + limb d k /\
    (exists t, t = co + (s + limb d k) + cross a b k (seq (1 + k / 2) (k - k / 2)) /\
       co' = t / B58 /\ c' = c ++ [t mod B58]) /\ - (A * B) <= co' <= A * B /\ digs c').
Proof.
  intros HA HB LA LB AB1 S C K Dc. unfold mul_lo.
  assert (AB : A * B <= P122).
  { change P122 with (2 ^ 61 * 2 ^ 61). apply Z.mul_le_mono_nonneg; lia. }
  unfold P122 in AB. rewrite (ck128_ok (s + limb d k)) by lia. cbn [bind].
  rewrite <- bind_assoc. eapply ok_bind.
  - apply (mul_col_spec (s + limb d k) a b k (seq (1 + k / 2) (k - k / 2)) co A B); auto; try lia.
    rewrite seq_length. do 7 (destruct k as [|k]; [cbn; lia|]). lia.
  - intros t [T1 T2]. cbn [ok]. rewrite land_bmask, shr_base.
    split; [reflexivity|]. split; [exists t; auto|]. split; [lia|].
    apply digs_snoc; auto. apply Z.mod_pos_bound. lia.
Qed.

Lemma mul_hi_spec a b d s co c k A B :
  lb A a -> lb B b -> 0 <= A <= 2 ^ 61 -> 0 <= B <= 2 ^ 61 -> 1 <= A * B ->
  - (7 * (A * B)) <= s - limb d (k - 7) <= 7 * (A * B) -> - (A * B) <= co <= A * B -> (7 <= k <= 12)%nat -> digs c ->
  ok (mul_hi a b d (s, co, c) k) (fun '(s', co', c') =>
    s' = s - limb d (k - 7) /\
    (exists t, t = co + (s - limb d (k - 7)) + cross a b k (seq (1 + k / 2) (7 - (1 + k / 2))) /\
       co' = t / B58 /\ c' = c ++ [t mod B58]) /\ - (A * B) <= co' <= A * B /\ digs c').
Proof.
  intros HA HB LA LB AB1 S C K Dc. unfold mul_hi.
  assert (AB : A * B <= P122).
  { change P122 with (2 ^ 61 * 2 ^ 61). apply Z.mul_le_mono_nonneg; lia. }
  unfold P122 in AB. rewrite (ck128_ok (s - limb d (k - 7))) by lia. cbn [bind].
  rewrite <- bind_assoc. eapply ok_bind.
  - apply (mul_col_spec (s - limb d (k - 7)) a b k (seq (1 + k / 2) (7 - (1 + k / 2))) co A B); auto; try lia.
    rewrite seq_length. do 13 (destruct k as [|k]; [cbn; lia|]). lia.
  - intros t [T1 T2]. cbn [ok]. rewrite land_bmask, shr_base.
    split; [reflexivity|]. split; [exists t; auto|]. split; [lia|].
    apply digs_snoc; auto. apply Z.mod_pos_bound. lia.
Qed.

(* a 14-limb list from 13 digits and a carry *)
Lemma top_wrap c co v : length c = 13%nat -> digs c -> lval c + 2 ^ 754 * co = v ->
  - 2 ^ 816 <= v < 2 ^ 816 -> nrep 14 (c ++ [wrap64 co]) v.
Proof.
  intros L D E V. pose proof (digs_val c D) as R. rewrite L in R. change (58 * Z.of_nat 13) with 754 in R.
  assert (W : wrap64 co = co) by (apply wrap64_id; lia). rewrite W.
  split; [rewrite app_length, L; reflexivity|]. split.
  - clear -D. induction c as [|x c IH]; [simpl; auto|].
    apply digs_cons in D. destruct D as [D1 D2]. cbn [app].
    destruct (c ++ [co]) eqn:F; [destruct c; discriminate|]. apply norml_cons. auto.
  - rewrite lval_snoc, L. change (58 * Z.of_nat 13) with 754. exact E.
Qed.

Ltac lostep A B := rewrite ?bind_assoc; eapply ok_bind; [apply (mul_lo_spec _ _ _ _ _ _ _ A B); auto; try lia|
     intros [[? ?] ?] (-> & (? & ? & -> & ->) & ? & ?)].
Ltac histep A B := rewrite ?bind_assoc; eapply ok_bind; [apply (mul_hi_spec _ _ _ _ _ _ _ A B); auto; cbn [Nat.sub]; try lia|
     cbn [Nat.sub]; intros [[? ?] ?] (-> & (? & ? & -> & ->) & ? & ?)].
Lemma big_mul_spec a b A B : length a = 7%nat -> length b = 7%nat ->
  lb A a -> lb B b -> 1 <= A <= 2 ^ 61 -> 1 <= B <= 2 ^ 61 ->
  - 2 ^ 816 <= lval a * lval b < 2 ^ 816 ->
  ok (big_mul a b) (fun r => nrep 14 r (lval a * lval b)).
Proof.
  intros La Lb HA HB BA BB V. unfold big_mul.
  assert (AB1 : 1 <= A * B) by (apply Z.le_trans with (1 * 1); [lia|apply Z.mul_le_mono_nonneg; lia]).
  assert (AB : A * B <= P122).
  { change P122 with (2 ^ 61 * 2 ^ 61). apply Z.mul_le_mono_nonneg; lia. }
  unfold P122 in AB.
  assert (PR : forall i j, - (A * B) <= limb a i * limb b j <= A * B).
  { intros. apply Z.abs_le. apply abs_mul_le.
    - pose proof (lb_limb A a i ltac:(lia) HA). lia.
    - pose proof (lb_limb B b j ltac:(lia) HB). lia. }
  rewrite map2M_spec with (g := Z.mul); [|congruence|intros i _; apply ck128_ok; specialize (PR i i); lia].
  cbn [bind].
  assert (DI : forall i, limb (map2 Z.mul a b) i = limb a i * limb b i).
  { intros i. clear -La Lb. list7 a La. list7 b Lb. unfold limb. cbn [map2].
    do 7 (destruct i as [|i]; [reflexivity|]). destruct i; reflexivity. }
  set (d := map2 Z.mul a b) in *. clearbody d.
  pose proof (fun i => PR i i) as PD. setoid_rewrite <- DI in PD.
  cbn [seq foldM]. rewrite !land_bmask, !shr_base.
  assert (C0 : - (A * B) <= limb d 0 / B58 <= A * B).
  { specialize (PD 0%nat). assert (- (A * B) <= limb d 0 / B58) by (apply Z.div_le_lower_bound; lia).
    assert (limb d 0 / B58 <= A * B) by (apply Z.div_le_upper_bound; lia). lia. }
  assert (D0 : digs [limb d 0 mod B58]) by (apply digs_cons; split; [apply Z.mod_pos_bound; lia|constructor]).
  pose proof (PD 0%nat). pose proof (PD 1%nat). pose proof (PD 2%nat). pose proof (PD 3%nat).
  pose proof (PD 4%nat). pose proof (PD 5%nat). pose proof (PD 6%nat).
  lostep A B. lostep A B. lostep A B. lostep A B. lostep A B. lostep A B. cbn [bind].
  histep A B. histep A B. histep A B. histep A B. histep A B. histep A B. cbn [bind ok].
  apply top_wrap; [reflexivity|assumption| |exact V].
  assert (R : forall z, z mod B58 = z - B58 * (z / B58)) by (intros; rewrite Z.mod_eq by lia; reflexivity).
  clear - R DI La Lb H6 H9 H12 H15 H18 H21 H24 H27 H30 H33 H36 H39.
  cbn [app lval]. rewrite !R. clear R.
  repeat match goal with H : ?x = _ |- _ => match goal with |- context [?x / B58] =>
    let q := fresh "q" in set (q := x / B58) in *; clearbody q; subst x end end.
  set (qq0 := limb d 0 / B58) in *. clearbody qq0.
  rewrite !DI. clear DI d. list7 a La. list7 b Lb.
  cbn [cross seq Nat.add Nat.sub Nat.div Nat.divmod fst snd limb nth lval]. ring.
Qed.

Fixpoint sqsum (a : list Z) (j : nat) (is : list nat) : Z :=
  match is with
  | [] => 0
  | i :: r => limb a (j - i) * limb a i + sqsum a j r
  end.

Lemma sqr_inner_spec a j A is : forall t,
  (forall i k, - A <= limb a i * limb a k <= A) -> 0 <= A <= P122 ->
  - 2 ^ 126 <= t - A * Z.of_nat (length is) -> t + A * Z.of_nat (length is) <= 2 ^ 126 ->
  ok (sqr_inner a j is t) (fun r => r = t + sqsum a j is /\
     t - A * Z.of_nat (length is) <= r <= t + A * Z.of_nat (length is)).
Proof.
  unfold sqr_inner, P122.
  induction is as [|i is IH]; intros t PR LA T1 T2; cbn [foldM sqsum].
  - cbn [ok]. simpl length in *. lia.
  - pose proof (PR (j - i)%nat i) as XY. simpl length in *. rewrite Nat2Z.inj_succ in *.
    set (x := limb a (j - i) * limb a i) in *.
    assert (0 <= A * Z.of_nat (length is)) by (apply Z.mul_nonneg_nonneg; lia).
    rewrite (ck128_ok x) by lia. cbn [bind].
    rewrite (ck128_ok (t + x)) by lia. cbn [bind].
    eapply ok_impl; [apply (IH (t + x)); auto; lia|].
    cbv beta. intros r [R1 R2]. split; lia.
Qed.

Lemma sqr_col_spec a j h l is even co c A :
  (forall i k, - A <= limb a i * limb a k <= A) -> 1 <= A <= P122 ->
  - A <= co <= A -> (length is <= 3)%nat -> digs c ->
  ok (sqr_col a j h l is even (co, c)) (fun '(co', c') =>
    (exists t, t = 2 * (limb a h * limb a l + sqsum a j is) + co +
        (if even then limb a (j / 2) * limb a (j / 2) else 0) /\
      co' = t / B58 /\ c' = c ++ [t mod B58]) /\ - A <= co' <= A /\ digs c').
Proof.
  intros PR LA C L D. unfold sqr_col. pose proof (PR h l) as P1. pose proof (PR (j / 2) (j / 2))%nat as P2.
  pose proof LA as LA'. unfold P122 in LA'.
  assert (LL : 0 <= A * Z.of_nat (length is) <= A * 3).
  { split; [apply Z.mul_nonneg_nonneg; lia|apply Z.mul_le_mono_nonneg_l; lia]. }
  rewrite ck128_ok by lia. cbn [bind].
  eapply ok_bind; [apply (sqr_inner_spec a j A is (limb a h * limb a l)); auto; lia|].
  intros t1 [T1 T2].
  rewrite (ck128_ok (t1 + t1)) by lia. cbn [bind].
  rewrite (ck128_ok (t1 + t1 + co)) by lia. cbn [bind].
  assert (Q : forall t, - (16 * A) <= t <= 16 * A -> - A <= t / B58 <= A).
  { intros t T. split; [apply Z.div_le_lower_bound; lia|apply Z.div_le_upper_bound; lia]. }
  assert (M : forall t, 0 <= t mod B58 < B58) by (intros; apply Z.mod_pos_bound; lia).
  destruct even.
  - rewrite (ck128_ok (limb a (j / 2) * limb a (j / 2))) by lia. cbn [bind].
    rewrite (ck128_ok (t1 + t1 + co + _)) by lia. cbn [bind ok].
    rewrite land_bmask, shr_base. split; [eexists; split; [|split; reflexivity]; lia|].
    split; [apply Q; lia|]. apply digs_snoc; auto.
  - cbn [bind ok].
    rewrite land_bmask, shr_base. split; [eexists; split; [|split; reflexivity]; lia|].
    split; [apply Q; lia|]. apply digs_snoc; auto.
Qed.

Ltac sqstep A := rewrite ?bind_assoc; eapply ok_bind; [apply (sqr_col_spec _ _ _ _ _ _ _ _ A); auto;
     cbn [length seq Nat.add Nat.sub Nat.div Nat.divmod fst snd]; try lia|
     intros [? ?] ((? & ? & -> & ->) & ? & ?)].
Lemma big_sqr_spec a A : length a = 7%nat ->
  lb A a -> 1 <= A <= 2 ^ 61 -> lval a * lval a < 2 ^ 816 ->
  ok (big_sqr a) (fun r => nrep 14 r (lval a * lval a)).
Proof.
  intros La HA BA V. unfold big_sqr.
  assert (AB1 : 1 <= A * A) by (apply Z.le_trans with (1 * 1); [lia|apply Z.mul_le_mono_nonneg; lia]).
  assert (AB : A * A <= P122).
  { change P122 with (2 ^ 61 * 2 ^ 61). apply Z.mul_le_mono_nonneg; lia. }
  assert (PR : forall i j, - (A * A) <= limb a i * limb a j <= A * A).
  { intros. apply Z.abs_le. apply abs_mul_le.
    - pose proof (lb_limb A a i ltac:(lia) HA). lia.
    - pose proof (lb_limb A a j ltac:(lia) HA). lia. }
  assert (AA : 1 <= A * A <= P122) by lia. unfold P122 in AB.
  assert (Q : forall t, - (16 * (A * A)) <= t <= 16 * (A * A) -> - (A * A) <= t / B58 <= A * A).
  { intros t T. split; [apply Z.div_le_lower_bound; lia|apply Z.div_le_upper_bound; lia]. }
  assert (M : forall t, 0 <= t mod B58 < B58) by (intros; apply Z.mod_pos_bound; lia).
  pose proof (PR 0 0)%nat as P00. rewrite ck128_ok by lia. cbn [bind foldM].
  rewrite !land_bmask, !shr_base.
  assert (C0 : - (A * A) <= limb a 0 * limb a 0 / B58 <= A * A) by (apply Q; lia).
  assert (D0 : digs [(limb a 0 * limb a 0) mod B58]) by (apply digs_cons; split; [apply M|constructor]).
  unfold sqr_lo. do 6 sqstep (A * A). cbn [bind].
  unfold sqr_hi. do 4 sqstep (A * A). cbn [bind].
  pose proof (PR 5 6)%nat as P56. pose proof (PR 6 6)%nat as P66.
  rewrite (ck128_ok (limb a 5 * limb a 6)) by lia. cbn [bind].
  rewrite (ck128_ok (limb a 5 * limb a 6 + limb a 5 * limb a 6)) by lia. cbn [bind].
  match goal with |- context [ck128 (limb a 5 * limb a 6 + limb a 5 * limb a 6 + ?y)] =>
    remember (limb a 5 * limb a 6 + limb a 5 * limb a 6 + y) as t11 end.
  rewrite (ck128_ok t11) by lia. cbn [bind]. rewrite (ck128_ok (limb a 6 * limb a 6)) by lia. cbn [bind].
  rewrite !land_bmask, !shr_base.
  assert (T11 : - (A * A) <= t11 / B58 <= A * A) by (apply Q; lia).
  remember (limb a 6 * limb a 6 + t11 / B58) as t12.
  rewrite (ck128_ok t12) by lia. cbn [bind ok]. rewrite shr_base, land_bmask.
  match goal with |- nrep 14 (?c ++ [?x; ?y; ?z]) _ => change (c ++ [x; y; z]) with (c ++ ([x] ++ ([y] ++ [z]))) end.
  rewrite 2 app_assoc.
  pose proof (Z.square_nonneg (lval a)) as SQ.
  apply top_wrap; [reflexivity|repeat apply digs_snoc; auto| |lia].
  assert (R : forall z, z mod B58 = z - B58 * (z / B58)) by (intros; rewrite Z.mod_eq by lia; reflexivity).
  repeat match goal with H : _ <= _ <= _ |- _ => clear H | H : digs _ |- _ => clear H | H : lb _ _ |- _ => clear H end.
  clear PR Q M SQ V AB1 AB.
  cbn [app lval]. rewrite !R. clear R.
  repeat match goal with H : ?x = _ |- _ => match goal with |- context [?x / B58] =>
    let q := fresh "q" in set (q := x / B58) in *; clearbody q; subst x end end.
  set (qq0 := limb a 0 * limb a 0 / B58) in *. clearbody qq0.
  list7 a La.
  cbn [sqsum seq Nat.add Nat.sub Nat.div Nat.divmod fst snd limb nth lval]. ring.
Qed.
