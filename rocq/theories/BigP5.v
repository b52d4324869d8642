(* Correctness of the Montgomery reduction loop. *)
From Coq Require Import Lia ZifyBool Znumtheory.
From Verif Require Import Prim PrimP Rom Big BigP BigP2 BigP4.

Fixpoint mcross (md v : list Z) (k : nat) (is : list nat) : Z :=
  match is with
  | [] => 0
  | i :: r => (limb v (k - i) - limb v i) * (limb md i - limb md (k - i)) + mcross md v k r
  end.

Definition P116 : Z := 83076749736557242056487941267521536.  (* 2^116 *)

Definition limd (l : list Z) := forall i, 0 <= limb l i < B58.

Lemma digs_limd l : digs l -> limd l.
Proof. intros D i. apply digs_limb. exact D. Qed.

Lemma prod116 x y : 0 <= x < B58 -> 0 <= y < B58 -> 0 <= x * y <= P116.
Proof.
  intros. split; [apply Z.mul_nonneg_nonneg; lia|]. change P116 with (B58 * B58).
  apply Z.mul_le_mono_nonneg; lia.
Qed.

Lemma prod116' x y : - B58 <= x <= B58 -> - B58 <= y <= B58 -> - P116 <= x * y <= P116.
Proof.
  intros. apply Z.abs_le. change P116 with (B58 * B58). apply abs_mul_le; apply Z.abs_le; lia.
Qed.

Lemma monty_inner_spec md v k is : forall t,
  limd md -> limd v ->
  - 2 ^ 126 <= t - P116 * Z.of_nat (length is) -> t + P116 * Z.of_nat (length is) <= 2 ^ 126 ->
  ok (monty_inner md v k is t) (fun r => r = t + mcross md v k is /\
     t - P116 * Z.of_nat (length is) <= r <= t + P116 * Z.of_nat (length is)).
Proof.
  unfold monty_inner.
  induction is as [|i is IH]; intros t HM HV T1 T2; cbn [foldM mcross].
  - cbn [ok]. simpl length in *. lia.
  - pose proof (HM i). pose proof (HM (k - i)%nat). pose proof (HV i). pose proof (HV (k - i)%nat).
    rewrite !ck64_ok by lia. cbn [bind].
    pose proof (prod116' (limb v (k - i) - limb v i) (limb md i - limb md (k - i)) ltac:(lia) ltac:(lia)).
    set (x := (limb v (k - i) - limb v i) * (limb md i - limb md (k - i))) in *.
    simpl length in *. rewrite Nat2Z.inj_succ in *. unfold P116 in *.
    rewrite (ck128_ok x) by lia. cbn [bind].
    rewrite (ck128_ok (t + x)) by lia. cbn [bind].
    eapply ok_impl; [apply (IH (t + x)); auto; lia|].
    cbv beta. intros r [R1 R2]. split; lia.
Qed.

Lemma monty_v_spec mc t : monty_v mc t = (t * mc) mod B58.
Proof.
  unfold monty_v. rewrite !land_bmask.
  assert (W : forall z, (wrap64 z) mod B58 = z mod B58).
  { intros z. apply (wrap64_mod z 58). lia. }
  rewrite W. apply Z.mul_mod_idemp_l. lia.
Qed.

Lemma monty_cancel mc m t : (m * mc + 1) mod B58 = 0 ->
  exists q, t + monty_v mc t * m = B58 * q.
Proof.
  intros H. rewrite monty_v_spec. apply Z.mod_divide in H; [|lia]. destruct H as [z H].
  exists (t * z - (t * mc / B58) * m).
  rewrite Z.mod_eq by lia.
  replace (t + (t * mc - B58 * (t * mc / B58)) * m)
    with (t * (m * mc + 1) - B58 * (t * mc / B58) * m) by ring.
  rewrite H. ring.
Qed.

Lemma monty_v_range mc t : 0 <= monty_v mc t < B58.
Proof. rewrite monty_v_spec. apply Z.mod_pos_bound. lia. Qed.

Definition P62 : Z := 18446744073709551616.  (* 2^64 *)
(* limbs of the reduced number need not be normalised *)
Definition limw (l : list Z) := forall i, - (40 * B58) <= limb l i <= 40 * B58.
Lemma digs_limw l : digs l -> limw l.
Proof. intros D i. pose proof (digs_limd l D i). lia. Qed.

Lemma limb_app_l l x i : (i < length l)%nat -> limb (l ++ [x]) i = limb l i.
Proof. intros. unfold limb. apply app_nth1. auto. Qed.

Lemma monty_lo_spec md mc d v dd c s k :
  limd md -> limd v -> limw d -> (limb md 0 * mc + 1) mod B58 = 0 ->
  - P62 <= c <= P62 -> 0 <= s <= 6 * P116 -> (1 <= k <= 6)%nat ->
  ok (monty_lo md mc d (v, dd, c, s) k) (fun '(v', dd', c', s') => exists vk q,
     0 <= vk < B58 /\ v' = v ++ [vk] /\ dd' = dd ++ [vk * limb md k] /\ s' = s + vk * limb md k /\
     c' = limb d (k + 1) + q /\ - P62 <= c' <= P62 /\
     B58 * q = c + s + limb v 0 * limb md k + mcross md v k (seq (1 + k / 2) (k - (1 + k / 2))) + vk * limb md 0).
Proof.
  intros HM HV HD HC C S K. unfold monty_lo. unfold P62, P116 in *.
  pose proof (prod116 _ _ (HV 0%nat) (HM k)) as P0. unfold P116 in P0.
  rewrite (ck128_ok (limb v 0 * limb md k)) by lia. cbn [bind].
  rewrite (ck128_ok (c + s)) by lia. cbn [bind].
  rewrite (ck128_ok (c + s + limb v 0 * limb md k)) by lia. cbn [bind].
  assert (L : (length (seq (1 + k / 2) (k - (1 + k / 2))) <= 3)%nat).
  { rewrite seq_length. do 7 (destruct k as [|k]; [cbn; lia|]). lia. }
  eapply ok_bind; [apply (monty_inner_spec md v k (seq (1 + k / 2) (k - (1 + k / 2)))); auto; unfold P116; lia|].
  intros t2 [T1 T2]. unfold P116 in T2.
  pose proof (monty_v_range mc t2) as VR. destruct (monty_cancel mc (limb md 0) t2 HC) as [q Q].
  set (vk := monty_v mc t2) in *. clearbody vk.
  pose proof (prod116 _ _ VR (HM 0%nat)) as P1. pose proof (prod116 _ _ VR (HM k)) as P2. unfold P116 in P1, P2.
  rewrite (ck128_ok (vk * limb md 0)) by lia. cbn [bind].
  rewrite (ck128_ok (t2 + vk * limb md 0)) by lia. cbn [bind].
  rewrite shr_base. rewrite Q. rewrite (Z.mul_comm B58 q), Z.div_mul by lia.
  pose proof (HD (k + 1)%nat) as D1.
  assert (- (15 * B58) <= q <= 15 * B58) by lia.
  rewrite (ck128_ok (limb d (k + 1) + q)) by lia. cbn [bind].
  rewrite (ck128_ok (vk * limb md k)) by lia. cbn [bind].
  rewrite (ck128_ok (s + vk * limb md k)) by lia. cbn [bind ok].
  exists vk, q. repeat split; auto; lia.
Qed.

Lemma monty_hi_spec md v dd d b c s k :
  limd md -> limd v -> limw d ->
  - P62 <= c <= P62 -> - (6 * P116) <= s <= 6 * P116 ->
  - (6 * P116) <= s - limb dd (k + 1 - 7) <= 6 * P116 -> (7 <= k <= 12)%nat -> digs b ->
  ok (monty_hi md v dd d (b, c, s) k) (fun '(b', c', s') => exists t,
     t = c + s + mcross md v k (seq (1 + k / 2) (7 - (1 + k / 2))) /\
     b' = b ++ [t mod B58] /\ s' = s - limb dd (k + 1 - 7) /\ digs b' /\
     c' = limb d (k + 1) + t / B58 /\ - P62 <= c' <= P62).
Proof.
  intros HM HV HD C S S' K DB. unfold monty_hi. unfold P62, P116 in *.
  rewrite (ck128_ok (c + s)) by lia. cbn [bind].
  assert (L : (length (seq (1 + k / 2) (7 - (1 + k / 2))) <= 3)%nat).
  { rewrite seq_length. do 13 (destruct k as [|k]; [cbn; lia|]). lia. }
  eapply ok_bind; [apply (monty_inner_spec md v k (seq (1 + k / 2) (7 - (1 + k / 2)))); auto; unfold P116; lia|].
  intros t [T1 T2]. unfold P116 in T2. rewrite shr_base, land_bmask.
  pose proof (HD (k + 1)%nat) as D1.
  assert (- (15 * B58) <= t / B58 <= 15 * B58).
  { split; [apply Z.div_le_lower_bound; lia|apply Z.div_le_upper_bound; lia]. }
  rewrite (ck128_ok (limb d (k + 1) + t / B58)) by lia. cbn [bind].
  rewrite (ck128_ok (s - limb dd (k + 1 - 7))) by lia. cbn [bind ok].
  exists t. repeat split; auto; try lia.
  apply digs_snoc; auto. apply Z.mod_pos_bound. lia.
Qed.

Lemma limd_snoc l x : digs l -> 0 <= x < B58 -> limd (l ++ [x]).
Proof. intros. apply digs_limd. apply digs_snoc; auto. Qed.

Ltac list14 a L := do 14 (destruct a as [|? a]; [discriminate L|]); destruct a; [|discriminate L].
Ltac mlo := rewrite ?bind_assoc; eapply ok_bind; [apply monty_lo_spec; auto; try (unfold P116 in *; lia); try (apply digs_limd; repeat (constructor; auto)) |
     let vk := fresh "v" in let q := fresh "q" in
     intros [[[? ?] ?] ?] (vk & q & ? & -> & -> & -> & -> & ? & ?); cbn [app Nat.add Nat.sub] in *].
Ltac mhi := rewrite ?bind_assoc; eapply ok_bind; [apply monty_hi_spec; auto; cbn [Nat.add Nat.sub limb nth]; try (unfold P116 in *; lia) |
     let t := fresh "t" in
     intros [[? ?] ?] (t & ? & -> & -> & ? & -> & ?); cbn [app Nat.add Nat.sub] in *].

Lemma big_monty_gen md mc d :
  length md = 7%nat -> length d = 14%nat -> digs md -> limw d -> 0 <= lval d ->
  (limb md 0 * mc + 1) mod B58 = 0 -> lval d + 2 ^ 406 * lval md < 2 ^ 812 ->
  ok (big_monty md mc d) (fun r => length r = 7%nat /\ digs r /\
    exists V, 0 <= V < 2 ^ 406 /\ 2 ^ 406 * lval r = lval d + V * lval md).
Proof.
  intros Lm Ld DM HD BD HC VB. unfold big_monty.
  pose proof (digs_limd _ DM) as HM.
  pose proof (monty_v_range mc (limb d 0)) as VR.
  destruct (monty_cancel mc (limb md 0) (limb d 0) HC) as [q0 Q0].
  set (v0 := monty_v mc (limb d 0)) in *. clearbody v0.
  pose proof (prod116 _ _ VR (HM 0%nat)) as P0. pose proof (HD 0%nat) as D0. pose proof (HD 1%nat) as D1.
  unfold P116 in P0.
  rewrite (ck128_ok (v0 * limb md 0)) by lia. cbn [bind].
  rewrite (ck128_ok (limb d 0 + v0 * limb md 0)) by lia. cbn [bind].
  rewrite shr_base, Q0, (Z.mul_comm B58 q0), Z.div_mul by lia.
  rewrite ck128_ok by lia. cbn [bind seq foldM].
  assert (C1 : - P62 <= limb d 1 + q0 <= P62) by (unfold P62; lia).
  assert (PV : forall v i, 0 <= v < B58 -> 0 <= v * limb md i <= P116) by (intros; apply prod116; auto).
  mlo.
  pose proof (PV v 1%nat ltac:(auto)).
  mlo. pose proof (PV v1 2%nat ltac:(auto)).
  mlo. pose proof (PV v2 3%nat ltac:(auto)).
  mlo. pose proof (PV v3 4%nat ltac:(auto)).
  mlo. pose proof (PV v4 5%nat ltac:(auto)).
  mlo. pose proof (PV v5 6%nat ltac:(auto)).
  cbn [bind].
  set (vv := [v0; v; v1; v2; v3; v4; v5]) in *.
  assert (DV : digs vv) by (repeat (constructor; auto)).
  pose proof (digs_limd _ DV) as HV.
  assert (DN : digs []) by constructor.
  mhi. mhi. mhi. mhi. mhi. mhi.
  cbn [bind ok]. rewrite land_bmask.
  assert (E : lval [t mod B58; t0 mod B58; t1 mod B58; t2 mod B58; t3 mod B58; t4 mod B58]
              * 2 ^ 406 + 2 ^ 754 * (limb d 13 + t4 / B58) = lval d + lval vv * lval md).
  { clear - Lm Ld Q0 H1 H5 H9 H13 H17 H21 H23 H26 H29 H32 H35 H38.
    assert (R : forall z, z mod B58 = z - B58 * (z / B58)) by (intros; rewrite Z.mod_eq by lia; reflexivity).
    cbn [app lval]. rewrite !R. clear R.
    repeat match goal with H : ?x = _ |- _ => match goal with |- context [?x / B58] =>
      let q := fresh "q" in set (q := x / B58) in *; clearbody q; subst x end end.
    subst vv. list7 md Lm. list14 d Ld.
    cbn [mcross seq Nat.add Nat.sub Nat.div Nat.divmod fst snd limb nth lval] in *.
    repeat match goal with
    | H : B58 * ?q = ?d + ?q' + ?a + ?b + ?c + ?e |- _ =>
        assert (d = B58 * q - q' - a - b - c - e) by lia; clear H; subst d
    | H : ?d + ?a = B58 * ?q |- _ => assert (d = B58 * q - a) by lia; clear H; subst d end.
    ring. }
  pose proof (digs_val _ DV) as BV. change (58 * Z.of_nat (length vv)) with 406 in BV.
  pose proof (digs_val _ H39) as BB. cbn [length] in BB. change (58 * Z.of_nat 6) with 348 in BB.
  pose proof (digs_val _ DM) as BM. rewrite Lm in BM.
  set (cc := limb d 13 + t4 / B58) in *. clearbody cc.
  set (bb := [t mod B58; t0 mod B58; t1 mod B58; t2 mod B58; t3 mod B58; t4 mod B58]) in *.
  assert (LB : length bb = 6%nat) by reflexivity. clearbody bb.
  assert (VM : 0 <= lval vv * lval md <= 2 ^ 406 * lval md).
  { split; [apply Z.mul_nonneg_nonneg; lia|apply Z.mul_le_mono_nonneg_r; lia]. }
  assert (VM' : lval md = 0 \/ lval vv * lval md < 2 ^ 406 * lval md).
  { destruct (Z.eq_dec (lval md) 0); [auto|right]. apply Z.mul_lt_mono_pos_r; lia. }
  assert (CC : 0 <= cc < B58).
  { clear - BB E VM BD VB VM'. lia. }
  rewrite Z.mod_small by exact CC.
  split; [rewrite app_length, LB; reflexivity|]. split; [apply digs_snoc; auto|].
  exists (lval vv). split; [exact BV|]. rewrite lval_snoc, LB. change (58 * Z.of_nat 6) with 348.
  clear - E. lia.
Qed.
Lemma big_monty_spec md mc d :
  length md = 7%nat -> length d = 14%nat -> digs md -> digs d ->
  (limb md 0 * mc + 1) mod B58 = 0 -> lval d + 2 ^ 406 * lval md < 2 ^ 812 ->
  ok (big_monty md mc d) (fun r => length r = 7%nat /\ digs r /\
    exists V, 0 <= V < 2 ^ 406 /\ 2 ^ 406 * lval r = lval d + V * lval md).
Proof.
  intros Lm Ld DM DD HC VB. apply big_monty_gen; auto; [apply digs_limw, DD|]. apply digs_val in DD. lia.
Qed.
