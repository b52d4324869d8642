(* The signed-digit loops that read the bits of 3e and e (fp12.rs pow and
   pair.rs ate). *)
From Coq Require Import Lia ZifyBool Znumtheory.
From Verif Require Import Prim PrimP Rom Big BigP BigP2 BigP3 BigP4 BigP5 NumT FieldQ Fp FpP.

Lemma nth_digit w : forall i, digs w -> (i < length w)%nat -> nth i w 0 = (lval w / 2 ^ (58 * Z.of_nat i)) mod B58.
Proof.
  induction w as [|x w IH]; intros i D L; cbn [length] in L; [lia|]. apply digs_cons in D. destruct D as [D1 D2]. destruct i as [|i]; cbn [nth lval].
  - change (58 * Z.of_nat 0) with 0. rewrite Z.pow_0_r, Z.div_1_r. rewrite Z.mul_comm, Z.mod_add by (compute; discriminate). symmetry. apply Z.mod_small. exact D1.
  - rewrite IH by (auto; lia). f_equal. replace (58 * Z.of_nat (S i)) with (58 + 58 * Z.of_nat i) by lia. rewrite Z.pow_add_r by lia.
    rewrite <- Z.div_div by (try lia; apply Z.pow_pos_nonneg; lia). f_equal. change (2 ^ 58) with B58.
    rewrite Z.mul_comm, Z.div_add by (compute; discriminate). rewrite (Z.div_small x) by exact D1. lia.
Qed.
Lemma land_pow2 a m : 0 <= m -> Z.land a (2 ^ m) = if Z.testbit a m then 2 ^ m else 0.
Proof.
  intros M. apply Z.bits_inj'. intros n N. rewrite Z.land_spec, Z.pow2_bits_eqb by exact M.
  destruct (Z.testbit a m) eqn:T.
  - rewrite Z.pow2_bits_eqb by exact M. destruct (Z.eqb_spec m n) as [->|]; [rewrite T; reflexivity|apply Bool.andb_false_r].
  - rewrite Z.bits_0. destruct (Z.eqb_spec m n) as [->|]; [rewrite T; reflexivity|apply Bool.andb_false_r].
Qed.
Lemma big_bit_ok w v n : rep 7 w v -> 0 <= n < 406 -> big_bit w n = Some (Z.b2z (Z.testbit v n)).
Proof.
  intros (L & D & V) N. unfold big_bit, BASEBITS. pose proof (Z.div_mod n 58 ltac:(lia)) as DM. pose proof (Z.mod_pos_bound n 58 ltac:(lia)) as MB.
  assert (DB : 0 <= n / 58 < 7) by (split; [apply Z.div_pos; lia|apply Z.div_lt_upper_bound; lia]).
  unfold getM. rewrite (nth_error_nth' w 0) by (rewrite L; lia). cbn [bind]. f_equal.
  rewrite nth_digit by (auto; lia). rewrite Z2Nat.id by lia. rewrite V, Z.shiftl_1_l, land_pow2 by lia.
  change B58 with (2 ^ 58). rewrite Z.mod_pow2_bits_low by lia. rewrite Z.div_pow2_bits by lia.
  replace (n mod 58 + 58 * (n / 58)) with n by lia. destruct (Z.testbit v n); [|reflexivity].
  pose proof (Z.pow_pos_nonneg 2 (n mod 58) ltac:(lia) ltac:(lia)) as P. apply Z.ltb_lt in P. rewrite P. reflexivity.
Qed.
Lemma big_pmul3_ok w v : rep 7 w v -> 3 * v < 2 ^ 406 -> ok (big_pmul w 3) (fun r => rep 7 r (3 * v)).
Proof.
  intros H B. pose proof (rep_lb _ _ _ H) as LB. pose proof H as (L & D & V). pose proof (digs_val _ D) as VB.
  eapply ok_impl; [apply (pmul_go_spec 3 w 0); [lia|eapply lb_weak; [exact LB|lia]|lia]|]. cbv beta. intros r (R1 & R2 & t & R3).
  pose proof (digs_val _ R2) as RB. rewrite R1, L in RB. rewrite L in R3, VB. change (58 * Z.of_nat 7) with 406 in *.
  split; [congruence|]. split; [exact R2|]. assert (t = 0); [|subst t; lia]. clear - R3 RB B VB V. subst v. nia.
Qed.
Lemma big_norm_rep w v : rep 7 w v -> ok (big_norm w) (fun r => rep 7 r v).
Proof.
  intros H. pose proof (rep_lb _ _ _ H) as LB. pose proof H as (L & D & V). pose proof (digs_val _ D) as VB.
  eapply ok_impl; [apply big_norm_spec; [exact L|eapply lb_weak; [exact LB|lia]]|]. cbv beta. intros r (R1 & R2 & R3).
  apply nrep_rep; [split; [exact R1|split; [exact R2|congruence]]|]. rewrite L in VB. rewrite V in VB. exact VB.
Qed.

(* ------------------------- the digits -------------------------------- *)
Definition sd (v i : Z) : Z := Z.b2z (Z.testbit (3 * v) i) - Z.b2z (Z.testbit v i).
Definition dd (v i : Z) : Z := 3 * v / 2 ^ i - v / 2 ^ i.
Lemma half_step a i : 0 <= i -> a / 2 ^ i = 2 * (a / 2 ^ (i + 1)) + Z.b2z (Z.testbit a i).
Proof.
  intros I. rewrite Z.testbit_spec' by exact I. rewrite Z.pow_add_r by lia. change (2 ^ 1) with 2.
  rewrite <- Z.div_div by (try lia; apply Z.pow_nonzero; lia). apply Z.div_mod. lia.
Qed.
Lemma dd_step v i : 0 <= i -> dd v i = 2 * dd v (i + 1) + sd v i.
Proof. intros I. unfold dd, sd. rewrite (half_step (3 * v) i I), (half_step v i I). lia. Qed.
Lemma sd_cases v i : sd v i = 1 \/ sd v i = 0 \/ sd v i = -1.
Proof. unfold sd. destruct (Z.testbit (3 * v) i), (Z.testbit v i); cbn; lia. Qed.
Lemma dd_top v : 1 <= v -> dd v (bitlen (3 * v) - 1) = 1.
Proof.
  intros V. unfold dd, bitlen. destruct (Z.eqb_spec (3 * v) 0); [lia|]. replace (Z.log2 (3 * v) + 1 - 1) with (Z.log2 (3 * v)) by lia.
  pose proof (Z.log2_spec (3 * v) ltac:(lia)) as [A B]. rewrite Z.pow_succ_r in B by apply Z.log2_nonneg.
  set (p := 2 ^ Z.log2 (3 * v)) in *. assert (P : 0 < p) by (apply Z.pow_pos_nonneg; [lia|apply Z.log2_nonneg]).
  assert (E1 : 3 * v / p = 1) by (symmetry; apply (Z.div_unique_pos (3 * v) p 1 (3 * v - p)); lia).
  rewrite (Z.div_small v p) by lia. lia.
Qed.
Lemma dd_1 v : dd v 1 = v.
Proof.
  unfold dd. change (2 ^ 1) with 2. pose proof (Z.div_mod v 2 ltac:(lia)). pose proof (Z.mod_pos_bound v 2 ltac:(lia)).
  assert (E : 3 * v / 2 = v + v / 2) by (replace (3 * v) with (v + v * 2) by lia; rewrite Z.div_add by lia; lia).
  lia.
Qed.
Lemma bitlen3 v : 1 <= v -> 2 <= bitlen (3 * v).
Proof.
  intros V. pose proof (bitlen_bound (3 * v) ltac:(lia)) as BB.
  destruct (Z_lt_le_dec (bitlen (3 * v)) 2) as [C|C]; [|exact C]. pose proof (bitlen_nonneg (3 * v)).
  assert (D : 2 ^ bitlen (3 * v) <= 2 ^ 1) by (apply Z.pow_le_mono_r; lia). lia.
Qed.
Lemma dd_ge1 v i : 1 <= v -> 0 <= i <= bitlen (3 * v) - 1 -> 1 <= dd v i.
Proof.
  intros V I. assert (G : forall j, 0 <= j -> j <= bitlen (3 * v) - 1 -> 1 <= dd v (bitlen (3 * v) - 1 - j)).
  { apply (natlike_ind (fun j => j <= bitlen (3 * v) - 1 -> 1 <= dd v (bitlen (3 * v) - 1 - j))).
    - intros _. rewrite Z.sub_0_r, dd_top by exact V. lia.
    - intros j J IH B. rewrite dd_step by lia. replace (bitlen (3 * v) - 1 - Z.succ j + 1) with (bitlen (3 * v) - 1 - j) by lia.
      pose proof (sd_cases v (bitlen (3 * v) - 1 - Z.succ j)). specialize (IH ltac:(lia)). lia. }
  specialize (G (bitlen (3 * v) - 1 - i) ltac:(lia) ltac:(lia)). replace (bitlen (3 * v) - 1 - (bitlen (3 * v) - 1 - i)) with i in G by lia. exact G.
Qed.
(* a loop over the digits from the top but one down to digit 1 *)
Lemma naf_loop {A} (f : A -> nat -> option A) (R : Z -> A -> Prop) :
  forall m, (forall a i, (1 <= i <= m)%nat -> R (Z.of_nat i + 1) a -> ok (f a i) (R (Z.of_nat i))) ->
  forall a, R (Z.of_nat m + 1) a -> ok (foldM f (rev (seq 1 m)) a) (R 1).
Proof.
  induction m as [|m IH]; intros ST a H.
  - cbn [seq rev foldM ok]. exact H.
  - rewrite seq_S, rev_app_distr. cbn [rev app foldM]. change (1 + m)%nat with (S m).
    eapply ok_bind; [apply (ST a (S m)); [lia|exact H]|]. intros b B.
    apply IH; [intros; apply ST; auto; lia|]. replace (Z.of_nat m + 1) with (Z.of_nat (S m)) by lia. exact B.
Qed.
Lemma naf_run {A} (f : A -> nat -> option A) (R : Z -> A -> Prop) v a : 1 <= v ->
  (forall a i, (1 <= i)%nat -> Z.of_nat i + 1 < bitlen (3 * v) -> R (Z.of_nat i + 1) a -> ok (f a i) (R (Z.of_nat i))) ->
  R (bitlen (3 * v) - 1) a -> ok (foldM f (rev (seq 1 (Z.to_nat (bitlen (3 * v) - 1) - 1))) a) (R 1).
Proof.
  intros V ST H. pose proof (bitlen3 v V) as B2.
  set (m := (Z.to_nat (bitlen (3 * v) - 1) - 1)%nat). assert (M : Z.of_nat m + 1 = bitlen (3 * v) - 1) by lia.
  apply (naf_loop f R m).
  - intros. apply ST; auto; lia.
  - rewrite M. exact H.
Qed.
