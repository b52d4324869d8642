(* Fermat's little theorem, Pocklington's criterion, primality of q and r. *)
From Coq Require Import ZArith List Bool Lia Znumtheory Permutation.
From Verif Require Import Dig PowD.
Import ListNotations.
Open Scope Z_scope.

(* ------------------------- modular powers -------------------------- *)
Fixpoint powm_pos (n a : Z) (e : positive) : Z :=
  match e with
  | xH => a mod n
  | xO e' => let t := powm_pos n a e' in (t * t) mod n
  | xI e' => let t := powm_pos n a e' in (a * (t * t)) mod n
  end.
Definition powm (n a e : Z) : Z := match e with Zpos p => powm_pos n a p | _ => 1 mod n end.

Lemma powm_pos_spec n a e : n <> 0 -> powm_pos n a e = (a ^ Zpos e) mod n.
Proof.
  intros N. induction e as [e IH|e IH|]; cbn [powm_pos].
  - rewrite IH. rewrite Pos2Z.inj_xI, Z.pow_add_r, Z.pow_1_r by lia.
    replace (2 * Z.pos e) with (Z.pos e + Z.pos e) by lia. rewrite Z.pow_add_r by lia.
    rewrite (Z.mul_comm a). rewrite <- Z.mul_mod_idemp_l by auto. rewrite <- Z.mul_mod by auto.
    rewrite Z.mul_mod_idemp_l by auto. reflexivity.
  - rewrite IH. rewrite Pos2Z.inj_xO.
    replace (2 * Z.pos e) with (Z.pos e + Z.pos e) by lia. rewrite Z.pow_add_r by lia.
    rewrite <- Z.mul_mod by auto. reflexivity.
  - rewrite Z.pow_1_r. reflexivity.
Qed.

Lemma powm_spec n a e : n <> 0 -> 0 <= e -> powm n a e = (a ^ e) mod n.
Proof.
  intros N E. destruct e as [|e|e]; [reflexivity|apply powm_pos_spec; auto|lia].
Qed.

(* --------------------------- Fermat -------------------------------- *)
Definition zrange (p : Z) : list Z := map Z.of_nat (seq 1 (Z.to_nat (p - 1))).

Lemma zrange_in p x : In x (zrange p) <-> 1 <= x < p.
Proof.
  unfold zrange. rewrite in_map_iff. split.
  - intros (k & <- & K). apply in_seq in K. lia.
  - intros H. exists (Z.to_nat x). split; [lia|]. apply in_seq. lia.
Qed.

Lemma zrange_nodup p : NoDup (zrange p).
Proof.
  unfold zrange. apply FinFun.Injective_map_NoDup; [|apply seq_NoDup].
  intros x y H. lia.
Qed.

Definition zprod (l : list Z) : Z := fold_right Z.mul 1 l.

Lemma zprod_perm l m : Permutation l m -> zprod l = zprod m.
Proof. unfold zprod. induction 1; cbn [fold_right]; [reflexivity|congruence|ring|congruence]. Qed.

Lemma zprod_scale a p l : p <> 0 ->
  zprod (map (fun x => (a * x) mod p) l) mod p = (a ^ Z.of_nat (length l) * zprod l) mod p.
Proof.
  intros P. induction l as [|x l IH]; [reflexivity|].
  cbn [map zprod fold_right length]. fold (zprod l). fold (zprod (map (fun x => (a * x) mod p) l)).
  rewrite Z.mul_mod_idemp_l by auto. rewrite <- Z.mul_mod_idemp_r by auto. rewrite IH.
  rewrite Z.mul_mod_idemp_r by auto. rewrite Nat2Z.inj_succ, Z.pow_succ_r by lia. f_equal. ring.
Qed.

Lemma prime_ndiv p x : prime p -> 1 <= x < p -> ~ (p | x).
Proof. intros P H D. apply Z.divide_pos_le in D; lia. Qed.

Lemma zprod_rel_prime p l : prime p -> (forall x, In x l -> ~ (p | x)) -> ~ (p | zprod l).
Proof.
  intros P. induction l as [|x l IH]; intros H D.
  - cbn in D. apply Z.divide_1_r_nonneg in D; [|pose proof (prime_ge_2 p P); lia].
    pose proof (prime_ge_2 p P). lia.
  - cbn in D. apply prime_mult in D; auto. destruct D as [D|D].
    + apply (H x); cbn; auto.
    + apply IH; auto. intros. apply H. cbn. auto.
Qed.

Lemma mod_mul_cancel p a x y : prime p -> ~ (p | a) -> (a * x) mod p = (a * y) mod p -> x mod p = y mod p.
Proof.
  intros P A H. pose proof (prime_ge_2 p P).
  assert (D : (p | a * (x - y))).
  { apply Z.mod_divide; [lia|]. rewrite Z.mul_sub_distr_l, Zminus_mod, H, Z.sub_diag. apply Z.mod_0_l. lia. }
  apply prime_mult in D; auto. destruct D as [D|D]; [contradiction|].
  destruct D as [k K]. replace x with (y + k * p) by lia. apply Z.mod_add. lia.
Qed.

Lemma fermat p a : prime p -> ~ (p | a) -> a ^ (p - 1) mod p = 1.
Proof.
  intros P A. pose proof (prime_ge_2 p P) as P2.
  set (L := zrange p).
  assert (PM : Permutation (map (fun x => (a * x) mod p) L) L).
  { apply NoDup_Permutation_bis.
    - assert (forall l, NoDup l -> (forall x, In x l -> 1 <= x < p) -> NoDup (map (fun x => (a * x) mod p) l)).
      { induction 1 as [|x l NI ND IH]; intros R; [constructor|]. cbn [map]. constructor.
        - intros I. apply in_map_iff in I. destruct I as (y & E & Y). apply NI.
          apply mod_mul_cancel in E; auto.
          pose proof (R x (or_introl eq_refl)). pose proof (R y (or_intror Y)).
          rewrite !Z.mod_small in E by lia. subst. auto.
        - apply IH. intros. apply R. cbn. auto. }
      apply H; [apply zrange_nodup|]. intros x X. apply zrange_in in X. auto.
    - rewrite map_length. apply Nat.le_refl.
    - intros y Y. apply in_map_iff in Y. destruct Y as (x & <- & X). apply zrange_in in X.
      apply zrange_in. pose proof (Z.mod_pos_bound (a * x) p ltac:(lia)) as B.
      assert ((a * x) mod p <> 0); [|lia].
      intros E. apply Z.mod_divide in E; [|lia]. apply prime_mult in E; auto. destruct E as [E|E]; [auto|].
      apply (prime_ndiv p x) in E; auto. }
  apply zprod_perm in PM. pose proof (zprod_scale a p L ltac:(lia)) as S. rewrite PM in S.
  assert (LN : Z.of_nat (length L) = p - 1).
  { unfold L, zrange. rewrite map_length, seq_length. lia. }
  rewrite LN in S.
  assert (NP : ~ (p | zprod L)).
  { apply zprod_rel_prime; auto. intros x X. apply zrange_in in X. apply prime_ndiv; auto. }
  transitivity (1 mod p); [|apply Z.mod_small; lia].
  apply (mod_mul_cancel p (zprod L)); auto. rewrite Z.mul_1_r, S. f_equal. ring.
Qed.

(* ------------------------ trial division --------------------------- *)
Fixpoint trial (fuel : nat) (d n : Z) : bool :=
  match fuel with
  | O => false
  | S f => if n <? d * d then true else if n mod d =? 0 then false else trial f (d + 2) n
  end.

Lemma trial_spec fuel : forall d n, trial fuel d n = true -> 3 <= d -> Z.odd d = true -> Z.odd n = true -> 1 < n ->
  (forall k, 2 <= k < d -> ~ (k | n)) -> prime n.
Proof.
  induction fuel as [|f IH]; intros d n T D OD ON N H; [discriminate|]. cbn [trial] in T.
  destruct (n <? d * d) eqn:E.
  - apply Z.ltb_lt in E. apply prime_alt. split; [lia|]. intros k K [m M].
    assert (m < d \/ k < d) by nia.
    assert (1 < m < n) by nia.
    destruct H0.
    + apply (H m); [lia|]. exists k. lia.
    + apply (H k); [lia|]. exists m. lia.
  - destruct (n mod d =? 0) eqn:E2; [discriminate|]. apply Z.eqb_neq in E2.
    apply (IH (d + 2) n); auto; try lia.
    { rewrite Z.odd_add. rewrite OD. reflexivity. }
    intros k K KD. destruct (Z.eq_dec k d) as [->|].
    + apply E2. apply Z.mod_divide; auto. lia.
    + destruct (Z.eq_dec k (d + 1)) as [->|].
      * destruct KD as [m M]. assert (Z.odd (d + 1) = false) by (rewrite Z.odd_add, OD; reflexivity).
        rewrite M, Z.odd_mul, H0, andb_false_r in ON. discriminate.
      * apply (H k); auto. lia.
Qed.

Lemma trial_prime n fuel : Z.odd n = true -> 1 < n -> trial fuel 3 n = true -> prime n.
Proof.
  intros O N T. apply (trial_spec fuel 3 n); auto; try lia.
  intros k K [m M]. replace k with 2 in M by lia. rewrite M, Z.odd_mul, andb_false_r in O. discriminate.
Qed.

(* -------------------------- Pocklington ---------------------------- *)
Lemma pow_mod_1 p a n : 1 < p -> 0 <= n -> a mod p = 1 -> a ^ n mod p = 1.
Proof.
  intros P N H. revert n N. apply natlike_ind.
  - apply Z.mod_small. lia.
  - intros n N IH. rewrite Z.pow_succ_r by auto. rewrite Z.mul_mod, H, IH by lia. apply Z.mod_small. lia.
Qed.

(* every prime divisor of n is 1 modulo p *)
Lemma pock_div n p a l : prime p -> prime l -> (l | n) -> 1 < n -> (p | n - 1) -> 
  a ^ (n - 1) mod n = 1 -> Z.gcd (a ^ ((n - 1) / p) - 1) n = 1 -> (p | l - 1).
Proof.
  intros P PL LN N1 [m M] A G. pose proof (prime_ge_2 p P). pose proof (prime_ge_2 l PL).
  assert (M0 : 0 <= m) by nia.
  replace ((n - 1) / p) with m in G by (rewrite M, Z.div_mul by lia; reflexivity).
  destruct (Zdivide_dec p (l - 1)) as [D|D]; [exact D|exfalso].
  assert (RP : rel_prime p (l - 1)) by (apply prime_rel_prime; auto).
  assert (AL : a ^ (n - 1) mod l = 1).
  { destruct LN as [k K]. set (y := a ^ (n - 1)) in *. pose proof (Z.div_mod y n ltac:(lia)) as Y.
    rewrite A in Y. rewrite Y, K. replace (k * l * (y / (k * l)) + 1) with (1 + (k * (y / (k * l))) * l) by ring.
    rewrite Z.mod_add by lia. apply Z.mod_small. lia. }
  set (b := a ^ m) in *.
  assert (BP : b ^ p mod l = 1).
  { unfold b. rewrite <- Z.pow_mul_r by lia. rewrite <- M. exact AL. }
  assert (NB : ~ (l | b)).
  { intros B. assert ((l | b ^ p)).
    { replace p with (Z.succ (p - 1)) by lia. rewrite Z.pow_succ_r by lia. apply Z.divide_mul_l. auto. }
    apply Z.mod_divide in H1; lia. }
  pose proof (fermat l b PL NB) as BF.
  apply rel_prime_sym in RP. apply rel_prime_bezout in RP. destruct RP as [u v UV].
  (* u*(l-1) + v*p = 1 *)
  assert (B1 : b mod l = 1).
  { set (k := Z.abs u + Z.abs v).
    (* b = b^(1 + k*p*(l-1)) modulo l, exponent = (u + k p)(l-1) + v p, split to make both nonneg *)
    assert (E : (u + k * p) * (l - 1) + (v + k * (l - 1)) * p = 1 + 2 * k * p * (l - 1)).
    { transitivity ((u * (l - 1) + v * p) + 2 * k * p * (l - 1)); [ring|rewrite UV; reflexivity]. }
    assert (KA : 0 <= k /\ - k <= u /\ - k <= v) by (unfold k; lia). clearbody k.
    assert (KP : k * 1 <= k * p) by (apply Z.mul_le_mono_nonneg_l; lia).
    assert (KL : k * 1 <= k * (l - 1)) by (apply Z.mul_le_mono_nonneg_l; lia).
    assert (U0 : 0 <= u + k * p) by lia. assert (V0 : 0 <= v + k * (l - 1)) by lia.
    assert (K0 : 0 <= 2 * k * p) by lia.
    assert (U1 : 0 <= (u + k * p) * (l - 1)) by (apply Z.mul_nonneg_nonneg; lia).
    assert (V1 : 0 <= (v + k * (l - 1)) * p) by (apply Z.mul_nonneg_nonneg; lia).
    assert (K1 : 0 <= 2 * k * p * (l - 1)) by (apply Z.mul_nonneg_nonneg; lia).
    assert (X : b ^ ((u + k * p) * (l - 1) + (v + k * (l - 1)) * p) mod l = 1).
    { rewrite Z.pow_add_r by assumption.
      rewrite (Z.mul_comm (u + k * p)), (Z.mul_comm (v + k * (l - 1))).
      rewrite !Z.pow_mul_r by lia. rewrite Z.mul_mod by lia.
      rewrite !pow_mod_1 by (auto; lia). apply Z.mod_small. lia. }
    rewrite E, Z.pow_add_r, Z.pow_1_r in X by (assumption || lia).
    rewrite (Z.mul_comm _ (l - 1)), Z.pow_mul_r in X by lia.
    rewrite Z.mul_mod, (pow_mod_1 l (b ^ (l - 1))), Z.mul_1_r, Z.mod_mod in X by (auto; lia). exact X. }
  assert (LB : (l | b - 1)).
  { apply Z.mod_divide; [lia|]. rewrite Zminus_mod, B1, (Z.mod_small 1) by lia. reflexivity. }
  assert (LG : (l | 1)) by (rewrite <- G; apply Z.gcd_greatest; auto).
  apply Z.divide_1_r_nonneg in LG; lia.
Qed.

Lemma prime_divisor n : 1 < n -> exists l, prime l /\ (l | n).
Proof.
  intros N. assert (0 <= n) by lia. revert N. pattern n. apply Z_lt_induction; [|lia].
  clear. intros n IH N. destruct (prime_dec n) as [P|P]; [exists n; split; auto; apply Z.divide_refl|].
  apply not_prime_divide in P; [|lia]. destruct P as (k & K & D).
  destruct (IH k ltac:(lia) ltac:(lia)) as (l & L1 & L2). exists l. split; auto. eapply Z.divide_trans; eauto.
Qed.

Lemma small_factor n : 1 < n -> (forall l, prime l -> (l | n) -> n < l * l) -> prime n.
Proof.
  intros N H. destruct (prime_dec n) as [P|P]; auto. exfalso.
  apply not_prime_divide in P; [|lia]. destruct P as (k & K & [m M]).
  assert (1 < m) by nia.
  destruct (prime_divisor k ltac:(lia)) as (l & L1 & L2). destruct (prime_divisor m ltac:(lia)) as (l' & L1' & L2').
  assert (n < l * l) by (apply H; auto; eapply Z.divide_trans; eauto; exists m; auto).
  assert (n < l' * l') by (apply H; auto; eapply Z.divide_trans; eauto; exists k; lia).
  apply Z.divide_pos_le in L2; [|lia]. apply Z.divide_pos_le in L2'; [|lia].
  pose proof (prime_ge_2 l L1). pose proof (prime_ge_2 l' L1').
  assert (l * l <= k * k) by nia. assert (l' * l' <= m * m) by nia.
  assert (M1 : m * k < k * k) by lia. assert (M2 : m * k < m * m) by lia.
  apply Z.mul_lt_mono_pos_r in M1; [|lia]. apply Z.mul_lt_mono_pos_l in M2; lia.
Qed.

(* the conditions for n, a and the prime p, checked with digits: y = a^m with m = (n-1)/p, and w
   inverts y - 1 *)
Definition invd0 (n y w k : num) : bool := eqn (mul y w) (add w (mula k n (C D1 E))).
Definition invd : num -> num -> num -> num -> bool := Eval cbv
  [invd0 add eqn mul mula mac addc inc incd isz mulT addT addT1 incT eqT fst] in invd0.
Lemma invd_eq n y w k : invd n y w k = invd0 n y w k. Proof. reflexivity. Qed.

Lemma pockd_div nz az n a h1 p m y h2 w k : nval n = nz -> nval a = az -> 1 < nz -> pchk n a (C D1 E) (Z.to_pos (nz - 1)) h1 = true ->
  prime p -> pchk n a y m h2 = true -> Zpos m * p =? nz - 1 = true -> invd n y w k = true ->
  az ^ (nz - 1) mod nz = 1 /\ Z.gcd (az ^ ((nz - 1) / p) - 1) nz = 1 /\ (p | nz - 1).
Proof.
  intros <- <- N C1 P C2 M I. apply Z.eqb_eq in M. rewrite invd_eq in I. unfold invd0 in I. apply eqn_ok in I.
  rewrite mul_ok, add_ok, mula_ok in I. change (nval (C D1 E)) with 1 in I. pose proof (prime_ge_2 p P) as P2.
  pose proof (nval_nn w) as W. pose proof (nval_nn k) as K.
  assert (Y : nval y <> 0).
  { intros Y. rewrite Y in I. assert (0 <= nval k * nval n) by (apply Z.mul_nonneg_nonneg; lia). lia. }
  apply pchk_ok in C1; [|lia|discriminate]. apply pchk_ok in C2; [|lia|exact Y]. rewrite Z2Pos.id in C1 by lia.
  change (nval (C D1 E)) with 1 in C1. rewrite (Z.mod_small 1) in C1 by lia.
  split; [symmetry; exact C1|]. split; [|exists (Zpos m); lia].
  rewrite <- M, Z.div_mul by lia. set (v := nval a ^ Z.pos m) in *.
  apply Zgcd_1_rel_prime, bezout_rel_prime.
  assert (V : v - nval y = (v / nval n - nval y / nval n) * nval n).
  { pose proof (Z.div_mod v (nval n) ltac:(lia)). pose proof (Z.div_mod (nval y) (nval n) ltac:(lia)). lia. }
  apply (Bezout_intro _ _ _ (nval w) (- (nval w * (v / nval n - nval y / nval n) + nval k))).
  replace (v - 1) with ((v - nval y) + (nval y - 1)) by ring. rewrite V. lia.
Qed.

Lemma zprod_pos ps : (forall p, In p ps -> prime p) -> 0 < zprod ps.
Proof.
  induction ps as [|x m IH]; intros P; cbn; [lia|]. fold (zprod m).
  apply Z.mul_pos_pos; [|apply IH; intros; apply P; cbn; auto].
  assert (prime x) as PX by (apply P; cbn; auto). apply prime_ge_2 in PX. lia.
Qed.
Definition pkdiv (n p : Z) : Prop := exists a, a ^ (n - 1) mod n = 1 /\ Z.gcd (a ^ ((n - 1) / p) - 1) n = 1 /\ (p | n - 1).
Lemma pock_list n ps : 1 < n -> Forall prime ps -> Forall (pkdiv n) ps -> NoDup ps ->
  forall l, prime l -> (l | n) -> (zprod ps | l - 1).
Proof.
  intros N P C ND l PL LN. induction ps as [|p ps IH]; [apply Z.divide_1_l|].
  cbn [zprod fold_right]. fold (zprod ps). inversion ND; subst. inversion P as [|? ? P1 P2]; subst. inversion C as [|? ? C1 C2]; subst.
  assert (D1 : (p | l - 1)). { destruct C1 as (a & A1 & A2 & A3). apply (pock_div n p a l); auto. }
  assert (D2 : (zprod ps | l - 1)) by (apply IH; auto).
  assert (RP : ~ (p | zprod ps)).
  { apply zprod_rel_prime; auto. intros x X D. rewrite Forall_forall in P2. assert (prime x) by (apply P2; auto).
    apply prime_div_prime in D; auto. subst. contradiction. }
  destruct D1 as [u U]. rewrite U in D2. rewrite Z.mul_comm in D2.
  apply Gauss in D2; [|apply rel_prime_sym, prime_rel_prime; auto].
  destruct D2 as [w W]. exists w. rewrite U, W. ring.
Qed.
Lemma pock_prime n ps : 1 < n -> Forall prime ps -> NoDup ps -> Forall (pkdiv n) ps -> n <=? zprod ps * zprod ps = true -> prime n.
Proof.
  intros N P ND C B. apply Z.leb_le in B. apply small_factor; auto.
  intros l PL LN. pose proof (pock_list n ps N P C ND l PL LN) as D. pose proof (prime_ge_2 l PL).
  apply Z.divide_pos_le in D; [|lia].
  assert (0 < zprod ps) by (apply zprod_pos; apply Forall_forall; exact P).
  nia.
Qed.
Lemma pkdiv_ok nz az n a h1 p m y h2 w k : nval n = nz -> nval a = az -> 1 < nz -> pchk n a (C D1 E) (Z.to_pos (nz - 1)) h1 = true ->
  prime p -> pchk n a y m h2 = true -> Zpos m * p =? nz - 1 = true -> invd n y w k = true -> pkdiv nz p.
Proof. intros. exists az. apply (pockd_div nz az n a h1 p m y h2 w k); assumption. Qed.

Ltac nodupz := repeat (constructor; [cbn; intros ?; repeat match goal with H : _ \/ _ |- _ => destruct H | H : False |- _ => destruct H | H : _ = _ :> Z |- _ => discriminate H end|]); constructor.
Create HintDb pr.
Ltac trialp := match goal with |- prime ?p => apply (trial_prime _ 800); vm_compute; reflexivity end.
Ltac vmt := vm_cast_no_check (eq_refl true).
(* the condition for one prime p, given that of a^(n-1) *)
Ltac pkone n nd az ad h1 C1 := match goal with |- pkdiv _ ?p =>
  let pz := eval vm_compute in p in
  let m := eval vm_compute in (Z.to_pos ((n - 1) / pz)) in
  let h2 := eval vm_compute in (phints n az m) in
  let y := eval vm_compute in (plast h2) in
  let w := eval vm_compute in (powm n (nval y - 1) (n - 2)) in
  let wd := eval vm_compute in (ofZt (digs n) w) in
  let k := eval vm_compute in (ofZt (digs n) (((nval y - 1) * w - 1) / n)) in
  refine (pkdiv_ok _ az nd ad h1 p m y h2 wd k _ eq_refl _ C1 _ _ _ _); [vm_cast_no_check (eq_refl n)|reflexivity|auto with pr nocore|vmt|vmt|vmt] end.
Ltac pockp az ps := match goal with |- prime ?nn =>
  let n := eval vm_compute in nn in
  let nd := eval vm_compute in (ofZt (digs n) n) in
  let ad := eval vm_compute in (ofZt 1 az) in
  let h1 := eval vm_compute in (phints n az (Z.to_pos (n - 1))) in
  let C1 := fresh "C1" in
  assert (C1 : pchk nd ad (C D1 E) (Z.to_pos (nn - 1)) h1 = true) by vmt;
  apply (pock_prime _ ps); [reflexivity|repeat first [apply Forall_nil|apply Forall_cons; [auto with pr nocore|]]|nodupz|repeat first [apply Forall_nil|apply Forall_cons; [pkone n nd az ad h1 C1|]]|vmt] end.

Lemma p2 : prime 2. Proof. exact prime_2. Qed. #[export] Hint Resolve p2 : pr.
Lemma p3 : prime 3. Proof. exact prime_3. Qed. #[export] Hint Resolve p3 : pr.
Lemma p1327 : prime 1327. Proof. trialp. Qed. #[export] Hint Resolve p1327 : pr.
Lemma p421987 : prime 421987. Proof. pockp 2 [1327]. Qed. #[export] Hint Resolve p421987 : pr.
Lemma p13090036741 : prime 13090036741. Proof. pockp 2 [421987]. Qed. #[export] Hint Resolve p13090036741 : pr.
Lemma p1151 : prime 1151. Proof. trialp. Qed. #[export] Hint Resolve p1151 : pr.
Lemma p755057 : prime 755057. Proof. pockp 2 [1151]. Qed. #[export] Hint Resolve p755057 : pr.
Lemma p110573 : prime 110573. Proof. trialp. Qed. #[export] Hint Resolve p110573 : pr.
Lemma p2653753 : prime 2653753. Proof. pockp 2 [110573]. Qed. #[export] Hint Resolve p2653753 : pr.
Lemma p63690073 : prime 63690073. Proof. pockp 2 [2653753]. Qed. #[export] Hint Resolve p63690073 : pr.
Lemma p254760293 : prime 254760293. Proof. pockp 2 [63690073]. Qed. #[export] Hint Resolve p254760293 : pr.
Lemma p449 : prime 449. Proof. trialp. Qed. #[export] Hint Resolve p449 : pr.
Lemma p97 : prime 97. Proof. trialp. Qed. #[export] Hint Resolve p97 : pr.
Lemma p609743 : prime 609743. Proof. pockp 2 [449; 97]. Qed. #[export] Hint Resolve p609743 : pr.
Lemma p52437899 : prime 52437899. Proof. pockp 2 [609743]. Qed. #[export] Hint Resolve p52437899 : pr.
Lemma p18329 : prime 18329. Proof. trialp. Qed. #[export] Hint Resolve p18329 : pr.
Lemma p2529403 : prime 2529403. Proof. pockp 2 [18329]. Qed. #[export] Hint Resolve p2529403 : pr.
Lemma p79 : prime 79. Proof. trialp. Qed. #[export] Hint Resolve p79 : pr.
Lemma p7 : prime 7. Proof. trialp. Qed. #[export] Hint Resolve p7 : pr.
Lemma p2508409 : prime 2508409. Proof. pockp 2 [79; 7; 3]. Qed. #[export] Hint Resolve p2508409 : pr.
Lemma p1607 : prime 1607. Proof. trialp. Qed. #[export] Hint Resolve p1607 : pr.
Lemma p906349 : prime 906349. Proof. pockp 2 [1607]. Qed. #[export] Hint Resolve p906349 : pr.
Lemma p47737 : prime 47737. Proof. trialp. Qed. #[export] Hint Resolve p47737 : pr.
Lemma p859267 : prime 859267. Proof. pockp 2 [47737]. Qed. #[export] Hint Resolve p859267 : pr.
Definition P71 : Z := 3819663927398918131021.
Lemma P71_prime : prime P71.
Proof. pockp 2 [13090036741; 755057]. Qed.
#[export] Hint Resolve P71_prime : pr.
Definition P120 : Z := 1125266252156850182658904441386709967.
Lemma P120_prime : prime P120.
Proof. pockp 2 [P71]. Qed.
#[export] Hint Resolve P120_prime : pr.
Definition P234 : Z := 15778400344354997994418419698270088123916926905054652752758194827714659.
Lemma P234_prime : prime P234.
Proof. pockp 2 [P120]. Qed.
#[export] Hint Resolve P234_prime : pr.
Definition q381 : Z := 4002409555221667393417789825735904156556882819939007885332058136124031650490837864442687629129015664037894272559787.
Lemma q381_prime : prime q381.
Proof. pockp 2 [P234]. Qed.
#[export] Hint Resolve q381_prime : pr.
(* 2 is not a cube *)
Definition c381h : list (num * num) := Eval vm_compute in phints q381 2 (Z.to_pos ((q381 - 1) / 3)).
Definition c381 : num := Eval vm_compute in plast c381h.
Definition q381d : num := Eval vm_compute in ofZt 64 q381.
Lemma c381_ok : pchk q381d (C D2 E) c381 (Z.to_pos ((q381 - 1) / 3)) c381h = true. Proof. vmt. Qed.
Lemma c381_val : nval c381 mod q381 =? 1 = false. Proof. vm_cast_no_check (eq_refl false). Qed.
Lemma q381d_val : nval q381d = q381. Proof. vm_cast_no_check (eq_refl q381). Qed.
Lemma q381_noncube2 : 2 ^ ((q381 - 1) / 3) mod q381 <> 1.
Proof.
  pose proof (pchk_ok _ _ _ _ _ c381_ok) as H. rewrite q381d_val in H.
  rewrite Z2Pos.id in H by reflexivity. change (nval (C D2 E)) with 2 in H. rewrite <- H; [apply Z.eqb_neq, c381_val|reflexivity|discriminate].
Qed.
Definition r255 : Z := 52435875175126190479447740508185965837690552500527637822603658699938581184513.
Lemma r255_prime : prime r255.
Proof. pockp 2 [254760293; 52437899; 2529403; 2508409; 906349; 859267]. Qed.
#[export] Hint Resolve r255_prime : pr.
