(* BIG::jacobi computes the Jacobi symbol; FP::jacobi decides squareness. *)
From Coq Require Import ZArith List Bool Lia Znumtheory.
From Verif Require Import Prim Rom Big Fp PrimP BigP BigP2 BigP3 BigP4 BigP5 NumT FieldQ FieldQ2 FpP FpP2 JacobiM.
Import ListNotations.
Open Scope Z_scope.

Lemma one_rep : nrep 7 big_one 1.
Proof. apply rep_nrep. apply (rep_small 1). lia. Qed.
Lemma zero_nrep : nrep 7 big_new 0.
Proof. apply rep_nrep, rep_zero. Qed.
Lemma comp_nrep a b v w : nrep 7 a v -> nrep 7 b w -> big_comp a b = Z.sgn (v - w).
Proof. intros (A & B & C) (A' & B' & C'). rewrite big_comp_spec by congruence. congruence. Qed.

Lemma jac_halve_ok : forall f x v k, nrep 7 x v -> 0 < v < 2 ^ Z.of_nat f -> 0 <= k ->
  ok (jac_halve f x k) (fun '(x1, k1) => exists d v1, 0 <= d /\ k1 = k + d /\ nrep 7 x1 v1 /\ v = 2 ^ d * v1 /\ v1 mod 2 = 1 /\ 0 < v1).
Proof.
  induction f as [|f IH]; intros x v k X V K.
  - change (2 ^ Z.of_nat 0) with 1 in V. lia.
  - cbn [jac_halve]. rewrite (parity_spec _ _ X). destruct (Z.eqb_spec (v mod 2) 0) as [E|E].
    + eapply ok_bind; [apply (big_shr_spec x v 1 X); lia|]. intros x' X'. change (2 ^ 1) with 2 in X'.
      rewrite Nat2Z.inj_succ, Z.pow_succ_r in V by lia.
      eapply ok_impl; [apply (IH x' (v / 2) (k + 1) X'); mlia|]. intros [x1 k1] (d & v1 & D & KD & X1 & VD & O & P).
      exists (d + 1), v1. split; [lia|]. split; [lia|]. split; [exact X1|]. split; [|split; assumption].
      rewrite Z.pow_add_r by lia. change (2 ^ 1) with 2. mlia.
    + cbn [ok]. exists 0, v. split; [lia|]. split; [lia|]. split; [exact X|]. split; [change (2 ^ 0) with 1; lia|]. split; [mlia|lia].
Qed.

Lemma jac_pow2 d : forall a n, 1 < n -> n mod 2 = 1 -> 0 <= d ->
  jac (2 ^ d * a) n = sgn (if d mod 2 =? 1 then ((n mod 8) * (n mod 8) - 1) / 8 else 0) * jac a n.
Proof.
  intros a n N O D. revert a. pattern d. apply natlike_ind; [| |exact D].
  - intros a. change (2 ^ 0 * a) with (1 * a). rewrite Z.mul_1_l. change (sgn _) with 1. lia.
  - intros e E IH a. rewrite Z.pow_succ_r, <- Z.mul_assoc by lia. rewrite jac_2 by assumption. rewrite IH.
    rewrite Z.mul_assoc, <- sgn_add. f_equal. apply sgn_cong.
    destruct (Z.eqb_spec (e mod 2) 1) as [E1|E1]; destruct (Z.eqb_spec (Z.succ e mod 2) 1) as [E2|E2];
      generalize ((n mod 8 * (n mod 8) - 1) / 8); intros z; unfold Z.succ in *; try (exfalso; clear - E1 E2; mlia); mlia.
Qed.
Lemma sgn_1 : sgn 0 = 1. Proof. reflexivity. Qed.
Lemma cku64_in x : 0 <= x < 2 ^ 64 -> cku64 x = Some x.
Proof. intros H. apply cku64_ok. lia. Qed.

Lemma jac_loop_ok : forall f x n m xv nv, nrep 7 x xv -> nrep 7 n nv -> 0 <= xv < nv -> nv < 2 ^ 406 -> nv mod 2 = 1 ->
  xv * nv < 2 ^ Z.of_nat f -> m = 0 \/ m = 1 ->
  ok (jac_loop (S f) x n m) (fun r => r = sgn m * jac xv nv).
Proof.
  induction f as [|f IH]; intros x n m xv nv X N XV NV O P M; cbn [jac_loop].
  - change (2 ^ Z.of_nat 0) with 1 in P. assert (xv = 0) by nia. subst xv.
    rewrite (comp_nrep n big_one nv 1 N one_rep). destruct (Z.ltb_spec 0 (Z.sgn (nv - 1))) as [C|C].
    + rewrite (comp_nrep x big_new 0 0 X zero_nrep). change (Z.sgn (0 - 0) =? 0) with true. cbn [ok].
      rewrite jac_ncop; [lia|]. rewrite Z.gcd_0_l. lia.
    + assert (nv = 1) by lia. subst nv. rewrite jac_n1. cbn [ok]. destruct M as [-> | ->]; reflexivity.
  - rewrite (comp_nrep n big_one nv 1 N one_rep). destruct (Z.ltb_spec 0 (Z.sgn (nv - 1))) as [C|C].
    2:{ assert (nv = 1) by lia. subst nv. rewrite jac_n1. cbn [ok]. destruct M as [-> | ->]; reflexivity. }
    rewrite (comp_nrep x big_new xv 0 X zero_nrep). destruct (Z.eqb_spec (Z.sgn (xv - 0)) 0) as [C2|C2].
    { assert (xv = 0) by lia. subst xv. cbn [ok]. rewrite jac_ncop; [lia|]. rewrite Z.gcd_0_l. lia. }
    assert (XP : 0 < xv) by lia. assert (N1 : 1 < nv) by lia. clear C C2.
    pose proof N as (LN & _ & VN).
    eapply ok_bind; [apply (lastbits_spec n 3); [exact LN|eapply lb_weak; [apply (nrep7_lb n nv N); lia|lia]|lia]|].
    intros [n8 n'] (N8 & N'). rewrite VN in N8, N'. change (2 ^ 3) with 8 in N8.
    eapply ok_bind; [apply (jac_halve_ok 1000 x xv 0 X); [|lia]|].
    { split; [exact XP|]. apply (Z.lt_trans _ (2 ^ 406)); [lia|]. apply Z.pow_lt_mono_r; lia. }
    intros [x1 k] (d & v1 & D0 & KD & X1 & XD & V1O & V1P). rewrite Z.add_0_l in KD. subst k.
    assert (V1X : v1 <= xv). { assert (0 < 2 ^ d) by (apply Z.pow_pos_nonneg; lia). nia. }
    set (j2 := if d mod 2 =? 1 then (n8 * n8 - 1) / 8 else 0).
    assert (N8B : n8 = 1 \/ n8 = 3 \/ n8 = 5 \/ n8 = 7) by (clear - N8 O; mlia).
    assert (E1 : (if d mod 2 =? 1 then q <- cku64 (n8 * n8 - 1);; Some (m + q / 8) else Some m) = Some (m + j2)).
    { unfold j2. destruct (d mod 2 =? 1); [|f_equal; lia]. rewrite cku64_in by nia. reflexivity. }
    rewrite E1. cbn [bind].
    pose proof X1 as (LX1 & _ & VX1).
    eapply ok_bind; [apply (lastbits_spec x1 2); [exact LX1|eapply lb_weak; [apply (nrep7_lb x1 v1 X1); lia|lia]|lia]|].
    intros [x4 x2] (X4 & X2). rewrite VX1 in X4, X2. change (2 ^ 2) with 4 in X4.
    assert (X4B : x4 = 1 \/ x4 = 3) by (clear - X4 V1O; mlia).
    rewrite (cku64_in (n8 - 1)) by lia. cbn [bind]. rewrite (cku64_in (x4 - 1)) by lia. cbn [bind].
    pose proof N' as (LN' & _ & VN').
    eapply ok_bind; [apply (big_rmod_spec n' x2 v1); [exact LN'|eapply lb_weak; [apply (nrep7_lb n' nv N'); lia|lia]|lia|exact X2|exact V1P]|].
    intros t T. rewrite VN' in T.
    pose proof (Z.mod_pos_bound nv v1 V1P) as TB.
    assert (HALF : 2 * (nv mod v1) < nv).
    { pose proof (Z.div_mod nv v1 ltac:(lia)) as DM. assert (1 <= nv / v1) by (apply Z.div_le_lower_bound; lia). nia. }
    rewrite Nat2Z.inj_succ, Z.pow_succ_r in P by lia.
    eapply ok_impl; [apply (IH t x2 _ (nv mod v1) v1 T X2 TB); [lia|exact V1O|nia|]|].
    { clear. mlia. }
    cbv beta. intros r ->. rewrite XD, jac_pow2, (jac_recip v1 nv) by (assumption || lia). rewrite <- N8. fold j2.
    assert (JM : jac (nv mod v1) v1 = jac nv v1).
    { destruct (Z.eq_dec v1 1) as [->|V11]; [rewrite !jac_n1; reflexivity|apply jac_mod; lia]. }
    rewrite JM, !Z.mul_assoc, <- !sgn_add. f_equal. apply sgn_cong. rewrite Z.mod_mod by lia.
    assert (HP : ((n8 - 1) * (x4 - 1) / 4) mod 2 = (hf v1 * hf nv) mod 2).
    { unfold hf. assert (A1 : exists c, nv = 8 * c + n8) by (exists (nv / 8); clear - N8; mlia).
      assert (A2 : exists c, v1 = 4 * c + x4) by (exists (v1 / 4); clear - X4; mlia).
      destruct A1 as [c A1], A2 as [c2 A2]. rewrite A1, A2. clear - N8B X4B.
      assert (H1 : forall a u, a = 2 * u + 1 -> (8 * c + a - 1) / 2 = 4 * c + u) by (intros; mlia).
      assert (H2 : forall a u, a = 2 * u + 1 -> (4 * c2 + a - 1) / 2 = 2 * c2 + u) by (intros; mlia).
      destruct N8B as [->|[->|[->| ->]]]; destruct X4B as [->| ->];
        match goal with |- ((?a - 1) * (?b - 1) / 4) mod 2 = _ =>
          let a' := eval vm_compute in (a / 2) in let b' := eval vm_compute in (b / 2) in
          rewrite (H1 a a' eq_refl), (H2 b b' eq_refl), Z.mul_mod, (Z.add_mod (2 * c2)), (Z.add_mod (4 * c)) by lia end;
        assert (M1 : (4 * c) mod 2 = 0) by mlia; assert (M2 : (2 * c2) mod 2 = 0) by mlia; rewrite M1, M2; reflexivity. }
    clear - HP. set (a := (n8 - 1) * (x4 - 1) / 4) in *. set (b := hf v1 * hf nv) in *. clearbody a b j2. mlia.
Qed.

Lemma big_jacobi_ok a p av pv : rep 7 a av -> nrep 7 p pv -> 1 < pv < 2 ^ 406 -> pv mod 2 = 1 ->
  ok (big_jacobi a p) (fun r => r = jac av pv).
Proof.
  intros A P PV O. unfold big_jacobi. rewrite (parity_spec _ _ P), O.
  rewrite (comp_nrep a big_new av 0 (rep_nrep _ _ _ A) zero_nrep), (comp_nrep p big_one pv 1 P one_rep).
  destruct (Z.leb_spec (Z.sgn (pv - 1)) 0) as [C|_]; [lia|]. change (1 =? 0) with false. rewrite orb_false_r. cbn [orb].
  destruct (Z.eqb_spec (Z.sgn (av - 0)) 0) as [C|_].
  { assert (av = 0) by lia. subst av. cbn [ok]. rewrite jac_ncop; [reflexivity|]. rewrite Z.gcd_0_l. lia. }
  pose proof (rep_bound _ _ _ A) as AB. change (58 * Z.of_nat 7) with 406 in AB.
  pose proof A as (LA & DA & VA).
  eapply ok_bind; [apply norm_spec7; [exact LA|eapply lb_weak; [apply digs_lb; exact DA|lia]]|].
  intros a' A'. rewrite VA in A'. pose proof A' as (LA' & _ & VA').
  eapply ok_bind; [apply (big_rmod_spec a' p pv); [exact LA'|eapply lb_weak; [apply (nrep7_lb a' av A'); lia|lia]|lia|exact P|lia]|].
  intros x X. rewrite VA' in X. pose proof (Z.mod_pos_bound av pv ltac:(lia)) as MB.
  eapply ok_impl; [apply (jac_loop_ok 999 x p 0 (av mod pv) pv X P MB); [lia|exact O| |left; reflexivity]|].
  - apply (Z.lt_le_trans _ (2 ^ 406 * 2 ^ 406)); [nia|]. rewrite <- Z.pow_add_r by lia. apply Z.pow_le_mono_r; lia.
  - cbv beta. intros r ->. rewrite sgn_1, jac_mod by lia. lia.
Qed.

Lemma jac_q_gen n a : n = q381 -> 1 < n -> n mod 4 = 3 ->
  (jac a n = 1 <-> mkq a <> f0 /\ is_sq (mkq a)) /\ (jac a n = 0 <-> mkq a = f0) /\ (jac a n = 1 \/ jac a n = 0 \/ jac a n = -1).
Proof.
  intros NQ N1 N4. assert (Z0 : mkq a = f0 <-> Z.gcd a n <> 1).
  { split.
    - intros E. apply mkq_inj in E. rewrite <- NQ, Z.mod_0_l in E by lia. apply Z.mod_divide in E; [|lia].
      intros G. assert (D : (n | Z.gcd a n)) by (apply Z.gcd_greatest; [exact E|apply Z.divide_refl]). rewrite G in D.
      apply Z.divide_pos_le in D; lia.
    - intros G. pose proof q381_prime as PR. rewrite <- NQ in PR.
      destruct (Zdivide_dec n a) as [D|D].
      + apply mkq_eq. rewrite <- NQ, Z.mod_0_l by lia. apply Z.mod_divide; [lia|exact D].
      + exfalso. apply G. rewrite Z.gcd_comm. apply Zgcd_1_rel_prime, prime_rel_prime; assumption. }
  destruct (Z.eq_dec (Z.gcd a n) 1) as [G|G].
  - rewrite (jac_cop _ _ G). pose proof (euler_gen n a NQ N1 N4 G) as EU. unfold sgn.
    assert (NZ : mkq a <> f0) by (intros C; apply Z0 in C; contradiction).
    destruct (Z.eqb_spec (mu a n mod 2) 0) as [E|E].
    + split; [split; [intros _; split; [exact NZ|apply EU, E]|reflexivity]|]. split; [split; [discriminate|intros C; contradiction]|left; reflexivity].
    + split; [split; [discriminate|intros [_ SQ]; apply EU in SQ; contradiction]|]. split; [split; [discriminate|intros C; contradiction]|right; right; reflexivity].
  - rewrite (jac_ncop _ _ G). assert (ZZ : mkq a = f0) by (apply Z0, G).
    split; [split; [discriminate|intros [C _]; contradiction]|]. split; [split; [intros _; exact ZZ|reflexivity]|right; left; reflexivity].
Qed.
Lemma fp_jacobi_ok l E x a : fpR l E x a -> 1 <= l <= 31 -> E <= 33554432 ->
  ok (fp_jacobi a) (fun r => (r = 1 <-> x <> f0 /\ is_sq x) /\ (r = 0 <-> x = f0) /\ (r = 1 \/ r = 0 \/ r = -1)).
Proof.
  intros A HL HE. unfold fp_jacobi. eapply ok_bind; [apply (fp_redc_ok l E x a A HL HE)|].
  intros w (W & WX & _). pose proof q381_lt as QL.
  eapply ok_impl; [apply (big_jacobi_ok w MODULUS (lval w) q381 W); [apply rep_nrep, mod_rep|lia|exact q381_odd]|].
  cbv beta. intros r ->. rewrite <- WX. apply jac_q_gen; [reflexivity|lia|exact q381_mod4].
Qed.
