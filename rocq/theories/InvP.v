(* BIG::invmodp is the inverse modulo an odd modulus, or does not end; BIG::powmod
   is the power. *)
From Coq Require Import ZArith List Bool Lia Znumtheory Zpow_facts.
From Verif Require Import Prim Rom Big PrimP BigP BigP2 BigP3 BigP4 BigP5 NumT FieldQ FieldQ2 FpP FpP2 JacP BigL BigX.
Import ListNotations.
Open Scope Z_scope.

Lemma comp_le a b u v : rep 7 a u -> rep 7 b v -> (0 <=? big_comp a b) = (v <=? u).
Proof. intros A B. rewrite (comp_nrep a b u v (rep_nrep _ _ _ A) (rep_nrep _ _ _ B)). destruct (Z.leb_spec 0 (Z.sgn (u - v))), (Z.leb_spec v u); lia. Qed.
Lemma comp_one a u : rep 7 a u -> (big_comp a big_one =? 0) = (u =? 1).
Proof. intros A. rewrite (comp_nrep a big_one u 1 (rep_nrep _ _ _ A) one_rep). destruct (Z.eqb_spec (Z.sgn (u - 1)) 0), (Z.eqb_spec u 1); lia. Qed.
Lemma fshr1 a u : rep 7 a u -> rep 7 (big_fshr a 1) (u / 2).
Proof.
  intros A. pose proof (rep_bound7 _ _ A) as B. apply nrep_rep; [apply (fshr_spec7 a u 1 (rep_nrep _ _ _ A)); lia|].
  change (58 * Z.of_nat 7) with 406. split; [apply Z.div_pos; lia|]. apply Z.div_lt_upper_bound; lia.
Qed.
Lemma add_norm a b u v : rep 7 a u -> rep 7 b v -> u + v < 2 ^ 406 -> exists c n, big_add a b = Some c /\ big_norm c = Some n /\ rep 7 n (u + v).
Proof.
  intros A B L. destruct (B_add _ _ _ _ A B) as (c & n & E & N & R). exists c, n. split; [exact E|]. split; [exact N|].
  pose proof (rep_bound7 _ _ A). pose proof (rep_bound7 _ _ B). apply nrep_rep; [exact R|]. change (58 * Z.of_nat 7) with 406. lia.
Qed.
Lemma sub_norm a b u v : rep 7 a u -> rep 7 b v -> v <= u -> exists c n, big_sub a b = Some c /\ big_norm c = Some n /\ rep 7 n (u - v).
Proof.
  intros A B L. destruct (B_sub _ _ _ _ A B) as (c & n & E & N & R). exists c, n. split; [exact E|]. split; [exact N|].
  pose proof (rep_bound7 _ _ A). pose proof (rep_bound7 _ _ B). apply nrep_rep; [exact R|]. change (58 * Z.of_nat 7) with 406. lia.
Qed.
Lemma mod2_dec z : z mod 2 = 0 \/ z mod 2 = 1.
Proof. pose proof (Z.mod_pos_bound z 2 ltac:(lia)). lia. Qed.

(* one round of the inner loop keeps x * a = u modulo p *)
Definition halfp (p x : Z) : Z := if x mod 2 =? 0 then x / 2 else (x + p) / 2.
Lemma halfp_range p x : 0 <= x < p -> p mod 2 = 1 -> 0 <= halfp p x < p /\ 2 * halfp p x = x + (if x mod 2 =? 0 then 0 else p).
Proof.
  intros X P. unfold halfp. pose proof (Z.div_mod x 2 ltac:(lia)) as D. pose proof (Z.div_mod (x + p) 2 ltac:(lia)) as D2.
  destruct (Z.eqb_spec (x mod 2) 0) as [E|E]; [lia|]. destruct (mod2_dec x) as [Q|Q]; [lia|].
  assert ((x + p) mod 2 = 0) by (rewrite Z.add_mod, Q, P by lia; reflexivity). lia.
Qed.
Lemma cancel2 p a b : p mod 2 = 1 -> (p | 2 * a - 2 * b) -> (p | a - b).
Proof.
  intros P D. apply (Gauss p 2 (a - b)); [replace (2 * (a - b)) with (2 * a - 2 * b) by lia; exact D|].
  apply rel_prime_sym, prime_rel_prime; [exact prime_2|]. intros C. apply Zdivide_mod in C. lia.
Qed.
Lemma half_step p a u x : p mod 2 = 1 -> 0 <= x < p -> u mod 2 = 0 -> (p | x * a - u) -> (p | halfp p x * a - u / 2).
Proof.
  intros P X U D. apply cancel2; [exact P|]. destruct (halfp_range p x X P) as [_ H]. pose proof (Z.div_mod u 2 ltac:(lia)) as E. rewrite U in E.
  replace (2 * (halfp p x * a) - 2 * (u / 2)) with (2 * halfp p x * a - u) by lia. rewrite H.
  destruct (x mod 2 =? 0).
  - replace ((x + 0) * a - u) with (x * a - u) by lia. exact D.
  - replace ((x + p) * a - u) with (x * a - u + a * p) by lia. apply Z.divide_add_r; [exact D|]. exists a. reflexivity.
Qed.
Lemma half_rep p pv x xv : rep 7 p pv -> rep 7 x xv -> 0 <= xv < pv -> pv < 2 ^ 405 -> pv mod 2 = 1 ->
  exists x', inv_even p x = Some x' /\ rep 7 (big_fshr x' 1) (halfp pv xv).
Proof.
  intros P X V B O. unfold inv_even. rewrite (parity_spec _ _ (rep_nrep _ _ _ X)). unfold halfp. destruct (Z.eqb_spec (xv mod 2) 0) as [E|E]; cbn [negb].
  - exists x. split; [reflexivity|apply fshr1, X].
  - destruct (add_norm _ _ _ _ X P) as (c & n & E1 & E2 & R); [lia|]. rewrite E1. cbn [bind]. exists n. split; [exact E2|apply fshr1, R].
Qed.
Lemma gcd_half u v : u mod 2 = 0 -> v mod 2 = 1 -> Z.gcd (u / 2) v = Z.gcd u v.
Proof.
  intros U V. pose proof (Z.div_mod u 2 ltac:(lia)) as E. rewrite U in E.
  assert (E2 : u = 2 * (u / 2)) by lia. rewrite E2 at 2. apply Z.divide_antisym_nonneg; try apply Z.gcd_nonneg.
  - apply Z.gcd_greatest; [|apply Z.gcd_divide_r]. apply Z.divide_mul_r, Z.gcd_divide_l.
  - apply Z.gcd_greatest; [|apply Z.gcd_divide_r]. apply (Gauss _ 2); [apply Z.gcd_divide_l|].
    apply rel_prime_sym, prime_rel_prime; [exact prime_2|]. intros C.
    assert (W : (2 | v)) by (eapply Z.divide_trans; [exact C|apply Z.gcd_divide_r]). apply Zdivide_mod in W. lia.
Qed.
Lemma inv_halve_ok a p pv : rep 7 p pv -> pv < 2 ^ 405 -> pv mod 2 = 1 ->
  forall f u x uv xv, rep 7 u uv -> rep 7 x xv -> 0 < uv < 2 ^ Z.of_nat f -> 0 <= xv < pv -> (pv | xv * a - uv) ->
  exists u' x' uv' xv' d, inv_halve f p u x = Some (u', x') /\ rep 7 u' uv' /\ rep 7 x' xv' /\ 0 <= d /\ uv = 2 ^ d * uv' /\ uv' mod 2 = 1 /\ 0 < uv' /\
    0 <= xv' < pv /\ (pv | xv' * a - uv').
Proof.
  intros P PB PO. induction f as [|f IH]; intros u x uv xv U X UV XV D.
  - change (2 ^ Z.of_nat 0) with 1 in UV. lia.
  - cbn [inv_halve]. rewrite (parity_spec _ _ (rep_nrep _ _ _ U)). destruct (Z.eqb_spec (uv mod 2) 0) as [E|E].
    + destruct (half_rep p pv x xv P X XV PB PO) as (x1 & E1 & R1). rewrite E1. cbn [bind].
      rewrite Nat2Z.inj_succ, Z.pow_succ_r in UV by lia. pose proof (Z.div_mod uv 2 ltac:(lia)) as DM. rewrite E in DM.
      destruct (IH (big_fshr u 1) (big_fshr x1 1) (uv / 2) (halfp pv xv)) as (u' & x' & uv' & xv' & d & E2 & Q1 & Q2 & Q3 & Q4 & Q5 & Q6 & Q7 & Q8).
      { apply fshr1, U. } { exact R1. } { lia. } { apply (halfp_range pv xv XV PO). } { apply half_step; assumption. }
      exists u', x', uv', xv', (d + 1). rewrite E2. repeat (split; [first [reflexivity|assumption|lia]|]).
      split; [rewrite Z.pow_add_r by lia; change (2 ^ 1) with 2; lia|]. auto.
    + exists u, x, uv, xv, 0. destruct (mod2_dec uv); [lia|]. split; [reflexivity|]. split; [exact U|]. split; [exact X|]. split; [lia|].
      split; [change (2 ^ 0) with 1; lia|]. auto with zarith.
Qed.
Lemma inv_diff_ok p x1 x2 pv v1 v2 : rep 7 p pv -> rep 7 x1 v1 -> rep 7 x2 v2 -> 0 <= v1 < pv -> 0 <= v2 < pv -> pv < 2 ^ 405 ->
  exists z zv, inv_diff p x1 x2 = Some z /\ rep 7 z zv /\ 0 <= zv < pv /\ (pv | zv - (v1 - v2)).
Proof.
  intros P X1 X2 V1 V2 B. unfold inv_diff. rewrite (comp_le _ _ _ _ X1 X2). destruct (Z.leb_spec v2 v1) as [L|L].
  - destruct (sub_norm _ _ _ _ X1 X2 L) as (c & n & E & N & R). rewrite E. cbn [bind]. exists n, (v1 - v2). split; [exact N|]. split; [exact R|].
    split; [lia|]. exists 0. lia.
  - pose proof (BigL.rep_lb _ _ P) as LP. pose proof (BigL.rep_lb _ _ X1) as L1. pose proof (BigL.rep_lb _ _ X2) as L2.
    destruct P as (P1 & P2 & P3), X1 as (A1 & A2 & A3), X2 as (B1 & B2 & B3).
    destruct (some_ex _ _ (big_sub_spec p x2 _ _ ltac:(congruence) LP L2 ltac:(lia) ltac:(lia) ltac:(lia))) as (t & E & LT & BT & VT). rewrite E. cbn [bind].
    destruct (some_ex _ _ (big_add_spec x1 t _ _ ltac:(congruence) L1 BT ltac:(lia) ltac:(lia) ltac:(lia))) as (d & E2 & LD & BD & VD). rewrite E2. cbn [bind].
    destruct (B_norm d ltac:(congruence) (BigL.lb_mono (2 ^ 58 + (2 ^ 58 + 2 ^ 58)) (2 ^ 63 - 64) _ BD ltac:(lia))) as (n & EN & N).
    exists n, (v1 + (pv - v2)). split; [exact EN|]. split.
    + apply nrep_rep; [|change (58 * Z.of_nat 7) with 406; lia]. rewrite VD, VT, A3, P3, B3 in N. exact N.
    + split; [lia|]. exists 1. lia.
Qed.

(* the state of the loop *)
Definition inv_st (a g pv uv vv y1 y2 : Z) : Prop :=
  0 < uv <= pv /\ 0 < vv <= pv /\ 0 <= y1 < pv /\ 0 <= y2 < pv /\ (pv | y1 * a - uv) /\ (pv | y2 * a - vv) /\ Z.gcd uv vv = g /\ (uv mod 2 = 1 \/ vv mod 2 = 1).
Lemma pow2_ge d : 0 <= d -> 1 <= 2 ^ d.
Proof. intros D. pose proof (Z.pow_pos_nonneg 2 d ltac:(lia) D). lia. Qed.
Lemma gcd_pow2 d u v : 0 <= d -> v mod 2 = 1 -> Z.gcd (2 ^ d * u) v = Z.gcd u v.
Proof.
  intros D V. revert u. pattern d. apply natlike_ind; [| |exact D].
  - intros u. change (2 ^ 0) with 1. rewrite Z.mul_1_l. reflexivity.
  - intros e E IH u. rewrite Z.pow_succ_r, <- Z.mul_assoc by lia. rewrite <- gcd_half; [|rewrite Z.mul_comm; apply Z.mod_mul; lia|exact V].
    rewrite Z.mul_comm, Z.div_mul by lia. apply IH.
Qed.
Lemma gcd_odd_parts u v d e u1 v1 : u = 2 ^ d * u1 -> v = 2 ^ e * v1 -> 0 <= d -> 0 <= e -> u1 mod 2 = 1 -> v1 mod 2 = 1 -> (u mod 2 = 1 \/ v mod 2 = 1) ->
  Z.gcd u1 v1 = Z.gcd u v /\ (u1 = u \/ v1 = v).
Proof.
  intros U V D E U1 V1 [O|O].
  - assert (d = 0). { destruct (Z.eq_dec d 0) as [|N]; [assumption|]. exfalso. rewrite U in O. replace d with (Z.succ (d - 1)) in O by lia.
      rewrite Z.pow_succ_r, <- Z.mul_assoc, Z.mul_comm, Z.mod_mul in O by lia. lia. }
    subst d. change (2 ^ 0) with 1 in U. assert (u = u1) by lia. clear U. subst u. split; [|auto]. rewrite V, Z.gcd_comm, (Z.gcd_comm u1). symmetry. apply gcd_pow2; assumption.
  - assert (e = 0). { destruct (Z.eq_dec e 0) as [|N]; [assumption|]. exfalso. rewrite V in O. replace e with (Z.succ (e - 1)) in O by lia.
      rewrite Z.pow_succ_r, <- Z.mul_assoc, Z.mul_comm, Z.mod_mul in O by lia. lia. }
    subst e. change (2 ^ 0) with 1 in V. assert (v = v1) by lia. clear V. subst v. split; [|auto]. rewrite U. symmetry. apply gcd_pow2; assumption.
Qed.
Lemma pow2_half d u u1 : u = 2 ^ d * u1 -> 0 <= d -> u mod 2 = 0 -> u1 mod 2 = 1 -> 0 < u1 -> 2 * u1 <= u.
Proof.
  intros U D E O P. destruct (Z.eq_dec d 0) as [->|N]; [change (2 ^ 0) with 1 in U; rewrite Z.mul_1_l in U; rewrite U in E; congruence|].
  replace d with (Z.succ (d - 1)) in U by lia. rewrite Z.pow_succ_r in U by lia. pose proof (pow2_ge (d - 1) ltac:(lia)). nia.
Qed.
Lemma pow2_le d u u1 : u = 2 ^ d * u1 -> 0 <= d -> 0 < u1 -> u1 <= u.
Proof. intros U D P. pose proof (pow2_ge d D). nia. Qed.
Lemma odd_sub u v : u mod 2 = 1 -> v mod 2 = 1 -> (u - v) mod 2 = 0.
Proof. intros A B. rewrite Zminus_mod, A, B. reflexivity. Qed.

(* one iteration, for any gcd *)
Lemma inv_iter a g n f p u v x1 x2 pv uv vv y1 y2 : rep 7 p pv -> pv < 2 ^ 405 -> pv mod 2 = 1 -> (406 <= n)%nat ->
  rep 7 u uv -> rep 7 v vv -> rep 7 x1 y1 -> rep 7 x2 y2 -> inv_st a g pv uv vv y1 y2 -> uv <> 1 -> vv <> 1 ->
  (exists u' v' x1' x2' uv' vv' y1' y2', inv_loop n (S f) p u v x1 x2 = inv_loop n f p u' v' x1' x2' /\
     rep 7 u' uv' /\ rep 7 v' vv' /\ rep 7 x1' y1' /\ rep 7 x2' y2' /\ 0 <= uv' /\ 0 <= vv' /\ (uv' = 0 -> vv' = g /\ 1 < g) /\ (vv' = 0 -> False) /\
     (uv' <> 0 -> inv_st a g pv uv' vv' y1' y2') /\ (uv' mod 2 = 0 \/ vv' mod 2 = 0) /\
     uv' * vv' < uv * vv /\ ((uv mod 2 = 0 \/ vv mod 2 = 0) -> 2 * (uv' * vv') < uv * vv)).
Proof.
  intros P PB PO N U V X1 X2 (UV & VV & Y1 & Y2 & D1 & D2 & G & OD) NU NV. cbn [inv_loop].
  rewrite (comp_one _ _ U), (comp_one _ _ V). destruct (Z.eqb_spec uv 1) as [|_]; [contradiction|]. destruct (Z.eqb_spec vv 1) as [|_]; [contradiction|]. cbn [negb andb].
  assert (NB : 2 ^ 406 <= 2 ^ Z.of_nat n) by (apply Z.pow_le_mono_r; lia).
  destruct (inv_halve_ok a p pv P PB PO n u x1 uv y1 U X1 ltac:(lia) Y1 D1) as (u1 & z1 & uv1 & w1 & d & E1 & R1 & R2 & Q1 & Q2 & Q3 & Q4 & Q5 & Q6).
  destruct (inv_halve_ok a p pv P PB PO n v x2 vv y2 V X2 ltac:(lia) Y2 D2) as (v1 & z2 & vv1 & w2 & e & E2 & R3 & R4 & Q7 & Q8 & Q9 & Q10 & Q11 & Q12).
  rewrite E1. cbn [bind]. rewrite E2. cbn [bind]. rewrite (comp_le _ _ _ _ R1 R3).
  destruct (gcd_odd_parts uv vv d e uv1 vv1 Q2 Q8 Q1 Q7 Q3 Q9 OD) as [G1 EQ].
  assert (LU : uv1 <= uv) by (apply (pow2_le d); assumption). assert (LV : vv1 <= vv) by (apply (pow2_le e); assumption).
  assert (HH : (uv mod 2 = 0 \/ vv mod 2 = 0) -> 2 * (uv1 * vv1) <= uv * vv).
  { intros [H|H].
    - pose proof (pow2_half d uv uv1 Q2 Q1 H Q3 Q4). rewrite Z.mul_assoc. apply Z.mul_le_mono_nonneg; lia.
    - pose proof (pow2_half e vv vv1 Q8 Q7 H Q9 Q10). replace (2 * (uv1 * vv1)) with (uv1 * (2 * vv1)) by lia. apply Z.mul_le_mono_nonneg; lia. }
  assert (PP : uv1 * vv1 <= uv * vv) by (apply Z.mul_le_mono_nonneg; lia).
  destruct (Z.leb_spec vv1 uv1) as [L|L].
  - destruct (sub_norm _ _ _ _ R1 R3 L) as (c & u2 & E3 & E4 & R5). rewrite E3. cbn [bind]. rewrite E4. cbn [bind].
    destruct (inv_diff_ok p z1 z2 pv w1 w2 P R2 R4 Q5 Q11 PB) as (zz & zv & E5 & R6 & ZV & DZ). rewrite E5. cbn [bind].
    exists u2, v1, zz, z2, (uv1 - vv1), vv1, zv, w2. split; [reflexivity|]. repeat (split; [first [assumption|lia]|]).
    split. { intros Z0. assert (uv1 = vv1) by lia. subst vv1. rewrite Z.gcd_diag, Z.abs_eq in G1 by lia. split; [lia|]. destruct EQ; lia. }
    split; [lia|]. split.
    { intros NZ. split; [lia|]. split; [lia|]. split; [exact ZV|]. split; [exact Q11|]. split.
      - replace (zv * a - (uv1 - vv1)) with ((zv - (w1 - w2)) * a + ((w1 * a - uv1) - (w2 * a - vv1))) by lia.
        apply Z.divide_add_r; [apply Z.divide_mul_l; exact DZ|apply Z.divide_sub_r; assumption].
      - split; [exact Q12|]. split; [|right; exact Q9]. rewrite <- G, <- G1.
        rewrite Z.gcd_comm, Z.gcd_sub_diag_r, Z.gcd_comm. reflexivity. }
    split; [left; apply odd_sub; assumption|]. split; [nia|]. intros H. specialize (HH H). nia.
  - destruct (sub_norm _ _ _ _ R3 R1 ltac:(lia)) as (c & v2 & E3 & E4 & R5). rewrite E3. cbn [bind]. rewrite E4. cbn [bind].
    destruct (inv_diff_ok p z2 z1 pv w2 w1 P R4 R2 Q11 Q5 PB) as (zz & zv & E5 & R6 & ZV & DZ). rewrite E5. cbn [bind].
    exists u1, v2, z1, zz, uv1, (vv1 - uv1), w1, zv. split; [reflexivity|]. repeat (split; [first [assumption|lia]|]).
    split.
    { intros NZ. split; [lia|]. split; [lia|]. split; [exact Q5|]. split; [exact ZV|]. split; [exact Q6|]. split.
      - replace (zv * a - (vv1 - uv1)) with ((zv - (w2 - w1)) * a + ((w2 * a - vv1) - (w1 * a - uv1))) by lia.
        apply Z.divide_add_r; [apply Z.divide_mul_l; exact DZ|apply Z.divide_sub_r; assumption].
      - split; [|left; exact Q3]. rewrite <- G, <- G1. rewrite Z.gcd_sub_diag_r. reflexivity. }
    split; [right; apply odd_sub; assumption|]. split; [nia|]. intros H. specialize (HH H). nia.
Qed.
Lemma inv_end a n f p u v x1 x2 pv uv vv y1 y2 : rep 7 p pv ->
  rep 7 u uv -> rep 7 v vv -> rep 7 x1 y1 -> rep 7 x2 y2 -> inv_st a 1 pv uv vv y1 y2 -> uv = 1 \/ vv = 1 ->
  exists c z, inv_loop n (S f) p u v x1 x2 = Some c /\ rep 7 c z /\ 0 <= z < pv /\ (pv | z * a - 1).
Proof.
  intros P U V X1 X2 (UV & VV & Y1 & Y2 & D1 & D2 & G & OD) E. cbn [inv_loop].
  rewrite (comp_one _ _ U), (comp_one _ _ V). destruct (Z.eqb_spec uv 1) as [E1|E1]; cbn [negb andb].
  - exists x1, y1. rewrite E1 in D1. auto.
  - destruct E as [E|E]; [contradiction|]. rewrite E in *. cbn [Z.eqb Pos.eqb negb]. exists x2, y2. auto.
Qed.
Lemma inv_loop_ok a n p pv : rep 7 p pv -> pv < 2 ^ 405 -> pv mod 2 = 1 -> (406 <= n)%nat -> forall k f u v x1 x2 uv vv y1 y2,
  rep 7 u uv -> rep 7 v vv -> rep 7 x1 y1 -> rep 7 x2 y2 -> inv_st a 1 pv uv vv y1 y2 -> (uv mod 2 = 0 \/ vv mod 2 = 0) -> uv * vv < 2 ^ Z.of_nat k -> (k < f)%nat ->
  exists c z, inv_loop n f p u v x1 x2 = Some c /\ rep 7 c z /\ 0 <= z < pv /\ (pv | z * a - 1).
Proof.
  intros P PB PO N. induction k as [|k IH]; intros f u v x1 x2 uv vv y1 y2 U V X1 X2 ST EV PR F.
  - destruct ST as (UV & VV & _). change (2 ^ Z.of_nat 0) with 1 in PR. nia.
  - destruct f as [|f]; [lia|]. destruct (Z.eq_dec uv 1) as [E|NU]; [apply (inv_end a n f p u v x1 x2 pv uv vv y1 y2); auto|].
    destruct (Z.eq_dec vv 1) as [E|NV]; [apply (inv_end a n f p u v x1 x2 pv uv vv y1 y2); auto|].
    destruct (inv_iter a 1 n f p u v x1 x2 pv uv vv y1 y2 P PB PO N U V X1 X2 ST NU NV) as (u' & v' & x1' & x2' & uv' & vv' & y1' & y2' & E & R1 & R2 & R3 & R4 & B1 & B2 & Z1 & Z2 & S' & EV' & L1 & L2).
    rewrite E. rewrite Nat2Z.inj_succ, Z.pow_succ_r in PR by lia. specialize (L2 EV).
    apply (IH f u' v' x1' x2' uv' vv' y1' y2'); try assumption; try lia. apply S'. intros C. specialize (Z1 C). lia.
Qed.
Lemma rmod_gcd a p : 0 < p -> Z.gcd (a mod p) p = Z.gcd a p.
Proof. intros P. rewrite Z.gcd_mod by lia. apply Z.gcd_comm. Qed.
Lemma inv_start a g pv : 1 < pv -> pv mod 2 = 1 -> a mod pv <> 0 -> Z.gcd a pv = g -> inv_st a g pv (a mod pv) pv 1 0.
Proof.
  intros P O NZ G. pose proof (Z.mod_pos_bound a pv ltac:(lia)) as B. split; [lia|]. split; [lia|]. split; [lia|]. split; [lia|].
  split; [exists (a / pv); pose proof (Z.div_mod a pv ltac:(lia)); lia|]. split; [exists (-1); lia|].
  split; [rewrite rmod_gcd by lia; exact G|right; exact O].
Qed.

Lemma invmodp_ok : forall n f a p u pv, rep 7 a u -> rep 7 p pv -> 1 < pv < 2 ^ 405 -> pv mod 2 = 1 -> Z.gcd u pv = 1 -> (406 <= n)%nat -> (812 <= f)%nat ->
  exists c z, big_invmodp_f n f a p = Some c /\ rep 7 c z /\ 0 <= z < pv /\ (u * z) mod pv = 1.
Proof.
  intros n f a p u pv A P PV O G N F. unfold big_invmodp_f. destruct (B_rmod a u p pv A (rep_nrep _ _ _ P) ltac:(lia)) as (a' & EA & A'). rewrite EA. cbn [bind].
  assert (NZ : u mod pv <> 0). { intros C. assert (H : Z.gcd (u mod pv) pv = 1) by (rewrite rmod_gcd; [exact G|lia]). rewrite C, Z.gcd_0_l in H. lia. }
  pose proof (inv_start u 1 pv ltac:(lia) O NZ G) as ST. pose proof (Z.mod_pos_bound u pv ltac:(lia)) as MB.
  assert (R1 : rep 7 big_one 1) by (apply (rep_small 1); lia). pose proof (rep_zero) as R0.
  assert (K : exists c z, inv_loop n f p a' p big_one big_new = Some c /\ rep 7 c z /\ 0 <= z < pv /\ (pv | z * u - 1)).
  { destruct f as [|f]; [lia|]. destruct (Z.eq_dec (u mod pv) 1) as [E|NU].
    - apply (inv_end u n f p a' p big_one big_new pv (u mod pv) pv 1 0); auto.
    - destruct (inv_iter u 1 n f p a' p big_one big_new pv (u mod pv) pv 1 0 P ltac:(lia) O N A' P R1 R0 ST NU ltac:(lia))
        as (u' & v' & x1' & x2' & uv' & vv' & y1' & y2' & E & Q1 & Q2 & Q3 & Q4 & B1 & B2 & Z1 & Z2 & S' & EV' & L1 & L2).
      rewrite E. apply (inv_loop_ok u n p pv P ltac:(lia) O N 810 f u' v' x1' x2' uv' vv' y1' y2'); try assumption; try lia.
      + apply S'. intros C. specialize (Z1 C). lia.
      + eapply Z.lt_le_trans; [exact L1|]. change (2 ^ Z.of_nat 810) with (2 ^ 405 * 2 ^ 405). apply Z.mul_le_mono_nonneg; lia. }
  destruct K as (c & z & E & R & Z1 & D). exists c, z. split; [exact E|]. split; [exact R|]. split; [exact Z1|].
  destruct D as [k K]. replace (u * z) with (1 + k * pv) by lia. rewrite Z.mod_add by lia. apply Z.mod_small. lia.
Qed.

(* an argument with a common factor: no number of rounds is enough *)
Lemma halve_zero : forall n p u x, rep 7 u 0 -> inv_halve n p u x = None.
Proof.
  induction n as [|n IH]; intros p u x U; [reflexivity|]. cbn [inv_halve]. rewrite (parity_spec _ _ (rep_nrep _ _ _ U)). cbn [Z.modulo Z.div_eucl Z.eqb].
  change (0 mod 2 =? 0) with true. cbv iota. destruct (inv_even p x) as [x'|]; cbn [bind]; [|reflexivity].
  apply IH. apply (fshr1 _ _ U).
Qed.
Lemma loop_zero n f p u v x1 x2 vv : rep 7 u 0 -> rep 7 v vv -> 1 < vv -> inv_loop n f p u v x1 x2 = None.
Proof.
  intros U V B. destruct f as [|f]; [reflexivity|]. cbn [inv_loop]. rewrite (comp_one _ _ U), (comp_one _ _ V).
  destruct (Z.eqb_spec vv 1) as [|_]; [lia|]. change (0 =? 1) with false. cbn [negb andb]. rewrite halve_zero by exact U. reflexivity.
Qed.
Lemma halve_mono p : forall n m u x r, (n <= m)%nat -> inv_halve n p u x = Some r -> inv_halve m p u x = Some r.
Proof.
  induction n as [|n IH]; intros m u x r L E; [discriminate E|]. destruct m as [|m]; [lia|]. cbn [inv_halve] in *. destruct (big_parity u =? 0); [|exact E].
  destruct (inv_even p x) as [x'|]; cbn [bind] in *; [|discriminate E]. apply IH; [lia|exact E].
Qed.
Lemma loop_mono p : forall n m f u v x1 x2 r, (n <= m)%nat -> inv_loop n f p u v x1 x2 = Some r -> inv_loop m f p u v x1 x2 = Some r.
Proof.
  intros n m f. induction f as [|f IH]; intros u v x1 x2 r L E; [discriminate E|]. cbn [inv_loop] in *. destruct (negb (big_comp u big_one =? 0) && negb (big_comp v big_one =? 0)); [|exact E].
  destruct (inv_halve n p u x1) as [[u1 y1]|] eqn:E1; cbn [bind] in E; [|discriminate E]. rewrite (halve_mono p n m _ _ _ L E1). cbn [bind].
  destruct (inv_halve n p v x2) as [[v1 y2]|] eqn:E2; cbn [bind] in E; [|discriminate E]. rewrite (halve_mono p n m _ _ _ L E2). cbn [bind].
  destruct (0 <=? big_comp u1 v1).
  - destruct (big_sub u1 v1) as [d|]; cbn [bind] in *; [|discriminate E]. destruct (big_norm d) as [u2|]; cbn [bind] in *; [|discriminate E].
    destruct (inv_diff p y1 y2) as [z|]; cbn [bind] in *; [|discriminate E]. apply IH; assumption.
  - destruct (big_sub v1 u1) as [d|]; cbn [bind] in *; [|discriminate E]. destruct (big_norm d) as [u2|]; cbn [bind] in *; [|discriminate E].
    destruct (inv_diff p y2 y1) as [z|]; cbn [bind] in *; [|discriminate E]. apply IH; assumption.
Qed.
Lemma loop_hang a g n p pv : rep 7 p pv -> pv < 2 ^ 405 -> pv mod 2 = 1 -> (406 <= n)%nat -> 1 < g -> forall f u v x1 x2 uv vv y1 y2,
  rep 7 u uv -> rep 7 v vv -> rep 7 x1 y1 -> rep 7 x2 y2 -> inv_st a g pv uv vv y1 y2 -> inv_loop n f p u v x1 x2 = None.
Proof.
  intros P PB PO N G. induction f as [|f IH]; intros u v x1 x2 uv vv y1 y2 U V X1 X2 ST; [reflexivity|].
  assert (NU : uv <> 1). { intros ->. destruct ST as (_ & _ & _ & _ & _ & _ & H & _). rewrite Z.gcd_1_l in H. lia. }
  assert (NV : vv <> 1). { intros ->. destruct ST as (_ & _ & _ & _ & _ & _ & H & _). rewrite Z.gcd_1_r in H. lia. }
  destruct (inv_iter a g n f p u v x1 x2 pv uv vv y1 y2 P PB PO N U V X1 X2 ST NU NV) as (u' & v' & x1' & x2' & uv' & vv' & y1' & y2' & E & R1 & R2 & R3 & R4 & B1 & B2 & Z1 & Z2 & S' & EV' & L1 & L2).
  rewrite E. destruct (Z.eq_dec uv' 0) as [Z0|NZ].
  - destruct (Z1 Z0) as [V1 _]. rewrite Z0 in R1. apply (loop_zero n f p u' v' x1' x2' vv' R1 R2). lia.
  - apply (IH u' v' x1' x2' uv' vv' y1' y2'); auto.
Qed.
Lemma invmodp_hang : forall n f a p u pv, rep 7 a u -> rep 7 p pv -> 1 < pv < 2 ^ 405 -> pv mod 2 = 1 -> Z.gcd u pv <> 1 ->
  big_invmodp_f n f a p = None.
Proof.
  intros n f a p u pv A P PV O G. unfold big_invmodp_f. destruct (B_rmod a u p pv A (rep_nrep _ _ _ P) ltac:(lia)) as (a' & EA & A'). rewrite EA. cbn [bind].
  assert (R1 : rep 7 big_one 1) by (apply (rep_small 1); lia). pose proof (rep_zero) as R0.
  destruct (inv_loop n f p a' p big_one big_new) as [c|] eqn:E; [|reflexivity]. exfalso.
  apply (loop_mono p n (n + 406)) in E; [|lia]. destruct (Z.eq_dec (u mod pv) 0) as [Z0|NZ].
  - rewrite Z0 in A'. rewrite (loop_zero _ f p a' p big_one big_new pv A' P ltac:(lia)) in E. discriminate E.
  - assert (G1 : 1 < Z.gcd u pv). { pose proof (Z.gcd_nonneg u pv). assert (Z.gcd u pv <> 0) by (intros C; apply Z.gcd_eq_0_r in C; lia). lia. }
    rewrite (loop_hang u (Z.gcd u pv) (n + 406) p pv P ltac:(lia) O ltac:(lia) G1 f a' p big_one big_new (u mod pv) pv 1 0 A' P R1 R0) in E; [discriminate E|].
    apply inv_start; auto; lia.
Qed.
Lemma invmodp_spec : forall a p u pv, rep 7 a u -> rep 7 p pv -> 1 < pv < 2 ^ 405 -> pv mod 2 = 1 -> Z.gcd u pv = 1 ->
  exists c z, big_invmodp a p = Some c /\ rep 7 c z /\ 0 <= z < pv /\ (u * z) mod pv = 1.
Proof. intros a p u pv A P PV O G. apply (invmodp_ok 1000 1000 a p u pv A P PV O G); lia. Qed.

(* powmod *)
Lemma pow_loop_ok m mv : rep 7 m mv -> 1 < mv -> forall k f a z s av zv sv, rep 7 a av -> rep 7 z zv -> rep 7 s sv -> 0 <= av < mv ->
  0 <= zv < 2 ^ Z.of_nat k -> (k < f)%nat ->
  exists c, pow_loop f m a z s = Some c /\ rep 7 c ((av * sv ^ zv) mod mv).
Proof.
  intros M MV. assert (MB : mv < 2 ^ 406) by (apply (rep_bound7 _ _ M)). pose proof (rep_nrep _ _ _ M) as MN.
  induction k as [|k IH]; intros f a z s av zv sv A Z S AV ZV F; (destruct f as [|f]; [lia|]); cbn [pow_loop]; rewrite (parity_spec _ _ (rep_nrep _ _ _ Z)).
  - change (2 ^ Z.of_nat 0) with 1 in ZV. assert (zv = 0) by lia. subst zv. change (0 mod 2 =? 1) with false. cbv iota. cbn [bind].
    rewrite (proj2 (B_iszilch _ _ (fshr1 _ _ Z)) eq_refl). exists a. split; [reflexivity|]. change (sv ^ 0) with 1. rewrite Z.mul_1_r, Z.mod_small by lia. exact A.
  - rewrite Nat2Z.inj_succ, Z.pow_succ_r in ZV by lia. pose proof (Z.div_mod zv 2 ltac:(lia)) as D. pose proof (Z.mod_pos_bound zv 2 ltac:(lia)) as DB.
    assert (K : exists a' s1 av' sv', pow_bit (zv mod 2) m a s = Some (a', s1) /\
                rep 7 a' av' /\ rep 7 s1 sv' /\ 0 <= av' < mv /\ av' = (av * sv ^ (zv mod 2)) mod mv /\ sv' mod mv = sv mod mv).
    { unfold pow_bit. destruct (Z.eqb_spec (zv mod 2) 1) as [E|E].
      - destruct (B_rmod s sv m mv S MN ltac:(lia)) as (s1 & E1 & R1). rewrite E1. cbn [bind].
        destruct (B_modmul a s m av sv mv A S MN ltac:(lia)) as (a' & E2 & R2). rewrite E2. cbn [bind].
        exists a', s1, ((av * sv) mod mv), (sv mod mv). split; [reflexivity|]. split; [exact R2|]. split; [exact R1|].
        split; [apply Z.mod_pos_bound; lia|]. rewrite E, Z.pow_1_r, Z.mod_mod by lia. auto.
      - exists a, s, av, sv. assert (Q : zv mod 2 = 0) by lia. rewrite Q, Z.pow_0_r, Z.mul_1_r, (Z.mod_small av) by lia. auto 10. }
    destruct K as (a' & s1 & av' & sv' & E & A' & S1 & AV' & VA & VS). rewrite E. cbn [bind].
    destruct (big_iszilch (big_fshr z 1)) eqn:EZ.
    + apply (B_iszilch _ _ (fshr1 _ _ Z)) in EZ. exists a'. split; [reflexivity|]. assert (zv = zv mod 2) by lia. rewrite H, <- VA. exact A'.
    + destruct (B_modsqr s1 m sv' mv S1 MN ltac:(lia)) as (s2 & E2 & R2). rewrite E2. cbn [bind].
      destruct (IH f a' (big_fshr z 1) s2 av' (zv / 2) ((sv' * sv') mod mv) A' (fshr1 _ _ Z) R2 AV') as (c & EC & RC); [lia|lia|].
      exists c. split; [exact EC|]. replace ((av * sv ^ zv) mod mv) with ((av' * ((sv' * sv') mod mv) ^ (zv / 2)) mod mv); [exact RC|].
      assert (H1 : forall x y, x mod mv = y mod mv -> forall n, 0 <= n -> (x ^ n) mod mv = (y ^ n) mod mv).
      { intros x y H n N. rewrite Zpower_mod, H, <- Zpower_mod by lia. reflexivity. }
      rewrite Z.mul_mod, (H1 _ (sv * sv)), <- Z.mul_mod by (try lia; rewrite Z.mod_mod by lia; rewrite Z.mul_mod, VS, <- Z.mul_mod by lia; reflexivity).
      rewrite VA, Zmult_mod_idemp_l. f_equal. replace (sv ^ zv) with (sv ^ (2 * (zv / 2) + zv mod 2)) by (f_equal; lia). rewrite Z.pow_add_r, Z.pow_mul_r by lia. change (sv ^ 2) with (sv * (sv * 1)). rewrite Z.mul_1_r. ring.
Qed.
Lemma powmod_spec : forall x e m xv ev mv, rep 7 x xv -> rep 7 e ev -> rep 7 m mv -> 1 < mv ->
  exists c, big_powmod x e m = Some c /\ rep 7 c ((xv ^ ev) mod mv).
Proof.
  intros x e m xv ev mv X E M MV. unfold big_powmod.
  assert (NI : forall w v, rep 7 w v -> big_norm w = Some w).
  { intros w v W. destruct (B_norm w (proj1 W) (BigL.rep_lb63 _ _ W)) as (c & EC & C). rewrite EC. f_equal.
    destruct W as (L & D & V). rewrite V in C. apply (nrep_inj 7 c w v C). apply rep_nrep. exact (conj L (conj D V)). }
  rewrite (NI x xv X). cbn [bind]. rewrite (NI e ev E). cbn [bind]. pose proof (rep_bound7 _ _ E) as EB.
  destruct (pow_loop_ok m mv M MV 406 1000 big_one e x 1 ev xv) as (c & EC & C); try assumption; try lia.
  { apply (rep_small 1); lia. }
  exists c. split; [exact EC|]. rewrite Z.mul_1_l in C. exact C.
Qed.
(* with modulus 1 the result is 1, not reduced, for the exponent 0 *)
Lemma pow_loop_zero f m a z s : rep 7 z 0 -> pow_loop (S f) m a z s = Some a.
Proof.
  intros R. cbn [pow_loop]. rewrite (parity_spec _ _ (rep_nrep _ _ _ R)). change (0 mod 2) with 0. unfold pow_bit. change (0 =? 1) with false. cbv iota zeta. cbn [bind].
  rewrite (proj2 (B_iszilch _ _ (fshr1 _ _ R)) eq_refl). reflexivity.
Qed.
Lemma powmod_one : forall x e m xv, rep 7 x xv -> rep 7 e 0 -> exists c, big_powmod x e m = Some c /\ rep 7 c 1.
Proof.
  intros x e m xv X E. unfold big_powmod.
  destruct (B_norm x (proj1 X) (BigL.rep_lb63 _ _ X)) as (x' & EX & _). rewrite EX. cbn [bind].
  destruct (B_norm e (proj1 E) (BigL.rep_lb63 _ _ E)) as (e' & EE & E'). rewrite EE. cbn [bind].
  rewrite (proj2 (proj2 E)) in E'. pose proof (nrep_lt_rep7 _ _ E' ltac:(lia)) as R.
  exists big_one. split; [exact (pow_loop_zero 999 m big_one e' x' R)|]. apply (rep_small 1); lia.
Qed.
