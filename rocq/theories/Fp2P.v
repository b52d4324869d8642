(* Correctness of fp2.rs: the operations compute in F_q[i] and keep the excess
   bookkeeping valid. *)
From Coq Require Import Lia ZifyBool Znumtheory Field.
From Verif Require Import Prim PrimP Rom Big BigP BigP2 BigP3 BigP4 BigP5 NumT FieldQ FieldQ2 Fp FpP FpP2 Fp2.

Definition fp2R (l E : Z) (x : Fq2) (a : FP2) : Prop := fpR l E (fst x) (f2a a) /\ fpR l E (snd x) (f2b a).
Definition fp2C (x : Fq2) (a : FP2) : Prop := fpC (fst x) (f2a a) /\ fpC (snd x) (f2b a).

Lemma fp2R_weak l E l' E' x a : fp2R l E x a -> 1 <= l <= l' -> E <= E' -> fp2R l' E' x a.
Proof. intros [A B] L H. split; eapply fpR_weak; eauto. Qed.
Lemma fp2C_R x a : fp2C x a -> fp2R 1 1 x a.
Proof. intros [A B]. split; apply fpC_R; auto. Qed.
Lemma fp2C_inj x a b : fp2C x a -> fp2C x b -> a = b.
Proof. intros [A B] [C D]. destruct a as [a1 a2], b as [b1 b2]; cbn [f2a f2b] in *. f_equal; eapply fpC_inj; eauto. Qed.
Lemma fpR_eq l E x y a : fpR l E x a -> x = y -> fpR l E y a.
Proof. intros H <-. exact H. Qed.
Lemma fp2R_eq l E x y a : fp2R l E x a -> x = y -> fp2R l E y a.
Proof. intros H <-. exact H. Qed.
Lemma ok_fpR l E x y (m : option FP) : ok m (fpR l E x) -> x = y -> ok m (fpR l E y).
Proof. intros H <-. exact H. Qed.
Lemma ok_fp2R l E x y (m : option FP2) : ok m (fp2R l E x) -> x = y -> ok m (fp2R l E y).
Proof. intros H <-. exact H. Qed.
Lemma ok_fp2W l E l' E' x (m : option FP2) : ok m (fp2R l E x) -> 1 <= l <= l' -> E <= E' -> ok m (fp2R l' E' x).
Proof. intros H L M. eapply ok_impl; [exact H|]. intros a A. eapply fp2R_weak; eauto. Qed.
Lemma ok_fpW l E l' E' x (m : option FP) : ok m (fpR l E x) -> 1 <= l <= l' -> E <= E' -> ok m (fpR l' E' x).
Proof. intros H L M. eapply ok_impl; [exact H|]. intros a A. eapply fpR_weak; eauto. Qed.

Lemma fp2_new_ok : fp2R 1 1 g0 fp2_new.
Proof. split; exact fp_new_ok. Qed.
Lemma fp2_new_int_ok n : 0 <= n < 2 ^ 31 -> ok (fp2_new_int n) (fp2R 1 2 (gemb (mkq n))).
Proof.
  intros N. unfold fp2_new_int. eapply ok_bind; [apply fp_new_int_ok; auto|]. intros r R. split; cbn [f2a f2b gemb fst snd]; auto.
  eapply fpR_weak; [exact fp_new_ok|lia|lia].
Qed.
Lemma fp2_one_ok : ok fp2_one (fp2R 1 2 g1).
Proof.
  unfold fp2_one. eapply ok_bind; [apply fp_one_ok|]. intros r R. split; cbn [f2a f2b g1 fst snd]; auto.
  eapply fpR_weak; [exact fp_new_ok|lia|lia].
Qed.
Lemma fp2_new_bigs_ok c d u v : rep 7 c u -> rep 7 d v -> ok (fp2_new_bigs c d) (fp2R 1 2 (mkq u, mkq v)).
Proof.
  intros C D. unfold fp2_new_bigs. eapply ok_bind; [apply (fp_nres_ok _ _ C)|]. intros x X.
  eapply ok_bind; [apply (fp_nres_ok _ _ D)|]. intros y Y. split; assumption.
Qed.
Lemma fp2_reduce_ok l E x a : fp2R l E x a -> 1 <= l <= 31 -> E <= 67108864 -> ok (fp2_reduce a) (fp2C x).
Proof.
  intros [A B] L HE. unfold fp2_reduce. eapply ok_bind; [eapply fp_reduce_ok; eauto|]. intros r R.
  eapply ok_bind; [eapply fp_reduce_ok; eauto|]. intros s S2. split; assumption.
Qed.
Lemma fp2_norm_ok l E x a : fp2R l E x a -> 1 <= l <= 31 -> E <= 33554432 -> ok (fp2_norm a) (fp2R 1 E x).
Proof.
  intros [A B] L HE. unfold fp2_norm. eapply ok_bind; [eapply fp_norm_ok; eauto|]. intros r R.
  eapply ok_bind; [eapply fp_norm_ok; eauto|]. intros s S2. split; assumption.
Qed.
Lemma fp2_iszilch_ok l E x a : fp2R l E x a -> 1 <= l <= 31 -> E <= 67108864 ->
  ok (fp2_iszilch a) (fun '(b, a') => (b = true <-> x = g0) /\ fp2C x a').
Proof.
  intros H L HE. unfold fp2_iszilch. eapply ok_bind; [eapply fp2_reduce_ok; eauto|]. intros r [R1 R2].
  eapply ok_bind; [eapply (fp_iszilch_ok 1 1); [apply fpC_R; exact R1|lia|lia]|]. intros [za a1] [Z1 A1].
  destruct za.
  - eapply ok_bind; [eapply (fp_iszilch_ok 1 1); [apply fpC_R; exact R2|lia|lia]|]. intros [zb b1] [Z2 B1]. cbn [ok].
    split; [|split; assumption]. destruct x as [u v]. cbn [fst snd] in *. unfold g0. rewrite Z2.
    destruct Z1 as [Z1 _]. rewrite (Z1 eq_refl). split; intros G; [rewrite G; reflexivity|congruence].
  - cbn [ok]. split; [|split; assumption]. destruct x as [u v]. cbn [fst snd] in *. unfold g0. split; [discriminate|].
    intros G. assert (U : u = f0) by congruence. apply Z1 in U. discriminate.
Qed.
Lemma fp2_equals_ok l m E F x y a b : fp2R l E x a -> fp2R m F y b -> 1 <= l <= 31 -> 1 <= m <= 31 ->
  E <= 67108864 -> F <= 67108864 ->
  ok (fp2_equals a b) (fun '(e, a', b') => (e = true <-> x = y) /\ fp2R l E x a' /\ fp2R m F y b').
Proof.
  intros [A1 A2] [B1 B2] L M HE HF. unfold fp2_equals.
  assert (E1 : 1 <= E) by (destruct A1 as (_ & _ & _ & A1 & _); lia).
  assert (F1 : 1 <= F) by (destruct B1 as (_ & _ & _ & B1 & _); lia).
  eapply ok_bind; [eapply (fp_equals_ok l m); eauto|]. intros [[ea xa] ya] (Z1 & X1 & Y1).
  assert (W1 : fpR l E (fst x) xa) by (eapply fpR_weak; [apply fpC_R; exact X1|lia|lia]).
  assert (W2 : fpR m F (fst y) ya) by (eapply fpR_weak; [apply fpC_R; exact Y1|lia|lia]).
  destruct x as [u v], y as [s t]; cbn [fst snd] in *. destruct ea.
  - eapply ok_bind; [eapply (fp_equals_ok l m); eauto|]. intros [[eb xb] yb] (Z2 & X2 & Y2). cbn [ok].
    split; [|split; split; cbn [f2a f2b fst snd]; auto; eapply fpR_weak; try (apply fpC_R; eassumption); lia].
    rewrite Z2. destruct Z1 as [Z1 _]. rewrite (Z1 eq_refl). split; intros G; [rewrite G; reflexivity|congruence].
  - cbn [ok]. split; [|split; split; assumption]. split; [discriminate|].
    intros G. assert (U : u = s) by congruence. apply Z1 in U. discriminate.
Qed.
Lemma fp2_isunity_ok l E x a : fp2R l E x a -> 1 <= l <= 31 -> E <= 67108864 ->
  ok (fp2_isunity a) (fun '(b, a') => (b = true <-> x = g1) /\ fp2R l E x a').
Proof.
  intros [A1 A2] L HE. unfold fp2_isunity.
  assert (E1 : 1 <= E) by (destruct A1 as (_ & _ & _ & A1 & _); lia).
  eapply ok_bind; [apply (fp_new_int_ok 1); lia|]. intros o O. change (mkq 1) with f1 in O.
  eapply ok_bind; [eapply (fp_equals_ok l 1 E 2); eauto; lia|]. intros [[ea xa] ya] (Z1 & X1 & Y1).
  assert (W1 : fpR l E (fst x) xa) by (eapply fpR_weak; [apply fpC_R; exact X1|lia|lia]).
  destruct x as [u v]; cbn [fst snd] in *. unfold g1. destruct ea.
  - eapply ok_bind; [eapply (fp_iszilch_ok l E); eauto|]. intros [zb b1] [Z2 B1]. cbn [ok].
    split; [|split; cbn [f2a f2b fst snd]; auto; eapply fpR_weak; [apply fpC_R; eassumption|lia|lia]].
    rewrite Z2. destruct Z1 as [Z1 _]. rewrite (Z1 eq_refl). split; intros G; [rewrite G; reflexivity|congruence].
  - cbn [ok]. split; [|split; assumption]. split; [discriminate|].
    intros G. assert (U : u = f1) by congruence. apply Z1 in U. discriminate.
Qed.

Lemma fp2_cmove0 l m E F x y a b : fp2R l E x a -> fp2R m F y b -> fp2_cmove a b 0 = a.
Proof.
  intros [(A1 & _) (A2 & _)] [(B1 & _) (B2 & _)]. unfold fp2_cmove. rewrite !fp_cmove0 by congruence. destruct a; reflexivity.
Qed.
Lemma fp2_cmove1 l m E F x y a b : fp2R l E x a -> fp2R m F y b -> fp2_cmove a b 1 = b.
Proof.
  intros [(A1 & _) (A2 & _)] [(B1 & _) (B2 & _)]. unfold fp2_cmove. rewrite !fp_cmove1 by congruence. destruct b; reflexivity.
Qed.

(* ------------------------- linear operations ------------------------- *)
Lemma fp2_add_ok l m E F x y a b : fp2R l E x a -> fp2R m F y b -> 1 <= l -> 1 <= m -> l + m <= 31 ->
  E + F <= 33554432 -> ok (fp2_add a b) (fp2R (l + m) (E + F) (gadd x y)).
Proof.
  intros [A1 A2] [B1 B2] L M LM EF. unfold fp2_add. eapply ok_bind; [apply (fp_add_ok l m E F); eauto|]. intros r R.
  eapply ok_bind; [apply (fp_add_ok l m E F); eauto|]. intros s S2. split; assumption.
Qed.
Lemma fp2_dbl_ok l E x a : fp2R l E x a -> 1 <= l -> l + l <= 31 -> E + E <= 33554432 ->
  ok (fp2_dbl a) (fp2R (l + l) (E + E) (gadd x x)).
Proof.
  intros [A1 A2] L LL EE. unfold fp2_dbl. eapply ok_bind; [apply (fp_dbl_ok l E); eauto|]. intros r R.
  eapply ok_bind; [apply (fp_dbl_ok l E); eauto|]. intros s S2. split; assumption.
Qed.
Lemma fp2_neg_ok l E x a : fp2R l E x a -> 1 <= l -> 3 * l + 1 <= 31 -> 5 * E - 1 <= 33554432 ->
  ok (fp2_neg a) (fp2R (3 * l + 1) (5 * E - 1) (gopp x)).
Proof.
  intros [A1 A2] L LL EE. assert (1 <= E) by (destruct A1 as (_ & _ & _ & A1 & _); lia). unfold fp2_neg.
  eapply ok_bind; [apply (fp_add_ok l l E E); eauto; lia|]. intros m0 M0.
  eapply ok_bind; [apply (fp_neg_ok (l + l) (E + E)); eauto; lia|]. intros m M.
  eapply ok_bind; [apply (fp_add_ok (l + l + 1) l (2 * (E + E) - 1) E); [exact M|exact A2|lia..]|]. intros t T.
  eapply ok_bind; [apply (fp_add_ok (l + l + 1) l (2 * (E + E) - 1) E); [exact M|exact A1|lia..]|]. intros b B.
  cbn [ok]. split; cbn [f2a f2b gopp fst snd].
  - replace (3 * l + 1) with (l + l + 1 + l) by lia. replace (5 * E - 1) with (2 * (E + E) - 1 + E) by lia.
    eapply fpR_eq; [exact T|ring].
  - replace (3 * l + 1) with (l + l + 1 + l) by lia. replace (5 * E - 1) with (2 * (E + E) - 1 + E) by lia.
    eapply fpR_eq; [exact B|ring].
Qed.
Lemma fp2_sub_ok l m E F x y a b : fp2R l E x a -> fp2R m F y b -> 1 <= l -> 1 <= m -> l + (3 * m + 1) <= 31 ->
  E + (5 * F - 1) <= 33554432 -> ok (fp2_sub a b) (fp2R (l + (3 * m + 1)) (E + (5 * F - 1)) (gsub x y)).
Proof.
  intros A B L M LM EF. assert (1 <= E) by (destruct A as ((_ & _ & _ & A1 & _) & _); lia).
  unfold fp2_sub. eapply ok_bind; [eapply (fp2_neg_ok m F); eauto; lia|]. intros r R.
  eapply ok_fp2R; [apply (fp2_add_ok l (3 * m + 1) E (5 * F - 1)); eauto; lia|]. ring.
Qed.
Lemma fp2_rsub_ok l m E F x y a b : fp2R l E x a -> fp2R m F y b -> 1 <= l -> 1 <= m -> 3 * l + 1 + m <= 31 ->
  5 * E - 1 + F <= 33554432 -> ok (fp2_rsub a b) (fp2R (3 * l + 1 + m) (5 * E - 1 + F) (gsub y x)).
Proof.
  intros A B L M LM EF. assert (1 <= F) by (destruct B as ((_ & _ & _ & A1 & _) & _); lia).
  unfold fp2_rsub. eapply ok_bind; [eapply (fp2_neg_ok l E); eauto; lia|]. intros r R.
  eapply ok_fp2R; [apply (fp2_add_ok (3 * l + 1) m (5 * E - 1) F); eauto; lia|]. ring.
Qed.
Lemma fp2_conj_ok l E x a : fp2R l E x a -> 1 <= l <= 30 -> 2 * E - 1 <= 33554432 ->
  ok (fp2_conj a) (fp2R l (2 * E - 1) (gconj x)).
Proof.
  intros [A1 A2] L EE. assert (1 <= E) by (destruct A1 as (_ & _ & _ & A1 & _); lia). unfold fp2_conj.
  eapply ok_bind; [apply (fp_neg_ok l E); eauto; lia|]. intros n N.
  eapply ok_bind; [eapply (fp_norm_ok (l + 1)); eauto; lia|]. intros r R. cbn [ok]. split; cbn [f2a f2b gconj fst snd].
  - eapply fpR_weak; eauto; lia.
  - eapply fpR_weak; eauto; lia.
Qed.
Lemma fp2_times_i_ok l E x a : fp2R l E x a -> 1 <= l <= 30 -> 2 * E - 1 <= 33554432 ->
  ok (fp2_times_i a) (fp2R (l + 1) (2 * E - 1) (gmul (f0, f1) x)).
Proof.
  intros [A1 A2] L EE. assert (1 <= E) by (destruct A1 as (_ & _ & _ & A1 & _); lia). unfold fp2_times_i.
  eapply ok_bind; [apply (fp_neg_ok l E); eauto; lia|]. intros n N. cbn [ok]. split; cbn [f2a f2b gmul fst snd].
  - eapply fpR_eq; [exact N|ring].
  - eapply fpR_eq; [eapply fpR_weak; [exact A1|lia|lia]|ring].
Qed.
Lemma fp2_mul_ip_ok l E x a : fp2R l E x a -> 1 <= l -> 2 * l + 1 <= 31 -> 3 * E - 1 <= 33554432 ->
  ok (fp2_mul_ip a) (fp2R (2 * l + 1) (3 * E - 1) (gmul gi1 x)).
Proof.
  intros A L LL EE. pose proof A as [A1 A2]. assert (1 <= E) by (destruct A1 as (_ & _ & _ & A1' & _); lia). unfold fp2_mul_ip.
  eapply ok_bind; [apply (fp_neg_ok l E); eauto; lia|]. intros n N.
  replace (2 * l + 1) with (l + 1 + l) by lia. replace (3 * E - 1) with (2 * E - 1 + E) by lia.
  eapply ok_fp2R; [apply (fp2_add_ok (l + 1) l (2 * E - 1) E (fopp (snd x), fst x) x); [split; cbn [f2a f2b fst snd]|exact A|lia..]|].
  - exact N.
  - eapply fpR_weak; [exact A1|lia|lia].
  - destruct x. unfold gadd, gmul, gi1. cbn [fst snd]. f_equal; ring.
Qed.
Lemma fp2_div2_ok E x a : fp2R 1 E x a -> E <= 16777216 -> ok (fp2_div2 a) (fp2R 1 E (fdiv (fst x) (mkq 2), fdiv (snd x) (mkq 2))).
Proof.
  intros [A B] HE. unfold fp2_div2. eapply ok_bind; [eapply fp_div2_ok; eauto|]. intros r R.
  eapply ok_bind; [eapply fp_div2_ok; eauto|]. intros s S2. split; assumption.
Qed.
Lemma fp2_imul_ok l E x a c : fp2R l E x a -> 1 <= l <= 31 -> 1 <= c -> E * c <= 33554432 ->
  ok (fp2_imul a c) (fp2R 1 (E * c) (gmul (gemb (mkq c)) x)).
Proof.
  intros [A B] L C HE. unfold fp2_imul. eapply ok_bind; [eapply (fp_imul_ok l E); eauto|]. intros r R.
  eapply ok_bind; [eapply (fp_imul_ok l E); eauto|]. intros s S2. cbn [ok].
  split; cbn [f2a f2b gmul gemb fst snd]; (eapply fpR_eq; [eassumption|ring]).
Qed.
Lemma fp2_pmul_ok l m E F x y a s : fp2R l E x a -> fpR m F y s -> 1 <= l <= 8 -> 1 <= m <= 8 -> E <= 33554432 -> F <= 33554432 ->
  ok (fp2_pmul a s) (fp2R 1 2 (gmul x (gemb y))).
Proof.
  intros [A B] S1 L M HE HF. unfold fp2_pmul. eapply ok_bind; [eapply (fp_mul_ok l m E F); eauto|]. intros r R.
  eapply ok_bind; [eapply (fp_mul_ok l m E F); eauto|]. intros t T. cbn [ok].
  split; cbn [f2a f2b gmul gemb fst snd]; (eapply fpR_eq; [eassumption|ring]).
Qed.

(* ------------------------- sqr, mul, inverse -------------------------- *)
Lemma fp2_sqr_ok l E x a : fp2R l E x a -> 1 <= l -> 2 * l + 1 <= 31 -> l <= 8 -> 3 * E - 1 <= 33554432 ->
  ok (fp2_sqr a) (fp2R 1 2 (gmul x x)).
Proof.
  intros [A1 A2] L LL L8 EE. assert (1 <= E) by (destruct A1 as (_ & _ & _ & A1 & _); lia). unfold fp2_sqr.
  eapply ok_bind; [apply (fp_add_ok l l E E); eauto; lia|]. intros w1 W1.
  eapply ok_bind; [apply (fp_add_ok l l E E); eauto; lia|]. intros w3 W3.
  eapply ok_bind; [eapply (fp_norm_ok (l + l)); [exact W3|lia|lia]|]. intros w3' W3'.
  eapply ok_bind; [eapply (fp_mul_ok l 1 E (E + E)); eauto; lia|]. intros b B.
  eapply ok_bind; [apply (fp_neg_ok l E); eauto; lia|]. intros mb MB.
  eapply ok_bind; [apply (fp_add_ok l (l + 1) E (2 * E - 1)); [exact A1|exact MB|lia..]|]. intros a1 A3.
  eapply ok_bind; [eapply (fp_norm_ok (l + l)); [exact W1|lia|lia]|]. intros w1' W1'.
  eapply ok_bind; [eapply (fp_norm_ok (l + (l + 1))); [exact A3|lia|lia]|]. intros a2 A4.
  eapply ok_bind; [eapply (fp_mul_ok 1 1); [exact A4|exact W1'|lia..]|]. intros r R. cbn [ok].
  split; cbn [f2a f2b gmul fst snd].
  - eapply fpR_eq; [exact R|ring].
  - eapply fpR_eq; [exact B|ring].
Qed.

Lemma nrep14_lb w v : nrep 14 w v -> 0 <= v < 2 ^ 811 -> lb B58 w.
Proof.
  intros N V. apply digs_lb. apply (nrep_rep 14 w v N). change (58 * Z.of_nat 14) with 812. lia.
Qed.
Lemma ucopy_mod_len : length (dbig_ucopy MODULUS) = 14%nat. Proof. reflexivity. Qed.
Lemma ucopy_mod_val : lval (dbig_ucopy MODULUS) = 2 ^ 406 * q381. Proof. vm_compute. reflexivity. Qed.
Lemma ucopy_mod_lb : lb B58 (dbig_ucopy MODULUS). Proof. repeat (constructor; [lia|]); constructor. Qed.

Lemma karat (xa xb ya yb e f : Z) : 0 <= xa -> 0 <= xb -> 0 <= ya -> 0 <= yb ->
  (xa + xb) * (ya + yb) <= 2 ^ 406 * q381 ->
  0 <= xa * ya <= 2 ^ 406 * q381 /\ 0 <= xb * yb <= 2 ^ 406 * q381 /\
  0 <= (xa + xb) * (ya + yb) - (xa * ya + xb * yb) <= 2 ^ 406 * q381.
Proof.
  intros A B C D H. set (Q := 2 ^ 406 * q381) in *. clearbody Q.
  assert (0 <= xa * ya) by (apply Z.mul_nonneg_nonneg; lia). assert (0 <= xb * yb) by (apply Z.mul_nonneg_nonneg; lia).
  assert (0 <= xa * yb) by (apply Z.mul_nonneg_nonneg; lia). assert (0 <= xb * ya) by (apply Z.mul_nonneg_nonneg; lia).
  replace ((xa + xb) * (ya + yb)) with (xa * ya + xb * yb + (xa * yb + xb * ya)) in * by ring. lia.
Qed.

Lemma norm_sum l E F x y a b : fpR l E x a -> fpR l F y b -> 1 <= l <= 8 -> fxes a + fxes b <= 33554432 ->
  ok (c0 <- big_add (fx a) (fx b) ;; big_norm c0) (fun c => rep 7 c (lval (fx a) + lval (fx b))).
Proof.
  intros (A1 & A2 & A3 & A4 & A5) (B1 & B2 & B3 & B4 & B5) L H. pose proof q381_lt. pose proof q381_bound2.
  eapply ok_bind; [apply (big_add_spec (fx a) (fx b) (l * B58) (l * B58)); try lia; apply lim_lb; auto; lia|].
  intros c0 (C1 & C2 & C3). eapply ok_impl; [apply norm_spec7; [lia|eapply lb_weak; [exact C2|lia]]|].
  cbv beta. intros c N. rewrite C3 in N. apply nrep_rep; [exact N|]. change (58 * Z.of_nat 7) with 406.
  assert ((fxes a + fxes b) * q381 <= 33554432 * q381) by (apply Z.mul_le_mono_nonneg_r; lia).
  lia.
Qed.

Lemma fp2_mul_core l m E F x1 x2 y1 y2 xa xb ya yb :
  fpR l E x1 xa -> fpR l E x2 xb -> fpR m F y1 ya -> fpR m F y2 yb -> 1 <= l <= 8 -> 1 <= m <= 8 ->
  (fxes xa + fxes xb) * (fxes ya + fxes yb) <= 33554432 ->
  ok (a <- big_mul (fx xa) (fx ya) ;;
  b <- big_mul (fx xb) (fx yb) ;;
  c0 <- big_add (fx xa) (fx xb) ;;
  c <- big_norm c0 ;;
  d0 <- big_add (fx ya) (fx yb) ;;
  d <- big_norm d0 ;;
  e <- big_mul c d ;;
  f <- big_add a b ;;
  b' <- big_rsub b (dbig_ucopy MODULUS) ;;
  a1 <- big_add a b' ;;
  a2 <- dbig_norm a1 ;;
  e1 <- big_sub e f ;;
  e2 <- dbig_norm e1 ;;
  ra <- fp_modulo a2 ;;
  rb <- fp_modulo e2 ;;
  Some (mkFP2 (mkFP ra 3) (mkFP rb 2))) (fp2R 1 3 (gmul (x1, x2) (y1, y2))).
Proof.
  intros HXA HXB HYA HYB L M X. pose proof q381_lt. pose proof q381_bound2.
  pose proof HXA as (XA1 & XA2 & XA3 & XA4 & XA5). pose proof HXB as (XB1 & XB2 & XB3 & XB4 & XB5).
  pose proof HYA as (YA1 & YA2 & YA3 & YA4 & YA5). pose proof HYB as (YB1 & YB2 & YB3 & YB4 & YB5).
  assert (P1 : fxes xa + fxes xb <= 33554432) by nia. assert (P2 : fxes ya + fxes yb <= 33554432) by nia.
  assert (KB : (lval (fx xa) + lval (fx xb)) * (lval (fx ya) + lval (fx yb)) <= 2 ^ 406 * q381).
  { eapply (mul_val _ _ (fxes xa + fxes xb) (fxes ya + fxes yb)); [lia|lia|split; [apply Z.mul_nonneg_nonneg; lia|exact X]]. }
  pose proof (karat _ _ _ _ 0 0 (proj1 XA3) (proj1 XB3) (proj1 YA3) (proj1 YB3) KB) as (K1 & K2 & K3).
  set (Q := 2 ^ 406 * q381) in *. assert (QB : 0 <= Q < 2 ^ 787) by (unfold Q; lia).
  eapply ok_bind; [apply (big_mul_spec (fx xa) (fx ya) (2 ^ 61) (2 ^ 61)); auto; try lia; eapply lim_lb61; eauto|]. intros a A.
  eapply ok_bind; [apply (big_mul_spec (fx xb) (fx yb) (2 ^ 61) (2 ^ 61)); auto; try lia; eapply lim_lb61; eauto|]. intros b B.
  rewrite <- bind_assoc. eapply ok_bind; [eapply (norm_sum l); eauto|]. intros c C.
  rewrite <- bind_assoc. eapply ok_bind; [eapply (norm_sum m); eauto|]. intros d D.
  pose proof C as (C1 & C2 & C3). pose proof D as (D1 & D2 & D3).
  assert (KP : 0 <= (lval (fx xa) + lval (fx xb)) * (lval (fx ya) + lval (fx yb))) by (apply Z.mul_nonneg_nonneg; lia).
  eapply ok_bind; [apply (big_mul_spec c d B58 B58); auto; try (apply digs_lb; auto); try lia; rewrite C3, D3; lia|]. intros e EE.
  rewrite C3, D3 in EE.
  assert (LA : lb B58 a) by (eapply nrep14_lb; [exact A|lia]). assert (LB : lb B58 b) by (eapply nrep14_lb; [exact B|lia]).
  assert (LE : lb B58 e) by (eapply nrep14_lb; [exact EE|lia]).
  destruct A as (A1 & A2 & A3), B as (B1 & B2 & B3), EE as (E1 & E2 & E3).
  eapply ok_bind; [apply (big_add_spec a b B58 B58); auto; try lia|]. intros f (F1 & F2 & F3).
  eapply ok_bind; [apply (big_rsub_spec b (dbig_ucopy MODULUS) B58 B58); auto; try lia; try exact ucopy_mod_lb; rewrite ucopy_mod_len; lia|].
  intros b' (B1' & B2' & B3'). rewrite ucopy_mod_val in B3'. fold Q in B3'.
  eapply ok_bind; [apply (big_add_spec a b' B58 (B58 + B58)); auto; lia|]. intros a1 (AA1 & AA2 & AA3).
  eapply ok_bind; [apply norm_spec14; [lia|eapply lb_weak; [exact AA2|lia]]|]. intros a2 N2.
  eapply ok_bind; [apply (big_sub_spec e f B58 (B58 + B58)); auto; lia|]. intros e1 (EE1 & EE2 & EE3).
  eapply ok_bind; [apply norm_spec14; [lia|eapply lb_weak; [exact EE2|lia]]|]. intros e2 N3.
  rewrite AA3, B3', A3, B3 in N2. rewrite EE3, F3, E3, A3, B3 in N3.
  eapply ok_bind; [eapply (modulo_R3 a2 _ (fsub (fmul x1 y1) (fmul x2 y2)) N2); [fold Q; lia|]|].
  { replace (lval (fx xa) * lval (fx ya) + (Q - lval (fx xb) * lval (fx yb))) with
      (lval (fx xa) * lval (fx ya) - lval (fx xb) * lval (fx yb) + 2 ^ 406 * q381) by (unfold Q; ring).
    rewrite mkq_add_q, mkq_sub, !mkq_mul, <- XA5, <- XB5, <- YA5, <- YB5. ring. }
  intros ra RA.
  eapply ok_bind; [eapply (modulo_R e2 _ (fadd (fmul x1 y2) (fmul x2 y1)) N3); [fold Q; lia|]|].
  { rewrite mkq_sub, mkq_add, !mkq_mul, !mkq_add, <- XA5, <- XB5, <- YA5, <- YB5. ring. }
  intros rb RB. cbn [ok]. split; cbn [f2a f2b gmul fst snd]; [exact RA|eapply fpR_weak; [exact RB|lia|lia]].
Qed.

Lemma fp2_mul_ok l m E F x y a b : fp2R l E x a -> fp2R m F y b -> 1 <= l <= 8 -> 1 <= m <= 8 ->
  E <= 33554432 -> F <= 8388608 ->
  ok (fp2_mul a b) (fp2R 1 3 (gmul x y)).
Proof.
  intros [A1 A2] [B1 B2] L M HE HF. unfold fp2_mul.
  pose proof A1 as (_ & _ & _ & A1' & _). pose proof A2 as (_ & _ & _ & A2' & _).
  pose proof B1 as (_ & _ & _ & B1' & _). pose proof B2 as (_ & _ & _ & B2' & _).
  rewrite ck32_ok by lia. cbn [bind]. rewrite ck32_ok by lia. cbn [bind].
  assert (P : 0 <= (fxes (f2a a) + fxes (f2b a)) * (fxes (f2a b) + fxes (f2b b)) <= 67108864 * 67108864).
  { split; [apply Z.mul_nonneg_nonneg; lia|apply Z.mul_le_mono_nonneg; lia]. }
  rewrite ck64_ok by lia. cbn [bind]. change FEXCESS with 33554432.
  destruct x as [x1 x2], y as [y1 y2]. cbn [fst snd] in *.
  destruct (Z.ltb_spec 33554432 ((fxes (f2a a) + fxes (f2b a)) * (fxes (f2a b) + fxes (f2b b)))) as [G|G].
  - cbn [andb].
    assert (RX : forall x u, fpR l E x u -> ok (if 1 <? fxes u then fp_reduce u else Some u) (fun u' => fpR l 1 x u')).
    { intros x u U. destruct (Z.ltb_spec 1 (fxes u)) as [V|V].
      - eapply ok_impl; [eapply fp_reduce_ok; [exact U|lia|lia]|]. intros r R. eapply fpR_weak; [apply fpC_R; exact R|lia|lia].
      - cbn [ok]. destruct U as (U1 & U2 & U3 & U4 & U5). fpsplit; auto. }
    eapply ok_bind; [apply RX; exact A1|]. intros xa XA. eapply ok_bind; [apply RX; exact A2|]. intros xb XB.
    cbv zeta. eapply (fp2_mul_core l m 1 F); eauto.
    destruct XA as (_ & _ & _ & XA & _), XB as (_ & _ & _ & XB & _). 
    apply Z.le_trans with (2 * 16777216); [apply Z.mul_le_mono_nonneg; lia|lia].
  - cbn [andb bind]. cbv zeta. eapply (fp2_mul_core l m E F); eauto.
Qed.

Lemma fp2_inverse_ok l E x a : fp2R l E x a -> 1 <= l <= 31 -> E <= 33554432 ->
  ok (fp2_inverse a) (fp2R 1 2 (ginv x)).
Proof.
  intros A L HE. unfold fp2_inverse. eapply ok_bind; [eapply fp2_norm_ok; eauto|]. intros r [R1 R2].
  eapply ok_bind; [eapply (fp_sqr_ok 1 E); eauto; lia|]. intros w1 W1.
  eapply ok_bind; [eapply (fp_sqr_ok 1 E); eauto; lia|]. intros w2 W2.
  eapply ok_bind; [apply (fp_add_ok 1 1 2 2); eauto; lia|]. intros w W.
  eapply ok_bind; [eapply (fp_inverse_ok 2 4); eauto; lia|]. intros w' W'. apply fpC_R in W'.
  eapply ok_bind; [eapply (fp_mul_ok 1 1 E 1); eauto; lia|]. intros ra RA.
  eapply ok_bind; [apply (fp_neg_ok 1 1); eauto; lia|]. intros n N.
  eapply ok_bind; [eapply (fp_norm_ok 2 1); eauto; lia|]. intros n' N'.
  eapply ok_bind; [eapply (fp_mul_ok 1 1 E 1); eauto; lia|]. intros rb RB. cbn [ok].
  split; cbn [f2a f2b ginv fst snd]; [exact RA|]. eapply fpR_eq; [exact RB|]. unfold gnorm. ring.
Qed.
