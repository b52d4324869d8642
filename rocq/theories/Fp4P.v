(* Correctness of fp4.rs against F_q4. *)
From Coq Require Import Lia ZifyBool Znumtheory Field.
From Verif Require Import Prim PrimP Rom Big BigP BigP2 BigP3 BigP4 BigP5 NumT FieldQ FieldQ2 Fp FpP FpP2 Fp2 Fp2P Fp4 Ecp2P Tower TowerP FrobP.

Definition fp4R (l E : Z) (x : Fq4) (a : FP4) : Prop := fp2R l E (fst x) (f4a a) /\ fp2R l E (snd x) (f4b a).
Definition fp4C (x : Fq4) (a : FP4) : Prop := fp2C (fst x) (f4a a) /\ fp2C (snd x) (f4b a).

Lemma fp4R_weak l E l' E' x a : fp4R l E x a -> 1 <= l <= l' -> E <= E' -> fp4R l' E' x a.
Proof. intros [A B] L H. split; eapply fp2R_weak; eauto. Qed.
Lemma fp4R_pos l E x a : fp4R l E x a -> 1 <= E.
Proof. intros [[(_ & _ & _ & A & _) _] _]. lia. Qed.
Lemma fp2R_pos l E x a : fp2R l E x a -> 1 <= E.
Proof. intros [(_ & _ & _ & A & _) _]. lia. Qed.
Lemma fp4C_R x a : fp4C x a -> fp4R 1 1 x a.
Proof. intros [A B]. split; apply fp2C_R; auto. Qed.
Lemma fp4C_inj x a b : fp4C x a -> fp4C x b -> a = b.
Proof. intros [A B] [C D]. destruct a as [a1 a2], b as [b1 b2]; cbn [f4a f4b] in *. f_equal; eapply fp2C_inj; eauto. Qed.
Lemma fp4R_eq l E x y a : fp4R l E x a -> x = y -> fp4R l E y a.
Proof. intros H <-. exact H. Qed.
Lemma ok_fp4R l E x y (m : option FP4) : ok m (fp4R l E x) -> x = y -> ok m (fp4R l E y).
Proof. intros H <-. exact H. Qed.
Lemma ok_fp4W l E l' E' x (m : option FP4) : ok m (fp4R l E x) -> 1 <= l <= l' -> E <= E' -> ok m (fp4R l' E' x).
Proof. intros H L M. eapply ok_impl; [exact H|]. intros a A. eapply fp4R_weak; eauto. Qed.
Lemma fp4R_mk l E x y a b : fp2R l E x a -> fp2R l E y b -> fp4R l E (x, y) (mkFP4 a b).
Proof. intros A B. split; assumption. Qed.

Lemma fp4_new_ok : fp4R 1 1 h0 fp4_new.
Proof. split; exact fp2_new_ok. Qed.
Lemma fp4_new_int_ok n : 0 <= n < 2 ^ 31 -> ok (fp4_new_int n) (fp4R 1 2 (hemb (gemb (mkq n)))).
Proof.
  intros N. unfold fp4_new_int. eapply ok_bind; [apply fp2_new_int_ok; exact N|]. intros r R. split; cbn [f4a f4b hemb fst snd]; [exact R|].
  eapply fp2R_weak; [exact fp2_new_ok|lia|lia].
Qed.
Lemma fp4_reduce_ok l E x a : fp4R l E x a -> 1 <= l <= 31 -> E <= 67108864 -> ok (fp4_reduce a) (fp4C x).
Proof.
  intros [A B] L HE. unfold fp4_reduce. eapply ok_bind; [eapply fp2_reduce_ok; eauto|]. intros r R.
  eapply ok_bind; [eapply fp2_reduce_ok; eauto|]. intros s S2. split; assumption.
Qed.
Lemma fp4_norm_ok l E x a : fp4R l E x a -> 1 <= l <= 31 -> E <= 33554432 -> ok (fp4_norm a) (fp4R 1 E x).
Proof.
  intros [A B] L HE. unfold fp4_norm. eapply ok_bind; [eapply fp2_norm_ok; eauto|]. intros r R.
  eapply ok_bind; [eapply fp2_norm_ok; eauto|]. intros s S2. split; assumption.
Qed.
(* a pair of F_q2 values with their own bounds, normalised *)
Lemma fp4_norm_mk l m E F G x y a b : fp2R l E x a -> fp2R m F y b -> 1 <= l <= 31 -> 1 <= m <= 31 -> E <= G -> F <= G -> G <= 33554432 ->
  ok (fp4_norm (mkFP4 a b)) (fp4R 1 G (x, y)).
Proof.
  intros A B L M HE HF HG. eapply (fp4_norm_ok (Z.max l m)); [apply fp4R_mk; eapply fp2R_weak; eauto; lia|lia|lia].
Qed.
Lemma fp4_iszilch_ok l E x a : fp4R l E x a -> 1 <= l <= 31 -> E <= 67108864 -> ok (fp4_iszilch a) (fun b => b = true <-> x = h0).
Proof.
  intros H L HE. unfold fp4_iszilch. eapply ok_bind; [eapply fp4_reduce_ok; eauto|]. intros r [R1 R2].
  eapply ok_bind; [eapply (fp2_iszilch_ok 1 1); [apply fp2C_R; exact R1|lia|lia]|]. intros [za a1] [Z1 A1].
  destruct x as [x0 x1]. cbn [fst snd] in *. destruct za.
  - eapply ok_bind; [eapply (fp2_iszilch_ok 1 1); [apply fp2C_R; exact R2|lia|lia]|]. intros [zb a2] [Z2 A2]. cbn [ok].
    destruct Z1 as [Z1 _]. rewrite (Z1 eq_refl). rewrite Z2. unfold h0. split; [intros ->; reflexivity|intros G; injection G; auto].
  - cbn [ok]. split; [discriminate|]. intros G. assert (x0 = g0) by exact (f_equal fst G). apply Z1 in H0. discriminate.
Qed.
Lemma fp4_equals_ok l m E F x y a b : fp4R l E x a -> fp4R m F y b -> 1 <= l <= 31 -> 1 <= m <= 31 ->
  E <= 67108864 -> F <= 67108864 -> ok (fp4_equals a b) (fun e => e = true <-> x = y).
Proof.
  intros [A1 A2] [B1 B2] L M HE HF. unfold fp4_equals. destruct x as [x0 x1], y as [y0 y1]. cbn [fst snd] in *.
  eapply ok_bind; [eapply fp2_equals_ok; [exact A1|exact B1|lia..]|]. intros [[ea a'] b'] [Z1 _]. destruct ea.
  - eapply ok_bind; [eapply fp2_equals_ok; [exact A2|exact B2|lia..]|]. intros [[eb a2] b2] [Z2 _]. cbn [ok].
    destruct Z1 as [Z1 _]. rewrite (Z1 eq_refl). rewrite Z2. split; [intros ->; reflexivity|intros G; injection G; auto].
  - cbn [ok]. split; [discriminate|]. intros G. assert (H : x0 = y0) by exact (f_equal fst G). apply Z1 in H. discriminate.
Qed.

Ltac xstep :=
  first [gstep | rewrite ?bind_assoc;
  match goal with
  | |- ok (bind (fp2_conj _) _) _ => eapply ok_bind; [eapply fp2_conj_ok; [eassumption|lia..]|]
  | |- ok (bind (fp2_times_i _) _) _ => eapply ok_bind; [eapply fp2_times_i_ok; [eassumption|lia..]|]
  | |- ok (bind (fp2_pmul _ _) _) _ => eapply ok_bind; [eapply fp2_pmul_ok; [eassumption|eassumption|lia..]|]
  | |- ok (bind (fp2_inverse _) _) _ => eapply ok_bind; [eapply fp2_inverse_ok; [eassumption|lia..]|]
  end; let r := fresh "r" in let R := fresh "R" in intros r R].

Lemma fp4_add_ok l m E F x y a b : fp4R l E x a -> fp4R m F y b -> 1 <= l -> 1 <= m -> l + m <= 31 ->
  E + F <= 33554432 -> ok (fp4_add a b) (fp4R (l + m) (E + F) (hadd x y)).
Proof. intros [A1 A2] [B1 B2] L M LM EF. unfold fp4_add. repeat xstep. split; assumption. Qed.
Lemma fp4_dbl_ok l E x a : fp4R l E x a -> 1 <= l -> l + l <= 31 -> E + E <= 33554432 ->
  ok (fp4_dbl a) (fp4R (l + l) (E + E) (hadd x x)).
Proof. intros [A1 A2] L LL EE. unfold fp4_dbl. repeat xstep. split; assumption. Qed.
Lemma fp4_neg_ok l E x a : fp4R l E x a -> 1 <= l <= 31 -> 11 * E <= 33554432 -> ok (fp4_neg a) (fp4R 1 (11 * E) (hopp x)).
Proof.
  intros A L HE. pose proof (fp4R_pos _ _ _ _ A). unfold fp4_neg. eapply ok_bind; [eapply fp4_norm_ok; [exact A|lia|lia]|]. intros r [R1 R2].
  repeat xstep. destruct x as [x0 x1]. cbn [fst snd] in *.
  eapply ok_fp4R; [eapply fp4_norm_mk; [eassumption|eassumption|lia..]|]. unfold hopp. cbn [fst snd]. f_equal; ring.
Qed.
Lemma fp4_conj_ok l E x a : fp4R l E x a -> 1 <= l -> 3 * l + 1 <= 31 -> 5 * E - 1 <= 33554432 ->
  ok (fp4_conj a) (fp4R 1 (5 * E - 1) (hconj x)).
Proof.
  intros A L LL HE. pose proof (fp4R_pos _ _ _ _ A). destruct A as [A1 A2]. unfold fp4_conj. repeat xstep.
  eapply fp4_norm_mk; [eassumption|eassumption|lia..].
Qed.
Lemma fp4_nconj_ok l E x a : fp4R l E x a -> 1 <= l -> 3 * l + 1 <= 31 -> 5 * E - 1 <= 33554432 ->
  ok (fp4_nconj a) (fp4R 1 (5 * E - 1) (hopp (hconj x))).
Proof.
  intros A L LL HE. pose proof (fp4R_pos _ _ _ _ A). destruct A as [A1 A2]. unfold fp4_nconj. repeat xstep.
  eapply ok_fp4R; [eapply fp4_norm_mk; [eassumption|eassumption|lia..]|]. unfold hopp, hconj. cbn [fst snd]. f_equal; ring.
Qed.
Lemma fp4_sub_ok l m E F x y a b : fp4R l E x a -> fp4R m F y b -> 1 <= l <= 30 -> 1 <= m <= 31 ->
  E + 11 * F <= 33554432 -> ok (fp4_sub a b) (fp4R (l + 1) (E + 11 * F) (hsub x y)).
Proof.
  intros A B L M EF. pose proof (fp4R_pos _ _ _ _ A). unfold fp4_sub. eapply ok_bind; [eapply fp4_neg_ok; [exact B|lia|lia]|]. intros r R.
  eapply ok_fp4R; [eapply fp4_add_ok; [exact A|exact R|lia..]|]. ring.
Qed.
Lemma fp4_rsub_ok l m E F x y a b : fp4R l E x a -> fp4R m F y b -> 1 <= l <= 31 -> 1 <= m <= 30 ->
  11 * E + F <= 33554432 -> ok (fp4_rsub a b) (fp4R (1 + m) (11 * E + F) (hsub y x)).
Proof.
  intros A B L M EF. pose proof (fp4R_pos _ _ _ _ B). unfold fp4_rsub. eapply ok_bind; [eapply fp4_neg_ok; [exact A|lia|lia]|]. intros r R.
  eapply ok_fp4R; [eapply fp4_add_ok; [exact R|exact B|lia..]|]. ring.
Qed.
Lemma fp4_pmul_ok l m E F x y a s : fp4R l E x a -> fp2R m F y s -> 1 <= l <= 8 -> 1 <= m <= 8 -> E <= 33554432 -> F <= 8388608 ->
  ok (fp4_pmul a s) (fp4R 1 3 (hscale y x)).
Proof. intros [A B] S1 L M HE HF. unfold fp4_pmul. repeat xstep. split; assumption. Qed.
Lemma fp4_imul_ok l E x a c : fp4R l E x a -> 1 <= l <= 31 -> 1 <= c -> E * c <= 33554432 ->
  ok (fp4_imul a c) (fp4R 1 (E * c) (hscale (gemb (mkq c)) x)).
Proof.
  intros [A B] L C HE. unfold fp4_imul. eapply ok_bind; [eapply fp2_imul_ok; [exact A|lia..]|]. intros r R.
  eapply ok_bind; [eapply fp2_imul_ok; [exact B|lia..]|]. intros s S2. cbn [ok].
  split; cbn [f4a f4b hscale fst snd]; (eapply fp2R_eq; [eassumption|generalize (gemb (mkq c)); intros; ring]).
Qed.
Lemma fp4_sqr_ok l E x a : fp4R l E x a -> 1 <= l <= 8 -> E <= 2097152 -> ok (fp4_sqr a) (fp4R 1 57 (hmul x x)).
Proof.
  intros A L HE. pose proof (fp4R_pos _ _ _ _ A). destruct A as [A1 A2]. unfold fp4_sqr. repeat xstep.
  eapply ok_fp4R; [eapply fp4_norm_mk; [eassumption|eassumption|lia..]|]. unfold hmul. f_equal; ring.
Qed.
Lemma fp4_mul_ok l m E F x y a b : fp4R l E x a -> fp4R m F y b -> 1 <= l <= 31 -> 1 <= m <= 8 -> E <= 16777216 -> F <= 4194304 ->
  ok (fp4_mul a b) (fp4R 1 31 (hmul x y)).
Proof.
  intros A B L M HE HF. pose proof (fp4R_pos _ _ _ _ A). unfold fp4_mul.
  eapply ok_bind; [eapply fp4_norm_ok; [exact A|lia|lia]|]. intros r0 [A1 A2]. pose proof (fp4R_pos _ _ _ _ B). destruct B as [B1 B2]. repeat xstep.
  eapply ok_fp4R; [eapply fp4_norm_mk; [eassumption|eassumption|lia..]|]. unfold hmul. f_equal; ring.
Qed.
Lemma fp4_inverse_ok l E x a : fp4R l E x a -> 1 <= l <= 31 -> E <= 8388608 -> ok (fp4_inverse a) (fp4R 1 3 (hinv x)).
Proof.
  intros A L HE. pose proof (fp4R_pos _ _ _ _ A). unfold fp4_inverse.
  eapply ok_bind; [eapply fp4_norm_ok; [exact A|lia|lia]|]. intros r0 [A1 A2]. repeat xstep. cbn [ok].
  split; unfold hinv, hnorm; cbn [f4a f4b fst snd]; (eapply fp2R_eq; [eassumption|]).
  - reflexivity.
  - ring.
Qed.
Lemma fp4_times_i_ok l E x a : fp4R l E x a -> 1 <= l -> 2 * l + 1 <= 31 -> 3 * E - 1 <= 33554432 ->
  ok (fp4_times_i a) (fp4R 1 (3 * E - 1) (hmul hs x)).
Proof.
  intros A L LL HE. pose proof (fp4R_pos _ _ _ _ A). destruct A as [A1 A2]. unfold fp4_times_i. repeat xstep.
  eapply ok_fp4R; [eapply fp4_norm_mk; [eassumption|eassumption|lia..]|]. unfold hmul, hs. cbn [fst snd]. f_equal; [|ring].
  assert (G : gi1 = gadd g1 (f0, f1)) by (unfold gi1, gadd, g1; cbn [fst snd]; f_equal; ring). rewrite G. ring.
Qed.
Lemma fp4_frob_ok l m E F x a y f : fp4R l E x a -> fp2R m F y f -> 1 <= l <= 8 -> 1 <= m <= 8 -> 2 * E - 1 <= 33554432 -> F <= 8388608 ->
  ok (fp4_frob a f) (fp4R l (2 * E + 2) (hfrob y x)).
Proof.
  intros A B L M HE HF. pose proof (fp4R_pos _ _ _ _ A). destruct A as [A1 A2]. unfold fp4_frob. repeat xstep. cbn [ok].
  split; cbn [f4a f4b hfrob fst snd]; (eapply fp2R_weak; [eassumption|lia|lia]).
Qed.
