(* Correctness of fp12.rs against F_q12. *)
From Coq Require Import Lia ZifyBool Znumtheory Field.
From Verif Require Import Prim PrimP Rom Big BigP BigP2 BigP3 BigP4 BigP5 NumT FieldQ FieldQ2 Fp FpP FpP2 Fp2 Fp2P Fp4 Fp12 Ecp2P Tower TowerP FrobP CycP Fp4P.

Definition fp12R (l E : Z) (x : Fq12) (a : FP12) : Prop :=
  fp4R l E (ka x) (f12a a) /\ fp4R l E (kb x) (f12b a) /\ fp4R l E (kc x) (f12c a).
Definition fp12C (x : Fq12) (a : FP12) : Prop :=
  fp4C (ka x) (f12a a) /\ fp4C (kb x) (f12b a) /\ fp4C (kc x) (f12c a).

Lemma fp12R_weak l E l' E' x a : fp12R l E x a -> 1 <= l <= l' -> E <= E' -> fp12R l' E' x a.
Proof. intros (A & B & C) L H. split; [|split]; eapply fp4R_weak; eauto. Qed.
Lemma fp12R_pos l E x a : fp12R l E x a -> 1 <= E.
Proof. intros (A & _). eapply fp4R_pos; eauto. Qed.
Lemma fp12C_R x a : fp12C x a -> fp12R 1 1 x a.
Proof. intros (A & B & C). split; [|split]; apply fp4C_R; auto. Qed.
Lemma fp12R_eq l E x y a : fp12R l E x a -> x = y -> fp12R l E y a.
Proof. intros H <-. exact H. Qed.
Lemma ok_fp12R l E x y (m : option FP12) : ok m (fp12R l E x) -> x = y -> ok m (fp12R l E y).
Proof. intros H <-. exact H. Qed.
Lemma ok_fp12W l E l' E' x (m : option FP12) : ok m (fp12R l E x) -> 1 <= l <= l' -> E <= E' -> ok m (fp12R l' E' x).
Proof. intros H L M. eapply ok_impl; [exact H|]. intros a A. eapply fp12R_weak; eauto. Qed.
Lemma fp12C_inj x a b : fp12C x a -> fp12C x b -> a = b.
Proof. intros (A & B & C) (D & E & F). destruct a as [a1 a2 a3], b as [b1 b2 b3]; cbn [f12a f12b f12c] in *. f_equal; eapply fp4C_inj; eauto. Qed.

Lemma fp12_new_int_ok n : 0 <= n < 2 ^ 31 -> ok (fp12_new_int n) (fp12R 1 2 (kemb (hemb (gemb (mkq n))))).
Proof.
  intros N. unfold fp12_new_int. eapply ok_bind; [apply fp4_new_int_ok; exact N|]. intros r R.
  split; [|split]; cbn [f12a f12b f12c kemb ka kb kc]; [exact R| |]; (eapply fp4R_weak; [exact fp4_new_ok|lia|lia]).
Qed.
Lemma fp12_reduce_ok l E x a : fp12R l E x a -> 1 <= l <= 31 -> E <= 67108864 -> ok (fp12_reduce a) (fp12C x).
Proof.
  intros (A & B & C) L HE. unfold fp12_reduce. eapply ok_bind; [eapply fp4_reduce_ok; eauto|]. intros r R.
  eapply ok_bind; [eapply fp4_reduce_ok; eauto|]. intros s S2. eapply ok_bind; [eapply fp4_reduce_ok; eauto|]. intros t T.
  split; [|split]; assumption.
Qed.
Lemma fp12_norm_ok l E x a : fp12R l E x a -> 1 <= l <= 31 -> E <= 33554432 -> ok (fp12_norm a) (fp12R 1 E x).
Proof.
  intros (A & B & C) L HE. unfold fp12_norm. eapply ok_bind; [eapply fp4_norm_ok; eauto|]. intros r R.
  eapply ok_bind; [eapply fp4_norm_ok; eauto|]. intros s S2. eapply ok_bind; [eapply fp4_norm_ok; eauto|]. intros t T.
  split; [|split]; assumption.
Qed.
Lemma fp12R_mk l m n E F H G x y z a b c : fp4R l E x a -> fp4R m F y b -> fp4R n H z c -> 1 <= l -> 1 <= m -> 1 <= n ->
  E <= G -> F <= G -> H <= G -> fp12R (Z.max l (Z.max m n)) G (mk12 x y z) (mkFP12 a b c).
Proof.
  intros A B C L M N HE HF HH. split; [|split]; cbn [f12a f12b f12c ka kb kc]; (eapply fp4R_weak; [eassumption|lia|lia]).
Qed.
Lemma fp12_norm_mk l m n E F H G x y z a b c : fp4R l E x a -> fp4R m F y b -> fp4R n H z c -> 1 <= l <= 31 -> 1 <= m <= 31 -> 1 <= n <= 31 ->
  E <= G -> F <= G -> H <= G -> G <= 33554432 -> ok (fp12_norm (mkFP12 a b c)) (fp12R 1 G (mk12 x y z)).
Proof.
  intros A B C L M N HE HF HH HG. eapply fp12_norm_ok; [eapply (fp12R_mk l m n E F H G); eauto; lia|lia|lia].
Qed.
Lemma fp12_equals_ok l m E F x y a b : fp12R l E x a -> fp12R m F y b -> 1 <= l <= 31 -> 1 <= m <= 31 ->
  E <= 67108864 -> F <= 67108864 -> ok (fp12_equals a b) (fun e => e = true <-> x = y).
Proof.
  intros (A1 & A2 & A3) (B1 & B2 & B3) L M HE HF. unfold fp12_equals. destruct x as [x0 x1 x2], y as [y0 y1 y2]. cbn [ka kb kc] in *.
  eapply ok_bind; [eapply fp4_equals_ok; [exact A1|exact B1|lia..]|]. intros ea Ea. destruct ea; cbn [negb].
  2:{ split; [discriminate|]. intros G. pose proof (f_equal ka G) as H. cbn [ka] in H. apply Ea in H. discriminate. }
  eapply ok_bind; [eapply fp4_equals_ok; [exact A2|exact B2|lia..]|]. intros eb Eb. destruct eb; cbn [negb].
  2:{ split; [discriminate|]. intros G. pose proof (f_equal kb G) as H. cbn [kb] in H. apply Eb in H. discriminate. }
  eapply ok_impl; [eapply fp4_equals_ok; [exact A3|exact B3|lia..]|]. cbv beta. intros e Ec.
  destruct Ea as [Ea _], Eb as [Eb _]. rewrite (Ea eq_refl), (Eb eq_refl), Ec. split; [intros ->; reflexivity|].
  intros G. exact (f_equal kc G).
Qed.

Ltac hstep :=
  rewrite ?bind_assoc;
  match goal with
  | |- ok (bind (fp4_mul _ _) _) _ => eapply ok_bind; [eapply fp4_mul_ok; [eassumption|eassumption|lia..]|]
  | |- ok (bind (fp4_sqr _) _) _ => eapply ok_bind; [eapply fp4_sqr_ok; [eassumption|lia..]|]
  | |- ok (bind (fp4_add _ _) _) _ => eapply ok_bind; [eapply fp4_add_ok; [eassumption|eassumption|lia..]|]
  | |- ok (bind (fp4_sub _ _) _) _ => eapply ok_bind; [eapply fp4_sub_ok; [eassumption|eassumption|lia..]|]
  | |- ok (bind (fp4_dbl _) _) _ => eapply ok_bind; [eapply fp4_dbl_ok; [eassumption|lia..]|]
  | |- ok (bind (fp4_neg _) _) _ => eapply ok_bind; [eapply fp4_neg_ok; [eassumption|lia..]|]
  | |- ok (bind (fp4_norm _) _) _ => eapply ok_bind; [eapply fp4_norm_ok; [eassumption|lia..]|]
  | |- ok (bind (fp4_conj _) _) _ => eapply ok_bind; [eapply fp4_conj_ok; [eassumption|lia..]|]
  | |- ok (bind (fp4_nconj _) _) _ => eapply ok_bind; [eapply fp4_nconj_ok; [eassumption|lia..]|]
  | |- ok (bind (fp4_times_i _) _) _ => eapply ok_bind; [eapply fp4_times_i_ok; [eassumption|lia..]|]
  | |- ok (bind (fp4_inverse _) _) _ => eapply ok_bind; [eapply fp4_inverse_ok; [eassumption|lia..]|]
  | |- ok (bind (fp4_pmul _ _) _) _ => eapply ok_bind; [eapply fp4_pmul_ok; [eassumption|eassumption|lia..]|]
  | |- ok (bind (fp4_frob _ _) _) _ => eapply ok_bind; [eapply fp4_frob_ok; [eassumption|eassumption|lia..]|]
  | |- ok (bind (fp2_mul _ _) _) _ => eapply ok_bind; [eapply fp2_mul_ok; [eassumption|eassumption|lia..]|]
  | |- ok (bind (fp2_sqr _) _) _ => eapply ok_bind; [eapply fp2_sqr_ok; [eassumption|lia..]|]
  end; let r := fresh "r" in let R := fresh "R" in intros r R.

Lemma fp12_conj_ok l E x a : fp12R l E x a -> 1 <= l -> 3 * l + 1 <= 31 -> 5 * E - 1 <= 33554432 ->
  ok (fp12_conj a) (fp12R 1 (5 * E - 1) (kconj x)).
Proof.
  intros (A & B & C) L LL HE. unfold fp12_conj. repeat hstep. split; [|split]; assumption.
Qed.
Lemma fp12_usqr_ok l E x a : fp12R l E x a -> 1 <= l <= 8 -> E <= 2097152 -> ok (fp12_usqr a) (fp12C (kusqr x)).
Proof.
  intros H L HE. pose proof (fp12R_pos _ _ _ _ H). destruct H as (A & B & C). unfold fp12_usqr. cbv zeta. repeat hstep.
  eapply ok_impl; [eapply fp12_reduce_ok; [eapply fp12R_mk; [eassumption|eassumption|eassumption|lia|lia|lia|apply Z.le_max_l|
    eapply Z.le_trans; [apply Z.le_max_l|apply Z.le_max_r]|eapply Z.le_trans; [apply Z.le_max_r|apply Z.le_max_r]]|lia|lia]|].
  intros s S1. match type of S1 with fp12C ?z _ => assert (EQ : z = kusqr x) end.
  { unfold kusqr, h3. apply f_equal3; ring. }
  rewrite EQ in S1. exact S1.
Qed.
Definition KB : Z := 8192.
Lemma fp12_sqr_ok l E x a : fp12R l E x a -> 1 <= l <= 8 -> E <= 524288 -> ok (fp12_sqr a) (fp12R 1 KB (kmul x x)).
Proof.
  intros H L HE. pose proof (fp12R_pos _ _ _ _ H). destruct H as (A & B & C). unfold fp12_sqr, KB. cbv zeta. repeat hstep.
  eapply ok_fp12R; [eapply fp12_norm_mk; [eassumption|eassumption|eassumption|lia..]|]. unfold kmul. apply f_equal3; ring.
Qed.
Lemma fp12_mul_ok l m E F x y a b : fp12R l E x a -> fp12R m F y b -> 1 <= l <= 8 -> 1 <= m <= 8 -> E <= 4194304 -> F <= 2097152 ->
  ok (fp12_mul a b) (fp12R 1 KB (kmul x y)).
Proof.
  intros H1 H2 L M HE HF. pose proof (fp12R_pos _ _ _ _ H1). pose proof (fp12R_pos _ _ _ _ H2).
  destruct H1 as (A1 & A2 & A3), H2 as (B1 & B2 & B3). unfold fp12_mul, KB. repeat hstep.
  eapply ok_fp12R; [eapply fp12_norm_mk; [eassumption|eassumption|eassumption|lia..]|]. unfold kmul. apply f_equal3; ring.
Qed.
(* the sparse multiplication: y = (y0 + y1 s) + y2 s w^2 *)
Lemma fp12_smul_ok l m E F x y a b : fp12R l E x a -> fp12R m F y b -> kb y = h0 -> fst (kc y) = g0 ->
  1 <= l <= 8 -> 1 <= m <= 8 -> E <= 524288 -> F <= 524288 -> ok (fp12_smul a b) (fp12R 1 KB (kmul x y)).
Proof.
  intros H1 H2 Y1 Y2 L M HE HF. pose proof (fp12R_pos _ _ _ _ H1). pose proof (fp12R_pos _ _ _ _ H2).
  destruct H1 as (A1 & A2 & A3), H2 as (B1 & B2 & B3). destruct y as [y0 y1 [y2 y3]]. cbn [ka kb kc fst snd] in *. subst y1 y2.
  pose proof (proj2 B3) as B4. cbn [snd] in B4.
  unfold fp12_smul, KB. cbv zeta. repeat hstep.
  eapply ok_fp12R; [eapply fp12_norm_mk; [eassumption|eassumption|eassumption|lia..]|].
  assert (K : (g0, y3) = hmul hs (hemb y3)) by (unfold hmul, hs, hemb; cbn [fst snd]; f_equal; ring).
  rewrite !hscale_mul, K. unfold kmul. cbn [ka kb kc]. generalize (hemb y3). intros u. apply f_equal3; ring.
Qed.
Lemma fp12_inverse_ok l E x a : fp12R l E x a -> 1 <= l <= 8 -> E <= 524288 -> ok (fp12_inverse a) (fp12R 1 KB (kinv x)).
Proof.
  intros H L HE. pose proof (fp12R_pos _ _ _ _ H). unfold fp12_inverse, KB.
  eapply ok_bind; [eapply fp12_norm_ok; [exact H|lia|lia]|]. intros r0 (N1 & N2 & N3). destruct H as (A1 & A2 & A3). repeat hstep. cbn [ok].
  unfold kinv, kscale, knorm, kcof. cbn [ka kb kc].
  split; [|split]; cbn [f12a f12b f12c ka kb kc]; (eapply fp4R_weak; [eapply fp4R_eq; [eassumption|]|lia|lia]).
  all: match goal with |- hmul _ (hinv ?u) = hmul (hinv ?v) _ => replace u with v by ring end; ring.
Qed.
Lemma fp12_frob_ok l m E F x a f b : fp12R l E x a -> fp2R m F f b -> 1 <= l <= 8 -> 1 <= m <= 8 -> E <= 8388608 -> F <= 1048576 ->
  ok (fp12_frob a b) (fp12R l (2 * E + 2) (kfrobf f x)).
Proof.
  intros H B L M HE HF. pose proof (fp12R_pos _ _ _ _ H). pose proof (fp2R_pos _ _ _ _ B). destruct H as (A1 & A2 & A3). unfold fp12_frob.
  repeat hstep. cbn [ok]. unfold kfrobf. cbv zeta.
  split; [|split]; cbn [f12a f12b f12c ka kb kc]; (eapply fp4R_weak; [eassumption|lia|lia]).
Qed.
