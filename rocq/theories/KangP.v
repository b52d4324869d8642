(* Proofs about kangaroo of mpin.rs. *)
From Coq Require Import ZArith List Bool Lia Znumtheory.
From Verif Require Import Prim PrimP Rom Big BigP BigP2 BigP3 BigL NumT FieldQ FieldQ2 Fp Fp2 Fp4 Fp12 FpP FpP2 Fp2P Fp4P Fp12P SpecBytes SpecCurve CurveP EcpP EcpC Ecp2P Tower TowerP CycP PairP RootP Pow4P GlvP
  DenoteT SpecMpin Mpin MpinP Kang.
Import ListNotations.
Open Scope Z_scope.

Lemma fp2_from w i : bytes w -> (48 * i + 96 <= length w)%nat -> ok (fp2_frombytes w i) (fp2R 1 2 (fq_at w i, fq_at w (S i))).
Proof.
  intros B L. unfold fp2_frombytes, fq_at.
  eapply ok_bind; [apply frombytes_rep; [apply bytes_firstn, bytes_skipn, B|apply firstn_length_le; rewrite skipn_length; lia]|]. intros a A.
  eapply ok_bind; [apply frombytes_rep; [apply bytes_firstn, bytes_skipn, B|apply firstn_length_le; rewrite skipn_length; lia]|]. intros b D.
  exact (fp2_new_bigs_ok _ _ _ _ A D).
Qed.
Lemma fp4_from w i : bytes w -> (48 * i + 192 <= length w)%nat -> ok (fp4_frombytes w i) (fp4R 1 2 ((fq_at w i, fq_at w (S i)), (fq_at w (2 + i), fq_at w (S (2 + i))))).
Proof.
  intros B L. unfold fp4_frombytes. eapply ok_bind; [apply fp2_from; [exact B|lia]|]. intros c C. eapply ok_bind; [apply (fp2_from w (2 + i)); [exact B|lia]|]. intros d D.
  split; assumption.
Qed.
Lemma fp12_from w : bytes w -> (576 <= length w)%nat -> ok (fp12_frombytes w) (fp12R 1 2 (decodes12 w)).
Proof.
  intros B L. unfold fp12_frombytes. destruct (Nat.ltb_spec (length w) 576); [lia|].
  eapply ok_bind; [apply (fp4_from w 0); [exact B|lia]|]. intros e E. eapply ok_bind; [apply (fp4_from w 4); [exact B|lia]|]. intros f F. eapply ok_bind; [apply (fp4_from w 8); [exact B|lia]|]. intros g G.
  split; [exact E|split; [exact F|exact G]].
Qed.

(* the entries: powers of x with exponents between 1 and 512 *)
Definition entry (x : Fq12) (p : Z * FP12) : Prop := 1 <= fst p <= 512 /\ fp12R 1 2 (kpw x (fst p)) (snd p).
Lemma table_ok x : cyc x -> forall n s t, 1 <= s -> s * 2 ^ Z.of_nat n <= 1024 -> fp12R 1 2 (kpw x s) t -> ok (kang_table n s t) (fun T => length T = n /\ Forall (entry x) T).
Proof.
  intros X. induction n as [|n IH]; intros s t P U R; cbn [kang_table]; [split; [reflexivity|constructor]|].
  rewrite Nat2Z.inj_succ, Z.pow_succ_r in U by lia. pose proof (Z.pow_pos_nonneg 2 (Z.of_nat n) ltac:(lia) ltac:(lia)).
  eapply ok_bind; [apply (fp12_usqr_ok 1 2 _ _ R); lia|]. intros t' R'. rewrite (kusqr_ok _ (cyc_pw x s ltac:(lia) X)) in R'.
  assert (E : kmul (kpw x s) (kpw x s) = kpw x (s * 2)). { replace (s * 2) with (s + s) by lia. symmetry. apply kpw_add; lia. }
  rewrite E in R'. eapply ok_bind; [apply (IH (s * 2) t' ltac:(lia) ltac:(lia)); eapply fp12R_weak; [apply fp12C_R, R'|lia|lia]|]. intros l [L F].
  cbn [ok]. split; [cbn [length]; rewrite L; reflexivity|]. constructor; [split; [cbn [fst]; nia|exact R]|exact F].
Qed.
Lemma pick_ok x T E z t : length T = TS -> Forall (entry x) T -> fp12R 1 E z t -> E <= 33554432 -> ok (kang_pick T t) (entry x).
Proof.
  intros L F R HE. unfold kang_pick, fp2_geta. destruct R as (((R & _) & _) & _).
  eapply ok_bind; [apply (fp_redc_ok 1 E _ _ R); lia|]. intros w (W & _).
  eapply ok_bind; [apply (lastbits_spec w 20); [exact (proj1 W)|eapply lb_weak; [exact (BigP2.rep_lb _ _ _ W)|lia]|lia]|]. intros [b w'] [-> _].
  pose proof (Z.mod_pos_bound (lval w) (2 ^ 20) ltac:(lia)) as M. pose proof (Z.rem_bound_pos (lval w mod 2 ^ 20) (Z.of_nat TS) ltac:(lia) ltac:(unfold TS; lia)) as B.
  destruct (nth_error T (Z.to_nat (Z.rem (lval w mod 2 ^ 20) (Z.of_nat TS)))) as [p|] eqn:N.
  - cbn [ok]. rewrite Forall_forall in F. apply F. exact (nth_error_In _ _ N).
  - apply nth_error_None in N. rewrite L in N. lia.
Qed.
Lemma tame_ok x T : length T = TS -> Forall (entry x) T -> forall n dn t, 0 <= dn -> fp12R 1 KB (kpw x dn) t ->
  ok (kang_tame n T dn t) (fun '(d, t') => dn + Z.of_nat n <= d <= dn + 512 * Z.of_nat n /\ fp12R 1 KB (kpw x d) t').
Proof.
  intros L F. induction n as [|n IH]; intros dn t P R; cbn [kang_tame]; [split; [lia|exact R]|].
  eapply ok_bind; [apply (pick_ok x T KB _ t L F R); unfold KB; lia|]. intros [d m] [D M]. cbn [fst snd] in D, M.
  eapply ok_bind; [apply (fp12_mul_ok 1 1 KB 2 _ _ _ _ R M); unfold KB; lia|]. intros t' R'. rewrite <- (kpw_add x dn d) in R' by lia.
  eapply ok_impl; [apply (IH (dn + d) t' ltac:(lia) R')|]. intros [d' u] [H H']. split; [lia|exact H'].
Qed.
Lemma red_first_ok z a : fp12R 1 KB z a -> ok (red_first a) (fp12R 1 KB z).
Proof.
  intros (((R & A) & B) & C & D). unfold red_first. eapply ok_bind; [apply (fp_reduce_ok1 1 KB _ _ R); unfold KB; lia|]. intros r H.
  split; [|split; [exact C|exact D]]. split; [|exact B]. split; [|exact A]. eapply fpR_weak; [exact H|lia|unfold KB; lia].
Qed.
(* what the two comparisons tell *)
Definition caught (e x : Fq12) (d : Z) : Prop :=
  d = 0 \/ (exists dm dn, 0 < dm <= dn + 10511 /\ 200 <= dn <= 102400 /\ d = dm - dn /\ d < 10000 /\ kmul e (kpw x dm) = kpw x dn) \/
  (exists dm dn, 0 < dm <= dn + 10511 /\ 200 <= dn <= 102400 /\ d = dn - dm /\ kmul e (kpw x (dm + dn)) = k1).
Lemma wild_ok e x T t gf dn : cyc x -> length T = TS -> Forall (entry x) T -> 200 <= dn <= 102400 -> fp12R 1 KB (kpw x dn) t -> fp12R 1 (5 * KB - 1) (kconj (kpw x dn)) gf ->
  forall n dm ge, 0 <= dm -> fp12R 1 KB (kmul e (kpw x dm)) ge -> ok (kang_wild n T t gf dn dm ge) (caught e x).
Proof.
  intros X L F DN RT RG. induction n as [|n IH]; intros dm ge P R; cbn [kang_wild].
  { destruct (MAXPIN <=? dm - dn); left; reflexivity. }
  destruct (Z.leb_spec MAXPIN (dm - dn)) as [G|G]; [left; reflexivity|]. unfold MAXPIN in G.
  eapply ok_bind; [apply (pick_ok x T KB _ ge L F R); unfold KB; lia|]. intros [d m] [D M]. cbn [fst snd] in D, M. cbv zeta.
  eapply ok_bind; [apply (fp12_mul_ok 1 1 KB 2 _ _ _ _ R M); unfold KB; lia|]. intros g' R'.
  assert (E : kmul (kmul e (kpw x dm)) (kpw x d) = kmul e (kpw x (dm + d))). { rewrite (kpw_add x dm d) by lia. ring. }
  rewrite E in R'. clear E.
  eapply ok_bind; [apply (fp12_equals_ok 1 1 KB KB _ _ _ _ R' RT); unfold KB; lia|]. intros a HA. destruct a.
  { cbn [ok]. unfold kang_res. destruct (Z.leb_spec MAXPIN (dm + d - dn)) as [U|U]; [left; reflexivity|]. right; left. exists (dm + d), dn.
    split; [lia|]. split; [exact DN|]. split; [reflexivity|]. split; [exact U|]. apply HA; reflexivity. }
  eapply ok_bind; [apply (fp12_equals_ok 1 1 KB (5 * KB - 1) _ _ _ _ R' RG); unfold KB; lia|]. intros b HB. destruct b.
  { cbn [ok]. unfold kang_res. destruct (MAXPIN <=? dm + d - dn); [left; reflexivity|]. right; right. exists (dm + d), dn.
    split; [lia|]. split; [exact DN|]. split; [reflexivity|]. pose proof (proj1 HB eq_refl) as H. rewrite (kpw_add x (dm + d) dn) by lia.
    transitivity (kmul (kmul e (kpw x (dm + d))) (kpw x dn)); [ring|]. rewrite H. transitivity (kmul (kpw x dn) (kconj (kpw x dn))); [ring|]. apply cyc_inv. apply cyc_pw; [lia|exact X]. }
  eapply ok_bind; [apply (red_first_ok _ _ R')|]. intros g'' R''. apply IH; [lia|exact R''].
Qed.

Lemma kang_ok e f : bytes e -> bytes f -> (576 <= length e)%nat -> (576 <= length f)%nat -> cyc (decodes12 f) -> ok (kangaroo e f) (caught (decodes12 e) (decodes12 f)).
Proof.
  intros BE BF LE LF X. unfold kangaroo. set (x := decodes12 f) in *.
  eapply ok_bind; [apply (fp12_from e BE LE)|]. intros ge RE. eapply ok_bind; [apply (fp12_from f BF LF)|]. intros gf RF. fold x in RF.
  eapply ok_bind; [apply (table_ok x X TS 1 gf ltac:(lia) ltac:(unfold TS; lia)); rewrite kpw_1; exact RF|]. intros T [L F].
  eapply ok_bind; [apply (fp12_new_int_ok 1); lia|]. intros t RT.
  eapply ok_bind; [apply (tame_ok x T L F TRAP 0 t ltac:(lia)); eapply fp12R_weak; [eapply fp12R_eq; [exact RT|rewrite kpw_0; reflexivity]|lia|unfold KB; lia]|].
  intros [dn u] [DN RU]. change (0 + Z.of_nat TRAP) with 200 in DN. change (0 + 512 * Z.of_nat TRAP) with 102400 in DN.
  eapply ok_bind; [apply (fp12_conj_ok 1 KB _ _ RU); unfold KB; lia|]. intros c RC.
  apply (wild_ok (decodes12 e) x T u c dn X L F DN RU RC); [lia|]. eapply fp12R_weak; [eapply fp12R_eq; [exact RE|rewrite kpw_0; ring]|lia|unfold KB; lia].
Qed.
Lemma kangaroo_sound : forall e f, bytes e -> bytes f -> (576 <= length e)%nat -> (576 <= length f)%nat -> kpw (decodes12 f) (q381 ^ 4 - q381 ^ 2 + 1) = k1 ->
  exists d, kangaroo e f = Some d /\
    (d = 0 \/
     (exists dm dn, 0 < dm <= dn + 10511 /\ 200 <= dn <= 102400 /\ d = dm - dn /\ d < 10000 /\ kmul (decodes12 e) (kpw (decodes12 f) dm) = kpw (decodes12 f) dn) \/
     (exists dm dn, 0 < dm <= dn + 10511 /\ 200 <= dn <= 102400 /\ d = dn - dm /\ kmul (decodes12 e) (kpw (decodes12 f) (dm + dn)) = k1)).
Proof. intros e f BE BF LE LF X. exact (proj1 (ok_ex _ _) (kang_ok e f BE BF LE LF (cyc_spec _ X))). Qed.
Lemma kangaroo_short : forall e f, (length e < 576)%nat \/ (length f < 576)%nat -> kangaroo e f = None.
Proof.
  intros e f L. assert (H : forall w, (length w < 576)%nat -> fp12_frombytes w = None) by (intros w W; unfold fp12_frombytes; destruct (Nat.ltb_spec (length w) 576); [reflexivity|lia]).
  unfold kangaroo. destruct L as [L|L]; rewrite (H _ L); [reflexivity|]. destruct (fp12_frombytes e); reflexivity.
Qed.

(* exponents in a group of order r; dm and dn are far below r, but no bound on them is needed *)
Lemma mu_eq x a b : x <> k1 -> kpw x r255 = k1 -> 0 <= a -> 0 <= b -> kpw x a = kpw x b -> a mod r255 = b mod r255.
Proof.
  intros N R A B H. pose proof (prime_ge_2 _ r255_prime) as G. rewrite (mu_mod x r255 r255_prime R a A), (mu_mod x r255 r255_prime R b B) in H.
  exact (mu_inj x r255 r255_prime N R _ _ (Z.mod_pos_bound a r255 ltac:(lia)) (Z.mod_pos_bound b r255 ltac:(lia)) H).
Qed.
Lemma small_mod a b : 0 <= a < 1000000 -> 0 <= b < 1000000 -> a mod r255 = b mod r255 -> a = b.
Proof. intros A B H. assert (1000000 < r255) by (vm_compute; reflexivity). rewrite !Z.mod_small in H by lia. exact H. Qed.
Lemma kangaroo_pin : forall e f p v, bytes e -> bytes f -> (576 <= length e)%nat -> (576 <= length f)%nat -> kpw (decodes12 f) r255 = k1 -> decodes12 f <> k1 ->
  0 <= p < 2 ^ 14 -> 0 <= v < 2 ^ 14 -> kmul (decodes12 e) (kpw (decodes12 f) p) = kpw (decodes12 f) v ->
  exists d, kangaroo e f = Some d /\ (d = 0 \/ d = p - v \/ (200 < p - v /\ Z.abs d < p - v)).
Proof.
  intros e f p v BE BF LE LF R N P V H. destruct (proj1 (ok_ex _ _) (kang_ok e f BE BF LE LF (r_cyc _ R))) as (d & ED & C). exists d. split; [exact ED|]. clear ED BE BF LE LF.
  revert R N H C. generalize (decodes12 e) (decodes12 f). intros E x R N H C. destruct C as [C|[C|C]]; [left; exact C|right; left|right; right].
  - destruct C as (dm & dn & DM & DN & -> & _ & Q).
    assert (G : kpw x (v + dm) = kpw x (dn + p)). { rewrite (kpw_add x v dm), (kpw_add x dn p) by lia. rewrite <- H, <- Q. ring. }
    apply (mu_eq x _ _ N R) in G; [|lia|lia]. apply small_mod in G; lia.
  - destruct C as (dm & dn & DM & DN & -> & Q).
    assert (G : kpw x (v + (dm + dn)) = kpw x p). { rewrite (kpw_add x v (dm + dn)) by lia. rewrite <- H. transitivity (kmul (kmul E (kpw x (dm + dn))) (kpw x p)); [ring|]. rewrite Q. ring. }
    apply (mu_eq x _ _ N R) in G; [|lia|lia]. apply small_mod in G; lia.
Qed.
(* FP12 as bytes *)
Lemma fp12_bytes : forall a, fp12_wf 31 33554432 a -> exists bs b, fp12_tobytes a = Some bs /\ bytes bs /\ length bs = 576%nat /\ decodes12 bs = fp12_val a /\
  fp12_frombytes bs = Some b /\ fp12_wf 1 2 b /\ fp12_val b = fp12_val a.
Proof.
  intros a W. pose proof (fp12_R _ _ _ W) as R. destruct (proj1 (ok_ex _ _) (fp12_tobytes_ok 31 33554432 _ a R ltac:(lia) ltac:(lia))) as (bs & E & B & L & D).
  pose proof (D []) as D0. rewrite app_nil_r in D0. destruct (ok_val _ _ _ _ (fp12_from bs B ltac:(lia))) as (b & F & WB & VB). exists bs, b.
  split; [exact E|]. split; [exact B|]. split; [exact L|]. split; [exact D0|]. split; [exact F|]. split; [exact WB|]. rewrite VB. exact D0.
Qed.
Lemma fp12_read : forall w, bytes w -> if (length w <? 576)%nat then fp12_frombytes w = None else exists b, fp12_frombytes w = Some b /\ fp12_wf 1 2 b /\ fp12_val b = decodes12 w.
Proof.
  intros w B. destruct (Nat.ltb_spec (length w) 576) as [L|L].
  - unfold fp12_frombytes. destruct (Nat.ltb_spec (length w) 576); [reflexivity|lia].
  - exact (ok_val _ _ _ _ (fp12_from w B L)).
Qed.
