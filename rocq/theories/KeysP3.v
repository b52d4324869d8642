(* Key properties in the form in which PropsKeys states them. *)
From Coq Require Import ZArith List Bool Lia Permutation.
From Verif Require Import Prim Rom Big Fp Ecp Utils Api PrimP BigP SpecBytes NumT FieldQ FieldQ2 FpP
  SkP SpecCurve CurveP GroupP JacobiM Fp2P Sqrt2P EcpP EcpC Denote GenP KeysP KeysP2.
Import ListNotations.
Open Scope Z_scope.

Lemma gap_big v : flag_gap v -> q381 < 2 * v.
Proof.
  unfold flag_gap. pose proof q_bounds as QB. change (2 ^ 376) with (256 * 2 ^ 368) in *. change (2 ^ 375) with (128 * 2 ^ 368) in *.
  assert (0 < 2 ^ 368) by reflexivity. set (P := 2 ^ 368) in *. clearbody P. lia.
Qed.
Lemma half_01 v : 0 <= v < q381 -> 2 * v / q381 = if q381 <=? 2 * v then 1 else 0.
Proof.
  intros V. destruct (Z.leb_spec q381 (2 * v)); [|apply Z.div_small; lia].
  symmetry. apply (Z.div_unique_pos (2 * v) q381 1 (2 * v - q381)); lia.
Qed.
Lemma flags_differ v : 0 < v < q381 -> (a_flag_code v <> a_flag_code (q381 - v) <-> ~ flag_gap v /\ ~ flag_gap (q381 - v)).
Proof.
  intros V. pose proof (flag_doc v ltac:(lia)) as D1. pose proof (flag_doc (q381 - v) ltac:(lia)) as D2.
  pose proof (gap_big v) as G1. pose proof (gap_big (q381 - v)) as G2. rewrite half_01 in D1 by lia. rewrite half_01 in D2 by lia.
  assert (ODD : q381 <> 2 * v) by (pose proof q381_odd as O1; intros C; rewrite C, Z.mul_comm, Z.mod_mul in O1; lia).
  pose proof (a_flag_01 v) as A1. pose proof (a_flag_01 (q381 - v)) as A2.
  destruct (Z.leb_spec q381 (2 * v)), (Z.leb_spec q381 (2 * (q381 - v))); try lia.
  - assert (N2 : ~ flag_gap (q381 - v)) by (intros C; apply G2 in C; lia). pose proof (proj2 D2 N2) as V2. rewrite V2. split.
    + intros C. split; [apply D1; lia|exact N2].
    + intros [C _]. apply D1 in C. lia.
  - assert (N1 : ~ flag_gap v) by (intros C; apply G1 in C; lia). pose proof (proj2 D1 N1) as V1. rewrite V1. split.
    + intros C. split; [exact N1|apply D2; lia].
    + intros [_ C]. apply D2 in C. lia.
Qed.
Lemma fv_opp y : y <> f0 -> fv (fopp y) = q381 - fv y.
Proof.
  intros N. pose proof (fv_range y) as R. assert (fv y <> 0) by (intros C; apply N, fv_zero, C).
  rewrite <- (mkq_fv y) at 1. rewrite <- mkq_opp, fv_mkq. symmetry. apply (Z.mod_unique_pos _ _ (-1)); lia.
Qed.
(* which keys survive encoding and decoding *)
Definition ambiguous (y : Fq) : Prop := flag_gap (fv y) \/ flag_gap (fv (fopp y)).
Lemma round_trip_exact : forall a, adm a -> exists bs pk' r, pk_as_bytes a = Some bs /\ pk_from_bytes bs = Some (Ok pk') /\
  pk_eq pk' a = Some r /\
  (r = true <-> match ecp_pt a with Inf => True | Aff x y => ~ ambiguous y \/ exists t, y = fmul t t end) /\
  (ecp_pt pk' = ecp_pt a \/ ecp_pt pk' = pneg1 (ecp_pt a)).
Proof.
  intros a A. destruct (compressed_round_trip a A) as (bs & pk' & E & D & A' & RT & RN).
  destruct (pk_eq_ok pk' a A' A) as (r & ER & R). exists bs, pk', r. split; [exact E|]. split; [exact D|]. split; [exact ER|].
  split; [|exact RN]. rewrite R, RT. pose proof (adm_on _ A) as ON. destruct (ecp_pt a) as [|x y]; [reflexivity|].
  pose proof (on1_y _ _ ON) as YN. pose proof (fv_range y). assert (fv y <> 0) by (intros C; apply YN, fv_zero, C).
  unfold ambiguous, is_sq. rewrite fv_opp by exact YN. rewrite flags_differ by lia. tauto.
Qed.
Lemma round_trip_partial : forall a, adm a ->
  match ecp_pt a with Inf => True | Aff x y => ~ ambiguous y end ->
  exists bs pk', pk_as_bytes a = Some bs /\ pk_from_bytes bs = Some (Ok pk') /\ pk_eq pk' a = Some true.
Proof.
  intros a A H. destruct (round_trip_exact a A) as (bs & pk' & r & E & D & ER & R & _). exists bs, pk'.
  split; [exact E|]. split; [exact D|]. rewrite ER. f_equal. apply R. destruct (ecp_pt a); auto.
Qed.
(* what fraction of values is affected: fewer than one in 2^11 *)
Lemma gap_range v : flag_gap v -> 13 * 2 ^ 376 < v < 27 * 2 ^ 375 + 2 ^ 368.
Proof.
  unfold flag_gap. pose proof q_bounds as QB. change (2 ^ 376) with (256 * 2 ^ 368) in *. change (2 ^ 375) with (128 * 2 ^ 368) in *.
  assert (0 < 2 ^ 368) by reflexivity. set (P := 2 ^ 368) in *. clearbody P. lia.
Qed.
Lemma flag_bit : forall a x y, adm a -> ecp_pt a = Aff x y -> exists bs, pk_as_bytes a = Some bs /\
  (Z.b2z (Z.testbit (be_int bs) 381) = 2 * fv y / q381 <-> ~ flag_gap (fv y)).
Proof.
  intros a x y A P. destruct (as_bytes_ok a A) as (bs & E & C). rewrite P in C. destruct C as (xv & _ & XR & _ & ->).
  eexists. split; [exact E|]. pose proof q381_b381 as QB. rewrite g1_code_int by lia.
  destruct (g1_code_parts xv (a_flag_code (fv y)) ltac:(lia) (a_flag_01 _)) as (_ & _ & P3 & _).
  rewrite <- flag_doc by apply fv_range. rewrite (Z.testbit_spec' _ 381) by lia. rewrite P3. reflexivity.
Qed.
Lemma flag_bit_partial : forall a x y, adm a -> ecp_pt a = Aff x y -> ~ flag_gap (fv y) ->
  exists bs, pk_as_bytes a = Some bs /\ Z.b2z (Z.testbit (be_int bs) 381) = 2 * fv y / q381.
Proof. intros a x y A P G. destruct (flag_bit a x y A P) as (bs & E & F). exists bs. split; [exact E|apply F, G]. Qed.
Lemma flag_bit_refuted : exists b sk pk bs x y, bytes b /\ sk_from_bytes b = Some (Ok sk) /\ pk_from_secret_key sk = Some pk /\
  ecp_pt pk = Aff x y /\ pk_as_bytes pk = Some bs /\ 2 * fv y / q381 = 1 /\ Z.testbit (be_int bs) 381 = false.
Proof.
  destruct (sk_from_bytes_ok sk3035 (be_bytes_bytes _ _) (be_bytes_length _ _)) as (sk & E & _).
  destruct (derive sk3035 sk (be_bytes_bytes _ _) E) as (pk & EP & A & P).
  change (be_int sk3035) with 3035 in P. rewrite <- chain3035 in P. unfold aff in P.
  destruct (as_bytes_ok pk A) as (bs & EB & C). rewrite P in C. destruct C as (xv & _ & XR & _ & C). pose proof q381_b381 as QB.
  exists sk3035, sk, pk, bs. do 2 eexists. split; [apply be_bytes_bytes|]. split; [exact E|]. split; [exact EP|]. split; [exact P|].
  split; [exact EB|]. destruct y3035_flag as (F1 & _ & F3). split; [exact F3|].
  assert (IV : be_int bs = xv + a_flag_code (fv (mkq (snd P3035))) * 2 ^ 381 + 2 ^ 383) by (rewrite C; apply g1_code_int; lia).
  destruct (g1_code_parts xv (a_flag_code (fv (mkq (snd P3035)))) ltac:(lia) (a_flag_01 _)) as (_ & _ & P3 & _).
  rewrite <- IV, F1 in P3. pose proof (Z.testbit_true (be_int bs) 381 ltac:(lia)) as T.
  destruct (Z.testbit (be_int bs) 381); [exfalso|reflexivity]. assert ((be_int bs / 2 ^ 381) mod 2 = 1) by (apply T; reflexivity). lia.
Qed.
Lemma unc_round_trip_eq : forall a, adm a -> exists bs a' pk', pk_as_uncompressed_bytes a = Some (bs, a') /\
  pk_from_uncompressed_bytes bs = Some (Ok pk') /\ pk_eq pk' a = Some true /\ pk_eq a' a = Some true.
Proof.
  intros a A. destruct (unc_round_trip a A) as (bs & a' & pk' & E & D & A' & P). destruct (as_unc_ok a A) as (bs' & a'' & E' & W & P' & _).
  rewrite E in E'. injection E' as <- <-.
  exists bs, a', pk'. split; [exact E|]. split; [exact D|]. split.
  - destruct (pk_eq_ok pk' a A' A) as (r & ER & R). rewrite ER. f_equal. apply R, P.
  - destruct (pk_eq_ok a' a W A) as (r & ER & R). rewrite ER. f_equal. apply R, P'.
Qed.
Lemma canonical_partial : forall bs pk, bytes bs -> pk_from_bytes bs = Some (Ok pk) ->
  be_int bs mod 2 ^ 381 < q381 ->
  match ecp_pt pk with Inf => True | Aff x y => ~ ambiguous y end -> pk_as_bytes pk = Some bs.
Proof.
  intros bs pk B D XR AM. destruct (ecp_pt pk) as [|x y] eqn:P.
  - pose proof (built_adm _ (pkb_bytes _ _ B D)) as A. rewrite (as_bytes_inf pk A P). f_equal.
    symmetry. rewrite g1_inf_eq. apply (infinity_encoding bs B). exists pk. auto.
  - apply (recode bs pk x y B D P). split; [lia|]. pose proof (decoded_len bs pk D) as L.
    destruct (decoded bs pk B D) as (C & [(_ & _ & R)|(I0 & SQ & F & LZ)]); [apply ecpR_pt in R; congruence|].
    set (v := be_int bs) in *. set (x' := mkq (v mod 2 ^ 381)) in *.
    pose proof (dec_y1_on x' ((v / 2 ^ 381) mod 2) SQ) as DO.
    pose proof (ecpR_pt _ _ _ _ (ecpF_R 3 _ _ _ ltac:(lia) DO F)) as P2. rewrite P in P2. apply Aff_inj2 in P2. rewrite P2 in AM |- *.
    pose proof (on1_y _ _ DO) as YN. set (y' := dec_y1 x' ((v / 2 ^ 381) mod 2)) in *.
    assert (DF : a_flag_code (fv y') <> a_flag_code (fv (fopp y'))).
    { rewrite fv_opp by exact YN. pose proof (fv_range y'). assert (fv y' <> 0) by (intros G; apply YN, fv_zero, G).
      apply flags_differ; [lia|]. unfold ambiguous in AM. rewrite fv_opp in AM by exact YN. tauto. }
    revert DF. unfold y', dec_y1. pose proof (Z.mod_pos_bound (v / 2 ^ 381) 2 ltac:(lia)).
    pose proof (a_flag_01 (fv (fsqrt (rhs1 x')))). pose proof (a_flag_01 (fv (fopp (fsqrt (rhs1 x'))))).
    assert (OO : fopp (fopp (fsqrt (rhs1 x'))) = fsqrt (rhs1 x')) by ring.
    match goal with |- context [if ?c then _ else _] => destruct c eqn:G end; rewrite ?OO; intros DF;
    (apply Z.eqb_eq in G || apply Z.eqb_neq in G || idtac); try (apply negb_true_iff, Z.eqb_neq in G); try (apply negb_false_iff, Z.eqb_eq in G); lia.
Qed.
Lemma unc_canonical_partial : forall bs pk, bytes bs -> pk_from_uncompressed_bytes bs = Some (Ok pk) ->
  be_int (firstn 48 bs) < q381 -> be_int (skipn 48 bs) < q381 ->
  exists pk', pk_as_uncompressed_bytes pk = Some (bs, pk').
Proof.
  intros bs pk B D U V. destruct (ecp_pt pk) as [|x y] eqn:P.
  - pose proof (built_adm _ (pkb_unc _ _ B D)) as A. destruct (as_unc_ok pk A) as (cs & a' & E & _ & _ & C). rewrite P in C.
    destruct (unc_class bs B) as (r & R & _ & C1 & C2). pose proof (decoded_unc_len bs pk D) as L.
    rewrite D in R. injection R as <-.
    exists a'. rewrite E, C. f_equal. f_equal. destruct (decoded_unc bs pk B D) as [(U0 & V0 & _)|(_ & ON & F & _)].
    + apply be_int_inj; [apply be_bytes_bytes|exact B|rewrite be_bytes_length; auto|].
      rewrite <- (firstn_skipn 48 bs) at 1. rewrite be_int_app, U0, V0. reflexivity.
    + pose proof (ecpR_pt _ _ _ _ (ecpF_R 2 _ _ _ ltac:(lia) ON F)) as P2. congruence.
  - apply (unc_recode bs pk x y B D P). lia.
Qed.
Lemma canonical_refuted : exists bs pk cs, bytes bs /\ pk_from_bytes bs = Some (Ok pk) /\ pk_as_bytes pk = Some cs /\ cs <> bs.
Proof.
  destruct witness_noncanonical as (pk1 & pk2 & _ & D & _ & _ & _ & N).
  pose proof (built_adm _ (pkb_bytes _ _ (be_bytes_bytes _ _) D)) as A. destruct (as_bytes_ok pk2 A) as (cs & E & _).
  exists b4q, pk2, cs. split; [apply be_bytes_bytes|]. split; [exact D|]. split; [exact E|]. congruence.
Qed.
Lemma two_encodings_refuted : exists bs1 bs2 pk1 pk2, bytes bs1 /\ bytes bs2 /\ bs1 <> bs2 /\ pk_from_bytes bs1 = Some (Ok pk1) /\
  pk_from_bytes bs2 = Some (Ok pk2) /\ pk_eq pk1 pk2 = Some true.
Proof.
  destruct witness_noncanonical as (pk1 & pk2 & D1 & D2 & N & E & _). exists b4, b4q, pk1, pk2.
  split; [apply be_bytes_bytes|]. split; [apply be_bytes_bytes|]. split; [exact N|]. split; [exact D1|]. split; [exact D2|exact E].
Qed.
Lemma unc_canonical_refuted : exists bs pk, bytes bs /\ pk_from_uncompressed_bytes bs = Some (Ok pk) /\
  forall pk', pk_as_uncompressed_bytes pk <> Some (bs, pk').
Proof.
  destruct witness_unc_noncanonical as (pk & D & N). exists b4unc, pk. split; [|auto].
  apply Forall_app; split; apply be_bytes_bytes.
Qed.
Lemma round_trip_refuted : exists b sk pk bs pk', bytes b /\ sk_from_bytes b = Some (Ok sk) /\ pk_from_secret_key sk = Some pk /\
  pk_as_bytes pk = Some bs /\ pk_from_bytes bs = Some (Ok pk') /\ pk_eq pk' pk = Some false.
Proof.
  destruct witness_3035 as (sk & pk & bs & pk' & r & A1 & A2 & A3 & A4 & A5 & A6 & _). subst r.
  exists sk3035, sk, pk, bs, pk'. split; [apply be_bytes_bytes|]. split; [exact A1|]. split; [exact A2|]. split; [exact A3|].
  split; [exact A4|exact A5].
Qed.
Lemma serialization_refuted :
  (exists pk1 pk2 bs1 bs2, pk_built pk1 /\ pk_built pk2 /\ pk_eq pk1 pk2 = Some true /\
     pk_as_bytes pk1 = Some bs1 /\ pk_as_bytes pk2 = Some bs2 /\ bs1 <> bs2) /\
  (exists pk1 pk2 bs, pk_built pk1 /\ pk_built pk2 /\ pk_as_bytes pk1 = Some bs /\ pk_as_bytes pk2 = Some bs /\
     pk_eq pk1 pk2 = Some false).
Proof.
  split.
  - destruct witness_equal_differ as (pk1 & pk2 & bs1 & bs2 & D1 & D2 & E & A1 & A2 & N). exists pk1, pk2, bs1, bs2.
    assert (BA : bytes b0a) by (apply Forall_app; split; apply be_bytes_bytes).
    assert (BB : bytes b0b) by (apply Forall_app; split; apply be_bytes_bytes).
    split; [exact (pkb_unc _ _ BA D1)|]. split; [exact (pkb_unc _ _ BB D2)|]. auto.
  - destruct witness_3035 as (sk & pk & bs & pk' & r & A1 & A2 & A3 & A4 & A5 & A6 & _ & A7). subst r. exists pk', pk, bs.
    assert (BP : pk_built pk) by (eapply pkb_secret; [apply be_bytes_bytes|exact A1|exact A2]).
    destruct (encoded_shape pk (built_adm _ BP)) as (cs & EC & BC & _). rewrite A3 in EC. injection EC as <-.
    split; [exact (pkb_bytes _ _ BC A4)|]. auto.
Qed.
Lemma serialization_partial : forall a b, adm a -> adm b ->
  ((forall y, ecp_pt a <> Aff f0 y) -> pk_eq a b = Some true -> pk_as_bytes a = pk_as_bytes b) /\
  (match ecp_pt a with Inf => True | Aff x y => ~ ambiguous y end -> pk_as_bytes a = pk_as_bytes b -> pk_eq a b = Some true).
Proof.
  intros a b A B. destruct (pk_eq_ok a b A B) as (r & ER & R). split.
  - intros NZ E. apply equal_same_bytes; [exact A|exact B| |exact NZ]. apply R. congruence.
  - intros AM E. rewrite ER. f_equal. apply R. destruct (as_bytes_ok a A) as (bs & EA & CA). rewrite EA in E.
    destruct (as_bytes_ok b B) as (cs & EB & CB). rewrite EB in E. injection E as ->.
    pose proof (same_bytes a b _ A B EA EB) as SB. pose proof (adm_on _ A) as ON.
    destruct SB as [SB|SB]; [exact SB|]. destruct (ecp_pt b) as [|x y]; [exact SB|]. cbn [pneg] in SB. rewrite SB in *.
    pose proof (on1_y _ _ ON) as YN. destruct CA as (x1 & _ & XR1 & _ & C1). destruct CB as (x2 & _ & XR2 & _ & C2).
    rewrite C2 in C1. apply (f_equal be_int) in C1. pose proof q381_b381 as QB. rewrite !g1_code_int in C1 by lia.
    assert (FE : a_flag_code (fv (fopp y)) = a_flag_code (fv y)).
    { destruct (a_flag_01 (fv (fopp y))) as [G1|G1], (a_flag_01 (fv y)) as [G2|G2]; rewrite G1, G2 in *; lia. }
    exfalso. unfold ambiguous in AM. assert (OO : fopp (fopp y) = y) by ring. rewrite OO in AM.
    set (z := fopp y) in *. assert (ZN : fv y = q381 - fv z) by (rewrite <- OO; apply fv_opp, YN). rewrite ZN in *.
    pose proof (fv_range z). assert (fv z <> 0) by (intros C; apply YN, fv_zero, C).
    destruct (flags_differ (fv z) ltac:(lia)) as [_ FD]. apply FD; [tauto|exact FE].
Qed.
Lemma subgroup_refuted : exists bs pk, bytes bs /\ pk_from_bytes bs = Some (Ok pk) /\ nmul1 (Z.to_nat r255) (ecp_pt pk) <> Inf.
Proof.
  destruct witness_subgroup as (pk & D & N). exists (128 :: repeat 0 47), pk. split.
  { assert (E : 128 :: repeat 0 47 = be_bytes 48 (2 ^ 383)) by (vm_compute; reflexivity). rewrite E. apply be_bytes_bytes. }
  split; [exact D|]. rewrite <- zm1_nmul by (vm_compute; discriminate). exact N.
Qed.
(* keys derived from secret keys, and sums of them, are in the group of order r *)
Inductive honest_key : ECP -> Prop :=
| hk_secret : forall b sk pk, bytes b -> sk_from_bytes b = Some (Ok sk) -> pk_from_secret_key sk = Some pk -> honest_key pk
| hk_new : forall pk, apk_new = Some pk -> honest_key pk
| hk_add : forall a k pk, honest_key a -> honest_key k -> apk_add a k = Some pk -> honest_key pk.
Lemma honest_mult pk : honest_key pk -> adm pk /\ exists k, ecp_pt pk = zm1 k G1gen.
Proof.
  induction 1 as [b sk pk B D P|pk E|a k pk H1 [A1 [k1 P1]] H2 [A2 [k2 P2]] E].
  - destruct (derive b sk B D) as (p & EP & A & PP). rewrite P in EP. injection EP as <-. split; [exact A|]. eexists. exact PP.
  - destruct apk_new_adm as (a & EA & A & P). rewrite E in EA. injection EA as <-. split; [exact A|]. exists 0. exact P.
  - destruct (apk_add_adm a k A1 A2) as (s & ES & A & P). rewrite E in ES. injection ES as <-. split; [exact A|].
    exists (k1 + k2). rewrite P, P1, P2. symmetry. apply zm1_add, G1gen_on.
Qed.
Lemma honest_order : forall pk, honest_key pk -> nmul1 (Z.to_nat r255) (ecp_pt pk) = Inf.
Proof.
  intros pk H. destruct (honest_mult pk H) as [_ [k P]]. rewrite <- zm1_nmul by (vm_compute; discriminate).
  rewrite P, <- zm1_mul, Z.mul_comm, zm1_mul, G1gen_order, zm1_zero by exact G1gen_on. reflexivity.
Qed.
(* totals *)
Lemma built_total : forall a k, adm a -> adm k -> exists s, apk_add a k = Some s /\ adm s.
Proof. intros a k A K. destruct (apk_add_adm a k A K) as (s & E & S1 & _). exists s. auto. Qed.
Lemma equality_denotes : forall a b, adm a -> adm b -> exists r, pk_eq a b = Some r /\ (r = true <-> ecp_pt a = ecp_pt b).
Proof. exact pk_eq_ok. Qed.
