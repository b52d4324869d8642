(* Public keys and aggregate public keys: derivation, codecs, equality and
   aggregation, for every key the public interface can produce. *)
From Coq Require Import ZArith List Bool Lia Znumtheory Permutation.
From Verif Require Import Prim Rom Big Fp Ecp Utils Api PrimP BigP BigP2 SpecBytes BigP3 BigP4 BigP5 NumT FieldQ FieldQ2 FpP FpP2
  SkP SpecCurve CurveP GroupP JacobiM JacP Fp2P Sqrt2P WinP EcpP EcpC Ecp2P Denote GenP.
Import ListNotations.
Open Scope Z_scope.

(* the keys the public interface can produce *)
Inductive pk_built : ECP -> Prop :=
| pkb_secret : forall b sk pk, bytes b -> sk_from_bytes b = Some (Ok sk) -> pk_from_secret_key sk = Some pk -> pk_built pk
| pkb_bytes : forall b pk, bytes b -> pk_from_bytes b = Some (Ok pk) -> pk_built pk
| pkb_unc : forall b pk, bytes b -> pk_from_uncompressed_bytes b = Some (Ok pk) -> pk_built pk
| pkb_after_unc : forall pk b pk', pk_built pk -> pk_as_uncompressed_bytes pk = Some (b, pk') -> pk_built pk'
| pkb_new : forall pk, apk_new = Some pk -> pk_built pk
| pkb_add : forall a k pk, pk_built a -> pk_built k -> apk_add a k = Some pk -> pk_built pk
| pkb_add_agg : forall a k pk, pk_built a -> pk_built k -> apk_add_aggregate a k = Some pk -> pk_built pk.

Lemma ok_some {A} (m : option A) P a : ok m P -> m = Some a -> P a.
Proof. intros H E. rewrite E in H. exact H. Qed.
Lemma ok_ex {A} (m : option A) P : ok m P -> exists a, m = Some a /\ P a.
Proof. destruct m as [a|]; cbn [ok]; [intros H; exists a; auto|contradiction]. Qed.

Lemma gx_rep : rep 7 CURVE_GX GXZ.
Proof. split; [reflexivity|]. split; [repeat (constructor; [lia|]); constructor|exact GX_val]. Qed.
Lemma gy_rep : rep 7 CURVE_GY GYZ.
Proof. split; [reflexivity|]. split; [repeat (constructor; [lia|]); constructor|exact GY_val]. Qed.
Lemma ecp_generator_ok : ok ecp_generator (ecpR 1 2 G1gen).
Proof.
  unfold ecp_generator. eapply ok_impl; [apply (ecp_new_bigs_ok _ _ _ _ gx_rep gy_rep)|]. intros a [A _].
  destruct (A G1gen_on) as [F _]. apply (ecpF_R 2 _ _ _ ltac:(lia) G1gen_on F).
Qed.
Lemma sk_rep b sk : bytes b -> sk_from_bytes b = Some (Ok sk) -> length b = 48%nat /\ rep 7 sk (be_int b) /\ 0 <= be_int b < 2 ^ 384.
Proof.
  intros B H. destruct (Nat.eq_dec (length b) 48) as [L|L].
  - split; [exact L|]. destruct (sk_from_bytes_ok b B L) as (sk' & E & R). rewrite H in E. injection E as ->.
    split; [exact R|]. pose proof (be_int_range b B) as RG. rewrite L in RG. exact RG.
  - rewrite (proj1 (sk_length_check b B) L) in H. discriminate H.
Qed.
Lemma pk_sk_ok sk v : rep 7 sk v -> v < 2 ^ 384 -> ok (pk_from_secret_key sk) (ecpA 1 5 (zm1 v G1gen)).
Proof.
  intros R V. unfold pk_from_secret_key. eapply ok_bind; [apply ecp_generator_ok|]. intros g G.
  eapply ecp_mul_ok; [exact G|lia|lia|exact R|]. assert (2 ^ 384 + 2 <= 2 ^ 404) by (vm_compute; discriminate). lia.
Qed.
Lemma apk_add_ok l m E F p k a b : ecpR l E p a -> ecpR m F k b -> 1 <= l <= 8 -> 1 <= m <= 8 -> E <= 16777216 -> F <= 16777216 ->
  ok (apk_add a b) (ecpA 1 5 (padd1 p k)).
Proof.
  intros A B L M HE HF. unfold apk_add. eapply ok_bind; [eapply ecp_add_ok; [exact A|exact B|lia..]|]. intros s S1.
  eapply ecp_affine_ok; [exact S1|lia|lia].
Qed.
Lemma apk_add_aggregate_same a b : apk_add_aggregate a b = apk_add a b. Proof. reflexivity. Qed.

Lemma decoded_len b pk : pk_from_bytes b = Some (Ok pk) -> length b = 48%nat.
Proof.
  intros H. destruct (Nat.eq_dec (length b) 48) as [L|L]; [exact L|]. unfold pk_from_bytes in H.
  rewrite (decompress_g1_len b L) in H. discriminate H.
Qed.
Lemma decoded_unc_len b pk : pk_from_uncompressed_bytes b = Some (Ok pk) -> length b = 96%nat.
Proof.
  intros H. destruct (Nat.eq_dec (length b) 96) as [L|L]; [exact L|].
  rewrite (pk_from_unc_len b L) in H. discriminate H.
Qed.
Lemma sq_dec x : x <> f0 -> is_sq x \/ ~ is_sq x.
Proof. intros N. pose proof (sq_cases x) as SC. pose proof (sq_not_both x N) as SN. tauto. Qed.
(* what a successful decode gives *)
Lemma decoded b pk : bytes b -> pk_from_bytes b = Some (Ok pk) -> let v := be_int b in let x := mkq (v mod 2 ^ 381) in
  v / 2 ^ 383 = 1 /\
  (((v / 2 ^ 382) mod 2 = 1 /\ v mod 2 ^ 382 = 0 /\ ecpR 1 2 Inf pk) \/
   ((v / 2 ^ 382) mod 2 = 0 /\ is_sq (rhs1 x) /\ ecpF 3 x (dec_y1 x ((v / 2 ^ 381) mod 2)) pk /\
    (lval (fx (ex pk)) = 0 <-> v mod 2 ^ 381 = 0))).
Proof.
  intros B H v x. pose proof (decoded_len b pk H) as L.
  pose proof (decompress_g1_ok b v x B L eq_refl eq_refl) as D. unfold pk_from_bytes in H. rewrite H in D. cbn [ok] in D.
  destruct D as (D1 & D2 & D3 & D4 & D5).
  destruct (Z.eq_dec (v / 2 ^ 383) 1) as [C|C]; [|specialize (D1 C); discriminate D1]. split; [exact C|].
  destruct (Z.eq_dec ((v / 2 ^ 382) mod 2) 1) as [I1|I1].
  - left. destruct (Z.eq_dec (v mod 2 ^ 382) 0) as [Z0|Z0]; [|specialize (D2 C I1 Z0); discriminate D2].
    destruct (D3 C I1 Z0) as (a & E & A). injection E as <-. auto.
  - right. split; [pose proof (Z.mod_pos_bound (v / 2 ^ 382) 2); lia|].
    destruct (sq_dec (rhs1 x) (rhs1_nz x)) as [SQ|NS]; [|specialize (D4 C I1 NS); discriminate D4].
    destruct (D5 C I1 SQ) as (a & E & A & AZ). injection E as <-. auto.
Qed.
Lemma decoded_R b pk : bytes b -> pk_from_bytes b = Some (Ok pk) -> exists p, ecpR 1 3 p pk.
Proof.
  intros B H. destruct (decoded b pk B H) as (_ & [(_ & _ & R)|(_ & SQ & F & _)]).
  - exists Inf. eapply ecpR_weak; [exact R|lia|lia].
  - eexists. apply (ecpF_R 3 _ _ _ ltac:(lia) (dec_y1_on _ _ SQ) F).
Qed.
Lemma decoded_unc b pk : bytes b -> pk_from_uncompressed_bytes b = Some (Ok pk) ->
  let u := be_int (firstn 48 b) in let v := be_int (skipn 48 b) in
  (u = 0 /\ v = 0 /\ ecpR 1 2 Inf pk) \/
  (~ (u = 0 /\ v = 0) /\ on1 (Aff (mkq u) (mkq v)) /\ ecpF 2 (mkq u) (mkq v) pk /\ (lval (fx (ex pk)) = 0 <-> u = 0)).
Proof.
  intros B H u v. pose proof (decoded_unc_len b pk H) as L.
  pose proof (pk_from_unc_ok b u v B L eq_refl eq_refl) as D. rewrite H in D. cbn [ok] in D. destruct D as (D1 & D2 & D3).
  assert (DZ : (u = 0 /\ v = 0) \/ ~ (u = 0 /\ v = 0)) by lia. destruct DZ as [Z0|Z0].
  - left. destruct (D1 Z0) as (a & E & A). injection E as <-. tauto.
  - right. split; [exact Z0|]. destruct (on1_dec (Aff (mkq u) (mkq v))) as [ON|NO]; [|specialize (D2 Z0 NO); discriminate D2].
    destruct (D3 Z0 ON) as (a & E & A & AZ). injection E as <-. auto.
Qed.
Lemma ecpA_R5 p a : ecpA 1 5 p a -> ecpR 1 5 p a. Proof. apply ecpA_R; lia. Qed.
Lemma pk_built_R pk : pk_built pk -> exists p, ecpR 1 5 p pk.
Proof.
  induction 1 as [b sk pk B SK H|b pk B H|b pk B H|pk b pk' PB [p IH] H|pk H|a k pk PA [p A] PK [k1 K] H|a k pk PA [p A] PK [k1 K] H].
  - destruct (sk_rep b sk B SK) as (_ & R & V). eexists. apply ecpA_R5. exact (ok_some _ _ _ (pk_sk_ok sk _ R (proj2 V)) H).
  - destruct (decoded_R b pk B H) as [p P]. exists p. eapply ecpR_weak; [exact P|lia|lia].
  - destruct (decoded_unc b pk B H) as [(_ & _ & R)|(_ & ON & F & _)].
    + exists Inf. eapply ecpR_weak; [exact R|lia|lia].
    + exists (Aff (mkq (be_int (firstn 48 b))) (mkq (be_int (skipn 48 b)))).
      eapply ecpR_weak; [apply (ecpF_R 2 _ _ _ ltac:(lia) ON F)|lia|lia].
  - pose proof (ok_some _ _ _ (pk_as_unc_ok 1 5 p pk IH ltac:(lia) ltac:(lia)) H) as Q. cbv beta in Q. exists p.
    destruct p as [|x y]; [destruct Q as [_ ->]; exact IH|]. destruct Q as (a' & _ & A2 & _). apply ecpA_R5, A2.
  - exists Inf. pose proof (ok_some _ _ _ ecp_inf_ok H) as R. eapply ecpR_weak; [exact R|lia|lia].
  - exists (padd1 p k1). apply ecpA_R5. exact (ok_some _ _ _ (apk_add_ok 1 1 5 5 p k1 a k A K ltac:(lia) ltac:(lia) ltac:(lia) ltac:(lia)) H).
  - exists (padd1 p k1). apply ecpA_R5. exact (ok_some _ _ _ (apk_add_ok 1 1 5 5 p k1 a k A K ltac:(lia) ltac:(lia) ltac:(lia) ltac:(lia)) H).
Qed.
Lemma pk_built_wf pk : pk_built pk -> ecp_wf 1 5 pk.
Proof. intros H. destruct (pk_built_R pk H) as [p P]. apply ecpR_wf_pt in P. apply P. Qed.

(* ------------------------- encodings ---------------------------------- *)
(* admissible keys in general: any projective representation within bounds *)
Definition adm (a : ECP) : Prop := ecp_wf 8 16777216 a.
Lemma built_adm a : pk_built a -> adm a.
Proof. intros H. eapply ecp_wf_weak; [apply pk_built_wf; exact H|lia|lia]. Qed.
Lemma adm_R a : adm a -> ecpR 8 16777216 (ecp_pt a) a. Proof. apply ecp_wf_R. Qed.

(* the bytes written for an affine point: canonical, except that x = 0 may be
   written as q *)
Definition g1_code (x y : Z) : list Z := be_bytes 48 (x + a_flag_code y * 2 ^ 381 + 2 ^ 383).
Lemma as_bytes_ok a : adm a -> exists bs, pk_as_bytes a = Some bs /\ match ecp_pt a with
  | Inf => bs = g1_inf_bytes
  | Aff x y => exists xv, mkq xv = x /\ 0 <= xv <= q381 /\ (x <> f0 -> xv = fv x) /\ bs = g1_code xv (fv y)
  end.
Proof.
  intros A. pose proof (adm_R a A) as R. pose proof (compress_g1_ok _ _ _ _ R ltac:(lia) ltac:(lia)) as C.
  apply ok_ex in C. destruct C as ([bs a'] & E & C). exists bs. unfold pk_as_bytes. rewrite E. cbn [bind]. split; [reflexivity|].
  destruct (ecp_pt a) as [|x y]; [apply C|]. destruct C as [_ C]. exists (rval x (ex a')).
  split; [apply rval_mkq|]. split; [apply rval_range|]. split; [apply rval_nz|exact C].
Qed.
Lemma as_unc_ok a : adm a -> exists bs a', pk_as_uncompressed_bytes a = Some (bs, a') /\ ecp_wf 8 16777216 a' /\ ecp_pt a' = ecp_pt a /\ match ecp_pt a with
  | Inf => bs = be_bytes 96 0
  | Aff x y => exists xv, mkq xv = x /\ 0 <= xv <= q381 /\ (x <> f0 -> xv = fv x) /\ bs = be_bytes 48 xv ++ be_bytes 48 (fv y)
  end.
Proof.
  intros A. pose proof (adm_R a A) as R. pose proof (pk_as_unc_ok _ _ _ _ R ltac:(lia) ltac:(lia)) as C.
  apply ok_ex in C. destruct C as ([bs a2] & E & C). exists bs, a2. split; [exact E|].
  destruct (ecp_pt a) as [|x y] eqn:P.
  - destruct C as [C ->]. split; [exact A|]. split; [exact P|exact C].
  - destruct C as (a' & _ & A2 & _ & C). apply ecpA_R in A2; [|lia|lia]. apply ecpR_wf_pt in A2. destruct A2 as [W2 P2].
    split; [exact W2|]. split; [exact P2|]. exists (rval x (ex a')).
    split; [apply rval_mkq|]. split; [apply rval_range|]. split; [apply rval_nz|exact C].
Qed.
Lemma g1_code_bytes x y : bytes (g1_code x y). Proof. apply be_bytes_bytes. Qed.
Lemma g1_code_len x y : length (g1_code x y) = 48%nat. Proof. apply be_bytes_length. Qed.
Lemma g1_code_int x y : 0 <= x < 2 ^ 381 -> be_int (g1_code x y) = x + a_flag_code y * 2 ^ 381 + 2 ^ 383.
Proof. intros X. unfold g1_code. apply be_int_48. destruct (a_flag_01 y) as [-> | ->]; lia. Qed.
Lemma g1_code_parts x f : 0 <= x < 2 ^ 381 -> f = 0 \/ f = 1 -> let v := x + f * 2 ^ 381 + 2 ^ 383 in
  v / 2 ^ 383 = 1 /\ (v / 2 ^ 382) mod 2 = 0 /\ (v / 2 ^ 381) mod 2 = f /\ v mod 2 ^ 381 = x.
Proof.
  intros X F v. assert (V1 : v = (f + 4) * 2 ^ 381 + x) by (unfold v; lia).
  assert (D1 : v / 2 ^ 381 = f + 4) by (rewrite V1, Z.div_add_l, Z.div_small by lia; lia).
  assert (M1 : v mod 2 ^ 381 = x) by (rewrite V1, Z.add_comm, Z.mod_add by lia; apply Z.mod_small; lia).
  change (2 ^ 383) with (2 ^ 381 * 4). change (2 ^ 382) with (2 ^ 381 * 2). rewrite <- !Z.div_div by lia. rewrite D1.
  split; [destruct F as [-> | ->]; reflexivity|]. split; [destruct F as [-> | ->]; reflexivity|].
  split; [destruct F as [-> | ->]; reflexivity|exact M1].
Qed.
Lemma Aff_inj2 {T} (x y x' y' : T) : Aff x y = Aff x' y' -> y = y'. Proof. intros E. injection E. auto. Qed.
Lemma Aff_inj1 {T} (x y x' y' : T) : Aff x y = Aff x' y' -> x = x'. Proof. intros E. injection E. auto. Qed.
(* decoding what was written *)
Lemma fsqrt_is_sq x : is_sq x -> is_sq (fsqrt x).
Proof. intros [y ->]. exists (fsqrt y). unfold fsqrt. apply fpw_mul_base. Qed.
Lemma fopp_nz y : y <> f0 -> fopp y <> f0.
Proof. intros N C. apply N. transitivity (fopp (fopp y)); [ring|]. rewrite C. ring. Qed.
Lemma root_square x y : on1 (Aff x y) -> (y = fsqrt (rhs1 x) <-> is_sq y).
Proof.
  intros ON. pose proof (on1_y _ _ ON) as YN. assert (SQ : is_sq (rhs1 x)) by (exists y; symmetry; apply on1_rhs, ON).
  pose proof (fsqrt_is_sq _ SQ) as S1. split; [intros ->; exact S1|]. intros S2.
  destruct (on1_two x y (fsqrt (rhs1 x)) ON (fsqrt_on x SQ)) as [E|E]; [auto|]. exfalso. rewrite E in S1.
  apply (sq_not_both y YN S2 S1).
Qed.
Lemma dec_y1_own x y : on1 (Aff x y) ->
  (dec_y1 x (a_flag_code (fv y)) = y <-> a_flag_code (fv y) <> a_flag_code (fv (fopp y)) \/ is_sq y).
Proof.
  intros ON. pose proof (on1_y _ _ ON) as YN. pose proof (root_square x y ON) as RS.
  assert (SQ : is_sq (rhs1 x)) by (exists y; symmetry; apply on1_rhs, ON). pose proof (fsqrt_on x SQ) as SO.
  assert (OO : fopp (fopp y) = y) by ring. assert (NE : fopp y <> y).
  { intros E. apply YN. assert (T : fmul (fadd f1 f1) y = f0) by (transitivity (fsub y (fopp y)); [ring|rewrite E; ring]).
    apply fq_integral in T. destruct T as [T|T]; [|exact T]. exfalso. exact (two_nz T). }
  unfold dec_y1. cbv zeta. destruct (on1_two x y (fsqrt (rhs1 x)) ON SO) as [E|E].
  - rewrite E, Z.eqb_refl. split; [intros _; right; apply RS; auto|reflexivity].
  - rewrite E. assert (NS : ~ is_sq y) by (intros C; apply RS in C; apply NE; rewrite <- E; auto).
    destruct (Z.eqb_spec (a_flag_code (fv (fopp y))) (a_flag_code (fv y))) as [FE|FE].
    + split; [intros C; contradiction|]. intros [C|C]; [exfalso; apply C; auto|contradiction].
    + rewrite OO. split; [intros _; left; auto|reflexivity].
Qed.
Lemma compressed_round_trip a : adm a -> exists bs pk', pk_as_bytes a = Some bs /\ pk_from_bytes bs = Some (Ok pk') /\
  adm pk' /\ (ecp_pt pk' = ecp_pt a <->
     match ecp_pt a with Inf => True | Aff x y => a_flag_code (fv y) <> a_flag_code (fv (fopp y)) \/ is_sq y end) /\
  (ecp_pt pk' = ecp_pt a \/ ecp_pt pk' = pneg1 (ecp_pt a)).
Proof.
  intros A. destruct (as_bytes_ok a A) as (bs & E & C). exists bs. pose proof A as (_ & _ & _ & ON & _).
  destruct (ecp_pt a) as [|x y].
  - assert (D := decompress_g1_ok g1_inf_bytes _ _ (be_bytes_bytes _ _) (be_bytes_length _ _) eq_refl eq_refl).
    assert (IV : be_int g1_inf_bytes = 2 ^ 383 + 2 ^ 382) by (apply be_int_48; lia). rewrite IV in D.
    apply ok_ex in D. destruct D as (r & R & _ & _ & D & _). destruct D as (a' & -> & A'); [reflexivity|reflexivity|reflexivity|].
    exists a'. split; [exact E|]. rewrite C. split; [exact R|]. apply ecpR_wf_pt in A'. destruct A' as [W P].
    split; [eapply ecp_wf_weak; [exact W|lia|lia]|]. rewrite P. tauto.
  - destruct C as (xv & XV & XR & _ & C). pose proof q381_b381 as QB.
    assert (X1 : 0 <= xv < 2 ^ 381) by lia. pose proof (g1_code_int xv (fv y) X1) as IV.
    destruct (g1_code_parts xv (a_flag_code (fv y)) X1 (a_flag_01 _)) as (P1 & P2 & P3 & P4). rewrite <- IV in P1, P2, P3, P4.
    pose proof (decompress_g1_ok (g1_code xv (fv y)) _ _ (g1_code_bytes _ _) (g1_code_len _ _) eq_refl eq_refl) as D.
    rewrite P4, XV in D. assert (SQ : is_sq (rhs1 x)) by (exists y; symmetry; apply on1_rhs, ON).
    apply ok_ex in D. destruct D as (r & R & _ & _ & _ & _ & D). destruct D as (a' & -> & A' & _); [exact P1|lia|exact SQ|].
    rewrite P3 in A'. exists a'. split; [exact E|]. rewrite C. split; [exact R|].
    pose proof (dec_y1_on x (a_flag_code (fv y)) SQ) as DO.
    pose proof (ecpF_R 3 _ _ _ ltac:(lia) DO A') as RR. apply ecpR_wf_pt in RR. destruct RR as [W P].
    split; [eapply ecp_wf_weak; [exact W|lia|lia]|]. rewrite P. split.
    + rewrite <- (dec_y1_own x y ON). split; [apply Aff_inj2|intros G; rewrite G; reflexivity].
    + cbn [pneg]. destruct (on1_two x y _ ON DO) as [G|G]; rewrite G; auto.
Qed.

Lemma as_bytes_F E x y a : ecpF E x y a -> on1 (Aff x y) -> 2 <= E <= 16777216 ->
  pk_as_bytes a = Some (g1_code (rval x (ex a)) (fv y)).
Proof.
  intros F ON HE. pose proof (ecpF_R E x y a ltac:(lia) ON F) as R.
  pose proof (compress_g1_ok _ _ _ _ R ltac:(lia) ltac:(lia)) as C. apply ok_ex in C. destruct C as ([bs a'] & EQ & (A' & AF) & C).
  unfold pk_as_bytes. rewrite EQ. cbn [bind]. rewrite C. pose proof (ok_some _ _ _ (ecp_affine_F E x y a F ON ltac:(lia)) AF) as (E1 & _).
  unfold rval. rewrite E1. reflexivity.
Qed.
Lemma as_unc_F E x y a : ecpF E x y a -> on1 (Aff x y) -> 2 <= E <= 16777216 ->
  exists a', pk_as_uncompressed_bytes a = Some (be_bytes 48 (rval x (ex a)) ++ be_bytes 48 (fv y), a').
Proof.
  intros F ON HE. pose proof (ecpF_R E x y a ltac:(lia) ON F) as R.
  pose proof (pk_as_unc_ok _ _ _ _ R ltac:(lia) ltac:(lia)) as C. apply ok_ex in C. destruct C as ([bs a2] & EQ & (a' & (A' & AF) & _ & _ & C)).
  exists a2. rewrite EQ, C. pose proof (ok_some _ _ _ (ecp_affine_F E x y a F ON ltac:(lia)) AF) as (E1 & _).
  unfold rval. rewrite E1. reflexivity.
Qed.
Lemma as_bytes_inf a : adm a -> ecp_pt a = Inf -> pk_as_bytes a = Some g1_inf_bytes.
Proof. intros A P. destruct (as_bytes_ok a A) as (bs & E & C). rewrite P in C. rewrite E, C. reflexivity. Qed.
Lemma unc_round_trip a : adm a -> exists bs a' pk', pk_as_uncompressed_bytes a = Some (bs, a') /\
  pk_from_uncompressed_bytes bs = Some (Ok pk') /\ adm pk' /\ ecp_pt pk' = ecp_pt a.
Proof.
  intros A. destruct (as_unc_ok a A) as (bs & a' & E & _ & _ & C). exists bs, a'. pose proof A as (_ & _ & _ & ON & _).
  destruct (ecp_pt a) as [|x y].
  - pose proof (pk_from_unc_ok (be_bytes 96 0) 0 0 (be_bytes_bytes _ _) (be_bytes_length _ _) eq_refl eq_refl) as D.
    apply ok_ex in D. destruct D as (r & R & D & _). destruct D as (pk & -> & P); [auto|]. exists pk.
    split; [exact E|]. rewrite C. split; [exact R|]. apply ecpR_wf_pt in P. destruct P as [W P].
    split; [eapply ecp_wf_weak; [exact W|lia|lia]|exact P].
  - destruct C as (xv & XV & XR & _ & C). pose proof q381_b381 as QB. pose proof (fv_range y) as YR. pose proof (on1_y _ _ ON) as YN.
    assert (BB : bytes bs) by (rewrite C; apply Forall_app; split; apply be_bytes_bytes).
    assert (BL : length bs = 96%nat) by (rewrite C, app_length, !be_bytes_length; reflexivity).
    assert (F1 : firstn 48 bs = be_bytes 48 xv) by (rewrite C; apply firstn_app_len, be_bytes_length).
    assert (F2 : skipn 48 bs = be_bytes 48 (fv y)) by (rewrite C; apply skipn_app_len, be_bytes_length).
    assert (U : xv = be_int (firstn 48 bs)) by (rewrite F1, be_int_48; lia).
    assert (V : fv y = be_int (skipn 48 bs)) by (rewrite F2, be_int_48; lia).
    pose proof (pk_from_unc_ok bs xv (fv y) BB BL U V) as D. rewrite XV, mkq_fv in D.
    apply ok_ex in D. destruct D as (r & R & _ & _ & D). destruct D as (pk & -> & F & _).
    + intros [_ G]. apply YN. apply fv_zero. exact G.
    + exact ON.
    + exists pk. split; [exact E|]. split; [exact R|]. pose proof (ecpF_R 2 _ _ _ ltac:(lia) ON F) as RR.
      apply ecpR_wf_pt in RR. destruct RR as [W P]. split; [eapply ecp_wf_weak; [exact W|lia|lia]|exact P].
Qed.
Lemma pk_eq_ok a b : adm a -> adm b -> exists r, pk_eq a b = Some r /\ (r = true <-> ecp_pt a = ecp_pt b).
Proof.
  intros A B. apply adm_R in A, B. apply ok_ex. unfold pk_eq. eapply ecp_equals_ok; [exact A|exact B|lia..].
Qed.

(* ------------------------- the sign flag ------------------------------ *)
(* y values above q/2 for which the flag written is 0 *)
Definition flag_gap (v : Z) : Prop :=
  (q381 < 2 * v /\ v < 13 * 2 ^ 376 + 2 ^ 368) \/ (27 * 2 ^ 375 <= v < 27 * 2 ^ 375 + 2 ^ 368).
Lemma q_bounds : 13 * 2 ^ 376 < q381 - 13 * 2 ^ 376 < 13 * 2 ^ 376 + 2 * 2 ^ 368. 
Proof. rewrite <- qn_q. split; vm_compute; reflexivity. Qed.
Lemma a_flag_div v : 13 * 2 ^ 376 <= v < 14 * 2 ^ 376 ->
  ((v / 2 ^ 368) mod 128 = 0 <-> v < 13 * 2 ^ 376 + 2 ^ 368 \/ 27 * 2 ^ 375 <= v < 27 * 2 ^ 375 + 2 ^ 368).
Proof. intros V. clear -V. change (2 ^ 376) with (256 * 2 ^ 368) in *. change (2 ^ 375) with (128 * 2 ^ 368). set (P := 2 ^ 368) in *.
  assert (0 < P) by reflexivity. clearbody P. 
  pose proof (Z.div_mod v P ltac:(lia)) as D. pose proof (Z.mod_pos_bound v P ltac:(lia)) as M.
  set (w := v / P) in *. set (t := v mod P) in *. clearbody w t. rewrite D in *.
  assert (W : 3328 <= w < 3584) by nia. clear V.
  pose proof (Z.div_mod w 128 ltac:(lia)) as D2. pose proof (Z.mod_pos_bound w 128 ltac:(lia)) as M2.
  set (k := w / 128) in *. set (u := w mod 128) in *. clearbody k u.
  assert (26 <= k <= 27) by lia. assert (K : k = 26 \/ k = 27) by lia. split.
  - intros ->. destruct K as [-> | ->]; [left|right]; nia.
  - intros [G|G]; destruct K as [-> | ->]; nia.
Qed.
Lemma flag_doc v : 0 <= v < q381 -> (a_flag_code v = 2 * v / q381 <-> ~ flag_gap v).
Proof.
  intros V. pose proof q_bounds as QB. pose proof (a_flag_div v) as AD. unfold flag_gap, a_flag_code.
  assert (Q2 : 2 * v / q381 = if q381 <=? 2 * v then 1 else 0).
  { destruct (Z.leb_spec q381 (2 * v)); [|apply Z.div_small; lia].
    symmetry. apply (Z.div_unique_pos (2 * v) q381 1 (2 * v - q381)); lia. }
  rewrite Q2. clear Q2. assert (ODD : q381 <> 2 * v) by (pose proof q381_odd as O1; intros C; rewrite C, Z.mul_comm, Z.mod_mul in O1; lia).
  change (2 ^ 376) with (256 * 2 ^ 368) in *. change (2 ^ 375) with (128 * 2 ^ 368) in *. set (P := 2 ^ 368) in *.
  assert (0 < P) by reflexivity. clearbody P. set (m := (v / P) mod 128) in *. clearbody m.
  destruct (Z.leb_spec (14 * (256 * P)) v); cbn [orb].
  - destruct (Z.leb_spec q381 (2 * v)); lia.
  - destruct (Z.leb_spec (13 * (256 * P)) v); cbn [andb].
    + specialize (AD ltac:(lia)). destruct (Z.eqb_spec m 0); cbn [negb]; destruct (Z.leb_spec q381 (2 * v)); lia.
    + destruct (Z.leb_spec q381 (2 * v)); lia.
Qed.
