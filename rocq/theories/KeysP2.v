(* Aggregation of public keys, exact decoder behaviour, and concrete witnesses. *)
From Coq Require Import ZArith List Bool Lia Znumtheory Permutation Field.
From Verif Require Import Prim Rom Big Fp Ecp Utils Api PrimP BigP BigP2 SpecBytes BigP3 BigP4 BigP5 NumT FieldQ FieldQ2 FpP FpP2
  SkP SpecCurve CurveP GroupP JacobiM JacP Fp2P Sqrt2P WinP EcpP EcpC Ecp2P Denote GenP KeysP.
Import ListNotations.
Open Scope Z_scope.

(* ------------------------- aggregation -------------------------------- *)
Lemma adm_A p a : ecpA 1 5 p a -> adm a /\ ecp_pt a = p.
Proof. intros H. apply ecpA_R5, ecpR_wf_pt in H. destruct H as [W P]. split; [eapply ecp_wf_weak; [exact W|lia|lia]|exact P]. Qed.
Lemma apk_new_adm : exists a, apk_new = Some a /\ adm a /\ ecp_pt a = Inf.
Proof.
  destruct (ok_ex _ _ ecp_inf_ok) as (a & E & R). exists a. split; [exact E|]. apply ecpR_wf_pt in R. destruct R as [W P].
  split; [eapply ecp_wf_weak; [exact W|lia|lia]|exact P].
Qed.
Lemma apk_add_adm a k : adm a -> adm k -> exists s, apk_add a k = Some s /\ adm s /\ ecp_pt s = padd1 (ecp_pt a) (ecp_pt k).
Proof.
  intros A K. apply adm_R in A, K.
  destruct (ok_ex _ _ (apk_add_ok _ _ _ _ _ _ _ _ A K ltac:(lia) ltac:(lia) ltac:(lia) ltac:(lia))) as (s & E & R).
  exists s. split; [exact E|]. apply adm_A, R.
Qed.
Lemma adm_on a : adm a -> on1 (ecp_pt a). Proof. intros (_ & _ & _ & ON & _). exact ON. Qed.
Lemma adm_all_on ks : Forall adm ks -> Forall on1 (map ecp_pt ks).
Proof. induction 1; cbn [map]; constructor; auto using adm_on. Qed.
Lemma psum1_app l m : Forall on1 l -> Forall on1 m -> psum1 (l ++ m) = padd1 (psum1 l) (psum1 m).
Proof. intros L M. eapply (gsum_app pt1 on1 padd1 Inf); g1s. Qed.
Lemma psum1_on l : Forall on1 l -> on1 (psum1 l).
Proof. intros L. eapply (gsum_on pt1 on1 padd1 Inf); g1s. Qed.
Lemma psum1_perm l m : Permutation l m -> Forall on1 l -> psum1 l = psum1 m.
Proof. intros P L. eapply (gsum_perm pt1 on1 padd1 Inf); g1s. Qed.
Lemma psum1_one p : psum1 [p] = p. Proof. unfold psum. cbn [fold_right]. apply padd1_0r. Qed.
Lemma apk_fold ks : forall a, adm a -> Forall adm ks -> exists s, foldM apk_add ks a = Some s /\ adm s /\
  ecp_pt s = padd1 (ecp_pt a) (psum1 (map ecp_pt ks)).
Proof.
  induction ks as [|k ks IH]; intros a A K; cbn [foldM map].
  - exists a. split; [reflexivity|]. split; [exact A|]. symmetry. apply padd1_0r.
  - apply Forall_cons_iff in K. destruct K as [K KS]. destruct (apk_add_adm a k A K) as (s & E & S1 & P). rewrite E. cbn [bind].
    destruct (IH s S1 KS) as (t & E2 & T & P2). exists t. split; [exact E2|]. split; [exact T|].
    rewrite P2, P. change (psum1 (ecp_pt k :: map ecp_pt ks)) with (padd1 (ecp_pt k) (psum1 (map ecp_pt ks))).
    apply padd1_assoc; auto using adm_on. apply psum1_on, adm_all_on, KS.
Qed.
Lemma apk_list ks : Forall adm ks -> exists s, apk_from_public_keys ks = Some s /\ adm s /\ ecp_pt s = psum1 (map ecp_pt ks).
Proof.
  intros K. destruct apk_new_adm as (a & E & A & P). unfold apk_from_public_keys. rewrite E. cbn [bind].
  destruct (apk_fold ks a A K) as (s & E2 & S1 & P2). exists s. split; [exact E2|]. split; [exact S1|]. rewrite P2, P. reflexivity.
Qed.
(* the aggregates built from a list of keys by any sequence of operations *)
Inductive apk_of : list ECP -> ECP -> Prop :=
| apk_of_new : forall a, apk_new = Some a -> apk_of [] a
| apk_of_keys : forall ks a, apk_from_public_keys ks = Some a -> apk_of ks a
| apk_of_add : forall ks a k b, apk_of ks a -> apk_add a k = Some b -> apk_of (ks ++ [k]) b
| apk_of_agg : forall ks ls a b c, apk_of ks a -> apk_of ls b -> apk_add_aggregate a b = Some c -> apk_of (ks ++ ls) c.
Lemma apk_of_sum ks a : apk_of ks a -> Forall adm ks -> adm a /\ ecp_pt a = psum1 (map ecp_pt ks).
Proof.
  induction 1 as [a H|ks a H|ks a k b H IH E|ks ls a b c H1 IH1 H2 IH2 E]; intros K.
  - destruct apk_new_adm as (a' & E & A & P). rewrite H in E. injection E as <-. auto.
  - destruct (apk_list ks K) as (s & E & S1 & P). rewrite H in E. injection E as <-. auto.
  - apply Forall_app in K. destruct K as [K1 K2]. destruct (IH K1) as [A P]. apply Forall_inv in K2.
    destruct (apk_add_adm a k A K2) as (s & E2 & S1 & P2). rewrite E in E2. injection E2 as <-. split; [exact S1|].
    rewrite map_app, psum1_app by (try (apply adm_all_on; exact K1); cbn [map]; repeat constructor; apply adm_on, K2).
    cbn [map]. rewrite psum1_one, P2, P. reflexivity.
  - apply Forall_app in K. destruct K as [K1 K2]. destruct (IH1 K1) as [A P]. destruct (IH2 K2) as [B Q].
    rewrite apk_add_aggregate_same in E.
    destruct (apk_add_adm a b A B) as (s & E2 & S1 & P2). rewrite E in E2. injection E2 as <-. split; [exact S1|].
    rewrite map_app, psum1_app by (apply adm_all_on; assumption). rewrite P2, P, Q. reflexivity.
Qed.
Lemma aggregate_group_sum : forall ks a, Forall adm ks -> apk_of ks a -> ecp_pt a = psum1 (map ecp_pt ks).
Proof. intros ks a K H. apply (apk_of_sum ks a H K). Qed.
Lemma aggregate_any_order : forall ks ls a b, Forall adm ks -> Permutation ks ls -> apk_of ks a -> apk_of ls b -> pk_eq a b = Some true.
Proof.
  intros ks ls a b K P A B. assert (L : Forall adm ls) by (eapply Permutation_Forall; eauto).
  destruct (apk_of_sum ks a A K) as [A1 A2]. destruct (apk_of_sum ls b B L) as [B1 B2].
  destruct (pk_eq_ok a b A1 B1) as (r & E & R). rewrite E. f_equal. apply R. rewrite A2, B2.
  apply psum1_perm; [apply Permutation_map; exact P|apply adm_all_on; exact K].
Qed.
Lemma aggregate_total : forall ks, Forall adm ks -> exists a, apk_from_public_keys ks = Some a /\ apk_of ks a.
Proof. intros ks K. destruct (apk_list ks K) as (s & E & _). exists s. split; [exact E|apply apk_of_keys; exact E]. Qed.

(* ------------------------- derivation --------------------------------- *)
Lemma derive b sk : bytes b -> sk_from_bytes b = Some (Ok sk) -> exists pk, pk_from_secret_key sk = Some pk /\ adm pk /\
  ecp_pt pk = zm1 (be_int b) G1gen.
Proof.
  intros B H. destruct (sk_rep b sk B H) as (_ & R & V). destruct (ok_ex _ _ (pk_sk_ok sk _ R (proj2 V))) as (pk & E & A).
  exists pk. split; [exact E|]. apply adm_A, A.
Qed.
Lemma derive_nmul b sk : bytes b -> sk_from_bytes b = Some (Ok sk) ->
  exists pk, pk_from_secret_key sk = Some pk /\ ecp_pt pk = nmul1 (Z.to_nat (be_int b)) G1gen.
Proof.
  intros B H. destruct (derive b sk B H) as (pk & E & _ & P). exists pk. split; [exact E|]. rewrite P. apply zm1_nmul.
  apply (be_int_range b B).
Qed.
Lemma r255_nz : r255 <> 0. Proof. discriminate. Qed.
Lemma zm1_cong a b : a mod r255 = b mod r255 -> zm1 a G1gen = zm1 b G1gen.
Proof.
  intros E. rewrite <- (zm1_mod a r255 G1gen G1gen_on G1gen_order r255_nz), <- (zm1_mod b r255 G1gen G1gen_on G1gen_order r255_nz), E.
  reflexivity.
Qed.
Lemma congruent_secrets : forall b1 b2 sk1 sk2 pk1 pk2, bytes b1 -> bytes b2 ->
  sk_from_bytes b1 = Some (Ok sk1) -> sk_from_bytes b2 = Some (Ok sk2) ->
  pk_from_secret_key sk1 = Some pk1 -> pk_from_secret_key sk2 = Some pk2 ->
  be_int b1 mod r255 = be_int b2 mod r255 -> ecp_pt pk1 = ecp_pt pk2 /\ pk_eq pk1 pk2 = Some true.
Proof.
  intros b1 b2 sk1 sk2 pk1 pk2 B1 B2 S1 S2 P1 P2 C.
  destruct (derive b1 sk1 B1 S1) as (p1 & E1 & A1 & D1). destruct (derive b2 sk2 B2 S2) as (p2 & E2 & A2 & D2).
  rewrite P1 in E1. injection E1 as <-. rewrite P2 in E2. injection E2 as <-.
  assert (EQ : ecp_pt pk1 = ecp_pt pk2) by (rewrite D1, D2; apply zm1_cong, C). split; [exact EQ|].
  destruct (pk_eq_ok pk1 pk2 A1 A2) as (r & E & R). rewrite E. f_equal. apply R, EQ.
Qed.
(* distinct residues give distinct keys: the generator has order exactly r *)
Lemma zm1_inj a b : zm1 a G1gen = zm1 b G1gen -> a mod r255 = b mod r255.
Proof.
  intros E. pose proof G1gen_on as ON.
  assert (Z0 : zm1 (a - b) G1gen = Inf).
  { replace (a - b) with (a + - b) by lia. rewrite zm1_add, zm1_opp, E by exact ON. apply padd1_neg. apply zm1_on, ON. }
  assert (D : (r255 | a - b)).
  { destruct (Zdivide_dec r255 (a - b)) as [D|D]; [exact D|exfalso].
    pose proof (prime_rel_prime _ r255_prime _ D) as RP. apply rel_prime_bezout in RP. destruct RP as [u v UV].
    assert (G1gen = Inf); [|discriminate].
    rewrite <- (zm1_1 G1gen) at 1. rewrite <- UV, zm1_add, !zm1_mul, Z0, G1gen_order, !zm1_zero by exact ON. reflexivity. }
  destruct D as [k D]. replace a with (b + k * r255) by lia. apply Z.mod_add. discriminate.
Qed.
Lemma derive_eq : forall b1 b2 sk1 sk2 pk1 pk2, bytes b1 -> bytes b2 ->
  sk_from_bytes b1 = Some (Ok sk1) -> sk_from_bytes b2 = Some (Ok sk2) ->
  pk_from_secret_key sk1 = Some pk1 -> pk_from_secret_key sk2 = Some pk2 ->
  exists r, pk_eq pk1 pk2 = Some r /\ (r = true <-> be_int b1 mod r255 = be_int b2 mod r255).
Proof.
  intros b1 b2 sk1 sk2 pk1 pk2 B1 B2 S1 S2 P1 P2.
  destruct (derive b1 sk1 B1 S1) as (p1 & E1 & A1 & D1). destruct (derive b2 sk2 B2 S2) as (p2 & E2 & A2 & D2).
  rewrite P1 in E1. injection E1 as <-. rewrite P2 in E2. injection E2 as <-.
  destruct (pk_eq_ok pk1 pk2 A1 A2) as (r & E & R). exists r. split; [exact E|]. rewrite R, D1, D2. split; [apply zm1_inj|apply zm1_cong].
Qed.
(* aggregation of derived keys *)
Inductive derived_keys : list (list Z) -> list ECP -> Prop :=
| dk_nil : derived_keys [] []
| dk_cons : forall b sk pk bs pks, bytes b -> sk_from_bytes b = Some (Ok sk) -> pk_from_secret_key sk = Some pk ->
    derived_keys bs pks -> derived_keys (b :: bs) (pk :: pks).
Lemma derived_adm bs pks : derived_keys bs pks -> Forall adm pks /\
  psum1 (map ecp_pt pks) = zm1 (fold_right Z.add 0 (map be_int bs)) G1gen.
Proof.
  induction 1 as [|b sk pk bs pks B S1 P D [IH1 IH2]]; [split; [constructor|reflexivity]|].
  destruct (derive b sk B S1) as (p & E & A & DP). rewrite P in E. injection E as <-. split; [constructor; assumption|].
  cbn [map fold_right]. rewrite zm1_add, <- DP, <- IH2 by exact G1gen_on. reflexivity.
Qed.
Lemma aggregate_derived : forall bs pks agg b sk pk, derived_keys bs pks -> apk_of pks agg ->
  bytes b -> sk_from_bytes b = Some (Ok sk) -> pk_from_secret_key sk = Some pk ->
  be_int b = fold_right Z.add 0 (map be_int bs) mod r255 -> pk_eq agg pk = Some true.
Proof.
  intros bs pks agg b sk pk D A B S1 P E. destruct (derived_adm bs pks D) as [F SM]. destruct (apk_of_sum pks agg A F) as [AA AP].
  destruct (derive b sk B S1) as (p & E1 & A1 & DP). rewrite P in E1. injection E1 as <-.
  destruct (pk_eq_ok agg pk AA A1) as (r & ER & R). rewrite ER. f_equal. apply R. rewrite AP, SM, DP, E. apply zm1_cong.
  symmetry. apply Z.mod_mod. discriminate.
Qed.
Lemma aggregate_neutral : forall k, adm k -> exists a s, apk_new = Some a /\ apk_add a k = Some s /\ pk_eq s k = Some true /\
  apk_as_bytes a = Some (192 :: repeat 0 47).
Proof.
  intros k K. destruct apk_new_adm as (a & E & A & P). destruct (apk_add_adm a k A K) as (s & E2 & S1 & P2).
  exists a, s. split; [exact E|]. split; [exact E2|]. split.
  - destruct (pk_eq_ok s k S1 K) as (r & ER & R). rewrite ER. f_equal. apply R. rewrite P2, P. reflexivity.
  - change (apk_as_bytes a) with (pk_as_bytes a). rewrite (as_bytes_inf a A P). reflexivity.
Qed.
(* every curve point is accepted by the uncompressed decoder *)
Lemma encodable p : on1 p -> exists bs pk, bytes bs /\ pk_from_uncompressed_bytes bs = Some (Ok pk) /\ adm pk /\ ecp_pt pk = p.
Proof.
  intros ON. destruct p as [|x y].
  - destruct apk_new_adm as (a & _ & A & P). destruct (unc_round_trip a A) as (bs & a' & pk & E & D & AK & PK). exists bs, pk.
    destruct (as_unc_ok a A) as (bs' & a'' & E' & _ & _ & C). rewrite P in C. rewrite E in E'. injection E' as -> ->.
    split; [rewrite C; apply be_bytes_bytes|]. split; [exact D|]. split; [exact AK|congruence].
  - set (bs := be_bytes 48 (fv x) ++ be_bytes 48 (fv y)). pose proof q381_b381 as QB. pose proof (fv_range x). pose proof (fv_range y).
    assert (BB : bytes bs) by (apply Forall_app; split; apply be_bytes_bytes).
    assert (BL : length bs = 96%nat) by (unfold bs; rewrite app_length, !be_bytes_length; reflexivity).
    assert (U : fv x = be_int (firstn 48 bs)) by (unfold bs; rewrite firstn_app_len by apply be_bytes_length; rewrite be_int_48; lia).
    assert (V : fv y = be_int (skipn 48 bs)) by (unfold bs; rewrite skipn_app_len by apply be_bytes_length; rewrite be_int_48; lia).
    pose proof (pk_from_unc_ok bs _ _ BB BL U V) as D. rewrite !mkq_fv in D. apply ok_ex in D. destruct D as (r & R & _ & _ & D).
    destruct D as (pk & -> & F & _); [intros [_ G]; apply (on1_y _ _ ON), fv_zero, G|exact ON|].
    exists bs, pk. split; [exact BB|]. split; [exact R|]. pose proof (ecpF_R 2 _ _ _ ltac:(lia) ON F) as RR.
    apply ecpR_wf_pt in RR. destruct RR as [W P]. split; [eapply ecp_wf_weak; [exact W|lia|lia]|exact P].
Qed.
Lemma rogue_key : forall pk target, adm pk -> adm target -> exists bs pk' agg, bytes bs /\
  pk_from_uncompressed_bytes bs = Some (Ok pk') /\ apk_from_public_keys [pk; pk'] = Some agg /\ pk_eq agg target = Some true.
Proof.
  intros pk t A T. pose proof (adm_on _ A) as OA. pose proof (adm_on _ T) as OT.
  destruct (encodable (padd1 (ecp_pt t) (pneg1 (ecp_pt pk)))) as (bs & pk' & B & D & A' & P').
  { apply padd1_on; [exact OT|apply pneg1_on, OA]. }
  destruct (apk_list [pk; pk']) as (agg & E & AG & PG); [constructor; [exact A|constructor; [exact A'|constructor]]|].
  exists bs, pk', agg. split; [exact B|]. split; [exact D|]. split; [exact E|].
  destruct (pk_eq_ok agg t AG T) as (r & ER & R). rewrite ER. f_equal. apply R. rewrite PG. cbn [map]. unfold psum. cbn [fold_right].
  rewrite padd1_0r, P'. pose proof (pneg1_on _ OA) as ON.
  rewrite (padd1_comm (ecp_pt t)) by assumption. rewrite <- padd1_assoc by assumption.
  rewrite padd1_neg by assumption. reflexivity.
Qed.

(* ------------------------- exact decoding ----------------------------- *)
Lemma top_bit n v : 0 <= n -> 0 <= v < 2 ^ (n + 1) -> (Z.testbit v n = true <-> v / 2 ^ n = 1).
Proof.
  intros N V. rewrite Z.testbit_true by exact N. rewrite Z.pow_add_r in V by lia. change (2 ^ 1) with 2 in V.
  assert (P : 0 < 2 ^ n) by (apply Z.pow_pos_nonneg; lia).
  assert (D : 0 <= v / 2 ^ n < 2) by (split; [apply Z.div_pos; lia|apply Z.div_lt_upper_bound; lia]).
  rewrite Z.mod_small by lia. reflexivity.
Qed.
Lemma inf_value n v : 0 <= n -> 0 <= v < 2 ^ (n + 2) -> v / 2 ^ (n + 1) = 1 -> (v / 2 ^ n) mod 2 = 1 ->
  (v mod 2 ^ n = 0 <-> v = 2 ^ (n + 1) + 2 ^ n).
Proof.
  intros N V. rewrite Z.pow_add_r by lia. rewrite Z.pow_add_r in V by lia. change (2 ^ 1) with 2. change (2 ^ 2) with 4 in V.
  assert (P : 0 < 2 ^ n) by (apply Z.pow_pos_nonneg; lia). set (m := 2 ^ n) in *. clearbody m.
  rewrite <- Z.div_div by lia. pose proof (Z.div_mod v m ltac:(lia)) as D. intros D1 D2.
  assert (D3 : v / m = 3) by (pose proof (Z.div_mod (v / m) 2 ltac:(lia)); lia). rewrite D3 in D. lia.
Qed.
Lemma decoder_class : forall bs, bytes bs -> let v := be_int bs in let x := mkq (v mod 2 ^ 381) in
  exists r, pk_from_bytes bs = Some r /\
  (length bs <> 48%nat -> r = Err IncorrectSize) /\
  (length bs = 48%nat -> Z.testbit v 383 = false -> r = Err InvalidCFlag) /\
  (length bs = 48%nat -> Z.testbit v 383 = true -> Z.testbit v 382 = true ->
     (v = 2 ^ 383 + 2 ^ 382 -> exists pk, r = Ok pk /\ ecp_pt pk = Inf) /\
     (v <> 2 ^ 383 + 2 ^ 382 -> r = Err BadPoint)) /\
  (length bs = 48%nat -> Z.testbit v 383 = true -> Z.testbit v 382 = false ->
     ((forall y, fmul y y <> fadd (fmul (fmul x x) x) (mkq 4)) -> r = Err BadPoint) /\
     (forall y, fmul y y = fadd (fmul (fmul x x) x) (mkq 4) ->
        exists pk, r = Ok pk /\ (ecp_pt pk = Aff x y \/ ecp_pt pk = Aff x (fopp y)))).
Proof.
  intros bs B v x. unfold pk_from_bytes. destruct (Nat.eq_dec (length bs) 48) as [L|L].
  2:{ rewrite (decompress_g1_len bs L). eexists. split; [reflexivity|]. split; [reflexivity|].
      split; [intros C; contradiction|]. split; intros C; contradiction. }
  pose proof (be_int_range bs B) as VR. fold v in VR. rewrite L in VR. change (256 ^ Z.of_nat 48) with (2 ^ (383 + 1)) in VR.
  pose proof (top_bit 383 v ltac:(lia) VR) as T1. pose proof (decompress_g1_ok bs v x B L eq_refl eq_refl) as D.
  apply ok_ex in D. destruct D as (r & R & D1 & D2 & D3 & D4 & D5). exists r. split; [exact R|].
  pose proof (Z.testbit_true v 382 ltac:(lia)) as T2.
  split; [intros C; contradiction|]. split.
  { intros _ TF. apply D1. intros C. apply T1 in C. congruence. }
  split.
  - intros _ TA TB. apply T1 in TA. apply T2 in TB.
    pose proof (inf_value 382 v ltac:(lia) VR TA TB) as IV. change (382 + 1) with 383 in IV. split.
    + intros E. apply IV in E. destruct (D3 TA TB E) as (a & -> & A). exists a. split; [reflexivity|]. eapply ecpR_pt, A.
    + intros E. apply (D2 TA TB). intros C. apply E, IV, C.
  - intros _ TA TB. apply T1 in TA. assert (TC : (v / 2 ^ 382) mod 2 <> 1) by (intros C; apply T2 in C; congruence). split.
    + intros NS. apply (D4 TA TC). intros [y Y]. apply (NS y). symmetry. exact Y.
    + intros y Y. assert (SQ : is_sq (rhs1 x)) by (exists y; symmetry; exact Y).
      destruct (D5 TA TC SQ) as (a & -> & A & _). exists a. split; [reflexivity|].
      pose proof (dec_y1_on x ((v / 2 ^ 381) mod 2) SQ) as DO.
      pose proof (ecpR_pt _ _ _ _ (ecpF_R 3 _ _ _ ltac:(lia) DO A)) as P. rewrite P.
      destruct (on1_two x y _ Y DO) as [G|G]; rewrite G; auto.
Qed.
Lemma decoder_on_curve : forall bs pk, bytes bs ->
  (pk_from_bytes bs = Some (Ok pk) \/ apk_from_bytes bs = Some (Ok pk) \/ pk_from_uncompressed_bytes bs = Some (Ok pk)) ->
  on1 (ecp_pt pk).
Proof.
  intros bs pk B H. assert (PB : pk_built pk).
  { destruct H as [H|[H|H]]; [eapply pkb_bytes|eapply pkb_bytes|eapply pkb_unc]; eauto. }
  apply adm_on, built_adm, PB.
Qed.
Lemma g1_inf_eq : g1_inf_bytes = 192 :: repeat 0 47. Proof. vm_compute. reflexivity. Qed.
Lemma infinity_encoding : forall bs, bytes bs ->
  ((exists pk, pk_from_bytes bs = Some (Ok pk) /\ ecp_pt pk = Inf) <-> bs = 192 :: repeat 0 47).
Proof.
  intros bs B. rewrite <- g1_inf_eq. split.
  - intros (pk & H & P). pose proof (decoded_len bs pk H) as L. destruct (decoded bs pk B H) as (C & [(I1 & Z0 & _)|(_ & SQ & F & _)]).
    + pose proof (be_int_range bs B) as VR. rewrite L in VR. change (256 ^ Z.of_nat 48) with (2 ^ (382 + 2)) in VR.
      apply (inf_value 382 _ ltac:(lia) VR C I1) in Z0. change (382 + 1) with 383 in Z0.
      rewrite <- (be_bytes_int bs B), L, Z0. reflexivity.
    + pose proof (ecpR_pt _ _ _ _ (ecpF_R 3 _ _ _ ltac:(lia) (dec_y1_on _ _ SQ) F)) as P2. congruence.
  - intros ->. pose proof (decoder_class g1_inf_bytes B) as D. cbv zeta in D. destruct D as (r & R & _ & _ & D & _).
    assert (IV : be_int g1_inf_bytes = 2 ^ 383 + 2 ^ 382) by (apply be_int_48; lia). rewrite IV in D.
    destruct (D (be_bytes_length _ _) eq_refl eq_refl) as [D1 _]. destruct (D1 eq_refl) as (pk & -> & P). exists pk. auto.
Qed.
Lemma infinity_encodes : forall a, adm a -> (pk_as_bytes a = Some (192 :: repeat 0 47) <-> ecp_pt a = Inf).
Proof.
  intros a A. rewrite <- g1_inf_eq. split; [|apply as_bytes_inf, A]. intros E. destruct (as_bytes_ok a A) as (bs & E2 & C).
  destruct (ecp_pt a) as [|x y]; [reflexivity|]. destruct C as (xv & _ & XR & _ & C). exfalso.
  rewrite E in E2. injection E2 as E2. rewrite C in E2. apply (f_equal be_int) in E2. pose proof q381_b381 as QB.
  rewrite g1_code_int in E2 by lia. unfold g1_inf_bytes in E2. rewrite be_int_48 in E2 by lia.
  destruct (a_flag_01 (fv y)) as [G|G]; rewrite G in E2; lia.
Qed.
Lemma encoded_shape : forall a, adm a -> exists bs, pk_as_bytes a = Some bs /\ bytes bs /\ length bs = 48%nat /\
  Z.testbit (be_int bs) 383 = true /\ (Z.testbit (be_int bs) 382 = true <-> ecp_pt a = Inf).
Proof.
  intros a A. destruct (as_bytes_ok a A) as (bs & E & C). exists bs. split; [exact E|]. destruct (ecp_pt a) as [|x y].
  - rewrite C. split; [apply be_bytes_bytes|]. split; [apply be_bytes_length|]. unfold g1_inf_bytes. rewrite be_int_48 by lia.
    split; [reflexivity|]. split; reflexivity.
  - destruct C as (xv & _ & XR & _ & C). rewrite C. split; [apply g1_code_bytes|]. split; [apply g1_code_len|].
    pose proof q381_b381 as QB. rewrite g1_code_int by lia.
    destruct (g1_code_parts xv (a_flag_code (fv y)) ltac:(lia) (a_flag_01 _)) as (P1 & P2 & _).
    set (v := xv + a_flag_code (fv y) * 2 ^ 381 + 2 ^ 383) in *. rewrite (Z.testbit_true v 382), P2 by lia.
    split; [|split; [lia|discriminate]]. rewrite (Z.testbit_true v 383), P1 by lia. reflexivity.
Qed.
Lemma unc_shape : forall a, adm a -> exists bs a', pk_as_uncompressed_bytes a = Some (bs, a') /\ bytes bs /\ length bs = 96%nat.
Proof.
  intros a A. destruct (as_unc_ok a A) as (bs & a' & E & _ & _ & C). exists bs, a'. split; [exact E|]. destruct (ecp_pt a) as [|x y].
  - rewrite C. split; [apply be_bytes_bytes|apply be_bytes_length].
  - destruct C as (xv & _ & _ & _ & C). rewrite C. split; [apply Forall_app; split; apply be_bytes_bytes|].
    rewrite app_length, !be_bytes_length. reflexivity.
Qed.
Lemma unc_class : forall bs, bytes bs -> let u := be_int (firstn 48 bs) in let v := be_int (skipn 48 bs) in
  exists r, pk_from_uncompressed_bytes bs = Some r /\
  (length bs <> 96%nat -> r = Err IncorrectSize) /\
  (length bs = 96%nat -> Forall (eq 0) bs -> exists pk, r = Ok pk /\ ecp_pt pk = Inf) /\
  (length bs = 96%nat -> ~ Forall (eq 0) bs ->
     (on1 (Aff (mkq u) (mkq v)) -> exists pk, r = Ok pk /\ ecp_pt pk = Aff (mkq u) (mkq v)) /\
     (~ on1 (Aff (mkq u) (mkq v)) -> r = Err BadPoint)).
Proof.
  intros bs B u v. destruct (Nat.eq_dec (length bs) 96) as [L|L].
  2:{ rewrite (pk_from_unc_len bs L). eexists. split; [reflexivity|]. split; [reflexivity|]. split; intros C; contradiction. }
  pose proof (pk_from_unc_ok bs u v B L eq_refl eq_refl) as D. apply ok_ex in D. destruct D as (r & R & D1 & D2 & D3).
  exists r. split; [exact R|]. split; [intros C; contradiction|].
  assert (Z0 : Forall (eq 0) bs <-> u = 0 /\ v = 0).
  { pose proof (be_int_zero _ (bytes_firstn 48 bs B)) as B1. pose proof (be_int_zero _ (bytes_skipn 48 bs B)) as B2.
    fold u in B1. fold v in B2. rewrite <- B1, <- B2, <- andb_true_iff, <- forallb_app, firstn_skipn, forallb_forall, Forall_forall.
    split; intros H z I; specialize (H z I); [subst; reflexivity|apply Z.eqb_eq in H; auto]. }
  split.
  - intros _ F. apply Z0 in F. destruct (D1 F) as (a & -> & A). exists a. split; [reflexivity|]. eapply ecpR_pt, A.
  - intros _ F. assert (N0 : ~ (u = 0 /\ v = 0)) by (intros C; apply F, Z0, C). split.
    + intros ON. destruct (D3 N0 ON) as (a & -> & A & _). exists a. split; [reflexivity|].
      eapply ecpR_pt, (ecpF_R 2 _ _ _ ltac:(lia) ON A).
    + intros NO. apply (D2 N0 NO).
Qed.
(* when a decoded string is reproduced by the encoder *)
Lemma recode : forall bs pk x y, bytes bs -> pk_from_bytes bs = Some (Ok pk) -> ecp_pt pk = Aff x y ->
  let v := be_int bs in
  (pk_as_bytes pk = Some bs <-> v mod 2 ^ 381 <= q381 /\ a_flag_code (fv y) = (v / 2 ^ 381) mod 2).
Proof.
  intros bs pk x y B H P v. pose proof (decoded_len bs pk H) as L. destruct (decoded bs pk B H) as (C & D). fold v in C, D.
  destruct D as [(_ & _ & R)|(I0 & SQ & F & LZ)]; [apply ecpR_pt in R; congruence|].
  set (x' := mkq (v mod 2 ^ 381)) in *. pose proof (dec_y1_on x' ((v / 2 ^ 381) mod 2) SQ) as DO.
  pose proof (ecpR_pt _ _ _ _ (ecpF_R 3 _ _ _ ltac:(lia) DO F)) as P2. rewrite P in P2.
  pose proof (Aff_inj1 _ _ _ _ P2) as X2. pose proof (Aff_inj2 _ _ _ _ P2) as Y2. rewrite <- Y2 in *. clear Y2.
  rewrite (as_bytes_F 3 x' y pk F DO) by lia. pose proof q381_b381 as QB. pose proof (rval_range x' (ex pk)) as RR.
  assert (VB : v = v mod 2 ^ 381 + (v / 2 ^ 381) mod 2 * 2 ^ 381 + 2 ^ 383).
  { clear -C I0. change (2 ^ 383) with (2 ^ 381 * 4) in *. change (2 ^ 382) with (2 ^ 381 * 2) in *. rewrite <- Z.div_div in C, I0 by lia.
    set (w := v / 2 ^ 381) in *. pose proof (Z.div_mod v (2 ^ 381) ltac:(lia)) as D. fold w in D. clearbody w.
    pose proof (Z.div_mod w 4 ltac:(lia)). pose proof (Z.mod_pos_bound w 4 ltac:(lia)). pose proof (Z.div_mod w 2 ltac:(lia)).
    pose proof (Z.mod_pos_bound w 2 ltac:(lia)). pose proof (Z.div_mod (w / 2) 2 ltac:(lia)). 
    assert (w = 4 + w mod 2) by lia. lia. }
  pose proof (Z.mod_pos_bound v (2 ^ 381) ltac:(lia)) as XB. pose proof (Z.mod_pos_bound (v / 2 ^ 381) 2 ltac:(lia)) as FB.
  assert (ST : Some (g1_code (rval x' (ex pk)) (fv y)) = Some bs <->
    rval x' (ex pk) + a_flag_code (fv y) * 2 ^ 381 + 2 ^ 383 = v).
  { split.
    - intros E. assert (E' : g1_code (rval x' (ex pk)) (fv y) = bs) by congruence. apply (f_equal be_int) in E'.
      rewrite g1_code_int in E' by lia. exact E'.
    - intros E. f_equal. apply be_int_inj; [apply g1_code_bytes|exact B|rewrite g1_code_len; auto|]. rewrite g1_code_int by lia. exact E. }
  rewrite ST. assert (RV : rval x' (ex pk) = v mod 2 ^ 381 <-> v mod 2 ^ 381 <= q381).
  { split; [lia|]. intros LE. unfold rval. set (xv := v mod 2 ^ 381) in *. destruct (Fq_dec x' f0) as [E|E].
    - apply mkq_inj in E. rewrite Z.mod_0_l in E by apply q381_nz. destruct (Z.eqb_spec (lval (fx (ex pk))) 0) as [G|G].
      + apply LZ in G. auto.
      + assert (xv <> 0) by (intros G2; apply G, LZ, G2). destruct (Z.eq_dec xv q381) as [G3|G3]; [auto|].
        rewrite Z.mod_small in E by lia. contradiction.
    - unfold x'. rewrite fv_mkq. apply Z.mod_small. destruct (Z.eq_dec xv q381) as [G3|G3]; [|lia].
      exfalso. apply E. unfold x'. rewrite G3. apply mkq_eq. rewrite Z.mod_same, Z.mod_0_l by apply q381_nz. reflexivity. }
  rewrite <- RV. destruct (a_flag_01 (fv y)) as [G|G]; rewrite G; lia.
Qed.
Lemma unc_recode : forall bs pk x y, bytes bs -> pk_from_uncompressed_bytes bs = Some (Ok pk) -> ecp_pt pk = Aff x y ->
  ((exists pk', pk_as_uncompressed_bytes pk = Some (bs, pk')) <-> be_int (firstn 48 bs) <= q381 /\ be_int (skipn 48 bs) < q381).
Proof.
  intros bs pk x y B H P. pose proof (decoded_unc_len bs pk H) as L. destruct (decoded_unc bs pk B H) as [(_ & _ & R)|(N0 & ON & F & LZ)].
  { apply ecpR_pt in R. congruence. }
  set (u := be_int (firstn 48 bs)) in *. set (v := be_int (skipn 48 bs)) in *.
  destruct (as_unc_F 2 (mkq u) (mkq v) pk F ON ltac:(lia)) as (a' & E). pose proof q381_b381 as QB.
  pose proof (rval_range (mkq u) (ex pk)) as RR. pose proof (fv_range (mkq v)) as VR.
  pose proof (bytes_firstn 48 bs B) as B1. pose proof (bytes_skipn 48 bs B) as B2.
  assert (L1 : length (firstn 48 bs) = 48%nat) by (rewrite firstn_length; lia).
  assert (L2 : length (skipn 48 bs) = 48%nat) by (rewrite skipn_length; lia).
  pose proof (be_int_range _ B1) as U0. pose proof (be_int_range _ B2) as V0. fold u in U0. fold v in V0. 
  assert (ST : (exists pk', pk_as_uncompressed_bytes pk = Some (bs, pk')) <-> rval (mkq u) (ex pk) = u /\ fv (mkq v) = v).
  { split.
    - intros [pk' E2]. rewrite E in E2. assert (E3 : be_bytes 48 (rval (mkq u) (ex pk)) ++ be_bytes 48 (fv (mkq v)) = bs) by congruence.
      assert (F1 : firstn 48 bs = be_bytes 48 (rval (mkq u) (ex pk))) by (rewrite <- E3; apply firstn_app_len, be_bytes_length).
      assert (F2 : skipn 48 bs = be_bytes 48 (fv (mkq v))) by (rewrite <- E3; apply skipn_app_len, be_bytes_length).
      assert (G1 : u = rval (mkq u) (ex pk)) by (transitivity (be_int (firstn 48 bs)); [reflexivity|]; rewrite F1; apply be_int_48; lia).
      assert (G2 : v = fv (mkq v)) by (transitivity (be_int (skipn 48 bs)); [reflexivity|]; rewrite F2; apply be_int_48; lia). auto.
    - intros [E1 E2]. exists a'. rewrite E, E1, E2. pose proof (be_bytes_int _ B1) as G1. rewrite L1 in G1. fold u in G1.
      pose proof (be_bytes_int _ B2) as G2. rewrite L2 in G2. fold v in G2.
      rewrite G1, G2, firstn_skipn. reflexivity. }
  rewrite ST, fv_mkq. assert (VV : v mod q381 = v <-> v < q381).
  { split; [intros <-; apply Z.mod_pos_bound, q381_pos|intros; apply Z.mod_small; lia]. }
  rewrite VV. assert (RV : rval (mkq u) (ex pk) = u <-> u <= q381); [|tauto].
  split; [lia|]. intros LE. unfold rval. destruct (Fq_dec (mkq u) f0) as [E0|E0].
  - apply mkq_inj in E0. rewrite Z.mod_0_l in E0 by apply q381_nz. destruct (Z.eqb_spec (lval (fx (ex pk))) 0) as [G|G].
    + apply LZ in G. auto.
    + assert (u <> 0) by (intros G2; apply G, LZ, G2). destruct (Z.eq_dec u q381) as [G3|G3]; [auto|].
      rewrite Z.mod_small in E0 by lia. contradiction.
  - rewrite fv_mkq. apply Z.mod_small. destruct (Z.eq_dec u q381) as [G3|G3]; [|lia].
    exfalso. apply E0. rewrite G3. apply mkq_eq. rewrite Z.mod_same, Z.mod_0_l by apply q381_nz. reflexivity.
Qed.
(* serialization against equality *)
Lemma equal_same_bytes : forall a b, adm a -> adm b -> ecp_pt a = ecp_pt b -> (forall y, ecp_pt a <> Aff f0 y) -> pk_as_bytes a = pk_as_bytes b.
Proof.
  intros a b A B E N. destruct (as_bytes_ok a A) as (bs & E1 & C1). destruct (as_bytes_ok b B) as (cs & E2 & C2).
  rewrite E1, E2. rewrite E in *. destruct (ecp_pt b) as [|x y]; [congruence|].
  destruct C1 as (x1 & _ & _ & X1 & ->). destruct C2 as (x2 & _ & _ & X2 & ->).
  assert (XN : x <> f0) by (intros G; apply (N y); rewrite G; reflexivity). rewrite (X1 XN), (X2 XN). reflexivity.
Qed.
Lemma same_bytes : forall a b bs, adm a -> adm b -> pk_as_bytes a = Some bs -> pk_as_bytes b = Some bs ->
  ecp_pt a = ecp_pt b \/ ecp_pt a = pneg1 (ecp_pt b).
Proof.
  intros a b bs A B EA EB. destruct (compressed_round_trip a A) as (cs & pk & E1 & D1 & _ & _ & R1).
  destruct (compressed_round_trip b B) as (ds & pk2 & E2 & D2 & _ & _ & R2).
  rewrite EA in E1. injection E1 as <-. rewrite EB in E2. injection E2 as <-. rewrite D1 in D2. injection D2 as <-.
  assert (NN : forall p, pneg1 (pneg1 p) = p) by (intros [|x y]; cbn [pneg]; [reflexivity|apply (f_equal (Aff x)); ring]).
  destruct R1 as [R1|R1], R2 as [R2|R2]; rewrite R1 in R2; [left; exact R2|right; exact R2|right|left].
  - rewrite <- R2, NN. reflexivity.
  - rewrite <- (NN (ecp_pt a)), R2, NN. reflexivity.
Qed.

(* ------------------------- witnesses ---------------------------------- *)
(* the secret key 3035: its public key has y just above 13.5 * 2^376, flag 0
   for both roots, and y is not the root the decoder computes *)
Definition sk3035 : list Z := be_bytes 48 3035.
Definition t3035 : Z := 0x6cc477858e111cb30a5d00a12bf8ca9da1e9ea91571ef812acb3755ed5fdb102185a7dfab926ed5d9870141c2d4e40f.
Lemma y3035_small : fv (mkq (snd P3035)) = snd P3035.
Proof. rewrite fv_mkq, <- qn_q. vm_compute. reflexivity. Qed.
Lemma y3035_flag : a_flag_code (fv (mkq (snd P3035))) = 0 /\ a_flag_code (fv (fopp (mkq (snd P3035)))) = 0 /\ 2 * fv (mkq (snd P3035)) / q381 = 1.
Proof.
  rewrite y3035_small. split; [vm_compute; reflexivity|]. split; [|rewrite <- qn_q; vm_compute; reflexivity].
  rewrite <- mkq_opp, fv_mkq, <- qn_q. vm_compute. reflexivity.
Qed.
Lemma y3035_nonsq : ~ is_sq (mkq (snd P3035)).
Proof.
  assert (SQ : is_sq (fopp (mkq (snd P3035)))).
  { exists (mkq t3035). rewrite <- mkq_opp, <- mkq_mul. apply mkq_eq. rewrite <- qn_q. vm_compute. reflexivity. }
  assert (NZ : mkq (snd P3035) <> f0) by (intros E; apply mkq_inj in E; rewrite <- qn_q in E; vm_compute in E; discriminate E).
  intros C. exact (sq_not_both _ NZ C SQ).
Qed.
Lemma witness_3035 : exists sk pk bs pk' r, sk_from_bytes sk3035 = Some (Ok sk) /\ pk_from_secret_key sk = Some pk /\
  pk_as_bytes pk = Some bs /\ pk_from_bytes bs = Some (Ok pk') /\ pk_eq pk' pk = Some r /\ r = false /\
  ecp_pt pk' = pneg1 (ecp_pt pk) /\ pk_as_bytes pk' = Some bs.
Proof.
  destruct (sk_from_bytes_ok sk3035 (be_bytes_bytes _ _) (be_bytes_length _ _)) as (sk & E & _).
  destruct (derive sk3035 sk (be_bytes_bytes _ _) E) as (pk & EP & A & P).
  change (be_int sk3035) with 3035 in P. rewrite <- chain3035 in P.
  destruct (compressed_round_trip pk A) as (bs & pk' & EB & ED & A' & RT & RN).
  pose proof y3035_flag as (F1 & F2 & _). pose proof y3035_nonsq as NS.
  assert (NE : ecp_pt pk' <> ecp_pt pk).
  { intros C. apply RT in C. rewrite P in C. unfold aff in C. destruct C as [C|C]; [apply C; rewrite F1, F2; reflexivity|exact (NS C)]. }
  destruct RN as [RN|RN]; [contradiction|].
  destruct (pk_eq_ok pk' pk A' A) as (r & ER & R). exists sk, pk, bs, pk', r.
  split; [exact E|]. split; [exact EP|]. split; [exact EB|]. split; [exact ED|]. split; [exact ER|].
  split; [destruct r; [exfalso; apply NE, R; reflexivity|reflexivity]|]. split; [exact RN|].
  destruct (as_bytes_ok pk A) as (b1 & E1 & C1). destruct (as_bytes_ok pk' A') as (b2 & E2 & C2).
  rewrite EB in E1. injection E1 as <-. rewrite E2. f_equal. rewrite RN in C2. rewrite P in C1, C2. unfold aff in C1, C2. cbn [pneg] in C2.
  destruct C1 as (x1 & _ & _ & X1 & ->). destruct C2 as (x2 & _ & _ & X2 & ->).
  assert (XN : mkq (fst P3035) <> f0) by (intros G; apply mkq_inj in G; rewrite <- qn_q in G; vm_compute in G; discriminate G).
  rewrite (X1 XN), (X2 XN). unfold g1_code. rewrite F1, F2. reflexivity.
Qed.
(* x = 4 and x = q + 4 *)
Definition y4Z : Z := 0xa989badd40d6212b33cffc3f3763e9bc760f988c9926b26da9dd85e928483446346b8ed00e1de5d5ea93e354abe706c.
Lemma on4 : on1 (Aff (mkq 4) (mkq y4Z)).
Proof. unfold on_curve, fb. rewrite <- !mkq_mul, <- mkq_add. apply mkq_eq. rewrite <- qn_q. vm_compute. reflexivity. Qed.
Lemma mkq_q4 : mkq (q381 + 4) = mkq 4.
Proof. replace (q381 + 4) with (4 + 1 * q381) by lia. apply mkq_add_q. Qed.
Definition b4 : list Z := be_bytes 48 (4 + 2 ^ 383).
Definition b4q : list Z := be_bytes 48 (q381 + 4 + 2 ^ 383).
Lemma decodes_x xv y : 0 <= xv < 2 ^ 381 -> on1 (Aff (mkq xv) y) ->
  exists pk, pk_from_bytes (be_bytes 48 (xv + 2 ^ 383)) = Some (Ok pk) /\ pk_built pk /\ ecp_pt pk = Aff (mkq xv) (dec_y1 (mkq xv) 0).
Proof.
  intros XV ON. set (bs := be_bytes 48 (xv + 2 ^ 383)). assert (IV : be_int bs = xv + 0 * 2 ^ 381 + 2 ^ 383) by (unfold bs; rewrite be_int_48; lia).
  destruct (g1_code_parts xv 0 XV (or_introl eq_refl)) as (P1 & P2 & P3 & P4). rewrite <- IV in P1, P2, P3, P4.
  pose proof (decompress_g1_ok bs _ _ (be_bytes_bytes _ _) (be_bytes_length _ _) eq_refl eq_refl) as D.
  rewrite P3, P4 in D. apply ok_ex in D. destruct D as (r & R & _ & _ & _ & _ & D).
  assert (SQ : is_sq (rhs1 (mkq xv))) by (exists y; symmetry; exact ON). destruct (D P1 ltac:(lia) SQ) as (pk & -> & F & _).
  exists pk. split; [exact R|]. split; [eapply pkb_bytes; [apply be_bytes_bytes|exact R]|].
  eapply ecpR_pt, (ecpF_R 3 _ _ _ ltac:(lia) (dec_y1_on _ _ SQ) F).
Qed.
Lemma q4_lt : 0 <= q381 + 4 < 2 ^ 381. Proof. rewrite <- qn_q. split; [discriminate|reflexivity]. Qed.
Lemma witness_noncanonical : exists pk1 pk2, pk_from_bytes b4 = Some (Ok pk1) /\ pk_from_bytes b4q = Some (Ok pk2) /\
  b4 <> b4q /\ pk_eq pk1 pk2 = Some true /\ pk_as_bytes pk1 = pk_as_bytes pk2 /\ pk_as_bytes pk2 <> Some b4q.
Proof.
  destruct (decodes_x 4 _ ltac:(lia) on4) as (pk1 & E1 & B1 & P1).
  assert (ON : on1 (Aff (mkq (q381 + 4)) (mkq y4Z))) by (rewrite mkq_q4; exact on4).
  destruct (decodes_x (q381 + 4) _ q4_lt ON) as (pk2 & E2 & B2 & P2). rewrite mkq_q4 in P2.
  exists pk1, pk2. split; [exact E1|]. split; [exact E2|]. pose proof (built_adm _ B1) as A1. pose proof (built_adm _ B2) as A2.
  pose proof q381_b381 as QB. pose proof q381_pos as QP. pose proof q4_lt as Q4.
  split; [|split; [|split]].
  - intros C. apply (f_equal be_int) in C. unfold b4, b4q in C. rewrite !be_int_48 in C by lia. lia.
  - destruct (pk_eq_ok pk1 pk2 A1 A2) as (r & ER & R). rewrite ER. f_equal. apply R. congruence.
  - apply equal_same_bytes; [exact A1|exact A2|congruence|]. intros y C. rewrite P1 in C. apply Aff_inj1, mkq_inj in C.
    rewrite <- qn_q in C. vm_compute in C. discriminate C.
  - intros C. apply (recode b4q pk2 _ _ (be_bytes_bytes _ _) E2 P2) in C. destruct C as [C _]. unfold b4q in C.
    rewrite be_int_48 in C by lia. replace (q381 + 4 + 2 ^ 383) with (q381 + 4 + 4 * 2 ^ 381) in C by lia.
    rewrite Z.mod_add, Z.mod_small in C by lia. lia.
Qed.
Definition b4unc : list Z := be_bytes 48 (q381 + 4) ++ be_bytes 48 y4Z.
Lemma witness_unc_noncanonical : exists pk, pk_from_uncompressed_bytes b4unc = Some (Ok pk) /\
  forall pk', pk_as_uncompressed_bytes pk <> Some (b4unc, pk').
Proof.
  assert (BB : bytes b4unc) by (apply Forall_app; split; apply be_bytes_bytes).
  assert (BL : length b4unc = 96%nat) by (unfold b4unc; rewrite app_length, !be_bytes_length; reflexivity).
  pose proof q4_lt as Q4. pose proof q381_b381 as QB. pose proof q381_pos as QP.
  assert (U : q381 + 4 = be_int (firstn 48 b4unc)) by (unfold b4unc; rewrite firstn_app_len by apply be_bytes_length; rewrite be_int_48; lia).
  assert (V : y4Z = be_int (skipn 48 b4unc)) by (unfold b4unc; rewrite skipn_app_len by apply be_bytes_length; rewrite be_int_48; [reflexivity|split; [discriminate|reflexivity]]).
  pose proof (pk_from_unc_ok b4unc _ _ BB BL U V) as D. rewrite mkq_q4 in D. apply ok_ex in D. destruct D as (r & R & _ & _ & D).
  destruct D as (pk & -> & F & _); [lia|exact on4|]. exists pk. split; [exact R|]. intros pk' C.
  pose proof (ecpR_pt _ _ _ _ (ecpF_R 2 _ _ _ ltac:(lia) on4 F)) as P.
  assert (EX : exists pk', pk_as_uncompressed_bytes pk = Some (b4unc, pk')) by (exists pk'; exact C).
  apply (unc_recode b4unc pk _ _ BB R P) in EX. rewrite <- U in EX. lia.
Qed.
(* (0,2), entered with x = 0 and with x = q *)
Definition b0a : list Z := be_bytes 48 0 ++ be_bytes 48 2.
Definition b0b : list Z := be_bytes 48 q381 ++ be_bytes 48 2.
Lemma on02 : on1 (Aff f0 (mkq 2)).
Proof. unfold on_curve, fb. rewrite <- !mkq_mul. transitivity (mkq 4); [reflexivity|ring]. Qed.
Lemma decodes_02 u : (u = 0 \/ u = q381) -> exists pk, pk_from_uncompressed_bytes (be_bytes 48 u ++ be_bytes 48 2) = Some (Ok pk) /\
  pk_built pk /\ ecp_pt pk = Aff f0 (mkq 2) /\ pk_as_bytes pk = Some (g1_code u (fv (mkq 2))).
Proof.
  intros HU. set (bs := be_bytes 48 u ++ be_bytes 48 2). pose proof q381_b381 as QB. pose proof q381_pos as QP.
  assert (BB : bytes bs) by (apply Forall_app; split; apply be_bytes_bytes).
  assert (BL : length bs = 96%nat) by (unfold bs; rewrite app_length, !be_bytes_length; reflexivity).
  assert (U : u = be_int (firstn 48 bs)) by (unfold bs; rewrite firstn_app_len by apply be_bytes_length; rewrite be_int_48; lia).
  assert (V : 2 = be_int (skipn 48 bs)) by (unfold bs; rewrite skipn_app_len by apply be_bytes_length; rewrite be_int_48; lia).
  assert (U0 : mkq u = f0) by (destruct HU as [-> | ->]; [reflexivity|apply mkq_eq; rewrite Z.mod_same, Z.mod_0_l by lia; reflexivity]).
  pose proof (pk_from_unc_ok bs _ _ BB BL U V) as D. rewrite U0 in D. apply ok_ex in D. destruct D as (r & R & _ & _ & D).
  destruct D as (pk & -> & F & LZ); [lia|exact on02|]. exists pk. split; [exact R|]. split; [eapply pkb_unc; [exact BB|exact R]|].
  split; [eapply ecpR_pt, (ecpF_R 2 _ _ _ ltac:(lia) on02 F)|]. rewrite (as_bytes_F 2 _ _ pk F on02) by lia.
  f_equal. f_equal. unfold rval. destruct (Fq_dec f0 f0) as [_|C]; [|contradiction].
  destruct (Z.eqb_spec (lval (fx (ex pk))) 0) as [G|G]; [apply LZ in G; auto|]. destruct HU as [HU|HU]; [|auto].
  exfalso. apply G, LZ, HU.
Qed.
Lemma witness_equal_differ : exists pk1 pk2 bs1 bs2, pk_from_uncompressed_bytes b0a = Some (Ok pk1) /\
  pk_from_uncompressed_bytes b0b = Some (Ok pk2) /\ pk_eq pk1 pk2 = Some true /\
  pk_as_bytes pk1 = Some bs1 /\ pk_as_bytes pk2 = Some bs2 /\ bs1 <> bs2.
Proof.
  destruct (decodes_02 0 (or_introl eq_refl)) as (pk1 & E1 & B1 & P1 & S1).
  destruct (decodes_02 q381 (or_intror eq_refl)) as (pk2 & E2 & B2 & P2 & S2).
  exists pk1, pk2. do 2 eexists. split; [exact E1|]. split; [exact E2|]. split; [|split; [exact S1|split; [exact S2|]]].
  - destruct (pk_eq_ok pk1 pk2 (built_adm _ B1) (built_adm _ B2)) as (r & ER & R). rewrite ER. f_equal. apply R. congruence.
  - intros C. apply (f_equal be_int) in C. pose proof q381_b381 as QB. pose proof q381_pos as QP. rewrite !g1_code_int in C by lia. lia.
Qed.
(* (0,2) and (0,-2) have order 3 *)
Lemma order3 y : on1 (Aff f0 y) -> zm1 3 (Aff f0 y) = Inf.
Proof.
  intros ON. pose proof (on1_y _ _ ON) as YN. change 3 with (2 + 1). rewrite zm1_add, zm1_1, zm1_2 by exact ON.
  pose proof two_nz as TN. assert (NE : y <> fopp y).
  { intros E. assert (T : fmul (fadd f1 f1) y = f0) by (transitivity (fsub y (fopp y)); [ring|rewrite <- E; ring]).
    apply fq_integral in T. tauto. }
  assert (D : padd1 (Aff f0 y) (Aff f0 y) = Aff f0 (fopp y)).
  { unfold padd. destruct (Fq_dec f0 f0) as [_|C]; [|contradiction]. destruct (Fq_dec y (fopp y)) as [C|_]; [contradiction|].
    set (t := fadd f1 f1) in *. set (t3 := fadd t f1). clearbody t3 t.
    assert (L0 : fdiv (fmul t3 (fmul f0 f0)) (fmul t y) = f0) by (field; split; assumption). rewrite L0. unfold line_sum.
    apply (f_equal2 Aff); ring. }
  rewrite D. unfold padd. destruct (Fq_dec f0 f0) as [_|C]; [|contradiction].
  destruct (Fq_dec (fopp y) (fopp y)) as [_|C]; [reflexivity|contradiction].
Qed.
Lemma r255_mod3 : r255 mod 3 = 1. Proof. vm_compute. reflexivity. Qed.
Lemma witness_subgroup : exists pk, pk_from_bytes (128 :: repeat 0 47) = Some (Ok pk) /\ zm1 r255 (ecp_pt pk) <> Inf.
Proof.
  destruct (decodes_x 0 _ ltac:(lia) on02) as (pk & E & B & P).
  exists pk. split; [rewrite <- E; f_equal; vm_compute; reflexivity|]. change (mkq 0) with f0 in P.
  pose proof (adm_on _ (built_adm _ B)) as ON. rewrite P in ON |- *.
  rewrite <- (zm1_mod r255 3 _ ON (order3 _ ON)) by lia. rewrite r255_mod3, zm1_1. discriminate.
Qed.
