(* Keys that differ by a point of order 3, keys of order 3, and rogue keys. *)
From Coq Require Import ZArith List Bool Lia Znumtheory Permutation Field.
From Verif Require Import Prim Rom Big Fp Fp2 Fp4 Fp12 Ecp Ecp2 Pair Utils Api PrimP BigP BigP2 SpecBytes BigP3 BigP4 BigP5 NumT FieldQ FieldQ2 FpP FpP2
  SkP SpecCurve CurveP GroupP JacobiM JacP Fp2P Sqrt2P WinP EcpP EcpC Ecp2P Denote GenP KeysP KeysP2 KeysP3 BigL LayerP Ecp2C MapP SigsP SigsP2
  Tower TowerP Fp4P Fp12P SpecPairing LineP PairP PairP2 PairP3 MillerP MillerP2 MillerP3 PsiP BilinP TwistP RootP VerifyP VerifyP2 VerifyP3 VerifyP5.
Import ListNotations.
Open Scope Z_scope.

Lemma root3 x : kpw x 3 = k1 -> kpw x r255 = k1 -> x = k1.
Proof.
  intros A B. pose proof r255_pos as RP. assert (E : r255 = 1 + 3 * (r255 / 3)) by (vm_compute; reflexivity).
  rewrite E, kpw_add, kpw_mul, A, kpw_one in B by (first [lia|apply Z.div_pos; lia|apply Z.mul_nonneg_nonneg; [lia|apply Z.div_pos; lia]]).
  rewrite kpw_1 in B. rewrite <- B. ring.
Qed.
Lemma pairing_order3 H y : eigen H -> on1 (Aff f0 y) -> pairing H (Aff f0 y) = k1.
Proof.
  intros E O. apply root3; [|apply (pairing_r H _ (proj1 E) O)].
  rewrite <- (pairing_zm_r 3 H _ ltac:(lia) E O), (order3 y O). apply pairing_inf_r.
Qed.
(* infinity and the two points of order 3 with x = 0 *)
Definition small (K : pt1) : Prop := match K with Inf => True | Aff x _ => x = f0 end.
Lemma zero_case_small H K : zero_case H K <-> H = Inf /\ small K.
Proof. reflexivity. Qed.
Lemma small_cases y K : on1 (Aff f0 y) -> on1 K -> small K -> K = Inf \/ K = Aff f0 y \/ K = pneg1 (Aff f0 y).
Proof.
  intros O OK S1. destruct K as [|a b]; [left; reflexivity|right]. cbn [small] in S1. subst a.
  destruct (on1_two _ _ _ O OK) as [E|E]; rewrite E; [left; reflexivity|right; reflexivity].
Qed.
Lemma dbl3 y : on1 (Aff f0 y) -> padd1 (Aff f0 y) (Aff f0 y) = pneg1 (Aff f0 y).
Proof.
  intros O. set (T := Aff f0 y) in *. rewrite <- zm1_2. pose proof (order3 y O) as E. fold T in E.
  change 2 with (3 + - (1)). rewrite (zm1_add 3 (- (1)) T O), E, (zm1_opp 1 T O), zm1_1. reflexivity.
Qed.
Lemma small_shift y K : on1 (Aff f0 y) -> on1 K -> small K -> small (padd1 K (Aff f0 y)).
Proof.
  intros O OK S1. destruct (small_cases y K O OK S1) as [-> | [-> | ->]].
  - reflexivity.
  - rewrite (dbl3 y O). reflexivity.
  - rewrite padd1_comm, padd1_neg by (first [exact O|apply pneg1_on, O]). exact I.
Qed.
Lemma shift_back y K : on1 (Aff f0 y) -> on1 K -> K = padd1 (padd1 (padd1 K (Aff f0 y)) (Aff f0 y)) (Aff f0 y).
Proof.
  intros O OK. set (T := Aff f0 y) in *. rewrite (padd1_assoc (padd1 K T) T T), (padd1_assoc K T (padd1 T T)) by (repeat apply padd1_on; assumption).
  assert (E : padd1 T (padd1 T T) = Inf).
  { unfold T at 2 3. rewrite (dbl3 y O). fold T. apply padd1_neg, O. }
  rewrite E. symmetry. apply padd1_0r.
Qed.
Lemma small_iff y K : on1 (Aff f0 y) -> on1 K -> (small (padd1 K (Aff f0 y)) <-> small K).
Proof.
  intros O OK. split; [|apply small_shift; assumption]. intros S1. rewrite (shift_back y K O OK).
  pose proof (padd1_on _ _ OK O) as O1. pose proof (padd1_on _ _ O1 O) as O2.
  apply small_shift; [exact O|exact O2|]. apply small_shift; [exact O|exact O1|exact S1].
Qed.
Lemma shift_equation S1 H K y : eigen H -> on1 (Aff f0 y) -> on1 K ->
  (pairing_equation S1 H (padd1 K (Aff f0 y)) /\ ~ zero_case H (padd1 K (Aff f0 y)) <-> pairing_equation S1 H K /\ ~ zero_case H K).
Proof.
  intros E O OK. unfold pairing_equation. rewrite (pairing_add_r H K _ E OK O), (pairing_order3 H y E O).
  assert (M : kmul (pairing H K) k1 = pairing H K) by ring. rewrite M. clear M.
  assert (Z0 : zero_case H (padd1 K (Aff f0 y)) <-> zero_case H K).
  { pose proof (small_iff y K O OK) as Q. generalize dependent (padd1 K (Aff f0 y)). intros K' Q.
    exact (and_iff_compat_l (H = Inf) Q). }
  generalize (pairing H K). intros x. exact (and_iff_compat_l _ (not_iff_compat Z0)).
Qed.
Lemma third_key : exists bs t y, bytes bs /\ bs = 128 :: repeat 0 47 /\ pk_from_bytes bs = Some (Ok t) /\ ecp_pt t = Aff f0 y /\ on1 (Aff f0 y).
Proof.
  destruct (decodes_x 0 _ ltac:(lia) on02) as (pk & E & B & P). pose proof (adm_on _ (built_adm _ B)) as ON. change (mkq 0) with f0 in P. rewrite P in ON.
  exists (128 :: repeat 0 47), pk, (dec_y1 f0 0). split.
  { apply Forall_cons; [lia|]. apply Forall_forall. intros x IN. apply repeat_spec in IN. lia. }
  split; [reflexivity|]. split; [rewrite <- E; f_equal; vm_compute; reflexivity|]. split; [exact P|exact ON].
Qed.
Lemma shifted_key : forall pk, pk_built pk -> exists t pk', pk_from_bytes (128 :: repeat 0 47) = Some (Ok t) /\ apk_add pk t = Some pk' /\ pk_built pk' /\
  pk_eq pk pk' = Some false /\
  forall hash s msg d, digests hash -> 0 <= d < 2 ^ 64 -> hash_findable hash msg d -> sig_built hash s ->
    sig_verify hash s msg d pk' = sig_verify hash s msg d pk.
Proof.
  intros pk PB. destruct third_key as (bs & t & y & BB & -> & TE & TP & O). pose proof (pkb_bytes _ _ BB TE) as TB.
  pose proof (built_adm _ PB) as AP. destruct (apk_add_adm pk t AP (built_adm _ TB)) as (pk' & PE & PA & PP). rewrite TP in PP.
  pose proof (pkb_add pk t pk' PB TB PE) as PB'. pose proof (adm_on _ AP) as OK.
  exists t, pk'. split; [exact TE|]. split; [exact PE|]. split; [exact PB'|]. split.
  - destruct (pk_eq_ok pk pk' AP PA) as (e & EE & EW). rewrite EE. f_equal. destruct e; [|reflexivity]. exfalso.
    pose proof (proj1 EW eq_refl) as C. rewrite PP in C.
    assert (Z0 : padd1 (pneg1 (ecp_pt pk)) (ecp_pt pk) = padd1 (pneg1 (ecp_pt pk)) (padd1 (ecp_pt pk) (Aff f0 y))) by (f_equal; exact C).
    rewrite <- padd1_assoc in Z0 by (first [exact OK|exact O|apply pneg1_on, OK]).
    rewrite (padd1_comm (pneg1 (ecp_pt pk)) (ecp_pt pk)), (padd1_neg _ OK) in Z0 by (first [exact OK|apply pneg1_on, OK]). discriminate Z0.
  - intros hash s msg d HD D F SB.
    destruct (verify_equation hash s msg d pk HD D F SB PB) as (h & r & E & V & W).
    destruct (verify_equation hash s msg d pk' HD D F SB PB') as (h' & r' & E' & V' & W'). rewrite E in E'. injection E' as <-.
    rewrite V, V'. f_equal. apply eq_true_iff_eq. rewrite W, W', PP. apply shift_equation; [exact (hash_eigen hash msg d h HD D F E)|exact O|exact OK].
Qed.
(* a key of order 3 accepts the signature at infinity *)
Lemma infinity_bytes : bytes (192 :: repeat 0 95).
Proof. apply Forall_cons; [lia|]. apply Forall_forall. intros x IN. apply repeat_spec in IN. lia. Qed.
Lemma low_order_key : exists pk s, pk_from_bytes (128 :: repeat 0 47) = Some (Ok pk) /\ ecp_pt pk <> Inf /\
  sig_from_bytes (192 :: repeat 0 95) = Some (Ok s) /\
  forall hash msg d h, digests hash -> 0 <= d < 2 ^ 64 -> hash_findable hash msg d -> hash_on_g2 hash msg d = Some h -> ecp2_pt h <> Inf ->
    sig_verify hash s msg d pk = Some true.
Proof.
  destruct third_key as (bs & t & y & BB & -> & TE & TP & O). destruct (proj2 (sig_infinity_decoding _ infinity_bytes) eq_refl) as (s & S1 & P).
  exists t, s. split; [exact TE|]. split; [rewrite TP; discriminate|]. split; [exact S1|]. intros hash msg d h HD D F E N.
  destruct (verify_equation hash s msg d t HD D F (sgb_bytes hash _ s infinity_bytes S1) (pkb_bytes _ _ BB TE)) as (h' & r & E' & V & W).
  rewrite E in E'. injection E' as <-. rewrite V. f_equal. apply W. split; [|intros [C _]; contradiction].
  unfold pairing_equation. rewrite P, TP, (pairing_inf_l G1gen G1gen_on). symmetry. apply pairing_order3; [exact (hash_eigen hash msg d h HD D F E)|exact O].
Qed.

(* ------------------------- rogue keys ----------------------------------- *)
Lemma encodable K : on1 K -> exists bs pk, bytes bs /\ pk_from_uncompressed_bytes bs = Some (Ok pk) /\ ecp_pt pk = K.
Proof.
  intros O. pose proof q381_b381 as QB. destruct K as [|x y].
  - exists (repeat 0 96). assert (B : bytes (repeat 0 96)) by (apply Forall_forall; intros x IN; apply repeat_spec in IN; lia).
    destruct (unc_class (repeat 0 96) B) as (r & R & _ & C & _). destruct C as (pk & -> & P); [apply repeat_length| |].
    { apply Forall_forall. intros x IN. apply repeat_spec in IN. symmetry. exact IN. }
    exists pk. split; [exact B|]. split; [exact R|exact P].
  - set (bs := be_bytes 48 (fv x) ++ be_bytes 48 (fv y)). exists bs.
    pose proof (fv_range x) as RX. pose proof (fv_range y) as RY.
    assert (B : bytes bs) by (apply Forall_app; split; apply be_bytes_bytes).
    assert (BL : length bs = 96%nat) by (unfold bs; rewrite app_length, !be_bytes_length; reflexivity).
    assert (U : be_int (firstn 48 bs) = fv x) by (unfold bs; rewrite firstn_app_len by apply be_bytes_length; rewrite be_int_48; lia).
    assert (V : be_int (skipn 48 bs) = fv y) by (unfold bs; rewrite skipn_app_len by apply be_bytes_length; rewrite be_int_48; lia).
    destruct (unc_class bs B) as (r & R & _ & C0 & C). rewrite U, V, !mkq_fv in C.
    assert (NZ : ~ Forall (eq 0) bs).
    { intros Z0. assert (Y0 : fv y = 0).
      { rewrite <- V. assert (ZS : skipn 48 bs = repeat 0 48).
        { unfold bs. rewrite skipn_app_len by apply be_bytes_length. unfold bs in Z0. apply Forall_app in Z0. destruct Z0 as [_ Z0].
          assert (L : length (be_bytes 48 (fv y)) = 48%nat) by apply be_bytes_length. revert L Z0. generalize (be_bytes 48 (fv y)) as l. generalize 48%nat as n.
          induction n as [|n IH]; intros l L Z0; destruct l as [|c l]; try discriminate L; [reflexivity|]. apply Forall_cons_iff in Z0. destruct Z0 as [<- Z0].
          cbn [repeat]. f_equal. apply IH; [cbn [length] in L; lia|exact Z0]. }
        rewrite ZS. vm_compute. reflexivity. }
      apply (on1_y _ _ O). apply fv_zero. exact Y0. }
    destruct (C BL NZ) as [C1 _]. destruct (C1 O) as (pk & -> & P). exists pk. split; [exact B|]. split; [exact R|exact P].
Qed.
Lemma rogue_key : forall victim b sk, pk_built victim -> bytes b -> sk_from_bytes b = Some (Ok sk) -> be_int b mod r255 <> 0 ->
  exists bs rogue apk, bytes bs /\ pk_from_uncompressed_bytes bs = Some (Ok rogue) /\ apk_from_public_keys [victim; rogue] = Some apk /\
  forall hash msg d s agg, digests hash -> 0 <= d < 2 ^ 64 -> hash_findable hash msg d -> sig_new hash msg d sk = Some s -> asig_of [s] agg ->
    asig_verify hash agg msg d apk = Some true.
Proof.
  intros victim b sk VB B SK N. pose proof (built_adm _ VB) as VA. pose proof (adm_on _ VA) as VO. pose proof (zm1_on (be_int b) _ G1gen_on) as GO.
  destruct (encodable (padd1 (zm1 (be_int b) G1gen) (pneg1 (ecp_pt victim)))) as (bs & rogue & BB & RE & RP).
  { apply padd1_on; [exact GO|apply pneg1_on, VO]. }
  pose proof (pkb_unc _ _ BB RE) as RB. pose proof (built_adm _ RB) as RA.
  destruct apk_new_adm as (n & NE & NA & NP). destruct (apk_fold [victim; rogue] n NA (Forall_cons _ VA (Forall_cons _ RA (Forall_nil _)))) as (apk & FE & _).
  assert (AE : apk_from_public_keys [victim; rogue] = Some apk) by (unfold apk_from_public_keys; rewrite NE; exact FE).
  pose proof (apk_of_keys _ _ AE) as AO.
  destruct (apk_of_sum _ _ AO (Forall_cons _ VA (Forall_cons _ RA (Forall_nil _)))) as [_ AP].
  assert (AV : ecp_pt apk = zm1 (be_int b) G1gen).
  { rewrite AP. unfold psum. cbn [map fold_right]. rewrite padd1_0r, RP, (padd1_comm (zm1 (be_int b) G1gen)) by (first [exact GO|apply pneg1_on, VO]).
    rewrite <- padd1_assoc, padd1_neg by (first [exact VO|exact GO|apply pneg1_on, VO]). reflexivity. }
  pose proof (apk_of_built _ _ AO (Forall_cons _ VB (Forall_cons _ RB (Forall_nil _)))) as AB.
  exists bs, rogue, apk. split; [exact BB|]. split; [exact RE|]. split; [exact AE|]. intros hash msg d s agg HD D F SE AG.
  pose proof (sgb_new hash msg d b sk s D B SK SE) as SB. pose proof (asig_of_built hash _ _ AG (Forall_cons _ SB (Forall_nil _))) as GB.
  destruct (asig_of_sum _ _ AG (Forall_cons _ (sig_built_adm hash s HD SB) (Forall_nil _))) as [_ GP]. cbn [map] in GP. rewrite psum2_one in GP.
  destruct (hash_R hash msg d HD D F) as (h & H & E & R & G). destruct (signing_A hash msg d h H b sk B SK E R) as (s' & ES & AS).
  rewrite SE in ES. injection ES as <-. rewrite (ecp2R_pt _ _ _ _ (ecp2A_R _ _ _ _ AS)) in GP.
  destruct (aggregate_verify_equation hash agg msg d apk HD D F GB AB) as (h' & r & E' & V & W). rewrite E in E'. injection E' as <-.
  rewrite V. f_equal. apply W. rewrite GP, AV, (ecp2R_pt _ _ _ _ R). pose proof (proj1 (be_int_range b B)) as BP.
  split; [exact (key_bilinear H _ G BP)|apply gen_regular, N].
Qed.
Lemma shifted_keys : exists t, pk_from_bytes (128 :: repeat 0 47) = Some (Ok t) /\
  forall pk, pk_built pk -> exists pk', apk_add pk t = Some pk' /\ pk_built pk' /\ pk_eq pk pk' = Some false /\
  forall hash s msg d, digests hash -> 0 <= d < 2 ^ 64 -> hash_findable hash msg d -> sig_built hash s ->
    sig_verify hash s msg d pk' = sig_verify hash s msg d pk.
Proof.
  destruct third_key as (bs & t & y & BB & -> & TE & TP & O). exists t. split; [exact TE|]. intros pk PB.
  destruct (shifted_key pk PB) as (t' & pk' & TE' & H). rewrite TE in TE'. injection TE' as <-. exists pk'. exact H.
Qed.
