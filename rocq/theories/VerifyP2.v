(* Verification theorems: soundness of the check against the pairing equation, honest
   signatures, aggregates and multi-message aggregates. *)
From Coq Require Import ZArith List Bool Lia Znumtheory Permutation Field.
From Verif Require Import Prim Rom Big Fp Fp2 Fp4 Fp12 Ecp Ecp2 Pair Utils Api PrimP BigP BigP2 SpecBytes BigP3 BigP4 BigP5 NumT FieldQ FieldQ2 FpP FpP2
  SkP SpecCurve CurveP GroupP JacobiM JacP Fp2P Sqrt2P WinP EcpP EcpC Ecp2P Denote GenP KeysP KeysP2 KeysP3 BigL LayerP Ecp2C MapP SigsP SigsP2
  Tower TowerP Fp4P Fp12P SpecPairing LineP PairP PairP2 PairP3 MillerP MillerP2 MillerP3 PsiP BilinP TwistP VerifyP.
Import ListNotations.
Open Scope Z_scope.

(* the group of order r in which signatures of the scheme lie *)
Definition in_subgroup (p : pt2) : Prop := nmul2 (Z.to_nat r255) p = Inf.
Lemma sub_zm p : in_subgroup p <-> zm2 r255 p = Inf.
Proof. unfold in_subgroup. rewrite zm2_nmul by (vm_compute; discriminate). reflexivity. Qed.
#[global] Opaque in_subgroup.
Lemma sub_eigen p : on2 p -> in_subgroup p -> eigen p.
Proof. intros O S1. exact (proj2 (eigen_iff p) (conj O (proj1 (sub_zm p) S1))). Qed.

(* ------------------------- single signatures --------------------------- *)
Lemma hash_subgroup : forall hash msg d, digests hash -> 0 <= d < 2 ^ 64 -> hash_findable hash msg d ->
  exists h, hash_on_g2 hash msg d = Some h /\ on2 (ecp2_pt h) /\ in_subgroup (ecp2_pt h).
Proof.
  intros hash msg d HD D F. destruct (hash_R hash msg d HD D F) as (h & H & E & R & G). exists h. split; [exact E|].
  rewrite (ecp2R_pt _ _ _ _ R). split; [exact (proj1 G)|]. exact (proj2 (sub_zm H) (eigen_r H G)).
Qed.
Lemma map_subgroup : forall re im, bytes re -> bytes im -> (48 <= length re)%nat -> (48 <= length im)%nat -> findable re im ->
  exists h, map_to_g2 re im = Some h /\ on2 (ecp2_pt h) /\ in_subgroup (ecp2_pt h).
Proof.
  intros re im BR BI LR LI F. destruct (map_R re im BR BI LR LI F) as (h & H & E & R & G). exists h. split; [exact E|].
  rewrite (ecp2R_pt _ _ _ _ R). split; [exact (proj1 G)|]. exact (proj2 (sub_zm H) (eigen_r H G)).
Qed.
Definition pairing_equation (P H : pt2) (K : pt1) : Prop := pairing P G1gen = pairing H K.
Lemma check_built hash s pk h H : digests hash -> sig_built hash s -> pk_built pk -> ecp2R 1 17 H h -> eigen H ->
  ok (h' <- ecp2_affine h ;; pairing_check s h' pk) (fun r => r = true <-> pairing_equation (ecp2_pt s) H (ecp_pt pk) /\ ~ zero_case H (ecp_pt pk)).
Proof.
  intros HD SB PB R G. destruct (sig_built_A hash s HD SB) as (P & A). destruct (pk_built_X pk PB) as (K & X & XR).
  rewrite (ecp2R_pt _ _ _ _ (ecp2A_R _ _ _ _ A)) . rewrite (ecpR_pt _ _ _ _ XR).
  eapply ok_bind; [eapply ecp2_affine_ok; [exact R|lia|lia]|]. intros h' H1.
  eapply pairing_check_ok; [exact A|exact H1|exact X|exact (eigen_ok H _ G)|lia..].
Qed.
Lemma verify_equation : forall hash s msg d pk, digests hash -> 0 <= d < 2 ^ 64 -> hash_findable hash msg d ->
  sig_built hash s -> pk_built pk ->
  exists h r, hash_on_g2 hash msg d = Some h /\ sig_verify hash s msg d pk = Some r /\
    (r = true <-> pairing_equation (ecp2_pt s) (ecp2_pt h) (ecp_pt pk) /\ ~ zero_case (ecp2_pt h) (ecp_pt pk)).
Proof.
  intros hash s msg d pk HD D F SB PB. destruct (hash_R hash msg d HD D F) as (h & H & E & R & G). exists h.
  destruct (ok_ex _ _ (check_built hash s pk h H HD SB PB R G)) as (r & V & W). exists r. split; [exact E|].
  rewrite (ecp2R_pt _ _ _ _ R). split; [|exact W]. unfold sig_verify. rewrite E. exact V.
Qed.
Lemma verify_hashed_equation : forall hash s re im pk, digests hash -> bytes re -> bytes im -> (48 <= length re)%nat -> (48 <= length im)%nat -> findable re im ->
  sig_built hash s -> pk_built pk ->
  exists h r, map_to_g2 re im = Some h /\ sig_verify_hashed s re im pk = Some r /\
    (r = true <-> pairing_equation (ecp2_pt s) (ecp2_pt h) (ecp_pt pk) /\ ~ zero_case (ecp2_pt h) (ecp_pt pk)).
Proof.
  intros hash s re im pk HD BR BI LR LI F SB PB. destruct (map_R re im BR BI LR LI F) as (h & H & E & R & G). exists h.
  destruct (ok_ex _ _ (check_built hash s pk h H HD SB PB R G)) as (r & V & W). exists r. split; [exact E|].
  rewrite (ecp2R_pt _ _ _ _ R). split; [|exact W]. unfold sig_verify_hashed. rewrite E. exact V.
Qed.
Lemma aggregate_verify_equation : forall hash s msg d pk, digests hash -> 0 <= d < 2 ^ 64 -> hash_findable hash msg d ->
  sig_built hash s -> pk_built pk ->
  exists h r, hash_on_g2 hash msg d = Some h /\ asig_verify hash s msg d pk = Some r /\
    (r = true <-> pairing_equation (ecp2_pt s) (ecp2_pt h) (ecp_pt pk) /\ ~ zero_case (ecp2_pt h) (ecp_pt pk)).
Proof.
  intros hash s msg d pk HD D F SB PB. destruct (hash_R hash msg d HD D F) as (h & H & E & R & G). exists h.
  destruct (sig_built_A hash s HD SB) as (P & A). destruct (pk_built_X pk PB) as (K & X & XR).
  assert (M : ok (asig_verify hash s msg d pk) (fun r => r = true <-> pairing_equation P H K /\ ~ zero_case H K)).
  { unfold asig_verify. eapply ok_bind; [eapply ecp2_affine_ok; [apply ecp2A_R; exact A|lia|lia]|]. intros sp S1.
    eapply ok_bind; [eapply ecp_affine_ok; [exact XR|lia|lia]|]. intros kp K1. rewrite E. cbn [bind].
    eapply ok_bind; [eapply ecp2_affine_ok; [exact R|lia|lia]|]. intros h' H1.
    eapply pairing_check_ok; [exact S1|exact H1|apply ecpA_X; exact K1|exact (eigen_ok H _ G)|lia..]. }
  destruct (ok_ex _ _ M) as (r & V & W). exists r. split; [exact E|]. split; [exact V|].
  rewrite (ecp2R_pt _ _ _ _ R), (ecp2R_pt _ _ _ _ (ecp2A_R _ _ _ _ A)), (ecpR_pt _ _ _ _ XR). exact W.
Qed.

(* ------------------------- honest signatures --------------------------- *)
(* the generator's multiples have x <> 0 *)
Lemma gen_regular H v : v mod r255 <> 0 -> ~ zero_case H (zm1 v G1gen).
Proof.
  intros V [_ C]. pose proof (zm1_on v G1gen G1gen_on) as ON. pose proof (zm1_inj v 0) as INJ. rewrite zm1_0 in INJ.
  assert (RK : zm1 r255 (zm1 v G1gen) = Inf).
  { rewrite <- (zm1_mul r255 v G1gen G1gen_on), Z.mul_comm, (zm1_mul v r255 G1gen G1gen_on), G1gen_order. apply zm1_zero. }
  assert (NI : zm1 v G1gen <> Inf) by (intros E; apply V; rewrite (INJ E); reflexivity).
  destruct (zm1 v G1gen) as [|x y]; [apply NI; reflexivity|]. rewrite C in *. apply NI.
  apply (bez1 3 r255 _ ON (order3 y ON) RK). vm_compute. reflexivity.
Qed.
Lemma key_bilinear H v : eigen H -> 0 <= v -> pairing (zm2 v H) G1gen = pairing H (zm1 v G1gen).
Proof.
  intros G V. rewrite (pairing_zm_l v H G1gen V G G1gen_on), (pairing_zm_r v H G1gen V G G1gen_on). reflexivity.
Qed.
Lemma zero_case_inf H v : v mod r255 = 0 -> (zero_case H (zm1 v G1gen) <-> H = Inf).
Proof.
  intros V. assert (E : zm1 v G1gen = Inf) by (rewrite (zm1_cong v 0); [apply zm1_0|rewrite V; reflexivity]). rewrite E.
  unfold zero_case. split; [intros [A _]; exact A|intros A; split; [exact A|exact I]].
Qed.
Lemma zero_case_iff H v : zero_case H (zm1 v G1gen) <-> H = Inf /\ v mod r255 = 0.
Proof.
  destruct (Z.eq_dec (v mod r255) 0) as [V|V]; [rewrite (zero_case_inf H v V); tauto|].
  split; [intros C; exfalso; exact (gen_regular H v V C)|intros [_ C]; contradiction].
Qed.
(* the exact verdict on the signature and key of a sum of secret keys *)
Lemma honest_iff H v : eigen H -> 0 <= v ->
  (pairing_equation (zm2 v H) H (zm1 v G1gen) /\ ~ zero_case H (zm1 v G1gen) <-> ~ (H = Inf /\ v mod r255 = 0)).
Proof.
  intros G V. rewrite (zero_case_iff H v). split; [intros [_ N]; exact N|]. intros N. split; [exact (key_bilinear H v G V)|exact N].
Qed.
Lemma honest_verdict : forall hash msg d b sk, digests hash -> 0 <= d < 2 ^ 64 -> hash_findable hash msg d -> bytes b -> sk_from_bytes b = Some (Ok sk) ->
  exists h s pk r, hash_on_g2 hash msg d = Some h /\ sig_new hash msg d sk = Some s /\ pk_from_secret_key sk = Some pk /\
    sig_verify hash s msg d pk = Some r /\ (r = true <-> ~ (ecp2_pt h = Inf /\ be_int b mod r255 = 0)).
Proof.
  intros hash msg d b sk HD D F B SK. destruct (hash_R hash msg d HD D F) as (h & H & E & R & G).
  destruct (signing_A hash msg d h H b sk B SK E R) as (s & ES & AS). destruct (derive b sk B SK) as (pk & EK & _ & PK).
  pose proof (sgb_new hash msg d b sk s D B SK ES) as SB. pose proof (pkb_secret b sk pk B SK EK) as PB.
  pose proof (ecp2R_pt _ _ _ _ (ecp2A_R _ _ _ _ AS)) as PS.
  destruct (verify_equation hash s msg d pk HD D F SB PB) as (h' & r & E' & V & W).
  rewrite E in E'. injection E' as <-. exists h, s, pk, r. split; [exact E|]. split; [exact ES|]. split; [exact EK|]. split; [exact V|].
  rewrite W, PS, PK, (ecp2R_pt _ _ _ _ R). apply (honest_iff H _ G). apply (be_int_range b B).
Qed.
Lemma honest_verifies : forall hash msg d b sk, digests hash -> 0 <= d < 2 ^ 64 -> hash_findable hash msg d -> bytes b -> sk_from_bytes b = Some (Ok sk) ->
  be_int b mod r255 <> 0 ->
  exists s pk, sig_new hash msg d sk = Some s /\ pk_from_secret_key sk = Some pk /\ sig_verify hash s msg d pk = Some true.
Proof.
  intros hash msg d b sk HD D F B SK N. destruct (honest_verdict hash msg d b sk HD D F B SK) as (h & s & pk & r & _ & A & K & V & W).
  exists s, pk. split; [exact A|]. split; [exact K|]. rewrite V. f_equal. apply W. intros [_ C]. contradiction.
Qed.
Lemma honest_verdict_hashed : forall re im b sk, bytes re -> bytes im -> (48 <= length re)%nat -> (48 <= length im)%nat -> findable re im ->
  bytes b -> sk_from_bytes b = Some (Ok sk) ->
  exists h s pk r, map_to_g2 re im = Some h /\ sig_new_hashed re im sk = Some s /\ pk_from_secret_key sk = Some pk /\
    sig_verify_hashed s re im pk = Some r /\ (r = true <-> ~ (ecp2_pt h = Inf /\ be_int b mod r255 = 0)).
Proof.
  intros re im b sk BR BI LR LI F B SK. destruct (map_R re im BR BI LR LI F) as (h & H & E & R & G).
  destruct (signing_hashed_A re im h H b sk B SK E R) as (s & ES & AS). destruct (derive b sk B SK) as (pk & EK & _ & PK).
  set (hash := fun _ : list Z => repeat 0 32).
  assert (HD : digests hash).
  { intros m. split; [|apply repeat_length]. apply Forall_forall. intros x IN. apply repeat_spec in IN. lia. }
  pose proof (sgb_hashed hash re im b sk s BR BI B SK ES) as SB. pose proof (pkb_secret b sk pk B SK EK) as PB.
  pose proof (ecp2R_pt _ _ _ _ (ecp2A_R _ _ _ _ AS)) as PS.
  destruct (verify_hashed_equation hash s re im pk HD BR BI LR LI F SB PB) as (h' & r & E' & V & W).
  rewrite E in E'. injection E' as <-. exists h, s, pk, r. split; [exact E|]. split; [exact ES|]. split; [exact EK|]. split; [exact V|].
  rewrite W, PS, PK, (ecp2R_pt _ _ _ _ R). apply (honest_iff H _ G). apply (be_int_range b B).
Qed.

(* ------------------------- aggregates ---------------------------------- *)
Lemma apk_fold_built ks : forall a s, pk_built a -> Forall pk_built ks -> foldM apk_add ks a = Some s -> pk_built s.
Proof.
  induction ks as [|k ks IH]; intros a s A K E; cbn [foldM] in E; [injection E as <-; exact A|].
  apply Forall_cons_iff in K. destruct K as [K KS]. destruct (apk_add a k) as [c|] eqn:EC; [|discriminate E]. cbn [bind] in E.
  apply (IH c s); [exact (pkb_add a k c A K EC)|exact KS|exact E].
Qed.
Lemma apk_of_built ks a : apk_of ks a -> Forall pk_built ks -> pk_built a.
Proof.
  induction 1 as [a H|ks a H|ks a k b H IH E|ks ls a b c H1 IH1 H2 IH2 E]; intros K.
  - exact (pkb_new a H).
  - unfold apk_from_public_keys in H. destruct apk_new as [n|] eqn:EN; [|discriminate H]. cbn [bind] in H.
    exact (apk_fold_built ks n a (pkb_new n EN) K H).
  - apply Forall_app in K. destruct K as [K1 K2]. exact (pkb_add a k b (IH K1) (Forall_inv K2) E).
  - apply Forall_app in K. destruct K as [K1 K2]. exact (pkb_add_agg a b c (IH1 K1) (IH2 K2) E).
Qed.
Lemma asig_of_built hash ks a : asig_of ks a -> Forall (sig_built hash) ks -> sig_built hash a.
Proof.
  induction 1 as [a H|ks a k b H IH E|ks ls a b c H1 IH1 H2 IH2 E]; intros K.
  - exact (sgb_empty hash a H).
  - apply Forall_app in K. destruct K as [K1 K2]. exact (sgb_add hash a k b (IH K1) (Forall_inv K2) E).
  - apply Forall_app in K. destruct K as [K1 K2]. exact (sgb_add_agg hash a b c (IH1 K1) (IH2 K2) E).
Qed.
Lemma derived_built bs pks : derived_keys bs pks -> Forall pk_built pks.
Proof. induction 1 as [|b sk pk bs pks B S1 P D IH]; constructor; [exact (pkb_secret b sk pk B S1 P)|exact IH]. Qed.
Lemma signatures_built hash msg d bs ss : 0 <= d < 2 ^ 64 -> hash_findable hash msg d -> signatures_on hash msg d bs ss -> Forall (sig_built hash) ss.
Proof. intros D F. induction 1 as [|b sk s bs ss B SK S1 _ IH]; constructor; [exact (sgb_new hash msg d b sk s D B SK S1)|exact IH]. Qed.
Lemma signatures_bytes hash msg d bs ss : signatures_on hash msg d bs ss -> Forall bytes bs.
Proof. induction 1; constructor; assumption. Qed.
Lemma sum_nonneg bs : Forall bytes bs -> 0 <= fold_right Z.add 0 (map be_int bs).
Proof. induction 1 as [|b bs B _ IH]; cbn [map fold_right]; [lia|]. pose proof (be_int_range b B). lia. Qed.
Lemma sum_perm bs cs : Permutation bs cs -> fold_right Z.add 0 (map be_int bs) = fold_right Z.add 0 (map be_int cs).
Proof. induction 1; cbn [map fold_right]; lia. Qed.
Lemma aggregate_verdict : forall hash msg d bs ss agg cs pks apk, digests hash -> 0 <= d < 2 ^ 64 -> hash_findable hash msg d ->
  signatures_on hash msg d bs ss -> asig_of ss agg -> Permutation bs cs -> derived_keys cs pks -> apk_of pks apk ->
  exists h r, hash_on_g2 hash msg d = Some h /\ asig_verify hash agg msg d apk = Some r /\
    (r = true <-> ~ (ecp2_pt h = Inf /\ fold_right Z.add 0 (map be_int bs) mod r255 = 0)).
Proof.
  intros hash msg d bs ss agg cs pks apk HD D F SO AG PM DK AK. destruct (hash_R hash msg d HD D F) as (h & H & E & R & G).
  pose proof (ecp2R_pt _ _ _ _ R) as HP. assert (HA : adm2 h) by (apply (R17_adm2 H h R)).
  destruct (signatures_sum hash msg d h bs ss E HA SO) as [FA PS]. destruct (asig_of_sum ss agg AG FA) as [_ AP].
  destruct (derived_adm cs pks DK) as [FK SK]. destruct (apk_of_sum pks apk AK FK) as [_ KP].
  pose proof (asig_of_built hash ss agg AG (signatures_built hash msg d bs ss D F SO)) as SB.
  pose proof (apk_of_built pks apk AK (derived_built cs pks DK)) as PB. rewrite PS, HP in AP. rewrite SK, <- (sum_perm bs cs PM) in KP.
  destruct (aggregate_verify_equation hash agg msg d apk HD D F SB PB) as (h' & r & E' & V & W).
  rewrite E in E'. injection E' as <-. exists h, r. split; [exact E|]. split; [exact V|]. rewrite W, AP, KP, HP.
  apply (honest_iff H _ G), sum_nonneg, (signatures_bytes hash msg d bs ss SO).
Qed.
Lemma aggregate_verifies : forall hash msg d bs ss agg cs pks apk, digests hash -> 0 <= d < 2 ^ 64 -> hash_findable hash msg d ->
  signatures_on hash msg d bs ss -> asig_of ss agg -> Permutation bs cs -> derived_keys cs pks -> apk_of pks apk ->
  fold_right Z.add 0 (map be_int bs) mod r255 <> 0 -> asig_verify hash agg msg d apk = Some true.
Proof.
  intros hash msg d bs ss agg cs pks apk HD D F SO AG PM DK AK N.
  destruct (aggregate_verdict hash msg d bs ss agg cs pks apk HD D F SO AG PM DK AK) as (h & r & _ & V & W).
  rewrite V. f_equal. apply W. intros [_ C]. contradiction.
Qed.
(* C20 and C24 without premises on the message point *)
Lemma order_premise hash msg d h : digests hash -> 0 <= d < 2 ^ 64 -> hash_findable hash msg d -> hash_on_g2 hash msg d = Some h ->
  in_subgroup (ecp2_pt h).
Proof.
  intros HD D F E. destruct (hash_subgroup hash msg d HD D F) as (h' & E' & _ & S1). rewrite E in E'. injection E' as <-. exact S1.
Qed.
Lemma congruent_sign : forall hash msg d b1 b2 sk1 sk2 s1 s2, digests hash -> 0 <= d < 2 ^ 64 -> hash_findable hash msg d ->
  bytes b1 -> bytes b2 -> sk_from_bytes b1 = Some (Ok sk1) -> sk_from_bytes b2 = Some (Ok sk2) ->
  sig_new hash msg d sk1 = Some s1 -> sig_new hash msg d sk2 = Some s2 ->
  be_int b1 mod r255 = be_int b2 mod r255 -> sig_eq s1 s2 = Some true.
Proof.
  intros hash msg d b1 b2 sk1 sk2 s1 s2 HD D F. destruct (hash_subgroup hash msg d HD D F) as (h & E & _ & S1).
  exact (congruent_signatures hash msg d h b1 b2 sk1 sk2 s1 s2 HD D F E S1).
Qed.
Lemma aggregate_sum_mod : forall hash msg d bs ss agg b sk s, digests hash -> 0 <= d < 2 ^ 64 -> hash_findable hash msg d ->
  signatures_on hash msg d bs ss -> asig_of ss agg -> bytes b -> sk_from_bytes b = Some (Ok sk) -> sig_new hash msg d sk = Some s ->
  be_int b = fold_right Z.add 0 (map be_int bs) mod r255 -> sig_eq agg s = Some true.
Proof.
  intros hash msg d bs ss agg b sk s HD D F. destruct (hash_subgroup hash msg d HD D F) as (h & E & _ & S1).
  exact (aggregate_signatures_mod hash msg d h bs ss agg b sk s HD D F E S1).
Qed.
