(* Verification, exactly: which signatures of the group of order r a key accepts, and what
   follows (uniqueness, other keys, other messages, keys that differ by a point of order 3). *)
From Coq Require Import ZArith List Bool Lia Znumtheory Permutation Field.
From Verif Require Import Prim Rom Big Fp Fp2 Fp4 Fp12 Ecp Ecp2 Pair Utils Api PrimP BigP BigP2 SpecBytes BigP3 BigP4 BigP5 NumT FieldQ FieldQ2 FpP FpP2
  SkP SpecCurve CurveP GroupP JacobiM JacP Fp2P Sqrt2P WinP EcpP EcpC Ecp2P Denote GenP KeysP KeysP2 KeysP3 BigL LayerP Ecp2C MapP SigsP SigsP2
  Tower TowerP Fp4P Fp12P SpecPairing LineP PairP PairP2 PairP3 MillerP MillerP2 MillerP3 PsiP BilinP TwistP RootP VerifyP VerifyP2 VerifyP3.
Import ListNotations.
Open Scope Z_scope.

(* the multiplier a key acts by *)
Definition acts (k : Z) (K : pt1) : Prop := forall H, eigen H -> pairing H K = pairing (zm2 k H) G1gen.
Lemma acts_exact k S1 H K : acts k K -> eigen S1 -> eigen H -> (pairing_equation S1 H K <-> S1 = zm2 k H).
Proof.
  intros A ES EH. unfold pairing_equation. rewrite (A H EH). split; [|intros ->; reflexivity].
  apply pairing_inj; [exact ES|apply PsiP.eigen_zm, EH].
Qed.
Lemma acts_gen v : 0 <= v -> acts v (zm1 v G1gen).
Proof. intros V H EH. symmetry. exact (key_bilinear H v EH V). Qed.
Lemma built_acts pk : pk_built pk -> exists k, 0 <= k < r255 /\ acts k (ecp_pt pk).
Proof. intros B. apply key_exponent, adm_on, built_adm, B. Qed.
Lemma built_on2 hash s : digests hash -> sig_built hash s -> on2 (ecp2_pt s).
Proof. intros HD B. apply adm2_on, (sig_built_adm hash s HD B). Qed.
Lemma hash_eigen hash msg d h : digests hash -> 0 <= d < 2 ^ 64 -> hash_findable hash msg d -> hash_on_g2 hash msg d = Some h -> eigen (ecp2_pt h).
Proof.
  intros HD D F E. destruct (hash_subgroup hash msg d HD D F) as (h' & E' & O & S1). rewrite E in E'. injection E' as <-. exact (sub_eigen _ O S1).
Qed.
Lemma map_eigen re im h : bytes re -> bytes im -> (48 <= length re)%nat -> (48 <= length im)%nat -> findable re im -> map_to_g2 re im = Some h -> eigen (ecp2_pt h).
Proof.
  intros BR BI LR LI F E. destruct (map_subgroup re im BR BI LR LI F) as (h' & E' & O & S1). rewrite E in E'. injection E' as <-. exact (sub_eigen _ O S1).
Qed.
Lemma acts_nmul k S1 H K : acts k K -> 0 <= k -> on2 S1 -> in_subgroup S1 -> eigen H ->
  (pairing_equation S1 H K <-> S1 = nmul2 (Z.to_nat k) H).
Proof. intros A KP O SG EH. rewrite <- (zm2_nmul k H KP). exact (acts_exact k S1 H K A (sub_eigen _ O SG) EH). Qed.

(* ------------------------- every key ----------------------------------- *)
Lemma verify_exact : forall pk, pk_built pk -> exists k, 0 <= k < r255 /\
  forall hash s msg d, digests hash -> 0 <= d < 2 ^ 64 -> hash_findable hash msg d -> sig_built hash s -> in_subgroup (ecp2_pt s) ->
  exists h r, hash_on_g2 hash msg d = Some h /\ sig_verify hash s msg d pk = Some r /\ asig_verify hash s msg d pk = Some r /\
    (r = true <-> ecp2_pt s = nmul2 (Z.to_nat k) (ecp2_pt h) /\ ~ zero_case (ecp2_pt h) (ecp_pt pk)).
Proof.
  intros pk PB. destruct (built_acts pk PB) as (k & K & A). exists k. split; [exact K|]. intros hash s msg d HD D F SB SG.
  destruct (verify_equation hash s msg d pk HD D F SB PB) as (h & r & E & V & W).
  destruct (aggregate_verify_equation hash s msg d pk HD D F SB PB) as (h' & r' & E' & V' & W'). rewrite E in E'. injection E' as <-.
  assert (RR : r' = r) by (apply eq_true_iff_eq; rewrite W, W'; reflexivity). rewrite RR in V'.
  exists h, r. split; [exact E|]. split; [exact V|]. split; [exact V'|].
  rewrite W. rewrite (acts_nmul k _ _ _ A (proj1 K) (built_on2 hash s HD SB) SG (hash_eigen hash msg d h HD D F E)). reflexivity.
Qed.
Lemma verify_hashed_exact : forall pk, pk_built pk -> exists k, 0 <= k < r255 /\
  forall hash s re im, digests hash -> bytes re -> bytes im -> (48 <= length re)%nat -> (48 <= length im)%nat -> findable re im ->
  sig_built hash s -> in_subgroup (ecp2_pt s) ->
  exists h r, map_to_g2 re im = Some h /\ sig_verify_hashed s re im pk = Some r /\
    (r = true <-> ecp2_pt s = nmul2 (Z.to_nat k) (ecp2_pt h) /\ ~ zero_case (ecp2_pt h) (ecp_pt pk)).
Proof.
  intros pk PB. destruct (built_acts pk PB) as (k & K & A). exists k. split; [exact K|]. intros hash s re im HD BR BI LR LI F SB SG.
  destruct (verify_hashed_equation hash s re im pk HD BR BI LR LI F SB PB) as (h & r & E & V & W).
  exists h, r. split; [exact E|]. split; [exact V|].
  rewrite W. rewrite (acts_nmul k _ _ _ A (proj1 K) (built_on2 hash s HD SB) SG (map_eigen re im h BR BI LR LI F E)). reflexivity.
Qed.

(* ------------------------- keys of a secret ----------------------------- *)
Lemma derived_exact : forall hash s msg d b sk pk, digests hash -> 0 <= d < 2 ^ 64 -> hash_findable hash msg d -> sig_built hash s -> in_subgroup (ecp2_pt s) ->
  bytes b -> sk_from_bytes b = Some (Ok sk) -> pk_from_secret_key sk = Some pk ->
  exists h r, hash_on_g2 hash msg d = Some h /\ sig_verify hash s msg d pk = Some r /\
    (r = true <-> ecp2_pt s = nmul2 (Z.to_nat (be_int b)) (ecp2_pt h) /\ ~ (ecp2_pt h = Inf /\ be_int b mod r255 = 0)).
Proof.
  intros hash s msg d b sk pk HD D F SB SG B SK PK.
  destruct (verify_equation hash s msg d pk HD D F SB (pkb_secret b sk pk B SK PK)) as (h & r & E & V & W).
  exists h, r. split; [exact E|]. split; [exact V|]. rewrite W. destruct (derive b sk B SK) as (pk' & PK' & _ & P). rewrite PK in PK'. injection PK' as <-.
  rewrite P, (zero_case_iff (ecp2_pt h) (be_int b)). pose proof (proj1 (be_int_range b B)) as BP.
  rewrite (acts_nmul _ _ _ _ (acts_gen _ BP) BP (built_on2 hash s HD SB) SG (hash_eigen hash msg d h HD D F E)). reflexivity.
Qed.
(* a key that is not 0 mod r accepts the signature the signing function returns and no other *)
Lemma verify_is_sign : forall hash s msg d b sk pk, digests hash -> 0 <= d < 2 ^ 64 -> hash_findable hash msg d -> sig_built hash s -> in_subgroup (ecp2_pt s) ->
  bytes b -> sk_from_bytes b = Some (Ok sk) -> pk_from_secret_key sk = Some pk -> be_int b mod r255 <> 0 ->
  exists s' r, sig_new hash msg d sk = Some s' /\ sig_verify hash s msg d pk = Some r /\ sig_eq s s' = Some r.
Proof.
  intros hash s msg d b sk pk HD D F SB SG B SK PK N. destruct (derived_exact hash s msg d b sk pk HD D F SB SG B SK PK) as (h & r & E & V & W).
  destruct (hash_R hash msg d HD D F) as (h' & H & E' & R & G). rewrite E in E'. injection E' as <-.
  destruct (signing_A hash msg d h H b sk B SK E R) as (s' & ES & AS). exists s', r. split; [exact ES|]. split; [exact V|].
  pose proof (sgb_new hash msg d b sk s' D B SK ES) as SB'.
  destruct (sig_eq_ok s s' (sig_built_adm hash s HD SB) (sig_built_adm hash s' HD SB')) as (e & EE & EW). rewrite EE. f_equal.
  apply eq_true_iff_eq. rewrite EW, W. rewrite (ecp2R_pt _ _ _ _ (ecp2A_R _ _ _ _ AS)), (ecp2R_pt _ _ _ _ R).
  rewrite <- (zm2_nmul (be_int b) H) by (apply (be_int_range b B)). split; [intros Q; split; [exact Q|intros [_ C]; contradiction]|intros [Q _]; exact Q].
Qed.
(* at most one signature of the group of order r per message and key *)
Lemma unique_signature : forall hash s1 s2 msg d pk, digests hash -> 0 <= d < 2 ^ 64 -> hash_findable hash msg d -> pk_built pk ->
  sig_built hash s1 -> sig_built hash s2 -> in_subgroup (ecp2_pt s1) -> in_subgroup (ecp2_pt s2) ->
  sig_verify hash s1 msg d pk = Some true -> sig_verify hash s2 msg d pk = Some true -> sig_eq s1 s2 = Some true.
Proof.
  intros hash s1 s2 msg d pk HD D F PB B1 B2 G1 G2 V1 V2. destruct (verify_exact pk PB) as (k & K & A).
  destruct (A hash s1 msg d HD D F B1 G1) as (h & r & E & V & _ & W). rewrite V1 in V. injection V as <-. destruct (proj1 W eq_refl) as [P1 _].
  destruct (A hash s2 msg d HD D F B2 G2) as (h' & r & E' & V & _ & W'). rewrite V2 in V. injection V as <-. destruct (proj1 W' eq_refl) as [P2 _].
  rewrite E in E'. injection E' as <-.
  destruct (sig_eq_ok s1 s2 (sig_built_adm hash s1 HD B1) (sig_built_adm hash s2 HD B2)) as (e & EE & EW). rewrite EE. f_equal. apply EW. congruence.
Qed.

(* ------------------------- other keys and messages ---------------------- *)
Lemma padd2_cancel p q : on2 p -> on2 q -> padd2 p (pneg2 q) = Inf -> p = q.
Proof.
  intros P Q E. rewrite <- (padd2_0r p), <- (padd2_neg q Q), (padd2_comm q (pneg2 q)) by (try apply pneg2_on; assumption).
  rewrite <- padd2_assoc by (try apply pneg2_on; assumption). rewrite E. reflexivity.
Qed.
Lemma r_cancel v H : eigen H -> (zm2 v H = Inf <-> v mod r255 = 0 \/ H = Inf).
Proof.
  intros E. pose proof (proj1 E) as O. pose proof (eigen_r H E) as R. pose proof r255_pos as RP. rewrite <- (zm2_mod v r255 H O R) by lia.
  pose proof (Z.mod_pos_bound v r255 RP) as MB. split.
  - intros Z0. destruct (Z.eq_dec (v mod r255) 0) as [M|M]; [left; exact M|right].
    apply (bez2 (v mod r255) r255 H O Z0 R). apply gcd_r. lia.
  - intros [-> | ->]; [apply zm2_0|apply zm2_zero].
Qed.
Lemma r_cancel_key v w H : eigen H -> (zm2 v H = zm2 w H <-> v mod r255 = w mod r255 \/ H = Inf).
Proof.
  intros E. pose proof (proj1 E) as O. pose proof r255_pos as RP.
  assert (Q : zm2 v H = zm2 w H <-> zm2 (v - w) H = Inf).
  { unfold Z.sub. rewrite (zm2_add v (- w) H O), (zm2_opp w H O). split.
    - intros ->. apply padd2_neg, zm2_on, O.
    - apply padd2_cancel; apply zm2_on, O. }
  rewrite Q, (r_cancel (v - w) H E). 
  assert (M : (v - w) mod r255 = 0 <-> v mod r255 = w mod r255).
  { generalize dependent r255. intros m M. split.
    - intros Z0. apply Z.mod_divide in Z0; [|lia]. destruct Z0 as (c & C). replace v with (w + c * m) by lia. apply Z.mod_add. lia.
    - intros EQ. rewrite Zminus_mod, EQ, Z.sub_diag. apply Z.mod_0_l. lia. }
  rewrite M. reflexivity.
Qed.
Lemma r_cancel_point v H J : eigen H -> eigen J -> (zm2 v H = zm2 v J <-> H = J \/ v mod r255 = 0).
Proof.
  intros E F. pose proof (proj1 E) as O. pose proof (proj1 F) as P. split.
  - intros Q. assert (Z0 : zm2 v (padd2 H (pneg2 J)) = Inf).
    { rewrite (zm2_dist v H (pneg2 J) O (pneg2_on _ P)), (zm2_neg v J P), Q. apply padd2_neg, zm2_on, P. }
    apply (r_cancel v _ (eigen_add _ _ E (eigen_neg _ F))) in Z0. destruct Z0 as [Z0|Z0]; [right; exact Z0|left].
    apply padd2_cancel; assumption.
  - intros [-> | Z0]; [reflexivity|].
    rewrite (proj2 (r_cancel v H E) (or_introl Z0)), (proj2 (r_cancel v J F) (or_introl Z0)). reflexivity.
Qed.
Lemma cross_verdict : forall hash msg1 d1 msg2 d2 b1 b2 sk1 sk2 s pk, digests hash -> 0 <= d1 < 2 ^ 64 -> 0 <= d2 < 2 ^ 64 ->
  hash_findable hash msg1 d1 -> hash_findable hash msg2 d2 -> bytes b1 -> bytes b2 -> sk_from_bytes b1 = Some (Ok sk1) -> sk_from_bytes b2 = Some (Ok sk2) ->
  sig_new hash msg1 d1 sk1 = Some s -> pk_from_secret_key sk2 = Some pk ->
  exists h1 h2 r, hash_on_g2 hash msg1 d1 = Some h1 /\ hash_on_g2 hash msg2 d2 = Some h2 /\ eigen (ecp2_pt h1) /\ eigen (ecp2_pt h2) /\ sig_verify hash s msg2 d2 pk = Some r /\
    (r = true <-> zm2 (be_int b1) (ecp2_pt h1) = zm2 (be_int b2) (ecp2_pt h2) /\ ~ (ecp2_pt h2 = Inf /\ be_int b2 mod r255 = 0)).
Proof.
  intros hash msg1 d1 msg2 d2 b1 b2 sk1 sk2 s pk HD D1 D2 F1 F2 B1 B2 SK1 SK2 S1 PK.
  destruct (hash_R hash msg1 d1 HD D1 F1) as (h1 & H1 & E1 & R1 & G1). destruct (signing_A hash msg1 d1 h1 H1 b1 sk1 B1 SK1 E1 R1) as (s' & ES & AS).
  rewrite S1 in ES. injection ES as <-. pose proof (ecp2R_pt _ _ _ _ (ecp2A_R _ _ _ _ AS)) as PS.
  pose proof (sgb_new hash msg1 d1 b1 sk1 s D1 B1 SK1 S1) as SB.
  assert (SG : in_subgroup (ecp2_pt s)) by (rewrite PS; apply (proj2 (sub_zm _)), eigen_r, PsiP.eigen_zm, G1).
  destruct (derived_exact hash s msg2 d2 b2 sk2 pk HD D2 F2 SB SG B2 SK2 PK) as (h2 & r & E2 & V & W).
  exists h1, h2, r. split; [exact E1|]. split; [exact E2|]. rewrite (ecp2R_pt _ _ _ _ R1). split; [exact G1|].
  split; [exact (hash_eigen hash msg2 d2 h2 HD D2 F2 E2)|]. split; [exact V|]. rewrite W, PS.
  rewrite <- (zm2_nmul (be_int b2)) by (apply (be_int_range b2 B2)). reflexivity.
Qed.
Lemma other_key : forall hash msg d b1 b2 sk1 sk2 s pk, digests hash -> 0 <= d < 2 ^ 64 -> hash_findable hash msg d ->
  bytes b1 -> bytes b2 -> sk_from_bytes b1 = Some (Ok sk1) -> sk_from_bytes b2 = Some (Ok sk2) ->
  sig_new hash msg d sk1 = Some s -> pk_from_secret_key sk2 = Some pk ->
  exists h r, hash_on_g2 hash msg d = Some h /\ sig_verify hash s msg d pk = Some r /\
    (r = true <-> (be_int b1 mod r255 = be_int b2 mod r255 \/ ecp2_pt h = Inf) /\ ~ (ecp2_pt h = Inf /\ be_int b2 mod r255 = 0)).
Proof.
  intros hash msg d b1 b2 sk1 sk2 s pk HD D F B1 B2 SK1 SK2 S1 PK.
  destruct (cross_verdict hash msg d msg d b1 b2 sk1 sk2 s pk HD D D F F B1 B2 SK1 SK2 S1 PK) as (h & h' & r & E & E' & G & _ & V & W).
  rewrite E in E'. injection E' as <-. exists h, r. split; [exact E|]. split; [exact V|]. rewrite W, (r_cancel_key _ _ _ G). reflexivity.
Qed.
Lemma other_key_hashed : forall re im b1 b2 sk1 sk2 s pk, bytes re -> bytes im -> (48 <= length re)%nat -> (48 <= length im)%nat -> findable re im ->
  bytes b1 -> bytes b2 -> sk_from_bytes b1 = Some (Ok sk1) -> sk_from_bytes b2 = Some (Ok sk2) ->
  sig_new_hashed re im sk1 = Some s -> pk_from_secret_key sk2 = Some pk ->
  exists h r, map_to_g2 re im = Some h /\ sig_verify_hashed s re im pk = Some r /\
    (r = true <-> (be_int b1 mod r255 = be_int b2 mod r255 \/ ecp2_pt h = Inf) /\ ~ (ecp2_pt h = Inf /\ be_int b2 mod r255 = 0)).
Proof.
  intros re im b1 b2 sk1 sk2 s pk BR BI LR LI F B1 B2 SK1 SK2 S1 PK.
  destruct (map_R re im BR BI LR LI F) as (h & H & E & R & G). destruct (signing_hashed_A re im h H b1 sk1 B1 SK1 E R) as (s' & ES & AS).
  rewrite S1 in ES. injection ES as <-. pose proof (ecp2R_pt _ _ _ _ (ecp2A_R _ _ _ _ AS)) as PS. set (hash := fun _ : list Z => repeat 0 32).
  assert (HD : digests hash).
  { intros m. split; [|apply repeat_length]. apply Forall_forall. intros x IN. apply repeat_spec in IN. lia. }
  pose proof (sgb_hashed hash re im b1 sk1 s BR BI B1 SK1 S1) as SB. pose proof (pkb_secret b2 sk2 pk B2 SK2 PK) as PB.
  destruct (verify_hashed_equation hash s re im pk HD BR BI LR LI F SB PB) as (h' & r & E' & V & W). rewrite E in E'. injection E' as <-.
  exists h, r. split; [exact E|]. split; [exact V|]. rewrite W, PS, (ecp2R_pt _ _ _ _ R).
  destruct (derive b2 sk2 B2 SK2) as (pk' & PK' & _ & P). rewrite PK in PK'. injection PK' as <-. rewrite P, (zero_case_iff H (be_int b2)).
  rewrite (acts_exact _ _ _ _ (acts_gen _ (proj1 (be_int_range b2 B2))) (PsiP.eigen_zm _ H G) G), (r_cancel_key _ _ _ G). reflexivity.
Qed.
Lemma other_message : forall hash msg1 d1 msg2 d2 b sk s pk, digests hash -> 0 <= d1 < 2 ^ 64 -> 0 <= d2 < 2 ^ 64 ->
  hash_findable hash msg1 d1 -> hash_findable hash msg2 d2 -> bytes b -> sk_from_bytes b = Some (Ok sk) ->
  sig_new hash msg1 d1 sk = Some s -> pk_from_secret_key sk = Some pk -> be_int b mod r255 <> 0 ->
  exists h1 h2 r, hash_on_g2 hash msg1 d1 = Some h1 /\ hash_on_g2 hash msg2 d2 = Some h2 /\ sig_verify hash s msg2 d2 pk = Some r /\
    (r = true <-> ecp2_pt h1 = ecp2_pt h2).
Proof.
  intros hash msg1 d1 msg2 d2 b sk s pk HD D1 D2 F1 F2 B SK S1 PK N.
  destruct (cross_verdict hash msg1 d1 msg2 d2 b b sk sk s pk HD D1 D2 F1 F2 B B SK SK S1 PK) as (h1 & h2 & r & E1 & E2 & G1 & G2 & V & W).
  exists h1, h2, r. split; [exact E1|]. split; [exact E2|]. split; [exact V|]. rewrite W, (r_cancel_point _ _ _ G1 G2).
  split; [intros [[Q|Q] _]; [exact Q|contradiction]|intros Q; split; [left; exact Q|intros [_ C]; contradiction]].
Qed.

(* ------------------------- several messages ----------------------------- *)
Fixpoint combination (ks : list Z) (hs : list pt2) : pt2 :=
  match ks, hs with
  | k :: ks', h :: hs' => padd2 (nmul2 (Z.to_nat k) h) (combination ks' hs')
  | _, _ => Inf
  end.
Lemma combination_acts ks Ks : Forall2 (fun k K => 0 <= k /\ acts k K) ks Ks -> forall hs, Forall eigen hs ->
  eigen (combination ks hs) /\ pairing_product hs Ks = pairing (combination ks hs) G1gen.
Proof.
  induction 1 as [|k K ks Ks [KP A] _ IH]; intros hs E.
  - split; [exact eigen_inf|]. destruct hs; symmetry; apply pairing_inf_l, G1gen_on.
  - destruct hs as [|h hs]; [split; [exact eigen_inf|symmetry; apply pairing_inf_l, G1gen_on]|]. apply Forall_cons_iff in E. destruct E as [E ES].
    destruct (IH hs ES) as [I1 I2]. cbn [combination pairing_product]. rewrite <- (zm2_nmul k h KP). pose proof (PsiP.eigen_zm k h E) as EZ.
    split; [exact (eigen_add _ _ EZ I1)|]. rewrite I2, (A h E), (pairing_add_l _ _ _ EZ I1 G1gen_on). reflexivity.
Qed.
Lemma keys_act keys : Forall pk_built keys -> exists ks, Forall (fun k => 0 <= k < r255) ks /\ length ks = length keys /\ Forall2 (fun k K => 0 <= k /\ acts k K) ks (map ecp_pt keys).
Proof.
  induction 1 as [|pk keys B _ (ks & I1 & I2 & I3)]; [exists []; split; [constructor|split; [reflexivity|constructor]]|].
  destruct (built_acts pk B) as (k & K & A). exists (k :: ks). split; [constructor; assumption|]. split; [cbn [length]; congruence|].
  cbn [map]. constructor; [split; [lia|exact A]|exact I3].
Qed.
Lemma hashes_eigen hash d msgs hs : digests hash -> 0 <= d < 2 ^ 64 -> Forall (fun m => hash_findable hash m d) msgs ->
  Forall2 (fun m h => hash_on_g2 hash m d = Some h) msgs hs -> Forall eigen (map ecp2_pt hs).
Proof.
  intros HD D F H. induction H as [|m h msgs hs E _ IH]; [constructor|]. apply Forall_cons_iff in F. destruct F as [F FS].
  cbn [map]. constructor; [exact (hash_eigen hash m d h HD D F E)|exact (IH FS)].
Qed.
Lemma multiple_exact_acts hash s msgs d keys ks : digests hash -> 0 <= d < 2 ^ 64 -> msgs <> [] -> length msgs = length keys ->
  Forall (fun m => length m = 32%nat) msgs -> Forall (fun m => hash_findable hash m d) msgs ->
  sig_built hash s -> in_subgroup (ecp2_pt s) -> Forall pk_built keys -> Forall2 (fun k K => 0 <= k /\ acts k K) ks (map ecp_pt keys) ->
  exists hs r, Forall2 (fun m h => hash_on_g2 hash m d = Some h) msgs hs /\
    asig_verify_multiple hash s (concat msgs) d keys = Some r /\
    (r = true <-> ecp2_pt s = combination ks (map ecp2_pt hs) /\ Forall2 (fun H K => ~ zero_case H K) (map ecp2_pt hs) (map ecp_pt keys)).
Proof.
  intros HD D NE L LM F SB SG KB A. destruct (multiple_equation hash s msgs d keys HD D NE L LM F SB KB) as (hs & r & HH & V & W).
  exists hs, r. split; [exact HH|]. split; [exact V|]. rewrite W.
  destruct (combination_acts ks _ A _ (hashes_eigen hash d msgs hs HD D F HH)) as [EC PC]. rewrite PC.
  assert (Q : pairing (ecp2_pt s) G1gen = pairing (combination ks (map ecp2_pt hs)) G1gen <-> ecp2_pt s = combination ks (map ecp2_pt hs)).
  { split; [apply pairing_inj; [exact (sub_eigen _ (built_on2 hash s HD SB) SG)|exact EC]|intros ->; reflexivity]. }
  rewrite Q. reflexivity.
Qed.
Lemma multiple_exact : forall keys, Forall pk_built keys -> exists ks, Forall (fun k => 0 <= k < r255) ks /\ length ks = length keys /\
  forall hash s msgs d, digests hash -> 0 <= d < 2 ^ 64 -> msgs <> [] -> length msgs = length keys ->
  Forall (fun m => length m = 32%nat) msgs -> Forall (fun m => hash_findable hash m d) msgs -> sig_built hash s -> in_subgroup (ecp2_pt s) ->
  exists hs r, Forall2 (fun m h => hash_on_g2 hash m d = Some h) msgs hs /\
    asig_verify_multiple hash s (concat msgs) d keys = Some r /\
    (r = true <-> ecp2_pt s = combination ks (map ecp2_pt hs) /\ Forall2 (fun H K => ~ zero_case H K) (map ecp2_pt hs) (map ecp_pt keys)).
Proof.
  intros keys KB. destruct (keys_act keys KB) as (ks & K1 & K2 & A). exists ks. split; [exact K1|]. split; [exact K2|].
  intros hash s msgs d HD D NE L LM F SB SG. exact (multiple_exact_acts hash s msgs d keys ks HD D NE L LM F SB SG KB A).
Qed.
Lemma derived_act bs pks : derived_keys bs pks -> Forall2 (fun k K => 0 <= k /\ acts k K) (map be_int bs) (map ecp_pt pks).
Proof.
  induction 1 as [|b sk pk bs pks B SK PK _ IH]; [constructor|]. cbn [map]. constructor; [|exact IH].
  destruct (derive b sk B SK) as (pk' & E & _ & P). rewrite PK in E. injection E as <-. rewrite P. pose proof (proj1 (be_int_range b B)) as BP.
  split; [exact BP|exact (acts_gen _ BP)].
Qed.
Lemma derived_zero_free bs pks : derived_keys bs pks -> forall hs, length hs = length bs -> Forall (fun b => be_int b mod r255 <> 0) bs ->
  Forall2 (fun H K => ~ zero_case H K) hs (map ecp_pt pks).
Proof.
  induction 1 as [|b sk pk bs pks B SK PK _ IH]; intros hs L N; destruct hs as [|h hs]; try discriminate L; [constructor|]. apply Forall_cons_iff in N.
  destruct N as [N NS]. cbn [map]. constructor; [|apply IH; [cbn [length] in L; lia|exact NS]].
  destruct (derive b sk B SK) as (pk' & E & _ & P). rewrite PK in E. injection E as <-. rewrite P. apply gen_regular, N.
Qed.
Lemma multiple_derived_exact : forall hash s msgs d bs pks, digests hash -> 0 <= d < 2 ^ 64 -> msgs <> [] -> length msgs = length pks ->
  Forall (fun m => length m = 32%nat) msgs -> Forall (fun m => hash_findable hash m d) msgs -> sig_built hash s -> in_subgroup (ecp2_pt s) ->
  derived_keys bs pks -> Forall (fun b => be_int b mod r255 <> 0) bs ->
  exists hs r, Forall2 (fun m h => hash_on_g2 hash m d = Some h) msgs hs /\
    asig_verify_multiple hash s (concat msgs) d pks = Some r /\ (r = true <-> ecp2_pt s = combination (map be_int bs) (map ecp2_pt hs)).
Proof.
  intros hash s msgs d bs pks HD D NE L LM F SB SG DK N.
  destruct (multiple_exact_acts hash s msgs d pks _ HD D NE L LM F SB SG (derived_built _ _ DK) (derived_act _ _ DK)) as (hs & r & HH & V & W).
  exists hs, r. split; [exact HH|]. split; [exact V|]. rewrite W. split; [intros [Q _]; exact Q|]. intros Q. split; [exact Q|].
  apply (derived_zero_free bs pks DK); [|exact N]. rewrite map_length, <- (F2_len _ _ _ HH), L.
  pose proof (F2_len _ _ _ (derived_act _ _ DK)) as LL. rewrite !map_length in LL. symmetry. exact LL.
Qed.

(* ------------------------- non-degeneracy ------------------------------- *)
Lemma pairing_nondegenerate : forall P Q, on2 P -> on2 Q -> in_subgroup P -> in_subgroup Q ->
  (pairing P G1gen = pairing Q G1gen <-> P = Q) /\ (pairing P G1gen = k1 <-> P = Inf).
Proof.
  intros P Q O1 O2 S1 S2. pose proof (sub_eigen P O1 S1) as E1. pose proof (sub_eigen Q O2 S2) as E2. split.
  - split; [exact (pairing_inj P Q E1 E2)|intros ->; reflexivity].
  - rewrite <- (pairing_inf_l G1gen G1gen_on). split; [exact (pairing_inj P Inf E1 eigen_inf)|intros ->; reflexivity].
Qed.
Lemma pairing_multiples_nondegenerate : forall P k, on2 P -> in_subgroup P -> (pairing P (nmul1 k G1gen) = k1 <-> P = Inf \/ Z.of_nat k mod r255 = 0).
Proof.
  intros P k O S1. pose proof (sub_eigen P O S1) as E. assert (KP : 0 <= Z.of_nat k) by lia.
  rewrite <- (Nat2Z.id k) at 1. rewrite <- (zm1_nmul (Z.of_nat k) G1gen KP), <- (key_bilinear P (Z.of_nat k) E KP).
  rewrite <- (pairing_inf_l G1gen G1gen_on). pose proof (r_cancel (Z.of_nat k) P E) as RC. split.
  - intros H. apply (pairing_inj _ Inf (PsiP.eigen_zm _ P E) eigen_inf) in H. apply RC in H. destruct H as [H|H]; [right|left]; exact H.
  - intros H. assert (Z0 : zm2 (Z.of_nat k) P = Inf) by (apply RC; destruct H as [H|H]; [right|left]; exact H). rewrite Z0. reflexivity.
Qed.
