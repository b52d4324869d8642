(* verify_multiple: the product of pairings, and honest multi-message aggregates. *)
From Coq Require Import ZArith List Bool Lia Znumtheory Permutation Field.
From Verif Require Import Prim Rom Big Fp Fp2 Fp4 Fp12 Ecp Ecp2 Pair Utils Api PrimP BigP BigP2 SpecBytes BigP3 BigP4 BigP5 NumT FieldQ FieldQ2 FpP FpP2
  SkP SpecCurve CurveP GroupP JacobiM JacP Fp2P Sqrt2P WinP EcpP EcpC Ecp2P Denote GenP KeysP KeysP2 KeysP3 BigL LayerP Ecp2C MapP SigsP SigsP2
  Tower TowerP Fp4P Fp12P SpecPairing LineP PairP PairP2 PairP3 MillerP MillerP2 MillerP3 PsiP BilinP TwistP VerifyP VerifyP2.
Import ListNotations.
Open Scope Z_scope.

(* product of the pairings of corresponding points *)
Fixpoint pairing_product (hs : list pt2) (ks : list pt1) : Fq12 :=
  match hs, ks with
  | h :: hs', k :: ks' => kmul (pairing h k) (pairing_product hs' ks')
  | _, _ => k1
  end.
Fixpoint epair_product (hs : list pt2) (ks : list pt1) : Fq12 :=
  match hs, ks with
  | h :: hs', k :: ks' => kmul (epair h k) (epair_product hs' ks')
  | _, _ => k1
  end.
Lemma kmul_nz a b : a <> k0 -> b <> k0 -> kmul a b <> k0.
Proof. intros A B C. apply B. apply (kcancel a); [exact A|]. rewrite C. ring. Qed.
Lemma product_nz hs ks : Forall on2 hs -> Forall on1 ks -> pairing_product hs ks <> k0.
Proof.
  intros H. revert ks. induction H as [|h hs H _ IH]; intros [|k ks] K; try exact k1_neq_0. apply Forall_cons_iff in K. destruct K as [K KS].
  cbn [pairing_product]. apply kmul_nz; [exact (pairing_nz h k H K)|exact (IH ks KS)].
Qed.
Lemma eproduct_regular hs ks : Forall on1 ks -> Forall2 (fun h k => ~ zero_case h k) hs ks -> epair_product hs ks = pairing_product hs ks.
Proof.
  intros O H. revert O. induction H as [|h k hs ks N _ IH]; intros O; [reflexivity|]. apply Forall_cons_iff in O. destruct O as [O OS].
  cbn [epair_product pairing_product]. rewrite (IH OS), (epair_regular h k O N). reflexivity.
Qed.
Lemma eproduct_cases hs : forall ks, length hs = length ks -> epair_product hs ks = k0 \/ Forall2 (fun h k => ~ zero_case h k) hs ks.
Proof.
  induction hs as [|h hs IH]; intros [|k ks] L; try discriminate L; [right; constructor|]. cbn [length] in L. injection L as L.
  cbn [epair_product]. destruct (zero_case_dec h k) as [Z|N]; [left; rewrite (epair_zero h k Z); ring|].
  destruct (IH ks L) as [E|E]; [left; rewrite E; ring|right; constructor; assumption].
Qed.
Lemma eproduct_eq P hs ks : on2 P -> Forall on2 hs -> Forall on1 ks -> length hs = length ks ->
  (epair_product hs ks = epair P G1gen <-> pairing P G1gen = pairing_product hs ks /\ Forall2 (fun h k => ~ zero_case h k) hs ks).
Proof.
  intros OP OH OK L. rewrite epair_gen. split.
  - intros E. destruct (eproduct_cases hs ks L) as [Z|N]; [exfalso; apply (pairing_nz P G1gen OP G1gen_on); congruence|].
    rewrite (eproduct_regular hs ks OK N) in E. split; [symmetry; exact E|exact N].
  - intros [E N]. rewrite (eproduct_regular hs ks OK N). symmetry. exact E.
Qed.

Definition accR (v : Fq12) (acc : option FP12) : Prop := match acc with None => v = k1 | Some l => fp12R 1 KB v l end.
Lemma slice_mid (pre : list (list Z)) m post : Forall (fun c => length c = 32%nat) pre -> length m = 32%nat ->
  firstn 32 (skipn (32 * length pre) (concat (pre ++ m :: post))) = m.
Proof.
  intros P M. rewrite concat_app. assert (L : length (concat pre) = (32 * length pre)%nat).
  { clear -P. induction P as [|c pre C _ IH]; [reflexivity|]. cbn [concat length]. rewrite app_length, IH, C. lia. }
  rewrite <- L, skipn_app, skipn_all, Nat.sub_diag. cbn [app skipn concat].
  rewrite <- M at 1. rewrite firstn_app, Nat.sub_diag, firstn_O, app_nil_r. apply firstn_all.
Qed.
Definition hashR (hash : list Z -> list Z) (d : Z) (m : list Z) (hH : ECP2 * pt2) : Prop :=
  hash_on_g2 hash m d = Some (fst hH) /\ ecp2R 1 17 (snd hH) (fst hH) /\ eigen (snd hH).
Lemma vm_fold hash d : forall msgs pre keys hHs Ks acc v, Forall (fun c => length c = 32%nat) pre -> Forall (fun c => length c = 32%nat) msgs ->
  Forall2 (hashR hash d) msgs hHs -> Forall2 (ecpR 1 5) Ks keys -> length msgs = length keys -> accR v acc ->
  ok (foldM (vm_step hash d (concat (pre ++ msgs))) (combine (seq (length pre) (length keys)) keys) acc)
     (fun acc' => accR (kmul v (epair_product (map snd hHs) Ks)) acc' /\ (acc' = None -> acc = None /\ msgs = [])).
Proof.
  induction msgs as [|m msgs IH]; intros pre keys hHs Ks acc v LP LM HH KK L A.
  - destruct keys as [|k keys]; [|discriminate L]. inversion HH. inversion KK. subst. cbn [length seq combine foldM ok map epair_product].
    split; [|intros E; split; [exact E|reflexivity]]. assert (E : kmul v k1 = v) by ring. rewrite E. exact A.
  - destruct keys as [|k keys]; [discriminate L|]. apply Forall_cons_iff in LM. destruct LM as [LM LMS].
    inversion HH as [|m0 hH ms hHs' [E [R G]] HH' EM EH]. subst m0 ms hHs. inversion KK as [|K k0' Ks' ks RK KK' EK1 EK2]. subst k0' ks Ks.
    cbn [length seq combine foldM]. unfold vm_step at 1. rewrite (slice_mid pre m msgs LP LM). rewrite !bind_assoc.
    eapply ok_bind; [eapply ecp_affine_ok; [exact RK|lia|lia]|]. intros kp KP. rewrite E. cbn [bind]. rewrite !bind_assoc.
    eapply ok_bind; [eapply ecp2_affine_ok; [exact R|lia|lia]|]. intros h' H1. rewrite !bind_assoc.
    eapply ok_bind; [eapply ate_pairing_ok; [exact H1|apply ecpA_X; exact KP|exact (eigen_ok _ _ G)|lia..]|]. intros pr PR. apply fp12C_R in PR.
    assert (PRE : forall rest, pre ++ m :: rest = (pre ++ [m]) ++ rest) by (intros; rewrite <- app_assoc; reflexivity).
    assert (LP' : Forall (fun c => length c = 32%nat) (pre ++ [m])) by (apply Forall_app; split; [exact LP|repeat constructor; exact LM]).
    assert (LEN : S (length pre) = length (pre ++ [m])) by (rewrite app_length; cbn [length]; lia).
    assert (NEXT : forall acc1, accR (kmul v (epair (snd hH) K)) (Some acc1) ->
      ok (foldM (vm_step hash d (concat (pre ++ m :: msgs))) (combine (seq (S (length pre)) (length keys)) keys) (Some acc1))
        (fun acc' => accR (kmul v (epair_product (map snd (hH :: hHs')) (K :: Ks'))) acc' /\ (acc' = None -> acc = None /\ m :: msgs = []))).
    { intros acc1 A1. rewrite PRE, LEN. cbn [length] in L. injection L as L.
      eapply ok_impl; [apply (IH (pre ++ [m]) keys hHs' Ks' (Some acc1) _ LP' LMS HH' KK' L A1)|]. intros acc' [A2 A3]. split.
      - cbn [map epair_product]. assert (EA : forall a b c, kmul (kmul a b) c = kmul a (kmul b c)) by (intros; ring). rewrite <- EA. exact A2.
      - intros N. destruct (A3 N) as [C _]. discriminate C. }
    destruct acc as [l|].
    + rewrite !bind_assoc. eapply ok_bind; [eapply fp12_mul_ok; [exact A|exact PR|unfold KB; lia..]|]. intros l' L'. cbn [bind]. apply NEXT. exact L'.
    + cbn [bind]. apply NEXT. cbn [accR] in A |- *. rewrite A. assert (E1 : forall a, kmul k1 a = a) by (intros; ring). rewrite E1.
      eapply fp12R_weak; [exact PR|lia|unfold KB; lia].
Qed.
Lemma hash_list hash d msgs : digests hash -> 0 <= d < 2 ^ 64 -> Forall (fun m => hash_findable hash m d) msgs ->
  exists hHs, Forall2 (hashR hash d) msgs hHs.
Proof.
  intros HD D. induction 1 as [|m msgs F _ [hHs IH]]; [exists []; constructor|].
  destruct (hash_R hash m d HD D F) as (h & H & E & R & G). exists ((h, H) :: hHs). constructor; [|exact IH]. split; [exact E|]. split; assumption.
Qed.
Lemma keys_list keys : Forall pk_built keys -> exists Ks, Forall2 (ecpR 1 5) Ks keys.
Proof.
  induction 1 as [|k keys B _ [Ks IH]]; [exists []; constructor|]. destruct (pk_built_X k B) as (K & _ & R). exists (K :: Ks). constructor; assumption.
Qed.
Lemma keys_pts Ks keys : Forall2 (ecpR 1 5) Ks keys -> map ecp_pt keys = Ks /\ Forall on1 Ks.
Proof.
  induction 1 as [|K k Ks keys R _ [IH1 IH2]]; [split; [reflexivity|constructor]|]. cbn [map]. rewrite IH1, (ecpR_pt _ _ _ _ R).
  split; [reflexivity|]. constructor; [exact (proj1 R)|exact IH2].
Qed.
Lemma hash_pts hash d msgs hHs : Forall2 (hashR hash d) msgs hHs ->
  Forall2 (fun m h => hash_on_g2 hash m d = Some h) msgs (map fst hHs) /\ map ecp2_pt (map fst hHs) = map snd hHs /\ Forall eigen (map snd hHs).
Proof.
  induction 1 as [|m hH msgs hHs (E & R & G) _ (I1 & I2 & I3)]; [split; [constructor|split; [reflexivity|constructor]]|]. cbn [map].
  rewrite I2, (ecp2R_pt _ _ _ _ R). split; [constructor; assumption|]. split; [reflexivity|constructor; assumption].
Qed.
Lemma F2_len {A B} (R : A -> B -> Prop) l m : Forall2 R l m -> length l = length m.
Proof. induction 1; cbn [length]; congruence. Qed.
Lemma concat_32 (msgs : list (list Z)) : Forall (fun c => length c = 32%nat) msgs -> length (concat msgs) = (32 * length msgs)%nat.
Proof. induction 1 as [|c pre C _ IH]; [reflexivity|]. cbn [concat length]. rewrite app_length, IH, C. lia. Qed.
Lemma multiple_equation : forall hash s msgs d keys, digests hash -> 0 <= d < 2 ^ 64 -> msgs <> [] -> length msgs = length keys ->
  Forall (fun m => length m = 32%nat) msgs -> Forall (fun m => hash_findable hash m d) msgs ->
  sig_built hash s -> Forall pk_built keys ->
  exists hs r, Forall2 (fun m h => hash_on_g2 hash m d = Some h) msgs hs /\
    asig_verify_multiple hash s (concat msgs) d keys = Some r /\
    (r = true <-> pairing (ecp2_pt s) G1gen = pairing_product (map ecp2_pt hs) (map ecp_pt keys) /\
       Forall2 (fun H K => ~ zero_case H K) (map ecp2_pt hs) (map ecp_pt keys)).
Proof.
  intros hash s msgs d keys HD D NE L LM F SB KB1. destruct (hash_list hash d msgs HD D F) as (hHs & HH). destruct (keys_list keys KB1) as (Ks & KK).
  destruct (hash_pts hash d msgs hHs HH) as (H1 & H2 & H3). destruct (keys_pts Ks keys KK) as (K1 & K2).
  destruct (sig_built_A hash s HD SB) as (P & A). pose proof (ecp2R_pt _ _ _ _ (ecp2A_R _ _ _ _ A)) as PS. rewrite PS .
  pose proof (ecp2A_on _ _ _ _ A) as OP. exists (map fst hHs). rewrite H2, K1.
  assert (M : ok (asig_verify_multiple hash s (concat msgs) d keys) (fun r => r = true <->
    pairing P G1gen = pairing_product (map snd hHs) Ks /\ Forall2 (fun H K => ~ zero_case H K) (map snd hHs) Ks)).
  { unfold asig_verify_multiple. eapply ok_bind; [eapply ecp2_affine_ok; [apply ecp2A_R; exact A|lia|lia]|]. intros sp S1.
    rewrite (concat_32 msgs LM), L, Nat.eqb_refl. assert (KN : (length keys =? 0)%nat = false).
    { apply Nat.eqb_neq. rewrite <- L. destruct msgs; [exfalso; apply NE; reflexivity|discriminate]. }
    unfold AggregatePublicKey. rewrite KN. cbn [negb orb].
    eapply ok_bind; [apply (vm_fold hash d msgs [] keys hHs Ks None k1 (Forall_nil _) LM HH KK L eq_refl)|]. intros acc [AC AN].
    destruct acc as [lhs|]; [|exfalso; destruct (AN eq_refl) as [_ C]; exact (NE C)]. cbn [accR] in AC.
    eapply ok_bind; [apply generator_X|]. intros g G.
    eapply ok_bind; [eapply ate_pairing_ok; [exact S1|exact G|exact (gen_ok P OP)|lia..]|]. intros rhs R. apply fp12C_R in R.
    eapply ok_impl; [eapply fp12_equals_ok; [exact AC|exact R|unfold KB; lia..]|]. intros e EX. cbv beta in EX |- *. rewrite EX.
    assert (E1 : forall a, kmul k1 a = a) by (intros; ring). rewrite E1. apply eproduct_eq; [exact OP| |exact K2|].
    - eapply Forall_impl; [|exact H3]. intros h E. exact (proj1 E).
    - rewrite map_length. rewrite <- (F2_len _ _ _ HH), L, <- (F2_len _ _ _ KK). reflexivity. }
  destruct (ok_ex _ _ M) as (r & V & W). exists r. split; [exact H1|]. split; [exact V|exact W].
Qed.

(* ------------------------- honest multi-message aggregates -------------- *)
(* per message: signatures by the keys bs, and the aggregate key of those signers *)
Inductive multi (hash : list Z -> list Z) (d : Z) : list (list Z) -> list ECP2 -> list ECP -> Prop :=
| multi_nil : multi hash d [] [] []
| multi_cons : forall msg bs ss cs pks apk msgs sigs keys, length msg = 32%nat ->
    signatures_on hash msg d bs ss -> Permutation bs cs -> derived_keys cs pks -> apk_of pks apk ->
    fold_right Z.add 0 (map be_int bs) mod r255 <> 0 ->
    multi hash d msgs sigs keys -> multi hash d (msg :: msgs) (ss ++ sigs) (apk :: keys).
Lemma psum_eigen l : Forall eigen l -> eigen (psum2 l).
Proof. induction 1 as [|p l E _ IH]; [exact eigen_inf|]. apply (eigen_add p (psum2 l) E IH). Qed.
Lemma eigen_zm v H : eigen H -> eigen (zm2 v H).
Proof.
  intros G. apply (proj2 (eigen_iff (zm2 v H))). split; [apply zm2_on, G|].
  rewrite <- (zm2_mul r255 v H (proj1 G)), Z.mul_comm, (zm2_mul v r255 H (proj1 G)), (eigen_r H G). apply zm2_zero.
Qed.
Lemma multi_facts hash d msgs sigs keys : digests hash -> 0 <= d < 2 ^ 64 -> multi hash d msgs sigs keys ->
  Forall (fun m => length m = 32%nat) msgs /\ Forall (fun m => hash_findable hash m d) msgs /\ length msgs = length keys /\
  Forall (sig_built hash) sigs /\ Forall pk_built keys /\ Forall adm2 sigs /\ eigen (psum2 (map ecp2_pt sigs)) /\
  forall hs, Forall2 (fun m h => hash_on_g2 hash m d = Some h) msgs hs ->
    pairing (psum2 (map ecp2_pt sigs)) G1gen = pairing_product (map ecp2_pt hs) (map ecp_pt keys) /\
    Forall2 (fun H K => ~ zero_case H K) (map ecp2_pt hs) (map ecp_pt keys).
Proof.
  intros HD D. induction 1 as [|msg bs ss cs pks apk msgs sigs keys LM SO PM DK AK N M (I1 & I2 & I3 & I4 & I5 & I6 & I7 & I8)].
  - do 6 (split; [try constructor|]). split; [exact eigen_inf|]. intros hs H. inversion H. cbn [map psum fold_right pairing_product].
    split; [apply pairing_inf_l, G1gen_on|constructor].
  - pose proof (hash_findable_all hash msg d) as F. destruct (hash_R hash msg d HD D F) as (h & H & E & R & G). pose proof (ecp2R_pt _ _ _ _ R) as HP.
    assert (HA : adm2 h) by (apply (R17_adm2 H h R)). destruct (signatures_sum hash msg d h bs ss E HA SO) as [FA PS].
    destruct (derived_adm cs pks DK) as [FK SK]. destruct (apk_of_sum pks apk AK FK) as [_ KP]. rewrite SK, <- (sum_perm bs cs PM) in KP. rewrite HP in PS.
    set (v := fold_right Z.add 0 (map be_int bs)) in *. assert (V : 0 <= v) by (apply sum_nonneg, (signatures_bytes hash msg d bs ss SO)).
    assert (PSUM : psum2 (map ecp2_pt (ss ++ sigs)) = padd2 (zm2 v H) (psum2 (map ecp2_pt sigs))).
    { rewrite map_app, psum2_app, PS by (apply adm2_all_on; assumption). reflexivity. }
    split; [constructor; assumption|]. split; [constructor; assumption|]. split; [cbn [length]; congruence|].
    split; [apply Forall_app; split; [exact (signatures_built hash msg d bs ss D F SO)|exact I4]|].
    split; [constructor; [exact (apk_of_built pks apk AK (derived_built cs pks DK))|exact I5]|].
    split; [apply Forall_app; split; assumption|]. pose proof (eigen_zm v H G) as EV. rewrite PSUM.
    split; [apply eigen_add; assumption|]. intros hs HH. inversion HH as [|m0 h0 ms hs' E0 HH' EM EH]. subst m0 ms hs.
    rewrite E in E0. injection E0 as <-. destruct (I8 hs' HH') as [J1 J2]. cbn [map pairing_product]. rewrite HP, KP. split.
    + rewrite (pairing_add_l _ _ _ EV I7 G1gen_on), J1, (key_bilinear H v G V). reflexivity.
    + constructor; [apply gen_regular; exact N|exact J2].
Qed.
Lemma multiple_verifies : forall hash d msgs sigs keys sigs' agg, digests hash -> 0 <= d < 2 ^ 64 -> multi hash d msgs sigs keys -> msgs <> [] ->
  Permutation sigs sigs' -> asig_of sigs' agg -> asig_verify_multiple hash agg (concat msgs) d keys = Some true.
Proof.
  intros hash d msgs sigs keys sigs' agg HD D M NE PM AG.
  destruct (multi_facts hash d msgs sigs keys HD D M) as (I1 & I2 & I3 & I4 & I5 & I6 & I7 & I8).
  assert (J6 : Forall adm2 sigs') by (eapply Permutation_Forall; [exact PM|exact I6]).
  assert (J4 : Forall (sig_built hash) sigs') by (eapply Permutation_Forall; [exact PM|exact I4]).
  destruct (asig_of_sum sigs' agg AG J6) as [_ AP].
  rewrite <- (psum2_perm _ _ (Permutation_map ecp2_pt PM) (adm2_all_on sigs I6)) in AP.
  destruct (multiple_equation hash agg msgs d keys HD D NE I3 I1 I2 (asig_of_built hash sigs' agg AG J4) I5) as (hs & r & HH & V & W).
  rewrite V. f_equal. apply W. rewrite AP. exact (I8 hs HH).
Qed.
