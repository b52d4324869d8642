(* Theorems about verification once the search is known to end, the keys outside the group of
   order r, and non-degeneracy in the second argument. *)
From Coq Require Import ZArith List Bool Lia Znumtheory Permutation Field.
From Verif Require Import Prim Rom Big Fp Fp2 Fp4 Fp12 Ecp Ecp2 Pair Utils Api PrimP BigP BigP2 SpecBytes BigP3 BigP4 BigP5 NumT FieldQ FieldQ2 FpP FpP2
  SkP SpecCurve CurveP GroupP JacobiM JacP Fp2P Sqrt2P WinP EcpP EcpC Ecp2P Denote GenP KeysP KeysP2 KeysP3 BigL LayerP Ecp2C MapP SigsP SearchP SigsP2
  Tower TowerP Fp4P Fp12P SpecPairing LineP PairP PairP2 PairP3 MillerP MillerP2 MillerP3 PsiP BilinP TwistP RootP VerifyP VerifyP2 VerifyP3 VerifyP5 VerifyP6 G1Grp G1Ord.
Import ListNotations.
Open Scope Z_scope.

Lemma verify_exact_all : forall pk, pk_built pk -> exists k, 0 <= k < r255 /\
  forall hash s msg d, digests hash -> 0 <= d < 2 ^ 64 -> sig_built hash s -> in_subgroup (ecp2_pt s) ->
  exists h r, hash_on_g2 hash msg d = Some h /\ sig_verify hash s msg d pk = Some r /\ asig_verify hash s msg d pk = Some r /\
    (r = true <-> ecp2_pt s = nmul2 (Z.to_nat k) (ecp2_pt h) /\ ~ zero_case (ecp2_pt h) (ecp_pt pk)).
Proof.
  intros pk PB. destruct (verify_exact pk PB) as (k & K & H). exists k. split; [exact K|]. intros hash s msg d HD D.
  exact (H hash s msg d HD D (hash_findable_all hash msg d)).
Qed.
Lemma verify_hashed_exact_all : forall pk, pk_built pk -> exists k, 0 <= k < r255 /\
  forall hash s re im, digests hash -> bytes re -> bytes im -> (48 <= length re)%nat -> (48 <= length im)%nat ->
  sig_built hash s -> in_subgroup (ecp2_pt s) ->
  exists h r, map_to_g2 re im = Some h /\ sig_verify_hashed s re im pk = Some r /\
    (r = true <-> ecp2_pt s = nmul2 (Z.to_nat k) (ecp2_pt h) /\ ~ zero_case (ecp2_pt h) (ecp_pt pk)).
Proof.
  intros pk PB. destruct (verify_hashed_exact pk PB) as (k & K & H). exists k. split; [exact K|]. intros hash s re im HD BR BI LR LI.
  exact (H hash s re im HD BR BI LR LI (findable_all re im)).
Qed.
Lemma multiple_exact_all : forall keys, Forall pk_built keys -> exists ks, Forall (fun k => 0 <= k < r255) ks /\ length ks = length keys /\
  forall hash s msgs d, digests hash -> 0 <= d < 2 ^ 64 -> msgs <> [] -> length msgs = length keys ->
  Forall (fun m => length m = 32%nat) msgs -> sig_built hash s -> in_subgroup (ecp2_pt s) ->
  exists hs r, Forall2 (fun m h => hash_on_g2 hash m d = Some h) msgs hs /\
    asig_verify_multiple hash s (concat msgs) d keys = Some r /\
    (r = true <-> ecp2_pt s = combination ks (map ecp2_pt hs) /\ Forall2 (fun H K => ~ zero_case H K) (map ecp2_pt hs) (map ecp_pt keys)).
Proof.
  intros keys KB. destruct (multiple_exact keys KB) as (ks & K & L & H). exists ks. split; [exact K|]. split; [exact L|]. intros hash s msgs d HD D NE LL LM.
  exact (H hash s msgs d HD D NE LL LM (hash_findable_each hash d msgs)).
Qed.
Lemma shifted_keys_all : exists t, pk_from_bytes (128 :: repeat 0 47) = Some (Ok t) /\
  forall pk, pk_built pk -> exists pk', apk_add pk t = Some pk' /\ pk_built pk' /\ pk_eq pk pk' = Some false /\
  forall hash s msg d, digests hash -> 0 <= d < 2 ^ 64 -> sig_built hash s ->
    sig_verify hash s msg d pk' = sig_verify hash s msg d pk.
Proof.
  destruct shifted_keys as (t & T & H). exists t. split; [exact T|]. intros pk PB. destruct (H pk PB) as (pk' & A & B & C & V). exists pk'.
  split; [exact A|]. split; [exact B|]. split; [exact C|]. intros hash s msg d HD D. exact (V hash s msg d HD D (hash_findable_all hash msg d)).
Qed.
Lemma low_order_key_all : exists pk s, pk_from_bytes (128 :: repeat 0 47) = Some (Ok pk) /\ ecp_pt pk <> Inf /\
  sig_from_bytes (192 :: repeat 0 95) = Some (Ok s) /\
  forall hash msg d h, digests hash -> 0 <= d < 2 ^ 64 -> hash_on_g2 hash msg d = Some h -> ecp2_pt h <> Inf ->
    sig_verify hash s msg d pk = Some true.
Proof.
  destruct low_order_key as (pk & s & A & B & C & V). exists pk, s. split; [exact A|]. split; [exact B|]. split; [exact C|].
  intros hash msg d h HD D. exact (V hash msg d h HD D (hash_findable_all hash msg d)).
Qed.
Lemma rogue_key_all : forall victim b sk, pk_built victim -> bytes b -> sk_from_bytes b = Some (Ok sk) -> be_int b mod r255 <> 0 ->
  exists bs rogue apk, bytes bs /\ pk_from_uncompressed_bytes bs = Some (Ok rogue) /\ apk_from_public_keys [victim; rogue] = Some apk /\
  forall hash msg d s agg, digests hash -> 0 <= d < 2 ^ 64 -> sig_new hash msg d sk = Some s -> asig_of [s] agg ->
    asig_verify hash agg msg d apk = Some true.
Proof.
  intros victim b sk VB BB SK N. destruct (rogue_key victim b sk VB BB SK N) as (bs & rogue & apk & A & B & C & V). exists bs, rogue, apk.
  split; [exact A|]. split; [exact B|]. split; [exact C|]. intros hash msg d s agg HD D. exact (V hash msg d s agg HD D (hash_findable_all hash msg d)).
Qed.

(* ------------------------- the search ----------------------------------- *)
Lemma map_total : forall re im, bytes re -> bytes im -> (48 <= length re)%nat -> (48 <= length im)%nat -> exists h, map_to_g2 re im = Some h.
Proof. intros re im BR BI LR LI. destruct (map_findable re im BR BI LR LI (findable_all re im)) as (h & H & _). exists h. exact H. Qed.
Lemma hash_total : forall hash msg d, digests hash -> 0 <= d < 2 ^ 64 -> exists h, hash_on_g2 hash msg d = Some h.
Proof. intros hash msg d HD D. destruct (hash_findable_map hash msg d HD D (hash_findable_all hash msg d)) as (h & H & _). exists h. exact H. Qed.
Lemma candidate_exists : forall u w, exists k : nat, (Z.of_nat k < q381) /\ curve_x (mkq (u + Z.of_nat k), mkq w).
Proof.
  intros u w. destruct (search_hits (mkq w)) as (t & T). exists (Z.to_nat ((fv t - u) mod q381)). pose proof q381_pos as Q.
  pose proof (Z.mod_pos_bound (fv t - u) q381 ltac:(lia)) as B. rewrite Z2Nat.id by lia. split; [lia|].
  assert (E : mkq (u + (fv t - u) mod q381) = t); [|rewrite E; exact T].
  rewrite <- (mkq_fv t) at 2. apply mkq_eq. rewrite Zplus_mod_idemp_r. f_equal. ring.
Qed.

(* ------------------------- the curve over F_q --------------------------- *)
Lemma curve_group_order : exists l : list pt1, NoDup l /\ (forall p, In p l <-> on1 p) /\ Z.of_nat (length l) = h1c * r255.
Proof.
  exists (map ep EL). split; [|split].
  - apply FinFun.Injective_map_NoDup; [|exact EL_nd]. intros x y. apply ep_ext.
  - intros p. rewrite in_map_iff. split; [intros (x & <- & _); apply ep_on|]. intros O. exists (emk p O). split; [reflexivity|apply EL_in].
  - rewrite map_length, h1r_q. exact curve_order.
Qed.
Lemma cofactor_kills_n : forall p, on1 p -> nmul1 (Z.to_nat (h1c * r255)) p = Inf.
Proof.
  intros p O. assert (HR : 0 <= h1c * r255) by (vm_compute; discriminate). rewrite <- (zm1_nmul _ p HR). exact (cofactor_kills p O).
Qed.

(* ------------------------- derived keys --------------------------------- *)
Lemma zm1_killed n v P : on1 P -> zm1 n P = Inf -> zm1 n (zm1 v P) = Inf.
Proof. intros O Z0. rewrite <- (zm1_mul n v P O), Z.mul_comm, (zm1_mul v n P O), Z0. apply zm1_zero. Qed.
Lemma zm1_killed2 n m P : on1 P -> zm1 (n * m) P = Inf -> zm1 m (zm1 n P) = Inf.
Proof. intros O Z0. rewrite <- (zm1_mul m n P O), Z.mul_comm. exact Z0. Qed.
Lemma derived_iff : forall pk, pk_built pk ->
  (nmul1 (Z.to_nat r255) (ecp_pt pk) = Inf <->
   exists b sk pk', bytes b /\ sk_from_bytes b = Some (Ok sk) /\ be_int b < r255 /\ pk_from_secret_key sk = Some pk' /\ pk_eq pk pk' = Some true).
Proof.
  intros pk PB. pose proof (built_adm pk PB) as A. pose proof (adm_on _ A) as O. assert (R0 : 0 <= r255) by (vm_compute; discriminate).
  assert (R4 : r255 < 2 ^ 384) by (vm_compute; reflexivity). rewrite <- (zm1_nmul _ (ecp_pt pk) R0). split.
  - intros T. destruct (r_torsion _ O T) as (k & K & E). destruct (sk_from_bytes_ok (be_bytes 48 k) (be_bytes_bytes _ _) (be_bytes_length _ _)) as (sk & SK & _).
    destruct (derive _ sk (be_bytes_bytes _ _) SK) as (pk' & D & A' & P). rewrite be_int_48 in P by lia.
    exists (be_bytes 48 k), sk, pk'. split; [apply be_bytes_bytes|]. split; [exact SK|]. split; [rewrite be_int_48 by lia; lia|]. split; [exact D|].
    destruct (pk_eq_ok pk pk' A A') as (r & ER & RR). rewrite ER. f_equal. apply RR. rewrite E, P. reflexivity.
  - intros (b & sk & pk' & BB & SK & _ & D & Q). destruct (derive b sk BB SK) as (p1 & D1 & A1 & P1). rewrite D in D1. injection D1 as <-.
    destruct (pk_eq_ok pk pk' A A1) as (r & ER & RR). rewrite Q in ER. injection ER as <-. rewrite (proj1 RR eq_refl), P1.
    exact (zm1_killed r255 _ G1gen G1gen_on G1gen_order).
Qed.

(* ------------------------- non-degeneracy ------------------------------- *)
Lemma root_coprime x a b : 0 <= a -> 1 < b -> Z.gcd a b = 1 -> kpw x a = k1 -> kpw x b = k1 -> x = k1.
Proof.
  intros A B G XA XB. destruct (Zgcd_1_rel_prime a b) as [RP _]. destruct (rel_prime_bezout a b (RP G)) as [u v UV].
  pose proof (Z.mod_pos_bound u b ltac:(lia)) as U. set (c := u mod b) in *.
  assert (M : (c * a) mod b = 1).
  { unfold c. rewrite Zmult_mod_idemp_l. replace (u * a) with (1 + (- v) * b) by lia. rewrite Z_mod_plus_full. apply Z.mod_small. lia. }
  pose proof (Z.div_mod (c * a) b ltac:(lia)) as DM. rewrite M in DM.
  assert (Q : 0 <= c * a / b) by (apply Z.div_pos; [apply Z.mul_nonneg_nonneg; lia|lia]).
  assert (E : kpw x (a * c) = k1) by (rewrite kpw_mul, XA, kpw_one by lia; reflexivity).
  replace (a * c) with (1 + b * (c * a / b)) in E by lia.
  rewrite kpw_add, kpw_mul, XB, kpw_one, kpw_1 in E by (first [lia|apply Z.mul_nonneg_nonneg; lia]).
  rewrite <- E. ring.
Qed.
Lemma h1c_pos : 0 <= h1c. Proof. vm_compute. discriminate. Qed.
Lemma pairing_right H K : eigen H -> H <> Inf -> on1 K -> (pairing H K = k1 <-> zm1 h1c K = Inf).
Proof.
  intros E N O. pose proof h1c_pos as HP. pose proof (pairing_zm_r h1c H K HP E O) as PZ. split.
  - intros P. rewrite P, kpw_one in PZ by exact HP.
    assert (T : zm1 r255 (zm1 h1c K) = Inf) by (exact (zm1_killed2 h1c r255 K O (cofactor_kills K O))).
    destruct (r_torsion _ (zm1_on h1c K O) T) as (k & KB & Q). rewrite Q in PZ. rewrite (zm1_nmul k G1gen (proj1 KB)) in PZ.
    apply (pairing_multiples_nondegenerate H (Z.to_nat k) (proj1 E) (proj2 (sub_zm H) (eigen_r H E))) in PZ. destruct PZ as [PZ|PZ]; [contradiction|].
    rewrite Z2Nat.id, Z.mod_small in PZ by lia. rewrite Q, PZ. apply zm1_0.
  - intros T. rewrite T, pairing_inf_r in PZ. apply (root_coprime (pairing H K) h1c r255 HP); [vm_compute; reflexivity|exact h1_coprime|symmetry; exact PZ|].
    apply (pairing_r H K (proj1 E) O).
Qed.
Lemma pairing_right_nondegenerate : forall P Q, on2 P -> in_subgroup P -> P <> Inf -> on1 Q -> (pairing P Q = k1 <-> nmul1 (Z.to_nat h1c) Q = Inf).
Proof. intros P Q O S1 N OQ. rewrite <- (zm1_nmul h1c Q h1c_pos). exact (pairing_right P Q (sub_eigen P O S1) N OQ). Qed.
Lemma zm1_shift n A B D : A = padd1 D B -> on1 D -> on1 B -> zm1 n A = padd1 (zm1 n D) (zm1 n B).
Proof. intros -> O1 O2. apply zm1_dist; assumption. Qed.
Opaque h1c.
Lemma pairing_same H K1 K2 : eigen H -> H <> Inf -> on1 K1 -> on1 K2 -> (pairing H K1 = pairing H K2 <-> zm1 h1c K1 = zm1 h1c K2).
Proof.
  intros E N O1 O2. pose proof (pneg1_on _ O2) as ON. pose proof (padd1_on _ _ O1 ON) as OD. set (D := padd1 K1 (pneg1 K2)) in *.
  assert (KD : K1 = padd1 D K2).
  { unfold D. rewrite padd1_assoc by assumption. rewrite (padd1_comm (pneg1 K2) K2) by assumption. rewrite (padd1_neg K2 O2). symmetry. apply padd1_0r. }
  assert (PE : pairing H K1 = kmul (pairing H D) (pairing H K2)) by (rewrite KD at 1; apply pairing_add_r; assumption).
  assert (ZE : zm1 h1c K1 = padd1 (zm1 h1c D) (zm1 h1c K2)) by (exact (zm1_shift h1c K1 K2 D KD OD O2)).
  pose proof (pairing_right H D E N OD) as PR. pose proof (pairing_nz H K2 (proj1 E) O2) as NZ. rewrite PE, ZE. split.
  - intros Q. rewrite (proj1 PR); [apply padd1_0l|]. revert Q NZ. generalize (pairing H D) (pairing H K2). intros a b Q NZ.
    assert (Z0 : kmul (ksub a k1) b = k0) by (transitivity (ksub (kmul a b) b); [ring|rewrite Q; ring]).
    apply k_integral in Z0. destruct Z0 as [Z0|Z0]; [|contradiction]. transitivity (kadd (ksub a k1) k1); [ring|rewrite Z0; ring].
  - intros Q. rewrite (proj2 PR); [ring|]. pose proof (zm1_on h1c D OD) as OZ. pose proof (zm1_on h1c K2 O2) as OZ2. revert Q OZ OZ2. generalize (zm1 h1c D) (zm1 h1c K2).
    intros a b Q OA OB. transitivity (padd1 (padd1 a b) (pneg1 b)); [|rewrite Q; apply padd1_neg, OB].
    rewrite padd1_assoc by (try assumption; apply pneg1_on, OB). rewrite (padd1_neg b OB). symmetry. apply padd1_0r.
Qed.

(* ------------------------- keys with the same verdicts ------------------ *)
Lemma not_zero_case H K : H <> Inf -> ~ zero_case H K. Proof. intros N [Z0 _]. contradiction. Qed.
(* two keys, for a verifier whose verdict is the pairing equation with the point H *)
Definition verdict (V : ECP2 -> ECP -> option bool) (H : pt2) (hash : list Z -> list Z) : Prop := forall s pk, sig_built hash s -> pk_built pk ->
  exists r, V s pk = Some r /\ (r = true <-> pairing_equation (ecp2_pt s) H (ecp_pt pk) /\ ~ zero_case H (ecp_pt pk)).
Lemma verdict_hash hash msg d h : digests hash -> 0 <= d < 2 ^ 64 -> hash_on_g2 hash msg d = Some h ->
  eigen (ecp2_pt h) /\ verdict (fun s pk => sig_verify hash s msg d pk) (ecp2_pt h) hash.
Proof.
  intros HD D HE. pose proof (hash_findable_all hash msg d) as F. split; [exact (hash_eigen hash msg d h HD D F HE)|].
  intros s pk SB PB. destruct (verify_equation hash s msg d pk HD D F SB PB) as (h' & r & E' & V & W). rewrite HE in E'. injection E' as <-.
  exists r. split; [exact V|exact W].
Qed.
Lemma verdict_hashed hash re im h : digests hash -> bytes re -> bytes im -> (48 <= length re)%nat -> (48 <= length im)%nat -> map_to_g2 re im = Some h ->
  eigen (ecp2_pt h) /\ verdict (fun s pk => sig_verify_hashed s re im pk) (ecp2_pt h) hash.
Proof.
  intros HD BR BI LR LI HE. pose proof (findable_all re im) as F. split; [exact (map_eigen re im h BR BI LR LI F HE)|].
  intros s pk SB PB. destruct (verify_hashed_equation hash s re im pk HD BR BI LR LI F SB PB) as (h' & r & E' & V & W). rewrite HE in E'. injection E' as <-.
  exists r. split; [exact V|exact W].
Qed.
Lemma key_classes_zm V H hash pk1 pk2 A1 A2 : eigen H -> verdict V H hash -> zm1 h1c (ecp_pt pk1) = A1 -> zm1 h1c (ecp_pt pk2) = A2 -> H <> Inf -> pk_built pk1 -> pk_built pk2 ->
  (A1 = A2 -> forall s, sig_built hash s -> V s pk1 = V s pk2) /\
  (A1 <> A2 -> forall s, sig_built hash s -> ~ (V s pk1 = Some true /\ V s pk2 = Some true)).
Proof.
  intros EG VD NA1 NA2 HN B1 B2.
  pose proof (pairing_same H _ _ EG HN (adm_on _ (built_adm _ B1)) (adm_on _ (built_adm _ B2))) as PS. rewrite NA1, NA2 in PS.
  assert (VV : forall s pk, sig_built hash s -> pk_built pk -> exists r, V s pk = Some r /\ (r = true <-> pairing (ecp2_pt s) G1gen = pairing H (ecp_pt pk))).
  { intros s pk SB PB. destruct (VD s pk SB PB) as (r & E & W).
    exists r. split; [exact E|]. rewrite W. unfold pairing_equation. split; [intros [X _]; exact X|]. intros X. split; [exact X|apply not_zero_case; exact HN]. }
  split.
  - intros Q s SB. destruct (VV s pk1 SB B1) as (r1 & V1 & W1). destruct (VV s pk2 SB B2) as (r2 & V2 & W2). rewrite V1, V2. f_equal. apply eq_true_iff_eq.
    rewrite W1, W2, (proj2 PS Q). reflexivity.
  - intros Q s SB [T1 T2]. destruct (VV s pk1 SB B1) as (r1 & V1 & W1). destruct (VV s pk2 SB B2) as (r2 & V2 & W2). rewrite V1 in T1. rewrite V2 in T2.
    injection T1 as ->. injection T2 as ->. apply Q, PS. rewrite <- (proj1 W1 eq_refl). exact (proj1 W2 eq_refl).
Qed.
Lemma key_classes : forall hash msg d pk1 pk2, digests hash -> 0 <= d < 2 ^ 64 -> pk_built pk1 -> pk_built pk2 ->
  exists h, hash_on_g2 hash msg d = Some h /\ (ecp2_pt h <> Inf ->
    (nmul1 (Z.to_nat h1c) (ecp_pt pk1) = nmul1 (Z.to_nat h1c) (ecp_pt pk2) -> forall s, sig_built hash s -> sig_verify hash s msg d pk1 = sig_verify hash s msg d pk2) /\
    (nmul1 (Z.to_nat h1c) (ecp_pt pk1) <> nmul1 (Z.to_nat h1c) (ecp_pt pk2) ->
     forall s, sig_built hash s -> ~ (sig_verify hash s msg d pk1 = Some true /\ sig_verify hash s msg d pk2 = Some true))).
Proof.
  intros hash msg d pk1 pk2 HD D B1 B2. destruct (hash_total hash msg d HD D) as (h & HE). exists h. split; [exact HE|]. intros HN.
  destruct (verdict_hash hash msg d h HD D HE) as [EG VD].
  exact (key_classes_zm _ (ecp2_pt h) hash pk1 pk2 _ _ EG VD (zm1_nmul h1c (ecp_pt pk1) h1c_pos) (zm1_nmul h1c (ecp_pt pk2) h1c_pos) HN B1 B2).
Qed.
Lemma key_classes_hashed : forall hash re im h pk1 pk2, digests hash -> bytes re -> bytes im -> (48 <= length re)%nat -> (48 <= length im)%nat ->
  map_to_g2 re im = Some h -> ecp2_pt h <> Inf -> pk_built pk1 -> pk_built pk2 ->
    (nmul1 (Z.to_nat h1c) (ecp_pt pk1) = nmul1 (Z.to_nat h1c) (ecp_pt pk2) -> forall s, sig_built hash s -> sig_verify_hashed s re im pk1 = sig_verify_hashed s re im pk2) /\
    (nmul1 (Z.to_nat h1c) (ecp_pt pk1) <> nmul1 (Z.to_nat h1c) (ecp_pt pk2) ->
     forall s, sig_built hash s -> ~ (sig_verify_hashed s re im pk1 = Some true /\ sig_verify_hashed s re im pk2 = Some true)).
Proof.
  intros hash re im h pk1 pk2 HD BR BI LR LI HE HN B1 B2. destruct (verdict_hashed hash re im h HD BR BI LR LI HE) as [EG VD].
  exact (key_classes_zm _ (ecp2_pt h) hash pk1 pk2 _ _ EG VD (zm1_nmul h1c (ecp_pt pk1) h1c_pos) (zm1_nmul h1c (ecp_pt pk2) h1c_pos) HN B1 B2).
Qed.
Lemma pt2_inf_dec (H : pt2) : H = Inf \/ H <> Inf. Proof. destruct H; [left; reflexivity|right; discriminate]. Qed.
Lemma infinity_zm V H hash s pk A : eigen H -> verdict V H hash -> zm1 h1c (ecp_pt pk) = A -> pk_built pk -> sig_built hash s -> ecp2_pt s = Inf ->
  exists r, V s pk = Some r /\ (r = true <-> (H = Inf \/ A = Inf) /\ ~ zero_case H (ecp_pt pk)).
Proof.
  intros EG VD NA PB SB SI. destruct (VD s pk SB PB) as (r & E & W). exists r. split; [exact E|]. rewrite W. unfold pairing_equation.
  rewrite SI, (pairing_inf_l G1gen G1gen_on). pose proof (adm_on _ (built_adm _ PB)) as OK. destruct (pt2_inf_dec H) as [Z0|HN].
  - split; intros [X Y]; (split; [|exact Y]); [left; exact Z0|]. rewrite Z0. symmetry. apply pairing_inf_l, OK.
  - pose proof (pairing_right H _ EG HN OK) as PR. rewrite NA in PR. split; intros [X Y]; (split; [|exact Y]).
    + right. apply PR. symmetry. exact X.
    + destruct X as [X|X]; [contradiction|]. symmetry. apply PR. exact X.
Qed.
Lemma infinity_exact : forall hash msg d s pk, digests hash -> 0 <= d < 2 ^ 64 -> pk_built pk -> sig_built hash s -> ecp2_pt s = Inf ->
  exists h r, hash_on_g2 hash msg d = Some h /\ sig_verify hash s msg d pk = Some r /\
    (r = true <-> (ecp2_pt h = Inf \/ nmul1 (Z.to_nat h1c) (ecp_pt pk) = Inf) /\ ~ zero_case (ecp2_pt h) (ecp_pt pk)).
Proof.
  intros hash msg d s pk HD D PB SB SI. destruct (hash_total hash msg d HD D) as (h & HE). destruct (verdict_hash hash msg d h HD D HE) as [EG VD].
  destruct (infinity_zm _ _ hash s pk _ EG VD (zm1_nmul h1c (ecp_pt pk) h1c_pos) PB SB SI) as (r & V & W).
  exists h, r. split; [exact HE|]. split; [exact V|exact W].
Qed.
