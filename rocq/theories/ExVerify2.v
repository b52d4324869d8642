(* Concrete cases meeting the hypotheses of the theorems in PropsVerify2. *)
From Coq Require Import ZArith List Bool Lia Permutation.
From Verif Require Import Prim Big Ecp Ecp2 Utils Api SpecBytes SkP NumT FieldQ FieldQ2 SpecCurve GroupP EcpP Ecp2P EcpC Ecp2C Denote GenP KeysP KeysP2 KeysP3 LayerP MapP SigsP SigsP2 Sqrt2P
  Tower SpecPairing PsiP BilinP TwistP RootP VerifyP VerifyP2 VerifyP3 VerifyP4 VerifyP5 VerifyP6 ExSigs ExVerify.
Import ListNotations.
Open Scope Z_scope.
Opaque q381 fv mkq FieldQ.fadd FieldQ.fsub FieldQ.fmul FieldQ.fopp FieldQ.finv.

(* C64-C69: honest signatures are built, in the group of order r, and there are keys *)
Example ex_honest_in_subgroup : exists sk s pk, sk_from_bytes (skb 3035) = Some (Ok sk) /\ sig_new toy_hash [1; 2; 3] 4 sk = Some s /\
  pk_from_secret_key sk = Some pk /\ pk_built pk /\ sig_built toy_hash s /\ in_subgroup (ecp2_pt s) /\ sig_verify toy_hash s [1; 2; 3] 4 pk = Some true.
Proof.
  assert (D : 0 <= 4 < 2 ^ 64) by lia. destruct (skb_ok 3035) as (sk & SK).
  assert (N : be_int (skb 3035) mod r255 <> 0) by (vm_compute; discriminate).
  destruct (honest_verifies toy_hash [1; 2; 3] 4 _ sk ex_digests D (ex_findable _ _) (be_bytes_bytes _ _) SK N) as (s & pk & S1 & K & V).
  exists sk, s, pk. split; [exact SK|]. split; [exact S1|]. split; [exact K|]. split; [exact (pkb_secret _ _ _ (be_bytes_bytes _ _) SK K)|].
  split; [exact (sgb_new _ _ _ _ _ _ D (be_bytes_bytes _ _) SK S1)|]. split; [|exact V].
  destruct (hash_R toy_hash [1; 2; 3] 4 ex_digests D (ex_findable _ _)) as (h & H & E & R & G).
  destruct (signing_A _ _ _ h H _ sk (be_bytes_bytes _ _) SK E R) as (s' & ES & AS). rewrite S1 in ES. injection ES as <-.
  rewrite (ecp2R_pt _ _ _ _ (ecp2A_R _ _ _ _ AS)). exact (proj2 (sub_zm _) (eigen_r _ (PsiP.eigen_zm _ H G))).
Qed.
(* C67: a message point that is not infinity (the x coordinate is that of the generator of
   the twist), and a verdict that is negative *)
Definition gxr : Z := 0x24aa2b2f08f0a91260805272dc51051c6e47ad4fa403b02b4510b647ae3d1770bac0326a805bbefd48056c8c121bdb8.
Definition gxi : Z := 0x13e02b6052719f607dacd3a088274f65596bd0d09920b61ab5da61bbdc7f5049334cf11213945d57e5ac7d055d042b7e.
Definition gre : list Z := be_bytes 48 gxr.
Definition gim : list Z := be_bytes 48 gxi.
Lemma gre_int : be_int (firstn 48 gre) = gxr. Proof. vm_compute. reflexivity. Qed.
Lemma gim_int : be_int (firstn 48 gim) = gxi. Proof. vm_compute. reflexivity. Qed.
Definition gyr : Z := 0xce5d527727d6e118cc9cdc6da2e351aadfd9baa8cbdd3a76d429a695160d12c923ac9cc3baca289e193548608b82801.
Definition gyi : Z := 0x606c4a02ea734cc32acd2b02bc28b99cb3e287e85a763af267492ab572e99ab3f370d275cec1da1aaa9075ff05f79be.
Lemma gen_pt : G2pt = Aff (SigsP2.z2 gxr gxi) (SigsP2.z2 gyr gyi).
Proof.
  unfold G2pt, TwD.vp, TwD.v2, SigsP2.z2.
  assert (E1 : Dig.nval (fst (fst TwPts.tG_p)) = gxr) by (vm_compute; reflexivity).
  assert (E2 : Dig.nval (snd (fst TwPts.tG_p)) = gxi) by (vm_compute; reflexivity).
  assert (E3 : Dig.nval (fst (snd TwPts.tG_p)) = gyr) by (vm_compute; reflexivity).
  assert (E4 : Dig.nval (snd (snd TwPts.tG_p)) = gyi) by (vm_compute; reflexivity).
  rewrite E1, E2, E3, E4. reflexivity.
Qed.
Lemma gen_on : on2 (Aff (SigsP2.z2 gxr gxi) (SigsP2.z2 gyr gyi)).
Proof. rewrite <- gen_pt. exact (proj1 G2_eigen). Qed.
Lemma gen_first : first_x (be_int (firstn 48 gre)) (be_int (firstn 48 gim)) 0.
Proof.
  rewrite gre_int, gim_int. split; [|intros j J; lia]. change (Z.of_nat 0) with 0. rewrite Z.add_0_r. exists (SigsP2.z2 gyr gyi). split.
  - apply (proj1 (on2_rhs _ _) gen_on).
  - cbn [SigsP2.z2 fst]. mkne.
Qed.
Lemma gen_lens : bytes gre /\ bytes gim /\ (48 <= length gre)%nat /\ (48 <= length gim)%nat.
Proof. split; [apply be_bytes_bytes|]. split; [apply be_bytes_bytes|]. split; apply Nat.eq_le_incl; symmetry; apply be_bytes_length. Qed.
Lemma h2_r_gcd : Z.gcd h2 r255 = 1. Proof. vm_compute. reflexivity. Qed.
Example ex_message_point : exists h, map_to_g2 gre gim = Some h /\ ecp2_pt h <> Inf.
Proof.
  destruct gen_lens as (BR & BI & LR & LI). pose proof (map_point_spec gre gim 0 BR BI LR LI gen_first) as M. cbv zeta in M.
  destruct M as (p & y & _ & P & Y & _ & _ & h & H & _ & HP). exists h. split; [exact H|]. rewrite HP, P. clear HP P H.
  rewrite gre_int, gim_int in Y |- *. change (Z.of_nat 0) with 0 in Y |- *. rewrite Z.add_0_r in Y |- *. change (mkq gxr, mkq gxi) with (SigsP2.z2 gxr gxi) in Y |- *.
  pose proof gen_on as ON. assert (OY : on2 (Aff (SigsP2.z2 gxr gxi) y)) by (apply (proj2 (on2_rhs _ _) Y)).
  assert (RY : zm2 r255 (Aff (SigsP2.z2 gxr gxi) y) = Inf).
  { pose proof (eigen_r _ G2_eigen) as RG. rewrite gen_pt in RG. destruct (on2_two _ _ _ ON OY) as [E|E]; rewrite E; [exact RG|].
    change (Aff (SigsP2.z2 gxr gxi) (gopp (SigsP2.z2 gyr gyi))) with (pneg2 (Aff (SigsP2.z2 gxr gxi) (SigsP2.z2 gyr gyi))).
    rewrite (zm2_neg r255 _ ON), RG. reflexivity. }
  intros C. pose proof (bez2 h2 r255 _ OY C RY h2_r_gcd) as B. discriminate B.
Qed.
Example ex_wrong_key_rejected : exists sk1 sk2 s pk, sk_from_bytes (skb 3035) = Some (Ok sk1) /\ sk_from_bytes (skb 7) = Some (Ok sk2) /\ sig_new_hashed gre gim sk1 = Some s /\ pk_from_secret_key sk2 = Some pk /\ sig_verify_hashed s gre gim pk = Some false.
Proof.
  destruct gen_lens as (BR & BI & LR & LI). assert (F : findable gre gim) by (exists 0%nat; exact gen_first).
  destruct (skb_ok 3035) as (sk1 & SK1). destruct (skb_ok 7) as (sk2 & SK2).
  destruct (honest_verdict_hashed gre gim _ sk1 BR BI LR LI F (be_bytes_bytes _ _) SK1) as (h & s & pk1 & r1 & H & S1 & _).
  destruct (derive (skb 7) sk2 (be_bytes_bytes _ _) SK2) as (pk & K & _). exists sk1, sk2, s, pk.
  split; [exact SK1|]. split; [exact SK2|]. split; [exact S1|]. split; [exact K|].
  destruct (other_key_hashed gre gim _ _ sk1 sk2 s pk BR BI LR LI F (be_bytes_bytes _ _) (be_bytes_bytes _ _) SK1 SK2 S1 K) as (h' & r & H' & V & W).
  rewrite V. f_equal. destruct r; [|reflexivity]. exfalso. destruct (proj1 W eq_refl) as [[Q|Q] _].
  - revert Q. vm_compute. discriminate.
  - destruct ex_message_point as (h'' & H'' & N). rewrite H' in H''. injection H'' as <-. exact (N Q).
Qed.
(* C68: two messages *)
Example ex_two_messages : hash_findable toy_hash [1; 2; 3] 4 /\ hash_findable toy_hash [1; 2] 5 /\ be_int (skb 3035) mod r255 <> 0.
Proof. split; [apply ex_findable|]. split; [apply ex_findable|vm_compute; discriminate]. Qed.
(* C69: two messages of 32 bytes, two keys, a signature in the group of order r *)
Example ex_multiple_inputs : exists pks s, derived_keys [skb 3035; skb 7] pks /\ length [m1; m2] = length pks /\ sig_built toy_hash s /\ in_subgroup (ecp2_pt s) /\ Forall (fun m => length m = 32%nat) [m1; m2] /\ Forall (fun m => hash_findable toy_hash m 4) [m1; m2] /\ Forall (fun b => be_int b mod r255 <> 0) [skb 3035; skb 7].
Proof.
  destruct ex_honest_in_subgroup as (_ & s & _ & _ & _ & _ & _ & SB & SG & _). destruct (skb_ok 3035) as (sk1 & SK1). destruct (skb_ok 7) as (sk2 & SK2).
  destruct (derive (skb 3035) sk1 (be_bytes_bytes _ _) SK1) as (pk1 & K1 & _). destruct (derive (skb 7) sk2 (be_bytes_bytes _ _) SK2) as (pk2 & K2 & _).
  exists [pk1; pk2], s. split; [eapply dk_cons; [apply be_bytes_bytes|exact SK1|exact K1|]; eapply dk_cons; [apply be_bytes_bytes|exact SK2|exact K2|constructor]|].
  split; [reflexivity|]. split; [exact SB|]. split; [exact SG|]. split; [repeat (apply Forall_cons; [reflexivity|]); constructor|].
  split; [repeat (apply Forall_cons; [apply ex_findable|]); constructor|]. repeat (apply Forall_cons; [vm_compute; discriminate|]). constructor.
Qed.
(* C73: a point of the group of order r that is not infinity *)
Example ex_subgroup_point : on2 G2pt /\ in_subgroup G2pt /\ G2pt <> Inf /\ pairing G2pt G1gen <> k1.
Proof.
  split; [exact (proj1 G2_eigen)|]. split; [exact (proj2 (sub_zm _) (eigen_r _ G2_eigen))|]. split; [discriminate|exact PairD.pairing_G_ne].
Qed.
