(* Concrete cases meeting the hypotheses of the theorems in PropsVerify3. *)
From Coq Require Import ZArith List Bool Lia.
From Verif Require Import Prim Big Ecp Ecp2 Utils Api SpecBytes SkP NumT FieldQ FieldQ2 SpecCurve GroupP EcpP Ecp2P EcpC Ecp2C Denote GenP KeysP KeysP2 KeysP3 LayerP MapP SigsP SigsP2
  Tower SpecPairing PsiP BilinP TwistP RootP VerifyP VerifyP2 VerifyP5 VerifyP6 G1Grp G1Ord VerifyP7 ExSigs ExVerify ExVerify2.
Import ListNotations.
Open Scope Z_scope.
Opaque q381 fv mkq FieldQ.fadd FieldQ.fsub FieldQ.fmul FieldQ.fopp FieldQ.finv.

Lemma h1c_3 : h1c mod 3 = 0. Proof. vm_compute. reflexivity. Qed.
Lemma r_3 : r255 mod 3 = 1. Proof. vm_compute. reflexivity. Qed.
Lemma h1c_r_gcd : Z.gcd h1c r255 = 1. Proof. vm_compute. reflexivity. Qed.
Lemma r255_nonneg : 0 <= r255. Proof. vm_compute. discriminate. Qed.
Opaque h1c r255.
Lemma zm1_mod_n n m p : 0 <= n -> n mod 3 = m -> on1 p -> zm1 3 p = Inf -> nmul1 (Z.to_nat n) p = zm1 m p.
Proof. intros N E O T. rewrite <- zm1_nmul by exact N. rewrite <- (zm1_mod n 3 p O T ltac:(lia)), E. reflexivity. Qed.

(* C71, C74: the key of order 3 is killed by the cofactor and not by r; the signature at infinity *)
Example ex_low_order : exists pk s, pk_from_bytes (128 :: repeat 0 47) = Some (Ok pk) /\ pk_built pk /\ ecp_pt pk <> Inf /\
  nmul1 (Z.to_nat h1c) (ecp_pt pk) = Inf /\ nmul1 (Z.to_nat r255) (ecp_pt pk) <> Inf /\
  sig_from_bytes (192 :: repeat 0 95) = Some (Ok s) /\ sig_built toy_hash s /\ ecp2_pt s = Inf.
Proof.
  destruct third_key as (bs & t & y & BB & -> & TE & TP & O). destruct (proj2 (sig_infinity_decoding _ infinity_bytes) eq_refl) as (s & S1 & P).
  exists t, s. split; [exact TE|]. split; [exact (pkb_bytes _ _ BB TE)|]. rewrite TP. split; [discriminate|].
  split; [rewrite (zm1_mod_n h1c 0 _ h1c_pos h1c_3 O (order3 y O)); apply zm1_0|].
  split; [rewrite (zm1_mod_n r255 1 _ r255_nonneg r_3 O (order3 y O)), zm1_1; discriminate|].
  split; [exact S1|]. split; [exact (sgb_bytes toy_hash _ s infinity_bytes S1)|exact P].
Qed.
(* C74, C76: the derived keys of 3035 and of 7 are in different classes, a key and its sum with the
   key of order 3 in the same one *)
Lemma gen_mult_r n a : a = zm1 n G1gen -> zm1 r255 a = Inf.
Proof. intros ->. apply zm1_killed; [apply G1gen_on|exact G1gen_order]. Qed.
Lemma class_ne a b : on1 a -> on1 b -> zm1 r255 a = Inf -> zm1 r255 b = Inf -> a <> b -> zm1 h1c a <> zm1 h1c b.
Proof.
  intros OA OB RA RB N E. apply N. pose proof (pneg1_on b OB) as ON.
  assert (Z0 : padd1 a (pneg1 b) = Inf).
  { apply (bez1 h1c r255); [apply padd1_on; assumption| | |exact h1c_r_gcd]; rewrite zm1_dist by assumption; rewrite zm1_neg by assumption.
    - rewrite E. apply padd1_neg, zm1_on, OB.
    - rewrite RA, RB. reflexivity. }
  assert (X : padd1 (padd1 a (pneg1 b)) b = b) by (rewrite Z0; reflexivity).
  rewrite padd1_assoc in X by assumption. rewrite (padd1_comm (pneg1 b) b ON OB), (padd1_neg b OB) in X. rewrite <- X. symmetry. apply padd1_0r.
Qed.
Example ex_classes : exists sk1 sk2 pk1 pk2 t pk3, sk_from_bytes (skb 3035) = Some (Ok sk1) /\ sk_from_bytes (skb 7) = Some (Ok sk2) /\
  pk_from_secret_key sk1 = Some pk1 /\ pk_from_secret_key sk2 = Some pk2 /\ pk_from_bytes (128 :: repeat 0 47) = Some (Ok t) /\ apk_add pk1 t = Some pk3 /\
  pk_built pk1 /\ pk_built pk2 /\ pk_built pk3 /\ nmul1 (Z.to_nat r255) (ecp_pt pk1) = Inf /\
  nmul1 (Z.to_nat h1c) (ecp_pt pk1) <> nmul1 (Z.to_nat h1c) (ecp_pt pk2) /\
  nmul1 (Z.to_nat h1c) (ecp_pt pk1) = nmul1 (Z.to_nat h1c) (ecp_pt pk3) /\ pk_eq pk1 pk3 = Some false.
Proof.
  destruct (skb_ok 3035) as (sk1 & SK1). destruct (skb_ok 7) as (sk2 & SK2).
  destruct (derive (skb 3035) sk1 (be_bytes_bytes _ _) SK1) as (pk1 & K1 & A1 & P1). destruct (derive (skb 7) sk2 (be_bytes_bytes _ _) SK2) as (pk2 & K2 & A2 & P2).
  pose proof (pkb_secret _ _ _ (be_bytes_bytes _ _) SK1 K1) as B1. pose proof (pkb_secret _ _ _ (be_bytes_bytes _ _) SK2 K2) as B2.
  destruct shifted_keys_all as (t & TE & SH). destruct (SH pk1 B1) as (pk3 & AE & B3 & NE & _).
  exists sk1, sk2, pk1, pk2, t, pk3. split; [exact SK1|]. split; [exact SK2|]. split; [exact K1|]. split; [exact K2|]. split; [exact TE|]. split; [exact AE|].
  split; [exact B1|]. split; [exact B2|]. split; [exact B3|].
  pose proof (adm_on _ A1) as O1. pose proof (adm_on _ A2) as O2. pose proof (gen_mult_r _ _ P1) as R1. pose proof (gen_mult_r _ _ P2) as R2.
  split; [rewrite <- (zm1_nmul r255 (ecp_pt pk1) r255_nonneg); exact R1|].
  split; [rewrite <- (zm1_nmul h1c (ecp_pt pk1) h1c_pos), <- (zm1_nmul h1c (ecp_pt pk2) h1c_pos); apply class_ne; try assumption|].
  - intros C. rewrite P1, P2 in C. pose proof (zm1_inj _ _ C) as Q. revert Q. vm_compute. discriminate.
  - split; [|exact NE]. destruct third_key as (bs & t' & y & BB & -> & TE' & TP & O). rewrite TE in TE'. injection TE' as <-.
    destruct (apk_add_adm pk1 t A1 (built_adm _ (pkb_bytes _ _ BB TE))) as (pk' & PE & _ & PP). rewrite AE in PE. injection PE as <-. rewrite TP in PP.
    rewrite <- (zm1_nmul h1c (ecp_pt pk1) h1c_pos), <- (zm1_nmul h1c (ecp_pt pk3) h1c_pos), PP, (zm1_dist h1c _ _ O1 O).
    rewrite (zm1_nmul h1c (Aff f0 y) h1c_pos), (zm1_mod_n h1c 0 _ h1c_pos h1c_3 O (order3 y O)), zm1_0. symmetry. apply padd1_0r.
Qed.
(* C76, C77: the coordinates of the generator of the twist are mapped to a point that is not infinity *)
Example ex_map_inputs : bytes gre /\ bytes gim /\ (48 <= length gre)%nat /\ (48 <= length gim)%nat /\ exists h, map_to_g2 gre gim = Some h /\ ecp2_pt h <> Inf.
Proof. destruct gen_lens as (A & B & C & D). split; [exact A|]. split; [exact B|]. split; [exact C|]. split; [exact D|exact ex_message_point]. Qed.
(* C73, C75: the generator is on the curve and not killed by the cofactor *)
Lemma gen_ne : G1gen <> Inf. Proof. discriminate. Qed.
Example ex_gen_right : on1 G1gen /\ nmul1 (Z.to_nat h1c) G1gen <> Inf.
Proof.
  split; [exact G1gen_on|]. rewrite <- (zm1_nmul h1c G1gen h1c_pos). intros C. exact (gen_ne (bez1 h1c r255 G1gen G1gen_on C G1gen_order h1c_r_gcd)).
Qed.
