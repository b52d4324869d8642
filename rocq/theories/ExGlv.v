(* Concrete cases meeting the hypotheses of the theorems in PropsGlv. *)
From Coq Require Import ZArith List Bool Lia.
From Verif Require Import Prim PrimP Rom Big BigP BigP2 NumT FieldQ FieldQ2 FpP2 Fp2P Fp12 Pair SpecBytes Utils Api SpecCurve Ecp EcpP Ecp2 Ecp2P GenP G1Ord Denote DenoteT
  KeysP KeysP2 KeysP3 LayerP Sqrt2P Tower TowerP CycP FrobP Fp12P FexpP SpecPairing MillerP3 PsiP BilinP TwistP SigsP SigsP2 VerifyP VerifyP2 VerifyP3 VerifyP7 Glv Pow4P PinP GlvP ExKeys ExSigs ExVerify2 ExVerify3.
Import ListNotations.
Open Scope Z_scope.

(* a scalar below r, and one above *)
Example ex_scalar : rep 7 (limbs 7 (r255 - 2)) (r255 - 2) /\ r255 - 2 < 2 ^ 382 /\ rep 7 (limbs 7 (5 * r255 + 3)) (5 * r255 + 3) /\ 5 * r255 + 3 < 2 ^ 382 /\
  r255 - 2 + (5 * r255 + 3) + 4 < 2 ^ 404.
Proof.
  split; [apply limbs_rep; split; vm_compute; (discriminate || reflexivity)|]. split; [vm_compute; reflexivity|].
  split; [apply limbs_rep; split; vm_compute; (discriminate || reflexivity)|]. split; vm_compute; reflexivity.
Qed.
(* C78, C80, C85: the key of secret key 3035 *)
Example ex_g1_point : exists pk, ecp_wf 8 4194304 pk /\ ecp_wf 8 8388608 pk /\ adm pk /\ nmul1 (Z.to_nat r255) (ecp_pt pk) = Inf /\ ecp_pt pk = P3035pt.
Proof.
  destruct ex_key as (sk & pk & E & EP & B & A & K & P). exists pk.
  destruct (sk_rep _ sk (be_bytes_bytes _ _) E) as (_ & R & V). pose proof (ok_some _ _ _ (pk_sk_ok sk _ R (proj2 V)) EP) as F. apply ecpA_R5 in F.
  pose proof (ecpR_weak _ _ 8 4194304 _ _ F ltac:(lia) ltac:(lia)) as F1. pose proof (ecpR_weak _ _ 8 8388608 _ _ F ltac:(lia) ltac:(lia)) as F2.
  split; [exact (proj1 (proj1 (ecpR_wf_pt _ _ _ _) F1))|]. split; [exact (proj1 (proj1 (ecpR_wf_pt _ _ _ _) F2))|]. split; [exact A|].
  split; [exact (honest_order pk K)|exact P].
Qed.
(* C79: every decoded key will do, and one is outside the group of order r *)
Example ex_g1_outside : exists bs pk, bytes bs /\ pk_from_bytes bs = Some (Ok pk) /\ ecp_wf 8 4194304 pk /\ nmul1 (Z.to_nat r255) (ecp_pt pk) <> Inf.
Proof.
  destruct subgroup_refuted as (bs & pk & B & D & N). exists bs, pk. split; [exact B|]. split; [exact D|]. split; [exact (pk_small bs pk B D)|exact N].
Qed.
(* C81, C83: the point a pair of strings is mapped to *)
Example ex_g2_point : exists h, map_to_g2 gre gim = Some h /\ ecp2_wf 8 52000 h /\ adm2 h /\ in_subgroup (ecp2_pt h) /\ ecp2_pt h <> Inf.
Proof.
  destruct gen_lens as (BR & BI & LR & LI). assert (F : findable gre gim) by (exists 0%nat; exact gen_first).
  destruct (map_R gre gim BR BI LR LI F) as (h & H & M & R & G). exists h. split; [exact M|].
  pose proof (ecp2R_weak _ _ 8 52000 _ _ R ltac:(lia) ltac:(lia)) as F1. pose proof (ecp2R_weak _ _ 8 262144 _ _ R ltac:(lia) ltac:(lia)) as F2.
  split; [exact (proj1 (proj1 (ecp2R_wf_pt _ _ _ _) F1))|]. split; [exact (proj1 (proj1 (ecp2R_wf_pt _ _ _ _) F2))|].
  split; [rewrite (ecp2R_pt _ _ _ _ R); exact (good_sub H (proj1 G) G)|]. destruct ex_message_point as (h' & M' & N).
  rewrite M in M'. apply (f_equal (fun o => match o with Some x => x | None => h end)) in M'. rewrite M'. exact N.
Qed.
(* C82 *)
Example ex_g2_outside : exists bs s, bytes bs /\ sig_from_bytes bs = Some (Ok s) /\ ecp2_wf 8 52000 s /\ ~ in_subgroup (ecp2_pt s).
Proof.
  destruct sig13 as (s & D & N). eexists; exists s. split; [|split; [exact D|split; [|exact N]]]; [apply sig_code_bytes|exact (sig_small _ s (sig_code_bytes _ _ _) D)].
Qed.
(* C84, C85: the pairing of that point with the generator, which is not 1 *)
Lemma wf12_weak l E l' E' a : fp12_wf l E a -> 1 <= l <= l' -> E <= E' -> fp12_wf l' E' a.
Proof. intros H L M. apply fp12_R in H. exact (proj1 (proj1 (fp12R_wfv l' E' _ a) (fp12R_weak l E l' E' _ a H L M))). Qed.
Example ex_gt_element : exists c, fp12_wf 8 50000 c /\ fp12_wf 8 400000 c /\ fp12_wf 8 524288 c /\ fp12_wf 8 2097152 c /\ kpw (fp12_val c) r255 = k1 /\
  kpw (fp12_val c) (q381 ^ 4 - q381 ^ 2 + 1) = k1 /\ fp12_val c <> k1.
Proof.
  destruct gen_lens as (BR & BI & LR & LI). assert (F : findable gre gim) by (exists 0%nat; exact gen_first).
  destruct (map_R gre gim BR BI LR LI F) as (h & H & M & R & G).
  assert (NI : H <> Inf).
  { destruct ex_message_point as (h' & M' & N). rewrite M in M'. apply (f_equal (fun o => match o with Some x => x | None => h end)) in M'.
    rewrite <- M', (ecp2R_pt _ _ _ _ R) in N. exact N. }
  destruct (ok_ex _ _ (ecp2_affine_ok 1 17 H h R ltac:(lia) ltac:(lia))) as (a & _ & A).
  destruct (ok_ex _ _ generator_X) as (b & _ & B).
  destruct (ok_valC _ _ (ate_pairing_ok 1 17 1 2 H G1gen a b A B (eigen_ok _ _ G) ltac:(lia) ltac:(lia) ltac:(lia) ltac:(lia))) as (c & _ & W & V).
  assert (Z0 : ~ zero_case H G1gen) by (intros [C _]; exact (NI C)). rewrite (epair_regular H G1gen G1gen_on Z0) in V. exists c.
  split; [eapply wf12_weak; [exact W|lia|lia]|]. split; [eapply wf12_weak; [exact W|lia|lia]|]. split; [eapply wf12_weak; [exact W|lia|lia]|]. split; [eapply wf12_weak; [exact W|lia|lia]|].
  rewrite V. pose proof (pairing_r H G1gen (proj1 G) G1gen_on) as RR. split; [exact RR|]. split.
  - assert (E : q381 ^ 4 - q381 ^ 2 + 1 = cn).
    { rewrite cn_q2. Transparent q2. unfold q2. Opaque q2. generalize q381. intros z. ring. }
    rewrite E. exact (r_cyc _ RR).
  - intros C. exact (proj2 ex_gen_right (proj1 (pairing_right_nondegenerate H G1gen (proj1 G) (good_sub H (proj1 G) G) NI G1gen_on) C)).
Qed.
