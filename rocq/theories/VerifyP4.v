(* A message point that is the identity: a digest mapped to a point of order 13. *)
From Coq Require Import ZArith List Bool Lia Znumtheory Permutation Field.
From Verif Require Import Prim Rom Big Fp Fp2 Fp4 Fp12 Ecp Ecp2 Pair Utils Api PrimP BigP BigP2 SpecBytes BigP3 BigP4 BigP5 NumT FieldQ FieldQ2 FpP FpP2
  SkP SpecCurve CurveP GroupP JacobiM JacP Fp2P Sqrt2P WinP EcpP EcpC Ecp2P Denote GenP KeysP KeysP2 KeysP3 BigL LayerP Ecp2C MapP SigsP SigsP2
  Tower TowerP Fp4P Fp12P SpecPairing LineP PairP PairP2 PairP3 MillerP MillerP2 MillerP3 PsiP BilinP Dig TwD TwGrp TwPts TwPsi TwistP VerifyP VerifyP2.
Import ListNotations.
Open Scope Z_scope.

Definition k13_re : Z := 0x43ff79d06a80add8340a1a548d700c5ffeef5b14a3e246834d320e323d9fcc76bae16f9f2763ab556905843518bc0c2.
Definition k13_im : Z := 0x32762e5199990da7d4ebc6409c2fdae09b25206fa89dded0a23c05406588284278c22ea15e6d03cee69a68b7d4704a4.
Definition k13_y0 : Z := 0x7b8eb3b0d94f08c916f6195da10e94d0f05b83418b3d3b6b6502cc324ab047967961c8d7bcc69b94501e53fabc600f3.
Definition k13_y1 : Z := 0x82b2fb28bdddaf702d3dda394c1dd5ffefcf24fd6b080891192186219d8d38a0a516e85dc3f74977eb47d01649f4c1e.
Definition re13 : list Z := be_bytes 48 k13_re.
Definition im13 : list Z := be_bytes 48 k13_im.
Lemma vp13 : vp t13_p = Aff (SigsP2.z2 k13_re k13_im) (SigsP2.z2 k13_y0 k13_y1).
Proof.
  unfold vp, v2, SigsP2.z2.
  assert (E1 : nval (fst (fst t13_p)) = k13_re) by (vm_compute; reflexivity).
  assert (E2 : nval (snd (fst t13_p)) = k13_im) by (vm_compute; reflexivity).
  assert (E3 : nval (fst (snd t13_p)) = k13_y0) by (vm_compute; reflexivity).
  assert (E4 : nval (snd (snd t13_p)) = k13_y1) by (vm_compute; reflexivity).
  rewrite E1, E2, E3, E4. reflexivity.
Qed.
Lemma on13 : on2 (Aff (SigsP2.z2 k13_re k13_im) (SigsP2.z2 k13_y0 k13_y1)).
Proof. rewrite <- vp13. apply (onk_ok _ t13_c). vm_cast_no_check (eq_refl true). Qed.
Lemma kill13 : zm2 13 (Aff (SigsP2.z2 k13_re k13_im) (SigsP2.z2 k13_y0 k13_y1)) = Inf.
Proof.
  destruct kills_13 as (a & A & K). pose proof (f_equal (fun x : TP => tp x) K) as H. cbv beta in H. rewrite tp_sm, tp_z, A, vp13 in H. exact H.
Qed.
Definition h2_13 : Z := Eval vm_compute in h2 / 13.
Lemma h2_13_eq : h2 = h2_13 * 13. Proof. vm_compute. reflexivity. Qed.
Lemma kill_h2 p : on2 p -> zm2 13 p = Inf -> zm2 h2 p = Inf.
Proof. intros O K. rewrite h2_13_eq, (zm2_mul h2_13 13 p O), K. apply zm2_zero. Qed.
Lemma re13_int : be_int (firstn 48 re13) = k13_re. Proof. vm_compute. reflexivity. Qed.
Lemma im13_int : be_int (firstn 48 im13) = k13_im. Proof. vm_compute. reflexivity. Qed.
Lemma first13 : first_x (be_int (firstn 48 re13)) (be_int (firstn 48 im13)) 0.
Proof.
  rewrite re13_int, im13_int. split; [|intros j J; lia]. change (Z.of_nat 0) with 0. rewrite Z.add_0_r. exists (SigsP2.z2 k13_y0 k13_y1). split.
  - apply (proj1 (on2_rhs _ _) on13).
  - cbn [SigsP2.z2 fst]. mkne.
Qed.
Lemma find13 : findable re13 im13. Proof. exists 0%nat. exact first13. Qed.
Lemma bytes13 : bytes re13 /\ bytes im13. Proof. split; apply be_bytes_bytes. Qed.
Lemma len13 : length re13 = 48%nat /\ length im13 = 48%nat. Proof. split; apply be_bytes_length. Qed.
Lemma map13 : exists h, map_to_g2 re13 im13 = Some h /\ ecp2_pt h = Inf.
Proof.
  destruct bytes13 as [BR BI], len13 as [LR LI].
  pose proof (map_point_spec re13 im13 0 BR BI ltac:(lia) ltac:(lia) first13) as M. cbv zeta in M.
  destruct M as (p & y & _ & P & Y & _ & _ & h & H & _ & HP). exists h. split; [exact H|]. rewrite HP, P. clear HP P H.
  rewrite re13_int, im13_int in Y |- *. change (Z.of_nat 0) with 0 in Y |- *. rewrite Z.add_0_r in Y |- *. change (mkq k13_re, mkq k13_im) with (SigsP2.z2 k13_re k13_im) in Y |- *.
  pose proof on13 as ON. assert (OY : on2 (Aff (SigsP2.z2 k13_re k13_im) y)) by (apply (proj2 (on2_rhs _ _) Y)).
  apply (kill_h2 _ OY). destruct (on2_two _ _ _ ON OY) as [E|E]; rewrite E; [exact kill13|].
  change (Aff (SigsP2.z2 k13_re k13_im) (gopp (SigsP2.z2 k13_y0 k13_y1))) with (pneg2 (Aff (SigsP2.z2 k13_re k13_im) (SigsP2.z2 k13_y0 k13_y1))).
  rewrite (zm2_neg 13 _ ON), kill13. reflexivity.
Qed.
Lemma identity_hash_refuted : exists re im h, bytes re /\ bytes im /\ length re = 48%nat /\ length im = 48%nat /\
  map_to_g2 re im = Some h /\ ecp2_pt h = Inf.
Proof.
  destruct map13 as (h & H & P). destruct bytes13, len13. exists re13, im13, h. do 4 (split; [assumption|]). split; [exact H|exact P].
Qed.
(* the honest signature of the zero key is rejected there *)
Definition zero48 : list Z := repeat 0 48.
Lemma zero48_bytes : bytes zero48. Proof. apply Forall_forall. intros x IN. apply repeat_spec in IN. lia. Qed.
Lemma zero48_int : be_int zero48 = 0. Proof. vm_compute. reflexivity. Qed.
Lemma zero_key_refuted : exists re im b sk s pk, bytes re /\ bytes im /\ length re = 48%nat /\ length im = 48%nat /\ bytes b /\ be_int b mod r255 = 0 /\
  sk_from_bytes b = Some (Ok sk) /\ sig_new_hashed re im sk = Some s /\ pk_from_secret_key sk = Some pk /\ sig_verify_hashed s re im pk = Some false.
Proof.
  destruct bytes13 as [BR BI], len13 as [LR LI]. destruct (sk_from_bytes_ok zero48 zero48_bytes (repeat_length _ _)) as (sk & SK & _).
  destruct (honest_verdict_hashed re13 im13 zero48 sk BR BI ltac:(lia) ltac:(lia) find13 zero48_bytes SK) as (h & s & pk & r & H & S1 & K & V & W).
  destruct map13 as (h' & H' & P). rewrite H in H'. injection H' as <-. exists re13, im13, zero48, sk, s, pk.
  split; [exact BR|]. split; [exact BI|]. split; [exact LR|]. split; [exact LI|]. split; [exact zero48_bytes|].
  assert (Z0 : be_int zero48 mod r255 = 0) by (rewrite zero48_int; reflexivity). split; [exact Z0|]. split; [exact SK|].
  split; [exact S1|]. split; [exact K|]. rewrite V. f_equal. destruct r; [|reflexivity]. exfalso. apply (proj1 W eq_refl). split; [exact P|exact Z0].
Qed.
(* there, the signature at infinity is accepted for every key of a non-zero secret *)
Lemma identity_forgery : exists re im s, bytes re /\ bytes im /\ length re = 48%nat /\ length im = 48%nat /\
  sig_from_bytes (192 :: repeat 0 95) = Some (Ok s) /\
  forall b sk pk, bytes b -> sk_from_bytes b = Some (Ok sk) -> pk_from_secret_key sk = Some pk -> be_int b mod r255 <> 0 ->
    sig_verify_hashed s re im pk = Some true.
Proof.
  destruct bytes13 as [BR BI], len13 as [LR LI].
  assert (IB : bytes (192 :: repeat 0 95)).
  { apply Forall_cons; [lia|]. apply Forall_forall. intros x IN. apply repeat_spec in IN. lia. }
  destruct (proj2 (sig_infinity_decoding _ IB) eq_refl) as (s & S1 & P). exists re13, im13, s.
  split; [exact BR|]. split; [exact BI|]. split; [exact LR|]. split; [exact LI|]. split; [exact S1|].
  intros b sk pk B SK K N. set (hash := fun _ : list Z => repeat 0 32).
  assert (HD : digests hash).
  { intros m. split; [|apply repeat_length]. apply Forall_forall. intros x IN. apply repeat_spec in IN. lia. }
  destruct (verify_hashed_equation hash s re13 im13 pk HD BR BI ltac:(lia) ltac:(lia) find13 (sgb_bytes hash _ s IB S1) (pkb_secret b sk pk B SK K))
    as (h & r & H & V & W).
  rewrite V. f_equal. apply W. destruct map13 as (h' & H' & PH). rewrite H in H'. injection H' as <-.
  destruct (derive b sk B SK) as (pk' & K' & _ & PK). rewrite K in K'. injection K' as <-. rewrite P, PH, PK. split; [|apply gen_regular; exact N].
  unfold pairing_equation. rewrite (pairing_inf_l G1gen G1gen_on), (pairing_inf_l (zm1 (be_int b) G1gen) (zm1_on _ _ G1gen_on)). reflexivity.
Qed.
