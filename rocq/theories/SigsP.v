(* Signatures and aggregate signatures: codec, equality, signing and aggregation,
   for every point the public interface can produce. *)
From Coq Require Import ZArith List Bool Lia Znumtheory Permutation Field.
From Verif Require Import Prim Rom Big Fp Fp2 Ecp Ecp2 Utils Api PrimP BigP BigP2 SpecBytes BigP3 BigP4 BigP5 NumT FieldQ FieldQ2 FpP FpP2
  SkP SpecCurve CurveP GroupP JacobiM JacP Fp2P Sqrt2P WinP EcpP EcpC Ecp2P Denote GenP KeysP KeysP2 KeysP3 LayerP Ecp2C Ecp2L MapP.
Import ListNotations.
Open Scope Z_scope.

Lemma adm2_R a : adm2 a -> ecp2R 8 262144 (ecp2_pt a) a. Proof. apply ecp2_wf_R. Qed.
Lemma adm2_on a : adm2 a -> on2 (ecp2_pt a). Proof. intros (_ & _ & _ & ON & _). exact ON. Qed.
Lemma R17_adm2 p a : ecp2R 1 17 p a -> adm2 a /\ ecp2_pt a = p.
Proof. intros H. apply ecp2R_wf_pt in H. destruct H as [W P]. split; [eapply ecp2_wf_weak; [exact W|lia|lia]|exact P]. Qed.
Lemma small_adm2 E p a : ecp2R 1 E p a -> E <= 262144 -> adm2 a /\ ecp2_pt a = p.
Proof. intros H HE. apply ecp2R_wf_pt in H. destruct H as [W P]. split; [eapply ecp2_wf_weak; [exact W|lia|lia]|exact P]. Qed.

(* the x for which FP2::sqrt finds a root: some root has a non-zero real part *)
Lemma root_like_re x : x <> g0 -> (root_like x <-> exists y, gmul y y = x /\ fst y <> f0).
Proof.
  intros N. split.
  - intros [[y Y] R]. destruct (Fq_dec (fst y) f0) as [E|E]; [|exists y; auto].
    exfalso. destruct y as [a b]. cbn [fst] in E. subst a. assert (X : x = (fopp (fmul b b), f0)).
    { rewrite Y. unfold gmul. cbn [fst snd]. f_equal; ring. }
    clear Y. destruct (Fq_dec b f0) as [B|B].
    + apply N. rewrite X, B. apply (f_equal (fun z => (z, f0))). ring.
    + rewrite X in R. cbn [fst snd] in R. specialize (R eq_refl).
      assert (NB : fmul b b <> f0) by (intros C; apply fq_integral in C; tauto).
      apply (sq_not_both (fmul b b) NB); [exists b; reflexivity|exact R].
  - intros (y & Y & E). split; [exists y; auto|]. intros Z0. destruct y as [a b]. cbn [fst] in E. rewrite <- Y in Z0 |- *.
    unfold gmul in Z0 |- *. cbn [fst snd] in Z0 |- *.
    assert (B : b = f0).
    { assert (T : fmul (fmul (fadd f1 f1) a) b = f0) by (rewrite <- Z0; ring). apply fq_integral in T. destruct T as [T|T]; [|exact T].
      apply fq_integral in T. destruct T as [T|T]; [exfalso; exact (two_nz T)|contradiction]. }
    exists a. rewrite B. ring.
Qed.
Lemma root_like_rhs x : root_like (rhs2 x) <-> exists y, gmul y y = rhs2 x /\ fst y <> f0.
Proof. apply root_like_re, rhs2_nz. Qed.
Lemma dec_y2_on x s f : on2 (Aff x s) -> on2 (Aff x (dec_y2 s f)).
Proof. intros ON. unfold dec_y2. destruct (_ =? f); [exact ON|apply (pneg2_on _ ON)]. Qed.

(* ------------------------- decoding ----------------------------------- *)
Lemma sig_decoded_len b s : sig_from_bytes b = Some (Ok s) -> length b = 96%nat.
Proof.
  intros H. destruct (Nat.eq_dec (length b) 96) as [L|L]; [exact L|]. unfold sig_from_bytes in H.
  rewrite (decompress_g2_len b L) in H. discriminate H.
Qed.
Lemma bytes_half bs : bytes bs -> length bs = 96%nat ->
  0 <= be_int (firstn 48 bs) < 2 ^ 384 /\ 0 <= be_int (skipn 48 bs) < 2 ^ 384.
Proof.
  intros B L. pose proof (be_int_range _ (bytes_firstn 48 bs B)) as R1. pose proof (be_int_range _ (bytes_skipn 48 bs B)) as R2.
  rewrite firstn_length, L in R1. rewrite skipn_length, L in R2. split; [exact R1|exact R2].
Qed.
Lemma sig_decoded b a : bytes b -> sig_from_bytes b = Some (Ok a) ->
  let v := be_int (firstn 48 b) in let w := be_int (skipn 48 b) in let x := (mkq w, mkq (v mod 2 ^ 381)) in
  v / 2 ^ 383 = 1 /\
  (((v / 2 ^ 382) mod 2 = 1 /\ v mod 2 ^ 382 = 0 /\ w = 0 /\ ecp2R 1 2 Inf a) \/
   ((v / 2 ^ 382) mod 2 = 0 /\ exists s, on2 (Aff x s) /\ is_sq (fst s) /\ fst s <> f0 /\
      ecp2R 1 9 (Aff x (dec_y2 s ((v / 2 ^ 381) mod 2))) a)).
Proof.
  intros B H v w x. pose proof (sig_decoded_len b a H) as L.
  pose proof (decompress_g2_ok b v w x B L eq_refl eq_refl eq_refl) as D. unfold sig_from_bytes in H. rewrite H in D. cbn [ok] in D.
  destruct D as (D1 & D2 & D3 & D4 & D5 & D6).
  destruct (Z.eq_dec (v / 2 ^ 383) 1) as [C|C]; [|specialize (D1 C); discriminate D1]. split; [exact C|].
  destruct (Z.eq_dec ((v / 2 ^ 382) mod 2) 1) as [I1|I1].
  - left. assert (DZ : (v mod 2 ^ 382 = 0 /\ w = 0) \/ ~ (v mod 2 ^ 382 = 0 /\ w = 0)) by lia.
    destruct DZ as [Z0|Z0]; [|specialize (D2 C I1 Z0); discriminate D2].
    destruct (D3 C I1 Z0) as (a' & E & A). injection E as <-. tauto.
  - right. split; [pose proof (Z.mod_pos_bound (v / 2 ^ 382) 2); lia|].
    destruct D6 as [RL|NR]; [|specialize (D4 C I1 NR); discriminate D4].
    destruct (D5 C I1 RL) as (a' & s & E & ON & SQ & F). injection E as <-. exists s. split; [exact ON|]. split; [exact SQ|].
    split; [|apply (ecp2F_R 9 _ _ _ ltac:(lia) (dec_y2_on _ _ _ ON) F)].
    apply root_like_rhs in RL. destruct RL as (y & Y & YN). destruct (on2_two x y s (proj2 (on2_rhs x y) Y) ON) as [G|G]; rewrite G; [exact YN|].
    cbn [gopp fst]. apply fopp_nz, YN.
Qed.
Lemma sig_decoder_class : forall bs, bytes bs ->
  let v := be_int (firstn 48 bs) in let w := be_int (skipn 48 bs) in let x := (mkq w, mkq (v mod 2 ^ 381)) in
  exists r, sig_from_bytes bs = Some r /\
  (length bs <> 96%nat -> r = Err IncorrectSize) /\
  (length bs = 96%nat -> Z.testbit v 383 = false -> r = Err InvalidCFlag) /\
  (length bs = 96%nat -> Z.testbit v 383 = true -> Z.testbit v 382 = true ->
     (v = 2 ^ 383 + 2 ^ 382 /\ w = 0 -> exists s, r = Ok s /\ ecp2_pt s = Inf) /\
     (~ (v = 2 ^ 383 + 2 ^ 382 /\ w = 0) -> r = Err BadPoint)) /\
  (length bs = 96%nat -> Z.testbit v 383 = true -> Z.testbit v 382 = false ->
     ((forall y, gmul y y = gadd (gmul (gmul x x) x) (mkq 4, mkq 4) -> fst y = f0) -> r = Err BadPoint) /\
     (forall y, gmul y y = gadd (gmul (gmul x x) x) (mkq 4, mkq 4) -> fst y <> f0 ->
        exists s, r = Ok s /\ (ecp2_pt s = Aff x y \/ ecp2_pt s = Aff x (gopp y)))).
Proof.
  intros bs B v w x. unfold sig_from_bytes. destruct (Nat.eq_dec (length bs) 96) as [L|L].
  2:{ rewrite (decompress_g2_len bs L). eexists. split; [reflexivity|]. split; [reflexivity|].
      split; [intros C; contradiction|]. split; intros C; contradiction. }
  destruct (bytes_half bs B L) as [VR _]. fold v in VR. change (2 ^ 384) with (2 ^ (383 + 1)) in VR.
  pose proof (top_bit 383 v ltac:(lia) VR) as T1. pose proof (decompress_g2_ok bs v w x B L eq_refl eq_refl eq_refl) as D.
  apply ok_ex in D. destruct D as (r & R & D1 & D2 & D3 & D4 & D5 & D6). exists r. split; [exact R|].
  pose proof (Z.testbit_true v 382 ltac:(lia)) as T2.
  split; [intros C; contradiction|]. split.
  { intros _ TF. apply D1. intros C. apply T1 in C. congruence. }
  split.
  - intros _ TA TB. apply T1 in TA. apply T2 in TB.
    pose proof (inf_value 382 v ltac:(lia) VR TA TB) as IV. change (382 + 1) with 383 in IV. split.
    + intros E. rewrite <- IV in E. destruct (D3 TA TB E) as (a & -> & A). exists a. split; [reflexivity|]. eapply ecp2R_pt, A.
    + intros E. apply (D2 TA TB). rewrite IV. exact E.
  - intros _ TA TB. apply T1 in TA. assert (TC : (v / 2 ^ 382) mod 2 <> 1) by (intros C; apply T2 in C; congruence).
    change (gadd (gmul (gmul x x) x) (mkq 4, mkq 4)) with (rhs2 x). split.
    + intros NS. apply (D4 TA TC). intros RL. apply root_like_rhs in RL. destruct RL as (y & Y & YN). apply YN, NS, Y.
    + intros y Y YN. assert (RL : root_like (rhs2 x)) by (apply root_like_rhs; exists y; auto).
      destruct (D5 TA TC RL) as (a & s & -> & ON & _ & F). exists a. split; [reflexivity|].
      pose proof (dec_y2_on x s ((v / 2 ^ 381) mod 2) ON) as DO.
      pose proof (ecp2R_pt _ _ _ _ (ecp2F_R 9 _ _ _ ltac:(lia) DO F)) as P. rewrite P.
      destruct (on2_two x y _ (proj2 (on2_rhs x y) Y) DO) as [G|G]; rewrite G; auto.
Qed.
Lemma sig_decoded_adm b a : bytes b -> sig_from_bytes b = Some (Ok a) -> adm2 a.
Proof.
  intros B H. destruct (sig_decoded b a B H) as (_ & [(_ & _ & _ & R)|(_ & s & ON & _ & _ & R)]); apply small_adm2 in R; try lia; apply R.
Qed.
Lemma sig_decoder_on_curve : forall bs s, bytes bs ->
  (sig_from_bytes bs = Some (Ok s) \/ asig_from_bytes bs = Some (Ok s)) -> on2 (ecp2_pt s).
Proof. intros bs s B H. apply adm2_on, (sig_decoded_adm bs); [exact B|]. destruct H as [H|H]; exact H. Qed.

(* ------------------------- encoding ----------------------------------- *)
Definition g2_code (x0 x1 y1 : Z) : list Z := be_bytes 48 (x1 + a_flag_code y1 * 2 ^ 381 + 2 ^ 383) ++ be_bytes 48 x0.
(* z is an integer the encoder may write for u: its residue, or q for 0 *)
Definition writes (u : Fq) (z : Z) : Prop := mkq z = u /\ 0 <= z <= q381 /\ (u <> f0 -> z = fv u).
Lemma rval_writes u a : writes u (rval u a).
Proof. split; [apply rval_mkq|]. split; [apply rval_range|apply rval_nz]. Qed.
Lemma sig_as_bytes_ok a : adm2 a -> exists bs, sig_as_bytes a = Some bs /\ match ecp2_pt a with
  | Inf => bs = g2_inf_bytes
  | Aff x y => exists x0 x1 y1, writes (fst x) x0 /\ writes (snd x) x1 /\ writes (snd y) y1 /\ bs = g2_code x0 x1 y1
  end.
Proof.
  intros A. pose proof (adm2_R a A) as R. pose proof (compress_g2_ok _ _ _ _ R ltac:(lia) ltac:(lia)) as C.
  apply ok_ex in C. destruct C as ([bs a'] & E & C). exists bs. unfold sig_as_bytes. rewrite E. cbn [bind]. split; [reflexivity|].
  destruct (ecp2_pt a) as [|x y]; [apply C|]. destruct C as [_ C].
  exists (rval (fst x) (f2a (e2x a'))), (rval (snd x) (f2b (e2x a'))), (rval (snd y) (f2b (e2y a'))).
  split; [apply rval_writes|]. split; [apply rval_writes|]. split; [apply rval_writes|exact C].
Qed.
Lemma g2_code_bytes a b c : bytes (g2_code a b c). Proof. apply Forall_app. split; apply be_bytes_bytes. Qed.
Lemma g2_code_len a b c : length (g2_code a b c) = 96%nat.
Proof. unfold g2_code. rewrite app_length, !be_bytes_length. reflexivity. Qed.
Lemma g2_code_hi a b c : 0 <= b < 2 ^ 381 -> be_int (firstn 48 (g2_code a b c)) = b + a_flag_code c * 2 ^ 381 + 2 ^ 383.
Proof.
  intros H. unfold g2_code. rewrite firstn_app_len by apply be_bytes_length. apply (g1_code_int b c H).
Qed.
Lemma g2_code_lo a b c : 0 <= a < 2 ^ 381 -> be_int (skipn 48 (g2_code a b c)) = a.
Proof. intros H. unfold g2_code. rewrite skipn_app_len by apply be_bytes_length. apply be_int_48. lia. Qed.
Lemma g2_inf_hi : be_int (firstn 48 g2_inf_bytes) = 2 ^ 383 + 2 ^ 382. Proof. vm_compute. reflexivity. Qed.
Lemma g2_inf_lo : be_int (skipn 48 g2_inf_bytes) = 0. Proof. vm_compute. reflexivity. Qed.
Lemma g2_inf_eq : g2_inf_bytes = 192 :: repeat 0 95. Proof. vm_compute. reflexivity. Qed.
Lemma sig_encoded_shape : forall a, adm2 a -> exists bs, sig_as_bytes a = Some bs /\ bytes bs /\ length bs = 96%nat /\
  Z.testbit (be_int (firstn 48 bs)) 383 = true /\ (Z.testbit (be_int (firstn 48 bs)) 382 = true <-> ecp2_pt a = Inf).
Proof.
  intros a A. destruct (sig_as_bytes_ok a A) as (bs & E & C). exists bs. split; [exact E|]. destruct (ecp2_pt a) as [|x y].
  - rewrite C. split; [apply be_bytes_bytes|]. split; [apply be_bytes_length|]. rewrite g2_inf_hi.
    split; [reflexivity|]. split; reflexivity.
  - destruct C as (x0 & x1 & y1 & _ & (_ & X1 & _) & _ & ->). split; [apply g2_code_bytes|]. split; [apply g2_code_len|].
    pose proof q381_b381 as QB. rewrite g2_code_hi by lia.
    destruct (g1_code_parts x1 (a_flag_code y1) ltac:(lia) (a_flag_01 _)) as (P1 & P2 & _).
    set (v := x1 + a_flag_code y1 * 2 ^ 381 + 2 ^ 383) in *. rewrite (Z.testbit_true v 382), P2 by lia.
    split; [|split; [lia|discriminate]]. rewrite (Z.testbit_true v 383), P1 by lia. reflexivity.
Qed.
Lemma sig_infinity_decoding : forall bs, bytes bs ->
  ((exists s, sig_from_bytes bs = Some (Ok s) /\ ecp2_pt s = Inf) <-> bs = 192 :: repeat 0 95).
Proof.
  intros bs B. rewrite <- g2_inf_eq. split.
  - intros (s & H & P). pose proof (sig_decoded_len bs s H) as L. destruct (sig_decoded bs s B H) as (C & [(I1 & Z0 & W0 & _)|(_ & t & ON & _ & _ & R)]).
    + destruct (bytes_half bs B L) as [VR _]. change (2 ^ 384) with (2 ^ (382 + 2)) in VR.
      apply (inf_value 382 _ ltac:(lia) VR C I1) in Z0. change (382 + 1) with 383 in Z0.
      apply be_int_inj; [exact B|apply be_bytes_bytes|rewrite L; reflexivity|].
      rewrite <- (firstn_skipn 48 bs), <- (firstn_skipn 48 g2_inf_bytes), !be_int_app, Z0, W0, g2_inf_hi, g2_inf_lo.
      rewrite skipn_length, L. reflexivity.
    + apply ecp2R_pt in R. congruence.
  - intros ->. pose proof (sig_decoder_class g2_inf_bytes B) as D. cbv zeta in D. destruct D as (r & R & _ & _ & D & _).
    rewrite g2_inf_hi, g2_inf_lo in D.
    destruct (D (be_bytes_length _ _) eq_refl eq_refl) as [D1 _]. destruct (D1 (conj eq_refl eq_refl)) as (s & -> & P). exists s. auto.
Qed.
Lemma sig_as_bytes_inf a : adm2 a -> ecp2_pt a = Inf -> sig_as_bytes a = Some g2_inf_bytes.
Proof. intros A P. destruct (sig_as_bytes_ok a A) as (bs & E & C). rewrite P in C. rewrite E, C. reflexivity. Qed.
Lemma sig_infinity_encoding : forall a, adm2 a -> (sig_as_bytes a = Some (192 :: repeat 0 95) <-> ecp2_pt a = Inf).
Proof.
  intros a A. rewrite <- g2_inf_eq. split; [|apply sig_as_bytes_inf, A]. intros E.
  destruct (sig_encoded_shape a A) as (bs & E2 & _ & _ & _ & I1). rewrite E in E2. injection E2 as <-. apply I1. rewrite g2_inf_hi. reflexivity.
Qed.

(* ------------------------- round trip --------------------------------- *)
Lemma sig_eq_ok : forall a b, adm2 a -> adm2 b -> exists r, sig_eq a b = Some r /\ (r = true <-> ecp2_pt a = ecp2_pt b).
Proof. exact K2_equals. Qed.
Lemma gopp_ne y : y <> g0 -> gopp y <> y.
Proof.
  intros N E. apply N. assert (T : gmul (gadd g1 g1) y = g0) by (transitivity (gsub y (gopp y)); [ring|rewrite E; ring]).
  apply gq_integral in T. destruct T as [T|T]; [|exact T]. exfalso. exact (gtwo_nz T).
Qed.
Lemma flag_amb u : u <> f0 -> (a_flag_code (fv u) <> a_flag_code (fv (fopp u)) <-> ~ ambiguous u).
Proof.
  intros N. pose proof (fv_range u). assert (fv u <> 0) by (intros C; apply N, fv_zero, C).
  unfold ambiguous. rewrite fv_opp by exact N. rewrite flags_differ by lia. tauto.
Qed.
Lemma dec_y2_own y s : s = y \/ s = gopp y -> is_sq (fst s) -> fst y <> f0 -> snd y <> f0 -> y <> g0 ->
  (dec_y2 s (a_flag_code (fv (snd y))) = y <-> ~ ambiguous (snd y) \/ is_sq (fst y)).
Proof.
  intros SY SQ YN YM Y0. pose proof (flag_amb _ YM) as FA. pose proof (gopp_ne y Y0) as NE. unfold dec_y2. destruct SY as [-> | ->].
  - rewrite Z.eqb_refl. tauto.
  - cbn [gopp fst snd] in SQ |- *. assert (NS : ~ is_sq (fst y)) by (intros C; exact (sq_not_both _ YN C SQ)).
    destruct (Z.eqb_spec (a_flag_code (fv (fopp (snd y)))) (a_flag_code (fv (snd y)))) as [FE|FE].
    + split; [intros C; contradiction|]. intros [C|C]; [exfalso; apply FA in C; apply C; auto|contradiction].
    + split; [intros _; left; apply FA; auto|intros _; ring].
Qed.
Lemma sig_round_trip : forall a, adm2 a -> exists bs r, sig_as_bytes a = Some bs /\ sig_from_bytes bs = Some r /\
  match ecp2_pt a with
  | Inf => exists s, r = Ok s /\ sig_eq s a = Some true
  | Aff x y => (fst y = f0 -> r = Err BadPoint) /\
      (fst y <> f0 -> exists s e, r = Ok s /\ sig_eq s a = Some e /\ (ecp2_pt s = ecp2_pt a \/ ecp2_pt s = pneg2 (ecp2_pt a)) /\
         (snd y <> f0 -> (e = true <-> ~ ambiguous (snd y) \/ exists t, fst y = fmul t t)))
  end.
Proof.
  intros a A. destruct (sig_as_bytes_ok a A) as (bs & E & C). exists bs. pose proof (adm2_on a A) as ON.
  assert (BB : bytes bs) by (destruct (ecp2_pt a); [rewrite C; apply be_bytes_bytes|destruct C as (x0 & x1 & y1 & _ & _ & _ & ->); apply g2_code_bytes]).
  pose proof (sig_decoded_adm bs) as SA. pose proof (sig_eq_ok) as SE. destruct (ecp2_pt a) as [|x y] eqn:P.
  - pose proof (proj2 (sig_infinity_decoding bs BB)) as D. rewrite C in *. rewrite <- g2_inf_eq in D. destruct (D eq_refl) as (s & S1 & S2).
    exists (Ok s). split; [exact E|]. split; [exact S1|]. exists s. split; [reflexivity|].
    destruct (sig_eq_ok s a (SA s BB S1) A) as (e & E2 & E3). rewrite E2. f_equal. apply E3. congruence.
  - destruct C as (x0 & x1 & y1 & X0 & X1 & Y1 & C). pose proof q381_b381 as QB.
    assert (V := g2_code_hi x0 x1 y1 ltac:(destruct X1; lia)). assert (W := g2_code_lo x0 x1 y1 ltac:(destruct X0; lia)). rewrite <- C in V, W.
    destruct (g1_code_parts x1 (a_flag_code y1) ltac:(destruct X1; lia) (a_flag_01 _)) as (P1 & P2 & P3 & P4). cbv zeta in P1, P2, P3, P4.
    rewrite <- V in P1, P2, P3, P4.
    assert (XE : x = (mkq (be_int (skipn 48 bs)), mkq (be_int (firstn 48 bs) mod 2 ^ 381))).
    { rewrite P4, W. destruct X0 as [-> _], X1 as [-> _]. apply surjective_pairing. }
    pose proof (decompress_g2_ok bs _ _ x BB ltac:(rewrite C; apply g2_code_len) eq_refl eq_refl XE) as D.
    apply ok_ex in D. destruct D as (r & R & _ & _ & _ & D4 & D5 & _). exists r. split; [exact E|]. split; [exact R|]. split.
    + intros YZ. apply D4; [exact P1|lia|]. intros RL. apply root_like_rhs in RL. destruct RL as (z & Z1 & Z2).
      destruct (on2_two x y z ON (proj2 (on2_rhs x z) Z1)) as [G|G]; rewrite G in Z2; cbn [gopp fst] in Z2; [contradiction|].
      apply Z2. rewrite YZ. ring.
    + intros YN. assert (RL : root_like (rhs2 x)) by (apply root_like_rhs; exists y; split; [apply on2_rhs, ON|exact YN]).
      destruct (D5 P1 ltac:(lia) RL) as (s & t & -> & TON & TSQ & F). rewrite P3 in F.
      pose proof (dec_y2_on x t (a_flag_code y1) TON) as DO. pose proof (ecp2R_pt _ _ _ _ (ecp2F_R 9 _ _ _ ltac:(lia) DO F)) as PS.
      destruct (sig_eq_ok s a (SA s BB R) A) as (e & E2 & E3). exists s, e. split; [reflexivity|]. split; [exact E2|].
      rewrite PS. cbn [pneg]. split; [destruct (on2_two x y _ ON DO) as [G|G]; rewrite G; auto|].
      intros YM. destruct Y1 as (_ & _ & Y1). rewrite (Y1 YM) in *.
      rewrite E3, PS, P. rewrite <- (dec_y2_own y t (on2_two x y t ON TON) TSQ YN YM (on2_y _ _ ON)).
      split; [apply Aff_inj2|intros G; rewrite G; reflexivity].
Qed.

(* ------------------------- aggregation -------------------------------- *)
Lemma asig_new_adm : exists a, asig_new = Some a /\ adm2 a /\ ecp2_pt a = Inf.
Proof.
  destruct (ok_ex _ _ ecp2_inf_ok) as (a & E & R). exists a. split; [exact E|]. apply (small_adm2 2); [exact R|lia].
Qed.
Lemma asig_add_adm a k : adm2 a -> adm2 k -> exists s, asig_add a k = Some s /\ adm2 s /\ ecp2_pt s = padd2 (ecp2_pt a) (ecp2_pt k).
Proof.
  intros A K. apply adm2_R in A, K. apply ok_ex. unfold asig_add.
  eapply ok_bind; [eapply ecp2_add_ok; [exact A|exact K|lia..]|]. intros c C.
  eapply ok_impl; [eapply ecp2_affine_ok; [exact C|lia|lia]|]. intros s S1. apply R17_adm2, ecp2A_R, S1.
Qed.
Lemma adm2_all_on ks : Forall adm2 ks -> Forall on2 (map ecp2_pt ks).
Proof. induction 1; cbn [map]; constructor; auto using adm2_on. Qed.
Lemma psum2_app l m : Forall on2 l -> Forall on2 m -> psum2 (l ++ m) = padd2 (psum2 l) (psum2 m).
Proof. intros L M. eapply (gsum_app pt2 on2 padd2 Inf); g2s. Qed.
Lemma psum2_on l : Forall on2 l -> on2 (psum2 l).
Proof. intros L. eapply (gsum_on pt2 on2 padd2 Inf); g2s. Qed.
Lemma psum2_perm l m : Permutation l m -> Forall on2 l -> psum2 l = psum2 m.
Proof. intros P L. eapply (gsum_perm pt2 on2 padd2 Inf); g2s. Qed.
Lemma psum2_one p : psum2 [p] = p. Proof. unfold psum. cbn [fold_right]. apply padd2_0r. Qed.
(* the aggregates built from a list of signatures by any sequence of operations *)
Inductive asig_of : list ECP2 -> ECP2 -> Prop :=
| asig_of_new : forall a, asig_new = Some a -> asig_of [] a
| asig_of_add : forall ks a k b, asig_of ks a -> asig_add a k = Some b -> asig_of (ks ++ [k]) b
| asig_of_agg : forall ks ls a b c, asig_of ks a -> asig_of ls b -> asig_add_aggregate a b = Some c -> asig_of (ks ++ ls) c.
Lemma asig_of_sum ks a : asig_of ks a -> Forall adm2 ks -> adm2 a /\ ecp2_pt a = psum2 (map ecp2_pt ks).
Proof.
  induction 1 as [a H|ks a k b H IH E|ks ls a b c H1 IH1 H2 IH2 E]; intros K.
  - destruct asig_new_adm as (a' & E & A & P). rewrite H in E. injection E as <-. auto.
  - apply Forall_app in K. destruct K as [K1 K2]. destruct (IH K1) as [A P]. apply Forall_inv in K2.
    destruct (asig_add_adm a k A K2) as (s & E2 & S1 & P2). rewrite E in E2. injection E2 as <-. split; [exact S1|].
    rewrite map_app, psum2_app by (try (apply adm2_all_on; exact K1); cbn [map]; repeat constructor; apply adm2_on, K2).
    cbn [map]. rewrite psum2_one, P2, P. reflexivity.
  - apply Forall_app in K. destruct K as [K1 K2]. destruct (IH1 K1) as [A P]. destruct (IH2 K2) as [B Q].
    change (asig_add_aggregate a b) with (asig_add a b) in E.
    destruct (asig_add_adm a b A B) as (s & E2 & S1 & P2). rewrite E in E2. injection E2 as <-. split; [exact S1|].
    rewrite map_app, psum2_app by (apply adm2_all_on; assumption). rewrite P2, P, Q. reflexivity.
Qed.
Lemma asig_group_sum : forall ks a, Forall adm2 ks -> asig_of ks a -> ecp2_pt a = psum2 (map ecp2_pt ks).
Proof. intros ks a K H. apply (asig_of_sum ks a H K). Qed.
Lemma asig_any_order : forall ks ls a b, Forall adm2 ks -> Permutation ks ls -> asig_of ks a -> asig_of ls b -> sig_eq a b = Some true.
Proof.
  intros ks ls a b K P A B. assert (L : Forall adm2 ls) by (eapply Permutation_Forall; eauto).
  destruct (asig_of_sum ks a A K) as [A1 A2]. destruct (asig_of_sum ls b B L) as [B1 B2].
  destruct (sig_eq_ok a b A1 B1) as (r & E & R). rewrite E. f_equal. apply R. rewrite A2, B2.
  apply psum2_perm; [apply Permutation_map; exact P|apply adm2_all_on; exact K].
Qed.
Lemma asig_total : forall ks, Forall adm2 ks -> exists a, asig_of ks a.
Proof.
  induction ks as [|k ks IH] using rev_ind; intros K.
  - destruct asig_new_adm as (a & E & _). exists a. constructor. exact E.
  - apply Forall_app in K. destruct K as [K1 K2]. apply Forall_inv in K2. destruct (IH K1) as (a & A).
    destruct (asig_of_sum ks a A K1) as [A1 _]. destruct (asig_add_adm a k A1 K2) as (s & E & _). exists s. econstructor; eauto.
Qed.
Lemma asig_neutral : forall k, adm2 k -> exists a s, asig_new = Some a /\ asig_add a k = Some s /\ sig_eq s k = Some true /\
  asig_as_bytes a = Some (192 :: repeat 0 95).
Proof.
  intros k K. destruct asig_new_adm as (a & E & A & P). destruct (asig_add_adm a k A K) as (s & E2 & S1 & P2).
  exists a, s. split; [exact E|]. split; [exact E2|]. split.
  - destruct (sig_eq_ok s k S1 K) as (r & ER & R). rewrite ER. f_equal. apply R. rewrite P2, P. reflexivity.
  - change (asig_as_bytes a) with (sig_as_bytes a). rewrite (sig_as_bytes_inf a A P), g2_inf_eq. reflexivity.
Qed.

(* ------------------------- hashing to the curve ------------------------ *)
(* the first x in (u + k, w), k = 0, 1, ..., for which a root is found *)
Definition curve_x (x : Fq2) : Prop := exists y, gmul y y = gadd (gmul (gmul x x) x) (mkq 4, mkq 4) /\ fst y <> f0.
Definition first_x (u w : Z) (k : nat) : Prop :=
  curve_x (mkq (u + Z.of_nat k), mkq w) /\ forall j, (j < k)%nat -> ~ curve_x (mkq (u + Z.of_nat j), mkq w).
Lemma curve_x_root x : curve_x x <-> root_like (rhs2 x). Proof. symmetry. apply root_like_rhs. Qed.
Lemma first_x_loop u w k : first_x u w k -> (forall j, (j < k)%nat -> ~ root_like (rhs2 (cand u w j))) /\ root_like (rhs2 (cand u w k)).
Proof.
  intros [A B]. split; [intros j J C; apply (B j J), curve_x_root, C|apply curve_x_root, A].
Qed.
(* the larger of y and -y, imaginary part first; a real y gets the non-square root *)
Lemma hash_y_larger s : snd s <> f0 -> fv (snd (hash_y s)) > fv (snd (gopp (hash_y s))).
Proof.
  intros N. unfold hash_y. pose proof (fv_range (snd s)) as R. pose proof q381_oddb as OD.
  assert (fv (snd s) <> 0) by (intros C; apply N, fv_zero, C).
  assert (E : forall t : Fq2, snd (gopp t) = fopp (snd t)) by reflexivity.
  destruct (Z.ltb_spec (2 * fv (snd s)) q381) as [G|G]; rewrite !E.
  - assert (OO : fopp (fopp (snd s)) = snd s) by ring. rewrite OO, fv_fopp by exact N. lia.
  - rewrite fv_fopp by exact N. assert (2 * fv (snd s) <> q381) by (intros C; rewrite <- C, Z.odd_mul in OD; discriminate OD). lia.
Qed.
Lemma map_point_spec : forall re im k, bytes re -> bytes im -> (48 <= length re)%nat -> (48 <= length im)%nat ->
  let u := be_int (firstn 48 re) in let w := be_int (firstn 48 im) in
  first_x u w k ->
  exists p y, map_point re im = Some p /\ ecp2_pt p = Aff (mkq (u + Z.of_nat k), mkq w) y /\
    gmul y y = (let x := (mkq (u + Z.of_nat k), mkq w) in gadd (gmul (gmul x x) x) (mkq 4, mkq 4)) /\
    (snd y <> f0 -> fv (snd y) > fv (snd (gopp y))) /\
    (snd y = f0 -> exists t, fst (gopp y) = fmul t t) /\
    exists h, map_to_g2 re im = Some h /\ adm2 h /\ ecp2_pt h = zm2 h2 (ecp2_pt p).
Proof.
  intros re im k BR BI LR LI u w FX. destruct (first_x_loop u w k FX) as [LT RL].
  pose proof (map_point_ok re im u w k BR BI LR LI eq_refl eq_refl LT RL) as M. apply ok_ex in M.
  destruct M as (p & E & s & ON & SQ & F). pose proof (hash_y_on _ _ ON) as HO.
  pose proof (ecp2G_V _ _ _ HO F) as R.
  exists p, (hash_y s). split; [exact E|]. split; [apply (ecp2R_pt _ _ _ _ (ecp2V_R _ _ _ R ltac:(lia)))|].
  split; [apply (proj1 (on2_rhs _ _) HO)|].
  assert (OO : gopp (gopp s) = s) by ring.
  assert (S0 : snd (hash_y s) = f0 -> snd s = f0).
  { unfold hash_y. destruct (_ <? _); [|auto]. cbn [gopp snd]. intros C. transitivity (fopp (fopp (snd s))); [ring|]. rewrite C. ring. }
  split. { intros N. apply hash_y_larger. intros C. apply N. unfold hash_y. destruct (_ <? _); [|exact C]. cbn [gopp snd]. rewrite C. ring. }
  split. { intros Y0. apply S0 in Y0. unfold hash_y. rewrite Y0. 
    assert (V0 : fv f0 = 0) by (unfold f0; rewrite fv_mkq; apply Z.mod_0_l, q381_nz). rewrite V0.
    destruct (Z.ltb_spec (2 * 0) q381) as [G|G]; [|pose proof q381_pos; lia]. rewrite OO. exact SQ. }
  unfold map_to_g2. rewrite E. cbn [bind]. destruct (ok_ex _ _ (multiply_cofactor_ok _ _ p R ltac:(lia))) as (h & H1 & H2).
  exists h. split; [exact H1|]. apply R17_adm2 in H2. destruct H2 as [H2 H3]. split; [exact H2|].
  rewrite H3, (ecp2R_pt _ _ _ _ (ecp2V_R _ _ _ R ltac:(lia))). reflexivity.
Qed.
(* the search ends exactly when some candidate lies on the curve *)
Lemma curve_x_dec x : curve_x x \/ ~ curve_x x.
Proof.
  assert (RX : exists a, fp2R 1 2 x a).
  { assert (N0 : forall u, exists c, fpR 1 2 u c).
    { intros u. pose proof (fp_nres_ok) as N. pose proof (fv_range u) as FR. pose proof q381_lt as QL.
      pose proof (frombytes_rep (be_bytes 48 (fv u)) (be_bytes_bytes _ _) (be_bytes_length _ _)) as FB.
      destruct (big_frombytes (be_bytes 48 (fv u))) as [c|]; [|contradiction]. cbn [ok] in FB. rewrite be_int_48 in FB by lia.
      specialize (N c _ FB). destruct (fp_nres c) as [d|]; [|contradiction]. exists d. cbn [ok] in N. rewrite mkq_fv in N. exact N. }
    destruct (N0 (fst x)) as [c C], (N0 (snd x)) as [d D]. exists (mkFP2 c d). split; assumption. }
  destruct RX as [a RX]. destruct (ok_ex _ _ (ecp2_new_fp2_ok 1 2 _ a RX ltac:(lia) ltac:(lia))) as (p & _ & _ & _ & [D|D]).
  - left. apply curve_x_root, D.
  - right. intros C. apply D, curve_x_root, C.
Qed.
Lemma search_ends : forall re im, bytes re -> bytes im -> (48 <= length re)%nat -> (48 <= length im)%nat ->
  let u := be_int (firstn 48 re) in let w := be_int (firstn 48 im) in
  (exists h, map_to_g2 re im = Some h) <-> (exists k : nat, curve_x (mkq (u + Z.of_nat k), mkq w)).
Proof.
  intros re im BR BI LR LI u w. assert (D : forall n, (exists k, (k < n)%nat /\ first_x u w k) \/ (forall k, (k < n)%nat -> ~ curve_x (mkq (u + Z.of_nat k), mkq w))).
  { induction n as [|n [(k & K & F)|N]]; [right; intros k K; inversion K|left; exists k; split; [lia|exact F]|].
    destruct (curve_x_dec (mkq (u + Z.of_nat n), mkq w)) as [C|C]; [left; exists n; split; [lia|split; [exact C|exact N]]|].
    right. intros k K. destruct (Nat.eq_dec k n) as [->|NE]; [exact C|apply N; lia]. }
  split.
  - intros (h & H). destruct (D (S (Z.to_nat q381))) as [(k & _ & F)|N]; [exists k; apply F|].
    exfalso. unfold map_to_g2 in H. rewrite (map_point_never re im u w BR BI LR LI eq_refl eq_refl) in H; [discriminate H|].
    intros j C. apply curve_x_root in C. pose proof q381_pos as QP.
    assert (P : forall n j0, j = (j0 + n * Z.to_nat q381)%nat -> cand u w j = cand u w j0).
    { clear - QP. intros n j0 ->. induction n as [|n IH]; [f_equal; lia|]. replace (j0 + S n * Z.to_nat q381)%nat with (j0 + n * Z.to_nat q381 + Z.to_nat q381)%nat by (rewrite Nat.mul_succ_l; lia). rewrite cand_period. exact IH. }
    pose proof (Nat.div_mod j (Z.to_nat q381) ltac:(lia)) as DM. pose proof (Nat.mod_upper_bound j (Z.to_nat q381) ltac:(lia)) as MB.
    specialize (P (j / Z.to_nat q381)%nat (j mod Z.to_nat q381)%nat ltac:(lia)).
    apply (N (j mod Z.to_nat q381)%nat ltac:(lia)). change (curve_x (cand u w (j mod Z.to_nat q381))). rewrite <- P. exact C.
  - intros (k & C). destruct (D (S k)) as [(j & _ & F)|N]; [|exfalso; apply (N k); [lia|exact C]].
    destruct (map_point_spec re im j BR BI LR LI F) as (p & y & _ & _ & _ & _ & _ & h & H & _). exists h. exact H.
Qed.

(* ------------------------- signing ------------------------------------ *)
Lemma mul_affine h sk v : adm2 h -> rep 7 sk v -> v < 2 ^ 384 ->
  ok (s <- ecp2_mul h sk ;; ecp2_affine s) (fun s => adm2 s /\ ecp2_pt s = zm2 v (ecp2_pt h)).
Proof.
  intros A R V. apply adm2_R in A.
  eapply ok_bind; [eapply ecp2_mul_ok; [exact A|lia|lia|exact R|]|].
  { assert (2 ^ 384 + 2 <= 2 ^ 404) by (vm_compute; discriminate). lia. }
  intros c C. eapply ok_impl; [eapply ecp2_affine_ok; [apply ecp2A_R; exact C|lia|lia]|]. intros s S1. apply R17_adm2, ecp2A_R, S1.
Qed.
Lemma signing hash msg d h b sk : bytes b -> sk_from_bytes b = Some (Ok sk) -> hash_on_g2 hash msg d = Some h -> adm2 h ->
  exists s, sig_new hash msg d sk = Some s /\ adm2 s /\ ecp2_pt s = zm2 (be_int b) (ecp2_pt h).
Proof.
  intros B SK H A. destruct (sk_rep b sk B SK) as (_ & R & V). apply ok_ex. unfold sig_new. rewrite H. cbn [bind].
  apply (mul_affine h sk _ A R). lia.
Qed.
Lemma signing_hashed re im h b sk : bytes b -> sk_from_bytes b = Some (Ok sk) -> map_to_g2 re im = Some h -> adm2 h ->
  exists s, sig_new_hashed re im sk = Some s /\ adm2 s /\ ecp2_pt s = zm2 (be_int b) (ecp2_pt h).
Proof.
  intros B SK H A. destruct (sk_rep b sk B SK) as (_ & R & V). apply ok_ex. unfold sig_new_hashed. rewrite H. cbn [bind].
  apply (mul_affine h sk _ A R). lia.
Qed.
