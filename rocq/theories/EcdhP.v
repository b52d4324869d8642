(* Proofs about key pairs, Diffie-Hellman and key validation of ecdh.rs. *)
From Coq Require Import ZArith List Bool Lia Znumtheory.
From Verif Require Import Prim PrimP Rom Big BigX BigP BigP2 BigP3 BigL NumT FieldQ FieldQ2 Fp FpP FpP2 JacobiM JacP Fp2 Fp2P Sqrt2P InvP SpecBytes SpecMac Utils Api SpecCurve CurveP GroupP Ecp EcpP EcpC GenP G1Grp G1Ord Denote
  KeysP KeysP2 MapP MapitP RandP SpecRand Rand SpecEcdh Ecdh EcdhH.
Import ListNotations.
Open Scope Z_scope.

(* decoding *)
Lemma mod2_neg v : 0 <= v < q381 -> v <> 0 -> (q381 - v) mod 2 <> v mod 2.
Proof. intros V N E. pose proof q381_odd as O. pose proof (Z.div_mod (q381 - v) 2 ltac:(lia)). pose proof (Z.div_mod v 2 ltac:(lia)). pose proof (Z.div_mod q381 2 ltac:(lia)). lia. Qed.
Lemma new_bigint_s ix u s : rep 7 ix u -> s = 0 \/ s = 1 ->
  ok (ecp_new_bigint ix s) (fun a =>
    (exists y, on1 (Aff (mkq u) y) /\ fv y mod 2 = s /\ ecpR 2 2 (Aff (mkq u) y) a) \/
    ((forall y, ~ on1 (Aff (mkq u) y)) /\ ecpR 1 2 Inf a)).
Proof.
  intros U S. unfold ecp_new_bigint, fp_new_big.
  eapply ok_bind; [apply (fp_nres_ok _ _ U)|]. intros x X.
  eapply ok_bind; [apply fp_one_ok|]. intros z Z1.
  eapply ok_bind; [apply (ecp_rhs_ok 1 2 _ x X); lia|]. intros [r x'] (R & X' & XL). apply fpC_R in R.
  eapply ok_bind; [apply (fp_jacobi_ok 1 1 _ r R); lia|]. intros j (J1 & _ & _).
  pose proof (rhs1_nz (mkq u)) as NZ.
  destruct (Z.eqb_spec j 1) as [EJ|EJ].
  - apply J1 in EJ. destruct EJ as [_ SQ]. eapply ok_bind; [apply (fp_sqrt_ok 1 1 _ r R); lia|]. intros y Y. apply fpC_R in Y.
    change (fpw (rhs1 (mkq u)) qp14) with (fsqrt (rhs1 (mkq u))) in Y. pose proof (fsqrt_on _ SQ) as ON. revert Y ON. generalize (fsqrt (rhs1 (mkq u))). intros t Y ON.
    pose proof (on1_y _ _ ON) as SN.
    eapply ok_bind; [apply (fp_redc_ok 1 1 _ y Y); lia|]. intros w (W & WX & WB). rewrite (B_parity w _ (rep_nrep _ _ _ W)), (redc_fv _ _ WX WB SN).
    destruct (Z.eqb_spec (fv t mod 2) s) as [E|E].
    + cbn [bind ok]. left. exists t. split; [exact ON|]. split; [exact E|].
      split; [exact ON|]. exists (mkq u), t, f1. split; [eapply fpR_weak; [exact X'|lia|lia]|]. split; [eapply fpR_weak; [exact Y|lia|lia]|].
      split; [eapply fpR_weak; [exact Z1|lia|lia]|]. cbn [prep]. split; [exact f1_neq_0|]. split; ring.
    + eapply ok_bind; [apply (fp_neg_ok 1 1 _ y Y); lia|]. intros ny NY. cbn [ok]. left. exists (fopp t).
      assert (ON' : on1 (Aff (mkq u) (fopp t))) by exact (pneg1_on _ ON). split; [exact ON'|]. split.
      * rewrite (MapP.fv_fopp t SN). pose proof (fv_range t) as FR. assert (N0 : fv t <> 0) by (intros C; apply SN, fv_zero, C).
        pose proof (mod2_neg (fv t) FR N0) as M. pose proof (Z.mod_pos_bound (q381 - fv t) 2 ltac:(lia)). pose proof (Z.mod_pos_bound (fv t) 2 ltac:(lia)). lia.
      * split; [exact ON'|]. exists (mkq u), (fopp t), f1. split; [eapply fpR_weak; [exact X'|lia|lia]|]. split; [eapply fpR_weak; [exact NY|lia|lia]|].
        split; [eapply fpR_weak; [exact Z1|lia|lia]|]. cbn [prep]. split; [exact f1_neq_0|]. split; ring.
  - assert (NS : ~ is_sq (rhs1 (mkq u))) by (intros C; apply EJ, J1; split; assumption).
    pose proof ecp_inf_ok as IO. destruct ecp_inf as [a|]; [|exact IO]. cbn [ok] in *. right. split; [|exact IO].
    intros y ON. apply NS. exists y. symmetry. exact (proj1 (on1_rhs _ _) ON).
Qed.
Lemma fv_small u : 0 <= u < q381 -> fv (mkq u) = u. Proof. intros U. rewrite fv_mkq. apply Z.mod_small, U. Qed.
Lemma encodes_mkq w x y : encodes w x y -> x = mkq (be_int (firstn 48 (skipn 1 w))). Proof. intros (_ & E & _). rewrite E, mkq_fv. reflexivity. Qed.
Lemma frombytes_dec w : bytes w -> long_enough w -> ok (ecp_frombytes w) (fun a => exists p, decodes w p /\ ecpR 2 2 p a).
Proof.
  intros B [L1 L2]. unfold ecp_frombytes. destruct (Nat.ltb_spec (length w) 49); [lia|].
  assert (INF : (forall x y, ~ encodes w x y) -> ok ecp_new (fun a => exists p, decodes w p /\ ecpR 2 2 p a)).
  { intros N. eapply ok_impl; [exact ecp_new_ok|]. intros a A. exists Inf. split; [exact N|eapply ecpR_weak; [exact A|lia|lia]]. }
  assert (LX : length (firstn 48 (skipn 1 w)) = 48%nat) by (apply firstn_length_le; rewrite skipn_length; lia).
  eapply ok_bind; [apply frombytes_rep; [apply bytes_firstn, bytes_skipn, B|exact LX]|]. intros px PX.
  set (u := be_int (firstn 48 (skipn 1 w))) in *. assert (U0 : 0 <= u) by (apply be_int_range, bytes_firstn, bytes_skipn, B).
  rewrite (comp_le _ _ _ _ PX mod_rep). destruct (Z.leb_spec q381 u) as [UQ|UQ].
  { apply INF. intros x y (_ & E & _). fold u in E. pose proof (fv_range x). lia. }
  assert (FU : fv (mkq u) = u) by (apply fv_small; lia). change (limb w 0) with (nth 0 w 0).
  destruct (Z.eqb_spec (nth 0 w 0) 4) as [E4|E4].
  - destruct (Nat.ltb_spec (length w) 97) as [C|_]; [specialize (L2 E4); lia|].
    assert (LY : length (firstn 48 (skipn 49 w)) = 48%nat) by (specialize (L2 E4); apply firstn_length_le; rewrite skipn_length; lia).
    eapply ok_bind; [apply frombytes_rep; [apply bytes_firstn, bytes_skipn, B|exact LY]|]. intros py PY.
    set (v := be_int (firstn 48 (skipn 49 w))) in *. assert (V0 : 0 <= v) by (apply be_int_range, bytes_firstn, bytes_skipn, B).
    assert (P4 : forall x y, encodes w x y -> v = fv y).
    { intros x y (_ & _ & [[_ E]|E]); [exact E|]. rewrite E4 in E. pose proof (Z.mod_pos_bound (fv y) 2 ltac:(lia)). lia. }
    rewrite (comp_le _ _ _ _ PY mod_rep). destruct (Z.leb_spec q381 v) as [VQ|VQ].
    { apply INF. intros x y E. apply P4 in E. pose proof (fv_range y). lia. }
    eapply ok_impl; [apply (ecp_new_bigs_ok px py u v PX PY)|]. intros a [A1 A2]. destruct (on1_dec (Aff (mkq u) (mkq v))) as [ON|ON].
    + exists (Aff (mkq u) (mkq v)). split.
      * split; [exact ON|]. split; [rewrite FU; reflexivity|]. left. split; [exact E4|]. rewrite fv_small by lia. reflexivity.
      * eapply ecpR_weak; [apply (ecpF_R 2); [lia|exact ON|exact (proj1 (A1 ON))]|lia|lia].
    + exists Inf. split; [|eapply ecpR_weak; [exact (A2 ON)|lia|lia]]. intros x y E. apply ON. rewrite (P4 x y E), mkq_fv. unfold u. rewrite <- (encodes_mkq w x y E). exact (proj1 E).
  - assert (PN : forall x y, encodes w x y -> nth 0 w 0 = 2 + fv y mod 2) by (intros x y (_ & _ & [[E _]|E]); [contradiction|exact E]).
    destruct ((nth 0 w 0 =? 2) || (nth 0 w 0 =? 3)) eqn:E23.
    + assert (S : Z.land (nth 0 w 0) 1 = nth 0 w 0 - 2 /\ (nth 0 w 0 - 2 = 0 \/ nth 0 w 0 - 2 = 1)).
      { apply orb_true_iff in E23. destruct E23 as [E|E]; apply Z.eqb_eq in E; rewrite E; cbn; lia. }
      destruct S as [S1 S2]. rewrite S1. eapply ok_impl; [apply (new_bigint_s px u _ PX S2)|]. intros a [(y & ON & PY & RA)|[NO RA]].
      * exists (Aff (mkq u) y). split; [|exact RA]. split; [exact ON|]. split; [rewrite FU; reflexivity|]. right. lia.
      * exists Inf. split; [|eapply ecpR_weak; [exact RA|lia|lia]]. intros x y E. apply (NO y). unfold u. rewrite <- (encodes_mkq w x y E). exact (proj1 E).
    + apply INF. intros x y E. apply PN in E. pose proof (Z.mod_pos_bound (fv y) 2 ltac:(lia)). apply orb_false_iff in E23. destruct E23 as [F2 F3]. apply Z.eqb_neq in F2, F3. lia.
Qed.
Lemma decodes_unique w p p' : decodes w p -> decodes w p' -> p = p'.
Proof.
  intros D D'. destruct p as [|x y], p' as [|x' y']; [reflexivity|destruct (D _ _ D')|destruct (D' _ _ D)|].
  pose proof (encodes_mkq _ _ _ D) as E1. pose proof (encodes_mkq _ _ _ D') as E2. assert (EX : x' = x) by congruence. rewrite EX in *. clear E1 E2 EX x'. f_equal.
  destruct D as (O & _ & D), D' as (O' & _ & D'). destruct D as [[D4 D]|D], D' as [[D4' D']|D'].
  - apply Fq_ext. congruence.
  - rewrite D4 in D'. pose proof (Z.mod_pos_bound (fv y') 2 ltac:(lia)). lia.
  - rewrite D4' in D. pose proof (Z.mod_pos_bound (fv y) 2 ltac:(lia)). lia.
  - destruct (on1_two _ _ _ O O') as [E|E]; [symmetry; exact E|]. subst y'. exfalso. pose proof (on1_y _ _ O) as YN. rewrite (MapP.fv_fopp y YN) in D'.
    apply (mod2_neg (fv y) (fv_range y)); [intros C; apply YN, fv_zero, C|]. lia.
Qed.
Lemma frombytes_pt w p : bytes w -> long_enough w -> decodes w p -> ok (ecp_frombytes w) (ecpR 2 2 p).
Proof. intros B L D. eapply ok_impl; [apply (frombytes_dec w B L)|]. intros a (p' & D' & R). rewrite (decodes_unique w p p' D D'). exact R. Qed.

(* encoding *)
Lemma be48_bytes v : bytes (be_bytes 48 v). Proof. apply be_bytes_bytes. Qed.
Lemma enc_bytes p : bytes (enc_pt p) /\ length (enc_pt p) = 97%nat.
Proof. destruct p as [|x y]; cbn [enc_pt]; split; try (constructor; [lia|apply Forall_app; split; apply be_bytes_bytes]); cbn [length]; rewrite app_length, !be_bytes_length; reflexivity. Qed.
Lemma enc_long p tl : long_enough (enc_pt p ++ tl).
Proof. split; [|intros _]; rewrite app_length, (proj2 (enc_bytes p)); lia. Qed.
Lemma q384 : q381 < 2 ^ 384. Proof. pose proof q381_b381. lia. Qed.
Lemma skip49 (l tl : list Z) : skipn 49 ((4 :: l) ++ tl) = skipn 48 (l ++ tl). Proof. reflexivity. Qed.
Lemma enc_decodes p tl : on1 p -> decodes (enc_pt p ++ tl) p.
Proof.
  intros O. assert (X : forall u v, firstn 48 (skipn 1 ((4 :: be_bytes 48 u ++ be_bytes 48 v) ++ tl)) = be_bytes 48 u) by (intros u v; cbn [app skipn]; rewrite <- app_assoc; apply firstn_exact, be_bytes_length).
  assert (Y : forall u v, firstn 48 (skipn 49 ((4 :: be_bytes 48 u ++ be_bytes 48 v) ++ tl)) = be_bytes 48 v).
  { intros u v. rewrite (skip49 (be_bytes 48 u ++ be_bytes 48 v) tl), <- app_assoc, skipn_exact by apply be_bytes_length. apply firstn_exact, be_bytes_length. }
  pose proof q384 as Q. destruct p as [|x y]; cbn [enc_pt decodes].
  - intros x y (ON & E1 & E2). rewrite X in E1. rewrite Y in E2. rewrite be_int_48 in E1, E2 by lia. cbn [app nth] in E2.
    assert (Ex : x = f0) by (apply fv_zero; symmetry; exact E1). destruct E2 as [[_ E2]|E2]; [|pose proof (Z.mod_pos_bound (fv y) 2 ltac:(lia)); lia].
    assert (Ey : y = f1) by (rewrite <- (mkq_fv y), <- E2; reflexivity). subst x y.
    apply on1_rhs in ON. unfold rhs1 in ON. apply (f_equal fv) in ON. vm_compute in ON. discriminate ON.
  - split; [exact O|]. rewrite X, Y. pose proof (fv_range x). pose proof (fv_range y). rewrite !be_int_48 by lia. split; [reflexivity|]. left. split; reflexivity.
Qed.
