(* Proofs about mpin.rs: hashing, decoding and encoding of points, secrets and tokens. *)
From Coq Require Import ZArith List Bool Lia Znumtheory.
From Verif Require Import Prim PrimP Rom Big BigP BigP2 BigP3 BigP5 BigL NumT FieldQ FieldQ2 Fp Fp2 Fp4 Fp12 FpP FpP2 Fp2P Sqrt2P SpecBytes SpecMac SpecRand Utils Api SpecCurve CurveP GroupP
  Ecp Ecp2 EcpP EcpC Ecp2P Ecp2C GenP G1Grp G1Ord Denote KeysP KeysP2 LayerP MapP Tower TowerP Fp4P Fp12P FexpP SpecPairing PsiP BilinP TwistP VerifyP VerifyP2 VerifyP7 DenoteT Rand RandP
  Glv Mul2P Mul4P PinP GlvP MapitP SpecEcdh Ecdh EcdhH EcdhP EcdhQ Pair Pair2 Ate2P SpecMpin Mpin.
Import ListNotations.
Open Scope Z_scope.

(* ---------------------------- points of the curve ----------------------------- *)
Lemma tobytes1 l E p a : ecpR l E p a -> 1 <= l <= 8 -> E <= 33554432 -> p <> Inf -> zm1 r255 p = Inf ->
  exists a', ecp_tobytes a = Some (enc_pt p, a') /\ ecpA l E p a'.
Proof.
  intros R L HE N K. destruct p as [|x y]; [destruct (N eq_refl)|].
  destruct (ok_ex _ _ (ecp_tobytes_ok l E x y a R L HE)) as ([bs a'] & EB & (A & _) & HB). exists a'. split; [|exact A]. rewrite EB, HB.
  rewrite rval_nz by exact (sub_x x y (proj1 R) K). reflexivity.
Qed.
Lemma is_inf_false l E p a : ecpR l E p a -> 1 <= l <= 31 -> E <= 33554432 -> p <> Inf -> ecp_is_infinity a = Some false.
Proof. intros R L HE N. destruct (inf_eq l E p a R L HE) as (b & EB & HB). rewrite EB. destruct b; [destruct (N (proj1 HB eq_refl))|reflexivity]. Qed.
Lemma is_inf_true l E a : ecpR l E Inf a -> 1 <= l <= 31 -> E <= 33554432 -> ecp_is_infinity a = Some true.
Proof. intros R L HE. destruct (inf_eq l E Inf a R L HE) as (b & EB & HB). rewrite EB, (proj2 HB eq_refl). reflexivity. Qed.
Lemma sub_on n p : on1 p -> zm1 r255 p = Inf -> zm1 r255 (zm1 n p) = Inf.
Proof. intros O K. rewrite <- zm1_mul by exact O. rewrite Z.mul_comm, zm1_mul by exact O. rewrite K. apply zm1_zero. Qed.
Lemma sub_add p q : on1 p -> on1 q -> zm1 r255 p = Inf -> zm1 r255 q = Inf -> zm1 r255 (padd1 p q) = Inf.
Proof. intros O1 O2 K1 K2. rewrite zm1_dist by assumption. rewrite K1, K2. reflexivity. Qed.
Lemma sub_neg p : on1 p -> zm1 r255 p = Inf -> zm1 r255 (pneg1 p) = Inf.
Proof. intros O K. rewrite zm1_neg by exact O. rewrite K. reflexivity. Qed.

(* pinmul with the bounds of its result *)
Lemma adm5 l E p a : ecpR l E p a -> 1 <= l <= 8 -> 1 <= E <= 16777216 -> adm a.
Proof. intros R L HE. apply (ecpR_weak _ _ 8 16777216) in R; [|lia|lia]. exact (proj1 (proj1 (ecpR_wf_pt _ _ _ _) R)). Qed.
Lemma pin_step_R e n i r0 r1 p : (i < n)%nat -> (n <= 32)%nat -> on1 p -> ecpR 1 5 (zm1 (hi e n (S i)) p) r0 -> ecpR 1 5 (zm1 (hi e n (S i) + 1) p) r1 ->
  exists r0' r1', pin_step e (r0, r1) i = Some (r0', r1') /\ ecpR 1 5 (zm1 (hi e n i) p) r0' /\ ecpR 1 5 (zm1 (hi e n i + 1) p) r1'.
Proof.
  intros I N O R0 R1. pose proof (adm5 _ _ _ _ R0 ltac:(lia) ltac:(lia)) as A0. pose proof (adm5 _ _ _ _ R1 ltac:(lia) ltac:(lia)) as A1. unfold pin_step. destruct (Nat.ltb_spec 31 i) as [L|_]; [lia|].
  rewrite (bit_cases e (Z.of_nat i)) by lia. pose proof (hi_step e n i I) as H.
  destruct (ok_ex _ _ (ecp_add_ok 1 1 5 5 _ _ r1 r0 R1 R0 ltac:(lia) ltac:(lia) ltac:(lia) ltac:(lia))) as (s & E & RS). rewrite E. cbn [bind]. rewrite <- zm1_add in RS by exact O.
  pose proof (Z.mod_pos_bound (e / 2 ^ Z.of_nat i) 2 ltac:(lia)) as MB. pose proof (adm5 _ _ _ _ RS ltac:(lia) ltac:(lia)) as AS.
  assert (C : (e / 2 ^ Z.of_nat i) mod 2 = 0 \/ (e / 2 ^ Z.of_nat i) mod 2 = 1) by lia.
  revert H C. generalize ((e / 2 ^ Z.of_nat i) mod 2). clear MB E. intros b H [->| ->].
  - rewrite (ecp_cswap0 r0 r1 A0 A1). destruct (ok_ex _ _ (ecp_dbl_ok 1 5 _ r0 R0 ltac:(lia) ltac:(lia))) as (d & E & RD). rewrite E. cbn [bind].
    rewrite (ecp_cswap0 d s (adm5 _ _ _ _ RD ltac:(lia) ltac:(lia)) AS). rewrite <- zm1_add in RD by exact O. exists d, s. split; [reflexivity|].
    replace (hi e n i) with (hi e n (S i) + hi e n (S i)) by lia. split; [exact RD|]. replace (hi e n (S i) + hi e n (S i) + 1) with (hi e n (S i) + 1 + hi e n (S i)) by lia. exact RS.
  - rewrite (ecp_cswap1 r0 r1 A0 A1). destruct (ok_ex _ _ (ecp_dbl_ok 1 5 _ r1 R1 ltac:(lia) ltac:(lia))) as (d & E & RD). rewrite E. cbn [bind].
    rewrite (ecp_cswap1 d s (adm5 _ _ _ _ RD ltac:(lia) ltac:(lia)) AS). rewrite <- zm1_add in RD by exact O. exists s, d. split; [reflexivity|].
    replace (hi e n i) with (hi e n (S i) + 1 + hi e n (S i)) by lia. split; [exact RS|]. replace (hi e n (S i) + 1 + hi e n (S i) + 1) with (hi e n (S i) + 1 + (hi e n (S i) + 1)) by lia. exact RD.
Qed.
Lemma pin_fold_R e n p : (n <= 32)%nat -> on1 p -> forall i r0 r1, (i <= n)%nat -> ecpR 1 5 (zm1 (hi e n i) p) r0 -> ecpR 1 5 (zm1 (hi e n i + 1) p) r1 ->
  exists r0' r1', foldM (pin_step e) (rev (seq 0 i)) (r0, r1) = Some (r0', r1') /\ ecpR 1 5 (zm1 (hi e n 0) p) r0'.
Proof.
  intros N O. induction i as [|i IH]; intros r0 r1 I A0 A1.
  - exists r0, r1. split; [reflexivity|exact A0].
  - rewrite rev_seq_S. cbn [foldM]. destruct (pin_step_R e n i r0 r1 p I N O A0 A1) as (s0 & s1 & E & B0 & B1).
    rewrite E. cbn [bind]. apply IH; try assumption. lia.
Qed.
Lemma pinmul_R a e n p : ecpR 1 5 p a -> (n <= 32)%nat -> exists c, ecp_pinmul a e n = Some c /\ ecpR 1 5 (zm1 (e mod 2 ^ Z.of_nat n) p) c.
Proof.
  intros R N. unfold ecp_pinmul. destruct (ok_ex _ _ ecp_new_ok) as (o & E & O). rewrite E. cbn [bind]. pose proof (proj1 R) as ON.
  apply (ecpR_weak _ _ 1 5) in O; [|lia|lia].
  destruct (pin_fold_R e n p N ON n o a (Nat.le_refl n)) as (r0 & r1 & F & RR).
  - rewrite hi_top, zm1_0. exact O.
  - rewrite hi_top. change (0 + 1) with 1. rewrite zm1_1. exact R.
  - rewrite F. cbn [bind]. destruct (ok_ex _ _ (ecp_affine_ok 1 5 _ r0 RR ltac:(lia) ltac:(lia))) as (c & C & RC). exists c. split; [exact C|]. rewrite hi_0 in RC. apply ecpA_R; [lia|lia|exact RC].
Qed.

(* --------------------------------- mapping ---------------------------------- *)
Lemma mapit_R h : bytes h -> (48 <= length h)%nat -> exists A c, map_pt h A /\ on1 A /\ A <> Inf /\ zm1 r255 A = Inf /\ ecpR 1 5 A c /\
  forall fuel, q381 <= Z.of_nat fuel -> ecp_mapit fuel h = Some c.
Proof.
  intros B L. set (u := be_int (firstn 48 h)). pose proof q381_lt as QL. pose proof q381_pos as QP.
  assert (BF : bytes (firstn 48 h)) by (apply bytes_firstn; exact B).
  destruct (ok_ex _ _ (frombytes_rep (firstn 48 h) BF (firstn_length_le h L))) as (w & EW & W). fold u in W. rewrite <- frombytes_48 in EW.
  destruct (B_rmod w u MODULUS q381 W (rep_nrep _ _ _ mod_rep) QP) as (x & EX & X).
  pose proof (Z.mod_pos_bound u q381 QP) as UB.
  destruct (reach (u mod q381) GXZ) as (k & KB & KE).
  assert (HK : exists y, hit1 (mkq (u mod q381 + Z.of_nat k)) y) by (exists (mkq GYZ); rewrite KE; exact gen_hit).
  destruct (mapit_loop k x (u mod q381) X ltac:(lia) HK) as (j & y & c & J & [O N] & EV & MIN & HC & F).
  rewrite (mkq_modadd u) in O, N, HC. exists (zm1 h1c (Aff (mkq (u + Z.of_nat j)) y)), c. split; [|split; [|split; [|split; [|split]]]].
  - exists j, y. fold u. split; [exact O|]. split; [exact EV|]. split; [|split; [apply zm1_h1|exact N]].
    intros i z I OZ. rewrite <- zm1_h1. pose proof (MIN i z I) as M. rewrite (mkq_modadd u) in M. unfold hit1 in M.
    destruct (zm1 h1c (Aff (mkq (u + Z.of_nat i)) z)) as [|a b]; [reflexivity|]. destruct M. split; [exact OZ|discriminate].
  - apply zm1_on, O.
  - exact N.
  - rewrite <- (zm1_mul r255 h1c _ O), Z.mul_comm. exact (cofactor_kills _ O).
  - apply ecpA_R; [lia|lia|exact HC].
  - intros fuel FL. unfold ecp_mapit. rewrite EW. cbn [bind]. rewrite EX. cbn [bind]. apply F. lia.
Qed.
Lemma map_pt_unique h A B : map_pt h A -> map_pt h B -> A = B.
Proof.
  intros (k & y & O & EV & MIN & EA & NA) (k' & y' & O' & EV' & MIN' & EB & NB).
  destruct (Nat.lt_trichotomy k k') as [C|[C|C]].
  - destruct NA. rewrite EA. exact (MIN' k y C O).
  - subst k'. rewrite EA, EB. f_equal. f_equal. destruct (on1_two _ _ _ O O') as [E|E]; [symmetry; exact E|]. exfalso. subst y'.
    pose proof (on1_y _ _ O) as YN. rewrite (MapP.fv_fopp y YN) in EV'. apply Z.even_spec in EV. apply Z.even_spec in EV'. destruct EV as [a EV], EV' as [b EV']. pose proof q381_odd as OD. pose proof (Z.div_mod q381 2 ltac:(lia)). lia.
  - destruct NB. rewrite EB. exact (MIN k' y' C O').
Qed.
Lemma map_R h A : bytes h -> (48 <= length h)%nat -> map_pt h A -> on1 A /\ A <> Inf /\ zm1 r255 A = Inf /\ exists c, ecpR 1 5 A c /\
  forall fuel, q381 <= Z.of_nat fuel -> ecp_mapit fuel h = Some c.
Proof.
  intros B L M. destruct (mapit_R h B L) as (A' & c & M' & O & N & K & R & F). rewrite (map_pt_unique h A A' M M').
  split; [exact O|]. split; [exact N|]. split; [exact K|]. exists c. split; [exact R|exact F].
Qed.

(* --------------------------------- hashing ---------------------------------- *)
Lemma mp_hash_len sha n id : length (mp_hash sha n id) = 48%nat. Proof. apply fit_len. Qed.
Lemma fit_bytes l h : bytes h -> bytes (fit l h).
Proof. intros B. unfold fit. destruct (l <=? length h)%nat; [apply bytes_first, B|]. apply Forall_app. split; [|exact B]. apply Forall_forall. intros x X. apply repeat_spec in X. subst x. lia. Qed.
Lemma msg_bytes n id : bytes id -> bytes ((if 0 <? n then be_bytes 4 n else []) ++ id).
Proof. intros B. apply Forall_app. split; [apply num_bytes|exact B]. Qed.
Lemma mp_hash_bytes sha n id : is_sha sha -> bytes id -> bytes (mp_hash sha n id).
Proof. intros S B. apply fit_bytes, hfun_bytes; [exact S|]. apply msg_bytes, B. Qed.
(* hashing does not overflow *)
Definition hsafe (chk : bool) (sha : nat) (id : list Z) : Prop := noov chk sha (4 + length id).
Lemma mhashit_ok chk sha n id w : is_sha sha -> bytes id -> hsafe chk sha id -> (48 <= length w)%nat ->
  mhashit chk sha n id w = Some (true, mp_hash sha n id ++ skipn 48 w).
Proof.
  intros S B N W. unfold mhashit. assert (E : ((sha =? 32) || (sha =? 48) || (sha =? 64))%nat = true) by (destruct S as [ ->|[ ->| ->]]; reflexivity). rewrite E. cbn [negb].
  assert (NO : noov chk sha (length ([] ++ num n ++ opt (Some id)))).
  { eapply noov_le; [exact N|]. cbn [app opt]. rewrite app_length. unfold num. destruct (0 <? n); [rewrite be_bytes_length|cbn [length]]; lia. }
  rewrite (hash_r_ok chk sha [] n (Some id) S ltac:(constructor) B NO). cbn [bind app opt].
  assert (BM : bytes (num n ++ id)) by (apply msg_bytes; exact B). pose proof (hfun_len sha _ S BM) as L. unfold mp_hash. fold (num n). set (h := hfun sha (num n ++ id)) in *. clearbody h.
  destruct (Nat.ltb_spec 48 sha) as [G|G].
  - rewrite firstn_app. replace (48 - length h)%nat with 0%nat by lia. rewrite firstn_O, app_nil_r. rewrite (put0' w (firstn 48 h) 48); [|apply firstn_length_le; lia|exact W]. cbn [bind].
    unfold fit. rewrite L. destruct (Nat.leb_spec 48 sha); [reflexivity|lia].
  - rewrite firstn_exact by exact L. rewrite put_ok by lia. cbn [bind]. rewrite L. replace (48 - sha + sha)%nat with 48%nat by lia.
    rewrite (put0' _ _ (48 - sha)); [|apply repeat_length|rewrite !app_length, firstn_length_le, skipn_length by lia; lia]. cbn [bind].
    rewrite skipn_exact by (apply firstn_length_le; lia). unfold fit. rewrite L. destruct (Nat.leb_spec 48 sha) as [G2|G2]; [|rewrite app_assoc; reflexivity].
    rewrite (firstn_all2 h) by lia. replace (48 - sha)%nat with 0%nat by lia. reflexivity.
Qed.
Lemma mhashit_bad chk sha n id w : ~ is_sha sha -> mhashit chk sha n id w = Some (false, w).
Proof.
  intros N. unfold mhashit. destruct (Nat.eqb_spec sha 32) as [E|E1]; [destruct N; left; exact E|]. destruct (Nat.eqb_spec sha 48) as [E|E2]; [destruct N; right; left; exact E|].
  destruct (Nat.eqb_spec sha 64) as [E|E3]; [destruct N; right; right; exact E|]. reflexivity.
Qed.
Lemma map_id_ok chk fuel sha n id A : is_sha sha -> bytes id -> hsafe chk sha id -> q381 <= Z.of_nat fuel -> map_pt (mp_hash sha n id) A ->
  on1 A /\ A <> Inf /\ zm1 r255 A = Inf /\ exists c, map_id chk fuel sha n id = Some (mp_hash sha n id, c) /\ ecpR 1 5 A c.
Proof.
  intros S B N F M. destruct (map_R _ A (mp_hash_bytes sha n id S B) ltac:(rewrite mp_hash_len; lia) M) as (O & NI & K & c & R & G).
  split; [exact O|]. split; [exact NI|]. split; [exact K|]. exists c. split; [|exact R]. unfold map_id. rewrite (mhashit_ok chk sha n id _ S B N) by (rewrite repeat_length; lia). cbn [bind].
  rewrite skipn_all2 by (rewrite repeat_length; lia). rewrite app_nil_r, (G fuel F). reflexivity.
Qed.

(* ---------------------------- points of the twist ----------------------------- *)
Lemma G2gen_pt : G2gen = G2pt.
Proof.
  unfold G2pt, TwD.vp, TwD.v2, G2gen.
  assert (E1 : Dig.nval (fst (fst TwPts.tG_p)) = 0x24aa2b2f08f0a91260805272dc51051c6e47ad4fa403b02b4510b647ae3d1770bac0326a805bbefd48056c8c121bdb8) by (vm_compute; reflexivity).
  assert (E2 : Dig.nval (snd (fst TwPts.tG_p)) = 0x13e02b6052719f607dacd3a088274f65596bd0d09920b61ab5da61bbdc7f5049334cf11213945d57e5ac7d055d042b7e) by (vm_compute; reflexivity).
  assert (E3 : Dig.nval (fst (snd TwPts.tG_p)) = 0xce5d527727d6e118cc9cdc6da2e351aadfd9baa8cbdd3a76d429a695160d12c923ac9cc3baca289e193548608b82801) by (vm_compute; reflexivity).
  assert (E4 : Dig.nval (snd (snd TwPts.tG_p)) = 0x606c4a02ea734cc32acd2b02bc28b99cb3e287e85a763af267492ab572e99ab3f370d275cec1da1aaa9075ff05f79be) by (vm_compute; reflexivity).
  rewrite E1, E2, E3, E4. reflexivity.
Qed.
Lemma G2gen_eigen : eigen G2gen. Proof. rewrite G2gen_pt. exact G2_eigen. Qed.
Lemma G2gen_ne : G2gen <> Inf. Proof. discriminate. Qed.
Ltac crep := split; [reflexivity|]; split; [repeat (constructor; [lia|]); constructor|vm_compute; reflexivity].
Lemma pxa_rep : rep 7 CURVE_PXA 0x24aa2b2f08f0a91260805272dc51051c6e47ad4fa403b02b4510b647ae3d1770bac0326a805bbefd48056c8c121bdb8. Proof. crep. Qed.
Lemma pxb_rep : rep 7 CURVE_PXB 0x13e02b6052719f607dacd3a088274f65596bd0d09920b61ab5da61bbdc7f5049334cf11213945d57e5ac7d055d042b7e. Proof. crep. Qed.
Lemma pya_rep : rep 7 CURVE_PYA 0xce5d527727d6e118cc9cdc6da2e351aadfd9baa8cbdd3a76d429a695160d12c923ac9cc3baca289e193548608b82801. Proof. crep. Qed.
Lemma pyb_rep : rep 7 CURVE_PYB 0x606c4a02ea734cc32acd2b02bc28b99cb3e287e85a763af267492ab572e99ab3f370d275cec1da1aaa9075ff05f79be. Proof. crep. Qed.
Lemma new2_A x y ix iy : fp2R 1 2 x ix -> fp2R 1 2 y iy -> ok (ecp2_new_fp2s ix iy) (fun a => (on2 (Aff x y) -> ecp2A 1 2 (Aff x y) a) /\ (~ on2 (Aff x y) -> ecp2A 1 2 Inf a)).
Proof.
  intros X Y. eapply ok_impl; [apply (ecp2_new_fp2s_ok 1 1 2 2 x y ix iy X Y); lia|]. intros a [A1 A2]. split; [|exact A2].
  intros O. destruct (A1 O) as (B1 & B2 & B3). split; [exact O|]. split; [exact B1|]. split; [rewrite B2; exact Y|exact B3].
Qed.
Lemma gen2_ok : ok ecp2_generator (ecp2A 1 2 G2gen).
Proof.
  unfold ecp2_generator. eapply ok_bind; [apply (fp2_new_bigs_ok _ _ _ _ pxa_rep pxb_rep)|]. intros x X.
  eapply ok_bind; [apply (fp2_new_bigs_ok _ _ _ _ pya_rep pyb_rep)|]. intros y Y.
  eapply ok_impl; [apply (new2_A _ _ x y X Y)|]. intros a [A _]. exact (A (proj1 G2gen_eigen)).
Qed.
Lemma decodes2_unique w p q : decodes2 w p -> decodes2 w q -> p = q.
Proof. unfold decodes2. destruct p as [|a b], q as [|c d]; intros H K; [reflexivity|destruct (H (proj2 K))|destruct (K (proj2 H))|rewrite (proj1 H), (proj1 K); reflexivity]. Qed.
Lemma from2 w p : bytes w -> (192 <= length w)%nat -> decodes2 w p -> ok (ecp2_frombytes w) (ecp2A 1 2 p).
Proof.
  intros B L D. unfold ecp2_frombytes. destruct (Nat.ltb_spec (length w) 192); [lia|].
  assert (FL : forall n, (n <= 144)%nat -> length (firstn 48 (skipn n w)) = 48%nat) by (intros n N; apply firstn_length_le; rewrite skipn_length; lia).
  eapply ok_bind; [apply (frombytes_rep (firstn 48 (skipn 0 w))); [apply bytes_firstn, B|apply FL; lia]|]. intros a0 A0.
  eapply ok_bind; [apply (frombytes_rep (firstn 48 (skipn 48 w))); [apply bytes_firstn, bytes_skipn, B|apply FL; lia]|]. intros a1 A1.
  eapply ok_bind; [apply (fp2_new_bigs_ok _ _ _ _ A0 A1)|]. intros x X.
  eapply ok_bind; [apply (frombytes_rep (firstn 48 (skipn 96 w))); [apply bytes_firstn, bytes_skipn, B|apply FL; lia]|]. intros a2 A2.
  eapply ok_bind; [apply (frombytes_rep (firstn 48 (skipn 144 w))); [apply bytes_firstn, bytes_skipn, B|apply FL; lia]|]. intros a3 A3.
  eapply ok_bind; [apply (fp2_new_bigs_ok _ _ _ _ A2 A3)|]. intros y Y.
  eapply ok_impl; [apply (new2_A _ _ x y X Y)|]. intros a [K1 K2]. destruct p as [|u v]; [exact (K2 D)|]. destruct D as [D1 D2]. rewrite D1. exact (K1 D2).
Qed.
Lemma fq_at_0 v t : 0 <= v <= q381 -> fq_at (be_bytes 48 v ++ t) 0 = mkq v.
Proof. intros V. unfold fq_at. rewrite Nat.mul_0_r. cbn [skipn]. rewrite firstn_exact by apply be_bytes_length. rewrite be_int_48; [reflexivity|]. pose proof q384. lia. Qed.
Lemma fq_at_S v t i : fq_at (be_bytes 48 v ++ t) (S i) = fq_at t i.
Proof. unfold fq_at. rewrite Nat.mul_succ_r, Nat.add_comm. rewrite <- (skipn_add (be_bytes 48 v ++ t) (48 * i) 48) || rewrite Nat.add_comm, <- skipn_add. rewrite skipn_exact by apply be_bytes_length. reflexivity. Qed.
Lemma tobytes2 l E p a : ecp2R l E p a -> 1 <= l <= 8 -> 2 <= E <= 33554432 -> p <> Inf ->
  exists bs a', ecp2_tobytes a = Some (bs, a') /\ ecp2A l E p a' /\ bytes bs /\ length bs = 192%nat /\ forall t, decodes2 (bs ++ t) p.
Proof.
  intros R L HE N. destruct p as [|x y]; [destruct (N eq_refl)|].
  destruct (ok_ex _ _ (ecp2_tobytes_ok l E x y a R L HE)) as ([bs a'] & EB & (A & _) & HB). exists bs, a'. split; [exact EB|]. split; [exact A|]. subst bs.
  split; [repeat first [apply be_bytes_bytes | apply bytes_app]|]. split; [rewrite !app_length, !be_bytes_length; reflexivity|].
  intros t. unfold decodes2. rewrite <- !app_assoc. rewrite ?fq_at_S, !fq_at_0 by apply rval_range. rewrite !rval_mkq, <- !surjective_pairing. split; [reflexivity|exact (proj1 R)].
Qed.

(* ----------------------------- elements of the tower ----------------------------- *)
Lemma fp2_bytes_ok l E x a : fp2R l E x a -> 1 <= l <= 31 -> E <= 33554432 ->
  ok (fp2_bytes a) (fun bs => exists u v, bs = be_bytes 48 u ++ be_bytes 48 v /\ 0 <= u <= q381 /\ 0 <= v <= q381 /\ (mkq u, mkq v) = x).
Proof.
  intros [A B] L HE. unfold fp2_bytes, fp2_geta, fp2_getb.
  eapply ok_bind; [apply (fp_redc_exact l E _ _ A); lia|]. intros w0 W0. rewrite (big_tobytes_rep _ _ W0). cbn [bind].
  eapply ok_bind; [apply (fp_redc_exact l E _ _ B); lia|]. intros w1 W1. rewrite (big_tobytes_rep _ _ W1). cbn [bind ok].
  eexists; eexists. split; [reflexivity|]. split; [apply rval_range|]. split; [apply rval_range|]. rewrite !rval_mkq. symmetry. apply surjective_pairing.
Qed.
Lemma fp4_bytes_ok l E x a : fp4R l E x a -> 1 <= l <= 31 -> E <= 33554432 ->
  ok (fp4_bytes a) (fun bs => exists u0 u1 u2 u3, bs = be_bytes 48 u0 ++ be_bytes 48 u1 ++ be_bytes 48 u2 ++ be_bytes 48 u3 /\
    0 <= u0 <= q381 /\ 0 <= u1 <= q381 /\ 0 <= u2 <= q381 /\ 0 <= u3 <= q381 /\ ((mkq u0, mkq u1), (mkq u2, mkq u3)) = x).
Proof.
  intros [A B] L HE. unfold fp4_bytes. eapply ok_bind; [apply (fp2_bytes_ok l E _ _ A L HE)|]. intros b0 (u0 & u1 & -> & U0 & U1 & E0).
  eapply ok_bind; [apply (fp2_bytes_ok l E _ _ B L HE)|]. intros b1 (u2 & u3 & -> & U2 & U3 & E1). cbn [ok]. exists u0, u1, u2, u3. rewrite <- app_assoc. rewrite E0, E1.
  split; [reflexivity|]. split; [exact U0|]. split; [exact U1|]. split; [exact U2|]. split; [exact U3|]. symmetry. apply surjective_pairing.
Qed.
Lemma fp12_tobytes_ok l E x a : fp12R l E x a -> 1 <= l <= 31 -> E <= 33554432 ->
  ok (fp12_tobytes a) (fun bs => bytes bs /\ length bs = 576%nat /\ forall t, decodes12 (bs ++ t) = x).
Proof.
  intros (A & B & C) L HE. unfold fp12_tobytes. eapply ok_bind; [apply (fp4_bytes_ok l E _ _ A L HE)|]. intros b0 (u0 & u1 & u2 & u3 & -> & U0 & U1 & U2 & U3 & E0).
  eapply ok_bind; [apply (fp4_bytes_ok l E _ _ B L HE)|]. intros b1 (v0 & v1 & v2 & v3 & -> & V0 & V1 & V2 & V3 & E1).
  eapply ok_bind; [apply (fp4_bytes_ok l E _ _ C L HE)|]. intros b2 (w0 & w1 & w2 & w3 & -> & W0 & W1 & W2 & W3 & E2). cbn [ok].
  split; [repeat first [apply be_bytes_bytes | apply bytes_app]|]. split; [rewrite !app_length, !be_bytes_length; reflexivity|].
  intros t. unfold decodes12. rewrite <- !app_assoc. rewrite ?fq_at_S, !fq_at_0 by assumption. rewrite E0, E1, E2. destruct x; reflexivity.
Qed.
Lemma fp12_isunity_ok l E x a : fp12R l E x a -> 1 <= l <= 31 -> E <= 67108864 -> ok (fp12_isunity a) (fun b => b = true <-> x = k1).
Proof.
  intros (A & B & C) L HE. unfold fp12_isunity. destruct x as [x0 x1 x2]. cbn [ka kb kc] in *.
  eapply ok_bind; [apply (fp4_new_int_ok 1); lia|]. intros one O.
  eapply ok_bind; [eapply fp4_equals_ok; [exact A|exact O|lia..]|]. intros e HEq. destruct e; cbn [negb].
  2:{ cbn [ok]. split; [discriminate|]. intros G. pose proof (f_equal ka G) as H. apply HEq in H. discriminate H. }
  eapply ok_bind; [eapply fp4_iszilch_ok; [exact B|lia..]|]. intros z1 Z1. destruct z1; cbn [negb].
  2:{ cbn [ok]. split; [discriminate|]. intros G. pose proof (f_equal kb G) as H. apply Z1 in H. discriminate H. }
  eapply ok_impl; [eapply fp4_iszilch_ok; [exact C|lia..]|]. cbv beta. intros z2 Z2. rewrite (proj1 HEq eq_refl), (proj1 Z1 eq_refl), Z2.
  split; [intros ->; reflexivity|]. intros G. exact (f_equal kc G).
Qed.
