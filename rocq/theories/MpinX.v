(* Proofs about the encoding of points in mpin.rs: encoding, decoding and their round trip. *)
From Coq Require Import ZArith List Bool Lia Znumtheory.
From Verif Require Import Prim PrimP Rom Big BigP BigP2 BigP3 BigP5 BigL WinP NumT FieldQ FieldQ2 Fp Fp2 Fp4 Fp12 FpP FpP2 Fp2P Sqrt2P SpecBytes SpecMac SpecRand Utils Api SpecCurve CurveP GroupP
  Ecp Ecp2 EcpP EcpC Ecp2P Ecp2C GenP G1Grp G1Ord Denote KeysP KeysP2 LayerP MapP Tower TowerP Fp4P Fp12P FexpP SpecPairing MillerP3 PsiP BilinP TwistP VerifyP VerifyP2 VerifyP7 DenoteT Rand RandP
  Glv Mul2P Mul4P PinP GlvP MapitP SpecEcdh Ecdh EcdhH EcdhP EcdhQ Pair Pair2 Ate2P SpecMpin Mpin MpinP MpinQ MpinR MpinS MpinT SpecMpin2 Mpin2 MpinW.
Import ListNotations.
Open Scope Z_scope.
Opaque h1c.

Lemma norm_tobytes w c v : big_norm w = Some c -> nrep 7 c v -> big_tobytes w = Some (be_bytes 48 v).
Proof. intros E N. unfold big_tobytes. rewrite E. cbn [bind]. rewrite (tobytes_go_spec _ _ _ _ N), app_nil_r. reflexivity. Qed.
Lemma inc_tobytes w v m : rep 7 w v -> 0 <= m <= 2 ^ 61 -> exists r, big_inc w m = Some r /\ big_tobytes r = Some (be_bytes 48 (v + m)).
Proof.
  intros R M. pose proof (rep_bound _ _ _ R) as RB. change (58 * Z.of_nat 7) with 406 in RB.
  destruct (ok_ex _ _ (inc_norm_spec w v m (rep_nrep _ _ _ R) ltac:(lia) ltac:(lia))) as (c & E & N). destruct (big_inc w m) as [r|]; [|discriminate E]. cbn [bind] in E.
  exists r. split; [reflexivity|]. exact (norm_tobytes r c _ E N).
Qed.
Lemma par01 v : v mod 2 = 0 \/ v mod 2 = 1. Proof. pose proof (Z.mod_pos_bound v 2 ltac:(lia)). lia. Qed.

Lemma num_be' v t : 0 <= v < 2 ^ 384 -> num_of (be_bytes 48 v ++ t) = v.
Proof. intros V. unfold num_of. rewrite firstn_exact by apply be_bytes_length. apply be_int_48, V. Qed.
Lemma some_rep w v : bytes w -> (48 <= length w)%nat -> num_of w = v -> exists x, rep 7 x v.
Proof. intros B L E. destruct (num_rep w B L) as (c & _ & R). exists c. rewrite <- E. exact R. Qed.
Lemma small_rep u : 0 <= u < 2 ^ 384 -> exists x, rep 7 x u.
Proof. intros U. apply (some_rep (be_bytes 48 u ++ []) u (bytes_app _ _ (be48_bytes u) (Forall_nil _))); [rewrite app_length, be_bytes_length; lia|exact (num_be' u [] U)]. Qed.

(* the point of a number and a parity exists and is the only one *)
Lemma emap_total : forall u s, 0 <= u < 2 ^ 384 -> s = 0 \/ s = 1 -> exists A, emap_pt u s A /\ on1 A /\ A <> Inf /\ forall B, emap_pt u s B -> B = A.
Proof.
  intros u s U S. assert (R : exists x, rep 7 x u).
  { exact (small_rep u U). }
  destruct R as (x & R). destruct (emap_R x u s R S) as (A & c & M & _). exists A. split; [exact M|]. split; [exact (emap_pt_on _ _ _ M)|]. split.
  - destruct M as (k & y & _ & _ & -> & _). discriminate.
  - intros B HB. exact (emap_pt_unique u s B A HB M).
Qed.

(* ------------------------------- encoding ------------------------------- *)
Lemma read_bigs e : bytes e -> (97 <= length e)%nat -> exists u v, big_frombytes (firstn 48 (skipn 1 e)) = Some u /\ big_frombytes (firstn 48 (skipn 49 e)) = Some v /\
  rep 7 u (num_of (skipn 1 e)) /\ rep 7 v (num_of (skipn 49 e)).
Proof.
  intros B L. assert (H : forall off, (off + 48 <= 97)%nat -> exists u, big_frombytes (firstn 48 (skipn off e)) = Some u /\ rep 7 u (num_of (skipn off e))).
  { intros off O. destruct (num_rep (firstn 48 (skipn off e)) (bytes_firstn _ _ (bytes_skipn _ _ B)) ltac:(rewrite firstn_length, skipn_length; lia)) as (c & E & R). exists c. split; [exact E|].
    unfold num_of in R |- *. rewrite firstn_firstn in R. exact R. }
  destruct (H 1%nat ltac:(lia)) as (u & EU & RU). destruct (H 49%nat ltac:(lia)) as (v & EV & RV). exists u, v. split; [exact EU|]. split; [exact EV|]. split; [exact RU|exact RV].
Qed.
Lemma encoding_invalid : forall fuel rng e, bytes e -> (97 <= length e)%nat -> ~ on1 (Aff (coord e 1) (coord e 49)) -> encoding fuel rng e = Some (-14, e, rng).
Proof.
  intros fuel rng e B L N. unfold encoding. destruct (Nat.ltb_spec (length e) 97); [lia|]. destruct (read_bigs e B L) as (u & v & EU & EV & RU & RV). rewrite EU. cbn [bind]. rewrite EV. cbn [bind].
  destruct (ok_ex _ _ (ecp_new_bigs_ok u v _ _ RU RV)) as (P & EP & _ & HP). rewrite EP. cbn [bind]. rewrite (is_inf_true 1 2 P (HP N)) by lia. reflexivity.
Qed.
Lemma draw_q rd f : gives rd f -> exists x rd', big_randomnum MODULUS rd = Some (x, rd') /\ rep 7 x (stream_num f 762 mod q381) /\ gives rd' (fun k => f (96 + k)%nat).
Proof.
  intros G. pose proof q381_lt as R. destruct (randomnum_ok MODULUS q381 rd f mod_rep ltac:(lia) G) as (x & rd' & E & RX & G').
  change (Z.to_nat (2 * (Z.log2 q381 + 1))) with 762%nat in *. exists x, rd'. split; [exact E|]. split; [exact RX|exact G'].
Qed.
Lemma encoding_value : forall fuel rng f e W dx dy, gives rng f -> bytes e -> (97 <= length e)%nat -> q381 <= Z.of_nat fuel -> on1 (Aff (coord e 1) (coord e 49)) ->
  emap_pt (stream_num f 762 mod q381) (f 96%nat mod 2) W -> padd1 (Aff (coord e 1) (coord e 49)) (pneg1 W) = Aff dx dy -> dx <> f0 ->
  exists n rng', 0 < n <= fv dx /\ (exists z, on1 (Aff (mkq (fv dx - n)) z)) /\ (forall t z, fv dx - n < t < fv dx -> ~ on1 (Aff (mkq t) z)) /\
    encoding fuel rng e = Some (0, (f 96%nat mod 2 + 2 * (fv dy mod 2)) :: be_bytes 48 (stream_num f 762 mod q381) ++ be_bytes 48 (fv dx - n + 1 + f 97%nat mod n) ++ skipn 97 e, rng') /\
    gives rng' (fun k => f (98 + k)%nat).
Proof.
  intros fuel rng f e W dx dy G B L F O HW HD ND. pose proof (gives_byte _ _ 97 G) as FB. destruct (read_bigs e B L) as (u & v & EU & EV & RU & RV).
  destruct (ok_ex _ _ (ecp_new_bigs_ok u v _ _ RU RV)) as (P & EP & HP & _). destruct (HP O) as [FP _]. pose proof (ecpF_R 2 _ _ _ ltac:(lia) O FP) as RP.
  destruct (draw_q rng f G) as (x & r1 & ER & RX & G1). destruct (getbyte_ok r1 _ G1) as (r2 & EB & G2). change (96 + 0)%nat with 96%nat in EB.
  destruct (emap_A x _ _ W RX (par01 _) HW) as (c & RC & _ & EC).
  destruct (ok_ex _ _ (ecp_sub_ok 1 2 2 2 _ _ P c RP RC ltac:(lia) ltac:(lia) ltac:(lia) ltac:(lia))) as (D & ED & RD). change (mkq (num_of (skipn 1 e))) with (coord e 1) in RD. change (mkq (num_of (skipn 49 e))) with (coord e 49) in RD.
  rewrite HD in RD. destruct (ok_ex _ _ (gets_ok 1 5 dx dy D RD ltac:(lia) ltac:(lia))) as ([s D'] & ES & HS & RD'). subst s.
  destruct (unmap_ok 1 5 dx dy D' (ecpA_R5 _ _ RD') ltac:(lia) ltac:(lia) ND) as (j & cv & J0 & J1 & RJ & HZ & MIN & EJ).
  destruct (getbyte_ok r2 _ G2) as (r3 & EB3 & G3). change (96 + 1)%nat with 97%nat in EB3.
  pose proof (Z.mod_pos_bound (f 97%nat) (Z.of_nat j) ltac:(lia)) as MB. pose proof (Z.mod_le (f 97%nat) (Z.of_nat j) ltac:(lia) ltac:(lia)) as ML.
  destruct (inc_tobytes cv _ (f 97%nat mod Z.of_nat j + 1) RJ ltac:(lia)) as (r & EI & ET).
  exists (Z.of_nat j), r3. split; [lia|]. split; [exact HZ|]. split.
  { intros t z T. specialize (MIN (Z.to_nat (fv dx - t)) z ltac:(lia)). replace (fv dx - Z.of_nat (Z.to_nat (fv dx - t))) with t in MIN by lia. exact MIN. }
  split; [|exact G3]. unfold encoding. destruct (Nat.ltb_spec (length e) 97); [lia|]. rewrite EU. cbn [bind]. rewrite EV. cbn [bind]. rewrite EP. cbn [bind].
  rewrite (is_inf_false 1 2 _ P RP ltac:(lia) ltac:(lia) ltac:(discriminate)). cbn [bind]. rewrite ER. cbn [bind]. rewrite EB. cbn [bind]. rewrite (EC fuel F). cbn [bind]. rewrite ED. cbn [bind].
  rewrite ES. cbn [bind]. rewrite (EJ fuel F). cbn [bind]. rewrite EB3. cbn [bind]. rewrite EI. cbn [bind]. rewrite (B_tobytes _ _ RX). cbn [bind]. rewrite ET. cbn [bind].
  replace (fv dx - Z.of_nat j + (f 97%nat mod Z.of_nat j + 1)) with (fv dx - Z.of_nat j + 1 + f 97%nat mod Z.of_nat j) by lia. reflexivity.
Qed.

(* ------------------------------- decoding ------------------------------- *)
Lemma land4 d : 0 <= d -> (Z.land d 4 =? 0) = (d / 4 mod 2 =? 0).
Proof.
  intros H. assert (E : Z.land d 4 = 4 * (d / 4 mod 2)).
  { change 4 with (2 ^ 2) at 1. rewrite <- (Z.shiftl_1_l 2). assert (T : d / 4 mod 2 = Z.b2z (Z.testbit d 2)) by (rewrite Z.testbit_spec' by lia; reflexivity). rewrite T.
    apply Z.bits_inj'. intros i I. rewrite Z.land_spec. change (Z.shiftl 1 2) with (2 ^ 2). destruct (Z.eq_dec i 2) as [->|NE].
    - rewrite Z.pow2_bits_true by lia. rewrite andb_true_r. destruct (Z.testbit d 2); reflexivity.
    - rewrite Z.pow2_bits_false by lia. rewrite andb_false_r. destruct (Z.testbit d 2); [|rewrite Z.bits_0; reflexivity]. change (4 * Z.b2z true) with (2 ^ 2). rewrite Z.pow2_bits_false by lia. reflexivity. }
  rewrite E. destruct (par01 (d / 4)) as [ ->| ->]; reflexivity.
Qed.
Lemma decoding_flag : forall fuel d0 t, 0 <= d0 -> d0 / 4 mod 2 = 1 -> decoding fuel (d0 :: t) = Some (-14, d0 :: t).
Proof. intros fuel d0 t H E. unfold decoding. cbn [getM nth_error bind]. rewrite land4 by exact H. rewrite E. reflexivity. Qed.
Lemma land1 d : Z.land d 1 = d mod 2. Proof. exact (Z.land_ones d 1 ltac:(lia)). Qed.
Lemma decoding_value : forall fuel d0 t W P x y, bytes (d0 :: t) -> (96 <= length t)%nat -> q381 <= Z.of_nat fuel -> d0 / 4 mod 2 = 0 ->
  emap_pt (num_of t) (d0 mod 2) W -> emap_pt (num_of (skipn 48 t)) (d0 / 2 mod 2) P -> padd1 P W = Aff x y ->
  exists u, xval x u /\ decoding fuel (d0 :: t) = Some (0, 4 :: be_bytes 48 u ++ be_bytes 48 (fv y) ++ skipn 96 t).
Proof.
  intros fuel d0 t W P x y B L F Z4 HW HP HS. assert (D0 : 0 <= d0) by (apply Forall_inv in B; lia). destruct (read_bigs (d0 :: t) B ltac:(cbn [length]; lia)) as (u & v & EU & EV & RU & RV).
  change (skipn 1 (d0 :: t)) with t in RU. change (skipn 49 (d0 :: t)) with (skipn 48 t) in RV.
  destruct (emap_A u _ _ W RU (par01 _) HW) as (cw & RW & _ & EW). destruct (emap_A v _ _ P RV (par01 _) HP) as (cp & RP & _ & EP).
  destruct (ok_ex _ _ (ecp_add_ok 2 2 2 2 _ _ cp cw RP RW ltac:(lia) ltac:(lia) ltac:(lia) ltac:(lia))) as (s & ES & RS). rewrite HS in RS.
  destruct (ok_ex _ _ (getx_A 1 5 x y s RS ltac:(lia) ltac:(lia))) as ([wx s1] & EX & (vx & RVX & XV) & R1).
  destruct (ok_ex _ _ (gety_A 1 5 x y s1 (ecpA_R5 _ _ R1) ltac:(lia) ltac:(lia))) as ([wy s2] & EY & RVY & _).
  exists vx. split; [exact XV|]. unfold decoding. cbn [getM nth_error bind]. rewrite (land4 d0 D0), Z4. cbn [Z.eqb negb]. destruct (Nat.ltb_spec (length (d0 :: t)) 97) as [H|H]; [cbn [length] in H; lia|].
  rewrite EU. cbn [bind]. rewrite EV. cbn [bind]. rewrite !land1. rewrite Z.shiftr_div_pow2 by lia. change (2 ^ 1) with 2. rewrite (EW fuel F). cbn [bind]. rewrite (EP fuel F). cbn [bind].
  rewrite ES. cbn [bind]. rewrite EX. cbn [bind]. rewrite EY. cbn [bind]. rewrite (B_tobytes _ _ RVX). cbn [bind]. rewrite (B_tobytes _ _ RVY). reflexivity.
Qed.

(* ------------------------------- round trip ------------------------------- *)
Lemma enc_coords x y t : coord (enc_pt (Aff x y) ++ t) 1 = x /\ coord (enc_pt (Aff x y) ++ t) 49 = y.
Proof.
  pose proof (fv_range x) as FX. pose proof (fv_range y) as FY. pose proof q381_lt as Q. cbn [enc_pt app]. rewrite <- app_assoc. unfold coord. split.
  - change (skipn 1 (4 :: be_bytes 48 (fv x) ++ be_bytes 48 (fv y) ++ t)) with (be_bytes 48 (fv x) ++ be_bytes 48 (fv y) ++ t). rewrite num_be' by lia. apply mkq_fv.
  - change (skipn 49 (4 :: be_bytes 48 (fv x) ++ be_bytes 48 (fv y) ++ t)) with (skipn 48 (be_bytes 48 (fv x) ++ be_bytes 48 (fv y) ++ t)). rewrite skipn_exact by apply be_bytes_length. rewrite num_be' by lia. apply mkq_fv.
Qed.
Lemma encode_decode : forall fuel rng f x y t W dx dy, gives rng f -> bytes t -> q381 <= Z.of_nat fuel -> on1 (Aff x y) -> x <> f0 ->
  emap_pt (stream_num f 762 mod q381) (f 96%nat mod 2) W -> padd1 (Aff x y) (pneg1 W) = Aff dx dy -> dx <> f0 ->
  exists e rng', encoding fuel rng (enc_pt (Aff x y) ++ t) = Some (0, e, rng') /\ length e = (97 + length t)%nat /\ nth 0 e 0 < 4 /\ decoding fuel e = Some (0, enc_pt (Aff x y) ++ t).
Proof.
  intros fuel rng f x y t W dx dy G BT F O NX HW HD ND. destruct (enc_coords x y t) as [C1 C2]. set (e0 := enc_pt (Aff x y) ++ t) in *.
  assert (B0 : bytes e0) by (apply bytes_app; [apply enc_bytes|exact BT]).
  assert (L0 : length (enc_pt (Aff x y)) = 97%nat) by (cbn [enc_pt length]; rewrite app_length, !be_bytes_length; reflexivity).
  assert (L1 : (97 <= length e0)%nat) by (unfold e0; rewrite app_length, L0; lia). assert (SK : skipn 97 e0 = t) by (unfold e0; apply skipn_exact, L0).
  destruct (encoding_value fuel rng f e0 W dx dy G B0 L1 F) as (n & rng' & N & HZ & MIN & E & _).
  { rewrite C1, C2. exact O. } { exact HW. } { rewrite C1, C2. exact HD. } { exact ND. }
  rewrite SK in E. set (u := stream_num f 762 mod q381) in *. set (su := f 96%nat mod 2) in *. set (sv := fv dy mod 2) in *. set (v := fv dx - n + 1 + f 97%nat mod n) in *.
  pose proof q381_lt as Q. assert (UB : 0 <= u < 2 ^ 384) by (pose proof (Z.mod_pos_bound (stream_num f 762) q381 q381_pos); unfold u; lia).
  pose proof (Z.mod_pos_bound (f 97%nat) n ltac:(lia)) as MB. pose proof (fv_range dx) as FD. assert (VB : 0 <= v < 2 ^ 384) by (unfold v; lia).
  assert (SU : 0 <= su < 2) by (apply Z.mod_pos_bound; lia). assert (SV : 0 <= sv < 2) by (apply Z.mod_pos_bound; lia).
  assert (OD : on1 (Aff dx dy)) by (rewrite <- HD; apply padd1_on; [exact O|apply pneg1_on; exact (emap_pt_on _ _ _ HW)]).
  exists ((su + 2 * sv) :: be_bytes 48 u ++ be_bytes 48 v ++ t), rng'. split; [exact E|]. split; [cbn [length]; rewrite !app_length, !be_bytes_length; lia|]. split; [cbn [nth]; lia|].
  assert (BE : bytes ((su + 2 * sv) :: be_bytes 48 u ++ be_bytes 48 v ++ t)).
  { constructor; [lia|]. apply bytes_app; [apply be48_bytes|]. apply bytes_app; [apply be48_bytes|exact BT]. }
  destruct (decoding_value fuel (su + 2 * sv) (be_bytes 48 u ++ be_bytes 48 v ++ t) W (Aff dx dy) x y BE) as (w & XW & ED).
  - rewrite !app_length, !be_bytes_length. lia.
  - exact F.
  - rewrite (Z.div_small _ 4) by lia. reflexivity.
  - rewrite num_be' by exact UB. assert (EQ : (su + 2 * sv) mod 2 = su) by (rewrite Z.mul_comm, Z_mod_plus_full; apply Z.mod_small; lia). rewrite EQ. exact HW.
  - rewrite skipn_exact by apply be_bytes_length. rewrite num_be' by exact VB. assert (EQ : (su + 2 * sv) / 2 mod 2 = sv) by (rewrite Z.mul_comm, Z.div_add, (Z.div_small su) by lia; apply Z.mod_small; lia). rewrite EQ.
    apply emap_hit; [exact OD|unfold v; lia|]. intros i z I. apply MIN. unfold v in I. lia.
  - rewrite <- HD. apply padd_cancel; [exact O|exact (emap_pt_on _ _ _ HW)].
  - assert (SK2 : skipn 96 (be_bytes 48 u ++ be_bytes 48 v ++ t) = t) by (rewrite app_assoc; apply skipn_exact; rewrite app_length, !be_bytes_length; reflexivity).
    rewrite SK2, (proj2 (proj2 XW) NX) in ED. rewrite ED. unfold e0. cbn [enc_pt app]. rewrite <- !app_assoc. reflexivity.
Qed.

(* ------------------------------- opposite points ------------------------------- *)
Lemma one_coords p a : ecpR 2 2 p a -> fp_one = Some (Ecp.ez a) -> forall x y, p = Aff x y -> fpR 2 2 x (ex a) /\ fpR 2 2 y (ey a) /\ fpR 2 2 f1 (Ecp.ez a).
Proof.
  intros (O & X & Y & Z0 & A & B & C & P) E x y ->. destruct (ok_ex _ _ fp_one_ok) as (o & EO & RO). rewrite EO in E. apply some_eq in E. rewrite <- E in C.
  assert (Z1 : Z0 = f1) by (rewrite <- (proj2 (proj1 (fpR_wfv _ _ _ _) C)); exact (proj2 (proj1 (fpR_wfv _ _ _ _) RO))). subst Z0. cbn [prep] in P. destruct P as (_ & PX & PY).
  assert (EX : X = x) by (rewrite PX; ring). assert (EY : Y = y) by (rewrite PY; ring). rewrite EX in A. rewrite EY in B. split; [exact A|]. split; [exact B|]. rewrite <- E. exact C.
Qed.
Lemma add_raw X1 Y1 X2 Y2 a b : fpR 2 2 X1 (ex a) -> fpR 2 2 Y1 (ey a) -> fpR 2 2 f1 (Ecp.ez a) -> fpR 2 2 X2 (ex b) -> fpR 2 2 Y2 (ey b) -> fpR 2 2 f1 (Ecp.ez b) ->
  ok (ecp_add a b) (fun c => fpR 1 5 (AY Fq f1 fadd fmul fsub X1 Y1 f1 X2 Y2 f1 (mkq 12)) (ey c)).
Proof.
  intros A1 A2 A3 B1 B2 B3. unfold ecp_add. change (3 * CURVE_B_I) with 12. cbv zeta. repeat fstep. cbn [ok]. cbn [ex ey Ecp.ez].
  match goal with |- fpR 1 5 ?v ?w => match goal with H : fpR _ _ ?u w |- _ => assert (EY : u = v) by (unfold AY; ring); rewrite <- EY; eapply fpR_weak; [exact H|lia|lia] end end.
Qed.

Lemma zero_even : emap_pt 0 0 (Aff f0 (mkq 2)).
Proof.
  exists 0%nat, (mkq 2). change (mkq (0 + Z.of_nat 0)) with f0. split; [exact on02|]. split; [rewrite fv_mkq, (Z.mod_small 2 q381) by (pose proof q381_lt; lia); reflexivity|]. split; [reflexivity|]. intros i z H. lia.
Qed.
Lemma two_nz' : mkq 2 <> f0. Proof. exact (on1_y _ _ on02). Qed.
Lemma zero_odd : emap_pt 0 1 (Aff f0 (fopp (mkq 2))).
Proof.
  exists 0%nat, (fopp (mkq 2)). change (mkq (0 + Z.of_nat 0)) with f0. split; [exact (pneg1_on (Aff f0 (mkq 2)) on02)|]. split.
  - rewrite (MapP.fv_fopp _ two_nz'). rewrite fv_mkq, (Z.mod_small 2 q381) by (pose proof q381_lt; lia). vm_compute. reflexivity.
  - split; [reflexivity|]. intros i z H. lia.
Qed.
Definition m128 : Fq := mkq (-128).
Lemma sum_y : AY Fq f1 fadd fmul fsub f0 (fopp (mkq 2)) f1 f0 (mkq 2) f1 (mkq 12) = m128.
Proof.
  assert (E : AY Fq f1 fadd fmul fsub f0 (fopp (mkq 2)) f1 f0 (mkq 2) f1 (mkq 12) = fsub (fmul (mkq 12) (fopp (mkq 12))) (fopp (fmul (fmul (mkq 2) (mkq 2)) (fmul (mkq 2) (mkq 2))))) by (unfold AY; ring).
  rewrite E. assert (E2 : fsub (fmul (mkq 12) (fopp (mkq 12))) (fopp (fmul (fmul (mkq 2) (mkq 2)) (fmul (mkq 2) (mkq 2)))) = fsub (mkq 16) (mkq 144)).
  { rewrite <- !mkq_mul. change (2 * 2 * (2 * 2)) with 16. assert (M : fmul (mkq 12) (mkq 12) = mkq 144) by (rewrite <- mkq_mul; reflexivity). rewrite <- M. ring. }
  rewrite E2. unfold m128. rewrite <- mkq_sub. reflexivity.
Qed.
Lemma m128_off : ~ on1 (Aff f0 m128).
Proof.
  intros C. assert (E1 : fmul m128 m128 = mkq 4).
  { transitivity (fadd (fmul (fmul f0 f0) f0) fb); [|unfold fb; ring]. transitivity (fadd (fmul f0 (fmul f0 f0)) fb); [|ring]. apply on1_rhs in C. rewrite C. unfold rhs1. ring. }
  assert (E : mkq (-128 * -128) = mkq 4) by (rewrite mkq_mul; exact E1).
  pose proof (f_equal fv E) as F. rewrite !fv_mkq, (Z.mod_small (-128 * -128)), (Z.mod_small 4) in F by (pose proof q381_lt; lia). discriminate F.
Qed.
Lemma m128_nz : m128 <> f0.
Proof.
  intros C. pose proof (f_equal fv C) as F. unfold m128 in F. rewrite fv_mkq, fv_f0 in F. apply Z.mod_divide in F; [|exact q381_nz]. apply Z.divide_opp_r in F. apply Z.divide_pos_le in F; [|lia]. pose proof q381_lt. lia.
Qed.
Lemma parts (c : Z) (a b t : list Z) : length a = 48%nat -> length b = 48%nat ->
  skipn 1 (c :: a ++ b ++ t) = a ++ b ++ t /\ skipn 49 (c :: a ++ b ++ t) = b ++ t /\ skipn 97 (c :: a ++ b ++ t) = t /\ nth 0 (c :: a ++ b ++ t) 0 = c /\ length (c :: a ++ b ++ t) = (97 + length t)%nat.
Proof.
  intros LA LB. split; [reflexivity|]. split; [change (skipn 48 (a ++ b ++ t) = b ++ t); apply skipn_exact, LA|]. split; [|split; [reflexivity|cbn [length]; rewrite !app_length; lia]].
  change (skipn 96 (a ++ b ++ t) = t). rewrite app_assoc. apply skipn_exact. rewrite app_length. lia.
Qed.
Lemma junk_abs w u v : be_int (firstn 48 (skipn 1 w)) = u -> be_int (firstn 48 (skipn 49 w)) = v -> nth 0 w 0 = 4 -> u mod q381 = 0 -> ~ on1 (Aff f0 (mkq v)) -> decodes w Inf.
Proof.
  intros E1 E2 E4 UQ NO. assert (H : forall x y, ~ encodes w x y); [|exact H]. intros x y (O & HX & HY). rewrite E1 in HX. rewrite E2, E4 in HY.
  assert (X0 : x = f0).
  { apply fv_zero. pose proof (fv_range x) as FX. rewrite HX in UQ. rewrite Z.mod_small in UQ by exact FX. exact UQ. }
  rewrite X0 in O. destruct HY as [[_ HY]|HY].
  - apply NO. rewrite HY, mkq_fv. exact O.
  - destruct (par01 (fv y)) as [P|P]; rewrite P in HY; discriminate HY.
Qed.
Lemma num_raw v t : 0 <= v < 2 ^ 384 -> be_int (firstn 48 (be_bytes 48 v ++ t)) = v.
Proof. intros V. rewrite firstn_exact by apply be_bytes_length. apply be_int_48, V. Qed.
Lemma junk_gen u v t : 0 <= u < 2 ^ 384 -> 0 <= v < 2 ^ 384 -> u mod q381 = 0 -> ~ on1 (Aff f0 (mkq v)) -> decodes (4 :: be_bytes 48 u ++ be_bytes 48 v ++ t) Inf.
Proof.
  intros U V UQ NO. pose proof (num_raw u (be_bytes 48 v ++ t) U) as NU. pose proof (num_raw v t V) as NV.
  pose proof (be_bytes_length 48 u) as LU. pose proof (be_bytes_length 48 v) as LV. revert NU NV LU LV. generalize (be_bytes 48 u) (be_bytes 48 v). intros bu bv NU NV LU LV.
  destruct (parts 4 bu bv t LU LV) as (E1 & E2 & _ & E4 & _). apply (junk_abs _ u v); [rewrite E1; exact NU|rewrite E2; exact NV|exact E4|exact UQ|exact NO].
Qed.
Lemma junk0 : q381 mod q381 = 0. Proof. apply Z.mod_same. exact q381_nz. Qed.
Lemma decodes_junk u t : u = 0 \/ u = q381 -> decodes (4 :: be_bytes 48 u ++ be_bytes 48 (fv m128) ++ t) Inf.
Proof.
  intros U. pose proof q381_lt as Q. pose proof (fv_range m128) as FM. apply junk_gen; [lia|lia| |rewrite mkq_fv; exact m128_off]. destruct U as [ ->| ->]; [apply Z.mod_0_l, q381_nz|exact junk0].
Qed.
Opaque m128.
Lemma decoding_opposite : forall t, bytes t -> exists u, (u = 0 \/ u = q381) /\ forall fuel, q381 <= Z.of_nat fuel ->
  decoding fuel (2 :: be_bytes 48 0 ++ be_bytes 48 0 ++ t) = Some (0, 4 :: be_bytes 48 u ++ be_bytes 48 (fv m128) ++ t).
Proof.
  intros t BT. set (d := 2 :: be_bytes 48 0 ++ be_bytes 48 0 ++ t).
  assert (BD : bytes d) by (constructor; [lia|]; apply bytes_app; [apply be48_bytes|]; apply bytes_app; [apply be48_bytes|exact BT]).
  destruct (parts 2 (be_bytes 48 0) (be_bytes 48 0) t (be_bytes_length 48 0) (be_bytes_length 48 0)) as (K1 & K2 & SK & _ & LL). fold d in K1, K2, SK, LL.
  assert (LD : (97 <= length d)%nat) by lia.
  destruct (read_bigs d BD LD) as (u & v & EU & EV & RU & RV).
  assert (N1 : num_of (skipn 1 d) = 0) by (rewrite K1; apply num_be'; lia).
  assert (N2 : num_of (skipn 49 d) = 0).
  { rewrite K2. apply num_be'. lia. }
  rewrite N1 in RU. rewrite N2 in RV.
  destruct (emap_A u 0 0 _ RU ltac:(lia) zero_even) as (cw & RW & ZW & EW). destruct (emap_A v 0 1 _ RV ltac:(lia) zero_odd) as (cp & RP & ZP & EP).
  destruct (one_coords _ _ RW ZW _ _ eq_refl) as (W1 & W2 & W3). destruct (one_coords _ _ RP ZP _ _ eq_refl) as (P1 & P2 & P3).
  pose proof (add_raw _ _ _ _ cp cw P1 P2 P3 W1 W2 W3) as AR. rewrite sum_y in AR.
  destruct (ok_ex _ _ (ecp_add_ok 2 2 2 2 _ _ cp cw RP RW ltac:(lia) ltac:(lia) ltac:(lia) ltac:(lia))) as (s & ES & RS). rewrite ES in AR. cbn [ok] in AR.
  assert (S0 : padd1 (Aff f0 (fopp (mkq 2))) (Aff f0 (mkq 2)) = Inf).
  { rewrite padd1_comm by (try exact on02; exact (pneg1_on (Aff f0 (mkq 2)) on02)). exact (padd1_neg (Aff f0 (mkq 2)) on02). }
  rewrite S0 in RS. pose proof (is_inf_true 1 5 s RS ltac:(lia) ltac:(lia)) as IS.
  assert (AF : ecp_affine s = Some s) by (unfold ecp_affine; rewrite IS; reflexivity).
  pose proof RS as (_ & X & Y & Z0 & SX & SY & SZ & PR). cbn [prep] in PR. destruct PR as (X0 & _). subst X.
  destruct (ok_ex _ _ (fp_redc_exact 1 5 f0 (ex s) SX ltac:(lia) ltac:(lia))) as (wx & EX & RX). destruct (ok_ex _ _ (fp_redc_exact 1 5 m128 (ey s) AR ltac:(lia) ltac:(lia))) as (wy & EY & RY).
  rewrite (rval_nz m128 _ m128_nz) in RY. exists (rval f0 (ex s)). split.
  { unfold rval. destruct (Fq_dec f0 f0) as [_|C]; [|destruct (C eq_refl)]. destruct (lval (fx (ex s)) =? 0); [left|right]; reflexivity. }
  intros fuel F. unfold decoding. assert (G0 : getM d 0 = Some 2) by reflexivity. rewrite G0. cbn [bind]. change (negb (Z.land 2 4 =? 0)) with false. destruct (Nat.ltb_spec (length d) 97); [lia|].
  rewrite EU. cbn [bind]. rewrite EV. cbn [bind]. change (Z.land 2 1) with 0. change (Z.land (Z.shiftr 2 1) 1) with 1. rewrite (EW fuel F). cbn [bind]. rewrite (EP fuel F). cbn [bind].
  rewrite ES. cbn [bind]. unfold ecp_getx, ecp_gety. rewrite AF. cbn [bind]. rewrite EX. cbn [bind]. rewrite AF. cbn [bind]. rewrite EY. cbn [bind]. rewrite (B_tobytes _ _ RX). cbn [bind]. rewrite (B_tobytes _ _ RY). cbn [bind].
  rewrite SK. reflexivity.
Qed.
Lemma decoding_refuted : exists d d', bytes d /\ length d = 97%nat /\ (forall fuel, q381 <= Z.of_nat fuel -> decoding fuel d = Some (0, d')) /\ decodes d' Inf.
Proof.
  destruct (decoding_opposite [] (Forall_nil _)) as (u & U & E). exists (2 :: be_bytes 48 0 ++ be_bytes 48 0 ++ []), (4 :: be_bytes 48 u ++ be_bytes 48 (fv m128) ++ []).
  split; [constructor; [lia|]; apply bytes_app; [apply be48_bytes|]; apply bytes_app; [apply be48_bytes|constructor]|]. split; [cbn [length]; rewrite !app_length, !be_bytes_length; reflexivity|].
  split; [exact E|]. exact (decodes_junk u [] U).
Qed.
