(* Exponentiation in the cyclotomic subgroup and the final exponentiation. *)
From Coq Require Import Lia ZifyBool Znumtheory Field.
From Verif Require Import Prim PrimP Rom Big BigP BigP2 BigP3 BigP4 BigP5 NumT FieldQ FieldQ2 Fp FpP FpP2 Fp2 Fp2P Fp4 Fp12 Ecp Ecp2 Pair Ecp2P Tower TowerP FrobP CycP Fp4P Fp12P NafP.

(* fp12.rs pow: x^v for x in the cyclotomic subgroup, for the exponents that
   have at most one digit -1 (conjugating r lets its excess grow) *)
Section Pow.
  Variables (z : Fq12) (V : Z -> Fq12).
  Hypothesis V1 : V 1 = z.
  Hypothesis VS : forall a, kusqr (V a) = V (a + a).
  Hypothesis VP : forall a, kmul (V a) z = V (a + 1).
  Hypothesis VM : forall a, kmul (V a) (kconj z) = V (a + -1).
  Definition powI (v i0 i : Z) (st : FP12 * FP12) : Prop :=
    fp12R 1 KB (V (dd v i)) (fst st) /\ fp12R 1 (if i <=? i0 then 25 * KB else KB) z (snd st).
  Lemma pow_step_ok v i0 e1 e3 st i : rep 7 e1 v -> rep 7 e3 (3 * v) -> (1 <= i)%nat -> Z.of_nat i < 406 ->
    (sd v (Z.of_nat i) = -1 -> Z.of_nat i = i0) -> powI v i0 (Z.of_nat i + 1) st ->
    ok (fp12_pow_step e1 e3 st i) (powI v i0 (Z.of_nat i)).
  Proof.
    intros R1 R3 I IB SD [W R]. destruct st as [w r]. cbn [fst snd] in W, R. unfold fp12_pow_step. unfold KB in *.
    eapply ok_bind; [eapply fp12_usqr_ok; [exact W|lia|lia]|]. intros w1 W1. rewrite VS in W1.
    rewrite (big_bit_ok e3 (3 * v)) by (auto; lia). cbn [bind]. rewrite (big_bit_ok e1 v) by (auto; lia). cbn [bind]. cbv zeta.
    fold (sd v (Z.of_nat i)). pose proof (dd_step v (Z.of_nat i) ltac:(lia)) as DS. unfold powI, KB.
    assert (RW : forall r', fp12R 1 (if Z.of_nat i + 1 <=? i0 then 25 * 8192 else 8192) z r' -> fp12R 1 (if Z.of_nat i <=? i0 then 25 * 8192 else 8192) z r').
    { intros r' H. destruct (Z.leb_spec (Z.of_nat i + 1) i0), (Z.leb_spec (Z.of_nat i) i0); try lia; try exact H. eapply fp12R_weak; [exact H|lia|lia]. }
    assert (EB : (if Z.of_nat i + 1 <=? i0 then 25 * 8192 else 8192) <= 524288) by (destruct (Z.of_nat i + 1 <=? i0); lia).
    destruct (sd_cases v (Z.of_nat i)) as [C|[C|C]]; rewrite C in *.
    - change (1 =? 1) with true. cbv iota.
      eapply ok_bind; [eapply fp12_mul_ok; [apply fp12C_R; exact W1|exact R|lia..]|]. intros w2 W2. cbn [ok fst snd]. split; [|apply RW; exact R].
      rewrite DS. rewrite VP in W2.
      replace (2 * dd v (Z.of_nat i + 1) + 1) with (dd v (Z.of_nat i + 1) + dd v (Z.of_nat i + 1) + 1) by lia. exact W2.
    - change (0 =? 1) with false. change (0 =? -1) with false. cbv iota. cbn [ok fst snd]. split; [|apply RW; exact R].
      rewrite DS. replace (2 * dd v (Z.of_nat i + 1) + 0) with (dd v (Z.of_nat i + 1) + dd v (Z.of_nat i + 1)) by lia.
      eapply fp12R_weak; [apply fp12C_R; exact W1|lia|lia].
    - specialize (SD eq_refl). change (-1 =? 1) with false. change (-1 =? -1) with true. cbv iota.
      destruct (Z.leb_spec (Z.of_nat i + 1) i0); [lia|]. destruct (Z.leb_spec (Z.of_nat i) i0); [|lia].
      eapply ok_bind; [eapply fp12_conj_ok; [exact R|lia..]|]. intros r1 Q1.
      eapply ok_bind; [eapply fp12_mul_ok; [apply fp12C_R; exact W1|exact Q1|lia..]|]. intros w2 W2.
      eapply ok_bind; [eapply fp12_conj_ok; [exact Q1|lia..]|]. intros r2 Q2. cbn [ok fst snd]. split.
      + rewrite DS. rewrite VM in W2.
        replace (2 * dd v (Z.of_nat i + 1) + -1) with (dd v (Z.of_nat i + 1) + dd v (Z.of_nat i + 1) + -1) by lia. exact W2.
      + rewrite (kconj_conj z) in Q2. eapply fp12R_weak; [exact Q2|lia|lia].
  Qed.
  Lemma fp12_pow_gen l E a e v i0 : fp12R l E z a -> 1 <= l <= 31 -> E <= KB -> rep 7 e v -> 1 <= v -> 3 * v < 2 ^ 406 ->
    (forall i, 1 <= i -> i + 1 < bitlen (3 * v) -> sd v i = -1 -> i = i0) -> i0 + 1 < bitlen (3 * v) ->
    ok (fp12_pow a e) (fp12C (V v)).
  Proof.
    intros A L HE RE V0 VB NEG I0. pose proof (fp12R_pos _ _ _ _ A) as EP. unfold KB in HE. unfold fp12_pow.
    eapply ok_bind; [eapply fp12_norm_ok; [exact A|lia|lia]|]. intros r R.
    eapply ok_bind; [apply (big_norm_rep _ _ RE)|]. intros e1 R1.
    eapply ok_bind; [apply (big_pmul3_ok _ _ R1 VB)|]. intros e3 R3.
    eapply ok_bind; [apply (big_norm_rep _ _ R3)|]. intros e3' R3'.
    rewrite (big_nbits_spec _ _ R3'). cbn [bind].
    pose proof (bitlen_le (3 * v) 406 ltac:(lia) ltac:(lia)) as BL. pose proof (bitlen3 v V0) as B2.
    rewrite cku64_ok by lia. cbn [bind].
    assert (KBv : KB = 8192) by reflexivity.
    eapply ok_bind; [apply (naf_run (fp12_pow_step e1 e3') (powI v i0) v (r, r) V0)|].
    - intros st i I IB H. apply pow_step_ok; auto; [lia|]. intros SD. apply NEG; [lia|lia|exact SD].
    - split; cbn [fst snd].
      + rewrite dd_top by exact V0. rewrite V1. eapply fp12R_weak; [exact R|lia|lia].
      + destruct (Z.leb_spec (bitlen (3 * v) - 1) i0); [lia|]. eapply fp12R_weak; [exact R|lia|lia].
    - intros [w r'] [W _]. cbn [fst] in W. rewrite dd_1 in W. eapply fp12_reduce_ok; [exact W|lia|lia].
  Qed.
End Pow.
Lemma fp12_pow_ok l E z a e v i0 : fp12R l E z a -> cyc z -> 1 <= l <= 31 -> E <= KB -> rep 7 e v -> 1 <= v -> 3 * v < 2 ^ 406 ->
  (forall i, 1 <= i -> i + 1 < bitlen (3 * v) -> sd v i = -1 -> i = i0) -> i0 + 1 < bitlen (3 * v) ->
  ok (fp12_pow a e) (fp12C (kpw z v)).
Proof.
  intros A CZ L HE RE V VB NEG I0. rewrite <- (zp_pw z v CZ) by lia.
  apply (fp12_pow_gen z (zp z) (zp_1 z CZ)) with (l := l) (E := E) (i0 := i0); auto.
  - intros a0. rewrite (kusqr_ok _ (zp_cyc z a0 CZ)). apply zp_mul. exact CZ.
  - intros a0. rewrite <- (zp_1 z CZ) at 2. apply zp_mul. exact CZ.
  - intros a0. rewrite <- (zp_1 z CZ) at 2. rewrite (zp_conj z 1 CZ). apply zp_mul. exact CZ.
Qed.

(* the two exponents used: the curve parameter and half of it *)
Definition bnx : Z := 15132376222941642752.
Lemma bnx_rep : rep 7 CURVE_BNX bnx.
Proof. split; [reflexivity|]. split; [|vm_compute; reflexivity]. repeat (constructor; [lia|]). constructor. Qed.
Lemma half_rep : rep 7 (big_fshr CURVE_BNX 1) (bnx / 2).
Proof. split; [reflexivity|]. split; [|vm_compute; reflexivity]. unfold big_fshr. repeat (constructor; [vm_compute; split; [discriminate|reflexivity]|]). constructor. Qed.
Lemma half_back : big_fshl (big_fshr CURVE_BNX 1) 1 = CURVE_BNX. Proof. vm_compute. reflexivity. Qed.
Definition neg_only (v i0 : Z) : bool :=
  forallb (fun n => implb (sd v (Z.of_nat n) =? -1) (Z.of_nat n =? i0)) (seq 1 (Z.to_nat (bitlen (3 * v)))).
Lemma neg_only_ok v i0 : neg_only v i0 = true -> forall i, 1 <= i -> i + 1 < bitlen (3 * v) -> sd v i = -1 -> i = i0.
Proof.
  intros H i I IB S1. unfold neg_only in H. rewrite forallb_forall in H. specialize (H (Z.to_nat i)).
  rewrite Z2Nat.id in H by lia. rewrite S1 in H. cbn [Z.eqb implb] in H. change (-1 =? -1) with true in H. cbn [implb] in H.
  apply Z.eqb_eq. apply H. apply in_seq. lia.
Qed.
Lemma bnx_neg : neg_only bnx 63 = true. Proof. vm_compute. reflexivity. Qed.
Lemma half_neg : neg_only (bnx / 2) 62 = true. Proof. vm_compute. reflexivity. Qed.

(* the Frobenius constant of rom.rs *)
Lemma fra_rep : rep 7 FRA fra.
Proof. split; [reflexivity|]. split; [|vm_compute; reflexivity]. repeat (constructor; [lia|]). constructor. Qed.
Lemma frb_rep : rep 7 FRB (q381 - fra).
Proof. split; [reflexivity|]. split; [|vm_compute; reflexivity]. repeat (constructor; [lia|]). constructor. Qed.
Lemma gf_const : ok (fp2_new_bigs FRA FRB) (fp2R 1 2 gf).
Proof.
  eapply ok_fp2R; [apply (fp2_new_bigs_ok _ _ _ _ fra_rep frb_rep)|].
  Transparent gf. unfold gf. Opaque gf. f_equal. rewrite mkq_sub. assert (E : mkq q381 = f0).
  { apply mkq_eq. rewrite Z.mod_same, Z.mod_0_l by apply q381_nz. reflexivity. }
  rewrite E. generalize (mkq fra). intros v. ring.
Qed.

(* ------------------------- the final exponentiation ------------------- *)
Definition fexpo : Z :=
  let x := bnx in
  let a := 2 * x + 1 + 2 * x * (x / 2) in
  let b := - (a * x) in
  let c := - (b * x) + - a in
  a * q381 * q381 * q381 + b * q381 * q381 + (- (c * x) + 2 + 1) + c * q381.
Section Fexp.
  Variables (m : Fq12) (V : Z -> Fq12).
  Hypothesis V1 : V 1 = keasy m.
  Hypothesis VM : forall a b, kmul (V a) (V b) = V (a + b).
  Hypothesis VC : forall a, kconj (V a) = V (- a).
  Hypothesis VF : forall a, kfrobf gf (V a) = V (a * q381).
  Hypothesis VS : forall a, kusqr (V a) = V (a + a).
  Lemma powV l E a y e v i0 : fp12R l E (V a) y -> 1 <= l <= 31 -> E <= KB -> rep 7 e v -> 1 <= v -> 3 * v < 2 ^ 406 ->
    neg_only v i0 = true -> i0 + 1 < bitlen (3 * v) -> ok (fp12_pow y e) (fp12C (V (a * v))).
  Proof.
    intros Y L HE RE V0 VB NEG I0.
    apply (fp12_pow_gen (V a) (fun b => V (a * b))) with (l := l) (E := E) (i0 := i0); auto.
    - f_equal. ring.
    - intros b. rewrite VS. f_equal. ring.
    - intros b. rewrite VM. f_equal. ring.
    - intros b. rewrite VC, VM. f_equal. ring.
    - apply neg_only_ok. exact NEG.
  Qed.
  Lemma pow_bnx l E a y : fp12R l E (V a) y -> 1 <= l <= 31 -> E <= KB -> ok (fp12_pow y CURVE_BNX) (fp12C (V (a * bnx))).
  Proof.
    intros Y L HE. apply (powV l E a y CURVE_BNX bnx 63); [exact Y|exact L|exact HE|exact bnx_rep|unfold bnx; lia|unfold bnx; lia|exact bnx_neg|reflexivity].
  Qed.
  Lemma pow_half l E a y : fp12R l E (V a) y -> 1 <= l <= 31 -> E <= KB -> ok (fp12_pow y (big_fshr CURVE_BNX 1)) (fp12C (V (a * (bnx / 2)))).
  Proof.
    intros Y L HE. apply (powV l E a y (big_fshr CURVE_BNX 1) (bnx / 2) 62); [exact Y|exact L|exact HE|exact half_rep| | |exact half_neg|reflexivity];
      (change (bnx / 2) with 7566188111470821376; lia).
  Qed.
  Ltac vstep :=
    match goal with
    | |- ok (bind (fp12_mul _ _) _) _ => eapply ok_bind; [eapply fp12_mul_ok; [eassumption|eassumption|lia..]|]
    | |- ok (bind (fp12_conj _) _) _ => eapply ok_bind; [eapply fp12_conj_ok; [eassumption|lia..]|]
    | |- ok (bind (fp12_frob _ _) _) _ => eapply ok_bind; [eapply fp12_frob_ok; [eassumption|eassumption|lia..]|]
    | |- ok (bind (fp12_pow _ CURVE_BNX) _) _ => eapply ok_bind; [eapply pow_bnx; [eassumption|lia..]|]
    | |- ok (bind (fp12_pow _ (big_fshr CURVE_BNX 1)) _) _ => eapply ok_bind; [eapply pow_half; [eassumption|lia..]|]
    | |- ok (bind (fp12_usqr _) _) _ => eapply ok_bind; [eapply fp12_usqr_ok; [eassumption|lia..]|]
    end; let r := fresh "r" in let R := fresh "R" in intros r R;
    try (apply fp12C_R in R); rewrite ?VM, ?VC, ?VF, ?VS in R.
  Lemma fexp_gen l E a : fp12R l E m a -> 1 <= l <= 8 -> E <= 100000 -> ok (fexp a) (fp12C (V fexpo)).
  Proof.
    intros A L HE. pose proof (fp12R_pos _ _ _ _ A) as EP. assert (KBv : KB = 8192) by reflexivity. unfold fexp.
    eapply ok_bind; [exact gf_const|]. intros f F. cbv zeta. rewrite half_back.
    eapply ok_bind; [eapply fp12_inverse_ok; [exact A|lia|lia]|]. intros lv LV.
    eapply ok_bind; [eapply fp12_conj_ok; [exact A|lia..]|]. intros r1 R1.
    eapply ok_bind; [eapply fp12_mul_ok; [exact R1|exact LV|lia..]|]. intros r2 R2.
    eapply ok_bind; [eapply fp12_frob_ok; [exact R2|exact F|lia..]|]. intros r3 R3.
    eapply ok_bind; [eapply fp12_frob_ok; [exact R3|exact F|lia..]|]. intros r4 R4.
    eapply ok_bind; [eapply fp12_mul_ok; [exact R4|exact R2|lia..]|]. intros r5 R5.
    assert (EA : kmul (kfrobf gf (kfrobf gf (kmul (kconj m) (kinv m)))) (kmul (kconj m) (kinv m)) = V 1).
    { rewrite V1. unfold keasy. cbv zeta. rewrite (kfrob2_ok gf gc gc_norm gc_root). reflexivity. }
    rewrite EA in R5. clear R1 R2 R3 R4 LV A EA.
    repeat vstep.
    match goal with R : fp12R _ _ (V ?e) ?y |- ok (fp12_reduce ?y) _ => replace fexpo with e end.
    - eapply fp12_reduce_ok; [eassumption|lia|lia].
    - unfold fexpo. cbv zeta. generalize bnx, (bnx / 2), q381. intros x h q. ring.
  Qed.
End Fexp.

Definition finexp : Z := 3 * ((q381 ^ 12 - 1) / r255).
Lemma fexpo_3 : fexpo = 3 * (fexpo / 3). Proof. vm_compute. reflexivity. Qed.
Lemma fexpo_r : (fexpo / 3) * r255 = cn. Proof. vm_compute. reflexivity. Qed.
Lemma fexpo_pos : 0 < fexpo / 3. Proof. vm_compute. reflexivity. Qed.
Lemma q12_split : q381 ^ 12 - 1 = (q2 * q2 * q2 - 1) * (q2 + 1) * cn.
Proof.
  rewrite cn_q2. assert (E : q381 ^ 12 = q2 * q2 * q2 * (q2 * q2 * q2)).
  { Transparent q2. unfold q2. Opaque q2. generalize q381. intros q. ring. }
  rewrite E. ring.
Qed.
#[global] Opaque fexpo.
Lemma finexp_eq : finexp = (q2 * q2 * q2 - 1) * (q2 + 1) * fexpo.
Proof.
  unfold finexp. rewrite q12_split, <- fexpo_r. rewrite Z.mul_assoc, Z.div_mul by (vm_compute; discriminate).
  rewrite fexpo_3 at 2. ring.
Qed.
Lemma finexp_pos : 0 < finexp.
Proof. rewrite finexp_eq. pose proof q2_gt1. pose proof fexpo_3. pose proof fexpo_pos. assert (1 < q2 * q2 * q2) by nia.
  apply Z.mul_pos_pos; [|lia]. apply Z.mul_pos_pos; lia. Qed.
Lemma zp_finexp m : m <> k0 -> zp (keasy m) fexpo = kpw m finexp.
Proof.
  intros N. pose proof fexpo_3. pose proof fexpo_pos. rewrite (zp_pw (keasy m) fexpo (keasy_cyc m N)) by lia.
  rewrite (keasy_pw m N), finexp_eq. pose proof q2_gt1. assert (1 < q2 * q2 * q2) by nia. symmetry. apply kpw_mul; [nia|lia].
Qed.
Lemma keasy_0 : keasy k0 = k0.
Proof.
  unfold keasy. cbv zeta. assert (E : kinv k0 = k0).
  { unfold kinv, kscale, kcof, k0. cbn [ka kb kc]. generalize (hinv (knorm (mk12 h0 h0 h0))). intros h. apply f_equal3; ring. }
  rewrite E. ring.
Qed.
Lemma kconj_0 : kconj k0 = k0.
Proof. rewrite <- (kconj_pw k0). pose proof q2_gt1. apply kpw_zero. nia. Qed.
Lemma kusqr_0 : kusqr k0 = k0.
Proof.
  unfold kusqr, h3, k0. cbn [ka kb kc]. assert (E : hconj h0 = h0) by (unfold hconj, h0; cbn [fst snd]; f_equal; ring).
  rewrite E. apply f_equal3; ring.
Qed.
Lemma fexp_ok l E m a : fp12R l E m a -> 1 <= l <= 8 -> E <= 100000 -> ok (fexp a) (fp12C (kpw m finexp)).
Proof.
  intros A L HE. destruct (Fq12_dec m k0) as [->|N].
  - rewrite (kpw_zero finexp finexp_pos).
    refine (fexp_gen k0 (fun _ => k0) _ _ _ _ _ l E a A L HE).
    + symmetry. exact keasy_0.
    + intros. ring.
    + intros. exact kconj_0.
    + intros. change (kfrob k0 = k0). rewrite (kfrob_pw k0). apply kpw_zero. exact q381_pos.
    + intros. exact kusqr_0.
  - rewrite <- (zp_finexp m N). pose proof (keasy_cyc m N) as CZ.
    refine (fexp_gen m (zp (keasy m)) _ _ _ _ _ l E a A L HE).
    + exact (zp_1 _ CZ).
    + intros. apply zp_mul. exact CZ.
    + intros. apply zp_conj. exact CZ.
    + intros. exact (zp_frob _ _ CZ).
    + intros b. rewrite (kusqr_ok _ (zp_cyc _ b CZ)). apply zp_mul. exact CZ.
Qed.
