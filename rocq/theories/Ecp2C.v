(* G2 constructors and byte codec: what compress_g2 / decompress_g2 compute. *)
From Coq Require Import ZArith List Bool Lia Znumtheory Field.
From Verif Require Import Prim Rom Big Fp Fp2 Ecp Ecp2 Utils Api PrimP BigP BigP2 SpecBytes BigP3 BigP4 BigP5 NumT FieldQ FieldQ2 FpP FpP2
  SpecCurve CurveP GroupP JacobiM JacP Fp2P Sqrt2P WinP EcpP Ecp2P EcpC.
Import ListNotations.
Open Scope Z_scope.

Lemma gq_integral x y : gmul x y = g0 -> x = g0 \/ y = g0.
Proof.
  intros H. destruct (Fq2_dec x g0) as [->|X]; [left; reflexivity|right].
  transitivity (gmul (ginv x) (gmul x y)); [field; exact X|]. rewrite H. ring.
Qed.
Lemma gsub_eq0 x y : gsub x y = g0 -> x = y.
Proof. intros H. transitivity (gadd (gsub x y) y); [ring|]. rewrite H. ring. Qed.
Definition rhs2 (x : Fq2) : Fq2 := gadd (gmul (gmul x x) x) gb.
Lemma rhs2_nz x : rhs2 x <> g0. Proof. apply gb_noroot. Qed.
Lemma on2_rhs x y : on2 (Aff x y) <-> gmul y y = rhs2 x. Proof. reflexivity. Qed.
Lemma on2_y x y : on2 (Aff x y) -> y <> g0.
Proof. intros H ->. apply on2_rhs in H. apply (rhs2_nz x). rewrite <- H. ring. Qed.
Lemma on2_two x y z : on2 (Aff x y) -> on2 (Aff x z) -> z = y \/ z = gopp y.
Proof.
  intros H1 H2. apply on2_rhs in H1, H2. assert (P : gmul (gsub z y) (gsub z (gopp y)) = g0).
  { assert (E : gmul (gsub z y) (gsub z (gopp y)) = gsub (gmul z z) (gmul y y)) by ring. rewrite E, H1, H2. ring. }
  apply gq_integral in P. destruct P as [P|P]; [left|right]; apply gsub_eq0; exact P.
Qed.
Lemma gb_mul_ip : gmul gi1 (mkq 4, f0) = gb.
Proof. unfold gmul, gi1, gb. cbn [fst snd]. f_equal; ring. Qed.
Lemma ecp2_rhs_ok l E x a : fp2R l E x a -> 1 <= l <= 31 -> E <= 8388608 ->
  ok (ecp2_rhs a) (fun '(r, x') => fp2C (rhs2 x) r /\ fp2R 1 E x x').
Proof.
  intros A L HE. unfold ecp2_rhs. assert (E1 : 1 <= E) by (destruct A as ((_ & _ & _ & A & _) & _); lia).
  eapply ok_bind; [apply (fp2_norm_ok l E x a A); lia|]. intros x' X.
  eapply ok_bind; [apply (fp2_sqr_ok 1 E x x' X); lia|]. intros r R.
  unfold fp_new_big. eapply ok_bind; [apply (fp_nres_ok CURVE_B 4 curve_b_rep)|]. intros b B. cbv zeta.
  assert (B0 : fp2R 1 2 (mkq 4, f0) (mkFP2 b fp_new)).
  { split; [exact B|]. eapply fpR_weak; [apply fp_new_ok|lia|lia]. }
  eapply ok_bind; [apply (fp2_norm_ok 1 2 _ _ B0); lia|]. intros b1 B1.
  eapply ok_bind; [apply (fp2_mul_ip_ok 1 2 _ _ B1); lia|]. intros b2 B2. rewrite gb_mul_ip in B2.
  eapply ok_bind; [eapply fp2_norm_ok; [exact B2|lia|lia]|]. intros b3 B3.
  eapply ok_bind; [apply (fp2_mul_ok 1 1 2 E _ _ r x' R X); lia|]. intros s S1.
  eapply ok_bind; [eapply fp2_add_ok; [exact S1|exact B3|lia..]|]. intros t T.
  eapply ok_bind; [eapply fp2_reduce_ok; [exact T|lia|lia]|]. intros u U. cbn [ok]. split; [exact U|exact X].
Qed.

(* a freshly built affine point: z = 1 *)
Definition ecp2F (E : Z) (x y : Fq2) (a : ECP2) : Prop := fp2R 1 E x (e2x a) /\ fp2R 1 E y (e2y a) /\ fp2R 1 2 g1 (e2z a).
Lemma ecp2F_R E x y a : 2 <= E -> on2 (Aff x y) -> ecp2F E x y a -> ecp2R 1 E (Aff x y) a.
Proof.
  intros HE ON (A & B & C). apply ecp2A_R. split; [exact ON|]. split; [exact A|]. split; [exact B|]. eapply fp2R_weak; [exact C|lia|lia].
Qed.
Lemma ecp2_new_fp2s_ok l m E F x y ix iy : fp2R l E x ix -> fp2R m F y iy -> 1 <= l <= 31 -> 1 <= m <= 8 -> E <= 8388608 -> F <= 8388608 ->
  ok (ecp2_new_fp2s ix iy) (fun a =>
    (on2 (Aff x y) -> fp2R 1 E x (e2x a) /\ e2y a = iy /\ fp2R 1 2 g1 (e2z a)) /\
    (~ on2 (Aff x y) -> ecp2R 1 2 Inf a)).
Proof.
  intros X Y L M HE HF. unfold ecp2_new_fp2s. assert (F1 : 1 <= F) by (destruct Y as ((_ & _ & _ & Y & _) & _); lia).
  eapply ok_bind; [apply fp2_one_ok|]. intros z Z1.
  eapply ok_bind; [apply (ecp2_rhs_ok l E _ ix X); lia|]. intros [r x'] (R & X'). apply fp2C_R in R.
  eapply ok_bind; [apply (fp2_sqr_ok m F _ iy Y); lia|]. intros y2 Y2.
  eapply ok_bind; [eapply fp2_equals_ok; [exact Y2|exact R|lia..]|]. intros [[e p1] p2] (EX & _ & _).
  destruct e; cbn [negb].
  - cbn [ok]. destruct EX as [EX _]. specialize (EX eq_refl). split; [|intros C; contradiction].
    intros _. split; [exact X'|]. split; [reflexivity|exact Z1].
  - pose proof ecp2_inf_ok as IO. destruct ecp2_inf as [a|]; [|exact IO]. cbn [ok] in *.
    split; [intros C; apply EX in C; discriminate|]. intros _. exact IO.
Qed.
(* decompression of x: a point iff the square root routine finds one *)
Lemma ecp2_new_fp2_ok l E x ix : fp2R l E x ix -> 1 <= l <= 31 -> E <= 8388608 ->
  ok (ecp2_new_fp2 ix) (fun a =>
    (root_like (rhs2 x) -> exists y, on2 (Aff x y) /\ fp2R 1 E x (e2x a) /\ fp2R 1 2 y (e2y a) /\ fp2R 1 2 g1 (e2z a) /\
      is_sq (fst y) /\ (snd y = f0 -> lval (fx (f2b (e2y a))) = 0)) /\
    (~ root_like (rhs2 x) -> ecp2R 1 2 Inf a) /\ (root_like (rhs2 x) \/ ~ root_like (rhs2 x))).
Proof.
  intros X L HE. unfold ecp2_new_fp2.
  eapply ok_bind; [apply fp2_one_ok|]. intros z Z1.
  eapply ok_bind; [apply (ecp2_rhs_ok l E _ ix X); lia|]. intros [r x'] (R & X'). apply fp2C_R in R.
  eapply ok_bind; [eapply fp2_sqrt_ok; [exact R|lia|lia]|]. intros [s y] (S1 & S2 & S3). destruct s.
  - cbn [ok]. destruct (S1 eq_refl) as (v & V & VV & VS & VZ). split; [|split].
    + intros _. exists v. split; [exact VV|]. split; [exact X'|]. split; [exact V|]. split; [exact Z1|]. split; [exact VS|exact VZ].
    + intros C. exfalso. apply C, S3. reflexivity.
    + left. apply S3. reflexivity.
  - pose proof ecp2_inf_ok as IO. destruct ecp2_inf as [a|]; [|exact IO]. cbn [ok] in *.
    split; [intros C; apply S3 in C; discriminate|]. split; [intros _; exact IO|]. right. intros C. apply S3 in C. discriminate.
Qed.

(* normalising a point with z = 1 does not touch its coordinates *)
Lemma ecp2_affine_A l E x y a : ecp2A l E (Aff x y) a -> 1 <= l <= 8 -> 2 <= E <= 33554432 ->
  ok (ecp2_affine a) (fun a' => e2x a' = e2x a /\ e2y a' = e2y a /\ fp2R l E g1 (e2z a')).
Proof.
  intros H HL HE. pose proof (ecp2A_R l E _ a H) as R. destruct H as (ON & A & B & C). unfold ecp2_affine.
  eapply ok_bind; [eapply (ecp2_is_infinity_ok l E); [exact R|lia|lia]|]. intros b I. destruct b.
  { destruct I as [I _]. discriminate (I eq_refl). }
  eapply ok_bind; [apply (fp2_new_int_ok 1); lia|]. intros o O1.
  eapply ok_bind; [eapply fp2_equals_ok; [exact C|exact O1|lia..]|]. intros [[e z] o'] (EX & Z1 & _).
  destruct e; [|destruct EX as [_ EX]; discriminate (EX eq_refl)].
  cbn [ok e2x e2y e2z]. split; [reflexivity|]. split; [reflexivity|exact Z1].
Qed.

(* ------------------------- compression ------------------------------- *)
Lemma ecp2_tobytes_ok l E x y a : ecp2R l E (Aff x y) a -> 1 <= l <= 8 -> 2 <= E <= 33554432 ->
  ok (ecp2_tobytes a) (fun '(bs, a') => (ecp2A l E (Aff x y) a' /\ ecp2_affine a = Some a') /\
    bs = be_bytes 48 (rval (fst x) (f2a (e2x a'))) ++ be_bytes 48 (rval (snd x) (f2b (e2x a'))) ++
         be_bytes 48 (rval (fst y) (f2a (e2y a'))) ++ be_bytes 48 (rval (snd y) (f2b (e2y a')))).
Proof.
  intros H L HE. unfold ecp2_tobytes, fp2_geta, fp2_getb.
  eapply ok_bind; [apply ok_eq; eapply ecp2_affine_ok; [exact H|lia|lia]|]. intros a' A'. pose proof A' as ((_ & [AX AX'] & [AY AY'] & AZ) & _).
  eapply ok_bind; [apply (fp_redc_exact l E _ _ AX); lia|]. intros w0 W0. rewrite (big_tobytes_rep _ _ W0). cbn [bind].
  eapply ok_bind; [apply (fp_redc_exact l E _ _ AX'); lia|]. intros w1 W1. rewrite (big_tobytes_rep _ _ W1). cbn [bind].
  eapply ok_bind; [apply (fp_redc_exact l E _ _ AY); lia|]. intros w2 W2. rewrite (big_tobytes_rep _ _ W2). cbn [bind].
  eapply ok_bind; [apply (fp_redc_exact l E _ _ AY'); lia|]. intros w3 W3. rewrite (big_tobytes_rep _ _ W3). cbn [bind ok].
  split; [exact A'|reflexivity].
Qed.
Definition g2_inf_bytes : list Z := be_bytes 96 (2 ^ 767 + 2 ^ 766).
Lemma skipn_add {A} n m (l : list A) : skipn (n + m) l = skipn m (skipn n l).
Proof. revert l. induction n as [|n IH]; intros l; [reflexivity|]. destruct l as [|x l]; [rewrite !skipn_nil; reflexivity|]. cbn [Nat.add skipn]. apply IH. Qed.
Lemma compress_g2_ok l E p a : ecp2R l E p a -> 1 <= l <= 8 -> 2 <= E <= 33554432 ->
  ok (compress_g2 a) (fun '(bs, a') => match p with
    | Inf => bs = g2_inf_bytes /\ a' = a
    | Aff x y => (ecp2A l E p a' /\ ecp2_affine a = Some a') /\
        bs = be_bytes 48 (rval (snd x) (f2b (e2x a')) + a_flag_code (rval (snd y) (f2b (e2y a'))) * 2 ^ 381 + 2 ^ 383) ++
             be_bytes 48 (rval (fst x) (f2a (e2x a')))
    end).
Proof.
  intros H L HE. unfold compress_g2.
  eapply ok_bind; [eapply (ecp2_is_infinity_ok l E); [exact H|lia|lia]|]. intros b B. destruct b.
  - destruct B as [B _]. rewrite (B eq_refl). cbn [ok]. split; [vm_compute; reflexivity|reflexivity].
  - destruct p as [|x y]; [destruct B as [_ B]; discriminate (B eq_refl)|]. clear B.
    eapply ok_bind; [apply (ecp2_tobytes_ok l E x y a H L HE)|]. intros [bs a'] [A' ->].
    set (b0 := be_bytes 48 (rval (fst x) (f2a (e2x a')))). set (b1 := be_bytes 48 (rval (snd x) (f2b (e2x a')))).
    set (b2 := be_bytes 48 (rval (fst y) (f2a (e2y a')))). set (n3 := rval (snd y) (f2b (e2y a'))).
    change 144%nat with (48 + (48 + 48))%nat. rewrite !skipn_add.
    rewrite !(skipn_app_len b0) by apply be_bytes_length. rewrite !(skipn_app_len b1), !(skipn_app_len b2) by apply be_bytes_length.
    rewrite !firstn_app_len by apply be_bytes_length.
    eapply ok_bind; [apply frombytes_rep; [apply be_bytes_bytes|apply be_bytes_length]|]. intros w W.
    pose proof q381_b381 as QB. pose proof (rval_range (snd y) (f2b (e2y a'))) as RY. fold n3 in RY. rewrite be_int_48 in W by lia.
    rewrite (calc_a_flag_ok w n3 W) by lia. cbn [bind].
    pose proof (rval_range (snd x) (f2b (e2x a'))) as RX.
    unfold b1. rewrite (set_flags_ok (rval (snd x) (f2b (e2x a'))) (a_flag_code n3) 95 ltac:(lia) (a_flag_01 _) ltac:(lia) b0 (be_bytes_length _ _)).
    cbn [bind ok]. split; [exact A'|reflexivity].
Qed.

(* ------------------------- decompression ------------------------------ *)
Lemma decompress_g2_len bs : length bs <> 96%nat -> decompress_g2 bs = Some (Err IncorrectSize).
Proof. intros L. unfold decompress_g2. apply Nat.eqb_neq in L. rewrite L. reflexivity. Qed.
(* the root s with a square real part is used when the flag of its imaginary part is
   the wanted one, its negative otherwise *)
Definition dec_y2 (s : Fq2) (f : Z) : Fq2 := if a_flag_code (fv (snd s)) =? f then s else gopp s.
Lemma decompress_g2_ok bs v w x : bytes bs -> length bs = 96%nat -> v = be_int (firstn 48 bs) -> w = be_int (skipn 48 bs) ->
  x = (mkq w, mkq (v mod 2 ^ 381)) ->
  ok (decompress_g2 bs) (fun r =>
    (v / 2 ^ 383 <> 1 -> r = Err InvalidCFlag) /\
    (v / 2 ^ 383 = 1 -> (v / 2 ^ 382) mod 2 = 1 -> ~ (v mod 2 ^ 382 = 0 /\ w = 0) -> r = Err BadPoint) /\
    (v / 2 ^ 383 = 1 -> (v / 2 ^ 382) mod 2 = 1 -> v mod 2 ^ 382 = 0 /\ w = 0 -> exists a, r = Ok a /\ ecp2R 1 2 Inf a) /\
    (v / 2 ^ 383 = 1 -> (v / 2 ^ 382) mod 2 <> 1 -> ~ root_like (rhs2 x) -> r = Err BadPoint) /\
    (v / 2 ^ 383 = 1 -> (v / 2 ^ 382) mod 2 <> 1 -> root_like (rhs2 x) -> exists a s, r = Ok a /\
       on2 (Aff x s) /\ is_sq (fst s) /\ ecp2F 9 x (dec_y2 s ((v / 2 ^ 381) mod 2)) a) /\
    (root_like (rhs2 x) \/ ~ root_like (rhs2 x))).
Proof.
  intros B L V W X. assert (DX : root_like (rhs2 x) \/ ~ root_like (rhs2 x)).
  { assert (RX : exists a, fp2R 1 2 x a).
    { assert (N0 : forall u, exists c, fpR 1 2 u c).
      { intros u. pose proof (fp_nres_ok) as N. pose proof (fv_range u) as FR. pose proof q381_lt as QL.
        pose proof (frombytes_rep (be_bytes 48 (fv u)) (be_bytes_bytes _ _) (be_bytes_length _ _)) as FB.
        destruct (big_frombytes (be_bytes 48 (fv u))) as [c|]; [|contradiction]. cbn [ok] in FB. rewrite be_int_48 in FB by lia.
        specialize (N c _ FB). destruct (fp_nres c) as [d|]; [|contradiction]. exists d. cbn [ok] in N. rewrite mkq_fv in N. exact N. }
      destruct (N0 (fst x)) as [c C], (N0 (snd x)) as [d D]. exists (mkFP2 c d). split; assumption. }
    destruct RX as [a RX]. pose proof (ecp2_new_fp2_ok 1 2 x a RX ltac:(lia) ltac:(lia)) as N.
    destruct (ecp2_new_fp2 a); [|contradiction]. apply N. }
  unfold decompress_g2. rewrite L. change (negb (96 =? 96)%nat) with false. cbv iota.
  destruct bs as [|b0 tl]; [discriminate L|]. pose proof B as B'. apply Forall_cons_iff in B'. destruct B' as [B0 BT].
  cbn [length] in L. assert (LT : length tl = 95%nat) by lia.
  change (firstn 48 (b0 :: tl)) with (b0 :: firstn 47 tl) in V. change (skipn 48 (b0 :: tl)) with (skipn 47 tl) in W.
  assert (BF : bytes (firstn 47 tl)) by (apply bytes_firstn; exact BT). assert (BS : bytes (skipn 47 tl)) by (apply bytes_skipn; exact BT).
  assert (LF : length (firstn 47 tl) = 47%nat) by (rewrite firstn_length; lia).
  assert (LS : length (skipn 47 tl) = 48%nat) by (rewrite skipn_length; lia).
  pose proof (be_int_range _ BF) as RF. rewrite LF in RF. change (256 ^ Z.of_nat 47) with (2 ^ 376) in RF.
  pose proof (be_int_range _ BS) as RS. rewrite <- W in RS.
  assert (VE : v = b0 * 2 ^ 376 + be_int (firstn 47 tl)) by (rewrite V, be_int_cons, LF; reflexivity).
  pose proof (flags_arith 376 b0 _ ltac:(lia) B0 RF) as FA. cbv zeta in FA. rewrite <- VE in FA.
  change (376 + 7) with 383 in FA. change (376 + 6) with 382 in FA. change (376 + 5) with 381 in FA.
  destruct FA as (F1 & F2 & F3 & F4 & F5). cbv zeta. rewrite F1, F2, F3.
  destruct (Z.eqb_spec (v / 2 ^ 383) 1) as [C1|C1]; cbn [negb ok].
  2:{ split; [reflexivity|]. split; [intros; contradiction|]. split; [intros; contradiction|]. split; [intros; contradiction|]. split; [intros; contradiction|exact DX]. }
  destruct (Z.eqb_spec ((v / 2 ^ 382) mod 2) 1) as [C2|C2].
  - assert (ZT : (v mod 2 ^ 382 = 0 /\ w = 0) <-> b0 mod 64 = 0 /\ be_int tl = 0).
    { assert (TE : be_int tl = be_int (firstn 47 tl) * 256 ^ Z.of_nat 48 + w).
      { rewrite <- (firstn_skipn 47 tl) at 1. rewrite be_int_app, LS, <- W. reflexivity. }
      rewrite TE, <- F5. change (256 ^ Z.of_nat 48) with (2 ^ 384). clear -RF RS B0. pose proof (Z.mod_pos_bound b0 64 ltac:(lia)).
      split; intros [H1 H2]; lia. }
    destruct (Z.eqb_spec (b0 mod 64) 0) as [C3|C3]; cbn [negb ok].
    2:{ split; [intros; contradiction|]. split; [reflexivity|]. split; [intros _ _ G; apply ZT in G; lia|].
        split; [intros; contradiction|]. split; [intros; contradiction|exact DX]. }
    pose proof (be_int_zero tl BT) as BZ. destruct (forallb (fun b => b =? 0) tl); cbn [negb ok].
    + eapply ok_bind; [apply ecp2_new_ok|]. intros a A. cbn [ok]. split; [intros; contradiction|].
      split; [intros _ _ G; exfalso; apply G, ZT; split; [assumption|apply BZ; reflexivity]|].
      split; [intros; exists a; split; [reflexivity|exact A]|]. split; [intros; contradiction|]. split; [intros; contradiction|exact DX].
    + split; [intros; contradiction|]. split; [reflexivity|]. split; [|split; [intros; contradiction|split; [intros; contradiction|exact DX]]].
      intros _ _ G. apply ZT in G. destruct G as [_ G]. apply BZ in G. discriminate.
  - change (firstn 48 (b0 mod 32 :: tl)) with (b0 mod 32 :: firstn 47 tl). change (skipn 48 (b0 mod 32 :: tl)) with (skipn 47 tl).
    assert (BM : bytes (b0 mod 32 :: firstn 47 tl)) by (apply Forall_cons; [pose proof (Z.mod_pos_bound b0 32 ltac:(lia)); lia|exact BF]).
    eapply ok_bind; [apply frombytes_rep; [exact BM|cbn [length]; lia]|]. intros wi WI.
    rewrite be_int_cons, LF in WI. change (256 ^ Z.of_nat 47) with (2 ^ 376) in WI. rewrite F4 in WI.
    eapply ok_bind; [apply frombytes_rep; [exact BS|exact LS]|]. intros wr WR. rewrite <- W in WR.
    eapply ok_bind; [apply (fp2_new_bigs_ok _ _ _ _ WR WI)|]. intros xx XX. rewrite <- X in XX.
    eapply ok_bind; [apply (ecp2_new_fp2_ok 1 2 x xx XX); lia|]. intros a (A1 & A2 & _).
    destruct DX as [SQ|NS].
    + destruct (A1 SQ) as (s & ON & AX & AY & AZ & SS & SZ). 
      assert (AA : ecp2A 1 2 (Aff x s) a) by (split; [exact ON|split; [exact AX|split; [exact AY|exact AZ]]]).
      eapply ok_bind; [eapply (ecp2_is_infinity_ok 1 2); [apply ecp2A_R; exact AA|lia|lia]|].
      intros b I. destruct b; [destruct I as [I _]; discriminate (I eq_refl)|].
      unfold ecp2_gety. rewrite bind_assoc.
      eapply ok_bind; [eapply (ecp2_affine_A 1 2); [exact AA|lia|lia]|]. intros a' (E1 & E2 & E3). cbn [bind].
      rewrite <- E1 in AX. rewrite <- E2 in AY. unfold fp2_getb.
      eapply ok_bind; [apply (fp_redc_exact 1 2 _ _ (proj2 AY)); lia|]. intros wy WY.
      rewrite <- E2 in SZ. assert (NE : rval (snd s) (f2b (e2y a')) = fv (snd s)).
      { unfold rval. destruct (Fq_dec (snd s) f0) as [Z0|Z0]; [|reflexivity]. rewrite (SZ Z0), Z0, fv_f0. reflexivity. }
      rewrite NE in WY. set (n := fv (snd s)) in *. assert (NR : 0 <= n < q381) by apply fv_range.
      pose proof q381_b381 as QB. rewrite (calc_a_flag_ok wy _ WY) by lia. cbn [bind].
      set (f := (v / 2 ^ 381) mod 2) in *.
      assert (CONC : forall a2, ecp2F 9 x (dec_y2 s f) a2 -> ok (Some (Ok a2)) (fun r =>
        (v / 2 ^ 383 <> 1 -> r = Err InvalidCFlag) /\
        (v / 2 ^ 383 = 1 -> (v / 2 ^ 382) mod 2 = 1 -> ~ (v mod 2 ^ 382 = 0 /\ w = 0) -> r = Err BadPoint) /\
        (v / 2 ^ 383 = 1 -> (v / 2 ^ 382) mod 2 = 1 -> v mod 2 ^ 382 = 0 /\ w = 0 -> exists a, r = Ok a /\ ecp2R 1 2 Inf a) /\
        (v / 2 ^ 383 = 1 -> (v / 2 ^ 382) mod 2 <> 1 -> ~ root_like (rhs2 x) -> r = Err BadPoint) /\
        (v / 2 ^ 383 = 1 -> (v / 2 ^ 382) mod 2 <> 1 -> root_like (rhs2 x) -> exists a s, r = Ok a /\
           on2 (Aff x s) /\ is_sq (fst s) /\ ecp2F 9 x (dec_y2 s f) a) /\
        (root_like (rhs2 x) \/ ~ root_like (rhs2 x)))).
      { intros a2 F. cbn [ok]. split; [intros; contradiction|]. split; [intros; contradiction|]. split; [intros; contradiction|].
        split; [intros; contradiction|]. split; [|left; exact SQ]. intros _ _ _. exists a2, s.
        split; [reflexivity|]. split; [exact ON|]. split; [exact SS|exact F]. }
      unfold dec_y2 in CONC. fold n in CONC.
      destruct (Z.eqb_spec (a_flag_code n) f) as [FE|FE]; cbn [negb].
      * apply CONC. split; [eapply fp2R_weak; [exact AX|lia|lia]|]. split; [eapply fp2R_weak; [exact AY|lia|lia]|exact E3].
      * unfold ecp2_neg. rewrite !bind_assoc. eapply ok_bind; [apply (fp2_norm_ok 1 2 _ _ AY); lia|]. intros my MY.
        rewrite ?bind_assoc. eapply ok_bind; [apply (fp2_neg_ok 1 2 _ _ MY); lia|]. intros ny NY.
        rewrite ?bind_assoc. eapply ok_bind; [eapply fp2_norm_ok; [exact NY|lia|lia]|]. intros nn NN. cbn [bind].
        apply CONC. split; [cbn [e2x]; eapply fp2R_weak; [exact AX|lia|lia]|].
        split; [cbn [e2y]; eapply fp2R_weak; [exact NN|lia|lia]|exact E3].
    + pose proof (A2 NS) as AI. eapply ok_bind; [eapply (ecp2_is_infinity_ok 1 2); [exact AI|lia|lia]|].
      intros b I. destruct b; [|destruct I as [_ I]; discriminate (I eq_refl)]. cbn [ok].
      split; [intros; contradiction|]. split; [intros; contradiction|]. split; [intros; contradiction|].
      split; [reflexivity|]. split; [intros; contradiction|right; exact NS].
Qed.
