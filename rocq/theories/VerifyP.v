(* Verification: the pairing check against the pairing equation, for everything the
   public interface can produce. *)
From Coq Require Import ZArith List Bool Lia Znumtheory Permutation Field.
From Verif Require Import Prim Rom Big Fp Fp2 Fp4 Fp12 Ecp Ecp2 Pair Utils Api PrimP BigP BigP2 SpecBytes BigP3 BigP4 BigP5 NumT FieldQ FieldQ2 FpP FpP2
  SkP SpecCurve CurveP GroupP JacobiM JacP Fp2P Sqrt2P WinP EcpP EcpC Ecp2P Denote GenP KeysP KeysP2 KeysP3 BigL LayerP Ecp2C MapP SigsP SigsP2
  Tower TowerP NafP FexpP Fp4P Fp12P SpecPairing LineP PairP PairP2 PairP3 MillerP MillerP2 MillerP3 PsiP BilinP TwistP.
Import ListNotations.
Open Scope Z_scope.

(* ------------------------- order r ------------------------------------ *)
Lemma bez2 k l p : on2 p -> zm2 k p = Inf -> zm2 l p = Inf -> Z.gcd k l = 1 -> p = Inf.
Proof.
  intros O K L G. destruct (Z.gcd_bezout k l 1 G) as (u & v & E).
  rewrite <- (zm2_1 p), <- E, (zm2_add _ _ p O), (zm2_mul u k p O), (zm2_mul v l p O), K, L, !zm2_zero. reflexivity.
Qed.
Lemma bez1 k l p : on1 p -> zm1 k p = Inf -> zm1 l p = Inf -> Z.gcd k l = 1 -> p = Inf.
Proof.
  intros O K L G. destruct (Z.gcd_bezout k l 1 G) as (u & v & E).
  rewrite <- (zm1_1 p), <- E, (zm1_add _ _ p O), (zm1_mul u k p O), (zm1_mul v l p O), K, L, !zm1_zero. reflexivity.
Qed.
Lemma pow71_r : 2 ^ 71 < r255. Proof. vm_compute. reflexivity. Qed.
Lemma gcd_r m : 0 < m < r255 -> Z.gcd m r255 = 1.
Proof. intros M. apply Zgcd_1_rel_prime, rel_prime_le_prime; [exact r255_prime|lia]. Qed.
Lemma pt_inf (p : pt2) : p = Inf \/ p <> Inf.
Proof. destruct p; [left; reflexivity|right; discriminate]. Qed.
Lemma order_noinf p : on2 p -> zm2 r255 p = Inf -> p = Inf \/ noinf p.
Proof.
  intros O R. destruct (pt_inf p) as [E|N]; [left; exact E|right]. split; [exact O|]. intros m M Z0. apply N.
  apply (bez2 m r255 p O Z0 R), gcd_r. pose proof pow71_r. lia.
Qed.
Lemma eigen_noinf p : eigen p -> p = Inf \/ noinf p.
Proof. intros E. apply order_noinf; [exact (proj1 E)|apply eigen_r, E]. Qed.
(* no point of the twist but infinity is met by the additions of the Miller loop: the
   multiples k in question are prime to the order of the twist *)
Definition coprime_step (i : Z) : bool :=
  let k := dd bnx (i + 1) in
  if sd bnx i =? 1 then Z.gcd (k + k - 1) (h2 * r255) =? 1 else if sd bnx i =? -1 then Z.gcd (k + k + 1) (h2 * r255) =? 1 else true.
Lemma coprime_steps : forallb (fun i => coprime_step (Z.of_nat i)) (seq 1 65) = true.
Proof. vm_compute. reflexivity. Qed.
Lemma step_coprime i : 1 <= i -> i + 1 < bitlen (3 * bnx) -> coprime_step i = true.
Proof.
  intros I B. assert (BL : bitlen (3 * bnx) <= 66) by (vm_compute; discriminate).
  pose proof (proj1 (forallb_forall _ _) coprime_steps (Z.to_nat i)) as H. cbv beta in H. rewrite Z2Nat.id in H by lia. apply H. apply in_seq. lia.
Qed.
Lemma all_safe p : on2 p -> p <> Inf -> safe p.
Proof.
  intros O N. split; [exact O|]. split; [exact N|]. split; intros k (i & I1 & I2 & S1 & ->) H.
  - pose proof (step_coprime i I1 I2) as C. unfold coprime_step in C. rewrite S1 in C. change (1 =? 1) with true in C. cbv iota zeta in C.
    apply Z.eqb_eq in C. apply N. rewrite <- (zm2_1 p) in H at 2. apply (zm2_eq p 1 O) in H. exact (bez2 _ _ p O H (twist_kills p O) C).
  - pose proof (step_coprime i I1 I2) as C. unfold coprime_step in C. rewrite S1 in C. change (-1 =? 1) with false in C. change (-1 =? -1) with true in C.
    cbv iota zeta in C. apply Z.eqb_eq in C. apply N. rewrite <- (zm2_1 p) in H at 2. rewrite <- (zm2_opp 1 p O) in H.
    apply (zm2_eq p (- (1)) O) in H. exact (bez2 _ _ p O H (twist_kills p O) C).
Qed.
Definition pair_ok (p : pt2) (q : pt1) : Prop := p = Inf \/ (safe p /\ (q = Inf -> noinf p)).
Lemma aff_ok p x y : on2 p -> pair_ok p (Aff x y).
Proof. intros O. destruct (pt_inf p) as [E|N]; [left; exact E|right]. split; [exact (all_safe p O N)|discriminate]. Qed.
Lemma gen_ok p : on2 p -> pair_ok p G1gen. Proof. apply aff_ok. Qed.
Lemma eigen_ok p q : eigen p -> pair_ok p q.
Proof.
  intros E. destruct (pt_inf p) as [I|N]; [left; exact I|right]. split; [exact (all_safe p (proj1 E) N)|intros _].
  destruct (eigen_noinf p E) as [C|C]; [contradiction|exact C].
Qed.

(* ------------------------- what verification decides ------------------- *)
(* the combination of points on which the code's pairing is 0 instead of 1 *)
Definition zero_case (H : pt2) (K : pt1) : Prop := H = Inf /\ match K with Inf => True | Aff x _ => x = f0 end.
Lemma epair_gen P : epair P G1gen = pairing P G1gen.
Proof.
  destruct P as [|x y]; [|reflexivity]. transitivity k1; [|symmetry; apply pairing_inf_l, G1gen_on].
  unfold G1gen. cbn [epair]. destruct (Fq_dec (mkq GXZ) f0) as [C|C]; [exfalso; exact (GX_nz C)|reflexivity].
Qed.
Lemma epair_zero H K : zero_case H K -> epair H K = k0.
Proof.
  intros [-> C]. destruct K as [|x y]; [reflexivity|]. cbn [epair]. destruct (Fq_dec x f0) as [D|D]; [reflexivity|contradiction].
Qed.
Lemma epair_regular H K : on1 K -> ~ zero_case H K -> epair H K = pairing H K.
Proof.
  intros O N. destruct H as [|a b]; [|reflexivity]. destruct K as [|x y]; [exfalso; apply N; split; [reflexivity|exact I]|].
  transitivity k1; [|symmetry; apply pairing_inf_l, O]. cbn [epair].
  destruct (Fq_dec x f0) as [D|D]; [exfalso; apply N; split; [reflexivity|exact D]|reflexivity].
Qed.
Lemma zero_case_dec H K : zero_case H K \/ ~ zero_case H K.
Proof.
  destruct H as [|a b]; [|right; intros [C _]; discriminate C]. destruct K as [|x y]; [left; split; [reflexivity|exact I]|].
  destruct (Fq_dec x f0) as [D|D]; [left; split; [reflexivity|exact D]|right; intros [_ C]; contradiction].
Qed.
Lemma epair_eq P H K : on2 P -> on1 K -> (epair P G1gen = epair H K <-> pairing P G1gen = pairing H K /\ ~ zero_case H K).
Proof.
  intros OP OK. rewrite epair_gen. destruct (zero_case_dec H K) as [Z|Z].
  - rewrite (epair_zero H K Z). split; [intros C; exfalso; exact (pairing_nz P G1gen OP G1gen_on C)|intros [_ C]; contradiction].
  - rewrite (epair_regular H K OK Z). split; [intros E; split; assumption|intros [E _]; exact E].
Qed.
Lemma generator_X : ok ecp_generator (ecpX 1 2 G1gen).
Proof.
  unfold ecp_generator. eapply ok_impl; [apply (ecp_new_bigs_ok _ _ _ _ gx_rep gy_rep)|]. intros a [A _].
  destruct (A G1gen_on) as [(X & Y & _) _]. unfold G1gen. cbn [ecpX]. split; [exact G1gen_on|]. split; assumption.
Qed.
Lemma ecpX_on m F q b : ecpX m F q b -> on1 q.
Proof. destruct q as [|x y]; cbn [ecpX]; [intros _; exact I|intros [O _]; exact O]. Qed.
Lemma ecp2A_on l E p a : ecp2A l E p a -> on2 p.
Proof. intros H. apply ecp2A_R in H. apply H. Qed.
Lemma pairing_check_ok l E l' E' m F P H K s h k : ecp2A l E P s -> ecp2A l' E' H h -> ecpX m F K k -> pair_ok H K ->
  1 <= l <= 8 -> 1 <= l' <= 8 -> 1 <= m <= 8 -> E <= 100000 -> E' <= 100000 -> F <= 1000000 ->
  ok (pairing_check s h k) (fun r => r = true <-> pairing P G1gen = pairing H K /\ ~ zero_case H K).
Proof.
  intros S1 H1 K1 NH L L' M HE HE' HF. unfold pairing_check.
  eapply ok_bind; [apply generator_X|]. intros g G.
  eapply ok_bind; [eapply ate_pairing_ok; [exact S1|exact G|exact (gen_ok P (ecp2A_on _ _ _ _ S1))|lia..]|]. intros lhs A.
  eapply ok_bind; [eapply ate_pairing_ok; [exact H1|exact K1|exact NH|lia..]|]. intros rhs B.
  apply fp12C_R in A, B. eapply ok_impl; [eapply fp12_equals_ok; [exact A|exact B|lia..]|]. intros e EX. cbv beta in EX |- *.
  rewrite EX. apply epair_eq; [exact (ecp2A_on _ _ _ _ S1)|exact (ecpX_on _ _ _ _ K1)].
Qed.

(* ------------------------- what the interface builds ------------------- *)
Lemma map_R re im : bytes re -> bytes im -> (48 <= length re)%nat -> (48 <= length im)%nat -> findable re im ->
  exists h H, map_to_g2 re im = Some h /\ ecp2R 1 17 H h /\ eigen H.
Proof.
  intros BR BI LR LI (k & FX). destruct (first_x_loop _ _ k FX) as [LT RL].
  pose proof (map_point_ok re im _ _ k BR BI LR LI eq_refl eq_refl LT RL) as M. apply ok_ex in M.
  destruct M as (p & E & s & ON & SQ & F). pose proof (hash_y_on _ _ ON) as HO.
  pose proof (ecp2G_V _ _ _ HO F) as R.
  unfold map_to_g2. rewrite E. cbn [bind]. destruct (ok_ex _ _ (multiply_cofactor_ok _ _ p R ltac:(lia))) as (h & H1 & H2).
  exists h. eexists. split; [exact H1|]. split; [exact H2|]. apply cofactor_eigen, HO.
Qed.
Lemma hash_R hash msg d : digests hash -> 0 <= d < 2 ^ 64 -> hash_findable hash msg d ->
  exists h H, hash_on_g2 hash msg d = Some h /\ ecp2R 1 17 H h /\ eigen H.
Proof.
  intros HD D F. rewrite hash_on_g2_input by exact D.
  destruct (pad_bytes hash (hash_input msg d 1) HD), (pad_bytes hash (hash_input msg d 2) HD). apply map_R; assumption.
Qed.
Lemma ecp2A_weak l E l' E' p a : ecp2A l E p a -> 1 <= l <= l' -> E <= E' -> ecp2A l' E' p a.
Proof.
  destruct p as [|x y]; cbn [ecp2A]; intros H L HE; [eapply ecp2R_weak; [exact H|lia|lia]|]. destruct H as (O & A & B & C).
  split; [exact O|]. split; [eapply fp2R_weak; [exact A|lia|lia]|]. split; eapply fp2R_weak; [exact B|lia|lia|exact C|lia|lia].
Qed.
Lemma ecpX_weak l E l' E' p a : ecpX l E p a -> 1 <= l <= l' -> E <= E' -> ecpX l' E' p a.
Proof.
  destruct p as [|x y]; cbn [ecpX]; intros H L HE; [eapply ecpR_weak; [exact H|lia|lia]|]. destruct H as (O & A & B).
  split; [exact O|]. split; eapply fpR_weak; [exact A|lia|lia|exact B|lia|lia].
Qed.
Lemma mul_affine_A l E P h sk v : ecp2R l E P h -> 1 <= l <= 8 -> E <= 262144 -> rep 7 sk v -> v < 2 ^ 384 ->
  ok (s <- ecp2_mul h sk ;; ecp2_affine s) (ecp2A 1 17 (zm2 v P)).
Proof.
  intros A L HE R V. eapply ok_bind; [eapply ecp2_mul_ok; [exact A|lia|lia|exact R|]|].
  { assert (2 ^ 384 + 2 <= 2 ^ 404) by (vm_compute; discriminate). lia. }
  intros c C. eapply ecp2_affine_ok; [apply ecp2A_R; exact C|lia|lia].
Qed.
Lemma signing_A hash msg d h H b sk : bytes b -> sk_from_bytes b = Some (Ok sk) -> hash_on_g2 hash msg d = Some h -> ecp2R 1 17 H h ->
  exists s, sig_new hash msg d sk = Some s /\ ecp2A 1 17 (zm2 (be_int b) H) s.
Proof.
  intros B SK E A. destruct (sk_rep b sk B SK) as (_ & R & V). apply ok_ex. unfold sig_new. rewrite E. cbn [bind].
  eapply mul_affine_A; [exact A|lia|lia|exact R|lia].
Qed.
Lemma signing_hashed_A re im h H b sk : bytes b -> sk_from_bytes b = Some (Ok sk) -> map_to_g2 re im = Some h -> ecp2R 1 17 H h ->
  exists s, sig_new_hashed re im sk = Some s /\ ecp2A 1 17 (zm2 (be_int b) H) s.
Proof.
  intros B SK E A. destruct (sk_rep b sk B SK) as (_ & R & V). apply ok_ex. unfold sig_new_hashed. rewrite E. cbn [bind].
  eapply mul_affine_A; [exact A|lia|lia|exact R|lia].
Qed.
Lemma sig_decoded_A b a : bytes b -> sig_from_bytes b = Some (Ok a) -> exists P, ecp2A 1 17 P a.
Proof.
  intros B H. pose proof (sig_decoded_len b a H) as L.
  pose proof (decompress_g2_ok b _ _ _ B L eq_refl eq_refl eq_refl) as D. unfold sig_from_bytes in H. rewrite H in D. cbn [ok] in D.
  destruct D as (D1 & D2 & D3 & D4 & D5 & D6). set (v := be_int (firstn 48 b)) in *. set (w := be_int (skipn 48 b)) in *.
  destruct (Z.eq_dec (v / 2 ^ 383) 1) as [C|C]; [|specialize (D1 C); discriminate D1].
  destruct (Z.eq_dec ((v / 2 ^ 382) mod 2) 1) as [I1|I1].
  - assert (DZ : (v mod 2 ^ 382 = 0 /\ w = 0) \/ ~ (v mod 2 ^ 382 = 0 /\ w = 0)) by lia.
    destruct DZ as [Z0|Z0]; [|specialize (D2 C I1 Z0); discriminate D2].
    destruct (D3 C I1 Z0) as (a' & E & A). injection E as <-. exists Inf. cbn [ecp2A]. eapply ecp2R_weak; [exact A|lia|lia].
  - destruct D6 as [RL|NR]; [|specialize (D4 C I1 NR); discriminate D4].
    destruct (D5 C I1 RL) as (a' & s & E & ON & SQ & (FX & FY & FZ)). injection E as <-. eexists (Aff _ _). cbn [ecp2A].
    split; [exact (dec_y2_on _ _ ((v / 2 ^ 381) mod 2) ON)|]. split; [eapply fp2R_weak; [exact FX|lia|lia]|].
    split; eapply fp2R_weak; [exact FY|lia|lia|exact FZ|lia|lia].
Qed.
Lemma asig_add_A l m E F P Q a k : ecp2R l E P a -> ecp2R m F Q k -> 1 <= l <= 8 -> 1 <= m <= 8 -> E <= 262144 -> F <= 262144 ->
  ok (asig_add a k) (ecp2A 1 17 (padd2 P Q)).
Proof.
  intros A K L M HE HF. unfold asig_add. eapply ok_bind; [eapply ecp2_add_ok; [exact A|exact K|lia..]|]. intros c C.
  eapply ecp2_affine_ok; [exact C|lia|lia].
Qed.
Lemma sig_built_A hash s : digests hash -> sig_built hash s -> exists P, ecp2A 1 17 P s.
Proof.
  intros HD. induction 1 as [msg d b sk s D B SK H|re im b sk s BR BI B SK H|b s B H|s H|a k s _ [P A] _ [Q K] H|a k s _ [P A] _ [Q K] H].
  - destruct (hash_R hash msg d HD D (hash_findable_all hash msg d)) as (h & P & E & A & _). destruct (signing_A hash msg d h P b sk B SK E A) as (s' & E' & A').
    rewrite H in E'. injection E' as <-. eexists. exact A'.
  - assert (N : exists h, map_to_g2 re im = Some h) by (unfold sig_new_hashed in H; destruct (map_to_g2 re im) as [h|]; [exists h; reflexivity|discriminate H]).
    destruct N as (h0 & N). destruct (map_some_len re im h0 N) as [LR LI]. destruct (map_R re im BR BI LR LI (findable_all re im)) as (h & P & E & A & _).
    destruct (signing_hashed_A re im h P b sk B SK E A) as (s' & E' & A'). rewrite H in E'. injection E' as <-. eexists. exact A'.
  - apply (sig_decoded_A b s B H).
  - exists Inf. cbn [ecp2A]. pose proof (ok_some _ _ _ ecp2_inf_ok H) as R. eapply ecp2R_weak; [exact R|lia|lia].
  - eexists. apply ecp2A_R in A, K. exact (ok_some _ _ _ (asig_add_A 1 1 17 17 _ _ _ _ A K ltac:(lia) ltac:(lia) ltac:(lia) ltac:(lia)) H).
  - eexists. apply ecp2A_R in A, K. exact (ok_some _ _ _ (asig_add_A 1 1 17 17 _ _ _ _ A K ltac:(lia) ltac:(lia) ltac:(lia) ltac:(lia)) H).
Qed.
Lemma ecpF_X E x y a : on1 (Aff x y) -> ecpF E x y a -> ecpX 1 E (Aff x y) a.
Proof. intros ON (A & B & _). cbn [ecpX]. split; [exact ON|]. split; assumption. Qed.
(* keys are handed to the pairing unnormalised *)
Lemma pk_built_X pk : pk_built pk -> exists K, ecpX 1 5 K pk /\ ecpR 1 5 K pk.
Proof.
  induction 1 as [b sk pk B SK H|b pk B H|b pk B H|pk b pk' PB [p [IX IH]] H|pk H|a k pk PA [p [_ A]] PK [k1 [_ K]] H|a k pk PA [p [_ A]] PK [k1 [_ K]] H].
  - destruct (sk_rep b sk B SK) as (_ & R & V). pose proof (ok_some _ _ _ (pk_sk_ok sk _ R (proj2 V)) H) as A.
    eexists. split; [apply ecpA_X; exact A|apply ecpA_R5; exact A].
  - destruct (decoded b pk B H) as (_ & [(_ & _ & R)|(_ & SQ & F & _)]).
    + exists Inf. cbn [ecpX]. split; (eapply ecpR_weak; [exact R|lia|lia]).
    + eexists. split; [eapply ecpX_weak; [exact (ecpF_X 3 _ _ _ (dec_y1_on _ _ SQ) F)|lia|lia]|].
      eapply ecpR_weak; [apply (ecpF_R 3 _ _ _ ltac:(lia) (dec_y1_on _ _ SQ) F)|lia|lia].
  - destruct (decoded_unc b pk B H) as [(_ & _ & R)|(_ & ON & F & _)].
    + exists Inf. cbn [ecpX]. split; (eapply ecpR_weak; [exact R|lia|lia]).
    + eexists. split; [eapply ecpX_weak; [exact (ecpF_X 2 _ _ _ ON F)|lia|lia]|].
      eapply ecpR_weak; [apply (ecpF_R 2 _ _ _ ltac:(lia) ON F)|lia|lia].
  - pose proof (ok_some _ _ _ (pk_as_unc_ok 1 5 p pk IH ltac:(lia) ltac:(lia)) H) as Q. cbv beta in Q. exists p.
    destruct p as [|x y]; [destruct Q as [_ ->]; split; assumption|]. destruct Q as (a' & _ & A2 & _). split; [apply ecpA_X, A2|apply ecpA_R5, A2].
  - exists Inf. cbn [ecpX]. pose proof (ok_some _ _ _ ecp_inf_ok H) as R. split; (eapply ecpR_weak; [exact R|lia|lia]).
  - pose proof (ok_some _ _ _ (apk_add_ok 1 1 5 5 p k1 a k A K ltac:(lia) ltac:(lia) ltac:(lia) ltac:(lia)) H) as C.
    eexists. split; [apply ecpA_X; exact C|apply ecpA_R5; exact C].
  - pose proof (ok_some _ _ _ (apk_add_ok 1 1 5 5 p k1 a k A K ltac:(lia) ltac:(lia) ltac:(lia) ltac:(lia)) H) as C.
    eexists. split; [apply ecpA_X; exact C|apply ecpA_R5; exact C].
Qed.
