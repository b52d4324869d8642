(* cbc_iv0_encrypt and cbc_iv0_decrypt of ecdh.rs. *)
From Coq Require Import Lia.
From Verif Require Import Prim AesTab Aes SpecBytes SpecAes AesW AesP AesK AesM Rom Rand Ecdh Ecies.

(* the message the code hands back: the last block in part is overwritten with the padding byte *)
Definition damaged (m : list Z) : list Z :=
  firstn (16 * (length m / 16)) m ++ repeat (Z.of_nat (16 - length m mod 16)) (length m mod 16).

Section Cbc.
Context (chk : bool) (a : AES) (E D : list Z -> list Z) (C : cip a E D) (M : a_mode a = M_CBC).
Lemma cbc_step f b : st f -> st b -> aes_encrypt chk (set_f a f) b = Some (set_f a (E (bxor b f)), E (bxor b f), 0) /\ st (E (bxor b f)).
Proof.
  intros SF SB. unfold aes_encrypt. change (a_mode (set_f a f)) with (a_mode a). rewrite M. cbn [Nat.eqb M_ECB M_CBC a_f set_f]. rewrite xor16 by assumption.
  destruct (proj1 C _ (bxor_st _ _ SB SF)) as (E1 & E2 & _). change (ecb_encrypt (set_f a f)) with (ecb_encrypt a). rewrite E1. cbn [bind]. split; [reflexivity|exact E2].
Qed.
Lemma cbc_back f c : st f -> st c -> aes_decrypt chk (set_f a f) c = Some (set_f a c, bxor (D c) f, 0) /\ st (bxor (D c) f).
Proof.
  intros SF SC. unfold aes_decrypt. change (a_mode (set_f a f)) with (a_mode a). rewrite M. cbn [Nat.eqb M_ECB M_CBC a_f set_f].
  destruct (proj2 C _ SC) as (E1 & E2). change (ecb_decrypt (set_f a f)) with (ecb_decrypt a). rewrite E1. cbn [bind]. rewrite xor16 by assumption. split; [reflexivity|]. apply bxor_st; assumption.
Qed.
Lemma st_first m : bytes m -> (16 <= length m)%nat -> st (firstn 16 m).
Proof. intros B L. split; [apply firstn_length_le, L|apply fst_bytes, B]. Qed.
Lemma skp_bytes n l : bytes l -> bytes (skipn n l).
Proof. intros B. rewrite <- (firstn_skipn n l) in B. apply Forall_app in B. apply B. Qed.
Lemma skipn_add n k (l : list Z) : skipn n (skipn k l) = skipn (k + n) l.
Proof. revert l. induction k as [|k IH]; intros l; [reflexivity|]. destruct l as [|x l]; [rewrite !skipn_nil; reflexivity|]. cbn [skipn Nat.add]. apply IH. Qed.

Lemma fill_ok r : (r < 16)%nat -> forall q fuel m f buff c, st f -> bytes m -> length m = (16 * q + r)%nat -> (q < fuel)%nat ->
  exists f' t, cbc_fill fuel chk (set_f a f) m buff c = Some (set_f a f', skipn (16 * q) m ++ t, r, c ++ concat (cbc_enc E f (blocks16 q m))) /\ st f' /\
    forall b, cbc_enc E f (blocks16 q m ++ [b]) = cbc_enc E f (blocks16 q m) ++ [E (bxor b f')].
Proof.
  intros R. induction q as [|q IH]; intros fuel m f buff c SF B L FU.
  - exists f, (skipn (length m) buff). destruct fuel as [|fuel]; [lia|]. cbn [cbc_fill]. destruct (Nat.leb_spec 16 (length m)); [lia|]. cbn [blocks16 cbc_enc concat Nat.mul skipn]. rewrite app_nil_r.
    replace (length m) with r by lia. split; [reflexivity|]. split; [exact SF|]. intros b. reflexivity.
  - destruct fuel as [|fuel]; [lia|]. cbn [cbc_fill]. destruct (Nat.leb_spec 16 (length m)) as [LE|]; [|lia]. pose proof (st_first m B LE) as S1.
    destruct (cbc_step f (firstn 16 m) SF S1) as [E1 E2]. rewrite E1. cbn [bind].
    destruct (IH fuel (skipn 16 m) _ (E (bxor (firstn 16 m) f)) (c ++ E (bxor (firstn 16 m) f)) E2 (skp_bytes 16 m B)) as (f' & t & H1 & H2 & H3); [rewrite skipn_length; lia|lia|].
    rewrite H1. exists f', t. split; [|split; [exact H2|]].
    + cbn [blocks16 cbc_enc concat]. rewrite skipn_add, <- app_assoc. replace (16 + 16 * q)%nat with (16 * S q)%nat by lia. reflexivity.
    + intros b. cbn [blocks16 app cbc_enc]. rewrite H3. reflexivity.
Qed.
Lemma drain_ok : forall q fuel c f buff m, st f -> st buff -> bytes c -> (16 * q < length c <= 16 * q + 16)%nat -> (q < fuel)%nat ->
  exists a' l i m', cbc_drain fuel chk (set_f a f) c buff m = Some (set_f a a', l, i, m') /\ st l /\ i = (length c - 16 * q - 1)%nat /\
    (length c = 16 * q + 16 -> m' = m ++ concat (cbc_dec D f (blocks16 q c)) /\ cbc_dec D f (blocks16 (S q) c) = cbc_dec D f (blocks16 q c) ++ [l] /\ length (concat (cbc_dec D f (blocks16 q c))) = 16 * q)%nat.
Proof.
  induction q as [|q IH]; intros fuel c f buff m SF SB B L FU.
  - destruct fuel as [|fuel]; [lia|]. cbn [cbc_drain]. destruct (Nat.ltb_spec 16 (length c)); [lia|]. assert (SC : st (c ++ skipn (length c) buff)).
    { destruct SB as [SB1 SB2]. split; [rewrite app_length, skipn_length; lia|apply Forall_app; split; [exact B|apply skp_bytes, SB2]]. }
    destruct (cbc_back f _ SF SC) as [E1 E2]. rewrite E1. cbn [bind]. do 4 eexists. split; [reflexivity|]. split; [exact E2|]. split; [lia|]. intros LC.
    rewrite skipn_all2 by (destruct SB; lia). cbn [blocks16 cbc_dec concat app]. rewrite !app_nil_r, firstn_all2 by lia. auto.
  - destruct fuel as [|fuel]; [lia|]. cbn [cbc_drain]. destruct (Nat.ltb_spec 16 (length c)) as [LT|]; [|lia]. pose proof (st_first c B ltac:(lia)) as S1.
    destruct (cbc_back f _ SF S1) as [E1 E2]. rewrite E1. cbn [bind].
    destruct (IH fuel (skipn 16 c) (firstn 16 c) (bxor (D (firstn 16 c)) f) (m ++ bxor (D (firstn 16 c)) f) S1 E2 (skp_bytes 16 c B)) as (a' & l & i & m' & H1 & H2 & H3 & H4); [rewrite skipn_length; lia|lia|].
    rewrite skipn_length in H3, H4. exists a', l, i, m'. split; [exact H1|]. split; [exact H2|]. split; [lia|]. intros LC. destruct (H4 ltac:(lia)) as (Q1 & Q2 & Q3).
    cbn [blocks16 cbc_dec concat] in *. split; [rewrite Q1, <- app_assoc; reflexivity|]. split; [rewrite Q2; reflexivity|]. rewrite app_length, Q3. destruct E2 as [E2 _]. rewrite E2. lia.
Qed.
End Cbc.

Lemma nth_repeat_lt (x : Z) : forall n i, (i < n)%nat -> nth i (repeat x n) 0 = x.
Proof. induction n as [|n IH]; intros i H; [lia|]. destruct i as [|i]; [reflexivity|]. cbn [repeat nth]. apply IH. lia. Qed.
Lemma blocks16_app x b : forall n, length x = (16 * n)%nat -> length b = 16%nat -> blocks16 (S n) (x ++ b) = blocks16 n x ++ [b].
Proof.
  intros n. revert x. induction n as [|n IH]; intros x L LB.
  - destruct x; [|discriminate L]. cbn [blocks16 app]. rewrite firstn_all2 by lia. reflexivity.
  - change (blocks16 (S (S n)) (x ++ b)) with (firstn 16 (x ++ b) :: blocks16 (S n) (skipn 16 (x ++ b))). change (blocks16 (S n) x) with (firstn 16 x :: blocks16 n (skipn 16 x)).
    rewrite firstn_app, skipn_app. replace (16 - length x)%nat with 0%nat by lia. rewrite firstn_O; rewrite (skipn_O). rewrite app_nil_r, IH; [reflexivity|rewrite skipn_length; lia|exact LB].
Qed.
Lemma blocks16_pre x t : forall n, (16 * n <= length x)%nat -> blocks16 n (x ++ t) = blocks16 n x.
Proof.
  intros n. revert x. induction n as [|n IH]; intros x L; [reflexivity|]. cbn [blocks16]. rewrite firstn_app, skipn_app. replace (16 - length x)%nat with 0%nat by lia. rewrite firstn_O; rewrite (skipn_O).
  rewrite app_nil_r, IH by (rewrite skipn_length; lia). reflexivity.
Qed.
Lemma blocks16_st : forall n m, bytes m -> (16 * n <= length m)%nat -> Forall st (blocks16 n m).
Proof.
  induction n as [|n IH]; intros m B L; [constructor|]. cbn [blocks16]. constructor; [apply st_first; [exact B|lia]|]. apply IH; [apply skp_bytes, B|rewrite skipn_length; lia].
Qed.
Lemma blocks16_concat : forall n m, length m = (16 * n)%nat -> concat (blocks16 n m) = m.
Proof.
  induction n as [|n IH]; intros m L; [destruct m; [reflexivity|discriminate L]|]. cbn [blocks16 concat]. rewrite IH by (rewrite skipn_length; lia). apply firstn_skipn.
Qed.
Lemma concat_blocks16 : forall bs, Forall st bs -> blocks16 (length bs) (concat bs) = bs /\ length (concat bs) = (16 * length bs)%nat.
Proof.
  induction bs as [|b bs IH]; intros F; [split; reflexivity|]. apply Forall_cons_iff in F. destruct F as [[L B] F]. destruct (IH F) as [I1 I2]. cbn [length concat blocks16].
  rewrite firstn_app, skipn_app, L, Nat.sub_diag, firstn_O, app_nil_r, (firstn_all2 b), (skipn_all2 b) by lia. cbn [app skipn]. rewrite I1, app_length, L, I2. split; [reflexivity|lia].
Qed.
Lemma pkcs7_len m : length (pkcs7 m) = (16 * (length m / 16 + 1))%nat.
Proof. unfold pkcs7. rewrite app_length, repeat_length. pose proof (Nat.div_mod (length m) 16 ltac:(lia)). pose proof (Nat.mod_upper_bound (length m) 16 ltac:(lia)). lia. Qed.
Lemma pkcs7_bytes m : bytes m -> bytes (pkcs7 m).
Proof. intros B. apply Forall_app. split; [exact B|]. apply Forall_forall. intros x X. apply repeat_spec in X. rewrite X. lia. Qed.

(* the encryption *)
Definition enc_of (chk : bool) (k : list Z) (E : list Z -> list Z) : Prop :=
  forall m, bytes m -> cbc_iv0_encrypt chk k m = Some (concat (cbc_enc E (repeat 0 16) (blocks16 (length m / 16 + 1) (pkcs7 m)))).
(* the decryption *)
Definition dec_of (chk : bool) (k : list Z) (D : list Z -> list Z) : Prop :=
  forall c, bytes c -> exists r, cbc_iv0_decrypt chk k c = Some r /\
    forall m', r = Some m' <-> exists m, (length c mod 16 = 0)%nat /\ concat (cbc_dec D (repeat 0 16) (blocks16 (length c / 16) c)) = pkcs7 m /\ m' = damaged m.
Lemma end_ok a : (a_nr a <= 14)%nat -> exists a', aes_end a = Some a'.
Proof. intros N. unfold aes_end. destruct (Nat.ltb_spec 60 (4 * (a_nr a + 1))); [lia|]. eexists. reflexivity. Qed.
Lemma enc_gen chk k a E D : aes_init aes_new M_CBC (length k) k None = Some (true, a) -> cip a E D -> a_mode a = M_CBC -> a_f a = repeat 0 16 -> (a_nr a <= 14)%nat -> enc_of chk k E.
Proof.
  intros I C MO F N m B. unfold cbc_iv0_encrypt. rewrite I. cbn [bind]. set (q := (length m / 16)%nat). set (r := (length m mod 16)%nat).
  assert (R : (r < 16)%nat) by (apply Nat.mod_upper_bound; lia). assert (L : length m = (16 * q + r)%nat) by (apply Nat.div_mod; lia).
  assert (EA : a = set_f a (repeat 0 16)) by (rewrite <- F; destruct a; reflexivity). rewrite EA.
  destruct (fill_ok chk a E D C MO r R q (S (length m)) m (repeat 0 16) (repeat 0 16) [] st_zero B L ltac:(lia)) as (f' & t & H1 & H2 & H3). rewrite H1. cbn [bind].
  set (lb := firstn r (skipn (16 * q) m ++ t) ++ repeat (Z.of_nat (16 - r)) (16 - r)). assert (EL : lb = skipn (16 * q) m ++ repeat (Z.of_nat (16 - r)) (16 - r)).
  { unfold lb. f_equal. assert (LS : length (skipn (16 * q) m) = r) by (rewrite skipn_length; lia). rewrite <- LS at 1. rewrite firstn_app, Nat.sub_diag, firstn_all, firstn_O. apply app_nil_r. }
  assert (SL : st lb).
  { rewrite EL. split; [rewrite app_length, repeat_length, skipn_length; lia|]. apply Forall_app. split; [apply skp_bytes, B|]. apply Forall_forall. intros x X. apply repeat_spec in X. lia. }
  destruct (cbc_step chk a E D C MO f' lb H2 SL) as [E1 E2]. rewrite E1. cbn [bind]. destruct (end_ok (set_f a (E (bxor lb f'))) N) as (a' & EE). rewrite EE. cbn [bind].
  assert (BK : blocks16 (q + 1) (pkcs7 m) = blocks16 q m ++ [lb]).
  { unfold pkcs7. fold r. rewrite Nat.add_1_r. replace (m ++ repeat (Z.of_nat (16 - r)) (16 - r)) with (firstn (16 * q) m ++ lb) by (rewrite EL, app_assoc, firstn_skipn; reflexivity).
    rewrite blocks16_app by (try apply SL; rewrite firstn_length; lia). f_equal. rewrite <- (firstn_skipn (16 * q) m) at 2. rewrite blocks16_pre; [reflexivity|rewrite firstn_length; lia]. }
  rewrite BK, H3, concat_app. cbn [app concat]. rewrite app_nil_r. reflexivity.
Qed.
Lemma all_repeat (v : Z) : forall s, (forall x, In x s -> x = v) -> s = repeat v (length s).
Proof. induction s as [|x s IH]; intros H; [reflexivity|]. cbn [length repeat]. rewrite <- IH by (intros y Y; apply H; right; exact Y). rewrite (H x (or_introl eq_refl)). reflexivity. Qed.
Lemma pad_split l : st l -> let p := Z.to_nat (nth 15 l 0) in
  negb (15 =? 15)%nat || (p <? 1)%nat || (16 <? p)%nat || ((2 <=? p)%nat && (p <=? 16)%nat && existsb (fun x => negb (x =? Z.of_nat p)) (skipn (16 - p) l)) = false <->
  (1 <= p <= 16)%nat /\ skipn (16 - p) l = repeat (Z.of_nat p) p.
Proof.
  intros [L B] p. cbn [Nat.eqb negb orb]. rewrite !orb_false_iff, !andb_false_iff, Nat.ltb_ge, Nat.ltb_ge, Nat.leb_gt, Nat.leb_gt.
  assert (EX : existsb (fun x => negb (x =? Z.of_nat p)) (skipn (16 - p) l) = false <-> forall x, In x (skipn (16 - p) l) -> x = Z.of_nat p).
  { split.
    - intros H x X. destruct (Z.eqb_spec x (Z.of_nat p)) as [Q|Q]; [exact Q|]. exfalso. assert (T : existsb (fun x => negb (x =? Z.of_nat p)) (skipn (16 - p) l) = true); [|congruence].
      apply existsb_exists. exists x. split; [exact X|]. destruct (Z.eqb_spec x (Z.of_nat p)); [contradiction|reflexivity].
    - intros H. destruct (existsb _ _) eqn:Q; [|reflexivity]. apply existsb_exists in Q. destruct Q as (x & X & Y). rewrite (H x X), Z.eqb_refl in Y. discriminate Y. }
  assert (RP : (1 <= p <= 16)%nat -> ((forall x, In x (skipn (16 - p) l) -> x = Z.of_nat p) <-> skipn (16 - p) l = repeat (Z.of_nat p) p)).
  { intros P. split; [|intros H x X; rewrite H in X; apply repeat_spec in X; exact X]. intros H. assert (LS : length (skipn (16 - p) l) = p) by (rewrite skipn_length; lia).
    rewrite (all_repeat _ _ H), LS. reflexivity. }
  split.
  - intros [[P1 P2] P3]. split; [lia|]. apply RP; [lia|]. destruct P3 as [[P3|P3]|P3]; [|lia|apply EX, P3]. assert (P : p = 1%nat) by lia.
    intros x X. rewrite P in X |- *. cbn [Nat.sub] in X. assert (V : nth 15 l 0 = 1) by (unfold p in P; lia). clear - L V X.
    do 16 (destruct l as [|? l]; [discriminate L|]). destruct l; [|discriminate L]. cbn [skipn nth In] in *. destruct X as [X|[]]. rewrite <- X. exact V.
  - intros [P H]. split; [split; lia|]. right. apply EX. apply RP; [exact P|exact H].
Qed.
Lemma app_eq_len (a b c d : list Z) : length a = length c -> a ++ b = c ++ d -> a = c /\ b = d.
Proof.
  revert c. induction a as [|x a IH]; intros [|y c] L H; try discriminate L; [split; [reflexivity|exact H]|]. injection L as L. cbn [app] in H. apply cons_inj in H. destruct H as [-> H].
  destruct (IH c L H) as [-> ->]. split; reflexivity.
Qed.
Lemma pkcs7_split m : pkcs7 m = firstn (16 * (length m / 16)) m ++ (skipn (16 * (length m / 16)) m ++ repeat (Z.of_nat (16 - length m mod 16)) (16 - length m mod 16)).
Proof. unfold pkcs7. rewrite app_assoc, firstn_skipn. reflexivity. Qed.
Lemma dec_gen chk k a E D : aes_init aes_new M_CBC (length k) k None = Some (true, a) -> cip a E D -> a_mode a = M_CBC -> a_f a = repeat 0 16 -> (a_nr a <= 14)%nat -> dec_of chk k D.
Proof.
  intros I C MO F N c B. unfold cbc_iv0_decrypt. rewrite I. cbn [bind]. destruct (Nat.eqb_spec (length c) 0) as [Z0|NZ].
  { exists None. split; [reflexivity|]. intros m'. split; [discriminate|]. intros (m & _ & H & _). exfalso. apply (f_equal (@length Z)) in H. rewrite pkcs7_len in H. rewrite Z0 in H. cbn in H. lia. }
  set (q := ((length c - 1) / 16)%nat). pose proof (Nat.div_mod (length c - 1) 16 ltac:(lia)) as DM. pose proof (Nat.mod_upper_bound (length c - 1) 16 ltac:(lia)) as MU. fold q in DM.
  assert (EA : a = set_f a (repeat 0 16)) by (rewrite <- F; destruct a; reflexivity). rewrite EA.
  destruct (drain_ok chk a E D C MO q (S (length c)) c (repeat 0 16) (repeat 0 16) [] st_zero st_zero B ltac:(lia) ltac:(lia)) as (f' & l & i & m1 & H1 & SL & HI & H4). rewrite H1. cbn [bind].
  destruct (end_ok (set_f a f') N) as (a' & EE). rewrite EE. cbn [bind]. set (p := Z.to_nat (nth 15 l 0)). eexists. split; [reflexivity|]. intros m'.
  destruct (Nat.eq_dec (length c) (16 * q + 16)) as [LC|LC].
  - assert (I15 : i = 15%nat) by lia. rewrite I15. clear HI H1. destruct (H4 LC) as (Q1 & Q2 & Q3). cbn [app] in Q1. pose proof (pad_split l SL) as PS. fold p in PS. cbv zeta in PS.
    assert (CQ : (length c / 16 = S q)%nat) by (rewrite LC; symmetry; apply (Nat.div_unique _ 16 _ 0); lia). assert (CM : (length c mod 16 = 0)%nat) by (rewrite LC; symmetry; apply (Nat.mod_unique _ 16 (S q)); lia).
    rewrite CQ, Q2, concat_app, <- Q1. cbn [concat]. rewrite app_nil_r. rewrite <- Q1 in Q3.
    assert (P15 : Z.of_nat p = nth 15 l 0).
    { unfold p. rewrite Z2Nat.id; [reflexivity|]. destruct SL as [L16 BL]. unfold bytes in BL. rewrite Forall_forall in BL. apply (BL (nth 15 l 0)). apply nth_In. lia. }
    set (bad := negb (15 =? 15)%nat || (p <? 1)%nat || (16 <? p)%nat || ((2 <=? p)%nat && (p <=? 16)%nat && existsb (fun x => negb (x =? Z.of_nat p)) (skipn (16 - p) l))) in *.
    assert (LL : length l = 16%nat) by apply SL. split.
    + destruct bad eqn:BD; [discriminate|]. intros EQ. injection EQ as EQ. destruct (proj1 PS eq_refl) as [P1 P2]. exists (m1 ++ firstn (16 - p) l). split; [exact CM|].
      assert (LM : length (m1 ++ firstn (16 - p) l) = (16 * q + (16 - p))%nat) by (rewrite app_length, firstn_length; lia).
      assert (DQ : (length (m1 ++ firstn (16 - p) l) / 16 = q)%nat) by (rewrite LM; symmetry; apply (Nat.div_unique _ 16 _ (16 - p)); lia).
      assert (MQ : (length (m1 ++ firstn (16 - p) l) mod 16 = 16 - p)%nat) by (rewrite LM; symmetry; apply (Nat.mod_unique _ 16 q); lia).
      split.
      * unfold pkcs7. rewrite MQ. replace (16 - (16 - p))%nat with p by lia. rewrite <- P2, <- app_assoc, firstn_skipn. reflexivity.
      * unfold damaged. rewrite DQ, MQ. replace (16 - (16 - p))%nat with p by lia. rewrite firstn_app, Q3, Nat.sub_diag, firstn_O, app_nil_r, firstn_all2 by lia. rewrite <- EQ, P15. reflexivity.
    + intros (m & _ & HP & ->). assert (LM : (length m / 16 = q)%nat) by (apply (f_equal (@length Z)) in HP; rewrite app_length, pkcs7_len in HP; lia).
      rewrite pkcs7_split in HP. rewrite LM in HP. set (r := (length m mod 16)%nat) in *. assert (R : (r < 16)%nat) by (apply Nat.mod_upper_bound; lia).
      assert (LE : length m = (16 * q + r)%nat) by (rewrite <- LM; apply Nat.div_mod; lia). apply app_eq_len in HP; [|rewrite firstn_length; lia]. destruct HP as [HP1 HP2].
      assert (LS : length (skipn (16 * q) m) = r) by (rewrite skipn_length; lia).
      assert (PV : nth 15 l 0 = Z.of_nat (16 - r)).
      { rewrite HP2, app_nth2 by lia. rewrite LS. apply nth_repeat_lt. lia. }
      assert (PP : p = (16 - r)%nat) by (unfold p; rewrite PV; apply Nat2Z.id). assert (BD : bad = false).
      { apply PS. split; [lia|]. rewrite HP2, PP. replace (16 - (16 - r))%nat with r by lia. rewrite skipn_app, LS, Nat.sub_diag, skipn_all2 by lia. reflexivity. }
      rewrite BD. unfold damaged. rewrite LM. fold r. rewrite HP1, PV, PP. replace (16 - (16 - r))%nat with r by lia. reflexivity.
  - assert (I15 : (i =? 15)%nat = false) by (apply Nat.eqb_neq; lia). rewrite I15. cbn [negb orb]. split; [discriminate|]. intros (m & CM & _). exfalso.
    apply Nat.mod_divides in CM; [|lia]. destruct CM as [x X]. lia.
Qed.

(* the two functions for keys of every accepted length *)
Lemma cbc_any chk k : bytes k -> key_len (length k / 4) -> exists E D, enc_of chk k E /\ dec_of chk k D /\ (forall s, st s -> st (E s) /\ D (E s) = s) /\
  (length k = 16%nat \/ length k = 24%nat -> E = AES_enc k /\ D = AES_dec k).
Proof.
  intros B KL. destruct (init_cip M_CBC k None B KL) as (a & E & D & H1 & H2 & H3 & H4 & H5 & H6). exists E, D. change (a_f a = repeat 0 16) in H4.
  assert (N : (a_nr a <= 14)%nat) by (rewrite H5; destruct KL as [Q|[Q|Q]]; rewrite Q; lia).
  split; [exact (enc_gen chk k a E D H1 H2 H3 H4 N)|]. split; [exact (dec_gen chk k a E D H1 H2 H3 H4 N)|]. split; [|exact H6]. intros s S. destruct (proj1 H2 s S) as (_ & Q1 & Q2). split; assumption.
Qed.
Lemma cbc_encrypt_ok : forall chk k m, bytes k -> length k = 16%nat \/ length k = 24%nat -> bytes m ->
  cbc_iv0_encrypt chk k m = Some (concat (cbc_enc (AES_enc k) (repeat 0 16) (blocks16 (length m / 16 + 1) (pkcs7 m)))).
Proof. intros chk k m B L BM. destruct (cbc_any chk k B (key_len_std k L)) as (E & D & H1 & _ & _ & H4). destruct (H4 L) as [-> _]. exact (H1 m BM). Qed.
Lemma cbc_decrypt_ok : forall chk k c, bytes k -> length k = 16%nat \/ length k = 24%nat -> bytes c ->
  exists r, cbc_iv0_decrypt chk k c = Some r /\
    forall m', r = Some m' <-> exists m, (length c mod 16 = 0)%nat /\ concat (cbc_dec (AES_dec k) (repeat 0 16) (blocks16 (length c / 16) c)) = pkcs7 m /\ m' = damaged m.
Proof. intros chk k c B L BC. destruct (cbc_any chk k B (key_len_std k L)) as (E & D & _ & H2 & _ & H4). destruct (H4 L) as [_ ->]. exact (H2 c BC). Qed.

Lemma cbc_enc_st E : (forall s, st s -> st (E s)) -> forall bs f, st f -> Forall st bs -> Forall st (cbc_enc E f bs) /\ length (cbc_enc E f bs) = length bs.
Proof.
  intros SE. induction bs as [|b bs IH]; intros f SF F; [split; [constructor|reflexivity]|]. apply Forall_cons_iff in F. destruct F as [SB F]. cbn [cbc_enc length]. pose proof (SE _ (bxor_st _ _ SB SF)) as S1.
  destruct (IH _ S1 F) as [I1 I2]. split; [constructor; assumption|rewrite I2; reflexivity].
Qed.
Lemma cbc_dec_enc E D : (forall s, st s -> st (E s) /\ D (E s) = s) -> forall bs f, st f -> Forall st bs -> cbc_dec D f (cbc_enc E f bs) = bs.
Proof.
  intros H. induction bs as [|b bs IH]; intros f SF F; [reflexivity|]. apply Forall_cons_iff in F. destruct F as [SB F]. cbn [cbc_enc cbc_dec]. destruct (H _ (bxor_st _ _ SB SF)) as [S1 DE].
  rewrite (IH _ S1 F), DE, bxor_twice by (destruct SB, SF; lia). reflexivity.
Qed.
Lemma blocks16_len : forall n m, length (blocks16 n m) = n.
Proof. induction n as [|n IH]; intros m; [reflexivity|]. cbn [blocks16 length]. rewrite IH. reflexivity. Qed.
Lemma bytes_concat : forall bs, Forall st bs -> bytes (concat bs).
Proof. induction bs as [|b bs IH]; intros F; [constructor|]. apply Forall_cons_iff in F. destruct F as [[_ SB] F]. apply Forall_app. split; [exact SB|apply IH, F]. Qed.
(* the ciphertext of m *)
Lemma cipher_shape E D m : (forall s, st s -> st (E s) /\ D (E s) = s) -> bytes m -> let c := concat (cbc_enc E (repeat 0 16) (blocks16 (length m / 16 + 1) (pkcs7 m))) in
  bytes c /\ length c = (16 * (length m / 16 + 1))%nat /\ concat (cbc_dec D (repeat 0 16) (blocks16 (length c / 16) c)) = pkcs7 m.
Proof.
  intros H B c. set (n := (length m / 16 + 1)%nat) in *. pose proof (blocks16_st n (pkcs7 m) (pkcs7_bytes m B) ltac:(rewrite pkcs7_len; unfold n; lia)) as SB.
  destruct (cbc_enc_st E (fun s S => proj1 (H s S)) (blocks16 n (pkcs7 m)) (repeat 0 16) st_zero SB) as [F L]. rewrite blocks16_len in L. destruct (concat_blocks16 _ F) as [C1 C2]. rewrite L in C1, C2. fold c in C1, C2.
  split; [apply bytes_concat, F|]. split; [exact C2|]. rewrite C2. replace (16 * n / 16)%nat with n by (rewrite Nat.mul_comm; symmetry; apply Nat.div_mul; lia).
  rewrite C1, (cbc_dec_enc E D H _ _ st_zero SB). apply blocks16_concat. rewrite pkcs7_len. reflexivity.
Qed.
Lemma pad_byte_inj m m' : pkcs7 m = pkcs7 m' -> m = m'.
Proof.
  intros H. assert (LQ : (length m / 16 = length m' / 16)%nat) by (apply (f_equal (@length Z)) in H; rewrite !pkcs7_len in H; lia).
  assert (A : forall x, nth (16 * (length x / 16) + 15) (pkcs7 x) 0 = Z.of_nat (16 - length x mod 16)).
  { intros x. unfold pkcs7. pose proof (Nat.div_mod (length x) 16 ltac:(lia)). pose proof (Nat.mod_upper_bound (length x) 16 ltac:(lia)). rewrite app_nth2 by lia. apply nth_repeat_lt. lia. }
  pose proof (A m) as A1. rewrite H, LQ, (A m') in A1. pose proof (Nat.mod_upper_bound (length m) 16 ltac:(lia)). pose proof (Nat.mod_upper_bound (length m') 16 ltac:(lia)).
  assert (LL : length m = length m') by (pose proof (Nat.div_mod (length m) 16 ltac:(lia)); pose proof (Nat.div_mod (length m') 16 ltac:(lia)); lia).
  unfold pkcs7 in H. apply app_eq_len in H; [apply H|exact LL].
Qed.
Lemma cbc_round_trip : forall chk k m, bytes k -> In (length k / 4)%nat [4; 6; 8]%nat -> bytes m ->
  exists c, cbc_iv0_encrypt chk k m = Some c /\ cbc_iv0_decrypt chk k c = Some (Some (damaged m)).
Proof.
  intros chk k m B KL BM. assert (KL' : key_len (length k / 4)) by (destruct KL as [<-|[<-|[<-|[]]]]; unfold key_len; auto). destruct (cbc_any chk k B KL') as (E & D & H1 & H2 & H3 & _).
  eexists. split; [exact (H1 m BM)|]. destruct (cipher_shape E D m H3 BM) as (BC & LC & DC). destruct (H2 _ BC) as (r & ER & HR). rewrite ER. f_equal. apply HR. exists m.
  split; [rewrite LC, Nat.mul_comm; apply Nat.mod_mul; lia|]. split; [exact DC|reflexivity].
Qed.
Lemma damaged_whole : forall m, (length m mod 16 = 0)%nat -> damaged m = m.
Proof.
  intros m H. unfold damaged. rewrite H. cbn [repeat]. rewrite app_nil_r. apply firstn_all2. pose proof (Nat.div_mod (length m) 16 ltac:(lia)). lia.
Qed.
Lemma cbc_round_refuted : exists k m c m', length k = 16%nat /\ bytes k /\ bytes m /\ cbc_iv0_encrypt true k m = Some c /\ cbc_iv0_decrypt true k c = Some (Some m') /\ m' <> m.
Proof.
  destruct (cbc_round_trip true (repeat 0 16) [1; 2; 3]) as (c & E & D); [apply st_zero|left; reflexivity|repeat (constructor; [lia|]); constructor|].
  exists (repeat 0 16), [1; 2; 3], c, (damaged [1; 2; 3]). split; [reflexivity|]. split; [apply st_zero|]. split; [repeat (constructor; [lia|]); constructor|]. split; [exact E|]. split; [exact D|]. discriminate.
Qed.
(* keys of any other length *)
Lemma cbc_no_key : forall chk k k' x, ~ In (length k / 4)%nat [4; 6; 8]%nat -> ~ In (length k' / 4)%nat [4; 6; 8]%nat ->
  cbc_iv0_encrypt chk k x = cbc_iv0_encrypt chk k' x /\ cbc_iv0_decrypt chk k x = cbc_iv0_decrypt chk k' x.
Proof.
  intros chk k k' x N N'. assert (K : forall y : list Z, ~ In (length y / 4)%nat [4; 6; 8]%nat -> ~ key_len (length y / 4)) by (intros y H Q; apply H; destruct Q as [Q|[Q|Q]]; rewrite Q; cbn; auto).
  unfold cbc_iv0_encrypt, cbc_iv0_decrypt. rewrite !init_bad by (apply K; assumption). split; reflexivity.
Qed.
Lemma cbc_no_key_refuted : exists k k' m c, k <> k' /\ length k = 20%nat /\ length k' = 20%nat /\ bytes m /\ cbc_iv0_encrypt true k m = Some c /\ cbc_iv0_decrypt true k' c = Some (Some m).
Proof.
  exists (repeat 1 20), (repeat 2 20), (map Z.of_nat (seq 0 16)). eexists. split; [discriminate|]. split; [reflexivity|]. split; [reflexivity|].
  split; [apply Forall_forall; intros x X; apply in_map_iff in X; destruct X as (i & <- & X); apply in_seq in X; lia|]. split; [vm_compute; reflexivity|vm_compute; reflexivity].
Qed.
