(* The block cipher of aes.rs against FIPS 197, and its modes. *)
From Coq Require Import Lia Btauto.
From Verif Require Import Prim AesTab Aes SpecBytes SpecAes AesW AesP AesK.

(* a is ready to apply E and its inverse D *)
Definition cip (a : AES) (E D : list Z -> list Z) : Prop :=
  (forall s, st s -> ecb_encrypt a s = Some (E s) /\ st (E s) /\ D (E s) = s) /\
  (forall s, st s -> ecb_decrypt a s = Some (D s) /\ st (D s)).
Lemma irnds_st w : forall rs s, Forall word w -> (forall r, In r rs -> (4 * r + 4 <= length w)%nat) -> st s -> st (fold_left (irnd w) rs s).
Proof.
  induction rs as [|r rs IH]; intros s F L S; [exact S|]. cbn [fold_left]. apply IH; [exact F|intros x X; apply L; right; exact X|]. apply irnd_st; [exact F|apply L; left; reflexivity|exact S].
Qed.
Lemma icipher_st nr w s : Forall word w -> (0 < nr)%nat -> length w = (4 * (nr + 1))%nat -> st s -> st (InvCipher nr w s).
Proof.
  intros F N L S. unfold InvCipher. apply ark_st; [exact F|lia|]. apply isub_st, ishift_st.
  apply (irnds_st w (rev (seq 1 (nr - 1))) _ F); [intros r R; apply in_rev, in_seq in R; lia|]. apply ark_st; [exact F|lia|exact S].
Qed.
Lemma keyed_cip a w : keyed a w -> cip a (Cipher (a_nr a) w) (InvCipher (a_nr a) w).
Proof.
  intros ((rest & K) & R & F & N & L & _). split; intros s S.
  - split; [apply (ecb_enc_ok a w rest s); try assumption; lia|]. split; [apply cipher_st; try assumption; lia|apply inv_cipher; try assumption; lia].
  - split; [apply (ecb_dec_ok a w s); try assumption; lia|apply icipher_st; try assumption; lia].
Qed.
Lemma cip_set a f E D : cip a E D -> cip (set_f a f) E D.
Proof. intros C. exact C. Qed.

(* C101 *)
Lemma block_fips : forall a m key iv, length (a_fkey a) = 60%nat -> length (a_rkey a) = 60%nat -> bytes key -> length key = 16%nat \/ length key = 24%nat ->
  exists a', aes_init a m (length key) key iv = Some (true, a') /\
    forall b, length b = 16%nat -> bytes b -> ecb_encrypt a' b = Some (AES_enc key b) /\ ecb_decrypt a' b = Some (AES_dec key b) /\ AES_dec key (AES_enc key b) = b.
Proof.
  intros a m key iv LF LR B L. assert (KL : key_len (length key / 4)) by (destruct L as [ ->| ->]; [left|right; left]; reflexivity).
  destruct (init_ok a m (length key) key iv KL) as (a' & E & K & NR & _); [pose proof (Nat.mul_div_le (length key) 4); lia|exact B|split; assumption|].
  exists a'. split; [exact E|]. intros b LB BB. rewrite (code_keys_128 key L) in K. destruct (keyed_cip _ _ K) as [CE CD]. rewrite NR in CE, CD.
  destruct (CE b (conj LB BB)) as (E1 & _ & E2). destruct (CD b (conj LB BB)) as (E3 & _). unfold AES_enc, AES_dec. auto.
Qed.

(* modes *)
Definition iv_of (iv : option (list Z)) : list Z := match iv with Some x => x | None => repeat 0 16 end.
Lemma init_cip : forall m key iv, bytes key -> key_len (length key / 4) -> exists a E D, aes_init aes_new m (length key) key iv = Some (true, a) /\ cip a E D /\ a_mode a = m /\
  a_f a = (if (m =? M_ECB)%nat then repeat 0 16 else iv_of iv) /\ a_nr a = (length key / 4 + 6)%nat /\
  (length key = 16%nat \/ length key = 24%nat -> E = AES_enc key /\ D = AES_dec key).
Proof.
  intros m key iv B KL. destruct (init_ok aes_new m (length key) key iv KL) as (a' & E & K & NR & MO & F); [pose proof (Nat.mul_div_le (length key) 4); lia|exact B|split; reflexivity|].
  exists a', (Cipher (a_nr a') (code_keys (length key / 4) key)), (InvCipher (a_nr a') (code_keys (length key / 4) key)).
  split; [exact E|]. split; [exact (keyed_cip _ _ K)|]. split; [exact MO|]. split; [rewrite F; destruct iv; reflexivity|]. split; [exact NR|].
  intros L. rewrite (code_keys_128 key L), NR. split; reflexivity.
Qed.

Lemma bxor_firstn n : forall x y, bxor (firstn n x) (firstn n y) = firstn n (bxor x y).
Proof. induction n as [|n IH]; intros x y; [reflexivity|]. destruct x as [|a x], y as [|b y]; try reflexivity. cbn [firstn]. change (Z.lxor a b :: bxor (firstn n x) (firstn n y) = Z.lxor a b :: firstn n (bxor x y)). rewrite IH. reflexivity. Qed.
Lemma map2_bxor : forall x y, map2 Z.lxor x y = bxor x y.
Proof. induction x as [|a x IH]; intros [|b y]; try reflexivity. cbn [map2]. rewrite IH. reflexivity. Qed.
Lemma bxor_len : forall x y, length x = length y -> length (bxor x y) = length x.
Proof. induction x as [|a x IH]; intros [|b y] L; try reflexivity; try discriminate L. change (S (length (bxor x y)) = S (length x)). injection L as L. rewrite IH by exact L. reflexivity. Qed.
Lemma lxor_byte a b : 0 <= a < 256 -> 0 <= b < 256 -> 0 <= Z.lxor a b < 256.
Proof.
  intros A B. assert (N : 0 <= Z.lxor a b) by (apply Z.lxor_nonneg; lia). split; [exact N|].
  replace (Z.lxor a b) with (Z.lxor a b mod 2 ^ 8); [apply Z.mod_pos_bound; reflexivity|]. rewrite <- Z.land_ones by lia. apply Z.bits_inj. intros i.
  rewrite Z.land_spec, Z.lxor_spec. destruct (Z.lt_ge_cases i 0) as [I|I]; [rewrite !Z.testbit_neg_r by lia; reflexivity|].
  destruct (Z.lt_ge_cases i 8) as [J|J]; [rewrite Z.ones_spec_low by lia; apply andb_true_r|]. rewrite Z.ones_spec_high by lia. rewrite andb_false_r.
  assert (H : forall x, 0 <= x < 256 -> Z.testbit x i = false).
  { intros x X. destruct (Z.eq_dec x 0) as [ ->|NX]; [apply Z.bits_0|]. apply Z.bits_above_log2; [lia|]. apply Z.log2_lt_pow2; [lia|]. apply Z.lt_le_trans with (2 ^ 8); [lia|apply Z.pow_le_mono_r; lia]. }
  rewrite (H a A), (H b B). reflexivity.
Qed.
Lemma fst_bytes n l : bytes l -> bytes (firstn n l).
Proof. intros B. rewrite <- (firstn_skipn n l) in B. apply Forall_app in B. apply B. Qed.
Lemma bxor_bytes : forall x y, bytes x -> bytes y -> bytes (bxor x y).
Proof.
  induction x as [|a x IH]; intros [|b y] X Y; try exact (Forall_nil _). apply Forall_cons_iff in X, Y.
  change (bytes (Z.lxor a b :: bxor x y)). constructor; [apply (lxor_byte a b (proj1 X) (proj1 Y))|exact (IH y (proj2 X) (proj2 Y))].
Qed.
Lemma bxor_twice : forall x y, length x = length y -> bxor (bxor x y) y = x.
Proof.
  induction x as [|a x IH]; intros [|b y] L; try reflexivity; try discriminate L. injection L as L. change (Z.lxor (Z.lxor a b) b :: bxor (bxor x y) y = a :: x). rewrite IH by exact L.
  f_equal. rewrite Z.lxor_assoc, Z.lxor_nilpotent. apply Z.lxor_0_r.
Qed.
Lemma xor_n_eq n x y : xor_n n x y = firstn n (bxor x y) ++ skipn n x.
Proof. unfold xor_n. rewrite map2_bxor, bxor_firstn. reflexivity. Qed.
Lemma xor_n_st n x y : st x -> st y -> st (xor_n n x y).
Proof.
  intros [LX BX] [LY BY]. rewrite xor_n_eq. split.
  - rewrite app_length, firstn_length, skipn_length, bxor_len by lia. lia.
  - apply Forall_app. split; [apply fst_bytes, bxor_bytes; assumption|]. rewrite <- (firstn_skipn n x) in BX. apply Forall_app in BX. apply BX.
Qed.
Lemma xor_n_first n x y : st x -> st y -> (n <= 16)%nat -> firstn n (xor_n n x y) = bxor (firstn n x) (firstn n y) /\ skipn n (xor_n n x y) = skipn n x.
Proof.
  intros [LX BX] [LY BY] N. rewrite xor_n_eq, bxor_firstn. assert (L : length (firstn n (bxor x y)) = n) by (rewrite firstn_length, bxor_len by lia; lia).
  split; [rewrite <- L at 1; rewrite firstn_app, Nat.sub_diag, firstn_all, firstn_O, app_nil_r; reflexivity|].
  rewrite skipn_app, L, Nat.sub_diag. rewrite (skipn_all2 (firstn n (bxor x y))) by lia. reflexivity.
Qed.
Lemma xor_n_twice n x y : st x -> st y -> xor_n n (xor_n n x y) y = x.
Proof.
  intros X Y. destruct (Nat.le_gt_cases n 16) as [N|N].
  - destruct (xor_n_first n x y X Y N) as [A B]. rewrite xor_n_eq, <- bxor_firstn, A, B, bxor_twice; [apply firstn_skipn|]. destruct X, Y. rewrite !firstn_length. lia.
  - rewrite (xor_n_eq n x y). destruct X as [LX BX], Y as [LY BY]. rewrite (skipn_all2 x), app_nil_r, (firstn_all2 (bxor x y)) by (rewrite ?bxor_len; lia).
    rewrite xor_n_eq, bxor_twice by lia. rewrite firstn_all2, skipn_all2 by (rewrite ?bxor_len; lia). apply app_nil_r.
Qed.
Lemma xor16 x y : st x -> st y -> xor_n 16 x y = bxor x y.
Proof. intros [LX BX] [LY BY]. rewrite xor_n_eq, skipn_all2, app_nil_r by lia. apply firstn_all2. rewrite bxor_len; lia. Qed.

Lemma inc_st chk : forall f f', increment chk f = Some f' -> length f' = length f /\ (bytes f -> bytes f').
Proof.
  induction f as [|x f IH]; intros f' H; cbn [increment] in H.
  - injection H as <-. split; [reflexivity|intros B; exact B].
  - destruct (Z.eqb_spec x 255) as [E|E].
    + destruct chk; [discriminate H|]. destruct (increment false f) as [r|]; [|discriminate H]. cbn [bind] in H. injection H as <-. destruct (IH r eq_refl) as [L B]. split; [cbn; lia|].
      intros Q. apply Forall_cons_iff in Q. constructor; [lia|exact (B (proj2 Q))].
    + injection H as <-. split; [reflexivity|]. intros Q. apply Forall_cons_iff in Q. constructor; [lia|exact (proj2 Q)].
Qed.

(* the register stays a block *)
Definition live (a : AES) (E D : list Z -> list Z) : Prop := cip a E D /\ st (a_f a).
Lemma cfb_n m : is_cfb m = true -> (0 < m - M_CFB1 + 1 <= 4)%nat.
Proof. unfold is_cfb. cbn [existsb]. rewrite !orb_true_iff, !Nat.eqb_eq. unfold M_CFB1. intros [H|[H|[H|H]]]; try discriminate H; lia. Qed.
Lemma ofb_n m : is_ofb m = true -> (0 < m - M_OFB1 + 1 <= 16)%nat.
Proof. unfold is_ofb. cbn [existsb]. rewrite !orb_true_iff, !Nat.eqb_eq. unfold M_OFB1. intros [H|[H|[H|[H|[H|H]]]]]; try discriminate H; lia. Qed.
Lemma ctr_n m : is_ctr m = true -> (0 < m - M_CTR1 + 1 <= 16)%nat.
Proof. unfold is_ctr. cbn [existsb]. rewrite !orb_true_iff, !Nat.eqb_eq. unfold M_CTR1. intros [H|[H|[H|[H|[H|H]]]]]; try discriminate H; lia. Qed.
Lemma st_join n f b : st f -> st b -> (n <= 16)%nat -> st (skipn n f ++ firstn n b).
Proof.
  intros [LF BF] [LB BB] N. split; [rewrite app_length, skipn_length, firstn_length; lia|]. apply Forall_app.
  split; [rewrite <- (firstn_skipn n f) in BF; apply Forall_app in BF; apply BF|apply fst_bytes, BB].
Qed.
Lemma xor_n_front n x y : (length (firstn n (bxor x y)) = n) -> firstn n (xor_n n x y) = firstn n (bxor x y).
Proof. intros L. rewrite xor_n_eq. rewrite <- L at 1. rewrite firstn_app, Nat.sub_diag, firstn_all, firstn_O, app_nil_r. reflexivity. Qed.

(* one block *)
Lemma step_inv chk a E D b a' c v : live a E D -> st b -> aes_encrypt chk a b = Some (a', c, v) ->
  aes_decrypt chk a c = Some (a', b, v) /\ live a' E D /\ st c /\ a_mode a' = a_mode a.
Proof.
  intros [[CE CD] SF] SB H. unfold aes_encrypt in H. unfold aes_decrypt.
  destruct (a_mode a =? M_ECB)%nat eqn:ME.
  { destruct (CE b SB) as (E1 & E2 & E3). rewrite E1 in H. cbn [bind] in H. injection H as <- <- <-. destruct (CD _ E2) as (D1 & _). rewrite D1. cbn [bind]. rewrite E3.
    split; [reflexivity|]. split; [split; [split; assumption|exact SF]|split; [exact E2|reflexivity]]. }
  destruct (a_mode a =? M_CBC)%nat eqn:MC.
  { rewrite xor16 in H by assumption. pose proof (bxor_st _ _ SB SF) as SX. destruct (CE _ SX) as (E1 & E2 & E3). rewrite E1 in H. cbn [bind] in H. injection H as <- <- <-.
    destruct (CD _ E2) as (D1 & _). rewrite D1. cbn [bind]. rewrite E3. rewrite xor16 by assumption. rewrite bxor_twice by (destruct SB, SF; lia).
    split; [reflexivity|]. split; [split; [split; assumption|exact E2]|split; [exact E2|reflexivity]]. }
  destruct (CE _ SF) as (E1 & E2 & _).
  destruct (is_cfb (a_mode a)) eqn:MF.
  { rewrite E1 in H |- *. cbn [bind] in H |- *. injection H as <- <- <-. pose proof (xor_n_st (a_mode a - M_CFB1 + 1) b _ SB E2) as SX. rewrite xor_n_twice by assumption.
    split; [reflexivity|]. split; [split; [split; assumption|]|split; [exact SX|reflexivity]]. apply st_join; [exact SF|exact SX|]. pose proof (cfb_n _ MF). lia. }
  destruct (is_ofb (a_mode a)) eqn:MO.
  { rewrite E1 in H |- *. cbn [bind] in H |- *. injection H as <- <- <-. pose proof (xor_n_st (a_mode a - M_OFB1 + 1) b _ SB E2) as SX. rewrite xor_n_twice by assumption.
    split; [reflexivity|]. split; [split; [split; assumption|exact E2]|split; [exact SX|reflexivity]]. }
  destruct (is_ctr (a_mode a)) eqn:MT.
  { rewrite E1 in H |- *. cbn [bind] in H |- *. destruct (increment chk (a_f a)) as [f|] eqn:I; [|discriminate H]. cbn [bind] in H |- *. injection H as <- <- <-.
    pose proof (xor_n_st (a_mode a - M_CTR1 + 1) b _ SB E2) as SX. rewrite xor_n_twice by assumption. destruct (inc_st _ _ _ I) as [LI BI].
    split; [reflexivity|]. split; [split; [split; assumption|]|split; [exact SX|reflexivity]]. destruct SF as [SF1 SF2]. split; [cbn [a_f set_f]; lia|exact (BI SF2)]. }
  injection H as <- <- <-. split; [reflexivity|]. split; [split; [split; assumption|exact SF]|split; [exact SB|reflexivity]].
Qed.

(* a sequence of calls *)
Fixpoint blocks_run (f : AES -> list Z -> option (AES * list Z * Z)) (a : AES) (bs : list (list Z)) : option (AES * list (list Z)) :=
  match bs with
  | [] => Some (a, [])
  | b :: r => '(a, c, _) <- f a b ;; '(a, cs) <- blocks_run f a r ;; Some (a, c :: cs)
  end.
Lemma run_inv chk E D : forall bs a a' cs, live a E D -> Forall st bs -> blocks_run (aes_encrypt chk) a bs = Some (a', cs) ->
  blocks_run (aes_decrypt chk) a cs = Some (a', bs).
Proof.
  induction bs as [|b bs IH]; intros a a' cs LV F H; cbn [blocks_run] in H.
  - injection H as <- <-. reflexivity.
  - apply Forall_cons_iff in F. destruct (aes_encrypt chk a b) as [[[a1 c] v]|] eqn:EB; [|discriminate H]. cbn [bind] in H.
    destruct (blocks_run (aes_encrypt chk) a1 bs) as [[a2 r]|] eqn:ER; [|discriminate H]. cbn [bind] in H. injection H as <- <-.
    destruct (step_inv chk a E D b a1 c v LV (proj1 F) EB) as (DE & LV1 & _). cbn [blocks_run]. rewrite DE. cbn [bind]. rewrite (IH a1 a2 r LV1 (proj2 F) ER). reflexivity.
Qed.
Definition good_iv (iv : option (list Z)) : Prop := match iv with Some x => length x = 16%nat /\ bytes x | None => True end.
Lemma st_zero : st (repeat 0 16). Proof. split; [reflexivity|]. apply Forall_forall. intros x X. apply repeat_spec in X. lia. Qed.
Lemma init_live m key iv : bytes key -> key_len (length key / 4) -> good_iv iv -> exists a E D, aes_init aes_new m (length key) key iv = Some (true, a) /\ live a E D /\ a_mode a = m /\
  a_f a = (if (m =? M_ECB)%nat then repeat 0 16 else iv_of iv) /\ a_nr a = (length key / 4 + 6)%nat /\
  (length key = 16%nat \/ length key = 24%nat -> E = AES_enc key /\ D = AES_dec key).
Proof.
  intros B KL G. destruct (init_cip m key iv B KL) as (a & E & D & H1 & H2 & H3 & H4 & H5 & H6). exists a, E, D. split; [exact H1|]. split; [|auto]. split; [exact H2|]. rewrite H4.
  destruct (m =? M_ECB)%nat; [exact st_zero|]. destruct iv as [x|]; [exact G|exact st_zero].
Qed.
(* C103 *)
Lemma modes_invert : forall chk m key iv bs, bytes key -> In (length key / 4)%nat [4; 6; 8]%nat -> good_iv iv -> Forall (fun b => length b = 16%nat /\ bytes b) bs ->
  exists a, aes_init aes_new m (length key) key iv = Some (true, a) /\
    forall a' cs, blocks_run (aes_encrypt chk) a bs = Some (a', cs) -> blocks_run (aes_decrypt chk) a cs = Some (a', bs).
Proof.
  intros chk m key iv bs B KL G F. assert (KL' : key_len (length key / 4)) by (destruct KL as [<-|[<-|[<-|[]]]]; unfold key_len; auto).
  destruct (init_live m key iv B KL' G) as (a & E & D & H1 & H2 & _). exists a. split; [exact H1|]. intros a' cs. apply (run_inv chk E D bs a a' cs H2 F).
Qed.

(* C104: the modes *)
Lemma run_cbc chk E D : forall bs a, live a E D -> a_mode a = M_CBC -> Forall st bs -> exists a', blocks_run (aes_encrypt chk) a bs = Some (a', cbc_enc E (a_f a) bs) /\ live a' E D.
Proof.
  induction bs as [|b bs IH]; intros a LV M F; [exists a; split; [reflexivity|exact LV]|]. apply Forall_cons_iff in F. destruct F as [SB F]. destruct LV as [[CE CD] SF].
  cbn [blocks_run]. unfold aes_encrypt at 1. rewrite M. cbn [Nat.eqb M_ECB M_CBC]. rewrite xor16 by assumption. destruct (CE _ (bxor_st _ _ SB SF)) as (E1 & E2 & _). rewrite E1. cbn [bind].
  destruct (IH (set_f a (E (bxor b (a_f a)))) (conj (conj CE CD) E2) M F) as (a' & R & LV). rewrite R. cbn [bind]. exists a'. split; [reflexivity|exact LV].
Qed.
Lemma run_cfb chk E D : forall bs a, live a E D -> is_cfb (a_mode a) = true -> Forall st bs -> let n := (a_mode a - M_CFB1 + 1)%nat in
  exists a' cs, blocks_run (aes_encrypt chk) a bs = Some (a', cs) /\ map (firstn n) cs = cfb_enc E n (a_f a) (map (firstn n) bs) /\ map (skipn n) cs = map (skipn n) bs.
Proof.
  induction bs as [|b bs IH]; intros a LV M F n; [exists a, []; split; [reflexivity|split; reflexivity]|]. apply Forall_cons_iff in F. destruct F as [SB F]. destruct LV as [[CE CD] SF].
  pose proof (cfb_n _ M) as N. fold n in N. cbn [blocks_run]. unfold aes_encrypt at 1. assert (M0 : (a_mode a =? M_ECB)%nat = false) by (apply Nat.eqb_neq; intros X; rewrite X in M; discriminate M).
  assert (M1 : (a_mode a =? M_CBC)%nat = false) by (apply Nat.eqb_neq; intros X; rewrite X in M; discriminate M). rewrite M0, M1, M. fold n.
  destruct (CE _ SF) as (E1 & E2 & _). rewrite E1. cbn [bind]. set (c := xor_n n b (E (a_f a))). assert (SC : st c) by (apply xor_n_st; assumption).
  destruct (xor_n_first n b (E (a_f a)) SB E2 ltac:(lia)) as [X1 X2]. fold c in X1, X2.
  destruct (IH (set_f a (skipn n (a_f a) ++ firstn n c))) as (a' & cs & R & R1 & R2); [split; [split; assumption|apply st_join; [exact SF|exact SC|lia]]|exact M|exact F|].
  change (a_mode (set_f a (skipn n (a_f a) ++ firstn n c))) with (a_mode a) in R1, R2. fold n in R1, R2. rewrite R. cbn [bind]. exists a', (c :: cs). split; [reflexivity|]. cbn [map]. split.
  - rewrite R1. cbn [cfb_enc a_f set_f]. rewrite X1. reflexivity.
  - rewrite R2, X2. reflexivity.
Qed.
Lemma run_ofb chk E D : forall bs a, live a E D -> is_ofb (a_mode a) = true -> Forall st bs -> let n := (a_mode a - M_OFB1 + 1)%nat in
  exists a' cs, blocks_run (aes_encrypt chk) a bs = Some (a', cs) /\ map (firstn n) cs = ofb_enc E n (a_f a) (map (firstn n) bs) /\ map (skipn n) cs = map (skipn n) bs.
Proof.
  induction bs as [|b bs IH]; intros a LV M F n; [exists a, []; split; [reflexivity|split; reflexivity]|]. apply Forall_cons_iff in F. destruct F as [SB F]. destruct LV as [[CE CD] SF].
  pose proof (ofb_n _ M) as N. fold n in N. cbn [blocks_run]. unfold aes_encrypt at 1. assert (M0 : (a_mode a =? M_ECB)%nat = false) by (apply Nat.eqb_neq; intros X; rewrite X in M; discriminate M).
  assert (M1 : (a_mode a =? M_CBC)%nat = false) by (apply Nat.eqb_neq; intros X; rewrite X in M; discriminate M).
  assert (M2 : is_cfb (a_mode a) = false) by (clear - M; unfold is_ofb in M; cbn [existsb] in M; rewrite !orb_true_iff, !Nat.eqb_eq in M; destruct M as [H|[H|[H|[H|[H|H]]]]]; try discriminate H; rewrite H; reflexivity).
  rewrite M0, M1, M2, M. fold n. destruct (CE _ SF) as (E1 & E2 & _). rewrite E1. cbn [bind]. destruct (xor_n_first n b (E (a_f a)) SB E2 ltac:(lia)) as [X1 X2].
  destruct (IH (set_f a (E (a_f a)))) as (a' & cs & R & R1 & R2); [split; [split; assumption|exact E2]|exact M|exact F|].
  change (a_mode (set_f a (E (a_f a)))) with (a_mode a) in R1, R2. fold n in R1, R2. rewrite R. cbn [bind]. exists a', (xor_n n b (E (a_f a)) :: cs). split; [reflexivity|]. cbn [map]. split.
  - rewrite R1. cbn [ofb_enc a_f set_f]. rewrite X1. reflexivity.
  - rewrite R2, X2. reflexivity.
Qed.
(* the counter *)
Definition le_val (f : list Z) : Z := be_int (rev f).
Lemma le_val_cons x f : le_val (x :: f) = 256 * le_val f + x.
Proof. unfold le_val. cbn [rev]. rewrite be_int_snoc. lia. Qed.
Lemma le_val_range : forall f, bytes f -> 0 <= le_val f < 256 ^ Z.of_nat (length f).
Proof.
  induction f as [|x f IH]; intros B; [cbn; lia|]. apply Forall_cons_iff in B. specialize (IH (proj2 B)). rewrite le_val_cons. cbn [length]. rewrite Nat2Z.inj_succ, Z.pow_succ_r by lia. lia.
Qed.
Lemma inc_val : forall f, bytes f -> exists f', increment false f = Some f' /\ le_val f' = (le_val f + 1) mod 256 ^ Z.of_nat (length f).
Proof.
  induction f as [|x f IH]; intros B; [exists []; split; reflexivity|]. pose proof (le_val_range _ B) as RG. apply Forall_cons_iff in B. destruct B as [BX B].
  destruct (IH B) as (f' & I & V). pose proof (le_val_range f B) as RF. cbn [increment]. destruct (Z.eqb_spec x 255) as [E|E].
  - rewrite I. cbn [bind]. exists (0 :: f'). split; [reflexivity|]. rewrite !le_val_cons, V. cbn [length] in *. rewrite Nat2Z.inj_succ, Z.pow_succ_r by lia.
    replace (256 * le_val f + x + 1) with (256 * (le_val f + 1)) by lia. rewrite Z.mul_mod_distr_l by lia. lia.
  - exists (x + 1 :: f). split; [reflexivity|]. rewrite !le_val_cons in *. symmetry. rewrite Z.mod_small; [lia|]. cbn [length] in *. rewrite Nat2Z.inj_succ, Z.pow_succ_r in * by lia. lia.
Qed.
Lemma be_rev f : bytes f -> be_bytes (length f) (be_int (rev f)) = rev f.
Proof. intros B. rewrite <- (rev_length f). apply be_bytes_int. apply Forall_rev. exact B. Qed.
Lemma inc_le_eq f : st f -> increment false f = Some (inc_le f) /\ st (inc_le f).
Proof.
  intros [L B]. destruct (inc_val f B) as (f' & I & V). destruct (inc_st _ _ _ I) as [LI BI]. specialize (BI B). assert (E : inc_le f = f').
  { unfold inc_le, inc_be. unfold le_val in V. rewrite L in V. change (256 ^ Z.of_nat 16) with (2 ^ 128) in V. rewrite <- V. rewrite L in LI. rewrite <- LI. rewrite (be_rev f' BI). apply rev_involutive. }
  rewrite E. split; [exact I|]. split; [lia|exact BI].
Qed.
Lemma run_ctr E D : forall bs a, live a E D -> is_ctr (a_mode a) = true -> Forall st bs -> let n := (a_mode a - M_CTR1 + 1)%nat in
  exists a' cs, blocks_run (aes_encrypt false) a bs = Some (a', cs) /\ map (firstn n) cs = ctr_enc E inc_le n (a_f a) (map (firstn n) bs) /\ map (skipn n) cs = map (skipn n) bs.
Proof.
  induction bs as [|b bs IH]; intros a LV M F n; [exists a, []; split; [reflexivity|split; reflexivity]|]. apply Forall_cons_iff in F. destruct F as [SB F]. destruct LV as [[CE CD] SF].
  pose proof (ctr_n _ M) as N. fold n in N. cbn [blocks_run]. unfold aes_encrypt at 1. assert (M0 : (a_mode a =? M_ECB)%nat = false) by (apply Nat.eqb_neq; intros X; rewrite X in M; discriminate M).
  assert (M1 : (a_mode a =? M_CBC)%nat = false) by (apply Nat.eqb_neq; intros X; rewrite X in M; discriminate M).
  assert (M2 : is_cfb (a_mode a) = false /\ is_ofb (a_mode a) = false) by (clear - M; unfold is_ctr in M; cbn [existsb] in M; rewrite !orb_true_iff, !Nat.eqb_eq in M; destruct M as [H|[H|[H|[H|[H|H]]]]]; try discriminate H; rewrite H; split; reflexivity).
  rewrite M0, M1, (proj1 M2), (proj2 M2), M. fold n. destruct (CE _ SF) as (E1 & E2 & _). rewrite E1. cbn [bind]. destruct (xor_n_first n b (E (a_f a)) SB E2 ltac:(lia)) as [X1 X2].
  destruct (inc_le_eq _ SF) as [I SI]. rewrite I. cbn [bind].
  destruct (IH (set_f a (inc_le (a_f a)))) as (a' & cs & R & R1 & R2); [split; [split; assumption|exact SI]|exact M|exact F|].
  change (a_mode (set_f a (inc_le (a_f a)))) with (a_mode a) in R1, R2. fold n in R1, R2. rewrite R. cbn [bind]. exists a', (xor_n n b (E (a_f a)) :: cs). split; [reflexivity|]. cbn [map]. split.
  - rewrite R1. cbn [ctr_enc a_f set_f]. rewrite X1. reflexivity.
  - rewrite R2, X2. reflexivity.
Qed.
(* with overflow checks *)
Lemma inc_chk f : st f -> increment true f = if nth 0 f 0 =? 255 then None else Some (nth 0 f 0 + 1 :: tl f).
Proof. intros [L B]. destruct f as [|x f]; [discriminate L|]. reflexivity. Qed.
Lemma run_ctr_chk E D : forall bs a, live a E D -> is_ctr (a_mode a) = true -> Forall st bs ->
  (blocks_run (aes_encrypt true) a bs = None <-> 255 < nth 0 (a_f a) 0 + Z.of_nat (length bs)).
Proof.
  induction bs as [|b bs IH]; intros a LV M F.
  - cbn [blocks_run length Z.of_nat]. destruct LV as [_ [L B]]. destruct (a_f a) as [|x f]; [discriminate L|]. apply Forall_cons_iff in B. cbn [nth]. split; [discriminate|lia].
  - apply Forall_cons_iff in F. destruct F as [SB F]. destruct LV as [[CE CD] SF]. cbn [blocks_run]. unfold aes_encrypt at 1.
    assert (M0 : (a_mode a =? M_ECB)%nat = false) by (apply Nat.eqb_neq; intros X; rewrite X in M; discriminate M).
    assert (M1 : (a_mode a =? M_CBC)%nat = false) by (apply Nat.eqb_neq; intros X; rewrite X in M; discriminate M).
    assert (M2 : is_cfb (a_mode a) = false /\ is_ofb (a_mode a) = false) by (clear - M; unfold is_ctr in M; cbn [existsb] in M; rewrite !orb_true_iff, !Nat.eqb_eq in M; destruct M as [H|[H|[H|[H|[H|H]]]]]; try discriminate H; rewrite H; split; reflexivity).
    rewrite M0, M1, (proj1 M2), (proj2 M2), M. destruct (CE _ SF) as (E1 & E2 & _). rewrite E1. cbn [bind]. rewrite (inc_chk _ SF). cbn [length]. rewrite Nat2Z.inj_succ.
    destruct (Z.eqb_spec (nth 0 (a_f a) 0) 255) as [X|X].
    + cbn [bind]. split; [intros _; lia|reflexivity].
    + cbn [bind]. assert (SN : st (nth 0 (a_f a) 0 + 1 :: tl (a_f a))).
      { clear - SF X. destruct SF as [L B]. destruct (a_f a) as [|x f]; [discriminate L|]. cbn [nth tl] in *. apply Forall_cons_iff in B. split; [exact L|constructor; [lia|exact (proj2 B)]]. }
      specialize (IH (set_f a (nth 0 (a_f a) 0 + 1 :: tl (a_f a))) (conj (conj CE CD) SN) M F). cbn [set_f a_f nth] in IH.
      destruct (blocks_run (aes_encrypt true) _ bs) as [[a' cs]|]; cbn [bind]; [|split; [intros _; pose proof (proj1 IH eq_refl); lia|reflexivity]].
      split; [discriminate|]. intros H. exfalso. assert (Q : @Some (AES * list (list Z)) (a', cs) = None) by (apply IH; lia). discriminate Q.
Qed.

(* the modes, from init *)
Lemma key_len_std (key : list Z) : length key = 16%nat \/ length key = 24%nat -> key_len (length key / 4).
Proof. intros [ ->| ->]; [left|right; left]; reflexivity. Qed.
Lemma cbc_std : forall chk key iv bs, bytes key -> length key = 16%nat \/ length key = 24%nat -> good_iv iv -> Forall (fun b => length b = 16%nat /\ bytes b) bs ->
  exists a a', aes_init aes_new M_CBC (length key) key iv = Some (true, a) /\ blocks_run (aes_encrypt chk) a bs = Some (a', cbc_enc (AES_enc key) (iv_of iv) bs).
Proof.
  intros chk key iv bs B L G F. destruct (init_live M_CBC key iv B (key_len_std key L) G) as (a & E & D & H1 & H2 & H3 & H4 & _ & H5). destruct (H5 L) as [-> ->].
  destruct (run_cbc chk _ _ bs a H2 H3 F) as (a' & R & _). rewrite H4 in R. exists a, a'. split; [exact H1|exact R].
Qed.
Lemma mode_ecb m (x y : list Z) : (m <> 0)%nat -> (if (m =? M_ECB)%nat then x else y) = y.
Proof. intros H. destruct (Nat.eqb_spec m M_ECB); [contradiction|reflexivity]. Qed.
Lemma cfb_std : forall chk n key iv bs, In n [1; 2; 4]%nat -> bytes key -> length key = 16%nat \/ length key = 24%nat -> good_iv iv -> Forall (fun b => length b = 16%nat /\ bytes b) bs ->
  exists a a' cs, aes_init aes_new (M_CFB1 + n - 1) (length key) key iv = Some (true, a) /\ blocks_run (aes_encrypt chk) a bs = Some (a', cs) /\
    map (firstn n) cs = cfb_enc (AES_enc key) n (iv_of iv) (map (firstn n) bs) /\ map (skipn n) cs = map (skipn n) bs.
Proof.
  intros chk n key iv bs N B L G F. destruct (init_live (M_CFB1 + n - 1) key iv B (key_len_std key L) G) as (a & E & D & H1 & H2 & H3 & H4 & _ & H5). destruct (H5 L) as [-> ->].
  assert (NN : (1 <= n)%nat) by (destruct N as [<-|[<-|[<-|[]]]]; lia).
  destruct (run_cfb chk _ _ bs a H2) as (a' & cs & R); [rewrite H3; destruct N as [<-|[<-|[<-|[]]]]; reflexivity|exact F|]. rewrite H4, H3, mode_ecb in R by (unfold M_CFB1; lia).
  replace (M_CFB1 + n - 1 - M_CFB1 + 1)%nat with n in R by lia. exists a, a', cs. split; [exact H1|exact R].
Qed.
Lemma ofb_std : forall chk n key iv bs, In n [1; 2; 4; 8; 16]%nat -> bytes key -> length key = 16%nat \/ length key = 24%nat -> good_iv iv -> Forall (fun b => length b = 16%nat /\ bytes b) bs ->
  exists a a' cs, aes_init aes_new (M_OFB1 + n - 1) (length key) key iv = Some (true, a) /\ blocks_run (aes_encrypt chk) a bs = Some (a', cs) /\
    map (firstn n) cs = ofb_enc (AES_enc key) n (iv_of iv) (map (firstn n) bs) /\ map (skipn n) cs = map (skipn n) bs.
Proof.
  intros chk n key iv bs N B L G F. destruct (init_live (M_OFB1 + n - 1) key iv B (key_len_std key L) G) as (a & E & D & H1 & H2 & H3 & H4 & _ & H5). destruct (H5 L) as [-> ->].
  assert (NN : (1 <= n)%nat) by (destruct N as [<-|[<-|[<-|[<-|[<-|[]]]]]]; lia).
  destruct (run_ofb chk _ _ bs a H2) as (a' & cs & R); [rewrite H3; destruct N as [<-|[<-|[<-|[<-|[<-|[]]]]]]; reflexivity|exact F|]. rewrite H4, H3, mode_ecb in R by (unfold M_OFB1; lia).
  replace (M_OFB1 + n - 1 - M_OFB1 + 1)%nat with n in R by lia. exists a, a', cs. split; [exact H1|exact R].
Qed.
Lemma ctr_std : forall n key iv bs, In n [1; 2; 4; 8; 16]%nat -> bytes key -> length key = 16%nat \/ length key = 24%nat -> good_iv iv -> Forall (fun b => length b = 16%nat /\ bytes b) bs ->
  exists a a' cs, aes_init aes_new (M_CTR1 + n - 1) (length key) key iv = Some (true, a) /\ blocks_run (aes_encrypt false) a bs = Some (a', cs) /\
    map (firstn n) cs = ctr_enc (AES_enc key) inc_le n (iv_of iv) (map (firstn n) bs) /\ map (skipn n) cs = map (skipn n) bs.
Proof.
  intros n key iv bs N B L G F. destruct (init_live (M_CTR1 + n - 1) key iv B (key_len_std key L) G) as (a & E & D & H1 & H2 & H3 & H4 & _ & H5). destruct (H5 L) as [-> ->].
  assert (NN : (1 <= n)%nat) by (destruct N as [<-|[<-|[<-|[<-|[<-|[]]]]]]; lia).
  destruct (run_ctr _ _ bs a H2) as (a' & cs & R); [rewrite H3; destruct N as [<-|[<-|[<-|[<-|[<-|[]]]]]]; reflexivity|exact F|]. rewrite H4, H3, mode_ecb in R by (unfold M_CTR1; lia).
  replace (M_CTR1 + n - 1 - M_CTR1 + 1)%nat with n in R by lia. exists a, a', cs. split; [exact H1|exact R].
Qed.
(* with overflow checks, after how many blocks CTR panics *)
Lemma ctr_panics : forall n key iv bs, In n [1; 2; 4; 8; 16]%nat -> bytes key -> In (length key / 4)%nat [4; 6; 8]%nat -> good_iv iv -> Forall (fun b => length b = 16%nat /\ bytes b) bs ->
  exists a, aes_init aes_new (M_CTR1 + n - 1) (length key) key iv = Some (true, a) /\
    (blocks_run (aes_encrypt true) a bs = None <-> 255 < nth 0 (iv_of iv) 0 + Z.of_nat (length bs)).
Proof.
  intros n key iv bs N B KL G F. assert (KL' : key_len (length key / 4)) by (destruct KL as [<-|[<-|[<-|[]]]]; unfold key_len; auto).
  destruct (init_live (M_CTR1 + n - 1) key iv B KL' G) as (a & E & D & H1 & H2 & H3 & H4 & _). exists a. split; [exact H1|].
  rewrite mode_ecb in H4 by (unfold M_CTR1; lia). rewrite <- H4. apply (run_ctr_chk E D bs a H2); [|exact F]. rewrite H3. destruct N as [<-|[<-|[<-|[<-|[<-|[]]]]]]; reflexivity.
Qed.
Lemma ctr_chk_refuted : exists key bs a, length key = 16%nat /\ Forall (fun b => length b = 16%nat /\ bytes b) bs /\ length bs = 256%nat /\
  aes_init aes_new (M_CTR1 + 15) (length key) key None = Some (true, a) /\ blocks_run (aes_encrypt true) a bs = None.
Proof.
  set (bs := repeat (repeat 0 16) 256). assert (F : Forall (fun b => length b = 16%nat /\ bytes b) bs) by (apply Forall_forall; intros b IB; apply repeat_spec in IB; rewrite IB; exact st_zero).
  destruct (ctr_panics 16 (repeat 0 16) None bs) as (a & I & P); [cbn; auto 6|apply st_zero|left; reflexivity|exact I|exact F|].
  exists (repeat 0 16), bs, a. split; [reflexivity|]. split; [exact F|]. split; [apply repeat_length|]. split; [exact I|]. apply P. unfold bs. rewrite repeat_length. reflexivity.
Qed.
(* the counter is not the standard one *)
Lemma aes_inj key x y : bytes key -> length key = 16%nat -> st x -> st y -> AES_enc key x = AES_enc key y -> x = y.
Proof.
  intros B L X Y H. destruct (block_fips aes_new 0 key None eq_refl eq_refl B (or_introl L)) as (a0 & _ & P).
  destruct (P x (proj1 X) (proj2 X)) as (_ & _ & IX). destruct (P y (proj1 Y) (proj2 Y)) as (_ & _ & IY). rewrite <- IX, <- IY, H. reflexivity.
Qed.
Lemma cons_inj (a b : Z) l m : a :: l = b :: m -> a = b /\ l = m. Proof. intros H. injection H. auto. Qed.
Lemma cons_inj2 (a b c d : list Z) : [a; b] = [c; d] -> b = d. Proof. intros H. injection H. auto. Qed.
Lemma bxor_inj : forall z x y, length z = length x -> length z = length y -> bxor z x = bxor z y -> x = y.
Proof.
  induction z as [|c z IH]; intros [|a x] [|b y] LX LY H; try reflexivity; try discriminate LX; try discriminate LY. injection LX as LX. injection LY as LY.
  change (Z.lxor c a :: bxor z x = Z.lxor c b :: bxor z y) in H. apply cons_inj in H. destruct H as [H1 H2]. rewrite (IH x y LX LY H2). f_equal.
  apply (f_equal (Z.lxor c)) in H1. rewrite <- !Z.lxor_assoc, !Z.lxor_nilpotent, !Z.lxor_0_l in H1. exact H1.
Qed.
Lemma ctr_refuted : exists key iv bs a a' cs, length key = 16%nat /\ bytes key /\ length iv = 16%nat /\ bytes iv /\ Forall (fun b => length b = 16%nat /\ bytes b) bs /\
  aes_init aes_new (M_CTR1 + 15) (length key) key (Some iv) = Some (true, a) /\ blocks_run (aes_encrypt false) a bs = Some (a', cs) /\
  cs <> ctr_enc (AES_enc key) inc_be 16 iv bs.
Proof.
  set (z := repeat 0 16). assert (SZ : st z) by exact st_zero. assert (F : Forall (fun b => length b = 16%nat /\ bytes b) [z; z]) by (constructor; [exact SZ|constructor; [exact SZ|constructor]]).
  destruct (ctr_std 16 z (Some z) [z; z]) as (a & a' & cs & H1 & H2 & H3 & H4); [cbn; auto 6|apply SZ|left; reflexivity|exact SZ|exact F|].
  exists z, z, [z; z], a, a', cs. split; [reflexivity|]. split; [apply SZ|]. split; [reflexivity|]. split; [apply SZ|]. split; [exact F|]. split; [exact H1|]. split; [exact H2|].
  intros H. rewrite H in H3. clear H H1 H2 H4. cbn [map ctr_enc iv_of] in H3. rewrite <- !bxor_firstn in H3. change (firstn 16 z) with z in H3. rewrite !firstn_firstn in H3. cbn [Nat.min] in H3.
  assert (SE : forall x, st x -> st (AES_enc z x)).
  { intros x X. destruct (init_cip M_ECB z None (proj2 SZ) (or_introl eq_refl)) as (a0 & E & D & _ & [CE _] & _ & _ & _ & Q). destruct (Q (or_introl eq_refl)) as [-> _]. apply CE, X. }
  pose proof (SE _ SZ) as S0. assert (SL : st (inc_le z)) by (apply inc_le_eq; exact SZ). assert (SB : st (inc_be z)) by (split; [apply be_bytes_length|apply be_bytes_bytes]).
  pose proof (SE _ SL) as S1. pose proof (SE _ SB) as S2. apply cons_inj2 in H3. rewrite !firstn_all2 in H3 by (destruct S1 as [Q1 _], S2 as [Q2 _]; rewrite ?Q1, ?Q2; apply le_n).
  apply bxor_inj in H3; [|destruct S2 as [Q _]; rewrite Q; reflexivity|destruct S1 as [Q _]; rewrite Q; reflexivity]. apply (aes_inj z _ _ (proj2 SZ) eq_refl SB SL) in H3. discriminate H3.
Qed.
(* 32-byte keys *)
Lemma aes256_refuted : exists key b c, length key = 32%nat /\ bytes key /\ length b = 16%nat /\ bytes b /\
  ('(_, a) <- aes_init aes_new M_ECB (length key) key None ;; ecb_encrypt a b) = Some c /\ c <> AES_enc key b.
Proof.
  exists (map Z.of_nat (seq 0 32)), (map (fun i => 17 * Z.of_nat i) (seq 0 16)), [235; 187; 97; 177; 135; 148; 214; 230; 125; 44; 28; 248; 238; 201; 121; 62].
  split; [reflexivity|]. split; [apply Forall_forall; intros x X; apply in_map_iff in X; destruct X as (i & <- & X); apply in_seq in X; lia|].
  split; [reflexivity|]. split; [apply Forall_forall; intros x X; apply in_map_iff in X; destruct X as (i & <- & X); apply in_seq in X; lia|].
  split; [vm_compute; reflexivity|]. vm_compute. intros X. discriminate X.
Qed.
