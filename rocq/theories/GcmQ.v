(* gcm.rs against SP 800-38D: GHASH, GCTR, whole runs. *)
From Coq Require Import Lia.
From Verif Require Import Prim Aes Gcm SpecBytes SpecAes SpecGcm AesW AesP AesK AesM GcmP.
Opaque gcm_mul gcm_precompute gf2mul.

(* lengths *)
Definition lok (l : Z * Z) : Prop := u32 (fst l) /\ u32 (snd l).
Definition lval (l : Z * Z) : Z := fst l * 4294967296 + snd l.
Definition q64 : Z := 4294967296 * 4294967296.
Lemma len_inc_ok l : lok l -> exists l', len_inc false l = Some l' /\ lok l' /\ lval l' = (lval l + 1) mod q64.
Proof.
  destruct l as [a b]. intros [A B]. unfold u32, lval, lok, q64 in *. cbn [fst snd] in *. unfold len_inc. rewrite (inc32_ok b B). cbn [bind].
  destruct (Z.eq_dec b 4294967295) as [-> |N].
  - change ((4294967295 + 1) mod 4294967296) with 0. cbn [Z.eqb]. rewrite (inc32_ok a A). cbn [bind]. eexists. split; [reflexivity|]. cbn [fst snd].
    pose proof (Z.mod_pos_bound (a + 1) 4294967296 ltac:(lia)). unfold u32. split; [lia|]. rewrite Z.add_0_r. replace (a * 4294967296 + 4294967295 + 1) with ((a + 1) * 4294967296) by ring. symmetry. apply Z.mul_mod_distr_r; lia.
  - rewrite (Z.mod_small (b + 1)) by lia. destruct (Z.eqb_spec (b + 1) 0) as [E|E]; [lia|]. cbn [bind]. eexists. split; [reflexivity|]. cbn [fst snd]. unfold u32. split; [lia|]. rewrite Z.mod_small by lia. ring.
Qed.
Lemma len_add_ok n : forall l, lok l -> exists l', len_add false n l = Some l' /\ lok l' /\ lval l' = (lval l + Z.of_nat n) mod q64.
Proof.
  induction n as [|n IH]; intros l L.
  - exists l. split; [reflexivity|]. split; [exact L|]. cbn [Z.of_nat]. rewrite Z.add_0_r. symmetry. apply Z.mod_small. unfold lok, lval, u32, q64 in *. lia.
  - cbn [len_add]. destruct (len_inc_ok l L) as (l1 & E1 & L1 & V1). rewrite E1. cbn [bind]. destruct (IH l1 L1) as (l2 & E2 & L2 & V2). exists l2. split; [exact E2|]. split; [exact L2|].
    rewrite V2, V1. rewrite Zplus_mod_idemp_l. f_equal. lia.
Qed.
Lemma len_words_ok l : lok l -> concat (map gunpack (len_words l)) = be_bytes 8 (8 * lval l).
Proof.
  destruct l as [a b]. unfold lok, lval. cbn [fst snd]. intros [A B]. unfold u32 in *. unfold len_words. cbn [map concat]. rewrite app_nil_r, !gunpack_be.
  assert (S3 : forall t, shl32 t 3 = (t * 8) mod 4294967296) by (intros t; unfold shl32; change 4294967295 with (Z.ones 32); rewrite Z.land_ones, Z.shiftl_mul_pow2 by lia; reflexivity).
  assert (HI : Z.shiftr (Z.land b 3758096384) 29 = b / 536870912).
  { rewrite Z.shiftr_land. change (Z.shiftr 3758096384 29) with (Z.ones 3). rewrite Z.land_ones, Z.shiftr_div_pow2 by lia. change (2 ^ 29) with 536870912. apply Z.mod_small. change (2 ^ 3) with 8. split; [apply Z.div_pos; lia|apply Z.div_lt_upper_bound; lia]. }
  rewrite HI, !S3. assert (H8 : 0 <= b / 536870912 < 8) by (split; [apply Z.div_pos; lia|apply Z.div_lt_upper_bound; lia]).
  assert (D : (b * 8) mod 4294967296 = 8 * b - 4294967296 * (b / 536870912)).
  { symmetry. apply Z.mod_unique with (b / 536870912); [left|lia]. pose proof (Z.div_mod b 536870912 ltac:(lia)). pose proof (Z.mod_pos_bound b 536870912 ltac:(lia)). lia. }
  assert (M8 : (a * 8) mod 4294967296 = (a mod 536870912) * 2 ^ 3) by (change 4294967296 with (536870912 * 8); change (2 ^ 3) with 8; apply Z.mul_mod_distr_r; lia).
  rewrite M8, lor_add by (change (2 ^ 3) with 8; lia). change (2 ^ 3) with 8.
  assert (R0 : 0 <= (b * 8) mod 4294967296 < 256 ^ Z.of_nat 4) by (change (256 ^ Z.of_nat 4) with 4294967296; apply Z.mod_pos_bound; lia).
  rewrite <- be_app by exact R0. change (4 + 4)%nat with 8%nat. rewrite <- (be_bytes_mod 8 (8 * (a * 4294967296 + b))). f_equal. change (256 ^ Z.of_nat 8) with (4294967296 * 4294967296). change (256 ^ Z.of_nat 4) with 4294967296. rewrite D.
  pose proof (Z.div_mod a 536870912 ltac:(lia)) as DA. pose proof (Z.mod_pos_bound a 536870912 ltac:(lia)) as MA. apply Z.mod_unique with (a / 536870912); [left|]; change 4294967296 with (8 * 536870912) in *; lia.
Qed.

(* blocks *)
Definition blk (b : list Z) : list Z := firstn 16 b ++ repeat 0 (16 - length b).
Lemma zero_bytes n : bytes (repeat 0 n). Proof. apply Forall_forall. intros x X. apply repeat_spec in X. lia. Qed.
Lemma blk_st b : bytes b -> st (blk b).
Proof.
  intros B. unfold blk. split; [rewrite app_length, firstn_length, repeat_length; lia|]. apply Forall_app. split; [apply fst_bytes, B|apply zero_bytes].
Qed.
Lemma xor_blk_n : forall n x b, length x = n -> xor_n (Nat.min n (length b)) x b = bxor x (firstn n b ++ repeat 0 (n - length b)).
Proof.
  unfold xor_n. induction n as [|n IH]; intros [|x0 x] b L; try discriminate L; [destruct b; reflexivity|]. injection L as L. destruct b as [|b0 b].
  - cbn [length Nat.min firstn map2 app skipn Nat.sub repeat]. change (x0 :: x = Z.lxor x0 0 :: bxor x (repeat 0 n)). rewrite Z.lxor_0_r. f_equal. specialize (IH x [] L). cbn [length] in IH. rewrite Nat.min_0_r, !firstn_nil, Nat.sub_0_r in IH. exact IH.
  - cbn [length Nat.min firstn map2 app skipn Nat.sub repeat]. change (Z.lxor x0 b0 :: (map2 Z.lxor (firstn (Nat.min n (length b)) x) (firstn (Nat.min n (length b)) b) ++ skipn (Nat.min n (length b)) x) = Z.lxor x0 b0 :: bxor x (firstn n b ++ repeat 0 (n - length b))).
    f_equal. apply IH, L.
Qed.
Lemma xor_blk x b : st x -> xor_n (Nat.min 16 (length b)) x b = bxor x (blk b).
Proof. intros [L _]. apply xor_blk_n, L. Qed.
Lemma bxor_st x y : st x -> st y -> st (bxor x y).
Proof. intros [LX BX] [LY BY]. split; [rewrite bxor_len; [exact LX|congruence]|apply bxor_bytes; assumption]. Qed.
Lemma blocks_app n : forall m x y, length x = (16 * n)%nat -> blocks16 (n + m) (x ++ y) = blocks16 n x ++ blocks16 m y.
Proof.
  induction n as [|n IH]; intros m x y L; [destruct x; [reflexivity|discriminate L]|]. cbn [Nat.add blocks16 app]. rewrite firstn_app, skipn_app. replace (16 - length x)%nat with 0%nat by lia. rewrite firstn_O, app_nil_r, skipn_O. f_equal. apply IH. rewrite skipn_length. lia.
Qed.
Lemma len16 (x : list Z) : (length x mod 16 = 0)%nat -> length x = (16 * (length x / 16))%nat.
Proof. intros M. pose proof (Nat.div_mod (length x) 16 ltac:(lia)). lia. Qed.
Lemma blocks_of_app x y : (length x mod 16 = 0)%nat -> blocks_of (x ++ y) = blocks_of x ++ blocks_of y.
Proof.
  intros M. pose proof (len16 x M) as L. unfold blocks_of. rewrite app_length. replace ((length x + length y) / 16)%nat with (length x / 16 + length y / 16)%nat.
  - apply blocks_app. exact L.
  - rewrite L at 2. rewrite Nat.add_comm at 1. replace (16 * (length x / 16) + length y)%nat with (length y + (length x / 16) * 16)%nat by lia. rewrite Nat.div_add by lia. reflexivity.
Qed.
Definition zblocks (b : list Z) : list (list Z) := blocks_of (zpad b).
Lemma zpad_mod b : (length (zpad b) mod 16 = 0)%nat.
Proof.
  unfold zpad. rewrite app_length, repeat_length. pose proof (Nat.div_mod (length b) 16 ltac:(lia)) as D. pose proof (Nat.mod_upper_bound (length b) 16 ltac:(lia)) as M.
  destruct (Nat.eq_dec (length b mod 16) 0) as [E|E].
  - rewrite E. change ((16 - 0) mod 16)%nat with 0%nat. rewrite Nat.add_0_r. exact E.
  - rewrite (Nat.mod_small (16 - length b mod 16)) by lia. replace (length b + (16 - length b mod 16))%nat with (0 + (length b / 16 + 1) * 16)%nat by lia. rewrite Nat.mod_add by lia. reflexivity.
Qed.
Lemma zpad_full b : (length b mod 16 = 0)%nat -> zpad b = b.
Proof. intros M. unfold zpad. rewrite M. change ((16 - 0) mod 16)%nat with 0%nat. apply app_nil_r. Qed.
Lemma zpad_app a b : (length a mod 16 = 0)%nat -> zpad (a ++ b) = a ++ zpad b.
Proof.
  intros M. unfold zpad. rewrite <- app_assoc. do 2 f_equal. rewrite app_length. rewrite (len16 a M). rewrite Nat.add_comm, Nat.mul_comm, Nat.mod_add by lia. reflexivity.
Qed.
Lemma zb_app a b : (length a mod 16 = 0)%nat -> zblocks (a ++ b) = zblocks a ++ zblocks b.
Proof. intros M. unfold zblocks. rewrite (zpad_app a b M), (zpad_full a M). apply blocks_of_app, M. Qed.
Lemma zb_cons b : b <> [] -> zblocks b = blk b :: zblocks (skipn 16 b).
Proof.
  intros N. assert (LB : (0 < length b)%nat) by (destruct b; [contradiction N; reflexivity|cbn [length]; lia]). destruct (le_lt_dec 16 (length b)) as [L|L].
  - rewrite <- (firstn_skipn 16 b) at 1. assert (LF : length (firstn 16 b) = 16%nat) by (rewrite firstn_length; lia). rewrite zb_app by (rewrite LF; reflexivity).
    unfold zblocks at 1. rewrite zpad_full by (rewrite LF; reflexivity). unfold blocks_of. rewrite LF. change (16 / 16)%nat with 1%nat. cbn [blocks16 app]. unfold blk. replace (16 - length b)%nat with 0%nat by lia. cbn [repeat]. rewrite app_nil_r, firstn_firstn. reflexivity.
  - rewrite (skipn_all2 b) by lia. unfold blk. rewrite firstn_all2 by lia. unfold zblocks at 1, blocks_of, zpad. rewrite app_length, repeat_length. rewrite (Nat.mod_small (length b)) by lia. rewrite (Nat.mod_small (16 - length b)) by lia.
    replace (length b + (16 - length b))%nat with 16%nat by lia. change (16 / 16)%nat with 1%nat. cbn [blocks16]. rewrite firstn_all2 by (rewrite app_length, repeat_length; lia). reflexivity.
Qed.
Lemma zb_nil : zblocks [] = []. Proof. reflexivity. Qed.
Lemma ghash_app h y a b : ghash_from h y (a ++ b) = ghash_from h (ghash_from h y a) b.
Proof. apply fold_left_app. Qed.
Lemma ghash_cons h y x r : ghash_from h y (x :: r) = ghash_from h (block_mul (bxor y x) h) r. Proof. reflexivity. Qed.
Lemma skip_bytes n l : bytes l -> bytes (skipn n l). Proof. intros B. rewrite <- (firstn_skipn n l) in B. apply Forall_app in B. apply B. Qed.

Lemma absorb_ok h : st h -> forall fuel b x l, (length b <= fuel)%nat -> st x -> bytes b -> lok l ->
  exists l', absorb fuel false (gcm_precompute h) b x l = Some (ghash_from h x (zblocks b), l') /\ st (ghash_from h x (zblocks b)) /\ lok l' /\ lval l' = (lval l + Z.of_nat (length b)) mod q64.
Proof.
  intros H. assert (NIL : forall x l, st x -> lok l -> st (ghash_from h x (zblocks [])) /\ lok l /\ lval l = (lval l + Z.of_nat (length (@nil Z))) mod q64).
  { intros x l X L. rewrite zb_nil. split; [exact X|]. split; [exact L|]. cbn [length Z.of_nat]. rewrite Z.add_0_r. symmetry. apply Z.mod_small. unfold lok, lval, u32, q64 in *. lia. }
  induction fuel as [|f IH]; intros b x l LE X B L.
  - destruct b; [|cbn in LE; lia]. exists l. split; [reflexivity|]. apply NIL; assumption.
  - destruct b as [|b0 t]; [exists l; split; [reflexivity|]; apply NIL; assumption|]. set (b := b0 :: t) in *.
    destruct (len_add_ok (Nat.min 16 (length b)) l L) as (l1 & E1 & L1 & V1). pose proof (bxor_st _ _ X (blk_st b B)) as XB. destruct (gf2mul_ok h _ H XB) as [G GS].
    destruct (IH (skipn 16 b) (block_mul (bxor x (blk b)) h) l1) as (l2 & E2 & S2 & L2 & V2); [rewrite skipn_length; unfold b in *; cbn [length] in *; lia|exact GS|apply skip_bytes, B|exact L1|].
    rewrite (zb_cons b) by discriminate. rewrite ghash_cons. exists l2. split; [|split; [exact S2|split; [exact L2|]]].
    + cbn [absorb]. unfold b at 1. rewrite E1. cbn [bind]. rewrite (xor_blk x b X), G. cbn [bind]. exact E2.
    + rewrite V2, V1, skipn_length, Zplus_mod_idemp_l. f_equal. lia.
Qed.

(* the counter *)
Lemma st_split12 f : st f -> exists a b c d, skipn 12 f = [a; b; c; d] /\ byte a /\ byte b /\ byte c /\ byte d.
Proof.
  intros S. destruct (st16 f S) as (a & b & c & d & e & f0 & g & i & j & k & l & m & n & o & p & q & -> & F). repeat match goal with H : Forall byte (_ :: _) |- _ => apply Forall_cons_iff in H; destruct H end. exists n, o, p, q. auto.
Qed.
Lemma inc_32_st f : st f -> st (inc_32 f).
Proof.
  intros [L B]. unfold inc_32. split; [rewrite app_length, firstn_length, be_bytes_length; lia|]. apply Forall_app. split; [apply fst_bytes, B|apply be_bytes_bytes].
Qed.
Lemma ctr_next_ok f : st f -> ctr_next false f = Some (inc_32 f).
Proof.
  intros S. unfold ctr_next, inc_32. destruct (st_split12 f S) as (a & b & c & d & E & A & B & C & D). rewrite E. destruct (gpack_be a b c d [] A B C D) as [-> U]. rewrite (inc32_ok _ U). cbn [bind]. rewrite gunpack_be. change 4294967296 with (256 ^ Z.of_nat 4). rewrite be_bytes_mod. reflexivity.
Qed.
Fixpoint ctr_at (n : nat) (f : list Z) : list Z := match n with O => f | S m => ctr_at m (inc_32 f) end.
Lemma ctr_at_st n : forall f, st f -> st (ctr_at n f). Proof. induction n as [|n IH]; intros f S; [exact S|]. apply IH, inc_32_st, S. Qed.
Lemma ctr_at_add n m : forall f, ctr_at (n + m) f = ctr_at m (ctr_at n f). Proof. induction n as [|n IH]; intros f; [reflexivity|]. apply IH. Qed.
Lemma ctr_at_S n : forall f, ctr_at n (inc_32 f) = inc_32 (ctr_at n f). Proof. induction n as [|n IH]; intros f; [reflexivity|]. cbn [ctr_at]. apply IH. Qed.
Definition nblk (b : list Z) : nat := ((length b + 15) / 16)%nat.
Lemma nblk_cons b : b <> [] -> nblk b = S (nblk (skipn 16 b)).
Proof.
  intros N. unfold nblk. rewrite skipn_length. assert (LB : (0 < length b)%nat) by (destruct b; [contradiction N; reflexivity|cbn [length]; lia]). destruct (le_lt_dec 16 (length b)) as [L|L].
  - replace (length b + 15)%nat with (length b - 16 + 15 + 1 * 16)%nat by lia. rewrite Nat.div_add by lia. lia.
  - replace (length b - 16)%nat with 0%nat by lia. change ((0 + 15) / 16)%nat with 0%nat. symmetry. apply (Nat.div_unique (length b + 15) 16 1 (length b - 1)); lia.
Qed.
Lemma gctr_cons E f b : b <> [] -> gctr E f b = bxor (firstn 16 b) (E f) ++ gctr E (inc_32 f) (skipn 16 b).
Proof. intros N. unfold gctr. fold (nblk b). rewrite (nblk_cons b N). reflexivity. Qed.
Lemma gctr_nil E f : gctr E f [] = []. Proof. reflexivity. Qed.
Lemma bxor_min : forall x y, (length x <= length y)%nat -> length (bxor x y) = length x.
Proof. induction x as [|a x IH]; intros [|b y] L; try reflexivity; [cbn in L; lia|]. change (length (Z.lxor a b :: bxor x y) = length (a :: x)). cbn [length] in *. rewrite IH by lia. reflexivity. Qed.
Definition blockfn (E : list Z -> list Z) : Prop := forall s, st s -> st (E s).
Lemma gctr_len E : blockfn E -> forall n f b, (length b <= n)%nat -> st f -> length (gctr E f b) = length b.
Proof.
  intros BE. induction n as [|n IH]; intros f b L S; [destruct b; [reflexivity|cbn in L; lia]|]. destruct b as [|b0 t]; [reflexivity|]. set (b := b0 :: t) in *. rewrite gctr_cons by discriminate.
  rewrite app_length, IH; [|rewrite skipn_length; unfold b in *; cbn [length] in *; lia|apply inc_32_st, S]. rewrite bxor_min by (rewrite firstn_length; destruct (BE f S) as [-> _]; lia). rewrite firstn_length, skipn_length. lia.
Qed.
Lemma gctr_bytes E : blockfn E -> forall n f b, (length b <= n)%nat -> st f -> bytes b -> bytes (gctr E f b).
Proof.
  intros BE. induction n as [|n IH]; intros f b L S B; [destruct b; [constructor|cbn in L; lia]|]. destruct b as [|b0 t]; [constructor|]. set (b := b0 :: t) in *. rewrite gctr_cons by discriminate.
  apply Forall_app. split; [apply bxor_bytes; [apply fst_bytes, B|apply BE, S]|]. apply IH; [rewrite skipn_length; unfold b in *; cbn [length] in *; lia|apply inc_32_st, S|apply skip_bytes, B].
Qed.
Lemma gctr_app E : forall n a f b, length a = (16 * n)%nat -> gctr E f (a ++ b) = gctr E f a ++ gctr E (ctr_at n f) b.
Proof.
  induction n as [|n IH]; intros a f b L; [destruct a; [reflexivity|discriminate L]|]. assert (NA : a <> []) by (intros ->; discriminate L). assert (NB : a ++ b <> []) by (destruct a; [contradiction NA; reflexivity|discriminate]).
  rewrite (gctr_cons E f _ NB), (gctr_cons E f a NA). rewrite firstn_app, skipn_app. replace (16 - length a)%nat with 0%nat by lia. rewrite firstn_O, skipn_O, app_nil_r, <- app_assoc. f_equal. cbn [ctr_at]. apply IH. rewrite skipn_length. lia.
Qed.
Lemma bxor_twice_min : forall x y, (length x <= length y)%nat -> bxor (bxor x y) y = x.
Proof.
  induction x as [|a x IH]; intros [|b y] L; try reflexivity; [cbn in L; lia|]. change (Z.lxor (Z.lxor a b) b :: bxor (bxor x y) y = a :: x). rewrite Z.lxor_assoc, Z.lxor_nilpotent, Z.lxor_0_r. f_equal. apply IH. cbn [length] in L. lia.
Qed.
Lemma gctr_twice E : blockfn E -> forall n f b, (length b <= n)%nat -> st f -> gctr E f (gctr E f b) = b.
Proof.
  intros BE. induction n as [|n IH]; intros f b L S; [destruct b; [reflexivity|cbn in L; lia]|]. destruct b as [|b0 t]; [reflexivity|]. set (b := b0 :: t) in *.
  assert (NB : b <> []) by discriminate. assert (LE : length (E f) = 16%nat) by (apply BE, S). assert (LX : length (bxor (firstn 16 b) (E f)) = Nat.min 16 (length b)) by (rewrite bxor_min by (rewrite firstn_length; lia); apply firstn_length).
  rewrite (gctr_cons E f b NB). set (u := bxor (firstn 16 b) (E f)) in *. set (v := gctr E (inc_32 f) (skipn 16 b)).
  assert (LV : length v = (length b - 16)%nat) by (unfold v; rewrite (gctr_len E BE (length (skipn 16 b))); [apply skipn_length|lia|apply inc_32_st, S]).
  assert (LB : (0 < length b)%nat) by (unfold b; cbn [length]; lia). assert (NU : u ++ v <> []) by (intros Z0; apply (f_equal (@length Z)) in Z0; rewrite app_length in Z0; cbn [length] in Z0; lia).
  rewrite (gctr_cons E f _ NU). assert (FU : firstn 16 (u ++ v) = u /\ skipn 16 (u ++ v) = v).
  { destruct (le_lt_dec 16 (length b)) as [G|G].
    - rewrite firstn_app, skipn_app. replace (16 - length u)%nat with 0%nat by lia. rewrite firstn_O, skipn_O, app_nil_r, firstn_all2, skipn_all2 by lia. split; reflexivity.
    - assert (VN : v = []) by (destruct v; [reflexivity|cbn [length] in LV; lia]). rewrite VN, app_nil_r, firstn_all2, skipn_all2 by lia. split; reflexivity. }
  destruct FU as [-> ->]. unfold u. rewrite bxor_twice_min by (rewrite firstn_length; lia). unfold v. rewrite IH; [apply firstn_skipn|rewrite skipn_length; unfold b in *; cbn [length] in *; lia|apply inc_32_st, S].
Qed.

Lemma crypt_ok h E D : st h -> forall fuel enc a b out x l, (length b <= fuel)%nat -> cip a E D -> st (a_f a) -> st x -> bytes b -> lok l ->
  let o := gctr E (inc_32 (a_f a)) b in let y := ghash_from h x (zblocks (if enc : bool then o else b)) in
  exists l', crypt fuel enc false (gcm_precompute h) a b out x l = Some (set_f a (ctr_at (nblk b) (a_f a)), out ++ o, y, l') /\ st y /\ lok l' /\ lval l' = (lval l + Z.of_nat (length b)) mod q64.
Proof.
  intros H.
  assert (NIL : forall a (out x : list Z) l, st x -> lok l -> Some (a, out, x, l) = Some (set_f a (a_f a), out ++ [], x, l) /\ st (ghash_from h x (zblocks [])) /\ lok l /\ lval l = (lval l + Z.of_nat (length (@nil Z))) mod q64).
  { intros a out x l X L. rewrite zb_nil, app_nil_r. destruct a. split; [reflexivity|]. split; [exact X|]. split; [exact L|]. cbn [length Z.of_nat]. rewrite Z.add_0_r. symmetry. apply Z.mod_small. unfold lok, lval, u32, q64 in *. lia. }
  induction fuel as [|f IH]; intros enc a b out x l LE C SF X B L o y.
  - destruct b; [|cbn in LE; lia]. exists l. unfold o, y, o. destruct enc; exact (NIL a out x l X L).
  - destruct b as [|b0 t]; [exists l; unfold o, y, o; destruct enc; exact (NIL a out x l X L)|]. set (b := b0 :: t) in *. assert (NB : b <> []) by discriminate.
    pose proof (inc_32_st _ SF) as SC. destruct (proj1 C _ SC) as (EC & SE & _). set (c := inc_32 (a_f a)) in *.
    assert (O : o = bxor (firstn 16 b) (E c) ++ gctr E (inc_32 c) (skipn 16 b)) by (unfold o; apply gctr_cons, NB). set (o1 := bxor (firstn 16 b) (E c)) in *. set (o2 := gctr E (inc_32 c) (skipn 16 b)) in *.
    assert (LE16 : length (E c) = 16%nat) by apply SE. assert (LO1 : length o1 = Nat.min 16 (length b)) by (unfold o1; rewrite bxor_min by (rewrite firstn_length; lia); apply firstn_length).
    assert (BO1 : bytes o1) by (apply bxor_bytes; [apply fst_bytes, B|apply SE]).
    assert (BE : blockfn E) by (intros s SS; apply (proj1 C s SS)).
    assert (LO2 : length o2 = (length b - 16)%nat) by (unfold o2; rewrite (gctr_len E BE (length (skipn 16 b))); [apply skipn_length|lia|apply inc_32_st, SC]).
    assert (LB : (0 < length b)%nat) by (unfold b; cbn [length]; lia).
    assert (FU : firstn 16 (o1 ++ o2) = o1 /\ skipn 16 (o1 ++ o2) = o2).
    { destruct (le_lt_dec 16 (length b)) as [G|G].
      - rewrite firstn_app, skipn_app. replace (16 - length o1)%nat with 0%nat by lia. rewrite firstn_O, skipn_O, app_nil_r, firstn_all2, skipn_all2 by lia. split; reflexivity.
      - assert (VN : o2 = []) by (destruct o2; [reflexivity|cbn [length] in LO2; lia]). rewrite VN, app_nil_r, firstn_all2, skipn_all2 by lia. split; reflexivity. }
    assert (BO : blk o = blk o1).
    { unfold blk. rewrite O. rewrite (proj1 FU). rewrite app_length, LO1, LO2. rewrite (firstn_all2 o1) by lia. do 2 f_equal. lia. }
    assert (NO : o <> []) by (intros Z0; apply (f_equal (@length Z)) in Z0; rewrite O, app_length in Z0; cbn [length] in Z0; lia).
    set (w := if enc then o else b). assert (BW : bytes (if enc then o1 else b)) by (destruct enc; assumption).
    assert (ZW : zblocks w = blk (if enc then o1 else b) :: zblocks (if enc then o2 else skipn 16 b)).
    { unfold w. destruct enc; [|apply zb_cons, NB]. rewrite (zb_cons o NO), BO, O. rewrite (proj2 FU). reflexivity. }
    destruct (len_add_ok (Nat.min 16 (length b)) l L) as (l1 & E1 & L1 & V1). pose proof (bxor_st _ _ X (blk_st _ BW)) as XB. destruct (gf2mul_ok h _ H XB) as [G GS].
    destruct (IH enc (set_f a c) (skipn 16 b) (out ++ o1) (block_mul (bxor x (blk (if enc then o1 else b))) h) l1) as (l2 & E2 & S2 & L2 & V2);
      [rewrite skipn_length; unfold b in *; cbn [length] in *; lia|apply cip_set, C|exact SC|exact GS|apply skip_bytes, B|exact L1|].
    change (a_f (set_f a c)) with c in E2, S2. fold o2 in E2, S2. unfold y. fold w. rewrite ZW, ghash_cons.
    exists l2. split; [|split; [exact S2|split; [exact L2|]]].
    + cbn [crypt]. unfold b at 1. rewrite (ctr_next_ok _ SF). fold c. cbn [bind]. replace (ecb_encrypt (set_f a c) c) with (ecb_encrypt a c) by reflexivity. rewrite EC. cbn [bind].
      rewrite E1. cbn [bind]. rewrite map2_bxor. replace (firstn (Nat.min 16 (length b)) b) with (firstn 16 b) by (rewrite <- (firstn_all b) at 1; rewrite firstn_firstn; reflexivity). fold o1.
      replace (xor_n (Nat.min 16 (length b)) x (if enc then o1 else b)) with (bxor x (blk (if enc then o1 else b))).
      2:{ rewrite <- xor_blk by exact X. destruct enc; [|reflexivity]. rewrite LO1. f_equal. lia. }
      rewrite G. cbn [bind]. rewrite E2. rewrite (nblk_cons b NB). rewrite O, <- app_assoc. reflexivity.
    + rewrite V2, V1, skipn_length, Zplus_mod_idemp_l. f_equal. lia.
Qed.
