(* gcm.rs against SP 800-38D: the product of blocks, GHASH, the counter. *)
From Coq Require Import Lia.
From Verif Require Import Prim Aes Gcm SpecBytes SpecAes SpecGcm AesW AesP AesM.

Definition u32 (x : Z) : Prop := 0 <= x < 4294967296.
Lemma be_cons x l : be_int (x :: l) = x * 256 ^ Z.of_nat (length l) + be_int l.
Proof. change (x :: l) with ([x] ++ l). rewrite be_int_app. reflexivity. Qed.
Lemma be_app n m a b : 0 <= b < 256 ^ Z.of_nat m -> be_bytes (n + m) (a * 256 ^ Z.of_nat m + b) = be_bytes n a ++ be_bytes m b.
Proof.
  revert a b. induction m as [|m IH]; intros a b B.
  - change (256 ^ Z.of_nat 0) with 1 in *. rewrite Nat.add_0_r. cbn [be_bytes]. rewrite app_nil_r. f_equal. lia.
  - replace (n + S m)%nat with (S (n + m)) by lia. cbn [be_bytes]. rewrite app_assoc.
    replace (Z.of_nat (S m)) with (Z.of_nat m + 1) in * by lia. rewrite Z.pow_add_r in * by lia. change (256 ^ 1) with 256 in *.
    assert (P : 0 < 256 ^ Z.of_nat m) by (apply Z.pow_pos_nonneg; lia).
    replace (a * (256 ^ Z.of_nat m * 256) + b) with (b + (a * 256 ^ Z.of_nat m) * 256) by ring.
    rewrite Z.div_add, Z.mod_add by lia. rewrite <- IH; [f_equal; f_equal; ring|]. split; [apply Z.div_pos; lia|apply Z.div_lt_upper_bound; lia].
Qed.
Lemma be_bytes_mod n v : be_bytes n (v mod 256 ^ Z.of_nat n) = be_bytes n v.
Proof.
  revert v. induction n as [|n IH]; intros v; [reflexivity|]. cbn [be_bytes]. replace (Z.of_nat (S n)) with (1 + Z.of_nat n) by lia. rewrite Z.pow_add_r by lia. change (256 ^ 1) with 256.
  assert (P : 0 < 256 ^ Z.of_nat n) by (apply Z.pow_pos_nonneg; lia). rewrite Z.rem_mul_r by lia.
  assert (M : 0 <= v mod 256 < 256) by (apply Z.mod_pos_bound; lia). f_equal.
  - replace (v mod 256 + 256 * ((v / 256) mod 256 ^ Z.of_nat n)) with (v mod 256 + (v / 256) mod 256 ^ Z.of_nat n * 256) by ring.
    rewrite Z.div_add by lia. rewrite (Z.div_small (v mod 256)) by lia. rewrite Z.add_0_l. apply IH.
  - f_equal. replace (v mod 256 + 256 * ((v / 256) mod 256 ^ Z.of_nat n)) with (v mod 256 + (v / 256) mod 256 ^ Z.of_nat n * 256) by ring. rewrite Z.mod_add by lia. apply Z.mod_mod. lia.
Qed.

(* numbers in base 2^n and the exclusive or *)
Lemma lxor_cat n a b c d : 0 <= n -> 0 <= b < 2 ^ n -> 0 <= d < 2 ^ n -> Z.lxor (a * 2 ^ n + b) (c * 2 ^ n + d) = Z.lxor a c * 2 ^ n + Z.lxor b d.
Proof.
  intros N B D. assert (X : 0 <= Z.lxor b d < 2 ^ n).
  { assert (NN : 0 <= Z.lxor b d) by (apply Z.lxor_nonneg; tauto). split; [exact NN|].
    destruct (Z.eq_dec (Z.lxor b d) 0) as [-> |NZ]; [lia|]. apply Z.log2_lt_pow2; [lia|]. pose proof (Z.log2_lxor b d (proj1 B) (proj1 D)).
    assert (LG : forall u, 0 <= u < 2 ^ n -> u <> 0 -> Z.log2 u < n) by (intros u U V; apply Z.log2_lt_pow2; lia).
    destruct (Z.eq_dec b 0) as [-> |NB]; [rewrite Z.lxor_0_l in *; apply LG; assumption|]. destruct (Z.eq_dec d 0) as [-> |ND]; [rewrite Z.lxor_0_r in *; apply LG; assumption|].
    pose proof (LG b B NB). pose proof (LG d D ND). lia. }
  assert (BT : forall u v i, 0 <= v < 2 ^ n -> 0 <= i -> Z.testbit (u * 2 ^ n + v) i = if i <? n then Z.testbit v i else Z.testbit u (i - n)).
  { intros u v i V I. destruct (Z.ltb_spec i n) as [L|L].
    - rewrite <- (Z.mod_pow2_bits_low (u * 2 ^ n + v) n i) by lia. f_equal. rewrite Z.add_comm, Z.mod_add by lia. apply Z.mod_small. exact V.
    - replace i with (i - n + n) at 1 by lia. rewrite <- Z.div_pow2_bits by lia. f_equal. rewrite Z.add_comm, Z.div_add by lia. rewrite Z.div_small by exact V. lia. }
  apply Z.bits_inj'. intros i I. rewrite Z.lxor_spec, !BT by assumption. destruct (i <? n); rewrite Z.lxor_spec; reflexivity.
Qed.
Lemma lxor_u32 a b : u32 a -> u32 b -> u32 (Z.lxor a b).
Proof.
  intros A B. pose proof (lxor_cat 32 0 a 0 b ltac:(lia) A B) as H. unfold u32 in *.
  assert (NN : 0 <= Z.lxor a b) by (apply Z.lxor_nonneg; lia). split; [exact NN|].
  destruct (Z.eq_dec (Z.lxor a b) 0) as [-> |NZ]; [lia|]. change 4294967296 with (2 ^ 32) in *. apply Z.log2_lt_pow2; [lia|]. pose proof (Z.log2_lxor a b (proj1 A) (proj1 B)).
  assert (LG : forall u, 0 <= u < 2 ^ 32 -> Z.log2 u < 32) by (intros u U; destruct (Z.eq_dec u 0) as [-> |]; [reflexivity|apply Z.log2_lt_pow2; lia]).
  pose proof (LG a A). pose proof (LG b B). lia.
Qed.
(* the disjoint union of bits is a sum *)
Lemma lor_add n a b : 0 <= n -> 0 <= b < 2 ^ n -> Z.lor (a * 2 ^ n) b = a * 2 ^ n + b.
Proof.
  intros N B. rewrite <- Z.lxor_lor, <- Z.add_nocarry_lxor; [reflexivity| |]; apply Z.bits_inj'; intros i I; rewrite Z.land_spec, Z.bits_0; destruct (Z.ltb_spec i n) as [L|L];
    try (rewrite Z.mul_pow2_bits_low by lia; reflexivity);
    (destruct (Z.eq_dec b 0) as [-> |NB]; [rewrite Z.bits_0; apply andb_false_r|]; rewrite (Z.bits_above_log2 b) by (assert (Z.log2 b < n) by (apply Z.log2_lt_pow2; lia); lia); apply andb_false_r).
Qed.

(* four words *)
Definition w4 (r : list Z) : Prop := length r = 4%nat /\ Forall u32 r.
Definition v4 (r : list Z) : Z := fold_left (fun v b => v * 4294967296 + b) r 0.
Lemma w4_ex r : w4 r -> exists a b c d, r = [a; b; c; d] /\ u32 a /\ u32 b /\ u32 c /\ u32 d.
Proof.
  intros [L F]. destruct r as [|a [|b [|c [|d [|e r]]]]]; try discriminate L. exists a, b, c, d.
  inversion F as [|? ? F1 G]. inversion G as [|? ? F2 G2]. inversion G2 as [|? ? F3 G3]. inversion G3 as [|? ? F4 _]. auto.
Qed.
Lemma w4_mk a b c d : u32 a -> u32 b -> u32 c -> u32 d -> w4 [a; b; c; d].
Proof. intros. split; [reflexivity|]. repeat constructor; try assumption; apply H || apply H0 || apply H1 || apply H2. Qed.
Lemma v4_eq a b c d : v4 [a; b; c; d] = ((a * 2 ^ 32 + b) * 2 ^ 32 + c) * 2 ^ 32 + d.
Proof. unfold v4. cbn [fold_left]. change 4294967296 with (2 ^ 32). ring. Qed.
Lemma v4_range r : w4 r -> 0 <= v4 r < 2 ^ 128.
Proof. intros W. destruct (w4_ex r W) as (a & b & c & d & -> & A & B & C & D). rewrite v4_eq. unfold u32 in *. change (2 ^ 32) with 4294967296. change (2 ^ 128) with (4294967296 * (4294967296 * (4294967296 * 4294967296))). nia. Qed.
Lemma v4_xor a b c d a' b' c' d' : u32 a -> u32 b -> u32 c -> u32 d -> u32 a' -> u32 b' -> u32 c' -> u32 d' ->
  v4 [Z.lxor a a'; Z.lxor b b'; Z.lxor c c'; Z.lxor d d'] = Z.lxor (v4 [a; b; c; d]) (v4 [a'; b'; c'; d']).
Proof.
  intros. rewrite !v4_eq. unfold u32 in *. rewrite !lxor_cat by (change (2 ^ 32) with 4294967296; lia). reflexivity.
Qed.

(* one row of the table *)
Lemma shl31 t : u32 t -> shl32 t 31 = (t mod 2) * 2 ^ 31.
Proof.
  intros T. unfold shl32. change 4294967295 with (Z.ones 32). rewrite Z.land_ones, Z.shiftl_mul_pow2 by lia.
  pose proof (Z.div_mod t 2 ltac:(lia)) as E. rewrite E at 1. replace ((2 * (t / 2) + t mod 2) * 2 ^ 31) with (t mod 2 * 2 ^ 31 + t / 2 * 2 ^ 32) by (change (2 ^ 32) with (2 * 2 ^ 31); ring).
  rewrite Z.mod_add by lia. apply Z.mod_small. pose proof (Z.mod_pos_bound t 2 ltac:(lia)). change (2 ^ 32) with (2 * 2 ^ 31). nia.
Qed.
Lemma lor31 m t : 0 <= m < 2 -> u32 t -> Z.lor (m * 2 ^ 31) (Z.shiftr t 1) = m * 2 ^ 31 + t / 2 /\ u32 (m * 2 ^ 31 + t / 2).
Proof.
  intros M T. unfold u32 in *. rewrite Z.shiftr_div_pow2 by lia. change (2 ^ 1) with 2. assert (0 <= t / 2 < 2147483648) by (split; [apply Z.div_pos; lia|apply Z.div_lt_upper_bound; lia]).
  change (2 ^ 31) with 2147483648 in *. split; [|lia]. apply (lor_add 31 m (t / 2)); [lia|]. change (2 ^ 31) with 2147483648. lia.
Qed.
Lemma row_next_ok r : w4 r -> w4 (row_next r) /\ v4 (row_next r) = gcm_half (v4 r).
Proof.
  intros W. destruct (w4_ex r W) as (a & b & c & d & -> & A & B & C & D). clear W. unfold row_next. cbn [row_shift].
  assert (MM : forall t, 0 <= t mod 2 < 2) by (intros; apply Z.mod_pos_bound; lia).
  rewrite !shl31 by assumption. change (Z.lor 0 (Z.shiftr a 1)) with (Z.lor (0 * 2 ^ 31) (Z.shiftr a 1)). destruct (lor31 0 a ltac:(lia) A) as [-> UA]. destruct (lor31 (a mod 2) b (MM a) B) as [-> UB].
  destruct (lor31 (b mod 2) c (MM b) C) as [-> UC]. destruct (lor31 (c mod 2) d (MM c) D) as [-> UD].
  assert (HV : v4 [0 * 2 ^ 31 + a / 2; a mod 2 * 2 ^ 31 + b / 2; b mod 2 * 2 ^ 31 + c / 2; c mod 2 * 2 ^ 31 + d / 2] = v4 [a; b; c; d] / 2).
  { rewrite !v4_eq. apply Z.div_unique with (r := d mod 2); [left; apply MM|].
    pose proof (Z.div_mod a 2 ltac:(lia)). pose proof (Z.div_mod b 2 ltac:(lia)). pose proof (Z.div_mod c 2 ltac:(lia)). pose proof (Z.div_mod d 2 ltac:(lia)).
    change (2 ^ 32) with 4294967296. change (2 ^ 31) with 2147483648. lia. }
  assert (OD : Z.odd (v4 [a; b; c; d]) = negb (d mod 2 * 2 ^ 31 =? 0)).
  { rewrite v4_eq. rewrite Z.odd_add, Z.odd_mul. change (Z.odd (2 ^ 32)) with false. rewrite andb_false_r. cbn [xorb]. rewrite Zmod_odd. destruct (Z.odd d); reflexivity. }
  unfold gcm_half. rewrite OD. destruct (d mod 2 * 2 ^ 31 =? 0); cbn [negb]; [split; [apply w4_mk; assumption|exact HV]|].
  cbn [upd nth]. assert (UR : u32 3774873600) by (unfold u32; lia). split; [apply w4_mk; try assumption; apply lxor_u32; assumption|].
  rewrite <- HV. assert (U0 : u32 0) by (unfold u32; lia). change gcm_R with (v4 [3774873600; 0; 0; 0]). rewrite <- v4_xor by assumption. rewrite !Z.lxor_0_r. reflexivity.
Qed.
Fixpoint row_at (i : nat) (r : list Z) : list Z := match i with O => r | S j => row_at j (row_next r) end.
Lemma rows_nth n : forall i r, (i < n)%nat -> getM (rows n r) i = Some (row_at i r).
Proof. induction n as [|n IH]; intros [|i] r L; try lia; [reflexivity|]. cbn [rows row_at]. apply IH. lia. Qed.
Lemma row_at_S i : forall r, row_at (S i) r = row_next (row_at i r).
Proof. induction i as [|i IH]; intros r; [reflexivity|]. change (row_at (S (S i)) r) with (row_at (S i) (row_next r)). rewrite IH. reflexivity. Qed.
Lemma row_at_w i r : w4 r -> w4 (row_at i r).
Proof. revert r. induction i as [|i IH]; intros r W; [exact W|]. apply IH, row_next_ok, W. Qed.

(* bits of a block *)
Lemma be_bit : forall l k j, bytes l -> (k < length l)%nat -> 0 <= j < 8 -> Z.testbit (be_int l) (8 * (Z.of_nat (length l) - 1 - Z.of_nat k) + j) = Z.testbit (nth k l 0) j.
Proof.
  induction l as [|x l IH]; intros k j B K J; [cbn in K; lia|]. inversion B as [|? ? BX BL]; subst. rewrite be_cons. pose proof (be_int_range l BL) as R.
  set (n := Z.of_nat (length l)) in *. replace (Z.of_nat (length (x :: l))) with (n + 1) by (unfold n; cbn [length]; lia).
  assert (P : 256 ^ n = 2 ^ (8 * n)) by (rewrite Z.pow_mul_r by (unfold n; lia); reflexivity). rewrite P in *. assert (NN : 0 <= n) by (unfold n; lia).
  destruct k as [|k]; cbn [nth].
  - replace (8 * (n + 1 - 1 - Z.of_nat 0) + j) with (j + 8 * n) by (cbn [Z.of_nat]; lia). rewrite <- Z.div_pow2_bits by lia. f_equal. rewrite Z.add_comm, Z.div_add by lia. rewrite Z.div_small by exact R. reflexivity.
  - cbn [length] in K. rewrite <- (IH k j BL) by lia. fold n. replace (n + 1 - 1 - Z.of_nat (S k)) with (n - 1 - Z.of_nat k) by lia.
    assert (KN : Z.of_nat k < n) by (unfold n; lia). rewrite <- (Z.mod_pow2_bits_low (x * 2 ^ (8 * n) + be_int l) (8 * n)) by lia. f_equal. rewrite Z.add_comm, Z.mod_add by lia. apply Z.mod_small. exact R.
Qed.
Lemma gbit_ok x i : st x -> (i < 128)%nat -> gbit x i = Z.b2z (Z.testbit (be_int x) (127 - Z.of_nat i)).
Proof.
  intros [L B] I. unfold gbit. assert (D : (i = 8 * (i / 8) + i mod 8)%nat) by (apply Nat.div_mod; lia). pose proof (Nat.mod_upper_bound i 8 ltac:(lia)) as M. assert (K : (i / 8 < 16)%nat) by (apply Nat.div_lt_upper_bound; lia).
  assert (T : Z.land (Z.shiftr (nth (i / 8) x 0) (7 - Z.of_nat (i mod 8))) 1 = Z.b2z (Z.testbit (nth (i / 8) x 0) (7 - Z.of_nat (i mod 8)))).
  { change 1 with (Z.ones 1). rewrite Z.land_ones by lia. rewrite Z.shiftr_div_pow2 by lia. change (2 ^ 1) with 2. rewrite Zmod_odd. rewrite Z.testbit_odd, Z.shiftr_div_pow2 by lia. destruct (Z.odd _); reflexivity. }
  rewrite T. f_equal. rewrite <- (be_bit x (i / 8) (7 - Z.of_nat (i mod 8)) B) by lia. f_equal. rewrite L. lia.
Qed.
Lemma inc32_ok x : u32 x -> inc32 false x = Some ((x + 1) mod 4294967296).
Proof.
  unfold inc32, u32. intros X. destruct (Z.eqb_spec (x + 1) 4294967296) as [E|E]; [rewrite E; reflexivity|]. rewrite Z.mod_small by lia. reflexivity.
Qed.
Lemma gmask_ok b : gmask false (Z.b2z b) = Some (if b then 4294967295 else 0).
Proof. destruct b; reflexivity. Qed.
Lemma land_ff x : u32 x -> Z.land x 4294967295 = x.
Proof. intros X. change 4294967295 with (Z.ones 32). rewrite Z.land_ones by lia. apply Z.mod_small. exact X. Qed.

Lemma step_ok tab x p i r : st x -> (i < 128)%nat -> w4 p -> w4 r -> getM tab i = Some r ->
  exists p', gf2_step false tab x p i = Some p' /\ w4 p' /\ v4 p' = Z.lxor (v4 p) (if Z.testbit (be_int x) (127 - Z.of_nat i) then v4 r else 0).
Proof.
  intros X I P R T. unfold gf2_step. rewrite (gbit_ok x i X I), gmask_ok. cbn [bind]. rewrite T. cbn [bind].
  destruct (w4_ex p P) as (a & b & c & d & -> & A & B & C & D). destruct (w4_ex r R) as (a' & b' & c' & d' & -> & A' & B' & C' & D'). cbn [map2].
  destruct (Z.testbit (be_int x) (127 - Z.of_nat i)); eexists; (split; [reflexivity|]).
  - rewrite !land_ff by assumption. split; [apply w4_mk; apply lxor_u32; assumption|apply v4_xor; assumption].
  - rewrite !Z.land_0_r, !Z.lxor_0_r. split; [exact P|reflexivity].
Qed.
Lemma steps_ok x r0 : st x -> w4 r0 -> forall n i p, (i + n = 128)%nat -> w4 p ->
  exists p', foldM (gf2_step false (rows 128 r0) x) (seq i n) p = Some p' /\ w4 p' /\ v4 p' = Z.lxor (v4 p) (gcm_mul_n n (be_int x) (v4 (row_at i r0))).
Proof.
  intros X W. induction n as [|n IH]; intros i p E P.
  - exists p. cbn [seq foldM gcm_mul_n]. rewrite Z.lxor_0_r. auto.
  - cbn [seq foldM]. assert (I : (i < 128)%nat) by lia. destruct (step_ok (rows 128 r0) x p i (row_at i r0) X I P (row_at_w i r0 W) (rows_nth 128 i r0 I)) as (p1 & E1 & P1 & V1).
    rewrite E1. cbn [bind]. destruct (IH (S i) p1 ltac:(lia) P1) as (p2 & E2 & P2 & V2). exists p2. split; [exact E2|]. split; [exact P2|]. rewrite V2, V1, row_at_S.
    destruct (row_next_ok (row_at i r0) (row_at_w i r0 W)) as [_ ->]. cbn [gcm_mul_n]. rewrite Z.lxor_assoc. replace (Z.of_nat n) with (127 - Z.of_nat i) by lia. reflexivity.
Qed.

(* words and bytes *)
Lemma gunpack_be w : gunpack w = be_bytes 4 w.
Proof.
  unfold gunpack. cbn [be_bytes app]. change 255 with (Z.ones 8). rewrite !Z.land_ones, !Z.shiftr_div_pow2 by lia. rewrite !Z.div_div by lia. reflexivity.
Qed.
Lemma words_bytes r : w4 r -> concat (map gunpack r) = be_bytes 16 (v4 r).
Proof.
  intros W. destruct (w4_ex r W) as (a & b & c & d & -> & A & B & C & D). cbn [map concat]. rewrite app_nil_r, !gunpack_be, v4_eq.
  change (2 ^ 32) with (256 ^ Z.of_nat 4). unfold u32 in *.
  change 16%nat with (12 + 4)%nat. rewrite be_app by (change (256 ^ Z.of_nat 4) with 4294967296; lia). change 12%nat with (8 + 4)%nat. rewrite be_app by (change (256 ^ Z.of_nat 4) with 4294967296; lia).
  change 8%nat with (4 + 4)%nat. rewrite be_app by (change (256 ^ Z.of_nat 4) with 4294967296; lia). rewrite !app_assoc. reflexivity.
Qed.
Lemma shl32_small b n : 0 <= b < 256 -> 0 <= n <= 24 -> shl32 b n = b * 2 ^ n.
Proof.
  intros B N. unfold shl32. change 4294967295 with (Z.ones 32). rewrite Z.land_ones, Z.shiftl_mul_pow2 by lia. apply Z.mod_small.
  assert (P : 2 ^ n <= 2 ^ 24) by (apply Z.pow_le_mono_r; lia). assert (0 < 2 ^ n) by (apply Z.pow_pos_nonneg; lia). change (2 ^ 24) with 16777216 in P. change (2 ^ 32) with 4294967296. nia.
Qed.
Lemma lor_scale k x y : 0 <= k -> Z.lor (x * 2 ^ k) (y * 2 ^ k) = Z.lor x y * 2 ^ k.
Proof. intros K. rewrite <- !Z.shiftl_mul_pow2 by exact K. symmetry. apply Z.shiftl_lor. Qed.
Lemma gpack_be a b c d t : byte a -> byte b -> byte c -> byte d -> gpack (a :: b :: c :: d :: t) = be_int [a; b; c; d] /\ u32 (be_int [a; b; c; d]).
Proof.
  unfold byte. intros A B C D. assert (LB : forall u, 0 <= u < 256 -> Z.land u 255 = u) by (intros u U; change 255 with (Z.ones 8); rewrite Z.land_ones by lia; apply Z.mod_small; exact U).
  unfold gpack. cbn [nth]. rewrite !LB by assumption. rewrite !shl32_small by lia. unfold be_int. cbn [fold_left].
  assert (P24 : 2 ^ 24 = 16777216) by reflexivity. assert (P16 : 2 ^ 16 = 65536) by reflexivity. assert (P8 : 2 ^ 8 = 256) by reflexivity.
  replace (a * 2 ^ 24) with (a * 256 * 2 ^ 16) by (rewrite P24, P16; ring).
  replace (Z.lor (a * 256 * 2 ^ 16) (b * 2 ^ 16)) with ((a * 256 + b) * 2 ^ 16).
  2:{ rewrite lor_scale by lia. f_equal. symmetry. apply (lor_add 8 a b); lia. }
  replace ((a * 256 + b) * 2 ^ 16) with ((a * 256 + b) * 256 * 2 ^ 8) by (rewrite P16, P8; ring).
  replace (Z.lor ((a * 256 + b) * 256 * 2 ^ 8) (c * 2 ^ 8)) with (((a * 256 + b) * 256 + c) * 2 ^ 8).
  2:{ rewrite lor_scale by lia. f_equal. symmetry. apply (lor_add 8 (a * 256 + b) c); lia. }
  rewrite lor_add by lia. rewrite P8. unfold u32. split; lia.
Qed.
Lemma st16 h : st h -> exists a b c d e f g i j k l m n o p q, h = [a; b; c; d; e; f; g; i; j; k; l; m; n; o; p; q] /\ Forall byte [a; b; c; d; e; f; g; i; j; k; l; m; n; o; p; q].
Proof.
  intros [L B]. do 16 (destruct h as [|? h]; [discriminate L|]). destruct h; [|discriminate L]. repeat eexists. exact B.
Qed.
Lemma table_ok h : st h -> exists r, gcm_precompute h = rows 128 r /\ w4 r /\ v4 r = be_int h.
Proof.
  intros S. destruct (st16 h S) as (a & b & c & d & e & f & g & i & j & k & l & m & n & o & p & q & -> & F). clear S. unfold gcm_precompute.
  repeat match goal with H : Forall byte (_ :: _) |- _ => apply Forall_cons_iff in H; destruct H end.
  change (skipn 4 [a; b; c; d; e; f; g; i; j; k; l; m; n; o; p; q]) with [e; f; g; i; j; k; l; m; n; o; p; q]. change (skipn 8 [a; b; c; d; e; f; g; i; j; k; l; m; n; o; p; q]) with [j; k; l; m; n; o; p; q]. change (skipn 12 [a; b; c; d; e; f; g; i; j; k; l; m; n; o; p; q]) with [n; o; p; q].
  eexists. split; [reflexivity|]. destruct (gpack_be a b c d [e; f; g; i; j; k; l; m; n; o; p; q]) as [-> U1]; try assumption. destruct (gpack_be e f g i [j; k; l; m; n; o; p; q]) as [-> U2]; try assumption.
  destruct (gpack_be j k l m [n; o; p; q]) as [-> U3]; try assumption. destruct (gpack_be n o p q []) as [-> U4]; try assumption. split; [apply w4_mk; assumption|].
  rewrite v4_eq. change [a; b; c; d; e; f; g; i; j; k; l; m; n; o; p; q] with ((([a; b; c; d] ++ [e; f; g; i]) ++ [j; k; l; m]) ++ [n; o; p; q]). rewrite !be_int_app. reflexivity.
Qed.
Lemma gf2mul_ok h x : st h -> st x -> gf2mul false (gcm_precompute h) x = Some (block_mul x h) /\ st (block_mul x h).
Proof.
  intros H X. split; [|split; [apply be_bytes_length|apply be_bytes_bytes]]. destruct (table_ok h H) as (r & -> & W & V). unfold gf2mul.
  assert (W0 : w4 (repeat 0 4)) by (apply w4_mk; unfold u32; lia). destruct (steps_ok x r X W 128 0 (repeat 0 4) eq_refl W0) as (p & E & P & VP). rewrite E. cbn [bind].
  rewrite (words_bytes p P), VP. change (v4 (repeat 0 4)) with 0. rewrite Z.lxor_0_l. cbn [row_at]. rewrite V. reflexivity.
Qed.
