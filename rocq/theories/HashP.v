(* hash256.rs computes SHA-256. *)
From Coq Require Import ZArith Znumtheory List Lia Bool.
From Verif Require Import Prim PrimP SpecBytes SpecSha Hash256.
Import ListNotations.
Open Scope Z_scope.

Definition word (x : Z) : Prop := 0 <= x < 2 ^ 32.
Lemma land32 z : Z.land z m32 = z mod 2 ^ 32.
Proof. change m32 with (2 ^ 32 - 1). apply land_ones_mod. lia. Qed.
Lemma wadd_add32 x y : wadd x y = add32 x y. Proof. unfold wadd, add32. apply land32. Qed.
Lemma add32_word x y : word (add32 x y). Proof. unfold word, add32. apply Z.mod_pos_bound. lia. Qed.
Lemma rotr_eq n x : 0 < n < 32 -> word x -> h_s n x = rotr n x.
Proof.
  intros N [X0 X1]. unfold h_s, rotr. rewrite land32, shiftr_div, shiftl_mul by lia.
  assert (E : (2 ^ 32 = 2 ^ n * 2 ^ (32 - n))) by (rewrite <- Z.pow_add_r by lia; f_equal; lia).
  assert (0 < 2 ^ n) by (apply Z.pow_pos_nonneg; lia). assert (0 < 2 ^ (32 - n)) by (apply Z.pow_pos_nonneg; lia).
  rewrite E at 1. rewrite Z.mul_mod_distr_r by lia. rewrite Z.lor_comm. apply lor_add; [lia|].
  split; [apply Z.div_pos; lia|]. apply Z.div_lt_upper_bound; lia.
Qed.
Lemma shr_eq n x : 0 <= n -> h_r n x = shr n x. Proof. intros N. apply shiftr_div, N. Qed.
Lemma comp32 x : word x -> Z.lxor x m32 = 2 ^ 32 - 1 - x.
Proof.
  intros [X0 X1]. change (2 ^ 32 - 1) with m32.
  assert (L : Z.land x m32 = x) by (rewrite land32; apply Z.mod_small; lia).
  rewrite (Z.sub_nocarry_ldiff m32 x).
  - apply Z.bits_inj'. intros i I. rewrite Z.lxor_spec, Z.ldiff_spec. 
    assert (T : Z.testbit x i = Z.testbit x i && Z.testbit m32 i) by (rewrite <- Z.land_spec, L; reflexivity).
    destruct (Z.testbit x i), (Z.testbit m32 i); try reflexivity; discriminate T.
  - apply Z.bits_inj'. intros i I. rewrite Z.ldiff_spec, Z.bits_0.
    assert (T : Z.testbit x i = Z.testbit x i && Z.testbit m32 i) by (rewrite <- Z.land_spec, L; reflexivity).
    destruct (Z.testbit x i), (Z.testbit m32 i); try reflexivity; discriminate T.
Qed.
Lemma ch_eq x y z : word x -> h_ch x y z = Ch x y z. Proof. intros X. unfold h_ch, Ch. rewrite comp32 by exact X. reflexivity. Qed.
Lemma sig0_eq x : word x -> h_sig0 x = Sigma0 x. Proof. intros X. unfold h_sig0, Sigma0. rewrite !rotr_eq by (try exact X; lia). reflexivity. Qed.
Lemma sig1_eq x : word x -> h_sig1 x = Sigma1 x. Proof. intros X. unfold h_sig1, Sigma1. rewrite !rotr_eq by (try exact X; lia). reflexivity. Qed.
Lemma theta0_eq x : word x -> h_theta0 x = sigma0 x.
Proof. intros X. unfold h_theta0, sigma0. rewrite !rotr_eq, shr_eq by (try exact X; lia). reflexivity. Qed.
Lemma theta1_eq x : word x -> h_theta1 x = sigma1 x.
Proof. intros X. unfold h_theta1, sigma1. rewrite !rotr_eq, shr_eq by (try exact X; lia). reflexivity. Qed.
Lemma K_eq : HASH256_K = K256. Proof. vm_compute. reflexivity. Qed.
Lemma K_len : length K256 = 64%nat. Proof. rewrite <- K_eq. reflexivity. Qed.
Lemma H_eq : HASH256_H = H256. Proof. vm_compute. reflexivity. Qed.

(* ------------------------- the schedule -------------------------------- *)
Lemma skipn_skipn {A} (l : list A) a b : skipn a (skipn b l) = skipn (a + b) l.
Proof. revert l. induction b as [|b IH]; intros l; [rewrite Nat.add_0_r; reflexivity|]. rewrite Nat.add_succ_r. destruct l; cbn [skipn]; [apply skipn_nil|apply IH]. Qed.
Lemma nth_skip {A} (l : list A) n i d : nth i (skipn n l) d = nth (n + i) l d.
Proof. revert l. induction n as [|n IH]; intros l; [reflexivity|]. destruct l; cbn [skipn Nat.add nth]; [destruct i; reflexivity|apply IH]. Qed.
Lemma nth_firstn_lt {A} (l : list A) i n d : (i < n)%nat -> nth i (firstn n l) d = nth i l d.
Proof. revert i n. induction l; destruct i, n; simpl; intros; try lia; auto. apply IHl. lia. Qed.
Lemma firstn_upd {A} (l : list A) j x : (j < length l)%nat -> firstn (S j) (upd l j x) = firstn j l ++ [x].
Proof. revert j. induction l; destruct j; cbn [length firstn upd app]; intros; try lia; auto. f_equal. apply IHl. lia. Qed.
Lemma firstn_upd_ge {A} (l : list A) n j x : (n <= j)%nat -> firstn n (upd l j x) = firstn n l.
Proof. revert n j. induction l; destruct n, j; cbn [firstn upd]; intros; try lia; auto. f_equal. apply IHl. lia. Qed.
Lemma word_nth l i : Forall word l -> word (nth i l 0).
Proof.
  intros F. destruct (Nat.lt_ge_cases i (length l)) as [L|L].
  - apply (proj1 (Forall_forall word l) F). apply nth_In, L.
  - rewrite nth_overflow by exact L. unfold word. lia.
Qed.
Lemma sched_step w j : length w = 64%nat -> (16 <= j < 64)%nat -> Forall word (firstn j w) ->
  firstn (S j) (h_sched w j) = firstn j w ++ [next_word (firstn j w)].
Proof.
  intros L J F. unfold h_sched. rewrite firstn_upd by lia. f_equal. f_equal. unfold next_word.
  rewrite firstn_length, Nat.min_l by lia. unfold limb.
  rewrite <- !(nth_firstn_lt w _ j) by lia. rewrite !wadd_add32, theta0_eq, theta1_eq by (apply word_nth, F). reflexivity.
Qed.
Lemma next_word_word w : word (next_word w). Proof. apply add32_word. Qed.
Lemma sched_ok n : forall j w, length w = 64%nat -> (16 <= j)%nat -> (j + n <= 64)%nat -> Forall word (firstn j w) ->
  let w' := fold_left h_sched (seq j n) w in
  length w' = 64%nat /\ firstn (j + n) w' = extend n (firstn j w) /\ firstn 16 w' = firstn 16 w.
Proof.
  induction n as [|n IH]; intros j w L J1 J2 F; cbn [seq fold_left extend].
  - rewrite Nat.add_0_r. auto.
  - pose proof (sched_step w j L ltac:(lia) F) as S1.
    destruct (IH (S j) (h_sched w j)) as (A & B & C); [unfold h_sched; rewrite upd_length; exact L|lia|lia| |].
    + rewrite S1. apply Forall_app. split; [exact F|]. constructor; [apply next_word_word|constructor].
    + split; [exact A|]. split; [|rewrite C; apply firstn_upd_ge; lia].
      rewrite <- S1, <- B. f_equal. lia.
Qed.
Lemma extend_len n : forall w, length (extend n w) = (length w + n)%nat.
Proof. induction n as [|n IH]; intros w; cbn [extend]; [lia|]. rewrite IH, app_length. cbn [length]. lia. Qed.
Lemma extend_word n : forall w, Forall word w -> Forall word (extend n w).
Proof.
  induction n as [|n IH]; intros w F; cbn [extend]; [exact F|]. apply IH, Forall_app. split; [exact F|].
  constructor; [apply next_word_word|constructor].
Qed.

(* ------------------------- the rounds ---------------------------------- *)
Definition state8 (v : list Z) : Prop := length v = 8%nat /\ Forall word v.
Lemma state8_ex v : state8 v -> exists a b c d e f g h, v = [a; b; c; d; e; f; g; h] /\
  word a /\ word b /\ word c /\ word d /\ word e /\ word f /\ word g /\ word h.
Proof.
  intros [L F]. do 8 (destruct v as [|? v]; [discriminate L|]; apply Forall_inv_tail in F as FT; apply Forall_inv in F as FH; clear F; rename FT into F; revert FH).
  destruct v; [|discriminate L]. intros. do 8 eexists. split; [reflexivity|]. tauto.
Qed.
Lemma round_eq w v j : state8 v -> h_round w v j = round v (limb HASH256_K j, limb w j) /\ state8 (h_round w v j).
Proof.
  intros V. destruct (state8_ex v V) as (a & b & c & d & e & f & g & h & -> & A & B & C & D & E & F & G & H).
  unfold h_round, round. cbn [limb nth fst snd]. rewrite !wadd_add32, sig1_eq, sig0_eq, ch_eq by assumption. split; [reflexivity|].
  split; [reflexivity|]. repeat (constructor; [first [apply add32_word|assumption]|]). constructor.
Qed.
Lemma rounds_eq w ks : forall j v, state8 v -> (forall i, (i < length ks)%nat -> nth i ks 0 = limb HASH256_K (j + i)) ->
  (j + length ks <= length w)%nat ->
  fold_left (h_round w) (seq j (length ks)) v = fold_left round (combine ks (skipn j w)) v /\
  state8 (fold_left (h_round w) (seq j (length ks)) v).
Proof.
  induction ks as [|k ks IH]; intros j v V K L; cbn [length seq fold_left]; [split; [reflexivity|exact V]|]. cbn [length] in L.
  destruct (skipn j w) as [|x r] eqn:SK.
  { apply (f_equal (@length Z)) in SK. rewrite skipn_length in SK. cbn [length] in SK. lia. }
  destruct (round_eq w v j V) as [E V']. cbn [combine fold_left].
  assert (X : limb w j = x). { unfold limb. rewrite <- (Nat.add_0_r j), <- nth_skip, SK. reflexivity. }
  assert (R : skipn (S j) w = r).
  { assert (G : skipn 1 (skipn j w) = r) by (rewrite SK; reflexivity). rewrite skipn_skipn in G. exact G. }
  specialize (IH (S j) (h_round w v j) V'). rewrite R in IH.
  assert (K0 : limb HASH256_K j = k) by (symmetry; rewrite <- (Nat.add_0_r j); apply (K 0%nat); cbn [length]; lia).
  rewrite E, K0, X in IH. rewrite E, K0, X. apply IH; [|lia]. intros i I. rewrite Nat.add_succ_comm. apply (K (S i)). cbn [length]. lia.
Qed.
Lemma map2_combine l : forall m, map2 wadd l m = map (fun p => add32 (fst p) (snd p)) (combine l m).
Proof. induction l as [|x l IH]; destruct m as [|y m]; cbn [map2 combine map fst snd]; try reflexivity. rewrite IH, wadd_add32. reflexivity. Qed.
Lemma sched_all w : length w = 64%nat -> Forall word (firstn 16 w) ->
  exists w', fold_left h_sched (seq 16 48) w = w' /\ length w' = 64%nat /\ w' = schedule (firstn 16 w) /\ firstn 16 w' = firstn 16 w.
Proof.
  intros L F. destruct (sched_ok 48 16 w L ltac:(lia) ltac:(lia) F) as (A & B & C). eexists. split; [reflexivity|].
  split; [exact A|]. split; [|exact C]. unfold schedule. rewrite <- B. symmetry. apply firstn_all2. rewrite A. apply Nat.le_refl.
Qed.
Lemma rounds_all w v : length w = 64%nat -> state8 v ->
  exists v', fold_left (h_round w) (seq 0 64) v = v' /\ v' = fold_left round (combine K256 w) v /\ state8 v'.
Proof.
  intros L V. assert (P : (0 + length K256 <= length w)%nat) by (rewrite L, K_len; lia).
  assert (Q : forall i, (i < length K256)%nat -> nth i K256 0 = limb HASH256_K (0 + i)) by (intros i _; rewrite K_eq; reflexivity).
  destruct (rounds_eq w K256 0 v V Q P) as [R1 R2]. rewrite K_len in R1, R2. rewrite R1 in R2. change (skipn 0 w) with w in R1, R2.
  eexists. split; [reflexivity|]. split; [exact R1|]. rewrite R1. exact R2.
Qed.
Lemma transform_ok s : length (hw s) = 64%nat -> Forall word (firstn 16 (hw s)) -> state8 (hh s) ->
  let t := h_transform s in hh t = compress (hh s) (firstn 16 (hw s)) /\ state8 (hh t) /\ length (hw t) = 64%nat /\
  firstn 16 (hw t) = firstn 16 (hw s) /\ hlen0 t = hlen0 s /\ hlen1 t = hlen1 s.
Proof.
  intros L F V. destruct (sched_all (hw s) L F) as (w & E & A & W & C). unfold h_transform. rewrite E. clear E.
  destruct (rounds_all w (hh s) A V) as (v & E & R1 & R2). rewrite E. clear E.
  cbv zeta. cbn [hh hw hlen0 hlen1]. rewrite map2_combine. split; [unfold compress; rewrite <- W, <- R1; reflexivity|]. split.
  - split; [rewrite map_length, combine_length, (proj1 V), (proj1 R2); reflexivity|].
    apply Forall_forall. intros x X. apply in_map_iff in X. destruct X as (p & <- & _). apply add32_word.
  - auto.
Qed.

(* ------------------------- bytes in ------------------------------------ *)
Definition chunk (r : list Z) (i : nat) : list Z := firstn 4 (skipn (4 * i) r).
(* the state after absorbing m: r is what is left over after n full blocks *)
Definition absorbed (m : list Z) (s : HASH256) : Prop :=
  exists n full r, m = full ++ r /\ length full = (64 * n)%nat /\ (length r < 64)%nat /\
    hh s = fold_left compress (blocks n full) H256 /\ state8 (hh s) /\
    length (hw s) = 64%nat /\ Forall word (firstn 16 (hw s)) /\
    (forall i, (i < 16)%nat -> limb (hw s) i mod 256 ^ Z.of_nat (length (chunk r i)) = be_int (chunk r i)) /\
    hlen0 s = (8 * Z.of_nat (length m)) mod 2 ^ 32 /\ hlen1 s = (8 * Z.of_nat (length m)) / 2 ^ 32 mod 2 ^ 32.
Lemma chunk_nil i : chunk [] i = []. Proof. unfold chunk. rewrite skipn_nil. apply firstn_nil. Qed.
Lemma new_absorbed : absorbed [] h_new.
Proof.
  exists 0%nat, [], []. split; [reflexivity|]. split; [reflexivity|]. split; [cbn [length]; lia|]. split; [exact H_eq|].
  split. { split; [reflexivity|]. repeat (constructor; [unfold word; cbn; lia|]). constructor. }
  split; [reflexivity|]. split. { repeat (constructor; [unfold word; lia|]). constructor. }
  split; [|split; reflexivity]. intros i I. rewrite chunk_nil. change (256 ^ Z.of_nat (length (@nil Z))) with 1. rewrite Z.mod_1_r. reflexivity.
Qed.
Lemma chunk_app_other r b i : (i <> length r / 4)%nat -> chunk (r ++ [b]) i = chunk r i.
Proof.
  intros I. unfold chunk. pose proof (Nat.div_mod (length r) 4 ltac:(lia)) as D. pose proof (Nat.mod_upper_bound (length r) 4 ltac:(lia)) as U.
  destruct (Nat.lt_ge_cases i (length r / 4)) as [L|G].
  - rewrite skipn_app. replace (4 * i - length r)%nat with 0%nat by lia. cbn [skipn]. rewrite firstn_app.
    rewrite skipn_length. replace (4 - (length r - 4 * i))%nat with 0%nat by lia. cbn [firstn]. apply app_nil_r.
  - rewrite !skipn_all2 by (rewrite ?app_length; cbn [length]; lia). reflexivity.
Qed.
Lemma chunk_app_same r b : chunk (r ++ [b]) (length r / 4) = chunk r (length r / 4) ++ [b] /\
  length (chunk r (length r / 4)) = (length r mod 4)%nat.
Proof.
  unfold chunk. pose proof (Nat.div_mod (length r) 4 ltac:(lia)) as D. pose proof (Nat.mod_upper_bound (length r) 4 ltac:(lia)) as U.
  set (i := (length r / 4)%nat) in *. rewrite skipn_app. replace (4 * i - length r)%nat with 0%nat by lia. cbn [skipn].
  assert (L : length (skipn (4 * i) r) = (length r mod 4)%nat) by (rewrite skipn_length; lia).
  split; [|rewrite firstn_length, L; lia]. rewrite !firstn_all2; [reflexivity|lia|rewrite app_length, L; cbn [length]; lia].
Qed.
Lemma words_nth n : forall r i, (i < n)%nat -> nth i (words n r) 0 = be_int (chunk r i).
Proof.
  induction n as [|n IH]; intros r i I; [lia|]. cbn [words]. destruct i as [|i]; cbn [nth]; [reflexivity|].
  rewrite IH by lia. unfold chunk. rewrite skipn_skipn. do 3 f_equal. lia.
Qed.
Lemma words_len n : forall r, length (words n r) = n. Proof. induction n; intros r; cbn [words length]; auto. Qed.
Lemma firstn_words w r n : (n <= length w)%nat -> (forall i, (i < n)%nat -> limb w i = be_int (chunk r i)) -> firstn n w = words n r.
Proof.
  intros L E. apply (nth_ext _ _ 0 0); [rewrite firstn_length, words_len; lia|]. intros i I. rewrite firstn_length in I.
  rewrite nth_firstn_lt, words_nth by lia. apply E. lia.
Qed.
Lemma blocks_app n : forall full r, length full = (64 * n)%nat -> blocks (S n) (full ++ r) = blocks n full ++ [words 16 (firstn 64 r)].
Proof.
  induction n as [|n IH]; intros full r L.
  - destruct full; [reflexivity|discriminate L].
  - change (blocks (S (S n)) (full ++ r)) with (words 16 (firstn 64 (full ++ r)) :: blocks (S n) (skipn 64 (full ++ r))).
    change (blocks (S n) full) with (words 16 (firstn 64 full) :: blocks n (skipn 64 full)).
    rewrite firstn_app, skipn_app. replace (64 - length full)%nat with 0%nat by lia. change (firstn 0 r) with (@nil Z). change (skipn 0 r) with r. rewrite app_nil_r.
    rewrite IH by (rewrite skipn_length; lia). reflexivity.
Qed.
Definition fits (chk : bool) (n : Z) : Prop := if chk then 8 * n < 2 ^ 32 else True.
Lemma byte_in x b : 0 <= b < 256 -> Z.lor (Z.land (Z.shiftl x 8) m32) (Z.land b 255) = (256 * x + b) mod 2 ^ 32.
Proof.
  intros B. change 255 with (2 ^ 8 - 1). rewrite land_ones_mod, (Z.mod_small b), land32, shiftl_mul by lia.
  change (2 ^ 32) with (2 ^ 24 * 2 ^ 8). rewrite Z.mul_mod_distr_r by lia. rewrite lor_add by lia.
  change (2 ^ 24 * 2 ^ 8) with (2 ^ 8 * 2 ^ 24). rewrite Z.rem_mul_r by lia. change 256 with (2 ^ 8). 
  rewrite (Z.mul_comm (2 ^ 8) x), Z.add_comm, (Z.add_comm (x * 2 ^ 8) b), Z.mod_add, Z.div_add by lia.
  rewrite (Z.mod_small b), (Z.div_small b) by lia. rewrite Z.add_0_l. lia.
Qed.
Lemma length_step chk s m : hlen0 s = (8 * Z.of_nat m) mod 2 ^ 32 -> hlen1 s = (8 * Z.of_nat m) / 2 ^ 32 mod 2 ^ 32 -> fits chk (Z.of_nat m + 1) ->
  exists l0 l1, h_inc chk (hlen0 s + 8) = Some l0 /\ (if l0 =? 0 then h_inc chk (hlen1 s + 1) else Some (hlen1 s)) = Some l1 /\
    l0 = (8 * Z.of_nat (m + 1)) mod 2 ^ 32 /\ l1 = (8 * Z.of_nat (m + 1)) / 2 ^ 32 mod 2 ^ 32.
Proof.
  intros A B F. set (t := 8 * Z.of_nat m) in *. assert (T : 8 * Z.of_nat (m + 1) = t + 8) by (unfold t; lia). rewrite T.
  assert (T0 : 0 <= t) by (unfold t; lia). pose proof (Z.div_mod t (2 ^ 32) ltac:(lia)) as D. pose proof (Z.mod_pos_bound t (2 ^ 32) ltac:(lia)) as P.
  destruct chk; cbn [fits] in F; unfold h_inc.
  - assert (TF : t + 8 < 2 ^ 32) by (unfold t; lia). rewrite Z.mod_small in A by lia. rewrite (Z.div_small t) in B by lia. change (0 mod 2 ^ 32) with 0 in B.
    exists (t + 8), 0. rewrite A. unfold cku32. change m32 with (2 ^ 32 - 1).
    destruct (Z.leb_spec 0 (t + 8)), (Z.leb_spec (t + 8) (2 ^ 32 - 1)); try lia. cbn [andb]. split; [reflexivity|].
    destruct (Z.eqb_spec (t + 8) 0); [lia|]. rewrite B, (Z.div_small (t + 8)), (Z.mod_small (t + 8)) by lia. change (0 mod 2 ^ 32) with 0. auto.
  - rewrite A, B.
    assert (M8 : t mod 8 = 0) by (unfold t; rewrite Z.mul_comm; apply Z.mod_mul; lia).
    assert (T8 : (t mod 2 ^ 32) mod 8 = 0).
    { rewrite <- M8. symmetry. apply Zmod_div_mod; [lia|lia|]. exists (2 ^ 29). reflexivity. }
    assert (C : t mod 2 ^ 32 <= 2 ^ 32 - 8).
    { pose proof (Z.div_mod (t mod 2 ^ 32) 8 ltac:(lia)). lia. }
    exists ((t mod 2 ^ 32 + 8) mod 2 ^ 32). rewrite land32. destruct (Z.eq_dec (t mod 2 ^ 32) (2 ^ 32 - 8)) as [E|E].
    + rewrite E. change ((2 ^ 32 - 8 + 8) mod 2 ^ 32) with 0. cbn [Z.eqb].
      assert (V : t + 8 = (t / 2 ^ 32 + 1) * 2 ^ 32) by lia. rewrite V, Z.mod_mul, Z.div_mul by lia.
      exists ((t / 2 ^ 32 + 1) mod 2 ^ 32). split; [reflexivity|]. split; [|auto]. rewrite land32. f_equal.
      rewrite Zplus_mod_idemp_l. reflexivity.
    + rewrite Z.mod_small by lia. destruct (Z.eqb_spec (t mod 2 ^ 32 + 8) 0); [lia|]. exists (t / 2 ^ 32 mod 2 ^ 32). split; [reflexivity|].
      split; [reflexivity|]. split; [apply (Z.mod_unique _ _ (t / 2 ^ 32)); [left; lia|lia]|].
      f_equal. apply (Z.div_unique _ _ _ (t mod 2 ^ 32 + 8)); [left; lia|lia].
Qed.
Lemma count_of m : Z.to_nat ((8 * Z.of_nat m) mod 2 ^ 32 / 32 mod 16) = ((m mod 64) / 4)%nat.
Proof.
  assert (E : (8 * Z.of_nat m) mod 2 ^ 32 / 32 mod 16 = Z.of_nat ((m mod 64) / 4)); [|rewrite E; apply Nat2Z.id].
  rewrite Nat2Z.inj_div, Nat2Z.inj_mod. change (Z.of_nat 64) with 64. change (Z.of_nat 4) with 4. set (z := Z.of_nat m).
  assert (0 <= z) by (unfold z; lia).
  change (2 ^ 32) with (8 * 2 ^ 29). rewrite Z.mul_mod_distr_l by lia. change 32 with (8 * 4). rewrite Z.div_mul_cancel_l by lia.
  change (2 ^ 29) with (4 * 2 ^ 27). rewrite Z.rem_mul_r by lia. rewrite (Z.add_comm (z mod 4)), (Z.mul_comm 4 ((z / 4) mod 2 ^ 27)), Z.div_add_l by lia.
  rewrite (Z.div_small (z mod 4)) by (apply Z.mod_pos_bound; lia). rewrite Z.add_0_r.
  change 64 with (4 * 16). rewrite Z.rem_mul_r by lia. rewrite (Z.add_comm (z mod 4)), (Z.mul_comm 4 ((z / 4) mod 16)), Z.div_add_l by lia.
  rewrite (Z.div_small (z mod 4)) by (apply Z.mod_pos_bound; lia). rewrite Z.add_0_r.
  symmetry. apply Zmod_div_mod; [lia|lia|]. exists (2 ^ 23). reflexivity.
Qed.
Lemma full_mod m : ((8 * Z.of_nat m) mod 2 ^ 32) mod 512 = 8 * Z.of_nat (m mod 64).
Proof.
  rewrite Nat2Z.inj_mod. change (Z.of_nat 64) with 64. rewrite <- Zmod_div_mod; [|lia|lia|exists (2 ^ 23); reflexivity].
  change 512 with (8 * 64). apply Z.mul_mod_distr_l; lia.
Qed.
Lemma process_ok chk m s b : absorbed m s -> 0 <= b < 256 -> fits chk (Z.of_nat (length m) + 1) ->
  exists s', h_process chk s b = Some s' /\ absorbed (m ++ [b]) s'.
Proof.
  intros (n & full & r & M & LF & LR & HH & S8 & LW & FW & CH & L0 & L1) B F.
  assert (LM : length m = (64 * n + length r)%nat) by (rewrite M, app_length, LF; reflexivity).
  assert (MM : (length m mod 64 = length r)%nat).
  { rewrite LM, Nat.add_comm, Nat.mul_comm, Nat.mod_add by lia. apply Nat.mod_small, LR. }
  destruct (length_step chk s (length m) L0 L1 F) as (l0 & l1 & E0 & E1 & V0 & V1).
  unfold h_process. rewrite L0, count_of, MM, byte_in by exact B. rewrite L0 in E0. rewrite E0. cbn [bind]. rewrite E1. cbn [bind].
  eexists. split; [reflexivity|].
  set (c := (length r / 4)%nat). pose proof (Nat.div_mod (length r) 4 ltac:(lia)) as D. pose proof (Nat.mod_upper_bound (length r) 4 ltac:(lia)) as U. fold c in D.
  assert (C16 : (c < 16)%nat) by lia.
  set (w := upd (hw s) c ((256 * limb (hw s) c + b) mod 2 ^ 32)).
  assert (LW' : length w = 64%nat) by (unfold w; rewrite upd_length; exact LW).
  assert (FW' : Forall word (firstn 16 w)).
  { apply Forall_forall. intros x X. apply (In_nth _ _ 0) in X. destruct X as (i & I & <-). rewrite firstn_length in I.
    rewrite nth_firstn_lt by lia. unfold w. destruct (Nat.eq_dec c i) as [<-|N].
    - rewrite nth_upd_same by lia. unfold word. apply Z.mod_pos_bound. lia.
    - rewrite nth_upd_other by exact N. rewrite <- (nth_firstn_lt _ _ 16) by lia. apply word_nth, FW. }
  assert (CH' : forall i, (i < 16)%nat -> limb w i mod 256 ^ Z.of_nat (length (chunk (r ++ [b]) i)) = be_int (chunk (r ++ [b]) i)).
  { intros i I. destruct (Nat.eq_dec i c) as [->|N].
    - destruct (chunk_app_same r b) as [C1 C2]. fold c in C1, C2. rewrite C1, app_length, C2, be_int_snoc. cbn [length].
      unfold limb, w. rewrite nth_upd_same by lia. pose proof (CH c I) as CC. rewrite C2 in CC. rewrite <- CC. fold (limb (hw s) c).
      set (x := limb (hw s) c). set (j := (length r mod 4)%nat) in *. replace (Z.of_nat (j + 1)) with (1 + Z.of_nat j) by lia.
      rewrite <- Zmod_div_mod; [|apply Z.pow_pos_nonneg; lia|lia|].
      + rewrite Z.pow_add_r by lia. change (256 ^ 1) with 256.
        assert (0 < 256 ^ Z.of_nat j) by (apply Z.pow_pos_nonneg; lia).
        rewrite Z.rem_mul_r by lia. rewrite (Z.mul_comm 256 x), (Z.add_comm (x * 256) b), Z.mod_add, Z.div_add by lia.
        rewrite (Z.mod_small b), (Z.div_small b) by lia. rewrite Z.add_0_l. lia.
      + change (2 ^ 32) with (256 ^ 4). exists (256 ^ (4 - (1 + Z.of_nat j))). rewrite <- Z.pow_add_r by lia. f_equal. lia.
    - rewrite chunk_app_other by exact N. unfold limb, w. rewrite nth_upd_other by auto. apply CH, I. }
  replace (length m + 1)%nat with (length (m ++ [b])) in * by (rewrite app_length; reflexivity).
  assert (FM : l0 mod 512 = 8 * Z.of_nat (length (m ++ [b]) mod 64)) by (rewrite V0; apply full_mod). rewrite FM.
  assert (M' : m ++ [b] = full ++ (r ++ [b])) by (rewrite M, app_assoc; reflexivity).
  destruct (Nat.eq_dec (length r) 63) as [E|E].
  - assert (Z0 : (length (m ++ [b]) mod 64 = 0)%nat).
    { rewrite app_length. cbn [length]. rewrite LM, E. replace (64 * n + 63 + 1)%nat with ((n + 1) * 64)%nat by lia. apply Nat.mod_mul. lia. }
    rewrite Z0. change (8 * Z.of_nat 0 =? 0) with true. cbv iota.
    destruct (transform_ok (mkH l0 l1 (hh s) w) LW' FW' S8) as (T1 & T2 & T3 & T4 & T5 & T6). cbv zeta in *. cbn [hh hw hlen0 hlen1] in *.
    exists (S n), (m ++ [b]), []. rewrite app_nil_r. split; [reflexivity|]. split; [rewrite app_length; cbn [length]; lia|].
    split; [cbn [length]; lia|]. split.
    + rewrite T1, M', blocks_app by exact LF. rewrite fold_left_app, <- HH. cbn [fold_left]. f_equal.
      assert (FA : firstn 64 (r ++ [b]) = r ++ [b]) by (apply firstn_all2; rewrite app_length; cbn [length]; lia). rewrite FA.
      apply firstn_words; [lia|]. intros i I. rewrite <- (CH' i I).
      assert (CL : length (chunk (r ++ [b]) i) = 4%nat).
      { unfold chunk. rewrite firstn_length, skipn_length, app_length. cbn [length]. lia. }
      rewrite CL. symmetry. change (256 ^ Z.of_nat 4) with (2 ^ 32). apply Z.mod_small.
      unfold limb. rewrite <- (nth_firstn_lt _ _ 16) by exact I. apply (word_nth _ _ FW').
    + split; [exact T2|]. split; [exact T3|]. split; [rewrite T4; exact FW'|]. split.
      * intros i I. rewrite chunk_nil. change (256 ^ Z.of_nat (length (@nil Z))) with 1. rewrite Z.mod_1_r. reflexivity.
      * rewrite T5, T6. auto.
  - assert (Z1 : (length (m ++ [b]) mod 64 = length r + 1)%nat).
    { rewrite app_length. cbn [length]. rewrite LM. replace (64 * n + length r + 1)%nat with (length r + 1 + n * 64)%nat by lia.
      rewrite Nat.mod_add by lia. apply Nat.mod_small. lia. }
    rewrite Z1. destruct (Z.eqb_spec (8 * Z.of_nat (length r + 1)) 0) as [X|_]; [lia|].
    exists n, full, (r ++ [b]). split; [exact M'|]. split; [exact LF|]. split; [rewrite app_length; cbn [length]; lia|].
    cbn [hh hw hlen0 hlen1]. auto 10.
Qed.

Lemma array_ok chk : forall b m s, absorbed m s -> bytes b -> fits chk (Z.of_nat (length m + length b)) ->
  exists s', h_process_array chk s b = Some s' /\ absorbed (m ++ b) s'.
Proof.
  induction b as [|x b IH]; intros m s A B F.
  - exists s. rewrite app_nil_r. split; [reflexivity|exact A].
  - cbn [length] in F. apply Forall_inv_tail in B as BT. apply Forall_inv in B as BH.
    destruct (process_ok chk m s x A BH) as (s1 & E1 & A1); [destruct chk; unfold fits in *; lia|].
    destruct (IH (m ++ [x]) s1 A1 BT) as (s2 & E2 & A2).
    { rewrite app_length. cbn [length]. destruct chk; unfold fits in *; lia. }
    exists s2. unfold h_process_array in *. cbn [foldM]. rewrite E1. cbn [bind]. split; [exact E2|].
    rewrite <- app_assoc in A2. exact A2.
Qed.

(* ------------------------- padding ------------------------------------- *)
Lemma absorbed_len0 m s : absorbed m s -> hlen0 s mod 512 = 8 * Z.of_nat (length m mod 64).
Proof. intros (n & full & r & _ & _ & _ & _ & _ & _ & _ & _ & L0 & _). rewrite L0. apply full_mod. Qed.
Lemma pad_ok chk j : forall fuel m s, absorbed m s -> (j < 64)%nat -> ((length m + j) mod 64 = 56)%nat -> (j < fuel)%nat ->
  fits chk (Z.of_nat (length m + j)) -> exists s', h_pad chk fuel s = Some s' /\ absorbed (m ++ repeat 0 j) s'.
Proof.
  induction j as [|j IH]; intros fuel m s A J M FU F; destruct fuel as [|fuel]; try lia; cbn [h_pad]; rewrite (absorbed_len0 m s A).
  - rewrite Nat.add_0_r in M. rewrite M. change (8 * Z.of_nat 56 =? 448) with true. cbv iota. exists s. split; [reflexivity|].
    cbn [repeat]. rewrite app_nil_r. exact A.
  - assert (N : (length m mod 64 <> 56)%nat).
    { intros C. pose proof (Nat.div_mod (length m) 64 ltac:(lia)) as D1. pose proof (Nat.div_mod (length m + S j) 64 ltac:(lia)) as D2. lia. }
    destruct (Z.eqb_spec (8 * Z.of_nat (length m mod 64)) 448) as [X|_]; [lia|].
    destruct (process_ok chk m s 0 A ltac:(lia)) as (s1 & E1 & A1); [destruct chk; unfold fits in *; lia|]. rewrite E1. cbn [bind].
    assert (LL : length (m ++ [0]) = (length m + 1)%nat) by (rewrite app_length; reflexivity).
    destruct (IH fuel (m ++ [0]) s1 A1 ltac:(lia)) as (s2 & E2 & A2).
    { rewrite LL. replace (length m + 1 + j)%nat with (length m + S j)%nat by lia. exact M. }
    { lia. }
    { rewrite LL. destruct chk; unfold fits in *; lia. }
    exists s2. split; [exact E2|]. rewrite <- app_assoc in A2. exact A2.
Qed.
Definition pad_count (n : nat) : nat := Z.to_nat ((55 - Z.of_nat n) mod 64).
Lemma pad_count_ok n : (pad_count n < 64)%nat /\ ((n + 1 + pad_count n) mod 64 = 56)%nat.
Proof.
  unfold pad_count. pose proof (Z.mod_pos_bound (55 - Z.of_nat n) 64 ltac:(lia)) as P. split; [lia|].
  apply Nat2Z.inj. rewrite Nat2Z.inj_mod. rewrite !Nat2Z.inj_add, Z2Nat.id by lia. change (Z.of_nat 64) with 64. change (Z.of_nat 1) with 1. change (Z.of_nat 56) with 56.
  pose proof (Z.div_mod (55 - Z.of_nat n) 64 ltac:(lia)) as D.
  replace (Z.of_nat n + 1 + (55 - Z.of_nat n) mod 64) with (56 + (- ((55 - Z.of_nat n) / 64)) * 64) by lia.
  rewrite Z.mod_add by lia. reflexivity.
Qed.
Lemma be4 x : be_bytes 4 x = map (fun i => Z.land (Z.shiftr x (8 * (3 - Z.of_nat (i mod 4)))) 255) (seq 0 4).
Proof.
  change (seq 0 4) with [0; 1; 2; 3]%nat. cbn [map].
  change (Z.of_nat (0 mod 4)) with 0. change (Z.of_nat (1 mod 4)) with 1. change (Z.of_nat (2 mod 4)) with 2. change (Z.of_nat (3 mod 4)) with 3.
  change 255 with (2 ^ 8 - 1). rewrite !land_ones_mod, !shiftr_div by lia. change (2 ^ (8 * (3 - 3))) with 1. rewrite (Z.div_1_r x).
  cbn [be_bytes app]. rewrite !Z.div_div by lia. reflexivity.
Qed.
Lemma digest_eq v : state8 v ->
  map (fun i => Z.land (Z.shiftr (limb v (i / 4)) (8 * (3 - Z.of_nat (i mod 4)))) 255) (seq 0 32) = flat_map (be_bytes 4) v.
Proof.
  intros V. destruct (state8_ex v V) as (a & b & c & d & e & f & g & h & -> & _). cbn [flat_map]. rewrite !be4, app_nil_r. reflexivity.
Qed.
Lemma split4 (a b : list Z) : length a = 4%nat -> firstn 4 (a ++ b) = a /\ skipn 4 (a ++ b) = b.
Proof. intros L. do 4 (destruct a as [|? a]; [discriminate L|]). destruct a; [|discriminate L]. split; reflexivity. Qed.
Lemma words_split x : words 2 (be_bytes 8 x) = [(x / 2 ^ 32) mod 2 ^ 32; x mod 2 ^ 32].
Proof.
  assert (E : be_bytes 8 x = be_bytes 4 (x / 2 ^ 32) ++ be_bytes 4 x).
  { cbn [be_bytes app]. rewrite !Z.div_div by lia. reflexivity. }
  rewrite E. destruct (split4 _ (be_bytes 4 x) (be_bytes_length 4 (x / 2 ^ 32))) as [A B].
  change (words 2 ?l) with [be_int (firstn 4 l); be_int (firstn 4 (skipn 4 l))]. rewrite A, B.
  destruct (split4 _ [] (be_bytes_length 4 x)) as [C _]. rewrite app_nil_r in C. rewrite C, !be_int_bytes. reflexivity.
Qed.

(* ------------------------- the digest ---------------------------------- *)
Lemma hash_ok chk m s : absorbed m s -> fits chk (Z.of_nat (length m + 1 + pad_count (length m))) ->
  h_hash chk s = Some (sha256 m, h_new).
Proof.
  intros A F. destruct (pad_count_ok (length m)) as [PC PM]. set (k := pad_count (length m)) in *.
  destruct (process_ok chk m s 128 A ltac:(lia)) as (s1 & E1 & A1); [destruct chk; unfold fits in *; lia|].
  assert (LL : length (m ++ [128]) = (length m + 1)%nat) by (rewrite app_length; reflexivity).
  destruct (pad_ok chk k 65 (m ++ [128]) s1 A1 PC) as (s2 & E2 & A2); [rewrite LL; exact PM|lia|rewrite LL; exact F|].
  destruct A as (_ & _ & _ & _ & _ & _ & _ & _ & _ & _ & _ & L0 & L1).
  unfold h_hash. rewrite E1. cbn [bind]. rewrite E2. cbn [bind].
  destruct A2 as (n & full & r & M & LF & LR & HH & S8 & LW & FW & CH & _ & _).
  assert (LP : length ((m ++ [128]) ++ repeat 0 k) = (length m + 1 + k)%nat) by (rewrite !app_length, repeat_length; reflexivity).
  assert (R56 : length r = 56%nat).
  { pose proof (f_equal (@length Z) M) as Q. rewrite LP, app_length, LF in Q. rewrite Q, Nat.add_comm, Nat.mul_comm, Nat.mod_add in PM by lia.
    rewrite Nat.mod_small in PM by exact LR. exact PM. }
  set (w := upd (upd (hw s2) 14 (hlen1 s)) 15 (hlen0 s)).
  assert (LW' : length w = 64%nat) by (unfold w; rewrite !upd_length; exact LW).
  set (len := be_bytes 8 (8 * Z.of_nat (length m))). assert (LL8 : length len = 8%nat) by apply be_bytes_length.
  assert (B1 : hlen1 s = (8 * Z.of_nat (length m) / 2 ^ 32) mod 2 ^ 32).
  { exact L1. }
  pose proof (words_split (8 * Z.of_nat (length m))) as WS. fold len in WS.
  assert (CHK : forall i, (i < 16)%nat -> limb w i = be_int (chunk (r ++ len) i)).
  { intros i I. unfold w, limb. destruct (Nat.eq_dec i 15) as [->|N15].
    - rewrite nth_upd_same by (rewrite upd_length; lia). unfold chunk. rewrite skipn_app, R56. change (4 * 15)%nat with 60%nat.
      rewrite (skipn_all2 r) by lia. change (60 - 56)%nat with 4%nat. cbn [app]. rewrite L0. symmetry.
      change (be_int (firstn 4 (skipn 4 len))) with (nth 1 (words 2 len) 0). rewrite WS. reflexivity.
    - rewrite nth_upd_other by auto. destruct (Nat.eq_dec i 14) as [->|N14].
      + rewrite nth_upd_same by lia. unfold chunk. rewrite skipn_app, R56. change (4 * 14)%nat with 56%nat.
        rewrite (skipn_all2 r) by lia. change (56 - 56)%nat with 0%nat. change (skipn 0 len) with len. cbn [app]. rewrite B1. symmetry.
        change (be_int (firstn 4 len)) with (nth 0 (words 2 len) 0). rewrite WS. reflexivity.
      + rewrite nth_upd_other by auto. assert (CE : chunk (r ++ len) i = chunk r i).
        { unfold chunk. rewrite skipn_app, firstn_app, skipn_length, R56. replace (4 - (56 - 4 * i))%nat with 0%nat by lia.
          change (firstn 0 ?l) with (@nil Z). apply app_nil_r. }
        rewrite CE, <- (CH i I). assert (CL : length (chunk r i) = 4%nat) by (unfold chunk; rewrite firstn_length, skipn_length; lia).
        rewrite CL. symmetry. change (256 ^ Z.of_nat 4) with (2 ^ 32). apply Z.mod_small. unfold limb.
        rewrite <- (nth_firstn_lt _ _ 16) by exact I. apply (word_nth _ _ FW). }
  assert (FW' : Forall word (firstn 16 w)).
  { rewrite (firstn_words w (r ++ len) 16) by (try exact CHK; lia). apply Forall_forall. intros x X. apply (In_nth _ _ 0) in X.
    destruct X as (i & I & <-). rewrite words_len in I. rewrite words_nth, <- CHK by exact I. unfold w, limb.
    destruct (Nat.eq_dec i 15) as [->|N15].
    - rewrite nth_upd_same by (rewrite upd_length; lia). rewrite L0. unfold word. apply Z.mod_pos_bound. lia.
    - rewrite nth_upd_other by auto. destruct (Nat.eq_dec i 14) as [->|N14].
      + rewrite nth_upd_same by lia. rewrite B1. unfold word. apply Z.mod_pos_bound. lia.
      + rewrite nth_upd_other by auto. rewrite <- (nth_firstn_lt _ _ 16) by exact I. apply (word_nth _ _ FW). }
  destruct (transform_ok (mkH (hlen0 s2) (hlen1 s2) (hh s2) w) LW' FW' S8) as (T1 & T2 & _). cbv zeta in T1, T2. cbn [hh hw] in T1.
  cbv zeta. rewrite digest_eq by exact T2. f_equal. f_equal. rewrite T1. unfold sha256. cbv zeta.
  assert (P : padded m = full ++ (r ++ len)).
  { unfold padded. fold (pad_count (length m)). fold k. fold len. rewrite app_assoc, (app_assoc _ _ len), M, <- app_assoc. reflexivity. }
  assert (PL : (length (padded m) / 64 = S n)%nat).
  { rewrite P, !app_length, LF, R56, LL8. replace (64 * n + (56 + 8))%nat with ((S n) * 64)%nat by lia. apply Nat.div_mul. lia. }
  rewrite PL, P, blocks_app by exact LF. rewrite fold_left_app, <- HH. cbn [fold_left].
  assert (FA : firstn 64 (r ++ len) = r ++ len) by (apply firstn_all2; rewrite app_length; lia). rewrite FA.
  rewrite <- (firstn_words w (r ++ len) 16) by (try exact CHK; lia). reflexivity.
Qed.

(* ------------------------- the property -------------------------------- *)
(* any message in any chunking *)
Lemma chunks_ok chk : forall cs m s, absorbed m s -> Forall bytes cs -> fits chk (Z.of_nat (length m + length (concat cs))) ->
  exists s', foldM (h_process_array chk) cs s = Some s' /\ absorbed (m ++ concat cs) s'.
Proof.
  induction cs as [|c cs IH]; intros m s A B F; cbn [concat foldM] in *.
  - exists s. rewrite app_nil_r. auto.
  - rewrite app_length in F. apply Forall_inv_tail in B as BT. apply Forall_inv in B as BH.
    destruct (array_ok chk c m s A BH) as (s1 & E1 & A1); [destruct chk; unfold fits in *; lia|]. rewrite E1. cbn [bind].
    destruct (IH (m ++ c) s1 A1 BT) as (s2 & E2 & A2); [rewrite app_length; destruct chk; unfold fits in *; lia|].
    exists s2. split; [exact E2|]. rewrite <- app_assoc in A2. exact A2.
Qed.
Lemma sha_release : forall cs, Forall bytes cs ->
  (s <- foldM (h_process_array false) cs h_new ;; h_hash false s) = Some (sha256 (concat cs), h_new).
Proof.
  intros cs B. destruct (chunks_ok false cs [] h_new new_absorbed B I) as (s & E & A).
  rewrite E. cbn [bind]. cbn [app] in A. apply hash_ok; [exact A|exact I].
Qed.
Lemma pad_bound n : Z.of_nat n < 2 ^ 29 - 8 -> Z.of_nat (n + 1 + pad_count n) < 2 ^ 29.
Proof.
  intros N. destruct (pad_count_ok n) as [P M]. set (t := (n + 1 + pad_count n)%nat) in *.
  pose proof (Nat.div_mod t 64 ltac:(lia)) as D. rewrite M in D. lia.
Qed.
Lemma sha_checked : forall cs, Forall bytes cs -> Z.of_nat (length (concat cs)) < 2 ^ 29 - 8 ->
  (s <- foldM (h_process_array true) cs h_new ;; h_hash true s) = Some (sha256 (concat cs), h_new).
Proof.
  intros cs B L. destruct (chunks_ok true cs [] h_new new_absorbed B) as (s & E & A); [unfold fits; cbn [length]; lia|].
  rewrite E. cbn [bind]. cbn [app] in A. pose proof (pad_bound _ L) as P. apply hash_ok; [exact A|unfold fits; lia].
Qed.
(* with overflow checks the 2^29th byte panics *)
Lemma process_panic m s b : absorbed m s -> Z.of_nat (length m) = 2 ^ 29 - 1 -> h_process true s b = None.
Proof.
  intros (n & full & r & _ & _ & _ & _ & _ & _ & _ & _ & L0 & _) L. unfold h_process, h_inc. rewrite L0, L. reflexivity.
Qed.
Lemma array_panic : forall b m s, absorbed m s -> bytes b -> Z.of_nat (length m) < 2 ^ 29 -> 2 ^ 29 <= Z.of_nat (length m + length b) ->
  h_process_array true s b = None.
Proof.
  induction b as [|x b IH]; intros m s A B L G; cbn [length] in G; [lia|]. unfold h_process_array. cbn [foldM].
  destruct (Z.eq_dec (Z.of_nat (length m)) (2 ^ 29 - 1)) as [E|E]; [rewrite (process_panic m s x A E); reflexivity|].
  apply Forall_inv_tail in B as BT. apply Forall_inv in B as BH.
  destruct (process_ok true m s x A BH) as (s1 & E1 & A1); [unfold fits; lia|]. rewrite E1. cbn [bind].
  apply (IH (m ++ [x]) s1 A1 BT); rewrite app_length; cbn [length]; lia.
Qed.
Lemma chunks_panic : forall cs m s, absorbed m s -> Forall bytes cs -> Z.of_nat (length m) < 2 ^ 29 -> 2 ^ 29 <= Z.of_nat (length m + length (concat cs)) ->
  foldM (h_process_array true) cs s = None.
Proof.
  induction cs as [|c cs IH]; intros m s A B L G; cbn [concat] in G; [cbn [length] in G; lia|]. rewrite app_length in G. cbn [foldM].
  apply Forall_inv_tail in B as BT. apply Forall_inv in B as BH.
  destruct (Z_lt_le_dec (Z.of_nat (length m + length c)) (2 ^ 29)) as [H|H].
  - destruct (array_ok true c m s A BH) as (s1 & E1 & A1); [unfold fits; lia|]. rewrite E1. cbn [bind].
    apply (IH (m ++ c) s1 A1 BT); rewrite app_length; lia.
  - rewrite (array_panic c m s A BH L H). reflexivity.
Qed.
Lemma pad_panic j : forall fuel m s, absorbed m s -> (j < 64)%nat -> ((length m + j) mod 64 = 56)%nat ->
  Z.of_nat (length m) < 2 ^ 29 -> 2 ^ 29 <= Z.of_nat (length m + j) -> h_pad true fuel s = None.
Proof.
  induction j as [|j IH]; intros fuel m s A J M L G; [lia|]. destruct fuel as [|fuel]; [reflexivity|]. cbn [h_pad]. rewrite (absorbed_len0 m s A).
  assert (N : (length m mod 64 <> 56)%nat).
  { intros C. pose proof (Nat.div_mod (length m) 64 ltac:(lia)) as D1. pose proof (Nat.div_mod (length m + S j) 64 ltac:(lia)) as D2. lia. }
  destruct (Z.eqb_spec (8 * Z.of_nat (length m mod 64)) 448) as [X|_]; [lia|].
  destruct (Z.eq_dec (Z.of_nat (length m)) (2 ^ 29 - 1)) as [E|E]; [rewrite (process_panic m s 0 A E); reflexivity|].
  destruct (process_ok true m s 0 A ltac:(lia)) as (s1 & E1 & A1); [unfold fits; lia|]. rewrite E1. cbn [bind].
  assert (LL : length (m ++ [0]) = (length m + 1)%nat) by (rewrite app_length; reflexivity).
  apply (IH fuel (m ++ [0]) s1 A1); rewrite ?LL; try lia. replace (length m + 1 + j)%nat with (length m + S j)%nat by lia. exact M.
Qed.
Lemma pad_over n : 2 ^ 29 - 8 <= Z.of_nat n -> 2 ^ 29 <= Z.of_nat (n + 1 + pad_count n).
Proof.
  intros N. destruct (pad_count_ok n) as [P M]. set (t := (n + 1 + pad_count n)%nat) in *.
  assert (t >= n + 1)%nat by (unfold t; lia). pose proof (Nat.div_mod t 64 ltac:(lia)) as D. rewrite M in D. lia.
Qed.
Lemma sha_checked_panic : forall cs, Forall bytes cs -> 2 ^ 29 - 8 <= Z.of_nat (length (concat cs)) ->
  (s <- foldM (h_process_array true) cs h_new ;; h_hash true s) = None.
Proof.
  intros cs B L. destruct (Z_lt_le_dec (Z.of_nat (length (concat cs))) (2 ^ 29)) as [H|H].
  2:{ rewrite (chunks_panic cs [] h_new new_absorbed B); [reflexivity|cbn [length]; lia|exact H]. }
  destruct (chunks_ok true cs [] h_new new_absorbed B) as (s & E & A); [unfold fits; cbn [length]; lia|].
  rewrite E. cbn [bind]. cbn [app] in A. set (m := concat cs) in *. destruct (pad_count_ok (length m)) as [PC PM]. pose proof (pad_over _ L) as PO.
  unfold h_hash. destruct (Z.eq_dec (Z.of_nat (length m)) (2 ^ 29 - 1)) as [X|X].
  - rewrite (process_panic m s 128 A X). reflexivity.
  - destruct (process_ok true m s 128 A ltac:(lia)) as (s1 & E1 & A1); [unfold fits; lia|]. rewrite E1. cbn [bind].
    assert (LL : length (m ++ [128]) = (length m + 1)%nat) by (rewrite app_length; reflexivity).
    rewrite (pad_panic (pad_count (length m)) 65 (m ++ [128]) s1 A1 PC); rewrite ?LL; try reflexivity; try lia; exact PM.
Qed.
(* a concrete overlong message: 2^29 zero bytes *)
Lemma sha_refuted : exists cs, Forall bytes cs /\ Z.of_nat (length (concat cs)) < 2 ^ 61 /\
  (s <- foldM (h_process_array true) cs h_new ;; h_hash true s) = None.
Proof.
  exists [repeat 0 (Z.to_nat (2 ^ 29))]. cbn [concat]. rewrite app_nil_r.
  assert (B : Forall bytes [repeat 0 (Z.to_nat (2 ^ 29))]).
  { constructor; [|constructor]. apply Forall_forall. intros x X. apply repeat_spec in X. subst x. split; [discriminate|reflexivity]. }
  assert (L : Z.of_nat (length (repeat 0 (Z.to_nat (2 ^ 29)))) = 2 ^ 29) by (rewrite repeat_length; apply Z2Nat.id; discriminate).
  split; [exact B|]. split; [rewrite L; reflexivity|]. apply sha_checked_panic; [exact B|]. cbn [concat]. rewrite app_nil_r, L. discriminate.
Qed.
(* process_num feeds the four big-endian bytes of an i32 *)
Lemma sha_num : forall chk s n, - 2 ^ 31 <= n < 2 ^ 31 -> h_process_num chk s n = h_process_array chk s (be_bytes 4 (n mod 2 ^ 32)).
Proof.
  intros chk s n N. unfold h_process_num. rewrite be4. cbn [seq map]. f_equal.
  assert (E : forall k, In k [24;16;8;0] -> Z.land (Z.shiftr (n mod 2 ^ 32) k) 255 = Z.land (Z.shiftr n k) 255).
  { intros k K. change 255 with (2 ^ 8 - 1). rewrite <- (Z.land_ones n 32), Z.shiftr_land by lia. rewrite <- Z.land_assoc. f_equal. destruct K as [<-|[<-|[<-|[<-|[]]]]]; reflexivity. }
  change (8 * (3 - Z.of_nat (0 mod 4))) with 24. change (8 * (3 - Z.of_nat (1 mod 4))) with 16.
  change (8 * (3 - Z.of_nat (2 mod 4))) with 8. change (8 * (3 - Z.of_nat (3 mod 4))) with 0.
  rewrite !E by (cbn [In]; auto). rewrite Z.shiftr_0_r. reflexivity.
Qed.
