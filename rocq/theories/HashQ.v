(* hash512.rs computes SHA-512 and hash384.rs, where it does not panic, SHA-384. *)
From Coq Require Import ZArith Znumtheory List Lia Bool.
From Verif Require Import Prim PrimP SpecBytes SpecSha5 Hash512.
Import ListNotations.
Open Scope Z_scope.

Definition word (x : Z) : Prop := 0 <= x < 2 ^ 64.
Lemma land64 z : Z.land z m64 = z mod 2 ^ 64.
Proof. change m64 with (2 ^ 64 - 1). apply land_ones_mod. lia. Qed.
Lemma wadd_add64 x y : wadd64 x y = add64 x y. Proof. unfold wadd64, add64. apply land64. Qed.
Lemma add64_word x y : word (add64 x y). Proof. unfold word, add64. apply Z.mod_pos_bound. lia. Qed.
Lemma rotr_eq n x : 0 < n < 64 -> word x -> q_s n x = rotr64 n x.
Proof.
  intros N [X0 X1]. unfold q_s, rotr64. rewrite land64, shiftr_div, shiftl_mul by lia.
  assert (E : (2 ^ 64 = 2 ^ n * 2 ^ (64 - n))) by (rewrite <- Z.pow_add_r by lia; f_equal; lia).
  assert (0 < 2 ^ n) by (apply Z.pow_pos_nonneg; lia). assert (0 < 2 ^ (64 - n)) by (apply Z.pow_pos_nonneg; lia).
  rewrite E at 1. rewrite Z.mul_mod_distr_r by lia. rewrite Z.lor_comm. apply lor_add; [lia|].
  split; [apply Z.div_pos; lia|]. apply Z.div_lt_upper_bound; lia.
Qed.
Lemma shr_eq n x : 0 <= n -> q_r n x = shr64 n x. Proof. intros N. apply shiftr_div, N. Qed.
Lemma comp64 x : word x -> Z.lxor x m64 = 2 ^ 64 - 1 - x.
Proof.
  intros [X0 X1]. change (2 ^ 64 - 1) with m64.
  assert (L : Z.land x m64 = x) by (rewrite land64; apply Z.mod_small; lia).
  rewrite (Z.sub_nocarry_ldiff m64 x).
  - apply Z.bits_inj'. intros i I. rewrite Z.lxor_spec, Z.ldiff_spec. 
    assert (T : Z.testbit x i = Z.testbit x i && Z.testbit m64 i) by (rewrite <- Z.land_spec, L; reflexivity).
    destruct (Z.testbit x i), (Z.testbit m64 i); try reflexivity; discriminate T.
  - apply Z.bits_inj'. intros i I. rewrite Z.ldiff_spec, Z.bits_0.
    assert (T : Z.testbit x i = Z.testbit x i && Z.testbit m64 i) by (rewrite <- Z.land_spec, L; reflexivity).
    destruct (Z.testbit x i), (Z.testbit m64 i); try reflexivity; discriminate T.
Qed.
Lemma ch_eq x y z : word x -> q_ch x y z = Ch64 x y z. Proof. intros X. unfold q_ch, Ch64. rewrite comp64 by exact X. reflexivity. Qed.
Lemma sig0_eq x : word x -> q_sig0 x = Sigma0_64 x. Proof. intros X. unfold q_sig0, Sigma0_64. rewrite !rotr_eq by (try exact X; lia). reflexivity. Qed.
Lemma sig1_eq x : word x -> q_sig1 x = Sigma1_64 x. Proof. intros X. unfold q_sig1, Sigma1_64. rewrite !rotr_eq by (try exact X; lia). reflexivity. Qed.
Lemma theta0_eq x : word x -> q_theta0 x = sigma0_64 x.
Proof. intros X. unfold q_theta0, sigma0_64. rewrite !rotr_eq, shr_eq by (try exact X; lia). reflexivity. Qed.
Lemma theta1_eq x : word x -> q_theta1 x = sigma1_64 x.
Proof. intros X. unfold q_theta1, sigma1_64. rewrite !rotr_eq, shr_eq by (try exact X; lia). reflexivity. Qed.
Lemma K_eq : HASH512_K = K512. Proof. vm_compute. reflexivity. Qed.
Lemma K_len : length K512 = 80%nat. Proof. rewrite <- K_eq. reflexivity. Qed.
Lemma H_eq : HASH512_H = H512. Proof. vm_compute. reflexivity. Qed.
Lemma H384_eq : HASH384_H = H384. Proof. vm_compute. reflexivity. Qed.

(* the schedule without checks *)
Definition p_sched (w : list Z) (j : nat) : list Z :=
  upd w j (wadd64 (wadd64 (wadd64 (q_theta1 (limb w (j - 2))) (limb w (j - 7))) (q_theta0 (limb w (j - 15)))) (limb w (j - 16))).
Lemma sched_pure : forall js w, foldM (q_sched false) js w = Some (fold_left p_sched js w).
Proof. induction js as [|j js IH]; intros w; [reflexivity|]. cbn [foldM fold_left]. rewrite <- IH. reflexivity. Qed.

(* ------------------------- the schedule64 -------------------------------- *)
Lemma skipn_skipn {A} (l : list A) a b : skipn a (skipn b l) = skipn (a + b) l.
Proof. revert l. induction b as [|b IH]; intros l; [rewrite Nat.add_0_r; reflexivity|]. rewrite Nat.add_succ_r. destruct l; cbn [skipn]; [apply skipn_nil|apply IH]. Qed.
Lemma nth_skip {A} (l : list A) n i d : nth i (skipn n l) d = nth (n + i) l d.
Proof. revert l. induction n as [|n IH]; intros l; [reflexivity|]. destruct l; cbn [skipn Nat.add nth]; [destruct i; reflexivity|apply IH]. Qed.
Lemma nth_firstn_lt {A} (l : list A) i n d : (i < n)%nat -> nth i (firstn n l) d = nth i l d.
Proof. revert i n. induction l; destruct i, n; simpl; intros; try lia; auto. apply IHl. lia. Qed.
Lemma firstn_upd {A} (l : list A) j x : (j < length l)%nat -> firstn (S j) (upd l j x) = firstn j l ++ [x].
Proof. revert j. induction l; destruct j; cbn [length firstn upd app]; intros; try lia; auto. f_equal. apply IHl. lia. Qed.
Lemma firstn_upd_ge {A} (l : list A) n j x : (n <= j)%nat -> firstn n (upd l j x) = firstn n l.
Proof. revert n j. induction l; destruct n, j; cbn [firstn upd]; intros; try lia; auto. f_equal. apply IHl. lia. Qed.
Lemma word_nth l i : Forall word l -> word (nth i l 0).
Proof.
  intros F. destruct (Nat.lt_ge_cases i (length l)) as [L|L].
  - apply (proj1 (Forall_forall word l) F). apply nth_In, L.
  - rewrite nth_overflow by exact L. unfold word. lia.
Qed.
Lemma sched_step w j : length w = 80%nat -> (16 <= j < 80)%nat -> Forall word (firstn j w) ->
  firstn (S j) (p_sched w j) = firstn j w ++ [next_word64 (firstn j w)].
Proof.
  intros L J F. unfold p_sched. rewrite firstn_upd by lia. f_equal. f_equal. unfold next_word64.
  rewrite firstn_length, Nat.min_l by lia. unfold limb.
  rewrite <- !(nth_firstn_lt w _ j) by lia. rewrite !wadd_add64, theta0_eq, theta1_eq by (apply word_nth, F). reflexivity.
Qed.
Lemma next_word_word w : word (next_word64 w). Proof. apply add64_word. Qed.
Lemma sched_ok n : forall j w, length w = 80%nat -> (16 <= j)%nat -> (j + n <= 80)%nat -> Forall word (firstn j w) ->
  let w' := fold_left p_sched (seq j n) w in
  length w' = 80%nat /\ firstn (j + n) w' = extend64 n (firstn j w) /\ firstn 16 w' = firstn 16 w.
Proof.
  induction n as [|n IH]; intros j w L J1 J2 F; cbn [seq fold_left extend64].
  - rewrite Nat.add_0_r. auto.
  - pose proof (sched_step w j L ltac:(lia) F) as S1.
    destruct (IH (S j) (p_sched w j)) as (A & B & C); [unfold p_sched; rewrite upd_length; exact L|lia|lia| |].
    + rewrite S1. apply Forall_app. split; [exact F|]. constructor; [apply next_word_word|constructor].
    + split; [exact A|]. split; [|rewrite C; apply firstn_upd_ge; lia].
      rewrite <- S1, <- B. f_equal. lia.
Qed.
Lemma extend_len n : forall w, length (extend64 n w) = (length w + n)%nat.
Proof. induction n as [|n IH]; intros w; cbn [extend64]; [lia|]. rewrite IH, app_length. cbn [length]. lia. Qed.
Lemma extend_word n : forall w, Forall word w -> Forall word (extend64 n w).
Proof.
  induction n as [|n IH]; intros w F; cbn [extend64]; [exact F|]. apply IH, Forall_app. split; [exact F|].
  constructor; [apply next_word_word|constructor].
Qed.

(* ------------------------- the rounds ---------------------------------- *)
Definition state8 (v : list Z) : Prop := length v = 8%nat /\ Forall word v.
Lemma state8_ex v : state8 v -> exists a b c d e f g h, v = [a; b; c; d; e; f; g; h] /\
  word a /\ word b /\ word c /\ word d /\ word e /\ word f /\ word g /\ word h.
Proof.
  intros [L F]. do 8 (destruct v as [|? v]; [discriminate L|]; apply Forall_inv_tail in F as FT; apply Forall_inv in F as FH; clear F; rename FT into F; revert FH).
  destruct v; [|discriminate L]. intros. do 8 eexists. split; [reflexivity|]. tauto.
Qed.
Lemma round_eq w v j : state8 v -> q_round w v j = round64 v (limb HASH512_K j, limb w j) /\ state8 (q_round w v j).
Proof.
  intros V. destruct (state8_ex v V) as (a & b & c & d & e & f & g & h & -> & A & B & C & D & E & F & G & H).
  unfold q_round, round64. cbn [limb nth fst snd]. rewrite !wadd_add64, sig1_eq, sig0_eq, ch_eq by assumption. split; [reflexivity|].
  split; [reflexivity|]. repeat (constructor; [first [apply add64_word|assumption]|]). constructor.
Qed.
Lemma rounds_eq w ks : forall j v, state8 v -> (forall i, (i < length ks)%nat -> nth i ks 0 = limb HASH512_K (j + i)) ->
  (j + length ks <= length w)%nat ->
  fold_left (q_round w) (seq j (length ks)) v = fold_left round64 (combine ks (skipn j w)) v /\
  state8 (fold_left (q_round w) (seq j (length ks)) v).
Proof.
  induction ks as [|k ks IH]; intros j v V K L; cbn [length seq fold_left]; [split; [reflexivity|exact V]|]. cbn [length] in L.
  destruct (skipn j w) as [|x r] eqn:SK.
  { apply (f_equal (@length Z)) in SK. rewrite skipn_length in SK. cbn [length] in SK. lia. }
  destruct (round_eq w v j V) as [E V']. cbn [combine fold_left].
  assert (X : limb w j = x). { unfold limb. rewrite <- (Nat.add_0_r j), <- nth_skip, SK. reflexivity. }
  assert (R : skipn (S j) w = r).
  { assert (G : skipn 1 (skipn j w) = r) by (rewrite SK; reflexivity). rewrite skipn_skipn in G. exact G. }
  specialize (IH (S j) (q_round w v j) V'). rewrite R in IH.
  assert (K0 : limb HASH512_K j = k) by (symmetry; rewrite <- (Nat.add_0_r j); apply (K 0%nat); cbn [length]; lia).
  rewrite E, K0, X in IH. rewrite E, K0, X. apply IH; [|lia]. intros i I. rewrite Nat.add_succ_comm. apply (K (S i)). cbn [length]. lia.
Qed.
Lemma map2_combine l : forall m, map2 wadd64 l m = map (fun p => add64 (fst p) (snd p)) (combine l m).
Proof. induction l as [|x l IH]; destruct m as [|y m]; cbn [map2 combine map fst snd]; try reflexivity. rewrite IH, wadd_add64. reflexivity. Qed.
Lemma sched_all w : length w = 80%nat -> Forall word (firstn 16 w) ->
  exists w', fold_left p_sched (seq 16 64) w = w' /\ length w' = 80%nat /\ w' = schedule64 (firstn 16 w) /\ firstn 16 w' = firstn 16 w.
Proof.
  intros L F. destruct (sched_ok 64 16 w L ltac:(lia) ltac:(lia) F) as (A & B & C). eexists. split; [reflexivity|].
  split; [exact A|]. split; [|exact C]. unfold schedule64. rewrite <- B. symmetry. apply firstn_all2. rewrite A. apply Nat.le_refl.
Qed.
Lemma rounds_all w v : length w = 80%nat -> state8 v ->
  exists v', fold_left (q_round w) (seq 0 80) v = v' /\ v' = fold_left round64 (combine K512 w) v /\ state8 v'.
Proof.
  intros L V. assert (P : (0 + length K512 <= length w)%nat) by (rewrite L, K_len; lia).
  assert (Q : forall i, (i < length K512)%nat -> nth i K512 0 = limb HASH512_K (0 + i)) by (intros i _; rewrite K_eq; reflexivity).
  destruct (rounds_eq w K512 0 v V Q P) as [R1 R2]. rewrite K_len in R1, R2. rewrite R1 in R2. change (skipn 0 w) with w in R1, R2.
  eexists. split; [reflexivity|]. split; [exact R1|]. rewrite R1. exact R2.
Qed.
Lemma transform_ok s : length (qw s) = 80%nat -> Forall word (firstn 16 (qw s)) -> state8 (qh s) ->
  exists t, q_transform false s = Some t /\ qh t = compress64 (qh s) (firstn 16 (qw s)) /\ state8 (qh t) /\ length (qw t) = 80%nat /\
  firstn 16 (qw t) = firstn 16 (qw s) /\ qlen0 t = qlen0 s /\ qlen1 t = qlen1 s.
Proof.
  intros L F V. destruct (sched_all (qw s) L F) as (w & E & A & W & C). unfold q_transform. rewrite sched_pure, E. clear E. cbn [bind].
  destruct (rounds_all w (qh s) A V) as (v & E & R1 & R2). rewrite E. clear E.
  eexists. split; [reflexivity|]. cbn [qh qw qlen0 qlen1]. rewrite map2_combine. split; [unfold compress64; rewrite <- W, <- R1; reflexivity|]. split.
  - split; [rewrite map_length, combine_length, (proj1 V), (proj1 R2); reflexivity|].
    apply Forall_forall. intros x X. apply in_map_iff in X. destruct X as (p & <- & _). apply add64_word.
  - auto.
Qed.

Section Absorb.
Variable H0 : list Z.
Hypothesis H0_ok : state8 H0.

(* ------------------------- bytes in ------------------------------------ *)
Definition chunk (r : list Z) (i : nat) : list Z := firstn 8 (skipn (8 * i) r).
(* the state after absorbing m: r is what is left over after n full blocks128 *)
Definition absorbed (m : list Z) (s : HASH512) : Prop :=
  exists n full r, m = full ++ r /\ length full = (128 * n)%nat /\ (length r < 128)%nat /\
    qh s = fold_left compress64 (blocks128 n full) H0 /\ state8 (qh s) /\
    length (qw s) = 80%nat /\ Forall word (firstn 16 (qw s)) /\
    (forall i, (i < 16)%nat -> limb (qw s) i mod 256 ^ Z.of_nat (length (chunk r i)) = be_int (chunk r i)) /\
    qlen0 s = (8 * Z.of_nat (length m)) mod 2 ^ 64 /\ qlen1 s = (8 * Z.of_nat (length m)) / 2 ^ 64 mod 2 ^ 64.
Lemma chunk_nil i : chunk [] i = []. Proof. unfold chunk. rewrite skipn_nil. apply firstn_nil. Qed.
Lemma new_absorbed : absorbed [] (q_new H0).
Proof.
  exists 0%nat, [], []. split; [reflexivity|]. split; [reflexivity|]. split; [cbn [length]; lia|]. split; [reflexivity|].
  split; [exact H0_ok|].
  split; [reflexivity|]. split. { repeat (constructor; [unfold word; lia|]). constructor. }
  split; [|split; reflexivity]. intros i I. rewrite chunk_nil. change (256 ^ Z.of_nat (length (@nil Z))) with 1. rewrite Z.mod_1_r. reflexivity.
Qed.
Lemma chunk_app_other r b i : (i <> length r / 8)%nat -> chunk (r ++ [b]) i = chunk r i.
Proof.
  intros I. unfold chunk. pose proof (Nat.div_mod (length r) 8 ltac:(lia)) as D. pose proof (Nat.mod_upper_bound (length r) 8 ltac:(lia)) as U.
  destruct (Nat.lt_ge_cases i (length r / 8)) as [L|G].
  - rewrite skipn_app. replace (8 * i - length r)%nat with 0%nat by lia. cbn [skipn]. rewrite firstn_app.
    rewrite skipn_length. replace (8 - (length r - 8 * i))%nat with 0%nat by lia. cbn [firstn]. apply app_nil_r.
  - rewrite !skipn_all2 by (rewrite ?app_length; cbn [length]; lia). reflexivity.
Qed.
Lemma chunk_app_same r b : chunk (r ++ [b]) (length r / 8) = chunk r (length r / 8) ++ [b] /\
  length (chunk r (length r / 8)) = (length r mod 8)%nat.
Proof.
  unfold chunk. pose proof (Nat.div_mod (length r) 8 ltac:(lia)) as D. pose proof (Nat.mod_upper_bound (length r) 8 ltac:(lia)) as U.
  set (i := (length r / 8)%nat) in *. rewrite skipn_app. replace (8 * i - length r)%nat with 0%nat by lia. cbn [skipn].
  assert (L : length (skipn (8 * i) r) = (length r mod 8)%nat) by (rewrite skipn_length; lia).
  split; [|rewrite firstn_length, L; lia]. rewrite !firstn_all2; [reflexivity|lia|rewrite app_length, L; cbn [length]; lia].
Qed.
Lemma words_nth n : forall r i, (i < n)%nat -> nth i (words64 n r) 0 = be_int (chunk r i).
Proof.
  induction n as [|n IH]; intros r i I; [lia|]. cbn [words64]. destruct i as [|i]; cbn [nth]; [reflexivity|].
  rewrite IH by lia. unfold chunk. rewrite skipn_skipn. do 3 f_equal. lia.
Qed.
Lemma words_len n : forall r, length (words64 n r) = n. Proof. induction n; intros r; cbn [words64 length]; auto. Qed.
Lemma firstn_words w r n : (n <= length w)%nat -> (forall i, (i < n)%nat -> limb w i = be_int (chunk r i)) -> firstn n w = words64 n r.
Proof.
  intros L E. apply (nth_ext _ _ 0 0); [rewrite firstn_length, words_len; lia|]. intros i I. rewrite firstn_length in I.
  rewrite nth_firstn_lt, words_nth by lia. apply E. lia.
Qed.
Lemma blocks_app n : forall full r, length full = (128 * n)%nat -> blocks128 (S n) (full ++ r) = blocks128 n full ++ [words64 16 (firstn 128 r)].
Proof.
  induction n as [|n IH]; intros full r L.
  - destruct full; [reflexivity|discriminate L].
  - change (blocks128 (S (S n)) (full ++ r)) with (words64 16 (firstn 128 (full ++ r)) :: blocks128 (S n) (skipn 128 (full ++ r))).
    change (blocks128 (S n) full) with (words64 16 (firstn 128 full) :: blocks128 n (skipn 128 full)).
    rewrite firstn_app, skipn_app. replace (128 - length full)%nat with 0%nat by lia. change (firstn 0 r) with (@nil Z). change (skipn 0 r) with r. rewrite app_nil_r.
    rewrite IH by (rewrite skipn_length; lia). reflexivity.
Qed.
Definition fits (chk : bool) (n : Z) : Prop := if chk then 8 * n < 2 ^ 64 else True.
Lemma byte_in x b : 0 <= b < 256 -> Z.lor (Z.land (Z.shiftl x 8) m64) (Z.land b 255) = (256 * x + b) mod 2 ^ 64.
Proof.
  intros B. change 255 with (2 ^ 8 - 1). rewrite land_ones_mod, (Z.mod_small b), land64, shiftl_mul by lia.
  change (2 ^ 64) with (2 ^ 56 * 2 ^ 8). rewrite Z.mul_mod_distr_r by lia. rewrite lor_add by lia.
  change (2 ^ 56 * 2 ^ 8) with (2 ^ 8 * 2 ^ 56). rewrite Z.rem_mul_r by lia. change 256 with (2 ^ 8). 
  rewrite (Z.mul_comm (2 ^ 8) x), Z.add_comm, (Z.add_comm (x * 2 ^ 8) b), Z.mod_add, Z.div_add by lia.
  rewrite (Z.mod_small b), (Z.div_small b) by lia. rewrite Z.add_0_l. lia.
Qed.
Lemma length_step chk s m : qlen0 s = (8 * Z.of_nat m) mod 2 ^ 64 -> qlen1 s = (8 * Z.of_nat m) / 2 ^ 64 mod 2 ^ 64 -> fits chk (Z.of_nat m + 1) ->
  exists l0 l1, q_inc chk (qlen0 s + 8) = Some l0 /\ (if l0 =? 0 then q_inc chk (qlen1 s + 1) else Some (qlen1 s)) = Some l1 /\
    l0 = (8 * Z.of_nat (m + 1)) mod 2 ^ 64 /\ l1 = (8 * Z.of_nat (m + 1)) / 2 ^ 64 mod 2 ^ 64.
Proof.
  intros A B F. set (t := 8 * Z.of_nat m) in *. assert (T : 8 * Z.of_nat (m + 1) = t + 8) by (unfold t; lia). rewrite T.
  assert (T0 : 0 <= t) by (unfold t; lia). pose proof (Z.div_mod t (2 ^ 64) ltac:(lia)) as D. pose proof (Z.mod_pos_bound t (2 ^ 64) ltac:(lia)) as P.
  destruct chk; cbn [fits] in F; unfold q_inc.
  - assert (TF : t + 8 < 2 ^ 64) by (unfold t; lia). rewrite Z.mod_small in A by lia. rewrite (Z.div_small t) in B by lia. change (0 mod 2 ^ 64) with 0 in B.
    exists (t + 8), 0. rewrite A. unfold qku64. change m64 with (2 ^ 64 - 1).
    destruct (Z.leb_spec 0 (t + 8)), (Z.leb_spec (t + 8) (2 ^ 64 - 1)); try lia. cbn [andb]. split; [reflexivity|].
    destruct (Z.eqb_spec (t + 8) 0); [lia|]. rewrite B, (Z.div_small (t + 8)), (Z.mod_small (t + 8)) by lia. change (0 mod 2 ^ 64) with 0. auto.
  - rewrite A, B.
    assert (M8 : t mod 8 = 0) by (unfold t; rewrite Z.mul_comm; apply Z.mod_mul; lia).
    assert (T8 : (t mod 2 ^ 64) mod 8 = 0).
    { rewrite <- M8. symmetry. apply Zmod_div_mod; [lia|lia|]. exists (2 ^ 61). reflexivity. }
    assert (C : t mod 2 ^ 64 <= 2 ^ 64 - 8).
    { pose proof (Z.div_mod (t mod 2 ^ 64) 8 ltac:(lia)). lia. }
    exists ((t mod 2 ^ 64 + 8) mod 2 ^ 64). rewrite land64. destruct (Z.eq_dec (t mod 2 ^ 64) (2 ^ 64 - 8)) as [E|E].
    + rewrite E. change ((2 ^ 64 - 8 + 8) mod 2 ^ 64) with 0. cbn [Z.eqb].
      assert (V : t + 8 = (t / 2 ^ 64 + 1) * 2 ^ 64) by lia. rewrite V, Z.mod_mul, Z.div_mul by lia.
      exists ((t / 2 ^ 64 + 1) mod 2 ^ 64). split; [reflexivity|]. split; [|auto]. rewrite land64. f_equal.
      rewrite Zplus_mod_idemp_l. reflexivity.
    + rewrite Z.mod_small by lia. destruct (Z.eqb_spec (t mod 2 ^ 64 + 8) 0); [lia|]. exists (t / 2 ^ 64 mod 2 ^ 64). split; [reflexivity|].
      split; [reflexivity|]. split; [apply (Z.mod_unique _ _ (t / 2 ^ 64)); [left; lia|lia]|].
      f_equal. apply (Z.div_unique _ _ _ (t mod 2 ^ 64 + 8)); [left; lia|lia].
Qed.
Lemma count_of m : Z.to_nat ((8 * Z.of_nat m) mod 2 ^ 64 / 64 mod 16) = ((m mod 128) / 8)%nat.
Proof.
  assert (E : (8 * Z.of_nat m) mod 2 ^ 64 / 64 mod 16 = Z.of_nat ((m mod 128) / 8)); [|rewrite E; apply Nat2Z.id].
  rewrite Nat2Z.inj_div, Nat2Z.inj_mod. change (Z.of_nat 128) with 128. change (Z.of_nat 8) with 8. set (z := Z.of_nat m).
  assert (0 <= z) by (unfold z; lia).
  change (2 ^ 64) with (8 * 2 ^ 61). rewrite Z.mul_mod_distr_l by lia. change 64 with (8 * 8). rewrite Z.div_mul_cancel_l by lia.
  change (2 ^ 61) with (8 * 2 ^ 58). rewrite Z.rem_mul_r by lia. rewrite (Z.add_comm (z mod 8)), (Z.mul_comm 8 ((z / 8) mod 2 ^ 58)), Z.div_add_l by lia.
  rewrite (Z.div_small (z mod 8)) by (apply Z.mod_pos_bound; lia). rewrite Z.add_0_r.
  change 128 with (8 * 16). rewrite Z.rem_mul_r by lia. rewrite (Z.add_comm (z mod 8)), (Z.mul_comm 8 ((z / 8) mod 16)), Z.div_add_l by lia.
  rewrite (Z.div_small (z mod 8)) by (apply Z.mod_pos_bound; lia). rewrite Z.add_0_r.
  symmetry. apply Zmod_div_mod; [lia|lia|]. exists (2 ^ 54). reflexivity.
Qed.
Lemma full_mod m : ((8 * Z.of_nat m) mod 2 ^ 64) mod 1024 = 8 * Z.of_nat (m mod 128).
Proof.
  rewrite Nat2Z.inj_mod. change (Z.of_nat 128) with 128. rewrite <- Zmod_div_mod; [|lia|lia|exists (2 ^ 54); reflexivity].
  change 1024 with (8 * 128). apply Z.mul_mod_distr_l; lia.
Qed.
Lemma process_ok chk m s b : absorbed m s -> 0 <= b < 256 -> fits chk (Z.of_nat (length m) + 1) ->
  exists s', q_process false chk s b = Some s' /\ absorbed (m ++ [b]) s'.
Proof.
  intros (n & full & r & M & LF & LR & HH & S8 & LW & FW & CH & L0 & L1) B F.
  assert (LM : length m = (128 * n + length r)%nat) by (rewrite M, app_length, LF; reflexivity).
  assert (MM : (length m mod 128 = length r)%nat).
  { rewrite LM, Nat.add_comm, Nat.mul_comm, Nat.mod_add by lia. apply Nat.mod_small, LR. }
  destruct (length_step chk s (length m) L0 L1 F) as (l0 & l1 & E0 & E1 & V0 & V1).
  unfold q_process. rewrite L0, count_of, MM, byte_in by exact B. rewrite L0 in E0. rewrite E0. cbn [bind]. rewrite E1. cbn [bind].
  set (c := (length r / 8)%nat). pose proof (Nat.div_mod (length r) 8 ltac:(lia)) as D. pose proof (Nat.mod_upper_bound (length r) 8 ltac:(lia)) as U. fold c in D.
  assert (C16 : (c < 16)%nat) by lia.
  set (w := upd (qw s) c ((256 * limb (qw s) c + b) mod 2 ^ 64)).
  assert (LW' : length w = 80%nat) by (unfold w; rewrite upd_length; exact LW).
  assert (FW' : Forall word (firstn 16 w)).
  { apply Forall_forall. intros x X. apply (In_nth _ _ 0) in X. destruct X as (i & I & <-). rewrite firstn_length in I.
    rewrite nth_firstn_lt by lia. unfold w. destruct (Nat.eq_dec c i) as [<-|N].
    - rewrite nth_upd_same by lia. unfold word. apply Z.mod_pos_bound. lia.
    - rewrite nth_upd_other by exact N. rewrite <- (nth_firstn_lt _ _ 16) by lia. apply word_nth, FW. }
  assert (CH' : forall i, (i < 16)%nat -> limb w i mod 256 ^ Z.of_nat (length (chunk (r ++ [b]) i)) = be_int (chunk (r ++ [b]) i)).
  { intros i I. destruct (Nat.eq_dec i c) as [->|N].
    - destruct (chunk_app_same r b) as [C1 C2]. fold c in C1, C2. rewrite C1, app_length, C2, be_int_snoc. cbn [length].
      unfold limb, w. rewrite nth_upd_same by lia. pose proof (CH c I) as CC. rewrite C2 in CC. rewrite <- CC. fold (limb (qw s) c).
      set (x := limb (qw s) c). set (j := (length r mod 8)%nat) in *. replace (Z.of_nat (j + 1)) with (1 + Z.of_nat j) by lia.
      rewrite <- Zmod_div_mod; [|apply Z.pow_pos_nonneg; lia|lia|].
      + rewrite Z.pow_add_r by lia. change (256 ^ 1) with 256.
        assert (0 < 256 ^ Z.of_nat j) by (apply Z.pow_pos_nonneg; lia).
        rewrite Z.rem_mul_r by lia. rewrite (Z.mul_comm 256 x), (Z.add_comm (x * 256) b), Z.mod_add, Z.div_add by lia.
        rewrite (Z.mod_small b), (Z.div_small b) by lia. rewrite Z.add_0_l. lia.
      + change (2 ^ 64) with (256 ^ 8). exists (256 ^ (8 - (1 + Z.of_nat j))). rewrite <- Z.pow_add_r by lia. f_equal. lia.
    - rewrite chunk_app_other by exact N. unfold limb, w. rewrite nth_upd_other by auto. apply CH, I. }
  replace (length m + 1)%nat with (length (m ++ [b])) in * by (rewrite app_length; reflexivity).
  assert (FM : l0 mod 1024 = 8 * Z.of_nat (length (m ++ [b]) mod 128)) by (rewrite V0; apply full_mod). rewrite FM.
  assert (M' : m ++ [b] = full ++ (r ++ [b])) by (rewrite M, app_assoc; reflexivity).
  destruct (Nat.eq_dec (length r) 127) as [E|E].
  - assert (Z0 : (length (m ++ [b]) mod 128 = 0)%nat).
    { rewrite app_length. cbn [length]. rewrite LM, E. replace (128 * n + 127 + 1)%nat with ((n + 1) * 128)%nat by lia. apply Nat.mod_mul. lia. }
    rewrite Z0. change (8 * Z.of_nat 0 =? 0) with true. cbv iota.
    destruct (transform_ok (mkQ l0 l1 (qh s) w) LW' FW' S8) as (t & ET & T1 & T2 & T3 & T4 & T5 & T6). cbn [qh qw qlen0 qlen1] in *.
    exists t. split; [exact ET|].
    exists (S n), (m ++ [b]), []. rewrite app_nil_r. split; [reflexivity|]. split; [rewrite app_length; cbn [length]; lia|].
    split; [cbn [length]; lia|]. split.
    + rewrite T1, M', blocks_app by exact LF. rewrite fold_left_app, <- HH. cbn [fold_left]. f_equal.
      assert (FA : firstn 128 (r ++ [b]) = r ++ [b]) by (apply firstn_all2; rewrite app_length; cbn [length]; lia). rewrite FA.
      apply firstn_words; [lia|]. intros i I. rewrite <- (CH' i I).
      assert (CL : length (chunk (r ++ [b]) i) = 8%nat).
      { unfold chunk. rewrite firstn_length, skipn_length, app_length. cbn [length]. lia. }
      rewrite CL. symmetry. change (256 ^ Z.of_nat 8) with (2 ^ 64). apply Z.mod_small.
      unfold limb. rewrite <- (nth_firstn_lt _ _ 16) by exact I. apply (word_nth _ _ FW').
    + split; [exact T2|]. split; [exact T3|]. split; [rewrite T4; exact FW'|]. split.
      * intros i I. rewrite chunk_nil. change (256 ^ Z.of_nat (length (@nil Z))) with 1. rewrite Z.mod_1_r. reflexivity.
      * rewrite T5, T6. auto.
  - assert (Z1 : (length (m ++ [b]) mod 128 = length r + 1)%nat).
    { rewrite app_length. cbn [length]. rewrite LM. replace (128 * n + length r + 1)%nat with (length r + 1 + n * 128)%nat by lia.
      rewrite Nat.mod_add by lia. apply Nat.mod_small. lia. }
    rewrite Z1. destruct (Z.eqb_spec (8 * Z.of_nat (length r + 1)) 0) as [X|_]; [lia|].
    eexists. split; [reflexivity|]. exists n, full, (r ++ [b]). split; [exact M'|]. split; [exact LF|]. split; [rewrite app_length; cbn [length]; lia|].
    cbn [qh qw qlen0 qlen1]. auto 10.
Qed.

Lemma array_ok chk : forall b m s, absorbed m s -> bytes b -> fits chk (Z.of_nat (length m + length b)) ->
  exists s', q_process_array false chk s b = Some s' /\ absorbed (m ++ b) s'.
Proof.
  induction b as [|x b IH]; intros m s A B F.
  - exists s. rewrite app_nil_r. split; [reflexivity|exact A].
  - cbn [length] in F. apply Forall_inv_tail in B as BT. apply Forall_inv in B as BH.
    destruct (process_ok chk m s x A BH) as (s1 & E1 & A1); [destruct chk; unfold fits in *; lia|].
    destruct (IH (m ++ [x]) s1 A1 BT) as (s2 & E2 & A2).
    { rewrite app_length. cbn [length]. destruct chk; unfold fits in *; lia. }
    exists s2. unfold q_process_array in *. cbn [foldM]. rewrite E1. cbn [bind]. split; [exact E2|].
    rewrite <- app_assoc in A2. exact A2.
Qed.

(* ------------------------- padding ------------------------------------- *)
Lemma absorbed_len0 m s : absorbed m s -> qlen0 s mod 1024 = 8 * Z.of_nat (length m mod 128).
Proof. intros (n & full & r & _ & _ & _ & _ & _ & _ & _ & _ & L0 & _). rewrite L0. apply full_mod. Qed.
Lemma pad_ok chk j : forall fuel m s, absorbed m s -> (j < 128)%nat -> ((length m + j) mod 128 = 112)%nat -> (j < fuel)%nat ->
  fits chk (Z.of_nat (length m + j)) -> exists s', q_pad false chk fuel s = Some s' /\ absorbed (m ++ repeat 0 j) s'.
Proof.
  induction j as [|j IH]; intros fuel m s A J M FU F; destruct fuel as [|fuel]; try lia; cbn [q_pad]; rewrite (absorbed_len0 m s A).
  - rewrite Nat.add_0_r in M. rewrite M. change (8 * Z.of_nat 112 =? 896) with true. cbv iota. exists s. split; [reflexivity|].
    cbn [repeat]. rewrite app_nil_r. exact A.
  - assert (N : (length m mod 128 <> 112)%nat).
    { intros C. pose proof (Nat.div_mod (length m) 128 ltac:(lia)) as D1. pose proof (Nat.div_mod (length m + S j) 128 ltac:(lia)) as D2. lia. }
    destruct (Z.eqb_spec (8 * Z.of_nat (length m mod 128)) 896) as [X|_]; [lia|].
    destruct (process_ok chk m s 0 A ltac:(lia)) as (s1 & E1 & A1); [destruct chk; unfold fits in *; lia|]. rewrite E1. cbn [bind].
    assert (LL : length (m ++ [0]) = (length m + 1)%nat) by (rewrite app_length; reflexivity).
    destruct (IH fuel (m ++ [0]) s1 A1 ltac:(lia)) as (s2 & E2 & A2).
    { rewrite LL. replace (length m + 1 + j)%nat with (length m + S j)%nat by lia. exact M. }
    { lia. }
    { rewrite LL. destruct chk; unfold fits in *; lia. }
    exists s2. split; [exact E2|]. rewrite <- app_assoc in A2. exact A2.
Qed.
Definition pad_count (n : nat) : nat := Z.to_nat ((111 - Z.of_nat n) mod 128).
Lemma pad_count_ok n : (pad_count n < 128)%nat /\ ((n + 1 + pad_count n) mod 128 = 112)%nat.
Proof.
  unfold pad_count. pose proof (Z.mod_pos_bound (111 - Z.of_nat n) 128 ltac:(lia)) as P. split; [lia|].
  apply Nat2Z.inj. rewrite Nat2Z.inj_mod. rewrite !Nat2Z.inj_add, Z2Nat.id by lia. change (Z.of_nat 128) with 128. change (Z.of_nat 1) with 1. change (Z.of_nat 112) with 112.
  pose proof (Z.div_mod (111 - Z.of_nat n) 128 ltac:(lia)) as D.
  replace (Z.of_nat n + 1 + (111 - Z.of_nat n) mod 128) with (112 + (- ((111 - Z.of_nat n) / 128)) * 128) by lia.
  rewrite Z.mod_add by lia. reflexivity.
Qed.
Lemma be8 x : be_bytes 8 x = map (fun i => Z.land (Z.shiftr x (8 * (7 - Z.of_nat (i mod 8)))) 255) (seq 0 8).
Proof.
  change (seq 0 8) with [0; 1; 2; 3; 4; 5; 6; 7]%nat. cbn [map].
  change (Z.of_nat (0 mod 8)) with 0. change (Z.of_nat (1 mod 8)) with 1. change (Z.of_nat (2 mod 8)) with 2. change (Z.of_nat (3 mod 8)) with 3.
  change (Z.of_nat (4 mod 8)) with 4. change (Z.of_nat (5 mod 8)) with 5. change (Z.of_nat (6 mod 8)) with 6. change (Z.of_nat (7 mod 8)) with 7.
  change 255 with (2 ^ 8 - 1). rewrite !land_ones_mod, !shiftr_div by lia. change (2 ^ (8 * (7 - 7))) with 1. rewrite (Z.div_1_r x).
  cbn [be_bytes app]. rewrite !Z.div_div by lia. reflexivity.
Qed.
Lemma digest_eq v : state8 v ->
  map (fun i => Z.land (Z.shiftr (limb v (i / 8)) (8 * (7 - Z.of_nat (i mod 8)))) 255) (seq 0 64) = flat_map (be_bytes 8) v.
Proof.
  intros V. destruct (state8_ex v V) as (a & b & c & d & e & f & g & h & -> & _). cbn [flat_map]. rewrite !be8, app_nil_r. reflexivity.
Qed.
Lemma digest_n v n : (n <= 64)%nat -> state8 v ->
  map (fun i => Z.land (Z.shiftr (limb v (i / 8)) (8 * (7 - Z.of_nat (i mod 8)))) 255) (seq 0 n) = firstn n (flat_map (be_bytes 8) v).
Proof.
  intros N V. rewrite <- digest_eq by exact V. rewrite firstn_map. f_equal.
  replace 64%nat with (n + (64 - n))%nat by lia. rewrite seq_app, firstn_app, seq_length, Nat.sub_diag, firstn_O, app_nil_r. symmetry. apply firstn_all2. rewrite seq_length. lia.
Qed.
Lemma split8 (a b : list Z) : length a = 8%nat -> firstn 8 (a ++ b) = a /\ skipn 8 (a ++ b) = b.
Proof. intros L. do 8 (destruct a as [|? a]; [discriminate L|]). destruct a; [|discriminate L]. split; reflexivity. Qed.
Lemma words_split x : words64 2 (be_bytes 16 x) = [(x / 2 ^ 64) mod 2 ^ 64; x mod 2 ^ 64].
Proof.
  assert (E : be_bytes 16 x = be_bytes 8 (x / 2 ^ 64) ++ be_bytes 8 x).
  { cbn [be_bytes app]. rewrite !Z.div_div by lia. reflexivity. }
  rewrite E. destruct (split8 _ (be_bytes 8 x) (be_bytes_length 8 (x / 2 ^ 64))) as [A B].
  change (words64 2 ?l) with [be_int (firstn 8 l); be_int (firstn 8 (skipn 8 l))]. rewrite A, B.
  destruct (split8 _ [] (be_bytes_length 8 x)) as [C _]. rewrite app_nil_r in C. rewrite C, !be_int_bytes. reflexivity.
Qed.

(* ------------------------- the digest ---------------------------------- *)
Lemma hash_ok chk N m s : (N <= 64)%nat -> absorbed m s -> fits chk (Z.of_nat (length m + 1 + pad_count (length m))) ->
  q_hash false chk H0 N s = Some (firstn N (sha_long H0 m), q_new H0).
Proof.
  intros N64 A F. destruct (pad_count_ok (length m)) as [PC PM]. set (k := pad_count (length m)) in *.
  destruct (process_ok chk m s 128 A ltac:(lia)) as (s1 & E1 & A1); [destruct chk; unfold fits in *; lia|].
  assert (LL : length (m ++ [128]) = (length m + 1)%nat) by (rewrite app_length; reflexivity).
  destruct (pad_ok chk k 129 (m ++ [128]) s1 A1 PC) as (s2 & E2 & A2); [rewrite LL; exact PM|lia|rewrite LL; exact F|].
  destruct A as (_ & _ & _ & _ & _ & _ & _ & _ & _ & _ & _ & L0 & L1).
  unfold q_hash. rewrite E1. cbn [bind]. rewrite E2. cbn [bind].
  destruct A2 as (n & full & r & M & LF & LR & HH & S8 & LW & FW & CH & _ & _).
  assert (LP : length ((m ++ [128]) ++ repeat 0 k) = (length m + 1 + k)%nat) by (rewrite !app_length, repeat_length; reflexivity).
  assert (R112 : length r = 112%nat).
  { pose proof (f_equal (@length Z) M) as Q. rewrite LP, app_length, LF in Q. rewrite Q, Nat.add_comm, Nat.mul_comm, Nat.mod_add in PM by lia.
    rewrite Nat.mod_small in PM by exact LR. exact PM. }
  set (w := upd (upd (qw s2) 14 (qlen1 s)) 15 (qlen0 s)).
  assert (LW' : length w = 80%nat) by (unfold w; rewrite !upd_length; exact LW).
  set (len := be_bytes 16 (8 * Z.of_nat (length m))). assert (LL8 : length len = 16%nat) by apply be_bytes_length.
  assert (B1 : qlen1 s = (8 * Z.of_nat (length m) / 2 ^ 64) mod 2 ^ 64).
  { exact L1. }
  pose proof (words_split (8 * Z.of_nat (length m))) as WS. fold len in WS.
  assert (CHK : forall i, (i < 16)%nat -> limb w i = be_int (chunk (r ++ len) i)).
  { intros i I. unfold w, limb. destruct (Nat.eq_dec i 15) as [->|N15].
    - rewrite nth_upd_same by (rewrite upd_length; lia). unfold chunk. rewrite skipn_app, R112. change (8 * 15)%nat with 120%nat.
      rewrite (skipn_all2 r) by lia. change (120 - 112)%nat with 8%nat. cbn [app]. rewrite L0. symmetry.
      change (be_int (firstn 8 (skipn 8 len))) with (nth 1 (words64 2 len) 0). rewrite WS. reflexivity.
    - rewrite nth_upd_other by auto. destruct (Nat.eq_dec i 14) as [->|N14].
      + rewrite nth_upd_same by lia. unfold chunk. rewrite skipn_app, R112. change (8 * 14)%nat with 112%nat.
        rewrite (skipn_all2 r) by lia. change (112 - 112)%nat with 0%nat. change (skipn 0 len) with len. cbn [app]. rewrite B1. symmetry.
        change (be_int (firstn 8 len)) with (nth 0 (words64 2 len) 0). rewrite WS. reflexivity.
      + rewrite nth_upd_other by auto. assert (CE : chunk (r ++ len) i = chunk r i).
        { unfold chunk. rewrite skipn_app, firstn_app, skipn_length, R112. replace (8 - (112 - 8 * i))%nat with 0%nat by lia.
          change (firstn 0 ?l) with (@nil Z). apply app_nil_r. }
        rewrite CE, <- (CH i I). assert (CL : length (chunk r i) = 8%nat) by (unfold chunk; rewrite firstn_length, skipn_length; lia).
        rewrite CL. symmetry. change (256 ^ Z.of_nat 8) with (2 ^ 64). apply Z.mod_small. unfold limb.
        rewrite <- (nth_firstn_lt _ _ 16) by exact I. apply (word_nth _ _ FW). }
  assert (FW' : Forall word (firstn 16 w)).
  { rewrite (firstn_words w (r ++ len) 16) by (try exact CHK; lia). apply Forall_forall. intros x X. apply (In_nth _ _ 0) in X.
    destruct X as (i & I & <-). rewrite words_len in I. rewrite words_nth, <- CHK by exact I. unfold w, limb.
    destruct (Nat.eq_dec i 15) as [->|N15].
    - rewrite nth_upd_same by (rewrite upd_length; lia). rewrite L0. unfold word. apply Z.mod_pos_bound. lia.
    - rewrite nth_upd_other by auto. destruct (Nat.eq_dec i 14) as [->|N14].
      + rewrite nth_upd_same by lia. rewrite B1. unfold word. apply Z.mod_pos_bound. lia.
      + rewrite nth_upd_other by auto. rewrite <- (nth_firstn_lt _ _ 16) by exact I. apply (word_nth _ _ FW). }
  destruct (transform_ok (mkQ (qlen0 s2) (qlen1 s2) (qh s2) w) LW' FW' S8) as (t & ET & T1 & T2 & _). cbn [qh qw] in T1.
  cbv zeta. fold w. rewrite ET. cbn [bind]. rewrite digest_n by (exact N64 || exact T2). f_equal. f_equal. f_equal. rewrite T1. unfold sha_long. cbv zeta.
  assert (P : padded128 m = full ++ (r ++ len)).
  { unfold padded128. fold (pad_count (length m)). fold k. fold len. rewrite app_assoc, (app_assoc _ _ len), M, <- app_assoc. reflexivity. }
  assert (PL : (length (padded128 m) / 128 = S n)%nat).
  { rewrite P, !app_length, LF, R112, LL8. replace (128 * n + (112 + 16))%nat with ((S n) * 128)%nat by lia. apply Nat.div_mul. lia. }
  rewrite PL, P, blocks_app by exact LF. rewrite fold_left_app, <- HH. cbn [fold_left].
  assert (FA : firstn 128 (r ++ len) = r ++ len) by (apply firstn_all2; rewrite app_length; lia). rewrite FA.
  rewrite <- (firstn_words w (r ++ len) 16) by (try exact CHK; lia). reflexivity.
Qed.

(* any message in any chunking *)
Lemma chunks_ok chk : forall cs m s, absorbed m s -> Forall bytes cs -> fits chk (Z.of_nat (length m + length (concat cs))) ->
  exists s', foldM (q_process_array false chk) cs s = Some s' /\ absorbed (m ++ concat cs) s'.
Proof.
  induction cs as [|c cs IH]; intros m s A B F; cbn [concat foldM] in *.
  - exists s. rewrite app_nil_r. auto.
  - rewrite app_length in F. apply Forall_inv_tail in B as BT. apply Forall_inv in B as BH.
    destruct (array_ok chk c m s A BH) as (s1 & E1 & A1); [destruct chk; unfold fits in *; lia|]. rewrite E1. cbn [bind].
    destruct (IH (m ++ c) s1 A1 BT) as (s2 & E2 & A2); [rewrite app_length; destruct chk; unfold fits in *; lia|].
    exists s2. split; [exact E2|]. rewrite <- app_assoc in A2. exact A2.
Qed.
End Absorb.

(* ------------------------- the property -------------------------------- *)
Lemma H512_ok : state8 H512.
Proof. rewrite <- H_eq. split; [reflexivity|]. repeat (constructor; [unfold word; lia|]). constructor. Qed.
Lemma H384_ok : state8 H384.
Proof. rewrite <- H384_eq. split; [reflexivity|]. repeat (constructor; [unfold word; lia|]). constructor. Qed.
Lemma pad_bound n : Z.of_nat n < 2 ^ 61 - 16 -> Z.of_nat (n + 1 + pad_count n) < 2 ^ 61.
Proof.
  intros N. destruct (pad_count_ok n) as [P M]. set (t := (n + 1 + pad_count n)%nat) in *.
  pose proof (Nat.div_mod t 128 ltac:(lia)) as D. rewrite M in D. lia.
Qed.
Definition small (chk : bool) (n : Z) : Prop := if chk then n < 2 ^ 61 - 16 else True.
Lemma long_ok chk H0 N cs : state8 H0 -> (N <= 64)%nat -> Forall bytes cs -> small chk (Z.of_nat (length (concat cs))) ->
  (s <- foldM (q_process_array false chk) cs (q_new H0) ;; q_hash false chk H0 N s) = Some (firstn N (sha_long H0 (concat cs)), q_new H0).
Proof.
  intros S N64 B L. destruct (chunks_ok H0 chk cs [] (q_new H0) (new_absorbed H0 S) B) as (s & E & A); [destruct chk; unfold fits, small in *; cbn [length]; lia|].
  rewrite E. cbn [bind]. cbn [app] in A. apply hash_ok; [exact N64|exact A|].
  destruct chk; unfold fits, small in *; [pose proof (pad_bound _ L)|]; lia.
Qed.
Lemma sha_len64 H0 m : state8 H0 -> length (sha_long H0 m) = 64%nat.
Proof.
  intros S. unfold sha_long. set (p := padded128 m). clearbody p. generalize (length p / 128)%nat. intros n. revert p H0 S. induction n as [|n IH]; intros p H0 S.
  - cbn [blocks128 fold_left]. destruct (state8_ex H0 S) as (a & b & c & d & e & f & g & h & -> & _). cbn [flat_map]. rewrite !app_length, !be_bytes_length. reflexivity.
  - cbn [blocks128 fold_left]. apply IH. unfold compress64. clear IH. 
    assert (R : forall l v, state8 v -> state8 (fold_left round64 l v)).
    { induction l as [|kw l IHl]; intros v V; [exact V|]. cbn [fold_left]. apply IHl. destruct (state8_ex v V) as (a & b & c & d & e & f & g & h & -> & A & B & C & D & E & F & G & H).
      unfold round64. split; [reflexivity|]. repeat (constructor; [first [apply add64_word|assumption]|]). constructor. }
    specialize (R (combine K512 (schedule64 (words64 16 (firstn 128 p)))) H0 S). set (v := fold_left _ _ _) in *. clearbody v.
    split; [rewrite map_length, combine_length, (proj1 S), (proj1 R); reflexivity|].
    apply Forall_forall. intros x X. apply in_map_iff in X. destruct X as (q & <- & _). apply add64_word.
Qed.
Lemma sha512_ok : forall chk cs, Forall bytes cs -> small chk (Z.of_nat (length (concat cs))) ->
  (s <- foldM (q_process_array false chk) cs (q_new HASH512_H) ;; q_hash false chk HASH512_H 64 s) = Some (sha512 (concat cs), q_new HASH512_H).
Proof.
  intros chk cs B L. rewrite H_eq, (long_ok chk H512 64 cs H512_ok (Nat.le_refl _) B L). unfold sha512. do 2 f_equal.
  apply firstn_all2. rewrite sha_len64 by exact H512_ok. apply Nat.le_refl.
Qed.
Lemma sha384_release : forall cs, Forall bytes cs ->
  (s <- foldM (q_process_array false false) cs (q_new HASH384_H) ;; q_hash false false HASH384_H 48 s) = Some (sha384 (concat cs), q_new HASH384_H).
Proof. intros cs B. rewrite H384_eq, (long_ok false H384 48 cs H384_ok ltac:(lia) B I). reflexivity. Qed.

(* a run with overflow checks that does not panic is the run without *)
Lemma plus_ref st x y z : q_plus st x y = Some z -> q_plus false x y = Some z.
Proof.
  destruct st; [|auto]. unfold q_plus, qku64, wadd64. destruct (Z.leb_spec 0 (x + y)), (Z.leb_spec (x + y) m64); cbn [andb]; intros E; try discriminate E.
  rewrite land64, Z.mod_small by (unfold m64 in *; lia). exact E.
Qed.
Lemma inc_ref chk x z : q_inc chk x = Some z -> q_inc false x = Some z.
Proof.
  destruct chk; [|auto]. unfold q_inc, qku64. destruct (Z.leb_spec 0 x), (Z.leb_spec x m64); cbn [andb]; intros E; try discriminate E.
  rewrite land64, Z.mod_small by (unfold m64 in *; lia). exact E.
Qed.
Lemma sched_ref st w j z : q_sched st w j = Some z -> q_sched false w j = Some z.
Proof.
  unfold q_sched. intros E. destruct (q_plus st _ (limb w (j - 7))) as [a|] eqn:E1; cbn [bind] in E; [|discriminate E]. rewrite (plus_ref _ _ _ _ E1). cbn [bind].
  destruct (q_plus st a _) as [b|] eqn:E2; cbn [bind] in E; [|discriminate E]. rewrite (plus_ref _ _ _ _ E2). cbn [bind].
  destruct (q_plus st b _) as [c|] eqn:E3; cbn [bind] in E; [|discriminate E]. rewrite (plus_ref _ _ _ _ E3). exact E.
Qed.
Lemma foldM_ref {A S} (f g : S -> A -> option S) : (forall s a t, f s a = Some t -> g s a = Some t) -> forall l s t, foldM f l s = Some t -> foldM g l s = Some t.
Proof.
  intros H. induction l as [|a l IH]; intros s t E; [exact E|]. cbn [foldM] in *. destruct (f s a) as [s1|] eqn:E1; cbn [bind] in E; [|discriminate E].
  rewrite (H _ _ _ E1). cbn [bind]. apply IH, E.
Qed.
Lemma transform_ref st s t : q_transform st s = Some t -> q_transform false s = Some t.
Proof.
  unfold q_transform. intros E. destruct (foldM (q_sched st) (seq 16 64) (qw s)) as [w|] eqn:E1; cbn [bind] in E; [|discriminate E].
  rewrite (foldM_ref _ _ (sched_ref st) _ _ _ E1). exact E.
Qed.
Lemma process_ref st chk s b t : q_process st chk s b = Some t -> q_process false false s b = Some t.
Proof.
  unfold q_process. cbv zeta. intros E. destruct (q_inc chk (qlen0 s + 8)) as [l0|] eqn:E1; cbn [bind] in E; [|discriminate E]. rewrite (inc_ref _ _ _ E1). cbn [bind].
  destruct (l0 =? 0).
  - destruct (q_inc chk (qlen1 s + 1)) as [l1|] eqn:E2; cbn [bind] in E; [|discriminate E]. rewrite (inc_ref _ _ _ E2). cbn [bind].
    destruct (l0 mod 1024 =? 0); [apply (transform_ref st), E|exact E].
  - cbn [bind] in *. destruct (l0 mod 1024 =? 0); [apply (transform_ref st), E|exact E].
Qed.
Lemma array_ref st chk s b t : q_process_array st chk s b = Some t -> q_process_array false false s b = Some t.
Proof. apply foldM_ref. intros. eapply process_ref. eassumption. Qed.
Lemma pad_ref st chk : forall f s t, q_pad st chk f s = Some t -> q_pad false false f s = Some t.
Proof.
  induction f as [|f IH]; intros s t E; [discriminate E|]. cbn [q_pad] in *. destruct (qlen0 s mod 1024 =? 896); [exact E|].
  destruct (q_process st chk s 0) as [s1|] eqn:E1; cbn [bind] in E; [|discriminate E]. rewrite (process_ref _ _ _ _ _ E1). cbn [bind]. apply IH, E.
Qed.
Lemma hash_ref st chk h n s t : q_hash st chk h n s = Some t -> q_hash false false h n s = Some t.
Proof.
  unfold q_hash. cbv zeta. intros E. destruct (q_process st chk s 128) as [s1|] eqn:E1; cbn [bind] in E; [|discriminate E]. rewrite (process_ref _ _ _ _ _ E1). cbn [bind].
  destruct (q_pad st chk 129 s1) as [s2|] eqn:E2; cbn [bind] in E; [|discriminate E]. rewrite (pad_ref _ _ _ _ _ E2). cbn [bind].
  destruct (q_transform st _) as [s3|] eqn:E3; cbn [bind] in E; [|discriminate E]. rewrite (transform_ref _ _ _ E3). exact E.
Qed.
Lemma sha384_any : forall st chk cs r, Forall bytes cs ->
  (s <- foldM (q_process_array st chk) cs (q_new HASH384_H) ;; q_hash st chk HASH384_H 48 s) = Some r -> r = (sha384 (concat cs), q_new HASH384_H).
Proof.
  intros st chk cs r B E. pose proof (sha384_release cs B) as R.
  destruct (foldM (q_process_array st chk) cs (q_new HASH384_H)) as [s|] eqn:E1; cbn [bind] in E; [|discriminate E].
  rewrite (foldM_ref _ _ (array_ref st chk) _ _ _ E1) in R. cbn [bind] in R. rewrite (hash_ref _ _ _ _ _ _ E) in R. congruence.
Qed.
(* built with overflow checks, SHA-384 of "abc" panics *)
Lemma sha384_panic : (s <- foldM (q_process_array true true) [[97;98;99]] (q_new HASH384_H) ;; q_hash true true HASH384_H 48 s) = None.
Proof. vm_compute. reflexivity. Qed.
Lemma sha_num : forall st chk s n, - 2 ^ 31 <= n < 2 ^ 31 -> q_process_num st chk s n = q_process_array st chk s (be_bytes 4 (n mod 2 ^ 32)).
Proof.
  intros st chk s n N. unfold q_process_num. f_equal. cbn [be_bytes app]. rewrite !Z.div_div by lia. change 255 with (2 ^ 8 - 1).
  rewrite !land_ones_mod, !shiftr_div by lia. change (256 * 256 * 256) with (2 ^ 24). change (256 * (256 * 256)) with (2 ^ 24). change (256 * 256) with (2 ^ 16).
  assert (Q : forall k, 0 <= k <= 24 -> n / 2 ^ k mod 2 ^ 8 = (n mod 2 ^ 32) / 2 ^ k mod 256).
  { intros k K. pose proof (Z.pow_pos_nonneg 2 k ltac:(lia) ltac:(lia)) as PK. change 256 with (2 ^ 8).
    rewrite <- (Z.land_ones n 32), <- !Z.shiftr_div_pow2, <- !(Z.land_ones _ 8) by lia. rewrite Z.shiftr_land, <- Z.land_assoc. f_equal.
    apply Z.bits_inj'. intros i I. rewrite Z.land_spec, Z.shiftr_spec by lia.
    rewrite !Z.testbit_ones_nonneg by lia. destruct (Z.ltb_spec i 8), (Z.ltb_spec (i + k) 32); try reflexivity; lia. }
  change (n mod 2 ^ 32 / 256) with (n mod 2 ^ 32 / 2 ^ 8). rewrite <- (Q 8), <- (Q 16), <- (Q 24) by lia. pose proof (Q 0 ltac:(lia)) as Q0. change (2 ^ 0) with 1 in Q0. rewrite !Z.div_1_r in Q0. rewrite <- Q0. reflexivity.
Qed.
Lemma sha384_refuted : exists m, bytes m /\ (length m < 100)%nat /\ (s <- foldM (q_process_array true true) [m] (q_new HASH384_H) ;; q_hash true true HASH384_H 48 s) = None.
Proof. exists [97;98;99]. split; [repeat constructor; lia|]. split; [cbn [length]; lia|exact sha384_panic]. Qed.
