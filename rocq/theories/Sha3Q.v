(* sha3.rs: padding, squeezing and whole runs of hash and shake. *)
From Coq Require Import ZArith List Lia Bool.
From Verif Require Import Prim PrimP SpecBytes SpecSha3 Sha3 Sha3P.
Import ListNotations.
Open Scope Z_scope.

(* ------------------------- padding --------------------------------------- *)
Lemma le_pow k : le_bytes (S k) (2 ^ (8 * Z.of_nat (S k) - 1)) = repeat 0 k ++ [128].
Proof.
  induction k as [|k IH]; [reflexivity|]. change (le_bytes (S (S k)) ?x) with (x mod 256 :: le_bytes (S k) (x / 256)).
  assert (E : 2 ^ (8 * Z.of_nat (S (S k)) - 1) = 2 ^ (8 * Z.of_nat (S k) - 1) * 256) by (change 256 with (2 ^ 8); rewrite <- Z.pow_add_r by lia; f_equal; lia).
  rewrite E, Z.mod_mul, Z.div_mul, IH by lia. reflexivity.
Qed.
Lemma pad_one dom : 0 <= dom < 128 -> le_bytes 1 (dom + 2 ^ (8 * Z.of_nat 1 - 1)) = [dom + 128].
Proof. intros D. change (2 ^ (8 * Z.of_nat 1 - 1)) with 128. cbn [le_bytes]. rewrite Z.mod_small by lia. reflexivity. Qed.
Lemma pad_more dom k : 0 <= dom < 128 -> le_bytes (S (S k)) (dom + 2 ^ (8 * Z.of_nat (S (S k)) - 1)) = dom :: repeat 0 k ++ [128].
Proof.
  intros D. change (le_bytes (S (S k)) ?x) with (x mod 256 :: le_bytes (S k) (x / 256)).
  assert (E : 2 ^ (8 * Z.of_nat (S (S k)) - 1) = 2 ^ (8 * Z.of_nat (S k) - 1) * 256) by (change 256 with (2 ^ 8); rewrite <- Z.pow_add_r by lia; f_equal; lia).
  rewrite E, Z.mod_add, Z.div_add, (Z.mod_small dom), (Z.div_small dom) by lia. rewrite Z.add_0_l, le_pow. reflexivity.
Qed.
Lemma le_bytes_len n : forall x, length (le_bytes n x) = n. Proof. induction n as [|n IH]; intros x; [reflexivity|]. cbn [le_bytes length]. rewrite IH. reflexivity. Qed.
Lemma le_bytes_bytes n : forall x, bytes (le_bytes n x). Proof. induction n as [|n IH]; intros x; [constructor|]. constructor; [apply Z.mod_pos_bound; lia|apply IH]. Qed.
Lemma zeros_ok r l : (0 < r <= 200)%nat -> forall z fuel h T, fed r l h T -> bytes T -> (z <= fuel)%nat -> (length T mod r + z = r - 1)%nat -> Z.of_nat (length T + z) <= maxu64 ->
  exists h', k_zeros fuel h = Some h' /\ fed r l h' (T ++ repeat 0 z).
Proof.
  intros R. induction z as [|z IH]; intros fuel h T H BT F C L.
  - exists h. rewrite app_nil_r. split; [|exact H]. assert (E : k_cnt h = Some (k_rate h - 1)).
    { unfold fed in H. subst h. unfold k_cnt. cbn [k_rate k_length]. rewrite (proj2 (Z.eqb_neq (Z.of_nat r) 0)) by lia. rewrite <- Nat2Z.inj_mod. f_equal. lia. }
    destruct fuel; cbn [k_zeros]; rewrite E; cbn [bind]; rewrite Z.eqb_refl; reflexivity.
  - destruct fuel as [|fuel]; [lia|]. cbn [k_zeros]. assert (E : k_cnt h = Some (Z.of_nat (length T mod r)) /\ k_rate h = Z.of_nat r).
    { unfold fed in H. subst h. unfold k_cnt. cbn [k_rate k_length]. rewrite (proj2 (Z.eqb_neq (Z.of_nat r) 0)) by lia. rewrite <- Nat2Z.inj_mod. split; reflexivity. }
    destruct E as [E1 E2]. rewrite E1. cbn [bind]. rewrite E2, (proj2 (Z.eqb_neq _ (Z.of_nat r - 1))) by lia.
    destruct (process_ok r l h T 0 R H BT ltac:(lia) ltac:(lia)) as (h1 & -> & H1). cbn [bind].
    assert (TE : T ++ repeat 0 (S z) = (T ++ [0]) ++ repeat 0 z) by (rewrite <- app_assoc; reflexivity). rewrite TE.
    assert (LT : length (T ++ [0]) = S (length T)) by (rewrite app_length; cbn [length]; lia).
    apply IH; [exact H1|apply Forall_app; split; [exact BT|constructor; [lia|constructor]]|lia| |rewrite LT; lia].
    rewrite LT. assert (M : (S (length T) mod r = S (length T mod r))%nat).
    { symmetry. apply (Nat.mod_unique _ r (length T / r)); [lia|]. pose proof (Nat.div_mod (length T) r ltac:(lia)). lia. }
    lia.
Qed.
Lemma padding_len r dom n : (0 < r)%nat -> length (padding r dom n) = (r - n mod r)%nat. Proof. intros R. unfold padding. apply le_bytes_len. Qed.
Lemma pad_ok r l h T dom : (0 < r <= 200)%nat -> fed r l h T -> bytes T -> 0 <= dom < 128 -> Z.lor dom 128 = dom + 128 -> Z.of_nat (length (T ++ padding r dom (length T))) <= maxu64 ->
  exists h', k_pad h dom = Some h' /\ fed r l h' (T ++ padding r dom (length T)).
Proof.
  intros R H BT D DL L. rewrite app_length, padding_len in L by lia. unfold k_pad. assert (E : k_cnt h = Some (Z.of_nat (length T mod r)) /\ k_rate h = Z.of_nat r).
  { unfold fed in H. subst h. unfold k_cnt. cbn [k_rate k_length]. rewrite (proj2 (Z.eqb_neq (Z.of_nat r) 0)) by lia. rewrite <- Nat2Z.inj_mod. split; reflexivity. }
  destruct E as [E1 E2]. rewrite E1. cbn [bind]. rewrite E2. pose proof (Nat.mod_upper_bound (length T) r ltac:(lia)) as MB.
  unfold padding. destruct (Z.eqb_spec (Z.of_nat r - Z.of_nat (length T mod r)) 1) as [Q|Q].
  - replace (r - length T mod r)%nat with 1%nat by lia. rewrite pad_one, DL by exact D. apply process_ok; try assumption; lia.
  - destruct (r - length T mod r)%nat as [|[|k]] eqn:QE; [lia|lia|]. rewrite pad_more by exact D.
    destruct (process_ok r l h T dom R H BT ltac:(lia) ltac:(lia)) as (h1 & -> & H1). cbn [bind].
    assert (LT : length (T ++ [dom]) = S (length T)) by (rewrite app_length; cbn [length]; lia).
    assert (M : (S (length T) mod r = S (length T mod r))%nat).
    { symmetry. apply (Nat.mod_unique _ r (length T / r)); [lia|]. pose proof (Nat.div_mod (length T) r ltac:(lia)). lia. }
    assert (B1 : bytes (T ++ [dom])) by (apply Forall_app; split; [exact BT|constructor; [lia|constructor]]).
    destruct (zeros_ok r l R k 200 h1 (T ++ [dom]) H1 B1 ltac:(lia) ltac:(rewrite LT; lia) ltac:(rewrite LT; lia)) as (h2 & -> & H2). cbn [bind].
    assert (B2 : bytes ((T ++ [dom]) ++ repeat 0 k)) by (apply Forall_app; split; [exact B1|apply Forall_forall; intros x X; apply repeat_spec in X; subst; lia]).
    destruct (process_ok r l h2 _ 128 R H2 B2 ltac:(lia)) as (h3 & P3 & H3); [rewrite app_length, LT, repeat_length; lia|]. exists h3. split; [exact P3|].
    assert (TE : T ++ dom :: repeat 0 k ++ [128] = ((T ++ [dom]) ++ repeat 0 k) ++ [128]) by (rewrite <- !app_assoc; reflexivity). rewrite TE. exact H3.
Qed.

(* ------------------------- squeezing ------------------------------------- *)
Definition sq_val (s : list (list Z)) (p : nat * nat * nat) : Z := Z.land (Z.shiftr (ix s (snd (fst p)) (fst (fst p))) (8 * Z.of_nat (snd p))) 255.
Definition sq_val' (s : list (list Z)) (p : nat * nat * nat) : Z := (ix s (snd (fst p)) (fst (fst p)) / 256 ^ Z.of_nat (snd p)) mod 256.
Lemma sq_val_eq s p : sq_val s p = sq_val' s p.
Proof.
  unfold sq_val, sq_val'. change 255 with (2 ^ 8 - 1). rewrite land_ones_mod, shiftr_div by lia. change (2 ^ 8) with 256. f_equal. f_equal. change 256 with (2 ^ 8). rewrite <- Z.pow_mul_r by lia. reflexivity.
Qed.
Lemma order_bytes f : st25 f -> map (sq_val (unflat f)) k_sq_order = state_bytes f.
Proof.
  intros [L F]. rewrite (map_ext _ _ (sq_val_eq (unflat f))). open25 f L F.
  cbv [k_sq_order flat_map map seq app sq_val' ix unflat nth fst snd Nat.add Nat.mul state_bytes le8]. reflexivity.
Qed.
Lemma setM_app {A} (pre : list A) x rest v : setM (pre ++ x :: rest) (length pre) v = Some (pre ++ v :: rest).
Proof.
  unfold setM. rewrite app_length. cbn [length]. rewrite (proj2 (Nat.ltb_lt _ _)) by lia. f_equal. induction pre as [|a pre IH]; [reflexivity|]. cbn [app length upd]. rewrite IH. reflexivity.
Qed.
Lemma sq_skip rate olen s l : forall buf m, foldM (k_sq_byte rate olen s) l (buf, m, true) = Some (buf, m, true).
Proof. induction l as [|p l IH]; intros buf m; [reflexivity|]. cbn [foldM]. unfold k_sq_byte at 1. destruct p as [[j i] x]. cbn [bind]. apply IH. Qed.
(* one pass over the state writes t bytes, t = rate or what is left to write *)
Lemma sq_pass r olen s m0 t : (0 < r)%nat -> (m0 mod r = 0)%nat -> (t <= r)%nat -> (t = r \/ m0 + t = Nat.max 1 olen)%nat -> (m0 + t <= Nat.max 1 olen)%nat ->
  forall l n pre rest, length pre = (m0 + n)%nat -> (n < t <= n + length l)%nat -> (t - n <= length rest)%nat ->
  foldM (k_sq_byte (Z.of_nat r) olen s) l (pre ++ rest, (m0 + n)%nat, false) = Some (pre ++ firstn (t - n) (map (sq_val s) l) ++ skipn (t - n) rest, (m0 + t)%nat, true).
Proof.
  intros R M TR TE TO. induction l as [|p l IH]; intros n pre rest LP N LR; [cbn [length] in N; lia|].
  destruct rest as [|x rest]; [cbn [length] in LR; lia|]. cbn [foldM]. unfold k_sq_byte at 1. destruct p as [[j i] y]. rewrite <- LP, setM_app. cbn [bind]. rewrite LP.
  replace (t - n)%nat with (S (t - S n))%nat by lia. cbn [map firstn skipn]. change (Z.land (Z.shiftr (ix s i j) (8 * Z.of_nat y)) 255) with (sq_val s (j, i, y)). set (v := sq_val s (j, i, y)).
  assert (MM : Z.of_nat (S (m0 + n)) mod Z.of_nat r = Z.of_nat (S n mod r)).
  { rewrite <- Nat2Z.inj_mod. f_equal. replace (S (m0 + n)) with (S n + m0 / r * r)%nat by (pose proof (Nat.div_mod m0 r ltac:(lia)); lia). apply Nat.mod_add. lia. }
  rewrite MM. cbn [length] in N, LR. destruct (Nat.eq_dec (S n) t) as [E|E].
  - assert (D : ((olen <=? S (m0 + n))%nat || (Z.of_nat (S n mod r) =? 0)) = true).
    { apply orb_true_iff. destruct TE as [TE|TE]; [right; rewrite E, TE, Nat.mod_same by lia; reflexivity|left; apply Nat.leb_le; lia]. }
    rewrite D, sq_skip. replace (t - S n)%nat with 0%nat by lia. cbn [firstn skipn app]. do 3 f_equal. lia.
  - assert (D : ((olen <=? S (m0 + n))%nat || (Z.of_nat (S n mod r) =? 0)) = false).
    { apply orb_false_iff. split; [apply Nat.leb_gt; lia|]. rewrite Nat.mod_small by lia. apply Z.eqb_neq. lia. }
    rewrite D. assert (A : pre ++ v :: rest = (pre ++ [v]) ++ rest) by (rewrite <- app_assoc; reflexivity). rewrite A.
    specialize (IH (S n) (pre ++ [v]) rest). rewrite Nat.add_succ_r in IH. rewrite IH; [|rewrite app_length; cbn [length]; lia|lia|lia].
    rewrite <- app_assoc. reflexivity.
Qed.
Lemma le8_len x : length (le8 x) = 8%nat. Proof. reflexivity. Qed.
Lemma state_bytes_len f : length (state_bytes f) = (8 * length f)%nat.
Proof. unfold state_bytes. induction f as [|x f IH]; [reflexivity|]. cbn [flat_map]. rewrite app_length, le8_len, IH. cbn [length]. lia. Qed.
Lemma squeeze_all_len r : (r <= 200)%nat -> forall n f, st25 f -> length (squeeze_all n r f) = (n * r)%nat.
Proof.
  intros R. induction n as [|n IH]; intros f F; [reflexivity|]. cbn [squeeze_all Nat.mul]. rewrite app_length, firstn_length, state_bytes_len, (proj1 F), Nat.min_l by lia.
  rewrite IH by (apply transform_ok, F). reflexivity.
Qed.
Lemma squeeze_ok r olen : (0 < r <= 200)%nat -> (0 < olen)%nat -> forall fuel n f pre rest, st25 f -> (length pre mod r = 0)%nat -> (length pre < olen)%nat ->
  (olen - length pre <= fuel)%nat -> (olen - length pre <= n * r)%nat -> (olen - length pre <= length rest)%nat ->
  exists s', k_squeeze fuel (Z.of_nat r) olen (unflat f) (pre ++ rest) (length pre) =
    Some (pre ++ firstn (olen - length pre) (squeeze_all n r f) ++ skipn (olen - length pre) rest, s').
Proof.
  intros R O. induction fuel as [|fuel IH]; intros n f pre rest F M LO FU N LR; [lia|]. destruct n as [|n]; [lia|].
  cbn [k_squeeze]. set (m := length pre) in *. set (t := Nat.min r (olen - m)).
  assert (P := sq_pass r olen (unflat f) m t ltac:(lia) M ltac:(lia) ltac:(lia) ltac:(lia) k_sq_order 0 pre rest ltac:(unfold m; lia)).
  assert (LO2 : length k_sq_order = 200%nat) by reflexivity. rewrite LO2 in P. specialize (P ltac:(lia) ltac:(lia)). rewrite Nat.add_0_r, Nat.sub_0_r in P. rewrite P. clear P. cbn [bind].
  rewrite order_bytes by exact F. assert (SB : length (state_bytes f) = 200%nat) by (rewrite state_bytes_len, (proj1 F); reflexivity).
  destruct (Nat.leb_spec olen (m + t)) as [G|G].
  - exists (unflat f). replace t with (olen - m)%nat by lia. do 3 f_equal. f_equal. cbn [squeeze_all]. rewrite firstn_app, firstn_firstn, firstn_length, SB.
    replace (Nat.min (olen - m) r) with (olen - m)%nat by lia. replace (olen - m - Nat.min r 200)%nat with 0%nat by lia. cbn [firstn]. symmetry. apply app_nil_r.
  - assert (TR : t = r) by lia. rewrite TR in *. destruct (transform_ok f F) as [-> F'].
    rewrite app_assoc. set (pre' := pre ++ firstn r (state_bytes f)). assert (LP : length pre' = (m + r)%nat) by (unfold pre'; rewrite app_length, firstn_length, SB; fold m; lia).
    cbn [Nat.mul] in N. destruct (IH n (keccak_f f) pre' (skipn r rest) F') as (s' & E); rewrite ?LP, ?skipn_length; try lia.
    { replace (m + r)%nat with (m + 1 * r)%nat by lia. rewrite Nat.mod_add by lia. exact M. }
    rewrite <- LP. rewrite E. exists s'. rewrite LP. unfold pre'. rewrite <- app_assoc. do 3 f_equal. cbn [squeeze_all]. rewrite skipn_skipn'. replace (r + (olen - (m + r)))%nat with (olen - m)%nat by lia.
    rewrite app_assoc. f_equal. rewrite firstn_app, (firstn_all2 (firstn r (state_bytes f))) by (rewrite firstn_length; lia). f_equal. f_equal. rewrite firstn_length, SB. lia.
Qed.

(* ------------------------- hash and shake --------------------------------- *)
(* new, process on every byte of m, then hash or shake *)
Definition sha3_run (n : nat) (m digest : list Z) : option (list Z) :=
  h <- k_new n ;; h' <- foldM k_process m h ;; '(d, _) <- k_hash h' digest ;; Some d.
Definition shake_run (n : nat) (m digest : list Z) (olen : nat) : option (list Z) :=
  h <- k_new n ;; h' <- foldM k_process m h ;; '(d, _) <- k_shake h' digest olen ;; Some d.
Lemma absorbed r l h T : (0 < r)%nat -> fed r l h T -> bytes T -> (length T mod r = 0)%nat ->
  h = mkK (Z.of_nat (length T)) (Z.of_nat r) l (unflat (absorb_all (length T / r) r (repeat 0 25) T)).
Proof.
  intros R H B M. unfold fed in H. rewrite skipn_all2 in H by (pose proof (Nat.div_mod (length T) r ltac:(lia)); lia).
  rewrite lanes_nil in H by (apply absorb_all_ok; [apply zero25|exact B]). exact H.
Qed.
Lemma padded_len r dom n : (0 < r)%nat -> (n + length (padding r dom n) = (S (n / r)) * r)%nat.
Proof. intros R. rewrite padding_len by exact R. pose proof (Nat.div_mod n r ltac:(lia)). pose proof (Nat.mod_upper_bound n r ltac:(lia)). cbn [Nat.mul]. lia. Qed.
Lemma sponge_run n m digest dom olen : (n < 100)%nat -> bytes m -> 0 <= dom < 128 -> Z.lor dom 128 = dom + 128 ->
  let r := (200 - 2 * n)%nat in Z.of_nat (S (length m / r) * r) < 2 ^ 64 -> (0 < olen <= length digest)%nat ->
  exists h h', k_new n = Some h /\ foldM k_process m h = Some h' /\ k_len h' = n /\
  exists h'', k_shake_with dom h' digest olen = Some (sponge r dom m olen ++ skipn olen digest, h'').
Proof.
  intros N B D DL r LM O. assert (R : (0 < r <= 200)%nat) by (unfold r; lia).
  pose proof (padded_len r dom (length m) ltac:(lia)) as PL. assert (LT : Z.of_nat (length (m ++ padding r dom (length m))) <= maxu64) by (rewrite app_length, PL; unfold maxu64; lia).
  destruct (new_fed n N) as (h & E0 & H0). fold r in H0. destruct (process_all r n m h [] R H0 (Forall_nil _) B) as (h1 & E1 & H1).
  { cbn [app]. rewrite app_length in LT. lia. }
  cbn [app] in H1. exists h, h1. split; [exact E0|]. split; [exact E1|]. split; [unfold fed in H1; subst h1; reflexivity|].
  destruct (pad_ok r n h1 m dom R H1 B D DL LT) as (h2 & E2 & H2). unfold k_shake_with. rewrite E2. cbn [bind].
  set (T := m ++ padding r dom (length m)) in *. assert (BT : bytes T) by (apply Forall_app; split; [exact B|apply le_bytes_bytes]).
  assert (LE : length T = (S (length m / r) * r)%nat) by (unfold T; rewrite app_length; exact PL).
  pose proof (absorbed r n h2 T ltac:(lia) H2 BT ltac:(rewrite LE; apply Nat.mod_mul; lia)) as EH. set (f := absorb_all (length T / r) r (repeat 0 25) T) in *.
  assert (F : st25 f) by (apply absorb_all_ok; [apply zero25|exact BT]). rewrite EH. cbn [k_rate k_s].
  assert (ON : (olen <= S (olen / r) * r)%nat) by (pose proof (Nat.div_mod olen r ltac:(lia)); pose proof (Nat.mod_upper_bound olen r ltac:(lia)); cbn [Nat.mul]; lia).
  destruct (squeeze_ok r olen R ltac:(lia) (S olen) (S (olen / r)) f [] digest F) as (s' & E); cbn [length]; rewrite ?Nat.sub_0_r; try lia; [apply Nat.mod_0_l; lia|].
  cbn [app length] in E. rewrite Nat.sub_0_r in E. rewrite E. cbn [bind]. eexists. reflexivity.
Qed.
Lemma sha3_hashes : forall n m digest, (0 < n < 100)%nat -> bytes m -> Z.of_nat (S (length m / (200 - 2 * n)) * (200 - 2 * n)) < 2 ^ 64 -> (n <= length digest)%nat ->
  sha3_run n m digest = Some (SHA3_hash n m ++ skipn n digest) /\ length (SHA3_hash n m) = n.
Proof.
  intros n m digest N B L D. destruct (sponge_run n m digest 6 n ltac:(lia) B ltac:(lia) eq_refl L ltac:(lia)) as (h & h' & E0 & E1 & K & h'' & E2).
  split.
  - unfold sha3_run. rewrite E0. cbn [bind]. rewrite E1. cbn [bind]. unfold k_hash. rewrite K, E2. reflexivity.
  - unfold SHA3_hash, sponge. rewrite firstn_length, squeeze_all_len; [|lia|apply absorb_all_ok; [apply zero25|apply Forall_app; split; [exact B|apply le_bytes_bytes]]].
    pose proof (Nat.div_mod n (200 - 2 * n) ltac:(lia)) as H1. pose proof (Nat.mod_upper_bound n (200 - 2 * n) ltac:(lia)) as H2. rewrite Nat.mul_succ_l. revert H1 H2. generalize (n / (200 - 2 * n))%nat (n mod (200 - 2 * n))%nat. intros a b H1 H2. nia.
Qed.
Lemma shake_runs : forall n m digest olen, (n < 100)%nat -> bytes m -> Z.of_nat (S (length m / (200 - 2 * n)) * (200 - 2 * n)) < 2 ^ 64 -> (0 < olen <= length digest)%nat ->
  shake_run n m digest olen = Some (SHAKE n m olen ++ skipn olen digest) /\ length (SHAKE n m olen) = olen.
Proof.
  intros n m digest olen N B L D. destruct (sponge_run n m digest 31 olen ltac:(lia) B ltac:(lia) eq_refl L ltac:(lia)) as (h & h' & E0 & E1 & K & h'' & E2).
  split.
  - unfold shake_run. rewrite E0. cbn [bind]. rewrite E1. cbn [bind]. unfold k_shake. rewrite E2. reflexivity.
  - unfold SHAKE, sponge. rewrite firstn_length, squeeze_all_len; [|lia|apply absorb_all_ok; [apply zero25|apply Forall_app; split; [exact B|apply le_bytes_bytes]]].
    pose proof (Nat.div_mod olen (200 - 2 * n) ltac:(lia)) as H1. pose proof (Nat.mod_upper_bound olen (200 - 2 * n) ltac:(lia)) as H2. rewrite Nat.mul_succ_l. revert H1 H2. generalize (olen / (200 - 2 * n))%nat (olen mod (200 - 2 * n))%nat. intros a b H1 H2. nia.
Qed.
Lemma sha3_long : forall n m digest, (100 <= n)%nat -> sha3_run n m digest = None.
Proof.
  intros n m digest N. unfold sha3_run, k_new, k_init. unfold cku64 at 1. destruct (Z.leb_spec 0 (200 - 2 * Z.of_nat n)) as [G|G]; [|reflexivity].
  assert (n = 100%nat) by lia. subst n. change (200 - 2 * Z.of_nat 100) with 0. change (0 <=? maxu64) with true. cbn [andb bind].
  destruct m as [|b m]; [reflexivity|]. reflexivity.
Qed.
(* the same bytes come out of shake for every length *)
Lemma shake_zero : forall n m x digest, (n < 100)%nat -> bytes m -> Z.of_nat (S (length m / (200 - 2 * n)) * (200 - 2 * n)) < 2 ^ 64 ->
  shake_run n m (x :: digest) 0 = Some (SHAKE n m 1 ++ digest) /\ shake_run n m [] 0 = None.
Proof.
  intros n m x digest N B L. set (r := (200 - 2 * n)%nat) in *. assert (R : (0 < r <= 200)%nat) by (unfold r; lia).
  pose proof (padded_len r 31 (length m) ltac:(lia)) as PL. assert (LT : Z.of_nat (length (m ++ padding r 31 (length m))) <= maxu64) by (rewrite app_length, PL; unfold maxu64; lia).
  destruct (new_fed n N) as (h & E0 & H0). fold r in H0. destruct (process_all r n m h [] R H0 (Forall_nil _) B) as (h1 & E1 & H1).
  { cbn [app]. rewrite app_length in LT. lia. }
  cbn [app] in H1. destruct (pad_ok r n h1 m 31 R H1 B ltac:(lia) eq_refl LT) as (h2 & E2 & H2). unfold shake_run, k_shake, k_shake_with. rewrite E0. cbn [bind]. rewrite E1. cbn [bind]. rewrite E2. cbn [bind].
  set (T := m ++ padding r 31 (length m)) in *. assert (BT : bytes T) by (apply Forall_app; split; [exact B|apply le_bytes_bytes]).
  assert (LE : length T = (S (length m / r) * r)%nat) by (unfold T; rewrite app_length; exact PL).
  pose proof (absorbed r n h2 T ltac:(lia) H2 BT ltac:(rewrite LE; apply Nat.mod_mul; lia)) as EH. set (f := absorb_all (length T / r) r (repeat 0 25) T) in *.
  assert (F : st25 f) by (apply absorb_all_ok; [apply zero25|exact BT]). rewrite EH. cbn [k_rate k_s]. split; [|reflexivity].
  cbn [k_squeeze]. assert (M0 : (0 mod r = 0)%nat) by (apply Nat.mod_0_l; lia).
  pose proof (sq_pass r 0 (unflat f) 0 1 ltac:(lia) M0 ltac:(lia) ltac:(right; reflexivity) ltac:(cbn; lia) k_sq_order 0 [] (x :: digest) eq_refl) as P.
  assert (LO2 : length k_sq_order = 200%nat) by reflexivity. rewrite LO2 in P. specialize (P ltac:(lia) ltac:(cbn [length]; lia)). cbn [app Nat.add Nat.sub skipn] in P. rewrite P. clear P. cbn [bind Nat.leb].
  rewrite order_bytes by exact F. do 2 f_equal. unfold SHAKE, sponge. fold r. change 0x1f with 31. fold T. fold f. cbn [squeeze_all]. rewrite firstn_app, firstn_firstn, firstn_length, state_bytes_len, (proj1 F).
  replace (Nat.min 1 r) with 1%nat by lia. replace (1 - Nat.min r (8 * 25))%nat with 0%nat by lia. cbn [firstn]. rewrite app_nil_r. reflexivity.
Qed.
Lemma shake_zero_refuted : exists n m digest, (0 < n < 100)%nat /\ bytes m /\ (forall olen, (0 < olen <= length digest)%nat -> shake_run n m digest olen = Some (SHAKE n m olen ++ skipn olen digest)) /\ shake_run n m digest 0 <> Some digest.
Proof.
  exists 16%nat, [], []. split; [lia|]. split; [constructor|]. split; [cbn [length]; intros; lia|]. rewrite (proj2 (shake_zero 16 [] 0 [] ltac:(lia) (Forall_nil _) ltac:(cbn; lia))). discriminate.
Qed.

(* hash does not reset the object: a second message is hashed after the first one and its padding *)
Definition sha3_twice (n : nat) (m m2 digest : list Z) : option (list Z) :=
  h <- k_new n ;; h <- foldM k_process m h ;; '(d, h) <- k_hash h digest ;; h <- foldM k_process m2 h ;; '(d, _) <- k_hash h d ;; Some d.
Lemma squeeze_once r olen f digest : (0 < r <= 200)%nat -> (0 < olen <= r)%nat -> st25 f -> (olen <= length digest)%nat ->
  k_squeeze (S olen) (Z.of_nat r) olen (unflat f) digest 0 = Some (firstn olen (state_bytes f) ++ skipn olen digest, unflat f).
Proof.
  intros R O F D. cbn [k_squeeze]. assert (M0 : (0 mod r = 0)%nat) by (apply Nat.mod_0_l; lia).
  pose proof (sq_pass r olen (unflat f) 0 olen ltac:(lia) M0 ltac:(lia) ltac:(lia) ltac:(lia) k_sq_order 0 [] digest eq_refl) as P.
  assert (LO2 : length k_sq_order = 200%nat) by reflexivity. rewrite LO2 in P. specialize (P ltac:(lia) ltac:(lia)). cbn [app Nat.add] in P. rewrite Nat.sub_0_r in P. rewrite P. clear P. cbn [bind].
  rewrite (proj2 (Nat.leb_le olen olen)) by lia. rewrite order_bytes by exact F. reflexivity.
Qed.
Lemma sponge_once r dom m olen : (0 < r <= 200)%nat -> (olen <= r)%nat -> bytes m ->
  sponge r dom m olen = firstn olen (state_bytes (absorb_all (length (m ++ padding r dom (length m)) / r) r (repeat 0 25) (m ++ padding r dom (length m)))).
Proof.
  intros R O B. unfold sponge. assert (F : st25 (absorb_all (length (m ++ padding r dom (length m)) / r) r (repeat 0 25) (m ++ padding r dom (length m)))).
  { apply absorb_all_ok; [apply zero25|apply Forall_app; split; [exact B|apply le_bytes_bytes]]. }
  cbn [squeeze_all]. rewrite firstn_app, firstn_firstn, firstn_length, state_bytes_len, (proj1 F). replace (Nat.min olen r) with olen by lia. replace (olen - Nat.min r (8 * 25))%nat with 0%nat by lia. cbn [firstn]. apply app_nil_r.
Qed.
Lemma hash_fed r n h T digest : (0 < r <= 200)%nat -> fed r n h T -> bytes T -> (0 < n <= r)%nat -> Z.of_nat (S (length T / r) * r) < 2 ^ 64 -> (n <= length digest)%nat ->
  exists h', k_hash h digest = Some (sponge r 6 T n ++ skipn n digest, h') /\ fed r n h' (T ++ padding r 6 (length T)).
Proof.
  intros R H B N L D. pose proof (padded_len r 6 (length T) ltac:(lia)) as PL. assert (LT : Z.of_nat (length (T ++ padding r 6 (length T))) <= maxu64) by (rewrite app_length, PL; unfold maxu64; lia).
  assert (K : k_len h = n) by (unfold fed in H; subst h; reflexivity). unfold k_hash, k_shake_with. rewrite K.
  destruct (pad_ok r n h T 6 R H B ltac:(lia) eq_refl LT) as (h2 & E2 & H2). rewrite E2. cbn [bind].
  rewrite sponge_once by (try assumption; lia). set (T' := T ++ padding r 6 (length T)) in *. assert (BT : bytes T') by (apply Forall_app; split; [exact B|apply le_bytes_bytes]).
  assert (LE : length T' = (S (length T / r) * r)%nat) by (unfold T'; rewrite app_length; exact PL).
  pose proof (absorbed r n h2 T' ltac:(lia) H2 BT ltac:(rewrite LE; apply Nat.mod_mul; lia)) as EH. set (f := absorb_all (length T' / r) r (repeat 0 25) T') in *.
  assert (F : st25 f) by (apply absorb_all_ok; [apply zero25|exact BT]). rewrite EH. cbn [k_rate k_s k_length k_len]. rewrite squeeze_once by (try assumption; lia). cbn [bind].
  eexists. split; [reflexivity|]. rewrite EH in H2. exact H2.
Qed.
Lemma sha3_again : forall n m m2 digest, (0 < n <= 66)%nat -> bytes m -> bytes m2 -> (n <= length digest)%nat ->
  let r := (200 - 2 * n)%nat in let T := m ++ padding r 6 (length m) ++ m2 in Z.of_nat (S (length T / r) * r) < 2 ^ 64 ->
  sha3_twice n m m2 digest = Some (SHA3_hash n T ++ skipn n digest).
Proof.
  intros n m m2 digest N B B2 D r T L. assert (R : (0 < r <= 200)%nat) by (unfold r; lia). pose proof (padded_len r 6 (length m) ltac:(lia)) as PL.
  assert (LT : length T = (S (length m / r) * r + length m2)%nat) by (unfold T; rewrite !app_length; lia).
  assert (LL : (length T <= S (length T / r) * r)%nat) by (pose proof (Nat.div_mod (length T) r ltac:(lia)); pose proof (Nat.mod_upper_bound (length T) r ltac:(lia)); cbn [Nat.mul]; lia).
  unfold sha3_twice. destruct (new_fed n ltac:(lia)) as (h & E0 & H0). fold r in H0. rewrite E0. cbn [bind].
  destruct (process_all r n m h [] R H0 (Forall_nil _) B) as (h1 & E1 & H1). { cbn [app]. unfold maxu64. lia. } cbn [app] in H1. rewrite E1. cbn [bind].
  destruct (hash_fed r n h1 m digest R H1 B ltac:(lia) ltac:(lia) D) as (h2 & E2 & H2). rewrite E2. cbn [bind].
  assert (BP : bytes (m ++ padding r 6 (length m))) by (apply Forall_app; split; [exact B|apply le_bytes_bytes]).
  destruct (process_all r n m2 h2 _ R H2 BP B2) as (h3 & E3 & H3). { rewrite <- app_assoc. fold T. unfold maxu64. lia. } rewrite <- app_assoc in H3. fold T in H3. rewrite E3. cbn [bind].
  assert (BT : bytes T) by (unfold T; rewrite app_assoc; apply Forall_app; split; assumption).
  assert (LS : length (sponge r 6 m n) = n) by exact (proj2 (sha3_hashes n m digest ltac:(lia) B ltac:(fold r; lia) D)).
  destruct (hash_fed r n h3 T (sponge r 6 m n ++ skipn n digest) R H3 BT ltac:(lia) L) as (h4 & E4 & _). { rewrite app_length, skipn_length, LS. lia. }
  rewrite E4. cbn [bind]. rewrite skipn_app, LS, Nat.sub_diag, (skipn_all2 (sponge r 6 m n)) by lia. reflexivity.
Qed.
Lemma sha3_reuse_refuted : exists n m m2 digest, (0 < n < 100)%nat /\ bytes m /\ bytes m2 /\ length digest = n /\ sha3_run n m2 digest = Some (SHA3_hash n m2) /\ sha3_twice n m m2 digest <> Some (SHA3_hash n m2).
Proof.
  assert (E : sha3_run 32 [] (repeat 0 32) = Some (SHA3_hash 32 [])).
  { destruct (sha3_hashes 32 [] (repeat 0 32) ltac:(lia) (Forall_nil _) ltac:(cbn; lia) ltac:(cbn; lia)) as [E _]. rewrite E. change (skipn 32 (repeat 0 32)) with (@nil Z). rewrite app_nil_r. reflexivity. }
  exists 32%nat, [], [], (repeat 0 32). split; [lia|]. split; [constructor|]. split; [constructor|]. split; [reflexivity|]. split; [exact E|]. rewrite <- E.
  intros H. apply (f_equal (fun o => match o with Some (x :: _) => x | _ => 0 end)) in H. revert H. vm_compute. discriminate.
Qed.
Lemma transform_keccak : forall f, length f = 25%nat -> Forall (fun x => 0 <= x < 2 ^ 64) f -> k_transform (unflat f) = unflat (keccak_f f) /\ length (keccak_f f) = 25%nat.
Proof. intros f L F. destruct (transform_ok f (conj L F)) as [E S]. exact (conj E (proj1 S)). Qed.
