(* sha3.rs: the transformation is Keccak-f[1600], and what process, the padding and squeeze do
   is the sponge of FIPS 202. *)
From Coq Require Import ZArith List Lia Bool.
From Verif Require Import Prim PrimP SpecBytes SpecSha3 Sha3.
Import ListNotations.
Open Scope Z_scope.

Definition w64 (x : Z) : Prop := 0 <= x < 2 ^ 64.
Lemma land_k64 z : Z.land z k64 = z mod 2 ^ 64.
Proof. change k64 with (2 ^ 64 - 1). apply land_ones_mod. lia. Qed.
Lemma rotl_eq n x : 0 <= n < 64 -> w64 x -> k_rotl x n = rot64 x n.
Proof.
  intros N [X0 X1]. unfold k_rotl, rot64. rewrite land_k64, shiftr_div, shiftl_mul by lia.
  assert (E : (2 ^ 64 = 2 ^ (64 - n) * 2 ^ n)) by (rewrite <- Z.pow_add_r by lia; f_equal; lia).
  assert (0 < 2 ^ n) by (apply Z.pow_pos_nonneg; lia). assert (0 < 2 ^ (64 - n)) by (apply Z.pow_pos_nonneg; lia).
  rewrite E at 1 2. rewrite Z.mul_mod_distr_r by lia. apply lor_add; [lia|].
  split; [apply Z.div_pos; lia|]. apply Z.div_lt_upper_bound; lia.
Qed.
Lemma rot64_word n x : 0 <= n < 64 -> w64 x -> w64 (rot64 x n).
Proof.
  intros N [X0 X1]. unfold rot64. assert (E : (2 ^ 64 = 2 ^ (64 - n) * 2 ^ n)) by (rewrite <- Z.pow_add_r by lia; f_equal; lia).
  assert (0 < 2 ^ n) by (apply Z.pow_pos_nonneg; lia). assert (0 < 2 ^ (64 - n)) by (apply Z.pow_pos_nonneg; lia).
  rewrite E at 1. rewrite Z.mul_mod_distr_r by lia. pose proof (Z.mod_pos_bound x (2 ^ (64 - n)) ltac:(lia)).
  assert (0 <= x / 2 ^ (64 - n) < 2 ^ n) by (split; [apply Z.div_pos; lia|apply Z.div_lt_upper_bound; lia]). unfold w64. nia.
Qed.
Lemma word_bits x : w64 x <-> 0 <= x /\ forall i, 64 <= i -> Z.testbit x i = false.
Proof.
  split.
  - intros [A B]. split; [exact A|]. intros i I. apply Z.bits_above_log2; [exact A|]. destruct (Z.eq_dec x 0) as [->|NZ]; [cbn; lia|].
    assert (Z.log2 x < 64) by (apply Z.log2_lt_pow2; lia). lia.
  - intros [A B]. split; [exact A|]. assert (E : x = x mod 2 ^ 64).
    { apply Z.bits_inj'. intros i I. destruct (Z.lt_ge_cases i 64) as [L|L]; [rewrite Z.mod_pow2_bits_low by lia; reflexivity|]. rewrite (B i L), Z.mod_pow2_bits_high by lia. reflexivity. }
    rewrite E. apply Z.mod_pos_bound. lia.
Qed.
Lemma lxor_word x y : w64 x -> w64 y -> w64 (Z.lxor x y).
Proof.
  rewrite !word_bits. intros [A B] [C D]. split; [apply Z.lxor_nonneg; tauto|]. intros i I. rewrite Z.lxor_spec, B, D by lia. reflexivity.
Qed.
Lemma land_word x y : 0 <= x -> w64 y -> w64 (Z.land x y).
Proof.
  rewrite !word_bits. intros A [C D]. split; [apply Z.land_nonneg; tauto|]. intros i I. rewrite Z.land_spec, D by lia. apply andb_false_r.
Qed.
Lemma k64_word : w64 k64. Proof. unfold w64, k64. lia. Qed.

(* the state of the code and the list of lanes *)
Definition unflat (f : list Z) : list (list Z) := map (fun i => map (fun j => nth (5 * j + i) f 0) [0; 1; 2; 3; 4]%nat) [0; 1; 2; 3; 4]%nat.
Definition st25 (f : list Z) : Prop := length f = 25%nat /\ Forall w64 f.
Ltac open25 f L F :=
  do 25 (destruct f as [|? f]; [discriminate L|]); destruct f; [|discriminate L]; clear L;
  repeat match goal with H : Forall w64 (_ :: _) |- _ => let H1 := fresh in let H2 := fresh in pose proof (Forall_inv H) as H1; pose proof (Forall_inv_tail H) as H2; clear H end.
Ltac words := repeat (apply lxor_word); assumption.

Lemma theta_ok f : st25 f -> k_theta (unflat f) = unflat (theta f) /\ st25 (theta f).
Proof.
  intros [L F]. open25 f L F. split.
  - cbv [unflat theta k_theta k_d k_c lanes lane map seq nth limb ix Nat.modulo Nat.divmod Nat.div Nat.mul Nat.add fst snd Nat.sub].
    rewrite !rotl_eq by (try lia; words). reflexivity.
  - split; [reflexivity|]. cbv [theta lanes lane map seq nth Nat.modulo Nat.divmod Nat.div Nat.mul Nat.add fst snd Nat.sub].
    repeat (constructor; [repeat first [assumption|apply lxor_word|apply rot64_word; [lia|]]|]). constructor.
Qed.
Ltac offs := repeat match goal with |- context [offset ?x ?y] => let v := eval vm_compute in (offset x y) in change (offset x y) with v end.
Lemma rot0 x : w64 x -> rot64 x 0 = x.
Proof. intros [A B]. unfold rot64. rewrite Z.mul_1_r. change (64 - 0) with 64. rewrite Z.mod_small, Z.div_small by lia. lia. Qed.
Lemma rho_ok f : st25 f -> k_rho (unflat f) = unflat (pi (rho f)) /\ st25 (pi (rho f)).
Proof.
  intros [L F]. open25 f L F. split.
  - cbv [unflat rho pi k_rho lanes lane map seq nth limb ix Nat.modulo Nat.divmod Nat.div Nat.mul Nat.add fst snd Nat.sub].
    offs. rewrite rot0 by assumption. rewrite !rotl_eq by (try lia; assumption). reflexivity.
  - split; [reflexivity|]. cbv [rho pi lanes lane map seq nth Nat.modulo Nat.divmod Nat.div Nat.mul Nat.add fst snd Nat.sub]. offs.
    repeat (constructor; [apply rot64_word; [lia|assumption]|]). constructor.
Qed.
Lemma chi_ok f : st25 f -> k_chi (unflat f) = unflat (chi f) /\ st25 (chi f).
Proof.
  intros [L F]. open25 f L F. split.
  - cbv [unflat chi k_chi lanes lane map seq nth limb ix Nat.modulo Nat.divmod Nat.div Nat.mul Nat.add fst snd Nat.sub].
    change (2 ^ 64 - 1) with k64. reflexivity.
  - split; [reflexivity|]. cbv [chi lanes lane map seq nth Nat.modulo Nat.divmod Nat.div Nat.mul Nat.add fst snd Nat.sub].
    change (2 ^ 64 - 1) with k64. repeat (constructor; [apply lxor_word; [assumption|apply land_word; [apply (lxor_word _ _); [assumption|apply k64_word]|assumption]]|]). constructor.
Qed.
Lemma rc_eq : SHA3_RC = map RC (seq 0 24). Proof. vm_compute. reflexivity. Qed.
Lemma rc_word : Forall w64 SHA3_RC. Proof. unfold SHA3_RC. repeat (constructor; [unfold w64; lia|]). constructor. Qed.
Lemma rc_at k : (k < 24)%nat -> limb SHA3_RC k = RC k /\ w64 (RC k).
Proof.
  intros K. assert (E : limb SHA3_RC k = RC k).
  { rewrite rc_eq. unfold limb. rewrite (nth_indep _ 0 (RC 0)) by (rewrite map_length, seq_length; exact K). rewrite map_nth, seq_nth by exact K. reflexivity. }
  split; [exact E|]. rewrite <- E. unfold limb. apply (proj1 (Forall_forall w64 _) rc_word). apply nth_In. exact K.
Qed.
Lemma xor_at f n v : length f = 25%nat -> (n < 25)%nat -> k_xor (unflat f) (n mod 5) (n / 5) v = unflat (upd f n (Z.lxor (nth n f 0) v)).
Proof.
  intros L N. do 25 (destruct f as [|? f]; [discriminate L|]). destruct f; [|discriminate L].
  do 25 (destruct n as [|n]; [reflexivity|]). lia.
Qed.
Lemma iota_ok f k : st25 f -> (k < 24)%nat -> k_xor (unflat f) 0 0 (limb SHA3_RC k) = unflat (iota k f) /\ st25 (iota k f).
Proof.
  intros [L F] K. destruct (rc_at k K) as [-> W]. unfold iota. revert W. generalize (RC k). intros c W.
  pose proof (xor_at f 0 c L ltac:(lia)) as X. change (0 mod 5)%nat with 0%nat in X. change (0 / 5)%nat with 0%nat in X. rewrite X.
  assert (E : upd f 0 (Z.lxor (nth 0 f 0) c) = lanes (fun x y => if (Nat.eqb x 0 && Nat.eqb y 0)%bool then Z.lxor (lane f x y) c else lane f x y)).
  { open25 f L F. reflexivity. }
  split.
  - rewrite E. reflexivity.
  - assert (G : st25 (upd f 0 (Z.lxor (nth 0 f 0) c))).
    { open25 f L F. cbn [upd nth]. split; [reflexivity|]. repeat (constructor; [first [assumption|apply lxor_word; assumption]|]). constructor. }
    rewrite E in G. exact G.
Qed.
Lemma round_ok f k : st25 f -> (k < 24)%nat -> k_round (unflat f) k = unflat (Rnd f k) /\ st25 (Rnd f k).
Proof.
  intros F K. unfold k_round, Rnd. destruct (theta_ok f F) as [-> F1]. destruct (rho_ok _ F1) as [-> F2]. destruct (chi_ok _ F2) as [-> F3]. exact (iota_ok _ k F3 K).
Qed.
Lemma fold_sim {A B} (u : A -> B) (F : A -> nat -> A) (G : B -> nat -> B) (P : A -> Prop) (Q : nat -> Prop) :
  (forall f k, P f -> Q k -> G (u f) k = u (F f k) /\ P (F f k)) ->
  forall ks f, P f -> Forall Q ks -> fold_left G ks (u f) = u (fold_left F ks f) /\ P (fold_left F ks f).
Proof.
  intros H. induction ks as [|k ks IH]; intros f PF K; cbn [fold_left]; [split; [reflexivity|exact PF]|].
  destruct (H f k PF (Forall_inv K)) as [-> F']. exact (IH _ F' (Forall_inv_tail K)).
Qed.
Lemma transform_ok f : st25 f -> k_transform (unflat f) = unflat (keccak_f f) /\ st25 (keccak_f f).
Proof. intros F. apply (fold_sim unflat Rnd k_round st25 (fun k => (k < 24)%nat) round_ok); [exact F|]. apply Forall_forall. intros k K. apply in_seq in K. lia. Qed.
Global Opaque keccak_f k_transform.

(* ------------------------- absorbing ------------------------------------ *)
Definition xors (s t : list Z) : list Z := map (fun p => Z.lxor (fst p) (snd p)) (combine s t).
Lemma lanes_nil s : st25 s -> xors s (lanes_of []) = s.
Proof.
  intros [L F]. open25 s L F. unfold lanes_of. assert (N : forall i, lane_of [] i = 0).
  { intros i. unfold lane_of. cbn [seq fold_right]. rewrite !(nth_overflow []) by apply Nat.le_0_l. reflexivity. }
  unfold xors. cbn [seq map combine fst snd]. rewrite !N, !Z.lxor_0_r. reflexivity.
Qed.
Lemma lxor_add a b n : 0 <= n -> 0 <= a < 2 ^ n -> Z.lxor a (Z.shiftl b n) = a + b * 2 ^ n.
Proof.
  intros N A. rewrite Z.shiftl_mul_pow2 by exact N. symmetry. apply Z.add_nocarry_lxor. apply Z.bits_inj'. intros i I. rewrite Z.land_spec, Z.bits_0.
  destruct (Z.lt_ge_cases i n) as [G|G].
  - rewrite (Z.mul_pow2_bits_low b n i) by lia. apply andb_false_r.
  - destruct (Z.eq_dec a 0) as [->|NZ]; [rewrite Z.bits_0; reflexivity|]. rewrite (Z.bits_above_log2 a i); [reflexivity|lia|]. assert (Z.log2 a < n) by (apply Z.log2_lt_pow2; lia). lia.
Qed.
Lemma nth_byte p i : bytes p -> 0 <= nth i p 0 < 256.
Proof.
  intros B. destruct (Nat.lt_ge_cases i (length p)) as [L|L]; [exact (proj1 (Forall_forall _ p) B _ (nth_In p 0 L))|]. rewrite nth_overflow by exact L. lia.
Qed.
Lemma lane_word p i : bytes p -> w64 (lane_of p i).
Proof.
  intros B. unfold lane_of, w64. cbn [seq fold_right]. pose proof (fun k => nth_byte p (8 * i + k) B) as G.
  pose proof (G 0%nat). pose proof (G 1%nat). pose proof (G 2%nat). pose proof (G 3%nat). pose proof (G 4%nat). pose proof (G 5%nat). pose proof (G 6%nat). pose proof (G 7%nat). lia.
Qed.
Ltac p2c := repeat match goal with |- context [2 ^ ?e] => let v := eval vm_compute in (2 ^ e) in change (2 ^ e) with v end.
Ltac zr Z0 := try rewrite (Z0 0%nat) by lia; try rewrite (Z0 1%nat) by lia; try rewrite (Z0 2%nat) by lia; try rewrite (Z0 3%nat) by lia; try rewrite (Z0 4%nat) by lia; try rewrite (Z0 5%nat) by lia; try rewrite (Z0 6%nat) by lia; try rewrite (Z0 7%nat) by lia.
Lemma lane_snoc p b i : bytes p -> 0 <= b < 256 -> lane_of (p ++ [b]) i = if (length p / 8 =? i)%nat then Z.lxor (lane_of p i) (Z.shiftl b (8 * (Z.of_nat (length p) mod 8))) else lane_of p i.
Proof.
  intros P B. pose proof (Nat.div_mod (length p) 8 ltac:(lia)) as DM. pose proof (Nat.mod_upper_bound (length p) 8 ltac:(lia)) as MB.
  assert (ZM : Z.of_nat (length p) mod 8 = Z.of_nat (length p mod 8)) by (change 8 with (Z.of_nat 8); symmetry; apply Nat2Z.inj_mod).
  rewrite ZM. clear ZM. set (q := (length p / 8)%nat) in *. set (k := (length p mod 8)%nat) in *.
  assert (G : forall j, nth j (p ++ [b]) 0 = if (j =? length p)%nat then b else nth j p 0).
  { intros j. destruct (Nat.eqb_spec j (length p)) as [->|N].
    - rewrite app_nth2 by lia. rewrite Nat.sub_diag. reflexivity.
    - destruct (Nat.lt_ge_cases j (length p)) as [L|L]; [apply app_nth1, L|]. rewrite !nth_overflow by (try rewrite app_length; cbn [length]; lia). reflexivity. }
  unfold lane_of. cbn [seq fold_right]. rewrite !G. destruct (Nat.eqb_spec q i) as [E|E].
  - subst i. assert (Z0 : forall j, (k <= j)%nat -> nth (8 * q + j) p 0 = 0) by (intros j J; apply nth_overflow; lia).
    pose proof (fun j => nth_byte p (8 * q + j) P) as N.
    pose proof (N 0%nat). pose proof (N 1%nat). pose proof (N 2%nat). pose proof (N 3%nat). pose proof (N 4%nat). pose proof (N 5%nat). pose proof (N 6%nat). pose proof (N 7%nat). clear N G.
    clearbody q k. do 8 (destruct k as [|k]; [
      repeat match goal with |- context [(?a =? ?b)%nat] => first [rewrite (proj2 (Nat.eqb_eq a b)) by lia|rewrite (proj2 (Nat.eqb_neq a b)) by lia] end;
      rewrite lxor_add; [p2c; zr Z0; lia|lia|]; p2c; zr Z0; lia|]). lia.
  - repeat match goal with |- context [(?a =? ?b)%nat] => rewrite (proj2 (Nat.eqb_neq a b)) by lia end. reflexivity.
Qed.

(* ------------------------- whole messages -------------------------------- *)
Lemma xors_len s t : length s = 25%nat -> length t = 25%nat -> length (xors s t) = 25%nat.
Proof. intros A B. unfold xors. rewrite map_length, combine_length, A, B. reflexivity. Qed.
Lemma xors_nth s : forall t i, length s = length t -> nth i (xors s t) 0 = Z.lxor (nth i s 0) (nth i t 0).
Proof.
  induction s as [|x s IH]; destruct t as [|y t]; intros i L; try discriminate L.
  - destruct i; reflexivity.
  - destruct i as [|i]; [reflexivity|]. cbn [nth]. injection L as L. exact (IH t i L).
Qed.
Lemma lanes_len p : length (lanes_of p) = 25%nat. Proof. unfold lanes_of. rewrite map_length. apply seq_length. Qed.
Lemma lanes_nth p i : (i < 25)%nat -> nth i (lanes_of p) 0 = lane_of p i.
Proof. intros I. unfold lanes_of. rewrite (nth_indep _ 0 (lane_of p 0)) by (rewrite map_length, seq_length; exact I). rewrite map_nth, seq_nth by exact I. reflexivity. Qed.
Lemma st25_nth s i : st25 s -> w64 (nth i s 0).
Proof.
  intros [L F]. destruct (Nat.lt_ge_cases i (length s)) as [G|G]; [exact (proj1 (Forall_forall _ s) F _ (nth_In s 0 G))|]. rewrite nth_overflow by exact G. unfold w64. lia.
Qed.
Lemma st25_of s : length s = 25%nat -> (forall i, w64 (nth i s 0)) -> st25 s.
Proof.
  intros L H. split; [exact L|]. apply Forall_forall. intros x X. destruct (In_nth s x 0 X) as (i & _ & <-). apply H.
Qed.
Lemma xors_ok s p : st25 s -> bytes p -> st25 (xors s (lanes_of p)).
Proof.
  intros S P. pose proof (proj1 S) as L. apply st25_of; [apply xors_len; [exact L|apply lanes_len]|]. intros i. rewrite xors_nth by (rewrite lanes_len; exact L).
  apply lxor_word; [apply st25_nth, S|]. destruct (Nat.lt_ge_cases i 25) as [G|G]; [rewrite lanes_nth by exact G; apply lane_word, P|]. rewrite nth_overflow by (rewrite lanes_len; exact G). unfold w64. lia.
Qed.
Lemma upd_nth_if {A} (l : list A) j x d : forall i, nth i (upd l j x) d = if ((i =? j) && (j <? length l))%nat then x else nth i l d.
Proof.
  revert j. induction l as [|a l IH]; intros j i.
  - cbn [upd length]. rewrite andb_false_r. reflexivity.
  - destruct j as [|j]; destruct i as [|i]; try reflexivity. cbn [upd nth length]. rewrite IH. reflexivity.
Qed.
Lemma xors_snoc s p b : st25 s -> bytes p -> 0 <= b < 256 -> (length p < 200)%nat ->
  upd (xors s (lanes_of p)) (length p / 8) (Z.lxor (nth (length p / 8) (xors s (lanes_of p)) 0) (Z.shiftl b (8 * (Z.of_nat (length p) mod 8)))) = xors s (lanes_of (p ++ [b])).
Proof.
  intros S P B L. pose proof (proj1 S) as LS. assert (I : (length p / 8 < 25)%nat) by (apply Nat.div_lt_upper_bound; lia).
  apply (nth_ext _ _ 0 0); [rewrite upd_length, !xors_len by (try apply lanes_len; exact LS); reflexivity|].
  intros i H. rewrite upd_length, xors_len in H by (try apply lanes_len; exact LS).
  rewrite upd_nth_if, !xors_nth by (rewrite lanes_len; exact LS). rewrite xors_len by (try apply lanes_len; exact LS).
  rewrite (proj2 (Nat.ltb_lt _ _) I), andb_true_r, !lanes_nth by assumption. rewrite lane_snoc by assumption. rewrite (Nat.eqb_sym i).
  destruct (Nat.eqb_spec (length p / 8) i) as [->|_]; [|reflexivity]. apply Z.lxor_assoc.
Qed.
Lemma absorb_all_app n r : forall s T U, (n * r <= length T)%nat -> absorb_all n r s (T ++ U) = absorb_all n r s T.
Proof.
  induction n as [|n IH]; intros s T U L; [reflexivity|]. cbn [absorb_all]. cbn [Nat.mul] in L.
  rewrite firstn_app, skipn_app. replace (r - length T)%nat with 0%nat by lia. cbn [firstn skipn]. rewrite app_nil_r. apply IH. rewrite skipn_length. lia.
Qed.
Lemma skipn_skipn' {A} (l : list A) a b : skipn a (skipn b l) = skipn (b + a) l.
Proof. revert l. induction b as [|b IH]; intros l; [reflexivity|]. destruct l; cbn [skipn Nat.add]; [apply skipn_nil|apply IH]. Qed.
Lemma absorb_all_S n r : forall s T, absorb_all (S n) r s T = absorb_block (absorb_all n r s T) (firstn r (skipn (n * r) T)).
Proof.
  induction n as [|n IH]; intros s T; [reflexivity|]. change (absorb_all (S (S n)) r s T) with (absorb_all (S n) r (absorb_block s (firstn r T)) (skipn r T)). rewrite IH.
  rewrite skipn_skipn'. reflexivity.
Qed.
Lemma bytes_skip n m : bytes m -> bytes (skipn n m). Proof. intros B. apply Forall_forall. intros x X. apply (proj1 (Forall_forall _ m) B). rewrite <- (firstn_skipn n m). apply in_or_app. right. exact X. Qed.
Lemma bytes_first n m : bytes m -> bytes (firstn n m). Proof. intros B. apply Forall_forall. intros x X. apply (proj1 (Forall_forall _ m) B). rewrite <- (firstn_skipn n m). apply in_or_app. left. exact X. Qed.
Lemma zero25 : st25 (repeat 0 25). Proof. split; [reflexivity|]. apply Forall_forall. intros x X. apply repeat_spec in X. subst. unfold w64. lia. Qed.
Lemma absorb_all_ok n r : forall s T, st25 s -> bytes T -> st25 (absorb_all n r s T).
Proof.
  induction n as [|n IH]; intros s T S B; [exact S|]. cbn [absorb_all]. apply IH; [|apply bytes_skip, B]. apply transform_ok. apply xors_ok; [exact S|apply bytes_first, B].
Qed.

(* the hash object after the bytes T at the rate r *)
Definition fed (r l : nat) (h : SHA3) (T : list Z) : Prop :=
  h = mkK (Z.of_nat (length T)) (Z.of_nat r) l
        (unflat (xors (absorb_all (length T / r) r (repeat 0 25) T) (lanes_of (skipn (length T / r * r) T)))).
Lemma process_ok r l h T b : (0 < r <= 200)%nat -> fed r l h T -> bytes T -> 0 <= b < 256 -> Z.of_nat (S (length T)) <= maxu64 ->
  exists h', k_process h b = Some h' /\ fed r l h' (T ++ [b]).
Proof.
  intros R H BT B LM. unfold fed in H. subst h. unfold k_process, k_cnt. cbn [k_rate k_length k_s k_len].
  rewrite (proj2 (Z.eqb_neq (Z.of_nat r) 0)) by lia. cbn [bind]. rewrite <- Nat2Z.inj_mod.
  set (n := (length T / r)%nat). set (s0 := absorb_all n r (repeat 0 25) T). set (p := skipn (n * r) T).
  pose proof (Nat.div_mod (length T) r ltac:(lia)) as DM. pose proof (Nat.mod_upper_bound (length T) r ltac:(lia)) as MB. fold n in DM.
  assert (LP : length p = (length T mod r)%nat) by (unfold p; rewrite skipn_length; nia). rewrite <- LP. rewrite <- LP in MB.
  assert (BP : bytes p) by (apply bytes_skip, BT). assert (S0 : st25 s0) by (apply absorb_all_ok; [apply zero25|exact BT]).
  assert (I : Z.to_nat (Z.of_nat (length p) / 8) = (length p / 8)%nat) by (change 8 with (Z.of_nat 8); rewrite <- Nat2Z.inj_div; apply Nat2Z.id). rewrite I.
  assert (I25 : (length p / 8 < 25)%nat) by (apply Nat.div_lt_upper_bound; lia).
  assert (J5 : ((length p / 8) / 5 < 5)%nat) by (apply Nat.div_lt_upper_bound; lia). rewrite (proj2 (Nat.ltb_lt _ _) J5).
  assert (X0 : length (xors s0 (lanes_of p)) = 25%nat) by (apply xors_len; [exact (proj1 S0)|apply lanes_len]).
  rewrite xor_at by assumption. assert (B255 : Z.land b 255 = b) by (change 255 with (2 ^ 8 - 1); rewrite land_ones_mod by lia; apply Z.mod_small; lia). rewrite B255.
  rewrite xors_snoc by (try assumption; lia). assert (CK : cku64 (Z.of_nat (length T) + 1) = Some (Z.of_nat (length (T ++ [b])))).
  { unfold cku64. rewrite app_length. cbn [length]. rewrite (proj2 (Z.leb_le 0 _)), (proj2 (Z.leb_le _ maxu64)) by lia. cbn [andb]. f_equal. lia. }
  rewrite CK. cbn [bind]. eexists. split; [reflexivity|]. unfold fed. f_equal.
  assert (L1 : length (T ++ [b]) = S (length T)) by (rewrite app_length; cbn [length]; lia). rewrite L1.
  assert (SP : skipn (n * r) (T ++ [b]) = p ++ [b]) by (rewrite skipn_app; replace (n * r - length T)%nat with 0%nat by nia; reflexivity).
  destruct (Z.eqb_spec (Z.of_nat (length p) + 1) (Z.of_nat r)) as [E|E].
  - assert (DV : (S (length T) / r = S n)%nat) by (symmetry; apply (Nat.div_unique _ r (S n) 0); nia). rewrite DV, absorb_all_S, SP.
    rewrite absorb_all_app by nia. fold s0. rewrite (firstn_all2 (p ++ [b])) by (rewrite app_length; cbn [length]; lia).
    assert (BPB : bytes (p ++ [b])) by (apply Forall_app; split; [exact BP|constructor; [exact B|constructor]]).
    destruct (transform_ok _ (xors_ok s0 (p ++ [b]) S0 BPB)) as [-> K]. rewrite skipn_all2 by (rewrite L1; nia). rewrite lanes_nil; [reflexivity|exact K].
  - assert (DV : (S (length T) / r = n)%nat) by (symmetry; apply (Nat.div_unique _ r n (S (length p))); nia). rewrite DV, SP, absorb_all_app by nia. reflexivity.
Qed.
Lemma process_all r l : forall m h T, (0 < r <= 200)%nat -> fed r l h T -> bytes T -> bytes m -> Z.of_nat (length (T ++ m)) <= maxu64 ->
  exists h', foldM k_process m h = Some h' /\ fed r l h' (T ++ m).
Proof.
  induction m as [|b m IH]; intros h T R H BT BM L; [exists h; rewrite app_nil_r; split; [reflexivity|exact H]|].
  assert (E : T ++ b :: m = (T ++ [b]) ++ m) by (rewrite <- app_assoc; reflexivity). pose proof (Forall_inv BM) as B. rewrite app_length in L. cbn [length] in L.
  destruct (process_ok r l h T b R H BT B ltac:(lia)) as (h1 & P & H1). cbn [foldM]. rewrite P. cbn [bind]. rewrite E. apply IH; [exact R|exact H1| |exact (Forall_inv_tail BM)|].
  - apply Forall_app. split; [exact BT|constructor; [exact B|constructor]].
  - rewrite !app_length. cbn [length]. lia.
Qed.
Lemma new_fed n : (n < 100)%nat -> exists h, k_new n = Some h /\ fed (200 - 2 * n) n h [].
Proof.
  intros N. unfold k_new, k_init. assert (E : cku64 (200 - 2 * Z.of_nat n) = Some (Z.of_nat (200 - 2 * n))).
  { unfold cku64, maxu64. rewrite (proj2 (Z.leb_le 0 _)), (proj2 (Z.leb_le _ 18446744073709551615)) by lia. cbn [andb]. f_equal. lia. }
  rewrite E. cbn [bind]. eexists. split; [reflexivity|]. unfold fed. cbn [length]. rewrite Nat.div_0_l by lia. cbn [absorb_all skipn Nat.mul]. rewrite lanes_nil by apply zero25. reflexivity.
Qed.
