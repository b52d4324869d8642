(* The key schedule of aes.rs. *)
From Coq Require Import Lia.
From Verif Require Import Prim AesTab Aes SpecBytes SpecAes AesW AesP.

(* the schedule the code computes: FIPS 197 without the extra SubWord of 32-byte keys *)
Definition code_next (nk : nat) (w : list (list Z)) : list Z :=
  let i := length w in
  let temp := nth (i - 1) w [] in
  let temp := if (i mod nk =? 0)%nat then bxor (SubWord (RotWord temp)) (Rcon (i / nk)) else temp in
  bxor (nth (i - nk) w []) temp.
Fixpoint code_expand (nk : nat) (count : nat) (w : list (list Z)) : list (list Z) :=
  match count with O => w | S c => code_expand nk c (w ++ [code_next nk w]) end.
Definition code_keys (nk : nat) (key : list Z) : list (list Z) := code_expand nk (4 * (nk + 7) - nk) (words nk key).

Lemma expand_same nk : (nk <= 6)%nat -> forall c w, expand nk c w = code_expand nk c w.
Proof.
  intros H. induction c as [|c IH]; intros w; [reflexivity|]. cbn [expand code_expand]. rewrite IH. do 3 f_equal. unfold next_word, code_next.
  destruct (Nat.ltb_spec 6 nk); [lia|]. cbn [andb]. reflexivity.
Qed.
Lemma code_expand_add nk a : forall b w, code_expand nk (a + b) w = code_expand nk b (code_expand nk a w).
Proof. induction a as [|a IH]; intros b w; [reflexivity|]. cbn [Nat.add code_expand]. apply IH. Qed.
Lemma code_expand_len nk c : forall w, length (code_expand nk c w) = (length w + c)%nat.
Proof. induction c as [|c IH]; intros w; cbn [code_expand]; [lia|]. rewrite IH, app_length. cbn [length]. lia. Qed.

(* words *)
Lemma bxor_word a b : word a -> word b -> word (bxor a b).
Proof. intros A B. word_vars A. word_vars B. fold_bytes. split; [reflexivity|]. cbn [bxor]. repeat first [apply Forall_cons|apply Forall_nil]; apply byte_xor; assumption. Qed.
Lemma pw_xor a b : word a -> word b -> Z.lxor (pw a) (pw b) = pw (bxor a b).
Proof. intros A B. word_vars A. word_vars B. unfold pw. cbn [nth bxor]. apply pk_xor. Qed.
Lemma subrot_word w : word w -> word (SubWord (RotWord w)).
Proof. intros W. word_vars W. fold_bytes. split; [reflexivity|]. unfold SubWord, RotWord. cbn [tl firstn app map]. repeat first [apply Forall_cons|apply Forall_nil]; apply sbox_byte; assumption. Qed.
Lemma pw_subrot w : word w -> subbyte (rotl24 (pw w)) = pw (SubWord (RotWord w)).
Proof. intros W. word_vars W. fold_bytes. unfold pw, SubWord, RotWord. cbn [tl firstn app map nth]. rewrite rotl24_pk. apply subbyte_ok; assumption. Qed.
Lemma rcon_ok k : (k < 16)%nat -> getM RCO k = Some (Rcon_byte k) /\ byte (Rcon_byte k).
Proof. intros H. do 16 (destruct k as [|k]; [split; [vm_compute; reflexivity|vm_compute; split; [discriminate|reflexivity]]|]). lia. Qed.
Lemma rcon_word k : (k < 16)%nat -> word (Rcon (S k)) /\ pw (Rcon (S k)) = Rcon_byte k.
Proof.
  intros H. destruct (rcon_ok k H) as [_ B]. unfold Rcon. replace (S k - 1)%nat with k by lia. split.
  - split; [reflexivity|]. constructor; [exact B|]. repeat constructor; apply byte_0.
  - unfold pw. cbn [nth]. symmetry. apply pk_byte. exact B.
Qed.
Lemma next_is_word nk w : (0 < nk <= length w)%nat -> (length w / nk < 16)%nat -> Forall word w -> word (code_next nk w).
Proof.
  intros N Q F. unfold code_next. apply bxor_word; [apply word_nth; [exact F|lia]|]. pose proof (word_nth w (length w - 1) F ltac:(lia)) as L.
  destruct (length w mod nk =? 0)%nat; [|exact L]. apply bxor_word; [apply subrot_word; exact L|]. pose proof (Nat.div_le_mono nk (length w) nk ltac:(lia) (proj2 N)) as D. rewrite Nat.div_same in D by lia.
  destruct (length w / nk)%nat as [|k]; [lia|]. apply rcon_word. lia.
Qed.

(* the array holds the words w at its start *)
Definition holds (fk : list Z) (w : list (list Z)) : Prop := exists rest, fk = map pw w ++ rest /\ length fk = 60%nat /\ Forall word w.
Lemma holds_get fk w i : holds fk w -> (i < length w)%nat -> getM fk i = Some (pw (nth i w [])).
Proof. intros (rest & -> & _ & _) L. apply get_key. exact L. Qed.
Lemma upd_app {A} (l : list A) r m x : upd (l ++ r :: m) (length l) x = l ++ x :: m.
Proof. induction l as [|a l IH]; [reflexivity|]. cbn [app length upd]. rewrite IH. reflexivity. Qed.
Lemma upd_len {A} (l : list A) x : forall i, length (upd l i x) = length l.
Proof. induction l as [|a l IH]; intros [|i]; try reflexivity. cbn [upd length]. rewrite IH. reflexivity. Qed.
Lemma holds_set fk w x : holds fk w -> (length w < 60)%nat -> word x -> exists fk', setM fk (length w) (pw x) = Some fk' /\ holds fk' (w ++ [x]).
Proof.
  intros (rest & E & L & F) N X. unfold setM. rewrite L. destruct (Nat.ltb_spec (length w) 60); [|lia]. eexists. split; [reflexivity|]. exists (tl rest).
  assert (LR : (length w + length rest = 60)%nat) by (rewrite <- L, E, app_length, map_length; reflexivity). destruct rest as [|r rest]; [cbn [length] in LR; lia|]. rewrite upd_len.
  split; [|split; [exact L|apply Forall_app; split; [exact F|repeat constructor; apply X]]]. rewrite E, map_app, <- app_assoc. cbn [map app tl]. rewrite <- (map_length pw w). apply upd_app.
Qed.

Lemma mod_mul_add nk k i : (i < nk)%nat -> ((S k * nk + i) mod nk = i)%nat /\ ((S k * nk + i) / nk = S k)%nat.
Proof.
  intros H. split.
  - rewrite Nat.add_comm, Nat.mod_add by lia. apply Nat.mod_small. exact H.
  - rewrite Nat.add_comm, Nat.div_add by lia. rewrite Nat.div_small by exact H. reflexivity.
Qed.
Lemma first_ok nk k fk w : (0 < nk)%nat -> holds fk w -> length w = (S k * nk)%nat -> (length w < 60)%nat -> (k < 15)%nat ->
  exists fk', sched_first nk (S k * nk) k fk = Some fk' /\ holds fk' (w ++ [code_next nk w]).
Proof.
  intros N H L L60 K. assert (FW : Forall word w) by (destruct H as (rest & _ & _ & F); exact F). destruct (mod_mul_add nk k 0 N) as [M D]. rewrite Nat.add_0_r in M, D.
  unfold sched_first. rewrite <- L. rewrite (holds_get fk w _ H) by lia. cbn [bind]. rewrite (holds_get fk w _ H) by lia. cbn [bind]. destruct (rcon_ok k ltac:(lia)) as [RG RB]. rewrite RG. cbn [bind].
  destruct (rcon_word k ltac:(lia)) as [RW RE]. pose proof (word_nth w (length w - 1) FW ltac:(lia)) as W1. pose proof (word_nth w (length w - nk) FW ltac:(lia)) as W2.
  rewrite pw_subrot by exact W1. rewrite <- RE. rewrite Z.lxor_assoc, (pw_xor (SubWord _)), pw_xor by (try apply bxor_word; try apply subrot_word; assumption).
  assert (E : bxor (nth (length w - nk) w []) (bxor (SubWord (RotWord (nth (length w - 1) w []))) (Rcon (S k))) = code_next nk w).
  { unfold code_next. rewrite L, M, D. reflexivity. }
  rewrite E. apply holds_set; [exact H|exact L60|]. apply next_is_word; [lia|rewrite L, D; lia|exact FW].
Qed.
Lemma next_ok nk n k i fk w : (0 < i < nk)%nat -> (n <= 60)%nat -> holds fk w -> length w = Nat.min n (i + S k * nk) -> (k < 15)%nat -> (S k * nk < n)%nat ->
  exists fk', sched_next nk n (S k * nk) fk i = Some fk' /\ holds fk' (code_expand nk (Nat.min n (S i + S k * nk) - length w) w).
Proof.
  intros I N H L K LT. assert (FW : Forall word w) by (destruct H as (rest & _ & _ & F); exact F). unfold sched_next. destruct (Nat.leb_spec n (i + S k * nk)) as [C|C].
  - exists fk. split; [reflexivity|]. replace (Nat.min n (S i + S k * nk) - length w)%nat with 0%nat by lia. exact H.
  - assert (LW : length w = (i + S k * nk)%nat) by lia. rewrite <- LW. rewrite !(holds_get fk w _ H) by lia. cbn [bind].
    rewrite pw_xor by (apply word_nth; (assumption || lia)). replace (Nat.min n (S i + S k * nk) - length w)%nat with 1%nat by lia. cbn [code_expand].
    destruct (mod_mul_add nk k i (proj2 I)) as [M D]. rewrite Nat.add_comm in M, D.
    assert (E : bxor (nth (length w - nk) w []) (nth (length w - 1) w []) = code_next nk w).
    { unfold code_next. cbv zeta. assert (MM : (length w mod nk = i)%nat) by (rewrite LW; exact M). rewrite MM. destruct (Nat.eqb_spec i 0); [lia|]. reflexivity. }
    rewrite E. apply holds_set; [exact H|lia|]. apply next_is_word; [lia|rewrite LW, D; lia|exact FW].
Qed.
Lemma inner_ok nk n k : (n <= 60)%nat -> (k < 15)%nat -> (S k * nk < n)%nat -> forall c i fk w, (0 < i)%nat -> (i + c <= nk)%nat -> holds fk w -> length w = Nat.min n (i + S k * nk) ->
  exists fk', foldM (sched_next nk n (S k * nk)) (seq i c) fk = Some fk' /\ holds fk' (code_expand nk (Nat.min n (i + c + S k * nk) - length w) w).
Proof.
  intros N K LT. induction c as [|c IH]; intros i fk w I IC H L.
  - exists fk. split; [reflexivity|]. replace (Nat.min n (i + 0 + S k * nk) - length w)%nat with 0%nat by lia. exact H.
  - destruct (next_ok nk n k i fk w ltac:(lia) N H L K LT) as (fk1 & E1 & H1). cbn [seq foldM]. rewrite E1. cbn [bind].
    destruct (IH (S i) fk1 _ ltac:(lia) ltac:(lia) H1) as (fk2 & E2 & H2); [rewrite code_expand_len; lia|]. exists fk2. split; [exact E2|].
    rewrite code_expand_len, <- code_expand_add in H2. match goal with H : holds _ (code_expand _ ?x _) |- holds _ (code_expand _ ?y _) => replace y with x by lia; exact H end.
Qed.
Lemma sched_ok nk n : (0 < nk)%nat -> (n <= 60)%nat -> (n <= 16 * nk)%nat -> forall fuel k fk w, (n <= (fuel + S k) * nk)%nat -> holds fk w -> length w = Nat.min n (S k * nk) ->
  exists fk', sched fuel nk n (S k * nk) k fk = Some fk' /\ holds fk' (code_expand nk (n - length w) w).
Proof.
  intros NK N N16. induction fuel as [|fuel IH]; intros k fk w FU H L.
  - cbn [sched]. cbn [Nat.add] in FU. destruct (Nat.ltb_spec (S k * nk) n); [lia|]. exists fk. split; [reflexivity|]. replace (n - length w)%nat with 0%nat by lia. exact H.
  - cbn [sched]. destruct (Nat.ltb_spec (S k * nk) n) as [C|C].
    + assert (K : (k < 15)%nat). { destruct (le_lt_dec 15 k) as [K|K]; [|exact K]. assert (16 * nk <= S k * nk)%nat by (apply Nat.mul_le_mono_r; lia). lia. }
      destruct (first_ok nk k fk w NK H ltac:(lia) ltac:(lia) K) as (fk1 & E1 & H1). rewrite E1. cbn [bind].
      destruct (inner_ok nk n k N K C (nk - 1) 1 fk1 (w ++ [code_next nk w]) ltac:(lia) ltac:(lia) H1) as (fk2 & E2 & H2); [rewrite app_length; cbn [length]; lia|]. rewrite E2. cbn [bind].
      replace (S k * nk + nk)%nat with (S (S k) * nk)%nat by lia.
      assert (LW : length (w ++ [code_next nk w]) = S (length w)) by (rewrite app_length; cbn [length]; lia).
      destruct (IH (S k) fk2 _ ltac:(lia) H2) as (fk3 & E3 & H3); [rewrite code_expand_len; lia|]. exists fk3. split; [exact E3|].
      rewrite code_expand_len, <- code_expand_add in H3. change (code_expand nk ?m (w ++ [code_next nk w])) with (code_expand nk (S m) w) in H3.
      match goal with H : holds _ (code_expand _ ?x _) |- holds _ (code_expand _ ?y _) => replace y with x by lia; exact H end.
    + exists fk. split; [reflexivity|]. replace (n - length w)%nat with 0%nat by lia. exact H.
Qed.

(* the cipher key *)
Lemma words_len n : forall key, length (words n key) = n.
Proof. induction n as [|n IH]; intros key; [reflexivity|]. cbn [words length]. rewrite IH. reflexivity. Qed.
Lemma bytes_cut n l : bytes l -> bytes (firstn n l) /\ bytes (skipn n l).
Proof. intros B. rewrite <- (firstn_skipn n l) in B. apply Forall_app in B. exact B. Qed.
Lemma words_word n : forall key, bytes key -> (4 * n <= length key)%nat -> Forall word (words n key).
Proof.
  induction n as [|n IH]; intros key B L; [constructor|]. destruct (bytes_cut 4 key B) as [B1 B2]. cbn [words]. constructor.
  - split; [apply firstn_length_le; lia|exact B1].
  - apply IH; [exact B2|rewrite skipn_length; lia].
Qed.
Lemma nth_error_skip {A} (l : list A) n i : nth_error (skipn n l) i = nth_error l (n + i).
Proof. revert l. induction n as [|n IH]; intros l; [reflexivity|]. destruct l as [|x l]; [destruct i; reflexivity|]. apply IH. Qed.
Lemma key_word_skip key n i : key_word (skipn (4 * n) key) i = key_word key (n + i).
Proof. unfold key_word, getM. rewrite !nth_error_skip. replace (4 * (n + i))%nat with (4 * n + 4 * i)%nat by lia. rewrite !Nat.add_assoc. reflexivity. Qed.
Lemma mapM_ext {A B} (f g : A -> option B) l : (forall x, In x l -> f x = g x) -> mapM f l = mapM g l.
Proof. induction l as [|x l IH]; intros H; [reflexivity|]. cbn [mapM]. rewrite (H x) by (left; reflexivity). rewrite IH by (intros y Y; apply H; right; exact Y). reflexivity. Qed.
Lemma mapM_map {A B C} (f : B -> option C) (g : A -> B) l : mapM f (map g l) = mapM (fun x => f (g x)) l.
Proof. induction l as [|x l IH]; [reflexivity|]. cbn [map mapM]. rewrite IH. reflexivity. Qed.
Lemma key_words n : forall key, (4 * n <= length key)%nat -> mapM (key_word key) (seq 0 n) = Some (map pw (words n key)).
Proof.
  induction n as [|n IH]; intros key L; [reflexivity|]. change (seq 0 (S n)) with (0%nat :: seq 1 n). cbn [mapM words map]. rewrite <- seq_shift, mapM_map.
  rewrite (mapM_ext _ (key_word (skipn 4 key))) by (intros i _; change (skipn 4 key) with (skipn (4 * 1) key); rewrite key_word_skip; reflexivity).
  rewrite IH by (rewrite skipn_length; lia). do 4 (destruct key as [|? key]; [cbn [length] in L; lia|]). reflexivity.
Qed.
Lemma copy_key (ck : list Z) : forall c i (pre rest : list Z), length pre = i -> (i + c = length ck)%nat -> pre = firstn i ck -> (c <= length rest)%nat ->
  foldM (fun fk j => x <- getM ck j ;; setM fk j x) (seq i c) (pre ++ rest) = Some (ck ++ skipn c rest).
Proof.
  induction c as [|c IH]; intros i pre rest L C P R.
  - cbn [seq foldM skipn]. rewrite P, firstn_all2 by lia. reflexivity.
  - cbn [seq foldM]. destruct (nth_error ck i) as [x|] eqn:E; [|apply nth_error_None in E; lia]. unfold getM at 1. rewrite E. cbn [bind]. destruct rest as [|r rest]; [cbn [length] in R; lia|].
    unfold setM at 1. rewrite app_length. cbn [length]. destruct (Nat.ltb_spec i (length pre + S (length rest))); [|lia]. cbn [bind]. assert (UE : upd (pre ++ r :: rest) i x = pre ++ x :: rest) by (rewrite <- L; apply upd_app). rewrite UE.
    change (pre ++ x :: rest) with (pre ++ [x] ++ rest). rewrite app_assoc. cbn [skipn]. apply IH; [rewrite app_length; cbn [length]; lia|lia| |cbn [length] in R; lia].
    rewrite P. clear - E. revert i E. induction ck as [|y ck IHc]; intros [|i] E; cbn [nth_error] in E; try discriminate E; [inversion E; reflexivity|].
    change (y :: (firstn i ck ++ [x]) = y :: firstn (S i) ck). f_equal. apply IHc. exact E.
Qed.

(* the decryption key *)
Lemma get_upd {A} (l : list A) x : forall i j, (i < length l)%nat -> getM (upd l i x) j = if (j =? i)%nat then Some x else getM l j.
Proof.
  unfold getM. induction l as [|a l IH]; intros i j L; cbn [length] in L; [lia|]. destruct i as [|i], j as [|j]; try reflexivity. cbn [upd nth_error]. rewrite IH by lia. reflexivity.
Qed.
Lemma copy4_ok g fk w s d rk : holds fk w -> (s + 4 <= length w)%nat -> (d + 4 <= length rk)%nat ->
  exists rk', copy4 g fk s d rk = Some rk' /\ length rk' = length rk /\ (forall j, (j < 4)%nat -> getM rk' (d + j) = Some (g (pw (nth (s + j) w [])))) /\
    (forall i, (i < d \/ d + 4 <= i)%nat -> getM rk' i = getM rk i).
Proof.
  intros H S D. unfold copy4. cbn [seq foldM]. rewrite !(holds_get fk w _ H) by lia. cbn [bind].
  unfold setM at 1. destruct (Nat.ltb_spec (d + 0) (length rk)); [|lia]. cbn [bind].
  unfold setM at 1. rewrite upd_len. destruct (Nat.ltb_spec (d + 1) (length rk)); [|lia]. cbn [bind].
  unfold setM at 1. rewrite !upd_len. destruct (Nat.ltb_spec (d + 2) (length rk)); [|lia]. cbn [bind].
  unfold setM at 1. rewrite !upd_len. destruct (Nat.ltb_spec (d + 3) (length rk)); [|lia]. cbn [bind].
  eexists. split; [reflexivity|]. split; [rewrite !upd_len; reflexivity|]. split.
  - intros j J. rewrite !get_upd by (rewrite ?upd_len; lia). do 4 (destruct j as [|j]; [repeat match goal with |- context [(?a =? ?b)%nat] => destruct (Nat.eqb_spec a b); [try reflexivity; lia|try lia] end; try reflexivity|]). lia.
  - intros i I. rewrite !get_upd by (rewrite ?upd_len; lia). repeat match goal with |- context [(?a =? ?b)%nat] => destruct (Nat.eqb_spec a b); [lia|] end. reflexivity.
Qed.
Lemma has_key_same key key' k g : (forall j, (j < 4)%nat -> getM key' (k + j) = getM key (k + j)) -> has_key key k g -> has_key key' k g.
Proof.
  intros E (w0 & w1 & w2 & w3 & G & W0 & W1 & W2 & W3 & E0 & E1 & E2 & E3). exists w0, w1, w2, w3. pose proof (E 0%nat ltac:(lia)) as P0. rewrite Nat.add_0_r in P0.
  rewrite P0, (E 1%nat), (E 2%nat), (E 3%nat) by lia. tauto.
Qed.
Lemma copied_key g f w r d rk : Forall word w -> (4 * r + 4 <= length w)%nat -> (forall j, (j < 4)%nat -> getM rk (d + j) = Some (g (pw (nth (4 * r + j) w [])))) ->
  (forall x, word x -> word (f x) /\ g (pw x) = pw (f x)) -> has_key rk d (map f (grp w r)).
Proof.
  intros F L E G. rewrite grp_eq by exact L. cbn [map]. do 4 eexists. split; [reflexivity|].
  pose proof (E 0%nat ltac:(lia)) as E0. pose proof (E 1%nat ltac:(lia)) as E1. pose proof (E 2%nat ltac:(lia)) as E2. pose proof (E 3%nat ltac:(lia)) as E3. rewrite !Nat.add_0_r in E0.
  destruct (G _ (word_nth w (4 * r) F ltac:(lia))) as [G0 H0]. destruct (G _ (word_nth w (4 * r + 1) F ltac:(lia))) as [G1 H1].
  destruct (G _ (word_nth w (4 * r + 2) F ltac:(lia))) as [G2 H2]. destruct (G _ (word_nth w (4 * r + 3) F ltac:(lia))) as [G3 H3].
  rewrite E0, E1, E2, E3, H0, H1, H2, H3. tauto.
Qed.
Lemma dec_key_ok nr fk w rk : holds fk w -> (2 <= nr)%nat -> length w = (4 * (nr + 1))%nat -> (length w <= 60)%nat -> length rk = 60%nat ->
  exists rk', dec_key (4 * (nr + 1)) fk rk = Some rk' /\ length rk' = 60%nat /\ is_rkey nr w rk'.
Proof.
  intros H NR L L60 RK. assert (FW : Forall word w) by (destruct H as (rest & _ & _ & F); exact F). unfold dec_key.
  destruct (copy4_ok (fun x => x) fk w 0 (4 * (nr + 1) - 4) rk H ltac:(lia) ltac:(lia)) as (rk1 & E1 & L1 & G1 & _). rewrite E1. cbn [bind].
  assert (K1 : has_key rk1 (4 * nr) (grp w 0)).
  { rewrite <- (map_id (grp w 0)). apply (copied_key (fun x => x)); [exact FW|lia| |intros x X; split; [exact X|reflexivity]]. replace (4 * nr)%nat with (4 * (nr + 1) - 4)%nat by lia. exact G1. }
  replace (4 * (nr + 1) / 4)%nat with (nr + 1)%nat by (rewrite Nat.mul_comm, Nat.div_mul; lia).
  assert (LOOP : forall m, (m <= nr - 1)%nat -> exists rk2, foldM (fun rk i => copy4 invmixcol fk (4 * i) (4 * (nr + 1) - 4 - 4 * i) rk) (seq 1 m) rk1 = Some rk2 /\ length rk2 = 60%nat /\
     has_key rk2 (4 * nr) (grp w 0) /\ forall r, (nr - m <= r < nr)%nat -> has_key rk2 (4 * r) (map imcw (grp w (nr - r)))).
  { induction m as [|m IH]; intros M; [exists rk1; split; [reflexivity|]; split; [lia|]; split; [exact K1|intros r R; lia]|].
    destruct (IH ltac:(lia)) as (rk2 & E2 & L2 & K2 & R2). rewrite (foldM_seq_S _ m _ _ E2).
    destruct (copy4_ok invmixcol fk w (4 * (1 + m)) (4 * (nr + 1) - 4 - 4 * (1 + m)) rk2 H ltac:(lia) ltac:(lia)) as (rk3 & E3 & L3 & G3 & O3). exists rk3. split; [exact E3|]. split; [lia|]. split.
    - apply (has_key_same rk2); [|exact K2]. intros j J. apply O3. lia.
    - intros r R. destruct (Nat.eq_dec r (nr - (1 + m))) as [ER|ER].
      + replace (nr - r)%nat with (1 + m)%nat by lia. apply (copied_key invmixcol); [exact FW|lia| |intros x X; split; [apply imcw_word; exact X|apply imcw_ok; exact X]].
        replace (4 * r)%nat with (4 * (nr + 1) - 4 - 4 * (1 + m))%nat by lia. exact G3.
      + apply (has_key_same rk2); [|apply R2; lia]. intros j J. apply O3. lia. }
  destruct (LOOP (nr + 1 - 2)%nat ltac:(lia)) as (rk2 & E2 & L2 & K2 & R2). rewrite E2. cbn [bind].
  destruct (copy4_ok (fun x => x) fk w (4 * (nr + 1) - 4) 0 rk2 H ltac:(lia) ltac:(lia)) as (rk3 & E3 & L3 & G3 & O3). exists rk3. split; [exact E3|]. split; [lia|]. split; [|split].
  - rewrite <- (map_id (grp w nr)). apply (copied_key (fun x => x)); [exact FW|lia| |intros x X; split; [exact X|reflexivity]]. replace (4 * nr)%nat with (4 * (nr + 1) - 4)%nat by lia. exact G3.
  - apply (has_key_same rk2); [|exact K2]. intros j J. apply O3. lia.
  - intros r R. apply (has_key_same rk2); [|apply R2; lia]. intros j J. apply O3. lia.
Qed.

(* init *)
Definition key_len (nk : nat) : Prop := nk = 4%nat \/ nk = 6%nat \/ nk = 8%nat.
Definition sized (a : AES) : Prop := length (a_fkey a) = 60%nat /\ length (a_rkey a) = 60%nat.
(* the cipher a holds the round keys w *)
Definition keyed (a : AES) (w : list (list Z)) : Prop :=
  (exists rest, a_fkey a = map pw w ++ rest) /\ is_rkey (a_nr a) w (a_rkey a) /\ Forall word w /\ (2 <= a_nr a)%nat /\ length w = (4 * (a_nr a + 1))%nat /\ sized a.
Lemma init_ok a m nkey key iv : key_len (nkey / 4) -> (4 * (nkey / 4) <= length key)%nat -> bytes key -> sized a ->
  exists a', aes_init a m nkey key iv = Some (true, a') /\ keyed a' (code_keys (nkey / 4) key) /\ a_nr a' = (nkey / 4 + 6)%nat /\ a_mode a' = m /\
    a_f a' = (if (m =? M_ECB)%nat then repeat 0 16 else match iv with Some x => x | None => repeat 0 16 end).
Proof.
  intros K L B [S1 S2]. unfold aes_init. set (nk := (nkey / 4)%nat) in *. assert (C : negb (nk =? 4)%nat && negb (nk =? 6)%nat && negb (nk =? 8)%nat = false) by (destruct K as [ ->|[ ->| ->]]; reflexivity).
  rewrite C. assert (KN : (4 <= nk <= 8)%nat) by (destruct K as [ ->|[ ->| ->]]; lia). clear C K. rewrite (key_words nk key L). cbn [bind aes_reset a_fkey a_rkey a_mode a_f].
  pose proof (words_word nk key B L) as FW. pose proof (words_len nk key) as LW. set (ws := words nk key) in *.
  pose proof (copy_key (map pw ws) nk 0 [] (a_fkey a) eq_refl ltac:(rewrite map_length; exact (eq_sym LW)) eq_refl ltac:(lia)) as CK. cbn [app] in CK. rewrite CK. cbn [bind]. clear CK.
  assert (H0 : holds (map pw ws ++ skipn nk (a_fkey a)) ws) by (eexists; split; [reflexivity|]; split; [rewrite app_length, map_length, skipn_length, LW; lia|exact FW]).
  set (n := (4 * (6 + nk + 1))%nat). destruct (sched_ok nk n ltac:(lia) ltac:(unfold n; lia) ltac:(unfold n; lia) n 0%nat (map pw ws ++ skipn nk (a_fkey a)) ws) as (fk & E & H); [|exact H0|unfold n; lia|].
  { assert (n <= n * nk)%nat by (rewrite <- (Nat.mul_1_r n) at 1; apply Nat.mul_le_mono_l; lia). lia. }
  rewrite Nat.mul_1_l in E. rewrite E. cbn [bind]. assert (EW : code_expand nk (n - length ws) ws = code_keys nk key) by (unfold code_keys; fold ws; rewrite LW; f_equal; unfold n; lia). rewrite EW in H.
  assert (LK : length (code_keys nk key) = n) by (rewrite <- EW, code_expand_len; unfold n; lia).
  destruct (dec_key_ok (6 + nk) fk _ (a_rkey a) H ltac:(lia) LK ltac:(rewrite LK; unfold n; lia) S2) as (rk & ER & LR & HR). change (4 * (6 + nk + 1))%nat with n in ER. rewrite ER. cbn [bind].
  eexists. split; [reflexivity|]. destruct H as (rest & EF & LF & FF). split; [|cbn [a_nr a_mode a_f]; split; [lia|split; reflexivity]].
  unfold keyed, sized. cbn [a_fkey a_rkey a_nr]. split; [exists rest; exact EF|]. split; [exact HR|]. split; [exact FF|]. split; [lia|]. split; [exact LK|]. split; assumption.
Qed.
Lemma init_bad a m nkey key iv : ~ key_len (nkey / 4) -> aes_init a m nkey key iv = Some (false, a).
Proof.
  intros K. unfold aes_init. unfold key_len in K. destruct (Nat.eqb_spec (nkey / 4) 4); [tauto|]. destruct (Nat.eqb_spec (nkey / 4) 6); [tauto|]. destruct (Nat.eqb_spec (nkey / 4) 8); [tauto|]. reflexivity.
Qed.
Lemma code_keys_128 key : length key = 16%nat \/ length key = 24%nat -> code_keys (length key / 4) key = KeyExpansion key.
Proof. intros L. unfold code_keys, KeyExpansion. symmetry. apply expand_same. destruct L as [ ->| ->]; cbn; lia. Qed.
