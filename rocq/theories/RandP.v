(* rand.rs is the subtract-with-borrow generator with SHA-256 output; random secret keys. *)
From Coq Require Import ZArith NArith Nnat Znumtheory List Lia Bool.
From Verif Require Import Prim PrimP Rom Big BigP BigP2 BigP3 BigL SpecBytes SpecSha SpecRand SpecCurve Hash256 HashP Rand NumT FieldQ FieldQ2 FpP FpP2 CurveP EcpP GenP Utils Api Denote SkP KeysP KeysP2.
Import ListNotations.
Open Scope Z_scope.

(* ------------------------- lists --------------------------------------- *)
Lemma getM_nth (l : list Z) i : (i < length l)%nat -> getM l i = Some (nth i l 0).
Proof. intros H. unfold getM. apply nth_error_nth'. exact H. Qed.
Lemma setM_upd {A} (l : list A) i x : (i < length l)%nat -> setM l i x = Some (upd l i x).
Proof. intros H. unfold setM. destruct (Nat.ltb_spec i (length l)); [reflexivity|lia]. Qed.
Lemma upd_mid {A} (a b : list A) x y : upd (a ++ x :: b) (length a) y = a ++ y :: b.
Proof. induction a as [|z a IH]; [reflexivity|]. cbn [app length upd]. rewrite IH. reflexivity. Qed.

Lemma nth_map_seq (f : nat -> Z) n j d : (j < n)%nat -> nth j (map f (seq 0 n)) d = f j.
Proof. intros J. rewrite (nth_indep _ d (f 0%nat)) by (rewrite map_length, seq_length; exact J). rewrite map_nth, seq_nth by exact J. reflexivity. Qed.
Lemma firstn_S_nth (l : list Z) n d : (n < length l)%nat -> firstn (S n) l = firstn n l ++ [nth n l d].
Proof. revert l. induction n as [|n IH]; intros [|x l] H; cbn [length] in H; try lia; [reflexivity|]. change (x :: firstn (S n) l = x :: (firstn n l ++ [nth n l d])). rewrite (IH l) by lia. reflexivity. Qed.

(* ------------------------- one round of 21 words ----------------------- *)
Definition bit01 (b : Z) : Prop := b = 0 \/ b = 1.
Definition okwin (st : window) : Prop := length (fst st) = 21%nat /\ Forall word (fst st) /\ bit01 (snd st).
Lemma borrow_eq t x b : word t -> word x -> bit01 b ->
  let pdiff := wsub (wsub t x) b in
  pdiff = (t - x - b) mod 2 ^ 32 /\
  (let b1 := if pdiff <? t then 0 else b in if t <? pdiff then 1 else b1) = (if t - x - b <? 0 then 1 else 0).
Proof.
  intros [T0 T1] [X0 X1] B. cbv zeta. unfold wsub. rewrite !land32.
  assert (E : ((t - x) mod 2 ^ 32 - b) mod 2 ^ 32 = (t - x - b) mod 2 ^ 32) by apply Zminus_mod_idemp_l. rewrite E. split; [reflexivity|].
  set (z := t - x - b). assert (ZB : - 2 ^ 32 <= z < 2 ^ 32) by (unfold z; destruct B; lia).
  destruct (Z.ltb_spec z 0) as [N|N].
  - assert (M : z mod 2 ^ 32 = z + 2 ^ 32).
    { symmetry. apply (Z.mod_unique _ _ (-1)); [left; lia|lia]. }
    rewrite M. destruct (Z.ltb_spec t (z + 2 ^ 32)); [reflexivity|]. destruct (Z.ltb_spec (z + 2 ^ 32) t); unfold z in *; destruct B; lia.
  - rewrite Z.mod_small by lia. destruct (Z.ltb_spec t z); [unfold z in *; destruct B; lia|]. destruct (Z.ltb_spec z t); [reflexivity|].
    unfold z in *; destruct B; lia.
Qed.
Lemma swb_ok st : okwin st -> okwin (swb st).
Proof.
  destruct st as [w b]. intros (L & W & B). cbn [fst snd] in *. unfold swb, okwin. cbn [fst snd].
  destruct w as [|x w]; [discriminate L|]. cbn [tl]. apply Forall_inv_tail in W as W'. split; [rewrite app_length; cbn [length] in *; lia|]. split.
  - apply Forall_app. split; [exact W'|]. constructor; [|constructor]. unfold word. apply Z.mod_pos_bound. lia.
  - unfold bit01. destruct (_ <? 0); auto.
Qed.
Lemma iter_swb_ok n st : okwin st -> okwin (Nat.iter n swb st).
Proof. intros H. induction n as [|n IH]; [exact H|]. change (okwin (swb (Nat.iter n swb st))). apply swb_ok, IH. Qed.
Lemma iter_plus {A} (f : A -> A) a b x : Nat.iter (a + b) f x = Nat.iter a f (Nat.iter b f x).
Proof. induction a as [|a IH]; [reflexivity|]. cbn [Nat.add]. change (f (Nat.iter (a + b) f x) = f (Nat.iter a f (Nat.iter b f x))). rewrite IH. reflexivity. Qed.
Lemma word_nth0 l i : Forall word l -> word (nth i l 0).
Proof. intros H. destruct (Nat.lt_ge_cases i (length l)); [apply Forall_nth; auto|]. rewrite nth_overflow by lia. unfold word. lia. Qed.

(* after i steps the array is the new words followed by the old, the window the old followed by the new *)
Definition mid (i : nat) (st : list Z * Z * nat) (wd : window) : Prop :=
  exists u v, fst (fst st) = v ++ u /\ fst wd = u ++ v /\ length v = i /\ snd (fst st) = snd wd /\
    snd st = (if i <=? 6 then i + 15 else i - 6)%nat.
Lemma sb_step_ok i st wd : (i < 21)%nat -> okwin wd -> mid i st wd -> exists st', sb_step st i = Some st' /\ mid (S i) st' (swb wd).
Proof.
  intros I (L & W & B) (u & v & EA & EW & LV & EB & EK). destruct st as [[arr bo] k]. destruct wd as [w b]. cbn [fst snd] in *. subst arr w bo k.
  rewrite app_length in L. destruct u as [|x u]; [cbn [length] in L; lia|]. cbn [length] in L.
  unfold sb_step. set (k := if (_ =? 21)%nat then 0%nat else _).
  assert (K : k = if (i <=? 5)%nat then (i + 15)%nat else (i - 6)%nat).
  { unfold k. destruct (Nat.leb_spec i 6), (Nat.leb_spec i 5); destruct (Nat.eqb_spec (i + 15) 21); destruct (Nat.eqb_spec (i - 6) 21); lia. }
  assert (KB : (k < 21)%nat) by (rewrite K; destruct (Nat.leb_spec i 5); lia).
  assert (LA : length (v ++ x :: u) = 21%nat) by (rewrite app_length; cbn [length]; lia).
  assert (T : nth k (v ++ x :: u) 0 = nth 15 ((x :: u) ++ v) 0).
  { rewrite K. destruct (Nat.leb_spec i 5).
    - rewrite (app_nth2 v) by lia. rewrite (app_nth1 (x :: u)) by (cbn [length]; lia). f_equal. lia.
    - rewrite (app_nth1 v) by lia. rewrite (app_nth2 (x :: u)) by (cbn [length]; lia). f_equal. cbn [length]. lia. }
  rewrite getM_nth by lia. cbn [bind]. rewrite T. rewrite getM_nth by lia. cbn [bind].
  assert (X : nth i (v ++ x :: u) 0 = x). { rewrite app_nth2 by lia. replace (i - length v)%nat with 0%nat by lia. reflexivity. }
  rewrite X, setM_upd by lia. cbn [bind].
  set (t := nth 15 ((x :: u) ++ v) 0) in *.
  destruct (borrow_eq t x b) as [P1 P2]; [apply word_nth0; exact W|apply Forall_app in W; destruct W as [W _]; exact (Forall_inv W)|exact B|].
  cbv zeta in P1, P2. rewrite P2, P1. eexists. split; [reflexivity|]. exists u, (v ++ [(t - x - b) mod 2 ^ 32]). cbn [fst snd swb].
  split; [rewrite <- LV, upd_mid, <- app_assoc; reflexivity|]. split; [cbn [app tl]; rewrite app_assoc; reflexivity|].
  split; [rewrite app_length; cbn [length]; lia|]. split; [reflexivity|]. rewrite K. destruct (Nat.leb_spec i 5), (Nat.leb_spec (S i) 6); lia.
Qed.
Lemma sb_round st wd : okwin wd -> forall n i, (i + n = 21)%nat -> mid i st (Nat.iter i swb wd) ->
  exists st', foldM sb_step (seq i n) st = Some st' /\ mid 21 st' (Nat.iter 21 swb wd).
Proof.
  intros OW n. revert st. induction n as [|n IH]; intros st i E M.
  - assert (i = 21%nat) by lia. subst i. exists st. split; [reflexivity|exact M].
  - cbn [seq foldM]. destruct (sb_step_ok i st (Nat.iter i swb wd) ltac:(lia) (iter_swb_ok i wd OW) M) as (s1 & E1 & M1). rewrite E1. cbn [bind].
    apply (IH s1 (S i)); [lia|exact M1].
Qed.
Lemma sb_all ira b : okwin (ira, b) ->
  exists k, foldM sb_step (seq 0 21) (ira, b, 15%nat) = Some (fst (Nat.iter 21 swb (ira, b)), snd (Nat.iter 21 swb (ira, b)), k).
Proof.
  intros OW. destruct (sb_round (ira, b, 15%nat) (ira, b) OW 21 0 eq_refl) as (st' & E & M).
  { exists ira, []. cbn [fst snd app]. rewrite app_nil_r. repeat split. }
  destruct M as (u & v & EA & EW & LV & EB & EK). pose proof (iter_swb_ok 21 _ OW) as (L & _ & _). rewrite EW, app_length in L.
  assert (U : u = []) by (destruct u; [reflexivity|cbn [length] in L; lia]). subst u. rewrite app_nil_r in EA. cbn [app] in EW.
  destruct st' as [[arr bo] k]. cbn [fst snd] in *. exists k. rewrite E. rewrite EA, EB, EW. reflexivity.
Qed.

(* ------------------------- the generator ------------------------------- *)
Definition win (r : RAND) : window := (ira r, borrow r).
Definition rinv (r : RAND) : Prop := okwin (win r) /\ (rndptr r < 21)%nat.
(* the words still to come *)
Definition strm (r : RAND) (j : nat) : Z := swb_word (win r) (rndptr r + 1 + j).
Lemma hd_nth l : hd 0 l = nth 0 l 0. Proof. destruct l; reflexivity. Qed.
Lemma tl_nth (l : list Z) i : nth i (tl l) 0 = nth (S i) l 0. Proof. destruct l; [destruct i; reflexivity|reflexivity]. Qed.
(* the first 21 words are the window itself *)
Lemma iter_nth st : okwin st -> forall k i, (i + k < 21)%nat -> nth i (fst (Nat.iter k swb st)) 0 = nth (i + k) (fst st) 0.
Proof.
  intros OK. induction k as [|k IH]; intros i I; [rewrite Nat.add_0_r; reflexivity|].
  change (Nat.iter (S k) swb st) with (swb (Nat.iter k swb st)). pose proof (iter_swb_ok k st OK) as (L & _ & _).
  specialize (IH (S i) ltac:(lia)). destruct (Nat.iter k swb st) as [w b]. cbn [swb fst] in *.
  rewrite app_nth1 by (destruct w; cbn [tl length] in *; lia). rewrite tl_nth, IH. f_equal. lia.
Qed.
Lemma word_win st k : okwin st -> (k < 21)%nat -> swb_word st k = nth k (fst st) 0.
Proof. intros OK K. unfold swb_word. rewrite hd_nth, (iter_nth st OK k 0) by lia. reflexivity. Qed.
Lemma word_shift st a k : swb_word (Nat.iter a swb st) k = swb_word st (k + a).
Proof. unfold swb_word. rewrite iter_plus. reflexivity. Qed.
Lemma sbrand_full r : rinv r -> exists r', sbrand r = Some (strm r 0, r') /\ rinv r' /\ (forall j, strm r' j = strm r (S j)) /\
  win r' = Nat.iter (if (rndptr r =? 20)%nat then 21 else 0) swb (win r) /\ rndptr r' = (if (rndptr r =? 20) then 0 else S (rndptr r))%nat /\
  pool_ptr r' = pool_ptr r /\ pool r' = pool r.
Proof.
  intros ((L & W & B) & P). pose proof (conj L (conj W B) : okwin (win r)) as OK. unfold sbrand.
  destruct (Nat.ltb_spec (S (rndptr r)) 21) as [H|H].
  - unfold win in L. cbn [fst] in L. rewrite getM_nth by lia. cbn [bind]. eexists. split.
    { f_equal. f_equal. unfold strm. rewrite word_win by (try exact OK; lia). cbn [win fst]. f_equal. lia. }
    destruct (Nat.eqb_spec (rndptr r) 20); [lia|]. cbn [rndptr pool_ptr pool].
    split; [split; [exact OK|exact H]|]. split; [|auto 6]. intros j. unfold strm. cbn [rndptr]. f_equal. lia.
  - assert (E : rndptr r = 20%nat) by lia. rewrite E. cbn [Nat.eqb]. destruct (sb_all (ira r) (borrow r) OK) as (k & F). rewrite F. cbn [bind].
    pose proof (iter_swb_ok 21 _ OK) as OK'. fold (win r) in *. destruct (Nat.iter 21 swb (win r)) as [w b] eqn:IT. cbn [fst snd] in *.
    pose proof OK' as (L' & _ & _). cbn [fst] in L'. rewrite getM_nth by lia. cbn [bind]. eexists. split.
    { f_equal. f_equal. unfold strm. rewrite E. change (20 + 1 + 0)%nat with (0 + 21)%nat. rewrite <- word_shift, IT. rewrite word_win by (try exact OK'; lia). reflexivity. }
    cbn [rndptr pool_ptr pool]. split; [split; [exact OK'|cbn [rndptr]; lia]|]. split; [|auto 6].
    intros j. unfold strm. cbn [rndptr]. rewrite E. unfold win at 1. cbn [ira borrow]. rewrite <- IT, word_shift. f_equal. lia.
Qed.
Lemma sbrand_ok r : rinv r -> exists r', sbrand r = Some (strm r 0, r') /\ rinv r' /\ (forall j, strm r' j = strm r (S j)) /\
  pool_ptr r' = pool_ptr r /\ pool r' = pool r.
Proof. intros I. destruct (sbrand_full r I) as (r' & A & B & C & _ & _ & D). eauto. Qed.
Lemma swb_word_word st k : okwin st -> word (swb_word st k).
Proof. intros OK. unfold swb_word. rewrite hd_nth. apply word_nth0, (iter_swb_ok k st OK). Qed.

(* ------------------------- the pool ------------------------------------ *)
Lemma land255 z : Z.land z 255 = z mod 256. Proof. change 255 with (2 ^ 8 - 1). apply land_ones_mod. lia. Qed.
Lemma fill_ok : forall n i r m sh, rinv r -> absorbed m sh -> (length m + n <= 128)%nat ->
  exists sh' r', foldM fill_step (seq i n) (sh, r) = Some (sh', r') /\ absorbed (m ++ map (fun j => strm r j mod 256) (seq 0 n)) sh' /\
    rinv r' /\ (forall j, strm r' j = strm r (n + j)).
Proof.
  induction n as [|n IH]; intros i r m sh R A F.
  - exists sh, r. cbn [seq map]. rewrite app_nil_r. repeat split; auto; apply R.
  - cbn [seq foldM]. unfold fill_step at 1. destruct (sbrand_ok r R) as (r1 & E1 & R1 & S1 & _). rewrite E1. cbn [bind]. rewrite land255.
    destruct (process_ok true m sh (strm r 0 mod 256) A) as (sh1 & E2 & A2); [apply Z.mod_pos_bound; lia| |].
    { unfold fits. lia. }
    rewrite E2. cbn [bind]. destruct (IH (S i) r1 (m ++ [strm r 0 mod 256]) sh1 R1 A2) as (sh2 & r2 & E3 & A3 & R3 & S3).
    { rewrite app_length. cbn [length]. lia. }
    exists sh2, r2. split; [exact E3|]. split; [|split; [exact R3|]].
    + rewrite <- app_assoc in A3. cbn [app] in A3. cbn [map]. rewrite <- seq_shift, map_map.
      rewrite (map_ext (fun j => strm r1 j mod 256) (fun j => strm r (S j) mod 256)) in A3 by (intros j; rewrite S1; reflexivity). exact A3.
    + intros j. rewrite S3, S1. f_equal.
Qed.
Definition pool_of (r : RAND) : list Z := sha256 (map (fun j => strm r j mod 256) (seq 0 128)).
Lemma fill_pool_ok r : rinv r -> exists r', fill_pool r = Some r' /\ rinv r' /\ pool_ptr r' = 0%nat /\ pool r' = pool_of r /\
  (forall j, strm r' j = strm r (128 + j)).
Proof.
  intros R. unfold fill_pool. destruct (fill_ok 128 0 r [] h_new R new_absorbed) as (sh & r1 & E1 & A1 & R1 & S1).
  { cbn [length]. lia. }
  rewrite E1. cbn [bind app] in *. rewrite (hash_ok true _ sh A1).
  2:{ set (p := pad_count _). assert (p < 64)%nat by apply pad_count_ok. rewrite map_length, seq_length. unfold fits. lia. }
  cbn [bind]. eexists. split; [reflexivity|]. split; [exact R1|]. split; [reflexivity|]. cbn [pool]. split; [unfold pool_of; reflexivity|]. exact S1.
Qed.
Lemma pair_inj {A B} (a c : A) (b d : B) : Some (a, b) = Some (c, d) -> a = c.
Proof. intros H. injection H as H _. exact H. Qed.
Lemma sha_len m : bytes m -> length (sha256 m) = 32%nat /\ bytes (sha256 m).
Proof.
  intros B. destruct (array_ok false m [] h_new new_absorbed B I) as (s & _ & A). cbn [app] in A.
  pose proof (hash_ok false m s A I) as H. unfold h_hash in H.
  destruct (h_process false s 128) as [s1|]; [|discriminate H]. cbn [bind] in H.
  destruct (h_pad false 65 s1) as [s2|]; [|discriminate H]. cbn [bind] in H. cbv zeta in H. apply pair_inj in H. rewrite <- H.
  split; [rewrite map_length, seq_length; reflexivity|]. apply Forall_forall. intros x X. apply in_map_iff in X. destruct X as (i & <- & _).
  rewrite land255. apply Z.mod_pos_bound. lia.
Qed.
Lemma bytes_map (f : nat -> Z) l : bytes (map (fun j => f j mod 256) l).
Proof. apply Forall_forall. intros x X. apply in_map_iff in X. destruct X as (i & <- & _). apply Z.mod_pos_bound. lia. Qed.
Lemma pool_len r : length (pool_of r) = 32%nat /\ bytes (pool_of r).
Proof. apply sha_len, bytes_map. Qed.

(* ------------------------- the byte stream ----------------------------- *)
(* a generator whose next bytes are f 0, f 1, ... *)
Definition gives (r : RAND) (f : nat -> Z) : Prop :=
  rinv r /\ (pool_ptr r < 32)%nat /\ length (pool r) = 32%nat /\ bytes (pool r) /\
  forall i, f i = (if (i <? 32 - pool_ptr r)%nat then nth (pool_ptr r + i) (pool r) 0
                   else let i' := (i - (32 - pool_ptr r))%nat in
                        nth (i' mod 32) (sha256 (map (fun j => strm r (128 * (i' / 32) + j) mod 256) (seq 0 128))) 0).
Lemma getbyte_ok r f : gives r f -> exists r', getbyte r = Some (f 0%nat, r') /\ gives r' (fun i => f (S i)).
Proof.
  intros (R & P & L & B & F). unfold getbyte. rewrite getM_nth by lia. cbn [bind].
  set (r1 := mkRAND _ _ _ _ _). assert (R1 : rinv r1) by exact R. cbn [pool_ptr r1].
  assert (V : Z.land (nth (pool_ptr r) (pool r) 0) 255 = f 0%nat).
  { rewrite F. destruct (Nat.ltb_spec 0 (32 - pool_ptr r)); [|lia]. rewrite Nat.add_0_r, land255. apply Z.mod_small. apply Forall_nth; [exact B|lia]. }
  rewrite V. destruct (Nat.leb_spec 32 (S (pool_ptr r))) as [H|H].
  - destruct (fill_pool_ok r1 R1) as (r2 & E2 & R2 & P2 & W2 & S2). rewrite E2. cbn [bind]. exists r2. split; [reflexivity|].
    destruct (pool_len r1) as [PL PB]. split; [exact R2|]. rewrite P2, W2. split; [lia|]. split; [exact PL|]. split; [exact PB|].
    assert (E : pool_ptr r = 31%nat) by lia. intros i. rewrite F, E. change (32 - 31)%nat with 1%nat. destruct (Nat.ltb_spec (S i) 1); [lia|]. cbv zeta.
    replace (S i - 1)%nat with i by lia. change (32 - 0)%nat with 32%nat. destruct (Nat.ltb_spec i 32) as [I|I].
    + rewrite Nat.div_small, Nat.mod_small by lia. unfold pool_of. change (0 + i)%nat with i.
      rewrite (map_ext (fun j => strm r (128 * 0 + j) mod 256) (fun j => strm r1 j mod 256)) by (intros j; reflexivity). reflexivity.
    + assert (D1 : (i mod 32 = (i - 32) mod 32)%nat).
      { replace i with ((i - 32) + 1 * 32)%nat at 1 by lia. apply Nat.mod_add. lia. }
      assert (D2 : (i / 32 = (i - 32) / 32 + 1)%nat).
      { replace i with ((i - 32) + 1 * 32)%nat at 1 by lia. apply Nat.div_add. lia. }
      rewrite D1, D2. set (k := ((i - 32) / 32)%nat).
      rewrite (map_ext (fun j => strm r (128 * (k + 1) + j) mod 256) (fun j => strm r2 (128 * k + j) mod 256)); [reflexivity|].
      intros j. rewrite S2. f_equal. unfold strm. cbn [r1 rndptr]. change (win r1) with (win r). f_equal. lia.
  - cbn [bind]. exists r1. split; [reflexivity|]. split; [exact R1|]. cbn [pool_ptr pool r1]. split; [lia|]. split; [exact L|]. split; [exact B|].
    intros i. rewrite F. destruct (Nat.ltb_spec (S i) (32 - pool_ptr r)), (Nat.ltb_spec i (32 - S (pool_ptr r))); try lia.
    + f_equal. lia.
    + cbv zeta. replace (S i - (32 - pool_ptr r))%nat with (i - (32 - S (pool_ptr r)))%nat by lia. reflexivity.
Qed.
Lemma gives_ext r f g : gives r f -> (forall i, f i = g i) -> gives r g.
Proof. intros (A & B & C & D & F) E. split; [exact A|]. split; [exact B|]. split; [exact C|]. split; [exact D|]. intros i. rewrite <- E. apply F. Qed.
Lemma gives_byte r f i : gives r f -> 0 <= f i < 256.
Proof.
  intros (A & B & C & D & F). rewrite F. destruct (Nat.ltb_spec i (32 - pool_ptr r)).
  - apply (proj1 (Forall_nth _ _) D). lia.
  - cbv zeta. set (k := (_ / 32)%nat). destruct (sha_len (map (fun j => strm r (128 * k + j) mod 256) (seq 0 128))) as [L1 B1]; [apply bytes_map|].
    apply (proj1 (Forall_nth _ _) B1). rewrite L1. apply Nat.mod_upper_bound. lia.
Qed.
Lemma getbytes_ok n : forall r f, gives r f -> exists r', getbytes n r = Some (map f (seq 0 n), r') /\ gives r' (fun i => f (n + i)%nat).
Proof.
  induction n as [|n IH]; intros r f G; [exists r; split; [reflexivity|exact G]|]. cbn [getbytes].
  destruct (getbyte_ok r f G) as (r1 & E1 & G1). rewrite E1. cbn [bind]. destruct (IH r1 _ G1) as (r2 & E2 & G2). rewrite E2. cbn [bind].
  exists r2. split; [|exact G2]. cbn [seq map]. rewrite <- seq_shift, map_map. reflexivity.
Qed.

(* ------------------------- seeding ------------------------------------- *)
Lemma iter_S {A} n (f : A -> A) x : Nat.iter (S n) f x = f (Nat.iter n f x). Proof. reflexivity. Qed.
(* n calls of sbrand *)
Definition drop_step (m : option RAND) : option RAND := r <- m ;; '(_, r) <- sbrand r ;; Some r.
Lemma drop_ok r : rinv r -> rndptr r = 0%nat -> forall n k, (k < 21)%nat ->
  exists r', Nat.iter (21 * n + k) drop_step (Some r) = Some r' /\ rinv r' /\ rndptr r' = k /\ win r' = Nat.iter (21 * n) swb (win r).
Proof.
  intros R P. 
  assert (ST : forall r1, rinv r1 -> exists r2, drop_step (Some r1) = Some r2 /\ rinv r2 /\
     win r2 = Nat.iter (if (rndptr r1 =? 20)%nat then 21 else 0) swb (win r1) /\ rndptr r2 = (if (rndptr r1 =? 20) then 0 else S (rndptr r1))%nat).
  { intros r1 R1. destruct (sbrand_full r1 R1) as (r2 & E & R2 & _ & W & PP & _). exists r2. unfold drop_step. cbn [bind]. rewrite E. cbn [bind]. auto. }
  induction n as [|n IHn].
  - induction k as [|k IHk]; intros K.
    + exists r. repeat split; auto; apply R.
    + destruct (IHk ltac:(lia)) as (r1 & E1 & R1 & P1 & W1). destruct (ST r1 R1) as (r2 & E2 & R2 & W2 & P2). rewrite P1 in *.
      exists r2. replace (21 * 0 + S k)%nat with (S (21 * 0 + k)) by lia. rewrite iter_S, E1. split; [exact E2|]. split; [exact R2|].
      destruct (Nat.eqb_spec k 20); [lia|]. rewrite P2, W2. split; [reflexivity|]. exact W1.
  - induction k as [|k IHk]; intros K.
    + destruct (IHn 20%nat ltac:(lia)) as (r1 & E1 & R1 & P1 & W1). destruct (ST r1 R1) as (r2 & E2 & R2 & W2 & P2). rewrite P1 in *.
      exists r2. replace (21 * S n + 0)%nat with (S (21 * n + 20)) by lia. rewrite iter_S, E1. split; [exact E2|]. split; [exact R2|].
      cbn [Nat.eqb] in *. rewrite P2, W2. split; [reflexivity|]. replace (21 * S n)%nat with (21 + 21 * n)%nat by lia. rewrite iter_plus, W1. reflexivity.
    + destruct (IHk ltac:(lia)) as (r1 & E1 & R1 & P1 & W1). destruct (ST r1 R1) as (r2 & E2 & R2 & W2 & P2). rewrite P1 in *.
      exists r2. replace (21 * S n + S k)%nat with (S (21 * S n + k)) by lia. rewrite iter_S, E1. split; [exact E2|]. split; [exact R2|].
      destruct (Nat.eqb_spec k 20); [lia|]. rewrite P2, W2. split; [reflexivity|]. exact W1.
Qed.
Lemma lxor_word x y : word x -> word y -> word (Z.lxor x y).
Proof.
  intros [X0 X1] [Y0 Y1]. unfold word. split; [apply Z.lxor_nonneg; tauto|].
  rewrite <- (Z.mod_small x (2 ^ 32)), <- (Z.mod_small y (2 ^ 32)) by lia. rewrite <- !Z.land_ones by lia.
  assert (E : Z.lxor (Z.land x (Z.ones 32)) (Z.land y (Z.ones 32)) = Z.land (Z.lxor x y) (Z.ones 32)).
  { apply Z.bits_inj'. intros i _. rewrite Z.lxor_spec, !Z.land_spec, Z.lxor_spec. destruct (Z.testbit x i), (Z.testbit y i), (Z.testbit (Z.ones 32) i); reflexivity. }
  rewrite E, Z.land_ones by lia. apply Z.mod_pos_bound. lia.
Qed.
Lemma mult_word s i : word s -> word (mult s i) /\ word (snd (mult_pair s i)).
Proof.
  intros W. unfold mult, mult_pair. induction i as [|i [IH1 IH2]]; [cbn; split; [exact W|unfold word; lia]|].
  rewrite iter_S. destruct (Nat.iter i _ _) as [a b]. cbn [fst snd] in *. split; [exact IH2|]. unfold word. apply Z.mod_pos_bound. lia.
Qed.
Lemma mix_ok s w : word s -> length w = 21%nat -> Forall word w -> okwin (mix s w, 0).
Proof.
  intros S L W. unfold okwin, mix. cbn [fst snd]. split; [rewrite map_length, seq_length; reflexivity|]. split; [|left; reflexivity].
  apply Forall_forall. intros x X. apply in_map_iff in X. destruct X as (j & <- & _). apply lxor_word; [apply word_nth0, W|apply mult_word, S].
Qed.
(* the positions 8i mod 21 are distinct *)
Lemma pos_inj i j : (i <= 20)%nat -> (j <= 20)%nat -> ((8 * i) mod 21 = (8 * j) mod 21)%nat -> i = j.
Proof.
  intros I J E.
  assert (A : forallb (fun i => forallb (fun j => implb ((8 * i) mod 21 =? (8 * j) mod 21)%nat (i =? j)%nat) (seq 0 21)) (seq 0 21) = true) by reflexivity.
  rewrite forallb_forall in A. specialize (A i ltac:(apply in_seq; lia)). rewrite forallb_forall in A. specialize (A j ltac:(apply in_seq; lia)).
  rewrite E, Nat.eqb_refl in A. cbn [implb] in A. apply Nat.eqb_eq, A.
Qed.
Lemma pos_lt i : ((8 * i) mod 21 < 21)%nat. Proof. apply Nat.mod_upper_bound. lia. Qed.
Lemma si_steps s w0 : length w0 = 21%nat -> forall n, (n <= 20)%nat ->
  exists w, foldM si_step (seq 1 n) (upd w0 0 (Z.lxor (nth 0 w0 0) s), 1, s) = Some (w, snd (mult_pair s n), mult s n) /\ length w = 21%nat /\
    (forall i, (i <= n)%nat -> nth ((8 * i) mod 21) w 0 = Z.lxor (nth ((8 * i) mod 21) w0 0) (mult s i)) /\
    (forall i, (n < i <= 20)%nat -> nth ((8 * i) mod 21) w 0 = nth ((8 * i) mod 21) w0 0).
Proof.
  intros L. induction n as [|n IH]; intros N.
  - eexists. split; [reflexivity|]. split; [rewrite upd_length; exact L|]. split.
    + intros i I. assert (i = 0%nat) by lia. subst i. change ((8 * 0) mod 21)%nat with 0%nat. apply nth_upd_same. lia.
    + intros i I. apply nth_upd_other. intros E. apply (pos_inj 0 i) in E; lia.
  - destruct (IH ltac:(lia)) as (w & E & LW & G1 & G2). rewrite seq_S, foldM_app, E. cbn [bind foldM]. unfold si_step.
    change (1 + n)%nat with (S n). pose proof (pos_lt (S n)) as PL. rewrite getM_nth by lia. cbn [bind]. rewrite setM_upd by lia. cbn [bind].
    rewrite (G2 (S n)) by lia.
    assert (M1 : mult s (S n) = snd (mult_pair s n)) by (unfold mult, mult_pair; rewrite iter_S; destruct (Nat.iter n _ _); reflexivity).
    assert (M2 : snd (mult_pair s (S n)) = wsub (mult s n) (snd (mult_pair s n))).
    { unfold wsub. rewrite land32. unfold mult, mult_pair. rewrite iter_S. destruct (Nat.iter n _ _); reflexivity. }
    rewrite M1, M2. eexists. split; [reflexivity|]. split; [rewrite upd_length; exact LW|]. split.
    + intros i I. destruct (Nat.eq_dec i (S n)) as [->|X]; [rewrite M1; apply nth_upd_same; lia|].
      rewrite nth_upd_other by (intros Q; apply pos_inj in Q; lia). apply G1. lia.
    + intros i I. rewrite nth_upd_other by (intros Q; apply pos_inj in Q; lia). apply G2. lia.
Qed.
Lemma si_all s w0 : length w0 = 21%nat -> exists m sd,
  foldM si_step (seq 1 20) (upd w0 0 (Z.lxor (nth 0 w0 0) s), 1, s) = Some (mix s w0, m, sd).
Proof.
  intros L. destruct (si_steps s w0 L 20 ltac:(lia)) as (w & E & LW & G & _). do 2 eexists. rewrite E. f_equal. f_equal. f_equal.
  apply (nth_ext _ _ 0 0); [unfold mix; rewrite map_length, seq_length; exact LW|]. intros j J. rewrite LW in J.
  unfold mix. rewrite nth_map_seq by exact J.
  assert (INV : ((8 * ((8 * j) mod 21)) mod 21 = j)%nat).
  { rewrite Nat.mul_mod_idemp_r by lia. replace (8 * (8 * j))%nat with (j + (3 * j) * 21)%nat by lia. rewrite Nat.mod_add by lia. apply Nat.mod_small, J. }
  rewrite <- INV at 1 2. rewrite (G ((8 * j) mod 21)%nat); [rewrite INV; reflexivity|]. pose proof (pos_lt j). lia.
Qed.
Lemma iter_N {A} n (f : A -> A) x : N.iter (N.of_nat n) f x = Nat.iter n f x.
Proof. induction n as [|n IH]; [reflexivity|]. rewrite Nat2N.inj_succ, N.iter_succ, iter_S, IH. reflexivity. Qed.
Lemma sirand_ok r s : length (ira r) = 21%nat -> Forall word (ira r) -> word s ->
  exists r', sirand r s = Some r' /\ rinv r' /\ rndptr r' = 4%nat /\ win r' = Nat.iter (21 * 476) swb (mix s (ira r), 0).
Proof.
  intros L W S. unfold sirand. rewrite getM_nth by lia. cbn [bind]. rewrite setM_upd by lia. cbn [bind].
  destruct (si_all s (ira r) L) as (m & sd & E). rewrite E. cbn [bind].
  set (r0 := mkRAND _ 0 0 _ _). assert (R0 : rinv r0) by (split; [apply (mix_ok s (ira r) S L W)|cbn [rndptr r0]; lia]).
  destruct (drop_ok r0 R0 eq_refl 476 4 ltac:(lia)) as (r' & E' & R' & P' & W'). exists r'.
  change 10000%N with (N.of_nat (21 * 476 + 4)). rewrite iter_N. fold drop_step. auto.
Qed.

(* the eight seed words *)
Lemma pack_le b0 b1 b2 b3 : 0 <= b0 < 256 -> 0 <= b1 < 256 -> 0 <= b2 < 256 -> 0 <= b3 < 256 ->
  rand_pack b0 b1 b2 b3 = be_int [b3; b2; b1; b0] /\ word (rand_pack b0 b1 b2 b3).
Proof.
  intros B0 B1 B2 B3. assert (E : rand_pack b0 b1 b2 b3 = be_int [b3; b2; b1; b0]).
  { unfold rand_pack, be_int. cbn [fold_left]. rewrite !land255, !Z.mod_small by lia. rewrite !shiftl_mul by lia.
    rewrite (lor_add b3 (b2 * 2 ^ 16) 24) by lia. replace (b3 * 2 ^ 24 + b2 * 2 ^ 16) with ((b3 * 2 ^ 8 + b2) * 2 ^ 16) by lia.
    rewrite (lor_add _ (b1 * 2 ^ 8) 16) by lia. replace ((b3 * 2 ^ 8 + b2) * 2 ^ 16 + b1 * 2 ^ 8) with (((b3 * 2 ^ 8 + b2) * 2 ^ 8 + b1) * 2 ^ 8) by lia.
    rewrite (lor_add _ b0 8) by lia. lia. }
  split; [exact E|]. rewrite E. unfold word, be_int. cbn [fold_left]. lia.
Qed.
Lemma seed_fold dg : length dg = 32%nat -> bytes dg -> forall n r st, (n <= 8)%nat -> win r = st -> length (ira r) = 21%nat -> Forall word (ira r) ->
  (n = 0%nat -> True) ->
  exists r', foldM (fun r i => sirand r (rand_pack (limb dg (4*i)) (limb dg (4*i+1)) (limb dg (4*i+2)) (limb dg (4*i+3)))) (seq 0 n) r = Some r' /\
    win r' = fold_left (fun st s => Nat.iter (21 * 476) swb (mix s (fst st), 0)) (firstn n (seed_words dg)) st /\
    length (ira r') = 21%nat /\ Forall word (ira r') /\ ((0 < n)%nat -> rinv r' /\ rndptr r' = 4%nat).
Proof.
  intros LD BD n r st N WS LI WI _. revert N. induction n as [|n IH]; intros N.
  - exists r. cbn [seq foldM firstn fold_left]. repeat split; auto; lia.
  - destruct (IH ltac:(lia)) as (r1 & E1 & W1 & L1 & F1 & _). rewrite seq_S, foldM_app, E1. cbn [bind foldM]. change (0 + n)%nat with n.
    assert (BY : forall k, (k < 32)%nat -> 0 <= limb dg k < 256) by (intros k K; apply (proj1 (Forall_nth _ _) BD); lia).
    destruct (pack_le (limb dg (4*n)) (limb dg (4*n+1)) (limb dg (4*n+2)) (limb dg (4*n+3))) as [PV PW]; try (apply BY; lia).
    set (s := rand_pack _ _ _ _) in *. destruct (sirand_ok r1 s L1 F1 PW) as (r2 & E2 & R2 & P2 & W2). rewrite E2. cbn [bind]. exists r2. split; [reflexivity|].
    assert (SW : firstn (S n) (seed_words dg) = firstn n (seed_words dg) ++ [s]).
    { rewrite (firstn_S_nth _ n 0) by (unfold seed_words; rewrite map_length, seq_length; lia). f_equal. f_equal. rewrite PV. unfold seed_words.
      rewrite nth_map_seq by lia. f_equal.
      unfold limb. assert (Q0 : nth (4 * n) dg 0 = nth 0 (skipn (4 * n) dg) 0) by (rewrite nth_skip, Nat.add_0_r; reflexivity). rewrite Q0, <- !nth_skip.
      assert (LS : (4 <= length (skipn (4 * n) dg))%nat) by (rewrite skipn_length; lia).
      destruct (skipn (4 * n) dg) as [|c0 [|c1 [|c2 [|c3 l]]]]; cbn [length] in LS; try lia. reflexivity. }
    rewrite SW, fold_left_app, <- W1. cbn [fold_left]. unfold win at 2. cbn [fst]. split; [exact W2|].
    pose proof R2 as ((A & B & _) & _). split; [exact A|]. split; [exact B|]. intros _. auto.
Qed.
Lemma fold_start N l w b b' : l <> [] -> fold_left (fun st s => Nat.iter N swb (mix s (fst st), 0)) l (w, b) =
  fold_left (fun st s => Nat.iter N swb (mix s (fst st), 0)) l (w, b').
Proof. destruct l as [|s l]; [intros X; destruct (X eq_refl)|]. reflexivity. Qed.
Lemma seed_ok r raw : bytes raw -> (0 < length raw)%nat -> Z.of_nat (length raw) < 2 ^ 29 - 8 ->
  exists r', rand_seed r (length raw) raw = Some r' /\ gives r' (rand_stream raw).
Proof.
  intros B L0 L1. unfold rand_seed. destruct (Nat.ltb_spec 0 (length raw)); [|lia]. rewrite Nat.ltb_irrefl, firstn_all.
  pose proof (sha_checked [raw] ltac:(constructor; [exact B|constructor])) as H1. cbn [concat foldM] in H1. rewrite app_nil_r in H1. specialize (H1 L1).
  destruct (h_process_array true h_new raw) as [sh|]; [|discriminate H1]. cbn [bind] in *. rewrite H1. cbn [bind].
  destruct (sha_len raw B) as [SL SB]. set (r0 := mkRAND (repeat 0 21) _ _ _ _).
  destruct (seed_fold (sha256 raw) SL SB 8 r0 (repeat 0 21, borrow r) ltac:(lia) eq_refl eq_refl) as (r1 & E1 & W1 & _ & _ & Q); [|exact (fun _ => I)|].
  { apply Forall_forall. intros x X. apply repeat_spec in X. subst x. unfold word. lia. }
  destruct (Q ltac:(lia)) as [R1 P1]. rewrite E1. cbn [bind]. destruct (fill_pool_ok r1 R1) as (r2 & E2 & R2 & P2 & PL2 & S2). exists r2. split; [exact E2|].
  destruct (pool_len r1) as [PN PB]. split; [exact R2|]. rewrite P2, PL2. split; [lia|]. split; [exact PN|]. split; [exact PB|].
  assert (WW : win r1 = seeded raw).
  { rewrite W1. assert (F8 : firstn 8 (seed_words (sha256 raw)) = seed_words (sha256 raw)) by (apply firstn_all2; unfold seed_words; rewrite map_length, seq_length; lia).
    rewrite F8. unfold seeded. apply fold_start. intros X. apply (f_equal (@length Z)) in X. unfold seed_words in X. rewrite map_length, seq_length in X. discriminate X. }
  intros i. unfold rand_stream, out_byte, out_block. change (32 - 0)%nat with 32%nat.
  assert (SV : forall j, strm r1 j = swb_word (seeded raw) (5 + j)) by (intros j; unfold strm; rewrite WW, P1; f_equal; lia).
  destruct (Nat.ltb_spec i 32) as [I|I].
  - rewrite (Nat.div_small i), (Nat.mod_small i) by exact I. change (0 + i)%nat with i. unfold pool_of.
    rewrite (map_ext (fun j => strm r1 j mod 256) (fun j => swb_word (seeded raw) (5 + 128 * 0 + j) mod 256)); [reflexivity|].
    intros j. rewrite SV. f_equal. 
  - cbv zeta. assert (D1 : (i mod 32 = (i - 32) mod 32)%nat).
    { replace i with ((i - 32) + 1 * 32)%nat at 1 by lia. apply Nat.mod_add. lia. }
    assert (D2 : (i / 32 = (i - 32) / 32 + 1)%nat).
    { replace i with ((i - 32) + 1 * 32)%nat at 1 by lia. apply Nat.div_add. lia. }
    rewrite D1, D2. set (k := ((i - 32) / 32)%nat).
    rewrite (map_ext (fun j => swb_word (seeded raw) (5 + 128 * (k + 1) + j) mod 256) (fun j => strm r2 (128 * k + j) mod 256)); [reflexivity|].
    intros j. rewrite S2, SV. f_equal. f_equal. lia.
Qed.

(* ------------------------- random numbers ------------------------------ *)
(* after i bits: the value so far, the bit counter, the rest of the current byte, the generator *)
Definition rn_inv (f : nat -> Z) (i : nat) (st : DBIG * Z * Z * RAND) : Prop :=
  let '(d, j, y, r) := st in
  nrep 14 d (stream_num f i) /\ j = Z.of_nat (i mod 8) /\
  gives r (fun k => f ((i + 7) / 8 + k)%nat) /\
  ((i mod 8 <> 0)%nat -> y = f (i / 8)%nat / 2 ^ (Z.of_nat (i mod 8) - 1)).
Lemma stream_num_S f n : stream_num f (S n) = 2 * stream_num f n + stream_bit f n.
Proof. unfold stream_num. rewrite seq_S, fold_left_app. reflexivity. Qed.
Lemma stream_bit_01 f n : 0 <= stream_bit f n < 2. Proof. apply Z.mod_pos_bound. lia. Qed.
Lemma stream_num_bound f n : 0 <= stream_num f n < 2 ^ Z.of_nat n.
Proof.
  induction n as [|n IH]; [cbn; lia|]. rewrite stream_num_S. pose proof (stream_bit_01 f n). rewrite Nat2Z.inj_succ, Z.pow_succ_r by lia. lia.
Qed.
(* adding a bit to a doubled number *)
Lemma add_bit n w v b : nrep (S (S n)) w (2 * v) -> 0 <= b < 2 -> exists w0 tl, w = w0 :: tl /\ ck64 (w0 + b) = Some (w0 + b) /\ nrep (S (S n)) (w0 + b :: tl) (2 * v + b).
Proof.
  intros (L & N & V) B. destruct w as [|w0 [|w1 tl]]; try discriminate L. exists w0, (w1 :: tl). split; [reflexivity|].
  apply norml_cons in N as [N0 N1]. change (lval (w0 :: w1 :: tl)) with (w0 + B58 * lval (w1 :: tl)) in V. change B58 with (2 * 2 ^ 57) in *.
  assert (E : w0 + b < 2 * 2 ^ 57) by (clear -N0 V B; set (t := lval _) in *; clearbody t; lia).
  split; [apply ck64_ok; lia|]. split; [exact L|]. split; [apply norml_cons; change B58 with (2 * 2 ^ 57); split; [lia|exact N1]|].
  change (lval (w0 + b :: w1 :: tl)) with (w0 + b + 2 * 2 ^ 57 * lval (w1 :: tl)). lia.
Qed.
Lemma div8 i : ((i + 7) / 8 = if i mod 8 =? 0 then i / 8 else i / 8 + 1)%nat /\ (S i mod 8 = if i mod 8 =? 7 then 0 else i mod 8 + 1)%nat /\
  (S i / 8 = if i mod 8 =? 7 then i / 8 + 1 else i / 8)%nat.
Proof.
  pose proof (Nat.div_mod i 8 ltac:(lia)) as D. pose proof (Nat.mod_upper_bound i 8 ltac:(lia)) as U. set (q := (i / 8)%nat) in *. set (m := (i mod 8)%nat) in *.
  split; [|split].
  - destruct (Nat.eqb_spec m 0); symmetry; [apply (Nat.div_unique (i + 7) 8 _ 7)|apply (Nat.div_unique (i + 7) 8 _ (m - 1))]; lia.
  - destruct (Nat.eqb_spec m 7); symmetry; [apply (Nat.mod_unique (S i) 8 (q + 1))|apply (Nat.mod_unique (S i) 8 q)]; lia.
  - destruct (Nat.eqb_spec m 7); symmetry; [apply (Nat.div_unique (S i) 8 _ 0)|apply (Nat.div_unique (S i) 8 _ (m + 1))]; lia.
Qed.
Lemma rn_step f i k st : (i < 800)%nat -> rn_inv f i st -> exists st', randnum_step st k = Some st' /\ rn_inv f (S i) st'.
Proof.
  intros I H. destruct st as [[[d j] y] r]. destruct H as (D & J & G & Y). destruct (div8 i) as (D1 & D2 & D3). destruct (div8 (S i)) as (D4 & _ & _).
  pose proof (Nat.mod_upper_bound i 8 ltac:(lia)) as U. pose proof (stream_num_bound f i) as SB.
  assert (SL : 2 ^ Z.of_nat i <= 2 ^ 800) by (apply Z.pow_le_mono_r; lia).
  destruct (some_ex _ _ (dbig_shl1_spec d _ D ltac:(lia))) as (d1 & E1 & DD).
  set (m := (i mod 8)%nat) in *. set (q := (i / 8)%nat) in *.
  assert (ST : exists y' r', (if j =? 0 then getbyte r else Some (Z.shiftr y 1, r)) = Some (y', r') /\ y' = f q / 2 ^ Z.of_nat m /\
     gives r' (fun k => f ((S i + 7) / 8 + k)%nat)).
  { destruct (Z.eqb_spec j 0) as [Z0|Z0].
    - assert (M0 : m = 0%nat) by lia. rewrite M0 in *. cbn [Nat.eqb] in *. destruct (getbyte_ok r _ G) as (r' & E & G'). exists (f q), r'. split.
      + rewrite E, D1, Nat.add_0_r. reflexivity.
      + split; [change (2 ^ Z.of_nat 0) with 1; rewrite Z.div_1_r; reflexivity|]. apply (gives_ext _ _ _ G'). intros t. rewrite D1, D4, D2, D3. cbn [Nat.eqb Nat.add]. f_equal. lia.
    - assert (M0 : m <> 0%nat) by lia. exists (Z.shiftr y 1), r. split; [reflexivity|]. split.
      + rewrite (Y M0), shiftr_div by lia. rewrite Z.div_div by (try (apply Z.pow_nonzero; lia); lia). f_equal.
        replace (Z.of_nat m) with (Z.of_nat m - 1 + 1) at 2 by lia. rewrite (Z.pow_add_r 2 _ 1) by lia. reflexivity.
      + apply (gives_ext _ _ _ G). intros t. rewrite D1, D4, D2, D3. destruct (Nat.eqb_spec m 0); [lia|]. destruct (Nat.eqb_spec m 7).
        * cbn [Nat.eqb]. reflexivity.
        * destruct (Nat.eqb_spec (m + 1) 0); [lia|]. reflexivity. }
  destruct ST as (y' & r' & EY & YV & G'). unfold randnum_step. rewrite EY. cbn [bind]. cbv zeta.
  assert (BV : Z.land y' 1 = stream_bit f i).
  { change 1 with (2 ^ 1 - 1). rewrite land_ones_mod by lia. rewrite YV. reflexivity. }
  rewrite E1. cbn [bind]. rewrite BV. destruct (add_bit 12 d1 _ _ DD (stream_bit_01 f i)) as (w0 & tl & -> & CK & NR). rewrite CK. cbn [bind].
  eexists. split; [reflexivity|]. split; [rewrite stream_num_S; exact NR|]. split.
  { rewrite D2, J. change 7 with (2 ^ 3 - 1). rewrite land_ones_mod by lia. destruct (Nat.eqb_spec m 7) as [->|X]; [reflexivity|]. rewrite Z.mod_small by lia. lia. }
  split; [exact G'|]. rewrite D2, D3. destruct (Nat.eqb_spec m 7); [intros X; lia|]. intros _. rewrite YV. f_equal. f_equal. lia.
Qed.
Lemma rn_all f st0 : rn_inv f 0 st0 -> forall n, (n <= 800)%nat -> exists st, foldM randnum_step (seq 0 n) st0 = Some st /\ rn_inv f n st.
Proof.
  intros H0. induction n as [|n IH]; intros N; [exists st0; split; [reflexivity|exact H0]|].
  destruct (IH ltac:(lia)) as (s1 & E1 & H1). rewrite seq_S, foldM_app, E1. cbn [bind foldM].
  destruct (rn_step f n (0 + n) s1 ltac:(lia) H1) as (s2 & E2 & H2). rewrite E2. exists s2. split; [reflexivity|exact H2].
Qed.
Lemma randomnum_ok q v r f : rep 7 q v -> 0 < v < 2 ^ 400 -> gives r f -> exists x r',
  big_randomnum q r = Some (x, r') /\ rep 7 x (stream_num f (Z.to_nat (2 * (Z.log2 v + 1))) mod v) /\
  gives r' (fun k => f ((Z.to_nat (2 * (Z.log2 v + 1)) + 7) / 8 + k)%nat).
Proof.
  intros Q V G. unfold big_randomnum. rewrite (big_nbits_spec q v Q). cbn [bind]. unfold bitlen. destruct (Z.eqb_spec v 0) as [X|X]; [lia|].
  assert (LG : Z.log2 v < 400) by (apply Z.log2_lt_pow2; lia). pose proof (Z.log2_nonneg v) as LN.
  set (n := Z.to_nat (2 * (Z.log2 v + 1))). assert (NB : (n <= 800)%nat) by (unfold n; lia).
  destruct (rn_all f (dbig_new, 0, 0, r)) with (n := n) as (st & E & H); [|exact NB|].
  { split; [|split; [reflexivity|split]].
    - change (stream_num f 0) with 0. split; [reflexivity|]. split; [apply digs_norml; repeat (constructor; [lia|]); constructor|reflexivity].
    - apply (gives_ext _ _ _ G). intros i. reflexivity.
    - intros Y. destruct (Y eq_refl). }
  rewrite E. cbn [bind]. destruct st as [[[d j] y] r']. destruct H as (D & _ & G' & _). pose proof (stream_num_bound f n) as SB.
  assert (SL : 2 ^ Z.of_nat n <= 2 ^ 800) by (apply Z.pow_le_mono_r; lia).
  assert (DR : rep 14 d (stream_num f n)) by (apply nrep_rep; [exact D|]; change (58 * Z.of_nat 14) with 812; lia).
  destruct (B_dmod d _ q v DR (rep_nrep _ _ _ Q) ltac:(lia)) as (c & EC & C). rewrite EC. cbn [bind]. exists c, r'. auto.
Qed.

(* ------------------------- the properties ------------------------------ *)
Lemma stream_bytes : forall raw i, 0 <= rand_stream raw i < 256.
Proof.
  intros raw i. unfold rand_stream, out_byte, out_block. set (k := (i / 32)%nat).
  destruct (sha_len (map (fun j => swb_word (seeded raw) (5 + 128 * k + j) mod 256) (seq 0 128))) as [L1 B1]; [apply bytes_map|].
  apply (proj1 (Forall_nth _ _) B1). rewrite L1. apply Nat.mod_upper_bound. lia.
Qed.
(* any previous state of the generator, any seed below 2^29 - 8 bytes, any number of bytes asked for *)
Lemma rand_total : forall r raw n, bytes raw -> (0 < length raw)%nat -> Z.of_nat (length raw) < 2 ^ 29 - 8 ->
  exists r1 r2, rand_seed r (length raw) raw = Some r1 /\ getbytes n r1 = Some (map (rand_stream raw) (seq 0 n), r2).
Proof.
  intros r raw n B L0 L1. destruct (seed_ok r raw B L0 L1) as (r1 & E & G). destruct (getbytes_ok n r1 _ G) as (r2 & E2 & _). eauto.
Qed.
(* only the first rawlen bytes are read *)
Lemma rand_seed_firstn r n raw : (n <= length raw)%nat -> rand_seed r n raw = rand_seed r n (firstn n raw).
Proof.
  intros N. unfold rand_seed. rewrite firstn_length_le, firstn_firstn, Nat.min_id by exact N.
  destruct (Nat.ltb_spec 0 n); [|reflexivity]. destruct (Nat.ltb_spec (length raw) n); [lia|]. rewrite Nat.ltb_irrefl. reflexivity.
Qed.
Lemma rand_big_seed : forall r raw, bytes raw -> 2 ^ 29 - 8 <= Z.of_nat (length raw) -> rand_seed r (length raw) raw = None.
Proof.
  intros r raw B L. unfold rand_seed. destruct (Nat.ltb_spec 0 (length raw)); [|lia]. rewrite Nat.ltb_irrefl, firstn_all.
  pose proof (sha_checked_panic [raw] ltac:(constructor; [exact B|constructor])) as H1. cbn [concat foldM] in H1. rewrite app_nil_r in H1. specialize (H1 L).
  destruct (h_process_array true h_new raw) as [sh|]; [|reflexivity]. cbn [bind] in *. rewrite H1. reflexivity.
Qed.
Lemma rand_refuted : exists raw, bytes raw /\ rand_seed rand_new (length raw) raw = None.
Proof.
  exists (repeat 0 (Z.to_nat (2 ^ 29))).
  assert (B : bytes (repeat 0 (Z.to_nat (2 ^ 29)))).
  { apply Forall_forall. intros x X. apply repeat_spec in X. subst x. split; [discriminate|reflexivity]. }
  split; [exact B|]. apply rand_big_seed; [exact B|]. rewrite repeat_length, Z2Nat.id; discriminate.
Qed.
(* an empty seed on a fresh generator: no panic, and a stream that repeats every 32 bytes *)
Lemma zero_win n : Nat.iter n swb (repeat 0 21, 0) = (repeat 0 21, 0).
Proof. induction n as [|n IH]; [reflexivity|]. rewrite iter_S, IH. reflexivity. Qed.
Lemma rand_empty : forall n, exists r1 r2, rand_seed rand_new 0 [] = Some r1 /\
  getbytes n r1 = Some (map (fun i => nth (i mod 32) (sha256 (repeat 0 128)) 0) (seq 0 n), r2).
Proof.
  intros n. unfold rand_seed. cbn [Nat.ltb Nat.leb bind]. set (r0 := mkRAND _ _ _ _ _).
  assert (R0 : rinv r0).
  { split; [|cbn [r0 rndptr rand_new]; lia]. split; [reflexivity|]. split; [|left; reflexivity].
    apply Forall_forall. intros x X. apply repeat_spec in X. subst x. unfold word. lia. }
  assert (SZ : forall j, strm r0 j = 0) by (intros j; unfold strm, swb_word; change (win r0) with (repeat 0 21, 0); rewrite zero_win; reflexivity).
  assert (MZ : forall (g : nat -> nat), map (fun j => strm r0 (g j) mod 256) (seq 0 128) = repeat 0 128).
  { intros g. rewrite (map_ext (fun j => strm r0 (g j) mod 256) (fun _ => 0)) by (intros j; rewrite SZ; reflexivity). reflexivity. }
  destruct (fill_pool_ok r0 R0) as (r1 & E1 & R1 & P1 & PL1 & S1). rewrite E1.
  assert (G : gives r1 (fun i => nth (i mod 32) (sha256 (repeat 0 128)) 0)).
  { destruct (pool_len r0) as [PN PB]. split; [exact R1|]. rewrite P1, PL1. split; [lia|]. split; [exact PN|]. split; [exact PB|].
    assert (PZ : pool_of r0 = sha256 (repeat 0 128)) by (unfold pool_of; rewrite (MZ (fun j => j)); reflexivity).
    intros i. change (32 - 0)%nat with 32%nat. destruct (Nat.ltb_spec i 32) as [I|I].
    - rewrite (Nat.mod_small i) by exact I. rewrite PZ. reflexivity.
    - cbv zeta. set (k := ((i - 32) / 32)%nat).
      assert (D1 : (i mod 32 = (i - 32) mod 32)%nat).
      { replace i with ((i - 32) + 1 * 32)%nat at 1 by lia. apply Nat.mod_add. lia. }
      rewrite D1. rewrite (map_ext (fun j => strm r1 (128 * k + j) mod 256) (fun j => strm r0 (128 + (128 * k + j)) mod 256)) by (intros j; rewrite S1; reflexivity).
      rewrite (MZ (fun j => 128 + (128 * k + j))%nat). reflexivity. }
  destruct (getbytes_ok n r1 _ G) as (r2 & E2 & _). exists r1, r2. auto.
Qed.
(* with an empty seed the earlier use of the generator shows: `seed` resets neither rndptr nor borrow *)
Lemma rand_reseed : exists r r1 r2 a b s1 s2, rand_seed rand_new 1 [0] = Some r /\
  rand_seed rand_new 0 [] = Some r1 /\ rand_seed r 0 [] = Some r2 /\ getbyte r1 = Some (a, s1) /\ getbyte r2 = Some (b, s2) /\ a <> b.
Proof.
  assert (H : match rand_seed rand_new 1 [0], rand_seed rand_new 0 [] with
              | Some r, Some r1 => match rand_seed r 0 [], getbyte r1 with
                | Some r2, Some (a, _) => match getbyte r2 with Some (b, _) => negb (a =? b) | None => false end
                | _, _ => false end
              | _, _ => false end = true) by (vm_compute; reflexivity).
  destruct (rand_seed rand_new 1 [0]) as [r|] eqn:E1; [|discriminate H]. destruct (rand_seed rand_new 0 []) as [r1|] eqn:E2; [|discriminate H].
  destruct (rand_seed r 0 []) as [r2|] eqn:E3; [|discriminate H]. destruct (getbyte r1) as [[a s1]|] eqn:E4; [|discriminate H].
  destruct (getbyte r2) as [[b s2]|] eqn:E5; [|discriminate H]. exists r, r1, r2, a, b, s1, s2.
  split; [reflexivity|]. split; [reflexivity|]. split; [exact E3|]. split; [exact E4|]. split; [exact E5|].
  intros ->. rewrite Z.eqb_refl in H. discriminate H.
Qed.

(* secret keys *)
Lemma order_rep : rep 7 CURVE_ORDER r255.
Proof. split; [reflexivity|]. split; [|reflexivity]. repeat (constructor; [split; [discriminate|reflexivity]|]). constructor. Qed.
Lemma sk_random_rep e : bytes e -> length e = 256%nat ->
  exists sk, sk_random e = Some sk /\ rep 7 sk (stream_num (rand_stream e) 510 mod r255).
Proof.
  intros B L. unfold sk_random, get_seeded_rng. destruct (seed_ok rand_new e B ltac:(lia) ltac:(lia)) as (r & E & G). rewrite L in E. rewrite E. cbn [bind].
  destruct (randomnum_ok CURVE_ORDER r255 r _ order_rep ltac:(split; reflexivity) G) as (x & r' & E2 & X & _). rewrite E2. cbn [bind].
  exists x. split; [reflexivity|]. change (Z.to_nat (2 * (Z.log2 r255 + 1))) with 510%nat in X. exact X.
Qed.
Lemma r255_bound v : 0 <= v mod r255 < r255. Proof. apply Z.mod_pos_bound. reflexivity. Qed.
Lemma sk_random_ok : forall e, bytes e -> length e = 256%nat ->
  let v := stream_num (rand_stream e) 510 mod r255 in
  exists sk, sk_random e = Some sk /\ sk_from_bytes (be_bytes 48 v) = Some (Ok sk) /\ sk_as_bytes sk = Some (be_bytes 48 v) /\ 0 <= v < r255.
Proof.
  intros e B L v. destruct (sk_random_rep e B L) as (sk & E & R). fold v in R. exists sk. split; [exact E|].
  pose proof (r255_bound (stream_num (rand_stream e) 510)) as VB. fold v in VB.
  destruct (sk_from_bytes_ok (be_bytes 48 v) (be_bytes_bytes _ _) (be_bytes_length _ _)) as (sk' & E' & R').
  assert (BI : be_int (be_bytes 48 v) = v).
  { rewrite be_int_bytes. apply Z.mod_small. assert (r255 < 256 ^ Z.of_nat 48) by reflexivity. lia. }
  rewrite BI in R'. assert (sk = sk').
  { destruct R as (L1 & D1 & V1), R' as (L2 & D2 & V2). apply norml_inj; [congruence|apply digs_norml, D1|apply digs_norml, D2|congruence]. }
  subst sk'. split; [exact E'|]. split; [apply sk_as_bytes_rep, R|exact VB].
Qed.
Lemma keypair_random_ok : forall e, bytes e -> length e = 256%nat ->
  let v := stream_num (rand_stream e) 510 mod r255 in
  exists sk pk, keypair_random e = Some (sk, pk) /\ sk_as_bytes sk = Some (be_bytes 48 v) /\
    pk_from_secret_key sk = Some pk /\ ecp_pt pk = nmul1 (Z.to_nat v) G1gen.
Proof.
  intros e B L v. destruct (sk_random_ok e B L) as (sk & E & F & A & V). fold v in F, A, V.
  assert (BI : be_int (be_bytes 48 v) = v).
  { rewrite be_int_bytes. apply Z.mod_small. assert (r255 < 256 ^ Z.of_nat 48) by reflexivity. lia. }
  destruct (derive_nmul (be_bytes 48 v) sk (be_bytes_bytes _ _) F) as (pk & EP & PV). rewrite BI in PV.
  exists sk, pk. unfold keypair_random. rewrite E. cbn [bind]. rewrite EP. cbn [bind]. split; [reflexivity|]. split; [exact A|]. split; [reflexivity|exact PV].
Qed.
