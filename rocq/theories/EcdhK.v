(* Proofs about pbkdf2 of ecdh.rs. *)
From Coq Require Import ZArith List Bool Lia.
From Verif Require Import Prim PrimP SpecBytes SpecSha SpecSha5 SpecMac Utils Big Hash256 Hash512 Ecdh EcdhH.
Import ListNotations.
Open Scope Z_scope.

Lemma upd_split {A} (l : list A) i x : (i < length l)%nat -> upd l i x = firstn i l ++ x :: skipn (S i) l.
Proof. revert i. induction l as [|a l IH]; intros [|i] H; cbn [length] in H; try lia; [reflexivity|]. cbn [upd firstn skipn app]. rewrite IH by lia. reflexivity. Qed.
(* inttobytes leaves bytes it has no digit for; they are right when the array held a smaller number *)
Lemma itb_ok : forall i u m b, 0 <= u <= m -> firstn i b = be_bytes i u -> itb_go i m b = be_bytes i m ++ skipn i b.
Proof.
  induction i as [|i IH]; intros u m b U E; [reflexivity|]. cbn [itb_go]. assert (LB : (S i <= length b)%nat). { rewrite <- (be_bytes_length (S i) u), <- E, firstn_length. lia. }
  destruct (Z.ltb_spec 0 m) as [M|M].
  - rewrite (IH (u / 256)); [|split; [apply Z.div_pos; lia|apply Z.div_le_mono; lia]|].
    + cbn [be_bytes]. rewrite <- app_assoc. f_equal. rewrite upd_split by lia. rewrite skipn_exact by (apply firstn_length_le; lia). cbn [app]. f_equal. change 255 with (Z.ones 8). rewrite Z.land_ones by lia. reflexivity.
    + rewrite upd_split by lia. rewrite firstn_exact by (apply firstn_length_le; lia). cbn [be_bytes] in E.
      assert (F : firstn i (firstn (S i) b) = be_bytes i (u / 256)) by (rewrite E; apply firstn_exact, be_bytes_length). rewrite firstn_firstn, Nat.min_l in F by lia. exact F.
  - assert (u = 0 /\ m = 0) as [-> ->] by lia. rewrite <- E. symmetry. apply firstn_skipn.
Qed.
Lemma inttobytes_ok u m : 0 <= u <= m -> inttobytes m (be_bytes 4 u) = be_bytes 4 m.
Proof. intros U. unfold inttobytes. rewrite be_bytes_length. rewrite (itb_ok 4 u m _ U); rewrite ?firstn_all2, ?skipn_all2 by (rewrite be_bytes_length; lia); [apply app_nil_r|reflexivity]. Qed.

(* what pbkdf2 computes: U_j is extended by zeros to 64 bytes before it is hashed, and
   48 bytes of every block are used *)
Fixpoint code_more (n : nat) (pass : list Z) (c : nat) (t u : list Z) : list Z :=
  match c with
  | O => t
  | S c' => let u' := HMAC n pass (u ++ repeat 0 (64 - n)) in code_more n pass c' (xors t u') u'
  end.
Definition code_T (n : nat) (pass salt : list Z) (c i : nat) : list Z :=
  let u1 := HMAC n pass (salt ++ be_bytes 4 (Z.of_nat i)) in code_more n pass (c - 1) u1 u1.
Definition code_block (n : nat) (pass salt : list Z) (c i : nat) : list Z := firstn 48 (code_T n pass salt c i ++ repeat 0 (64 - n)).

Lemma HMAC_len n k m : is_sha n -> bytes k -> bytes m -> length (HMAC n k m) = n /\ bytes (HMAC n k m).
Proof.
  intros S K M. pose proof (mac_key_bytes n k S K) as MB. unfold HMAC.
  assert (B1 : bytes (map (fun x => Z.lxor x 54) (mac_key n k) ++ m)) by (apply Forall_app; split; [apply xor_bytes; [exact MB|lia]|exact M]).
  assert (B2 : bytes (map (fun x => Z.lxor x 92) (mac_key n k) ++ hfun n (map (fun x => Z.lxor x 54) (mac_key n k) ++ m))) by (apply Forall_app; split; [apply xor_bytes; [exact MB|lia]|apply hfun_bytes; assumption]).
  split; [apply hfun_len|apply hfun_bytes]; assumption.
Qed.
Lemma xors_map2 a b : map2 Z.lxor a b = xors a b.
Proof. revert b. induction a as [|x a IH]; intros [|y b]; try reflexivity. cbn [map2 xors]. rewrite IH. reflexivity. Qed.
Lemma xors_len a b : length a = length b -> length (xors a b) = length a.
Proof. revert b. induction a as [|x a IH]; intros [|y b] L; try reflexivity; try discriminate L. cbn [xors length] in *. rewrite IH; lia. Qed.
Lemma code_more_len n pass : is_sha n -> bytes pass -> forall c t u, length t = n -> bytes u -> length (code_more n pass c t u) = n.
Proof.
  intros S P. induction c as [|c IH]; intros t u T U; [exact T|]. cbn [code_more]. destruct (HMAC_len n pass (u ++ repeat 0 (64 - n)) S P) as [L B]; [apply Forall_app; split; [exact U|apply zeros_bytes]|].
  apply IH; [rewrite xors_len; lia|exact B].
Qed.
Lemma fit_n n h : length h = n -> fit n h = h. Proof. apply fit_all. Qed.
(* the arrays f, u and ku *)
Lemma rep_ok chk sha pass : is_sha sha -> bytes pass -> noov chk sha (length pass + 256) ->
  forall c first t u ku, length t = sha -> length u = sha -> bytes u -> length ku = 64%nat ->
  exists u' ku', foldM (pbk_rep chk sha pass) (seq first c) (t ++ repeat 0 (64 - sha), u ++ repeat 0 (64 - sha), ku) =
    Some (code_more sha pass c t u ++ repeat 0 (64 - sha), u' ++ repeat 0 (64 - sha), ku') /\ length u' = sha /\ length ku' = 64%nat.
Proof.
  intros SH P N. pose proof (is_sha_64 sha SH) as S64. induction c as [|c IH]; intros first t u ku T U UB K; [exists u, ku; split; [reflexivity|split; assumption]|].
  cbn [seq foldM code_more]. unfold pbk_rep at 1. assert (UP : bytes (u ++ repeat 0 (64 - sha))) by (apply Forall_app; split; [exact UB|apply zeros_bytes]).
  rewrite (hmac_ok chk sha _ pass sha ku SH UP P); [|lia|apply (noov_le _ _ _ _ N); rewrite app_length, repeat_length; lia]. cbn [bind].
  destruct (HMAC_len sha pass _ SH P UP) as [L B]. set (h := HMAC sha pass _) in *. clearbody h. rewrite fit_n by exact L. rewrite firstn_exact by exact L.
  rewrite (put0' _ _ sha L) by (rewrite app_length, repeat_length; lia). cbn [bind]. rewrite skipn_exact by exact U. rewrite !firstn_exact by assumption. rewrite xors_map2.
  assert (LX : length (xors t h) = sha) by (rewrite xors_len; lia).
  rewrite (put0' _ _ sha LX) by (rewrite app_length, repeat_length; lia). cbn [bind]. rewrite skipn_exact by exact T.
  apply (IH (S first) (xors t h) h); try assumption. rewrite app_length, L, skipn_length. lia.
Qed.
Lemma code_block_len n pass salt c i : is_sha n -> bytes pass -> bytes salt -> length (code_block n pass salt c i) = 48%nat.
Proof.
  intros S P A. unfold code_block. pose proof (is_sha_64 n S). rewrite firstn_length_le; [reflexivity|]. rewrite app_length, repeat_length. unfold code_T. cbv zeta.
  destruct (HMAC_len n pass (salt ++ be_bytes 4 (Z.of_nat i)) S P) as [L B]; [apply Forall_app; split; [exact A|apply be_bytes_bytes]|]. rewrite (code_more_len n pass S P _ _ _ L B). lia.
Qed.
Lemma skipn_short {A} (l m : list A) n : (n <= length l)%nat -> skipn n (l ++ m) = skipn n l ++ m.
Proof. intros H. rewrite skipn_app. replace (n - length l)%nat with 0%nat by lia. reflexivity. Qed.
Lemma pbk_go chk sha pass salt rep olen k0 : is_sha sha -> bytes pass -> bytes salt -> (length salt <= 32)%nat -> noov chk sha (length pass + 256) -> (olen <= length k0)%nat ->
  forall d i out f u ku s, (length out = i * 48)%nat -> length s = 36%nat ->
    (exists f0, length f0 = sha /\ f = f0 ++ repeat 0 (64 - sha)) -> (exists u0, length u0 = sha /\ u = u0 ++ repeat 0 (64 - sha)) -> length ku = 64%nat ->
  exists k f' u' ku' s' n', foldM (pbk_block chk sha pass salt rep olen) (seq i d) (firstn olen out ++ skipn (Nat.min olen (i * 48)) k0, (i * 48)%nat, f, u, ku, s, be_bytes 4 (Z.of_nat i)) =
      Some (k, ((i + d) * 48)%nat, f', u', ku', s', n') /\
    k = firstn olen (out ++ concat (map (code_block sha pass salt rep) (seq (S i) d))) ++ skipn (Nat.min olen ((i + d) * 48)) k0.
Proof.
  intros SH P A AL N W. pose proof (is_sha_64 sha SH) as S64. induction d as [|d IH]; intros i out f u ku s LO LS (f0 & LF & ->) (u0 & LU & ->) LK.
  { cbn [seq foldM map concat]. rewrite app_nil_r, Nat.add_0_r. do 6 eexists. split; [reflexivity|]. reflexivity. }
  cbn [seq foldM]. unfold pbk_block at 1. rewrite put0 by lia. cbn [bind]. replace (Z.of_nat i + 1) with (Z.of_nat (S i)) by lia. rewrite inttobytes_ok by lia.
  rewrite put_app by (rewrite be_bytes_length, skipn_length; lia). cbn [bind]. rewrite app_assoc. rewrite firstn_exact by (rewrite app_length, be_bytes_length; reflexivity).
  assert (B1 : bytes (salt ++ be_bytes 4 (Z.of_nat (S i)))) by (apply Forall_app; split; [exact A|apply be_bytes_bytes]).
  assert (LF64 : length (f0 ++ repeat 0 (64 - sha)) = 64%nat) by (rewrite app_length, repeat_length; lia).
  rewrite (hmac_ok chk sha _ pass sha _ SH B1 P); [|lia|apply (noov_le _ _ _ _ N); rewrite app_length, be_bytes_length; lia]. cbn [bind].
  destruct (HMAC_len sha pass _ SH P B1) as [L B]. rewrite fit_n by exact L. rewrite firstn_exact by exact L. rewrite skipn_exact by exact LF.
  rewrite (put0' _ _ sha L) by (rewrite app_length, repeat_length; lia). cbn [bind]. rewrite skipn_exact by exact LU.
  destruct (rep_ok chk sha pass SH P N (rep - 1) 1 _ _ ku L L B LK) as (u' & ku' & ER & LU' & LK'). rewrite ER. cbn [bind].
  assert (CT : code_more sha pass (rep - 1) (HMAC sha pass (salt ++ be_bytes 4 (Z.of_nat (S i)))) (HMAC sha pass (salt ++ be_bytes 4 (Z.of_nat (S i)))) = code_T sha pass salt rep (S i)) by reflexivity.
  rewrite CT. change EFS with 48%nat. fold (code_block sha pass salt rep (S i)).
  pose proof (code_block_len sha pass salt rep (S i) SH P A) as LB.
  assert (LC : length (code_T sha pass salt rep (S i)) = sha) by (rewrite <- CT; apply (code_more_len sha pass SH P); assumption).
  clear CT ER. set (cb := code_block sha pass salt rep (S i)) in *.
  assert (K : (if (olen <=? i * 48)%nat then Some (firstn olen out ++ skipn (Nat.min olen (i * 48)) k0) else put (firstn olen out ++ skipn (Nat.min olen (i * 48)) k0) (i * 48) (firstn (olen - i * 48) cb))
     = Some (firstn olen (out ++ cb) ++ skipn (Nat.min olen (S i * 48)) k0)).
  { rewrite firstn_app, LO. destruct (Nat.leb_spec olen (i * 48)) as [H|H].
    - replace (olen - i * 48)%nat with 0%nat by lia. cbn [firstn]. rewrite app_nil_r. rewrite !Nat.min_l by lia. reflexivity.
    - rewrite (firstn_all2 out) by lia. rewrite <- LO at 2. rewrite Nat.min_r by lia. rewrite put_app by (rewrite firstn_length, skipn_length; lia).
      rewrite <- app_assoc, skipn_add, firstn_length, LB.
      replace (Nat.min (olen - i * 48) 48 + i * 48)%nat with (Nat.min olen (S i * 48)) by lia. reflexivity. }
  rewrite K. cbn [bind]. replace (i * 48 + 48)%nat with (S i * 48)%nat by lia.
  destruct (IH (S i) (out ++ cb) (code_T sha pass salt rep (S i) ++ repeat 0 (64 - sha)) (u' ++ repeat 0 (64 - sha)) ku' ((salt ++ be_bytes 4 (Z.of_nat (S i))) ++ skipn (length (be_bytes 4 (Z.of_nat (S i)))) (skipn (length salt) s))) as (k & f1 & u1 & ku1 & s1 & n1 & E & HK).
  - rewrite app_length. lia.
  - rewrite !app_length, !skipn_length, be_bytes_length. lia.
  - eexists. split; [exact LC|reflexivity].
  - eexists. split; [exact LU'|reflexivity].
  - exact LK'.
  - exists k, f1, u1, ku1, s1, n1. replace (i + S d)%nat with (S i + d)%nat by lia. split; [exact E|]. rewrite HK. cbn [map concat]. rewrite <- app_assoc. reflexivity.
Qed.
Definition code_out (sha : nat) (pass salt : list Z) (rep olen : nat) : list Z :=
  firstn olen (concat (map (code_block sha pass salt rep) (seq 1 (olen / sha + (if (olen mod sha =? 0)%nat then 0 else 1))))).
(* all that pbkdf2 computes; bytes of k behind the blocks stay as they were *)
Lemma pbkdf2_all chk sha pass salt rep olen k : is_sha sha -> bytes pass -> bytes salt -> (length salt <= 32)%nat -> noov chk sha (length pass + 256) -> (olen <= length k)%nat ->
  pbkdf2 chk sha pass salt rep olen k = Some (code_out sha pass salt rep olen ++ skipn (length (code_out sha pass salt rep olen)) k).
Proof.
  intros SH P A AL N W. pose proof (is_sha_64 sha SH) as S64. unfold pbkdf2, code_out, kdf_rounds. destruct (Nat.eqb_spec sha 0); [lia|]. cbn [bind].
  set (d := (_ + _)%nat). destruct (pbk_go chk sha pass salt rep olen k SH P A AL N W d 0 [] (repeat 0 64) (repeat 0 64) (repeat 0 64) (repeat 0 36)) as (k' & f1 & u1 & ku1 & s1 & n1 & E & HK); try reflexivity.
  - exists (repeat 0 sha). split; [apply repeat_length|]. rewrite <- repeat_app. f_equal. lia.
  - exists (repeat 0 sha). split; [apply repeat_length|]. rewrite <- repeat_app. f_equal. lia.
  - cbn [Nat.mul Nat.min] in E. rewrite Nat.min_0_r, firstn_nil in E. cbn [app skipn] in E. change (be_bytes 4 (Z.of_nat 0)) with (repeat 0 4) in E. rewrite E. cbn [bind]. rewrite HK. cbn [app Nat.add].
    rewrite firstn_length, (concat_len _ 48), seq_length; [reflexivity|]. intros i. apply code_block_len; assumption.
Qed.
Lemma pbkdf2_salt : forall chk sha pass salt rep olen k, is_sha sha -> (32 < length salt)%nat -> (0 < olen)%nat -> pbkdf2 chk sha pass salt rep olen k = None.
Proof.
  intros chk sha pass salt rep olen k SH L O. pose proof (is_sha_64 sha SH). unfold pbkdf2. destruct (rounds_eq sha olen ltac:(lia)) as (d & E & _ & D & _). rewrite E. cbn [bind].
  destruct d as [|d]; [lia|]. cbn [seq foldM]. unfold pbk_block at 1. destruct (put (repeat 0 36) 0 salt) as [s|] eqn:E1; [|reflexivity]. cbn [bind].
  apply put_len in E1 as L1. rewrite repeat_length in L1. unfold put at 1. assert (LI : length (inttobytes (Z.of_nat 0 + 1) (repeat 0 4)) = 4%nat) by reflexivity. rewrite LI, L1.
  destruct (Nat.leb_spec (length salt + 4) 36); [lia|]. reflexivity.
Qed.

(* where this is PBKDF2 *)
Lemma code_T_right n pass salt c i : (c <= 1 \/ n = 64)%nat -> code_T n pass salt c i = pbk_T n pass salt c i.
Proof.
  intros [C|C]; unfold code_T, pbk_T; cbv zeta.
  - replace (c - 1)%nat with 0%nat by lia. reflexivity.
  - subst n. generalize (HMAC 64 pass (salt ++ be_bytes 4 (Z.of_nat i))) at 1 3. generalize (HMAC 64 pass (salt ++ be_bytes 4 (Z.of_nat i))). generalize (c - 1)%nat.
    induction n as [|n IH]; intros u t; [reflexivity|]. cbn [code_more pbk_more]. change (repeat 0 (64 - 64)) with (@nil Z). rewrite app_nil_r. apply IH.
Qed.
Lemma pbk_more_len n pass : is_sha n -> bytes pass -> forall c t u, length t = n -> bytes u -> length (pbk_more n pass c t u) = n.
Proof. intros S P. induction c as [|c IH]; intros t u T U; [exact T|]. cbn [pbk_more]. destruct (HMAC_len n pass u S P U) as [L B]. apply IH; [rewrite xors_len; lia|exact B]. Qed.
Lemma pbk_T_len n pass salt c i : is_sha n -> bytes pass -> bytes salt -> length (pbk_T n pass salt c i) = n.
Proof.
  intros S P A. unfold pbk_T. cbv zeta. destruct (HMAC_len n pass (salt ++ be_bytes 4 (Z.of_nat i)) S P) as [L B]; [apply Forall_app; split; [exact A|apply be_bytes_bytes]|].
  apply (pbk_more_len n pass S P); assumption.
Qed.
Lemma code_out_right sha pass salt rep olen : is_sha sha -> bytes pass -> bytes salt -> (rep <= 1 \/ sha = 64)%nat -> (olen <= sha /\ olen <= 48 \/ sha = 48)%nat ->
  code_out sha pass salt rep olen = PBKDF2 sha pass salt rep olen.
Proof.
  intros SH P A R O. pose proof (is_sha_64 sha SH) as S64. unfold code_out, PBKDF2.
  set (d := (olen / sha + (if (olen mod sha =? 0)%nat then 0 else 1))%nat).
  assert (D : (olen <= d * sha)%nat /\ (d <= olen / sha + 1)%nat).
  { unfold d. pose proof (Nat.div_mod olen sha ltac:(lia)). pose proof (Nat.mod_upper_bound olen sha ltac:(lia)). destruct (Nat.eqb_spec (olen mod sha) 0); lia. }
  rewrite <- (firstn_more (pbk_T sha pass salt rep) sha 1 d (olen / sha + 1) olen) by (try (intros i; apply pbk_T_len; assumption); lia).
  assert (BL : forall i, code_block sha pass salt rep i = firstn 48 (pbk_T sha pass salt rep i ++ repeat 0 (64 - sha))) by (intros i; unfold code_block; rewrite code_T_right by exact R; reflexivity).
  destruct O as [[O1 O2]|O].
  - assert (d <= 1)%nat. { unfold d. destruct (Nat.eq_dec olen sha) as [ ->|NE]; [rewrite Nat.div_same, Nat.mod_same by lia; cbn [Nat.eqb]; lia|]. rewrite Nat.div_small by lia. destruct (olen mod sha =? 0)%nat; lia. }
    destruct d as [|[|d]]; [reflexivity| |lia]. cbn [seq map concat]. rewrite !app_nil_r, BL, firstn_firstn, Nat.min_l by lia. rewrite firstn_app.
    rewrite (pbk_T_len sha pass salt rep 1 SH P A). replace (olen - sha)%nat with 0%nat by lia. cbn [firstn]. apply app_nil_r.
  - f_equal. f_equal. apply map_ext. intros i. rewrite BL. apply firstn_exact. rewrite (pbk_T_len sha pass salt rep i SH P A). exact O.
Qed.
Lemma PBKDF2_len sha pass salt rep olen : is_sha sha -> bytes pass -> bytes salt -> length (PBKDF2 sha pass salt rep olen) = olen.
Proof.
  intros SH P A. unfold PBKDF2. pose proof (is_sha_64 sha SH). rewrite firstn_length, (concat_len _ sha), seq_length by (intros i; apply pbk_T_len; assumption).
  pose proof (Nat.div_mod olen sha ltac:(lia)). pose proof (Nat.mod_upper_bound olen sha ltac:(lia)). lia.
Qed.
Lemma pbkdf2_right : forall chk sha pass salt rep olen k, is_sha sha -> bytes pass -> bytes salt -> (length salt <= 32)%nat -> noov chk sha (length pass + 256) -> (olen <= length k)%nat ->
  (rep <= 1 \/ sha = 64)%nat -> (olen <= sha /\ olen <= 48 \/ sha = 48)%nat ->
  pbkdf2 chk sha pass salt rep olen k = Some (PBKDF2 sha pass salt rep olen ++ skipn olen k).
Proof.
  intros chk sha pass salt rep olen k SH P A AL N W R O. rewrite (pbkdf2_all chk sha pass salt rep olen k SH P A AL N W), (code_out_right sha pass salt rep olen SH P A R O).
  rewrite (PBKDF2_len sha pass salt rep olen SH P A). reflexivity.
Qed.
(* and where not: output longer than a hash, and more than one repetition *)
Lemma pbkdf2_refuted : exists pass salt r, bytes pass /\ bytes salt /\
  pbkdf2 false 32 pass salt 1 48 (repeat 0 48) = Some r /\ r <> PBKDF2 32 pass salt 1 48.
Proof.
  exists [1], [2]. assert (B : forall v, 0 <= v < 256 -> bytes [v]) by (intros v V; constructor; [exact V|constructor]).
  eexists. split; [apply B; lia|]. split; [apply B; lia|]. split.
  - apply (pbkdf2_all false 32 [1] [2] 1 48 (repeat 0 48)); [left; reflexivity|apply B; lia|apply B; lia|cbn [length]; lia|left; reflexivity|rewrite repeat_length; apply le_n].
  - intros E. assert (H : nth 32 (PBKDF2 32 [1] [2] 1 48) 0 = 0).
    { rewrite <- E. unfold code_out. change (seq 1 _) with [1%nat; 2%nat]. cbn [map concat]. set (b2 := code_block 32 [1] [2] 1 2).
      assert (L : length (code_block 32 [1] [2] 1 1) = 48%nat) by (apply code_block_len; [left; reflexivity|apply B; lia|apply B; lia]).
      rewrite firstn_exact by exact L. rewrite app_nth1 by (rewrite L; lia). unfold code_block. rewrite firstn_app.
      rewrite code_T_right by (left; lia). rewrite (pbk_T_len 32 [1] [2] 1 1 (or_introl eq_refl) (B 1 ltac:(lia)) (B 2 ltac:(lia))). rewrite firstn_all2 by (rewrite (pbk_T_len 32 [1] [2] 1 1 (or_introl eq_refl) (B 1 ltac:(lia)) (B 2 ltac:(lia))); lia).
      rewrite app_nth2 by (rewrite (pbk_T_len 32 [1] [2] 1 1 (or_introl eq_refl) (B 1 ltac:(lia)) (B 2 ltac:(lia))); lia). rewrite (pbk_T_len 32 [1] [2] 1 1 (or_introl eq_refl) (B 1 ltac:(lia)) (B 2 ltac:(lia))). reflexivity. }
    assert (H2 : nth 32 (PBKDF2 32 [1] [2] 1 48) 0 = nth 0 (pbk_T 32 [1] [2] 1 2) 0).
    { unfold PBKDF2. change (seq 1 _) with [1%nat; 2%nat]. cbn [map concat]. rewrite app_nil_r. pose proof (pbk_T_len 32 [1] [2] 1 1 (or_introl eq_refl) (B 1 ltac:(lia)) (B 2 ltac:(lia))) as L1.
      pose proof (pbk_T_len 32 [1] [2] 1 2 (or_introl eq_refl) (B 1 ltac:(lia)) (B 2 ltac:(lia))) as L2. set (t1 := pbk_T 32 [1] [2] 1 1) in *. set (t2 := pbk_T 32 [1] [2] 1 2) in *. clearbody t1 t2.
      rewrite firstn_app, L1. rewrite app_nth2 by (rewrite firstn_length; lia). rewrite firstn_length, L1. change (32 - Nat.min 48 32)%nat with 0%nat. destruct t2; [discriminate L2|]. reflexivity. }
    rewrite H in H2. vm_compute in H2. discriminate H2.
Qed.
Lemma pbkdf2_rep_refuted : exists pass salt r, bytes pass /\ bytes salt /\
  pbkdf2 false 32 pass salt 2 32 (repeat 0 32) = Some r /\ r <> PBKDF2 32 pass salt 2 32.
Proof.
  exists [1], [2]. assert (B : forall v, 0 <= v < 256 -> bytes [v]) by (intros v V; constructor; [exact V|constructor]).
  eexists. split; [apply B; lia|]. split; [apply B; lia|]. split.
  - apply (pbkdf2_all false 32 [1] [2] 2 32 (repeat 0 32)); [left; reflexivity|apply B; lia|apply B; lia|cbn [length]; lia|left; reflexivity|rewrite repeat_length; apply le_n].
  - intros E. vm_compute in E. discriminate E.
Qed.
