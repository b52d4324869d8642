(* Proofs about hashit, hmac, kdf1, kdf2 and pbkdf2 of ecdh.rs. *)
From Coq Require Import ZArith List Bool Lia.
From Verif Require Import Prim PrimP SpecBytes SpecSha SpecSha5 SpecMac Utils Hash256 Hash512 HashP HashQ RandP Ecdh.
Import ListNotations.
Open Scope Z_scope.

(* the build has no overflow checks, or they cannot fire on n bytes *)
Definition noov (chk : bool) (sha n : nat) : Prop :=
  chk = false \/ (sha = 32%nat /\ Z.of_nat n < 2 ^ 29 - 8) \/ (sha = 64%nat /\ Z.of_nat n < 2 ^ 61 - 16).
Lemma noov_le chk sha n m : noov chk sha n -> (m <= n)%nat -> noov chk sha m.
Proof. intros [H|[[H1 H2]|[H1 H2]]] L; [left; exact H|right; left; split; [exact H1|lia]|right; right; split; [exact H1|lia]]. Qed.

(* put *)
Lemma put_ok w off l : (off + length l <= length w)%nat -> put w off l = Some (firstn off w ++ l ++ skipn (off + length l) w).
Proof. intros H. unfold put. destruct (Nat.leb_spec (off + length l) (length w)); [reflexivity|lia]. Qed.
Lemma put0 w l : (length l <= length w)%nat -> put w 0 l = Some (l ++ skipn (length l) w).
Proof. intros H. rewrite put_ok by exact H. reflexivity. Qed.
Lemma put_len w off l w' : put w off l = Some w' -> length w' = length w.
Proof.
  unfold put. destruct (Nat.leb_spec (off + length l) (length w)) as [H|H]; intros E; inversion E. rewrite !app_length, firstn_length_le, skipn_length by lia. lia.
Qed.
Lemma put_app a b l : (length l <= length b)%nat -> put (a ++ b) (length a) l = Some (a ++ l ++ skipn (length l) b).
Proof.
  intros H. rewrite put_ok by (rewrite app_length; lia). f_equal. rewrite firstn_app, Nat.sub_diag, firstn_all. cbn [firstn]. rewrite app_nil_r. do 2 f_equal.
  rewrite skipn_app, (skipn_all2 a) by lia. cbn [app]. f_equal. lia.
Qed.

Lemma skip_rep (n m : nat) : skipn n (repeat 0 m) = repeat 0 (m - n).
Proof. revert n. induction m as [|m IH]; intros [|n]; try reflexivity. cbn [repeat skipn]. apply IH. Qed.
Lemma sha_long_bytes H m : bytes (sha_long H m).
Proof.
  unfold sha_long. generalize (fold_left compress64 (blocks128 (length (padded128 m) / 128) (padded128 m)) H). intros l. induction l as [|x l IH]; [constructor|].
  cbn [flat_map]. apply Forall_app. split; [apply be_bytes_bytes|exact IH].
Qed.
Lemma bytes_first n l : bytes l -> bytes (firstn n l).
Proof. intros B. apply Forall_forall. intros x X. rewrite <- (firstn_skipn n l) in B. apply Forall_app in B. exact (proj1 (Forall_forall _ _) (proj1 B) x X). Qed.
Lemma hfun_len n m : is_sha n -> bytes m -> length (hfun n m) = n.
Proof.
  intros [ ->|[ ->| ->]] B; unfold hfun; cbn [Nat.eqb].
  - exact (proj1 (sha_len m B)).
  - unfold sha384. rewrite firstn_length_le; [reflexivity|]. rewrite sha_len64 by exact H384_ok. lia.
  - unfold sha512. apply sha_len64. exact H512_ok.
Qed.
Lemma hfun_bytes n m : is_sha n -> bytes m -> bytes (hfun n m).
Proof.
  intros [ ->|[ ->| ->]] B; unfold hfun; cbn [Nat.eqb].
  - exact (proj2 (sha_len m B)).
  - unfold sha384. apply bytes_first. apply sha_long_bytes.
  - apply sha_long_bytes.
Qed.

(* hashit *)
Definition num (n : Z) : list Z := if 0 <? n then be_bytes 4 n else [].
Definition opt (b : option (list Z)) : list Z := match b with Some x => x | None => [] end.
Lemma num_bytes n : bytes (num n). Proof. unfold num. destruct (0 <? n); [apply be_bytes_bytes|constructor]. Qed.
Lemma as_i32_range n : - 2 ^ 31 <= as_i32 n < 2 ^ 31.
Proof. unfold as_i32. pose proof (Z.mod_pos_bound (n + 2147483648) 4294967296 ltac:(lia)). lia. Qed.
Lemma as_i32_mod n : as_i32 n mod 2 ^ 32 = n mod 2 ^ 32.
Proof. unfold as_i32. change 4294967296 with (2 ^ 32). rewrite Zminus_mod_idemp_l. f_equal. lia. Qed.
Lemma be4_mod n : be_bytes 4 (n mod 2 ^ 32) = be_bytes 4 n.
Proof. change (2 ^ 32) with (256 ^ Z.of_nat 4). apply be_bytes_mod. Qed.
Lemma run256_eq chk a n b : run256 chk a n b = ('(hs, _) <- (s <- foldM (h_process_array chk) [a; num n; opt b] h_new ;; h_hash chk s) ;; Some hs).
Proof.
  unfold run256. cbn [foldM]. destruct (h_process_array chk h_new a) as [s|]; [|reflexivity]. cbn [bind].
  assert (N : (if 0 <? n then h_process_num chk s (as_i32 n) else Some s) = h_process_array chk s (num n)).
  { unfold num. destruct (0 <? n); [|reflexivity]. rewrite HashP.sha_num by apply as_i32_range. rewrite as_i32_mod, be4_mod. reflexivity. }
  rewrite N. destruct (h_process_array chk s (num n)) as [s1|]; [|reflexivity]. cbn [bind].
  assert (O : (match b with Some x => h_process_array chk s1 x | None => Some s1 end) = h_process_array chk s1 (opt b)) by (destruct b; reflexivity).
  rewrite O. destruct (h_process_array chk s1 (opt b)) as [s2|]; [|reflexivity]. reflexivity.
Qed.
Lemma run512_eq st chk h0 len a n b : run512 st chk h0 len a n b = ('(hs, _) <- (s <- foldM (q_process_array st chk) [a; num n; opt b] (q_new h0) ;; q_hash st chk h0 len s) ;; Some hs).
Proof.
  unfold run512. cbn [foldM]. destruct (q_process_array st chk (q_new h0) a) as [s|]; [|reflexivity]. cbn [bind].
  assert (N : (if 0 <? n then q_process_num st chk s (as_i32 n) else Some s) = q_process_array st chk s (num n)).
  { unfold num. destruct (0 <? n); [|reflexivity]. rewrite HashQ.sha_num by apply as_i32_range. rewrite as_i32_mod, be4_mod. reflexivity. }
  rewrite N. destruct (q_process_array st chk s (num n)) as [s1|]; [|reflexivity]. cbn [bind].
  assert (O : (match b with Some x => q_process_array st chk s1 x | None => Some s1 end) = q_process_array st chk s1 (opt b)) by (destruct b; reflexivity).
  rewrite O. destruct (q_process_array st chk s1 (opt b)) as [s2|]; [|reflexivity]. reflexivity.
Qed.
Lemma concat3 (a b c : list Z) : concat [a; b; c] = a ++ b ++ c. Proof. cbn [concat]. rewrite app_nil_r. reflexivity. Qed.
Lemma hash_r_ok chk sha a n b : is_sha sha -> bytes a -> bytes (opt b) -> noov chk sha (length (a ++ num n ++ opt b)) ->
  hash_r chk sha a n b = Some (hfun sha (a ++ num n ++ opt b) ++ repeat 0 (64 - sha)).
Proof.
  intros S A B N. assert (BB : Forall bytes [a; num n; opt b]) by (constructor; [exact A|constructor; [apply num_bytes|constructor; [exact B|constructor]]]).
  assert (BM : bytes (a ++ num n ++ opt b)) by (apply Forall_app; split; [exact A|apply Forall_app; split; [apply num_bytes|exact B]]).
  assert (H : (if (sha =? 32)%nat then run256 chk a n b else if (sha =? 48)%nat then run512 chk chk HASH384_H 48 a n b
     else if (sha =? 64)%nat then run512 false chk HASH512_H 64 a n b else Some []) = Some (hfun sha (a ++ num n ++ opt b))).
  { rewrite run256_eq, !run512_eq. rewrite <- concat3 in *. destruct S as [ ->|[ ->| ->]]; cbn [Nat.eqb]; unfold hfun; cbn [Nat.eqb].
    - destruct chk.
      + rewrite (sha_checked _ BB); [reflexivity|]. destruct N as [N|[N|N]]; [discriminate N|exact (proj2 N)|destruct N as [N _]; discriminate N].
      + rewrite (sha_release _ BB). reflexivity.
    - destruct N as [ ->|[[N _]|[N _]]]; [|discriminate N..]. rewrite (sha384_release _ BB). reflexivity.
    - rewrite (sha512_ok chk _ BB); [reflexivity|]. destruct N as [ ->|[[N _]|[_ N]]]; [exact I|discriminate N|]. unfold small. destruct chk; [exact N|exact I]. }
  unfold hash_r. rewrite H. cbn [bind]. pose proof (hfun_len sha _ S BM) as L.
  assert (S64 : (sha <= 64)%nat) by (destruct S as [ ->|[ ->| ->]]; lia).
  rewrite put0 by (rewrite L, repeat_length; exact S64). rewrite L, skip_rep. reflexivity.
Qed.
Lemma put0' w l n : length l = n -> (n <= length w)%nat -> put w 0 l = Some (l ++ skipn n w).
Proof. intros <- H. apply put0, H. Qed.
Lemma firstn_exact {A} (l m : list A) n : length l = n -> firstn n (l ++ m) = l.
Proof. intros <-. rewrite firstn_app, Nat.sub_diag, firstn_all. cbn [firstn]. apply app_nil_r. Qed.
Lemma skipn_exact {A} (l m : list A) n : length l = n -> skipn n (l ++ m) = m.
Proof. intros <-. rewrite skipn_app, Nat.sub_diag, skipn_all. reflexivity. Qed.
Lemma skipn_add {A} (l : list A) n m : skipn n (skipn m l) = skipn (n + m) l.
Proof. revert l n. induction m as [|m IH]; intros l n; [rewrite Nat.add_0_r; reflexivity|]. rewrite Nat.add_succ_r. destruct l as [|x l]; [rewrite !skipn_nil; reflexivity|]. cbn [skipn]. apply IH. Qed.
Lemma is_sha_64 sha : is_sha sha -> (4 <= sha <= 64)%nat. Proof. intros [ ->|[ ->| ->]]; lia. Qed.
(* length 0 stands for the whole digest *)
Definition plen (pad sha : nat) : nat := if (pad =? 0)%nat then sha else pad.
Lemma fit_all l h : length h = l -> fit l h = h.
Proof. intros L. unfold fit. rewrite L, Nat.leb_refl. apply firstn_all2. lia. Qed.
Lemma fit_len l h : length (fit l h) = l.
Proof. unfold fit. destruct (Nat.leb_spec l (length h)) as [H|H]; [apply firstn_length_le, H|rewrite app_length, repeat_length; lia]. Qed.
Lemma hashit_ok chk sha a n b pad w : is_sha sha -> bytes a -> bytes (opt b) -> noov chk sha (length (a ++ num n ++ opt b)) -> (plen pad sha <= length w)%nat ->
  hashit chk sha a n b pad w = Some (fit (plen pad sha) (hfun sha (a ++ num n ++ opt b)) ++ skipn (plen pad sha) w).
Proof.
  intros S A B N W. unfold hashit. rewrite (hash_r_ok chk sha a n b S A B N). cbn [bind].
  assert (BM : bytes (a ++ num n ++ opt b)) by (apply Forall_app; split; [exact A|apply Forall_app; split; [apply num_bytes|exact B]]).
  pose proof (hfun_len sha _ S BM) as L. set (h := hfun sha _) in *. clearbody h. pose proof (is_sha_64 sha S) as S64. unfold plen in *.
  destruct (Nat.ltb_spec 64 sha); [lia|]. rewrite firstn_exact by exact L. destruct (Nat.eqb_spec pad 0) as [E|E].
  - rewrite fit_all by exact L. apply put0'; assumption.
  - unfold fit. rewrite L. destruct (Nat.leb_spec pad sha) as [P|P].
    + rewrite firstn_app. replace (pad - length h)%nat with 0%nat by lia. cbn [firstn]. rewrite app_nil_r. apply put0'; [apply firstn_length_le; lia|exact W].
    + rewrite put_ok by lia. cbn [bind]. rewrite L. replace (pad - sha + sha)%nat with pad by lia.
      rewrite (put0' _ _ (pad - sha)); [|apply repeat_length|rewrite !app_length, firstn_length_le, skipn_length by lia; lia].
      rewrite skipn_exact by (apply firstn_length_le; lia). rewrite app_assoc. reflexivity.
Qed.
Lemma nil_num : num 0 = []. Proof. reflexivity. Qed.

(* hmac *)
Lemma xor_pad l : map (fun x => Z.lxor x 106) (map (fun x => Z.lxor x 54) l) = map (fun x => Z.lxor x 92) l.
Proof. rewrite map_map. apply map_ext. intros x. rewrite Z.lxor_assoc. reflexivity. Qed.
Lemma xor_bytes l c : bytes l -> 0 <= c < 256 -> bytes (map (fun x => Z.lxor x c) l).
Proof.
  intros B C. apply Forall_forall. intros y Y. apply in_map_iff in Y. destruct Y as (x & <- & X). pose proof (proj1 (Forall_forall _ _) B x X) as R. cbv beta in R.
  change 256 with (2 ^ 8) in *. split; [apply Z.lxor_nonneg; lia|]. destruct (Z.eq_dec (Z.lxor x c) 0) as [E|E]; [rewrite E; reflexivity|].
  assert (0 <= Z.lxor x c) by (apply Z.lxor_nonneg; lia). apply Z.log2_lt_pow2; [lia|]. pose proof (Z.log2_lxor x c ltac:(lia) ltac:(lia)) as LX.
  assert (LL : forall v, 0 <= v < 2 ^ 8 -> Z.log2 v < 8). { intros v V. destruct (Z.eq_dec v 0) as [ ->|NV]; [reflexivity|apply Z.log2_lt_pow2; lia]. }
  pose proof (LL x R). pose proof (LL c C). lia.
Qed.
Lemma zeros_bytes n : bytes (repeat 0 n). Proof. apply Forall_forall. intros x X. apply repeat_spec in X. subst. lia. Qed.
Lemma hblock_eq sha : is_sha sha -> (if (32 <? sha)%nat then 128%nat else 64%nat) = hblock sha.
Proof. intros [ ->|[ ->| ->]]; reflexivity. Qed.
Lemma hblock_le sha : is_sha sha -> (64 <= hblock sha <= 128)%nat /\ (sha <= hblock sha)%nat.
Proof. intros [ ->|[ ->| ->]]; unfold hblock; cbn [Nat.eqb]; lia. Qed.
Lemma mac_key_len sha k : is_sha sha -> bytes k -> length (mac_key sha k) = hblock sha.
Proof.
  intros S B. pose proof (hblock_le sha S). unfold mac_key. destruct (Nat.ltb_spec (hblock sha) (length k)) as [L|L]; rewrite app_length, repeat_length; [rewrite (hfun_len sha k S B)|]; lia.
Qed.
Lemma mac_key_bytes sha k : is_sha sha -> bytes k -> bytes (mac_key sha k).
Proof. intros S B. unfold mac_key. apply Forall_app. split; [destruct (hblock sha <? length k)%nat; [apply hfun_bytes; assumption|exact B]|apply zeros_bytes]. Qed.
Lemma hmac_k0_ok chk sha k : is_sha sha -> bytes k -> noov chk sha (length k) ->
  hmac_k0 chk sha (hblock sha) k = Some (mac_key sha k ++ repeat 0 (128 - hblock sha)).
Proof.
  intros S B N. pose proof (hblock_le sha S) as HB. pose proof (is_sha_64 sha S). unfold hmac_k0, mac_key. destruct (Nat.ltb_spec (hblock sha) (length k)) as [L|L].
  - rewrite (hashit_ok chk sha k 0 None 0 (repeat 0 64) S B (Forall_nil _)); [|rewrite nil_num; cbn [opt]; rewrite !app_nil_r; exact N|unfold plen; cbn [Nat.eqb]; rewrite repeat_length; lia].
    cbn [bind]. rewrite nil_num. cbn [opt app]. rewrite app_nil_r. unfold plen. cbn [Nat.eqb]. pose proof (hfun_len sha k S B) as HL. rewrite fit_all by exact HL. rewrite firstn_exact by exact HL.
    rewrite (put0' _ _ sha HL) by (rewrite repeat_length; lia). rewrite skip_rep, HL, <- app_assoc, <- repeat_app. do 3 f_equal. lia.
  - rewrite put0 by (rewrite repeat_length; lia). rewrite skip_rep, <- app_assoc, <- repeat_app. do 3 f_equal. lia.
Qed.
Lemma hmac_ok : forall chk sha m k olen tag, is_sha sha -> bytes m -> bytes k -> (4 <= olen <= length tag)%nat -> noov chk sha (length k + length m + 192) ->
  hmac chk sha m k olen tag = Some (true, fit olen (HMAC sha k m) ++ skipn olen tag).
Proof.
  intros chk sha m k olen tag S M K O N. unfold hmac. destruct (Nat.ltb_spec olen 4); [lia|]. rewrite (hblock_eq sha S). pose proof (hblock_le sha S) as HB. pose proof (is_sha_64 sha S).
  rewrite (hmac_k0_ok chk sha k S K) by (apply (noov_le _ _ _ _ N); lia). cbn [bind]. pose proof (mac_key_len sha k S K) as ML. pose proof (mac_key_bytes sha k S K) as MB.
  rewrite (firstn_exact _ _ _ ML). rewrite xor_pad. unfold HMAC. set (mk := mac_key sha k) in *. clearbody mk.
  assert (B1 : bytes (map (fun x => Z.lxor x 54) mk)) by (apply xor_bytes; [exact MB|lia]). assert (B2 : bytes (map (fun x => Z.lxor x 92) mk)) by (apply xor_bytes; [exact MB|lia]).
  assert (BI : bytes (map (fun x => Z.lxor x 54) mk ++ m)) by (apply Forall_app; split; assumption).
  rewrite (hashit_ok chk sha _ 0 (Some m) 0 (repeat 0 64) S B1 M); rewrite ?nil_num; cbn [opt app].
  2:{ apply (noov_le _ _ _ _ N). rewrite app_length, map_length, ML. lia. } 2:{ unfold plen. cbn [Nat.eqb]. rewrite repeat_length. lia. }
  cbn [bind]. unfold plen at 1. cbn [Nat.eqb]. pose proof (hfun_len sha _ S BI) as HL. rewrite fit_all by exact HL. unfold plen at 1. cbn [Nat.eqb].
  rewrite firstn_exact by exact HL. pose proof (hfun_bytes sha _ S BI) as HBy. set (ih := hfun sha (_ ++ m)) in *. clearbody ih.
  rewrite (hashit_ok chk sha _ 0 (Some ih) olen tag S B2 HBy); rewrite ?nil_num; cbn [opt app].
  2:{ apply (noov_le _ _ _ _ N). rewrite app_length, map_length, ML, HL. lia. } 2:{ unfold plen. destruct (Nat.eqb_spec olen 0); lia. }
  cbn [bind]. unfold plen. destruct (Nat.eqb_spec olen 0); [lia|]. reflexivity.
Qed.
Lemma hmac_short : forall chk sha m k olen tag, (olen < 4)%nat -> hmac chk sha m k olen tag = Some (false, tag).
Proof. intros chk sha m k olen tag O. unfold hmac. destruct (Nat.ltb_spec olen 4); [reflexivity|lia]. Qed.

(* kdf1 and kdf2 *)
Definition kblock (sha : nat) (z p : list Z) (i : nat) : list Z := hfun sha (z ++ num (Z.of_nat i) ++ p).
Lemma kblock_len sha z p i : is_sha sha -> bytes z -> bytes p -> length (kblock sha z p i) = sha.
Proof. intros S Z0 P. apply hfun_len; [exact S|]. apply Forall_app; split; [exact Z0|apply Forall_app; split; [apply num_bytes|exact P]]. Qed.
Lemma concat_len (f : nat -> list Z) c : (forall i, length (f i) = c) -> forall l, length (concat (map f l)) = (length l * c)%nat.
Proof. intros F. induction l as [|x l IH]; [reflexivity|]. cbn [map concat length]. rewrite app_length, F, IH. lia. Qed.
Lemma kdf_go chk sha z p olen k0 : is_sha sha -> bytes z -> bytes (opt p) -> noov chk sha (length z + 4 + length (opt p)) -> (olen <= length k0)%nat ->
  forall ct first i lk pre, (length pre = i * sha)%nat -> lk = (i * sha)%nat -> ((i + ct - 1) * sha < olen \/ ct = 0)%nat -> (lk <= olen)%nat ->
  exists kk, foldM (kdf_step chk sha z p olen) (seq first ct) (pre ++ skipn lk k0, lk) = Some kk /\
   fst kk = firstn olen (pre ++ concat (map (kblock sha z (opt p)) (seq first ct))) ++ skipn (Nat.min olen ((i + ct) * sha)) k0.
Proof.
  intros SH B P N W. pose proof (is_sha_64 sha SH) as S64. induction ct as [|ct IH]; intros first i lk pre LP LK C LO.
  - exists (pre ++ skipn lk k0, lk). split; [reflexivity|]. cbn [seq map concat fst]. rewrite app_nil_r, firstn_all2 by lia. do 2 f_equal. lia.
  - cbn [seq foldM]. unfold kdf_step at 1. destruct C as [C|C]; [|discriminate C].
    rewrite (hashit_ok chk sha z (Z.of_nat first) p 0 (repeat 0 64) SH B P).
    2:{ apply (noov_le _ _ _ _ N). rewrite !app_length. unfold num. destruct (0 <? Z.of_nat first); rewrite ?be_bytes_length; cbn [length]; lia. }
    2:{ unfold plen. cbn [Nat.eqb]. rewrite repeat_length. lia. }
    cbn [bind]. unfold plen. cbn [Nat.eqb]. fold (kblock sha z (opt p) first). pose proof (kblock_len sha z (opt p) first SH B P) as HL. rewrite fit_all by exact HL.
    set (b := kblock sha z (opt p) first) in *. assert (LKP : lk = length pre) by lia.
    destruct (Nat.ltb_spec olen (lk + sha)) as [E|E].
    + assert (CT : ct = 0%nat). { destruct ct as [|ct]; [reflexivity|]. exfalso. assert ((i + 1) * sha <= (i + S (S ct) - 1) * sha)%nat by (apply Nat.mul_le_mono_r; lia). lia. }
      subst ct. assert (M : (olen mod sha = olen - lk)%nat). { symmetry. apply (Nat.mod_unique olen sha i); [|lia]. lia. }
      rewrite M. rewrite firstn_app. replace (olen - lk - length b)%nat with 0%nat by lia. cbn [firstn]. rewrite app_nil_r.
      rewrite LKP. rewrite put_app by (rewrite firstn_length_le, skipn_length by lia; lia). cbn [bind seq foldM map concat]. eexists. split; [reflexivity|]. cbn [fst].
      rewrite app_nil_r, firstn_app. rewrite (firstn_all2 pre) by lia. rewrite <- app_assoc, skipn_add. rewrite (firstn_length_le b) by lia.
      replace (Nat.min olen ((i + 1) * sha)) with (olen - length pre + length pre)%nat by lia. reflexivity.
    + rewrite firstn_exact by exact HL. rewrite LKP. rewrite put_app by (rewrite skipn_length; lia). cbn [bind]. rewrite skipn_add, HL, app_assoc.
      replace (length pre + sha)%nat with (sha + length pre)%nat by lia.
      destruct (IH (S first) (S i) (sha + length pre)%nat (pre ++ b)) as (kk & EK & HK); [rewrite app_length, HL; lia|lia|..].
      { destruct ct as [|ct]; [right; reflexivity|left]. replace (S i + S ct - 1)%nat with (i + S (S ct) - 1)%nat by lia. exact C. } { lia. }
      exists kk. split; [exact EK|]. rewrite HK. cbn [map concat]. rewrite <- app_assoc. do 3 f_equal. f_equal. lia.
Qed.

Lemma rounds_eq sha olen : (0 < sha)%nat -> exists ct, kdf_rounds sha olen = Some ct /\ ((ct - 1) * sha < olen \/ ct = 0)%nat /\ (olen <= ct * sha)%nat /\ (ct <= olen / sha + 1)%nat.
Proof.
  intros S. unfold kdf_rounds. destruct (Nat.eqb_spec sha 0); [lia|]. pose proof (Nat.div_mod olen sha ltac:(lia)) as D. pose proof (Nat.mod_upper_bound olen sha ltac:(lia)) as M.
  eexists. split; [reflexivity|]. destruct (Nat.eqb_spec (olen mod sha) 0) as [E|E].
  - rewrite Nat.add_0_r. split; [|lia]. destruct (olen / sha)%nat as [|d]; [right; reflexivity|left]. cbn [Nat.sub]. rewrite Nat.sub_0_r. lia.
  - split; [left; rewrite Nat.add_sub; lia|]. lia.
Qed.
Lemma firstn_more (f : nat -> list Z) sha first a b olen : (forall i, length (f i) = sha) -> (a <= b)%nat -> (olen <= a * sha)%nat ->
  firstn olen (concat (map f (seq first a))) = firstn olen (concat (map f (seq first b))).
Proof.
  intros F L O. replace b with (a + (b - a))%nat by lia. rewrite seq_app, map_app, concat_app, firstn_app. rewrite (concat_len f sha F), seq_length.
  replace (olen - a * sha)%nat with 0%nat by lia. cbn [firstn]. rewrite app_nil_r. reflexivity.
Qed.
Lemma kdf_all chk sha z p olen k first : is_sha sha -> bytes z -> bytes (opt p) -> noov chk sha (length z + 4 + length (opt p)) -> (olen <= length k)%nat ->
  (ct <- kdf_rounds sha olen ;; '(k, _) <- foldM (kdf_step chk sha z p olen) (seq first ct) (k, 0%nat) ;; Some k) =
  Some (firstn olen (concat (map (kblock sha z (opt p)) (seq first (olen / sha + 1)))) ++ skipn olen k).
Proof.
  intros S B P N W. pose proof (is_sha_64 sha S) as S64. destruct (rounds_eq sha olen ltac:(lia)) as (ct & E & C1 & C2 & C3). rewrite E. cbn [bind].
  destruct (kdf_go chk sha z p olen k S B P N W ct first 0 0 [] eq_refl eq_refl C1 ltac:(lia)) as ((k1, l1) & EK & HK). cbn [app skipn] in EK. rewrite EK. cbn [bind]. cbn [fst app Nat.add] in HK. rewrite HK.
  rewrite Nat.min_l by lia. rewrite (firstn_more _ sha first ct (olen / sha + 1) olen); [reflexivity| |exact C3|exact C2]. intros i. apply kblock_len; assumption.
Qed.
Lemma kblock_pos sha z p i : (0 < i)%nat -> kblock sha z p i = kdf_block sha z p i.
Proof. intros H. unfold kblock, kdf_block, num. destruct (Z.ltb_spec 0 (Z.of_nat i)); [reflexivity|lia]. Qed.
Lemma kdf2_ok : forall chk sha z p olen k, is_sha sha -> bytes z -> bytes (opt p) -> noov chk sha (length z + 4 + length (opt p)) -> (olen <= length k)%nat ->
  kdf2 chk sha z p olen k = Some (KDF sha z (opt p) 1 olen ++ skipn olen k).
Proof.
  intros chk sha z p olen k S B P N W. unfold kdf2. rewrite (kdf_all chk sha z p olen k 1 S B P N W). unfold KDF. do 4 f_equal. apply map_ext_in. intros i I. apply in_seq in I. apply kblock_pos. lia.
Qed.
(* kdf1: the first block is the hash of z alone *)
Lemma kdf1_ok : forall chk sha z olen k, is_sha sha -> bytes z -> noov chk sha (length z + 4) -> (olen <= length k)%nat ->
  kdf1 chk sha z olen k = Some (firstn olen (hfun sha z ++ KDF sha z [] 1 olen) ++ skipn olen k).
Proof.
  intros chk sha z olen k S B N W. pose proof (is_sha_64 sha S) as S64. unfold kdf1. rewrite (kdf_all chk sha z None olen k 0 S B (Forall_nil _)); [|cbn [opt length]; rewrite Nat.add_0_r; exact N|exact W].
  do 2 f_equal. rewrite (Nat.add_1_r (olen / sha)). cbn [seq map concat opt]. unfold kblock at 1. change (num (Z.of_nat 0)) with (@nil Z). rewrite !app_nil_r. unfold KDF.
  rewrite !firstn_app. rewrite (hfun_len sha z S B). f_equal. rewrite firstn_firstn, Nat.min_l by lia.
  assert (E : concat (map (kblock sha z []) (seq 1 (olen / sha))) = concat (map (kdf_block sha z []) (seq 1 (olen / sha)))) by (f_equal; apply map_ext_in; intros i I; apply in_seq in I; apply kblock_pos; lia).
  rewrite E. apply (firstn_more _ sha).
  - intros i. unfold kdf_block. apply hfun_len; [exact S|]. apply Forall_app; split; [exact B|apply Forall_app; split; [apply be_bytes_bytes|constructor]].
  - lia.
  - pose proof (Nat.div_mod olen sha ltac:(lia)) as D. pose proof (Nat.mod_upper_bound olen sha ltac:(lia)). lia.
Qed.
(* it is KDF2 behind the hash of z; KDF1 of ISO 18033-2 starts with the counter 0 *)
Lemma kdf1_short : forall chk sha z olen k, is_sha sha -> bytes z -> noov chk sha (length z + 4) -> (olen <= length k)%nat -> (olen <= sha)%nat ->
  kdf1 chk sha z olen k = Some (firstn olen (hfun sha z) ++ skipn olen k).
Proof.
  intros chk sha z olen k S B N W O. rewrite (kdf1_ok chk sha z olen k S B N W). rewrite firstn_app, (hfun_len sha z S B).
  replace (olen - sha)%nat with 0%nat by lia. cbn [firstn]. rewrite app_nil_r. reflexivity.
Qed.
Lemma kdf1_refuted : exists z r, bytes z /\ kdf1 false 32 z 32 (repeat 0 32) = Some r /\ r <> KDF 32 z [] 0 32.
Proof.
  assert (B : bytes [1]) by (constructor; [lia|constructor]). exists [1]. eexists. split; [exact B|]. split.
  - apply (kdf1_short false 32 [1] 32 (repeat 0 32)); [left; reflexivity|exact B|left; reflexivity|rewrite repeat_length; apply le_n|apply le_n].
  - intros E. vm_compute in E. discriminate E.
Qed.
