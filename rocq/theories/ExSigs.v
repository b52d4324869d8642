(* Concrete cases meeting the hypotheses of the theorems in PropsSigs. *)
From Coq Require Import ZArith List Bool Lia Permutation.
From Verif Require Import Prim Big Ecp Ecp2 Utils Api SpecBytes SkP NumT FieldQ FieldQ2 SpecCurve GroupP Ecp2P EcpC Ecp2C Denote GenP KeysP KeysP3 LayerP MapP SigsP SigsP2 Sqrt2P.
Import ListNotations.
Open Scope Z_scope.
Opaque q381 fv mkq FieldQ.fadd FieldQ.fsub FieldQ.fmul FieldQ.fopp FieldQ.finv.

(* a hash with 32-byte results for which the search succeeds at once, at x = 2 *)
Definition toy_hash (m : list Z) : list Z := be_bytes 32 (if last m 0 =? 1 then 2 else 0).
Example ex_digests : digests toy_hash.
Proof. intros m. split; [apply be_bytes_bytes|apply be_bytes_length]. Qed.
Lemma toy_last msg d t : toy_hash (hash_input msg d t) = be_bytes 32 (if t =? 1 then 2 else 0).
Proof. unfold toy_hash, hash_input. rewrite app_assoc, last_last. reflexivity. Qed.
Lemma sq_p2 : mkq p2_0 = FieldQ.fmul (mkq p2_t) (mkq p2_t). Proof. rewrite <- mkq_mul. mkev. Qed.
Lemma nz_p2 : mkq p2_0 <> f0. Proof. mkne. Qed.
Example ex_findable : forall msg d, hash_findable toy_hash msg d.
Proof.
  intros msg d. unfold hash_findable. rewrite !toy_last. exists 0%nat.
  split; [|intros j J; inversion J]. exists (z2 p2_0 p2_1). split; [|exact nz_p2].
  assert (E1 : be_int (firstn 48 (repeat 0 16 ++ be_bytes 32 (if 1 =? 1 then 2 else 0))) = 2) by (vm_compute; reflexivity).
  assert (E2 : be_int (firstn 48 (repeat 0 16 ++ be_bytes 32 (if 2 =? 1 then 2 else 0))) = 0) by (vm_compute; reflexivity).
  rewrite E1, E2. apply (proj1 (on2_rhs _ _) on_p2).
Qed.
(* C52, C24: signatures of the keys 3035 and 7 and of their sum *)
Definition skb (n : Z) : list Z := be_bytes 48 n.
Lemma skb_ok n : exists sk, sk_from_bytes (skb n) = Some (Ok sk).
Proof. destruct (sk_from_bytes_ok (skb n) (be_bytes_bytes _ _) (be_bytes_length _ _)) as (sk & E & _). exists sk. exact E. Qed.
Lemma sign_toy msg d n : 0 <= d < 2 ^ 64 -> exists sk s, sk_from_bytes (skb n) = Some (Ok sk) /\ sig_new toy_hash msg d sk = Some s.
Proof.
  intros D. destruct (skb_ok n) as (sk & E).
  destruct (signature_point toy_hash msg d (skb n) sk ex_digests D (ex_findable msg d) (be_bytes_bytes _ _) E) as (h & s & _ & S1 & _).
  exists sk, s. auto.
Qed.
Example ex_aggregate_signatures : exists ss agg sk s, signatures_on toy_hash [1; 2; 3] 4 [skb 3035; skb 7] ss /\ length ss = 2%nat /\ asig_of ss agg /\
  sk_from_bytes (skb 3042) = Some (Ok sk) /\ sig_new toy_hash [1; 2; 3] 4 sk = Some s /\
  be_int (skb 3042) = fold_right Z.add 0 (map be_int [skb 3035; skb 7]) /\
  be_int (skb 3042) = fold_right Z.add 0 (map be_int [skb 3035; skb 7]) mod r255.
Proof.
  assert (D : 0 <= 4 < 2 ^ 64) by lia.
  destruct (sign_toy [1; 2; 3] 4 3035 D) as (sk1 & s1 & K1 & S1). destruct (sign_toy [1; 2; 3] 4 7 D) as (sk2 & s2 & K2 & S2).
  destruct (sign_toy [1; 2; 3] 4 3042 D) as (sk & s & K & S3).
  assert (SO : signatures_on toy_hash [1; 2; 3] 4 [skb 3035; skb 7] [s1; s2]).
  { econstructor; [apply be_bytes_bytes|exact K1|exact S1|]. econstructor; [apply be_bytes_bytes|exact K2|exact S2|constructor]. }
  destruct (hash_findable_map toy_hash [1; 2; 3] 4 ex_digests D (ex_findable _ _)) as (h & H & A).
  destruct (signatures_sum _ _ _ h _ _ H A SO) as [FA _]. destruct (asig_total _ FA) as (agg & AG).
  exists [s1; s2], agg, sk, s. split; [exact SO|]. split; [reflexivity|]. split; [exact AG|]. split; [exact K|]. split; [exact S3|].
  split; vm_compute; reflexivity.
Qed.
(* C14-C17, C23, C25, C26: decodable, admissible, finite signatures *)
Example ex_decoded : forall f, f = 0 \/ f = 1 -> exists a, sig_from_bytes (sig_code f 2 0) = Some (Ok a) /\ adm2 a /\
  ecp2_pt a = Aff (z2 2 0) (dec_y2 (z2 p2_0 p2_1) f).
Proof. intros f F. exact (sig_decodes f 2 0 _ (mkq p2_t) F ltac:(lia) ltac:(lia) on_p2 sq_p2 nz_p2). Qed.
(* C16: both the unambiguous and the ambiguous case occur *)
Example ex_sig_unambiguous : ~ ambiguous (mkq p2_1) /\ mkq p2_1 <> f0 /\ mkq p2_0 <> f0.
Proof.
  split; [|split; [mkne|exact nz_p2]]. apply flag_amb; [mkne|]. rewrite flag_p2, <- mkq_opp, fv_mkq, <- qn_q. vm_compute. discriminate.
Qed.
Example ex_sig_ambiguous : ambiguous (mkq a2524_1).
Proof.
  destruct flag2524 as [F1 F2]. assert (D : ambiguous (mkq a2524_1) \/ ~ ambiguous (mkq a2524_1)).
  { unfold ambiguous, flag_gap. lia. }
  destruct D as [D|D]; [exact D|]. apply (flag_amb _ im2524) in D. congruence.
Qed.
(* C28: the search from (re_x, 5) succeeds at once *)
Example ex_first_x : first_x (be_int (firstn 48 bre)) (be_int (firstn 48 bim)) 0.
Proof. exact first_re. Qed.
(* C28: a search with a failing first candidate, x = (1, 0) then (2, 0) *)
Definition r41 : Z := 1160156269851183830088607416945712840361313536045258198794186067443090229127296728558482891873127916594652843428001.
Example ex_first_x_1 : first_x 1 0 1.
Proof.
  split; [exists (z2 p2_0 p2_1); split; [apply (proj1 (on2_rhs _ _) on_p2)|exact nz_p2]|].
  intros j J. assert (j = 0%nat) by lia. subst j. intros (y & Y & _).
  assert (R : rhs2 (z2 1 0) = z2 5 4).
  { unfold rhs2. change gb with (z2 4 4). rewrite !z2_mul, z2_add. apply z2_eq; reflexivity. }
  change (gmul y y = rhs2 (z2 1 0)) in Y. rewrite R in Y. clear R. apply (f_equal gnorm) in Y.
  assert (N : gnorm (z2 5 4) = mkq 41).
  { unfold gnorm, z2. cbn [fst snd]. rewrite <- !mkq_mul, <- mkq_add. reflexivity. }
  assert (M : gnorm (gmul y y) = FieldQ.fmul (gnorm y) (gnorm y)) by (destruct y as [a b]; unfold gnorm, gmul; cbn [fst snd]; ring).
  rewrite N, M in Y. apply (sq_not_both (mkq 41)); [mkne|exists (gnorm y); exact (eq_sym Y)|].
  exists (mkq r41). rewrite <- mkq_mul, <- mkq_opp. mkev.
Qed.
