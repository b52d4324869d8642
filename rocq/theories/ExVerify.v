(* Concrete cases meeting the hypotheses of the theorems in PropsVerify. *)
From Coq Require Import ZArith List Bool Lia Permutation.
From Verif Require Import Prim Big Ecp Ecp2 Utils Api SpecBytes SkP NumT FieldQ FieldQ2 SpecCurve GroupP EcpP Ecp2P EcpC Ecp2C Denote GenP KeysP KeysP2 KeysP3 LayerP MapP SigsP SigsP2 Sqrt2P
  VerifyP VerifyP2 VerifyP3 VerifyP4 ExSigs.
Import ListNotations.
Open Scope Z_scope.

(* C20: the keys 3035 and 3035 + r sign alike *)
Example ex_congruent_signatures : exists sk1 sk2 s1 s2, sk_from_bytes (skb 3035) = Some (Ok sk1) /\ sk_from_bytes (skb (3035 + r255)) = Some (Ok sk2) /\
  sig_new toy_hash [1; 2; 3] 4 sk1 = Some s1 /\ sig_new toy_hash [1; 2; 3] 4 sk2 = Some s2 /\
  be_int (skb 3035) <> be_int (skb (3035 + r255)) /\ be_int (skb 3035) mod r255 = be_int (skb (3035 + r255)) mod r255.
Proof.
  assert (D : 0 <= 4 < 2 ^ 64) by lia.
  destruct (sign_toy [1; 2; 3] 4 3035 D) as (sk1 & s1 & K1 & S1). destruct (sign_toy [1; 2; 3] 4 (3035 + r255) D) as (sk2 & s2 & K2 & S2).
  exists sk1, sk2, s1, s2. split; [exact K1|]. split; [exact K2|]. split; [exact S1|]. split; [exact S2|]. split; [vm_compute; discriminate|vm_compute; reflexivity].
Qed.
(* C32, C33: a key that is not 0 mod r, and one that is *)
Example ex_nonzero_key : bytes (skb 3035) /\ be_int (skb 3035) mod r255 <> 0.
Proof. split; [apply be_bytes_bytes|vm_compute; discriminate]. Qed.
Example ex_zero_key : bytes (skb r255) /\ be_int (skb r255) mod r255 = 0.
Proof. split; [apply be_bytes_bytes|vm_compute; reflexivity]. Qed.
(* C34, C36: two signers of each message *)
Lemma toy_pair msg d m n : 0 <= d < 2 ^ 64 -> exists ss pks apk, signatures_on toy_hash msg d [skb m; skb n] ss /\ length ss = 2%nat /\
  derived_keys [skb n; skb m] pks /\ apk_of pks apk.
Proof.
  intros D. destruct (sign_toy msg d m D) as (sk1 & s1 & K1 & S1). destruct (sign_toy msg d n D) as (sk2 & s2 & K2 & S2).
  destruct (derive (skb m) sk1 (be_bytes_bytes _ _) K1) as (pk1 & P1 & A1 & _). destruct (derive (skb n) sk2 (be_bytes_bytes _ _) K2) as (pk2 & P2 & A2 & _).
  destruct apk_new_adm as (a0 & N0 & AN & _). destruct (apk_add_adm a0 pk2 AN A2) as (a1 & N1 & AA & _).
  destruct (apk_add_adm a1 pk1 AA A1) as (a2 & N2 & _ & _).
  exists [s1; s2], [pk2; pk1], a2. split.
  { econstructor; [apply be_bytes_bytes|exact K1|exact S1|]. econstructor; [apply be_bytes_bytes|exact K2|exact S2|constructor]. }
  split; [reflexivity|]. split.
  { eapply dk_cons; [apply be_bytes_bytes|exact K2|exact P2|]. eapply dk_cons; [apply be_bytes_bytes|exact K1|exact P1|constructor]. }
  apply (apk_of_add [pk2] a1 pk1 a2); [apply (apk_of_add [] a0 pk2 a1); [apply apk_of_new, N0|exact N1]|exact N2].
Qed.
Example ex_aggregate_verify : exists ss agg pks apk, signatures_on toy_hash [1; 2; 3] 4 [skb 3035; skb 7] ss /\ asig_of ss agg /\
  Permutation [skb 3035; skb 7] [skb 7; skb 3035] /\ derived_keys [skb 7; skb 3035] pks /\ apk_of pks apk /\
  fold_right Z.add 0 (map be_int [skb 3035; skb 7]) mod r255 <> 0.
Proof.
  assert (D : 0 <= 4 < 2 ^ 64) by lia. destruct (toy_pair [1; 2; 3] 4 3035 7 D) as (ss & pks & apk & SO & _ & DK & AK).
  destruct (hash_findable_map toy_hash [1; 2; 3] 4 ex_digests D (ex_findable _ _)) as (h & H & A).
  destruct (signatures_sum _ _ _ h _ _ H A SO) as [FA _]. destruct (asig_total _ FA) as (agg & AG).
  exists ss, agg, pks, apk. split; [exact SO|]. split; [exact AG|]. split; [apply perm_swap|]. split; [exact DK|]. split; [exact AK|vm_compute; discriminate].
Qed.
Definition m1 : list Z := repeat 1 32.
Definition m2 : list Z := repeat 2 32.
Example ex_multi : exists sigs keys agg, multi toy_hash 4 [m1; m2] sigs keys /\ length sigs = 4%nat /\ length keys = 2%nat /\ asig_of sigs agg.
Proof.
  assert (D : 0 <= 4 < 2 ^ 64) by lia. destruct (toy_pair m1 4 3035 7 D) as (s1 & p1 & a1 & SO1 & L1 & DK1 & AK1).
  destruct (toy_pair m2 4 8 9 D) as (s2 & p2 & a2 & SO2 & L2 & DK2 & AK2).
  assert (M : multi toy_hash 4 [m1; m2] (s1 ++ s2 ++ []) [a1; a2]).
  { eapply multi_cons; [reflexivity|exact SO1|apply perm_swap|exact DK1|exact AK1|vm_compute; discriminate|].
    eapply multi_cons; [reflexivity|exact SO2|apply perm_swap|exact DK2|exact AK2|vm_compute; discriminate|constructor]. }
  destruct (multi_facts toy_hash 4 _ _ _ ex_digests D M) as (_ & _ & _ & _ & _ & FA & _). destruct (asig_total _ FA) as (agg & AG).
  exists (s1 ++ s2 ++ []), [a1; a2], agg. split; [exact M|]. split; [rewrite !app_length, L1, L2; reflexivity|]. split; [reflexivity|exact AG].
Qed.
(* C61, C63: a decoded signature and an honest key *)
Example ex_verify_inputs : exists s sk pk, sig_from_bytes (sig_code 0 2 0) = Some (Ok s) /\ sig_built toy_hash s /\ ecp2_pt s <> Inf /\
  sk_from_bytes (skb 3035) = Some (Ok sk) /\ pk_from_secret_key sk = Some pk /\ pk_built pk /\ forall H, ~ zero_case H (ecp_pt pk).
Proof.
  destruct (ex_decoded 0 (or_introl eq_refl)) as (s & S1 & _ & P). destruct (skb_ok 3035) as (sk & SK).
  destruct (derive (skb 3035) sk (be_bytes_bytes _ _) SK) as (pk & K & _ & PK). exists s, sk, pk. split; [exact S1|].
  split; [exact (sgb_bytes toy_hash _ s (sig_code_bytes 0 2 0) S1)|].
  split; [rewrite P; discriminate|]. split; [exact SK|]. split; [exact K|]. split; [exact (pkb_secret _ _ _ (be_bytes_bytes _ _) SK K)|].
  intros H. rewrite PK. apply gen_regular. vm_compute. discriminate.
Qed.
