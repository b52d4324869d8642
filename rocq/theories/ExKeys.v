(* Concrete cases meeting the hypotheses of the theorems in PropsKeys. *)
From Coq Require Import ZArith List Bool Lia Permutation.
From Verif Require Import Prim Ecp Utils Api SpecBytes SkP NumT FieldQ SpecCurve EcpP EcpC Denote GenP KeysP KeysP2 KeysP3.
Import ListNotations.
Open Scope Z_scope.

(* the key of secret key 3035 is a reachable, admissible, finite key *)
Definition P3035pt : pt1 := aff P3035.
Example ex_key : exists sk pk, sk_from_bytes sk3035 = Some (Ok sk) /\ pk_from_secret_key sk = Some pk /\ pk_built pk /\ adm pk /\
  honest_key pk /\ ecp_pt pk = P3035pt.
Proof.
  destruct (sk_from_bytes_ok sk3035 (be_bytes_bytes _ _) (be_bytes_length _ _)) as (sk & E & _).
  destruct (derive sk3035 sk (be_bytes_bytes _ _) E) as (pk & EP & A & P).
  change (be_int sk3035) with 3035 in P. rewrite <- chain3035 in P. exists sk, pk.
  split; [exact E|]. split; [exact EP|]. split; [eapply pkb_secret; [apply be_bytes_bytes|exact E|exact EP]|]. split; [exact A|].
  split; [eapply hk_secret; [apply be_bytes_bytes|exact E|exact EP]|exact P].
Qed.
(* for C06/C07/C13: a decodable key with an unambiguous sign (x = 4) *)
Example ex_unambiguous : ~ ambiguous (mkq y4Z).
Proof.
  intros [C|C]; apply gap_range in C; [rewrite fv_mkq in C|rewrite <- mkq_opp, fv_mkq in C]; rewrite <- qn_q in C; vm_compute in C;
    destruct C as [C1 C2]; try (apply C1; reflexivity); discriminate.
Qed.
Example ex_decodable : exists pk, pk_from_bytes b4 = Some (Ok pk) /\ be_int b4 mod 2 ^ 381 < q381 /\
  match ecp_pt pk with Inf => False | Aff x y => x = mkq 4 /\ ~ ambiguous y end.
Proof.
  destruct (decodes_x 4 _ ltac:(lia) on4) as (pk & E & B & P). exists pk. split; [exact E|]. split.
  { rewrite <- qn_q. vm_compute. reflexivity. }
  rewrite P. split; [reflexivity|]. pose proof (adm_on _ (built_adm _ B)) as ON. rewrite P in ON.
  destruct (on1_two _ _ _ on4 ON) as [G|G]; rewrite G.
  - exact ex_unambiguous.
  - intros [C|C]; apply ex_unambiguous; [right; exact C|left].
    assert (OO : FieldQ.fopp (FieldQ.fopp (mkq y4Z)) = mkq y4Z) by ring. rewrite OO in C. exact C.
Qed.
(* and an ambiguous one *)
Example ex_ambiguous : ambiguous (mkq (snd P3035)).
Proof. left. rewrite y3035_small. right. split; [vm_compute; discriminate|vm_compute; reflexivity]. Qed.
(* C12: canonical halves *)
Example ex_unc : exists bs pk, bytes bs /\ pk_from_uncompressed_bytes bs = Some (Ok pk) /\ be_int (firstn 48 bs) < q381 /\
  be_int (skipn 48 bs) < q381 /\ ecp_pt pk = Aff f0 (mkq 2).
Proof.
  destruct (decodes_02 0 (or_introl eq_refl)) as (pk & E & _ & P & _). eexists _, pk. split; [|split; [exact E|]].
  - apply Forall_app; split; apply be_bytes_bytes.
  - rewrite <- qn_q. split; [vm_compute; reflexivity|]. split; [vm_compute; reflexivity|exact P].
Qed.
(* C20: 3035 and 3035 + r are different 48-byte secret keys, congruent modulo r *)
Example ex_congruent : exists sk1 sk2, sk_from_bytes sk3035 = Some (Ok sk1) /\ sk_from_bytes (be_bytes 48 (3035 + r255)) = Some (Ok sk2) /\
  sk3035 <> be_bytes 48 (3035 + r255) /\ be_int sk3035 mod r255 = be_int (be_bytes 48 (3035 + r255)) mod r255.
Proof.
  destruct (sk_from_bytes_ok sk3035 (be_bytes_bytes _ _) (be_bytes_length _ _)) as (sk & E & _).
  destruct (sk_from_bytes_ok (be_bytes 48 (3035 + r255)) (be_bytes_bytes _ _) (be_bytes_length _ _)) as (sk2 & E2 & _).
  exists sk, sk2. split; [exact E|]. split; [exact E2|]. split; [vm_compute; discriminate|vm_compute; reflexivity].
Qed.
(* C21, C22: an aggregate of two keys built in two ways *)
Example ex_aggregate : exists pks agg b sk pk, derived_keys [sk3035; be_bytes 48 7] pks /\ apk_of pks agg /\ length pks = 2%nat /\
  bytes b /\ sk_from_bytes b = Some (Ok sk) /\ pk_from_secret_key sk = Some pk /\
  be_int b = fold_right Z.add 0 (map be_int [sk3035; be_bytes 48 7]) mod r255.
Proof.
  destruct (sk_from_bytes_ok sk3035 (be_bytes_bytes _ _) (be_bytes_length _ _)) as (sk1 & E1 & _).
  destruct (derive sk3035 sk1 (be_bytes_bytes _ _) E1) as (pk1 & P1 & A1 & _).
  destruct (sk_from_bytes_ok (be_bytes 48 7) (be_bytes_bytes _ _) (be_bytes_length _ _)) as (sk2 & E2 & _).
  destruct (derive (be_bytes 48 7) sk2 (be_bytes_bytes _ _) E2) as (pk2 & P2 & A2 & _).
  destruct (sk_from_bytes_ok (be_bytes 48 3042) (be_bytes_bytes _ _) (be_bytes_length _ _)) as (sk3 & E3 & _).
  destruct (derive (be_bytes 48 3042) sk3 (be_bytes_bytes _ _) E3) as (pk3 & P3 & A3 & _).
  destruct apk_new_adm as (a0 & N0 & AN & _). destruct (apk_add_adm a0 pk1 AN A1) as (a1 & N1 & AA & _).
  destruct (apk_add_adm a1 pk2 AA A2) as (a2 & N2 & _ & _).
  exists [pk1; pk2], a2, (be_bytes 48 3042), sk3, pk3.
  split; [eapply dk_cons; [apply be_bytes_bytes|exact E1|exact P1|]; eapply dk_cons; [apply be_bytes_bytes|exact E2|exact P2|constructor]|].
  split; [apply (apk_of_add [pk1] a1 pk2 a2); [apply (apk_of_add [] a0 pk1 a1); [apply apk_of_new, N0|exact N1]|exact N2]|].
  split; [reflexivity|]. split; [apply be_bytes_bytes|]. split; [exact E3|]. split; [exact P3|vm_compute; reflexivity].
Qed.
(* C02, C03, C01: byte strings of length 48 *)
Example ex_bytes : bytes sk3035 /\ length sk3035 = 48%nat.
Proof. split; [apply be_bytes_bytes|apply be_bytes_length]. Qed.
