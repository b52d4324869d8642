(* Concrete cases meeting the hypotheses of the theorems in PropsEcies. *)
From Coq Require Import ZArith List Bool Lia.
From Verif Require Import Prim PrimP SpecBytes SpecSha SpecRand SpecMac SpecCurve NumT FieldQ EcpP EcpC GenP G1Ord KeysP2 MapitP SpecEcdh Rand RandP Ecdh EcdhH EcdhP EcdhQ EcdhS ExEcdh
  SpecAes SpecEcies Aes AesM Ecies EciesP EciesQ.
Import ListNotations.
Open Scope Z_scope.

(* the receiver has the secret 5, the sender draws 1, the message has 5 bytes and the tag 12 *)
Definition msg5 : list Z := [104; 101; 108; 108; 111].
Lemma msg_bytes : bytes msg5. Proof. repeat (constructor; [lia|]). constructor. Qed.
Definition W5 : list Z := enc_pt (nmul1 (Z.to_nat 5) G1gen).
Lemma W5_ok : bytes W5 /\ long_enough W5 /\ decodes W5 (nmul1 (Z.to_nat 5) G1gen).
Proof. unfold W5. rewrite <- (zm1_nmul 5) by lia. apply enc_decodes'. apply zm1_on, G1gen_on. Qed.
Lemma S5 : exists x y, zm1 5 G1gen = Aff x y /\ x <> f0.
Proof.
  pose proof (G_nz 5 ltac:(pose proof r255_pos; split; [lia|reflexivity])) as N. pose proof (zm1_on 5 G1gen G1gen_on) as O. pose proof (G_sub 5) as SB. destruct (zm1 5 G1gen) as [|x y]; [destruct (N eq_refl)|].
  exists x, y. split; [reflexivity|]. exact (sub_x x y O SB).
Qed.
Definition ad1 : list Z := [1; 2; 3].
Lemma ad1_bytes : bytes ad1. Proof. repeat (constructor; [lia|]). constructor. Qed.
Lemma small n : Z.of_nat n < 1000 -> noov true 32 n. Proof. intros H. right. left. split; [reflexivity|lia]. Qed.
Lemma len_zeros n : length (repeat 0 n) = n. Proof. apply repeat_length. Qed.
Example ex_encrypt : exists x y r', zm1 5 G1gen = Aff x y /\ let V := enc_pt G1gen in let z := be_bytes 48 (fv x) in let c := ecies_cipher (ecies_k1 32 ad1 V z) msg5 in
  ecies_encrypt true 32 ad1 [] gen0 W5 msg5 (repeat 0 97) (repeat 0 12) = Some (Some c, V ++ [], ecies_tag 32 (ecies_k2 32 ad1 V z) c [] 12, Some r').
Proof.
  destruct S5 as (x & y & EX & NX). destruct W5_ok as (B & L & D).
  destruct (encrypt_ok true 32 ad1 [] gen0 str0 W5 msg5 (repeat 0 97) (repeat 0 12) _ (or_introl eq_refl) ad1_bytes (Forall_nil _) B msg_bytes ex_gives L D) as (r' & _ & H);
    [rewrite len_zeros; lia|rewrite len_zeros; lia|apply small; reflexivity|apply small; reflexivity|].
  rewrite one510 in H. rewrite <- (zm1_nmul 1) in H by lia. rewrite zm1_1 in H. rewrite <- (zm1_nmul 5) in H by lia. rewrite <- (zm1_nmul 1) in H by lia. rewrite zm1_1 in H. rewrite EX in H.
  exists x, y, r'. split; [exact EX|]. exact (H NX).
Qed.
Lemma app_same (b w w' : list Z) o : w = w' -> Some (0, b, w, o) = Some (0, b, w', o : option RAND). Proof. intros ->. reflexivity. Qed.
Lemma key5 : exists u, key_pair_generate None sec5 (repeat 0 97) = Some (0, u, W5, None).
Proof. exists (be_bytes 48 5 ++ skipn 48 sec5). rewrite ex_key_pair. fold W5. apply app_same. exact (app_nil_r W5). Qed.
Example ex_round : exists c v t r' u w, key_pair_generate None sec5 (repeat 0 97) = Some (0, u, w, None) /\ ecies_encrypt true 32 ad1 [] gen0 w msg5 (repeat 0 97) (repeat 0 12) = Some (Some c, v, t, r') /\
  ecies_decrypt true 32 ad1 [] v c t u = Some (Some [11; 11; 11; 11; 11]).
Proof.
  destruct ex_encrypt as (x & y & r' & _ & H). cbv zeta in H. set (c := ecies_cipher _ _) in H. set (t := ecies_tag _ _ _ _ _) in H. set (v := enc_pt G1gen ++ []) in H. clearbody c t v. destruct key5 as (u & K).
  exists c, v, t, (Some r'), u, W5. split; [exact K|]. split; [exact H|].
  apply (ecies_round true 32 ad1 [] None sec5 (repeat 0 97) u W5 None gen0 str0 msg5 (repeat 0 97) (repeat 0 12) c v t (Some r') (or_introl eq_refl) ad1_bytes (Forall_nil _) msg_bytes (be_bytes_bytes 48 5) (zeros48 97) (zeros48 97) I);
    [unfold sec5; rewrite be_bytes_length; lia|rewrite len_zeros; lia|exact K|exact ex_gives|rewrite len_zeros; lia|rewrite len_zeros; lia|apply small; reflexivity|apply small; reflexivity|exact H].
Qed.
(* the secret 5 and V = G; a ciphertext of one byte is refused *)
Example ex_reject : ecies_decrypt true 32 ad1 [] (enc_pt G1gen) [7] (repeat 0 12) sec5 = Some None.
Proof.
  destruct S5 as (x & y & EX & NX). destruct (enc_decodes' G1gen G1gen_on) as (B & L & D).
  pose proof (decrypt_ok true 32 ad1 [] (enc_pt G1gen) [7] (repeat 0 12) sec5 G1gen (or_introl eq_refl) ad1_bytes (Forall_nil _) B ltac:(constructor; [lia|constructor]) (be_bytes_bytes 48 5) ltac:(unfold sec5; rewrite be_bytes_length; lia) L D) as H.
  rewrite five in H. rewrite <- (zm1_nmul 5) in H by lia. rewrite EX in H.
  assert (LV : (97 <= length (enc_pt G1gen))%nat) by (rewrite (proj2 (enc_bytes G1gen)); lia). assert (LT : (4 <= length (repeat 0%Z 12) <= 32)%nat) by (rewrite len_zeros; lia).
  assert (N1 : noov true 32 (149 + length ad1)) by (apply small; reflexivity). assert (N2 : noov true 32 (length [7] + @length Z [] + 216)) by (apply small; reflexivity).
  destruct (H LV LT N1 N2 NX) as (r & E & HR).
  rewrite E. destruct r as [m|]; [|reflexivity]. destruct (proj1 (HR m) eq_refl) as ((m0 & (Q & _) & _) & _). discriminate Q.
Qed.
Example ex_short : ecies_decrypt true 32 ad1 [] (enc_pt G1gen) (repeat 7 16) [] sec5 = ecies_decrypt true 32 ad1 [] (enc_pt G1gen) (repeat 7 16) [9; 9; 9] sec5.
Proof.
  destruct (enc_decodes' G1gen G1gen_on) as (B & L & D).
  apply (short_tags true 32 ad1 [] (enc_pt G1gen) (repeat 7 16) [] [9; 9; 9] sec5 G1gen (or_introl eq_refl) ad1_bytes (Forall_nil _) B); [apply Forall_forall; intros a A; apply repeat_spec in A; lia|apply be_bytes_bytes|unfold sec5; rewrite be_bytes_length; lia|exact L|exact D| | | |];
    [rewrite (proj2 (enc_bytes G1gen)); lia|cbn; lia|cbn; lia|apply small; reflexivity].
Qed.
Example ex_long : ecies_decrypt true 32 ad1 [] (enc_pt G1gen) (repeat 7 16) (repeat 0 33) sec5 = None.
Proof. apply long_tags. rewrite len_zeros. lia. Qed.
