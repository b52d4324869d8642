(* Concrete cases meeting the hypotheses of the theorems in PropsGcm. *)
From Coq Require Import Lia.
From Verif Require Import Prim SpecBytes SpecAes SpecGcm Aes AesP Gcm GcmQ GcmR.

(* test case 2 of the GCM submission to NIST: zero key, IV and plaintext *)
Definition z16 : list Z := repeat 0 16.
Definition z12 : list Z := repeat 0 12.
Definition ct2 : list Z := be_bytes 16 0x0388dace60b6a392f328c2b971b2fe78.
Definition tag2 : list Z := be_bytes 16 0xab6e47d42cec13bdf53a67b21257bddf.
Lemma case2 : gcm_cipher (AES_enc z16) z12 z16 = ct2 /\ gcm_tag (AES_enc z16) z12 [] ct2 = tag2.
Proof. vm_compute. split; reflexivity. Qed.
Example ex_gcm : gcm_run true false gcm_new z16 z12 [] [z16] = Some (true, ct2, tag2).
Proof.
  destruct case2 as [C T]. destruct (gcm_encrypts gcm_new z16 z12 [] [z16]) as [E _]; [apply zero_bytes|left; reflexivity|apply zero_bytes|constructor|constructor; [apply zero_bytes|constructor]|constructor|constructor|].
  change (concat [z16]) with z16 in E. rewrite C in E. change (concat []) with (@nil Z) in E. rewrite T in E. exact E.
Qed.
Example ex_gcm_dec : gcm_run false false gcm_new z16 z12 [] [ct2] = Some (true, z16, tag2).
Proof.
  destruct case2 as [C T]. destruct (gcm_decrypts gcm_new z16 z12 [] [ct2]) as [E P]; [apply zero_bytes|left; reflexivity|apply zero_bytes|constructor|constructor; [apply be_bytes_bytes|constructor]|constructor|constructor|].
  change (concat [ct2]) with ct2 in E, P. rewrite (P z16 (eq_sym C)) in E. change (concat []) with (@nil Z) in E. rewrite T in E. exact E.
Qed.
(* pieces: a header of 16 + 5 bytes, data of 32 + 0 + 7 bytes, an IV of 20 bytes, a key of 24 *)
Definition hs3 : list (list Z) := [z16; [1; 2; 3; 4; 5]].
Definition ps3 : list (list Z) := [z16 ++ z16; []; [9; 8; 7; 6; 5; 4; 3]].
Lemma al3 : aligned hs3 /\ aligned ps3. Proof. split; repeat constructor. Qed.
Lemma by3 : Forall bytes hs3 /\ Forall bytes ps3.
Proof. split; repeat (constructor; [try apply zero_bytes; repeat (constructor; [lia|]); constructor|]); constructor. Qed.
Lemma some3 : forall (a b : bool) (c d e f : list Z), Some (a, c, d) = Some (b, e, f) -> c = e /\ d = f. Proof. intros a b c d e f H. injection H. auto. Qed.
Example ex_pieces : exists c t, gcm_run true false gcm_new (repeat 7 24) (repeat 1 20) hs3 ps3 = Some (true, c, t) /\ length c = 39%nat /\ gcm_run false false gcm_new (repeat 7 24) (repeat 1 20) hs3 [c] = Some (true, concat ps3, t).
Proof.
  assert (BK : bytes (repeat 7 24)) by (apply Forall_forall; intros x X; apply repeat_spec in X; lia). assert (BI : bytes (repeat 1 20)) by (apply Forall_forall; intros x X; apply repeat_spec in X; lia).
  destruct (gcm_encrypts gcm_new (repeat 7 24) (repeat 1 20) hs3 ps3 BK (or_intror eq_refl) BI (proj1 by3) (proj2 by3) (proj1 al3) (proj2 al3)) as [E L]. do 2 eexists. split; [exact E|]. split; [exact L|]. set (c0 := gcm_cipher _ _ _) in *.
  destruct (gcm_round_trip gcm_new gcm_new (repeat 7 24) (repeat 1 20) hs3 ps3 [c0] BK (or_intror (or_introl eq_refl)) BI (proj1 by3) (proj2 by3) (proj1 al3) (proj2 al3) (Forall_nil _)) as (c & t & E1 & E2).
  rewrite E in E1. apply some3 in E1. destruct E1 as [H1 H2]. rewrite H2. apply E2. rewrite <- H1. apply app_nil_r.
Qed.
(* a piece of 5 bytes closes the header *)
Example ex_unaligned : exists g', add_header false gcm_new [1; 2; 3; 4; 5] 5 = Some (true, g') /\ add_header false g' [1] 1 = Some (false, g').
Proof.
  assert (S : exists g', add_header false gcm_new [1; 2; 3; 4; 5] 5 = Some (true, g')).
  { eexists. vm_compute. reflexivity. }
  destruct S as (g' & S). exists g'. split; [exact S|]. exact (gcm_unaligned false gcm_new [1; 2; 3; 4; 5] [1] g' S ltac:(discriminate)).
Qed.
Example ex_checked : gf2mul true [] (repeat 255 15 ++ [127]) = None /\ gcm_run false true gcm_new z16 z12 [[1; 2]] [] = None /\ gcm_run true true gcm_new z16 z12 [] [] = None.
Proof.
  split; [apply gf2mul_checked; [reflexivity|repeat (constructor; [lia|]); constructor|discriminate]|]. split; [apply gcm_checked_header; [reflexivity|repeat (constructor; [lia|]); constructor|discriminate|discriminate]|]. apply gcm_checked_empty. reflexivity.
Qed.
