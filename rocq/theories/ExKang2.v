(* Concrete cases meeting the hypotheses of C138_run and C139: the run of ExMpin with a wrong PIN, and
   the generator as identity, commitment and response. *)
From Coq Require Import ZArith List Bool Lia.
From Verif Require Import Prim PrimP BigP NumT FieldQ FieldQ2 FpP SpecBytes SpecMac SpecCurve CurveP GroupP G1Grp G1Ord GenP EcpP EcpC Ecp2P Denote KeysP KeysP2 Tower SpecPairing TwistP PsiP VerifyP2 SpecRand SpecEcdh Ecdh EcdhP EcdhQ SpecMpin Mpin MpinP MpinQ MpinR MpinS MpinT MpinU MpinV Kang KangP MpinY ExMpin.
Import ListNotations.
Open Scope Z_scope.
Opaque h1c.

(* C138_run: the PIN 1231 for 1234 *)
Example ex_run_error : exists hid sst xid sec2 e f,
  server_2 0 hid None (be_bytes 48 6) sst (Some xid) None sec2 (Some (repeat 0 576)) (Some (repeat 0 576)) = Some (-19, Some e, Some f) /\ (kangaroo e f = Some 0 \/ kangaroo e f = Some (-3)).
Proof.
  destruct (ex_scalar 20000 ltac:(lia)) as [S1 N1]. destruct (ex_scalar 5 ltac:(lia)) as [S2 N2]. destruct (ex_scalar 6 ltac:(lia)) as [S3 N3]. assert (R : 40000 < r255) by reflexivity.
  destruct (mpin_run false (Z.to_nat q381) 32 [] (be_bytes 48 20000) 1234 1231 (be_bytes 48 5) (be_bytes 48 6) (repeat 0 97) (repeat 0 192) (repeat 0 97) (repeat 0 97) (repeat 0 97) ex_ident ltac:(lia) S1 S2 S3 ltac:(lia) ltac:(lia)
    (ex_buf 97) (ex_buf 192) (ex_buf 97) (ex_buf 97) (ex_buf 97)) as (hcid & cst & token & sst & sec & xid & hid & sec2 & _ & _ & _ & _ & _ & _ & _ & AN);
    try (rewrite ?N1, ?N2, ?N3; change (1234 mod 10000) with 1234; change (1231 mod 10000) with 1231; rewrite Z.mod_small by lia; lia).
  change (1234 mod 10000) with 1234 in AN. change (1231 mod 10000) with 1231 in AN.
  destruct (answer_kangaroo _ 1234 1231 AN ltac:(lia) ltac:(lia) ltac:(lia) _ _ (ex_buf 576) (ex_buf 576)) as (e & f & d & RUN & KD & D). exists hid, sst, xid, sec2, e, f. split; [exact RUN|].
  destruct D as [D|[D|[D _]]]; [left; rewrite KD, D; reflexivity|right; rewrite KD, D; reflexivity|lia].
Qed.

(* C139 *)
Lemma G3 : padd1 G1gen (mul1 1 (padd1 (mul1 1 G1gen) G1gen)) = zm1 3 G1gen.
Proof.
  rewrite !mul1_zm by lia. rewrite !zm1_1. change 3 with (1 + (1 + 1)). rewrite !zm1_add by apply G1gen_on. rewrite !zm1_1. reflexivity.
Qed.
Lemma G3_ne : mul1 h1c (zm1 3 G1gen) <> Inf.
Proof.
  rewrite mul1_zm by exact VerifyP7.h1c_pos. intros C. pose proof (G_sub 3) as SB. pose proof (zm1_on 3 G1gen G1gen_on) as ON.
  assert (R : 40000 < r255) by reflexivity.
  apply (G_nz 3); [lia|]. exact (bezout_inf _ ON C SB).
Qed.
Example ex_tells : exists sst, let run := fun date hid => server_2 date hid (Some (enc_pt G1gen ++ [])) (be_bytes 48 1) sst (Some (enc_pt G1gen ++ [])) (Some (enc_pt G1gen ++ [])) (enc_pt G1gen ++ []) (Some (repeat 0 576)) (Some (repeat 0 576)) in
  (exists e f, run 0 (enc_pt G1gen ++ []) = Some (-19, Some e, Some f)) /\ (exists e f, run 20000 (enc_pt G1gen ++ []) = Some (-19, Some e, Some f)) /\ (exists e, run 20000 (repeat 0 97) = Some (-14, Some e, Some (repeat 0 576))).
Proof.
  destruct (ex_scalar 1 ltac:(lia)) as [S1 N1]. assert (R : 40000 < r255) by reflexivity. destruct (G1gen_in [] (Forall_nil _)) as (B & L & D & N & KG).
  assert (RG : reads (enc_pt G1gen ++ []) G1gen) by (split; [exact B|split; [exact L|exact D]]).
  assert (GG : in_G1 (enc_pt G1gen ++ []) G1gen) by exact (conj B (conj L (conj D (conj N KG)))).
  assert (RZ : reads (repeat 0 97) Inf). { split; [apply bytes_repeat0|]. split; [split; rewrite repeat_length; [lia|intros _; lia]|exact ex_invalid]. }
  destruct (server_S (be_bytes 48 1) (repeat 0 192) (proj1 S1) (proj1 (proj2 S1))) as (sst & _ & BS & LS & DS & _). { rewrite N1, Z.mod_small by lia. lia. } { apply ex_buf. }
  rewrite N1 in DS. rewrite <- mul2_zm in DS by lia. exists sst. cbv zeta.
  assert (L576 : (576 <= length (repeat 0%Z 576))%nat) by (rewrite repeat_length; lia).
  assert (M1 : 1 mod r255 <> 0) by (rewrite Z.mod_small by lia; lia).
  pose proof (fun date hid HU HA => server_2_tells date hid (Some (enc_pt G1gen ++ [])) (be_bytes 48 1) sst (enc_pt G1gen ++ []) (Some (enc_pt G1gen ++ [])) (enc_pt G1gen ++ []) (repeat 0 576) (repeat 0 576) _ _ 1 G1gen G1gen G1gen
    BS LS ltac:(lia) M1 DS HU RG N S1 HA GG RG N L576 L576) as H. cbv zeta in H. rewrite N1, G3 in H. split; [|split].
  - destruct (proj1 (H 0 (enc_pt G1gen ++ []) eq_refl eq_refl G3_ne) eq_refl) as (be & bf & E & _). eexists; eexists; exact E.
  - destruct (proj1 (proj2 (H 20000 (enc_pt G1gen ++ []) eq_refl eq_refl G3_ne)) _ _ ltac:(lia) GG RG N) as (be & bf & E & _). eexists; eexists; exact E.
  - destruct (proj2 (proj2 (H 20000 (repeat 0 97) eq_refl eq_refl G3_ne)) _ _ ltac:(lia) RZ RG (or_introl eq_refl)) as (be & E & _). eexists; exact E.
Qed.
