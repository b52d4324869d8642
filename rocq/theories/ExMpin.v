(* Concrete cases meeting the hypotheses of the theorems in PropsMpin: the empty identity with
   SHA-256, the master secret 20000, small random numbers.  C127_run_date asks of the points of the
   identity and of the day that two sums are not the point at infinity; that is an assumption of
   ex_date too, as showing it needs products by a 126-bit number.  The witnesses of C129 to C132
   are in their theorems. *)
From Coq Require Import ZArith List Bool Lia.
From Verif Require Import Prim PrimP BigP NumT FieldQ FieldQ2 FpP SpecBytes SpecMac SpecCurve CurveP GroupP G1Grp G1Ord GenP EcpP Ecp2P Denote KeysP Tower SpecPairing TwistP VerifyP2 SpecRand SpecEcdh Ecdh EcdhP SpecMpin Mpin MpinP MpinQ MpinT MpinU MpinV.
Import ListNotations.
Open Scope Z_scope.

Example ex_ident : ident false 32 [].
Proof. split; [left; reflexivity|]. split; [constructor|left; reflexivity]. Qed.
Lemma ex_scalar v : 0 <= v < 2 ^ 382 -> scalar (be_bytes 48 v) /\ num_of (be_bytes 48 v) = v.
Proof. intros V. rewrite <- (app_nil_r (be_bytes 48 v)). split; [apply scal_be; [exact V|constructor]|apply num_be; lia]. Qed.
Lemma ex_buf n : buf n (repeat 0 n).
Proof. split; [apply bytes_repeat0|rewrite repeat_length; lia]. Qed.
Example ex_hash : exists h, hash_id false 32 [] (repeat 0 48) = Some (true, h) /\ h = mp_hash 32 0 [].
Proof. rewrite (hash_identity false 32 [] (repeat 0 48) ex_ident ltac:(rewrite repeat_length; lia)). eexists. split; [reflexivity|]. change (skipn 48 (repeat 0 48)) with (@nil Z). apply app_nil_r. Qed.
(* C125: G + G, and the sums of shares 3 + 4 = 7 *)
Example ex_recombine : in_G1 (enc_pt G1gen ++ []) G1gen /\ padd1 G1gen G1gen <> Inf.
Proof.
  split; [apply G1gen_in; constructor|]. rewrite <- zm1_2. apply zm1_ne; [exact G1gen_on|discriminate|exact G1gen_order|]. assert (R : 2 < r255) by reflexivity. rewrite Z.mod_small by lia. discriminate.
Qed.
Example ex_server : exists w, in_G2 w (mul2 1 G2gen).
Proof. destruct sec_one as (w & B & L & D). exists w. split; [exact B|]. split; [exact L|]. split; [exact D|]. rewrite mul2_zm by lia. apply s_ne. discriminate. Qed.
(* C126: take 7 off the generator and put it back *)
Example ex_factor : exists A, map_pt (mp_hash 32 0 []) A /\ on1 A /\ A <> Inf.
Proof. destruct (every_point false 32 0 [] ex_ident) as (A & M & O & N & _). exists A. split; [exact M|]. split; assumption. Qed.
(* C127: the right PIN and a wrong one *)
Lemma ex_run pin' : 0 <= pin' < 10000 -> exists hcid cst token sst sec xid hid sec2,
  hash_id false 32 [] (repeat 0 48) = Some (true, hcid) /\ get_client_secret (Z.to_nat q381) (be_bytes 48 20000) hcid (repeat 0 97) = Some (0, cst) /\
  extract_pin false (Z.to_nat q381) 32 [] 1234 cst = Some (0, token) /\ get_server_secret (be_bytes 48 20000) (repeat 0 192) = Some (0, sst) /\
  client_1 false (Z.to_nat q381) 32 0 [] None (be_bytes 48 5) pin' token (repeat 0 97) (Some (repeat 0 97)) None None = Some (0, be_bytes 48 5, sec, Some xid, None, None) /\
  server_1 false (Z.to_nat q381) 32 0 [] (repeat 0 97) None = Some (hid, None) /\ client_2 (be_bytes 48 5) (be_bytes 48 6) sec = Some (0, sec2) /\
  server_2 0 hid None (be_bytes 48 6) sst (Some xid) None sec2 None None = Some (if pin' =? 1234 then 0 else -19, None, None).
Proof.
  intros P. destruct (ex_scalar 20000 ltac:(lia)) as [S1 N1]. destruct (ex_scalar 5 ltac:(lia)) as [S2 N2]. destruct (ex_scalar 6 ltac:(lia)) as [S3 N3]. assert (R : 40000 < r255) by reflexivity.
  destruct (mpin_run false (Z.to_nat q381) 32 [] (be_bytes 48 20000) 1234 pin' (be_bytes 48 5) (be_bytes 48 6) (repeat 0 97) (repeat 0 192) (repeat 0 97) (repeat 0 97) (repeat 0 97) ex_ident ltac:(lia) S1 S2 S3 ltac:(lia) ltac:(lia)
    (ex_buf 97) (ex_buf 192) (ex_buf 97) (ex_buf 97) (ex_buf 97)) as (hcid & cst & token & sst & sec & xid & hid & sec2 & H1 & H2 & H3 & H4 & H5 & H6 & H7 & HA & HR);
    try (rewrite ?N1, ?N2, ?N3; change (1234 mod 10000) with 1234; rewrite ?(Z.mod_small pin' 10000) by lia; rewrite Z.mod_small by lia; lia).
  exists hcid, cst, token, sst, sec, xid, hid, sec2. split; [exact H1|]. split; [exact H2|]. split; [exact H3|]. split; [exact H4|]. split; [exact H5|]. split; [exact H6|]. split; [exact H7|].
  change (1234 mod 10000) with 1234 in HA, HR. rewrite (Z.mod_small pin' 10000) in HA, HR by lia. destruct (Z.eqb_spec pin' 1234) as [E|E].
  - exact (HA (eq_sym E) None None).
  - exact (proj1 (HR (fun C => E (eq_sym C))) None None (or_introl eq_refl)).
Qed.
Example ex_right : 0 <= 1234 < 10000 /\ (1234 =? 1234) = true. Proof. split; [lia|reflexivity]. Qed.
Example ex_wrong : 0 <= 4321 < 10000 /\ (4321 =? 1234) = false. Proof. split; [lia|reflexivity]. Qed.
(* C127 with a date *)
Example ex_date : (forall A B, map_pt (mp_hash 32 0 []) A -> map_pt (mp_hash 32 20000 (mp_hash 32 0 [])) B -> padd1 A B <> Inf /\ padd1 (mul1 (20000 mod r255) A) (mul1 20000 B) <> Inf) ->
  exists permit hcid, get_client_permit false (Z.to_nat q381) 32 20000 (be_bytes 48 20000) hcid (repeat 0 97) = Some (0, permit).
Proof.
  intros D. destruct (ex_scalar 20000 ltac:(lia)) as [S1 N1]. destruct (ex_scalar 5 ltac:(lia)) as [S2 N2]. destruct (ex_scalar 6 ltac:(lia)) as [S3 N3]. assert (R : 40000 < r255) by reflexivity.
  destruct (mpin_run_date false (Z.to_nat q381) 32 [] 20000 (be_bytes 48 20000) 1234 1234 (be_bytes 48 5) (be_bytes 48 6) (repeat 0 97) (repeat 0 97) (repeat 0 192) (repeat 0 97) (repeat 0 97) (repeat 0 97) (repeat 0 97) (repeat 0 97)
    ex_ident ltac:(lia) S1 S2 S3 ltac:(lia) ltac:(lia) ltac:(lia) (ex_buf 97) (ex_buf 97) (ex_buf 192) (ex_buf 97) (ex_buf 97) (ex_buf 97) (ex_buf 97) (ex_buf 97)) as (hcid & cst & token & permit & sst & sec & xid & xcid & hid & htid & sec2 & _ & _ & _ & H & _);
    try (rewrite ?N1, ?N2, ?N3; change (1234 mod 10000) with 1234; rewrite Z.mod_small by lia; lia).
  - rewrite N1. change (1234 mod 10000) with 1234. replace (20000 - 1234 + 1234) with 20000 by lia. exact D.
  - exists permit, hcid. exact H.
Qed.
(* C128: the commitment and the response of C129, which satisfy its hypotheses *)
Example ex_decision : exists hid y sst xid A U V, in_G1 hid A /\ scalar y /\ in_G1 xid U /\ in_G1 (enc_pt V) V /\ server_2 0 hid None y sst (Some xid) None (enc_pt V) None None = Some (0, None, None).
Proof.
  destruct response_refuted as (hid & y & sst & xid & A & U & V & V' & _ & H1 & H2 & H3 & H4 & _ & _ & _ & H5 & _). exists hid, y, sst, xid, A, U, V.
  split; [exact H1|]. split; [exact H2|]. split; [exact H3|]. split; [exact H4|]. apply H5.
Qed.
(* strings of zeros decode to no point *)
Example ex_invalid : decodes (repeat 0 97) Inf.
Proof. intros x y (_ & _ & [[C _]|C]); [discriminate C|]. pose proof (Z.mod_pos_bound (fv y) 2 ltac:(lia)) as B. cbn [nth repeat] in C. lia. Qed.
