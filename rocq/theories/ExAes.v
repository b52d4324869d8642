(* Concrete cases meeting the hypotheses of the theorems in PropsAes. *)
From Coq Require Import Lia.
From Verif Require Import Prim SpecBytes SpecAes Aes AesP AesK AesM Ecies EciesP.

(* FIPS 197, appendix C.1 and C.2 *)
Definition key_up (n : nat) : list Z := map Z.of_nat (seq 0 n).
Definition pt_c : list Z := map (fun i => 17 * Z.of_nat i) (seq 0 16).
Definition ct_c1 : list Z := [105; 196; 224; 216; 106; 123; 4; 48; 216; 205; 183; 128; 112; 180; 197; 90].
Definition ct_c2 : list Z := [221; 169; 124; 164; 134; 76; 223; 224; 110; 175; 112; 160; 236; 13; 113; 145].
Lemma up_bytes n : (n <= 256)%nat -> bytes (key_up n).
Proof. intros N. apply Forall_forall. intros x X. apply in_map_iff in X. destruct X as (i & <- & X). apply in_seq in X. lia. Qed.
Lemma pt_bytes : bytes pt_c.
Proof. apply Forall_forall. intros x X. apply in_map_iff in X. destruct X as (i & <- & X). apply in_seq in X. lia. Qed.
Lemma pt_st : st pt_c. Proof. split; [reflexivity|exact pt_bytes]. Qed.
Lemma c1 : AES_enc (key_up 16) pt_c = ct_c1. Proof. vm_compute. reflexivity. Qed.
Lemma c2 : AES_enc (key_up 24) pt_c = ct_c2. Proof. vm_compute. reflexivity. Qed.
Example ex_aes128 : exists a, aes_init aes_new M_ECB 16 (key_up 16) None = Some (true, a) /\ ecb_encrypt a pt_c = Some ct_c1 /\ ecb_decrypt a ct_c1 = Some pt_c.
Proof.
  destruct (block_fips aes_new M_ECB (key_up 16) None eq_refl eq_refl (up_bytes 16 ltac:(lia)) (or_introl eq_refl)) as (a & I & H). exists a. split; [exact I|].
  destruct (H pt_c eq_refl pt_bytes) as (E1 & _ & E3). rewrite c1 in E1, E3. split; [exact E1|].
  assert (B : bytes ct_c1) by (repeat (constructor; [lia|]); constructor). destruct (H ct_c1 eq_refl B) as (_ & E4 & _). rewrite E3 in E4. exact E4.
Qed.
Example ex_aes192 : exists a, aes_init aes_new M_ECB 24 (key_up 24) None = Some (true, a) /\ ecb_encrypt a pt_c = Some ct_c2.
Proof.
  destruct (block_fips aes_new M_ECB (key_up 24) None eq_refl eq_refl (up_bytes 24 ltac:(lia)) (or_intror eq_refl)) as (a & I & H). exists a. split; [exact I|]. rewrite <- c2. exact (proj1 (H pt_c eq_refl pt_bytes)).
Qed.
(* CFB with 2 bytes, a 32-byte key, a given initial vector and two blocks *)
Definition two : list (list Z) := [pt_c; ct_c1].
Lemma two_st : Forall (fun b => length b = 16%nat /\ bytes b) two.
Proof. constructor; [exact pt_st|]. constructor; [split; [reflexivity|repeat (constructor; [lia|]); constructor]|constructor]. Qed.
Example ex_inverts : exists a a' cs, aes_init aes_new 3 32 (key_up 32) (Some ct_c1) = Some (true, a) /\ blocks_run (aes_encrypt true) a two = Some (a', cs) /\ blocks_run (aes_decrypt true) a cs = Some (a', two).
Proof.
  assert (G : good_iv (Some ct_c1)) by (split; [reflexivity|repeat (constructor; [lia|]); constructor]).
  assert (KI : In (length (key_up 32) / 4)%nat [4; 6; 8]%nat) by (right; right; left; reflexivity). assert (KL : key_len (length (key_up 32) / 4)) by (right; right; reflexivity).
  destruct (init_live 3 (key_up 32) (Some ct_c1) (up_bytes 32 ltac:(lia)) KL G) as (a & E & D & I & LV & MO & _). exists a.
  destruct (modes_invert true 3 (key_up 32) (Some ct_c1) two (up_bytes 32 ltac:(lia)) KI G two_st) as (a0 & I0 & H). rewrite I in I0. injection I0 as <-.
  destruct (run_cfb true E D two a LV ltac:(rewrite MO; reflexivity) two_st) as (a' & cs & R & _). exists a', cs. split; [exact I|]. split; [exact R|]. exact (H a' cs R).
Qed.
Example ex_cbc : exists a a', aes_init aes_new M_CBC 16 (key_up 16) None = Some (true, a) /\ blocks_run (aes_encrypt true) a two = Some (a', cbc_enc (AES_enc (key_up 16)) (repeat 0 16) two).
Proof. exact (cbc_std true (key_up 16) None two (up_bytes 16 ltac:(lia)) (or_introl eq_refl) I two_st). Qed.
Example ex_ofb : exists a a' cs, aes_init aes_new 17 24 (key_up 24) None = Some (true, a) /\ blocks_run (aes_encrypt true) a two = Some (a', cs) /\
  map (firstn 4) cs = ofb_enc (AES_enc (key_up 24)) 4 (repeat 0 16) (map (firstn 4) two) /\ map (skipn 4) cs = map (skipn 4) two.
Proof. exact (ofb_std true 4 (key_up 24) None two ltac:(cbn; auto 6) (up_bytes 24 ltac:(lia)) (or_intror eq_refl) I two_st). Qed.
Example ex_cfb : exists a a' cs, aes_init aes_new 2 24 (key_up 24) None = Some (true, a) /\ blocks_run (aes_encrypt true) a two = Some (a', cs) /\
  map (firstn 1) cs = cfb_enc (AES_enc (key_up 24)) 1 (repeat 0 16) (map (firstn 1) two) /\ map (skipn 1) cs = map (skipn 1) two.
Proof. exact (cfb_std true 1 (key_up 24) None two ltac:(cbn; auto 6) (up_bytes 24 ltac:(lia)) (or_intror eq_refl) I two_st). Qed.
(* the counter steps from 254 to 255, and has then no successor *)
Definition ivc : list Z := 254 :: repeat 0 15.
Lemma ivc_ok : good_iv (Some ivc). Proof. split; [reflexivity|]. constructor; [lia|apply Forall_forall; intros x X; apply repeat_spec in X; lia]. Qed.
Example ex_ctr : exists a a' cs, aes_init aes_new 45 16 (key_up 16) (Some ivc) = Some (true, a) /\ blocks_run (aes_encrypt false) a two = Some (a', cs) /\
  map (firstn 16) cs = ctr_enc (AES_enc (key_up 16)) inc_le 16 ivc (map (firstn 16) two) /\ map (skipn 16) cs = map (skipn 16) two.
Proof. exact (ctr_std 16 (key_up 16) (Some ivc) two ltac:(cbn; auto 6) (up_bytes 16 ltac:(lia)) (or_introl eq_refl) ivc_ok two_st). Qed.
Example ex_ctr_panics : exists a, aes_init aes_new 45 16 (key_up 16) (Some ivc) = Some (true, a) /\ blocks_run (aes_encrypt true) a two = None.
Proof.
  destruct (ctr_panics 16 (key_up 16) (Some ivc) two ltac:(cbn; auto 6) (up_bytes 16 ltac:(lia)) ltac:(left; reflexivity) ivc_ok two_st) as (a & I & P). exists a. split; [exact I|]. apply P. reflexivity.
Qed.
(* 20 bytes: one full block and 4 bytes, padded with 12 *)
Lemma m20 : bytes (key_up 20). Proof. apply up_bytes. lia. Qed.
Example ex_cbc_encrypt : cbc_iv0_encrypt true (key_up 16) (key_up 20) =
  Some (concat (cbc_enc (AES_enc (key_up 16)) (repeat 0 16) [key_up 16; [16; 17; 18; 19; 12; 12; 12; 12; 12; 12; 12; 12; 12; 12; 12; 12]])).
Proof. exact (cbc_encrypt_ok true (key_up 16) (key_up 20) (up_bytes 16 ltac:(lia)) (or_introl eq_refl) m20). Qed.
Example ex_cbc_decrypt : exists c, cbc_iv0_encrypt true (key_up 32) (key_up 20) = Some c /\ cbc_iv0_decrypt true (key_up 32) c = Some (Some (key_up 16 ++ [12; 12; 12; 12])).
Proof. exact (cbc_round_trip true (key_up 32) (key_up 20) (up_bytes 32 ltac:(lia)) ltac:(right; right; left; reflexivity) m20). Qed.
Example ex_cbc_accept : exists c r, cbc_iv0_encrypt true (key_up 16) (key_up 20) = Some c /\ cbc_iv0_decrypt true (key_up 16) c = Some r /\ r = Some (damaged (key_up 20)).
Proof.
  destruct (cbc_round_trip true (key_up 16) (key_up 20) (up_bytes 16 ltac:(lia)) ltac:(left; reflexivity) m20) as (c & E & D). exists c, (Some (damaged (key_up 20))). split; [exact E|]. split; [exact D|reflexivity].
Qed.
(* one byte is no ciphertext *)
Example ex_cbc_reject : cbc_iv0_decrypt true (key_up 16) [7] = Some None.
Proof.
  destruct (cbc_decrypt_ok true (key_up 16) [7] (up_bytes 16 ltac:(lia)) (or_introl eq_refl)) as (r & E & H); [constructor; [lia|constructor]|]. rewrite E. destruct r as [m|]; [|reflexivity].
  destruct (proj1 (H m) eq_refl) as (x & Q & _). discriminate Q.
Qed.
Example ex_whole : damaged (key_up 32) = key_up 32. Proof. exact (damaged_whole (key_up 32) eq_refl). Qed.
Example ex_no_key : cbc_iv0_encrypt true (key_up 20) (key_up 3) = cbc_iv0_encrypt true (repeat 9 12) (key_up 3) /\ cbc_iv0_decrypt true (key_up 20) (key_up 3) = cbc_iv0_decrypt true (repeat 9 12) (key_up 3).
Proof. apply cbc_no_key; intros [H|[H|[H|[]]]]; discriminate H. Qed.
