(* Concrete cases meeting the hypotheses of the theorems in PropsEcdh. *)
From Coq Require Import ZArith List Bool Lia.
From Verif Require Import Prim PrimP SpecBytes SpecSha SpecRand SpecMac SpecCurve NumT FieldQ EcpP EcpC GenP G1Ord KeysP2 MapitP SpecEcdh Rand RandP Ecdh EcdhH EcdhP EcdhQ EcdhS.
Import ListNotations.
Open Scope Z_scope.

(* a generator whose words are all 0 and whose pool is chosen so that the first number
   drawn modulo r is 1; every later pool is the hash of 128 zeros *)
Definition P0 : list Z := [242;51;252;228;118;138;145;168;190;235;35;250;222;191;3;117;68;176;188;177;240;193;23;253;16;66;7;44;175;231;151;234].
Definition H0 : list Z := [56;114;58;46;94;138;23;170;121;80;220;0;130;9;148;78;137;143;105;167;189;16;162;60;131;157;52;30;147;95;213;202].
Definition gen0 : RAND := mkRAND (repeat 0 21) 0 0 0 P0.
Definition str0 (i : nat) : Z := if (i <? 32)%nat then nth i P0 0 else nth ((i - 32) mod 32) H0 0.
Lemma H0_ok : sha256 (repeat 0 128) = H0. Proof. vm_compute. reflexivity. Qed.
Lemma zero_swb k : Nat.iter k swb (repeat 0 21, 0) = (repeat 0 21, 0).
Proof. induction k as [|k IH]; [reflexivity|]. change (Nat.iter (S k) swb (repeat 0 21, 0)) with (swb (Nat.iter k swb (repeat 0 21, 0))). rewrite IH. reflexivity. Qed.
Lemma zero_strm j : strm gen0 j = 0.
Proof. unfold strm, swb_word. change (win gen0) with (repeat 0 21, 0). rewrite zero_swb. reflexivity. Qed.
Lemma zero_map (f : nat -> Z) n : (forall j, f j = 0) -> forall a, map (fun j => f j mod 256) (seq a n) = repeat 0 n.
Proof. intros H. induction n as [|n IH]; intros a; [reflexivity|]. cbn [seq map repeat]. rewrite H, IH. reflexivity. Qed.
Example ex_gives : gives gen0 str0.
Proof.
  split; [split; [split; [reflexivity|split]|cbn; lia]|].
  - cbn [win gen0 ira fst]. apply Forall_forall. intros x X. apply repeat_spec in X. subst x. split; [apply Z.le_refl|reflexivity].
  - left. reflexivity.
  - split; [cbn; lia|]. split; [reflexivity|]. split; [repeat (constructor; [lia|]); constructor|]. intros i. unfold str0. change (32 - pool_ptr gen0)%nat with 32%nat. change (pool_ptr gen0 + i)%nat with i. change (pool gen0) with P0.
    destruct (i <? 32)%nat; [reflexivity|]. cbv zeta. rewrite (zero_map (fun j => strm gen0 (128 * ((i - 32) / 32) + j))) by (intros j; apply zero_strm). rewrite H0_ok. reflexivity.
Qed.
Lemma draw_u : draw str0 0 = 1. Proof. vm_compute. reflexivity. Qed.
Lemma draw_w : draw str0 1 <> 0. Proof. vm_compute. discriminate. Qed.

(* a key pair from the secret 5, and one from the generator (the secret is 1) *)
Lemma zeros48 n : bytes (repeat 0 n). Proof. apply zeros_bytes. Qed.
Definition sec5 : list Z := be_bytes 48 5.
Lemma five : be_int (firstn 48 sec5) mod r255 = 5. Proof. vm_compute. reflexivity. Qed.
Example ex_key_pair : key_pair_generate None sec5 (repeat 0 97) = Some (0, be_bytes 48 5 ++ skipn 48 sec5, enc_pt (nmul1 (Z.to_nat 5) G1gen) ++ skipn 97 (repeat 0 97), None).
Proof. pose proof (keypair_none sec5 (repeat 0 97) (be_bytes_bytes 48 5)) as H. rewrite five in H. apply H; [unfold sec5; rewrite be_bytes_length; lia|rewrite repeat_length; lia]. Qed.
Lemma one510 : stream_num str0 510 mod r255 = 1. Proof. exact draw_u. Qed.
Example ex_key_pair_random : exists r', key_pair_generate (Some gen0) (repeat 0 48) (repeat 0 97) = Some (0, be_bytes 48 1 ++ skipn 48 (repeat 0 48), enc_pt (nmul1 (Z.to_nat 1) G1gen) ++ skipn 97 (repeat 0 97), Some r').
Proof.
  pose proof (keypair_rng gen0 str0 (repeat 0 48) (repeat 0 97) ex_gives) as H. rewrite one510 in H. destruct H as (r' & H & _); [rewrite repeat_length; lia|rewrite repeat_length; lia|]. exists r'. exact H.
Qed.
(* agreement of these two *)
Example ex_agreement : exists x y p1 p2 k2 r2, nmul1 5 G1gen = Aff x y /\
  ecpsvdp_dh sec5 p2 (repeat 0 48) = Some (0, be_bytes 48 (fv x) ++ []) /\ ecpsvdp_dh k2 p1 (repeat 0 48) = Some (0, be_bytes 48 (fv x) ++ []) /\
  key_pair_generate None sec5 (repeat 0 97) = Some (0, sec5, p1, None) /\ key_pair_generate (Some gen0) (repeat 0 48) (repeat 0 97) = Some (0, k2, p2, r2).
Proof.
  pose proof ex_key_pair as K1. destruct ex_key_pair_random as (r' & K2). pose proof (be_bytes_length 48 5) as L5.
  assert (E5 : be_bytes 48 5 ++ skipn 48 sec5 = sec5) by reflexivity. rewrite E5 in K1.
  set (p1 := enc_pt (nmul1 (Z.to_nat 5) G1gen) ++ skipn 97 (repeat 0 97)) in K1. set (p2 := enc_pt (nmul1 (Z.to_nat 1) G1gen) ++ skipn 97 (repeat 0 97)) in K2. set (k2 := be_bytes 48 1 ++ skipn 48 (repeat 0 48)) in K2.
  assert (B5 : be_int (firstn 48 sec5) = 5) by (vm_compute; reflexivity). assert (B1 : be_int (firstn 48 k2) = 1) by (vm_compute; reflexivity).
  destruct (dh_agree None (Some gen0) sec5 (repeat 0 48) (repeat 0 97) (repeat 0 97) sec5 k2 p1 p2 None (Some r') (repeat 0 48)) as (x & y & E & H1 & H2);
    [exact I|exists str0; exact ex_gives|apply be_bytes_bytes|apply zeros_bytes|apply zeros_bytes|apply zeros_bytes|unfold sec5; rewrite L5; lia|rewrite repeat_length; lia|rewrite repeat_length; lia|rewrite repeat_length; lia|rewrite repeat_length; lia|exact K1|exact K2|rewrite B5; discriminate|rewrite B1; discriminate|].
  rewrite B5, B1 in E. change (Z.to_nat (5 * 1)) with 5%nat in E. change (skipn 48 (repeat 0 48)) with (@nil Z) in H1, H2.
  exists x, y, p1, p2, k2, (Some r'). split; [exact E|]. split; [exact H1|]. split; [exact H2|]. split; [exact K1|exact K2].
Qed.
(* the generator is a valid key; the point (0, 2), of order 3, is not *)
Example ex_validate : public_key_validate (enc_pt G1gen) = Some 0.
Proof.
  destruct (enc_decodes' G1gen G1gen_on) as (B & L & D). apply (validate_group _ G1gen B L D); [discriminate|]. rewrite <- (zm1_nmul r255) by exact r255_nn. exact G1gen_order.
Qed.
Example ex_validate_order3 : public_key_validate (enc_pt (Aff f0 (mkq 2))) = Some (-2).
Proof.
  destruct (enc_decodes' (Aff f0 (mkq 2)) on02) as (B & L & D). apply (proj2 (validate_all _ _ B L D)). right. rewrite <- zm1_h1. apply h1c_div3; [exact on02|exact (order3 _ on02)].
Qed.
(* the secret 1 signs "abc" with the generator above: the nonce is 1 *)
Definition sec1 : list Z := be_bytes 48 1.
Lemma sec1_1 : be_int (firstn 48 sec1) = 1. Proof. vm_compute. reflexivity. Qed.
Lemma ex_round : dsa_succeeds (msg_int 32 abc) (be_int (firstn 48 sec1)) str0 0.
Proof.
  rewrite msg_abc, sec1_1. split; [|exact draw_w]. change (draw str0 (2 * 0)) with (draw str0 0). rewrite draw_u. unfold dsa_fails. rewrite dsa_c_1. intros [C|C]; vm_compute in C; discriminate C.
Qed.
Lemma abc_bytes : bytes abc. Proof. repeat (constructor; [lia|]). constructor. Qed.
Lemma abc_noov : noov true 32 (length abc). Proof. right. left. split; [reflexivity|cbn; lia]. Qed.
Lemma sec1_len : (48 <= length sec1)%nat. Proof. unfold sec1. rewrite be_bytes_length. lia. Qed.
Lemma rep_len (v : Z) : (48 <= length (repeat v 48))%nat. Proof. rewrite repeat_length. lia. Qed.
Example ex_sign : exists v r', ecpsp_dsa true 1 32 gen0 sec1 abc (repeat 0 48) (repeat 0 48) = Some (0, be_bytes 48 c1 ++ [], be_bytes 48 v ++ [], r') /\ (v * 1) mod r255 = (e1 + 1 * c1) mod r255.
Proof.
  destruct (sign_ok true 1 32 gen0 str0 sec1 abc (repeat 0 48) (repeat 0 48) 0 (or_introl eq_refl) abc_bytes abc_noov ex_gives (be_bytes_bytes 48 1) sec1_len (rep_len 0) (rep_len 0)) as (v & r' & E & D & _);
    [intros i I; lia|exact ex_round|lia|]. change (draw str0 (2 * 0)) with (draw str0 0) in E, D. rewrite draw_u in E, D. rewrite dsa_c_1 in E. destruct D as [_ D]. rewrite dsa_c_1, msg_abc, sec1_1 in D. exists v, r'. split; [exact E|exact D].
Qed.
Example ex_verify : exists c d r', ecpsp_dsa true 1 32 gen0 sec1 abc (repeat 0 48) (repeat 0 48) = Some (0, c, d, r') /\ ecpvp_dsa true 32 (enc_pt G1gen) abc c d = Some 0.
Proof.
  destruct ex_sign as (v & r' & E & _). exists (be_bytes 48 c1 ++ []), (be_bytes 48 v ++ []), r'. split; [exact E|]. destruct (enc_decodes' G1gen G1gen_on) as (B & L & D).
  apply (sign_verify true 1 32 gen0 str0 sec1 abc (repeat 0 48) (repeat 0 48) 0 _ _ r' (enc_pt G1gen) (or_introl eq_refl) abc_bytes abc_noov ex_gives (be_bytes_bytes 48 1) sec1_len (zeros_bytes 48) (zeros_bytes 48) (rep_len 0) (rep_len 0)); [rewrite sec1_1; vm_compute; discriminate|exact E|exact B|exact L|].
  rewrite sec1_1, <- (zm1_nmul 1) by lia. rewrite zm1_1. exact D.
Qed.
(* a signature with c = 0 is refused *)
Example ex_refused : ecpvp_dsa true 32 (enc_pt G1gen) abc (repeat 0 48) (repeat 0 48) = Some (-4).
Proof.
  destruct (enc_decodes' G1gen G1gen_on) as (B & L & D).
  destruct (verify_all true 32 (enc_pt G1gen) abc (repeat 0 48) (repeat 0 48) G1gen (or_introl eq_refl) abc_bytes abc_noov B L (zeros_bytes 48) (zeros_bytes 48) (rep_len 0) (rep_len 0) D) as [[V _]|[_ H]]; [discriminate|rewrite <- (zm1_nmul r255) by exact r255_nn; exact G1gen_order| |exact H].
  destruct V as ((C & _) & _). change (be_int (firstn 48 (repeat 0 48))) with 0 in C. lia.
Qed.
(* a string of zeros encodes no point *)
Example ex_no_key : decodes (repeat 0 97) Inf /\ ecpvp_dsa true 32 (repeat 0 97) abc (be_bytes 48 1) (be_bytes 48 1) = Some (-3).
Proof.
  assert (D : decodes (repeat 0 97) Inf). { intros x y (_ & _ & [[E _]|E]); [discriminate E|]. change (nth 0 (repeat 0 97) 0) with 0 in E. pose proof (Z.mod_pos_bound (fv y) 2 ltac:(lia)). lia. }
  split; [exact D|]. assert (F1 : be_int (firstn 48 (be_bytes 48 1)) = 1) by (vm_compute; reflexivity).
  apply (verify_inf true 32 (repeat 0 97) abc (be_bytes 48 1) (be_bytes 48 1) (or_introl eq_refl) abc_bytes abc_noov (zeros_bytes 97)); [split; [rewrite repeat_length; lia|intros _; rewrite repeat_length; lia]|apply be_bytes_bytes|apply be_bytes_bytes|rewrite be_bytes_length; lia|rewrite be_bytes_length; lia|exact D|rewrite F1; split; [lia|apply r255_range]|rewrite F1; split; [lia|apply r255_range]].
Qed.
