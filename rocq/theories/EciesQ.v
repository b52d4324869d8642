(* ecies_encrypt and ecies_decrypt of ecdh.rs. *)
From Coq Require Import ZArith List Bool Lia.
From Verif Require Import Prim PrimP SpecBytes SpecSha SpecRand SpecMac SpecCurve NumT FieldQ EcpP EcpC GenP G1Ord KeysP2 MapitP SpecEcdh Rand RandP Ecdh EcdhH EcdhK EcdhP EcdhQ
  SpecAes SpecEcies Aes AesP AesK AesM Ecies EciesP.
Import ListNotations.
Open Scope Z_scope.

Lemma sha_pos sha : is_sha sha -> (32 <= sha)%nat. Proof. intros [ ->|[ ->| ->]]; lia. Qed.
Lemma concat_len (g : nat -> list Z) n : (forall i, length (g i) = n) -> forall l, length (concat (map g l)) = (length l * n)%nat.
Proof. intros H. induction l as [|x l IH]; [reflexivity|]. cbn [map concat length]. rewrite app_length, H, IH. lia. Qed.
Lemma concat_bytes (g : nat -> list Z) : (forall i, bytes (g i)) -> forall l, bytes (concat (map g l)).
Proof. intros H. induction l as [|x l IH]; [constructor|]. cbn [map concat]. apply Forall_app. split; [apply H|exact IH]. Qed.
Lemma kdf_shape sha z p : is_sha sha -> bytes z -> bytes p -> length (KDF sha z p 1 32) = 32%nat /\ bytes (KDF sha z p 1 32).
Proof.
  intros S Z0 P. assert (BB : forall i, bytes (z ++ be_bytes 4 (Z.of_nat i) ++ p)) by (intros i; apply Forall_app; split; [exact Z0|apply Forall_app; split; [apply be_bytes_bytes|exact P]]).
  unfold KDF. split.
  - apply firstn_length_le. rewrite (concat_len _ sha) by (intros i; apply hfun_len; [exact S|apply BB]). rewrite seq_length. pose proof (Nat.div_mod 32 sha ltac:(pose proof (sha_pos sha S); lia)). pose proof (Nat.mod_upper_bound 32 sha ltac:(pose proof (sha_pos sha S); lia)). lia.
  - apply fst_bytes. apply concat_bytes. intros i. apply hfun_bytes; [exact S|apply BB].
Qed.
Lemma key_ok chk sha p1 v z : is_sha sha -> bytes v -> bytes z -> bytes p1 -> length z = 48%nat -> (97 <= length v)%nat -> noov chk sha (149 + length p1) ->
  ecies_key chk sha p1 v z = Some (ecies_k1 sha p1 (firstn 97 v) z, ecies_k2 sha p1 (firstn 97 v) z).
Proof.
  intros S BV BZ BP LZ LV N. unfold ecies_key. destruct (Nat.ltb_spec (length v) 97); [lia|]. assert (BVZ : bytes (firstn 97 v ++ z)) by (apply Forall_app; split; [apply fst_bytes, BV|exact BZ]).
  rewrite (kdf2_ok chk sha (firstn 97 v ++ z) (Some p1) 32 (repeat 0 32) S BVZ BP); [|apply (noov_le _ _ _ _ N); rewrite app_length, firstn_length_le by lia; cbn [opt]; lia|rewrite repeat_length; lia].
  cbn [bind opt]. change (skipn 32 (repeat 0 32)) with (@nil Z). rewrite app_nil_r. reflexivity.
Qed.
Lemma k_shape sha p1 V z : is_sha sha -> bytes V -> bytes z -> bytes p1 -> length (ecies_k1 sha p1 V z) = 16%nat /\ bytes (ecies_k1 sha p1 V z) /\ length (ecies_k2 sha p1 V z) = 16%nat /\ bytes (ecies_k2 sha p1 V z).
Proof.
  intros S BV BZ BP. destruct (kdf_shape sha (V ++ z) p1 S) as [L B]; [apply Forall_app; split; assumption|exact BP|]. unfold ecies_k1, ecies_k2.
  split; [apply firstn_length_le; lia|]. split; [apply fst_bytes, B|]. split; [rewrite skipn_length; lia|apply bytes_skipn, B].
Qed.
Lemma mac_input_eq c p2 : mac_input c p2 = c ++ p2 ++ be_bytes 8 (Z.of_nat (length p2)).
Proof.
  unfold mac_input, inttobytes. change (length (repeat 0 8)) with 8%nat. rewrite (itb_ok 8 0) by (try lia; reflexivity). change (skipn 8 (repeat 0 8)) with (@nil Z). rewrite app_nil_r. reflexivity.
Qed.
Lemma mac_ok chk sha k2 c p2 n tag : is_sha sha -> bytes k2 -> length k2 = 16%nat -> bytes c -> bytes p2 -> (4 <= n <= length tag)%nat -> noov chk sha (length c + length p2 + 216) ->
  hmac chk sha (mac_input c p2) k2 n tag = Some (true, ecies_tag sha k2 c p2 n ++ skipn n tag).
Proof.
  intros S BK LK BC BP N NV. rewrite mac_input_eq. rewrite (hmac_ok chk sha _ k2 n tag S); [reflexivity| |exact BK|exact N|].
  - apply Forall_app. split; [exact BC|]. apply Forall_app. split; [exact BP|apply be_bytes_bytes].
  - apply (noov_le _ _ _ _ NV). rewrite !app_length, be_bytes_length. lia.
Qed.
Lemma tag_len sha k2 c p2 n : length (ecies_tag sha k2 c p2 n) = n. Proof. apply fit_len. Qed.
Lemma same_all : forall a b, length a = length b -> (forallb (fun ab => fst ab =? snd ab) (combine a b) = true <-> a = b).
Proof.
  induction a as [|x a IH]; intros [|y b] L; try discriminate L; [split; reflexivity|]. injection L as L. cbn [combine forallb fst snd]. rewrite andb_true_iff, Z.eqb_eq, (IH b L). split; [intros [-> ->]; reflexivity|].
  intros H. apply cons_inj in H. exact H.
Qed.
Lemma d_range f : 0 <= stream_num f 510 mod r255 < r255. Proof. apply Z.mod_pos_bound, r255_pos. Qed.
Lemma aes_pair k : bytes k -> length k = 16%nat -> forall s, st s -> st (AES_enc k s) /\ AES_dec k (AES_enc k s) = s.
Proof.
  intros B L s SS. destruct (init_cip M_ECB k None B (key_len_std k (or_introl L))) as (a & E & D & _ & [CE _] & _ & _ & _ & Q). destruct (Q (or_introl L)) as [-> ->]. destruct (CE s SS) as (_ & H1 & H2). split; assumption.
Qed.
Lemma cipher_ok k1 m : bytes k1 -> length k1 = 16%nat -> bytes m -> bytes (ecies_cipher k1 m) /\ length (ecies_cipher k1 m) = (16 * (length m / 16 + 1))%nat /\ ecies_plain k1 (ecies_cipher k1 m) m.
Proof.
  intros B L BM. destruct (cipher_shape (AES_enc k1) (AES_dec k1) m (aes_pair k1 B L) BM) as (H1 & H2 & H3). split; [exact H1|]. split; [exact H2|]. split; [|exact H3].
  unfold ecies_cipher. rewrite H2, Nat.mul_comm. apply Nat.mod_mul. lia.
Qed.

(* what ecies_encrypt returns *)
Lemma encrypt_ok : forall chk sha p1 p2 rng f w m v t W, is_sha sha -> bytes p1 -> bytes p2 -> bytes w -> bytes m -> gives rng f -> long_enough w -> decodes w W ->
  (97 <= length v)%nat -> (4 <= length t)%nat -> noov chk sha (149 + length p1) -> noov chk sha (length m + length p2 + 232) ->
  let d := stream_num f 510 mod r255 in let V := enc_pt (nmul1 (Z.to_nat d) G1gen) in exists rng', gives rng' (fun i => f (64 + i)%nat) /\
  match nmul1 (Z.to_nat d) W with
  | Inf => ecies_encrypt chk sha p1 p2 rng w m v t = Some (None, V ++ skipn 97 v, t, Some rng')
  | Aff x y => x <> f0 -> let z := be_bytes 48 (fv x) in let c := ecies_cipher (ecies_k1 sha p1 V z) m in
      ecies_encrypt chk sha p1 p2 rng w m v t = Some (Some c, V ++ skipn 97 v, ecies_tag sha (ecies_k2 sha p1 V z) c p2 (length t), Some rng')
  end.
Proof.
  intros chk sha p1 p2 rng f w m v t W S BP1 BP2 BW BM GV LW DW LV LT N1 N2 d V. destruct (keypair_rng rng f (repeat 0 48) v GV ltac:(rewrite repeat_length; lia) LV) as (r' & EK & GV'). fold d in EK. fold V in EK.
  exists r'. split; [exact GV'|]. assert (D : 0 <= d < r255) by apply d_range. unfold ecies_encrypt. rewrite EK. cbn [bind]. change (negb (0 =? 0)) with false. cbv iota.
  change (skipn 48 (repeat 0 48)) with (@nil Z). 
  assert (BD : bytes (be_bytes 48 d ++ [])) by (apply bytes_app; [apply be_bytes_bytes|constructor]).
  pose proof (dh_all (be_bytes 48 d ++ []) w (repeat 0 48) W BD ltac:(rewrite app_length, be_bytes_length; lia) BW LW ltac:(rewrite repeat_length; lia) DW) as H.
  rewrite (sk_front d [] D), (Z.mod_small d r255 D) in H. destruct (nmul1 (Z.to_nat d) W) as [|x y].
  - rewrite H. cbn [bind]. reflexivity.
  - intros X. set (z := be_bytes 48 (fv x)). set (c := ecies_cipher (ecies_k1 sha p1 V z) m). destruct H as (u & H & _ & HU). rewrite H. cbn [bind]. change (negb (0 =? 0)) with false. cbv iota. rewrite (HU X). change (skipn 48 (repeat 0 48)) with (@nil Z). rewrite app_nil_r. fold z.
    assert (BV : bytes V /\ length V = 97%nat) by apply enc_bytes. destruct BV as [BV L97]. assert (BZ : bytes z) by apply be_bytes_bytes.
    unfold ecies_key. destruct (Nat.ltb_spec (length (V ++ skipn 97 v)) 97) as [Q|_]; [rewrite app_length in Q; lia|]. rewrite (firstn_exact V _ 97 L97).
    assert (BVZ : bytes (V ++ z)) by (apply Forall_app; split; assumption).
    rewrite (kdf2_ok chk sha (V ++ z) (Some p1) 32 (repeat 0 32) S BVZ BP1); [|apply (noov_le _ _ _ _ N1); rewrite app_length, L97; unfold z; rewrite be_bytes_length; cbn [opt]; lia|rewrite repeat_length; lia].
    cbn [bind opt]. change (skipn 32 (repeat 0 32)) with (@nil Z). rewrite app_nil_r. destruct (k_shape sha p1 V z S BV BZ BP1) as (LK1 & BK1 & LK2 & BK2).
    change (firstn 16 (KDF sha (V ++ z) p1 1 32)) with (ecies_k1 sha p1 V z). change (skipn 16 (KDF sha (V ++ z) p1 1 32)) with (ecies_k2 sha p1 V z).
    rewrite (cbc_encrypt_ok chk _ m BK1 (or_introl LK1) BM). cbn [bind]. change (concat _) with c. destruct (cipher_ok _ m BK1 LK1 BM) as (BC & LC & _). fold c in BC, LC.
    rewrite (mac_ok chk sha _ c p2 (length t) t S BK2 LK2 BC BP2); [|lia|apply (noov_le _ _ _ _ N2); rewrite LC; pose proof (Nat.div_mod (length m) 16 ltac:(lia)); lia].
    cbn [bind]. rewrite skipn_all, app_nil_r. reflexivity.
Qed.
(* what ecies_decrypt returns *)
Lemma decrypt_any chk sha p1 p2 v c t u P : is_sha sha -> bytes p1 -> bytes p2 -> bytes v -> bytes c -> bytes u -> (48 <= length u)%nat -> long_enough v -> decodes v P ->
  (97 <= length v)%nat -> (length t <= 32)%nat -> noov chk sha (149 + length p1) -> noov chk sha (length c + length p2 + 216) ->
  match nmul1 (Z.to_nat (be_int (firstn 48 u) mod r255)) P with
  | Inf => ecies_decrypt chk sha p1 p2 v c t u = Some None
  | Aff x y => x <> f0 -> let z := be_bytes 48 (fv x) in let V := firstn 97 v in exists r, ecies_decrypt chk sha p1 p2 v c t u = Some r /\
      forall m', r = Some m' <-> (exists m, ecies_plain (ecies_k1 sha p1 V z) c m /\ m' = damaged m) /\ ((length t < 4)%nat \/ t = ecies_tag sha (ecies_k2 sha p1 V z) c p2 (length t))
  end.
Proof.
  intros S BP1 BP2 BV BC BU LU LE DP LV LT N1 N2. unfold ecies_decrypt. rewrite (put0' (repeat 0 32) t (length t) eq_refl) by (rewrite repeat_length; exact LT). cbn [bind].
  pose proof (dh_all u v (repeat 0 48) P BU LU BV LE ltac:(rewrite repeat_length; lia) DP) as H. destruct (nmul1 _ P) as [|x y].
  - rewrite H. cbn [bind]. reflexivity.
  - intros X. set (z := be_bytes 48 (fv x)). set (V := firstn 97 v). destruct H as (e & H & _ & HU). rewrite H. cbn [bind]. change (negb (0 =? 0)) with false. cbv iota. rewrite (HU X). change (skipn 48 (repeat 0 48)) with (@nil Z). rewrite app_nil_r. fold z.
    assert (BZ : bytes z) by apply be_bytes_bytes. assert (BV' : bytes V) by apply fst_bytes, BV. rewrite (key_ok chk sha p1 v z S BV BZ BP1 (be_bytes_length 48 _) LV N1). cbn [bind]. fold V.
    destruct (k_shape sha p1 V z S BV' BZ BP1) as (LK1 & BK1 & LK2 & BK2). set (k1 := ecies_k1 sha p1 V z) in *. set (k2 := ecies_k2 sha p1 V z) in *. clearbody k1 k2.
    destruct (cbc_decrypt_ok chk k1 c BK1 (or_introl LK1) BC) as (r & ER & HR). rewrite ER. cbn [bind].
    assert (HR' : forall m', r = Some m' <-> exists m, ecies_plain k1 c m /\ m' = damaged m).
    { intros m'. rewrite (HR m'). split; intros (m & Q); exists m; [destruct Q as (Q1 & Q2 & Q3); split; [split; assumption|exact Q3]|destruct Q as ((Q1 & Q2) & Q3); auto]. }
    clear HR. destruct r as [m0|].
    + destruct (Nat.lt_ge_cases (length t) 4) as [T|T].
      * rewrite (hmac_short chk sha _ k2 (length t) _ T). cbn [bind]. rewrite (firstn_exact t _ (length t) eq_refl). rewrite (proj2 (same_all t t eq_refl) eq_refl).
        eexists. split; [reflexivity|]. intros m'. rewrite (HR' m'). tauto.
      * rewrite (mac_ok chk sha k2 c p2 (length t) _ S BK2 LK2 BC BP2); [|rewrite app_length; lia|exact N2]. cbn [bind]. rewrite (firstn_exact _ _ (length t) (tag_len _ _ _ _ _)).
        pose proof (same_all t (ecies_tag sha k2 c p2 (length t)) ltac:(rewrite tag_len; reflexivity)) as SA. eexists. split; [reflexivity|]. intros m'.
        destruct (forallb _ _); [rewrite (HR' m'); split; [intros Q; split; [exact Q|right; apply SA; reflexivity]|intros Q; apply Q]|].
        split; [discriminate|]. intros [_ [Q|Q]]; [lia|]. apply SA in Q. discriminate Q.
    + exists None. split; [reflexivity|]. intros m'. split; [discriminate|]. intros [Q _]. apply HR' in Q. discriminate Q.
Qed.
Lemma decrypt_ok : forall chk sha p1 p2 v c t u P, is_sha sha -> bytes p1 -> bytes p2 -> bytes v -> bytes c -> bytes u -> (48 <= length u)%nat -> long_enough v -> decodes v P ->
  (97 <= length v)%nat -> (4 <= length t <= 32)%nat -> noov chk sha (149 + length p1) -> noov chk sha (length c + length p2 + 216) ->
  match nmul1 (Z.to_nat (be_int (firstn 48 u) mod r255)) P with
  | Inf => ecies_decrypt chk sha p1 p2 v c t u = Some None
  | Aff x y => x <> f0 -> let z := be_bytes 48 (fv x) in let V := firstn 97 v in exists r, ecies_decrypt chk sha p1 p2 v c t u = Some r /\
      forall m', r = Some m' <-> (exists m, ecies_plain (ecies_k1 sha p1 V z) c m /\ m' = damaged m) /\ t = ecies_tag sha (ecies_k2 sha p1 V z) c p2 (length t)
  end.
Proof.
  intros chk sha p1 p2 v c t u P S BP1 BP2 BV BC BU LU LE DP LV LT N1 N2. pose proof (decrypt_any chk sha p1 p2 v c t u P S BP1 BP2 BV BC BU LU LE DP LV ltac:(lia) N1 N2) as H.
  destruct (nmul1 _ P) as [|x y]; [exact H|]. intros X z V. destruct (H X) as (r & ER & HR). exists r. split; [exact ER|]. intros m'. rewrite (HR m'). assert (T : ~ (length t < 4)%nat) by lia. tauto.
Qed.
(* tags of fewer than four bytes are not looked at *)
Lemma short_tags : forall chk sha p1 p2 v c t t' u P, is_sha sha -> bytes p1 -> bytes p2 -> bytes v -> bytes c -> bytes u -> (48 <= length u)%nat -> long_enough v -> decodes v P ->
  (97 <= length v)%nat -> (length t < 4)%nat -> (length t' < 4)%nat -> noov chk sha (149 + length p1) -> ecies_decrypt chk sha p1 p2 v c t u = ecies_decrypt chk sha p1 p2 v c t' u.
Proof.
  intros chk sha p1 p2 v c t t' u P S BP1 BP2 BV BC BU LU LE DP LV LT LT' N1. unfold ecies_decrypt.
  rewrite (put0' (repeat 0 32) t (length t) eq_refl) by (rewrite repeat_length; lia). rewrite (put0' (repeat 0 32) t' (length t') eq_refl) by (rewrite repeat_length; lia). cbn [bind].
  pose proof (dh_all u v (repeat 0 48) P BU LU BV LE ltac:(rewrite repeat_length; lia) DP) as H. destruct (nmul1 _ P) as [|x y]; [rewrite H; reflexivity|]. destruct H as (e & H & _). rewrite H. cbn [bind].
  change (negb (0 =? 0)) with false. cbv iota. destruct (ecies_key _ _ _ _ _) as [[k1 k2]|]; [|reflexivity]. cbn [bind]. destruct (cbc_iv0_decrypt chk k1 c) as [[m|]|]; try reflexivity. cbn [bind].
  rewrite !hmac_short by assumption. cbn [bind]. rewrite !(firstn_exact _ _ _ eq_refl), !(proj2 (same_all _ _ eq_refl) eq_refl). reflexivity.
Qed.
Lemma long_tags : forall chk sha p1 p2 v c t u, (32 < length t)%nat -> ecies_decrypt chk sha p1 p2 v c t u = None.
Proof.
  intros chk sha p1 p2 v c t u T. unfold ecies_decrypt, put. rewrite repeat_length. destruct (Nat.leb_spec (0 + length t) 32); [lia|]. reflexivity.
Qed.
(* a compressed V makes it panic *)
Lemma compressed_panics : forall chk sha p1 p2 v c t u P, bytes v -> bytes u -> (48 <= length u)%nat -> long_enough v -> decodes v P -> (length v < 97)%nat -> (length t <= 32)%nat ->
  nmul1 (Z.to_nat (be_int (firstn 48 u) mod r255)) P <> Inf -> ecies_decrypt chk sha p1 p2 v c t u = None.
Proof.
  intros chk sha p1 p2 v c t u P BV BU LU LE DP LV LT NI. unfold ecies_decrypt. rewrite (put0' (repeat 0 32) t (length t) eq_refl) by (rewrite repeat_length; exact LT). cbn [bind].
  pose proof (dh_all u v (repeat 0 48) P BU LU BV LE ltac:(rewrite repeat_length; lia) DP) as H. destruct (nmul1 _ P) as [|x y]; [destruct (NI eq_refl)|]. destruct H as (e & H & _). rewrite H. cbn [bind].
  change (negb (0 =? 0)) with false. cbv iota. unfold ecies_key. destruct (Nat.ltb_spec (length v) 97); [reflexivity|lia].
Qed.
(* the receiver gets the message back, its last block damaged *)
Lemma ecies_round : forall chk sha p1 p2 o s w0 u w r rng f m v t c v' t' r', is_sha sha -> bytes p1 -> bytes p2 -> bytes m -> bytes s -> bytes w0 -> bytes v ->
  good o -> (48 <= length s)%nat -> (97 <= length w0)%nat -> key_pair_generate o s w0 = Some (0, u, w, r) -> gives rng f -> (97 <= length v)%nat -> (4 <= length t <= 32)%nat ->
  noov chk sha (149 + length p1) -> noov chk sha (length m + length p2 + 232) ->
  ecies_encrypt chk sha p1 p2 rng w m v t = Some (Some c, v', t', r') -> ecies_decrypt chk sha p1 p2 v' c t' u = Some (Some (damaged m)).
Proof.
  intros chk sha p1 p2 o s w0 u w r rng f m v t c v' t' r' S BP1 BP2 BM BS BW0 BV GO LS LW0 KP GV LV LT N1 N2 EN.
  destruct (keypair_shape _ _ _ _ _ _ GO BS LS LW0 KP) as (e & HE & EU & EW). assert (BU : bytes u) by (rewrite EU; apply bytes_app; [apply be_bytes_bytes|apply bytes_skip, BS]).
  assert (LU : (48 <= length u)%nat) by (rewrite EU, app_length, be_bytes_length; lia). assert (FU : be_int (firstn 48 u) = e) by (rewrite EU; apply sk_front, HE).
  pose proof (zm1_on e G1gen G1gen_on) as OE. assert (BW : bytes w) by (rewrite EW; apply bytes_app; [apply enc_bytes|apply bytes_skip, BW0]).
  assert (LW : long_enough w) by (rewrite EW; apply enc_long). assert (DW : decodes w (zm1 e G1gen)) by (rewrite EW; apply enc_decodes, OE). clear KP EU EW.
  destruct (encrypt_ok chk sha p1 p2 rng f w m v t _ S BP1 BP2 BW BM GV LW DW LV (proj1 LT) N1 N2) as (rng' & _ & H). assert (D : 0 <= stream_num f 510 mod r255 < r255) by apply d_range.
  set (d := stream_num f 510 mod r255) in *. clearbody d. cbv zeta in H. set (V := enc_pt (nmul1 (Z.to_nat d) G1gen)) in *.
  rewrite <- (zm1_nmul d) in H by lia. rewrite <- (zm1_mul d e) in H by apply G1gen_on. pose proof (zm1_on (d * e) G1gen G1gen_on) as OX. pose proof (G_sub (d * e)) as SX.
  destruct (zm1 (d * e) G1gen) as [|x y] eqn:EX; [rewrite EN in H; discriminate H|]. specialize (H (sub_x x y OX SX)). rewrite EN in H. clear EN.
  set (z := be_bytes 48 (fv x)) in *. assert (BVE : bytes V /\ length V = 97%nat) by apply enc_bytes. destruct BVE as [BVE L97]. assert (BZ : bytes z) by apply be_bytes_bytes.
  destruct (k_shape sha p1 V z S BVE BZ BP1) as (LK1 & BK1 & LK2 & BK2). destruct (cipher_ok _ m BK1 LK1 BM) as (BC & LC & PC).
  assert (Q : c = ecies_cipher (ecies_k1 sha p1 V z) m /\ v' = V ++ skipn 97 v /\ t' = ecies_tag sha (ecies_k2 sha p1 V z) (ecies_cipher (ecies_k1 sha p1 V z) m) p2 (length t)) by (injection H; auto). clear H.
  destruct Q as (EC & EV & ET). rewrite <- EC in *. assert (LT' : length t' = length t) by (rewrite ET; apply tag_len).
  assert (BV' : bytes v') by (rewrite EV; apply bytes_app; [exact BVE|apply bytes_skip, BV]). pose proof (zm1_on d G1gen G1gen_on) as OD.
  assert (VZ : V = enc_pt (zm1 d G1gen)) by (unfold V; rewrite (zm1_nmul d) by lia; reflexivity).
  assert (DV : decodes v' (zm1 d G1gen)) by (rewrite EV, VZ; apply enc_decodes, OD). assert (LE : long_enough v') by (rewrite EV, VZ; apply enc_long).
  pose proof (decrypt_ok chk sha p1 p2 v' c t' u (zm1 d G1gen) S BP1 BP2 BV' BC BU LU LE DV ltac:(rewrite EV, app_length; lia) ltac:(lia) N1) as H.
  rewrite FU, (Z.mod_small e r255 HE), <- (zm1_nmul e) in H by lia. rewrite <- (zm1_mul e d) in H by apply G1gen_on. rewrite (Z.mul_comm e d), EX in H.
  specialize (H ltac:(apply (noov_le _ _ _ _ N2); rewrite LC; pose proof (Nat.div_mod (length m) 16 ltac:(lia)); lia) (sub_x x y OX SX)). destruct H as (res & ER & HR). rewrite ER. f_equal. apply HR.
  assert (FV : firstn 97 v' = V) by (rewrite EV; apply firstn_exact, L97). rewrite FV. fold z. split; [exists m; split; [exact PC|reflexivity]|]. rewrite LT'. exact ET.
Qed.
(* a ciphertext every tag of fewer than four bytes is accepted for *)
Lemma short_refuted : exists v c u m, bytes v /\ bytes c /\ bytes u /\ forall t, (length t < 4)%nat -> ecies_decrypt true 32 [] [] v c t u = Some (Some m).
Proof.
  destruct (enc_decodes' G1gen G1gen_on) as (BV & LE & DV). set (u := be_bytes 48 1). assert (U1 : be_int (firstn 48 u) mod r255 = 1) by (vm_compute; reflexivity).
  assert (BU : bytes u) by apply be_bytes_bytes. assert (LU : (48 <= length u)%nat) by (unfold u; rewrite be_bytes_length; lia). assert (LV : length (enc_pt G1gen) = 97%nat) by apply enc_bytes.
  pose proof G1gen_on as OX. assert (SX : zm1 r255 G1gen = Inf) by exact G1gen_order. destruct G1gen as [|x y] eqn:EG; [discriminate EG|]. set (V := enc_pt (Aff x y)) in *. set (z := be_bytes 48 (fv x)).
  set (m := repeat 7 16). assert (BM : bytes m) by (apply Forall_forall; intros a A; apply repeat_spec in A; lia). assert (BN : bytes []) by constructor.
  assert (S : is_sha 32) by (left; reflexivity). destruct (k_shape 32 [] V z S BV (be_bytes_bytes 48 _) BN) as (LK1 & BK1 & LK2 & BK2). destruct (cipher_ok _ m BK1 LK1 BM) as (BC & LC & PC).
  exists V, (ecies_cipher (ecies_k1 32 [] V z) m), u, m. split; [exact BV|]. split; [exact BC|]. split; [exact BU|]. intros t T.
  assert (N1 : noov true 32 (149 + @length Z [])) by (right; left; split; [reflexivity|cbn; lia]).
  pose proof (decrypt_any true 32 [] [] V (ecies_cipher (ecies_k1 32 [] V z) m) t u (Aff x y) S BN BN BV BC BU LU LE DV ltac:(lia) ltac:(lia) N1) as H.
  specialize (H ltac:(rewrite LC; right; left; split; [reflexivity|cbn; lia])). rewrite U1 in H. change (Z.to_nat 1) with 1%nat in H. assert (N : nmul1 1 (Aff x y) = Aff x y) by (rewrite <- (zm1_nmul 1) by lia; apply zm1_1).
  rewrite N in H. specialize (H (sub_x x y OX SX)). destruct H as (r & ER & HR). rewrite ER. f_equal. apply HR. split; [|left; exact T]. exists m. rewrite (firstn_all2 V) by lia. fold z.
  split; [exact PC|]. symmetry. apply damaged_whole. reflexivity.
Qed.
(* the generator, compressed: a valid public key, and ecies_decrypt panics *)
Lemma compressed_refuted : exists v u, bytes v /\ bytes u /\ length u = 48%nat /\ public_key_validate v = Some 0 /\
  forall chk sha p1 p2 c t, (length t <= 32)%nat -> ecies_decrypt chk sha p1 p2 v c t u = None.
Proof.
  set (u := be_bytes 48 1). assert (U1 : be_int (firstn 48 u) mod r255 = 1) by (vm_compute; reflexivity). assert (BU : bytes u) by apply be_bytes_bytes. assert (LU : length u = 48%nat) by apply be_bytes_length.
  pose proof G1gen_on as OX. assert (SX : zm1 r255 G1gen = Inf) by exact G1gen_order. destruct G1gen as [|x y] eqn:EG; [discriminate EG|].
  set (v := 2 + fv y mod 2 :: be_bytes 48 (fv x)). assert (MB : 0 <= fv y mod 2 < 2) by (apply Z.mod_pos_bound; lia).
  assert (BV : bytes v) by (constructor; [lia|apply be_bytes_bytes]). assert (LV : length v = 49%nat) by (unfold v; cbn [length]; rewrite be_bytes_length; reflexivity).
  assert (LE : long_enough v) by (split; [lia|]; unfold v; cbn [nth]; lia).
  assert (DV : decodes v (Aff x y)).
  { split; [exact OX|]. split; [|right; reflexivity]. unfold v. cbn [skipn]. rewrite firstn_all2 by (rewrite be_bytes_length; lia). apply be_int_48. pose proof (fv_range x). pose proof q384. lia. }
  exists v, u. split; [exact BV|]. split; [exact BU|]. split; [exact LU|]. split.
  - apply (validate_group v (Aff x y) BV LE DV); [discriminate|]. rewrite <- (zm1_nmul r255) by exact r255_nn. exact SX.
  - intros chk sha p1 p2 c t T. apply (compressed_panics chk sha p1 p2 v c t u (Aff x y) BV BU ltac:(lia) LE DV ltac:(lia) T). rewrite U1. change (Z.to_nat 1) with 1%nat. rewrite <- (zm1_nmul 1) by lia. rewrite zm1_1. discriminate.
Qed.
