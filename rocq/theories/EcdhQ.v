(* Proofs about key pairs, Diffie-Hellman and key validation of ecdh.rs. *)
From Coq Require Import ZArith List Bool Lia Znumtheory.
From Verif Require Import Prim PrimP Rom Big BigX BigP BigP2 BigP3 BigL NumT FieldQ FieldQ2 Fp FpP FpP2 JacobiM JacP Fp2 Fp2P Sqrt2P InvP SpecBytes SpecRand SpecMac Utils Api SpecCurve CurveP GroupP Ecp EcpP EcpC GenP G1Grp G1Ord Denote
  KeysP KeysP2 MapitP Rand RandP Ecdh EcdhH SpecEcdh EcdhP.
Import ListNotations.
Open Scope Z_scope.

Lemma r3 : r255 mod 3 = 1. Proof. reflexivity. Qed.
Lemma r255_pos : 0 < r255. Proof. reflexivity. Qed.
Lemma r255_b : r255 < 2 ^ 255. Proof. reflexivity. Qed.
Lemma r255_404 v : 0 <= v < r255 -> v + 2 < 2 ^ 404. Proof. pose proof r255_b. lia. Qed.
Lemma order_nrep : nrep 7 CURVE_ORDER r255. Proof. exact (rep_nrep _ _ _ order_rep). Qed.
(* points of the group of order r have a nonzero abscissa *)
Lemma sub_x x y : on1 (Aff x y) -> zm1 r255 (Aff x y) = Inf -> x <> f0.
Proof.
  intros O R X. subst x. pose proof (order3 y O) as T. rewrite <- (zm1_mod r255 3 _ O T ltac:(lia)), r3, zm1_1 in R. discriminate R.
Qed.
Lemma G_sub v : zm1 r255 (zm1 v G1gen) = Inf.
Proof. rewrite <- zm1_mul by apply G1gen_on. rewrite Z.mul_comm, zm1_mul by apply G1gen_on. rewrite G1gen_order. apply zm1_zero. Qed.
Lemma G_nz v : 0 < v < r255 -> zm1 v G1gen <> Inf.
Proof. intros V H. rewrite <- (zm1_0 G1gen) in H. apply zm1_inj in H. rewrite Z.mod_0_l, Z.mod_small in H by lia. lia. Qed.

(* the abscissa of a point, and of the point at infinity made by ecp_new *)
Definition xval (x : Fq) (v : Z) : Prop := 0 <= v <= q381 /\ v mod q381 = fv x /\ (x <> f0 -> v = fv x).
Lemma rval_x x a : xval x (rval x a).
Proof.
  split; [apply rval_range|]. split; [|apply rval_nz]. rewrite <- (rval_mkq x a) at 2. rewrite fv_mkq. reflexivity.
Qed.
Lemma getx_ok l E x y a : ecpR l E (Aff x y) a -> 1 <= l <= 8 -> E <= 33554432 -> ok (ecp_getx a) (fun '(w, _) => exists v, rep 7 w v /\ xval x v).
Proof.
  intros H L HE. unfold ecp_getx. eapply ok_bind; [eapply ecp_affine_ok; [exact H|lia|lia]|]. intros a' (_ & AX & AY & AZ).
  eapply ok_bind; [apply (fp_redc_exact l E x (ex a') AX); lia|]. intros wx WX. cbn. eexists. split; [exact WX|apply rval_x].
Qed.
Lemma enc_new : (P <- ecp_new ;; '(bs, _) <- ecp_tobytes P ;; Some bs) = Some (enc_pt Inf).
Proof. vm_compute. reflexivity. Qed.
Lemma getx_new : (P <- ecp_new ;; '(x, _) <- ecp_getx P ;; Some x) = Some (repeat 0 7).
Proof. vm_compute. reflexivity. Qed.

Lemma mul_zero a e : rep 7 e 0 -> ecp_mul a e = ecp_new.
Proof. intros R. unfold ecp_mul. rewrite (proj2 (B_iszilch e 0 R) eq_refl). reflexivity. Qed.
(* v G, encoded *)
Lemma mul_enc a e v : ecpR 1 2 G1gen a -> rep 7 e v -> 0 <= v < r255 -> (P <- ecp_mul a e ;; '(bs, _) <- ecp_tobytes P ;; Some bs) = Some (enc_pt (zm1 v G1gen)).
Proof.
  intros A R V. destruct (Z.eq_dec v 0) as [E|E].
  - subst v. rewrite (mul_zero a e R), zm1_0. exact enc_new.
  - pose proof (G_nz v ltac:(lia)) as NI. pose proof (G_sub v) as SB. pose proof (zm1_on v G1gen G1gen_on) as ON.
    destruct (ok_ex _ _ (ecp_mul_ok 1 2 _ a e v A ltac:(lia) ltac:(lia) R (r255_404 v V))) as (P & EP & HP). rewrite EP. cbn [bind].
    destruct (zm1 v G1gen) as [|x y]; [destruct (NI eq_refl)|]. apply (ecpA_R 1 5) in HP; [|lia|lia].
    destruct (ok_ex _ _ (ecp_tobytes_ok 1 5 x y P HP ltac:(lia) ltac:(lia))) as ([bs a'] & EB & _ & HB). rewrite EB. cbn [bind]. subst bs.
    rewrite rval_nz by exact (sub_x x y ON SB). reflexivity.
Qed.
Lemma gen_ok : exists a, ecp_generator = Some a /\ ecpR 1 2 G1gen a.
Proof. exact (ok_ex _ _ ecp_generator_ok). Qed.

(* key pairs *)
Lemma put_front (w l : list Z) n : length l = n -> (n <= length w)%nat -> put w 0 l = Some (l ++ skipn n w). Proof. apply put0'. Qed.
Lemma keypair_none : forall s w, bytes s -> (48 <= length s)%nat -> (97 <= length w)%nat ->
  let d := be_int (firstn 48 s) mod r255 in
  key_pair_generate None s w = Some (0, be_bytes 48 d ++ skipn 48 s, enc_pt (nmul1 (Z.to_nat d) G1gen) ++ skipn 97 w, None).
Proof.
  intros s w B L W d. unfold key_pair_generate. destruct gen_ok as (G & EG & HG). rewrite EG. cbn [bind].
  destruct (proj1 (B_frombytes s B) L) as (c & E & R). rewrite E. cbn [bind]. destruct (B_rmod c _ CURVE_ORDER r255 R order_nrep r255_pos) as (c' & E' & R'). rewrite E'. cbn [bind]. fold d in R'.
  assert (D : 0 <= d < r255) by (apply Z.mod_pos_bound, r255_pos).
  rewrite (B_tobytes _ _ R'). cbn [bind]. rewrite (put_front s _ 48) by (try apply be_bytes_length; exact L). cbn [bind].
  pose proof (mul_enc G c' d HG R' D) as M. destruct (ecp_mul G c') as [P|]; [|discriminate M]. cbn [bind] in M |- *. destruct (ecp_tobytes P) as [[bs P']|]; [|discriminate M]. cbn [bind] in M |- *.
  injection M as M. rewrite M. rewrite (put_front w _ 97) by (try exact W; apply enc_bytes). cbn [bind]. rewrite (zm1_nmul d) by lia. reflexivity.
Qed.
Lemma keypair_rng : forall r f s w, gives r f -> (48 <= length s)%nat -> (97 <= length w)%nat ->
  let d := stream_num f 510 mod r255 in
  exists r', key_pair_generate (Some r) s w = Some (0, be_bytes 48 d ++ skipn 48 s, enc_pt (nmul1 (Z.to_nat d) G1gen) ++ skipn 97 w, Some r') /\
    gives r' (fun k => f (64 + k)%nat).
Proof.
  intros r f s w GV L W d. unfold key_pair_generate. destruct gen_ok as (G & EG & HG). rewrite EG. cbn [bind].
  destruct (randomnum_ok CURVE_ORDER r255 r f order_rep ltac:(split; [reflexivity|reflexivity]) GV) as (c' & r' & E & R & GV'). change (Z.to_nat (2 * (Z.log2 r255 + 1))) with 510%nat in R, GV'. change ((510 + 7) / 8)%nat with 64%nat in GV'.
  rewrite E. cbn [bind]. fold d in R. assert (D : 0 <= d < r255) by (apply Z.mod_pos_bound, r255_pos).
  rewrite (B_tobytes _ _ R). cbn [bind]. rewrite (put_front s _ 48) by (try apply be_bytes_length; exact L). cbn [bind].
  pose proof (mul_enc G c' d HG R D) as M. destruct (ecp_mul G c') as [P|]; [|discriminate M]. cbn [bind] in M |- *. destruct (ecp_tobytes P) as [[bs P']|]; [|discriminate M]. cbn [bind] in M |- *.
  injection M as M. rewrite M. rewrite (put_front w _ 97) by (try exact W; apply enc_bytes). cbn [bind]. rewrite (zm1_nmul d) by lia. exists r'. split; [reflexivity|exact GV'].
Qed.

(* Diffie-Hellman *)
Lemma frombytes_eq w p : bytes w -> long_enough w -> decodes w p -> exists a, ecp_frombytes w = Some a /\ ecpR 2 2 p a.
Proof. intros B L D. exact (ok_ex _ _ (frombytes_pt w p B L D)). Qed.
Lemma inf_eq l E p a : ecpR l E p a -> 1 <= l <= 31 -> E <= 33554432 -> exists b, ecp_is_infinity a = Some b /\ (b = true <-> p = Inf).
Proof. intros R L HE. exact (ok_ex _ _ (ecp_is_infinity_ok l E p a R L HE)). Qed.
Lemma dh_all : forall s wd z p, bytes s -> (48 <= length s)%nat -> bytes wd -> long_enough wd -> (48 <= length z)%nat -> decodes wd p ->
  match nmul1 (Z.to_nat (be_int (firstn 48 s) mod r255)) p with
  | Inf => ecpsvdp_dh s wd z = Some (-3, z)
  | Aff x y => exists v, ecpsvdp_dh s wd z = Some (0, be_bytes 48 v ++ skipn 48 z) /\ v mod q381 = fv x /\ (x <> f0 -> v = fv x)
  end.
Proof.
  intros s wd z p B L BW LW ZL DC. set (d := be_int (firstn 48 s) mod r255). assert (D : 0 <= d < r255) by (apply Z.mod_pos_bound, r255_pos).
  rewrite <- (zm1_nmul d) by lia. unfold ecpsvdp_dh. destruct (proj1 (B_frombytes s B) L) as (c & E & R). rewrite E. cbn [bind].
  destruct (frombytes_eq wd p BW LW DC) as (a & EA & RA). rewrite EA. cbn [bind]. destruct (inf_eq _ _ _ _ RA ltac:(lia) ltac:(lia)) as (b & EI & BI). rewrite EI. cbn [bind].
  destruct b.
  { rewrite (proj1 BI eq_refl), zm1_zero. reflexivity. }
  destruct (B_rmod c _ CURVE_ORDER r255 R order_nrep r255_pos) as (c' & E' & R'). rewrite E'. cbn [bind]. fold d in R'.
  destruct (ok_ex _ _ (ecp_mul_ok 2 2 p a c' d RA ltac:(lia) ltac:(lia) R' (r255_404 d D))) as (P & EP & HP). rewrite EP. cbn [bind]. apply (ecpA_R 1 5) in HP; [|lia|lia].
  destruct (inf_eq _ _ _ _ HP ltac:(lia) ltac:(lia)) as (b & EI2 & BI2). rewrite EI2. cbn [bind]. destruct (zm1 d p) as [|x y].
  - rewrite (proj2 BI2 eq_refl). reflexivity.
  - destruct b; [discriminate (proj1 BI2 eq_refl)|]. destruct (ok_ex _ _ (getx_ok 1 5 x y P HP ltac:(lia) ltac:(lia))) as ([wx P'] & EX & v & RV & V0 & V1 & V2). rewrite EX. cbn [bind].
    rewrite (B_tobytes _ _ RV). cbn [bind]. rewrite (put_front z _ 48) by (try apply be_bytes_length; exact ZL). cbn [bind]. exists v. split; [reflexivity|]. split; [exact V1|exact V2].
Qed.
Definition good (o : option RAND) : Prop := match o with None => True | Some r => exists f, gives r f end.
Lemma keypair_shape o s w k p r : good o -> bytes s -> (48 <= length s)%nat -> (97 <= length w)%nat -> key_pair_generate o s w = Some (0, k, p, r) ->
  exists d, 0 <= d < r255 /\ k = be_bytes 48 d ++ skipn 48 s /\ p = enc_pt (zm1 d G1gen) ++ skipn 97 w.
Proof.
  intros GO B L W H. destruct o as [r0|].
  - destruct GO as (f & GV). destruct (keypair_rng r0 f s w GV L W) as (r' & E & _). rewrite E in H. assert (D : 0 <= stream_num f 510 mod r255 < r255) by (apply Z.mod_pos_bound, r255_pos).
    exists (stream_num f 510 mod r255). rewrite (zm1_nmul (stream_num f 510 mod r255)) by lia. set (d := stream_num f 510 mod r255) in *. clearbody d. injection H as <- <- _. split; [exact D|split; reflexivity].
  - pose proof (keypair_none s w B L W) as E. cbv zeta in E. rewrite E in H. assert (D : 0 <= be_int (firstn 48 s) mod r255 < r255) by (apply Z.mod_pos_bound, r255_pos).
    exists (be_int (firstn 48 s) mod r255). rewrite (zm1_nmul (be_int (firstn 48 s) mod r255)) by lia. set (d := be_int (firstn 48 s) mod r255) in *. clearbody d. injection H as <- <- _. split; [exact D|split; reflexivity].
Qed.
Lemma sk_front d t : 0 <= d < r255 -> be_int (firstn 48 (be_bytes 48 d ++ t)) = d.
Proof. intros D. rewrite firstn_exact by apply be_bytes_length. apply be_int_48. pose proof r255_b. lia. Qed.
Lemma bytes_app a b : bytes a -> bytes b -> bytes (a ++ b). Proof. intros A B. apply Forall_app. split; assumption. Qed.
Lemma bytes_skip n l : bytes l -> bytes (skipn n l). Proof. apply bytes_skipn. Qed.
Lemma dh_one d e t u z : 0 <= d < r255 -> 0 <= e < r255 -> bytes t -> bytes u -> (48 <= length z)%nat ->
  exists v, match zm1 (d * e) G1gen with Inf => ecpsvdp_dh (be_bytes 48 d ++ t) (enc_pt (zm1 e G1gen) ++ u) z = Some (-3, z)
   | Aff x y => ecpsvdp_dh (be_bytes 48 d ++ t) (enc_pt (zm1 e G1gen) ++ u) z = Some (0, be_bytes 48 v ++ skipn 48 z) /\ v = fv x end.
Proof.
  intros D E T U ZL. pose proof (zm1_on e G1gen G1gen_on) as ON.
  pose proof (dh_all (be_bytes 48 d ++ t) (enc_pt (zm1 e G1gen) ++ u) z (zm1 e G1gen)) as H. rewrite (sk_front d t D), (Z.mod_small d r255 D), <- (zm1_nmul d) in H by lia. rewrite <- zm1_mul in H by apply G1gen_on.
  assert (H' := H (bytes_app _ _ (be_bytes_bytes 48 d) T)). rewrite app_length, be_bytes_length in H'. specialize (H' ltac:(lia) (bytes_app _ _ (proj1 (enc_bytes _)) U) (enc_long _ _) ZL (enc_decodes _ _ ON)).
  pose proof (zm1_on (d * e) G1gen G1gen_on) as OX. pose proof (G_sub (d * e)) as SX.
  destruct (zm1 (d * e) G1gen) as [|x y]; [exists 0; exact H'|]. destruct H' as (v & H1 & _ & H2). exists v. split; [exact H1|]. apply H2. exact (sub_x x y OX SX).
Qed.
Lemma prod_nz d e : 0 < d < r255 -> 0 < e < r255 -> zm1 (d * e) G1gen <> Inf.
Proof.
  intros D E H. rewrite <- (zm1_0 G1gen) in H. apply zm1_inj in H. rewrite Z.mod_0_l in H by (pose proof r255_pos; lia). apply Zmod_divide in H; [|pose proof r255_pos; lia].
  apply (prime_mult r255 r255_prime) in H. destruct H as [H|H]; apply Z.divide_pos_le in H; lia.
Qed.
Lemma dh_agree : forall o1 o2 s1 s2 w1 w2 k1 k2 p1 p2 r1 r2 z, good o1 -> good o2 -> bytes s1 -> bytes s2 -> bytes w1 -> bytes w2 ->
  (48 <= length s1)%nat -> (48 <= length s2)%nat -> (97 <= length w1)%nat -> (97 <= length w2)%nat -> (48 <= length z)%nat ->
  key_pair_generate o1 s1 w1 = Some (0, k1, p1, r1) -> key_pair_generate o2 s2 w2 = Some (0, k2, p2, r2) ->
  be_int (firstn 48 k1) <> 0 -> be_int (firstn 48 k2) <> 0 ->
  exists x y, nmul1 (Z.to_nat (be_int (firstn 48 k1) * be_int (firstn 48 k2))) G1gen = Aff x y /\
    ecpsvdp_dh k1 p2 z = Some (0, be_bytes 48 (fv x) ++ skipn 48 z) /\ ecpsvdp_dh k2 p1 z = Some (0, be_bytes 48 (fv x) ++ skipn 48 z).
Proof.
  intros o1 o2 s1 s2 w1 w2 k1 k2 p1 p2 r1 r2 z G1 G2 B1 B2 C1 C2 L1 L2 M1 M2 ZL K1 K2 N1 N2.
  destruct (keypair_shape _ _ _ _ _ _ G1 B1 L1 M1 K1) as (d & D & E1 & F1). destruct (keypair_shape _ _ _ _ _ _ G2 B2 L2 M2 K2) as (e & E & E2 & F2).
  rewrite E1, (sk_front d _ D) in N1. rewrite E2, (sk_front e _ E) in N2. rewrite E1, E2, (sk_front d _ D), (sk_front e _ E). rewrite F1, F2. rewrite <- (zm1_nmul (d * e)) by lia.
  pose proof (prod_nz d e ltac:(lia) ltac:(lia)) as NZ.
  destruct (dh_one d e (skipn 48 s1) (skipn 97 w2) z D E (bytes_skip _ _ B1) (bytes_skip _ _ C2) ZL) as (v1 & H1).
  destruct (dh_one e d (skipn 48 s2) (skipn 97 w1) z E D (bytes_skip _ _ B2) (bytes_skip _ _ C1) ZL) as (v2 & H2). rewrite (Z.mul_comm e d) in H2.
  destruct (zm1 (d * e) G1gen) as [|x y]; [destruct (NZ eq_refl)|]. destruct H1 as [H1 ->]. destruct H2 as [H2 ->]. exists x, y. split; [reflexivity|]. split; [exact H1|exact H2].
Qed.

(* validation *)
Lemma val_k : (nb <- big_nbits MODULUS ;; k <- big_shl big_one ((nb + 4) / 2) ;; k <- big_add k MODULUS ;; big_div k CURVE_ORDER) = Some CURVE_COF.
Proof. vm_compute. reflexivity. Qed.
Lemma val_odd WP : val_halve 1000 CURVE_COF WP = Some (CURVE_COF, WP). Proof. reflexivity. Qed.
Lemma cof_unity : big_isunity CURVE_COF = false. Proof. reflexivity. Qed.
Lemma validate_all : forall w p, bytes w -> long_enough w -> decodes w p ->
  (p <> Inf -> nmul1 (Z.to_nat h1c) p <> Inf -> public_key_validate w = Some 0) /\
  (p = Inf \/ nmul1 (Z.to_nat h1c) p = Inf -> public_key_validate w = Some (-2)).
Proof.
  intros w p B L DC. unfold public_key_validate. destruct (frombytes_eq w p B L DC) as (a & EA & RA). rewrite EA. cbn [bind].
  destruct (inf_eq _ _ _ _ RA ltac:(lia) ltac:(lia)) as (b & EI & BI). rewrite EI. cbn [bind]. destruct b.
  { split; [intros NI; destruct (NI (proj1 BI eq_refl))|reflexivity]. }
  pose proof val_k as VK. destruct (big_nbits MODULUS) as [nb|]; [|discriminate VK]. cbn [bind] in VK |- *.
  destruct (big_shl big_one ((nb + 4) / 2)) as [k|]; [|discriminate VK]. cbn [bind] in VK |- *. destruct (big_add k MODULUS) as [k2|]; [|discriminate VK]. cbn [bind] in VK |- *.
  rewrite VK. cbn [bind]. rewrite val_odd. cbn [bind]. rewrite cof_unity. cbn [negb].
  destruct (ok_ex _ _ (ecp_mul_ok 2 2 p a CURVE_COF h1c RA ltac:(lia) ltac:(lia) cof_rep h1c_small)) as (P & EP & HP). rewrite EP. cbn [bind]. apply (ecpA_R 1 5) in HP; [|lia|lia].
  destruct (inf_eq _ _ _ _ HP ltac:(lia) ltac:(lia)) as (b & EI2 & BI2). rewrite EI2. cbn [bind]. rewrite zm1_h1 in BI2. destruct b.
  - split; [intros _ NI; destruct (NI (proj1 BI2 eq_refl))|reflexivity].
  - split; [reflexivity|]. intros [C|C]; [apply (proj2 BI) in C|apply (proj2 BI2) in C]; discriminate C.
Qed.
(* every point of the group of order r but infinity is accepted; the converse fails *)
Lemma bezout_inf p : on1 p -> zm1 h1c p = Inf -> zm1 r255 p = Inf -> p = Inf.
Proof.
  intros O H R. assert (G : Z.gcd h1c r255 = 1) by exact h1_coprime. destruct (Z.gcd_bezout h1c r255 1 G) as (a & b & E).
  rewrite <- (zm1_1 p), <- E, zm1_add, !zm1_mul, H, R, !zm1_zero by exact O. reflexivity.
Qed.
Lemma decodes_on w p : decodes w p -> on1 p. Proof. destruct p as [|x y]; [intros _; exact I|]. intros D. exact (proj1 D). Qed.
Lemma r255_nn : 0 <= r255. Proof. pose proof r255_pos. lia. Qed.
Lemma validate_group : forall w p, bytes w -> long_enough w -> decodes w p -> p <> Inf -> nmul1 (Z.to_nat r255) p = Inf -> public_key_validate w = Some 0.
Proof.
  intros w p B L DC NI R. apply (proj1 (validate_all w p B L DC) NI). intros H. apply NI. rewrite <- zm1_h1 in H. rewrite <- (zm1_nmul r255) in R by exact r255_nn. exact (bezout_inf p (decodes_on w p DC) H R).
Qed.
Lemma h3 : h1c mod 3 = 0. Proof. vm_compute. reflexivity. Qed.
Lemma h1c_div3 p : on1 p -> zm1 3 p = Inf -> zm1 h1c p = Inf.
Proof. intros O T. rewrite <- (zm1_mod h1c 3 p O T ltac:(lia)), h3. apply zm1_0. Qed.
Lemma validate_refuted : exists w p, bytes w /\ long_enough w /\ decodes w p /\ public_key_validate w = Some 0 /\ nmul1 (Z.to_nat r255) p <> Inf.
Proof.
  set (t := Aff f0 (mkq 2)). assert (OT : on1 t) by exact on02. assert (T3 : zm1 3 t = Inf) by exact (order3 _ on02). set (p := padd1 G1gen t).
  assert (OP : on1 p) by (apply padd1_on; [apply G1gen_on|exact OT]).
  assert (RP : zm1 r255 p = t).
  { unfold p. rewrite zm1_dist by (try exact OT; apply G1gen_on). rewrite G1gen_order, <- (zm1_mod r255 3 t OT T3 ltac:(lia)), r3, zm1_1. reflexivity. }
  assert (HP : zm1 h1c p = zm1 h1c G1gen).
  { unfold p. rewrite zm1_dist by (try exact OT; apply G1gen_on). rewrite (h1c_div3 t OT T3). destruct (zm1 h1c G1gen); reflexivity. }
  assert (NH : zm1 h1c p <> Inf). { rewrite HP. intros C. pose proof (bezout_inf _ G1gen_on C G1gen_order) as E. discriminate E. }
  assert (NR : zm1 r255 p <> Inf) by (rewrite RP; discriminate).
  assert (NI : p <> Inf) by (intros C; rewrite C in NR; apply NR, zm1_zero). clearbody p.
  exists (enc_pt p), p. split; [apply enc_bytes|]. assert (LE : long_enough (enc_pt p)) by (rewrite <- (app_nil_r (enc_pt p)); apply enc_long). assert (DE : decodes (enc_pt p) p) by (rewrite <- (app_nil_r (enc_pt p)) at 1; apply enc_decodes; exact OP).
  split; [exact LE|]. split; [exact DE|]. split; [|rewrite <- (zm1_nmul r255) by exact r255_nn; exact NR].
  apply (proj1 (validate_all _ p (proj1 (enc_bytes p)) LE DE) NI). rewrite <- zm1_h1. exact NH.
Qed.
(* what the decoder accepts, and the encodings that are always accepted *)
Lemma enc_decodes' : forall p, on1 p -> bytes (enc_pt p) /\ long_enough (enc_pt p) /\ decodes (enc_pt p) p.
Proof.
  intros p O. split; [apply enc_bytes|]. split; [rewrite <- (app_nil_r (enc_pt p)); apply enc_long|]. rewrite <- (app_nil_r (enc_pt p)) at 1. apply enc_decodes, O.
Qed.
