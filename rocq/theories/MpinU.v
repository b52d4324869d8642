(* Whole runs of the protocol of mpin.rs. *)
From Coq Require Import ZArith List Bool Lia Znumtheory.
From Verif Require Import Prim PrimP Rom Big BigP BigP2 BigP3 BigP5 BigL NumT FieldQ FieldQ2 Fp Fp2 Fp4 Fp12 FpP FpP2 Fp2P Sqrt2P SpecBytes SpecMac SpecRand Utils Api SpecCurve CurveP GroupP
  Ecp Ecp2 EcpP EcpC Ecp2P Ecp2C GenP G1Grp G1Ord Denote KeysP KeysP2 LayerP MapP Tower TowerP Fp4P Fp12P FexpP SpecPairing MillerP3 PsiP BilinP TwistP VerifyP VerifyP2 VerifyP7 DenoteT Rand RandP
  Glv Mul2P Mul4P PinP GlvP MapitP SpecEcdh Ecdh EcdhH EcdhP EcdhQ Pair Pair2 Ate2P SpecMpin Mpin MpinP MpinQ MpinR MpinS MpinT.
Import ListNotations.
Open Scope Z_scope.
Opaque h1c.

(* a slice to be written *)
Definition buf (n : nat) (w : list Z) : Prop := bytes w /\ (n <= length w)%nat.
(* the server's answer to a response given with the PIN p when the token was made with the PIN v:
   0 if they agree; else -19, with two elements of the order-r group, if asked for, that tell the
   error of the PIN *)
Definition answer (run : option (list Z) -> option (list Z) -> option (Z * option (list Z) * option (list Z))) (v p : Z) : Prop :=
  (v = p -> forall e f, run e f = Some (0, e, f)) /\
  (v <> p ->
     (forall e f, e = None \/ f = None -> run e f = Some (-19, e, f)) /\
     (forall e0 f0, buf 576 e0 -> buf 576 f0 -> exists e1 f1, run (Some e0) (Some f0) = Some (-19, Some e1, Some f1) /\ buf 576 e1 /\ buf 576 f1 /\
        decodes12 f1 <> k1 /\ kpw (decodes12 f1) r255 = k1 /\
        kmul (decodes12 e1) (kpw (decodes12 f1) p) = kpw (decodes12 f1) v)).
Lemma lc_in A B m n : on1 A -> on1 B -> zm1 r255 A = Inf -> zm1 r255 B = Inf -> zm1 r255 (lc A B m n) = Inf.
Proof. intros OA OB KA KB. unfold lc. apply sub_add; try (apply zm1_on; assumption); apply sub_on; assumption. Qed.
Lemma lc_eq A B a b c d : a = c -> b = d -> lc A B a b = lc A B c d. Proof. intros -> ->. reflexivity. Qed.
(* the decision on multiples of A and B; B is the point of the date, or the point at infinity *)
Lemma final_pt A B s n v p : on1 A -> on1 B ->
  padd1 (pneg1 (zm1 n (lc A B (s - v + p) s))) (zm1 s (lc A B n n)) = zm1 (n * (v - p)) A.
Proof.
  intros OA OB. assert (ZL : forall k a b, zm1 k (lc A B a b) = lc A B (k * a) (k * b)).
  { intros k a b. unfold lc. rewrite zm1_dist by (apply zm1_on; assumption). rewrite !zm1_mul by assumption. reflexivity. }
  rewrite !ZL, (lc_opp A B OA OB), (lc_add A B OA OB). transitivity (lc A B (n * (v - p)) 0).
  - apply lc_eq; ring.
  - unfold lc. rewrite zm1_0. apply padd1_0r.
Qed.
Lemma prod_ne n d : n mod r255 <> 0 -> d <> 0 -> - r255 < d < r255 -> (n * d) mod r255 <> 0.
Proof.
  intros N D R C. pose proof r255_pos as RP. apply Z.mod_divide in C; [|lia]. apply (prime_mult _ r255_prime) in C. destruct C as [C|C].
  - apply N, Z.mod_divide; [lia|exact C].
  - apply D. destruct C as [k C]. assert (k = 0) by nia. subst k. lia.
Qed.
Lemma final_verdict A B s n v p : on1 A -> on1 B -> A <> Inf -> zm1 r255 A = Inf -> zm1 r255 B = Inf -> 0 <= s -> n mod r255 <> 0 -> 0 <= v < 2 ^ 14 -> 0 <= p < 2 ^ 14 ->
  let V := pneg1 (zm1 n (lc A B (s - v + p) s)) in
  (verdict2 (zm2 s G2gen) V (lc A B n n) = k1 <-> v = p) /\ verdict2 (zm2 s G2gen) V (lc A B n n) = pairing G2gen (zm1 (n * (v - p)) A).
Proof.
  intros OA OB NA KA KB S0 N HV HP V. assert (OV : on1 V) by (apply pneg1_on, zm1_on, lc_on; assumption). assert (OL : on1 (lc A B n n)) by (apply lc_on; assumption).
  assert (KV : zm1 r255 V = Inf) by (apply sub_neg; [apply zm1_on, lc_on; assumption|apply sub_on; [apply lc_on; assumption|apply lc_in; assumption]]).
  pose proof (final_pt A B s n v p OA OB) as FP. fold V in FP. split.
  - rewrite (verdict2_sub s V _ S0 OV OL KV (lc_in A B n n OA OB KA KB)), FP. split.
    + intros Z0. destruct (Z.eq_dec v p) as [E|E]; [exact E|exfalso]. revert Z0. apply zm1_ne; try assumption. assert (R : 2 ^ 14 < r255) by reflexivity. apply prod_ne; [exact N|lia|lia].
    + intros ->. rewrite Z.sub_diag, Z.mul_0_r. apply zm1_0.
  - rewrite (verdict2_pt s V _ S0 OV OL), FP. reflexivity.
Qed.
(* the relation between the two values written *)
Lemma final_diag A n v p : on1 A -> A <> Inf -> zm1 r255 A = Inf -> n mod r255 <> 0 -> 0 <= n -> 0 <= v -> 0 <= p ->
  let g := pairing G2gen (zm1 n A) in kmul (pairing G2gen (zm1 (n * (v - p)) A)) (kpw g p) = kpw g v /\ g <> k1 /\ kpw g r255 = k1.
Proof.
  intros OA NA KA N N0 V0 P0 g. unfold g. assert (ON : on1 (zm1 n A)) by apply zm1_on, OA. split.
  - rewrite <- !(pairing_zm_r _ G2gen _) by (try assumption; exact G2gen_eigen). rewrite <- (pairing_add_r G2gen _ _ G2gen_eigen) by (repeat apply zm1_on; assumption). f_equal.
    rewrite <- !zm1_mul by exact OA. rewrite <- zm1_add by exact OA. f_equal. ring.
  - split; [|apply BilinP.pairing_r; [exact (proj1 G2gen_eigen)|exact ON]].
    intros C. apply (pairing_right G2gen _ G2gen_eigen G2gen_ne ON) in C. apply (zm1_ne n A OA NA KA N), (bez1 _ _ _ ON C (sub_on n A OA KA) h1_coprime).
Qed.
Lemma lc_Inf A a b : lc A Inf a b = zm1 a A. Proof. unfold lc. rewrite zm1_zero. apply padd1_0r. Qed.
Lemma neg_ne (p : pt1) : p <> Inf -> pneg1 p <> Inf. Proof. destruct p; [contradiction|discriminate]. Qed.
Lemma server_S s sst : bytes s -> (48 <= length s)%nat -> num_of s mod r255 <> 0 -> buf 192 sst ->
  exists w, get_server_secret s sst = Some (0, w) /\ bytes w /\ (192 <= length w)%nat /\ decodes2 w (zm2 (num_of s) G2gen) /\ zm2 (num_of s) G2gen <> Inf /\ eigen (zm2 (num_of s) G2gen).
Proof.
  intros B L N [BW LW]. destruct (server_secret_ok s sst B L N LW) as (bs & E & BB & LB & DB). exists (bs ++ skipn 192 sst). split; [exact E|].
  split; [apply bytes_app; [exact BB|apply bytes_skipn, BW]|]. split; [rewrite app_length, LB; lia|]. split; [apply DB|]. split; [|apply PsiP.eigen_zm, G2gen_eigen].
  apply zm2_ne; [exact (proj1 G2gen_eigen)|exact G2gen_ne|exact (eigen_r _ G2gen_eigen)|exact N].
Qed.
Lemma isG1_negmul n q t : on1 q -> q <> Inf -> zm1 r255 q = Inf -> n mod r255 <> 0 -> bytes t -> isG1 (enc_pt (pneg1 (zm1 n q)) ++ t) (pneg1 (zm1 n q)).
Proof.
  intros O N K NN B. apply isG1_enc; [apply pneg1_on, zm1_on, O|apply neg_ne, zm1_ne; assumption| |exact B]. apply sub_neg; [apply zm1_on, O|apply sub_on; assumption].
Qed.
(* what is used of the answer, from the decision lemma *)
Lemma written_dec o w x : bytes w -> written o w x -> exists b, o = Some b /\ buf 576 b /\ decodes12 b = x.
Proof.
  intros W (bs & E & B & L & D). exists (bs ++ skipn 576 w). split; [exact E|]. split; [|apply D]. split; [apply bytes_app; [exact B|apply bytes_skipn, W]|rewrite app_length, L; lia].
Qed.

Lemma mpin_run : forall chk fuel sha id s pin pin' x y c0 sst0 sec0 xid0 hid0, ident chk sha id -> q381 <= Z.of_nat fuel -> scalar s -> scalar x -> scalar y ->
  0 <= pin < 2 ^ 31 -> 0 <= pin' < 2 ^ 31 -> buf 97 c0 -> buf 192 sst0 -> buf 97 sec0 -> buf 97 xid0 -> buf 97 hid0 ->
  let v := pin mod 10000 in let p := pin' mod 10000 in
  num_of s mod r255 <> 0 -> (num_of s - v) mod r255 <> 0 -> (num_of s - v + p) mod r255 <> 0 -> num_of x mod r255 <> 0 -> (num_of x + num_of y) mod r255 <> 0 ->
  exists hcid cst token sst sec xid hid sec2,
    hash_id chk sha id (repeat 0 48) = Some (true, hcid) /\ get_client_secret fuel s hcid c0 = Some (0, cst) /\ extract_pin chk fuel sha id pin cst = Some (0, token) /\
    get_server_secret s sst0 = Some (0, sst) /\ client_1 chk fuel sha 0 id None x pin' token sec0 (Some xid0) None None = Some (0, x, sec, Some xid, None, None) /\
    server_1 chk fuel sha 0 id hid0 None = Some (hid, None) /\ client_2 x y sec = Some (0, sec2) /\
    answer (server_2 0 hid None y sst (Some xid) None sec2) v p.
Proof.
  intros chk fuel sha id s pin pin' x y c0 sst0 sec0 xid0 hid0 ID FU HS HX HY HP HP' [BC LC] HB2 [BSe LSe] [BXi LXi] [BHi LHi] v p NS NSv NSp NX NXY.
  destruct (every_point chk sha 0 id ID) as (A & M & OA & NA & KA & _). assert (R0 : 0 <= r255) by (pose proof r255_pos; lia). rewrite (mul1_zm r255 A R0) in KA.
  pose proof (scal_nn _ HS) as S0. pose proof (scal_nn _ HX) as X0. pose proof (scal_nn _ HY) as Y0. destruct HS as (BS & LS & VS), HX as (BX & LX & VX), HY as (BY & LY & VY). destruct ID as (IS & BI & SF).
  assert (HV : 0 <= v < 2 ^ 14) by (pose proof (Z.mod_pos_bound pin 10000 ltac:(lia)); unfold v; lia). assert (HPr : 0 <= p < 2 ^ 14) by (pose proof (Z.mod_pos_bound pin' 10000 ltac:(lia)); unfold p; lia).
  exists (mp_hash sha 0 id ++ skipn 48 (repeat 0 48)). cbn [repeat skipn]. rewrite app_nil_r.
  set (cst := enc_pt (zm1 (num_of s) A) ++ skipn 97 c0). exists cst.
  assert (GC : isG1 cst (zm1 (num_of s) A)) by (apply isG1_enc; [apply zm1_on, OA|apply zm1_ne; assumption|apply sub_on; assumption|apply bytes_skipn, BC]).
  assert (ET : padd1 (zm1 (num_of s) A) (signed false (zm1 v A)) = zm1 (num_of s - v) A) by (cbn [signed]; rewrite <- zm1_opp, <- zm1_add by exact OA; reflexivity).
  set (token := enc_pt (zm1 (num_of s - v) A) ++ skipn 97 cst). exists token.
  assert (BCs : bytes cst) by (apply GC). assert (LCs : (97 <= length cst)%nat) by (unfold cst; rewrite app_length, (proj2 (enc_bytes _)); lia).
  assert (GT : isG1 token (zm1 (num_of s - v) A)) by (apply isG1_enc; [apply zm1_on, OA|apply zm1_ne; assumption|apply sub_on; assumption|apply bytes_skipn, BCs]).
  destruct (server_S s sst0 BS LS NS HB2) as (sst & ES & BSS & LSS & DSS & NSS & EIG). exists sst.
  assert (EP : padd1 (zm1 (num_of s - v) A) (zm1 (pin_val pin') A) = zm1 (num_of s - v + p) A) by (rewrite (pin_small pin' HP'), <- zm1_add by exact OA; reflexivity).
  set (sec := enc_pt (zm1 (num_of s - v + p) A) ++ skipn 97 sec0). exists sec.
  assert (GS : isG1 sec (zm1 (num_of s - v + p) A)) by (apply isG1_enc; [apply zm1_on, OA|apply zm1_ne; assumption|apply sub_on; assumption|apply bytes_skipn, BSe]).
  assert (LSec : (97 <= length sec)%nat) by (unfold sec; rewrite app_length, (proj2 (enc_bytes _)); lia).
  set (xid := enc_pt (zm1 (num_of x) A) ++ skipn 97 xid0). exists xid.
  assert (GX : isG1 xid (zm1 (num_of x) A)) by (apply isG1_enc; [apply zm1_on, OA|apply zm1_ne; assumption|apply sub_on; assumption|apply bytes_skipn, BXi]).
  set (hid := enc_pt A ++ skipn 97 hid0). exists hid. assert (GH : isG1 hid A) by (apply isG1_enc; [exact OA|exact NA|exact KA|apply bytes_skipn, BHi]).
  set (V := pneg1 (zm1 (num_of x + num_of y) (zm1 (num_of s - v + p) A))).
  set (sec2 := enc_pt V ++ skipn 97 sec). exists sec2. assert (OQ : on1 (zm1 (num_of s - v + p) A)) by apply zm1_on, OA.
  assert (GV : isG1 sec2 V).
  { exact (isG1_negmul _ _ _ OQ (zm1_ne _ A OA NA KA NSp) (sub_on _ A OA KA) NXY (bytes_skipn 97 sec (proj1 GS))). }
  split; [rewrite <- (app_nil_r (mp_hash sha 0 id)); exact (mhashit_ok chk sha 0 id (repeat 0 48) IS BI SF (Nat.le_refl 48))|].
  split; [apply client_secret_ok; try assumption; [apply mp_hash_bytes; assumption|rewrite mp_hash_len; lia]|].
  split. { unfold extract_pin, extract_factor. assert (NE : padd1 (zm1 (num_of s) A) (signed false (zm1 (Z.rem pin MAXPIN mod 2 ^ Z.of_nat PBLEN) A)) <> Inf).
    { rewrite (pin_i32 pin ltac:(lia)), (pin_small pin HP). fold v. rewrite ET. apply zm1_ne; assumption. }
    rewrite (factor_ok false chk fuel sha id _ PBLEN cst A _ IS BI SF FU M pbl GC LCs NE). rewrite (pin_i32 pin ltac:(lia)), (pin_small pin HP). fold v. rewrite ET. reflexivity. }
  split; [exact ES|].
  split. { rewrite (client1_0 chk fuel sha id x pin' token sec0 (Some xid0) None None A _ IS BI SF FU M BX LX VX NX GT LSe LXi); rewrite EP; [reflexivity|apply zm1_ne; assumption]. }
  split; [exact (proj1 (server1_ok chk fuel sha 0 id hid0 None A IS BI SF FU M LHi) eq_refl)|].
  split; [exact (client2_ok x y sec _ BX BY LX LY GS LSec NXY)|].
  assert (EK : padd1 (zm1 (num_of y) A) (zm1 (num_of x) A) = lc A Inf (num_of x + num_of y) (num_of x + num_of y)) by (rewrite lc_Inf, <- zm1_add, Z.add_comm by exact OA; reflexivity).
  pose proof (final_verdict A Inf (num_of s) (num_of x + num_of y) v p OA I NA KA (zm1_zero r255) S0 NXY HV HPr) as FV. cbv zeta in FV. rewrite (lc_Inf A (num_of s - v + p)) in FV. fold V in FV. rewrite <- EK in FV. destruct FV as [FV1 FV2].
  pose proof (final_diag A (num_of x + num_of y) v p OA NA KA NXY ltac:(lia) (proj1 HV) (proj1 HPr)) as FD. cbv zeta in FD.
  assert (EK2 : padd1 (zm1 (num_of y) A) (zm1 (num_of x) A) = zm1 (num_of x + num_of y) A) by (rewrite EK; apply lc_Inf).
  destruct GX as (GX1 & GX2 & GX3 & GX4 & _). destruct GV as (GV1 & GV2 & GV3 & GV4 & _). split.
  - intros E e f. exact (server2_accept 0 hid None y sst (Some xid) None sec2 e f xid hid _ _ A V BSS LSS DSS NSS EIG eq_refl GX1 GX2 GX3 GX4 BY LY VY eq_refl GH GV1 GV2 GV3 GV4 (proj2 FV1 E)).
  - intros E. assert (NV : verdict2 (zm2 (num_of s) G2gen) V (padd1 (zm1 (num_of y) A) (zm1 (num_of x) A)) <> k1) by (intros C; exact (E (proj1 FV1 C))). split.
    + intros e f D. exact (server2_reject 0 hid None y sst (Some xid) None sec2 e f xid hid _ _ A V BSS LSS DSS NSS EIG eq_refl GX1 GX2 GX3 GX4 BY LY VY eq_refl GH GV1 GV2 GV3 GV4 NV (or_intror D)).
    + intros e0 f0 [B0 L0] [B1 L1].
      destruct (server2_diag0 0 hid None y sst (Some xid) None sec2 (Some e0) (Some f0) xid hid _ _ A V BSS LSS DSS NSS EIG eq_refl GX1 GX2 GX3 GX4 BY LY VY eq_refl GH GV1 GV2 GV3 GV4 e0 f0 eq_refl eq_refl eq_refl L0 L1 NV)
        as (e1 & f1 & SV & W1 & W2). destruct (written_dec _ _ _ B0 W1) as (be & -> & Z1 & D1). destruct (written_dec _ _ _ B1 W2) as (bf & -> & Z2 & D2). exists be, bf. split; [exact SV|]. split; [exact Z1|]. split; [exact Z2|].
      rewrite D1, D2, FV2, EK2. split; [exact (proj1 (proj2 FD))|]. split; [exact (proj2 (proj2 FD))|exact (proj1 FD)].
Qed.
(* the run with a date: B is the point of the date and the hashed identity *)
Lemma mpin_run_date : forall chk fuel sha id date s pin pin' x y c0 d0 sst0 sec0 xid0 xcid0 hid0 htid0, ident chk sha id -> q381 <= Z.of_nat fuel -> scalar s -> scalar x -> scalar y ->
  date <> 0 -> 0 <= pin < 2 ^ 31 -> 0 <= pin' < 2 ^ 31 -> buf 97 c0 -> buf 97 d0 -> buf 192 sst0 -> buf 97 sec0 -> buf 97 xid0 -> buf 97 xcid0 -> buf 97 hid0 -> buf 97 htid0 ->
  let v := pin mod 10000 in let p := pin' mod 10000 in
  num_of s mod r255 <> 0 -> (num_of s - v) mod r255 <> 0 -> (num_of s - v + p) mod r255 <> 0 -> num_of x mod r255 <> 0 -> (num_of x + num_of y) mod r255 <> 0 ->
  (forall A B, map_pt (mp_hash sha 0 id) A -> map_pt (mp_hash sha date (mp_hash sha 0 id)) B ->
     padd1 A B <> Inf /\ padd1 (mul1 ((num_of s - v + p) mod r255) A) (mul1 (num_of s) B) <> Inf) ->
  exists hcid cst token permit sst sec xid xcid hid htid sec2,
    hash_id chk sha id (repeat 0 48) = Some (true, hcid) /\ get_client_secret fuel s hcid c0 = Some (0, cst) /\ extract_pin chk fuel sha id pin cst = Some (0, token) /\
    get_client_permit chk fuel sha date s hcid d0 = Some (0, permit) /\ get_server_secret s sst0 = Some (0, sst) /\
    client_1 chk fuel sha date id None x pin' token sec0 (Some xid0) (Some xcid0) (Some permit) = Some (0, x, sec, Some xid, Some xcid, None) /\
    server_1 chk fuel sha date id hid0 (Some htid0) = Some (hid, Some htid) /\ client_2 x y sec = Some (0, sec2) /\
    answer (server_2 date hid (Some htid) y sst (Some xid) (Some xcid) sec2) v p.
Proof.
  intros chk fuel sha id date s pin pin' x y c0 d0 sst0 sec0 xid0 xcid0 hid0 htid0 ID FU HS HX HY D0 HP HP' [BC LC] [BD LD] HB2 [BSe LSe] [BXi LXi] [BXc LXc] [BHi LHi] [BHt LHt] v p NS NSv NSp NX NXY NAB.
  destruct (every_point chk sha 0 id ID) as (A & M & OA & NA & KA & _). assert (R0 : 0 <= r255) by (pose proof r255_pos; lia). rewrite (mul1_zm r255 A R0) in KA.
  pose proof (scal_nn _ HS) as S0. pose proof (scal_nn _ HX) as X0. pose proof (scal_nn _ HY) as Y0. destruct HS as (BS & LS & VS), HX as (BX & LX & VX), HY as (BY & LY & VY). destruct ID as (IS & BI & SF).
  assert (BM : bytes (mp_hash sha 0 id)) by (apply mp_hash_bytes; assumption). assert (SF2 : hsafe chk sha (mp_hash sha 0 id)) by (apply (hsafe_le chk sha id); [exact SF|rewrite mp_hash_len; lia]).
  destruct (every_point chk sha date (mp_hash sha 0 id) (conj IS (conj BM SF2))) as (B & MB & OB & NB & KB & _). rewrite (mul1_zm r255 B R0) in KB.
  specialize (NAB A B M MB). destruct NAB as [NAB NL]. rewrite (mul1_zm _ A) in NL by (apply Z.mod_pos_bound, r255_pos). rewrite (mul1_zm _ B) in NL by exact S0.
  rewrite (zm1_mod _ r255 A OA KA) in NL by (pose proof r255_pos; lia). fold (lc A B (num_of s - v + p) (num_of s)) in NL.
  assert (HV : 0 <= v < 2 ^ 14) by (pose proof (Z.mod_pos_bound pin 10000 ltac:(lia)); unfold v; lia). assert (HPr : 0 <= p < 2 ^ 14) by (pose proof (Z.mod_pos_bound pin' 10000 ltac:(lia)); unfold p; lia).
  exists (mp_hash sha 0 id).
  set (cst := enc_pt (zm1 (num_of s) A) ++ skipn 97 c0). exists cst.
  assert (GC : isG1 cst (zm1 (num_of s) A)) by (apply isG1_enc; [apply zm1_on, OA|apply zm1_ne; assumption|apply sub_on; assumption|apply bytes_skipn, BC]).
  assert (ET : padd1 (zm1 (num_of s) A) (signed false (zm1 v A)) = zm1 (num_of s - v) A) by (cbn [signed]; rewrite <- zm1_opp, <- zm1_add by exact OA; reflexivity).
  set (token := enc_pt (zm1 (num_of s - v) A) ++ skipn 97 cst). exists token.
  assert (BCs : bytes cst) by (apply GC). assert (LCs : (97 <= length cst)%nat) by (unfold cst; rewrite app_length, (proj2 (enc_bytes _)); lia).
  assert (GT : isG1 token (zm1 (num_of s - v) A)) by (apply isG1_enc; [apply zm1_on, OA|apply zm1_ne; assumption|apply sub_on; assumption|apply bytes_skipn, BCs]).
  set (permit := enc_pt (zm1 (num_of s) B) ++ skipn 97 d0). exists permit.
  assert (GP : isG1 permit (zm1 (num_of s) B)) by (apply isG1_enc; [apply zm1_on, OB|apply zm1_ne; assumption|apply sub_on; assumption|apply bytes_skipn, BD]).
  destruct (server_S s sst0 BS LS NS HB2) as (sst & ES & BSS & LSS & DSS & NSS & EIG). exists sst.
  assert (EP : padd1 (padd1 (zm1 (num_of s - v) A) (zm1 (pin_val pin') A)) (zm1 (num_of s) B) = lc A B (num_of s - v + p) (num_of s)) by (rewrite (pin_small pin' HP'), <- zm1_add by exact OA; reflexivity).
  pose proof (lc_on A B OA OB (num_of s - v + p) (num_of s)) as OQ. pose proof (lc_in A B (num_of s - v + p) (num_of s) OA OB KA KB) as KQ.
  set (sec := enc_pt (lc A B (num_of s - v + p) (num_of s)) ++ skipn 97 sec0). exists sec.
  assert (GS : isG1 sec (lc A B (num_of s - v + p) (num_of s))) by (apply isG1_enc; [exact OQ|exact NL|exact KQ|apply bytes_skipn, BSe]).
  assert (LSec : (97 <= length sec)%nat) by (unfold sec; rewrite app_length, (proj2 (enc_bytes _)); lia).
  set (xid := enc_pt (zm1 (num_of x) A) ++ skipn 97 xid0). exists xid.
  assert (GX : isG1 xid (zm1 (num_of x) A)) by (apply isG1_enc; [apply zm1_on, OA|apply zm1_ne; assumption|apply sub_on; assumption|apply bytes_skipn, BXi]).
  assert (OAB : on1 (padd1 A B)) by (apply padd1_on; assumption). assert (KAB : zm1 r255 (padd1 A B) = Inf) by (apply sub_add; assumption).
  set (xcid := enc_pt (zm1 (num_of x) (padd1 A B)) ++ skipn 97 xcid0). exists xcid.
  assert (GXC : isG1 xcid (zm1 (num_of x) (padd1 A B))) by (apply isG1_enc; [apply zm1_on, OAB|apply zm1_ne; assumption|apply sub_on; assumption|apply bytes_skipn, BXc]).
  set (hid := enc_pt A ++ skipn 97 hid0). exists hid. assert (GH : isG1 hid A) by (apply isG1_enc; [exact OA|exact NA|exact KA|apply bytes_skipn, BHi]).
  set (htid := enc_pt (padd1 A B) ++ skipn 97 htid0). exists htid. assert (GT2 : isG1 htid (padd1 A B)) by (apply isG1_enc; [exact OAB|exact NAB|exact KAB|apply bytes_skipn, BHt]).
  set (V := pneg1 (zm1 (num_of x + num_of y) (lc A B (num_of s - v + p) (num_of s)))).
  set (sec2 := enc_pt V ++ skipn 97 sec). exists sec2.
  assert (GV : isG1 sec2 V) by (exact (isG1_negmul _ _ _ OQ NL KQ NXY (bytes_skipn 97 sec (proj1 GS)))).
  split; [rewrite <- (app_nil_r (mp_hash sha 0 id)); exact (mhashit_ok chk sha 0 id (repeat 0 48) IS BI SF (Nat.le_refl 48))|].
  split; [apply client_secret_ok; try assumption; rewrite mp_hash_len; lia|].
  split. { unfold extract_pin, extract_factor. assert (NE : padd1 (zm1 (num_of s) A) (signed false (zm1 (Z.rem pin MAXPIN mod 2 ^ Z.of_nat PBLEN) A)) <> Inf).
    { rewrite (pin_i32 pin ltac:(lia)), (pin_small pin HP). fold v. rewrite ET. apply zm1_ne; assumption. }
    rewrite (factor_ok false chk fuel sha id _ PBLEN cst A _ IS BI SF FU M pbl GC LCs NE). rewrite (pin_i32 pin ltac:(lia)), (pin_small pin HP). fold v. rewrite ET. reflexivity. }
  split; [apply permit_ok; assumption|]. split; [exact ES|].
  split. { rewrite (client1_date chk fuel sha date id x pin' token sec0 (Some xid0) (Some xcid0) permit A B _ _ IS BI SF FU M D0 MB NAB BX LX VX NX GT GP LSe LXi LXc); rewrite EP; [reflexivity|exact NL]. }
  split; [exact (proj2 (server1_ok chk fuel sha date id hid0 (Some htid0) A IS BI SF FU M LHi) B D0 MB NAB LHt)|].
  split; [exact (client2_ok x y sec _ BX BY LX LY GS LSec NXY)|].
  assert (EK : padd1 (zm1 (num_of y) (padd1 A B)) (zm1 (num_of x) (padd1 A B)) = lc A B (num_of x + num_of y) (num_of x + num_of y)).
  { rewrite <- zm1_add, Z.add_comm by exact OAB. unfold lc. apply zm1_dist; assumption. }
  pose proof (final_verdict A B (num_of s) (num_of x + num_of y) v p OA OB NA KA KB S0 NXY HV HPr) as FV. cbv zeta in FV. fold V in FV. rewrite <- EK in FV. destruct FV as [FV1 FV2].
  pose proof (final_diag A (num_of x + num_of y) v p OA NA KA NXY ltac:(lia) (proj1 HV) (proj1 HPr)) as FD. cbv zeta in FD.
  assert (EK2 : padd1 (zm1 (num_of y) A) (zm1 (num_of x) A) = zm1 (num_of x + num_of y) A) by (rewrite <- zm1_add, Z.add_comm by exact OA; reflexivity).
  destruct GX as (GX1 & GX2 & GX3 & GX4 & _). destruct GXC as (GC1 & GC2 & GC3 & GC4 & _). destruct GV as (GV1 & GV2 & GV3 & GV4 & _).
  assert (HU : (if negb (date =? 0) then Some xcid else Some xid) = Some xcid) by (rewrite (proj2 (Z.eqb_neq date 0) D0); reflexivity).
  assert (HA : (if negb (date =? 0) then Some htid else Some hid) = Some htid) by (rewrite (proj2 (Z.eqb_neq date 0) D0); reflexivity). split.
  - intros E e f. exact (server2_accept date hid (Some htid) y sst (Some xid) (Some xcid) sec2 e f xcid htid _ _ _ V BSS LSS DSS NSS EIG HU GC1 GC2 GC3 GC4 BY LY VY HA GT2 GV1 GV2 GV3 GV4 (proj2 FV1 E)).
  - intros E. assert (NV : verdict2 (zm2 (num_of s) G2gen) V (padd1 (zm1 (num_of y) (padd1 A B)) (zm1 (num_of x) (padd1 A B))) <> k1) by (intros C; exact (E (proj1 FV1 C))). split.
    + intros e f D. exact (server2_reject date hid (Some htid) y sst (Some xid) (Some xcid) sec2 e f xcid htid _ _ _ V BSS LSS DSS NSS EIG HU GC1 GC2 GC3 GC4 BY LY VY HA GT2 GV1 GV2 GV3 GV4 NV (or_intror D)).
    + intros e0 f0 [B0 L0] [B1 L1].
      destruct (server2_diagd date hid (Some htid) y sst (Some xid) (Some xcid) sec2 (Some e0) (Some f0) xcid htid _ _ _ V BSS LSS DSS NSS EIG HU GC1 GC2 GC3 GC4 BY LY VY HA GT2 GV1 GV2 GV3 GV4 e0 f0 xid A _ D0 eq_refl eq_refl eq_refl L0 L1 GH GX1 GX2 GX3 GX4 NV)
        as (e1 & f1 & SV & W1 & W2). destruct (written_dec _ _ _ B0 W1) as (be & -> & Z1 & D1). destruct (written_dec _ _ _ B1 W2) as (bf & -> & Z2 & D2). exists be, bf. split; [exact SV|]. split; [exact Z1|]. split; [exact Z2|].
      rewrite D1, D2, FV2, EK2. split; [exact (proj1 (proj2 FD))|]. split; [exact (proj2 (proj2 FD))|exact (proj1 FD)].
Qed.
