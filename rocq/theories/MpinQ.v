(* Proofs about mpin.rs: what each function writes. *)
From Coq Require Import ZArith List Bool Lia Znumtheory.
From Verif Require Import Prim PrimP Rom Big BigP BigP2 BigP3 BigP5 BigL NumT FieldQ FieldQ2 Fp Fp2 Fp4 Fp12 FpP FpP2 Fp2P Sqrt2P SpecBytes SpecMac SpecRand Utils Api SpecCurve CurveP GroupP
  Ecp Ecp2 EcpP EcpC Ecp2P Ecp2C GenP G1Grp G1Ord Denote KeysP KeysP2 LayerP MapP Tower TowerP Fp4P Fp12P FexpP SpecPairing MillerP3 PsiP BilinP TwistP VerifyP VerifyP2 VerifyP7 DenoteT Rand RandP
  Glv Mul2P Mul4P PinP GlvP MapitP SpecEcdh Ecdh EcdhH EcdhP EcdhQ Pair Pair2 Ate2P SpecMpin Mpin MpinP.
Import ListNotations.
Open Scope Z_scope.

(* a string that stands for a point of the group of order r other than the point at infinity *)
Definition isG1 (w : list Z) (p : pt1) : Prop := bytes w /\ long_enough w /\ decodes w p /\ p <> Inf /\ zm1 r255 p = Inf.
Lemma read1 w p : bytes w -> long_enough w -> decodes w p -> p <> Inf -> exists a, ecp_frombytes w = Some a /\ ecpR 2 2 p a /\ ecp_is_infinity a = Some false.
Proof. intros B L D N. destruct (frombytes_eq w p B L D) as (a & E & R). exists a. split; [exact E|]. split; [exact R|]. apply (is_inf_false 2 2 p a R); [lia|lia|exact N]. Qed.
Lemma decodes_on w p : decodes w p -> on1 p. Proof. destruct p as [|x y]; intros D; [exact I|exact (proj1 D)]. Qed.
Lemma isG1_enc p t : on1 p -> p <> Inf -> zm1 r255 p = Inf -> bytes t -> isG1 (enc_pt p ++ t) p.
Proof. intros O N K B. split; [apply bytes_app; [apply enc_bytes|exact B]|]. split; [apply enc_long|]. split; [apply enc_decodes, O|]. split; assumption. Qed.
Lemma g1_R l p a e v : ecpR l 5 p a -> 1 <= l <= 2 -> zm1 r255 p = Inf -> rep 7 e v -> v < 2 ^ 382 -> exists c, g1mul a e = Some c /\ ecpA 1 5 (zm1 v p) c.
Proof. intros R L K V B. exact (ok_ex _ _ (g1mul_ok l 5 p a e v R ltac:(lia) ltac:(lia) K V ltac:(pose proof ru_big; lia))). Qed.
Lemma g1_R2 p a e v : ecpR 2 2 p a -> zm1 r255 p = Inf -> rep 7 e v -> v < 2 ^ 382 -> exists c, g1mul a e = Some c /\ ecpA 1 5 (zm1 v p) c.
Proof. intros R K V B. apply (g1_R 2 p a e v); try assumption; [|lia]. eapply ecpR_weak; [exact R|lia|lia]. Qed.
Lemma zm1_ne v p : on1 p -> p <> Inf -> zm1 r255 p = Inf -> v mod r255 <> 0 -> zm1 v p <> Inf.
Proof.
  intros O N K V C. apply N, (bez1 v r255 p O C K). rewrite Z.gcd_comm. apply Zgcd_1_rel_prime. apply prime_rel_prime; [exact r255_prime|].
  intros D. apply V, Z.mod_divide; [|exact D]. pose proof r255_pos. lia.
Qed.
Lemma write1 l E p a w : ecpR l E p a -> 1 <= l <= 8 -> E <= 33554432 -> p <> Inf -> zm1 r255 p = Inf -> (97 <= length w)%nat ->
  exists a', ecp_tobytes a = Some (enc_pt p, a') /\ ecpA l E p a' /\ put w 0 (enc_pt p) = Some (enc_pt p ++ skipn 97 w).
Proof. intros R L HE N K W. destruct (tobytes1 l E p a R L HE N K) as (a' & E1 & A). exists a'. split; [exact E1|]. split; [exact A|]. apply put_front; [apply enc_bytes|exact W]. Qed.
Lemma num_rep w : bytes w -> (48 <= length w)%nat -> exists c, big_frombytes w = Some c /\ rep 7 c (num_of w).
Proof. intros B L. exact (proj1 (B_frombytes w B) L). Qed.
Lemma num_nn w : bytes w -> 0 <= num_of w. Proof. intros B. apply be_int_range, bytes_firstn, B. Qed.

(* ------------------------------ secrets ------------------------------ *)
Lemma client_secret_ok fuel s cid cst A : bytes s -> (48 <= length s)%nat -> num_of s < 2 ^ 382 -> num_of s mod r255 <> 0 -> bytes cid -> (48 <= length cid)%nat ->
  map_pt cid A -> q381 <= Z.of_nat fuel -> (97 <= length cst)%nat ->
  get_client_secret fuel s cid cst = Some (0, enc_pt (zm1 (num_of s) A) ++ skipn 97 cst).
Proof.
  intros BS LS VS NS BC LC M F LW. destruct (map_R cid A BC LC M) as (OA & NA & KA & a & RA & MA). destruct (num_rep s BS LS) as (e & EE & RE).
  unfold get_client_secret, get_g1_multiple, secret. rewrite EE. cbn [bind Nat.eqb]. rewrite (MA fuel F). cbn [bind].
  destruct (g1_R 1 A a e _ RA ltac:(lia) KA RE VS) as (c & EC & RC). rewrite EC. cbn [bind].
  destruct (write1 1 5 _ c cst (ecpA_R5 _ _ RC) ltac:(lia) ltac:(lia) (zm1_ne _ A OA NA KA NS) (sub_on _ A OA KA) LW) as (a' & E1 & _ & E2). rewrite E1. cbn [bind]. rewrite E2. reflexivity.
Qed.
Lemma permit_ok chk fuel sha date s id ctt A : is_sha sha -> bytes id -> hsafe chk sha id -> q381 <= Z.of_nat fuel -> map_pt (mp_hash sha date id) A ->
  bytes s -> (48 <= length s)%nat -> num_of s < 2 ^ 382 -> num_of s mod r255 <> 0 -> (97 <= length ctt)%nat ->
  get_client_permit chk fuel sha date s id ctt = Some (0, enc_pt (zm1 (num_of s) A) ++ skipn 97 ctt).
Proof.
  intros IS BI HS F M BS LS VS NS LW. destruct (map_id_ok chk fuel sha date id A IS BI HS F M) as (OA & NA & KA & a & MA & RA). destruct (num_rep s BS LS) as (e & EE & RE).
  unfold get_client_permit. rewrite MA. cbn [bind]. rewrite EE. cbn [bind].
  destruct (g1_R 1 A a e _ RA ltac:(lia) KA RE VS) as (c & EC & RC). rewrite EC. cbn [bind].
  destruct (write1 1 5 _ c ctt (ecpA_R5 _ _ RC) ltac:(lia) ltac:(lia) (zm1_ne _ A OA NA KA NS) (sub_on _ A OA KA) LW) as (a' & E1 & _ & E2). rewrite E1. cbn [bind]. rewrite E2. reflexivity.
Qed.
Lemma zm2_ne v p : on2 p -> p <> Inf -> zm2 r255 p = Inf -> v mod r255 <> 0 -> zm2 v p <> Inf.
Proof.
  intros O N K V C. apply N, (bez2 v r255 p O C K). rewrite Z.gcd_comm. apply Zgcd_1_rel_prime. apply prime_rel_prime; [exact r255_prime|].
  intros D. apply V, Z.mod_divide; [|exact D]. pose proof r255_pos. lia.
Qed.
Lemma put192 bs w : length bs = 192%nat -> (192 <= length w)%nat -> put w 0 bs = Some (bs ++ skipn 192 w). Proof. apply put_front. Qed.
Lemma server_secret_ok s sst : bytes s -> (48 <= length s)%nat -> num_of s mod r255 <> 0 -> (192 <= length sst)%nat ->
  exists bs, get_server_secret s sst = Some (0, bs ++ skipn 192 sst) /\ bytes bs /\ length bs = 192%nat /\ forall t, decodes2 (bs ++ t) (zm2 (num_of s) G2gen).
Proof.
  intros BS LS NS LW. destruct (ok_ex _ _ gen2_ok) as (g & EG & RG). destruct (num_rep s BS LS) as (e & EE & RE). unfold get_server_secret. rewrite EG. cbn [bind]. rewrite EE. cbn [bind].
  destruct (ok_ex _ _ (g2mul_ok 1 4 G2gen g e _ (ecp2R_weak _ _ 1 4 _ _ (ecp2A_R _ _ _ _ RG) ltac:(lia) ltac:(lia)) ltac:(lia) ltac:(lia) G2gen_eigen RE)) as (c & EC & RC). rewrite EC. cbn [bind].
  destruct (tobytes2 8 2097152 _ c (ecp2A_R _ _ _ _ RC) ltac:(lia) ltac:(lia)) as (bs & a' & E1 & _ & B1 & L1 & D1).
  { apply zm2_ne; [exact (proj1 G2gen_eigen)|exact G2gen_ne|exact (eigen_r _ G2gen_eigen)|exact NS]. }
  rewrite E1. cbn [bind]. rewrite (put192 bs sst L1 LW). cbn [bind]. exists bs. split; [reflexivity|]. split; [exact B1|]. split; [exact L1|exact D1].
Qed.
Lemma recombine1_ok r1 r2 w p q : isG1 r1 p -> isG1 r2 q -> padd1 p q <> Inf -> (97 <= length w)%nat -> recombine_g1 r1 r2 w = Some (0, enc_pt (padd1 p q) ++ skipn 97 w).
Proof.
  intros (B1 & L1 & D1 & N1 & K1) (B2 & L2 & D2 & N2 & K2) N LW. destruct (read1 r1 p B1 L1 D1 N1) as (a & EA & RA & IA). destruct (read1 r2 q B2 L2 D2 N2) as (b & EB & RB & IB).
  unfold recombine_g1. rewrite EA. cbn [bind]. rewrite EB. cbn [bind]. rewrite IA. cbn [bind]. rewrite IB. cbn [bind].
  destruct (ok_ex _ _ (ecp_add_ok 2 2 2 2 p q a b RA RB ltac:(lia) ltac:(lia) ltac:(lia) ltac:(lia))) as (c & EC & RC). rewrite EC. cbn [bind].
  destruct (write1 1 5 _ c w RC ltac:(lia) ltac:(lia) N (sub_add p q (decodes_on _ _ D1) (decodes_on _ _ D2) K1 K2) LW) as (a' & E1 & _ & E2). rewrite E1. cbn [bind]. rewrite E2. reflexivity.
Qed.
Lemma inf2_false l E p a : ecp2R l E p a -> 1 <= l <= 31 -> E <= 33554432 -> p <> Inf -> ecp2_is_infinity a = Some false.
Proof. intros R L HE N. destruct (ok_ex _ _ (ecp2_is_infinity_ok l E p a R L HE)) as (b & EB & HB). rewrite EB. destruct b; [destruct (N (proj1 HB eq_refl))|reflexivity]. Qed.
Lemma recombine2_ok r1 r2 w p q : bytes r1 -> (192 <= length r1)%nat -> decodes2 r1 p -> p <> Inf -> bytes r2 -> (192 <= length r2)%nat -> decodes2 r2 q -> q <> Inf ->
  padd2 p q <> Inf -> (192 <= length w)%nat ->
  exists bs, recombine_g2 r1 r2 w = Some (0, bs ++ skipn 192 w) /\ bytes bs /\ length bs = 192%nat /\ forall t, decodes2 (bs ++ t) (padd2 p q).
Proof.
  intros B1 L1 D1 N1 B2 L2 D2 N2 N LW. destruct (ok_ex _ _ (from2 r1 p B1 L1 D1)) as (a & EA & RA). destruct (ok_ex _ _ (from2 r2 q B2 L2 D2)) as (b & EB & RB). apply ecp2A_R in RA, RB.
  unfold recombine_g2. rewrite EA. cbn [bind]. rewrite EB. cbn [bind]. rewrite (inf2_false 1 2 p a RA ltac:(lia) ltac:(lia) N1). cbn [bind]. rewrite (inf2_false 1 2 q b RB ltac:(lia) ltac:(lia) N2). cbn [bind].
  destruct (ok_ex _ _ (ecp2_add_ok 1 1 2 2 p q a b RA RB ltac:(lia) ltac:(lia) ltac:(lia) ltac:(lia))) as (c & EC & RC). rewrite EC. cbn [bind].
  destruct (tobytes2 1 17 _ c RC ltac:(lia) ltac:(lia) N) as (bs & a' & E1 & _ & BB & LB & DB). rewrite E1. cbn [bind]. rewrite (put192 bs w LB LW). cbn [bind]. exists bs. split; [reflexivity|]. split; [exact BB|]. split; [exact LB|exact DB].
Qed.

(* ------------------------------ factors ------------------------------ *)
Definition signed (add : bool) (p : pt1) : pt1 := if add then p else pneg1 p.
Lemma factor_ok add chk fuel sha id v bits token A p : is_sha sha -> bytes id -> hsafe chk sha id -> q381 <= Z.of_nat fuel -> map_pt (mp_hash sha 0 id) A -> (bits <= 32)%nat ->
  isG1 token p -> (97 <= length token)%nat -> padd1 p (signed add (zm1 (v mod 2 ^ Z.of_nat bits) A)) <> Inf ->
  factor_op add chk fuel sha id v bits token = Some (0, enc_pt (padd1 p (signed add (zm1 (v mod 2 ^ Z.of_nat bits) A))) ++ skipn 97 token).
Proof.
  intros IS BI HS F M HB (BT & LT & DT & NT & KT) LW N. destruct (map_id_ok chk fuel sha 0 id A IS BI HS F M) as (OA & NA & KA & a & MA & RA).
  destruct (read1 token p BT LT DT NT) as (t & ET & RT & IT). unfold factor_op. rewrite ET. cbn [bind]. rewrite IT. cbn [bind]. rewrite MA. cbn [bind].
  destruct (pinmul_R a v bits A RA HB) as (c & EC & RC). rewrite EC. cbn [bind]. pose proof (decodes_on _ _ DT) as OT. revert N RC. generalize (v mod 2 ^ Z.of_nat bits). intros u N RC.
  assert (X : exists d, (if add then ecp_add t c else ecp_sub t c) = Some d /\ ecpR 1 5 (padd1 p (signed add (zm1 u A))) d).
  { destruct add; cbn [signed]; [exact (ok_ex _ _ (ecp_add_ok 2 1 2 5 _ _ t c RT RC ltac:(lia) ltac:(lia) ltac:(lia) ltac:(lia)))|exact (ok_ex _ _ (ecp_sub_ok 2 1 2 5 _ _ t c RT RC ltac:(lia) ltac:(lia) ltac:(lia) ltac:(lia)))]. }
  destruct X as (d & ED & RD). rewrite ED. cbn [bind].
  assert (K : zm1 r255 (padd1 p (signed add (zm1 u A))) = Inf).
  { apply sub_add; [exact OT|destruct add; [|apply pneg1_on]; apply zm1_on, OA|exact KT|destruct add; [|apply sub_neg; [apply zm1_on, OA|]]; apply sub_on; assumption]. }
  destruct (write1 1 5 _ d token RD ltac:(lia) ltac:(lia) N K LW) as (a' & E1 & _ & E2). rewrite E1. cbn [bind]. rewrite E2. reflexivity.
Qed.
