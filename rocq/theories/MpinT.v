(* The statements about mpin.rs used by PropsMpin. *)
From Coq Require Import ZArith List Bool Lia Znumtheory.
From Verif Require Import Prim PrimP Rom Big BigP BigP2 BigP3 BigP5 BigL NumT FieldQ FieldQ2 Fp Fp2 Fp4 Fp12 FpP FpP2 Fp2P Sqrt2P SpecBytes SpecMac SpecRand Utils Api SpecCurve CurveP GroupP
  Ecp Ecp2 EcpP EcpC Ecp2P Ecp2C GenP G1Grp G1Ord Denote KeysP KeysP2 LayerP MapP Tower TowerP Fp4P Fp12P FexpP SpecPairing MillerP3 PsiP BilinP TwistP VerifyP VerifyP2 VerifyP7 DenoteT Rand RandP
  Glv Mul2P Mul4P PinP GlvP MapitP SpecEcdh Ecdh EcdhH EcdhP EcdhQ Pair Pair2 Ate2P SpecMpin Mpin MpinP MpinQ MpinR MpinS.
Import ListNotations.
Open Scope Z_scope.
Opaque h1c.

(* a number of a supported size; nonzero in the group *)
Definition scalar (s : list Z) : Prop := bytes s /\ (48 <= length s)%nat /\ num_of s < 2 ^ 382.
(* an identity that can be hashed *)
Definition ident (chk : bool) (sha : nat) (id : list Z) : Prop := is_sha sha /\ bytes id /\ noov chk sha (4 + length id).
(* multiples *)
Definition mul1 (n : Z) (p : pt1) : pt1 := nmul1 (Z.to_nat n) p.
Definition mul2 (n : Z) (p : pt2) : pt2 := nmul2 (Z.to_nat n) p.
Lemma mul1_zm n p : 0 <= n -> mul1 n p = zm1 n p. Proof. intros N. symmetry. apply zm1_nmul, N. Qed.
Lemma mul2_zm n p : 0 <= n -> mul2 n p = zm2 n p. Proof. intros N. symmetry. apply zm2_nmul, N. Qed.
(* a string for a point of the group of order r other than the point at infinity *)
Definition in_G1 (w : list Z) (p : pt1) : Prop := bytes w /\ long_enough w /\ decodes w p /\ p <> Inf /\ mul1 r255 p = Inf.
Lemma in_G1_is w p : in_G1 w p <-> isG1 w p.
Proof. unfold in_G1, isG1. rewrite mul1_zm by (pose proof r255_pos; lia). reflexivity. Qed.
Lemma G1_to w p : in_G1 w p -> isG1 w p. Proof. exact (proj1 (in_G1_is w p)). Qed.
Lemma G1_of w p : isG1 w p -> in_G1 w p. Proof. exact (proj2 (in_G1_is w p)). Qed.
#[global] Opaque mul1 mul2.
Definition in_G2 (w : list Z) (p : pt2) : Prop := bytes w /\ (192 <= length w)%nat /\ decodes2 w p /\ p <> Inf.
Lemma scal_nn s : scalar s -> 0 <= num_of s. Proof. intros (B & _). apply num_nn, B. Qed.

(* --------------------------------- identities --------------------------------- *)
Lemma every_point : forall chk sha n id, ident chk sha id -> exists A, map_pt (mp_hash sha n id) A /\ on1 A /\ A <> Inf /\ mul1 r255 A = Inf /\ forall A', map_pt (mp_hash sha n id) A' -> A' = A.
Proof.
  intros chk sha n id (IS & BI & _). destruct (mapit_R (mp_hash sha n id) (mp_hash_bytes sha n id IS BI) ltac:(rewrite mp_hash_len; lia)) as (A & c & M & O & N & K & _).
  exists A. split; [exact M|]. split; [exact O|]. split; [exact N|]. split; [rewrite mul1_zm by (pose proof r255_pos; lia); exact K|]. intros A' M'. exact (map_pt_unique _ _ _ M' M).
Qed.
Lemma hash_identity : forall chk sha id w, ident chk sha id -> (48 <= length w)%nat -> hash_id chk sha id w = Some (true, mp_hash sha 0 id ++ skipn 48 w).
Proof. intros chk sha id w (IS & BI & HS) L. exact (mhashit_ok chk sha 0 id w IS BI HS L). Qed.
Lemma pt_facts chk sha n id A : ident chk sha id -> map_pt (mp_hash sha n id) A -> on1 A /\ A <> Inf /\ zm1 r255 A = Inf.
Proof. intros (IS & BI & HS) M. destruct (map_R _ A (mp_hash_bytes sha n id IS BI) ltac:(rewrite mp_hash_len; lia) M) as (O & N & K & _). split; [exact O|]. split; assumption. Qed.

(* ----------------------------------- secrets ----------------------------------- *)
Lemma client_secret : forall fuel s cid cst A, scalar s -> num_of s mod r255 <> 0 -> bytes cid -> (48 <= length cid)%nat -> map_pt cid A -> q381 <= Z.of_nat fuel -> (97 <= length cst)%nat ->
  get_client_secret fuel s cid cst = Some (0, enc_pt (mul1 (num_of s) A) ++ skipn 97 cst).
Proof. intros fuel s cid cst A (BS & LS & VS) NS BC LC M F L. rewrite mul1_zm by (apply num_nn, BS). apply client_secret_ok; assumption. Qed.
Lemma client_permit : forall chk fuel sha date s id ctt A, ident chk sha id -> scalar s -> num_of s mod r255 <> 0 -> map_pt (mp_hash sha date id) A -> q381 <= Z.of_nat fuel -> (97 <= length ctt)%nat ->
  get_client_permit chk fuel sha date s id ctt = Some (0, enc_pt (mul1 (num_of s) A) ++ skipn 97 ctt).
Proof. intros chk fuel sha date s id ctt A (IS & BI & HS) (BS & LS & VS) NS M F L. rewrite mul1_zm by (apply num_nn, BS). apply permit_ok; assumption. Qed.
Lemma server_secret : forall s sst, bytes s -> (48 <= length s)%nat -> num_of s mod r255 <> 0 -> (192 <= length sst)%nat ->
  exists bs, get_server_secret s sst = Some (0, bs ++ skipn 192 sst) /\ length bs = 192%nat /\ forall t, bytes t -> in_G2 (bs ++ t) (mul2 (num_of s) G2gen).
Proof.
  intros s sst B L N LW. destruct (server_secret_ok s sst B L N LW) as (bs & E & BB & LB & DB). exists bs. split; [exact E|]. split; [exact LB|]. intros t T.
  rewrite mul2_zm by (apply num_nn, B). split; [apply bytes_app; assumption|]. split; [rewrite app_length, LB; lia|]. split; [apply DB|].
  apply zm2_ne; [exact (proj1 G2gen_eigen)|exact G2gen_ne|exact (eigen_r _ G2gen_eigen)|exact N].
Qed.
Lemma draw_rep rd f : gives rd f -> exists x rd', big_randomnum CURVE_ORDER rd = Some (x, rd') /\ rep 7 x (stream_num f 510 mod r255) /\ gives rd' (fun k => f (64 + k)%nat).
Proof.
  intros G. pose proof r256 as R. pose proof r255_pos. destruct (randomnum_ok CURVE_ORDER r255 rd f order_rep ltac:(lia) G) as (x & rd' & E & RX & G').
  change (Z.to_nat (2 * (Z.log2 r255 + 1))) with 510%nat in *. exists x, rd'. split; [exact E|]. split; [exact RX|exact G'].
Qed.
Lemma random_secret : forall rd f s, gives rd f -> (48 <= length s)%nat ->
  exists rd', random_generate rd s = Some (0, be_bytes 48 (stream_num f 510 mod r255) ++ skipn 48 s, rd') /\ gives rd' (fun k => f (64 + k)%nat).
Proof.
  intros rd f s G L. destruct (draw_rep rd f G) as (x & rd' & E & RX & G'). exists rd'. split; [|exact G']. unfold random_generate. rewrite E. cbn [bind]. rewrite (B_tobytes _ _ RX). cbn [bind].
  rewrite (put_front s _ 48 (be_bytes_length 48 _) L). reflexivity.
Qed.
(* client_1 with a generator is client_1 without one on the drawn secret *)
Lemma client_1_random : forall chk fuel sha date id rd f x pin token sec xid xcid permit, gives rd f -> bytes x -> (48 <= length x)%nat ->
  let x' := be_bytes 48 (stream_num f 510 mod r255) ++ skipn 48 x in
  exists rd', gives rd' (fun k => f (64 + k)%nat) /\ client_1 chk fuel sha date id (Some rd) x pin token sec xid xcid permit =
    match client_1 chk fuel sha date id None x' pin token sec xid xcid permit with Some (r, y, s, u, uc, _) => Some (r, y, s, u, uc, Some rd') | None => None end.
Proof.
  intros chk fuel sha date id rd f x pin token sec xid xcid permit G BX LX x'. destruct (draw_rep rd f G) as (v & rd' & E & RX & G'). exists rd'. split; [exact G'|].
  assert (E1 : secret (Some rd) x = Some (v, x', Some rd')).
  { unfold secret. rewrite E. cbn [bind]. rewrite (B_tobytes _ _ RX). cbn [bind]. rewrite (put_front x _ 48 (be_bytes_length 48 _) LX). reflexivity. }
  pose proof (secret_draw rd x v x' (Some rd') E1 (ex_intro _ _ (conj RX (proj2 (Z.mod_pos_bound _ _ r255_pos)))) BX LX) as E2.
  unfold client_1. rewrite E1, E2. cbn [bind]. generalize x'. clear. intros x'.
  destruct (map_id chk fuel sha 0 id) as [[h P]|]; [|reflexivity]. cbn [bind]. destruct (ecp_frombytes token) as [T|]; [|reflexivity]. cbn [bind].
  destruct (ecp_is_infinity T) as [i|]; [|reflexivity]. cbn [bind]. destruct i; [reflexivity|]. destruct (ecp_pinmul P _ PBLEN) as [W|]; [|reflexivity]. cbn [bind].
  destruct (ecp_add T W) as [T'|]; [|reflexivity]. cbn [bind]. destruct (client_1_date _ _ _ _ _ _ _ _ _ _ _ _) as [o|]; [|reflexivity]. cbn [bind].
  destruct o as [[[T2 u] uc]|]; [|reflexivity]. destruct (ecp_tobytes T2) as [[bs t]|]; [|reflexivity]. cbn [bind]. destruct (put sec 0 bs); reflexivity.
Qed.

(* ------------------------------------ shares ------------------------------------ *)
Lemma recombine_client : forall r1 r2 w p q, in_G1 r1 p -> in_G1 r2 q -> padd1 p q <> Inf -> (97 <= length w)%nat -> recombine_g1 r1 r2 w = Some (0, enc_pt (padd1 p q) ++ skipn 97 w).
Proof. intros r1 r2 w p q A B. exact (recombine1_ok r1 r2 w p q (G1_to _ _ A) (G1_to _ _ B)). Qed.
Lemma recombine_server : forall r1 r2 w p q, in_G2 r1 p -> in_G2 r2 q -> padd2 p q <> Inf -> (192 <= length w)%nat ->
  exists bs, recombine_g2 r1 r2 w = Some (0, bs ++ skipn 192 w) /\ length bs = 192%nat /\ forall t, bytes t -> in_G2 (bs ++ t) (padd2 p q).
Proof.
  intros r1 r2 w p q (B1 & L1 & D1 & N1) (B2 & L2 & D2 & N2) N LW. destruct (recombine2_ok r1 r2 w p q B1 L1 D1 N1 B2 L2 D2 N2 N LW) as (bs & E & BB & LB & DB). exists bs. split; [exact E|]. split; [exact LB|].
  intros t T. split; [apply bytes_app; assumption|]. split; [rewrite app_length, LB; lia|]. split; [apply DB|exact N].
Qed.
(* two authorities: the sum of their client secrets is the client secret of the sum *)
Lemma shares_client : forall fuel s1 s2 s cid c1 c2 c w, scalar s1 -> scalar s2 -> scalar s -> num_of s1 mod r255 <> 0 -> num_of s2 mod r255 <> 0 -> num_of s mod r255 <> 0 ->
  num_of s mod r255 = (num_of s1 + num_of s2) mod r255 -> bytes cid -> (48 <= length cid)%nat -> q381 <= Z.of_nat fuel ->
  (97 <= length c1)%nat -> (97 <= length c2)%nat -> (97 <= length c)%nat -> (97 <= length w)%nat -> bytes c1 -> bytes c2 ->
  exists t1 t2 t, get_client_secret fuel s1 cid c1 = Some (0, t1) /\ get_client_secret fuel s2 cid c2 = Some (0, t2) /\ get_client_secret fuel s cid c = Some (0, t ++ skipn 97 c) /\
    recombine_g1 t1 t2 w = Some (0, t ++ skipn 97 w).
Proof.
  intros fuel s1 s2 s cid c1 c2 c w H1 H2 H N1 N2 N ES BC LC F L1 L2 L LW B1 B2. destruct (mapit_R cid BC LC) as (A & a & M & O & NA & K & _).
  pose proof (scal_nn _ H1). pose proof (scal_nn _ H2). pose proof (scal_nn _ H).
  assert (EQ : padd1 (mul1 (num_of s1) A) (mul1 (num_of s2) A) = mul1 (num_of s) A).
  { rewrite !mul1_zm by assumption. rewrite <- zm1_add by exact O. rewrite <- (zm1_mod (num_of s1 + num_of s2) r255 A O K), <- (zm1_mod (num_of s) r255 A O K) by (pose proof r255_pos; lia). rewrite ES. reflexivity. }
  eexists; eexists; eexists. split; [apply (client_secret fuel s1 cid c1 A); assumption|]. split; [apply (client_secret fuel s2 cid c2 A); assumption|]. split; [apply (client_secret fuel s cid c A); assumption|].
  assert (G : forall v c', scalar v -> num_of v mod r255 <> 0 -> bytes c' -> in_G1 (enc_pt (mul1 (num_of v) A) ++ skipn 97 c') (mul1 (num_of v) A)).
  { intros v c' HV NV BV. apply G1_of. rewrite mul1_zm by (apply scal_nn, HV). apply isG1_enc; [apply zm1_on, O|apply zm1_ne; assumption|apply sub_on; assumption|apply bytes_skipn, BV]. }
  rewrite (recombine_client _ _ w _ _ (G s1 c1 H1 N1 B1) (G s2 c2 H2 N2 B2)); [rewrite EQ; reflexivity| |exact LW]. rewrite EQ, mul1_zm by assumption. apply zm1_ne; assumption.
Qed.

(* ------------------------------------ factors ------------------------------------ *)
Lemma extract_restore : forall chk fuel sha id v bits token A p, ident chk sha id -> q381 <= Z.of_nat fuel -> map_pt (mp_hash sha 0 id) A -> (bits <= 32)%nat -> in_G1 token p -> (97 <= length token)%nat ->
  let F := mul1 (v mod 2 ^ Z.of_nat bits) A in
  (padd1 p (pneg1 F) <> Inf -> extract_factor chk fuel sha id v bits token = Some (0, enc_pt (padd1 p (pneg1 F)) ++ skipn 97 token)) /\
  (padd1 p F <> Inf -> restore_factor chk fuel sha id v bits token = Some (0, enc_pt (padd1 p F) ++ skipn 97 token)).
Proof.
  intros chk fuel sha id v bits token A p (IS & BI & HS) FU M HB HT LT F. apply G1_to in HT. assert (V : 0 <= v mod 2 ^ Z.of_nat bits) by (apply Z.mod_pos_bound, Z.pow_pos_nonneg; lia).
  unfold F. rewrite mul1_zm by exact V. split; intros N.
  - exact (factor_ok false chk fuel sha id v bits token A p IS BI HS FU M HB HT LT N).
  - exact (factor_ok true chk fuel sha id v bits token A p IS BI HS FU M HB HT LT N).
Qed.
Lemma extract_pin_value : forall chk fuel sha id pin token A p, ident chk sha id -> q381 <= Z.of_nat fuel -> map_pt (mp_hash sha 0 id) A -> - 2 ^ 31 <= pin < 2 ^ 31 -> in_G1 token p -> (97 <= length token)%nat ->
  padd1 p (pneg1 (mul1 (pin_val pin) A)) <> Inf -> extract_pin chk fuel sha id pin token = Some (0, enc_pt (padd1 p (pneg1 (mul1 (pin_val pin) A))) ++ skipn 97 token).
Proof.
  intros chk fuel sha id pin token A p ID FU M HP HT LT N. rewrite <- (pin_i32 pin HP) in *. unfold extract_pin.
  exact (proj1 (extract_restore chk fuel sha id _ PBLEN token A p ID FU M pbl HT LT) N).
Qed.
Lemma padd_cancel p q : on1 p -> on1 q -> padd1 (padd1 p (pneg1 q)) q = p.
Proof. intros O1 O2. rewrite padd1_assoc by (try assumption; apply pneg1_on, O2). rewrite (padd1_comm (pneg1 q) q) by (try assumption; apply pneg1_on, O2). rewrite (padd1_neg q O2). apply padd1_0r. Qed.
Lemma factor_round_trip : forall chk fuel sha id v bits t p, ident chk sha id -> q381 <= Z.of_nat fuel -> (bits <= 32)%nat -> on1 p -> p <> Inf -> mul1 r255 p = Inf -> bytes t ->
  (forall A, map_pt (mp_hash sha 0 id) A -> padd1 p (pneg1 (mul1 (v mod 2 ^ Z.of_nat bits) A)) <> Inf) ->
  exists w, extract_factor chk fuel sha id v bits (enc_pt p ++ t) = Some (0, w) /\ restore_factor chk fuel sha id v bits w = Some (0, enc_pt p ++ t).
Proof.
  intros chk fuel sha id v bits t p ID FU HB O NP KP BT N. destruct (every_point chk sha 0 id ID) as (A & M & OA & _ & KA & _). specialize (N A M).
  assert (V : 0 <= v mod 2 ^ Z.of_nat bits) by (apply Z.mod_pos_bound, Z.pow_pos_nonneg; lia). assert (RP : 0 <= r255) by (pose proof r255_pos; lia). rewrite mul1_zm in KP, KA by exact RP.
  assert (OF : on1 (mul1 (v mod 2 ^ Z.of_nat bits) A)) by (rewrite mul1_zm by exact V; apply zm1_on, OA).
  assert (KF : zm1 r255 (mul1 (v mod 2 ^ Z.of_nat bits) A) = Inf) by (rewrite mul1_zm by exact V; apply sub_on; assumption).
  assert (LN : forall q, (97 <= length (enc_pt q ++ t))%nat) by (intros q; rewrite app_length, (proj2 (enc_bytes q)); lia).
  assert (SK : forall q, skipn 97 (enc_pt q ++ t) = t) by (intros q; apply skipn_exact, enc_bytes).
  eexists. split.
  - apply (proj1 (extract_restore chk fuel sha id v bits (enc_pt p ++ t) A p ID FU M HB (G1_of _ _ (isG1_enc p t O NP KP BT)) (LN p)) N).
  - rewrite SK. assert (O2 : on1 (padd1 p (pneg1 (mul1 (v mod 2 ^ Z.of_nat bits) A)))) by (apply padd1_on; [exact O|apply pneg1_on, OF]).
    assert (K2 : zm1 r255 (padd1 p (pneg1 (mul1 (v mod 2 ^ Z.of_nat bits) A))) = Inf) by (apply sub_add; [exact O|apply pneg1_on, OF|exact KP|apply sub_neg; assumption]).
    rewrite (proj2 (extract_restore chk fuel sha id v bits _ A _ ID FU M HB (G1_of _ _ (isG1_enc _ t O2 N K2 BT)) (LN _))); rewrite padd_cancel by assumption; [rewrite SK; reflexivity|exact NP].
Qed.
