(* Proofs about mpin.rs: the four moves of the protocol. *)
From Coq Require Import ZArith List Bool Lia Znumtheory.
From Verif Require Import Prim PrimP Rom Big BigP BigP2 BigP3 BigP5 BigL NumT FieldQ FieldQ2 Fp Fp2 Fp4 Fp12 FpP FpP2 Fp2P Sqrt2P SpecBytes SpecMac SpecRand Utils Api SpecCurve CurveP GroupP
  Ecp Ecp2 EcpP EcpC Ecp2P Ecp2C GenP G1Grp G1Ord Denote KeysP KeysP2 LayerP MapP Tower TowerP Fp4P Fp12P FexpP SpecPairing MillerP3 PsiP BilinP TwistP VerifyP VerifyP2 VerifyP7 DenoteT Rand RandP
  Glv Mul2P Mul4P PinP GlvP MapitP SpecEcdh Ecdh EcdhH EcdhP EcdhQ Pair Pair2 Ate2P SpecMpin Mpin MpinP MpinQ.
Import ListNotations.
Open Scope Z_scope.

Lemma pin_eq pin : Z.rem (as_i32 pin) MAXPIN mod 2 ^ Z.of_nat PBLEN = pin_val pin. Proof. reflexivity. Qed.
Lemma pin_small pin : 0 <= pin < 2 ^ 31 -> pin_val pin = pin mod 10000.
Proof.
  intros P. unfold pin_val. rewrite (Z.mod_small (pin + 2 ^ 31)) by lia. replace (pin + 2 ^ 31 - 2 ^ 31) with pin by lia. rewrite Z.rem_mod_nonneg by lia.
  apply Z.mod_small. pose proof (Z.mod_pos_bound pin 10000 ltac:(lia)). lia.
Qed.
Lemma pin_i32 pin : - 2 ^ 31 <= pin < 2 ^ 31 -> Z.rem pin MAXPIN mod 2 ^ Z.of_nat PBLEN = pin_val pin.
Proof. intros P. unfold pin_val. rewrite (Z.mod_small (pin + 2 ^ 31)) by lia. replace (pin + 2 ^ 31 - 2 ^ 31) with pin by lia. reflexivity. Qed.
Lemma pin_range pin : 0 <= pin_val pin < 2 ^ 14. Proof. apply Z.mod_pos_bound. lia. Qed.
Lemma pbl : (PBLEN <= 32)%nat. Proof. apply Nat.leb_le. reflexivity. Qed.

Lemma r256 : r255 < 2 ^ 256. Proof. vm_compute. reflexivity. Qed.
Definition wr (o : option (list Z)) (p : pt1) : option (list Z) := match o with Some w => Some (enc_pt p ++ skipn 97 w) | None => None end.
Definition room (o : option (list Z)) : Prop := match o with Some w => (97 <= length w)%nat | None => True end.
Lemma write_opt_ok l E p a o : ecpR l E p a -> 1 <= l <= 8 -> E <= 33554432 -> p <> Inf -> zm1 r255 p = Inf -> room o -> write_opt o a = Some (wr o p).
Proof. intros R L HE N K RM. destruct o as [w|]; [|reflexivity]. cbn [write_opt wr]. destruct (write1 l E p a w R L HE N K RM) as (a' & E1 & _ & E2). rewrite E1. cbn [bind]. rewrite E2. reflexivity. Qed.
Lemma hsafe_le chk sha id id' : hsafe chk sha id -> (length id' <= 48)%nat -> hsafe chk sha id'.
Proof. unfold hsafe, noov. intros [H|[[H _]|[H _]]] L; [left; exact H|right; left|right; right]; (split; [exact H|]); lia. Qed.

Lemma client1_0 chk fuel sha id x pin token sec xid xcid permit A p : is_sha sha -> bytes id -> hsafe chk sha id -> q381 <= Z.of_nat fuel -> map_pt (mp_hash sha 0 id) A ->
  bytes x -> (48 <= length x)%nat -> num_of x < 2 ^ 382 -> num_of x mod r255 <> 0 -> isG1 token p -> (97 <= length sec)%nat -> room xid ->
  padd1 p (zm1 (pin_val pin) A) <> Inf ->
  client_1 chk fuel sha 0 id None x pin token sec xid xcid permit =
    Some (0, x, enc_pt (padd1 p (zm1 (pin_val pin) A)) ++ skipn 97 sec, wr xid (zm1 (num_of x) A), xcid, None).
Proof.
  intros IS BI HS F M BX LX VX NX (BT & LT & DT & NT & KT) LS RX N. destruct (map_id_ok chk fuel sha 0 id A IS BI HS F M) as (OA & NA & KA & a & MA & RA).
  destruct (read1 token p BT LT DT NT) as (t & ET & RT & IT). destruct (num_rep x BX LX) as (sx & EX & RSX). unfold client_1, secret. rewrite EX. cbn [bind]. rewrite MA. cbn [bind].
  rewrite ET. cbn [bind]. rewrite IT. cbn [bind]. destruct (pinmul_R a (Z.rem (as_i32 pin) MAXPIN) PBLEN A RA pbl) as (c & EC & RC). rewrite EC. cbn [bind]. rewrite pin_eq in RC.
  destruct (ok_ex _ _ (ecp_add_ok 2 1 2 5 _ _ t c RT RC ltac:(lia) ltac:(lia) ltac:(lia) ltac:(lia))) as (d & ED & RD). rewrite ED. cbn [bind].
  assert (K : zm1 r255 (padd1 p (zm1 (pin_val pin) A)) = Inf) by (apply sub_add; [exact (decodes_on _ _ DT)|apply zm1_on, OA|exact KT|apply sub_on; assumption]).
  destruct (write1 1 5 _ d sec RD ltac:(lia) ltac:(lia) N K LS) as (d' & E1 & _ & E2). unfold client_1_date. cbn [Z.eqb negb].
  destruct (g1_R 1 A a sx _ RA ltac:(lia) KA RSX VX) as (m & EM & RM). destruct xid as [w|]; cbn [wr].
  - rewrite EM. cbn [bind]. rewrite (write_opt_ok 1 5 _ m (Some w) (ecpA_R5 _ _ RM) ltac:(lia) ltac:(lia) (zm1_ne _ A OA NA KA NX) (sub_on _ A OA KA) RX). cbn [bind wr]. rewrite E1. cbn [bind]. rewrite E2. reflexivity.
  - cbn [bind]. rewrite E1. cbn [bind]. rewrite E2. reflexivity.
Qed.
Lemma client1_date chk fuel sha date id x pin token sec xid xcid permit A B p W : is_sha sha -> bytes id -> hsafe chk sha id -> q381 <= Z.of_nat fuel -> map_pt (mp_hash sha 0 id) A ->
  date <> 0 -> map_pt (mp_hash sha date (mp_hash sha 0 id)) B -> padd1 A B <> Inf ->
  bytes x -> (48 <= length x)%nat -> num_of x < 2 ^ 382 -> num_of x mod r255 <> 0 -> isG1 token p -> isG1 permit W -> (97 <= length sec)%nat -> room xid -> room xcid ->
  padd1 (padd1 p (zm1 (pin_val pin) A)) W <> Inf ->
  client_1 chk fuel sha date id None x pin token sec xid xcid (Some permit) =
    Some (0, x, enc_pt (padd1 (padd1 p (zm1 (pin_val pin) A)) W) ++ skipn 97 sec, wr xid (zm1 (num_of x) A), wr xcid (zm1 (num_of x) (padd1 A B)), None).
Proof.
  intros IS BI HS F M D0 MB NAB BX LX VX NX (BT & LT & DT & NT & KT) (BW & LW & DW & NW & KW) LS RX RXC N. destruct (map_id_ok chk fuel sha 0 id A IS BI HS F M) as (OA & NA & KA & a & MA & RA).
  destruct (map_id_ok chk fuel sha date (mp_hash sha 0 id) B IS (mp_hash_bytes sha 0 id IS BI) (hsafe_le chk sha id _ HS ltac:(rewrite mp_hash_len; lia)) F MB) as (OB & NB & KB & b & EB & RB).
  destruct (read1 token p BT LT DT NT) as (t & ET & RT & IT). destruct (read1 permit W BW LW DW NW) as (w & EW & RW & IW). destruct (num_rep x BX LX) as (sx & EX & RSX).
  unfold client_1, secret. rewrite EX. cbn [bind]. rewrite MA. cbn [bind].
  rewrite ET. cbn [bind]. rewrite IT. cbn [bind]. destruct (pinmul_R a (Z.rem (as_i32 pin) MAXPIN) PBLEN A RA pbl) as (c & EC & RC). rewrite EC. cbn [bind]. rewrite pin_eq in RC.
  destruct (ok_ex _ _ (ecp_add_ok 2 1 2 5 _ _ t c RT RC ltac:(lia) ltac:(lia) ltac:(lia) ltac:(lia))) as (d & ED & RD). rewrite ED. cbn [bind].
  assert (K : zm1 r255 (padd1 p (zm1 (pin_val pin) A)) = Inf) by (apply sub_add; [exact (decodes_on _ _ DT)|apply zm1_on, OA|exact KT|apply sub_on; assumption]).
  unfold client_1_date. rewrite (proj2 (Z.eqb_neq date 0) D0). cbn [negb]. rewrite EW. cbn [bind]. rewrite IW. cbn [bind].
  destruct (ok_ex _ _ (ecp_add_ok 1 2 5 2 _ _ d w RD RW ltac:(lia) ltac:(lia) ltac:(lia) ltac:(lia))) as (d2 & ED2 & RD2). rewrite ED2. cbn [bind]. rewrite EB. cbn [bind].
  assert (K2 : zm1 r255 (padd1 (padd1 p (zm1 (pin_val pin) A)) W) = Inf).
  { apply sub_add; [apply padd1_on; [exact (decodes_on _ _ DT)|apply zm1_on, OA]|exact (decodes_on _ _ DW)|exact K|exact KW]. }
  destruct (write1 1 5 _ d2 sec RD2 ltac:(lia) ltac:(lia) N K2 LS) as (d' & E1 & _ & E2).
  assert (KAB : zm1 r255 (padd1 A B) = Inf) by (apply sub_add; assumption). assert (OAB : on1 (padd1 A B)) by (apply padd1_on; assumption).
  assert (X : exists m, match xid with
     | Some _ => P <- g1mul a sx ;; xid <- write_opt xid P ;; W <- g1mul b sx ;; P <- ecp_add P W ;; Some (P, xid)
     | None => P <- ecp_add a b ;; P <- g1mul P sx ;; Some (P, None) end = Some (m, wr xid (zm1 (num_of x) A)) /\ ecpR 1 5 (zm1 (num_of x) (padd1 A B)) m).
  { destruct xid as [o|].
    - destruct (g1_R 1 A a sx _ RA ltac:(lia) KA RSX VX) as (m & EM & RM). rewrite EM. cbn [bind].
      rewrite (write_opt_ok 1 5 _ m (Some o) (ecpA_R5 _ _ RM) ltac:(lia) ltac:(lia) (zm1_ne _ A OA NA KA NX) (sub_on _ A OA KA) RX). cbn [bind wr].
      destruct (g1_R 1 B b sx _ RB ltac:(lia) KB RSX VX) as (n & EN & RN). rewrite EN. cbn [bind].
      destruct (ok_ex _ _ (ecp_add_ok 1 1 5 5 _ _ m n (ecpA_R5 _ _ RM) (ecpA_R5 _ _ RN) ltac:(lia) ltac:(lia) ltac:(lia) ltac:(lia))) as (k & EK & RK). rewrite EK. cbn [bind].
      exists k. split; [reflexivity|]. rewrite zm1_dist by assumption. exact RK.
    - destruct (ok_ex _ _ (ecp_add_ok 1 1 5 5 _ _ a b RA RB ltac:(lia) ltac:(lia) ltac:(lia) ltac:(lia))) as (k & EK & RK). rewrite EK. cbn [bind].
      destruct (g1_R 1 _ k sx _ RK ltac:(lia) KAB RSX VX) as (m & EM & RM). rewrite EM. cbn [bind wr]. exists m. split; [reflexivity|exact (ecpA_R5 _ _ RM)]. }
  destruct X as (m & EM & RM). rewrite EM. cbn [bind].
  rewrite (write_opt_ok 1 5 _ m xcid RM ltac:(lia) ltac:(lia) (zm1_ne _ _ OAB NAB KAB NX) (sub_on _ _ OAB KAB) RXC). cbn [bind]. rewrite E1. cbn [bind]. rewrite E2. reflexivity.
Qed.
Lemma some_eq {T} (a b : T) : Some a = Some b -> a = b. Proof. intros H. injection H as H. exact H. Qed.
(* a drawn secret is written to x, and the rest is as when it is read from there *)
Lemma secret_draw rd x sx x' rd' : secret (Some rd) x = Some (sx, x', rd') -> (exists v, rep 7 sx v /\ v < r255) -> bytes x -> (48 <= length x)%nat -> secret None x' = Some (sx, x', None).
Proof.
  unfold secret. intros H (v & RV & V) B L. destruct (big_randomnum CURVE_ORDER rd) as [[s r]|]; [|discriminate H]. cbn [bind] in H.
  destruct (big_tobytes s) as [bs|] eqn:EB; [|discriminate H]. cbn [bind] in H. destruct (put x 0 bs) as [x1|] eqn:EP; [|discriminate H]. cbn [bind] in H. injection H as H1 H2 _. subst s x1.
  rewrite (B_tobytes _ _ RV) in EB. apply some_eq in EB. subst bs. rewrite (put_front x _ 48 (be_bytes_length 48 v) L) in EP. apply some_eq in EP. subst x'.
  destruct (num_rep (be_bytes 48 v ++ skipn 48 x) (bytes_app _ _ (be_bytes_bytes 48 v) (bytes_skipn 48 x B)) ltac:(rewrite app_length, be_bytes_length; lia)) as (c & EC & RC). rewrite EC. cbn [bind].
  assert (NV : num_of (be_bytes 48 v ++ skipn 48 x) = v).
  { unfold num_of. rewrite firstn_exact by apply be_bytes_length. apply be_int_48. pose proof (rep_bound _ _ _ RV). pose proof r256. lia. }
  rewrite NV in RC. rewrite (rep_inj _ _ _ _ RC RV). reflexivity.
Qed.

Lemma server1_ok chk fuel sha date id hid htid A : is_sha sha -> bytes id -> hsafe chk sha id -> q381 <= Z.of_nat fuel -> map_pt (mp_hash sha 0 id) A -> (97 <= length hid)%nat ->
  (date = 0 -> server_1 chk fuel sha date id hid htid = Some (enc_pt A ++ skipn 97 hid, htid)) /\
  (forall B, date <> 0 -> map_pt (mp_hash sha date (mp_hash sha 0 id)) B -> padd1 A B <> Inf -> room htid ->
     server_1 chk fuel sha date id hid htid = Some (enc_pt A ++ skipn 97 hid, wr htid (padd1 A B))).
Proof.
  intros IS BI HS F M LH. destruct (map_id_ok chk fuel sha 0 id A IS BI HS F M) as (OA & NA & KA & a & MA & RA).
  destruct (write1 1 5 A a hid RA ltac:(lia) ltac:(lia) NA KA LH) as (a' & E1 & RA' & E2). apply ecpA_R5 in RA'. unfold server_1. rewrite MA. cbn [bind]. rewrite E1. cbn [bind]. rewrite E2. cbn [bind].
  split; [intros ->; reflexivity|]. intros B D0 MB NAB RT. rewrite (proj2 (Z.eqb_neq date 0) D0). cbn [negb].
  destruct (map_id_ok chk fuel sha date (mp_hash sha 0 id) B IS (mp_hash_bytes sha 0 id IS BI) (hsafe_le chk sha id _ HS ltac:(rewrite mp_hash_len; lia)) F MB) as (OB & NB & KB & b & EB & RB).
  rewrite EB. cbn [bind]. destruct (ok_ex _ _ (ecp_add_ok 1 1 5 5 _ _ a' b RA' RB ltac:(lia) ltac:(lia) ltac:(lia) ltac:(lia))) as (k & EK & RK). rewrite EK. cbn [bind].
  rewrite (write_opt_ok 1 5 _ k htid RK ltac:(lia) ltac:(lia) NAB (sub_add A B OA OB KA KB) RT). reflexivity.
Qed.
Lemma client2_ok x y sec p : bytes x -> bytes y -> (48 <= length x)%nat -> (48 <= length y)%nat -> isG1 sec p -> (97 <= length sec)%nat -> (num_of x + num_of y) mod r255 <> 0 ->
  client_2 x y sec = Some (0, enc_pt (pneg1 (zm1 (num_of x + num_of y) p)) ++ skipn 97 sec).
Proof.
  intros BX BY LX LY (BT & LT & DT & NT & KT) LS N. destruct (read1 sec p BT LT DT NT) as (t & ET & RT & IT). destruct (num_rep x BX LX) as (sx & EX & RX). destruct (num_rep y BY LY) as (sy & EY & RY).
  unfold client_2. rewrite ET. cbn [bind]. rewrite IT. cbn [bind]. rewrite EX. cbn [bind]. rewrite EY. cbn [bind].
  assert (X48 : forall w, bytes w -> num_of w < 2 ^ 384).
  { intros w B. unfold num_of. pose proof (be_int_range (firstn 48 w) (bytes_firstn 48 w B)) as H. pose proof (firstn_le_length 48 w) as L.
    eapply Z.lt_le_trans; [exact (proj2 H)|]. change (2 ^ 384) with (256 ^ 48). apply Z.pow_le_mono_r; lia. }
  pose proof (X48 x BX). pose proof (X48 y BY). pose proof (num_nn x BX). pose proof (num_nn y BY).
  assert (RS : exists s, big_add sx sy = Some s /\ length s = 7%nat /\ lb (2 ^ 59) s /\ lval s = num_of x + num_of y).
  { pose proof (BigL.rep_lb _ _ RX) as BX'. pose proof (BigL.rep_lb _ _ RY) as BY'. destruct RX as (A1 & _ & A3), RY as (A4 & _ & A6).
    destruct (ok_ex _ _ (big_add_spec sx sy (2 ^ 58) (2 ^ 58) ltac:(congruence) BX' BY' ltac:(lia) ltac:(lia) ltac:(lia))) as (s & E & L & LB & V). exists s. split; [exact E|]. split; [congruence|]. split; [exact LB|]. congruence. }
  destruct RS as (s & ES & L7 & LBs & VS). rewrite ES. cbn [bind].
  destruct (ok_ex _ _ (big_rmod_spec s CURVE_ORDER r255 L7 (BigL.lb_mono (2 ^ 59) (2 ^ 63 - 64) s LBs ltac:(lia)) ltac:(rewrite VS; lia) order_nrep r255_pos)) as (m & EM & RM). rewrite EM. cbn [bind]. rewrite VS in RM.
  assert (RB : 0 <= (num_of x + num_of y) mod r255 < r255) by (apply Z.mod_pos_bound, r255_pos). pose proof r256.
  apply nrep_rep in RM; [|change (58 * Z.of_nat 7) with 406; lia]. pose proof (decodes_on _ _ DT) as OT.
  destruct (g1_R2 p t m _ RT KT RM ltac:(lia)) as (c & EC & RC). rewrite EC. cbn [bind]. rewrite (zm1_mod _ r255 p OT KT) in RC by (pose proof r255_pos; lia).
  destruct (ok_ex _ _ (ecp_neg_ok 1 5 _ c (ecpA_R5 _ _ RC) ltac:(lia) ltac:(lia))) as (d & ED & RD). rewrite ED. cbn [bind].
  assert (NN : pneg1 (zm1 (num_of x + num_of y) p) <> Inf). { pose proof (zm1_ne _ p OT NT KT N) as Q. destruct (zm1 (num_of x + num_of y) p); [contradiction|discriminate]. }
  destruct (write1 1 (2 * 5 - 1) _ d sec RD ltac:(lia) ltac:(lia) NN (sub_neg _ (zm1_on _ _ OT) (sub_on _ p OT KT)) LS) as (d' & E1 & _ & E2). rewrite E1. cbn [bind]. rewrite E2. reflexivity.
Qed.
