(* Proofs about ECDSA of ecdh.rs. *)
From Coq Require Import ZArith List Bool Lia Znumtheory.
From Verif Require Import Prim PrimP Rom Big BigX BigP BigP2 BigP3 BigL NumT FieldQ FieldQ2 Fp FpP FpP2 JacobiM JacP Fp2 Fp2P Sqrt2P InvP SpecBytes SpecSha SpecRand SpecMac Utils Api SpecCurve CurveP GroupP Ecp EcpP EcpC GenP G1Grp G1Ord Denote
  KeysP KeysP2 MapitP Rand RandP Glv Mul2P Ecdh EcdhH SpecEcdh EcdhP EcdhQ.
Import ListNotations.
Open Scope Z_scope.

(* arithmetic modulo a number *)
Lemma dsa_alg p s c e u w z : 1 < p -> ((u * w) mod p * z) mod p = 1 ->
  ((z * ((((s * c) mod p + e) * w) mod p)) mod p * u) mod p = (e + s * c) mod p.
Proof.
  intros P H. rewrite Zmult_mod_idemp_l in H. rewrite Zmult_mod_idemp_l.
  transitivity ((((s * c) mod p + e) * w) mod p * (z * u) mod p); [f_equal; ring|]. rewrite Zmult_mod_idemp_l.
  transitivity ((((s * c) mod p + e) * ((u * w * z) mod p)) mod p); [rewrite Zmult_mod_idemp_r; f_equal; ring|]. rewrite H, Z.mul_1_r, Zplus_mod_idemp_l. f_equal. ring.
Qed.
Lemma prime_gcd p a : prime p -> a mod p <> 0 -> Z.gcd a p = 1.
Proof.
  intros P A. apply Zgcd_1_rel_prime. apply rel_prime_sym, prime_rel_prime; [exact P|]. intros D. apply A. apply Zdivide_mod, D.
Qed.
Lemma prime_prod p a b : prime p -> a mod p <> 0 -> b mod p <> 0 -> (a * b) mod p <> 0.
Proof.
  intros P A B H. pose proof (prime_ge_2 p P). apply Zmod_divide in H; [|lia]. apply (prime_mult p P) in H. destruct H as [H|H]; apply Zdivide_mod in H; contradiction.
Qed.
Lemma rmod255 v : 0 <= v mod r255 < r255. Proof. apply Z.mod_pos_bound, r255_pos. Qed.
Lemma r255_range : 1 < r255 < 2 ^ 405. Proof. split; reflexivity. Qed.
Lemma r255_406 : 0 < r255 <= 2 ^ 406. Proof. pose proof r255_range. lia. Qed.
Lemma r255_odd : r255 mod 2 = 1. Proof. reflexivity. Qed.

(* modmul with a first factor that is not normalised *)
Lemma modmul_sum a b w m u v x mv : rep 7 a u -> rep 7 b v -> rep 7 w x -> 0 <= u + v < 2 ^ 408 -> nrep 7 m mv -> 0 < mv <= 2 ^ 406 ->
  exists c, (t <- big_add a b ;; big_modmul t w m) = Some c /\ rep 7 c (((u + v) * x) mod mv).
Proof.
  intros A B W UV M MV. pose proof (rep_lb _ _ A) as LA. pose proof (rep_lb _ _ B) as LB. destruct A as (A1 & A2 & A3), B as (B1 & B2 & B3).
  destruct (ok_ex _ _ (big_add_spec a b _ _ ltac:(congruence) LA LB ltac:(lia) ltac:(lia) ltac:(lia))) as (t & ET & T1 & T2 & T3). rewrite ET. cbn [bind]. rewrite A3, B3 in T3.
  unfold big_modmul. destruct (ok_ex _ _ (big_rmod_spec t m mv ltac:(congruence) ltac:(eapply lb_weak; [exact T2|lia]) ltac:(rewrite T3; exact UV) M ltac:(lia))) as (t' & ET' & RT). rewrite ET'. cbn [bind]. rewrite T3 in RT.
  pose proof (Z.mod_pos_bound (u + v) mv ltac:(lia)) as MB. pose proof (Z.mod_le (u + v) mv ltac:(lia) ltac:(lia)) as ML.
  assert (RT7 : rep 7 t' ((u + v) mod mv)) by (apply nrep_rep; [exact RT|]; change (58 * Z.of_nat 7) with 406; lia).
  destruct (B_rmod w x m mv W M ltac:(lia)) as (b' & EB & B'). rewrite EB. cbn [bind].
  destruct (B_mul _ _ _ _ RT7 B') as (d & ED & D). rewrite ED. cbn [bind].
  destruct (B_dmod _ _ _ _ D M MV) as (c & EC & C). rewrite EC. exists c. split; [reflexivity|]. rewrite <- Z.mul_mod in C by lia. exact C.
Qed.

(* streams *)
Definition shift (n : nat) (f : nat -> Z) : nat -> Z := fun k => f (n + k)%nat.
Lemma stream_num_ext f g n : (forall i, f i = g i) -> stream_num f n = stream_num g n.
Proof.
  intros E. unfold stream_num. generalize (seq 0 n). intros l. generalize 0. induction l as [|x l IH]; intros a; [reflexivity|]. cbn [fold_left]. unfold stream_bit at 2 4. rewrite E. apply IH.
Qed.
Lemma draw_ext f g i j : (forall k, f (64 * i + k)%nat = g (64 * j + k)%nat) -> draw f i = draw g j.
Proof. intros H. unfold draw. rewrite (stream_num_ext _ _ 510 H). reflexivity. Qed.
Lemma draw_shift f i : draw (shift 128 f) i = draw f (2 + i).
Proof. apply draw_ext. intros k. unfold shift. replace (128 + (64 * i + k))%nat with (64 * (2 + i) + k)%nat by lia. reflexivity. Qed.
Lemma draw_range f i : 0 <= draw f i < r255. Proof. apply rmod255. Qed.
Lemma draw_ok r f : gives r f -> exists x r', big_randomnum CURVE_ORDER r = Some (x, r') /\ rep 7 x (draw f 0) /\ gives r' (shift 64 f).
Proof.
  intros GV. destruct (randomnum_ok CURVE_ORDER r255 r f order_rep ltac:(split; [reflexivity|reflexivity]) GV) as (x & r' & E & R & GV'). change (Z.to_nat (2 * (Z.log2 r255 + 1))) with 510%nat in R, GV'. change ((510 + 7) / 8)%nat with 64%nat in GV'.
  exists x, r'. split; [exact E|]. split; [|exact GV']. unfold draw. exact R.
Qed.
Lemma draw_two r f : gives r f -> exists x w r1 r2, big_randomnum CURVE_ORDER r = Some (x, r1) /\ big_randomnum CURVE_ORDER r1 = Some (w, r2) /\
  rep 7 x (draw f 0) /\ rep 7 w (draw f 1) /\ gives r2 (shift 128 f).
Proof.
  intros GV. destruct (draw_ok r f GV) as (x & r1 & E1 & R1 & G1). destruct (draw_ok r1 _ G1) as (w & r2 & E2 & R2 & G2). exists x, w, r1, r2. split; [exact E1|]. split; [exact E2|]. split; [exact R1|].
  split; [|eapply gives_ext; [exact G2|]; intros i; unfold shift; reflexivity].
  replace (draw f 1) with (draw (shift 64 f) 0); [exact R2|]. apply draw_ext. intros k. reflexivity.
Qed.

(* the abscissa of u G *)
Lemma getc_ok G e u : ecpR 1 2 G1gen G -> rep 7 e u -> 0 <= u < r255 ->
  exists V P x cb, ecp_mul G e = Some V /\ ecp_getx V = Some (x, P) /\ big_rmod x CURVE_ORDER = Some cb /\ rep 7 cb (dsa_c u).
Proof.
  intros A R U. unfold dsa_c. rewrite <- (zm1_nmul u) by lia. destruct (Z.eq_dec u 0) as [E|E].
  - subst u. rewrite (mul_zero G e R), zm1_0. pose proof getx_new as N. destruct ecp_new as [V|]; [|discriminate N]. cbn [bind] in N.
    destruct (ecp_getx V) as [[x P]|] eqn:EX; [|discriminate N]. cbn [bind] in N. injection N as N. subst x.
    destruct (B_rmod _ 0 CURVE_ORDER r255 rep_zero order_nrep r255_pos) as (c' & E' & R'). exists V, P, (repeat 0 7), c'. split; [reflexivity|]. split; [exact EX|]. split; [exact E'|exact R'].
  - pose proof (G_nz u ltac:(lia)) as NI. pose proof (G_sub u) as SB. pose proof (zm1_on u G1gen G1gen_on) as ON.
    destruct (ok_ex _ _ (ecp_mul_ok 1 2 _ G e u A ltac:(lia) ltac:(lia) R (r255_404 u U))) as (V & EV & HV). apply (ecpA_R 1 5) in HV; [|lia|lia].
    destruct (zm1 u G1gen) as [|x y]; [destruct (NI eq_refl)|]. destruct (ok_ex _ _ (getx_ok 1 5 x y V HV ltac:(lia) ltac:(lia))) as ([wx P] & EX & v & RV & _ & _ & V2).
    rewrite (V2 (sub_x x y ON SB)) in RV. destruct (B_rmod wx _ CURVE_ORDER r255 RV order_nrep r255_pos) as (c' & E' & R').
    exists V, P, wx, c'. split; [exact EV|]. split; [exact EX|]. split; [exact E'|exact R'].
Qed.
Lemma dsa_c_range u : 0 <= dsa_c u < r255.
Proof. unfold dsa_c. destruct (nmul1 (Z.to_nat u) G1gen); [pose proof r255_pos; lia|apply rmod255]. Qed.
Lemma dsa_c_nz u : dsa_c u <> 0 -> u <> 0. Proof. intros C E. subst u. apply C. reflexivity. Qed.

(* one round of the loop *)
Section Round.
  Variables (G : ECP) (sc fb : BIG) (s e : Z).
  Hypothesis HG : ecpR 1 2 G1gen G.
  Hypothesis HS : rep 7 sc s.
  Hypothesis HF : rep 7 fb e.
  Hypothesis HE : 0 <= e < 2 ^ 384.
  Lemma round_ok n r f : gives r f ->
    let u := draw f 0 in let w := draw f 1 in
    (dsa_c u = 0 \/ (w <> 0 /\ (e + s * dsa_c u) mod r255 = 0) -> exists r', dsa_loop (S n) G sc fb r = dsa_loop n G sc fb r' /\ gives r' (shift 128 f)) /\
    (dsa_c u <> 0 -> w = 0 -> dsa_loop (S n) G sc fb r = None) /\
    (dsa_c u <> 0 -> w <> 0 -> (e + s * dsa_c u) mod r255 <> 0 -> exists cb db d r', dsa_loop (S n) G sc fb r = Some (cb, db, r') /\ gives r' (shift 128 f) /\
       rep 7 cb (dsa_c u) /\ rep 7 db d /\ dsa_d e s u d).
  Proof.
    intros GV u w. destruct (draw_two r f GV) as (x & y & r1 & r2 & E1 & E2 & RX & RY & GV2). fold u in RX. fold w in RY. pose proof (draw_range f 0) as UR. pose proof (draw_range f 1) as WR. fold u in UR. fold w in WR. clearbody u w.
    destruct (getc_ok G x u HG RX UR) as (V & P & vx & cb & EV & EX & EC & RC). cbn [dsa_loop]. rewrite E1. cbn [bind]. rewrite E2. cbn [bind]. rewrite EV. cbn [bind]. rewrite EX. cbn [bind]. rewrite EC. cbn [bind].
    pose proof (B_iszilch cb _ RC) as ZC. pose proof (dsa_c_range u) as CR. destruct (big_iszilch cb).
    { pose proof (proj1 ZC eq_refl) as C0. split; [intros _; exists r2; split; [reflexivity|exact GV2]|]. split; intros C; contradiction. }
    assert (CN : dsa_c u <> 0) by (intros C; apply (proj2 ZC) in C; discriminate C). clear ZC. pose proof (dsa_c_nz u CN) as UN.
    destruct (B_modmul x y CURVE_ORDER u w r255 RX RY order_nrep r255_406) as (uw & EUW & RUW). rewrite EUW. cbn [bind].
    destruct (Z.eq_dec w 0) as [W0|WN].
    { assert (EI : big_invmodp uw CURVE_ORDER = None). { apply (invmodp_hang 1000 1000 uw CURVE_ORDER _ r255 RUW order_rep r255_range r255_odd). rewrite W0, Z.mul_0_r, Z.mod_0_l by (pose proof r255_pos; lia). rewrite Z.gcd_0_l. pose proof r255_range. rewrite Z.abs_eq by lia. lia. }
      rewrite EI. cbn [bind]. split; [intros [C|[C _]]; contradiction|]. split; [reflexivity|]. intros _ C. contradiction. }
    assert (NUW : (u * w) mod r255 <> 0) by (apply (prime_prod r255 u w r255_prime); rewrite Z.mod_small by lia; assumption).
    destruct (invmodp_spec uw CURVE_ORDER _ r255 RUW order_rep r255_range r255_odd) as (ui & z & EI & RI & ZR & ZI). { apply prime_gcd; [exact r255_prime|]. rewrite Z.mod_mod by (pose proof r255_pos; lia). exact NUW. }
    rewrite EI. cbn [bind]. destruct (B_modmul sc cb CURVE_ORDER s (dsa_c u) r255 HS RC order_nrep r255_406) as (sb & ES & RS). rewrite ES. cbn [bind].
    destruct (modmul_sum sb fb y CURVE_ORDER _ e w r255 RS HF RY) as (t & ET & RT); [pose proof (rmod255 (s * dsa_c u)); pose proof r255_b; lia|exact order_nrep|exact r255_406|].
    destruct (big_add sb fb) as [tt|]; [|discriminate ET]. cbn [bind] in ET |- *. rewrite ET. cbn [bind].
    destruct (B_modmul ui t CURVE_ORDER z _ r255 RI RT order_nrep r255_406) as (db & ED & RD). rewrite ED. cbn [bind].
    pose proof (dsa_alg r255 s (dsa_c u) e u w z (proj1 r255_range) ZI) as AL. set (d := (z * _) mod r255) in RD, AL. pose proof (rmod255 (z * ((((s * dsa_c u) mod r255 + e) * w) mod r255))) as DR. fold d in DR. clearbody d.
    pose proof (B_iszilch db d RD) as ZD. destruct (big_iszilch db).
    - pose proof (proj1 ZD eq_refl) as D0. rewrite D0, Z.mul_0_l, Z.mod_0_l in AL by (pose proof r255_pos; lia). split; [intros _; exists r2; split; [reflexivity|exact GV2]|]. split; [intros _ C; contradiction|]. intros _ _ C. symmetry in AL. contradiction.
    - assert (DN : d <> 0) by (intros C; apply (proj2 ZD) in C; discriminate C). split.
      + intros [C|[_ C]]; [contradiction|]. rewrite C in AL. exfalso. apply (prime_prod r255 d u r255_prime); [rewrite Z.mod_small by lia; exact DN|rewrite Z.mod_small by lia; exact UN|exact AL].
      + split; [intros _ C; contradiction|]. intros _ _ _. exists cb, db, d, r2. split; [reflexivity|]. split; [exact GV2|]. split; [exact RC|]. split; [exact RD|]. split; [lia|exact AL].
  Qed.

  Lemma shift_draw f i : draw (shift 128 f) (2 * i) = draw f (2 * S i) /\ draw (shift 128 f) (2 * i + 1) = draw f (2 * S i + 1).
  Proof. rewrite !draw_shift. replace (2 * S i)%nat with (2 + 2 * i)%nat by lia. split; reflexivity. Qed.
  Lemma retry_shift f i : dsa_retry e s (shift 128 f) i <-> dsa_retry e s f (S i).
  Proof. unfold dsa_retry. destruct (shift_draw f i) as [-> ->]. split; intros H; exact H. Qed.
  Lemma succeeds_shift f i : dsa_succeeds e s (shift 128 f) i <-> dsa_succeeds e s f (S i).
  Proof. unfold dsa_succeeds. destruct (shift_draw f i) as [-> ->]. split; intros H; exact H. Qed.
  Lemma hangs_shift f i : dsa_hangs (shift 128 f) i <-> dsa_hangs f (S i).
  Proof. unfold dsa_hangs. destruct (shift_draw f i) as [-> ->]. split; intros H; exact H. Qed.
  Lemma retry0 n r f : gives r f -> dsa_retry e s f 0 -> exists r', dsa_loop (S n) G sc fb r = dsa_loop n G sc fb r' /\ gives r' (shift 128 f).
  Proof. intros GV [[C|C] D]; apply (proj1 (round_ok n r f GV)); [left; exact C|]. destruct D as [D|D]; [left; exact D|right; split; [exact D|exact C]]. Qed.
  Lemma loop_ok : forall j n r f, gives r f -> (forall i, (i < j)%nat -> dsa_retry e s f i) -> dsa_succeeds e s f j -> (j < n)%nat ->
    exists cb db d r', dsa_loop n G sc fb r = Some (cb, db, r') /\ gives r' (shift (128 * S j) f) /\ rep 7 cb (dsa_c (draw f (2 * j))) /\ rep 7 db d /\ dsa_d e s (draw f (2 * j)) d.
  Proof.
    induction j as [|j IH]; intros n r f GV R K N; (destruct n as [|n]; [lia|]).
    - destruct K as [K1 K2]. unfold dsa_fails in K1. apply (proj2 (proj2 (round_ok n r f GV))); [intros C; apply K1; left; exact C|exact K2|intros C; apply K1; right; exact C].
    - destruct (retry0 n r f GV (R 0%nat ltac:(lia))) as (r' & E & GV'). rewrite E. destruct (IH n r' (shift 128 f) GV') as (cb & db & d & r2 & H1 & H2 & H3 & H4 & H5).
      + intros i I. exact (proj2 (retry_shift f i) (R (S i) ltac:(lia))).
      + exact (proj2 (succeeds_shift f j) K).
      + lia.
      + destruct (shift_draw f j) as [E1 _]. rewrite E1 in H3, H5. exists cb, db, d, r2. split; [exact H1|]. split; [|split; [exact H3|split; [exact H4|exact H5]]].
        eapply gives_ext; [exact H2|]. intros i. unfold shift. replace (128 + (128 * S j + i))%nat with (128 * S (S j) + i)%nat by lia. reflexivity.
  Qed.
  Lemma loop_hang : forall j n r f, gives r f -> (forall i, (i < j)%nat -> dsa_retry e s f i) -> dsa_hangs f j -> dsa_loop n G sc fb r = None.
  Proof.
    induction j as [|j IH]; intros n r f GV R K; (destruct n as [|n]; [reflexivity|]).
    - destruct K as [K1 K2]. exact (proj1 (proj2 (round_ok n r f GV)) K1 K2).
    - destruct (retry0 n r f GV (R 0%nat ltac:(lia))) as (r' & E & GV'). rewrite E. apply (IH n r' (shift 128 f) GV'); [|exact (proj2 (hangs_shift f j) K)]. intros i I. exact (proj2 (retry_shift f i) (R (S i) ltac:(lia))).
  Qed.
  Lemma trich f : dsa_retry e s f 0 \/ dsa_succeeds e s f 0 \/ dsa_hangs f 0.
  Proof.
    unfold dsa_retry, dsa_succeeds, dsa_hangs, dsa_fails. destruct (Z.eq_dec (dsa_c (draw f (2 * 0))) 0) as [C|C]; [left; tauto|].
    destruct (Z.eq_dec (draw f (2 * 0 + 1)) 0) as [W|W]; [tauto|]. destruct (Z.eq_dec ((e + s * dsa_c (draw f (2 * 0))) mod r255) 0) as [M|M]; tauto.
  Qed.
  Lemma loop_inv : forall n r f x, gives r f -> dsa_loop n G sc fb r = Some x -> exists j, (j < n)%nat /\ (forall i, (i < j)%nat -> dsa_retry e s f i) /\ dsa_succeeds e s f j.
  Proof.
    induction n as [|n IH]; intros r f x GV H; [discriminate H|]. destruct (trich f) as [T|[T|T]].
    - destruct (retry0 n r f GV T) as (r' & E & GV'). rewrite E in H. destruct (IH r' _ x GV' H) as (j & J & R & K). exists (S j). split; [lia|]. split; [|exact (proj1 (succeeds_shift f j) K)].
      intros [|i] I; [exact T|]. exact (proj1 (retry_shift f i) (R i ltac:(lia))).
    - exists 0%nat. split; [lia|]. split; [intros i I; lia|exact T].
    - rewrite (loop_hang 0 (S n) r f GV) in H; [discriminate H|intros i I; lia|exact T].
  Qed.
End Round.

(* signing *)
Lemma msg_hash chk sha m : is_sha sha -> bytes m -> noov chk sha (length m) ->
  hashit chk sha m 0 None 48 (repeat 0 48) = Some (fit 48 (hfun sha m)) /\ bytes (fit 48 (hfun sha m)) /\ 0 <= msg_int sha m < 2 ^ 384.
Proof.
  intros S M N. rewrite (hashit_ok chk sha m 0 None 48 (repeat 0 48) S M (Forall_nil _)); rewrite ?nil_num; cbn [opt app]; rewrite ?app_nil_r; [|exact N|unfold plen; cbn [Nat.eqb]; rewrite repeat_length; apply le_n].
  unfold plen. cbn [Nat.eqb]. split; [reflexivity|].
  assert (B : bytes (fit 48 (hfun sha m))). { pose proof (hfun_bytes sha m S M) as H. unfold fit. destruct (48 <=? length (hfun sha m))%nat; [apply bytes_first, H|apply Forall_app; split; [apply zeros_bytes|exact H]]. }
  split; [exact B|]. unfold msg_int. pose proof (be_int_range _ B) as R. rewrite fit_len in R. exact R.
Qed.
Lemma msg_rep chk sha m : is_sha sha -> bytes m -> noov chk sha (length m) ->
  exists b fb, hashit chk sha m 0 None 48 (repeat 0 48) = Some b /\ big_frombytes b = Some fb /\ rep 7 fb (msg_int sha m).
Proof.
  intros S M N. destruct (msg_hash chk sha m S M N) as (E & B & _). exists (fit 48 (hfun sha m)). destruct (ok_ex _ _ (frombytes_rep _ B (fit_len 48 _))) as (fb & EF & RF). exists fb. split; [exact E|]. split; [exact EF|exact RF].
Qed.
Lemma sign_ok : forall chk n sha r f s m c d j, is_sha sha -> bytes m -> noov chk sha (length m) -> gives r f -> bytes s -> (48 <= length s)%nat -> (48 <= length c)%nat -> (48 <= length d)%nat ->
  let e := msg_int sha m in let k := be_int (firstn 48 s) in
  (forall i, (i < j)%nat -> dsa_retry e k f i) -> dsa_succeeds e k f j -> (j < n)%nat ->
  exists v r', ecpsp_dsa chk n sha r s m c d = Some (0, be_bytes 48 (dsa_c (draw f (2 * j))) ++ skipn 48 c, be_bytes 48 v ++ skipn 48 d, r') /\
    dsa_d e k (draw f (2 * j)) v /\ gives r' (fun i => f (128 * S j + i)%nat).
Proof.
  intros chk n sha r f s m c d j S M N GV B LS LC LD e k RT SC J. unfold ecpsp_dsa. destruct (msg_rep chk sha m S M N) as (b & fb & E1 & E2 & RF). destruct (msg_hash chk sha m S M N) as (_ & _ & ER). fold e in RF, ER.
  rewrite E1. cbn [bind]. destruct gen_ok as (G & EG & HG). rewrite EG. cbn [bind]. destruct (proj1 (B_frombytes s B) LS) as (sc & ES & RS). rewrite ES. cbn [bind]. rewrite E2. cbn [bind]. fold k in RS.
  destruct (loop_ok G sc fb k e HG RS RF ER j n r f GV RT SC J) as (cb & db & v & r' & EL & GV' & RC & RD & DD). rewrite EL. cbn [bind].
  rewrite (B_tobytes _ _ RC). cbn [bind]. rewrite (put_front c _ 48) by (try apply be_bytes_length; exact LC). cbn [bind]. rewrite (B_tobytes _ _ RD). cbn [bind]. rewrite (put_front d _ 48) by (try apply be_bytes_length; exact LD). cbn [bind].
  exists v, r'. split; [reflexivity|]. split; [exact DD|exact GV'].
Qed.
Lemma sign_hang : forall chk n sha r f s m c d j, is_sha sha -> bytes m -> noov chk sha (length m) -> gives r f -> bytes s -> (48 <= length s)%nat ->
  let e := msg_int sha m in let k := be_int (firstn 48 s) in
  (forall i, (i < j)%nat -> dsa_retry e k f i) -> dsa_hangs f j -> ecpsp_dsa chk n sha r s m c d = None.
Proof.
  intros chk n sha r f s m c d j S M N GV B LS e k RT SC. unfold ecpsp_dsa. destruct (msg_rep chk sha m S M N) as (b & fb & E1 & E2 & RF). destruct (msg_hash chk sha m S M N) as (_ & _ & ER). fold e in RF, ER.
  rewrite E1. cbn [bind]. destruct gen_ok as (G & EG & HG). rewrite EG. cbn [bind]. destruct (proj1 (B_frombytes s B) LS) as (sc & ES & RS). rewrite ES. cbn [bind]. rewrite E2. cbn [bind]. fold k in RS.
  rewrite (loop_hang G sc fb k e HG RS RF ER j n r f GV RT SC). reflexivity.
Qed.
Lemma sign_inv : forall chk n sha r f s m c d x, is_sha sha -> bytes m -> noov chk sha (length m) -> gives r f -> bytes s -> (48 <= length s)%nat ->
  let e := msg_int sha m in let k := be_int (firstn 48 s) in
  ecpsp_dsa chk n sha r s m c d = Some x -> exists j, (j < n)%nat /\ (forall i, (i < j)%nat -> dsa_retry e k f i) /\ dsa_succeeds e k f j.
Proof.
  intros chk n sha r f s m c d x S M N GV B LS e k. unfold ecpsp_dsa. destruct (msg_rep chk sha m S M N) as (b & fb & E1 & E2 & RF). destruct (msg_hash chk sha m S M N) as (_ & _ & ER). fold e in RF, ER.
  rewrite E1. cbn [bind]. destruct gen_ok as (G & EG & HG). rewrite EG. cbn [bind]. destruct (proj1 (B_frombytes s B) LS) as (sc & ES & RS). rewrite ES. cbn [bind]. rewrite E2. cbn [bind]. fold k in RS.
  destruct (dsa_loop n G sc fb r) as [y|] eqn:EL; [|discriminate]. intros _. exact (loop_inv G sc fb k e HG RS RF ER n r f y GV EL).
Qed.

(* verification *)
Lemma comp_eq a b u v : rep 7 a u -> rep 7 b v -> (big_comp a b =? 0) = (u =? v).
Proof. intros A B. rewrite (B_comp a b u v (rep_nrep _ _ _ A) (rep_nrep _ _ _ B)). destruct (Z.eqb_spec u v) as [E|E]; [subst v; rewrite Z.sub_diag; reflexivity|]. destruct (Z.eqb_spec (Z.sgn (u - v)) 0) as [C|C]; [|reflexivity]. apply Z.sgn_null_iff in C. lia. Qed.
Lemma range_test cb db c d : rep 7 cb c -> rep 7 db d ->
  (big_iszilch cb || (0 <=? big_comp cb CURVE_ORDER) || big_iszilch db || (0 <=? big_comp db CURVE_ORDER) = false) <-> (1 <= c < r255 /\ 1 <= d < r255).
Proof.
  intros C D. rewrite (comp_le _ _ _ _ C order_rep), (comp_le _ _ _ _ D order_rep). pose proof (B_iszilch _ _ C) as ZC. pose proof (B_iszilch _ _ D) as ZD. pose proof (rep_bound7 _ _ C). pose proof (rep_bound7 _ _ D).
  destruct (big_iszilch cb), (big_iszilch db), (Z.leb_spec r255 c), (Z.leb_spec r255 d); cbn [orb]; split; intros X; try discriminate X; try reflexivity;
    try (assert (c = 0) by (apply ZC; reflexivity); lia); try (assert (d = 0) by (apply ZD; reflexivity); lia); try lia.
Qed.
Lemma inv_unique p d i j a : 1 < p -> (d * i) mod p = 1 -> (d * j) mod p = 1 -> (a * i) mod p = (a * j) mod p.
Proof.
  intros P I J. transitivity ((a * i * ((d * j) mod p)) mod p); [rewrite J, Z.mul_1_r; reflexivity|]. rewrite Zmult_mod_idemp_r.
  transitivity ((a * j * ((d * i) mod p)) mod p); [rewrite Zmult_mod_idemp_r; f_equal; ring|]. rewrite I, Z.mul_1_r. reflexivity.
Qed.
Lemma sub_padd p q : on1 p -> on1 q -> zm1 r255 p = Inf -> zm1 r255 q = Inf -> zm1 r255 (padd1 p q) = Inf.
Proof. intros P Q RP RQ. rewrite zm1_dist by assumption. rewrite RP, RQ. reflexivity. Qed.
Lemma sub_zm v p : on1 p -> zm1 r255 p = Inf -> zm1 r255 (zm1 v p) = Inf.
Proof. intros O R. rewrite <- zm1_mul, Z.mul_comm, zm1_mul, R by exact O. apply zm1_zero. Qed.
Lemma verify_all : forall chk sha w m c d W, is_sha sha -> bytes m -> noov chk sha (length m) -> bytes w -> long_enough w -> bytes c -> bytes d -> (48 <= length c)%nat -> (48 <= length d)%nat ->
  decodes w W -> W <> Inf -> nmul1 (Z.to_nat r255) W = Inf ->
  let valid := dsa_valid (msg_int sha m) (be_int (firstn 48 c)) (be_int (firstn 48 d)) W in
  (valid /\ ecpvp_dsa chk sha w m c d = Some 0) \/ (~ valid /\ ecpvp_dsa chk sha w m c d = Some (-4)).
Proof.
  intros chk sha w m c d W S M N BW LW BC BD LC LD DC NI RW valid. rewrite <- (zm1_nmul r255) in RW by exact r255_nn. pose proof (decodes_on w W DC) as OW. unfold ecpvp_dsa. destruct (msg_rep chk sha m S M N) as (b & fb & E1 & E2 & RF).
  rewrite E1. cbn [bind]. destruct gen_ok as (G & EG & HG). rewrite EG. cbn [bind]. destruct (proj1 (B_frombytes c BC) LC) as (cb & EC & RC). destruct (proj1 (B_frombytes d BD) LD) as (db & ED & RD).
  rewrite EC. cbn [bind]. rewrite ED. cbn [bind]. rewrite E2. cbn [bind]. subst valid. set (e := msg_int sha m) in *. set (cv := be_int (firstn 48 c)) in *. set (dv := be_int (firstn 48 d)) in *. clearbody e cv dv.
  pose proof (range_test cb db cv dv RC RD) as RT. destruct (big_iszilch cb || (0 <=? big_comp cb CURVE_ORDER) || big_iszilch db || (0 <=? big_comp db CURVE_ORDER)).
  { right. split; [|reflexivity]. intros (A & B & _). discriminate (proj2 RT (conj A B)). }
  destruct (proj1 RT eq_refl) as [CR DR]. clear RT.
  destruct (invmodp_spec db CURVE_ORDER dv r255 RD order_rep r255_range r255_odd) as (di & i & EI & RI & IR & II). { apply prime_gcd; [exact r255_prime|]. rewrite Z.mod_small by lia. lia. }
  rewrite EI. cbn [bind]. destruct (B_modmul fb di CURVE_ORDER e i r255 RF RI order_nrep r255_406) as (f1 & EF & RF1). rewrite EF. cbn [bind].
  destruct (B_modmul cb di CURVE_ORDER cv i r255 RC RI order_nrep r255_406) as (h2 & EH & RH). rewrite EH. cbn [bind].
  destruct (frombytes_eq w W BW LW DC) as (a & EA & RA). rewrite EA. cbn [bind]. destruct (inf_eq _ _ _ _ RA ltac:(lia) ltac:(lia)) as (bi & EB & BI). rewrite EB. cbn [bind]. destruct bi; [destruct (NI (proj1 BI eq_refl))|].
  pose proof (rmod255 (e * i)) as U1. pose proof (rmod255 (cv * i)) as U2.
  destruct (ok_ex _ _ (ecp_mul2_ok 2 2 1 2 W G1gen a G h2 f1 _ _ RA HG ltac:(lia) ltac:(lia) ltac:(lia) ltac:(lia) RH RF1 ltac:(pose proof r255_b; lia))) as (P & EP & HP). rewrite EP. cbn [bind]. apply (ecpA_R 1 5) in HP; [|lia|lia].
  unfold lc in HP. rewrite padd1_comm in HP by (apply zm1_on; try exact OW; apply G1gen_on).
  assert (VA : dsa_valid e cv dv W <-> exists x y, padd1 (zm1 ((e * i) mod r255) G1gen) (zm1 ((cv * i) mod r255) W) = Aff x y /\ fv x mod r255 = cv).
  { split.
    - intros (_ & _ & i' & x & y & I' & EQ & X). exists x, y. rewrite (inv_unique r255 dv i i' e), (inv_unique r255 dv i i' cv); [|apply r255_range|exact II|exact I'|apply r255_range|exact II|exact I'].
      rewrite !zm1_nmul by apply rmod255. split; [exact EQ|exact X].
    - intros (x & y & EQ & X). split; [exact CR|]. split; [exact DR|]. exists i, x, y. split; [exact II|]. rewrite !zm1_nmul in EQ by apply rmod255. split; [exact EQ|exact X]. }
  assert (OQ : on1 (padd1 (zm1 ((e * i) mod r255) G1gen) (zm1 ((cv * i) mod r255) W))) by (apply padd1_on; apply zm1_on; [apply G1gen_on|exact OW]).
  assert (SQ : zm1 r255 (padd1 (zm1 ((e * i) mod r255) G1gen) (zm1 ((cv * i) mod r255) W)) = Inf) by (apply sub_padd; [apply zm1_on, G1gen_on|apply zm1_on, OW|apply G_sub|apply sub_zm; assumption]).
  set (Q := padd1 _ _) in HP, VA, OQ, SQ. clearbody Q. destruct (inf_eq _ _ _ _ HP ltac:(lia) ltac:(lia)) as (bq & EQ & BQ). rewrite EQ. cbn [bind]. destruct Q as [|x y].
  { rewrite (proj2 BQ eq_refl). right. split; [|reflexivity]. intros V. apply VA in V. destruct V as (x & y & V & _). discriminate V. }
  destruct bq; [discriminate (proj1 BQ eq_refl)|]. destruct (ok_ex _ _ (getx_ok 1 5 x y P HP ltac:(lia) ltac:(lia))) as ([wx P'] & EX & v & RV & _ & _ & V2). rewrite EX. cbn [bind].
  rewrite (V2 (sub_x x y OQ SQ)) in RV. destruct (B_rmod wx _ CURVE_ORDER r255 RV order_nrep r255_pos) as (xr & EXR & RXR). rewrite EXR. cbn [bind]. rewrite (comp_eq _ _ _ _ RXR RC).
  destruct (Z.eqb_spec (fv x mod r255) cv) as [E|E].
  - left. split; [|reflexivity]. apply VA. exists x, y. split; [reflexivity|exact E].
  - right. split; [|reflexivity]. intros V. apply VA in V. destruct V as (x' & y' & V & X). injection V as Vx Vy. subst x'. contradiction.
Qed.
Lemma verify_inf : forall chk sha w m c d, is_sha sha -> bytes m -> noov chk sha (length m) -> bytes w -> long_enough w -> bytes c -> bytes d -> (48 <= length c)%nat -> (48 <= length d)%nat ->
  decodes w Inf -> 1 <= be_int (firstn 48 c) < r255 -> 1 <= be_int (firstn 48 d) < r255 -> ecpvp_dsa chk sha w m c d = Some (-3).
Proof.
  intros chk sha w m c d S M N BW LW BC BD LC LD DC CR DR. unfold ecpvp_dsa. destruct (msg_rep chk sha m S M N) as (b & fb & E1 & E2 & RF).
  rewrite E1. cbn [bind]. destruct gen_ok as (G & EG & HG). rewrite EG. cbn [bind]. destruct (proj1 (B_frombytes c BC) LC) as (cb & EC & RC). destruct (proj1 (B_frombytes d BD) LD) as (db & ED & RD).
  rewrite EC. cbn [bind]. rewrite ED. cbn [bind]. rewrite E2. cbn [bind]. set (e := msg_int sha m) in *. set (cv := be_int (firstn 48 c)) in *. set (dv := be_int (firstn 48 d)) in *. clearbody e cv dv.
  rewrite (proj2 (range_test cb db cv dv RC RD) (conj CR DR)).
  destruct (invmodp_spec db CURVE_ORDER dv r255 RD order_rep r255_range r255_odd) as (di & i & EI & RI & IR & II). { apply prime_gcd; [exact r255_prime|]. rewrite Z.mod_small by lia. lia. }
  rewrite EI. cbn [bind]. destruct (B_modmul fb di CURVE_ORDER e i r255 RF RI order_nrep r255_406) as (f1 & EF & RF1). rewrite EF. cbn [bind].
  destruct (B_modmul cb di CURVE_ORDER cv i r255 RC RI order_nrep r255_406) as (h2 & EH & RH). rewrite EH. cbn [bind].
  destruct (frombytes_eq w Inf BW LW DC) as (a & EA & RA). rewrite EA. cbn [bind]. destruct (inf_eq _ _ _ _ RA ltac:(lia) ltac:(lia)) as (bi & EB & BI). rewrite EB. cbn [bind]. rewrite (proj2 BI eq_refl). reflexivity.
Qed.

(* signatures verify *)
Lemma ver_alg p e s c d u i : 1 < p -> (d * i) mod p = 1 -> (d * u) mod p = (e + s * c) mod p -> ((e * i) mod p + (c * i) mod p * s) mod p = u mod p.
Proof.
  intros P I D. rewrite Zplus_mod_idemp_l, Zplus_mod, Zmult_mod_idemp_l, <- Zplus_mod. transitivity (((e + s * c) mod p * i) mod p); [rewrite Zmult_mod_idemp_l; f_equal; ring|].
  rewrite <- D, Zmult_mod_idemp_l. transitivity ((u * ((d * i) mod p)) mod p); [rewrite Zmult_mod_idemp_r; f_equal; ring|]. rewrite I, Z.mul_1_r. reflexivity.
Qed.
Lemma sig_valid e s u d : 0 <= u < r255 -> ~ dsa_fails e s u -> dsa_d e s u d -> dsa_valid e (dsa_c u) d (zm1 s G1gen).
Proof.
  intros U NF (DR & DE). assert (CN : dsa_c u <> 0) by (intros C; apply NF; left; exact C). pose proof (dsa_c_range u) as CR.
  destruct (rel_prime_bezout d r255) as [i j E]. { apply Zgcd_1_rel_prime, prime_gcd; [exact r255_prime|]. rewrite Z.mod_small by lia. lia. }
  assert (I : (d * i) mod r255 = 1). { replace (d * i) with (1 + (- j) * r255) by lia. rewrite Z.mod_add by (pose proof r255_pos; lia). apply Z.mod_small. apply r255_range || (pose proof r255_range; lia). }
  split; [lia|]. split; [exact DR|]. pose proof (ver_alg r255 e s (dsa_c u) d u i (proj1 r255_range) I DE) as AL.
  assert (EQ : padd1 (nmul1 (Z.to_nat ((e * i) mod r255)) G1gen) (nmul1 (Z.to_nat ((dsa_c u * i) mod r255)) (zm1 s G1gen)) = zm1 u G1gen).
  { rewrite <- !zm1_nmul by apply rmod255. rewrite <- zm1_mul, <- zm1_add by apply G1gen_on. apply zm1_cong, AL. }
  revert CN EQ. unfold dsa_c at 1 4. rewrite (zm1_nmul u) by lia. destruct (nmul1 (Z.to_nat u) G1gen) as [|x y]; [intros CN; destruct (CN eq_refl)|]. intros _ EQ.
  exists i, x, y. split; [exact I|]. split; [exact EQ|reflexivity].
Qed.
Lemma front48 v t : 0 <= v < r255 -> be_int (firstn 48 (be_bytes 48 v ++ t)) = v.
Proof. apply sk_front. Qed.
Lemma sign_verify : forall chk n sha r f s m c d x c' d' r' w, is_sha sha -> bytes m -> noov chk sha (length m) -> gives r f -> bytes s -> (48 <= length s)%nat ->
  bytes c -> bytes d -> (48 <= length c)%nat -> (48 <= length d)%nat -> be_int (firstn 48 s) mod r255 <> 0 ->
  ecpsp_dsa chk n sha r s m c d = Some (x, c', d', r') ->
  bytes w -> long_enough w -> decodes w (nmul1 (Z.to_nat (be_int (firstn 48 s))) G1gen) -> ecpvp_dsa chk sha w m c' d' = Some 0.
Proof.
  intros chk n sha r f s m c d x c' d' r' w S M N GV B LS BC BD LC LD SN E BW LW DW.
  destruct (sign_inv chk n sha r f s m c d _ S M N GV B LS E) as (j & J & RT & SC).
  destruct (sign_ok chk n sha r f s m c d j S M N GV B LS LC LD RT SC J) as (v & r2 & E2 & DD & _). rewrite E2 in E. set (e := msg_int sha m) in *. 
  pose proof (draw_range f (2 * j)) as UR. destruct SC as [NF _]. set (u := draw f (2 * j)) in *. pose proof (dsa_c_range u) as CR. pose proof DD as (VR & _).
  assert (K0 : 0 <= be_int (firstn 48 s)) by (apply be_int_range, bytes_firstn, B). set (k := be_int (firstn 48 s)) in *.
  rewrite <- (zm1_nmul k) in DW by exact K0. pose proof (sig_valid e k u v UR NF DD) as SV.
  assert (E' : c' = be_bytes 48 (dsa_c u) ++ skipn 48 c /\ d' = be_bytes 48 v ++ skipn 48 d). { clear - E. set (a := be_bytes 48 (dsa_c u) ++ skipn 48 c) in *. set (b := be_bytes 48 v ++ skipn 48 d) in *. clearbody a b. injection E as _ -> -> _. split; reflexivity. }
  destruct E' as [-> ->]. destruct (verify_all chk sha w m (be_bytes 48 (dsa_c u) ++ skipn 48 c) (be_bytes 48 v ++ skipn 48 d) (zm1 k G1gen) S M N BW LW) as [[_ H]|[H _]]; [| | | |exact DW| | |exact H|].
  - apply bytes_app; [apply be_bytes_bytes|apply bytes_skip, BC].
  - apply bytes_app; [apply be_bytes_bytes|apply bytes_skip, BD].
  - rewrite app_length, be_bytes_length. lia.
  - rewrite app_length, be_bytes_length. lia.
  - intros C. rewrite <- (zm1_0 G1gen) in C. apply zm1_inj in C. rewrite Z.mod_0_l in C by (pose proof r255_pos; lia). contradiction.
  - rewrite <- (zm1_nmul r255) by exact r255_nn. apply G_sub.
  - exfalso. apply H. fold e. rewrite !front48 by lia. exact SV.
Qed.

(* the integer of a message is not the one of FIPS 186 *)
Definition c1 : Z := Eval vm_compute in GXZ mod r255.
Lemma dsa_c_1 : dsa_c 1 = c1.
Proof. unfold dsa_c. rewrite <- (zm1_nmul 1) by lia. rewrite zm1_1. unfold G1gen. rewrite fv_mkq. vm_compute. reflexivity. Qed.
Definition abc : list Z := [97; 98; 99].
Definition e1 : Z := Eval vm_compute in be_int (sha256 abc).
Definition s1 : Z := 0x1cb6a461c8784cfc53ab375ddcd6f12872a6a0098d8ec1015742e939c7e6ec84.
Definition d1 : Z := 0x5d3c0b5fc780e7f520a0a06f2ed71111d801b0d1cb0bbd4e5a087fb0f9000ad7.
Lemma msg_abc : msg_int 32 abc = e1. Proof. vm_compute. reflexivity. Qed.
Lemma fips_abc : fips_int 32 abc = e1 / 2. Proof. vm_compute. reflexivity. Qed.
Lemma abc_sig : dsa_d e1 s1 1 d1 /\ ~ dsa_fails e1 s1 1 /\ (e1 / 2 + s1 * c1) mod r255 = 0 /\ 0 < s1 < r255 /\ 1 <= c1 < r255 /\ 1 <= d1 < r255.
Proof.
  unfold dsa_d, dsa_fails. rewrite dsa_c_1. split; [split; [split; [vm_compute; discriminate|vm_compute; reflexivity]|vm_compute; reflexivity]|].
  split; [intros [C|C]; [vm_compute in C; discriminate C|vm_compute in C; discriminate C]|]. split; [vm_compute; reflexivity|]. split; [split; vm_compute; reflexivity|]. split; (split; [vm_compute; discriminate|vm_compute; reflexivity]).
Qed.
Lemma fips_invalid p e s c : 1 < p -> (e + s * c) mod p = 0 -> forall i, ((e * i) mod p + (c * i) mod p * s) mod p = 0.
Proof.
  intros P H i. rewrite Zplus_mod_idemp_l, Zplus_mod, Zmult_mod_idemp_l, <- Zplus_mod. transitivity (((e + s * c) mod p * i) mod p); [rewrite Zmult_mod_idemp_l; f_equal; ring|].
  rewrite H. apply Z.mod_0_l. lia.
Qed.
Lemma fips_refuted : exists w m c d W, bytes w /\ long_enough w /\ bytes m /\ bytes c /\ bytes d /\ length c = 48%nat /\ length d = 48%nat /\
  decodes w W /\ W <> Inf /\ nmul1 (Z.to_nat r255) W = Inf /\
  ecpvp_dsa true 32 w m c d = Some 0 /\ ~ dsa_valid (fips_int 32 m) (be_int c) (be_int d) W.
Proof.
  destruct abc_sig as (DD & NF & FE & SR & CR & DR). pose proof (sig_valid e1 s1 1 d1 ltac:(pose proof r255_range; lia) NF DD) as SV. rewrite dsa_c_1 in SV.
  set (W := zm1 s1 G1gen) in *. assert (OW : on1 W) by (apply zm1_on, G1gen_on). destruct (enc_decodes' W OW) as (BW & LW & DW). assert (NW : W <> Inf) by (apply G_nz; exact SR). assert (RW : zm1 r255 W = Inf) by apply G_sub.
  assert (MB : bytes abc) by (repeat (constructor; [lia|]); constructor). assert (RW' : nmul1 (Z.to_nat r255) W = Inf) by (rewrite <- (zm1_nmul r255) by exact r255_nn; exact RW).
  assert (F48 : forall v, 0 <= v < r255 -> be_int (firstn 48 (be_bytes 48 v)) = v /\ be_int (be_bytes 48 v) = v). { intros v V. rewrite <- (app_nil_r (be_bytes 48 v)) at 1. rewrite front48 by exact V. split; [reflexivity|]. apply be_int_48. pose proof r255_b. lia. }
  exists (enc_pt W), abc, (be_bytes 48 c1), (be_bytes 48 d1), W. split; [exact BW|]. split; [exact LW|]. split; [exact MB|]. split; [apply be_bytes_bytes|]. split; [apply be_bytes_bytes|]. split; [apply be_bytes_length|]. split; [apply be_bytes_length|].
  split; [exact DW|]. split; [exact NW|]. split; [exact RW'|]. split.
  - destruct (verify_all true 32 (enc_pt W) abc (be_bytes 48 c1) (be_bytes 48 d1) W (or_introl eq_refl) MB) as [[_ H]|[H _]]; [right; left; split; [reflexivity|cbn; lia]|exact BW|exact LW|apply be_bytes_bytes|apply be_bytes_bytes|rewrite be_bytes_length; lia|rewrite be_bytes_length; lia|exact DW|exact NW|exact RW'|exact H|].
    exfalso. apply H. rewrite msg_abc, (proj1 (F48 c1 ltac:(lia))), (proj1 (F48 d1 ltac:(lia))). exact SV.
  - rewrite (proj2 (F48 c1 ltac:(lia))), (proj2 (F48 d1 ltac:(lia))), fips_abc. intros (_ & _ & i & x & y & _ & EQ & _).
    rewrite <- !zm1_nmul in EQ by apply rmod255. unfold W in EQ. rewrite <- zm1_mul, <- zm1_add in EQ by apply G1gen_on.
    rewrite (zm1_cong _ 0) in EQ; [rewrite zm1_0 in EQ; discriminate EQ|]. rewrite (fips_invalid r255 (e1 / 2) s1 c1 (proj1 r255_range) FE i). reflexivity.
Qed.
