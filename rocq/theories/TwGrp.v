(* The points of the twist as a finite abelian group with at most 2 q^2 + 1 elements. *)
From Coq Require Import ZArith List Bool Lia Eqdep_dec.
From Verif Require Import NumT FieldQ FieldQ2 SpecCurve CurveP GroupP EcpP Ecp2P Ecp2C MapP FinGrp PsiP.
Import ListNotations.
Open Scope Z_scope.

Definition on2b (p : pt2) : bool := match p with Inf => true | Aff x y => if Fq2_dec (gmul y y) (gadd (gmul (gmul x x) x) gb) then true else false end.
Lemma on2b_ok p : on2b p = true <-> on2 p.
Proof.
  destruct p as [|x y]; cbn [on2b]; [split; [intros; exact I|reflexivity]|].
  destruct (Fq2_dec (gmul y y) (gadd (gmul (gmul x x) x) gb)) as [H|H]; split; intros K; try exact H; try reflexivity; try discriminate; try contradiction.
Qed.
Definition TP : Type := {p : pt2 | on2b p = true}.
Definition tp (a : TP) : pt2 := proj1_sig a.
Lemma tp_on a : on2 (tp a). Proof. apply on2b_ok. exact (proj2_sig a). Qed.
Lemma tp_ext a b : tp a = tp b -> a = b.
Proof. destruct a as [p P], b as [q Q]. unfold tp. cbn. intros <-. f_equal. apply UIP_dec. apply bool_dec. Qed.
Definition mk (p : pt2) (H : on2 p) : TP := exist _ p (proj2 (on2b_ok p) H).
Lemma tp_mk p H : tp (mk p H) = p. Proof. reflexivity. Qed.
Definition tz : TP := mk Inf I.
Definition tadd (a b : TP) : TP := mk (padd2 (tp a) (tp b)) (padd2_on _ _ (tp_on a) (tp_on b)).
Definition tneg (a : TP) : TP := mk (pneg2 (tp a)) (pneg2_on _ (tp_on a)).
Lemma tp_add a b : tp (tadd a b) = padd2 (tp a) (tp b). Proof. reflexivity. Qed.
Lemma tp_neg a : tp (tneg a) = pneg2 (tp a). Proof. reflexivity. Qed.
Lemma tp_z : tp tz = Inf. Proof. reflexivity. Qed.
Lemma pt2_dec (p q : pt2) : {p = q} + {p <> q}.
Proof. destruct p as [|x y], q as [|x' y']; try (right; discriminate); [left; reflexivity|].
  destruct (Fq2_dec x x') as [->|H]; [|right; intros E; apply H; congruence].
  destruct (Fq2_dec y y') as [->|H]; [left; reflexivity|right; intros E; apply H; congruence].
Qed.
Lemma teqd (a b : TP) : {a = b} + {a <> b}.
Proof. destruct (pt2_dec (tp a) (tp b)) as [H|H]; [left; apply tp_ext; exact H|right; intros ->; apply H; reflexivity]. Qed.
Lemma taddC a b : tadd a b = tadd b a.
Proof. apply tp_ext. rewrite !tp_add. apply padd2_comm; apply tp_on. Qed.
Lemma taddA a b c : tadd a (tadd b c) = tadd (tadd a b) c.
Proof. apply tp_ext. rewrite !tp_add. symmetry. apply padd2_assoc; apply tp_on. Qed.
Lemma tadd0 a : tadd tz a = a. Proof. apply tp_ext. rewrite tp_add. apply padd2_0l. Qed.
Lemma taddN a : tadd a (tneg a) = tz. Proof. apply tp_ext. rewrite tp_add, tp_neg. apply padd2_neg, tp_on. Qed.
Definition tsm : Z -> TP -> TP := sm TP tz tadd tneg.
Lemma tsm_succ k a : tsm (k + 1) a = tadd a (tsm k a).
Proof. exact (sm_succ TP tz tadd tneg taddC taddA tadd0 taddN k a). Qed.
Lemma tp_sm k a : tp (tsm k a) = zm2 k (tp a).
Proof.
  revert k. apply Z_bi.
  - reflexivity.
  - intros k IH. rewrite tsm_succ, tp_add, IH. rewrite (zm2_add k 1 _ (tp_on a)), zm2_1. apply padd2_comm; [apply tp_on|apply zm2_on, tp_on].
  - intros k IH. unfold tsm. rewrite (sm_pred TP tz tadd tneg taddC taddA tadd0 taddN). fold tsm. rewrite tp_add, tp_neg, IH.
    change (k - 1) with (k + - (1)). rewrite (zm2_add k (- (1)) _ (tp_on a)), (zm2_opp 1 _ (tp_on a)), zm2_1.
    apply padd2_comm; [apply pneg2_on, tp_on|apply zm2_on, tp_on].
Qed.
Definition tpsi (a : TP) : TP := mk (psi (tp a)) (psi2_on _ (tp_on a)).
Lemma tp_psi a : tp (tpsi a) = psi (tp a). Proof. reflexivity. Qed.
Lemma tpsi_add a b : tpsi (tadd a b) = tadd (tpsi a) (tpsi b).
Proof. apply tp_ext. rewrite tp_psi, !tp_add, !tp_psi. apply psi2_add; apply tp_on. Qed.

(* all the points *)
Definition F1 : list Fq := map mkq (zr q381).
Lemma F1_in x : In x F1.
Proof. apply in_map_iff. exists (fv x). split; [apply mkq_fv|]. apply zr_in. apply fv_range. Qed.
Lemma F1_len : Z.of_nat (length F1) = q381.
Proof. unfold F1. rewrite map_length. apply zr_len. pose proof q381_pos. lia. Qed.
Definition F2 : list Fq2 := list_prod F1 F1.
Lemma F2_in x : In x F2. Proof. destruct x as [a b]. apply in_prod; apply F1_in. Qed.
Lemma F2_len : Z.of_nat (length F2) = q381 * q381.
Proof. unfold F2, Fq2. rewrite prod_length, Nat2Z.inj_mul, F1_len. reflexivity. Qed.
Definition mkA (p : pt2) : TP := match bool_dec (on2b p) true with left H => exist _ p H | right _ => tz end.
Lemma mkA_tp a : mkA (tp a) = a.
Proof. apply tp_ext. unfold mkA. destruct (bool_dec (on2b (tp a)) true) as [H|H]; [reflexivity|]. exfalso. apply H. exact (proj2_sig a). Qed.
Definition TL : list TP := nodup teqd (tz :: map mkA (map (fun p => Aff (fst p) (snd p)) (list_prod F2 F2))).
Lemma TL_nd : NoDup TL. Proof. apply NoDup_nodup. Qed.
Lemma TL_in a : In a TL.
Proof.
  apply nodup_In. destruct (tp a) as [|x y] eqn:H.
  - left. apply tp_ext. rewrite H. reflexivity.
  - right. apply in_map_iff. exists (tp a). split; [apply mkA_tp|]. apply in_map_iff. exists (x, y). split; [symmetry; exact H|]. apply in_prod; apply F2_in.
Qed.

Definition half (x : Fq) : bool := 2 * fv x <? q381.
Definition sgn (y : Fq2) : bool := if Fq_dec (snd y) f0 then half (fst y) else half (snd y).
Lemma half_opp x : x <> f0 -> half (fopp x) = negb (half x).
Proof.
  intros X. unfold half. rewrite (fv_fopp x X). pose proof q381_oddb as O. rewrite <- Z.negb_even in O. apply negb_true_iff in O.
  destruct (Z.ltb_spec (2 * fv x) q381), (Z.ltb_spec (2 * (q381 - fv x)) q381); cbn [negb]; try reflexivity; try lia.
  exfalso. assert (E : q381 = 2 * fv x) by lia. rewrite E, Z.even_mul in O. cbn in O. discriminate.
Qed.
Lemma sgn_opp y : y <> g0 -> sgn (gopp y) = negb (sgn y).
Proof.
  intros Y. destruct y as [a b]. unfold sgn, gopp. cbn [fst snd]. destruct (Fq_dec b f0) as [B|B].
  - destruct (Fq_dec (fopp b) f0) as [_|C]; [|exfalso; apply C; rewrite B; ring]. apply half_opp. intros A. apply Y. rewrite A, B. reflexivity.
  - destruct (Fq_dec (fopp b) f0) as [C|_]; [exfalso; apply B; apply fopp_eq0; exact C|]. apply half_opp. exact B.
Qed.
Definition code (a : TP) : option (Fq2 * bool) := match tp a with Inf => None | Aff x y => Some (x, sgn y) end.
Lemma code_inj a b : code a = code b -> a = b.
Proof.
  intros H. apply tp_ext. unfold code in H. pose proof (tp_on a) as OA. pose proof (tp_on b) as OB.
  destruct (tp a) as [|x y], (tp b) as [|x' y']; try discriminate; [reflexivity|].
  assert (X : x = x') by congruence. assert (S : sgn y = sgn y') by congruence. subst x'. apply (f_equal2 (@Aff Fq2)); [reflexivity|].
  destruct (on2_two x y y' OA OB) as [E|E]; [symmetry; exact E|]. exfalso. rewrite E in S.
  rewrite (sgn_opp y (on2_y x y OA)) in S. destruct (sgn y); discriminate.
Qed.
Definition tord : Z := ord TP TL.
Lemma tord_le : tord <= 2 * (q381 * q381) + 1.
Proof.
  unfold tord, ord. set (K := None :: map Some (list_prod F2 [true; false])).
  assert (KL : Z.of_nat (length K) = 2 * (q381 * q381) + 1).
  { unfold K. cbn [length]. rewrite map_length, prod_length, Nat2Z.inj_succ, Nat2Z.inj_mul, F2_len. cbn [length]. lia. }
  rewrite <- KL. apply inj_le. rewrite <- (map_length code TL). apply NoDup_incl_length.
  - apply FinFun.Injective_map_NoDup; [|exact TL_nd]. intros a b. apply code_inj.
  - intros o O. apply in_map_iff in O. destruct O as (a & <- & _). unfold code, K. destruct (tp a) as [|x y]; [left; reflexivity|].
    right. apply in_map. apply in_prod; [apply F2_in|]. destruct (sgn y); cbn; auto.
Qed.
Lemma tord_pos : 1 <= tord.
Proof. unfold tord, ord. pose proof (TL_in tz) as H. destruct TL; [destruct H|cbn [length]; lia]. Qed.
Lemma tord_kills a : tsm tord a = tz.
Proof. exact (ord_kills TP tz tadd tneg taddC taddA tadd0 taddN TL TL_nd TL_in a). Qed.
Lemma tord_prime l a : Znumtheory.prime l -> a <> tz -> tsm l a = tz -> (l | tord).
Proof. exact (ord_prime TP teqd tz tadd tneg taddC taddA tadd0 taddN TL TL_nd TL_in l a). Qed.
Lemma tord_prime2 l a b : Znumtheory.prime l -> a <> tz -> tsm l a = tz -> tsm l b = tz -> (forall i, 0 <= i < l -> b <> tsm i a) -> (l * l | tord).
Proof. exact (ord_prime2 TP teqd tz tadd tneg taddC taddA tadd0 taddN TL TL_nd TL_in l a b). Qed.
