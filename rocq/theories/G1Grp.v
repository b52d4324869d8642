(* The points of y^2 = x^3 + 4 over F_q as a finite abelian group with at most 2 q + 1 elements; the
   points killed by r are the multiples of the generator. *)
From Coq Require Import ZArith List Bool Lia Eqdep_dec Znumtheory.
From Verif Require Import NumT FieldQ FieldQ2 SpecCurve CurveP GroupP EcpP EcpC GenP FinGrp TwGrp.
Import ListNotations.
Open Scope Z_scope.

Definition on1b (p : pt1) : bool := match p with Inf => true | Aff x y => if Fq_dec (fmul y y) (fadd (fmul (fmul x x) x) fb) then true else false end.
Lemma on1b_ok p : on1b p = true <-> on1 p.
Proof.
  destruct p as [|x y]; cbn [on1b]; [split; [intros; exact I|reflexivity]|].
  destruct (Fq_dec (fmul y y) (fadd (fmul (fmul x x) x) fb)) as [H|H]; split; intros K; try exact H; try reflexivity; try discriminate; try contradiction.
Qed.
Definition EP : Type := {p : pt1 | on1b p = true}.
Definition ep (a : EP) : pt1 := proj1_sig a.
Lemma ep_on a : on1 (ep a). Proof. apply on1b_ok. exact (proj2_sig a). Qed.
Lemma ep_ext a b : ep a = ep b -> a = b.
Proof. destruct a as [p P], b as [q Q]. unfold ep. cbn. intros <-. f_equal. apply UIP_dec. apply bool_dec. Qed.
Definition emk (p : pt1) (H : on1 p) : EP := exist _ p (proj2 (on1b_ok p) H).
Lemma ep_mk p H : ep (emk p H) = p. Proof. reflexivity. Qed.
Definition ez : EP := emk Inf I.
Definition eadd (a b : EP) : EP := emk (padd1 (ep a) (ep b)) (padd1_on _ _ (ep_on a) (ep_on b)).
Definition eneg (a : EP) : EP := emk (pneg1 (ep a)) (pneg1_on _ (ep_on a)).
Lemma ep_add a b : ep (eadd a b) = padd1 (ep a) (ep b). Proof. reflexivity. Qed.
Lemma ep_neg a : ep (eneg a) = pneg1 (ep a). Proof. reflexivity. Qed.
Lemma ep_z : ep ez = Inf. Proof. reflexivity. Qed.
Lemma pt1_dec (p q : pt1) : {p = q} + {p <> q}.
Proof. destruct p as [|x y], q as [|x' y']; try (right; discriminate); [left; reflexivity|].
  destruct (Fq_dec x x') as [->|H]; [|right; intros E; apply H; congruence].
  destruct (Fq_dec y y') as [->|H]; [left; reflexivity|right; intros E; apply H; congruence].
Qed.
Lemma eeqd (a b : EP) : {a = b} + {a <> b}.
Proof. destruct (pt1_dec (ep a) (ep b)) as [H|H]; [left; apply ep_ext; exact H|right; intros ->; apply H; reflexivity]. Qed.
Lemma eaddC a b : eadd a b = eadd b a.
Proof. apply ep_ext. rewrite !ep_add. apply padd1_comm; apply ep_on. Qed.
Lemma eaddA a b c : eadd a (eadd b c) = eadd (eadd a b) c.
Proof. apply ep_ext. rewrite !ep_add. symmetry. apply padd1_assoc; apply ep_on. Qed.
Lemma eadd0 a : eadd ez a = a. Proof. apply ep_ext. rewrite ep_add. apply padd1_0l. Qed.
Lemma eaddN a : eadd a (eneg a) = ez. Proof. apply ep_ext. rewrite ep_add, ep_neg. apply padd1_neg, ep_on. Qed.
Definition esm : Z -> EP -> EP := sm EP ez eadd eneg.
Lemma esm_succ k a : esm (k + 1) a = eadd a (esm k a).
Proof. exact (sm_succ EP ez eadd eneg eaddC eaddA eadd0 eaddN k a). Qed.
Lemma ep_sm k a : ep (esm k a) = zm1 k (ep a).
Proof.
  revert k. apply Z_bi.
  - reflexivity.
  - intros k IH. rewrite esm_succ, ep_add, IH. rewrite (zm1_add k 1 _ (ep_on a)), zm1_1. apply padd1_comm; [apply ep_on|apply zm1_on, ep_on].
  - intros k IH. unfold esm. rewrite (sm_pred EP ez eadd eneg eaddC eaddA eadd0 eaddN). fold esm. rewrite ep_add, ep_neg, IH.
    change (k - 1) with (k + - (1)). rewrite (zm1_add k (- (1)) _ (ep_on a)), (zm1_opp 1 _ (ep_on a)), zm1_1.
    apply padd1_comm; [apply pneg1_on, ep_on|apply zm1_on, ep_on].
Qed.

(* all the points *)
Definition emkA (p : pt1) : EP := match bool_dec (on1b p) true with left H => exist _ p H | right _ => ez end.
Lemma emkA_ep a : emkA (ep a) = a.
Proof. apply ep_ext. unfold emkA. destruct (bool_dec (on1b (ep a)) true) as [H|H]; [reflexivity|]. exfalso. apply H. exact (proj2_sig a). Qed.
Definition EL : list EP := nodup eeqd (ez :: map emkA (map (fun p => Aff (fst p) (snd p)) (list_prod F1 F1))).
Lemma EL_nd : NoDup EL. Proof. apply NoDup_nodup. Qed.
Lemma EL_in a : In a EL.
Proof.
  apply nodup_In. destruct (ep a) as [|x y] eqn:H.
  - left. apply ep_ext. rewrite H. reflexivity.
  - right. apply in_map_iff. exists (ep a). split; [apply emkA_ep|]. apply in_map_iff. exists (x, y). split; [symmetry; exact H|]. apply in_prod; apply F1_in.
Qed.
Definition ecode (a : EP) : option (Fq * bool) := match ep a with Inf => None | Aff x y => Some (x, half y) end.
Lemma ecode_inj a b : ecode a = ecode b -> a = b.
Proof.
  intros H. apply ep_ext. unfold ecode in H. pose proof (ep_on a) as OA. pose proof (ep_on b) as OB.
  destruct (ep a) as [|x y], (ep b) as [|x' y']; try discriminate; [reflexivity|].
  assert (X : x = x') by congruence. assert (S : half y = half y') by congruence. subst x'. apply (f_equal2 (@Aff Fq)); [reflexivity|].
  destruct (on1_two x y y' OA OB) as [E|E]; [symmetry; exact E|]. exfalso. rewrite E in S.
  rewrite (half_opp y (on1_y x y OA)) in S. destruct (half y); discriminate.
Qed.
Definition eord : Z := ord EP EL.
Lemma eord_le : eord <= 2 * q381 + 1.
Proof.
  unfold eord, ord. set (K := None :: map Some (list_prod F1 [true; false])).
  assert (KL : Z.of_nat (length K) = 2 * q381 + 1).
  { unfold K. cbn [length]. rewrite map_length, prod_length, Nat2Z.inj_succ, Nat2Z.inj_mul, F1_len. cbn [length]. lia. }
  rewrite <- KL. apply inj_le. rewrite <- (map_length ecode EL). apply NoDup_incl_length.
  - apply FinFun.Injective_map_NoDup; [|exact EL_nd]. intros a b. apply ecode_inj.
  - intros o O. apply in_map_iff in O. destruct O as (a & <- & _). unfold ecode, K. destruct (ep a) as [|x y]; [left; reflexivity|].
    right. apply in_map. apply in_prod; [apply F1_in|]. destruct (half y); cbn; auto.
Qed.
Lemma eord_pos : 1 <= eord.
Proof. unfold eord, ord. pose proof (EL_in ez) as H. destruct EL; [destruct H|cbn [length]; lia]. Qed.
Lemma eord_kills a : esm eord a = ez.
Proof. exact (ord_kills EP ez eadd eneg eaddC eaddA eadd0 eaddN EL EL_nd EL_in a). Qed.
Lemma eord_prime l a : Znumtheory.prime l -> a <> ez -> esm l a = ez -> (l | eord).
Proof. exact (ord_prime EP eeqd ez eadd eneg eaddC eaddA eadd0 eaddN EL EL_nd EL_in l a). Qed.
Lemma eord_prime2 l a b : Znumtheory.prime l -> a <> ez -> esm l a = ez -> esm l b = ez -> (forall i, 0 <= i < l -> b <> esm i a) -> (l * l | eord).
Proof. exact (ord_prime2 EP eeqd ez eadd eneg eaddC eaddA eadd0 eaddN EL EL_nd EL_in l a b). Qed.

(* the same about the curve's points *)
Lemma ord_kills1 P : on1 P -> zm1 eord P = Inf.
Proof. intros O. pose proof (eord_kills (emk P O)) as H. apply (f_equal ep) in H. rewrite ep_sm in H. exact H. Qed.
Lemma ord_prime1 l P : prime l -> on1 P -> P <> Inf -> zm1 l P = Inf -> (l | eord).
Proof.
  intros PL O N H. apply (eord_prime l (emk P O) PL).
  - intros E. apply N. apply (f_equal ep) in E. exact E.
  - apply ep_ext. rewrite ep_sm. exact H.
Qed.
Lemma ord_prime21 l P R : prime l -> on1 P -> on1 R -> P <> Inf -> zm1 l P = Inf -> zm1 l R = Inf ->
  (forall i, 0 <= i < l -> R <> zm1 i P) -> (l * l | eord).
Proof.
  intros PL OP OR N HP HR I. apply (eord_prime2 l (emk P OP) (emk R OR) PL).
  - intros E. apply N. apply (f_equal ep) in E. exact E.
  - apply ep_ext. rewrite ep_sm. exact HP.
  - apply ep_ext. rewrite ep_sm. exact HR.
  - intros i Hi E. apply (I i Hi). apply (f_equal ep) in E. rewrite ep_sm in E. exact E.
Qed.

(* the r-torsion is cyclic: r^2 is more than the number of points *)
Lemma rr_big : 2 * q381 + 1 < r255 * r255. Proof. Transparent q381. vm_compute. reflexivity. Qed.
Global Opaque q381.
Lemma search_mult (P R : pt1) : forall n, (exists i, 0 <= i < Z.of_nat n /\ R = zm1 i P) \/ (forall i, 0 <= i < Z.of_nat n -> R <> zm1 i P).
Proof.
  induction n as [|n IH].
  - right. intros i Hi. lia.
  - destruct IH as [(i & Hi & E)|IH]; [left; exists i; split; [lia|exact E]|].
    destruct (pt1_dec R (zm1 (Z.of_nat n) P)) as [E|E]; [left; exists (Z.of_nat n); split; [lia|exact E]|].
    right. intros i Hi. destruct (Z.eq_dec i (Z.of_nat n)) as [->|]; [exact E|apply IH; lia].
Qed.
Theorem r_torsion P : on1 P -> zm1 r255 P = Inf -> exists k, 0 <= k < r255 /\ P = zm1 k G1gen.
Proof.
  intros O K. pose proof r255_prime as PR. pose proof (prime_ge_2 _ PR) as R2. pose proof rr_big as RB. pose proof G1gen_order as GO.
  revert K PR R2 RB GO. generalize r255. intros r K PR R2 RB GO.
  destruct (search_mult G1gen P (Z.to_nat r)) as [(i & Hi & E)|N]; rewrite Z2Nat.id in * by lia; [exists i; split; assumption|].
  exfalso. pose proof (ord_prime21 r G1gen P PR G1gen_on O ltac:(discriminate) GO K N) as D.
  apply Z.divide_pos_le in D; [|pose proof eord_pos; lia]. pose proof eord_le. lia.
Qed.
