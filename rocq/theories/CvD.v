(* The field and points of the curve y^2 = x^3 + 4 in base-256 digits: additions and
   doublings checked from given slopes. *)
From Coq Require Import ZArith List Bool Lia Field.
From Verif Require Import Dig PowD NumT FieldQ FieldQ2 SpecCurve CurveP GroupP EcpP.
Import ListNotations.
Open Scope Z_scope.

Definition qd : num := Eval vm_compute in ofZ 48 0x1a0111ea397fe69a4b1ba7b6434bacd764774b84f38512bf6730d2a0f6b0f6241eabfffeb153ffffb9feffffffffaaab.
Lemma qd_val : nval qd = q381. Proof. Transparent q381. vm_cast_no_check (eq_refl q381). Qed.
#[global] Opaque q381.
(* a = b + k q or a + k q = b *)
Definition eqk (k : bool * num) (a b : num) : bool := let (s, k') := k in if s then eqn a (mula k' qd b) else eqn (mula k' qd a) b.
Lemma mkq_q k a : mkq (k * q381 + a) = mkq a.
Proof. rewrite Z.add_comm. apply mkq_add_q. Qed.
Lemma eqk_ok k a b : eqk k a b = true -> mkq (nval a) = mkq (nval b).
Proof.
  destruct k as [s k]. unfold eqk. destruct s; intros H; apply eqn_ok in H; rewrite mula_ok, qd_val in H.
  - rewrite H. apply mkq_q. 
  - rewrite <- H. symmetry. apply mkq_q.
Qed.
(* d = a - b, modulo q *)
Definition dif1 (d a b : num) : bool := if eqn (add d b) a then true else eqn (add d b) (add a qd).
Lemma dif1_ok d a b : dif1 d a b = true -> fadd (mkq (nval d)) (mkq (nval b)) = mkq (nval a).
Proof.
  unfold dif1. intros H. rewrite <- mkq_add. destruct (eqn (add d b) a) eqn:X.
  - apply eqn_ok in X. rewrite add_ok in X. rewrite X. reflexivity.
  - apply eqn_ok in H. rewrite !add_ok, qd_val in H. rewrite H. rewrite <- (Z.mul_1_l q381). apply mkq_add_q.
Qed.
Lemma mkq_small a b : a < q381 -> b < q381 -> 0 <= a -> 0 <= b -> mkq a = mkq b -> a = b.
Proof. intros A B A0 B0 H. apply mkq_inj in H. rewrite !Z.mod_small in H by lia. exact H. Qed.
Lemma ltn_q a : ltn a qd = true -> nval a < q381.
Proof. intros H. apply ltn_ok in H. rewrite qd_val in H. exact H. Qed.
Lemma fopp_q a b : nval a + nval b = q381 -> mkq (nval b) = fopp (mkq (nval a)).
Proof. intros H. replace (nval b) with (- nval a + 1 * q381) by lia. rewrite mkq_add_q, mkq_opp. reflexivity. Qed.
Definition qZ : Z := 0x1a0111ea397fe69a4b1ba7b6434bacd764774b84f38512bf6730d2a0f6b0f6241eabfffeb153ffffb9feffffffffaaab.
Definition quo (a b : Z) : bool * num := let d := (a - b) / qZ in if d <? 0 then (false, ofZt 140 (- d)) else (true, ofZt 140 d).

Definition cpt : Set := (num * num)%type.
Definition w1 (a : num) : Fq := mkq (nval a).
Definition wp (p : cpt) : pt1 := Aff (w1 (fst p)) (w1 (snd p)).
(* l d + a = b *)
Definition mul1 (k : bool * num) (l d a b : num) : bool := eqk k (add (mul l d) a) b.
Lemma mul1_ok k l d a b : mul1 k l d a b = true -> fadd (fmul (w1 l) (w1 d)) (w1 a) = w1 b.
Proof. unfold mul1, w1. intros H. apply eqk_ok in H. rewrite add_ok, mul_ok, mkq_add, mkq_mul in H. exact H. Qed.
Lemma w1_add a b : w1 (add a b) = fadd (w1 a) (w1 b). Proof. unfold w1. rewrite add_ok, mkq_add. reflexivity. Qed.
Lemma w1_mul a b : w1 (mul a b) = fmul (w1 a) (w1 b). Proof. unfold w1. rewrite mul_ok, mkq_mul. reflexivity. Qed.
Lemma w1_E : w1 E = f0. Proof. reflexivity. Qed.
Lemma ne1_ok a b : ltn a qd = true -> ltn b qd = true -> neqn a b = true -> w1 a <> w1 b.
Proof.
  intros A B N H. apply ltn_q in A. apply ltn_q in B. apply neqn_ok in N. apply N. apply (mkq_small _ _ A B (nval_nn _) (nval_nn _)). exact H.
Qed.
(* slope, differences of abscissae, result, quotients *)
Record cert1 : Set := Cert1 { c1_l : num; c1_d : num; c1_e : num; c1_p : cpt; c1_k1 : bool * num; c1_k2 : bool * num; c1_k3 : bool * num }.
Definition tail1 (l x1 x2 y1 e : num) (p : cpt) k2 k3 : bool :=
  let (x3, y3) := p in
  ltn x3 qd && mul1 k2 l l E (add x3 (add x1 x2)) && dif1 e x1 x3 && mul1 k3 l e E (add y1 y3).
Definition addk1 (p1 p2 : cpt) (c : cert1) : bool :=
  let (x1, y1) := p1 in let (x2, y2) := p2 in
  neqn x1 x2 && dif1 (c1_d c) x2 x1 && mul1 (c1_k1 c) (c1_l c) (c1_d c) y1 y2 && tail1 (c1_l c) x1 x2 y1 (c1_e c) (c1_p c) (c1_k2 c) (c1_k3 c).
Definition dblk1 (p1 : cpt) (c : cert1) : bool :=
  let (x1, y1) := p1 in let s := mul x1 x1 in
  mul1 (c1_k1 c) (c1_l c) (add y1 y1) E (add s (add s s)) && tail1 (c1_l c) x1 x1 y1 (c1_e c) (c1_p c) (c1_k2 c) (c1_k3 c).

Lemma tail1_ok l x1 x2 y1 e p k2 k3 : tail1 l x1 x2 y1 e p k2 k3 = true ->
  line_sum Fq fmul fsub (w1 l) (w1 x1) (w1 y1) (w1 x2) = wp p /\ ltn (fst p) qd = true.
Proof.
  destruct p as [x3 y3]. unfold tail1. intros H. apply andb_true_iff in H. destruct H as [H H5]. apply andb_true_iff in H. destruct H as [H H4].
  apply andb_true_iff in H. destruct H as [H1 H3]. cbn [fst snd].
  split; [|assumption]. apply mul1_ok in H3. apply mul1_ok in H5. apply dif1_ok in H4. rewrite w1_E in H3, H5. rewrite !w1_add in H3. rewrite w1_add in H5.
  fold (w1 e) (w1 x3) (w1 x1) in H4. unfold line_sum, wp. cbn [fst snd].
  assert (E3 : fsub (fsub (fmul (w1 l) (w1 l)) (w1 x1)) (w1 x2) = w1 x3).
  { transitivity (fsub (fsub (fadd (fmul (w1 l) (w1 l)) f0) (w1 x1)) (w1 x2)); [ring|]. rewrite H3. ring. }
  rewrite E3. apply (f_equal2 (@Aff Fq)); [reflexivity|].
  assert (EE : w1 e = fsub (w1 x1) (w1 x3)) by (rewrite <- H4; ring). rewrite <- EE.
  transitivity (fsub (fadd (fmul (w1 l) (w1 e)) f0) (w1 y1)); [ring|]. rewrite H5. ring.
Qed.
Lemma y1_nz x y : on1 (Aff x y) -> y <> f0.
Proof. intros H ->. cbn [on_curve] in H. apply (fb_noroot x). rewrite <- H. ring. Qed.
Lemma slope1 l n d : d <> f0 -> fmul l d = n -> l = fdiv n d.
Proof. intros D <-. field. exact D. Qed.
Lemma fsub_nz' a b : a <> b -> fsub b a <> f0.
Proof. intros N H. apply N. transitivity (fsub b (fsub b a)); [ring|]. rewrite H. ring. Qed.
Lemma fadd_move a b c : fadd a b = c -> a = fsub c b.
Proof. intros <-. ring. Qed.
Lemma addk1_ok p1 p2 c : ltn (fst p1) qd = true -> ltn (fst p2) qd = true -> addk1 p1 p2 c = true ->
  padd1 (wp p1) (wp p2) = wp (c1_p c) /\ ltn (fst (c1_p c)) qd = true.
Proof.
  destruct p1 as [x1 y1], p2 as [x2 y2]. cbn [fst snd]. unfold addk1. intros R1 R2 H.
  apply andb_true_iff in H. destruct H as [H T]. apply andb_true_iff in H. destruct H as [H M]. apply andb_true_iff in H. destruct H as [N D].
  apply tail1_ok in T. destruct T as (T & T1). split; [|assumption].
  apply (ne1_ok _ _ R1 R2) in N. apply dif1_ok in D. fold (w1 (c1_d c)) (w1 x1) (w1 x2) in D. apply mul1_ok in M. rewrite <- T. unfold wp. cbn [fst snd padd].
  destruct (Fq_dec (w1 x1) (w1 x2)) as [X|_]; [contradiction|].
  assert (ED : w1 (c1_d c) = fsub (w1 x2) (w1 x1)) by (rewrite <- D; ring).
  assert (EL : w1 (c1_l c) = fdiv (fsub (w1 y2) (w1 y1)) (fsub (w1 x2) (w1 x1))).
  { apply slope1; [apply fsub_nz'; exact N|]. rewrite <- ED. apply fadd_move. exact M. }
  rewrite EL. reflexivity.
Qed.
Lemma dblk1_ok p1 c : on1 (wp p1) -> dblk1 p1 c = true -> padd1 (wp p1) (wp p1) = wp (c1_p c) /\ ltn (fst (c1_p c)) qd = true.
Proof.
  destruct p1 as [x1 y1]. unfold dblk1. intros O H.
  apply andb_true_iff in H. destruct H as [M T]. apply tail1_ok in T. destruct T as (T & T1). split; [|assumption].
  apply mul1_ok in M. rewrite <- T. unfold wp in O. cbn [fst snd] in O. pose proof (y1_nz _ _ O) as Y. unfold wp. cbn [fst snd padd].
  pose proof two_nz as TN.
  destruct (Fq_dec (w1 x1) (w1 x1)) as [_|X]; [|exfalso; apply X; reflexivity].
  destruct (Fq_dec (w1 y1) (fopp (w1 y1))) as [X|_].
  { exfalso. assert (Z0 : fmul (fadd f1 f1) (w1 y1) = f0) by (transitivity (fadd (w1 y1) (w1 y1)); [ring|]; rewrite X at 1; ring).
    apply fq_integral in Z0. destruct Z0; contradiction. }
  apply (f_equal (fun l => line_sum Fq fmul fsub l (w1 x1) (w1 y1) (w1 x1))). symmetry. apply slope1.
  - intros Z0. apply fq_integral in Z0. destruct Z0; contradiction.
  - rewrite w1_E, !w1_add, !w1_mul in M. transitivity (fadd (fmul (w1 (c1_l c)) (fadd (w1 y1) (w1 y1))) f0); [ring|]. rewrite M. ring.
Qed.

(* double-and-add: double, add the base, subtract the base *)
Inductive op1 : Set := OD1 (c : cert1) | OA1 (c : cert1) | OS1 (c : cert1).
Definition neg1 (p : cpt) (n : num) : bool := eqn (add (snd p) n) qd.
Fixpoint run1 (b : cpt) (n : num) (p : cpt) (os : list op1) (e : cpt) : bool := match os with
  | [] => eqn (fst p) (fst e) && eqn (snd p) (snd e)
  | OD1 c :: os' => dblk1 p c && run1 b n (c1_p c) os' e
  | OA1 c :: os' => addk1 p b c && run1 b n (c1_p c) os' e
  | OS1 c :: os' => addk1 p (fst b, n) c && run1 b n (c1_p c) os' e
  end.
Definition runk10 (b : cpt) (n : num) (os : list op1) (e : cpt) : bool := ltn (fst b) qd && neg1 b n && run1 b n b os e.
Definition runk1 : cpt -> num -> list op1 -> cpt -> bool := Eval cbv
  [runk10 run1 neg1 addk1 dblk1 tail1 mul1 dif1 eqk c1_l c1_d c1_e c1_p c1_k1 c1_k2 c1_k3 fst snd andb] in runk10.
Lemma runk1_eq b n os e : runk1 b n os e = runk10 b n os e. Proof. reflexivity. Qed.
Definition kop1 (k : Z) (o : op1) : Z := match o with OD1 _ => 2 * k | OA1 _ => k + 1 | OS1 _ => k - 1 end.
Lemma neg1_ok p n : neg1 p n = true -> wp (fst p, n) = pneg1 (wp p).
Proof.
  unfold neg1. intros H. apply eqn_ok in H. rewrite add_ok, qd_val in H.
  unfold wp. cbn [fst snd pneg]. apply (f_equal2 (@Aff Fq)); [reflexivity|]. unfold w1. apply fopp_q. exact H.
Qed.
Lemma run1_ok b n e : on1 (wp b) -> ltn (fst b) qd = true -> neg1 b n = true -> forall os p k, ltn (fst p) qd = true -> wp p = zm1 k (wp b) -> run1 b n p os e = true ->
  wp e = zm1 (fold_left kop1 os k) (wp b).
Proof.
  intros O RB NB. induction os as [|o os IH]; intros p k RP P H; cbn [run1 fold_left] in *.
  { apply andb_true_iff in H. destruct H as [H1 H2]. apply eqn_ok in H1. apply eqn_ok in H2. rewrite <- P. unfold wp, w1. rewrite H1, H2. reflexivity. }
  assert (OP : on1 (wp p)) by (rewrite P; apply zm1_on; exact O).
  destruct o as [c|c|c]; apply andb_true_iff in H; destruct H as [H1 H2].
  - apply (dblk1_ok p c OP) in H1. destruct H1 as (H1 & R1). apply (IH (c1_p c)); [exact R1| |exact H2].
    rewrite <- H1, P. cbn [kop1]. apply zm1_double. exact O.
  - apply (addk1_ok p b c RP RB) in H1. destruct H1 as (H1 & R1). apply (IH (c1_p c)); [exact R1| |exact H2].
    rewrite <- H1, P. cbn [kop1]. rewrite (zm1_add k 1 (wp b) O), zm1_1. reflexivity.
  - apply (addk1_ok p (fst b, n) c RP RB) in H1. destruct H1 as (H1 & R1). apply (IH (c1_p c)); [exact R1| |exact H2].
    rewrite <- H1, (neg1_ok _ _ NB), P. cbn [kop1]. change (k - 1) with (k + - (1)). rewrite (zm1_add k (- (1)) (wp b) O), (zm1_opp 1 _ O), zm1_1. reflexivity.
Qed.
Lemma runk1_ok b n os e : on1 (wp b) -> runk1 b n os e = true -> wp e = zm1 (fold_left kop1 os 1) (wp b).
Proof.
  rewrite runk1_eq. unfold runk10. intros O H. apply andb_true_iff in H. destruct H as [H H3]. apply andb_true_iff in H. destruct H as [H1 H2].
  apply (run1_ok b n e O H1 H2 os b 1 H1); [symmetry; apply zm1_1|exact H3].
Qed.
Definition aff (p : Z * Z) : pt1 := Aff (mkq (fst p)) (mkq (snd p)).
Definition vz (p : cpt) : Z * Z := (nval (fst p), nval (snd p)).
Lemma wp_aff p : wp p = aff (vz p). Proof. reflexivity. Qed.
Lemma chain_ok b n os e bz ez k : vz b = bz -> vz e = ez -> on1 (aff bz) -> runk1 b n os e = true -> fold_left kop1 os 1 = k -> aff ez = zm1 k (aff bz).
Proof. intros <- <- O R <-. rewrite <- !wp_aff in *. exact (runk1_ok b n os e O R). Qed.
(* y^2 = x^3 + 4, with x^2 *)
Record ocert1 : Set := Ocert1 { o1_s : num; o1_k1 : bool * num; o1_k2 : bool * num }.
Definition four : num := Eval vm_compute in ofZ 1 4.
Definition onk1 (p : cpt) (c : ocert1) : bool :=
  let (x, y) := p in mul1 (o1_k1 c) x x E (o1_s c) && mul1 (o1_k2 c) (o1_s c) x four (mul y y).
Lemma four_val : nval four = 4. Proof. reflexivity. Qed.
Lemma onk1_ok p c : onk1 p c = true -> on1 (wp p).
Proof.
  destruct p as [x y]. unfold onk1. intros H. apply andb_true_iff in H. destruct H as [H1 H2]. apply mul1_ok in H1. apply mul1_ok in H2.
  rewrite w1_E in H1. rewrite w1_mul in H2. unfold wp. cbn [fst snd on_curve]. rewrite <- H2. unfold fb. unfold w1 at 3. rewrite four_val.
  rewrite <- H1. ring.
Qed.

(* ------------------- making the certificates ----------------------- *)
Section Make.
(* the chain as double / add the base / subtract the base, with the slope of the line *)
Inductive ptop : Set := PD (l : Z) | PA (l : Z) | PS (l : Z).
Definition ofC (p : Z * Z) : cpt := (ofZ 48 (fst p), ofZ 48 (snd p)).
Definition mkc1 (l d : Z) (k1 : bool * num) (x1 y1 x2 : Z) : cert1 * (Z * Z) :=
  let x3 := (l * l - x1 - x2) mod qZ in let e := (x1 - x3) mod qZ in let y3 := (l * e - y1) mod qZ in
  (Cert1 (ofZ 48 l) (ofZ 48 d) (ofZ 48 e) (ofC (x3, y3)) k1 (quo (l * l) (x3 + (x1 + x2))) (quo (l * e) (y1 + y3)), (x3, y3)).
Definition mkadd1 (l : Z) (p1 p2 : Z * Z) : cert1 * (Z * Z) :=
  let (x1, y1) := p1 in let (x2, y2) := p2 in let d := (x2 - x1) mod qZ in mkc1 l d (quo (l * d + y1) y2) x1 y1 x2.
Definition mkdbl1 (l : Z) (p1 : Z * Z) : cert1 * (Z * Z) :=
  let (x1, y1) := p1 in mkc1 l 0 (quo (l * (y1 + y1)) (3 * (x1 * x1))) x1 y1 x1.
Fixpoint mkops1 (b p : Z * Z) (ss : list ptop) : list op1 * (Z * Z) := match ss with
  | [] => ([], p)
  | PD l :: ss' => let (c, p') := mkdbl1 l p in let (os, e) := mkops1 b p' ss' in (OD1 c :: os, e)
  | PA l :: ss' => let (c, p') := mkadd1 l p b in let (os, e) := mkops1 b p' ss' in (OA1 c :: os, e)
  | PS l :: ss' => let (c, p') := mkadd1 l p (fst b, (- snd b) mod qZ) in let (os, e) := mkops1 b p' ss' in (OS1 c :: os, e)
  end.
Definition mkon1 (p : Z * Z) : ocert1 :=
  let (x, y) := p in let s := (x * x) mod qZ in Ocert1 (ofZ 48 s) (quo (x * x) s) (quo (s * x + 4) (y * y)).
End Make.
