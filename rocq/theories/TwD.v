(* Points of the twist y^2 = x^3 + 4(1+i) in base-256 digits: additions and doublings checked
   from given slopes. *)
From Coq Require Import ZArith List Bool Lia Field.
From Verif Require Import Dig PowD NumT FieldQ FieldQ2 SpecCurve CurveP GroupP EcpP Ecp2P Ecp2C MillerP2 PsiP.
Import ListNotations.
Open Scope Z_scope.

Definition d2 : Set := (num * num)%type.
Definition dpt : Set := (d2 * d2)%type.
Definition qd : num := Eval vm_compute in ofZ 48 0x1a0111ea397fe69a4b1ba7b6434bacd764774b84f38512bf6730d2a0f6b0f6241eabfffeb153ffffb9feffffffffaaab.
Lemma qd_val : nval qd = q381. Proof. Transparent q381. vm_cast_no_check (eq_refl q381). Qed.
#[global] Opaque q381.
Definition v2 (a : d2) : Fq2 := (mkq (nval (fst a)), mkq (nval (snd a))).
Definition vp (p : dpt) : pt2 := Aff (v2 (fst p)) (v2 (snd p)).

(* a = b + k q or a + k q = b *)
Definition eqk (k : bool * num) (a b : num) : bool := let (s, k') := k in if s then eqn a (mula k' qd b) else eqn (mula k' qd a) b.
Lemma mkq_q k a : mkq (k * q381 + a) = mkq a.
Proof. rewrite Z.add_comm. apply mkq_add_q. Qed.
Lemma eqk_ok k a b : eqk k a b = true -> mkq (nval a) = mkq (nval b).
Proof.
  destruct k as [s k]. unfold eqk. destruct s; intros H; apply eqn_ok in H; rewrite mula_ok, qd_val in H.
  - rewrite H. apply mkq_q. 
  - rewrite <- H. symmetry. apply mkq_q.
Qed.
(* d = a - b, modulo q *)
Definition dif1 (d a b : num) : bool := if eqn (add d b) a then true else eqn (add d b) (add a qd).
Lemma dif1_ok d a b : dif1 d a b = true -> fadd (mkq (nval d)) (mkq (nval b)) = mkq (nval a).
Proof.
  unfold dif1. intros H. rewrite <- mkq_add. destruct (eqn (add d b) a) eqn:X.
  - apply eqn_ok in X. rewrite add_ok in X. rewrite X. reflexivity.
  - apply eqn_ok in H. rewrite !add_ok, qd_val in H. rewrite H. rewrite <- (Z.mul_1_l q381). apply mkq_add_q.
Qed.
Definition dif2 (d a b : d2) : bool := dif1 (fst d) (fst a) (fst b) && dif1 (snd d) (snd a) (snd b).
Lemma dif2_ok d a b : dif2 d a b = true -> gadd (v2 d) (v2 b) = v2 a.
Proof. unfold dif2. intros H. apply andb_true_iff in H. destruct H as [H1 H2]. unfold gadd, v2. cbn [fst snd]. apply f_equal2; apply dif1_ok; assumption. Qed.
Definition add2 (a b : d2) : d2 := (add (fst a) (fst b), add (snd a) (snd b)).
Lemma add2_ok a b : v2 (add2 a b) = gadd (v2 a) (v2 b).
Proof. unfold add2, v2, gadd. cbn [fst snd]. rewrite !add_ok, !mkq_add. reflexivity. Qed.
(* l d + a = b in Fq2 *)
Definition mul2 (k : (bool * num) * (bool * num)) (l d a b : d2) : bool :=
  let (l0, l1) := l in let (x0, x1) := d in
  let p := mul l0 x0 in let r := mul l1 x1 in let s := mul (add l0 l1) (add x0 x1) in
  eqk (fst k) (add p (fst a)) (add r (fst b)) && eqk (snd k) (add s (snd a)) (add p (add r (snd b))).
Lemma mul2_id l0 l1 x0 x1 a0 a1 b0 b1 : fadd (fmul l0 x0) a0 = fadd (fmul l1 x1) b0 ->
  fadd (fmul (fadd l0 l1) (fadd x0 x1)) a1 = fadd (fmul l0 x0) (fadd (fmul l1 x1) b1) ->
  gadd (gmul (l0, l1) (x0, x1)) (a0, a1) = (b0, b1).
Proof.
  intros H1 H2. unfold gadd, gmul. cbn [fst snd]. apply f_equal2.
  - transitivity (fsub (fadd (fmul l0 x0) a0) (fmul l1 x1)); [ring|]. rewrite H1. ring.
  - transitivity (fsub (fsub (fadd (fmul (fadd l0 l1) (fadd x0 x1)) a1) (fmul l0 x0)) (fmul l1 x1)); [ring|]. rewrite H2. ring.
Qed.
Lemma mul2_ok k l d a b : mul2 k l d a b = true -> gadd (gmul (v2 l) (v2 d)) (v2 a) = v2 b.
Proof.
  destruct l as [l0 l1], d as [x0 x1], a as [a0 a1], b as [b0 b1]. unfold mul2. cbv zeta. intros H. apply andb_true_iff in H. destruct H as [H1 H2].
  apply eqk_ok in H1. apply eqk_ok in H2. cbn [fst snd] in H1, H2. unfold v2. cbn [fst snd].
  rewrite !add_ok, !mul_ok, !mkq_add, !mkq_mul in H1. rewrite !add_ok, !mul_ok, !add_ok, !mkq_add, !mkq_mul, !mkq_add in H2.
  apply mul2_id; assumption.
Qed.
Definition red2 (a : d2) : bool := ltn (fst a) qd && ltn (snd a) qd.
Definition ne2 (a b : d2) : bool := if neqn (fst a) (fst b) then true else neqn (snd a) (snd b).
Lemma mkq_small a b : a < q381 -> b < q381 -> 0 <= a -> 0 <= b -> mkq a = mkq b -> a = b.
Proof. intros A B A0 B0 H. apply mkq_inj in H. rewrite !Z.mod_small in H by lia. exact H. Qed.
Lemma ltn_q a : ltn a qd = true -> nval a < q381.
Proof. intros H. apply ltn_ok in H. rewrite qd_val in H. exact H. Qed.
Lemma ne2_ok a b : red2 a = true -> red2 b = true -> ne2 a b = true -> v2 a <> v2 b.
Proof.
  unfold red2, ne2. intros A B N H. apply andb_true_iff in A. destruct A as [A1 A2]. apply andb_true_iff in B. destruct B as [B1 B2].
  apply ltn_q in A1. apply ltn_q in A2. apply ltn_q in B1. apply ltn_q in B2. unfold v2 in H.
  pose proof (f_equal fst H) as H1. pose proof (f_equal snd H) as H2. cbn [fst snd] in H1, H2.
  apply (mkq_small _ _ A1 B1 (nval_nn _) (nval_nn _)) in H1. apply (mkq_small _ _ A2 B2 (nval_nn _) (nval_nn _)) in H2.
  destruct (neqn (fst a) (fst b)) eqn:X; [apply neqn_ok in X|apply neqn_ok in N]; contradiction.
Qed.

(* slope, difference to the first abscissa, result, quotients *)
Record cert : Set := Cert { c_l : d2; c_d : d2; c_e : d2; c_p : dpt; c_k1 : (bool * num) * (bool * num); c_k2 : (bool * num) * (bool * num); c_k3 : (bool * num) * (bool * num) }.
Definition z2 : d2 := (E, E).
Definition tail (l x1 x2 y1 e : d2) (p : dpt) k2 k3 : bool :=
  let (x3, y3) := p in
  red2 x3 && red2 y3 && mul2 k2 l l z2 (add2 x3 (add2 x1 x2)) && dif2 e x1 x3 && mul2 k3 l e z2 (add2 y1 y3).
Definition addk (p1 p2 : dpt) (c : cert) : bool :=
  let (x1, y1) := p1 in let (x2, y2) := p2 in
  ne2 x1 x2 && dif2 (c_d c) x2 x1 && mul2 (c_k1 c) (c_l c) (c_d c) y1 y2 && tail (c_l c) x1 x2 y1 (c_e c) (c_p c) (c_k2 c) (c_k3 c).
Definition dblk (p1 : dpt) (c : cert) : bool :=
  let (x1, y1) := p1 in
  let (a0, a1) := x1 in
  let s0 := mul a0 a0 in let s1 := mul a1 a1 in let m := mul a0 a1 in let m2 := add m m in
  mul2 (c_k1 c) (c_l c) (add2 y1 y1) (add s1 (add s1 s1), E) (add s0 (add s0 s0), add m2 (add m2 m2)) && tail (c_l c) x1 x1 y1 (c_e c) (c_p c) (c_k2 c) (c_k3 c).

Lemma v2_pair a b : v2 (a, b) = (mkq (nval a), mkq (nval b)). Proof. reflexivity. Qed.
Lemma v2_z : v2 z2 = g0. Proof. reflexivity. Qed.
Lemma gadd_move a b c : gadd a b = c -> a = gsub c b.
Proof. intros <-. ring. Qed.
Lemma tail_ok l x1 x2 y1 e p k2 k3 : tail l x1 x2 y1 e p k2 k3 = true ->
  line_sum Fq2 gmul gsub (v2 l) (v2 x1) (v2 y1) (v2 x2) = vp p /\ red2 (fst p) = true /\ red2 (snd p) = true.
Proof.
  destruct p as [x3 y3]. unfold tail. intros H. apply andb_true_iff in H. destruct H as [H H5]. apply andb_true_iff in H. destruct H as [H H4].
  apply andb_true_iff in H. destruct H as [H H3]. apply andb_true_iff in H. destruct H as [H1 H2]. cbn [fst snd].
  split; [|split; assumption]. apply mul2_ok in H3. apply mul2_ok in H5. apply dif2_ok in H4. rewrite v2_z in H3, H5. rewrite !add2_ok in H3. rewrite add2_ok in H5.
  unfold line_sum, vp. cbn [fst snd].
  assert (E3 : gsub (gsub (gmul (v2 l) (v2 l)) (v2 x1)) (v2 x2) = v2 x3).
  { transitivity (gsub (gsub (gadd (gmul (v2 l) (v2 l)) g0) (v2 x1)) (v2 x2)); [ring|]. rewrite H3. ring. }
  rewrite E3. apply (f_equal2 (@Aff Fq2)); [reflexivity|].
  assert (EE : v2 e = gsub (v2 x1) (v2 x3)) by (rewrite <- H4; ring). rewrite <- EE.
  transitivity (gsub (gadd (gmul (v2 l) (v2 e)) g0) (v2 y1)); [ring|]. rewrite H5. ring.
Qed.
Lemma slope2 l n d : d <> g0 -> gmul l d = n -> l = gdiv n d.
Proof. intros D <-. field. exact D. Qed.
Lemma gsub_nz' a b : a <> b -> gsub b a <> g0.
Proof. intros N H. apply N. transitivity (gsub b (gsub b a)); [ring|]. rewrite H. ring. Qed.
Lemma addk_ok p1 p2 c : red2 (fst p1) = true -> red2 (fst p2) = true -> addk p1 p2 c = true ->
  padd2 (vp p1) (vp p2) = vp (c_p c) /\ red2 (fst (c_p c)) = true /\ red2 (snd (c_p c)) = true.
Proof.
  destruct p1 as [x1 y1], p2 as [x2 y2]. cbn [fst snd]. unfold addk. intros R1 R2 H.
  apply andb_true_iff in H. destruct H as [H T]. apply andb_true_iff in H. destruct H as [H M]. apply andb_true_iff in H. destruct H as [N D].
  apply tail_ok in T. destruct T as (T & T1 & T2). split; [|split; assumption].
  apply (ne2_ok _ _ R1 R2) in N. apply dif2_ok in D. apply mul2_ok in M. rewrite <- T. unfold vp. cbn [fst snd padd].
  destruct (Fq2_dec (v2 x1) (v2 x2)) as [X|_]; [contradiction|].
  assert (ED : v2 (c_d c) = gsub (v2 x2) (v2 x1)) by (rewrite <- D; ring).
  assert (EL : v2 (c_l c) = gdiv (gsub (v2 y2) (v2 y1)) (gsub (v2 x2) (v2 x1))).
  { apply slope2; [apply gsub_nz'; exact N|]. rewrite <- ED. apply gadd_move. exact M. }
  rewrite EL. reflexivity.
Qed.
Lemma dbl_id l x0 x1 y : gadd (gmul l (gadd y y)) (fadd (fmul x1 x1) (fadd (fmul x1 x1) (fmul x1 x1)), f0) =
   (fadd (fmul x0 x0) (fadd (fmul x0 x0) (fmul x0 x0)), fadd (fadd (fmul x0 x1) (fmul x0 x1)) (fadd (fadd (fmul x0 x1) (fmul x0 x1)) (fadd (fmul x0 x1) (fmul x0 x1)))) ->
  gmul l (gmul (gadd g1 g1) y) = gmul (gadd (gadd g1 g1) g1) (gmul (x0, x1) (x0, x1)).
Proof.
  intros H. apply gadd_move in H. transitivity (gmul l (gadd y y)); [ring|]. rewrite H.
  unfold gsub, gmul, gadd, g1. cbn [fst snd]. apply f_equal2; ring.
Qed.
Lemma dblk_ok p1 c : on2 (vp p1) -> dblk p1 c = true ->
  padd2 (vp p1) (vp p1) = vp (c_p c) /\ red2 (fst (c_p c)) = true /\ red2 (snd (c_p c)) = true.
Proof.
  destruct p1 as [[a0 a1] y1]. unfold dblk. intros O H.
  apply andb_true_iff in H. destruct H as [M T]. apply tail_ok in T. destruct T as (T & T1 & T2). split; [|split; assumption].
  apply mul2_ok in M. rewrite <- T. unfold vp in O. cbn [fst snd] in O. pose proof (on2_y _ _ O) as Y. unfold vp. cbn [fst snd padd].
  destruct (Fq2_dec (v2 (a0, a1)) (v2 (a0, a1))) as [_|X]; [|exfalso; apply X; reflexivity].
  destruct (Fq2_dec (v2 y1) (gopp (v2 y1))) as [X|_].
  { exfalso. apply (gmul_nz _ _ gtwo_nz Y). transitivity (gadd (v2 y1) (v2 y1)); [ring|]. rewrite X at 1. ring. }
  apply (f_equal (fun l => line_sum Fq2 gmul gsub l (v2 (a0, a1)) (v2 y1) (v2 (a0, a1)))). symmetry. apply slope2.
  - apply gmul_nz; [exact gtwo_nz|exact Y].
  - rewrite add2_ok in M. rewrite !v2_pair in M. rewrite !add_ok, !mul_ok, !mkq_add, !mkq_mul in M.
    rewrite v2_pair. apply dbl_id. exact M.
Qed.

(* double-and-add *)
Inductive op : Set := OD (c : cert) | OA (c : cert) | OS (c : cert).
Definition neg2 (p : dpt) (n : d2) : bool := let y := snd p in eqn (add (fst y) (fst n)) qd && eqn (add (snd y) (snd n)) qd.
Definition red1 (p : dpt) : bool := red2 (fst p).
(* n is minus the ordinate of the base *)
Fixpoint run (b : dpt) (n : d2) (p : dpt) (os : list op) (e : dpt) : bool := match os with
  | [] => eqn (fst (fst p)) (fst (fst e)) && eqn (snd (fst p)) (snd (fst e)) && eqn (fst (snd p)) (fst (snd e)) && eqn (snd (snd p)) (snd (snd e))
  | OD c :: os' => dblk p c && run b n (c_p c) os' e
  | OA c :: os' => addk p b c && run b n (c_p c) os' e
  | OS c :: os' => addk p (fst b, n) c && run b n (c_p c) os' e
  end.
Definition runk0 (b : dpt) (n : d2) (os : list op) (e : dpt) : bool := red1 b && neg2 b n && run b n b os e.
Definition runk : dpt -> d2 -> list op -> dpt -> bool := Eval cbv
  [runk0 run red1 neg2 addk dblk tail red2 ne2 mul2 add2 dif2 dif1 eqk z2 c_l c_d c_e c_p c_k1 c_k2 c_k3 fst snd andb] in runk0.
Lemma runk_eq b n os e : runk b n os e = runk0 b n os e. Proof. reflexivity. Qed.
Definition addc0 (p1 p2 : dpt) (c : cert) : bool := red1 p1 && red1 p2 && addk p1 p2 c.
Definition addck : dpt -> dpt -> cert -> bool := Eval cbv
  [addc0 red1 addk tail red2 ne2 mul2 add2 dif2 dif1 eqk z2 c_l c_d c_e c_p c_k1 c_k2 c_k3 fst snd andb] in addc0.
Lemma addck_eq p1 p2 c : addck p1 p2 c = addc0 p1 p2 c. Proof. reflexivity. Qed.

Definition kop (k : Z) (o : op) : Z := match o with OD _ => 2 * k | OA _ => k + 1 | OS _ => k - 1 end.
Lemma vp_ext (p e : dpt) : eqn (fst (fst p)) (fst (fst e)) && eqn (snd (fst p)) (snd (fst e)) && eqn (fst (snd p)) (fst (snd e)) && eqn (snd (snd p)) (snd (snd e)) = true -> vp p = vp e.
Proof.
  intros H. apply andb_true_iff in H. destruct H as [H H4]. apply andb_true_iff in H. destruct H as [H H3]. apply andb_true_iff in H. destruct H as [H1 H2].
  apply eqn_ok in H1. apply eqn_ok in H2. apply eqn_ok in H3. apply eqn_ok in H4. unfold vp, v2. rewrite H1, H2, H3, H4. reflexivity.
Qed.
Lemma fopp_q a b : nval a + nval b = q381 -> mkq (nval b) = fopp (mkq (nval a)).
Proof. intros H. replace (nval b) with (- nval a + 1 * q381) by lia. rewrite mkq_add_q, mkq_opp. reflexivity. Qed.
Lemma neg2_ok p n : neg2 p n = true -> vp (fst p, n) = pneg2 (vp p).
Proof.
  unfold neg2. intros H. apply andb_true_iff in H. destruct H as [H1 H2]. apply eqn_ok in H1. apply eqn_ok in H2. rewrite add_ok, qd_val in H1, H2.
  unfold vp. cbn [fst snd pneg]. apply (f_equal2 (@Aff Fq2)); [reflexivity|]. unfold v2, gopp. cbn [fst snd]. rewrite (fopp_q _ _ H1), (fopp_q _ _ H2). reflexivity.
Qed.
Lemma run_ok b n e : on2 (vp b) -> red1 b = true -> neg2 b n = true -> forall os p k, red1 p = true -> vp p = zm2 k (vp b) -> run b n p os e = true ->
  vp e = zm2 (fold_left kop os k) (vp b).
Proof.
  intros O RB NB. induction os as [|o os IH]; intros p k RP P H; cbn [run fold_left] in *.
  { rewrite <- (vp_ext _ _ H). exact P. }
  assert (OP : on2 (vp p)) by (rewrite P; apply zm2_on; exact O).
  destruct o as [c|c|c]; apply andb_true_iff in H; destruct H as [H1 H2].
  - apply (dblk_ok p c OP) in H1. destruct H1 as (H1 & R1 & R2). apply (IH (c_p c)); [exact R1| |exact H2].
    rewrite <- H1, P. cbn [kop]. apply zm2_double. exact O.
  - apply (addk_ok p b c RP RB) in H1. destruct H1 as (H1 & R1 & R2). apply (IH (c_p c)); [exact R1| |exact H2].
    rewrite <- H1, P. cbn [kop]. rewrite (zm2_add k 1 (vp b) O), zm2_1. reflexivity.
  - apply (addk_ok p (fst b, n) c RP RB) in H1. destruct H1 as (H1 & R1 & R2). apply (IH (c_p c)); [exact R1| |exact H2].
    rewrite <- H1, (neg2_ok _ _ NB), P. cbn [kop]. change (k - 1) with (k + - (1)). rewrite (zm2_add k (- (1)) (vp b) O), (zm2_opp 1 _ O), zm2_1. reflexivity.
Qed.
Lemma runk_ok b n os e : on2 (vp b) -> runk b n os e = true -> vp e = zm2 (fold_left kop os 1) (vp b).
Proof.
  rewrite runk_eq. unfold runk0. intros O H. apply andb_true_iff in H. destruct H as [H H3]. apply andb_true_iff in H. destruct H as [H1 H2].
  apply (run_ok b n e O H1 H2 os b 1 H1); [symmetry; apply zm2_1|exact H3].
Qed.
Lemma addck_ok p1 p2 c : addck p1 p2 c = true -> padd2 (vp p1) (vp p2) = vp (c_p c).
Proof.
  rewrite addck_eq. unfold addc0. intros H. apply andb_true_iff in H. destruct H as [H H3]. apply andb_true_iff in H. destruct H as [H1 H2].
  exact (proj1 (addk_ok p1 p2 c H1 H2 H3)).
Qed.

(* ------------------- making the certificates ----------------------- *)
Section Make.
Definition qZ : Z := 0x1a0111ea397fe69a4b1ba7b6434bacd764774b84f38512bf6730d2a0f6b0f6241eabfffeb153ffffb9feffffffffaaab.
Definition z22 : Set := (Z * Z)%type.
Definition ofP (k : nat) (a : z22) : d2 := (ofZ k (fst a), ofZ k (snd a)).
Definition quo (a b : Z) : bool * num := let d := (a - b) / qZ in if d <? 0 then (false, ofZt 140 (- d)) else (true, ofZt 140 d).
Definition kk (l d a b : z22) : (bool * num) * (bool * num) :=
  let p := fst l * fst d in let r := snd l * snd d in let s := (fst l + snd l) * (fst d + snd d) in
  (quo (p + fst a) (r + fst b), quo (s + snd a) (p + (r + snd b))).
Definition m2 (a b : z22) : z22 := ((fst a * fst b - snd a * snd b) mod qZ, (fst a * snd b + snd a * fst b) mod qZ).
Definition s2 (a b : z22) : z22 := ((fst a - fst b) mod qZ, (snd a - snd b) mod qZ).
Definition p2 (a b : z22) : z22 := (fst a + fst b, snd a + snd b).
Definition zpt : Set := (z22 * z22)%type.
Definition ofD (p : zpt) : dpt := (ofP 48 (fst p), ofP 48 (snd p)).
Definition mkc (l d : z22) (k1 : (bool * num) * (bool * num)) (x1 y1 x2 : z22) : cert * zpt :=
  let x3 := s2 (s2 (m2 l l) x1) x2 in let e := s2 x1 x3 in let y3 := s2 (m2 l e) y1 in
  (Cert (ofP 48 l) (ofP 48 d) (ofP 48 e) (ofD (x3, y3)) k1 (kk l l (0, 0) (p2 x3 (p2 x1 x2))) (kk l e (0, 0) (p2 y1 y3)), (x3, y3)).
Definition mkadd (l : z22) (p1 p2 : zpt) : cert * zpt :=
  let (x1, y1) := p1 in let (x2, y2) := p2 in let d := s2 x2 x1 in mkc l d (kk l d y1 y2) x1 y1 x2.
Definition mkdbl (l : z22) (p1 : zpt) : cert * zpt :=
  let (x1, y1) := p1 in let (a0, a1) := x1 in
  mkc l (0, 0) (kk l (p2 y1 y1) (3 * (a1 * a1), 0) (3 * (a0 * a0), 6 * (a0 * a1))) x1 y1 x1.
(* slopes of a chain *)
Inductive sl : Set := SD (a b : Z) | SA (a b : Z) | SS (a b : Z).
Definition zneg (p : zpt) : zpt := (fst p, s2 (0, 0) (snd p)).
Fixpoint mkops (b p : zpt) (ss : list sl) : list op * zpt := match ss with
  | [] => ([], p)
  | SD u v :: ss' => let (c, p') := mkdbl (u, v) p in let (l, e) := mkops b p' ss' in (OD c :: l, e)
  | SA u v :: ss' => let (c, p') := mkadd (u, v) p b in let (l, e) := mkops b p' ss' in (OA c :: l, e)
  | SS u v :: ss' => let (c, p') := mkadd (u, v) p (zneg b) in let (l, e) := mkops b p' ss' in (OS c :: l, e)
  end.
End Make.
