(* The tower in base-256 digits: products and squares with given quotients. *)
From Coq Require Import ZArith List Bool Lia Field.
From Verif Require Import Dig PowD NumT FieldQ FieldQ2 TwD TwPsi Tower TowerP FrobP CycP.
Import ListNotations.
Open Scope Z_scope.

(* ----------------------------- differences --------------------------- *)
(* fst - snd *)
Definition sg : Set := (num * num)%type.
Definition vs (a : sg) : Fq := fsub (mkq (nval (fst a))) (mkq (nval (snd a))).
Definition sadd (a b : sg) : sg := let (p, n) := a in let (p', n') := b in (add p p', add n n').
Definition ssub (a b : sg) : sg := let (p, n) := a in let (p', n') := b in (add p n', add n p').
Definition sopp (a : sg) : sg := let (p, n) := a in (n, p).
Ltac sgv := intros; repeat match goal with x : sg |- _ => destruct x end; unfold vs, sadd, ssub, sopp; cbn [fst snd]; rewrite ?add_ok, ?mkq_add; ring.
Lemma sadd_v a b : vs (sadd a b) = fadd (vs a) (vs b). Proof. sgv. Qed.
Lemma ssub_v a b : vs (ssub a b) = fsub (vs a) (vs b). Proof. sgv. Qed.
Lemma sopp_v a : vs (sopp a) = fopp (vs a). Proof. sgv. Qed.
Lemma vs_E n : vs (n, E) = mkq (nval n).
Proof. unfold vs. cbn [fst snd nval]. change (mkq 0) with f0. ring. Qed.

(* digit complement: the largest number with as many digits, minus y *)
Definition cmpT : dg -> dg := Eval vm_compute in tab (fun d => dof (255 - dval d)).
Fixpoint comp (y : num) : num := match y with E => E | C d y' => C (cmpT d) (comp y') end.
Fixpoint sh (y x : num) : num := match y with E => x | C _ y' => C D0 (sh y' x) end.
Fixpoint bpow (y : num) : Z := match y with E => 1 | C _ y' => 256 * bpow y' end.
Lemma cmpT_ok d : dval (cmpT d) + dval d = 255.
Proof. destruct d; reflexivity. Qed.
Lemma comp_ok y : nval (comp y) + nval y + 1 = bpow y.
Proof. induction y as [|d y IH]; cbn [comp nval bpow]; [reflexivity|]. pose proof (cmpT_ok d). lia. Qed.
Lemma sh_ok y x : nval (sh y x) = nval x * bpow y.
Proof. induction y as [|d y IH]; cbn [sh nval bpow dval]; [lia|]. rewrite IH. lia. Qed.

(* ------------------------------- Fq2 --------------------------------- *)
Definition sg2 : Set := (sg * sg)%type.
Definition vs2 (a : sg2) : Fq2 := (vs (fst a), vs (snd a)).
Definition sadd2 (a b : sg2) : sg2 := let (x, y) := a in let (x', y') := b in (sadd x x', sadd y y').
Definition ssub2 (a b : sg2) : sg2 := let (x, y) := a in let (x', y') := b in (ssub x x', ssub y y').
Definition sopp2 (a : sg2) : sg2 := let (x, y) := a in (sopp x, sopp y).
Definition scj2 (a : sg2) : sg2 := let (x, y) := a in (x, sopp y).
(* times 1+i *)
Definition sxi (a : sg2) : sg2 := let (x, y) := a in (ssub x y, sadd x y).
Definition sof (a : d2) : sg2 := let (x, y) := a in ((x, E), (y, E)).
Definition pm2 (a b : d2) : sg2 :=
  let (l0, l1) := a in let (x0, x1) := b in let p := mul l0 x0 in let r := mul l1 x1 in
  ((p, r), (mul (add l0 l1) (add x0 x1), add p r)).
Definition psq2 (a : d2) : sg2 :=
  let (x, y) := a in let s := add x y in
  ((mul s (addc true x (comp y)), sh y s), (mul (add x x) y, E)).
Ltac s2v := intros; repeat match goal with x : sg2 |- _ => destruct x end; unfold vs2, sadd2, ssub2, sopp2, scj2, sxi, gadd, gsub, gopp, gmul, gconj, gi1; cbn [fst snd];
  rewrite ?sadd_v, ?ssub_v, ?sopp_v; apply f_equal2; ring.
Lemma sadd2_v a b : vs2 (sadd2 a b) = gadd (vs2 a) (vs2 b). Proof. s2v. Qed.
Lemma ssub2_v a b : vs2 (ssub2 a b) = gsub (vs2 a) (vs2 b). Proof. s2v. Qed.
Lemma sopp2_v a : vs2 (sopp2 a) = gopp (vs2 a). Proof. s2v. Qed.
Lemma scj2_v a : vs2 (scj2 a) = gconj (vs2 a). Proof. s2v. Qed.
Lemma sxi_v a : vs2 (sxi a) = gmul gi1 (vs2 a). Proof. s2v. Qed.
Lemma sof_v a : vs2 (sof a) = v2 a.
Proof. destruct a as [x y]. unfold sof, vs2, v2. cbn [fst snd]. rewrite !vs_E. reflexivity. Qed.
Lemma pm2_v a b : vs2 (pm2 a b) = gmul (v2 a) (v2 b).
Proof.
  destruct a as [a0 a1], b as [b0 b1]. unfold pm2, vs2, vs, v2, gmul. cbv zeta. cbn [fst snd]. rewrite !add_ok, !mul_ok, !add_ok, !mkq_add, !mkq_mul, !mkq_add.
  apply f_equal2; ring.
Qed.
Lemma psq2_v a : vs2 (psq2 a) = gmul (v2 a) (v2 a).
Proof.
  destruct a as [x y]. unfold psq2, vs2, v2, gmul. cbv zeta. cbn [fst snd]. rewrite vs_E. apply f_equal2.
  - unfold vs. cbn [fst snd]. rewrite <- mkq_sub. rewrite mul_ok, addc_ok, sh_ok, add_ok, <- (comp_ok y).
    rewrite <- !mkq_mul, <- mkq_sub. apply f_equal. ring.
  - rewrite mul_ok, add_ok, mkq_mul, mkq_add. ring.
Qed.
(* s = c, with the quotients k *)
Definition kd2 : Set := ((bool * num) * (bool * num))%type.
Definition ck2 (k : kd2) (s : sg2) (c : d2) : bool :=
  let (x, y) := s in let (p, n) := x in let (p', n') := y in let (k0, k1) := k in let (c0, c1) := c in
  if eqk k0 p (add n c0) then eqk k1 p' (add n' c1) else false.
Lemma ck2_ok k s c : ck2 k s c = true -> vs2 s = v2 c.
Proof.
  destruct s as [[p n] [p' n']], k as [k0 k1], c as [c0 c1]. unfold ck2. intros H. destruct (eqk k0 p (add n c0)) eqn:H0; [|discriminate].
  apply eqk_ok in H0. apply eqk_ok in H. rewrite add_ok, mkq_add in H0, H. unfold vs2, vs, v2. cbn [fst snd].
  rewrite H0, H. apply f_equal2; ring.
Qed.

(* ------------------------------- Fq4 --------------------------------- *)
Definition d4 : Set := (d2 * d2)%type.
Definition sg4 : Set := (sg2 * sg2)%type.
Definition v4 (a : d4) : Fq4 := (v2 (fst a), v2 (snd a)).
Definition vs4 (a : sg4) : Fq4 := (vs2 (fst a), vs2 (snd a)).
Definition add4 (a b : d4) : d4 := let (x, y) := a in let (x', y') := b in (add2 x x', add2 y y').
Definition sadd4 (a b : sg4) : sg4 := let (x, y) := a in let (x', y') := b in (sadd2 x x', sadd2 y y').
Definition ssub4 (a b : sg4) : sg4 := let (x, y) := a in let (x', y') := b in (ssub2 x x', ssub2 y y').
Definition scj4 (a : sg4) : sg4 := let (x, y) := a in (x, sopp2 y).
(* times s *)
Definition ss (a : sg4) : sg4 := let (x, y) := a in (sxi y, x).
Definition sof4 (a : d4) : sg4 := let (x, y) := a in (sof x, sof y).
Definition pm4 (a b : d4) : sg4 :=
  let (a0, a1) := a in let (b0, b1) := b in let m0 := pm2 a0 b0 in let m1 := pm2 a1 b1 in
  (sadd2 m0 (sxi m1), ssub2 (pm2 (add2 a0 a1) (add2 b0 b1)) (sadd2 m0 m1)).
Definition psq4 (a : d4) : sg4 :=
  let (a0, a1) := a in let m0 := psq2 a0 in let m1 := psq2 a1 in
  (sadd2 m0 (sxi m1), ssub2 (psq2 (add2 a0 a1)) (sadd2 m0 m1)).
(* by an element of Fq2 *)
Definition psc4 (a : d4) (b : d2) : sg4 := let (a0, a1) := a in (pm2 a0 b, pm2 a1 b).
Ltac s4v := intros; repeat match goal with x : sg4 |- _ => destruct x end; unfold vs4, sadd4, ssub4, scj4, ss, hadd, hsub, hmul, hconj, hs; cbn [fst snd];
  rewrite ?sadd2_v, ?ssub2_v, ?sopp2_v, ?sxi_v; apply f_equal2; ring.
Lemma add4_v a b : v4 (add4 a b) = hadd (v4 a) (v4 b).
Proof. destruct a, b. unfold v4, add4, hadd. cbn [fst snd]. rewrite !add2_ok. reflexivity. Qed.
Lemma sadd4_v a b : vs4 (sadd4 a b) = hadd (vs4 a) (vs4 b). Proof. s4v. Qed.
Lemma ssub4_v a b : vs4 (ssub4 a b) = hsub (vs4 a) (vs4 b). Proof. s4v. Qed.
Lemma scj4_v a : vs4 (scj4 a) = hconj (vs4 a). Proof. s4v. Qed.
Lemma ss_v a : vs4 (ss a) = hmul hs (vs4 a). Proof. s4v. Qed.
Lemma sof4_v a : vs4 (sof4 a) = v4 a.
Proof. destruct a as [x y]. unfold sof4, vs4, v4. cbn [fst snd]. rewrite !sof_v. reflexivity. Qed.
Lemma pm4_v a b : vs4 (pm4 a b) = hmul (v4 a) (v4 b).
Proof.
  destruct a as [a0 a1], b as [b0 b1]. unfold pm4, vs4, v4, hmul. cbv zeta. cbn [fst snd].
  rewrite ssub2_v, !sadd2_v, sxi_v, !pm2_v, !add2_ok. apply f_equal2; ring.
Qed.
Lemma psq4_v a : vs4 (psq4 a) = hmul (v4 a) (v4 a).
Proof.
  destruct a as [a0 a1]. unfold psq4, vs4, v4, hmul. cbv zeta. cbn [fst snd].
  rewrite ssub2_v, !sadd2_v, sxi_v, !psq2_v, !add2_ok. apply f_equal2; ring.
Qed.
Lemma psc4_v a b : vs4 (psc4 a b) = hmul (v4 a) (hemb (v2 b)).
Proof. destruct a as [a0 a1]. unfold psc4, vs4, v4, hmul, hemb. cbn [fst snd]. rewrite !pm2_v. apply f_equal2; ring. Qed.
Definition kd4 : Set := (kd2 * kd2)%type.
Definition ck4 (k : kd4) (s : sg4) (c : d4) : bool :=
  let (k0, k1) := k in let (x, y) := s in let (c0, c1) := c in if ck2 k0 x c0 then ck2 k1 y c1 else false.
Lemma ck4_ok k s c : ck4 k s c = true -> vs4 s = v4 c.
Proof.
  destruct s as [x y], k as [k0 k1], c as [c0 c1]. unfold ck4. intros H. destruct (ck2 k0 x c0) eqn:H0; [|discriminate].
  apply ck2_ok in H0. apply ck2_ok in H. unfold vs4, v4. cbn [fst snd]. rewrite H0, H. reflexivity.
Qed.

(* ------------------------------- Fq12 -------------------------------- *)
Definition d12 : Set := (d4 * (d4 * d4))%type.
Definition sg12 : Set := (sg4 * (sg4 * sg4))%type.
Definition v12 (a : d12) : Fq12 := mk12 (v4 (fst a)) (v4 (fst (snd a))) (v4 (snd (snd a))).
Definition vs12 (a : sg12) : Fq12 := mk12 (vs4 (fst a)) (vs4 (fst (snd a))) (vs4 (snd (snd a))).
Definition pm12 (x y : d12) : sg12 :=
  let (a, t) := x in let (b, c) := t in let (a', t') := y in let (b', c') := t' in
  let aa := pm4 a a' in let bb := pm4 b b' in let cc := pm4 c c' in
  (sadd4 aa (ss (ssub4 (pm4 (add4 b c) (add4 b' c')) (sadd4 bb cc))),
   (sadd4 (ssub4 (pm4 (add4 a b) (add4 a' b')) (sadd4 aa bb)) (ss cc),
    sadd4 (ssub4 (pm4 (add4 a c) (add4 a' c')) (sadd4 aa cc)) bb)).
Definition psq12 (x : d12) : sg12 :=
  let (a, t) := x in let (b, c) := t in
  let aa := psq4 a in let cc := psq4 c in let m := pm4 a b in let n := pm4 b c in
  let m2 := sadd4 m m in let n2 := sadd4 n n in
  (sadd4 aa (ss n2), (sadd4 m2 (ss cc), ssub4 (psq4 (add4 a (add4 b c))) (sadd4 (sadd4 aa cc) (sadd4 m2 n2)))).
(* Granger-Scott *)
Definition s43 (a : sg4) : sg4 := sadd4 a (sadd4 a a).
Definition usq12 (x : d12) : sg12 :=
  let (a, t) := x in let (b, c) := t in
  (ssub4 (s43 (psq4 a)) (scj4 (sof4 (add4 a a))), (sadd4 (s43 (ss (psq4 c))) (scj4 (sof4 (add4 b b))), ssub4 (s43 (psq4 b)) (scj4 (sof4 (add4 c c))))).
(* the product with n + s + e w^2 *)
Definition lm4 (n : d2) (a : d4) : sg4 := sadd4 (psc4 a n) (ss (sof4 a)).
Definition lm12 (x : d12) (n e : d2) : sg12 :=
  let (a, t) := x in let (b, c) := t in
  (sadd4 (lm4 n a) (ss (psc4 b e)), (sadd4 (lm4 n b) (ss (psc4 c e)), sadd4 (lm4 n c) (psc4 a e))).
Definition cj12 (x : d12) : sg12 :=
  let (a, t) := x in let (b, c) := t in let (b0, b1) := b in
  (scj4 (sof4 a), ((sopp2 (sof b0), sof b1), scj4 (sof4 c))).
Lemma pm12_v x y : vs12 (pm12 x y) = kmul (v12 x) (v12 y).
Proof.
  destruct x as [a [b c]], y as [a' [b' c']]. unfold pm12, vs12, v12, kmul. cbv zeta. cbn [fst snd ka kb kc].
  rewrite !sadd4_v, !ss_v, !ssub4_v, !sadd4_v, !pm4_v, !add4_v. apply f_equal3; ring.
Qed.
Lemma psq12_v x : vs12 (psq12 x) = kmul (v12 x) (v12 x).
Proof.
  destruct x as [a [b c]]. unfold psq12, vs12, v12, kmul. cbv zeta. cbn [fst snd ka kb kc].
  rewrite !ssub4_v, !sadd4_v, !ss_v, !sadd4_v, !psq4_v, !pm4_v, !add4_v. apply f_equal3; ring.
Qed.
Lemma hconj_add a b : hconj (hadd a b) = hadd (hconj a) (hconj b).
Proof. destruct a, b. unfold hconj, hadd. cbn [fst snd]. apply f_equal2; ring. Qed.
Lemma usq12_v x : vs12 (usq12 x) = kusqr (v12 x).
Proof.
  destruct x as [a [b c]]. unfold usq12, s43, vs12, v12, kusqr, h3. cbn [fst snd ka kb kc].
  rewrite !ssub4_v, !sadd4_v, !ss_v, !scj4_v, !psq4_v, !sof4_v, !add4_v, !hconj_add. apply f_equal3; ring.
Qed.
Lemma lm4_v n a : vs4 (lm4 n a) = hmul (v4 a) (v2 n, g1).
Proof. unfold lm4. rewrite sadd4_v, ss_v, psc4_v, sof4_v. unfold hmul, hadd, hemb, hs. cbn [fst snd]. apply f_equal2; ring. Qed.
Lemma lm12_v x n e : vs12 (lm12 x n e) = kmul (v12 x) (mk12 (v2 n, g1) h0 (v2 e, g0)).
Proof.
  destruct x as [a [b c]]. unfold lm12, vs12, v12, kmul. cbn [fst snd ka kb kc]. rewrite !sadd4_v, !lm4_v, !ss_v, !psc4_v.
  change (hemb (v2 e)) with (v2 e, g0). apply f_equal3; ring.
Qed.
Lemma cj12_v x : vs12 (cj12 x) = kconj (v12 x).
Proof.
  destruct x as [a [[b0 b1] c]]. unfold cj12, vs12, v12, kconj. cbn [fst snd ka kb kc]. rewrite !scj4_v, !sof4_v.
  apply f_equal3; [reflexivity| |reflexivity]. unfold vs4, v4, hopp, hconj. cbn [fst snd]. rewrite sopp2_v, !sof_v. apply f_equal2; ring.
Qed.
Definition kd12 : Set := (kd4 * (kd4 * kd4))%type.
Definition ck12 (k : kd12) (s : sg12) (c : d12) : bool :=
  let (k0, t) := k in let (k1, k2) := t in let (x, t) := s in let (y, z) := t in let (c0, t) := c in let (c1, c2) := t in
  if ck4 k0 x c0 then if ck4 k1 y c1 then ck4 k2 z c2 else false else false.
Lemma ck12_ok k s c : ck12 k s c = true -> vs12 s = v12 c.
Proof.
  destruct s as [x [y z]], k as [k0 [k1 k2]], c as [c0 [c1 c2]]. unfold ck12. intros H.
  destruct (ck4 k0 x c0) eqn:H0; [|discriminate]. destruct (ck4 k1 y c1) eqn:H1; [|discriminate].
  apply ck4_ok in H0. apply ck4_ok in H1. apply ck4_ok in H. unfold vs12, v12. cbn [fst snd]. rewrite H0, H1, H. reflexivity.
Qed.

(* the Frobenius map *)
Definition cjd (a c : d2) : bool := if eqn (fst a) (fst c) then eqn (add (snd a) (snd c)) qd else false.
Lemma cjd_ok a c : cjd a c = true -> v2 c = gconj (v2 a).
Proof.
  unfold cjd. intros H. destruct (eqn (fst a) (fst c)) eqn:H1; [|discriminate]. apply cj2_ok. unfold cj2. rewrite H1, H. reflexivity.
Qed.
(* conj(g) for g the first five powers of gf *)
Definition zp2 : nat -> z22 := fun n => Nat.iter n (m2 (fra, qZ - fra)) (1, 0).
Definition f1c : d2 := Eval vm_compute in ofP 48 (cjz (zp2 1)).
Definition f2c : d2 := Eval vm_compute in ofP 48 (cjz (zp2 2)).
Definition f3c : d2 := Eval vm_compute in ofP 48 (cjz (zp2 3)).
Definition f4c : d2 := Eval vm_compute in ofP 48 (cjz (zp2 4)).
Definition f5c : d2 := Eval vm_compute in ofP 48 (cjz (zp2 5)).
Definition fpk (n : nat) : kd2 := kk (cjz (zp2 1)) (cjz (zp2 n)) (0, 0) (cjz (zp2 (S n))).
Definition f2k : kd2 := Eval vm_compute in fpk 1.
Definition f3k : kd2 := Eval vm_compute in fpk 2.
Definition f4k : kd2 := Eval vm_compute in fpk 3.
Definition f5k : kd2 := Eval vm_compute in fpk 4.
Lemma f1c_ok : v2 f1c = gconj gf.
Proof. rewrite <- gfd_ok. apply cjd_ok. vmt. Qed.
Lemma fc_step k a b : ck2 k (pm2 f1c a) b = true -> v2 b = gmul (gconj gf) (v2 a).
Proof. intros H. apply ck2_ok in H. rewrite <- H, pm2_v, f1c_ok. reflexivity. Qed.
Lemma f2c_ok : v2 f2c = gconj (gmul gf gf).
Proof. rewrite gconj_mul, <- f1c_ok. rewrite (fc_step f2k f1c f2c), f1c_ok by vmt. reflexivity. Qed.
Lemma f3c_ok : v2 f3c = gconj (gmul gf (gmul gf gf)).
Proof. rewrite gconj_mul, <- f2c_ok. apply (fc_step f3k). vmt. Qed.
Lemma f4c_ok : v2 f4c = gconj (gmul gf (gmul gf (gmul gf gf))).
Proof. rewrite gconj_mul, <- f3c_ok. apply (fc_step f4k). vmt. Qed.
Lemma f5c_ok : v2 f5c = gconj (gmul gf (gmul gf (gmul gf (gmul gf gf)))).
Proof. rewrite gconj_mul, <- f4c_ok. apply (fc_step f5k). vmt. Qed.
Definition fr12 (x : d12) : sg12 :=
  let (a, t) := x in let (b, c) := t in let (a0, a1) := a in let (b0, b1) := b in let (c0, c1) := c in
  ((scj2 (sof a0), scj2 (pm2 a1 f3c)), ((scj2 (pm2 b0 f1c), scj2 (pm2 b1 f4c)), (scj2 (pm2 c0 f2c), scj2 (pm2 c1 f5c)))).
#[local] Opaque f1c f2c f3c f4c f5c.
Lemma fr12_v x : vs12 (fr12 x) = kfrob (v12 x).
Proof.
  destruct x as [[a0 a1] [[b0 b1] [c0 c1]]]. unfold fr12, vs12, v12, kfrob, kfrobf, vs4, v4, hfrob, hscale. cbv zeta. cbn [fst snd ka kb kc].
  rewrite !scj2_v, !pm2_v, !sof_v, f1c_ok, f2c_ok, f3c_ok, f4c_ok, f5c_ok.
  generalize gf. intros f. rewrite !gconj_mul, !gconj_conj. apply f_equal3; apply f_equal2; ring.
Qed.

(* ------------------- making the certificates ----------------------- *)
Section Make.
Definition z4 : Set := (z22 * z22)%type.
Definition z12 : Set := (z4 * (z4 * z4))%type.
Definition ua2 (a b : z22) : z22 := (fst a + fst b, snd a + snd b).
Definition us2 (a b : z22) : z22 := (fst a - fst b, snd a - snd b).
Definition ux2 (a : z22) : z22 := (fst a - snd a, fst a + snd a).
Definition uc2 (a : z22) : z22 := (fst a, - snd a).
Definition um2 (a b : z22) : z22 :=
  let p := fst a * fst b in let r := snd a * snd b in (p - r, (fst a + snd a) * (fst b + snd b) - p - r).
Definition uq2 (a : z22) : z22 := ((fst a + snd a) * (fst a - snd a), 2 * (fst a * snd a)).
Definition ua4 (a b : z4) : z4 := (ua2 (fst a) (fst b), ua2 (snd a) (snd b)).
Definition us4 (a b : z4) : z4 := (us2 (fst a) (fst b), us2 (snd a) (snd b)).
Definition uc4 (a : z4) : z4 := (fst a, us2 (0, 0) (snd a)).
Definition ux4 (a : z4) : z4 := (ux2 (snd a), fst a).
Definition um4 (a b : z4) : z4 :=
  let p := um2 (fst a) (fst b) in let r := um2 (snd a) (snd b) in
  (ua2 p (ux2 r), us2 (um2 (ua2 (fst a) (snd a)) (ua2 (fst b) (snd b))) (ua2 p r)).
Definition uq4 (a : z4) : z4 :=
  let p := uq2 (fst a) in let r := uq2 (snd a) in (ua2 p (ux2 r), us2 (uq2 (ua2 (fst a) (snd a))) (ua2 p r)).
Definition uk4 (a : z4) (b : z22) : z4 := (um2 (fst a) b, um2 (snd a) b).
Definition um12 (x y : z12) : z12 :=
  let '(a, (b, c)) := x in let '(a', (b', c')) := y in
  let aa := um4 a a' in let bb := um4 b b' in let cc := um4 c c' in
  (ua4 aa (ux4 (us4 (um4 (ua4 b c) (ua4 b' c')) (ua4 bb cc))),
   (ua4 (us4 (um4 (ua4 a b) (ua4 a' b')) (ua4 aa bb)) (ux4 cc),
    ua4 (us4 (um4 (ua4 a c) (ua4 a' c')) (ua4 aa cc)) bb)).
Definition uq12 (x : z12) : z12 :=
  let '(a, (b, c)) := x in let aa := uq4 a in let cc := uq4 c in let m := um4 a b in let n := um4 b c in
  let m2 := ua4 m m in let n2 := ua4 n n in
  (ua4 aa (ux4 n2), (ua4 m2 (ux4 cc), us4 (uq4 (ua4 a (ua4 b c))) (ua4 (ua4 aa cc) (ua4 m2 n2)))).
Definition u43 (a : z4) : z4 := ua4 a (ua4 a a).
Definition uu12 (x : z12) : z12 :=
  let '(a, (b, c)) := x in
  (us4 (u43 (uq4 a)) (uc4 (ua4 a a)), (ua4 (u43 (ux4 (uq4 c))) (uc4 (ua4 b b)), us4 (u43 (uq4 b)) (uc4 (ua4 c c)))).
Definition ul4 (n : z22) (a : z4) : z4 := ua4 (uk4 a n) (ux4 a).
Definition ul12 (x : z12) (n e : z22) : z12 :=
  let '(a, (b, c)) := x in
  (ua4 (ul4 n a) (ux4 (uk4 b e)), (ua4 (ul4 n b) (ux4 (uk4 c e)), ua4 (ul4 n c) (uk4 a e))).
Definition uj12 (x : z12) : z12 := let '(a, (b, c)) := x in (uc4 a, (us4 ((0, 0), (0, 0)) (uc4 b), uc4 c)).
Definition uf12 (x : z12) : z12 :=
  let '((a0, a1), ((b0, b1), (c0, c1))) := x in let g n := cjz (zp2 n) in
  ((uc2 a0, uc2 (um2 a1 (g 3%nat))), ((uc2 (um2 b0 (g 1%nat)), uc2 (um2 b1 (g 4%nat))), (uc2 (um2 c0 (g 2%nat)), uc2 (um2 c1 (g 5%nat))))).
(* quotient and remainder *)
Definition muZ : Z := Eval vm_compute in 2 ^ 830 / qZ.
Fixpoint fixr (f : nat) (d c : Z) : Z * Z := match f with
  | O => (d, c)
  | S f' => if c <? 0 then fixr f' (d - 1) (c + qZ) else if c <? qZ then (d, c) else fixr f' (d + 1) (c - qZ)
  end.
Definition dme (z : Z) : Z * Z := let d := Z.shiftr (Z.shiftr z 360 * muZ) 470 in fixr 9 d (z - d * qZ).
Definition ur1 (z : Z) : (bool * num) * Z := let (d, c) := dme z in ((if d <? 0 then (false, ofZt 140 (- d)) else (true, ofZt 140 d)), c).
Definition ur2 (a : z22) : kd2 * z22 := let (k, c) := ur1 (fst a) in let (k', c') := ur1 (snd a) in ((k, k'), (c, c')).
Definition ur4 (a : z4) : kd4 * z4 := let (k, c) := ur2 (fst a) in let (k', c') := ur2 (snd a) in ((k, k'), (c, c')).
Definition ur12 (x : z12) : kd12 * z12 :=
  let '(a, (b, c)) := x in let (k0, a') := ur4 a in let (k1, b') := ur4 b in let (k2, c') := ur4 c in ((k0, (k1, k2)), (a', (b', c'))).
Definition of4 (a : z4) : d4 := (ofP 48 (fst a), ofP 48 (snd a)).
Definition of12 (x : z12) : d12 := let '(a, (b, c)) := x in (of4 a, (of4 b, of4 c)).
End Make.
