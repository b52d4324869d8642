(* The q-th power map of F_q12, explicitly. *)
From Coq Require Import ZArith List Bool Lia Znumtheory Field.
From Verif Require Import NumT FieldQ FieldQ2 Tower TowerP.
Open Scope Z_scope.

(* ------------------------- binomial coefficients ---------------------- *)
Fixpoint bin (n k : nat) : nat :=
  match k with
  | O => 1
  | S k' => match n with O => 0 | S n' => bin n' k' + bin n' k end
  end%nat.
Lemma bin_SS n k : bin (S n) (S k) = (bin n k + bin n (S k))%nat. Proof. reflexivity. Qed.
Lemma bin_0 n : bin n 0 = 1%nat. Proof. destruct n; reflexivity. Qed.
Lemma bin_gt n : forall k, (n < k)%nat -> bin n k = 0%nat.
Proof.
  induction n as [|n IH]; intros k K; destruct k as [|k]; try lia; [reflexivity|]. rewrite bin_SS, !IH by lia. reflexivity.
Qed.
Lemma bin_nn n : bin n n = 1%nat.
Proof. induction n as [|n IH]; [reflexivity|]. rewrite bin_SS, IH, bin_gt by lia. reflexivity. Qed.
Lemma bin_absorb n : forall k, (S k * bin (S n) (S k) = S n * bin n k)%nat.
Proof.
  induction n as [|n IH]; intros k.
  - rewrite bin_SS. destruct k as [|k]; [reflexivity|]. rewrite !(bin_gt 0) by lia. lia.
  - rewrite bin_SS. destruct k as [|k].
    + pose proof (IH 0%nat) as H. rewrite !bin_0 in *. lia.
    + pose proof (IH (S k)) as H1. pose proof (IH k) as H2. rewrite (bin_SS n k) in *. lia.
Qed.
Lemma bin_prime (q : Z) k : prime q -> (0 < k < Z.to_nat q)%nat -> (q | Z.of_nat (bin (Z.to_nat q) k)).
Proof.
  intros P K. pose proof (prime_ge_2 q P). destruct k as [|k]; [lia|].
  assert (E : Z.to_nat q = S (Z.to_nat (q - 1))) by lia. pose proof (bin_absorb (Z.to_nat (q - 1)) k) as A.
  rewrite <- E in A. apply (f_equal Z.of_nat) in A. rewrite !Nat2Z.inj_mul, Z2Nat.id in A by lia.
  assert (D : (q | Z.of_nat (S k) * Z.of_nat (bin (Z.to_nat q) (S k)))) by (rewrite A; apply Z.divide_factor_l).
  apply prime_mult in D; [|exact P]. destruct D as [D|D]; [|exact D].
  apply Z.divide_pos_le in D; lia.
Qed.

(* ------------------------- the additive power map --------------------- *)
Definition kz (n : Z) : Fq12 := kemb (hemb (gemb (mkq n))).
Lemma kz_add a b : kz (a + b) = kadd (kz a) (kz b).
Proof. unfold kz, kemb, kadd, hemb, hadd, gemb, gadd. cbn [ka kb kc fst snd]. rewrite mkq_add. f_equal; repeat f_equal; cbn [fst snd]; ring. Qed.
Lemma kz_1 : kz 1 = k1. Proof. reflexivity. Qed.
Lemma kz_0 : kz 0 = k0. Proof. reflexivity. Qed.
Lemma kz_q n : (q381 | n) -> kz n = k0.
Proof. intros [c ->]. unfold kz. rewrite <- kz_0. unfold kz. f_equal. f_equal. f_equal. apply mkq_eq. rewrite Z.mod_mul, Z.mod_0_l by apply q381_nz. reflexivity. Qed.
#[global] Opaque kz.

Fixpoint ksum (f : nat -> Fq12) (n : nat) : Fq12 := match n with O => f O | S m => kadd (ksum f m) (f (S m)) end.
Definition kpn x (n : nat) := kpw x (Z.of_nat n).
Lemma kpn_S x n : kpn x (S n) = kmul x (kpn x n).
Proof. unfold kpn. rewrite Nat2Z.inj_succ, kpw_succ by lia. reflexivity. Qed.
Lemma kpn_0 x : kpn x 0 = k1. Proof. reflexivity. Qed.
Lemma bsum_S x n : forall m,
  ksum (fun k => kmul (kz (Z.of_nat (bin (S n) k))) (kpn x k)) (S m) =
  kadd (ksum (fun k => kmul (kz (Z.of_nat (bin n k))) (kpn x k)) (S m))
       (kmul x (ksum (fun k => kmul (kz (Z.of_nat (bin n k))) (kpn x k)) m)).
Proof.
  induction m as [|m IH].
  - cbn [ksum]. rewrite bin_SS, !bin_0, Nat2Z.inj_add, kz_add, kpn_S, kpn_0. change (Z.of_nat 1) with 1. rewrite kz_1. ring.
  - cbn [ksum] in IH |- *. rewrite IH. rewrite bin_SS, Nat2Z.inj_add, kz_add, (kpn_S x (S m)). ring.
Qed.
Lemma bsum_pad x n m : ksum (fun k => kmul (kz (Z.of_nat (bin n k))) (kpn x k)) (n + m) =
  ksum (fun k => kmul (kz (Z.of_nat (bin n k))) (kpn x k)) n.
Proof.
  induction m as [|m IH]; [rewrite Nat.add_0_r; reflexivity|]. rewrite Nat.add_succ_r. cbn [ksum]. rewrite IH, bin_gt by lia.
  change (Z.of_nat 0) with 0. rewrite kz_0. ring.
Qed.
Lemma binomial x n : kpn (kadd x k1) n = ksum (fun k => kmul (kz (Z.of_nat (bin n k))) (kpn x k)) n.
Proof.
  induction n as [|n IH].
  - cbn [ksum]. rewrite bin_0, !kpn_0. change (Z.of_nat 1) with 1. rewrite kz_1. ring.
  - rewrite kpn_S, bsum_S. pose proof (bsum_pad x n 1) as B. rewrite Nat.add_1_r in B. rewrite B, <- IH. ring.
Qed.
Lemma ksum_0 f n : (forall k, (k <= n)%nat -> (k <> 0)%nat -> f k = k0) -> ksum f n = f O.
Proof.
  induction n as [|n IH]; intros H; [reflexivity|]. cbn [ksum]. rewrite IH by (intros; apply H; lia). rewrite (H (S n)) by lia. ring.
Qed.
Lemma frob_1 x : kpw (kadd x k1) q381 = kadd (kpw x q381) k1.
Proof.
  pose proof q381_prime as P. pose proof (prime_ge_2 _ P) as P2.
  assert (E : q381 = Z.of_nat (Z.to_nat q381)) by lia. rewrite E.
  change (kpn (kadd x k1) (Z.to_nat q381) = kadd (kpn x (Z.to_nat q381)) k1). rewrite binomial.
  pose proof (fun k => bin_prime q381 k P) as D. set (n := Z.to_nat q381) in *.
  assert (N : (0 < n)%nat) by lia. clearbody n. clear E. destruct n as [|n]; [lia|]. cbn [ksum].
  rewrite ksum_0.
  - rewrite bin_0, bin_nn, kpn_0. change (Z.of_nat 1) with 1. rewrite kz_1. ring.
  - intros k K K0. rewrite kz_q; [ring|]. apply D. lia.
Qed.
Lemma frob_add x y : kpw (kadd x y) q381 = kadd (kpw x q381) (kpw y q381).
Proof.
  pose proof q381_pos. destruct (Fq12_dec y k0) as [->|N].
  - rewrite kpw_zero by lia. replace (kadd x k0) with x by ring. ring.
  - assert (E : kadd x y = kmul (kadd (kdiv x y) k1) y) by (field; exact N).
    rewrite E, kpw_base, frob_1. assert (X : x = kmul (kdiv x y) y) by (field; exact N).
    rewrite X at 2. rewrite kpw_base. ring.
Qed.

(* ------------------------- on each level ------------------------------ *)
Lemma kemb_mul x y : kemb (hmul x y) = kmul (kemb x) (kemb y).
Proof. unfold kemb, kmul. cbn [ka kb kc]. f_equal; ring. Qed.
Lemma hemb_mul x y : hemb (gmul x y) = hmul (hemb x) (hemb y).
Proof. unfold hemb, hmul. cbn [fst snd]. f_equal; ring. Qed.
Lemma gemb_mul x y : gemb (fmul x y) = gmul (gemb x) (gemb y).
Proof. unfold gemb, gmul. cbn [fst snd]. f_equal; ring. Qed.
(* scalars *)
Definition k2emb (x : Fq2) : Fq12 := kemb (hemb x).
Definition k1emb (x : Fq) : Fq12 := k2emb (gemb x).
Lemma k2emb_mul x y : k2emb (gmul x y) = kmul (k2emb x) (k2emb y).
Proof. unfold k2emb. rewrite hemb_mul. apply kemb_mul. Qed.
Lemma k2emb_add x y : k2emb (gadd x y) = kadd (k2emb x) (k2emb y).
Proof. unfold k2emb, kemb, hemb, kadd, hadd. cbn [ka kb kc fst snd]. f_equal; f_equal; cbn [h0 fst snd]; ring. Qed.
Lemma k2emb_pw x e : k2emb (gpw x e) = kpw (k2emb x) e.
Proof. exact (rpow_hom gmul g1 kmul k1 k2emb eq_refl k2emb_mul x e). Qed.
Lemma gemb_pw x e : 0 <= e -> gemb (fpw x e) = gpw (gemb x) e.
Proof.
  revert e. apply natlike_ind.
  - rewrite fpw_0. reflexivity.
  - intros e E IH. rewrite <- !Z.add_1_r, fpw_add, gpw_add, fpw_1, gpw_1, <- IH, gemb_mul by lia. reflexivity.
Qed.
Definition gi : Fq2 := (f0, f1).
Lemma gi_sq : gmul gi gi = gopp g1.
Proof. unfold gi, gmul, gopp, g1. cbn [fst snd]. f_equal; ring. Qed.
Lemma gpw_m1_even n : 0 <= n -> gpw (gopp g1) (2 * n) = g1.
Proof.
  intros N. rewrite gpw_mul, gpw_2 by lia. replace (gmul (gopp g1) (gopp g1)) with g1 by ring. apply gpw_one.
Qed.
(* i to a power that is 3 mod 4 *)
Lemma gi_pw3 n : 0 <= n -> gpw gi (4 * n + 3) = gopp gi.
Proof.
  intros N. replace (4 * n + 3) with (2 * (2 * n + 1) + 1) by lia. rewrite gpw_add, gpw_mul, gpw_1, gpw_2, gi_sq by lia.
  rewrite gpw_add, gpw_m1_even, gpw_1 by lia. ring.
Qed.
Lemma fq_pw x : fpw x q381 = x.
Proof.
  pose proof q381_pos. destruct (Fq_dec x f0) as [->|N].
  - replace q381 with (1 + (q381 - 1)) by lia. rewrite fpw_add, fpw_1 by lia. ring.
  - replace q381 with (1 + (q381 - 1)) by lia. rewrite fpw_add, fpw_1, fpw_fermat by (lia || exact N). ring.
Qed.
Lemma gsplit x : x = gadd (gemb (fst x)) (gmul gi (gemb (snd x))).
Proof. destruct x as [a b]. unfold gadd, gmul, gi, gemb. cbn [fst snd]. f_equal; ring. Qed.
Lemma frob_k2 x : kpw (k2emb x) q381 = k2emb (gconj x).
Proof.
  pose proof q381_pos as QP. rewrite (gsplit x) at 1. rewrite k2emb_add, k2emb_mul, frob_add, kpw_base.
  rewrite <- !k2emb_pw, <- !gemb_pw, !fq_pw by lia.
  pose proof q381_mod4' as M. pose proof (Z.div_mod q381 4 ltac:(lia)) as D.
  assert (K : 0 <= q381 / 4) by (apply Z.div_pos; lia). rewrite M in D.
  replace (gpw gi q381) with (gopp gi) by (rewrite D; symmetry; apply gi_pw3; exact K).
  rewrite <- k2emb_mul, <- k2emb_add. f_equal. destruct x as [a b]. unfold gconj, gadd, gmul, gopp, gi, gemb. cbn [fst snd]. f_equal; ring.
Qed.

(* w^6 = 1 + i *)
Lemma kw_3 : kpw kw 3 = kemb hs.
Proof.
  change 3 with (1 + 2). rewrite kpw_add, kpw_1, kpw_2 by lia. unfold kw, kmul, kemb. cbn [ka kb kc]. f_equal; ring.
Qed.
Lemma hs_sq : hmul hs hs = hemb gi1.
Proof. unfold hs, hmul, hemb. cbn [fst snd]. f_equal; ring. Qed.
Lemma kw_6 : kpw kw 6 = k2emb gi1.
Proof. change 6 with (3 + 3). rewrite kpw_add, kw_3, <- kemb_mul, hs_sq by lia. reflexivity. Qed.

(* the constant of the Frobenius map: (1+i)^((q-1)/6) *)
Definition gf : Fq2 := (mkq fra, fopp (mkq fra)).
Lemma gi1_sq : gmul gi1 gi1 = gmul (gemb (mkq 2)) gi.
Proof.
  replace (mkq 2) with (fadd f1 f1) by (unfold f1; rewrite <- mkq_add; reflexivity).
  unfold gi1, gmul, gemb, gi. cbn [fst snd]. f_equal; ring.
Qed.
Lemma gi1_pw : gpw gi1 ((q381 - 1) / 6) = gf.
Proof.
  pose proof kexp_pos as K. pose proof kexp_4 as K4. rewrite kexp_q. rewrite Z.mul_comm, Z.div_mul by lia.
  rewrite gpw_add, gpw_mul, gpw_1, gpw_2, gi1_sq by lia. rewrite gpw_base, <- gemb_pw, two_kexp by lia.
  assert (E : gpw gi kexp = gopp gi).
  { rewrite K4. apply gi_pw3. apply Z.div_pos; lia. }
  rewrite E. unfold gi1, gf, gmul, gopp, gemb, gi. cbn [fst snd]. generalize (mkq fra). intros v. f_equal; ring.
Qed.
#[global] Opaque gf.
Lemma frob_w : kpw kw q381 = kmul kw (k2emb gf).
Proof.
  pose proof q381_pos. rewrite <- gi1_pw, k2emb_pw, <- kw_6. rewrite <- kpw_mul by (try apply Z.div_pos; lia).
  pose proof kexp_pos. pose proof kexp_q as Q. replace (6 * ((q381 - 1) / 6)) with (q381 - 1) by (rewrite Q, (Z.mul_comm 6), Z.div_mul; lia).
  rewrite <- (kpw_1 kw) at 2. rewrite <- kpw_add by lia.
  replace (1 + (q381 - 1)) with q381 by lia. reflexivity.
Qed.

(* the q-th power, coefficient by coefficient *)
Definition hfrob (f3 : Fq2) (x : Fq4) : Fq4 := (gconj (fst x), gmul (gconj (snd x)) f3).
Definition hscale (c : Fq2) (x : Fq4) : Fq4 := (gmul (fst x) c, gmul (snd x) c).
Definition kfrobf (f : Fq2) (x : Fq12) : Fq12 :=
  let f3 := gmul f (gmul f f) in
  mk12 (hfrob f3 (ka x)) (hscale f (hfrob f3 (kb x))) (hscale (gmul f f) (hfrob f3 (kc x))).
(* the q^2-th and q^4-th powers *)
Definition kfrob2c (c : Fq2) (x : Fq12) : Fq12 :=
  mk12 (hconj (ka x)) (hscale c (hconj (kb x))) (hscale (gsub c g1) (hconj (kc x))).
Definition kfrob4c (c : Fq2) (x : Fq12) : Fq12 :=
  mk12 (ka x) (hscale (gsub c g1) (kb x)) (hscale (gopp c) (kc x)).
Lemma gconj_mul x y : gconj (gmul x y) = gmul (gconj x) (gconj y).
Proof. destruct x, y. unfold gconj, gmul. cbn [fst snd]. f_equal; ring. Qed.
Lemma gconj_conj x : gconj (gconj x) = x.
Proof. destruct x. unfold gconj. cbn [fst snd]. f_equal; ring. Qed.
Lemma ksplit x : x = kadd (kadd (kemb (ka x)) (kmul kw (kemb (kb x)))) (kmul (kmul kw kw) (kemb (kc x))).
Proof. destruct x as [a b c]. unfold kadd, kmul, kemb, kw. cbn [ka kb kc]. f_equal; ring. Qed.
Lemma hsplit x : kemb x = kadd (k2emb (fst x)) (kmul (kmul kw (kmul kw kw)) (k2emb (snd x))).
Proof.
  assert (W : kmul kw (kmul kw kw) = kemb hs) by (unfold kw, kmul, kemb; cbn [ka kb kc]; f_equal; ring).
  rewrite W. unfold k2emb. rewrite <- kemb_mul. destruct x as [a b]. unfold kadd, kemb. cbn [ka kb kc fst snd]. apply f_equal3; [|ring|ring].
  unfold hadd, hemb, hmul, hs. cbn [fst snd]. f_equal; ring.
Qed.
Lemma hscale_emb c x : kemb (hscale c x) = kmul (kemb x) (k2emb c).
Proof.
  unfold k2emb. rewrite <- kemb_mul. f_equal. destruct x as [a b]. unfold hscale, hmul, hemb. cbn [fst snd]. f_equal; ring.
Qed.
Section Frob.
  Variables (q : Z) (f c : Fq2).
  Hypothesis FA : forall x y, kpw (kadd x y) q = kadd (kpw x q) (kpw y q).
  Hypothesis F2 : forall x, kpw (k2emb x) q = k2emb (gconj x).
  Hypothesis FW : kpw kw q = kmul kw (k2emb f).
  Hypothesis CN : gmul (gconj f) f = c.
  Hypothesis CR : gmul c c = gsub c g1.
  Lemma frob_h x : kpw (kemb x) q = kemb (hfrob (gmul f (gmul f f)) x).
  Proof.
    rewrite (hsplit x), FA, !kpw_base, FW, !F2, (hsplit (hfrob (gmul f (gmul f f)) x)). unfold hfrob. cbn [fst snd].
    rewrite !k2emb_mul. ring.
  Qed.
  Lemma kfrobf_pw x : kfrobf f x = kpw x q.
  Proof.
    rewrite (ksplit x) at 2. rewrite !FA, !kpw_base, FW, !frob_h.
    rewrite (ksplit (kfrobf f x)). unfold kfrobf. cbn [ka kb kc]. rewrite !hscale_emb, !k2emb_mul. ring.
  Qed.
  Lemma c_3 : gmul c (gmul c c) = gopp g1.
  Proof. rewrite CR. transitivity (gsub (gmul c c) c); [ring|]. rewrite CR. ring. Qed.
Lemma kfrob2_ok x : kfrobf f (kfrobf f x) = kfrob2c c x.
Proof.
  destruct x as [[a0 a1] [b0 b1] [c0 c1]]. unfold kfrobf, kfrob2c, hfrob, hscale, hconj. cbn [ka kb kc fst snd].
  rewrite !gconj_mul, !gconj_conj.
  assert (N3 : forall y, gmul (gmul y (gmul (gconj f) (gmul (gconj f) (gconj f)))) (gmul f (gmul f f)) = gopp y).
  { intros y. transitivity (gmul y (gmul (gmul (gconj f) f) (gmul (gmul (gconj f) f) (gmul (gconj f) f)))); [ring|].
    rewrite CN, c_3. ring. }
  apply f_equal3; apply f_equal2.
  - reflexivity.
  - apply N3.
  - rewrite <- CN. ring.
  - transitivity (gmul (gmul (gmul b1 (gmul (gconj f) (gmul (gconj f) (gconj f)))) (gmul f (gmul f f))) (gmul (gconj f) f)); [ring|].
    rewrite N3, CN. reflexivity.
  - transitivity (gmul c0 (gmul (gmul (gconj f) f) (gmul (gconj f) f))); [ring|]. rewrite CN, CR. reflexivity.
  - transitivity (gmul (gmul (gmul c1 (gmul (gconj f) (gmul (gconj f) (gconj f)))) (gmul f (gmul f f))) (gmul (gmul (gconj f) f) (gmul (gconj f) f))); [ring|].
    rewrite N3, CN, CR. reflexivity.
Qed.
Lemma kfrob4_ok x : kfrob2c c (kfrob2c c x) = kfrob4c c x.
Proof.
  destruct x as [[a0 a1] [b0 b1] [c0 c1]]. unfold kfrob2c, kfrob4c, hscale, hconj. cbn [ka kb kc fst snd].
  apply f_equal3; apply f_equal2; try ring.
  - transitivity (gmul b0 (gmul c c)); [ring|]. rewrite CR. ring.
  - transitivity (gmul b1 (gmul c c)); [ring|]. rewrite CR. ring.
  - transitivity (gmul c0 (gadd (gsub (gmul c c) (gadd c c)) g1)); [ring|]. rewrite CR. ring.
  - transitivity (gmul c1 (gadd (gsub (gmul c c) (gadd c c)) g1)); [ring|]. rewrite CR. ring.
Qed.
Lemma kfrob6_ok x : kfrob2c c (kfrob4c c x) = kconj x.
Proof.
  destruct x as [[a0 a1] [b0 b1] [c0 c1]]. unfold kfrob2c, kfrob4c, kconj, hscale, hconj, hopp. cbn [ka kb kc fst snd].
  apply f_equal3; apply f_equal2; try ring.
  - transitivity (gmul b0 (gsub (gmul c c) c)); [ring|]. rewrite CR. ring.
  - transitivity (gmul b1 (gsub c (gmul c c))); [ring|]. rewrite CR. ring.
  - transitivity (gmul c0 (gsub c (gmul c c))); [ring|]. rewrite CR. ring.
  - transitivity (gmul c1 (gsub (gmul c c) c)); [ring|]. rewrite CR. ring.
Qed.
End Frob.
(* c = norm of gf is a primitive sixth root of unity in Fq *)
Definition fc : Fq := gnorm gf.
Lemma fra_root : ((2 * fra * fra) * (2 * fra * fra) - 2 * fra * fra + 1) mod q381 = 0. Proof. vm_compute. reflexivity. Qed.
Lemma fc_root : fmul fc fc = fsub fc f1.
Proof.
  assert (C : fc = mkq (2 * fra * fra)).
  { rewrite !mkq_mul. replace (mkq 2) with (fadd f1 f1) by (unfold f1; rewrite <- mkq_add; reflexivity).
    Transparent gf. unfold fc, gnorm, gf. Opaque gf. cbn [fst snd]. generalize (mkq fra). intros v. ring. }
  rewrite C. unfold f1. rewrite <- mkq_mul, <- mkq_sub. apply mkq_eq.
  pose proof fra_root as E. set (a := 2 * fra * fra) in *. clearbody a.
  replace (a * a) with ((a * a - a + 1) + (a - 1)) by ring. rewrite Z.add_mod, E by apply q381_nz. rewrite Z.add_0_l. apply Z.mod_mod. apply q381_nz.
Qed.
#[global] Opaque fc.
Definition gc : Fq2 := gemb fc.
Lemma gc_root : gmul gc gc = gsub gc g1.
Proof. unfold gc. rewrite <- gemb_mul, fc_root. unfold gemb, gsub, g1. cbn [fst snd]. f_equal; ring. Qed.
Lemma gc_norm : gmul (gconj gf) gf = gc.
Proof.
  unfold gc. Transparent fc. unfold fc. Opaque fc. generalize gf. intros [a b]. unfold gmul, gconj, gemb, gnorm. cbn [fst snd]. f_equal; ring.
Qed.
Lemma gc_3 : gmul gc (gmul gc gc) = gopp g1.
Proof.
  rewrite gc_root. transitivity (gsub (gmul gc gc) gc); [ring|]. rewrite gc_root. ring.
Qed.

Definition kfrob : Fq12 -> Fq12 := kfrobf gf.
Definition kfrob2 : Fq12 -> Fq12 := kfrob2c gc.
Definition kfrob4 : Fq12 -> Fq12 := kfrob4c gc.
Lemma kfrob_pw x : kfrob x = kpw x q381.
Proof. exact (kfrobf_pw q381 gf frob_add frob_k2 frob_w x). Qed.
Lemma kfrob2_pw x : kpw x (q381 * q381) = kfrob2 x.
Proof.
  pose proof q381_pos. rewrite kpw_mul by lia. rewrite <- (kfrob_pw x), <- (kfrob_pw (kfrob x)).
  exact (kfrob2_ok gf gc gc_norm gc_root x).
Qed.
Definition q2 := q381 * q381.
Lemma q2_pos : 0 < q2. Proof. pose proof q381_pos. unfold q2. nia. Qed.
Lemma kfrob4_pw x : kpw x (q2 * q2) = kfrob4 x.
Proof.
  pose proof q2_pos. rewrite kpw_mul by lia. unfold q2. rewrite (kfrob2_pw x), (kfrob2_pw (kfrob2 x)).
  exact (kfrob4_ok gc gc_root x).
Qed.
Lemma kconj_pw x : kpw x (q2 * q2 * q2) = kconj x.
Proof.
  pose proof q2_pos. rewrite kpw_mul by nia. rewrite (kfrob4_pw x). unfold q2. rewrite (kfrob2_pw (kfrob4 x)).
  exact (kfrob6_ok gc gc_root x).
Qed.
Lemma kconj_conj x : kconj (kconj x) = x.
Proof.
  destruct x as [[a0 a1] [b0 b1] [c0 c1]]. unfold kconj, hconj, hopp. cbn [ka kb kc fst snd].
  apply f_equal3; apply f_equal2; ring.
Qed.
Lemma kconj_mul x y : kconj (kmul x y) = kmul (kconj x) (kconj y).
Proof. rewrite <- (kconj_pw (kmul x y)), <- (kconj_pw x), <- (kconj_pw y). apply kpw_base. Qed.
