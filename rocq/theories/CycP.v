(* The subgroup of F_q12* of order q^4 - q^2 + 1, where the fast squaring and
   conjugation of the final exponentiation are valid. *)
From Coq Require Import ZArith List Bool Lia Znumtheory Field.
From Verif Require Import NumT FieldQ FieldQ2 Tower TowerP FrobP.
Open Scope Z_scope.

Definition cn : Z := q2 * q2 - q2 + 1.
Lemma cn_q2 : cn = q2 * q2 - q2 + 1. Proof. reflexivity. Qed.
Lemma q2_gt1 : 1 < q2. Proof. pose proof (prime_ge_2 _ q381_prime). unfold q2. nia. Qed.
Lemma cn_pos : 1 < cn. Proof. pose proof q2_gt1. rewrite cn_q2. nia. Qed.
Lemma kfrob2_pw2 x : kpw x q2 = kfrob2 x. Proof. exact (kfrob2_pw x). Qed.
#[global] Opaque cn q2.
Definition cyc (x : Fq12) : Prop := kpw x cn = k1.
Lemma cyc_1 : cyc k1. Proof. apply kpw_one. Qed.
Lemma cyc_mul x y : cyc x -> cyc y -> cyc (kmul x y).
Proof. unfold cyc. intros X Y. rewrite (kpw_base x y cn), X, Y. ring. Qed.
Lemma cyc_pw x e : 0 <= e -> cyc x -> cyc (kpw x e).
Proof.
  unfold cyc. intros E X. pose proof cn_pos. rewrite <- (kpw_mul x e cn) by lia. rewrite Z.mul_comm, (kpw_mul x cn e), X by lia. apply kpw_one.
Qed.
Lemma cyc_conj x : cyc x -> cyc (kconj x).
Proof. intros X. rewrite <- (kconj_pw x). pose proof q2_gt1. apply cyc_pw; [nia|exact X]. Qed.
Lemma cyc_inv x : cyc x -> kmul x (kconj x) = k1.
Proof.
  unfold cyc. intros X. pose proof q2_gt1. pose proof cn_pos. rewrite <- (kconj_pw x). rewrite <- (kpw_1 x) at 1.
  rewrite <- (kpw_add x 1 (q2 * q2 * q2)) by nia. replace (1 + q2 * q2 * q2) with (cn * (q2 + 1)) by (rewrite cn_q2; ring).
  rewrite (kpw_mul x cn (q2 + 1)), X by lia. apply kpw_one.
Qed.
Lemma cyc_eq x : cyc x -> kmul (kfrob4 x) x = kfrob2 x.
Proof.
  unfold cyc. intros X. pose proof q2_gt1. pose proof cn_pos. rewrite <- (kfrob4_pw x), <- (kfrob2_pw2 x). rewrite <- (kpw_1 x) at 2.
  rewrite <- (kpw_add x (q2 * q2) 1) by nia. replace (q2 * q2 + 1) with (cn + q2) by (rewrite cn_q2; ring).
  rewrite (kpw_add x cn q2), X by lia. ring.
Qed.

(* Granger-Scott squaring *)
Definition h3 (x : Fq4) : Fq4 := hadd x (hadd x x).
Definition kusqr (x : Fq12) : Fq12 :=
  mk12 (hsub (h3 (hmul (ka x) (ka x))) (hadd (hconj (ka x)) (hconj (ka x))))
       (hadd (h3 (hmul hs (hmul (kc x) (kc x)))) (hadd (hconj (kb x)) (hconj (kb x))))
       (hsub (h3 (hmul (kb x) (kb x))) (hadd (hconj (kc x)) (hconj (kc x)))).
Section GS.
  Variables (c : Fq2) (a b d : Fq4).
  Hypothesis CR : gmul c c = gsub c g1.
  Notation x := (mk12 a b d).
  Hypothesis E : kmul (kfrob4c c x) x = kfrob2c c x.
  Lemma hscale_mul u y : hscale u y = hmul (hemb u) y.
  Proof. destruct y as [y0 y1]. unfold hscale, hmul, hemb. cbn [fst snd]. f_equal; ring. Qed.
  Lemma hemb_sub u v : hemb (gsub u v) = hsub (hemb u) (hemb v).
  Proof. unfold hemb, hsub. cbn [fst snd]. f_equal; ring. Qed.
  Lemma hemb_opp u : hemb (gopp u) = hopp (hemb u).
  Proof. unfold hemb, hopp. cbn [fst snd]. f_equal; ring. Qed.
  Notation C := (hemb c).
  Lemma HC : hmul C C = hsub C h1.
  Proof. rewrite <- hemb_mul, CR, hemb_sub. reflexivity. Qed.
  Lemma gs_a : hsub (hmul a a) (hmul hs (hmul b d)) = hconj a.
  Proof.
    pose proof (f_equal ka E) as H. unfold kmul, kfrob4c, kfrob2c in H. cbn [ka kb kc] in H.
    rewrite !hscale_mul, hemb_opp, hemb_sub in H. change (hemb g1) with h1 in H. rewrite <- H. ring.
  Qed.
  Lemma gs_b : hsub (hmul hs (hmul d d)) (hmul a b) = hopp (hconj b).
  Proof.
    pose proof (f_equal kb E) as H. unfold kmul, kfrob4c, kfrob2c in H. cbn [ka kb kc] in H.
    rewrite !hscale_mul, hemb_opp, hemb_sub in H. change (hemb g1) with h1 in H. pose proof HC as HC0.
    revert H HC0. generalize (hemb c) (hconj b). intros C b' H HC0.
    (* multiply by c^2 - c = -1 .. c^-1 = 1 - c *)
    assert (I : hmul C (hsub h1 C) = h1). { transitivity (hsub C (hmul C C)); [ring|]. rewrite HC0. ring. }
    transitivity (hopp (hmul (hsub h1 C) (hmul C b'))).
    - rewrite <- H. transitivity (hmul (hmul C (hsub h1 C)) (hsub (hmul hs (hmul d d)) (hmul a b))); [rewrite I; ring|]. ring.
    - transitivity (hopp (hmul (hmul C (hsub h1 C)) b')); [ring|]. rewrite I. ring.
  Qed.
  Lemma gs_c : hsub (hmul b b) (hmul a d) = hconj d.
  Proof.
    pose proof (f_equal kc E) as H. unfold kmul, kfrob4c, kfrob2c in H. cbn [ka kb kc] in H.
    rewrite !hscale_mul, hemb_opp, hemb_sub in H. change (hemb g1) with h1 in H. pose proof HC as HC0.
    revert H HC0. generalize (hemb c) (hconj d). intros C d' H HC0.
    assert (I : hmul (hsub C h1) (hopp C) = h1). { transitivity (hsub C (hmul C C)); [ring|]. rewrite HC0. ring. }
    transitivity (hmul (hopp C) (hmul (hsub C h1) d')).
    - rewrite <- H. transitivity (hmul (hmul (hsub C h1) (hopp C)) (hsub (hmul b b) (hmul a d))); [rewrite I; ring|]. ring.
    - transitivity (hmul (hmul (hsub C h1) (hopp C)) d'); [ring|]. rewrite I. ring.
  Qed.
  Lemma gs_sqr : kusqr x = kmul x x.
  Proof.
    unfold kusqr, kmul, h3. cbn [ka kb kc]. rewrite <- gs_a at 1. rewrite <- gs_a at 1.
    assert (B : hconj b = hsub (hmul a b) (hmul hs (hmul d d))).
    { transitivity (hopp (hopp (hconj b))); [ring|]. rewrite <- gs_b. ring. }
    rewrite B, <- gs_c. apply f_equal3; ring.
  Qed.
End GS.
Lemma kusqr_ok x : cyc x -> kusqr x = kmul x x.
Proof. intros X. apply cyc_eq in X. destruct x as [a b d]. exact (gs_sqr gc a b d gc_root X). Qed.

(* ------------------------- Fermat in F_q12 ---------------------------- *)
Lemma fermat12 x : x <> k0 -> kpw x (q2 * q2 * q2 * (q2 * q2 * q2) - 1) = k1.
Proof.
  intros N. pose proof q2_gt1. assert (H3 : 1 < q2 * q2 * q2) by nia. set (n := q2 * q2 * q2) in *.
  assert (E : kmul x (kpw x (n * n - 1)) = x).
  { rewrite <- (kpw_1 x) at 1. rewrite <- (kpw_add x 1 (n * n - 1)) by nia. replace (1 + (n * n - 1)) with (n * n) by ring.
    rewrite (kpw_mul x n n) by lia. unfold n. rewrite (kconj_pw x), (kconj_pw (kconj x)). apply kconj_conj. }
  transitivity (kdiv (kmul x (kpw x (n * n - 1))) x); [field; exact N|]. rewrite E. field. exact N.
Qed.
Lemma kconj_nz x : x <> k0 -> kconj x <> k0.
Proof.
  intros N H. apply N. rewrite <- (kconj_conj x), H. rewrite <- (kconj_pw k0). pose proof q2_gt1. apply kpw_zero. nia.
Qed.
(* the easy part of the final exponentiation: (q^6 - 1)(q^2 + 1) *)
Definition keasy (m : Fq12) : Fq12 := let y := kmul (kconj m) (kinv m) in kmul (kfrob2 y) y.
Lemma keasy_pw m : m <> k0 -> keasy m = kpw m ((q2 * q2 * q2 - 1) * (q2 + 1)).
Proof.
  intros N. pose proof q2_gt1. assert (H3 : 1 < q2 * q2 * q2) by nia. unfold keasy. cbv zeta.
  assert (Y : kmul (kconj m) (kinv m) = kpw m (q2 * q2 * q2 - 1)).
  { transitivity (kdiv (kmul (kpw m (q2 * q2 * q2 - 1)) (kpw m 1)) m).
    - rewrite <- (kpw_add m (q2 * q2 * q2 - 1) 1) by lia. rewrite Z.sub_add, (kconj_pw m). unfold kdiv. reflexivity.
    - rewrite kpw_1. field. exact N. }
  rewrite Y, <- (kfrob2_pw2 (kpw m (q2 * q2 * q2 - 1))).
  rewrite (kpw_mul m (q2 * q2 * q2 - 1) (q2 + 1)) by lia.
  generalize (kpw m (q2 * q2 * q2 - 1)). intros y. rewrite (kpw_add y q2 1), kpw_1 by lia. reflexivity.
Qed.
Lemma keasy_cyc m : m <> k0 -> cyc (keasy m).
Proof.
  intros N. pose proof q2_gt1. pose proof cn_pos. assert (H3 : 1 < q2 * q2 * q2) by nia. rewrite (keasy_pw m N). unfold cyc.
  rewrite <- (kpw_mul m ((q2 * q2 * q2 - 1) * (q2 + 1)) cn) by nia.
  replace ((q2 * q2 * q2 - 1) * (q2 + 1) * cn) with (q2 * q2 * q2 * (q2 * q2 * q2) - 1) by (rewrite cn_q2; ring).
  apply fermat12. exact N.
Qed.

(* powers of an element of the subgroup, any integer exponent *)
Definition zp (z : Fq12) (a : Z) : Fq12 := kpw z (a mod cn).
Lemma zp_pw z a : cyc z -> 0 <= a -> zp z a = kpw z a.
Proof.
  unfold cyc, zp. intros Z1 A. pose proof cn_pos. rewrite (Z.div_mod a cn) at 2 by lia.
  pose proof (Z.mod_pos_bound a cn ltac:(lia)). assert (0 <= a / cn) by (apply Z.div_pos; lia).
  rewrite (kpw_add z (cn * (a / cn)) (a mod cn)) by nia. rewrite (kpw_mul z cn (a / cn)), Z1, kpw_one by lia. ring.
Qed.
Lemma zp_mod z a : zp z (a mod cn) = zp z a.
Proof. unfold zp. pose proof cn_pos. rewrite Z.mod_mod by lia. reflexivity. Qed.
Lemma zp_congr z a b : a mod cn = b mod cn -> zp z a = zp z b.
Proof. unfold zp. intros ->. reflexivity. Qed.
Lemma zp_1 z : cyc z -> zp z 1 = z.
Proof. intros Z1. rewrite (zp_pw z 1 Z1) by lia. apply kpw_1. Qed.
Lemma zp_cyc z a : cyc z -> cyc (zp z a).
Proof. intros Z1. apply cyc_pw; [|exact Z1]. pose proof cn_pos. apply Z.mod_pos_bound. lia. Qed.
Lemma zp_mul z a b : cyc z -> kmul (zp z a) (zp z b) = zp z (a + b).
Proof.
  intros Z1. pose proof cn_pos. pose proof (Z.mod_pos_bound a cn ltac:(lia)). pose proof (Z.mod_pos_bound b cn ltac:(lia)).
  rewrite (zp_congr z (a + b) (a mod cn + b mod cn)) by (rewrite <- Z.add_mod by lia; reflexivity).
  rewrite (zp_pw z (a mod cn + b mod cn) Z1) by lia. unfold zp. rewrite (kpw_add z (a mod cn) (b mod cn)) by lia. reflexivity.
Qed.
Lemma zp_kpw z a e : cyc z -> 0 <= e -> kpw (zp z a) e = zp z (a * e).
Proof.
  intros Z1 E0. pose proof cn_pos. pose proof (Z.mod_pos_bound a cn ltac:(lia)).
  rewrite (zp_congr z (a * e) (a mod cn * e)) by (rewrite Z.mul_mod_idemp_l by lia; reflexivity).
  rewrite (zp_pw z (a mod cn * e) Z1) by nia. unfold zp. rewrite (kpw_mul z (a mod cn) e) by lia. reflexivity.
Qed.
Lemma zp_0 z : zp z 0 = k1. Proof. unfold zp. pose proof cn_pos. rewrite Z.mod_0_l by lia. reflexivity. Qed.
Lemma zp_conj z a : cyc z -> kconj (zp z a) = zp z (- a).
Proof.
  intros Z1. pose proof (zp_cyc z a Z1) as A. pose proof (zp_cyc z (- a) Z1) as B.
  pose proof (zp_mul z a (- a) Z1) as M. rewrite Z.add_opp_diag_r, zp_0 in M. pose proof (cyc_inv _ A) as I.
  transitivity (kmul (kmul (zp z a) (zp z (- a))) (kconj (zp z a))); [rewrite M; ring|].
  transitivity (kmul (kmul (zp z a) (kconj (zp z a))) (zp z (- a))); [ring|]. rewrite I. ring.
Qed.
Lemma zp_frob z a : cyc z -> kfrob (zp z a) = zp z (a * q381).
Proof. intros Z1. rewrite (kfrob_pw (zp z a)). pose proof q381_pos. apply zp_kpw; [exact Z1|lia]. Qed.
