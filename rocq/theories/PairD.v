(* The pairing of G2pt with the generator of the first group is not 1. *)
From Coq Require Import ZArith List Bool Lia Field.
From Verif Require Import Dig PowD NumT FieldQ FieldQ2 SpecCurve CurveP GroupP EcpP Ecp2P Ecp2C GenP Tower TowerP FrobP CycP FexpP SpecPairing LineP PairP PairP2 PairP3
  MillerP MillerP2 MillerP3 PsiP BilinP TwD TwPsi TwPts TwistP F12D MillD.
Import ListNotations.
Open Scope Z_scope.

(* the Miller function *)
Definition dG_m : list mop * z12 := Eval vm_compute in mkm tG_z tG_z z12_1 tG_s.
Definition dG_1 : d12 := Eval vm_compute in of12 z12_1.
Definition dG_f : d12 := Eval vm_compute in of12 (snd dG_m).
Lemma dG_1_ok : v12 dG_1 = k1.
Proof.
  unfold v12, v4, v2, dG_1. cbn [fst snd]. assert (E0 : mkq (nval (fst (snd (fst dG_1)))) = f0) by (apply (f_equal mkq); vm_cast_no_check (eq_refl 0)).
  assert (E1 : mkq (nval (fst (fst (fst dG_1)))) = f1) by (apply (f_equal mkq); vm_cast_no_check (eq_refl 1)).
  unfold dG_1 in E0, E1. cbn [fst snd] in E0, E1. rewrite E0, E1. reflexivity.
Qed.
Lemma dG_miller : mI tG_p bnx dG_f.
Proof.
  assert (O : on2 (vp tG_p)) by exact (proj1 G2_eigen).
  assert (R : red1 tG_p = true) by vmt.
  assert (B : fold_left mstep (fst dG_m) 1 = bnx) by (vm_cast_no_check (eq_refl bnx)).
  rewrite <- B. apply (mrun_ok tG_p dG_f O R (fst dG_m) tG_p dG_1 1); [lia|exact R|symmetry; apply zm2_1| |vmt].
  split; rewrite dG_1_ok; [exact k1_neq_0|]. rewrite ee_1, fz_1 by exact O. reflexivity.
Qed.

(* the easy part of the final exponentiation *)
Definition dG_y : z12 := (((0x6be97656430a72bbddd2956af84b739f8abb1dc15e1abfd461b6e8450f45bca343f06c866221c965d6d06ac6eb21fb9, 0x168f12763552999c495652cfccddcb22945426184855a20815b1763a7f0ae7cc09871f67d473f57e857be0867dd65ab3), (0x18bb2d88d07a844ba2ddc4e40d08a321ac1ff139d4e7ea885d6d6903809fc47c3ddf20ff76b43b312033a5d1c461c2e5, 0x11a2ca4bd496599b620e216e62c79c54b98ab94c9e13163bc23a43cbdb22172438355f06a4862f651f6569e5e02d0e29)), (((0x12d937a4c8ace7e5c9535fd05eb2f7074df3194292be15eae5cc2afc794513f61e64d463a742f6eb497dc9b2343b143f, 0x3828aec4960cc8a104baad3ce5a4d608a4b090d334935b17516cf9dbe6121d986887cd3af2ee38c54bf71776be0a289), (0x78b930cd2d5ad3b9b71607969d0d4d5a2d1417639651dd74b27fe1d0d09a97ff7ee1b4af9c7f67f19490eed12aefb70, 0xef470ef7a657259b997edd40b7371eb34dba4afea1ce79893779a85683edabdae92cad020ca82cbea735373845221bb)), ((0x107727221dcb2fb68fa53e5c6380d55d477423701aba45b38c62fbd7c6d0b04aa5c642f478b44a8516b8ae48314d71f9, 0x1781930be186b1c9604d6860d7fa6722b3aa7908761ff643cd3f71133ac3bea92e0e1e6d0dee35160762410a36a5808), (0x6cc225fc2a029af3c983bf1f2cbea6e7f3e37409f7f61c5f2259cffd0e3ab6da2d186c6b99021c5178a704475cca4c0, 0x4d65e8d67cfd7f5979bceff4987bf0e69487e4c95c64ced45e52ee6dc8484c224752a5d9d31940c079b8de7ebf0b740)))).
Definition dG_c : kd12 * z12 := Eval vm_compute in ur12 (uj12 (snd dG_m)).
Definition dG_t : kd12 * z12 := Eval vm_compute in ur12 (um12 dG_y (snd dG_m)).
Definition dG_u : kd12 * z12 := Eval vm_compute in ur12 (uf12 dG_y).
Definition dG_v : kd12 * z12 := Eval vm_compute in ur12 (uf12 (snd dG_u)).
Definition dG_z : kd12 * z12 := Eval vm_compute in ur12 (um12 (snd dG_v) dG_y).
Definition eG_y : d12 := Eval vm_compute in of12 dG_y.
Definition eG_c : d12 := Eval vm_compute in of12 (snd dG_c).
Definition eG_u : d12 := Eval vm_compute in of12 (snd dG_u).
Definition eG_v : d12 := Eval vm_compute in of12 (snd dG_v).
Definition eG_z : d12 := Eval vm_compute in of12 (snd dG_z).
Lemma eG_c_ok : v12 eG_c = kconj (v12 dG_f).
Proof. rewrite <- cj12_v. symmetry. apply (ck12_ok (fst dG_c)). vmt. Qed.
Lemma eG_y_ok : kmul (v12 eG_y) (v12 dG_f) = kconj (v12 dG_f).
Proof. rewrite <- eG_c_ok, <- pm12_v. apply (ck12_ok (fst dG_t)). vmt. Qed.
Lemma eG_u_ok : v12 eG_u = kfrob (v12 eG_y).
Proof. rewrite <- fr12_v. symmetry. apply (ck12_ok (fst dG_u)). vmt. Qed.
Lemma eG_v_ok : v12 eG_v = kfrob (v12 eG_u).
Proof. rewrite <- fr12_v. symmetry. apply (ck12_ok (fst dG_v)). vmt. Qed.
Lemma eG_z_ok : v12 eG_z = kmul (v12 eG_v) (v12 eG_y).
Proof. rewrite <- pm12_v. symmetry. apply (ck12_ok (fst dG_z)). vmt. Qed.
Lemma easy_of m y u v z : m <> k0 -> kmul y m = kconj m -> u = kfrob y -> v = kfrob u -> z = kmul v y -> z = keasy m.
Proof.
  intros M Y U V Z. unfold keasy. cbv zeta.
  assert (E : y = kmul (kconj m) (kinv m)).
  { rewrite <- Y. transitivity (kmul y (kmul (kinv m) m)); [rewrite (Finv_l Fq12_field m M); ring|ring]. }
  rewrite <- E, Z, V, U. rewrite <- (kfrob2_pw y). pose proof q381_pos. rewrite kpw_mul by lia. rewrite <- !kfrob_pw. reflexivity.
Qed.
Lemma eG_easy : v12 eG_z = keasy (v12 dG_f).
Proof. exact (easy_of _ _ _ _ _ (proj1 dG_miller) eG_y_ok eG_u_ok eG_v_ok eG_z_ok). Qed.

(* the rest *)
Definition bitx : list bool := Eval vm_compute in map (fun i => Z.testbit bnx (Z.of_nat (62 - i))) (seq 0 63).
Definition bitx1 : list bool := Eval vm_compute in map (fun i => Z.testbit (bnx + 1) (Z.of_nat (62 - i))) (seq 0 63).
Definition dG_t1 : list xop * z12 := Eval vm_compute in mkx (snd dG_z) (snd dG_z) bitx1.
Definition dG_t2 : list xop * z12 := Eval vm_compute in mkx (snd dG_t1) (snd dG_t1) bitx1.
Definition dG_t2x : list xop * z12 := Eval vm_compute in mkx (snd dG_t2) (snd dG_t2) bitx.
Definition dG_t2c : kd12 * z12 := Eval vm_compute in ur12 (uj12 (snd dG_t2x)).
Definition dG_t2f : kd12 * z12 := Eval vm_compute in ur12 (uf12 (snd dG_t2)).
Definition dG_t3 : kd12 * z12 := Eval vm_compute in ur12 (um12 (snd dG_t2f) (snd dG_t2c)).
Definition dG_t3x : list xop * z12 := Eval vm_compute in mkx (snd dG_t3) (snd dG_t3) bitx.
Definition dG_t4 : list xop * z12 := Eval vm_compute in mkx (snd dG_t3x) (snd dG_t3x) bitx.
Definition dG_t3f : kd12 * z12 := Eval vm_compute in ur12 (uf12 (snd dG_t3)).
Definition dG_t3g : kd12 * z12 := Eval vm_compute in ur12 (uf12 (snd dG_t3f)).
Definition dG_t3c : kd12 * z12 := Eval vm_compute in ur12 (uj12 (snd dG_t3)).
Definition dG_z3 : list xop * z12 := Eval vm_compute in mkx (snd dG_z) (snd dG_z) [true].
Definition dG_a : kd12 * z12 := Eval vm_compute in ur12 (um12 (snd dG_t4) (snd dG_t3g)).
Definition dG_b : kd12 * z12 := Eval vm_compute in ur12 (um12 (snd dG_t3c) (snd dG_z3)).
Definition dG_e : kd12 * z12 := Eval vm_compute in ur12 (um12 (snd dG_a) (snd dG_b)).
Definition eG_t1 : d12 := Eval vm_compute in of12 (snd dG_t1).
Definition eG_t2 : d12 := Eval vm_compute in of12 (snd dG_t2).
Definition eG_t2x : d12 := Eval vm_compute in of12 (snd dG_t2x).
Definition eG_t2c : d12 := Eval vm_compute in of12 (snd dG_t2c).
Definition eG_t2f : d12 := Eval vm_compute in of12 (snd dG_t2f).
Definition eG_t3 : d12 := Eval vm_compute in of12 (snd dG_t3).
Definition eG_t3x : d12 := Eval vm_compute in of12 (snd dG_t3x).
Definition eG_t4 : d12 := Eval vm_compute in of12 (snd dG_t4).
Definition eG_t3f : d12 := Eval vm_compute in of12 (snd dG_t3f).
Definition eG_t3g : d12 := Eval vm_compute in of12 (snd dG_t3g).
Definition eG_t3c : d12 := Eval vm_compute in of12 (snd dG_t3c).
Definition eG_z3 : d12 := Eval vm_compute in of12 (snd dG_z3).
Definition eG_a : d12 := Eval vm_compute in of12 (snd dG_a).
Definition eG_b : d12 := Eval vm_compute in of12 (snd dG_b).
Definition eG_e : d12 := Eval vm_compute in of12 (snd dG_e).
#[local] Transparent fexpo.
Lemma fexpo_hard : fexpo = ((1 * (bnx + 1) * (bnx + 1) * q381 + - (1 * (bnx + 1) * (bnx + 1) * bnx)) * bnx * bnx +
    (1 * (bnx + 1) * (bnx + 1) * q381 + - (1 * (bnx + 1) * (bnx + 1) * bnx)) * q381 * q381) +
    (- (1 * (bnx + 1) * (bnx + 1) * q381 + - (1 * (bnx + 1) * (bnx + 1) * bnx)) + 1 * 3).
Proof.
  unfold fexpo. cbv zeta. assert (H : 2 * (bnx / 2) = bnx) by reflexivity. revert H. generalize (bnx / 2). generalize bnx, q381. intros x q h H.
  assert (E : 2 * x * h = x * x) by (transitivity (x * (2 * h)); [ring|rewrite H; reflexivity]). rewrite E. ring.
Qed.
#[local] Opaque fexpo.
Section Hard.
  Variable z : Fq12.
  Hypothesis CZ : cyc z.
  Hypothesis Z0 : v12 eG_z = z.
  Lemma h_z : v12 eG_z = zp z 1. Proof. rewrite Z0. symmetry. apply zp_1. exact CZ. Qed.
  Lemma h_t1 : v12 eG_t1 = zp z (1 * (bnx + 1)). Proof. apply (xrun1 z CZ eG_z _ _ (fst dG_t1)); [exact h_z|vmt|vm_cast_no_check (eq_refl (bnx + 1))]. Qed.
  Lemma h_t2 : v12 eG_t2 = zp z (1 * (bnx + 1) * (bnx + 1)). Proof. apply (xrun1 z CZ eG_t1 _ _ (fst dG_t2)); [exact h_t1|vmt|vm_cast_no_check (eq_refl (bnx + 1))]. Qed.
  Lemma h_t2x : v12 eG_t2x = zp z (1 * (bnx + 1) * (bnx + 1) * bnx). Proof. apply (xrun1 z CZ eG_t2 _ _ (fst dG_t2x)); [exact h_t2|vmt|vm_cast_no_check (eq_refl bnx)]. Qed.
  Lemma h_t2c : v12 eG_t2c = zp z (- (1 * (bnx + 1) * (bnx + 1) * bnx)). Proof. apply (xconj z CZ (fst dG_t2c) eG_t2x); [exact h_t2x|vmt]. Qed.
  Lemma h_t2f : v12 eG_t2f = zp z (1 * (bnx + 1) * (bnx + 1) * q381). Proof. apply (xfrob z CZ (fst dG_t2f) eG_t2); [exact h_t2|vmt]. Qed.
  Definition a3 : Z := 1 * (bnx + 1) * (bnx + 1) * q381 + - (1 * (bnx + 1) * (bnx + 1) * bnx).
  Lemma h_t3 : v12 eG_t3 = zp z a3. Proof. apply (xmul z CZ (fst dG_t3) eG_t2f eG_t2c); [exact h_t2f|exact h_t2c|vmt]. Qed.
  Lemma h_t3x : v12 eG_t3x = zp z (a3 * bnx). Proof. apply (xrun1 z CZ eG_t3 _ _ (fst dG_t3x)); [exact h_t3|vmt|vm_cast_no_check (eq_refl bnx)]. Qed.
  Lemma h_t4 : v12 eG_t4 = zp z (a3 * bnx * bnx). Proof. apply (xrun1 z CZ eG_t3x _ _ (fst dG_t4)); [exact h_t3x|vmt|vm_cast_no_check (eq_refl bnx)]. Qed.
  Lemma h_t3f : v12 eG_t3f = zp z (a3 * q381). Proof. apply (xfrob z CZ (fst dG_t3f) eG_t3); [exact h_t3|vmt]. Qed.
  Lemma h_t3g : v12 eG_t3g = zp z (a3 * q381 * q381). Proof. apply (xfrob z CZ (fst dG_t3g) eG_t3f); [exact h_t3f|vmt]. Qed.
  Lemma h_t3c : v12 eG_t3c = zp z (- a3). Proof. apply (xconj z CZ (fst dG_t3c) eG_t3); [exact h_t3|vmt]. Qed.
  Lemma h_z3 : v12 eG_z3 = zp z (1 * 3). Proof. apply (xrun1 z CZ eG_z _ _ (fst dG_z3)); [exact h_z|vmt|vm_cast_no_check (eq_refl 3)]. Qed.
  Lemma h_a : v12 eG_a = zp z (a3 * bnx * bnx + a3 * q381 * q381). Proof. apply (xmul z CZ (fst dG_a) eG_t4 eG_t3g); [exact h_t4|exact h_t3g|vmt]. Qed.
  Lemma h_b : v12 eG_b = zp z (- a3 + 1 * 3). Proof. apply (xmul z CZ (fst dG_b) eG_t3c eG_z3); [exact h_t3c|exact h_z3|vmt]. Qed.
  Lemma h_e : v12 eG_e = zp z fexpo.
  Proof. rewrite fexpo_hard. fold a3. apply (xmul z CZ (fst dG_e) eG_a eG_b); [exact h_a|exact h_b|vmt]. Qed.
End Hard.
Lemma ee_dG : ee (v12 dG_f) = v12 eG_e.
Proof.
  rewrite ee_def. pose proof (proj1 dG_miller) as N. rewrite <- (zp_finexp _ N). symmetry.
  apply h_e; [exact (keasy_cyc _ N)|exact eG_easy].
Qed.
Lemma eG_ne : v12 eG_e <> k1.
Proof.
  assert (N : v2 (fst (fst (snd eG_e))) <> v2 (fst (fst (snd dG_1)))) by (apply redn_ok; vmt).
  intros H. apply N. rewrite <- dG_1_ok in H. apply (f_equal (fun k => fst (kb k))) in H. exact H.
Qed.
Theorem pairing_G_ne : pairing G2pt G1gen <> k1.
Proof.
  destruct dG_miller as [_ M]. rewrite ee_dG in M. change (vp tG_p) with G2pt in M. unfold G1gen. rewrite (pairing_fz _ _ _ (proj1 G2_eigen) CQ), <- M.
  intros H. apply eG_ne. assert (NZ : v12 eG_e <> k0). { rewrite <- ee_dG. apply ee_nz. exact (proj1 dG_miller). }
  rewrite <- (kinv_inv _ NZ), H. exact kinv_1.
Qed.
