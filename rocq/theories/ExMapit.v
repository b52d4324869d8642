(* Concrete cases meeting the hypotheses of the theorems in PropsMapit. *)
From Coq Require Import ZArith List Bool Lia.
From Verif Require Import Prim PrimP Rom Big BigP BigP2 NumT FieldQ FieldQ2 JacobiM JacP SpecBytes Utils Api SpecCurve Ecp EcpP EcpC Ecp2 Ecp2P Ecp2C GenP G1Ord Denote
  KeysP LayerP MapP SigsP SigsP2 ClearP Glv MapitP ExSigs.
Import ListNotations.
Open Scope Z_scope.

(* the abscissa of the generator: found at once, with the even ordinate, so the result is h1c times minus the generator *)
Definition hG : list Z := be_bytes 48 GXZ.
Lemma GXZ_48 : 0 <= GXZ < 2 ^ 384. Proof. split; [vm_compute; discriminate|vm_compute; reflexivity]. Qed.
Lemma hG_int : be_int (firstn 48 hG) = GXZ.
Proof. unfold hG. rewrite firstn_all2 by (rewrite be_bytes_length; apply le_n). apply be_int_48. exact GXZ_48. Qed.
Lemma GYZ_odd : Z.even (fv (mkq GYZ)) = false. Proof. rewrite fv_mkq, <- qn_q. vm_compute. reflexivity. Qed.
Example ex_mapit : exists c, (forall fuel, (0 < fuel)%nat -> ecp_mapit fuel hG = Some c) /\ ecp_pt c = nmul1 (Z.to_nat h1c) (pneg1 G1gen) /\ ecp_pt c <> Inf.
Proof.
  assert (L : (48 <= length hG)%nat) by (unfold hG; rewrite be_bytes_length; apply le_n).
  destruct (mapit_spec hG (be_bytes_bytes _ _) L) as (k & y & c & _ & O & EV & MIN & F & _ & PT & NI & _).
  rewrite hG_int in O, MIN, PT. destruct k as [|k].
  - change (Z.of_nat 0) with 0 in O, PT. rewrite Z.add_0_r in O, PT.
    assert (Y : y = fopp (mkq GYZ)).
    { destruct (on1_two _ _ _ G1gen_on O) as [E|E]; [|exact E]. rewrite E, GYZ_odd in EV. discriminate EV. }
    exists c. split; [exact F|]. split; [|exact NI]. rewrite Y in PT. exact PT.
  - exfalso. pose proof (MIN 0%nat (mkq GYZ) (Nat.lt_0_succ k)) as M. change (Z.of_nat 0) with 0 in M. rewrite Z.add_0_r in M.
    destruct gen_hit as [G1 G2]. apply G2. rewrite zm1_h1. exact (M G1).
Qed.
Example ex_mapit_short : (length [1; 2; 3] < 48)%nat /\ ecp_mapit 5 [1; 2; 3] = None /\ ecp2_mapit 5 [1; 2; 3] = None.
Proof. split; [cbn [length]; lia|]. split; [apply mapit_short|apply mapit2_short]; cbn [length]; lia. Qed.
(* the string of the integer 1: (1, 1) is the abscissa of a point of the twist *)
Definition h1s : list Z := be_bytes 48 1.
Lemma h1s_int : be_int (firstn 48 h1s) = 1. Proof. unfold h1s. rewrite firstn_all2 by (rewrite be_bytes_length; apply le_n). apply be_int_48. lia. Qed.
Example ex_mapit2 : exists c y, (forall fuel, (0 < fuel)%nat -> ecp2_mapit fuel h1s = Some c) /\ ecp2_pt c = nmul2 (Z.to_nat heff) (Aff (z2 1 1) y) /\
  (y = z2 t11y0 t11y1 \/ y = gopp (z2 t11y0 t11y1)).
Proof.
  assert (L : (48 <= length h1s)%nat) by (unfold h1s; rewrite be_bytes_length; apply le_n).
  destruct (mapit2_spec h1s (be_bytes_bytes _ _) L) as (k & y & c & _ & O & _ & _ & MIN & F & _ & PT & _).
  rewrite h1s_int in O, MIN, PT. destruct k as [|k].
  - change (Z.of_nat 0) with 0 in O, PT. rewrite Z.add_0_r in O, PT. exists c, y. split; [exact F|]. split; [exact PT|]. exact (on2_two _ _ _ t11_on O).
  - exfalso. pose proof (MIN 0%nat (z2 t11y0 t11y1) (Nat.lt_0_succ k)) as M. change (Z.of_nat 0) with 0 in M. rewrite Z.add_0_r in M. exact (t11_ne (M t11_on)).
Qed.
(* the clearing applied to a decoded signature *)
Example ex_clear : exists bs s, bytes bs /\ sig_from_bytes bs = Some (Ok s) /\ adm2 s.
Proof.
  destruct (ex_decoded 0 (or_introl eq_refl)) as (a & D & A & _). exists (sig_code 0 2 0), a. split; [apply sig_code_bytes|]. split; [exact D|exact A].
Qed.
