(* The one modular power of the tower, checked with digits. *)
From Coq Require Import ZArith List Bool Lia.
From Verif Require Import Dig PowD NumT.
Import ListNotations.
Open Scope Z_scope.

(* (q - 1)/6 = 2 k + 1 *)
Definition kexp : Z := ((q381 - 1) / 6 - 1) / 2.
Definition fra : Z := 3850754370037169011952147076051364057158807420970682438676050522613628423219637725072182697113062777891589506424760.
Definition khints : list (num * num) := Eval vm_compute in phints q381 2 (Z.to_pos kexp).
Definition frad : num := Eval vm_compute in plast khints.
Lemma frad_val : nval frad = fra. Proof. vm_cast_no_check (eq_refl fra). Qed.
Lemma kpow_chk : pchk q381d (C D2 E) frad (Z.to_pos kexp) khints = true. Proof. vmt. Qed.
Lemma kexp_p : Zpos (Z.to_pos kexp) = kexp. Proof. vm_cast_no_check (eq_refl kexp). Qed.
Lemma kpow : 2 ^ kexp mod q381 = fra mod q381.
Proof.
  pose proof (pchk_ok _ _ _ _ _ kpow_chk) as H. rewrite q381d_val, frad_val, kexp_p in H.
  change (nval (C D2 E)) with 2 in H. symmetry. apply H; [reflexivity|discriminate].
Qed.
