(* Concrete cases meeting the hypotheses of the theorems in PropsKang: powers of the pairing of
   the two generators, written on 576 bytes. *)
From Coq Require Import ZArith List Bool Lia.
From Verif Require Import Prim PrimP BigP NumT FieldQ FieldQ2 SpecBytes SpecCurve CurveP EcpP EcpC Ecp2P Tower TowerP SpecPairing TwistP BilinP PairD GenP G1Grp G1Ord DenoteT VerifyP7 Pow4P CycP SpecMpin MpinP MpinR Kang KangP PsiP VerifyP EcdhQ.
Import ListNotations.
Open Scope Z_scope.

Definition enc2 (x : Fq2) : list Z := be_bytes 48 (fv (fst x)) ++ be_bytes 48 (fv (snd x)).
Definition enc12 (x : Fq12) : list Z :=
  enc2 (fst (ka x)) ++ enc2 (snd (ka x)) ++ enc2 (fst (kb x)) ++ enc2 (snd (kb x)) ++ enc2 (fst (kc x)) ++ enc2 (snd (kc x)).
Lemma fv_le x : 0 <= fv x <= q381. Proof. pose proof (fv_range x). lia. Qed.
Lemma enc2_bytes x : bytes (enc2 x). Proof. apply EcdhQ.bytes_app; apply be_bytes_bytes. Qed.
Lemma enc12_bytes x : bytes (enc12 x). Proof. unfold enc12. do 5 (apply EcdhQ.bytes_app; [apply enc2_bytes|]). apply enc2_bytes. Qed.
Lemma enc12_len x : length (enc12 x) = 576%nat. Proof. unfold enc12, enc2. rewrite !app_length, !be_bytes_length. reflexivity. Qed.
Lemma enc12_dec x : decodes12 (enc12 x) = x.
Proof.
  unfold enc12, enc2, decodes12. rewrite <- !app_assoc. rewrite ?fq_at_S. rewrite <- (app_nil_r (be_bytes 48 (fv (snd (snd (kc x)))))). rewrite !fq_at_0 by apply fv_le. rewrite !mkq_fv.
  destruct x as [[[a b] [c d]] [[g h] [i j]] [[k l] [m n]]]. reflexivity.
Qed.

Definition g : Fq12 := pairing G2pt G1gen.
Lemma g_r : kpw g r255 = k1. Proof. unfold g. apply pairing_r; [exact (proj1 G2_eigen)|apply G1gen_on]. Qed.
Lemma g_ne : g <> k1. Proof. exact PairD.pairing_G_ne. Qed.
(* C138: the true PIN 1234 and the PIN 1231 given: no answer or the error *)
Example ex_error : kangaroo (enc12 (kpw g 3)) (enc12 g) = Some 0 \/ kangaroo (enc12 (kpw g 3)) (enc12 g) = Some (-3).
Proof.
  destruct (kangaroo_pin (enc12 (kpw g 3)) (enc12 g) 1231 1234 (enc12_bytes _) (enc12_bytes _)) as (d & E & [D|[D|[D _]]]).
  - rewrite enc12_len. apply le_n.
  - rewrite enc12_len. apply le_n.
  - rewrite enc12_dec. exact g_r.
  - rewrite enc12_dec. exact g_ne.
  - lia.
  - lia.
  - rewrite !enc12_dec. change 1234 with (3 + 1231). symmetry. apply kpw_add; lia.
  - left. rewrite E, D. reflexivity.
  - right. rewrite E, D. reflexivity.
  - lia.
Qed.
(* no error *)
Example ex_none : kangaroo (enc12 k1) (enc12 g) = Some 0.
Proof.
  destruct (kangaroo_pin (enc12 k1) (enc12 g) 7 7 (enc12_bytes _) (enc12_bytes _)) as (d & E & D).
  - rewrite enc12_len. apply le_n.
  - rewrite enc12_len. apply le_n.
  - rewrite enc12_dec. exact g_r.
  - rewrite enc12_dec. exact g_ne.
  - lia.
  - lia.
  - rewrite !enc12_dec. ring.
  - rewrite E. f_equal. lia.
Qed.
(* elements whose order is not known to be r: 1 *)
Example ex_sound : exists d, kangaroo (enc12 g) (enc12 k1) = Some d.
Proof.
  destruct (kangaroo_sound (enc12 g) (enc12 k1) (enc12_bytes _) (enc12_bytes _)) as (d & E & _).
  - rewrite enc12_len. apply le_n.
  - rewrite enc12_len. apply le_n.
  - rewrite enc12_dec. apply kpw_one.
  - exists d. exact E.
Qed.
Example ex_short : kangaroo (repeat 1 575) (enc12 g) = None.
Proof. apply kangaroo_short. left. rewrite repeat_length. lia. Qed.
(* C140: the pairing of the generators, read and written *)
Example ex_read : exists b bs c, fp12_frombytes (enc12 g) = Some b /\ fp12_val b = g /\ Mpin.fp12_tobytes b = Some bs /\ fp12_frombytes bs = Some c /\ fp12_val c = g.
Proof.
  pose proof (fp12_read (enc12 g) (enc12_bytes g)) as H. rewrite enc12_len in H. change (576 <? 576)%nat with false in H. destruct H as (b & E & W & V). rewrite enc12_dec in V.
  assert (W' : fp12_wf 31 33554432 b). { pose proof (fp12_R _ _ _ W) as R. apply (Fp12P.fp12R_weak _ _ 31 33554432) in R; [|lia|lia]. exact (proj1 (proj1 (fp12R_wfv _ _ _ _) R)). }
  destruct (fp12_bytes b W') as (bs & c & T & _ & _ & _ & F & _ & VC). exists b, bs, c. split; [exact E|]. split; [exact V|]. split; [exact T|]. split; [exact F|]. rewrite VC. exact V.
Qed.
