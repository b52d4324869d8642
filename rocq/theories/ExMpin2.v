(* Concrete cases meeting the hypotheses of the theorems in PropsMpin2: the generator of G1 as a
   token, the hash of the empty identity, parts of 484 bytes, the all-zero generator of random
   numbers of ExEcdh.  The witness of C137 is in its theorem. *)
From Coq Require Import ZArith List Bool Lia.
From Verif Require Import Prim PrimP BigP NumT FieldQ FieldQ2 FpP SpecBytes SpecMac SpecCurve CurveP GroupP G1Grp G1Ord GenP EcpP EcpC Ecp2P Denote KeysP KeysP2 Tower SpecPairing TwistP VerifyP2 SpecRand Rand RandP SpecEcdh Ecdh EcdhP SpecMpin Mpin MpinP MpinQ MpinR MpinT MpinU MpinV SpecMpin2 Mpin2 MpinW MpinX ExEcdh ExMpin.
Import ListNotations.
Open Scope Z_scope.

(* C133: six parts of 484 bytes in all, and parts that are too short *)
Example ex_ident484 : ident false 32 (repeat 0 484).
Proof. split; [left; reflexivity|]. split; [apply bytes_repeat0|left; reflexivity]. Qed.
Example ex_hash_all : exists m, length m = 484%nat /\ hash_all false 32 (repeat 1 97) [] (Some (repeat 1 97)) (repeat 1 97) (repeat 1 48) (repeat 1 97) (repeat 1 48) (repeat 0 48) = Some (true, mp_hash 32 0 m ++ []).
Proof.
  assert (B : forall n, bytes (repeat 1 n)) by (intros n; apply Forall_forall; intros x X; apply repeat_spec in X; subst x; lia).
  pose proof (hash_all_value false 32 (repeat 1 97) [] (Some (repeat 1 97)) (repeat 1 97) (repeat 1 48) (repeat 1 97) (repeat 1 48) (repeat 0 48) ex_ident484 (B _) (Forall_nil _)) as H. cbv zeta in H.
  exists (repeat 1 97 ++ repeat 1 97 ++ repeat 1 97 ++ repeat 1 48 ++ repeat 1 97 ++ repeat 1 48). rewrite H; [|intros b E; rewrite <- (MpinR.some_eq _ _ E); apply B|apply B|apply B|apply B|apply B|rewrite repeat_length; lia].
  rewrite !app_length, !repeat_length. split; reflexivity.
Qed.
Example ex_hash_short : hash_all false 32 [1] [] None [] [] [] [] (repeat 0 48) = Some (false, repeat 0 48).
Proof. reflexivity. Qed.
(* C134: the generator as token, the hash of the empty identity *)
Example ex_precompute : exists A, bytes (enc_pt G1gen ++ []) /\ long_enough (enc_pt G1gen ++ []) /\ decodes (enc_pt G1gen ++ []) G1gen /\ map_pt (mp_hash 32 0 []) A /\
  exists b1 b2, precompute (Z.to_nat q381) (enc_pt G1gen ++ []) (mp_hash 32 0 []) (repeat 0 576) (repeat 0 576) = Some (0, b1 ++ [], b2 ++ []) /\ (forall t, decodes12 (b1 ++ t) = pairing G2gen G1gen) /\ (forall t, decodes12 (b2 ++ t) = pairing G2gen A).
Proof.
  destruct (every_point false 32 0 [] ex_ident) as (A & M & _). exists A. destruct (G1gen_in [] (Forall_nil _)) as (B & L & D & N & _). split; [exact B|]. split; [exact L|]. split; [exact D|]. split; [exact M|].
  destruct (precompute_value (Z.to_nat q381) _ (mp_hash 32 0 []) (repeat 0 576) (repeat 0 576) _ A B L D N (mp_hash_bytes 32 0 [] (or_introl eq_refl) (Forall_nil _))) as (b1 & b2 & E & _ & _ & _ & _ & D1 & D2).
  - rewrite mp_hash_len. lia.
  - exact M.
  - rewrite Z2Nat.id by (pose proof q381_pos; lia). lia.
  - rewrite repeat_length. lia.
  - rewrite repeat_length. lia.
  - exists b1, b2. split; [|split; assumption]. rewrite E. rewrite (skipn_all2 (repeat 0 576)) by (rewrite repeat_length; lia). reflexivity.
Qed.
(* C135: the numbers 0 and 0 with the parity 0 give twice the point (0, 2), which is (0, -2) *)
Example ex_decoding : emap_pt 0 0 (Aff f0 (mkq 2)) /\ exists x y, padd1 (Aff f0 (mkq 2)) (Aff f0 (mkq 2)) = Aff x y.
Proof.
  split; [exact zero_even|]. destruct (padd1 (Aff f0 (mkq 2)) (Aff f0 (mkq 2))) as [|x y] eqn:E; [|exists x, y; reflexivity]. exfalso.
  pose proof (order3 _ on02) as T. change 3 with (2 + 1) in T. rewrite zm1_add, zm1_2, E, zm1_1 in T by exact on02. discriminate T.
Qed.
(* C136: of W + G and W + 2G one has an abscissa other than 0 *)
Lemma good p : on1 p -> zm1 3 p <> Inf -> exists x y, p = Aff x y /\ x <> f0.
Proof.
  intros O N. destruct p as [|x y]; [destruct N; apply zm1_zero|]. exists x, y. split; [reflexivity|]. intros ->. exact (N (order3 y O)).
Qed.
Lemma nG n : 0 < n < 10 -> on1 (zm1 n G1gen) /\ zm1 3 (zm1 n G1gen) <> Inf.
Proof.
  intros H. split; [apply zm1_on, G1gen_on|]. rewrite <- zm1_mul by exact G1gen_on. apply zm1_ne; [exact G1gen_on|discriminate|exact G1gen_order|]. assert (R : 1000 < r255) by reflexivity. rewrite Z.mod_small by lia. lia.
Qed.
Lemma pick W : on1 W -> exists n, 0 < n < 10 /\ exists x y, padd1 W (zm1 n G1gen) = Aff x y /\ x <> f0.
Proof.
  intros O. destruct (nG 1 ltac:(lia)) as [O1 N1]. assert (OP : on1 (padd1 W (zm1 1 G1gen))) by (apply padd1_on; assumption).
  assert (D : zm1 3 (padd1 W (zm1 1 G1gen)) = Inf \/ exists x y, padd1 W (zm1 1 G1gen) = Aff x y /\ x <> f0).
  { destruct (padd1 W (zm1 1 G1gen)) as [|x y]; [left; apply zm1_zero|]. destruct (Fq_dec x f0) as [ ->|NX]; [left; exact (order3 y OP)|right]. exists x, y. split; [reflexivity|exact NX]. }
  destruct D as [D|D]; [|exists 1; split; [lia|exact D]]. exists 2. split; [lia|]. apply good; [apply padd1_on; [exact O|apply (nG 2); lia]|].
  change 2 with (1 + 1). rewrite zm1_add by exact G1gen_on. rewrite <- padd1_assoc by assumption. rewrite zm1_dist by assumption. rewrite D. exact N1.
Qed.
Example ex_encode : exists W x y dx dy, emap_pt (stream_num str0 762 mod q381) (str0 96%nat mod 2) W /\ on1 (Aff x y) /\ x <> f0 /\ padd1 (Aff x y) (pneg1 W) = Aff dx dy /\ dx <> f0 /\
  exists e rng', encoding (Z.to_nat q381) gen0 (enc_pt (Aff x y) ++ []) = Some (0, e, rng') /\ decoding (Z.to_nat q381) e = Some (0, enc_pt (Aff x y) ++ []).
Proof.
  pose proof q381_lt as Q. destruct (emap_total (stream_num str0 762 mod q381) (str0 96%nat mod 2)) as (W & M & O & _).
  { pose proof (Z.mod_pos_bound (stream_num str0 762) q381 q381_pos). lia. } { apply par01. }
  destruct (pick W O) as (n & N & x & y & EP & NX). destruct (nG n N) as [ON NN]. destruct (good _ ON NN) as (dx & dy & ED & ND).
  assert (OP : on1 (Aff x y)) by (rewrite <- EP; apply padd1_on; assumption).
  assert (DD : padd1 (Aff x y) (pneg1 W) = Aff dx dy).
  { rewrite <- EP, (padd1_comm W) by assumption. rewrite padd1_assoc by (try assumption; apply pneg1_on, O). rewrite (padd1_neg W O), padd1_0r. exact ED. }
  exists W, x, y, dx, dy. split; [exact M|]. split; [exact OP|]. split; [exact NX|]. split; [exact DD|]. split; [exact ND|].
  destruct (encode_decode (Z.to_nat q381) gen0 str0 x y [] W dx dy ex_gives (Forall_nil _)) as (e & r & E1 & _ & _ & E2); [rewrite Z2Nat.id by (pose proof q381_pos; lia); lia|exact OP|exact NX|exact M|exact DD|exact ND|].
  exists e, r. split; [exact E1|exact E2].
Qed.
(* (1, 1) is not on the curve *)
Example ex_off : ~ on1 (Aff (mkq 1) (mkq 1)).
Proof.
  intros C. assert (E : mkq 1 = mkq 5).
  { transitivity (fmul (mkq 1) (mkq 1)); [rewrite <- mkq_mul; reflexivity|]. transitivity (rhs1 (mkq 1)); [exact C|]. unfold rhs1, fb. rewrite <- !mkq_mul, <- mkq_add. reflexivity. }
  pose proof (f_equal fv E) as F. rewrite !fv_mkq, (Z.mod_small 1), (Z.mod_small 5) in F by (pose proof q381_lt; lia). discriminate F.
Qed.
