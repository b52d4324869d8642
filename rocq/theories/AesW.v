(* Words as four bytes, GF(2^8), and the tables of aes.rs. *)
From Coq Require Import Lia Btauto.
From Verif Require Import Prim AesTab Aes SpecBytes SpecAes.

Definition byte (x : Z) : Prop := 0 <= x < 256.
Lemma byte_land x : byte x -> Z.land x 255 = x.
Proof. intros B. change 255 with (Z.ones 8). rewrite Z.land_ones by lia. apply Z.mod_small. exact B. Qed.
Lemma land_byte x : byte (Z.land x 255).
Proof. unfold byte. change 255 with (Z.ones 8). rewrite Z.land_ones by lia. apply Z.mod_pos_bound. reflexivity. Qed.
Lemma byte_xor x y : byte x -> byte y -> byte (Z.lxor x y).
Proof.
  intros X Y. assert (E : Z.land (Z.lxor x y) 255 = Z.lxor x y) by (rewrite <- (byte_land x X), <- (byte_land y Y) at 2; apply Z.bits_inj; intros i; rewrite !Z.land_spec, !Z.lxor_spec, !Z.land_spec; btauto).
  rewrite <- E. apply land_byte.
Qed.
Lemma byte_0 : byte 0. Proof. unfold byte; lia. Qed.

(* a property of all bytes by inspection *)
Lemma all_bytes (p : Z -> bool) : forallb (fun i => p (Z.of_nat i)) (seq 0 256) = true -> forall x, byte x -> p x = true.
Proof.
  intros H x [X0 X1]. rewrite forallb_forall in H. specialize (H (Z.to_nat x)). rewrite Z2Nat.id in H by exact X0. apply H. apply in_seq. lia.
Qed.
Lemma all_bytes_eq (f g : Z -> Z) : forallb (fun i => f (Z.of_nat i) =? g (Z.of_nat i)) (seq 0 256) = true -> forall x, byte x -> f x = g x.
Proof. intros H x X. apply Z.eqb_eq. exact (all_bytes (fun x => f x =? g x) H x X). Qed.

(* pack *)
Definition pk (a b c d : Z) : Z := pack [a; b; c; d].
Definition pbit (a b c d i : Z) : bool :=
  if i <? 8 then Z.testbit a i else if i <? 16 then Z.testbit b (i - 8) else if i <? 24 then Z.testbit c (i - 16) else if i <? 32 then Z.testbit d (i - 24) else false.
Lemma bit255 i : 0 <= i -> Z.testbit 255 i = (i <? 8). Proof. intros H. change 255 with (Z.ones 8). rewrite Z.testbit_ones_nonneg by lia. reflexivity. Qed.
Lemma bit32 i : 0 <= i -> Z.testbit 4294967295 i = (i <? 32). Proof. intros H. change 4294967295 with (Z.ones 32). rewrite Z.testbit_ones_nonneg by lia. reflexivity. Qed.
Lemma shl32_bit x n i : 0 <= i -> Z.testbit (shl32 x n) i = Z.testbit x (i - n) && (i <? 32).
Proof. intros H. unfold shl32. rewrite Z.land_spec, bit32 by exact H. rewrite Z.shiftl_spec by exact H. reflexivity. Qed.
Lemma land255_bit x i : Z.testbit (Z.land x 255) i = Z.testbit x i && ((0 <=? i) && (i <? 8)).
Proof.
  rewrite Z.land_spec. destruct (Z.leb_spec 0 i) as [H|H].
  - rewrite bit255 by exact H. reflexivity.
  - rewrite !Z.testbit_neg_r by exact H. reflexivity.
Qed.
Ltac cmp i := repeat match goal with
  | |- context [?a <? ?b] => destruct (Z.ltb_spec a b); try lia
  | |- context [?a <=? ?b] => destruct (Z.leb_spec a b); try lia
  end.
Lemma pk_bit a b c d i : 0 <= i -> Z.testbit (pk a b c d) i = pbit a b c d i.
Proof.
  intros H. unfold pk, pack, pbit. cbn [nth]. rewrite !Z.lor_spec, !shl32_bit, !land255_bit by exact H. cmp i; rewrite ?andb_true_r, ?andb_false_r, ?orb_false_r, ?orb_false_l; try reflexivity.
Qed.
Lemma pk_xor a b c d a' b' c' d' : Z.lxor (pk a b c d) (pk a' b' c' d') = pk (Z.lxor a a') (Z.lxor b b') (Z.lxor c c') (Z.lxor d d').
Proof. apply Z.bits_inj'. intros i H. rewrite Z.lxor_spec, !pk_bit by exact H. unfold pbit. rewrite !Z.lxor_spec. cmp i; reflexivity. Qed.
Lemma rotl8_pk a b c d : rotl8 (pk a b c d) = pk d a b c.
Proof.
  apply Z.bits_inj'. intros i H. unfold rotl8. rewrite Z.lor_spec, shl32_bit, Z.shiftr_spec, (pk_bit d) by lia. rewrite (pk_bit a b c d (i + 24)) by lia.
  destruct (Z.ltb_spec i 8) as [L|L].
  - rewrite Z.testbit_neg_r by lia. cbn [andb orb]. unfold pbit. cmp i. f_equal; lia.
  - rewrite pk_bit by lia. unfold pbit. cmp i; rewrite ?andb_true_r, ?andb_false_r, ?orb_false_r; try reflexivity; f_equal; lia.
Qed.
Lemma rotl16_pk a b c d : rotl16 (pk a b c d) = pk c d a b.
Proof.
  apply Z.bits_inj'. intros i H. unfold rotl16. rewrite Z.lor_spec, shl32_bit, Z.shiftr_spec, (pk_bit c) by lia. rewrite (pk_bit a b c d (i + 16)) by lia.
  destruct (Z.ltb_spec i 16) as [L|L].
  - rewrite Z.testbit_neg_r by lia. cbn [andb orb]. unfold pbit. cmp i; f_equal; lia.
  - rewrite pk_bit by lia. unfold pbit. cmp i; rewrite ?andb_true_r, ?andb_false_r, ?orb_false_r; try reflexivity; f_equal; lia.
Qed.
Lemma rotl24_pk a b c d : rotl24 (pk a b c d) = pk b c d a.
Proof.
  apply Z.bits_inj'. intros i H. unfold rotl24. rewrite Z.lor_spec, shl32_bit, Z.shiftr_spec, (pk_bit b) by lia. rewrite (pk_bit a b c d (i + 8)) by lia.
  destruct (Z.ltb_spec i 24) as [L|L].
  - rewrite Z.testbit_neg_r by lia. cbn [andb orb]. unfold pbit. cmp i; f_equal; lia.
  - rewrite pk_bit by lia. unfold pbit. cmp i; rewrite ?andb_true_r, ?andb_false_r, ?orb_false_r; try reflexivity; f_equal; lia.
Qed.
Lemma sel_pk n a b c d x : 0 <= n -> (forall i, 0 <= i < 8 -> pbit a b c d (i + n) = Z.testbit x i) -> byte x -> Z.land (Z.shiftr (pk a b c d) n) 255 = x.
Proof.
  intros N H B. rewrite <- (byte_land x B). apply Z.bits_inj'. intros i I. rewrite !land255_bit. destruct (Z.leb_spec 0 i); [|lia]. destruct (Z.ltb_spec i 8) as [L|L]; [|rewrite !andb_false_r; reflexivity].
  rewrite !andb_true_r. rewrite Z.shiftr_spec, pk_bit by lia. apply H. lia.
Qed.
Lemma sel0 a b c d : byte a -> Z.land (pk a b c d) 255 = a.
Proof. intros B. rewrite <- (Z.shiftr_0_r (pk a b c d)). apply sel_pk; [lia| |exact B]. intros i I. unfold pbit. cmp i. f_equal; lia. Qed.
Lemma sel1 a b c d : byte b -> Z.land (Z.shiftr (pk a b c d) 8) 255 = b.
Proof. intros B. apply sel_pk; [lia| |exact B]. intros i I. unfold pbit. cmp i. f_equal; lia. Qed.
Lemma sel2 a b c d : byte c -> Z.land (Z.shiftr (pk a b c d) 16) 255 = c.
Proof. intros B. apply sel_pk; [lia| |exact B]. intros i I. unfold pbit. cmp i. f_equal; lia. Qed.
Lemma sel3 a b c d : byte d -> Z.land (Z.shiftr (pk a b c d) 24) 255 = d.
Proof. intros B. apply sel_pk; [lia| |exact B]. intros i I. unfold pbit. cmp i. f_equal; lia. Qed.
Lemma unpack_pk a b c d : byte a -> byte b -> byte c -> byte d -> unpack (pk a b c d) = [a; b; c; d].
Proof. intros A B C D. unfold unpack. rewrite sel0, sel1, sel2, sel3 by assumption. reflexivity. Qed.

(* GF(2^8) *)
Lemma xtime_lin x y : xtime (Z.lxor x y) = Z.lxor (xtime x) (xtime y).
Proof.
  unfold xtime. rewrite Z.lxor_spec. rewrite <- !(Z.mul_comm _ 2). change 2 with (2 ^ 1). rewrite <- !Z.shiftl_mul_pow2 by lia. rewrite Z.shiftl_lxor.
  assert (E : (if xorb (Z.testbit x 7) (Z.testbit y 7) then 27 else 0) = Z.lxor (if Z.testbit x 7 then 27 else 0) (if Z.testbit y 7 then 27 else 0)) by (destruct (Z.testbit x 7), (Z.testbit y 7); reflexivity).
  rewrite E. apply Z.bits_inj. intros i. rewrite !Z.lxor_spec, !Z.land_spec, !Z.lxor_spec. btauto.
Qed.
Lemma gmul_n_lin n : forall c x y, gmul_n n c (Z.lxor x y) = Z.lxor (gmul_n n c x) (gmul_n n c y).
Proof.
  induction n as [|n IH]; intros c x y; [reflexivity|]. cbn [gmul_n]. rewrite xtime_lin, IH. destruct (Z.odd c); apply Z.bits_inj; intros i; rewrite !Z.lxor_spec, ?Z.bits_0; btauto.
Qed.
Lemma gmul_lin c x y : gmul c (Z.lxor x y) = Z.lxor (gmul c x) (gmul c y). Proof. apply gmul_n_lin. Qed.
Lemma xtime_byte x : byte (xtime x).
Proof. unfold xtime. apply byte_xor; [apply land_byte|]. destruct (Z.testbit x 7); unfold byte; lia. Qed.
Lemma gmul_n_byte n : forall c x, byte x -> byte (gmul_n n c x).
Proof. induction n as [|n IH]; intros c x B; [exact byte_0|]. cbn [gmul_n]. apply byte_xor; [destruct (Z.odd c); [exact B|exact byte_0]|]. apply IH. apply xtime_byte. Qed.
Lemma gmul_byte c x : byte x -> byte (gmul c x). Proof. apply gmul_n_byte. Qed.
Lemma gmul_1 x : gmul 1 x = x.
Proof.
  unfold gmul. change (gmul_n 8 1 x) with (Z.lxor x (gmul_n 7 0 (xtime x))). assert (Z0 : forall n y, gmul_n n 0 y = 0) by (induction n as [|n IH]; intros y; [reflexivity|]; cbn [gmul_n]; change (0 / 2) with 0; rewrite IH; reflexivity).
  rewrite Z0. apply Z.lxor_0_r.
Qed.
Lemma inv_mix_id c0 c1 c2 c3 t : forallb (fun i => Z.lxor (Z.lxor (Z.lxor (gmul 14 (gmul c0 (Z.of_nat i))) (gmul 11 (gmul c1 (Z.of_nat i)))) (gmul 13 (gmul c2 (Z.of_nat i)))) (gmul 9 (gmul c3 (Z.of_nat i))) =? gmul t (Z.of_nat i)) (seq 0 256) = true ->
  forall x, byte x -> Z.lxor (Z.lxor (Z.lxor (gmul 14 (gmul c0 x)) (gmul 11 (gmul c1 x))) (gmul 13 (gmul c2 x))) (gmul 9 (gmul c3 x)) = gmul t x.
Proof. intros H x B. exact (all_bytes_eq (fun x => Z.lxor (Z.lxor (Z.lxor (gmul 14 (gmul c0 x)) (gmul 11 (gmul c1 x))) (gmul 13 (gmul c2 x))) (gmul 9 (gmul c3 x))) (gmul t) H x B). Qed.
Lemma im0 x : byte x -> Z.lxor (Z.lxor (Z.lxor (gmul 14 (gmul 2 x)) (gmul 11 (gmul 1 x))) (gmul 13 (gmul 1 x))) (gmul 9 (gmul 3 x)) = gmul 1 x.
Proof. apply inv_mix_id. vm_compute. reflexivity. Qed.
Lemma im1 x : byte x -> Z.lxor (Z.lxor (Z.lxor (gmul 14 (gmul 3 x)) (gmul 11 (gmul 2 x))) (gmul 13 (gmul 1 x))) (gmul 9 (gmul 1 x)) = gmul 0 x.
Proof. apply inv_mix_id. vm_compute. reflexivity. Qed.
Lemma im2 x : byte x -> Z.lxor (Z.lxor (Z.lxor (gmul 14 (gmul 1 x)) (gmul 11 (gmul 3 x))) (gmul 13 (gmul 2 x))) (gmul 9 (gmul 1 x)) = gmul 0 x.
Proof. apply inv_mix_id. vm_compute. reflexivity. Qed.
Lemma im3 x : byte x -> Z.lxor (Z.lxor (Z.lxor (gmul 14 (gmul 1 x)) (gmul 11 (gmul 1 x))) (gmul 13 (gmul 3 x))) (gmul 9 (gmul 2 x)) = gmul 0 x.
Proof. apply inv_mix_id. vm_compute. reflexivity. Qed.
Lemma gmul_0 x : gmul 0 x = 0.
Proof. unfold gmul. generalize 8%nat as n. intros n. revert x. induction n as [|n IH]; intros x; [reflexivity|]. cbn [gmul_n]. change (0 / 2) with 0. rewrite IH. reflexivity. Qed.

(* the tables *)
Lemma fbsub_ok x : byte x -> tb FBSUB x = sbox x.
Proof. apply (all_bytes_eq (tb FBSUB) sbox). vm_compute. reflexivity. Qed.
Lemma rbsub_ok x : byte x -> tb RBSUB x = inv_sbox x.
Proof. apply (all_bytes_eq (tb RBSUB) inv_sbox). vm_compute. reflexivity. Qed.
Lemma tab_byte t : forallb (fun x => (0 <=? x) && (x <? 256)) t = true -> forall i, byte (tb t i).
Proof.
  intros H i. unfold tb. destruct (nth_in_or_default (Z.to_nat i) t 0) as [I|E]; [|rewrite E; exact byte_0]. rewrite forallb_forall in H. specialize (H _ I). cbv beta in H. unfold byte. lia.
Qed.
Lemma sbox_byte x : byte x -> byte (sbox x).
Proof. intros B. rewrite <- fbsub_ok by exact B. apply tab_byte. vm_compute. reflexivity. Qed.
Lemma inv_sbox_byte x : byte x -> byte (inv_sbox x).
Proof. intros B. rewrite <- rbsub_ok by exact B. apply tab_byte. vm_compute. reflexivity. Qed.
Lemma inv_sbox_sbox x : byte x -> inv_sbox (sbox x) = x.
Proof.
  intros B. rewrite <- rbsub_ok by (apply sbox_byte; exact B). rewrite <- fbsub_ok by exact B. exact (all_bytes_eq (fun x => tb RBSUB (tb FBSUB x)) (fun x => x) ltac:(vm_compute; reflexivity) x B).
Qed.
Definition ftab_ok_at (x : Z) : bool := let s := tb FBSUB x in tb FTABLE x =? pack [gmul 2 s; s; s; gmul 3 s].
Lemma ftable_ok x : byte x -> tb FTABLE x = pk (gmul 2 (sbox x)) (sbox x) (sbox x) (gmul 3 (sbox x)).
Proof. intros B. rewrite <- (fbsub_ok x B). apply Z.eqb_eq. exact (all_bytes ftab_ok_at ltac:(vm_compute; reflexivity) x B). Qed.
Definition rtab_ok_at (x : Z) : bool := let s := tb RBSUB x in tb RTABLE x =? pack [gmul 14 s; gmul 9 s; gmul 13 s; gmul 11 s].
Lemma rtable_ok x : byte x -> tb RTABLE x = pk (gmul 14 (inv_sbox x)) (gmul 9 (inv_sbox x)) (gmul 13 (inv_sbox x)) (gmul 11 (inv_sbox x)).
Proof. intros B. rewrite <- (rbsub_ok x B). apply Z.eqb_eq. exact (all_bytes rtab_ok_at ltac:(vm_compute; reflexivity) x B). Qed.
Lemma bmul_ok c x : c = 9 \/ c = 11 \/ c = 13 \/ c = 14 -> byte x -> bmul c x = gmul c x.
Proof. intros C. apply (all_bytes_eq (bmul c) (gmul c)). destruct C as [ ->|[ ->|[ ->| ->]]]; vm_compute; reflexivity. Qed.
Lemma pk_byte x : byte x -> x = pk x 0 0 0.
Proof.
  intros B. apply Z.bits_inj'. intros i I. rewrite pk_bit by exact I. unfold pbit. rewrite <- (byte_land x B), land255_bit, !Z.bits_0. cmp i; rewrite ?andb_true_r, ?andb_false_r; reflexivity.
Qed.
Global Opaque sbox inv_sbox gmul.
Lemma subbyte_ok a b c d : byte a -> byte b -> byte c -> byte d -> subbyte (pk a b c d) = pk (sbox a) (sbox b) (sbox c) (sbox d).
Proof. intros A B C D. unfold subbyte. rewrite unpack_pk by assumption. cbn [map]. rewrite !fbsub_ok by assumption. unfold pk. reflexivity. Qed.
Lemma product_ok c0 c1 c2 c3 a b c d : byte a -> byte b -> byte c -> byte d -> (forall k, k = c0 \/ k = c1 \/ k = c2 \/ k = c3 -> k = 9 \/ k = 11 \/ k = 13 \/ k = 14) ->
  product (pk c0 c1 c2 c3) (pk a b c d) = Z.lxor (Z.lxor (Z.lxor (gmul c0 a) (gmul c1 b)) (gmul c2 c)) (gmul c3 d).
Proof.
  intros A B C D H. assert (K : forall k, k = c0 \/ k = c1 \/ k = c2 \/ k = c3 -> byte k) by (intros k I; specialize (H k I); unfold byte; lia).
  unfold product. rewrite !unpack_pk by (assumption || (apply K; tauto)). cbn [nth]. rewrite !bmul_ok by (assumption || (apply H; tauto)). reflexivity.
Qed.
Definition imw (a b c d : Z) : Z := Z.lxor (Z.lxor (Z.lxor (gmul 14 a) (gmul 11 b)) (gmul 13 c)) (gmul 9 d).
Lemma pk_ext a b c d a' b' c' d' : a = a' -> b = b' -> c = c' -> d = d' -> pk a b c d = pk a' b' c' d'.
Proof. intros -> -> -> ->. reflexivity. Qed.
Lemma invmixcol_ok a b c d : byte a -> byte b -> byte c -> byte d -> invmixcol (pk a b c d) = pk (imw a b c d) (imw b c d a) (imw c d a b) (imw d a b c).
Proof.
  intros A B C D. unfold invmixcol. change (pack INCO) with (pk 11 13 9 14). rewrite !rotl24_pk. rewrite !product_ok by (assumption || lia).
  match goal with |- pack [?x; ?y; ?z; ?t] = _ => change (pk x y z t = pk (imw a b c d) (imw b c d a) (imw c d a b) (imw d a b c)) end.
  apply pk_ext; unfold imw; apply Z.bits_inj; intros i; rewrite !Z.lxor_spec; btauto.
Qed.
