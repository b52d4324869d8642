(* One round of aes.rs, encryption and decryption of a block for given round keys. *)
From Coq Require Import Lia Btauto.
From Verif Require Import Prim AesTab Aes SpecBytes SpecAes AesW.

Definition st (s : list Z) : Prop := length s = 16%nat /\ bytes s.
Definition word (w : list Z) : Prop := length w = 4%nat /\ bytes w.
Definition pw (w : list Z) : Z := pk (nth 0 w 0) (nth 1 w 0) (nth 2 w 0) (nth 3 w 0).
Definition enc_st (s : list Z) : W4 :=
  (pw (firstn 4 s), pw (firstn 4 (skipn 4 s)), pw (firstn 4 (skipn 8 s)), pw (firstn 4 (skipn 12 s))).

Ltac word_vars H := let L := fresh "L" in let B := fresh "B" in destruct H as [L B];
  match type of L with length ?w = _ => do 4 (destruct w as [|? w]; [discriminate L|]); destruct w; [|discriminate L] end; clear L; unfold bytes in B;
  repeat match goal with
  | H : Forall _ (_ :: _) |- _ => apply Forall_cons_iff in H; destruct H
  | H : Forall _ [] |- _ => clear H
  end.
Ltac st_vars H := let L := fresh "L" in let B := fresh "B" in destruct H as [L B];
  match type of L with length ?w = _ => do 16 (destruct w as [|? w]; [discriminate L|]); destruct w; [|discriminate L] end; clear L; unfold bytes in B;
  repeat match goal with
  | H : Forall _ (_ :: _) |- _ => apply Forall_cons_iff in H; destruct H
  | H : Forall _ [] |- _ => clear H
  end.
Ltac xbits := apply Z.bits_inj; let i := fresh "i" in intros i; rewrite !Z.lxor_spec; rewrite ?Z.bits_0; btauto.
Ltac fold_bytes := repeat match goal with H : 0 <= ?x < 256 |- _ => change (byte x) in H end.

Ltac fold_pk := repeat match goal with |- context [pack [?x; ?y; ?z; ?t]] => change (pack [x; y; z; t]) with (pk x y z t) end.
Lemma pack_pw w : length w = 4%nat -> pack w = pw w.
Proof. intros L. do 4 (destruct w as [|? w]; [discriminate L|]). destruct w; [|discriminate L]. reflexivity. Qed.

(* qword in the three cases *)
Lemma qword_f k0 k1 k2 k3 a0 a1 a2 a3 b0 b1 b2 b3 c0 c1 c2 c3 d0 d1 d2 d3 : byte a0 -> byte b1 -> byte c2 -> byte d3 ->
  qword FTABLE (pk k0 k1 k2 k3) (pk a0 a1 a2 a3) (pk b0 b1 b2 b3) (pk c0 c1 c2 c3) (pk d0 d1 d2 d3) =
  pk (Z.lxor (Z.lxor (Z.lxor (Z.lxor k0 (gmul 2 (sbox a0))) (gmul 3 (sbox b1))) (sbox c2)) (sbox d3))
     (Z.lxor (Z.lxor (Z.lxor (Z.lxor k1 (sbox a0)) (gmul 2 (sbox b1))) (gmul 3 (sbox c2))) (sbox d3))
     (Z.lxor (Z.lxor (Z.lxor (Z.lxor k2 (sbox a0)) (sbox b1)) (gmul 2 (sbox c2))) (gmul 3 (sbox d3)))
     (Z.lxor (Z.lxor (Z.lxor (Z.lxor k3 (gmul 3 (sbox a0))) (sbox b1)) (sbox c2)) (gmul 2 (sbox d3))).
Proof.
  intros A B C D. unfold qword. rewrite (sel0 a0), (sel1 b0), (sel2 c0), (sel3 d0) by assumption. rewrite !ftable_ok by assumption. rewrite rotl8_pk, rotl16_pk, rotl24_pk, !pk_xor. reflexivity.
Qed.
Lemma qword_b (t : list Z) (sb : Z -> Z) (T : forall x, byte x -> tb t x = sb x) (TB : forall x, byte x -> byte (sb x))
  k0 k1 k2 k3 a0 a1 a2 a3 b0 b1 b2 b3 c0 c1 c2 c3 d0 d1 d2 d3 : byte a0 -> byte b1 -> byte c2 -> byte d3 ->
  qword t (pk k0 k1 k2 k3) (pk a0 a1 a2 a3) (pk b0 b1 b2 b3) (pk c0 c1 c2 c3) (pk d0 d1 d2 d3) =
  pk (Z.lxor k0 (sb a0)) (Z.lxor k1 (sb b1)) (Z.lxor k2 (sb c2)) (Z.lxor k3 (sb d3)).
Proof.
  intros A B C D. unfold qword. rewrite (sel0 a0), (sel1 b0), (sel2 c0), (sel3 d0) by assumption. rewrite !T by assumption.
  rewrite (pk_byte (sb a0)), (pk_byte (sb b1)), (pk_byte (sb c2)), (pk_byte (sb d3)) by (apply TB; assumption). rewrite rotl8_pk, rotl16_pk, rotl24_pk, !pk_xor.
  rewrite <- !pk_byte by (apply TB; assumption). apply pk_ext; xbits.
Qed.
Lemma qword_r k0 k1 k2 k3 a0 a1 a2 a3 b0 b1 b2 b3 c0 c1 c2 c3 d0 d1 d2 d3 : byte a0 -> byte b1 -> byte c2 -> byte d3 ->
  qword RTABLE (pk k0 k1 k2 k3) (pk a0 a1 a2 a3) (pk b0 b1 b2 b3) (pk c0 c1 c2 c3) (pk d0 d1 d2 d3) =
  pk (Z.lxor k0 (imw (inv_sbox a0) (inv_sbox b1) (inv_sbox c2) (inv_sbox d3)))
     (Z.lxor k1 (imw (inv_sbox b1) (inv_sbox c2) (inv_sbox d3) (inv_sbox a0)))
     (Z.lxor k2 (imw (inv_sbox c2) (inv_sbox d3) (inv_sbox a0) (inv_sbox b1)))
     (Z.lxor k3 (imw (inv_sbox d3) (inv_sbox a0) (inv_sbox b1) (inv_sbox c2))).
Proof.
  intros A B C D. unfold qword. rewrite (sel0 a0), (sel1 b0), (sel2 c0), (sel3 d0) by assumption. rewrite !rtable_ok by assumption. rewrite rotl8_pk, rotl16_pk, rotl24_pk, !pk_xor.
  apply pk_ext; unfold imw; xbits.
Qed.

(* the key words of round r *)
Definition has_key (key : list Z) (k : nat) (g : list (list Z)) : Prop :=
  exists w0 w1 w2 w3, g = [w0; w1; w2; w3] /\ word w0 /\ word w1 /\ word w2 /\ word w3 /\
    getM key k = Some (pw w0) /\ getM key (k + 1) = Some (pw w1) /\ getM key (k + 2) = Some (pw w2) /\ getM key (k + 3) = Some (pw w3).

Lemma pair4 (a b c d a' b' c' d' : Z) : a = a' -> b = b' -> c = c' -> d = d' -> Some (a, b, c, d) = Some (a', b', c', d').
Proof. intros -> -> -> ->. reflexivity. Qed.
Ltac open_st := cbv [SubBytes InvSubBytes ShiftRows InvShiftRows MixColumns InvMixColumns mix by_rc at_rc];
  cbn [map seq concat app bxor firstn skipn nth Nat.modulo Nat.divmod Nat.add Nat.mul Nat.sub fst snd Nat.div].
Ltac open_key HK := destruct HK as (?w & ?w & ?w & ?w & -> & ?W & ?W & ?W & ?W & ?E & ?E & ?E & ?E);
  repeat match goal with H : word _ |- _ => word_vars H end.
Lemma load_ok key g s : has_key key 0 g -> st s -> load key s = Some (enc_st (bxor s (concat g))).
Proof.
  intros HK S. open_key HK. st_vars S. unfold load. cbn [Nat.add] in *. repeat match goal with H : getM _ _ = _ |- _ => rewrite H; clear H end. cbn [bind].
  unfold enc_st. cbn [concat app bxor firstn skipn]. fold_pk. unfold pw. cbn [nth]. rewrite !pk_xor. reflexivity.
Qed.
Lemma store_ok s : st s -> store (enc_st s) = s.
Proof. intros S. st_vars S. fold_bytes. unfold store, enc_st, pw. cbn [firstn skipn nth]. rewrite !unpack_pk by assumption. reflexivity. Qed.
Lemma enc_round_ok key k g s : has_key key k g -> st s ->
  enc_round FTABLE key k (enc_st s) = Some (enc_st (bxor (MixColumns (ShiftRows (SubBytes s))) (concat g))).
Proof.
  intros HK S. open_key HK. st_vars S. fold_bytes. unfold enc_round, enc_st. repeat match goal with H : getM _ _ = _ |- _ => rewrite H; clear H end. cbn [bind].
  open_st. unfold pw. cbn [nth]. rewrite !qword_f by assumption. rewrite ?gmul_1. apply pair4; apply pk_ext; xbits.
Qed.
Lemma enc_last_ok key k g s : has_key key k g -> st s ->
  enc_round FBSUB key k (enc_st s) = Some (enc_st (bxor (ShiftRows (SubBytes s)) (concat g))).
Proof.
  intros HK S. open_key HK. st_vars S. fold_bytes. unfold enc_round, enc_st. repeat match goal with H : getM _ _ = _ |- _ => rewrite H; clear H end. cbn [bind].
  open_st. unfold pw. cbn [nth]. rewrite !(qword_b FBSUB sbox fbsub_ok sbox_byte) by assumption. apply pair4; apply pk_ext; apply Z.lxor_comm.
Qed.
Lemma dec_round_ok key k g s : has_key key k g -> st s ->
  dec_round RTABLE key k (enc_st s) = Some (enc_st (bxor (InvMixColumns (InvSubBytes (InvShiftRows s))) (concat g))).
Proof.
  intros HK S. open_key HK. st_vars S. fold_bytes. unfold dec_round, enc_st. repeat match goal with H : getM _ _ = _ |- _ => rewrite H; clear H end. cbn [bind].
  open_st. unfold pw. cbn [nth]. rewrite !qword_r by assumption. unfold imw. apply pair4; apply pk_ext; apply Z.lxor_comm.
Qed.
Lemma dec_last_ok key k g s : has_key key k g -> st s ->
  dec_round RBSUB key k (enc_st s) = Some (enc_st (bxor (InvSubBytes (InvShiftRows s)) (concat g))).
Proof.
  intros HK S. open_key HK. st_vars S. fold_bytes. unfold dec_round, enc_st. repeat match goal with H : getM _ _ = _ |- _ => rewrite H; clear H end. cbn [bind].
  open_st. unfold pw. cbn [nth]. rewrite !(qword_b RBSUB inv_sbox rbsub_ok inv_sbox_byte) by assumption. apply pair4; apply pk_ext; apply Z.lxor_comm.
Qed.

Lemma cons_eq (x y : Z) l m : x = y -> l = m -> x :: l = y :: m.
Proof. intros -> ->. reflexivity. Qed.
(* the steps keep states, and their inverses *)
Ltac st_close := fold_bytes; split; [reflexivity|unfold bytes]; repeat first [apply Forall_cons|apply Forall_nil];
  repeat first [apply byte_xor|apply gmul_byte|apply sbox_byte|apply inv_sbox_byte|assumption].
Lemma sub_st s : st s -> st (SubBytes s). Proof. intros S. st_vars S. open_st. st_close. Qed.
Lemma isub_st s : st s -> st (InvSubBytes s). Proof. intros S. st_vars S. open_st. st_close. Qed.
Lemma shift_st s : st s -> st (ShiftRows s). Proof. intros S. st_vars S. open_st. st_close. Qed.
Lemma ishift_st s : st s -> st (InvShiftRows s). Proof. intros S. st_vars S. open_st. st_close. Qed.
Lemma mix_st m0 m1 m2 m3 s : st s -> st (mix m0 m1 m2 m3 s). Proof. intros S. st_vars S. open_st. st_close. Qed.
Lemma bxor_st s k : st s -> st k -> st (bxor s k). Proof. intros S K. st_vars S. st_vars K. open_st. st_close. Qed.
Definition group (g : list (list Z)) : Prop := exists w0 w1 w2 w3, g = [w0; w1; w2; w3] /\ word w0 /\ word w1 /\ word w2 /\ word w3.
Lemma group_st g : group g -> st (concat g).
Proof. intros (w0 & w1 & w2 & w3 & -> & W0 & W1 & W2 & W3). repeat match goal with H : word _ |- _ => word_vars H end. open_st. st_close. Qed.
Lemma isub_sub s : st s -> InvSubBytes (SubBytes s) = s.
Proof. intros S. st_vars S. fold_bytes. open_st. rewrite !inv_sbox_sbox by assumption. reflexivity. Qed.
Lemma ishift_shift s : st s -> InvShiftRows (ShiftRows s) = s.
Proof. intros S. st_vars S. open_st. reflexivity. Qed.
Lemma imix_lin s k : st s -> st k -> InvMixColumns (bxor s k) = bxor (InvMixColumns s) (InvMixColumns k).
Proof.
  intros S K. st_vars S. st_vars K. open_st. rewrite !gmul_lin.
  repeat (apply cons_eq; [xbits|]). reflexivity.
Qed.
Lemma col_id a b c d : byte a -> byte b -> byte c -> byte d ->
  let r0 := Z.lxor (Z.lxor (Z.lxor (gmul 2 a) (gmul 3 b)) (gmul 1 c)) (gmul 1 d) in
  let r1 := Z.lxor (Z.lxor (Z.lxor (gmul 2 b) (gmul 3 c)) (gmul 1 d)) (gmul 1 a) in
  let r2 := Z.lxor (Z.lxor (Z.lxor (gmul 2 c) (gmul 3 d)) (gmul 1 a)) (gmul 1 b) in
  let r3 := Z.lxor (Z.lxor (Z.lxor (gmul 2 d) (gmul 3 a)) (gmul 1 b)) (gmul 1 c) in
  Z.lxor (Z.lxor (Z.lxor (gmul 14 r0) (gmul 11 r1)) (gmul 13 r2)) (gmul 9 r3) = a.
Proof.
  intros A B C D r0 r1 r2 r3. unfold r0, r1, r2, r3. clear r0 r1 r2 r3. rewrite !gmul_lin.
  pose proof (im0 a A) as I0. pose proof (im1 b B) as I1. pose proof (im2 c C) as I2. pose proof (im3 d D) as I3. rewrite gmul_0 in I1, I2, I3.
  transitivity (Z.lxor (Z.lxor (Z.lxor (Z.lxor (Z.lxor (Z.lxor (gmul 14 (gmul 2 a)) (gmul 11 (gmul 1 a))) (gmul 13 (gmul 1 a))) (gmul 9 (gmul 3 a)))
     (Z.lxor (Z.lxor (Z.lxor (gmul 14 (gmul 3 b)) (gmul 11 (gmul 2 b))) (gmul 13 (gmul 1 b))) (gmul 9 (gmul 1 b))))
     (Z.lxor (Z.lxor (Z.lxor (gmul 14 (gmul 1 c)) (gmul 11 (gmul 3 c))) (gmul 13 (gmul 2 c))) (gmul 9 (gmul 1 c))))
     (Z.lxor (Z.lxor (Z.lxor (gmul 14 (gmul 1 d)) (gmul 11 (gmul 1 d))) (gmul 13 (gmul 3 d))) (gmul 9 (gmul 2 d)))); [xbits|].
  rewrite I0, I1, I2, I3, !Z.lxor_0_r. apply gmul_1.
Qed.
Lemma imix_mix s : st s -> InvMixColumns (MixColumns s) = s.
Proof. intros S. st_vars S. fold_bytes. open_st. repeat (apply cons_eq; [apply col_id; assumption|]). reflexivity. Qed.
Lemma bxor_twice s k : st s -> st k -> bxor (bxor s k) k = s.
Proof. intros S K. st_vars S. st_vars K. open_st. repeat (apply cons_eq; [rewrite Z.lxor_assoc, Z.lxor_nilpotent; apply Z.lxor_0_r|]). reflexivity. Qed.

(* the key words of round r in the key schedule w *)
Definition grp (w : list (list Z)) (r : nat) : list (list Z) := firstn 4 (skipn (4 * r) w).
Lemma skip_nth {A} (d : A) : forall n l, (n < length l)%nat -> skipn n l = nth n l d :: skipn (S n) l.
Proof. induction n as [|n IH]; intros [|x l] L; cbn [length] in L; try lia; [reflexivity|]. cbn [skipn nth]. rewrite IH by lia. reflexivity. Qed.
Lemma grp_eq w r : (4 * r + 4 <= length w)%nat -> grp w r = [nth (4 * r) w []; nth (4 * r + 1) w []; nth (4 * r + 2) w []; nth (4 * r + 3) w []].
Proof.
  intros L. unfold grp. rewrite (skip_nth [] (4 * r)), (skip_nth [] (S (4 * r))), (skip_nth [] (S (S (4 * r)))), (skip_nth [] (S (S (S (4 * r))))) by lia. cbn [firstn].
  rewrite !Nat.add_succ_r, Nat.add_0_r. reflexivity.
Qed.
Lemma word_nth w i : Forall word w -> (i < length w)%nat -> word (nth i w []).
Proof. intros F L. exact (proj1 (Forall_forall _ _) F _ (nth_In w [] L)). Qed.
Lemma grp_group w r : Forall word w -> (4 * r + 4 <= length w)%nat -> group (grp w r).
Proof. intros F L. rewrite grp_eq by exact L. do 4 eexists. split; [reflexivity|]. repeat split; apply word_nth; (assumption || lia). Qed.
Lemma get_key w rest i : (i < length w)%nat -> getM (map pw w ++ rest) i = Some (pw (nth i w [])).
Proof.
  intros L. unfold getM. rewrite nth_error_app1 by (rewrite map_length; exact L). rewrite (map_nth_error pw i w (d := nth i w [])); [reflexivity|]. apply nth_error_nth'. exact L.
Qed.
Lemma has_grp w rest r : Forall word w -> (4 * r + 4 <= length w)%nat -> has_key (map pw w ++ rest) (4 * r) (grp w r).
Proof.
  intros F L. rewrite grp_eq by exact L. do 4 eexists. split; [reflexivity|]. rewrite !get_key by lia.
  split; [apply word_nth; (assumption || lia)|]. split; [apply word_nth; (assumption || lia)|]. split; [apply word_nth; (assumption || lia)|]. split; [apply word_nth; (assumption || lia)|].
  repeat split; reflexivity.
Qed.
Lemma ark_st w r s : Forall word w -> (4 * r + 4 <= length w)%nat -> st s -> st (AddRoundKey w r s).
Proof. intros F L S. apply bxor_st; [exact S|]. apply group_st. apply grp_group; assumption. Qed.
Lemma ark_twice w r s : Forall word w -> (4 * r + 4 <= length w)%nat -> st s -> AddRoundKey w r (AddRoundKey w r s) = s.
Proof. intros F L S. apply bxor_twice; [exact S|]. apply group_st. apply grp_group; assumption. Qed.

Lemma ark_eq w r s : bxor s (concat (grp w r)) = AddRoundKey w r s. Proof. reflexivity. Qed.
Lemma imix_st s : st s -> st (InvMixColumns s). Proof. apply mix_st. Qed.
Lemma mixc_st s : st s -> st (MixColumns s). Proof. apply mix_st. Qed.

(* the decryption key schedule: the groups reversed, the inner ones through InvMixColumns *)
Definition imcw (w : list Z) : list Z :=
  [imw (nth 0 w 0) (nth 1 w 0) (nth 2 w 0) (nth 3 w 0); imw (nth 1 w 0) (nth 2 w 0) (nth 3 w 0) (nth 0 w 0);
   imw (nth 2 w 0) (nth 3 w 0) (nth 0 w 0) (nth 1 w 0); imw (nth 3 w 0) (nth 0 w 0) (nth 1 w 0) (nth 2 w 0)].
Lemma imw_byte a b c d : byte a -> byte b -> byte c -> byte d -> byte (imw a b c d).
Proof. intros. unfold imw. repeat apply byte_xor; apply gmul_byte; assumption. Qed.
Lemma imcw_word w : word w -> word (imcw w).
Proof. intros W. word_vars W. fold_bytes. split; [reflexivity|]. unfold imcw. cbn [nth]. repeat first [apply Forall_cons|apply Forall_nil]; apply imw_byte; assumption. Qed.
Lemma imcw_ok w : word w -> invmixcol (pw w) = pw (imcw w).
Proof. intros W. word_vars W. fold_bytes. unfold pw, imcw. cbn [nth]. apply invmixcol_ok; assumption. Qed.
Lemma imcw_grp g : group g -> concat (map imcw g) = InvMixColumns (concat g).
Proof. intros (w0 & w1 & w2 & w3 & -> & W0 & W1 & W2 & W3). repeat match goal with H : word _ |- _ => word_vars H end. cbn [map]. unfold imcw. open_st. unfold imw. reflexivity. Qed.
Global Opaque SubBytes InvSubBytes ShiftRows InvShiftRows MixColumns InvMixColumns AddRoundKey bxor.

Lemma fold_rev_S {A} (f : A -> nat -> A) n x : fold_left f (rev (seq 1 (S n))) x = fold_left f (rev (seq 1 n)) (f x (1 + n)%nat).
Proof. rewrite seq_S, rev_app_distr. reflexivity. Qed.
Lemma fold_seq_S {A} (f : A -> nat -> A) n x : fold_left f (seq 1 (S n)) x = f (fold_left f (seq 1 n) x) (1 + n)%nat.
Proof. rewrite seq_S, fold_left_app. reflexivity. Qed.
Lemma foldM_app {A B} (f : A -> B -> option A) l m : forall x, foldM f (l ++ m) x = (y <- foldM f l x ;; foldM f m y).
Proof. induction l as [|b l IH]; intros x; [reflexivity|]. cbn [app foldM]. destruct (f x b) as [y|]; [|reflexivity]. cbn [bind]. apply IH. Qed.
Lemma foldM_seq_S {A} (f : A -> nat -> option A) n x y : foldM f (seq 1 n) x = Some y -> foldM f (seq 1 (S n)) x = f y (1 + n)%nat.
Proof. intros E. rewrite seq_S, foldM_app, E. cbn [bind foldM]. destruct (f y (1 + n)%nat); reflexivity. Qed.
Lemma foldM_cons {A} (f : A -> nat -> option A) r n x y : f x r = Some y -> foldM f (seq r (S n)) x = foldM f (seq (S r) n) y.
Proof. intros E. cbn [seq foldM]. rewrite E. reflexivity. Qed.

Definition rnd (w : list (list Z)) (s : list Z) (r : nat) : list Z := AddRoundKey w r (MixColumns (ShiftRows (SubBytes s))).
Lemma rnd_st w r s : Forall word w -> (4 * r + 4 <= length w)%nat -> st s -> st (rnd w s r).
Proof. intros F L S. apply ark_st; [exact F|exact L|]. apply mixc_st, shift_st, sub_st, S. Qed.
Lemma rnds_st w n : Forall word w -> (4 * (n + 1) <= length w)%nat -> forall s, st s -> st (fold_left (rnd w) (seq 1 n) s).
Proof.
  intros F L s S. induction n as [|n IH]; [exact S|]. rewrite fold_seq_S. apply rnd_st; [exact F|lia|]. apply IH. lia.
Qed.
Lemma cipher_st nr w s : Forall word w -> (0 < nr)%nat -> length w = (4 * (nr + 1))%nat -> st s -> st (Cipher nr w s).
Proof.
  intros F N L S. unfold Cipher. apply ark_st; [exact F|lia|]. apply shift_st, sub_st. apply (rnds_st w (nr - 1) F); [lia|]. apply ark_st; [exact F|lia|exact S].
Qed.
(* decryption inverts encryption, whatever the round keys *)
Definition irnd (w : list (list Z)) (s : list Z) (r : nat) : list Z := InvMixColumns (AddRoundKey w r (InvSubBytes (InvShiftRows s))).
Lemma irnd_rnd w x r : Forall word w -> (4 * r + 4 <= length w)%nat -> st x -> irnd w (ShiftRows (SubBytes (rnd w x r))) r = ShiftRows (SubBytes x).
Proof.
  intros F L S. assert (SR : st (rnd w x r)) by (apply rnd_st; assumption). unfold irnd. rewrite (ishift_shift _ (sub_st _ SR)), (isub_sub _ SR). unfold rnd.
  rewrite (ark_twice w r _ F L (mixc_st _ (shift_st _ (sub_st _ S)))). apply imix_mix. apply shift_st, sub_st, S.
Qed.
Lemma irnds_rnds w s0 n : Forall word w -> st s0 -> (4 * (n + 1) <= length w)%nat ->
  fold_left (irnd w) (rev (seq 1 n)) (ShiftRows (SubBytes (fold_left (rnd w) (seq 1 n) s0))) = ShiftRows (SubBytes s0).
Proof.
  intros F S0. induction n as [|n IH]; intros LN; [reflexivity|]. rewrite fold_rev_S, (fold_seq_S (rnd w)).
  rewrite irnd_rnd; [apply IH; lia|exact F|lia|]. apply rnds_st; [exact F|lia|exact S0].
Qed.
Lemma cipher_eq nr w s : Cipher nr w s = AddRoundKey w nr (ShiftRows (SubBytes (fold_left (rnd w) (seq 1 (nr - 1)) (AddRoundKey w 0 s)))).
Proof. unfold Cipher, rnd. reflexivity. Qed.
Lemma icipher_eq nr w s : InvCipher nr w s = AddRoundKey w 0 (InvSubBytes (InvShiftRows (fold_left (irnd w) (rev (seq 1 (nr - 1))) (AddRoundKey w nr s)))).
Proof. unfold InvCipher, irnd. reflexivity. Qed.
Lemma inv_cipher nr w s : Forall word w -> (0 < nr)%nat -> length w = (4 * (nr + 1))%nat -> st s -> InvCipher nr w (Cipher nr w s) = s.
Proof.
  intros F N L S. rewrite icipher_eq, cipher_eq. set (s0 := AddRoundKey w 0 s). assert (S0 : st s0) by (apply ark_st; [exact F|lia|exact S]).
  rewrite (ark_twice w nr); [|exact F|lia|apply shift_st, sub_st, rnds_st; [exact F|lia|exact S0]]. rewrite irnds_rnds; [|exact F|exact S0|lia].
  rewrite (ishift_shift _ (sub_st _ S0)), (isub_sub _ S0). unfold s0. apply (ark_twice w 0); [exact F|lia|exact S].
Qed.

(* ecb_encrypt with round keys w *)
Theorem ecb_enc_ok a w rest s : a_fkey a = map pw w ++ rest -> Forall word w -> (0 < a_nr a)%nat -> length w = (4 * (a_nr a + 1))%nat -> st s ->
  ecb_encrypt a s = Some (Cipher (a_nr a) w s).
Proof.
  intros K F N L S. unfold ecb_encrypt. rewrite K. rewrite (load_ok _ (grp w 0) s); [|apply (has_grp w rest 0); [exact F|lia]|exact S]. cbn [bind].
  rewrite ark_eq. set (s0 := AddRoundKey w 0 s). assert (S0 : st s0) by (apply ark_st; [exact F|lia|exact S]).
  assert (G : forall n, (4 * (n + 1) <= length w)%nat -> foldM (fun p r => enc_round FTABLE (map pw w ++ rest) (4 * r) p) (seq 1 n) (enc_st s0) = Some (enc_st (fold_left (rnd w) (seq 1 n) s0))).
  { induction n as [|n IH]; intros LN; [reflexivity|]. rewrite fold_seq_S. rewrite (foldM_seq_S _ n _ _ (IH ltac:(lia))).
    rewrite (enc_round_ok _ _ (grp w (1 + n))); [rewrite ark_eq; reflexivity|apply has_grp; [exact F|lia]|]. apply rnds_st; [exact F|lia|exact S0]. }
  rewrite G by lia. cbn [bind]. destruct (Nat.eqb_spec (a_nr a) 0) as [E|_]; [lia|]. pose proof (rnds_st w (a_nr a - 1) F ltac:(lia) s0 S0) as SN.
  rewrite (enc_last_ok _ _ (grp w (a_nr a))); [|apply has_grp; [exact F|lia]|exact SN]. cbn [bind]. rewrite ark_eq, store_ok; [rewrite cipher_eq; reflexivity|].
  apply (ark_st w (a_nr a)); [exact F|lia|]. apply shift_st, sub_st, SN.
Qed.

Definition is_rkey (nr : nat) (w : list (list Z)) (rk : list Z) : Prop :=
  has_key rk 0 (grp w nr) /\ has_key rk (4 * nr) (grp w 0) /\ forall r, (0 < r < nr)%nat -> has_key rk (4 * r) (map imcw (grp w (nr - r))).
Lemma irnd_st w r s : Forall word w -> (4 * r + 4 <= length w)%nat -> st s -> st (irnd w s r).
Proof. intros F L S. apply imix_st. apply ark_st; [exact F|exact L|]. apply isub_st, ishift_st, S. Qed.
Theorem ecb_dec_ok a w s : is_rkey (a_nr a) w (a_rkey a) -> Forall word w -> (0 < a_nr a)%nat -> length w = (4 * (a_nr a + 1))%nat -> st s ->
  ecb_decrypt a s = Some (InvCipher (a_nr a) w s).
Proof.
  intros (K0 & KN & KR) F N L SS. unfold ecb_decrypt. rewrite (load_ok _ (grp w (a_nr a)) s K0 SS). cbn [bind].
  rewrite ark_eq. set (s0 := AddRoundKey w (a_nr a) s). assert (S0 : st s0) by (apply ark_st; [exact F|lia|exact SS]).
  assert (G : forall n, (n < a_nr a)%nat -> forall s r, st s -> (r + n = a_nr a - 1)%nat ->
    foldM (fun p r => dec_round RTABLE (a_rkey a) (4 * r) p) (seq (S r) n) (enc_st s) = Some (enc_st (fold_left (irnd w) (rev (seq 1 n)) s)) /\ st (fold_left (irnd w) (rev (seq 1 n)) s)).
  { induction n as [|n IH]; intros LN x r X E; [split; [reflexivity|exact X]|]. rewrite fold_rev_S.
    rewrite (foldM_cons _ (S r) n (enc_st x) (enc_st (irnd w x (1 + n)))); [apply IH; [lia|apply irnd_st; [exact F|lia|exact X]|lia]|].
    rewrite (dec_round_ok _ _ (map imcw (grp w (1 + n)))); [|replace (1 + n)%nat with (a_nr a - S r)%nat by lia; apply KR; lia|exact X].
    rewrite imcw_grp by (apply grp_group; [exact F|lia]). rewrite <- imix_lin; [|apply isub_st, ishift_st, X|apply group_st, grp_group; [exact F|lia]].
    rewrite ark_eq. reflexivity. }
  destruct (G (a_nr a - 1)%nat ltac:(lia) s0 0%nat S0 ltac:(lia)) as [E SN]. rewrite E. cbn [bind]. clear E. destruct (Nat.eqb_spec (a_nr a) 0) as [E|_]; [lia|].
  rewrite (dec_last_ok _ _ (grp w 0) _ KN SN). cbn [bind]. rewrite ark_eq, store_ok; [rewrite icipher_eq; reflexivity|].
  apply (ark_st w 0); [exact F|lia|]. apply isub_st, ishift_st, SN.
Qed.
