(* Specification: byte strings and big-endian integers. *)
From Coq Require Import ZArith List Lia.
Import ListNotations.
Open Scope Z_scope.

(* a byte string *)
Definition bytes (bs : list Z) : Prop := Forall (fun b => 0 <= b < 256) bs.

(* the integer a byte string denotes, most significant byte first *)
Definition be_int (bs : list Z) : Z := fold_left (fun v b => v * 256 + b) bs 0.

(* the n-byte big-endian encoding of v (mod 256^n) *)
Fixpoint be_bytes (n : nat) (v : Z) : list Z :=
  match n with
  | O => []
  | S k => be_bytes k (v / 256) ++ [v mod 256]
  end.

Lemma be_int_app a b : be_int (a ++ b) = be_int a * 256 ^ Z.of_nat (length b) + be_int b.
Proof.
  unfold be_int. rewrite fold_left_app. generalize (fold_left (fun v b => v * 256 + b) a 0). intros v.
  revert v. assert (G : forall l v w, fold_left (fun v b => v * 256 + b) l (v + w) =
     v * 256 ^ Z.of_nat (length l) + fold_left (fun v b => v * 256 + b) l w).
  { induction l as [|x l IH]; intros v w.
    - change (Z.of_nat (length (@nil Z))) with 0. rewrite Z.pow_0_r. simpl fold_left. lia.
    - simpl fold_left. replace ((v + w) * 256 + x) with (v * 256 + (w * 256 + x)) by lia.
      rewrite IH. replace (Z.of_nat (length (x :: l))) with (1 + Z.of_nat (length l)) by (simpl length; lia).
      rewrite Z.pow_add_r by lia. lia. }
  intros v. rewrite <- (Z.add_0_r v) at 1. apply G.
Qed.
Lemma be_int_snoc a b : be_int (a ++ [b]) = be_int a * 256 + b.
Proof. unfold be_int. rewrite fold_left_app. reflexivity. Qed.

Lemma be_bytes_length n v : length (be_bytes n v) = n.
Proof. revert v. induction n; intros; simpl; auto. rewrite app_length, IHn. simpl. lia. Qed.
Lemma be_bytes_bytes n v : bytes (be_bytes n v).
Proof.
  revert v. induction n; intros; simpl; [constructor|]. apply Forall_app. split; [apply IHn|].
  constructor; [apply Z.mod_pos_bound; lia|constructor].
Qed.
Lemma be_int_range bs : bytes bs -> 0 <= be_int bs < 256 ^ Z.of_nat (length bs).
Proof.
  induction bs as [|b bs IH] using rev_ind; intros H.
  - unfold be_int. simpl. lia.
  - apply Forall_app in H. destruct H as [H1 H2]. apply Forall_inv in H2.
    rewrite be_int_snoc, app_length. simpl length.
    replace (Z.of_nat (length bs + 1)) with (Z.of_nat (length bs) + 1) by lia.
    rewrite Z.pow_add_r by lia. specialize (IH H1). change (256 ^ 1) with 256. lia.
Qed.
Lemma be_int_bytes n v : be_int (be_bytes n v) = v mod 256 ^ Z.of_nat n.
Proof.
  revert v. induction n as [|n IH]; intros v.
  - change (256 ^ Z.of_nat 0) with 1. rewrite Z.mod_1_r. reflexivity.
  - cbn [be_bytes]. rewrite be_int_snoc, IH.
    replace (Z.of_nat (S n)) with (1 + Z.of_nat n) by lia. rewrite Z.pow_add_r by lia.
    change (256 ^ 1) with 256.
    assert (0 < 256 ^ Z.of_nat n) by (apply Z.pow_pos_nonneg; lia).
    rewrite Z.rem_mul_r by lia. lia.
Qed.
Lemma be_bytes_int bs : bytes bs -> be_bytes (length bs) (be_int bs) = bs.
Proof.
  induction bs as [|b bs IH] using rev_ind; intros H; [reflexivity|].
  apply Forall_app in H. destruct H as [H1 H2]. apply Forall_inv in H2.
  rewrite be_int_snoc, app_length. simpl length. rewrite Nat.add_1_r. cbn [be_bytes].
  rewrite Z.div_add_l by lia. rewrite (Z.div_small b) by lia. rewrite Z.add_0_r, IH by auto.
  f_equal. f_equal. rewrite Z.add_comm, Z.mod_add by lia. apply Z.mod_small; lia.
Qed.
Lemma be_int_inj a b : bytes a -> bytes b -> length a = length b -> be_int a = be_int b -> a = b.
Proof. intros Ha Hb L E. rewrite <- (be_bytes_int a), <- (be_bytes_int b), L, E; auto. Qed.
Lemma be_bytes_mod n v : be_bytes n (v mod 256 ^ Z.of_nat n) = be_bytes n v.
Proof.
  rewrite <- be_int_bytes. rewrite <- (be_bytes_length n v) at 1. apply be_bytes_int, be_bytes_bytes.
Qed.
