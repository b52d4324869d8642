(* Lemmas about the panic monad, checked arithmetic and loops of Prim.v. *)
From Coq Require Import Lia ZifyBool Znumtheory.
From Verif Require Import Prim.

#[global] Arguments Z.mul : simpl never.
#[global] Arguments Z.add : simpl never.
#[global] Arguments Z.sub : simpl never.
#[global] Arguments Z.opp : simpl never.
#[global] Arguments Z.pow : simpl never.
#[global] Arguments Z.div : simpl never.
#[global] Arguments Z.modulo : simpl never.
#[global] Arguments Z.of_nat : simpl never.
#[global] Arguments Z.sgn : simpl never.

Lemma ok_bind {A B} (m : option A) (f : A -> option B) (P : A -> Prop) (Q : B -> Prop) :
  ok m P -> (forall a, P a -> ok (f a) Q) -> ok (bind m f) Q.
Proof. destruct m; simpl; auto. Qed.

Lemma ok_impl {A} (m : option A) (P Q : A -> Prop) :
  ok m P -> (forall a, P a -> Q a) -> ok m Q.
Proof. destruct m; simpl; auto. Qed.

Lemma ok_and {A} (m : option A) (P Q : A -> Prop) :
  ok m P -> ok m Q -> ok m (fun a => P a /\ Q a).
Proof. destruct m; simpl; auto. Qed.

Lemma ok_some {A} (a : A) (P : A -> Prop) : P a -> ok (Some a) P.
Proof. auto. Qed.

Lemma ok_ex {A} (m : option A) (P : A -> Prop) : ok m P <-> exists a, m = Some a /\ P a.
Proof.
  destruct m; simpl; split; intro H.
  - eauto.
  - destruct H as (b & E & Hb). injection E as <-. exact Hb.
  - contradiction.
  - destruct H as (b & E & _). discriminate.
Qed.

Lemma bind_some {A B} (m : option A) (f : A -> option B) b :
  bind m f = Some b <-> exists a, m = Some a /\ f a = Some b.
Proof.
  destruct m; simpl; split; intro H.
  - eauto.
  - destruct H as (x & E & Hx). injection E as <-. exact Hx.
  - discriminate.
  - destruct H as (x & E & _). discriminate.
Qed.

Lemma bind_assoc {A B C} (m : option A) (f : A -> option B) (g : B -> option C) :
  bind (bind m f) g = bind m (fun a => bind (f a) g).
Proof. destruct m; reflexivity. Qed.

Ltac ckt := unfold ck64, ck128, ck32, cku64, cku8, min64, max64, min128, max128, min32, max32, maxu64;
  intros; match goal with |- (if ?b then _ else _) = _ => replace b with true by lia end; reflexivity.
Lemma ck64_ok z : -9223372036854775808 <= z <= 9223372036854775807 -> ck64 z = Some z.
Proof. ckt. Qed.
Lemma ck128_ok z : -170141183460469231731687303715884105728 <= z <=
  170141183460469231731687303715884105727 -> ck128 z = Some z.
Proof. ckt. Qed.
Lemma ck32_ok z : -2147483648 <= z <= 2147483647 -> ck32 z = Some z.
Proof. ckt. Qed.
Lemma cku64_ok z : 0 <= z <= 18446744073709551615 -> cku64 z = Some z.
Proof. ckt. Qed.
Lemma cku8_ok z : 0 <= z <= 255 -> cku8 z = Some z.
Proof. ckt. Qed.

(* foldM with an invariant indexed by the number of steps left / list *)
Lemma foldM_inv {A B} (f : A -> B -> option A) (P : A -> list B -> Prop) l a :
  P a l ->
  (forall a b l', P a (b :: l') -> ok (f a b) (fun a' => P a' l')) ->
  ok (foldM f l a) (fun a' => P a' []).
Proof.
  revert a. induction l as [|b l IH]; simpl; intros a H Hs.
  - exact H.
  - eapply ok_bind; [apply Hs; exact H|]. intros a' H'. apply IH; auto.
Qed.

Lemma foldM_inv0 {A B} (f : A -> B -> option A) (P : A -> Prop) l a :
  P a -> (forall a b, In b l -> P a -> ok (f a b) P) -> ok (foldM f l a) P.
Proof.
  revert a. induction l as [|b l IH]; simpl; intros a H Hs; [exact H|].
  eapply ok_bind; [apply Hs; auto|]. intros a' H'. apply IH; auto.
Qed.

Lemma foldM_app {A B} (f : A -> B -> option A) l1 l2 a :
  foldM f (l1 ++ l2) a = bind (foldM f l1 a) (foldM f l2).
Proof.
  revert a. induction l1 as [|b l IH]; simpl; intros; [reflexivity|].
  rewrite bind_assoc. destruct (f a b); simpl; auto.
Qed.

(* ---------------- two's complement --------------------------------- *)
Lemma land_ones_mod z n : 0 <= n -> Z.land z (2 ^ n - 1) = z mod 2 ^ n.
Proof. intros. rewrite <- Z.land_ones by lia. f_equal. rewrite Z.ones_equiv. lia. Qed.

Lemma wrap64_id z : -9223372036854775808 <= z <= 9223372036854775807 -> wrap64 z = z.
Proof.
  intros H. unfold wrap64, maxu64, max64.
  change 18446744073709551615 with (2 ^ 64 - 1). rewrite land_ones_mod by lia.
  destruct (Z.leb_spec (z mod 2 ^ 64) 9223372036854775807);
  destruct (Z_lt_le_dec z 0).
  - rewrite (Z.mod_eq z) in * by lia. pose proof (Z.div_mod z (2^64) ltac:(lia)).
    pose proof (Z.mod_pos_bound z (2^64) ltac:(lia)).
    assert (z / 2^64 = -1) by (symmetry; apply Z.div_unique with (r := z + 2^64); lia). lia.
  - apply Z.mod_small. lia.
  - assert (z / 2^64 = -1) by (symmetry; apply Z.div_unique with (r := z + 2^64); lia).
    rewrite Z.mod_eq by lia. lia.
  - rewrite Z.mod_small in H0 by lia. lia.
Qed.

Lemma wrap64_mod z n : 0 <= n <= 64 -> wrap64 z mod 2 ^ n = z mod 2 ^ n.
Proof.
  intros H. unfold wrap64, maxu64, max64.
  change 18446744073709551615 with (2 ^ 64 - 1). rewrite land_ones_mod by lia.
  assert (D : (2 ^ n | 2 ^ 64)).
  { exists (2 ^ (64 - n)). rewrite <- Z.pow_add_r by lia. f_equal. lia. }
  assert (P : 0 < 2 ^ n) by (apply Z.pow_pos_nonneg; lia).
  assert (E : (z mod 2 ^ 64) mod 2 ^ n = z mod 2 ^ n)
    by (symmetry; apply Zmod_div_mod; lia || exact D).
  destruct (_ <=? _); [exact E|].
  change 18446744073709551616 with (2^64).
  rewrite Zminus_mod, E. replace (2 ^ 64 mod 2 ^ n) with 0.
  - rewrite Z.sub_0_r. apply Z.mod_mod. lia.
  - symmetry. apply Z.mod_divide; [lia|exact D].
Qed.

Lemma wrap32_id z : -2147483648 <= z <= 2147483647 -> wrap32 z = z.
Proof.
  intros H. unfold wrap32, max32.
  change 4294967295 with (2 ^ 32 - 1). rewrite land_ones_mod by lia.
  destruct (Z.leb_spec (z mod 2 ^ 32) 2147483647);
  destruct (Z_lt_le_dec z 0).
  - assert (z / 2^32 = -1) by (symmetry; apply Z.div_unique with (r := z + 2^32); lia).
    rewrite (Z.mod_eq z) in * by lia. lia.
  - apply Z.mod_small. lia.
  - assert (z / 2^32 = -1) by (symmetry; apply Z.div_unique with (r := z + 2^32); lia).
    rewrite Z.mod_eq by lia. lia.
  - rewrite Z.mod_small in H0 by lia. lia.
Qed.

(* disjoint bits: OR is addition *)
Lemma lor_add a b k : 0 <= k -> 0 <= b < 2 ^ k -> Z.lor (a * 2 ^ k) b = a * 2 ^ k + b.
Proof.
  intros Hk Hb.
  assert (E : Z.land (a * 2 ^ k) b = 0).
  { apply Z.bits_inj'. intros i Hi. rewrite Z.land_spec, Z.bits_0.
    destruct (Z_lt_le_dec i k).
    - rewrite Z.mul_pow2_bits_low by lia. reflexivity.
    - replace (Z.testbit b i) with false; [apply Bool.andb_false_r|].
      symmetry. rewrite <- (Z.mod_small b (2^k)) by lia.
      apply Z.mod_pow2_bits_high. lia. }
  rewrite <- Z.lxor_lor by exact E. rewrite <- Z.add_nocarry_lxor by exact E. reflexivity.
Qed.

Lemma shiftr_div z n : 0 <= n -> Z.shiftr z n = z / 2 ^ n.
Proof. apply Z.shiftr_div_pow2. Qed.
Lemma shiftl_mul z n : 0 <= n -> Z.shiftl z n = z * 2 ^ n.
Proof. apply Z.shiftl_mul_pow2. Qed.

(* product bounds *)
Lemma abs_mul_le x y X Y : Z.abs x <= X -> Z.abs y <= Y -> Z.abs (x * y) <= X * Y.
Proof. intros. rewrite Z.abs_mul. apply Z.mul_le_mono_nonneg; lia. Qed.

(* conditional move with XOR masks *)
Lemma xor_sel x y : Z.lxor x (Z.land (Z.lxor x y) (-1)) = y.
Proof. rewrite Z.land_m1_r, <- Z.lxor_assoc, Z.lxor_nilpotent, Z.lxor_0_l. reflexivity. Qed.
Lemma xor_keep x y : Z.lxor x (Z.land (Z.lxor x y) 0) = x.
Proof. rewrite Z.land_0_r, Z.lxor_0_r. reflexivity. Qed.

Lemma upd_length {A} (l : list A) i x : length (upd l i x) = length l.
Proof. revert i. induction l; destruct i; simpl; auto. Qed.
Lemma nth_upd_same {A} (l : list A) i x d : (i < length l)%nat -> nth i (upd l i x) d = x.
Proof. revert i. induction l; destruct i; simpl; intros; try lia; auto. apply IHl; lia. Qed.
Lemma nth_upd_other {A} (l : list A) i j x d : i <> j -> nth j (upd l i x) d = nth j l d.
Proof. revert i j. induction l; destruct i, j; simpl; intros; auto; try lia. Qed.
