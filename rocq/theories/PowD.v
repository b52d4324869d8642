(* Modular powers checked with base-256 digits: a chain of squarings whose quotients and
   remainders are given. *)
From Coq Require Import ZArith List Bool Lia.
From Verif Require Import Dig.
Import ListNotations.
Open Scope Z_scope.

(* bits of e below the leading one, most significant first *)
Fixpoint pbits (e : positive) (acc : list bool) : list bool := match e with
  | xH => acc | xO e' => pbits e' (false :: acc) | xI e' => pbits e' (true :: acc) end.
Definition pnext (e : Z) (b : bool) : Z := 2 * e + (if b then 1 else 0).
Lemma pbits_ok e : forall acc, fold_left pnext (pbits e acc) 1 = fold_left pnext acc (Zpos e).
Proof.
  induction e as [e IH|e IH|]; intros acc; cbn [pbits]; [| |reflexivity]; rewrite IH; cbn [fold_left]; unfold pnext at 2; f_equal; lia.
Qed.

(* x x (a) = y + k n at every step *)
Fixpoint prun (n a x : num) (bs : list bool) (l : list (num * num)) : num := match bs with
  | [] => x
  | b :: bs' => match l with
    | [] => E
    | (y, k) :: l' => if eqn (if b then mul a (mul x x) else mul x x) (mula k n y) then prun n a y bs' l' else E
    end
  end.
Definition pchk0 (n a y : num) (e : positive) (l : list (num * num)) : bool := 
  match y with E => false | C _ _ => eqn (prun n a a (pbits e []) l) y end.
Definition pchk : num -> num -> num -> positive -> list (num * num) -> bool := Eval cbv
  [pchk0 prun pbits fst] in pchk0.
Lemma pchk_eq n a y e l : pchk n a y e l = pchk0 n a y e l. Proof. reflexivity. Qed.


(* the last value is compared with y, so a failed step would have to give y = 0 *)
Lemma prun_ok n a : 0 < nval n -> forall bs x l e, 0 <= e -> nval x mod nval n = nval a ^ e mod nval n ->
  nval (prun n a x bs l) <> 0 ->
  nval (prun n a x bs l) mod nval n = nval a ^ (fold_left pnext bs e) mod nval n.
Proof.
  intros N. induction bs as [|b bs IH]; intros x l e E0 X Z; [exact X|]. cbn [prun fold_left] in *.
  destruct l as [|[y k] l]; [contradiction|].
  destruct (eqn (if b then mul a (mul x x) else mul x x) (mula k n y)) eqn:C; [|contradiction].
  apply IH; auto; [unfold pnext; destruct b; lia|]. apply eqn_ok in C. rewrite mula_ok in C.
  assert (Y : nval y mod nval n = (nval k * nval n + nval y) mod nval n) by (rewrite Z.add_comm, Z.mod_add by lia; reflexivity).
  rewrite Y, <- C. unfold pnext.
  assert (XX : (nval x * nval x) mod nval n = nval a ^ (2 * e) mod nval n).
  { rewrite Z.mul_mod, X, <- Z.mul_mod, <- Z.pow_add_r by lia. f_equal. f_equal. lia. }
  destruct b; rewrite ?mul_ok.
  - rewrite Z.pow_add_r, Z.pow_1_r by lia. rewrite <- Z.mul_mod_idemp_r, XX, Z.mul_mod_idemp_r by lia. f_equal. apply Z.mul_comm.
  - rewrite Z.add_0_r. exact XX.
Qed.

Lemma pchk_ok n a y e l : pchk n a y e l = true -> 0 < nval n -> nval y <> 0 ->
  nval y mod nval n = nval a ^ Zpos e mod nval n.
Proof.
  rewrite pchk_eq. unfold pchk0. intros H N Y. destruct y as [|d y]; [discriminate|]. apply eqn_ok in H. rewrite <- H in *.
  rewrite (prun_ok n a N _ a l 1) by (auto; try lia; rewrite Z.pow_1_r; reflexivity).
  rewrite pbits_ok. reflexivity.
Qed.

(* hints *)
Fixpoint phintsZ (n a x : Z) (bs : list bool) : list (Z * Z) := match bs with
  | [] => []
  | b :: bs' => let z := if b then a * (x * x) else x * x in let (q, y) := Z.div_eucl z n in (y, q) :: phintsZ n a y bs'
  end.
(* as few digits as possible, at most f *)
Fixpoint ofZt (f : nat) (z : Z) : num := match f with O => E | S f' => if z =? 0 then E else C (dof (Z.land z 255)) (ofZt f' (Z.shiftr z 8)) end.
Definition digs (z : Z) : nat := Z.to_nat (Z.log2 z / 8 + 1).
Definition phints (n a : Z) (e : positive) : list (num * num) :=
  map (fun p => (ofZt (digs n) (fst p), ofZt (digs n + digs n) (snd p))) (phintsZ n a a (pbits e [])).
Definition plast (l : list (num * num)) : num := fst (last l (E, E)).
