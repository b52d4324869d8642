(* Machine integers, the panic monad and loop combinators.
   Models the Rust primitives the code in /repo is written with. *)
From Coq Require Export ZArith List Bool.
Export ListNotations.
Open Scope Z_scope.

(* ------------------------------------------------------------------ *)
(* Panic monad: None = the Rust program panics (debug-build overflow,
   index out of bounds, usize underflow), or a loop ran out of the fuel the
   model grants it. *)
Definition bind {A B} (m : option A) (f : A -> option B) : option B :=
  match m with Some a => f a | None => None end.

Notation "x <- m ;; k" := (bind m (fun x => k))
  (at level 61, m at next level, right associativity).
Notation "' p <- m ;; k" := (bind m (fun x => match x with p => k end))
  (at level 61, p pattern, m at next level, right associativity).

(* ok m P: the computation m does not panic and its result satisfies P. *)
Definition ok {A} (m : option A) (P : A -> Prop) : Prop :=
  match m with Some a => P a | None => False end.

(* ------------------------------------------------------------------ *)
(* Checked fixed-width arithmetic (Rust `+ - *` in a debug build):
   the mathematical result if it fits, a panic otherwise. *)
Definition min64 : Z := -9223372036854775808.
Definition max64 : Z :=  9223372036854775807.
Definition min128 : Z := -170141183460469231731687303715884105728.
Definition max128 : Z :=  170141183460469231731687303715884105727.
Definition min32 : Z := -2147483648.
Definition max32 : Z :=  2147483647.
Definition maxu64 : Z := 18446744073709551615.

Definition ck64 (z : Z) : option Z :=
  if (min64 <=? z) && (z <=? max64) then Some z else None.
Definition ck128 (z : Z) : option Z :=
  if (min128 <=? z) && (z <=? max128) then Some z else None.
Definition ck32 (z : Z) : option Z :=
  if (min32 <=? z) && (z <=? max32) then Some z else None.
(* usize / u64 arithmetic on a 64-bit target *)
Definition cku64 (z : Z) : option Z :=
  if (0 <=? z) && (z <=? maxu64) then Some z else None.
(* u8 arithmetic *)
Definition cku8 (z : Z) : option Z :=
  if (0 <=? z) && (z <=? 255) then Some z else None.

(* Two's-complement truncation: Rust `as i64`, `wrapping_mul` and the bits
   kept by `<<` (which never panics for shift amounts below the width). *)
Definition wrap64 (z : Z) : Z :=
  let m := Z.land z maxu64 in
  if m <=? max64 then m else m - 18446744073709551616.
Definition wrap32 (z : Z) : Z :=
  let m := Z.land z 4294967295 in
  if m <=? max32 then m else m - 4294967296.

(* i64 `x << n`, 0 <= n < 64 *)
Definition shl64 (x n : Z) : Z := wrap64 (Z.shiftl x n).

(* ------------------------------------------------------------------ *)
(* Loops *)
Fixpoint foldM {A B} (f : A -> B -> option A) (l : list B) (a : A) : option A :=
  match l with
  | [] => Some a
  | b :: l' => a' <- f a b ;; foldM f l' a'
  end.

Fixpoint mapM {A B} (f : A -> option B) (l : list A) : option (list B) :=
  match l with
  | [] => Some []
  | a :: l' => b <- f a ;; r <- mapM f l' ;; Some (b :: r)
  end.

Fixpoint map2M {A B C} (f : A -> B -> option C) (l : list A) (m : list B)
  : option (list C) :=
  match l, m with
  | a :: l', b :: m' => c <- f a b ;; r <- map2M f l' m' ;; Some (c :: r)
  | _, _ => Some []
  end.

Fixpoint map2 {A B C} (f : A -> B -> C) (l : list A) (m : list B) : list C :=
  match l, m with
  | a :: l', b :: m' => f a b :: map2 f l' m'
  | _, _ => []
  end.

(* array read with bounds check; array update *)
Definition getM {A} (l : list A) (i : nat) : option A := nth_error l i.
Fixpoint upd {A} (l : list A) (i : nat) (x : A) : list A :=
  match l, i with
  | [], _ => []
  | _ :: l', O => x :: l'
  | a :: l', S i' => a :: upd l' i' x
  end.
Definition setM {A} (l : list A) (i : nat) (x : A) : option (list A) :=
  if (i <? length l)%nat then Some (upd l i x) else None.

(* limb i of a limb array; only used with i inside the array *)
Definition limb (l : list Z) (i : nat) : Z := nth i l 0.
