(* Property theorems about the modular inverse and the modular power of integers
   (BIG::invmodp, BIG::powmod).  rep 7 w v: w is the list of the 7 base-2^58 digits
   of v.  big_invmodp_f n f: n rounds for each inner loop and f for the outer one,
   None when they do not suffice; big_invmodp: 1000 rounds each. *)
From Coq Require Import ZArith List.
From Verif Require Import Prim Big BigX BigP BigP2 InvP.
Import ListNotations.
Open Scope Z_scope.

(* C88 *)
Theorem C88_inverse : forall a p u pv, rep 7 a u -> rep 7 p pv -> 1 < pv < 2 ^ 405 -> pv mod 2 = 1 -> Z.gcd u pv = 1 ->
  exists c z, big_invmodp a p = Some c /\ rep 7 c z /\ 0 <= z < pv /\ (u * z) mod pv = 1.
Proof. exact invmodp_spec. Qed.
Print Assumptions C88_inverse.

(* any larger number of rounds gives the inverse as well *)
Theorem C88_rounds : forall n f a p u pv, rep 7 a u -> rep 7 p pv -> 1 < pv < 2 ^ 405 -> pv mod 2 = 1 -> Z.gcd u pv = 1 -> (406 <= n)%nat -> (812 <= f)%nat ->
  exists c z, big_invmodp_f n f a p = Some c /\ rep 7 c z /\ 0 <= z < pv /\ (u * z) mod pv = 1.
Proof. exact invmodp_ok. Qed.
Print Assumptions C88_rounds.

(* no number of rounds suffices: the loop does not end *)
Theorem C88_not_coprime : forall n f a p u pv, rep 7 a u -> rep 7 p pv -> 1 < pv < 2 ^ 405 -> pv mod 2 = 1 -> Z.gcd u pv <> 1 ->
  big_invmodp_f n f a p = None.
Proof. exact invmodp_hang. Qed.
Print Assumptions C88_not_coprime.

(* C89 *)
Theorem C89_powmod : forall x e m xv ev mv, rep 7 x xv -> rep 7 e ev -> rep 7 m mv -> 1 < mv ->
  exists c, big_powmod x e m = Some c /\ rep 7 c ((xv ^ ev) mod mv).
Proof. exact powmod_spec. Qed.
Print Assumptions C89_powmod.

(* the result is 1 whatever the modulus *)
Theorem C89_exponent_zero : forall x e m xv, rep 7 x xv -> rep 7 e 0 -> exists c, big_powmod x e m = Some c /\ rep 7 c 1.
Proof. exact powmod_one. Qed.
Print Assumptions C89_exponent_zero.
