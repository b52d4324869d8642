(* Property theorems about multi-precision integers (C43). rep n w v: w is the
   list of the n base-2^58 digits of v; nrep: the same with a free top limb;
   lb M w: all limbs at most M in size; lval: the integer a limb list stands for. *)
From Coq Require Import ZArith List.
From Verif Require Import Prim Rom Big BigP BigP2 SpecBytes BigL.
Import ListNotations.
Open Scope Z_scope.

(* normalising keeps the value *)
Theorem C43_norm : forall w, length w = 7%nat -> lb (2 ^ 63 - 64) w -> exists c, big_norm w = Some c /\ nrep 7 c (lval w).
Proof. exact B_norm. Qed.
Print Assumptions C43_norm.

Theorem C43_dbig_norm : forall w, length w = 14%nat -> lb (2 ^ 63 - 64) w -> exists c, dbig_norm w = Some c /\ nrep 14 c (lval w).
Proof. exact B_dnorm. Qed.
Print Assumptions C43_dbig_norm.

Theorem C43_add : forall a b u v, rep 7 a u -> rep 7 b v ->
  exists c n, big_add a b = Some c /\ big_norm c = Some n /\ nrep 7 n (u + v).
Proof. exact B_add. Qed.
Print Assumptions C43_add.

Theorem C43_sub : forall a b u v, rep 7 a u -> rep 7 b v ->
  exists c n, big_sub a b = Some c /\ big_norm c = Some n /\ nrep 7 n (u - v).
Proof. exact B_sub. Qed.
Print Assumptions C43_sub.

Theorem C43_rsub : forall a b u v, rep 7 a u -> rep 7 b v ->
  exists c n, big_rsub a b = Some c /\ big_norm c = Some n /\ nrep 7 n (v - u).
Proof. exact B_rsub. Qed.
Print Assumptions C43_rsub.

Theorem C43_dbl : forall a u, rep 7 a u -> exists c n, big_dbl a = Some c /\ big_norm c = Some n /\ nrep 7 n (2 * u).
Proof. exact B_dbl. Qed.
Print Assumptions C43_dbl.

Theorem C43_compare : forall a b u v, nrep 7 a u -> nrep 7 b v -> big_comp a b = Z.sgn (u - v).
Proof. exact B_comp. Qed.
Print Assumptions C43_compare.

Theorem C43_mul : forall a b u v, rep 7 a u -> rep 7 b v -> exists d, big_mul a b = Some d /\ rep 14 d (u * v).
Proof. exact B_mul. Qed.
Print Assumptions C43_mul.

Theorem C43_sqr : forall a u, rep 7 a u -> exists d, big_sqr a = Some d /\ rep 14 d (u * u).
Proof. exact B_sqr. Qed.
Print Assumptions C43_sqr.

(* Montgomery reduction: the result times 2^406 is congruent to the input *)
Theorem C43_monty : forall md mc d mv dv, rep 7 md mv -> rep 14 d dv -> (mv * mc + 1) mod 2 ^ 58 = 0 -> dv + 2 ^ 406 * mv < 2 ^ 812 ->
  exists r rv, big_monty md mc d = Some r /\ rep 7 r rv /\ (2 ^ 406 * rv - dv) mod mv = 0 /\ 2 ^ 406 * rv <= dv + 2 ^ 406 * mv.
Proof. exact B_monty. Qed.
Print Assumptions C43_monty.

Theorem C43_shl1 : forall a u, nrep 7 a u -> - 2 ^ 409 <= u < 2 ^ 409 -> exists c, big_shl a 1 = Some c /\ nrep 7 c (2 * u).
Proof. exact B_shl1. Qed.
Print Assumptions C43_shl1.

Theorem C43_fshl : forall a u k, nrep 7 a u -> 0 <= k < 58 -> - 2 ^ 410 <= u * 2 ^ k < 2 ^ 410 -> nrep 7 (big_fshl a k) (u * 2 ^ k).
Proof. exact B_fshl. Qed.
Print Assumptions C43_fshl.

Theorem C43_fshr : forall a u k, nrep 7 a u -> 0 <= k < 58 -> nrep 7 (big_fshr a k) (u / 2 ^ k).
Proof. exact B_fshr. Qed.
Print Assumptions C43_fshr.

Theorem C43_rmod : forall a u n nv, rep 7 a u -> nrep 7 n nv -> 0 < nv -> exists c, big_rmod a n = Some c /\ rep 7 c (u mod nv).
Proof. exact B_rmod. Qed.
Print Assumptions C43_rmod.

Theorem C43_div : forall a u n nv, rep 7 a u -> nrep 7 n nv -> 0 < nv < 2 ^ 409 -> exists c, big_div a n = Some c /\ rep 7 c (u / nv).
Proof. exact B_div. Qed.
Print Assumptions C43_div.

Theorem C43_dmod : forall d dv n nv, rep 14 d dv -> nrep 7 n nv -> 0 < nv <= 2 ^ 406 -> exists c, dbig_dmod d n = Some c /\ rep 7 c (dv mod nv).
Proof. exact B_dmod. Qed.
Print Assumptions C43_dmod.

Theorem C43_modmul : forall a b m u v mv, rep 7 a u -> rep 7 b v -> nrep 7 m mv -> 0 < mv <= 2 ^ 406 ->
  exists c, big_modmul a b m = Some c /\ rep 7 c ((u * v) mod mv).
Proof. exact B_modmul. Qed.
Print Assumptions C43_modmul.

Theorem C43_modsqr : forall a m u mv, rep 7 a u -> nrep 7 m mv -> 0 < mv <= 2 ^ 406 ->
  exists c, big_modsqr a m = Some c /\ rep 7 c ((u * u) mod mv).
Proof. exact B_modsqr. Qed.
Print Assumptions C43_modsqr.

(* modneg does not normalise, and answers m itself on multiples of m *)
Theorem C43_modneg : forall a m u mv, rep 7 a u -> rep 7 m mv -> 0 < mv ->
  exists c n, big_modneg a m = Some c /\ big_norm c = Some n /\ rep 7 n (mv - u mod mv).
Proof. exact B_modneg. Qed.
Print Assumptions C43_modneg.

Theorem C43_tobytes : forall w v, rep 7 w v -> big_tobytes w = Some (be_bytes 48 v).
Proof. exact B_tobytes. Qed.
Print Assumptions C43_tobytes.

Theorem C43_frombytes : forall bs, bytes bs ->
  ((48 <= length bs)%nat -> exists c, big_frombytes bs = Some c /\ rep 7 c (be_int (firstn 48 bs))) /\
  ((length bs < 48)%nat -> big_frombytes bs = None).
Proof. exact B_frombytes. Qed.
Print Assumptions C43_frombytes.

(* the bit length *)
Theorem C43_nbits : forall w v, rep 7 w v -> exists n, big_nbits w = Some n /\ 0 <= n /\ v < 2 ^ n /\ (v <> 0 -> 2 ^ (n - 1) <= v).
Proof. exact B_nbits. Qed.
Print Assumptions C43_nbits.

Theorem C43_iszilch : forall w v, rep 7 w v -> (big_iszilch w = true <-> v = 0).
Proof. exact B_iszilch. Qed.
Print Assumptions C43_iszilch.

Theorem C43_parity : forall w v, nrep 7 w v -> big_parity w = v mod 2.
Proof. exact B_parity. Qed.
Print Assumptions C43_parity.
