(* Model of BIG::invmodp and BIG::powmod of amcl/src/bls381/big.rs. *)
From Verif Require Import Prim Big.

(* big.rs:723-726 and 731-734: make x even by adding the odd modulus *)
Definition inv_even (p x : BIG) : option BIG :=
  if negb (big_parity x =? 0) then s <- big_add x p ;; big_norm s else Some x.
(* big.rs:721-728 and 729-736: one of the two inner loops, halving u and x
   together.  It does not end when u = 0; the model gives it `fuel` rounds. *)
Fixpoint inv_halve (fuel : nat) (p u x : BIG) : option (BIG * BIG) :=
  match fuel with
  | O => None
  | S f =>
      if big_parity u =? 0 then
        let u' := big_fshr u 1 in
        x' <- inv_even p x ;;
        inv_halve f p u' (big_fshr x' 1)
      else Some (u, x)
  end.
(* big.rs:740-747 and 753-760: x1 - x2, or x1 + (p - x2), normalised *)
Definition inv_diff (p x1 x2 : BIG) : option BIG :=
  d <- (if 0 <=? big_comp x1 x2 then big_sub x1 x2 else t <- big_sub p x2 ;; big_add x1 t) ;;
  big_norm d.
(* big.rs:720-762: the loop and the final choice *)
Fixpoint inv_loop (n fuel : nat) (p u v x1 x2 : BIG) : option BIG :=
  match fuel with
  | O => None
  | S f =>
      if negb (big_comp u big_one =? 0) && negb (big_comp v big_one =? 0) then
        '(u1, y1) <- inv_halve n p u x1 ;;
        '(v1, y2) <- inv_halve n p v x2 ;;
        if 0 <=? big_comp u1 v1 then
          d <- big_sub u1 v1 ;; u2 <- big_norm d ;;
          z1 <- inv_diff p y1 y2 ;;
          inv_loop n f p u2 v1 z1 y2
        else
          d <- big_sub v1 u1 ;; v2 <- big_norm d ;;
          z2 <- inv_diff p y2 y1 ;;
          inv_loop n f p u1 v2 y1 z2
      else Some (if big_comp u big_one =? 0 then x1 else x2)
  end.
(* big.rs:711-765 invmodp: n rounds for each inner loop, fuel rounds for the outer *)
Definition big_invmodp_f (n fuel : nat) (a p : BIG) : option BIG :=
  a' <- big_rmod a p ;;
  inv_loop n fuel p a' p big_one big_new.
(* the model allows 1000 rounds of each; InvP shows more never changes the result *)
Definition big_invmodp (a p : BIG) : option BIG := big_invmodp_f 1000 1000 a p.

(* big.rs:1010: the multiplication for one bit of the exponent.  modmul also
   reduces s in place *)
Definition pow_bit (bt : Z) (m a s : BIG) : option (BIG * BIG) :=
  if bt =? 1 then s1 <- big_rmod s m ;; a' <- big_modmul a s m ;; Some (a', s1) else Some (a, s).
(* big.rs:1001-1015 powmod.  The loop runs once for each bit of e; the model
   gives it 1000 rounds. *)
Fixpoint pow_loop (fuel : nat) (m a z s : BIG) : option BIG :=
  match fuel with
  | O => None
  | S f =>
      let bt := big_parity z in
      let z' := big_fshr z 1 in
      '(a', s1) <- pow_bit bt m a s ;;
      if big_iszilch z' then Some a' else
      s' <- big_modsqr s1 m ;;
      pow_loop f m a' z' s'
  end.
Definition big_powmod (x e m : BIG) : option BIG :=
  x' <- big_norm x ;;
  e' <- big_norm e ;;
  pow_loop 1000 m big_one e' x'.
