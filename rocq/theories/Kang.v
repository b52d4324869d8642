(* Model of kangaroo of amcl/src/bls381/mpin.rs and of FP12::frombytes. *)
From Verif Require Import Prim Rom Big Fp Fp2 Fp4 Fp12 Mpin.

(* fp12.rs:465-515 frombytes: reads 576 bytes *)
Definition fp2_frombytes (w : list Z) (i : nat) : option FP2 :=
  a <- big_frombytes (firstn 48 (skipn (48 * i) w)) ;;
  b <- big_frombytes (firstn 48 (skipn (48 * S i) w)) ;; fp2_new_bigs a b.
Definition fp4_frombytes (w : list Z) (i : nat) : option FP4 :=
  c <- fp2_frombytes w i ;; d <- fp2_frombytes w (2 + i) ;; Some (mkFP4 c d).
Definition fp12_frombytes (w : list Z) : option FP12 :=
  if (length w <? 576)%nat then None else
  e <- fp4_frombytes w 0 ;; f <- fp4_frombytes w 4 ;; g <- fp4_frombytes w 8 ;; Some (mkFP12 e f g).

(* mpin.rs:60-61 *)
Definition TS : nat := 10.
Definition TRAP : nat := 200.
(* mpin.rs:643-648: distance and table, as pairs *)
Fixpoint kang_table (n : nat) (s : Z) (t : FP12) : option (list (Z * FP12)) :=
  match n with
  | O => Some []
  | S n => t' <- fp12_usqr t ;; l <- kang_table n (s * 2) t' ;; Some ((s, t) :: l)
  end.
(* mpin.rs:653, 663: the entry chosen by an element *)
Definition kang_pick (T : list (Z * FP12)) (t : FP12) : option (Z * FP12) :=
  x <- fp2_geta (f4a (f12a t)) ;; '(b, _) <- big_lastbits x 20 ;;
  nth_error T (Z.to_nat (Z.rem b (Z.of_nat TS))).
(* mpin.rs:652-656: the tame kangaroo; dn and t *)
Fixpoint kang_tame (n : nat) (T : list (Z * FP12)) (dn : Z) (t : FP12) : option (Z * FP12) :=
  match n with
  | O => Some (dn, t)
  | S n => '(d, m) <- kang_pick T t ;; t <- fp12_mul t m ;; kang_tame n T (dn + d) t
  end.
(* fp.rs:375-380 equals reduces its operands: the first coordinate, which picks the next entry,
   is reduced by the comparisons of mpin.rs:666, 670 *)
Definition red_first (x : FP12) : option FP12 :=
  a <- fp_reduce (f2a (f4a (f12a x))) ;;
  Some (mkFP12 (mkFP4 (mkFP2 a (f2b (f4a (f12a x)))) (f4b (f12a x))) (f12b x) (f12c x)).
(* mpin.rs:676 *)
Definition kang_res (d res : Z) : Z := if MAXPIN <=? d then 0 else res.
(* mpin.rs:657-677: the wild kangaroo; n counts the steps left *)
Fixpoint kang_wild (n : nat) (T : list (Z * FP12)) (t gf : FP12) (dn dm : Z) (ge : FP12) : option Z :=
  if MAXPIN <=? dm - dn then Some 0 else
  match n with
  | O => Some 0
  | S n =>
      '(d, m) <- kang_pick T ge ;;
      ge <- fp12_mul ge m ;;
      let dm := dm + d in
      a <- fp12_equals ge t ;;
      if a : bool then Some (kang_res (dm - dn) (dm - dn)) else
      b <- fp12_equals ge gf ;;
      if b : bool then Some (kang_res (dm - dn) (dn - dm)) else
      ge <- red_first ge ;;
      kang_wild n T t gf dn dm ge
  end.
(* mpin.rs:635-678 kangaroo *)
Definition kangaroo (e f : list Z) : option Z :=
  ge <- fp12_frombytes e ;;
  gf <- fp12_frombytes f ;;
  T <- kang_table TS 1 gf ;;
  t <- fp12_new_int 1 ;;
  '(dn, t) <- kang_tame TRAP T 0 t ;;
  gf <- fp12_conj t ;;
  kang_wild (4 * TRAP) T t gf dn 0 ge.
