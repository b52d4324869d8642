(* Specification: Galois/Counter Mode (NIST SP 800-38D) on byte strings.  E is the block
   cipher under the key; a block is 16 bytes. *)
From Coq Require Import ZArith List Bool.
From Verif Require Import SpecBytes SpecAes.
Import ListNotations.
Open Scope Z_scope.

(* section 6.3: the product of blocks; a block is the number its bytes denote, so bit i of
   the standard (leftmost first) is bit 127 - i of the number *)
Definition gcm_R : Z := 225 * 2 ^ 120.
Definition gcm_half (v : Z) : Z := if Z.odd v then Z.lxor (v / 2) gcm_R else v / 2.
Fixpoint gcm_mul_n (i : nat) (x v : Z) : Z :=
  match i with
  | O => 0
  | S i' => Z.lxor (if Z.testbit x (Z.of_nat i') then v else 0) (gcm_mul_n i' x (gcm_half v))
  end.
Definition gcm_mul (x y : Z) : Z := gcm_mul_n 128 x y.
Definition block_mul (x h : list Z) : list Z := be_bytes 16 (gcm_mul (be_int x) (be_int h)).
(* section 6.4, from Y_0 = y *)
Definition ghash_from (h y : list Z) (xs : list (list Z)) : list Z := fold_left (fun y x => block_mul (bxor y x) h) xs y.
(* zeros up to a multiple of 16 bytes *)
Definition zpad (m : list Z) : list Z := m ++ repeat 0 ((16 - length m mod 16) mod 16).
Definition blocks_of (m : list Z) : list (list Z) := blocks16 (length m / 16) m.
Definition ghash (h m : list Z) : list Z := ghash_from h (repeat 0 16) (blocks_of m).
(* the 64-bit length in bits *)
Definition len64 (m : list Z) : list Z := be_bytes 8 (8 * Z.of_nat (length m)).
(* section 6.2: inc_32 *)
Definition inc_32 (b : list Z) : list Z := firstn 12 b ++ be_bytes 4 (be_int (skipn 12 b) + 1).
(* section 6.5: GCTR on at most n blocks *)
Fixpoint gctr_n (n : nat) (E : list Z -> list Z) (cb x : list Z) : list Z :=
  match n with
  | O => []
  | S n' => bxor (firstn 16 x) (E cb) ++ gctr_n n' E (inc_32 cb) (skipn 16 x)
  end.
Definition gctr (E : list Z -> list Z) (icb x : list Z) : list Z := gctr_n ((length x + 15) / 16) E icb x.
(* section 7.1: the pre-counter block, the ciphertext and the tag of 16 bytes *)
Definition gcm_J0 (E : list Z -> list Z) (iv : list Z) : list Z :=
  if (length iv =? 12)%nat then iv ++ [0; 0; 0; 1] else ghash (E (repeat 0 16)) (zpad iv ++ repeat 0 8 ++ len64 iv).
Definition gcm_cipher (E : list Z -> list Z) (iv p : list Z) : list Z := gctr E (inc_32 (gcm_J0 E iv)) p.
Definition gcm_tag (E : list Z -> list Z) (iv a c : list Z) : list Z :=
  gctr E (gcm_J0 E iv) (ghash (E (repeat 0 16)) (zpad a ++ zpad c ++ len64 a ++ len64 c)).
(* pieces a message may come in: all but the last fill whole blocks *)
Definition aligned (ps : list (list Z)) : Prop := Forall (fun p => (length p mod 16 = 0)%nat) (removelast ps).
