(* Specification: the Advanced Encryption Standard (FIPS 197), modes (NIST SP 800-38A) and
   PKCS #7 padding.  A byte is a Z in [0, 256); the state is a list of 16 bytes, byte
   r + 4 c standing in row r and column c; a word is a list of four bytes. *)
From Coq Require Import ZArith List Bool.
From Verif Require Import SpecBytes.
Import ListNotations.
Open Scope Z_scope.

(* section 4.2: GF(2^8), the product by x, the product and the inverse x^254 *)
Definition xtime (b : Z) : Z := Z.lxor (Z.land (2 * b) 255) (if Z.testbit b 7 then 27 else 0).
Fixpoint gmul_n (n : nat) (a b : Z) : Z :=
  match n with
  | O => 0
  | S n' => Z.lxor (if Z.odd a then b else 0) (gmul_n n' (a / 2) (xtime b))
  end.
Definition gmul (a b : Z) : Z := gmul_n 8 a b.
Definition ginv (x : Z) : Z :=
  let x2 := gmul x x in let x4 := gmul x2 x2 in let x8 := gmul x4 x4 in let x16 := gmul x8 x8 in
  let x32 := gmul x16 x16 in let x64 := gmul x32 x32 in let x128 := gmul x64 x64 in
  gmul x2 (gmul x4 (gmul x8 (gmul x16 (gmul x32 (gmul x64 x128))))).
(* section 5.1.1 and 5.3.2: the S-box and its inverse; the sum of bits i+k mod 8, k in ks, for every i *)
Definition bit_mix (ks : list Z) (c b : Z) : Z :=
  fold_left (fun v i => v + 2 ^ i * Z.b2z (fold_left (fun x k => xorb x (Z.testbit b ((i + k) mod 8))) ks (Z.testbit c i)))
    [0; 1; 2; 3; 4; 5; 6; 7] 0.
Definition sbox (b : Z) : Z := bit_mix [0; 4; 5; 6; 7] 99 (ginv b).
Definition inv_sbox (b : Z) : Z := ginv (bit_mix [2; 5; 7] 5 b).

(* the sum of two byte strings *)
Fixpoint bxor (a b : list Z) : list Z :=
  match a, b with
  | x :: a', y :: b' => Z.lxor x y :: bxor a' b'
  | _, _ => []
  end.

(* section 5.1 and 5.3 *)
Definition SubBytes (s : list Z) : list Z := map sbox s.
Definition InvSubBytes (s : list Z) : list Z := map inv_sbox s.
Definition at_rc (s : list Z) (r c : nat) : Z := nth (r + 4 * (c mod 4)) s 0.
Definition by_rc (f : nat -> nat -> Z) : list Z := map (fun i => f (i mod 4) (i / 4))%nat (seq 0 16).
Definition ShiftRows (s : list Z) : list Z := by_rc (fun r c => at_rc s r (c + r)).
Definition InvShiftRows (s : list Z) : list Z := by_rc (fun r c => at_rc s r (c + 4 - r)).
(* column times the circulant matrix with first row m0 m1 m2 m3 *)
Definition mix (m0 m1 m2 m3 : Z) (s : list Z) : list Z :=
  by_rc (fun r c => Z.lxor (Z.lxor (Z.lxor (gmul m0 (at_rc s r c)) (gmul m1 (at_rc s ((r + 1) mod 4) c)))
                                   (gmul m2 (at_rc s ((r + 2) mod 4) c))) (gmul m3 (at_rc s ((r + 3) mod 4) c))).
Definition MixColumns : list Z -> list Z := mix 2 3 1 1.
Definition InvMixColumns : list Z -> list Z := mix 14 11 13 9.
Definition AddRoundKey (w : list (list Z)) (r : nat) (s : list Z) : list Z := bxor s (concat (firstn 4 (skipn (4 * r) w))).

Definition Cipher (nr : nat) (w : list (list Z)) (s : list Z) : list Z :=
  let s := AddRoundKey w 0 s in
  let s := fold_left (fun s r => AddRoundKey w r (MixColumns (ShiftRows (SubBytes s)))) (seq 1 (nr - 1)) s in
  AddRoundKey w nr (ShiftRows (SubBytes s)).
Definition InvCipher (nr : nat) (w : list (list Z)) (s : list Z) : list Z :=
  let s := AddRoundKey w nr s in
  let s := fold_left (fun s r => InvMixColumns (AddRoundKey w r (InvSubBytes (InvShiftRows s)))) (rev (seq 1 (nr - 1))) s in
  AddRoundKey w 0 (InvSubBytes (InvShiftRows s)).

(* section 5.2: the key schedule, one word at a time *)
Definition RotWord (w : list Z) : list Z := tl w ++ firstn 1 w.
Definition SubWord (w : list Z) : list Z := map sbox w.
Fixpoint Rcon_byte (i : nat) : Z := match i with O => 1 | S i' => xtime (Rcon_byte i') end.
Definition Rcon (i : nat) : list Z := [Rcon_byte (i - 1); 0; 0; 0].
Definition next_word (nk : nat) (w : list (list Z)) : list Z :=
  let i := length w in
  let temp := nth (i - 1) w [] in
  let temp := if (i mod nk =? 0)%nat then bxor (SubWord (RotWord temp)) (Rcon (i / nk))
              else if ((6 <? nk)%nat && (i mod nk =? 4)%nat) then SubWord temp else temp in
  bxor (nth (i - nk) w []) temp.
Fixpoint expand (nk : nat) (count : nat) (w : list (list Z)) : list (list Z) :=
  match count with O => w | S c => expand nk c (w ++ [next_word nk w]) end.
Fixpoint words (n : nat) (key : list Z) : list (list Z) :=
  match n with O => [] | S n' => firstn 4 key :: words n' (skipn 4 key) end.
Definition KeyExpansion (key : list Z) : list (list Z) :=
  let nk := (length key / 4)%nat in expand nk (4 * (nk + 7) - nk) (words nk key).

(* AES with a key of 16, 24 or 32 bytes *)
Definition AES_enc (key blk : list Z) : list Z := Cipher (length key / 4 + 6) (KeyExpansion key) blk.
Definition AES_dec (key blk : list Z) : list Z := InvCipher (length key / 4 + 6) (KeyExpansion key) blk.

(* the first n blocks of 16 bytes of a string *)
Fixpoint blocks16 (n : nat) (m : list Z) : list (list Z) :=
  match n with O => [] | S n' => firstn 16 m :: blocks16 n' (skipn 16 m) end.
(* CBC encryption and decryption of a list of blocks, SP 800-38A section 6.2 *)
Fixpoint cbc_enc (E : list Z -> list Z) (iv : list Z) (bs : list (list Z)) : list (list Z) :=
  match bs with [] => [] | b :: r => let c := E (bxor b iv) in c :: cbc_enc E c r end.
Fixpoint cbc_dec (D : list Z -> list Z) (iv : list Z) (cs : list (list Z)) : list (list Z) :=
  match cs with [] => [] | c :: r => bxor (D c) iv :: cbc_dec D c r end.
(* CFB, OFB and CTR, sections 6.3 to 6.5, on segments of n bytes; CTR for a given successor
   of the counter block *)
Fixpoint cfb_enc (E : list Z -> list Z) (n : nat) (iv : list Z) (ps : list (list Z)) : list (list Z) :=
  match ps with [] => [] | p :: r => let c := bxor p (firstn n (E iv)) in c :: cfb_enc E n (skipn n iv ++ c) r end.
Fixpoint ofb_enc (E : list Z -> list Z) (n : nat) (iv : list Z) (ps : list (list Z)) : list (list Z) :=
  match ps with [] => [] | p :: r => let o := E iv in bxor p (firstn n o) :: ofb_enc E n o r end.
Fixpoint ctr_enc (E next : list Z -> list Z) (n : nat) (iv : list Z) (ps : list (list Z)) : list (list Z) :=
  match ps with [] => [] | p :: r => bxor p (firstn n (E iv)) :: ctr_enc E next n (next iv) r end.
(* the standard incrementing function, appendix B.1: the block is a number, first byte first *)
Definition inc_be (b : list Z) : list Z := be_bytes 16 ((be_int b + 1) mod 2 ^ 128).
(* the same, last byte first *)
Definition inc_le (b : list Z) : list Z := rev (inc_be (rev b)).
(* PKCS #7 padding, RFC 5652 section 6.3 *)
Definition pkcs7 (m : list Z) : list Z :=
  let k := (16 - length m mod 16)%nat in m ++ repeat (Z.of_nat k) k.
