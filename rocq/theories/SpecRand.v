(* What the random byte generator is meant to compute, without reference to the model: the
   subtract-with-borrow generator of Marsaglia and Zaman with base 2^32 and lags 21 and 6, its
   seeding from a byte string, and the hashing of its low bytes into an output stream. *)
From Coq Require Import ZArith List.
From Verif Require Import SpecBytes SpecSha.
Import ListNotations.
Open Scope Z_scope.

(* the last 21 words, oldest first, and the borrow; one step: x_n = x_(n-6) - x_(n-21) - borrow *)
Definition window := (list Z * Z)%type.
Definition swb (st : window) : window :=
  let '(w, b) := st in
  let z := nth 15 w 0 - nth 0 w 0 - b in
  (tl w ++ [z mod 2 ^ 32], if z <? 0 then 1 else 0).
(* the k-th word of the sequence that begins with the window *)
Definition swb_word (st : window) (k : nat) : Z := hd 0 (fst (Nat.iter k swb st)).

(* mixing one seed word into the window: m_0 = s, m_1 = 1, m_(i+2) = m_i - m_(i+1); position 8i mod 21
   receives m_i, so position j receives m_(8j mod 21) *)
Definition mult_pair (s : Z) (i : nat) : Z * Z := Nat.iter i (fun '(a, b) => (b, (a - b) mod 2 ^ 32)) (s, 1).
Definition mult (s : Z) (i : nat) : Z := fst (mult_pair s i).
Definition mix (s : Z) (w : list Z) : list Z :=
  map (fun j => Z.lxor (nth j w 0) (mult s (8 * j mod 21))) (seq 0 21).

(* seeding: eight little-endian words of the digest are mixed in, each followed by 476 rounds of 21 words *)
Definition seed_words (dg : list Z) : list Z :=
  map (fun i => be_int (rev (firstn 4 (skipn (4 * i) dg)))) (seq 0 8).
Definition seeded (raw : list Z) : window :=
  fold_left (fun st s => Nat.iter (21 * 476) swb (mix s (fst st), 0)) (seed_words (sha256 raw)) (repeat 0 21, 0).

(* block k of 32 output bytes of a generator whose next word is number `pos` *)
Definition out_block (st : window) (pos k : nat) : list Z :=
  sha256 (map (fun j => swb_word st (pos + 128 * k + j) mod 256) (seq 0 128)).
Definition out_byte (st : window) (pos i : nat) : Z := nth (i mod 32) (out_block st pos (i / 32)) 0.
(* the stream of a seeded generator *)
Definition rand_stream (raw : list Z) (i : nat) : Z := out_byte (seeded raw) 5 i.
(* the first 2n bits of the stream, least significant bit of each byte first, read as a binary number *)
Definition stream_bit (s : nat -> Z) (i : nat) : Z := (s (i / 8)%nat / 2 ^ Z.of_nat (i mod 8)) mod 2.
Definition stream_num (s : nat -> Z) (n : nat) : Z :=
  fold_left (fun acc i => 2 * acc + stream_bit s i) (seq 0 n) 0.
