(* Specification: SHA-256 (FIPS 180-4). A word is a Z in [0, 2^32). *)
From Coq Require Import ZArith List.
From Verif Require Import SpecBytes.
Import ListNotations.
Open Scope Z_scope.

Definition add32 (x y : Z) : Z := (x + y) mod 2 ^ 32.
(* rotation and shift to the right by n bits, section 3.2 *)
Definition rotr (n x : Z) : Z := (x mod 2 ^ n) * 2 ^ (32 - n) + x / 2 ^ n.
Definition shr (n x : Z) : Z := x / 2 ^ n.
Definition xor3 (x y z : Z) : Z := Z.lxor (Z.lxor x y) z.
(* section 4.1.2 *)
Definition Ch (x y z : Z) : Z := Z.lxor (Z.land x y) (Z.land (2 ^ 32 - 1 - x) z).
Definition Maj (x y z : Z) : Z := xor3 (Z.land x y) (Z.land x z) (Z.land y z).
Definition Sigma0 (x : Z) : Z := xor3 (rotr 2 x) (rotr 13 x) (rotr 22 x).
Definition Sigma1 (x : Z) : Z := xor3 (rotr 6 x) (rotr 11 x) (rotr 25 x).
Definition sigma0 (x : Z) : Z := xor3 (rotr 7 x) (rotr 18 x) (shr 3 x).
Definition sigma1 (x : Z) : Z := xor3 (rotr 17 x) (rotr 19 x) (shr 10 x).

(* the first 64 primes *)
Definition primes64 : list Z :=
  [2;3;5;7;11;13;17;19;23;29;31;37;41;43;47;53;59;61;67;71;73;79;83;89;97;101;103;107;109;113;127;131;137;139;149;151;157;163;
   167;173;179;181;191;193;197;199;211;223;227;229;233;239;241;251;257;263;269;271;277;281;283;293;307;311].
(* integer cube root: the greatest k < 2^n with k^3 <= a *)
Fixpoint cbrt (n : nat) (k a : Z) : Z :=
  match n with
  | O => k
  | S m => let k' := k + 2 ^ Z.of_nat m in cbrt m (if k' * k' * k' <=? a then k' else k) a
  end.
(* section 4.2.2: the first 32 bits of the fractional parts of the cube roots of
   the first 64 primes; section 5.3.3: of the square roots of the first 8 *)
Definition K256 : list Z := map (fun p => cbrt 36 0 (p * 2 ^ 96) mod 2 ^ 32) primes64.
Definition H256 : list Z := map (fun p => Z.sqrt (p * 2 ^ 64) mod 2 ^ 32) (firstn 8 primes64).

(* section 6.2.2, step 1: the message schedule *)
Definition next_word (w : list Z) : Z :=
  let t := length w in
  add32 (add32 (add32 (sigma1 (nth (t - 2) w 0)) (nth (t - 7) w 0)) (sigma0 (nth (t - 15) w 0))) (nth (t - 16) w 0).
Fixpoint extend (n : nat) (w : list Z) : list Z :=
  match n with
  | O => w
  | S m => extend m (w ++ [next_word w])
  end.
Definition schedule (block : list Z) : list Z := extend 48 block.
(* steps 2-4 *)
Definition round (v : list Z) (kw : Z * Z) : list Z :=
  match v with
  | [a; b; c; d; e; f; g; h] =>
      let T1 := add32 (add32 (add32 (add32 h (Sigma1 e)) (Ch e f g)) (fst kw)) (snd kw) in
      let T2 := add32 (Sigma0 a) (Maj a b c) in
      [add32 T1 T2; a; b; c; add32 d T1; e; f; g]
  | _ => []
  end.
Definition compress (H block : list Z) : list Z :=
  map (fun p => add32 (fst p) (snd p)) (combine H (fold_left round (combine K256 (schedule block)) H)).

(* section 5.1.1: one bit, zeros, and the length in bits as a 64-bit number *)
Definition padded (m : list Z) : list Z :=
  m ++ [128] ++ repeat 0 (Z.to_nat ((55 - Z.of_nat (length m)) mod 64)) ++ be_bytes 8 (8 * Z.of_nat (length m)).
(* section 5.2.1: blocks of sixteen big-endian words *)
Fixpoint words (n : nat) (bs : list Z) : list Z :=
  match n with
  | O => []
  | S m => be_int (firstn 4 bs) :: words m (skipn 4 bs)
  end.
Fixpoint blocks (n : nat) (bs : list Z) : list (list Z) :=
  match n with
  | O => []
  | S m => words 16 (firstn 64 bs) :: blocks m (skipn 64 bs)
  end.
Definition sha256 (m : list Z) : list Z :=
  let p := padded m in
  flat_map (be_bytes 4) (fold_left compress (blocks (length p / 64) p) H256).
