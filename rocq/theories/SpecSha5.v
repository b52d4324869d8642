(* Specification: SHA-512 and SHA-384 (FIPS 180-4). A word is a Z in [0, 2^64). *)
From Coq Require Import ZArith List.
From Verif Require Import SpecBytes.
Import ListNotations.
Open Scope Z_scope.

Definition add64 (x y : Z) : Z := (x + y) mod 2 ^ 64.
(* rotation and shift to the right by n bits, section 3.2 *)
Definition rotr64 (n x : Z) : Z := (x mod 2 ^ n) * 2 ^ (64 - n) + x / 2 ^ n.
Definition shr64 (n x : Z) : Z := x / 2 ^ n.
Definition xor3q (x y z : Z) : Z := Z.lxor (Z.lxor x y) z.
(* section 4.1.3 *)
Definition Ch64 (x y z : Z) : Z := Z.lxor (Z.land x y) (Z.land (2 ^ 64 - 1 - x) z).
Definition Maj64 (x y z : Z) : Z := xor3q (Z.land x y) (Z.land x z) (Z.land y z).
Definition Sigma0_64 (x : Z) : Z := xor3q (rotr64 28 x) (rotr64 34 x) (rotr64 39 x).
Definition Sigma1_64 (x : Z) : Z := xor3q (rotr64 14 x) (rotr64 18 x) (rotr64 41 x).
Definition sigma0_64 (x : Z) : Z := xor3q (rotr64 1 x) (rotr64 8 x) (shr64 7 x).
Definition sigma1_64 (x : Z) : Z := xor3q (rotr64 19 x) (rotr64 61 x) (shr64 6 x).

(* the first 80 primes *)
Definition primes80 : list Z :=
  [2;3;5;7;11;13;17;19;23;29;31;37;41;43;47;53;59;61;67;71;73;79;83;89;97;101;103;107;109;113;127;131;137;139;149;151;157;163;167;173;
   179;181;191;193;197;199;211;223;227;229;233;239;241;251;257;263;269;271;277;281;283;293;307;311;313;317;331;337;347;349;353;359;367;373;379;383;389;397;401;409].
(* integer cube root: the greatest k < 2^n with k^3 <= a *)
Fixpoint cbrt64 (n : nat) (k a : Z) : Z :=
  match n with
  | O => k
  | S m => let k' := k + 2 ^ Z.of_nat m in cbrt64 m (if k' * k' * k' <=? a then k' else k) a
  end.
(* section 4.2.3: the first 64 bits of the fractional parts of the cube roots of
   the first 80 primes; sections 5.3.5 and 5.3.4: of the square roots of the first
   8 primes and of the 9th to the 16th *)
Definition K512 : list Z := map (fun p => cbrt64 68 0 (p * 2 ^ 192) mod 2 ^ 64) primes80.
Definition H512 : list Z := map (fun p => Z.sqrt (p * 2 ^ 128) mod 2 ^ 64) (firstn 8 primes80).
Definition H384 : list Z := map (fun p => Z.sqrt (p * 2 ^ 128) mod 2 ^ 64) (firstn 8 (skipn 8 primes80)).

(* section 6.4.2, step 1: the message schedule *)
Definition next_word64 (w : list Z) : Z :=
  let t := length w in
  add64 (add64 (add64 (sigma1_64 (nth (t - 2) w 0)) (nth (t - 7) w 0)) (sigma0_64 (nth (t - 15) w 0))) (nth (t - 16) w 0).
Fixpoint extend64 (n : nat) (w : list Z) : list Z :=
  match n with
  | O => w
  | S m => extend64 m (w ++ [next_word64 w])
  end.
Definition schedule64 (block : list Z) : list Z := extend64 64 block.
(* steps 2-4 *)
Definition round64 (v : list Z) (kw : Z * Z) : list Z :=
  match v with
  | [a; b; c; d; e; f; g; h] =>
      let T1 := add64 (add64 (add64 (add64 h (Sigma1_64 e)) (Ch64 e f g)) (fst kw)) (snd kw) in
      let T2 := add64 (Sigma0_64 a) (Maj64 a b c) in
      [add64 T1 T2; a; b; c; add64 d T1; e; f; g]
  | _ => []
  end.
Definition compress64 (H block : list Z) : list Z :=
  map (fun p => add64 (fst p) (snd p)) (combine H (fold_left round64 (combine K512 (schedule64 block)) H)).

(* section 5.1.2: one bit, zeros, and the length in bits as a 128-bit number *)
Definition padded128 (m : list Z) : list Z :=
  m ++ [128] ++ repeat 0 (Z.to_nat ((111 - Z.of_nat (length m)) mod 128)) ++ be_bytes 16 (8 * Z.of_nat (length m)).
(* section 5.2.2: blocks of sixteen big-endian words *)
Fixpoint words64 (n : nat) (bs : list Z) : list Z :=
  match n with
  | O => []
  | S m => be_int (firstn 8 bs) :: words64 m (skipn 8 bs)
  end.
Fixpoint blocks128 (n : nat) (bs : list Z) : list (list Z) :=
  match n with
  | O => []
  | S m => words64 16 (firstn 128 bs) :: blocks128 m (skipn 128 bs)
  end.
Definition sha_long (H m : list Z) : list Z :=
  let p := padded128 m in
  flat_map (be_bytes 8) (fold_left compress64 (blocks128 (length p / 128) p) H).
Definition sha512 (m : list Z) : list Z := sha_long H512 m.
(* section 6.5: truncated to the left-most 384 bits *)
Definition sha384 (m : list Z) : list Z := firstn 48 (sha_long H384 m).
