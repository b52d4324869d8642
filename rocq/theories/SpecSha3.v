(* Specification: FIPS 202 (SHA-3 and SHAKE) with lanes of 64 bits. A state is the list of
   its 25 lanes, lane (x, y) at position 5y + x; a lane is a Z in [0, 2^64). *)
From Coq Require Import ZArith List.
Import ListNotations.
Open Scope Z_scope.

Definition lane (s : list Z) (x y : nat) : Z := nth (5 * (y mod 5) + x mod 5) s 0.
Definition lanes (f : nat -> nat -> Z) : list Z := map (fun i => f (i mod 5)%nat (i / 5)%nat) (seq 0 25).
(* rotation towards the most significant bit *)
Definition rot64 (x n : Z) : Z := (x * 2 ^ n) mod 2 ^ 64 + x / 2 ^ (64 - n).

(* section 3.2.1 *)
Definition theta (s : list Z) : list Z :=
  let C x := Z.lxor (Z.lxor (Z.lxor (Z.lxor (lane s x 0) (lane s x 1)) (lane s x 2)) (lane s x 3)) (lane s x 4) in
  let D x := Z.lxor (C (x + 4)%nat) (rot64 (C (x + 1)%nat) 1) in
  lanes (fun x y => Z.lxor (lane s x y) (D x)).
(* section 3.2.2: lane (0, 0) stays; the walk from (1, 0) rotates step t by (t+1)(t+2)/2 *)
Fixpoint rho_walk (n : nat) (t : Z) (x y : nat) (x0 y0 : nat) : Z :=
  match n with
  | O => 0
  | S n' => if (Nat.eqb x x0 && Nat.eqb y y0)%bool then ((t + 1) * (t + 2) / 2) mod 64
            else rho_walk n' (t + 1) y ((2 * x + 3 * y) mod 5) x0 y0
  end.
Definition offset (x y : nat) : Z := rho_walk 24 0 1 0 x y.
Definition rho (s : list Z) : list Z := lanes (fun x y => rot64 (lane s x y) (offset x y)).
(* section 3.2.3 *)
Definition pi (s : list Z) : list Z := lanes (fun x y => lane s (x + 3 * y) x).
(* section 3.2.4 *)
Definition chi (s : list Z) : list Z :=
  lanes (fun x y => Z.lxor (lane s x y) (Z.land (Z.lxor (lane s (x + 1) y) (2 ^ 64 - 1)) (lane s (x + 2) y))).
(* section 3.2.5: rc(t) is the constant coefficient of X^t modulo X^8+X^6+X^5+X^4+1 over
   GF(2); the round constant has rc(j + 7 ir) at bit 2^j - 1 *)
Definition times_X (p : Z) : Z := if Z.testbit (2 * p) 8 then Z.lxor (2 * p) 0x171 else 2 * p.
Definition rc (t : nat) : Z := Nat.iter t times_X 1 mod 2.
Definition RC (ir : nat) : Z := fold_right (fun j a => rc (j + 7 * ir) * 2 ^ (2 ^ Z.of_nat j - 1) + a) 0 (seq 0 7).
Definition iota (ir : nat) (s : list Z) : list Z :=
  lanes (fun x y => if (Nat.eqb x 0 && Nat.eqb y 0)%bool then Z.lxor (lane s x y) (RC ir) else lane s x y).
(* section 3.3 *)
Definition Rnd (s : list Z) (ir : nat) : list Z := iota ir (chi (pi (rho (theta s)))).
Definition keccak_f (s : list Z) : list Z := fold_left Rnd (seq 0 24) s.

(* section 3.1.2 and B.1: the state as bytes, each lane with its least significant byte first *)
Definition le8 (x : Z) : list Z := map (fun k => (x / 256 ^ Z.of_nat k) mod 256) (seq 0 8).
Definition state_bytes (s : list Z) : list Z := flat_map le8 s.
(* the lanes of a string of at most 200 bytes, continued by zeros *)
Definition lane_of (p : list Z) (i : nat) : Z := fold_right (fun k a => nth (8 * i + k) p 0 + 256 * a) 0 (seq 0 8).
Definition lanes_of (p : list Z) : list Z := map (lane_of p) (seq 0 25).

(* section 4: the sponge with a rate of r bytes *)
Definition absorb_block (s blk : list Z) : list Z := keccak_f (map (fun p => Z.lxor (fst p) (snd p)) (combine s (lanes_of blk))).
Fixpoint absorb_all (n : nat) (r : nat) (s m : list Z) : list Z :=
  match n with
  | O => s
  | S n' => absorb_all n' r (absorb_block s (firstn r m)) (skipn r m)
  end.
Fixpoint squeeze_all (n : nat) (r : nat) (s : list Z) : list Z :=
  match n with
  | O => []
  | S n' => firstn r (state_bytes s) ++ squeeze_all n' r (keccak_f s)
  end.
(* sections 5.1 and 6, and B.2: the domain bits and the first bit of pad10*1 are the number
   `dom` (0x06 for the hashes, 0x1f for SHAKE), least significant bit first; its last bit
   is the last bit of the block *)
Fixpoint le_bytes (n : nat) (x : Z) : list Z :=
  match n with
  | O => []
  | S n' => x mod 256 :: le_bytes n' (x / 256)
  end.
Definition padding (r : nat) (dom : Z) (len : nat) : list Z :=
  let q := (r - len mod r)%nat in le_bytes q (dom + 2 ^ (8 * Z.of_nat q - 1)).
Definition sponge (r : nat) (dom : Z) (m : list Z) (d : nat) : list Z :=
  let m' := m ++ padding r dom (length m) in
  firstn d (squeeze_all (S (d / r)) r (absorb_all (length m' / r) r (repeat 0 25) m')).
(* SHA3-8n for n bytes, SHAKE with the capacity of 2n bytes (n = 16: SHAKE128, 32: SHAKE256) *)
Definition SHA3_hash (n : nat) (m : list Z) : list Z := sponge (200 - 2 * n) 0x06 m n.
Definition SHAKE (n : nat) (m : list Z) (d : nat) : list Z := sponge (200 - 2 * n) 0x1f m d.
