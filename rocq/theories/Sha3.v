(* Model of amcl/src/sha3.rs (SHA-3 and SHAKE). *)
From Verif Require Import Prim.

(* u64 *)
Definition k64 : Z := 18446744073709551615.

(* sha3.rs:30-36 *)
Definition SHA3_RC : list Z :=
 [0x0000000000000001;0x0000000000008082;0x800000000000808A;0x8000000080008000;
  0x000000000000808B;0x0000000080000001;0x8000000080008081;0x8000000000008009;
  0x000000000000008A;0x0000000000000088;0x0000000080008009;0x000000008000000A;
  0x000000008000808B;0x800000000000008B;0x8000000000008089;0x8000000000008003;
  0x8000000000008002;0x8000000000000080;0x000000000000800A;0x800000008000000A;
  0x8000000080008081;0x8000000000008080;0x0000000080000001;0x8000000080008008].

(* sha3.rs:40-45; s[i][j] is entry j of list i *)
Record SHA3 := mkK { k_length : Z; k_rate : Z; k_len : nat; k_s : list (list Z) }.
(* sha3.rs:44
   reading s[i][j], with i and j below 5 *)
Definition ix (s : list (list Z)) (i j : nat) : Z := nth j (nth i s []) 0.

(* sha3.rs:48-50 *)
Definition k_rotl (x n : Z) : Z := Z.lor (Z.land (Z.shiftl x n) k64) (Z.shiftr x (64 - n)).
(* sha3.rs:58-62 *)
Definition k_c (s : list (list Z)) : list Z :=
  map (fun i => Z.lxor (Z.lxor (Z.lxor (Z.lxor (ix s i 0) (ix s i 1)) (ix s i 2)) (ix s i 3)) (ix s i 4)) [0; 1; 2; 3; 4]%nat.
(* sha3.rs:64-68 *)
Definition k_d (c : list Z) : list Z :=
  [Z.lxor (limb c 4) (k_rotl (limb c 1) 1); Z.lxor (limb c 0) (k_rotl (limb c 2) 1); Z.lxor (limb c 1) (k_rotl (limb c 3) 1);
   Z.lxor (limb c 2) (k_rotl (limb c 4) 1); Z.lxor (limb c 3) (k_rotl (limb c 0) 1)].
(* sha3.rs:70-74 *)
Definition k_theta (s : list (list Z)) : list (list Z) :=
  let d := k_d (k_c s) in
  map (fun i => map (fun j => Z.lxor (ix s i j) (limb d i)) [0; 1; 2; 3; 4]%nat) [0; 1; 2; 3; 4]%nat.
(* sha3.rs:76-104
   the array b, each entry with its source *)
Definition k_rho (s : list (list Z)) : list (list Z) :=
 [[ix s 0 0; k_rotl (ix s 3 0) 28; k_rotl (ix s 1 0) 1; k_rotl (ix s 4 0) 27; k_rotl (ix s 2 0) 62];
  [k_rotl (ix s 1 1) 44; k_rotl (ix s 4 1) 20; k_rotl (ix s 2 1) 6; k_rotl (ix s 0 1) 36; k_rotl (ix s 3 1) 55];
  [k_rotl (ix s 2 2) 43; k_rotl (ix s 0 2) 3; k_rotl (ix s 3 2) 25; k_rotl (ix s 1 2) 10; k_rotl (ix s 4 2) 39];
  [k_rotl (ix s 3 3) 21; k_rotl (ix s 1 3) 45; k_rotl (ix s 4 3) 8; k_rotl (ix s 2 3) 15; k_rotl (ix s 0 3) 41];
  [k_rotl (ix s 4 4) 14; k_rotl (ix s 2 4) 61; k_rotl (ix s 0 4) 18; k_rotl (ix s 3 4) 56; k_rotl (ix s 1 4) 2]].
(* sha3.rs:106-110
   !b is the 64-bit complement *)
Definition k_chi (b : list (list Z)) : list (list Z) :=
  map (fun i => map (fun j => Z.lxor (ix b i j) (Z.land (Z.lxor (ix b ((i + 1) mod 5) j) k64) (ix b ((i + 2) mod 5) j))) [0; 1; 2; 3; 4]%nat) [0; 1; 2; 3; 4]%nat.
(* sha3.rs:112, sha3.rs:146
   s[i][j] ^= v *)
Definition k_xor (s : list (list Z)) (i j : nat) (v : Z) : list (list Z) := upd s i (upd (nth i s []) j (Z.lxor (ix s i j) v)).
(* sha3.rs:57-113
   one round *)
Definition k_round (s : list (list Z)) (k : nat) : list (list Z) := k_xor (k_chi (k_rho (k_theta s))) 0 0 (limb SHA3_RC k).
(* sha3.rs:52-114 *)
Definition k_transform (s : list (list Z)) : list (list Z) := fold_left k_round (seq 0 24) s.

(* sha3.rs:117-126
   200-2*olen panics if negative (a build without checks wraps) *)
Definition k_init (h : SHA3) (olen : nat) : option SHA3 :=
  r <- cku64 (200 - 2 * Z.of_nat olen) ;;
  Some (mkK 0 r olen (repeat (repeat 0 5) 5)).
(* sha3.rs:128-137 *)
Definition k_new (olen : nat) : option SHA3 := k_init (mkK 0 0 0 (repeat (repeat 0 5) 5)) olen.

(* sha3.rs:141, sha3.rs:183, sha3.rs:188, sha3.rs:196, sha3.rs:201
   length%rate, which panics for the rate 0 *)
Definition k_cnt (h : SHA3) : option Z := if k_rate h =? 0 then None else Some (k_length h mod k_rate h).
(* sha3.rs:140-151
   s[i][j] with j above 4 panics *)
Definition k_process (h : SHA3) (byt : Z) : option SHA3 :=
  cnt <- k_cnt h ;;
  let b := cnt mod 8 in
  let ind := Z.to_nat (cnt / 8) in
  let i := (ind mod 5)%nat in
  let j := (ind / 5)%nat in
  if (j <? 5)%nat then
    let s := k_xor (k_s h) i j (Z.shiftl (Z.land byt 255) (8 * b)) in
    l <- cku64 (k_length h + 1) ;;
    Some (mkK l (k_rate h) (k_len h) (if cnt + 1 =? k_rate h then k_transform s else s))
  else None.

(* sha3.rs:162-168
   one turn of the innermost loop, at byte x of s[i][j]; nothing happens once done is set *)
Definition k_sq_byte (rate : Z) (olen : nat) (s : list (list Z)) (st : list Z * nat * bool) (p : nat * nat * nat) : option (list Z * nat * bool) :=
  let '(buf, m, done) := st in
  let '(j, i, x) := p in
  if (done : bool) then Some st
  else
    buf' <- setM buf m (Z.land (Z.shiftr (ix s i j) (8 * Z.of_nat x)) 255) ;;
    Some (buf', S m, (olen <=? S m)%nat || (Z.of_nat (S m) mod rate =? 0)).
(* sha3.rs:158-161
   the order of the three loops *)
Definition k_sq_order : list (nat * nat * nat) :=
  flat_map (fun j => flat_map (fun i => map (fun x => (j, i, x)) (seq 0 8)) (seq 0 5)) (seq 0 5).
(* sha3.rs:153-179
   the loop stops after olen turns at most; the rate is not 0 when it is called *)
Fixpoint k_squeeze (fuel : nat) (rate : Z) (olen : nat) (s : list (list Z)) (buf : list Z) (m : nat) : option (list Z * list (list Z)) :=
  match fuel with
  | O => None
  | S f =>
      '(buf', m', _) <- foldM (k_sq_byte rate olen s) k_sq_order (buf, m, false) ;;
      if (olen <=? m')%nat then Some (buf', s) else k_squeeze f rate olen (k_transform s) buf' m'
  end.

(* sha3.rs:188, sha3.rs:201
   the loop that adds zeros; it makes less than 200 turns *)
Fixpoint k_zeros (fuel : nat) (h : SHA3) : option SHA3 :=
  cnt <- k_cnt h ;;
  if cnt =? k_rate h - 1 then Some h
  else match fuel with
       | O => None
       | S f => h' <- k_process h 0 ;; k_zeros f h'
       end.
(* sha3.rs:183-190, sha3.rs:196-203
   the padding; pad is 0x06 in hash and 0x1f in shake *)
Definition k_pad (h : SHA3) (pad : Z) : option SHA3 :=
  cnt <- k_cnt h ;;
  if k_rate h - cnt =? 1 then k_process h (Z.lor pad 128)
  else
    h1 <- k_process h pad ;;
    h2 <- k_zeros 200 h1 ;;
    k_process h2 128.
(* sha3.rs:195-205
   returns the new content of digest and the new state *)
Definition k_shake_with (pad : Z) (h : SHA3) (digest : list Z) (olen : nat) : option (list Z * SHA3) :=
  h' <- k_pad h pad ;;
  '(d, s) <- k_squeeze (S olen) (k_rate h') olen (k_s h') digest 0 ;;
  Some (d, mkK (k_length h') (k_rate h') (k_len h') s).
(* sha3.rs:195-205 *)
Definition k_shake (h : SHA3) (digest : list Z) (olen : nat) : option (list Z * SHA3) := k_shake_with 31 h digest olen.
(* sha3.rs:182-193 *)
Definition k_hash (h : SHA3) (digest : list Z) : option (list Z * SHA3) := k_shake_with 6 h digest (k_len h).
