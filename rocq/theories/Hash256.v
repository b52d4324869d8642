(* Model of amcl/src/hash256.rs (SHA-256). *)
From Verif Require Import Prim.

(* u32 operations *)
Definition m32 : Z := 4294967295.
Definition wadd (x y : Z) : Z := Z.land (x + y) m32.
Definition wsub (x y : Z) : Z := Z.land (x - y) m32.
Definition cku32 (z : Z) : option Z := if (0 <=? z) && (z <=? m32) then Some z else None.

(* hash256.rs:29-37 *)
Definition HASH256_K : list Z :=
 [0x428a2f98;0x71374491;0xb5c0fbcf;0xe9b5dba5;0x3956c25b;0x59f111f1;0x923f82a4;0xab1c5ed5;
  0xd807aa98;0x12835b01;0x243185be;0x550c7dc3;0x72be5d74;0x80deb1fe;0x9bdc06a7;0xc19bf174;
  0xe49b69c1;0xefbe4786;0x0fc19dc6;0x240ca1cc;0x2de92c6f;0x4a7484aa;0x5cb0a9dc;0x76f988da;
  0x983e5152;0xa831c66d;0xb00327c8;0xbf597fc7;0xc6e00bf3;0xd5a79147;0x06ca6351;0x14292967;
  0x27b70a85;0x2e1b2138;0x4d2c6dfc;0x53380d13;0x650a7354;0x766a0abb;0x81c2c92e;0x92722c85;
  0xa2bfe8a1;0xa81a664b;0xc24b8b70;0xc76c51a3;0xd192e819;0xd6990624;0xf40e3585;0x106aa070;
  0x19a4c116;0x1e376c08;0x2748774c;0x34b0bcb5;0x391c0cb3;0x4ed8aa4a;0x5b9cca4f;0x682e6ff3;
  0x748f82ee;0x78a5636f;0x84c87814;0x8cc70208;0x90befffa;0xa4506ceb;0xbef9a3f7;0xc67178f2].
(* hash256.rs:20-27 *)
Definition HASH256_H : list Z :=
 [0x6A09E667;0xBB67AE85;0x3C6EF372;0xA54FF53A;0x510E527F;0x9B05688C;0x1F83D9AB;0x5BE0CD19].

(* hash256.rs:40-44 *)
Record HASH256 := mkH { hlen0 : Z; hlen1 : Z; hh : list Z; hw : list Z }.

(* hash256.rs:47-49 s (rotate right) *)
Definition h_s (n x : Z) : Z := Z.lor (Z.shiftr x n) (Z.land (Z.shiftl x (32 - n)) m32).
(* hash256.rs:50-52 r *)
Definition h_r (n x : Z) : Z := Z.shiftr x n.
(* hash256.rs:54-56 ch; !(x) is the 32-bit complement *)
Definition h_ch (x y z : Z) : Z := Z.lxor (Z.land x y) (Z.land (Z.lxor x m32) z).
(* hash256.rs:58-60 maj *)
Definition h_maj (x y z : Z) : Z := Z.lxor (Z.lxor (Z.land x y) (Z.land x z)) (Z.land y z).
(* hash256.rs:61-63 sig0 *)
Definition h_sig0 (x : Z) : Z := Z.lxor (Z.lxor (h_s 2 x) (h_s 13 x)) (h_s 22 x).
(* hash256.rs:65-67 sig1 *)
Definition h_sig1 (x : Z) : Z := Z.lxor (Z.lxor (h_s 6 x) (h_s 11 x)) (h_s 25 x).
(* hash256.rs:69-71 theta0 *)
Definition h_theta0 (x : Z) : Z := Z.lxor (Z.lxor (h_s 7 x) (h_s 18 x)) (h_r 3 x).
(* hash256.rs:73-75 theta1 *)
Definition h_theta1 (x : Z) : Z := Z.lxor (Z.lxor (h_s 17 x) (h_s 19 x)) (h_r 10 x).

(* hash256.rs:77-96 transform.  Lines 78-80: *)
Definition h_sched (w : list Z) (j : nat) : list Z :=
  upd w j (wadd (wadd (wadd (h_theta1 (limb w (j - 2))) (limb w (j - 7)))
                      (h_theta0 (limb w (j - 15)))) (limb w (j - 16))).
(* lines 83-92; the working variables a..hh as a list of eight *)
Definition h_round (w : list Z) (v : list Z) (j : nat) : list Z :=
  let a := limb v 0 in let b := limb v 1 in let c := limb v 2 in let d := limb v 3 in
  let e := limb v 4 in let f := limb v 5 in let g := limb v 6 in let h := limb v 7 in
  let t1 := wadd (wadd (wadd (wadd h (h_sig1 e)) (h_ch e f g)) (limb HASH256_K j)) (limb w j) in
  let t2 := wadd (h_sig0 a) (h_maj a b c) in
  [wadd t1 t2; a; b; c; wadd d t1; e; f; g].
Definition h_transform (s : HASH256) : HASH256 :=
  let w := fold_left h_sched (seq 16 48) (hw s) in
  let v := fold_left (h_round w) (seq 0 64) (hh s) in
  mkH (hlen0 s) (hlen1 s) (map2 wadd (hh s) v) w.

(* hash256.rs:112-120 new, 99-110 init *)
Definition h_new : HASH256 := mkH 0 0 HASH256_H (repeat 0 64).

(* `+=` on u32: with overflow checks (debug build, chk = true) or wrapping (release build) *)
Definition h_inc (chk : bool) (z : Z) : option Z := if chk then cku32 z else Some (Z.land z m32).
(* hash256.rs:123-130 process; with checks `length[0]+=8` panics past 2^32 bits *)
Definition h_process (chk : bool) (s : HASH256) (byt : Z) : option HASH256 :=
  let cnt := Z.to_nat (hlen0 s / 32 mod 16) in
  let w1 := Z.land (Z.shiftl (limb (hw s) cnt) 8) m32 in
  let w := upd (hw s) cnt (Z.lor w1 (Z.land byt 255)) in
  l0 <- h_inc chk (hlen0 s + 8) ;;
  l1 <- (if l0 =? 0 then h_inc chk (hlen1 s + 1) else Some (hlen1 s)) ;;
  let s' := mkH l0 l1 (hh s) w in
  Some (if l0 mod 512 =? 0 then h_transform s' else s').

(* hash256.rs:133-135 process_array *)
Definition h_process_array (chk : bool) (s : HASH256) (b : list Z) : option HASH256 := foldM (h_process chk) b s.
(* hash256.rs:138-143 process_num; an i32 *)
Definition h_process_num (chk : bool) (s : HASH256) (n : Z) : option HASH256 :=
  h_process_array chk s [Z.land (Z.shiftr n 24) 255; Z.land (Z.shiftr n 16) 255; Z.land (Z.shiftr n 8) 255; Z.land n 255].

(* hash256.rs:146-160 hash: the digest and the state, which is re-initialised.
   The padding loop needs at most 64 rounds. *)
Fixpoint h_pad (chk : bool) (fuel : nat) (s : HASH256) : option HASH256 :=
  match fuel with
  | O => None
  | S f => if hlen0 s mod 512 =? 448 then Some s else s' <- h_process chk s 0 ;; h_pad chk f s'
  end.
Definition h_hash (chk : bool) (s : HASH256) : option (list Z * HASH256) :=
  let len0 := hlen0 s in
  let len1 := hlen1 s in
  s1 <- h_process chk s 128 ;;
  s2 <- h_pad chk 65 s1 ;;
  let s3 := h_transform (mkH (hlen0 s2) (hlen1 s2) (hh s2) (upd (upd (hw s2) 14 len1) 15 len0)) in
  Some (map (fun i => Z.land (Z.shiftr (limb (hh s3) (i / 4)) (8 * (3 - Z.of_nat (i mod 4)))) 255)
            (seq 0 32), h_new).
