(* Model of amcl/src/hash512.rs (SHA-512) and amcl/src/hash384.rs (SHA-384).  The
   two files differ in the initial values, the length of the digest and in the
   schedule, which hash384.rs adds with the plain operator.  `chk` says whether the
   program is built with overflow checks, `st` whether the schedule is checked. *)
From Verif Require Import Prim.

(* u64 operations *)
Definition m64 : Z := 18446744073709551615.
Definition wadd64 (x y : Z) : Z := Z.land (x + y) m64.
Definition qku64 (z : Z) : option Z := if (0 <=? z) && (z <=? m64) then Some z else None.

(* hash512.rs:30-50, hash384.rs:29-49 (the same values) *)
Definition HASH512_K : list Z :=
 [0x428a2f98d728ae22;0x7137449123ef65cd;0xb5c0fbcfec4d3b2f;0xe9b5dba58189dbbc;
  0x3956c25bf348b538;0x59f111f1b605d019;0x923f82a4af194f9b;0xab1c5ed5da6d8118;
  0xd807aa98a3030242;0x12835b0145706fbe;0x243185be4ee4b28c;0x550c7dc3d5ffb4e2;
  0x72be5d74f27b896f;0x80deb1fe3b1696b1;0x9bdc06a725c71235;0xc19bf174cf692694;
  0xe49b69c19ef14ad2;0xefbe4786384f25e3;0x0fc19dc68b8cd5b5;0x240ca1cc77ac9c65;
  0x2de92c6f592b0275;0x4a7484aa6ea6e483;0x5cb0a9dcbd41fbd4;0x76f988da831153b5;
  0x983e5152ee66dfab;0xa831c66d2db43210;0xb00327c898fb213f;0xbf597fc7beef0ee4;
  0xc6e00bf33da88fc2;0xd5a79147930aa725;0x06ca6351e003826f;0x142929670a0e6e70;
  0x27b70a8546d22ffc;0x2e1b21385c26c926;0x4d2c6dfc5ac42aed;0x53380d139d95b3df;
  0x650a73548baf63de;0x766a0abb3c77b2a8;0x81c2c92e47edaee6;0x92722c851482353b;
  0xa2bfe8a14cf10364;0xa81a664bbc423001;0xc24b8b70d0f89791;0xc76c51a30654be30;
  0xd192e819d6ef5218;0xd69906245565a910;0xf40e35855771202a;0x106aa07032bbd1b8;
  0x19a4c116b8d2d0c8;0x1e376c085141ab53;0x2748774cdf8eeb99;0x34b0bcb5e19b48a8;
  0x391c0cb3c5c95a63;0x4ed8aa4ae3418acb;0x5b9cca4f7763e373;0x682e6ff3d6b2b8a3;
  0x748f82ee5defb2fc;0x78a5636f43172f60;0x84c87814a1f0ab72;0x8cc702081a6439ec;
  0x90befffa23631e28;0xa4506cebde82bde9;0xbef9a3f7b2c67915;0xc67178f2e372532b;
  0xca273eceea26619c;0xd186b8c721c0c207;0xeada7dd6cde0eb1e;0xf57d4f7fee6ed178;
  0x06f067aa72176fba;0x0a637dc5a2c898a6;0x113f9804bef90dae;0x1b710b35131c471b;
  0x28db77f523047d84;0x32caab7b40c72493;0x3c9ebe0a15c9bebc;0x431d67c49c100d4c;
  0x4cc5d4becb3e42b6;0x597f299cfc657e2a;0x5fcb6fab3ad6faec;0x6c44198c4a475817].
(* hash512.rs:21-28 *)
Definition HASH512_H : list Z :=
 [0x6a09e667f3bcc908;0xbb67ae8584caa73b;0x3c6ef372fe94f82b;0xa54ff53a5f1d36f1;
  0x510e527fade682d1;0x9b05688c2b3e6c1f;0x1f83d9abfb41bd6b;0x5be0cd19137e2179].
(* hash384.rs:20-27 *)
Definition HASH384_H : list Z :=
 [0xcbbb9d5dc1059ed8;0x629a292a367cd507;0x9159015a3070dd17;0x152fecd8f70e5939;
  0x67332667ffc00b31;0x8eb44a8768581511;0xdb0c2e0d64f98fa7;0x47b5481dbefa4fa4].

(* hash512.rs:53-57, hash384.rs:52-56 *)
Record HASH512 := mkQ { qlen0 : Z; qlen1 : Z; qh : list Z; qw : list Z }.

(* hash512.rs:60-62, hash384.rs:59-61
   s (rotate right) *)
Definition q_s (n x : Z) : Z := Z.lor (Z.shiftr x n) (Z.land (Z.shiftl x (64 - n)) m64).
(* hash512.rs:63-65, hash384.rs:62-64
   r *)
Definition q_r (n x : Z) : Z := Z.shiftr x n.
(* hash512.rs:67-69, hash384.rs:66-68
   ch; !(x) is the 64-bit complement *)
Definition q_ch (x y z : Z) : Z := Z.lxor (Z.land x y) (Z.land (Z.lxor x m64) z).
(* hash512.rs:71-73, hash384.rs:70-72
   maj *)
Definition q_maj (x y z : Z) : Z := Z.lxor (Z.lxor (Z.land x y) (Z.land x z)) (Z.land y z).
(* hash512.rs:75-77, hash384.rs:74-76
   sig0 *)
Definition q_sig0 (x : Z) : Z := Z.lxor (Z.lxor (q_s 28 x) (q_s 34 x)) (q_s 39 x).
(* hash512.rs:79-81, hash384.rs:78-80
   sig1 *)
Definition q_sig1 (x : Z) : Z := Z.lxor (Z.lxor (q_s 14 x) (q_s 18 x)) (q_s 41 x).
(* hash512.rs:83-85, hash384.rs:82-84
   theta0 *)
Definition q_theta0 (x : Z) : Z := Z.lxor (Z.lxor (q_s 1 x) (q_s 8 x)) (q_r 7 x).
(* hash512.rs:87-89, hash384.rs:86-88
   theta1 *)
Definition q_theta1 (x : Z) : Z := Z.lxor (Z.lxor (q_s 19 x) (q_s 61 x)) (q_r 6 x).

(* `+` on u64: with overflow checks (st = true) or wrapping *)
Definition q_plus (st : bool) (x y : Z) : option Z := if st then qku64 (x + y) else Some (wadd64 x y).
(* hash512.rs:92-94, hash384.rs:91-93
   transform, the schedule *)
Definition q_sched (st : bool) (w : list Z) (j : nat) : option (list Z) :=
  a <- q_plus st (q_theta1 (limb w (j - 2))) (limb w (j - 7)) ;;
  b <- q_plus st a (q_theta0 (limb w (j - 15))) ;;
  c <- q_plus st b (limb w (j - 16)) ;;
  Some (upd w j c).
(* hash512.rs:97-106, hash384.rs:96-105
   transform, the rounds; the working variables a..hh as a list of eight *)
Definition q_round (w : list Z) (v : list Z) (j : nat) : list Z :=
  let a := limb v 0 in let b := limb v 1 in let c := limb v 2 in let d := limb v 3 in
  let e := limb v 4 in let f := limb v 5 in let g := limb v 6 in let h := limb v 7 in
  let t1 := wadd64 (wadd64 (wadd64 (wadd64 h (q_sig1 e)) (q_ch e f g)) (limb HASH512_K j)) (limb w j) in
  let t2 := wadd64 (q_sig0 a) (q_maj a b c) in
  [wadd64 t1 t2; a; b; c; wadd64 d t1; e; f; g].
(* hash512.rs:91-110, hash384.rs:90-109
   transform *)
Definition q_transform (st : bool) (s : HASH512) : option HASH512 :=
  w <- foldM (q_sched st) (seq 16 64) (qw s) ;;
  let v := fold_left (q_round w) (seq 0 80) (qh s) in
  Some (mkQ (qlen0 s) (qlen1 s) (map2 wadd64 (qh s) v) w).

(* hash512.rs:126-134, hash384.rs:125-133; init: hash512.rs:113-124, hash384.rs:112-123
   new and init, with the initial values h *)
Definition q_new (h : list Z) : HASH512 := mkQ 0 0 h (repeat 0 80).

(* `+=` on u64: with overflow checks (chk = true) or wrapping *)
Definition q_inc (chk : bool) (z : Z) : option Z := if chk then qku64 z else Some (Z.land z m64).
(* hash512.rs:137-144, hash384.rs:136-143
   process *)
Definition q_process (st chk : bool) (s : HASH512) (byt : Z) : option HASH512 :=
  let cnt := Z.to_nat (qlen0 s / 64 mod 16) in
  let w1 := Z.land (Z.shiftl (limb (qw s) cnt) 8) m64 in
  let w := upd (qw s) cnt (Z.lor w1 (Z.land byt 255)) in
  l0 <- q_inc chk (qlen0 s + 8) ;;
  l1 <- (if l0 =? 0 then q_inc chk (qlen1 s + 1) else Some (qlen1 s)) ;;
  let s' := mkQ l0 l1 (qh s) w in
  if l0 mod 1024 =? 0 then q_transform st s' else Some s'.

(* hash512.rs:147-149, hash384.rs:146-148
   process_array *)
Definition q_process_array (st chk : bool) (s : HASH512) (b : list Z) : option HASH512 := foldM (q_process st chk) b s.
(* hash512.rs:152-157, hash384.rs:151-156
   process_num; an i32 *)
Definition q_process_num (st chk : bool) (s : HASH512) (n : Z) : option HASH512 :=
  q_process_array st chk s [Z.land (Z.shiftr n 24) 255; Z.land (Z.shiftr n 16) 255; Z.land (Z.shiftr n 8) 255; Z.land n 255].

(* hash512.rs:160-174, hash384.rs:159-173
   hash, the padding loop; it needs at most 128 rounds *)
Fixpoint q_pad (st chk : bool) (fuel : nat) (s : HASH512) : option HASH512 :=
  match fuel with
  | O => None
  | S f => if qlen0 s mod 1024 =? 896 then Some s else s' <- q_process st chk s 0 ;; q_pad st chk f s'
  end.
(* hash512.rs:160-174, hash384.rs:159-173
   hash: the n bytes of the digest and the state, which is re-initialised *)
Definition q_hash (st chk : bool) (h : list Z) (n : nat) (s : HASH512) : option (list Z * HASH512) :=
  let len0 := qlen0 s in
  let len1 := qlen1 s in
  s1 <- q_process st chk s 128 ;;
  s2 <- q_pad st chk 129 s1 ;;
  s3 <- q_transform st (mkQ (qlen0 s2) (qlen1 s2) (qh s2) (upd (upd (qw s2) 14 len1) 15 len0)) ;;
  Some (map (fun i => Z.land (Z.shiftr (limb (qh s3) (i / 8)) (8 * (7 - Z.of_nat (i mod 8)))) 255)
            (seq 0 n), q_new h).
