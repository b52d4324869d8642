(* Model of amcl/src/aes.rs.  A u32 is a Z in [0, 2^32), a u8 a Z in [0, 256).  The arrays
   buff and f have 16 entries.  `chk` says whether u8 addition is checked for overflow. *)
From Verif Require Import Prim AesTab.

(* aes.rs:20-34 *)
Definition M_ECB : nat := 0.
Definition M_CBC : nat := 1.
Definition M_CFB1 : nat := 2.
Definition M_OFB1 : nat := 14.
Definition M_CTR1 : nat := 30.
(* aes.rs:22-24, 25-29, 30-34: the modes of each kind *)
Definition is_cfb (m : nat) : bool := existsb (Nat.eqb m) [2; 3; 5]%nat.
Definition is_ofb (m : nat) : bool := existsb (Nat.eqb m) [14; 15; 17; 21; 29]%nat.
Definition is_ctr (m : nat) : bool := existsb (Nat.eqb m) [30; 31; 33; 37; 45]%nat.

(* a table entry; the index is a byte *)
Definition tb (t : list Z) (i : Z) : Z := nth (Z.to_nat i) t 0.
(* u32 << n *)
Definition shl32 (x n : Z) : Z := Z.land (Z.shiftl x n) 4294967295.

(* aes.rs:215-225 *)
Definition rotl8 (x : Z) : Z := Z.lor (shl32 x 8) (Z.shiftr x 24).
Definition rotl16 (x : Z) : Z := Z.lor (shl32 x 16) (Z.shiftr x 16).
Definition rotl24 (x : Z) : Z := Z.lor (shl32 x 24) (Z.shiftr x 8).

(* aes.rs:227-229 pack; b has four entries *)
Definition pack (b : list Z) : Z :=
  Z.lor (Z.lor (Z.lor (shl32 (Z.land (nth 3 b 0) 255) 24) (shl32 (Z.land (nth 2 b 0) 255) 16))
               (shl32 (Z.land (nth 1 b 0) 255) 8)) (Z.land (nth 0 b 0) 255).
(* aes.rs:231-234 unpack *)
Definition unpack (a : Z) : list Z :=
  [Z.land a 255; Z.land (Z.shiftr a 8) 255; Z.land (Z.shiftr a 16) 255; Z.land (Z.shiftr a 24) 255].

(* aes.rs:236-245 bmul *)
Definition bmul (x y : Z) : Z :=
  if negb (x =? 0) && negb (y =? 0) then tb PTAB ((tb LTAB x + tb LTAB y) mod 255) else 0.
(* aes.rs:247-254 subbyte *)
Definition subbyte (a : Z) : Z := pack (map (tb FBSUB) (unpack a)).
(* aes.rs:256-261 product *)
Definition product (x y : Z) : Z :=
  let xb := unpack x in let yb := unpack y in
  Z.lxor (Z.lxor (Z.lxor (bmul (nth 0 xb 0) (nth 0 yb 0)) (bmul (nth 1 xb 0) (nth 1 yb 0)))
                 (bmul (nth 2 xb 0) (nth 2 yb 0))) (bmul (nth 3 xb 0) (nth 3 yb 0)).
(* aes.rs:263-275 invmixcol *)
Definition invmixcol (x : Z) : Z :=
  let m := pack INCO in
  let b3 := product m x in let m := rotl24 m in
  let b2 := product m x in let m := rotl24 m in
  let b1 := product m x in let m := rotl24 m in
  let b0 := product m x in
  pack [b0; b1; b2; b3].

(* aes.rs:277-282 increment *)
Fixpoint increment (chk : bool) (f : list Z) : option (list Z) :=
  match f with
  | [] => Some []
  | x :: r => if x =? 255 then if chk then None else r <- increment chk r ;; Some (0 :: r) else Some (x + 1 :: r)
  end.

(* aes.rs:204-211 *)
Record AES := mkAES { a_nk : nat; a_nr : nat; a_mode : nat; a_fkey : list Z; a_rkey : list Z; a_f : list Z }.
(* aes.rs:284-294 new *)
Definition aes_new : AES := mkAES 0 0 0 (repeat 0 60) (repeat 0 60) (repeat 0 16).
(* the register f replaced *)
Definition set_f (a : AES) (f : list Z) : AES := mkAES (a_nk a) (a_nr a) (a_mode a) (a_fkey a) (a_rkey a) f.

(* aes.rs:297-306 reset *)
Definition aes_reset (a : AES) (m : nat) (iv : option (list Z)) : AES :=
  mkAES (a_nk a) (a_nr a) m (a_fkey a) (a_rkey a)
    (if (m =? M_ECB)%nat then repeat 0 16 else match iv with Some x => x | None => repeat 0 16 end).

(* aes.rs:320-324: word i of the cipher key *)
Definition key_word (key : list Z) (i : nat) : option Z :=
  b0 <- getM key (4 * i) ;; b1 <- getM key (4 * i + 1) ;; b2 <- getM key (4 * i + 2) ;; b3 <- getM key (4 * i + 3) ;;
  Some (pack [b0; b1; b2; b3]).
(* aes.rs:330: the first word of a round of the key schedule *)
Definition sched_first (nk j k : nat) (fk : list Z) : option (list Z) :=
  x <- getM fk (j - nk) ;; y <- getM fk (j - 1) ;; c <- getM RCO k ;;
  setM fk j (Z.lxor (Z.lxor x (subbyte (rotl24 y))) c).
(* aes.rs:331-334: the other words *)
Definition sched_next (nk n j : nat) (fk : list Z) (i : nat) : option (list Z) :=
  if (n <=? i + j)%nat then Some fk else
  x <- getM fk (i + j - nk) ;; y <- getM fk (i + j - 1) ;; setM fk (i + j) (Z.lxor x y).
(* aes.rs:329-337: the loop `while j<n`, at most fuel rounds *)
Fixpoint sched (fuel nk n j k : nat) (fk : list Z) : option (list Z) :=
  if (j <? n)%nat then
    match fuel with
    | O => None
    | S g => fk <- sched_first nk j k fk ;; fk <- foldM (sched_next nk n j) (seq 1 (nk - 1)) fk ;; sched g nk n (j + nk) (S k) fk
    end
  else Some fk.
(* `for j in 0..4 {rk[d+j]=g(fk[s+j])}` *)
Definition copy4 (g : Z -> Z) (fk : list Z) (s d : nat) (rk : list Z) : option (list Z) :=
  foldM (fun rk j => x <- getM fk (s + j) ;; setM rk (d + j) (g x)) (seq 0 4) rk.
(* aes.rs:341-348: the decryption key; i runs over 4, 8, ... below n-4 *)
Definition dec_key (n : nat) (fk rk : list Z) : option (list Z) :=
  rk <- copy4 (fun x => x) fk 0 (n - 4) rk ;;
  rk <- foldM (fun rk i => copy4 invmixcol fk (4 * i) (n - 4 - 4 * i) rk) (seq 1 (n / 4 - 2)) rk ;;
  copy4 (fun x => x) fk (n - 4) 0 rk.
(* aes.rs:308-351 init *)
Definition aes_init (a : AES) (m nkey : nat) (key : list Z) (iv : option (list Z)) : option (bool * AES) :=
  let nk := (nkey / 4)%nat in
  if negb (nk =? 4)%nat && negb (nk =? 6)%nat && negb (nk =? 8)%nat then Some (false, a) else
  let nr := (6 + nk)%nat in
  let a := aes_reset (mkAES nk nr (a_mode a) (a_fkey a) (a_rkey a) (a_f a)) m iv in
  let n := (4 * (nr + 1))%nat in
  ck <- mapM (key_word key) (seq 0 nk) ;;
  fk <- foldM (fun fk i => x <- getM ck i ;; setM fk i x) (seq 0 nk) (a_fkey a) ;;
  fk <- sched n nk n nk 0 fk ;;
  rk <- dec_key n fk (a_rkey a) ;;
  Some (true, mkAES nk nr (a_mode a) fk rk (a_f a)).

(* aes.rs:353-357 getreg *)
Definition getreg (a : AES) : list Z := a_f a.

(* four words *)
Definition W4 : Type := (Z * Z * Z * Z)%type.
(* aes.rs:365-371 and 415-421: loading the block, and adding the first round key *)
Definition load (key buff : list Z) : option W4 :=
  k0 <- getM key 0 ;; k1 <- getM key 1 ;; k2 <- getM key 2 ;; k3 <- getM key 3 ;;
  Some (Z.lxor (pack (firstn 4 buff)) k0, Z.lxor (pack (firstn 4 (skipn 4 buff))) k1,
        Z.lxor (pack (firstn 4 (skipn 8 buff))) k2, Z.lxor (pack (firstn 4 (skipn 12 buff))) k3).
(* aes.rs:403-407 and 457-461: storing the block *)
Definition store (q : W4) : list Z := let '(a, b, c, d) := q in unpack a ++ unpack b ++ unpack c ++ unpack d.
(* aes.rs:377: one word of a round: key^T[a&0xff]^rotl8(T[(b>>8)&0xff])^rotl16(T[(c>>16)&0xff])^rotl24(T[(d>>24)&0xff]) *)
Definition qword (t : list Z) (key a b c d : Z) : Z :=
  Z.lxor (Z.lxor (Z.lxor (Z.lxor key (tb t (Z.land a 255))) (rotl8 (tb t (Z.land (Z.shiftr b 8) 255))))
    (rotl16 (tb t (Z.land (Z.shiftr c 16) 255)))) (rotl24 (tb t (Z.land (Z.shiftr d 24) 255))).
(* aes.rs:377-383 with FTABLE, 393-399 with FBSUB *)
Definition enc_round (t key : list Z) (k : nat) (p : W4) : option W4 :=
  let '(p0, p1, p2, p3) := p in
  k0 <- getM key k ;; k1 <- getM key (k + 1) ;; k2 <- getM key (k + 2) ;; k3 <- getM key (k + 3) ;;
  Some (qword t k0 p0 p1 p2 p3, qword t k1 p1 p2 p3 p0, qword t k2 p2 p3 p0 p1, qword t k3 p3 p0 p1 p2).
(* aes.rs:428-435 with RTABLE, 446-453 with RBSUB *)
Definition dec_round (t key : list Z) (k : nat) (p : W4) : option W4 :=
  let '(p0, p1, p2, p3) := p in
  k0 <- getM key k ;; k1 <- getM key (k + 1) ;; k2 <- getM key (k + 2) ;; k3 <- getM key (k + 3) ;;
  Some (qword t k0 p0 p3 p2 p1, qword t k1 p1 p0 p3 p2, qword t k2 p2 p1 p0 p3, qword t k3 p3 p2 p1 p0).
(* aes.rs:360-407 ecb_encrypt; the swap of p and q is left out, q is written before it is read *)
Definition ecb_encrypt (a : AES) (buff : list Z) : option (list Z) :=
  p <- load (a_fkey a) buff ;;
  p <- foldM (fun p r => enc_round FTABLE (a_fkey a) (4 * r) p) (seq 1 (a_nr a - 1)) p ;;
  q <- enc_round FBSUB (a_fkey a) (if (a_nr a =? 0)%nat then 4 else 4 * a_nr a) p ;;
  Some (store q).
(* aes.rs:410-461 ecb_decrypt *)
Definition ecb_decrypt (a : AES) (buff : list Z) : option (list Z) :=
  p <- load (a_rkey a) buff ;;
  p <- foldM (fun p r => dec_round RTABLE (a_rkey a) (4 * r) p) (seq 1 (a_nr a - 1)) p ;;
  q <- dec_round RBSUB (a_rkey a) (if (a_nr a =? 0)%nat then 4 else 4 * a_nr a) p ;;
  Some (store q).

(* `for j in 0..n {x[j]^=y[j]}` *)
Definition xor_n (n : nat) (x y : list Z) : list Z := map2 Z.lxor (firstn n x) (firstn n y) ++ skipn n x.
(* aes.rs:485, 547: the bytes that fall off *)
Definition fell (n : nat) (f : list Z) : Z := fold_left (fun v b => Z.lor (shl32 v 8) b) (firstn n f) 0.
(* aes.rs:464-521 encrypt: the cipher, the block and the returned value *)
Definition aes_encrypt (chk : bool) (a : AES) (buff : list Z) : option (AES * list Z * Z) :=
  let m := a_mode a in
  if (m =? M_ECB)%nat then b <- ecb_encrypt a buff ;; Some (a, b, 0)
  else if (m =? M_CBC)%nat then b <- ecb_encrypt a (xor_n 16 buff (a_f a)) ;; Some (set_f a b, b, 0)
  else if is_cfb m then
    let n := (m - M_CFB1 + 1)%nat in
    st <- ecb_encrypt a (a_f a) ;;
    let b := xor_n n buff st in
    Some (set_f a (skipn n (a_f a) ++ firstn n b), b, fell n (a_f a))
  else if is_ofb m then
    let n := (m - M_OFB1 + 1)%nat in
    st <- ecb_encrypt a (a_f a) ;; Some (set_f a st, xor_n n buff st, 0)
  else if is_ctr m then
    let n := (m - M_CTR1 + 1)%nat in
    st <- ecb_encrypt a (a_f a) ;; f <- increment chk (a_f a) ;; Some (set_f a f, xor_n n buff st, 0)
  else Some (a, buff, 0).
(* aes.rs:524-585 decrypt *)
Definition aes_decrypt (chk : bool) (a : AES) (buff : list Z) : option (AES * list Z * Z) :=
  let m := a_mode a in
  if (m =? M_ECB)%nat then b <- ecb_decrypt a buff ;; Some (a, b, 0)
  else if (m =? M_CBC)%nat then b <- ecb_decrypt a buff ;; Some (set_f a buff, xor_n 16 b (a_f a), 0)
  else if is_cfb m then
    let n := (m - M_CFB1 + 1)%nat in
    st <- ecb_encrypt a (a_f a) ;;
    Some (set_f a (skipn n (a_f a) ++ firstn n buff), xor_n n buff st, fell n (a_f a))
  else if is_ofb m then
    let n := (m - M_OFB1 + 1)%nat in
    st <- ecb_encrypt a (a_f a) ;; Some (set_f a st, xor_n n buff st, 0)
  else if is_ctr m then
    let n := (m - M_CTR1 + 1)%nat in
    st <- ecb_encrypt a (a_f a) ;; f <- increment chk (a_f a) ;; Some (set_f a f, xor_n n buff st, 0)
  else Some (a, buff, 0).
(* aes.rs:588-591 end *)
Definition aes_end (a : AES) : option AES :=
  let n := (4 * (a_nr a + 1))%nat in
  if (60 <? n)%nat then None else
  Some (mkAES (a_nk a) (a_nr a) (a_mode a) (repeat 0 n ++ skipn n (a_fkey a)) (repeat 0 n ++ skipn n (a_rkey a)) (repeat 0 16)).
