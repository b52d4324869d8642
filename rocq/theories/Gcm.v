(* Model of amcl/src/gcm.rs.  A u32 is a Z in [0, 2^32), a u8 a Z in [0, 256).  `chk` says
   whether u32 addition is checked for overflow.  hex2bytes is left out: no function here
   calls it. *)
From Verif Require Import Prim Aes.

(* gcm.rs:21-24 *)
Definition G_HEADER : nat := 0.
Definition G_CIPHER : nat := 1.
Definition G_NOMORE : nat := 2.
Definition G_FINISHED : nat := 3.

(* gcm.rs:29-38; the two words of lena and of lenc are pairs, higher word first *)
Record GCM := mkGCM { g_tab : list (list Z); g_x : list Z; g_y0 : list Z; g_lena : Z * Z; g_lenc : Z * Z; g_status : nat; g_a : AES }.

(* gcm.rs:42-44 pack; b has four entries *)
Definition gpack (b : list Z) : Z :=
  Z.lor (Z.lor (Z.lor (shl32 (Z.land (nth 0 b 0) 255) 24) (shl32 (Z.land (nth 1 b 0) 255) 16))
               (shl32 (Z.land (nth 2 b 0) 255) 8)) (Z.land (nth 3 b 0) 255).
(* gcm.rs:46-49 unpack *)
Definition gunpack (a : Z) : list Z :=
  [Z.land (Z.shiftr a 24) 255; Z.land (Z.shiftr a 16) 255; Z.land (Z.shiftr a 8) 255; Z.land a 255].
(* u32 + 1 *)
Definition inc32 (chk : bool) (x : Z) : option Z :=
  if x + 1 =? 4294967296 then if chk then None else Some 0 else Some (x + 1).

(* gcm.rs:60-61: the words of row i from those of row i-1; c comes in from the left *)
Fixpoint row_shift (c : Z) (r : list Z) : list Z * Z :=
  match r with
  | [] => ([], c)
  | t :: r' => let '(s, c') := row_shift (shl32 t 31) r' in (Z.lor c (Z.shiftr t 1) :: s, c')
  end.
(* gcm.rs:60-62 *)
Definition row_next (r : list Z) : list Z :=
  let '(s, c) := row_shift 0 r in
  if c =? 0 then s else upd s 0 (Z.lxor (nth 0 s 0) 3774873600).
(* gcm.rs:59-63: n rows from row r on *)
Fixpoint rows (n : nat) (r : list Z) : list (list Z) :=
  match n with O => [] | S n' => r :: rows n' (row_next r) end.
(* gcm.rs:51-64 precompute; h has 16 entries *)
Definition gcm_precompute (h : list Z) : list (list Z) :=
  rows 128 [gpack h; gpack (skipn 4 h); gpack (skipn 8 h); gpack (skipn 12 h)].

(* gcm.rs:74: bit i of x, and the mask made of it *)
Definition gbit (x : list Z) (i : nat) : Z := Z.land (Z.shiftr (nth (i / 8) x 0) (7 - Z.of_nat (i mod 8))) 1.
Definition gmask (chk : bool) (c : Z) : option Z := inc32 chk (4294967295 - c).
(* gcm.rs:72-80, one round *)
Definition gf2_step (chk : bool) (tab : list (list Z)) (x p : list Z) (i : nat) : option (list Z) :=
  c <- gmask chk (gbit x i) ;;
  t <- getM tab i ;;
  Some (map2 (fun a b => Z.lxor a (Z.land b c)) p t).
(* gcm.rs:66-87 gf2mul: the new statex *)
Definition gf2mul (chk : bool) (tab : list (list Z)) (x : list Z) : option (list Z) :=
  p <- foldM (gf2_step chk tab x) (seq 0 128) (repeat 0 4) ;;
  Some (concat (map gunpack p)).

(* gcm.rs:94-97: a length in bits, two words *)
Definition len_words (l : Z * Z) : list Z :=
  let '(l0, l1) := l in [Z.lor (shl32 l0 3) (Z.shiftr (Z.land l1 3758096384) 29); shl32 l1 3].
(* gcm.rs:89-106 wrap: the new statex *)
Definition gcm_wrap (chk : bool) (g : GCM) : option (list Z) :=
  let el := concat (map gunpack (len_words (g_lena g) ++ len_words (g_lenc g))) in
  gf2mul chk (g_tab g) (xor_n 16 (g_x g) el).

(* gcm.rs:117, 174, 205, 237: one byte counted *)
Definition len_inc (chk : bool) (l : Z * Z) : option (Z * Z) :=
  let '(l0, l1) := l in
  l1 <- inc32 chk l1 ;; l0 <- (if l1 =? 0 then inc32 chk l0 else Some l0) ;; Some (l0, l1).
Fixpoint len_add (chk : bool) (n : nat) (l : Z * Z) : option (Z * Z) :=
  match n with O => Some l | S n' => l <- len_inc chk l ;; len_add chk n' l end.
(* gcm.rs:112-120, 169-177: the loop over the blocks of b; statex and the length *)
Fixpoint absorb (fuel : nat) (chk : bool) (tab : list (list Z)) (b : list Z) (x : list Z) (l : Z * Z) : option (list Z * (Z * Z)) :=
  match b with
  | [] => Some (x, l)
  | _ => match fuel with
         | O => None
         | S f =>
             let n := Nat.min 16 (length b) in
             l <- len_add chk n l ;;
             x <- gf2mul chk tab (xor_n n x b) ;;
             absorb f chk tab (skipn 16 b) x l
         end
  end.
(* gcm.rs:109-110, 188-189, 220-221: the state in which data is taken *)
Definition st_cipher (s : nat) : nat := if (s =? G_HEADER)%nat then G_CIPHER else s.
(* gcm.rs:108-123 ghash; plain[j] panics for j at or above the length of plain *)
Definition gcm_ghash (chk : bool) (g : GCM) (plain : list Z) (len : nat) : option (bool * GCM) :=
  let s := st_cipher (g_status g) in
  let g := mkGCM (g_tab g) (g_x g) (g_y0 g) (g_lena g) (g_lenc g) s (g_a g) in
  if negb (s =? G_CIPHER)%nat then Some (false, g) else
  if (length plain <? len)%nat then None else
  '(x, l) <- absorb len chk (g_tab g) (firstn len plain) (g_x g) (g_lenc g) ;;
  Some (true, mkGCM (g_tab g) x (g_y0 g) (g_lena g) l (if (len mod 16 =? 0)%nat then s else G_NOMORE) (g_a g)).

(* gcm.rs:153-164 new *)
Definition gcm_new : GCM := mkGCM (repeat (repeat 0 4) 128) (repeat 0 16) (repeat 0 16) (0, 0) (0, 0) 0 aes_new.
(* gcm.rs:126-151 init; the result of AES::init is not looked at *)
Definition gcm_init (chk : bool) (g : GCM) (nk : nat) (key : list Z) (niv : nat) (iv : list Z) : option GCM :=
  '(_, a) <- aes_init aes_new M_ECB nk key None ;;
  h <- ecb_encrypt a (repeat 0 16) ;;
  let tab := gcm_precompute h in
  if (niv =? 12)%nat then
    if (length iv <? 12)%nat then None else
    let f := firstn 12 iv ++ gunpack 1 in
    Some (mkGCM tab (repeat 0 16) f (0, 0) (0, 0) G_HEADER (set_f a f))
  else
    '(_, g) <- gcm_ghash chk (mkGCM tab (repeat 0 16) (g_y0 g) (0, 0) (0, 0) G_CIPHER a) iv niv ;;
    x <- gcm_wrap chk g ;;
    Some (mkGCM tab (repeat 0 16) x (0, 0) (0, 0) G_HEADER (set_f a x)).

(* gcm.rs:167-180 add_header *)
Definition add_header (chk : bool) (g : GCM) (header : list Z) (len : nat) : option (bool * GCM) :=
  if negb (g_status g =? G_HEADER)%nat then Some (false, g) else
  if (length header <? len)%nat then None else
  '(x, l) <- absorb len chk (g_tab g) (firstn len header) (g_x g) (g_lena g) ;;
  Some (true, mkGCM (g_tab g) x (g_y0 g) l (g_lenc g) (if (len mod 16 =? 0)%nat then g_status g else G_CIPHER) (g_a g)).

(* gcm.rs:193-197, 225-229: the counter block moved on *)
Definition ctr_next (chk : bool) (f : list Z) : option (list Z) :=
  c <- inc32 chk (gpack (skipn 12 f)) ;; Some (firstn 12 f ++ gunpack c).
(* gcm.rs:192-208, 224-240: the loop.  enc tells add_plain from add_cipher: statex takes in
   the bytes written or the bytes read *)
Fixpoint crypt (fuel : nat) (enc chk : bool) (tab : list (list Z)) (a : AES) (b out x : list Z) (l : Z * Z) : option (AES * list Z * list Z * (Z * Z)) :=
  match b with
  | [] => Some (a, out, x, l)
  | _ => match fuel with
         | O => None
         | S f =>
             c <- ctr_next chk (a_f a) ;;
             let a := set_f a c in
             cb <- ecb_encrypt a c ;;
             let n := Nat.min 16 (length b) in
             let o := map2 Z.lxor (firstn n b) cb in
             l <- len_add chk n l ;;
             x <- gf2mul chk tab (xor_n n x (if enc then o else b)) ;;
             crypt f enc chk tab a (skipn 16 b) (out ++ o) x l
         end
  end.
(* gcm.rs:183-211 add_plain and 214-243 add_cipher: the flag, the array written and the state *)
Definition add_data (enc chk : bool) (g : GCM) (dst src : list Z) (len : nat) : option (bool * list Z * GCM) :=
  let s := st_cipher (g_status g) in
  let g := mkGCM (g_tab g) (g_x g) (g_y0 g) (g_lena g) (g_lenc g) s (g_a g) in
  if negb (s =? G_CIPHER)%nat then Some (false, dst, g) else
  if (length src <? len)%nat || (length dst <? len)%nat then None else
  '(a, o, x, l) <- crypt len enc chk (g_tab g) (g_a g) (firstn len src) [] (g_x g) (g_lenc g) ;;
  Some (true, o ++ skipn len dst, mkGCM (g_tab g) x (g_y0 g) (g_lena g) l (if (len mod 16 =? 0)%nat then s else G_NOMORE) a).
(* gcm.rs:183-211 add_plain *)
Definition add_plain (chk : bool) (g : GCM) (cipher plain : list Z) (len : nat) : option (bool * list Z * GCM) := add_data true chk g cipher plain len.
(* gcm.rs:214-243 add_cipher *)
Definition add_cipher (chk : bool) (g : GCM) (plain cipher : list Z) (len : nat) : option (bool * list Z * GCM) := add_data false chk g plain cipher len.

(* gcm.rs:246-259 finish *)
Definition gcm_finish (chk : bool) (g : GCM) (extract : bool) : option (list Z * GCM) :=
  x <- gcm_wrap chk g ;;
  '(tag, y0, x) <- (if extract then e <- ecb_encrypt (g_a g) (g_y0 g) ;; Some (map2 Z.lxor e x, repeat 0 16, repeat 0 16)
                    else Some (repeat 0 16, g_y0 g, x)) ;;
  a <- aes_end (g_a g) ;;
  Some (tag, mkGCM (g_tab g) x y0 (g_lena g) (g_lenc g) G_FINISHED a).

(* The calls of gcm.rs:325-329, 339-343 (a commented-out main), with the header and the data in
   pieces, each written to an array of its own length; the flags returned are conjoined *)
Fixpoint add_headers (chk : bool) (g : GCM) (hs : list (list Z)) : option (bool * GCM) :=
  match hs with
  | [] => Some (true, g)
  | h :: r => '(f, g) <- add_header chk g h (length h) ;; '(f', g) <- add_headers chk g r ;; Some (f && f', g)
  end.
Fixpoint add_pieces (enc chk : bool) (g : GCM) (ps : list (list Z)) : option (bool * list Z * GCM) :=
  match ps with
  | [] => Some (true, [], g)
  | p :: r =>
      '(f, c, g) <- (if enc then add_plain else add_cipher) chk g (repeat 0 (length p)) p (length p) ;;
      '(f', c', g) <- add_pieces enc chk g r ;; Some (f && f', c ++ c', g)
  end.
Definition gcm_run (enc chk : bool) (g : GCM) (key iv : list Z) (hs ps : list (list Z)) : option (bool * list Z * list Z) :=
  g <- gcm_init chk g (length key) key (length iv) iv ;;
  '(f, g) <- add_headers chk g hs ;;
  '(f', c, g) <- add_pieces enc chk g ps ;;
  '(t, _) <- gcm_finish chk g true ;;
  Some (f && f', c, t).
