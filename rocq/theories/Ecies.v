(* Model of the AES part of amcl/src/bls381/ecdh.rs: CBC encryption with padding, and ECIES.
   The outer option is the panic monad; the inner one is the Rust Option. *)
From Verif Require Import Prim Rom Rand Aes Ecdh.

(* ecdh.rs:226-239: the loop over the full blocks of m; buff, i and the rest of m at its end *)
Fixpoint cbc_fill (fuel : nat) (chk : bool) (a : AES) (m buff c : list Z) : option (AES * list Z * nat * list Z) :=
  if (16 <=? length m)%nat then
    match fuel with
    | O => None
    | S g => '(a, b, _) <- aes_encrypt chk a (firstn 16 m) ;; cbc_fill g chk a (skipn 16 m) b (c ++ b)
    end
  else Some (a, m ++ skipn (length m) buff, length m, c).
(* ecdh.rs:210-252 cbc_iv0_encrypt; the result of init is not looked at *)
Definition cbc_iv0_encrypt (chk : bool) (k m : list Z) : option (list Z) :=
  '(_, a) <- aes_init aes_new M_CBC (length k) k None ;;
  '(a, buff, i, c) <- cbc_fill (S (length m)) chk a m (repeat 0 16) [] ;;
  let padlen := (16 - i)%nat in
  let buff := firstn i buff ++ repeat (Z.of_nat padlen) padlen in
  '(a, b, _) <- aes_encrypt chk a buff ;;
  _ <- aes_end a ;;
  Some (c ++ b).

(* ecdh.rs:272-286: the loop; c is the rest of the ciphertext, not empty.  At its end the
   last block, decrypted, and the index of the last byte read *)
Fixpoint cbc_drain (fuel : nat) (chk : bool) (a : AES) (c buff m : list Z) : option (AES * list Z * nat * list Z) :=
  if (16 <? length c)%nat then
    match fuel with
    | O => None
    | S g => '(a, b, _) <- aes_decrypt chk a (firstn 16 c) ;; cbc_drain g chk a (skipn 16 c) b (m ++ b)
    end
  else '(a, b, _) <- aes_decrypt chk a (c ++ skipn (length c) buff) ;; Some (a, b, (length c - 1)%nat, m).
(* ecdh.rs:255-307 cbc_iv0_decrypt *)
Definition cbc_iv0_decrypt (chk : bool) (k c : list Z) : option (option (list Z)) :=
  '(_, a) <- aes_init aes_new M_CBC (length k) k None ;;
  if (length c =? 0)%nat then Some None else
  '(a, buff, i, m) <- cbc_drain (S (length c)) chk a c (repeat 0 16) [] ;;
  _ <- aes_end a ;;
  let padlen := Z.to_nat (nth 15 buff 0) in
  let bad := negb (i =? 15)%nat || (padlen <? 1)%nat || (16 <? padlen)%nat ||
             ((2 <=? padlen)%nat && (padlen <=? 16)%nat && existsb (fun x => negb (x =? Z.of_nat padlen)) (skipn (16 - padlen) buff)) in
  Some (if bad then None else Some (m ++ repeat (nth i buff 0) (16 - padlen))).

(* ecdh.rs:513-518, 553-558: the 32 key bytes *)
Definition ecies_key (chk : bool) (sha : nat) (p1 v z : list Z) : option (list Z * list Z) :=
  if (length v <? 97)%nat then None else
  k <- kdf2 chk sha (firstn 97 v ++ z) (Some p1) 32 (repeat 0 32) ;;
  Some (firstn 16 k, skipn 16 k).
(* ecdh.rs:522-532, 564-574: the bytes the tag is taken of *)
Definition mac_input (c p2 : list Z) : list Z := c ++ p2 ++ inttobytes (Z.of_nat (length p2)) (repeat 0 8).
(* ecdh.rs:503-540 ecies_encrypt: the ciphertext, v, t and the generator *)
Definition ecies_encrypt (chk : bool) (sha : nat) (p1 p2 : list Z) (rng : RAND) (w m v t : list Z)
    : option (option (list Z) * list Z * list Z * option RAND) :=
  '(r, u, v, rng) <- key_pair_generate (Some rng) (repeat 0 48) v ;;
  if negb (r =? 0) then Some (None, v, t, rng) else
  '(r, z) <- ecpsvdp_dh u w (repeat 0 48) ;;
  if negb (r =? 0) then Some (None, v, t, rng) else
  '(k1, k2) <- ecies_key chk sha p1 v z ;;
  c <- cbc_iv0_encrypt chk k1 m ;;
  '(_, t) <- hmac chk sha (mac_input c p2) k2 (length t) t ;;
  Some (Some c, v, t, rng).
(* ecdh.rs:544-591 ecies_decrypt; c is restored before the function returns *)
Definition ecies_decrypt (chk : bool) (sha : nat) (p1 p2 v c t u : list Z) : option (option (list Z)) :=
  tag <- put (repeat 0 32) 0 t ;;
  '(r, z) <- ecpsvdp_dh u v (repeat 0 48) ;;
  if negb (r =? 0) then Some None else
  '(k1, k2) <- ecies_key chk sha p1 v z ;;
  m <- cbc_iv0_decrypt chk k1 c ;;
  match m with
  | None => Some None
  | Some m =>
      '(_, tag) <- hmac chk sha (mac_input c p2) k2 (length t) tag ;;
      Some (if forallb (fun ab => fst ab =? snd ab) (combine t (firstn (length t) tag)) then Some m else None)
  end.
