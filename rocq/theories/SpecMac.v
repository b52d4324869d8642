(* Specification: HMAC (RFC 2104), key derivation (ISO 18033-2 KDF1 and KDF2) and PBKDF2
   (RFC 8018), over SHA-256, SHA-384 and SHA-512. *)
From Coq Require Import ZArith List.
From Verif Require Import SpecBytes SpecSha SpecSha5.
Import ListNotations.
Open Scope Z_scope.

(* the hash function with a digest of n bytes *)
Definition hfun (n : nat) : list Z -> list Z := if (n =? 32)%nat then sha256 else if (n =? 48)%nat then sha384 else sha512.
Definition is_sha (n : nat) : Prop := n = 32%nat \/ n = 48%nat \/ n = 64%nat.
(* its block length in bytes *)
Definition hblock (n : nat) : nat := if (n =? 32)%nat then 64%nat else 128%nat.

(* RFC 2104, section 2: ipad = 0x36 repeated, opad = 0x5C repeated *)
Definition mac_key (n : nat) (k : list Z) : list Z :=
  let k' := if (hblock n <? length k)%nat then hfun n k else k in
  k' ++ repeat 0 (hblock n - length k').
Definition HMAC (n : nat) (k m : list Z) : list Z :=
  hfun n (map (fun x => Z.lxor x 92) (mac_key n k) ++ hfun n (map (fun x => Z.lxor x 54) (mac_key n k) ++ m)).
(* a string cut, or extended by zeros on the left, to l bytes *)
Definition fit (l : nat) (h : list Z) : list Z :=
  if (l <=? length h)%nat then firstn l h else repeat 0 (l - length h) ++ h.

(* the blocks hash(z || counter || p) *)
Definition kdf_block (n : nat) (z p : list Z) (i : nat) : list Z := hfun n (z ++ be_bytes 4 (Z.of_nat i) ++ p).
Definition KDF (n : nat) (z p : list Z) (first olen : nat) : list Z :=
  firstn olen (concat (map (kdf_block n z p) (seq first (olen / n + 1)))).

(* RFC 8018, section 5.2 *)
Fixpoint xors (a b : list Z) : list Z :=
  match a, b with
  | x :: a', y :: b' => Z.lxor x y :: xors a' b'
  | _, _ => []
  end.
Fixpoint pbk_more (n : nat) (pass : list Z) (c : nat) (t u : list Z) : list Z :=
  match c with
  | O => t
  | S c' => let u' := HMAC n pass u in pbk_more n pass c' (xors t u') u'
  end.
Definition pbk_T (n : nat) (pass salt : list Z) (c i : nat) : list Z :=
  let u1 := HMAC n pass (salt ++ be_bytes 4 (Z.of_nat i)) in pbk_more n pass (c - 1) u1 u1.
Definition PBKDF2 (n : nat) (pass salt : list Z) (c olen : nat) : list Z :=
  firstn olen (concat (map (pbk_T n pass salt c) (seq 1 (olen / n + 1)))).
