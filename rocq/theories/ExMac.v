(* Concrete cases meeting the hypotheses of the theorems in PropsMac. *)
From Coq Require Import ZArith List Bool Lia.
From Verif Require Import Prim SpecBytes SpecSha SpecSha5 SpecMac Ecdh EcdhH EcdhK.
Import ListNotations.
Open Scope Z_scope.

Lemma by1 : forall v, 0 <= v < 256 -> bytes [v]. Proof. intros v V. constructor; [exact V|constructor]. Qed.
(* RFC 4231, test case 2: key "Jefe" *)
Definition jefe : list Z := [74; 101; 102; 101].
Definition what : list Z := [119;104;97;116;32;100;111;32;121;97;32;119;97;110;116;32;102;111;114;32;110;111;116;104;105;110;103;63].
Lemma jefe_bytes : bytes jefe /\ bytes what. Proof. split; repeat (constructor; [lia|]); constructor. Qed.
Lemma small32 n : (n < 1000)%nat -> noov true 32 n. Proof. intros N. right. left. split; [reflexivity|lia]. Qed.
Example ex_hmac_value : HMAC 32 jefe what =
  [91;220;193;70;191;96;117;78;106;4;36;38;8;149;117;199;90;0;63;8;157;39;57;131;157;236;88;185;100;236;56;67].
Proof. vm_compute. reflexivity. Qed.
Example ex_hmac : hmac true 32 what jefe 32 (repeat 0 40) = Some (true, HMAC 32 jefe what ++ repeat 0 8).
Proof.
  rewrite (hmac_ok true 32 what jefe 32 (repeat 0 40) (or_introl eq_refl) (proj2 jefe_bytes) (proj1 jefe_bytes)); [rewrite fit_all by (apply HMAC_len; [left; reflexivity|apply jefe_bytes|apply jefe_bytes]); reflexivity|rewrite repeat_length; lia|apply small32; cbn [length what jefe]; lia].
Qed.
(* a tag longer than the digest is filled with zeros on the left, a shorter one cut *)
Example ex_hmac_long : hmac true 32 what jefe 40 (repeat 7 40) = Some (true, repeat 0 8 ++ HMAC 32 jefe what).
Proof.
  rewrite (hmac_ok true 32 what jefe 40 (repeat 7 40) (or_introl eq_refl) (proj2 jefe_bytes) (proj1 jefe_bytes)); [|rewrite repeat_length; lia|apply small32; cbn [length what jefe]; lia].
  unfold fit. rewrite (proj1 (HMAC_len 32 jefe what (or_introl eq_refl) (proj1 jefe_bytes) (proj2 jefe_bytes))). cbn [Nat.leb Nat.sub]. rewrite (skipn_all2 (repeat 7 40)) by (rewrite repeat_length; lia). rewrite app_nil_r. reflexivity.
Qed.
Example ex_hmac_short : hmac true 32 what jefe 3 (repeat 7 3) = Some (false, repeat 7 3).
Proof. apply hmac_short. lia. Qed.
(* 40 bytes of key from KDF2, two blocks *)
Example ex_kdf2 : kdf2 true 32 [1] (Some [2]) 40 (repeat 0 40) = Some (KDF 32 [1] [2] 1 40 ++ skipn 40 (repeat 0 40)).
Proof. apply (kdf2_ok true 32 [1] (Some [2]) 40 (repeat 0 40)); [left; reflexivity|apply by1; lia|apply by1; lia|apply small32; cbn; lia|rewrite repeat_length; lia]. Qed.
Example ex_kdf2_value : KDF 32 [1] [2] 1 40 = sha256 [1; 0; 0; 0; 1; 2] ++ firstn 8 (sha256 [1; 0; 0; 0; 2; 2]).
Proof. unfold KDF, kdf_block. change (hfun 32) with sha256. vm_compute. reflexivity. Qed.
Example ex_kdf1 : kdf1 true 32 [1] 20 (repeat 0 20) = Some (firstn 20 (hfun 32 [1]) ++ skipn 20 (repeat 0 20)).
Proof. apply (kdf1_short true 32 [1] 20 (repeat 0 20)); [left; reflexivity|apply by1; lia|apply small32; cbn; lia|rewrite repeat_length; lia|lia]. Qed.
(* PBKDF2 with SHA-512, three repetitions *)
Example ex_pbkdf2 : pbkdf2 true 64 [1] [2] 3 16 (repeat 0 16) = Some (PBKDF2 64 [1] [2] 3 16 ++ skipn 16 (repeat 0 16)).
Proof. apply (pbkdf2_right true 64 [1] [2] 3 16 (repeat 0 16)); [right; right; reflexivity|apply by1; lia|apply by1; lia|cbn; lia|right; right; split; [reflexivity|cbn [length]; lia]|rewrite repeat_length; lia|lia|left; lia]. Qed.
Example ex_pbkdf2_salt : pbkdf2 true 32 [1] (repeat 2 33) 1 16 (repeat 0 16) = None.
Proof. apply pbkdf2_salt; [left; reflexivity|rewrite repeat_length; lia|lia]. Qed.
