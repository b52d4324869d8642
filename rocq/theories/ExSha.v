(* Concrete cases meeting the hypotheses of the theorems in PropsInv and PropsSha. *)
From Coq Require Import ZArith List Bool Lia Znumtheory.
From Verif Require Import Prim PrimP Rom Big BigX BigP BigP2 NumT SpecBytes SpecSha5 Hash512 RandP FpP InvP HashQ.
Import ListNotations.
Open Scope Z_scope.

(* the inverse of 2 modulo the order of the groups *)
Example ex_inverse : rep 7 (2 :: repeat 0 6) 2 /\ rep 7 CURVE_ORDER r255 /\ 1 < r255 < 2 ^ 405 /\ r255 mod 2 = 1 /\ Z.gcd 2 r255 = 1.
Proof.
  split; [apply (rep_small 2); lia|]. split; [exact order_rep|]. split; [split; vm_compute; reflexivity|]. split; vm_compute; reflexivity.
Qed.
Example ex_inverse_value : exists c, big_invmodp (2 :: repeat 0 6) CURVE_ORDER = Some c /\ rep 7 c ((r255 + 1) / 2).
Proof.
  destruct ex_inverse as (A & P & B & O & G). destruct (invmodp_spec _ _ _ _ A P B O G) as (c & z & E & R & Z & M).
  exists c. split; [exact E|]. replace ((r255 + 1) / 2) with z; [exact R|]. revert B O Z M. generalize r255. clear. intros p B O Z M.
  pose proof (Z.div_mod (2 * z) p ltac:(lia)). pose proof (Z.div_mod p 2 ltac:(lia)). rewrite M in H.
  assert (2 * z / p < 2) by (apply Z.div_lt_upper_bound; lia). assert (0 <= 2 * z / p) by (apply Z.div_pos; lia).
  assert (2 * z / p = 1) by nia. rewrite H3 in H. apply (Z.div_unique (p + 1) 2 z 0); lia.
Qed.
(* 3 has no inverse modulo 9 *)
Example ex_not_coprime : rep 7 (3 :: repeat 0 6) 3 /\ rep 7 (9 :: repeat 0 6) 9 /\ 1 < 9 < 2 ^ 405 /\ 9 mod 2 = 1 /\ Z.gcd 3 9 <> 1.
Proof. split; [apply (rep_small 3); lia|]. split; [apply (rep_small 9); lia|]. split; [lia|]. split; [reflexivity|]. vm_compute. discriminate. Qed.
(* 3^200 modulo 1000 *)
Example ex_powmod : exists c, big_powmod (3 :: repeat 0 6) (200 :: repeat 0 6) (1000 :: repeat 0 6) = Some c /\ rep 7 c 1.
Proof.
  destruct (powmod_spec (3 :: repeat 0 6) (200 :: repeat 0 6) (1000 :: repeat 0 6) 3 200 1000) as (c & E & R); [apply (rep_small 3); lia|apply (rep_small 200); lia|apply (rep_small 1000); lia|lia|].
  exists c. split; [exact E|]. change 1 with (3 ^ 200 mod 1000). exact R.
Qed.
Example ex_powmod_one : exists c, big_powmod (3 :: repeat 0 6) (0 :: repeat 0 6) (1 :: repeat 0 6) = Some c /\ rep 7 c 1.
Proof. apply (powmod_one _ _ _ 3); [apply (rep_small 3); lia|apply (rep_small 0); lia]. Qed.

(* "abc", the example of FIPS 180-4, given in two pieces *)
Definition abc : list (list Z) := [[97; 98]; [99]].
Example ex_abc : Forall bytes abc /\ small true (Z.of_nat (length (concat abc))).
Proof. split; [repeat constructor; lia|]. cbn. lia. Qed.
Example ex_sha512 : (s <- foldM (q_process_array false true) abc (q_new HASH512_H) ;; q_hash false true HASH512_H 64 s) = Some (sha512 [97; 98; 99], q_new HASH512_H).
Proof. exact (sha512_ok true abc (proj1 ex_abc) (proj2 ex_abc)). Qed.
Example ex_sha512_value : sha512 [97; 98; 99] =
  [221;175;53;161;147;97;122;186;204;65;115;73;174;32;65;49;18;230;250;78;137;169;126;162;10;158;238;230;75;85;211;154;33;146;153;42;39;79;193;168;54;186;60;35;163;254;235;189;69;77;68;35;100;60;232;14;42;154;201;79;165;76;164;159].
Proof. vm_compute. reflexivity. Qed.
Example ex_sha384 : (s <- foldM (q_process_array false false) abc (q_new HASH384_H) ;; q_hash false false HASH384_H 48 s) = Some (sha384 [97; 98; 99], q_new HASH384_H).
Proof. exact (sha384_release abc (proj1 ex_abc)). Qed.
Example ex_sha384_value : sha384 [97; 98; 99] =
  [203;0;117;63;69;163;94;139;181;160;61;105;154;198;80;7;39;44;50;171;14;222;209;99;26;139;96;90;67;255;91;237;128;134;7;43;161;231;204;35;88;186;236;161;52;200;37;167].
Proof. vm_compute. reflexivity. Qed.
