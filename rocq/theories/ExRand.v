(* Concrete cases for the theorems of PropsRand. *)
From Coq Require Import ZArith List Lia.
From Verif Require Import Prim Big Hash256 Rand Utils Api SpecBytes SpecSha SpecRand NumT HashP RandP.
Import ListNotations.
Open Scope Z_scope.

(* C40: "abc" in two chunks, against the digest in the standard's examples *)
Example ex_abc : Forall bytes [[97]; [98; 99]] /\ Z.of_nat (length (concat [[97]; [98; 99]])) < 2 ^ 29 - 8 /\
  sha256 (concat [[97]; [98; 99]]) = be_bytes 32 0xba7816bf8f01cfea414140de5dae2223b00361a396177a9cb410ff61f20015ad.
Proof. split; [repeat constructor; lia|]. split; [reflexivity|]. vm_compute. reflexivity. Qed.
(* a message of 56 bytes, where the padding needs a second block *)
Example ex_two_blocks : sha256 (be_bytes 56 0x6162636462636465636465666465666765666768666768696768696a68696a6b696a6b6c6a6b6c6d6b6c6d6e6c6d6e6f6d6e6f706e6f7071) =
  be_bytes 32 0x248d6a61d20638b8e5c026930c3e6039a33ce45964ff2167f6ecedd419db06c1.
Proof. vm_compute. reflexivity. Qed.
(* C40: a negative i32 *)
Example ex_num : - 2 ^ 31 <= -2 < 2 ^ 31 /\ be_bytes 4 (-2 mod 2 ^ 32) = [255; 255; 255; 254].
Proof. split; [lia|reflexivity]. Qed.

(* C38, C54: the entropy 0, 1, ..., 255 *)
Definition entropy : list Z := map Z.of_nat (seq 0 256).
Example ex_entropy : bytes entropy /\ length entropy = 256%nat /\
  (sk <- sk_random entropy ;; sk_as_bytes sk) = Some (be_bytes 48 0x1119c7ca0da8345d7388344201cc5d45c609112bb62908674c2c0752bb02dc36).
Proof.
  split; [|split; [reflexivity|vm_compute; reflexivity]].
  apply Forall_forall. intros x X. apply in_map_iff in X. destruct X as (i & <- & I). apply in_seq in I. lia.
Qed.
(* C39, C53: a seed of one byte, on a generator in no particular state *)
Example ex_seed : bytes [7] /\ (0 < length [7])%nat /\ Z.of_nat (length [7]) < 2 ^ 29 - 8 /\
  exists r1 r2, rand_seed (mkRAND [1; 2; 3] 99 5 77 [8]) 1 [7] = Some r1 /\ getbytes 100 r1 = Some (map (rand_stream [7]) (seq 0 100), r2).
Proof.
  assert (B : bytes [7]) by (repeat constructor; lia). split; [exact B|]. split; [cbn [length]; lia|]. split; [reflexivity|].
  apply (rand_total (mkRAND [1; 2; 3] 99 5 77 [8]) [7] 100 B); [cbn [length]; lia|reflexivity].
Qed.
