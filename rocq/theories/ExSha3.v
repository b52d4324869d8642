(* Concrete cases meeting the hypotheses of the theorems in PropsSha3. *)
From Coq Require Import Lia.
From Verif Require Import Prim SpecBytes SpecSha3 Sha3 Sha3P Sha3Q.

(* SHA3-256 of "abc" as published by NIST; the array has one byte more than the digest *)
Definition abc : list Z := [97; 98; 99].
Definition abc_digest : list Z := be_bytes 32 0x3a985da74fe225b2045c172d6bd390bd855f086e3e9d525b46bfe24511431532.
Lemma abc_bytes : bytes abc. Proof. repeat (constructor; [lia|]). constructor. Qed.
Lemma run_abc : sha3_run 32 abc (repeat 0 33) = Some (abc_digest ++ [0]). Proof. vm_compute. reflexivity. Qed.
Example ex_abc : SHA3_hash 32 abc = abc_digest.
Proof.
  destruct (sha3_hashes 32 abc (repeat 0 33) ltac:(lia) abc_bytes ltac:(cbn; lia) ltac:(cbn; lia)) as [E _]. rewrite run_abc in E.
  change (skipn 32 (repeat 0 33)) with [0] in E. assert (G : forall a b : list Z, Some (a ++ [0]) = Some (b ++ [0]) -> b = a) by (intros a b H; injection H as H; exact (eq_sym (proj1 (app_inj_tail a b 0 0 H)))).
  exact (G _ _ E).
Qed.
(* 200 bytes of SHAKE128 take two blocks *)
Example ex_shake : exists d, shake_run 16 abc (repeat 0 210) 200 = Some (d ++ repeat 0 10) /\ d = SHAKE 16 abc 200 /\ length d = 200%nat.
Proof. destruct (shake_runs 16 abc (repeat 0 210) 200 ltac:(lia) abc_bytes ltac:(cbn; lia) ltac:(cbn; lia)) as [E L]. eexists. split; [exact E|]. split; [reflexivity|exact L]. Qed.
Example ex_zero : shake_run 32 abc [7; 7] 0 = Some (SHAKE 32 abc 1 ++ [7]).
Proof. exact (proj1 (shake_zero 32 abc 7 [7] ltac:(lia) abc_bytes ltac:(cbn; lia))). Qed.
Example ex_again : sha3_twice 64 abc [] (repeat 0 64) = Some (SHA3_hash 64 (abc ++ padding 72 6 3 ++ []) ++ []).
Proof. exact (sha3_again 64 abc [] (repeat 0 64) ltac:(lia) abc_bytes (Forall_nil _) ltac:(cbn; lia) ltac:(cbn; lia)). Qed.
Example ex_long : sha3_run 100 abc [] = None. Proof. apply sha3_long. lia. Qed.
(* Keccak-f of the zero state *)
Example ex_zero_state : nth 0 (keccak_f (repeat 0 25)) 0 = 0xF1258F7940E1DDE7.
Proof.
  destruct (transform_keccak (repeat 0 25) eq_refl (proj2 zero25)) as [E _]. apply (f_equal (fun s => ix s 0 0)) in E.
  change (ix (unflat (keccak_f (repeat 0 25))) 0 0) with (nth 0 (keccak_f (repeat 0 25)) 0) in E. rewrite <- E. vm_compute. reflexivity.
Qed.
