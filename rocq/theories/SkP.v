(* Secret key codec lemmas (C01-C03, C44). *)
From Coq Require Import Lia ZifyBool.
From Verif Require Import Prim PrimP Rom Big BigP BigP2 BigP3 SpecBytes Utils Api.

Lemma list_eqb_spec a b : list_eqb a b = true <-> a = b.
Proof.
  unfold list_eqb. revert b. induction a as [|x a IH]; destruct b as [|y b]; cbn [length combine forallb].
  - split; auto.
  - split; intros H; discriminate H.
  - split; intros H; discriminate H.
  - specialize (IH b). cbn [Nat.eqb fst snd]. rewrite andb_true_iff in *. rewrite andb_true_iff.
    split.
    + intros (H1 & H2 & H3). f_equal; [lia|]. apply IH. auto.
    + intros E. injection E as -> ->. destruct IH as [_ IH]. specialize (IH eq_refl).
      rewrite Z.eqb_refl. tauto.
Qed.

Lemma sk_from_bytes_ok b : bytes b -> length b = 48%nat ->
  exists sk, sk_from_bytes b = Some (Ok sk) /\ rep 7 sk (be_int b).
Proof.
  intros B L. unfold sk_from_bytes. rewrite L. cbn [Nat.eqb negb].
  pose proof (big_frombytes_spec b B ltac:(lia)) as H. rewrite firstn_all2 in H by lia.
  destruct (big_frombytes b) as [x|]; [|contradiction]. cbn [ok bind] in *. eauto.
Qed.

Lemma sk_as_bytes_rep sk v : rep 7 sk v -> sk_as_bytes sk = Some (be_bytes 48 v).
Proof. apply big_tobytes_rep. Qed.

Lemma sk_round_trip b : bytes b -> length b = 48%nat ->
  exists sk, sk_from_bytes b = Some (Ok sk) /\ sk_as_bytes sk = Some b.
Proof.
  intros B L. destruct (sk_from_bytes_ok b B L) as (sk & E & R). exists sk. split; auto.
  rewrite (sk_as_bytes_rep _ _ R). f_equal. rewrite <- L. apply be_bytes_int; auto.
Qed.

Lemma sk_length_check b : bytes b ->
  (length b <> 48%nat -> sk_from_bytes b = Some (Err IncorrectSize)) /\
  (length b = 48%nat -> exists sk, sk_from_bytes b = Some (Ok sk)).
Proof.
  intros B. split; intros L.
  - unfold sk_from_bytes. destruct (Nat.eqb_spec (length b) 48); [contradiction|reflexivity].
  - destruct (sk_from_bytes_ok b B L) as (sk & E & _). eauto.
Qed.

Lemma sk_equality a b ska skb : bytes a -> bytes b ->
  sk_from_bytes a = Some (Ok ska) -> sk_from_bytes b = Some (Ok skb) ->
  exists r, sk_eq ska skb = Some r /\ (r = true <-> a = b).
Proof.
  intros Ba Bb Ea Eb.
  assert (La : length a = 48%nat).
  { destruct (Nat.eq_dec (length a) 48) as [|N]; auto.
    rewrite (proj1 (sk_length_check a Ba) N) in Ea. discriminate. }
  assert (Lb : length b = 48%nat).
  { destruct (Nat.eq_dec (length b) 48) as [|N]; auto.
    rewrite (proj1 (sk_length_check b Bb) N) in Eb. discriminate. }
  destruct (sk_round_trip a Ba La) as (sa & Ea' & Ra). rewrite Ea in Ea'. injection Ea' as <-.
  destruct (sk_round_trip b Bb Lb) as (sb & Eb' & Rb). rewrite Eb in Eb'. injection Eb' as <-.
  exists (list_eqb a b). unfold sk_eq. rewrite Ra, Rb. cbn [bind]. split; auto. apply list_eqb_spec.
Qed.

(* isunity never answers true *)
Lemma isunity_false a : big_isunity a = false.
Proof.
  unfold big_isunity. destruct (forallb (fun x => x =? 0) a) eqn:E; cbn [negb]; auto.
  destruct a as [|x a]; [reflexivity|]. cbn [forallb] in E. apply andb_prop in E.
  unfold limb. cbn [nth]. destruct E as [E _]. apply Z.eqb_eq in E. subst. reflexivity.
Qed.
