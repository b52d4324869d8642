(* The BIG/DBIG operations restated with explicit results, for PropsBig. *)
From Coq Require Import ZArith List Bool Lia Znumtheory.
From Verif Require Import Prim Rom Big PrimP BigP BigP2 SpecBytes BigP3 BigP4 BigP5 NumT FieldQ JacobiM JacP.
Import ListNotations.
Open Scope Z_scope.

Lemma some_ex {A} (m : option A) P : ok m P -> exists a, m = Some a /\ P a.
Proof. destruct m as [a|]; [intros H; exists a; auto|intros []]. Qed.
Lemma rep_lb w v : rep 7 w v -> lb (2 ^ 58) w.
Proof. intros (_ & D & _). eapply Forall_impl; [|exact D]. cbv beta. intros x X. lia. Qed.
Lemma rep_lb63 w v : rep 7 w v -> lb (2 ^ 63 - 64) w.
Proof. intros (_ & D & _). eapply Forall_impl; [|exact D]. cbv beta. intros x X. lia. Qed.
Lemma lb_mono A B w : lb A w -> A <= B -> lb B w.
Proof. intros H L. eapply Forall_impl; [|exact H]. cbv beta. intros x X. lia. Qed.

Lemma B_norm : forall w, length w = 7%nat -> lb (2 ^ 63 - 64) w -> exists c, big_norm w = Some c /\ nrep 7 c (lval w).
Proof. intros w L B. apply some_ex, norm_spec7; assumption. Qed.
Lemma B_dnorm : forall w, length w = 14%nat -> lb (2 ^ 63 - 64) w -> exists c, dbig_norm w = Some c /\ nrep 14 c (lval w).
Proof. intros w L B. apply some_ex, norm_spec14; assumption. Qed.

Lemma B_add : forall a b u v, rep 7 a u -> rep 7 b v ->
  exists c n, big_add a b = Some c /\ big_norm c = Some n /\ nrep 7 n (u + v).
Proof.
  intros a b u v A B. pose proof (rep_lb _ _ A) as LA. pose proof (rep_lb _ _ B) as LB. destruct A as (A1 & A2 & A3), B as (B1 & B2 & B3).
  destruct (some_ex _ _ (big_add_spec a b _ _ ltac:(congruence) LA LB ltac:(lia) ltac:(lia) ltac:(lia))) as (c & E & L & LC & V).
  destruct (B_norm c ltac:(congruence) (lb_mono (2 ^ 58 + 2 ^ 58) (2 ^ 63 - 64) _ LC ltac:(lia))) as (n & EN & N). exists c, n. split; [exact E|]. split; [exact EN|].
  rewrite V, A3, B3 in N. exact N.
Qed.
Lemma B_sub : forall a b u v, rep 7 a u -> rep 7 b v ->
  exists c n, big_sub a b = Some c /\ big_norm c = Some n /\ nrep 7 n (u - v).
Proof.
  intros a b u v A B. pose proof (rep_lb _ _ A) as LA. pose proof (rep_lb _ _ B) as LB. destruct A as (A1 & A2 & A3), B as (B1 & B2 & B3).
  destruct (some_ex _ _ (big_sub_spec a b _ _ ltac:(congruence) LA LB ltac:(lia) ltac:(lia) ltac:(lia))) as (c & E & L & LC & V).
  destruct (B_norm c ltac:(congruence) (lb_mono (2 ^ 58 + 2 ^ 58) (2 ^ 63 - 64) _ LC ltac:(lia))) as (n & EN & N). exists c, n. split; [exact E|]. split; [exact EN|].
  rewrite V, A3, B3 in N. exact N.
Qed.
Lemma B_rsub : forall a b u v, rep 7 a u -> rep 7 b v ->
  exists c n, big_rsub a b = Some c /\ big_norm c = Some n /\ nrep 7 n (v - u).
Proof.
  intros a b u v A B. pose proof (rep_lb _ _ A) as LA. pose proof (rep_lb _ _ B) as LB. destruct A as (A1 & A2 & A3), B as (B1 & B2 & B3).
  destruct (some_ex _ _ (big_rsub_spec a b _ _ ltac:(congruence) LA LB ltac:(lia) ltac:(lia) ltac:(lia))) as (c & E & L & LC & V).
  destruct (B_norm c ltac:(congruence) (lb_mono (2 ^ 58 + 2 ^ 58) (2 ^ 63 - 64) _ LC ltac:(lia))) as (n & EN & N). exists c, n. split; [exact E|]. split; [exact EN|].
  rewrite V, A3, B3 in N. exact N.
Qed.
Lemma B_dbl : forall a u, rep 7 a u -> exists c n, big_dbl a = Some c /\ big_norm c = Some n /\ nrep 7 n (2 * u).
Proof.
  intros a u A. pose proof (rep_lb _ _ A) as LA. destruct A as (A1 & A2 & A3).
  destruct (some_ex _ _ (big_dbl_spec a _ LA ltac:(lia) ltac:(lia))) as (c & E & L & LC & V).
  destruct (B_norm c ltac:(congruence) (lb_mono (2 ^ 58 + 2 ^ 58) (2 ^ 63 - 64) _ LC ltac:(lia))) as (n & EN & N). exists c, n. split; [exact E|]. split; [exact EN|].
  rewrite V, A3 in N. exact N.
Qed.
Lemma B_comp : forall a b u v, nrep 7 a u -> nrep 7 b v -> big_comp a b = Z.sgn (u - v).
Proof. intros a b u v (A1 & A2 & A3) (B1 & B2 & B3). rewrite big_comp_spec by (congruence || assumption). rewrite A3, B3. reflexivity. Qed.
Lemma B_mul : forall a b u v, rep 7 a u -> rep 7 b v -> exists d, big_mul a b = Some d /\ rep 14 d (u * v).
Proof.
  intros a b u v A B. pose proof (rep_lb _ _ A) as LA. pose proof (rep_lb _ _ B) as LB.
  pose proof (rep_bound7 _ _ A) as BA. pose proof (rep_bound7 _ _ B) as BB. destruct A as (A1 & A2 & A3), B as (B1 & B2 & B3).
  assert (P : 0 <= u * v < 2 ^ 812).
  { split; [apply Z.mul_nonneg_nonneg; lia|]. change (2 ^ 812) with (2 ^ 406 * 2 ^ 406). apply Z.mul_lt_mono_nonneg; lia. }
  destruct (some_ex _ _ (big_mul_spec a b _ _ A1 B1 LA LB ltac:(lia) ltac:(lia) ltac:(rewrite A3, B3; lia))) as (d & E & N).
  exists d. split; [exact E|]. rewrite A3, B3 in N. apply nrep_rep; [exact N|exact P].
Qed.
Lemma B_sqr : forall a u, rep 7 a u -> exists d, big_sqr a = Some d /\ rep 14 d (u * u).
Proof.
  intros a u A. pose proof (rep_lb _ _ A) as LA. pose proof (rep_bound7 _ _ A) as BA. destruct A as (A1 & A2 & A3).
  assert (P : 0 <= u * u < 2 ^ 812).
  { split; [apply Z.mul_nonneg_nonneg; lia|]. change (2 ^ 812) with (2 ^ 406 * 2 ^ 406). apply Z.mul_lt_mono_nonneg; lia. }
  destruct (some_ex _ _ (big_sqr_spec a _ A1 LA ltac:(lia) ltac:(rewrite A3; lia))) as (d & E & N).
  exists d. split; [exact E|]. rewrite A3 in N. apply nrep_rep; [exact N|exact P].
Qed.
Lemma B_monty : forall md mc d mv dv, rep 7 md mv -> rep 14 d dv -> (mv * mc + 1) mod 2 ^ 58 = 0 -> dv + 2 ^ 406 * mv < 2 ^ 812 ->
  exists r rv, big_monty md mc d = Some r /\ rep 7 r rv /\ (2 ^ 406 * rv - dv) mod mv = 0 /\ 2 ^ 406 * rv <= dv + 2 ^ 406 * mv.
Proof.
  intros md mc d mv dv (M1 & M2 & M3) (D1 & D2 & D3) HC HB.
  assert (L0 : (limb md 0 * mc + 1) mod B58 = 0).
  { rewrite <- M3 in HC. destruct md as [|m0 md]; [discriminate|]. cbn [limb nth lval] in *. change (2 ^ 58) with B58 in HC.
    replace ((m0 + B58 * lval md) * mc + 1) with (m0 * mc + 1 + (lval md * mc) * B58) in HC by ring. rewrite Z.mod_add in HC by lia. exact HC. }
  destruct (some_ex _ _ (big_monty_spec md mc d M1 D1 M2 D2 L0 ltac:(rewrite D3, M3; exact HB))) as (r & E & R1 & R2 & V & VB & EQ).
  exists r, (lval r). split; [exact E|]. split; [repeat split; assumption|]. rewrite D3, M3 in EQ. rewrite EQ. split.
  - replace (dv + V * mv - dv) with (V * mv) by ring. apply Z_mod_mult.
  - assert (0 <= mv). { rewrite <- M3. apply digs_val in M2. lia. } clear - VB H. assert (V * mv <= 2 ^ 406 * mv) by (apply Z.mul_le_mono_nonneg_r; lia). lia.
Qed.
Lemma B_shl1 : forall a u, nrep 7 a u -> - 2 ^ 409 <= u < 2 ^ 409 -> exists c, big_shl a 1 = Some c /\ nrep 7 c (2 * u).
Proof. intros a u A U. apply some_ex, big_shl1_spec; assumption. Qed.
Lemma B_fshl : forall a u k, nrep 7 a u -> 0 <= k < 58 -> - 2 ^ 410 <= u * 2 ^ k < 2 ^ 410 -> nrep 7 (big_fshl a k) (u * 2 ^ k).
Proof. intros a u k A K U. apply fshl_spec7; assumption. Qed.
Lemma B_fshr : forall a u k, nrep 7 a u -> 0 <= k < 58 -> nrep 7 (big_fshr a k) (u / 2 ^ k).
Proof. intros a u k A K. apply fshr_spec7; assumption. Qed.
Lemma B_rmod : forall a u n nv, rep 7 a u -> nrep 7 n nv -> 0 < nv -> exists c, big_rmod a n = Some c /\ rep 7 c (u mod nv).
Proof.
  intros a u n nv A N NV. pose proof (rep_lb63 _ _ A) as LA. pose proof (rep_bound7 _ _ A) as BA. destruct A as (A1 & A2 & A3).
  destruct (some_ex _ _ (big_rmod_spec a n nv A1 LA ltac:(rewrite A3; lia) N NV)) as (c & E & C). rewrite A3 in C.
  exists c. split; [exact E|]. apply nrep_rep; [exact C|]. change (58 * Z.of_nat 7) with 406.
  pose proof (Z.mod_pos_bound u nv NV). pose proof (Z.mod_le u nv ltac:(lia) NV). lia.
Qed.
Lemma B_div : forall a u n nv, rep 7 a u -> nrep 7 n nv -> 0 < nv < 2 ^ 409 -> exists c, big_div a n = Some c /\ rep 7 c (u / nv).
Proof.
  intros a u n nv A N NV. pose proof (rep_lb63 _ _ A) as LA. pose proof (rep_bound7 _ _ A) as BA. destruct A as (A1 & A2 & A3).
  destruct (some_ex _ _ (big_div_spec a n nv A1 LA ltac:(rewrite A3; lia) N NV)) as (c & E & C). rewrite A3 in C.
  exists c. split; [exact E|]. apply nrep_rep; [exact C|]. change (58 * Z.of_nat 7) with 406.
  pose proof (Z.div_pos u nv ltac:(lia) ltac:(lia)). assert (u / nv <= u) by (apply Z.div_le_upper_bound; nia). lia.
Qed.
Lemma lb63_14 w v : rep 14 w v -> lb (2 ^ 63 - 64) w.
Proof. intros (_ & D & _). eapply Forall_impl; [|exact D]. cbv beta. intros x X. lia. Qed.
Lemma B_dmod : forall d dv n nv, rep 14 d dv -> nrep 7 n nv -> 0 < nv <= 2 ^ 406 -> exists c, dbig_dmod d n = Some c /\ rep 7 c (dv mod nv).
Proof.
  intros d dv n nv D N NV. pose proof (lb63_14 _ _ D) as LD. pose proof (rep_bound _ _ _ D) as BD. change (58 * Z.of_nat 14) with 812 in BD.
  destruct D as (D1 & D2 & D3).
  destruct (some_ex _ _ (dbig_dmod_spec d n nv D1 LD ltac:(rewrite D3; lia) N NV)) as (c & E & C). rewrite D3 in C. eauto.
Qed.
Lemma B_modmul : forall a b m u v mv, rep 7 a u -> rep 7 b v -> nrep 7 m mv -> 0 < mv <= 2 ^ 406 ->
  exists c, big_modmul a b m = Some c /\ rep 7 c ((u * v) mod mv).
Proof.
  intros a b m u v mv A B M MV. unfold big_modmul.
  destruct (B_rmod a u m mv A M ltac:(lia)) as (a' & EA & A'). rewrite EA. cbn [bind].
  destruct (B_rmod b v m mv B M ltac:(lia)) as (b' & EB & B'). rewrite EB. cbn [bind].
  destruct (B_mul _ _ _ _ A' B') as (d & ED & D). rewrite ED. cbn [bind].
  destruct (B_dmod _ _ _ _ D M MV) as (c & EC & C). rewrite EC. exists c. split; [reflexivity|]. rewrite <- Z.mul_mod in C by lia. exact C.
Qed.
Lemma B_modsqr : forall a m u mv, rep 7 a u -> nrep 7 m mv -> 0 < mv <= 2 ^ 406 ->
  exists c, big_modsqr a m = Some c /\ rep 7 c ((u * u) mod mv).
Proof.
  intros a m u mv A M MV. unfold big_modsqr.
  destruct (B_rmod a u m mv A M ltac:(lia)) as (a' & EA & A'). rewrite EA. cbn [bind].
  destruct (B_sqr _ _ A') as (d & ED & D). rewrite ED. cbn [bind].
  destruct (B_dmod _ _ _ _ D M MV) as (c & EC & C). rewrite EC. exists c. split; [reflexivity|]. rewrite <- Z.mul_mod in C by lia. exact C.
Qed.
(* modneg leaves an unnormalised result, and m itself for a multiple of m *)
Lemma B_modneg : forall a m u mv, rep 7 a u -> rep 7 m mv -> 0 < mv ->
  exists c n, big_modneg a m = Some c /\ big_norm c = Some n /\ rep 7 n (mv - u mod mv).
Proof.
  intros a m u mv A M MV. unfold big_modneg. destruct (B_rmod a u m mv A (rep_nrep _ _ _ M) ltac:(lia)) as (a' & EA & A'). rewrite EA. cbn [bind].
  destruct (B_sub _ _ _ _ M A') as (c & n & EC & EN & N). exists c, n. split; [exact EC|]. split; [exact EN|].
  apply nrep_rep; [exact N|]. change (58 * Z.of_nat 7) with 406. pose proof (Z.mod_pos_bound u mv MV). pose proof (rep_bound7 _ _ M). lia.
Qed.
Lemma B_tobytes : forall w v, rep 7 w v -> big_tobytes w = Some (be_bytes 48 v).
Proof. exact big_tobytes_rep. Qed.
Lemma B_frombytes : forall bs, bytes bs ->
  ((48 <= length bs)%nat -> exists c, big_frombytes bs = Some c /\ rep 7 c (be_int (firstn 48 bs))) /\
  ((length bs < 48)%nat -> big_frombytes bs = None).
Proof. intros bs B. split; intros L; [apply some_ex, big_frombytes_spec; assumption|apply big_frombytes_short, L]. Qed.
Lemma B_nbits : forall w v, rep 7 w v -> exists n, big_nbits w = Some n /\ 0 <= n /\ v < 2 ^ n /\ (v <> 0 -> 2 ^ (n - 1) <= v).
Proof.
  intros w v R. exists (bitlen v). split; [apply big_nbits_spec, R|]. pose proof (rep_bound7 _ _ R) as B. unfold bitlen.
  destruct (Z.eqb_spec v 0) as [->|NZ]; [repeat split; try lia|].
  pose proof (Z.log2_spec v ltac:(lia)) as [P1 P2]. pose proof (Z.log2_nonneg v).
  replace (Z.log2 v + 1 - 1) with (Z.log2 v) by lia. replace (Z.log2 v + 1) with (Z.succ (Z.log2 v)) by lia. repeat split; auto; lia.
Qed.
Lemma B_iszilch : forall w v, rep 7 w v -> (big_iszilch w = true <-> v = 0).
Proof. intros w v R. rewrite (iszilch_spec w v (rep_nrep _ _ _ R) (rep_bound7 _ _ R)). apply Z.eqb_eq. Qed.
Lemma B_parity : forall w v, nrep 7 w v -> big_parity w = v mod 2.
Proof. exact parity_spec. Qed.
(* for a prime modulus the symbol is decided by squares *)
Lemma B_jacobi : forall a m u mv, rep 7 a u -> nrep 7 m mv -> 1 < mv < 2 ^ 406 -> mv mod 2 = 1 -> big_jacobi a m = Some (jac u mv).
Proof. intros a m u mv A M MV O. destruct (some_ex _ _ (big_jacobi_ok a m u mv A M MV O)) as (r & E & R). rewrite E, R. reflexivity. Qed.
