(* Whole runs of gcm.rs. *)
From Coq Require Import Lia.
From Verif Require Import Prim AesTab Aes Gcm SpecBytes SpecAes SpecGcm AesW AesP AesK AesM GcmP GcmQ.
Opaque gcm_mul gcm_precompute gf2mul.

Record gs (g : GCM) (h : list Z) (E : list Z -> list Z) (y0 f x : list Z) (la lc : Z) (s : nat) : Prop := mk_gs {
  gs_tab : g_tab g = gcm_precompute h; gs_h : st h; gs_x : g_x g = x; gs_xs : st x; gs_y0 : g_y0 g = y0; gs_ys : st y0;
  gs_la : lok (g_lena g) /\ lval (g_lena g) = la; gs_lc : lok (g_lenc g) /\ lval (g_lenc g) = lc;
  gs_s : g_status g = s; gs_c : exists D, cip (g_a g) E D; gs_f : a_f (g_a g) = f; gs_fs : st f; gs_nr : (a_nr (g_a g) <= 14)%nat }.

Lemma firstn_len (l : list Z) : firstn (length l) l = l. Proof. apply firstn_all. Qed.
Lemma header_ok g h E y0 f x la lc b : gs g h E y0 f x la lc G_HEADER -> bytes b ->
  exists g', add_header false g b (length b) = Some (true, g') /\
    gs g' h E y0 f (ghash_from h x (zblocks b)) ((la + Z.of_nat (length b)) mod q64) lc (if (length b mod 16 =? 0)%nat then G_HEADER else G_CIPHER).
Proof.
  intros [T H X XS Y YS [LA VA] LC S C F FS N] B. unfold add_header. rewrite S. cbn [Nat.eqb negb G_HEADER]. rewrite Nat.ltb_irrefl, firstn_len, T, X.
  destruct (absorb_ok h H (length b) b x (g_lena g) (le_n _) XS B LA) as (l' & EQ & SX & L' & V'). rewrite EQ. cbn [bind]. eexists. split; [reflexivity|]. rewrite <- VA.
  constructor; cbn; auto.
Qed.
Lemma aligned_cons b r : aligned (b :: r) -> aligned r /\ (r <> [] -> (length b mod 16 = 0)%nat).
Proof.
  unfold aligned. destruct r as [|c r]; [intros _; split; [constructor|intros N; contradiction N; reflexivity]|]. intros A.
  change (removelast (b :: c :: r)) with (b :: removelast (c :: r)) in A. apply Forall_cons_iff in A. destruct A as [A1 A2]. auto.
Qed.
Lemma headers_ok h E y0 f lc : forall hs g x la, gs g h E y0 f x la lc G_HEADER -> Forall bytes hs -> aligned hs ->
  exists g' s, add_headers false g hs = Some (true, g') /\ (s = G_HEADER \/ s = G_CIPHER) /\
    gs g' h E y0 f (ghash_from h x (zblocks (concat hs))) ((la + Z.of_nat (length (concat hs))) mod q64) lc s.
Proof.
  induction hs as [|b r IH]; intros g x la G FB A.
  - exists g, G_HEADER. split; [reflexivity|]. split; [left; reflexivity|]. cbn [concat length Z.of_nat]. rewrite zb_nil, Z.add_0_r. change (ghash_from h x []) with x.
    rewrite Z.mod_small; [exact G|]. destruct (gs_la _ _ _ _ _ _ _ _ _ G) as [L <-]. unfold lok, lval, u32, q64 in *. lia.
  - apply Forall_cons_iff in FB. destruct FB as [B FB]. destruct (aligned_cons b r A) as [A1 A2]. destruct (header_ok g h E y0 f x la lc b G B) as (g1 & E1 & G1). cbn [add_headers]. rewrite E1. cbn [bind].
    destruct r as [|c r].
    + cbn [add_headers bind concat]. rewrite app_nil_r. exists g1. eexists. split; [reflexivity|]. split; [|exact G1]. destruct (length b mod 16 =? 0)%nat; auto.
    + specialize (A2 ltac:(discriminate)). rewrite A2 in G1. cbn [Nat.eqb] in G1. destruct (IH g1 _ _ G1 FB A1) as (g2 & s & E2 & S2 & G2). rewrite E2. cbn [bind andb]. exists g2, s. split; [reflexivity|]. split; [exact S2|].
      change (concat (b :: c :: r)) with (b ++ concat (c :: r)). rewrite (zb_app b _ A2), ghash_app, app_length. rewrite Zplus_mod_idemp_l in G2. rewrite Nat2Z.inj_add, Z.add_assoc. exact G2.
Qed.
Lemma data_ok (enc : bool) g h E y0 f x la lc s b : gs g h E y0 f x la lc s -> s = G_HEADER \/ s = G_CIPHER -> bytes b ->
  let o := gctr E (inc_32 f) b in
  exists g', (if enc then add_plain else add_cipher) false g (repeat 0 (length b)) b (length b) = Some (true, o, g') /\
    gs g' h E y0 (ctr_at (nblk b) f) (ghash_from h x (zblocks (if enc then o else b))) la ((lc + Z.of_nat (length b)) mod q64) (if (length b mod 16 =? 0)%nat then G_CIPHER else G_NOMORE).
Proof.
  intros [T H X XS Y YS LA [LC VC] S [D C] F FS N] SS B o.
  assert (EA : (if enc then add_plain else add_cipher) false g (repeat 0 (length b)) b (length b) = add_data enc false g (repeat 0 (length b)) b (length b)) by (destruct enc; reflexivity).
  rewrite EA. unfold add_data. rewrite S. assert (SC : st_cipher s = G_CIPHER) by (destruct SS as [-> | ->]; reflexivity). rewrite SC. cbn [g_tab g_x g_y0 g_lena g_lenc g_a Nat.eqb negb G_CIPHER].
  rewrite repeat_length, Nat.ltb_irrefl, firstn_len. cbn [orb]. rewrite T, X.
  assert (SF : st (a_f (g_a g))) by (rewrite F; exact FS).
  destruct (crypt_ok h E D H (length b) enc (g_a g) b [] x (g_lenc g) (le_n _) C SF XS B LC) as (l' & EQ & SX & L' & V'). rewrite EQ. cbn [bind]. rewrite F in *. fold o. fold o in SX.
  eexists. split; [rewrite skipn_all2 by (rewrite repeat_length; apply le_n); rewrite app_nil_r; reflexivity|]. rewrite <- VC.
  constructor; cbn; auto; [exists D; exact C|apply ctr_at_st, FS].
Qed.
Lemma nblk_full b : (length b mod 16 = 0)%nat -> length b = (16 * nblk b)%nat.
Proof.
  intros M. pose proof (len16 b M) as L. unfold nblk. rewrite L at 1 2. replace (16 * (length b / 16) + 15)%nat with (15 + (length b / 16) * 16)%nat by lia. rewrite Nat.div_add by lia. reflexivity.
Qed.
Lemma pieces_ok (enc : bool) h E y0 la : blockfn E -> forall ps g f x lc s, gs g h E y0 f x la lc s -> s = G_HEADER \/ s = G_CIPHER -> Forall bytes ps -> aligned ps ->
  let o := gctr E (inc_32 f) (concat ps) in
  exists g' f' s', add_pieces enc false g ps = Some (true, o, g') /\
    gs g' h E y0 f' (ghash_from h x (zblocks (if enc then o else concat ps))) la ((lc + Z.of_nat (length (concat ps))) mod q64) s'.
Proof.
  intros BE. induction ps as [|b r IH]; intros g f x lc s G SS FB A o.
  - exists g, f, s. split; [reflexivity|]. unfold o. cbn [concat length Z.of_nat]. rewrite gctr_nil. replace (if enc then [] else []) with (@nil Z) by (destruct enc; reflexivity). rewrite zb_nil, Z.add_0_r. change (ghash_from h x []) with x.
    rewrite Z.mod_small; [exact G|]. destruct (gs_lc _ _ _ _ _ _ _ _ _ G) as [L <-]. unfold lok, lval, u32, q64 in *. lia.
  - apply Forall_cons_iff in FB. destruct FB as [B FB]. destruct (aligned_cons b r A) as [A1 A2]. destruct (data_ok enc g h E y0 f x la lc s b G SS B) as (g1 & E1 & G1). cbn [add_pieces]. rewrite E1. cbn [bind].
    assert (SF : st (inc_32 f)) by (apply inc_32_st; exact (gs_fs _ _ _ _ _ _ _ _ _ G)).
    destruct r as [|c r].
    + unfold o. cbn [add_pieces bind concat andb]. rewrite !app_nil_r. exists g1. do 2 eexists. split; [reflexivity|]. exact G1.
    + specialize (A2 ltac:(discriminate)). rewrite A2 in G1. cbn [Nat.eqb] in G1. destruct (IH g1 _ _ _ _ G1 (or_intror eq_refl) FB A1) as (g2 & f2 & s2 & E2 & G2). rewrite E2. cbn [bind andb].
      pose proof (nblk_full b A2) as LB. assert (O : o = gctr E (inc_32 f) b ++ gctr E (inc_32 (ctr_at (nblk b) f)) (concat (c :: r))).
      { unfold o. change (concat (b :: c :: r)) with (b ++ concat (c :: r)). rewrite (gctr_app E (nblk b) b (inc_32 f) _ LB), ctr_at_S. reflexivity. }
      exists g2, f2, s2. split; [rewrite O; reflexivity|]. rewrite O. change (concat (b :: c :: r)) with (b ++ concat (c :: r)).
      assert (LO : (length (gctr E (inc_32 f) b) mod 16 = 0)%nat) by (rewrite (gctr_len E BE (length b)); [exact A2|lia|exact SF]).
      replace (ghash_from h x (zblocks (if enc then gctr E (inc_32 f) b ++ gctr E (inc_32 (ctr_at (nblk b) f)) (concat (c :: r)) else b ++ concat (c :: r)))) with
        (ghash_from h (ghash_from h x (zblocks (if enc then gctr E (inc_32 f) b else b))) (zblocks (if enc then gctr E (inc_32 (ctr_at (nblk b) f)) (concat (c :: r)) else concat (c :: r)))).
      2:{ rewrite <- ghash_app. destruct enc; rewrite zb_app by assumption; reflexivity. }
      rewrite app_length. rewrite Zplus_mod_idemp_l in G2. rewrite Nat2Z.inj_add, Z.add_assoc. exact G2.
Qed.
Definition lens (la lc : Z) : list Z := be_bytes 8 (8 * la) ++ be_bytes 8 (8 * lc).
Lemma lens_st la lc : st (lens la lc).
Proof. unfold lens. split; [rewrite app_length, !be_bytes_length; reflexivity|apply Forall_app; split; apply be_bytes_bytes]. Qed.
Lemma concat_app2 {A} (a b : list (list A)) : concat (a ++ b) = concat a ++ concat b. Proof. apply concat_app. Qed.
Lemma wrap_ok tab x y0 la lc s a h : tab = gcm_precompute h -> st h -> st x -> lok la -> lok lc ->
  gcm_wrap false (mkGCM tab x y0 la lc s a) = Some (block_mul (bxor x (lens (lval la) (lval lc))) h) /\ st (block_mul (bxor x (lens (lval la) (lval lc))) h).
Proof.
  intros -> H X A C. unfold gcm_wrap. cbn [g_lena g_lenc g_tab g_x]. rewrite map_app, concat_app2, (len_words_ok la A), (len_words_ok lc C). fold (lens (lval la) (lval lc)).
  rewrite xor16 by (assumption || apply lens_st). apply gf2mul_ok; [exact H|]. apply bxor_st; [exact X|apply lens_st].
Qed.
Lemma bxor_comm : forall x y, bxor x y = bxor y x.
Proof. induction x as [|a x IH]; intros [|b y]; try reflexivity. change (Z.lxor a b :: bxor x y = Z.lxor b a :: bxor y x). rewrite Z.lxor_comm, IH. reflexivity. Qed.
Lemma gctr_block E f s : length s = 16%nat -> gctr E f s = bxor (E f) s.
Proof.
  intros L. unfold gctr. rewrite L. change ((16 + 15) / 16)%nat with 1%nat. cbn [gctr_n]. rewrite app_nil_r, firstn_all2 by lia. apply bxor_comm.
Qed.
Lemma finish_ok g h E y0 f x la lc s : gs g h E y0 f x la lc s -> blockfn E ->
  exists g', gcm_finish false g true = Some (gctr E y0 (block_mul (bxor x (lens la lc)) h), g').
Proof.
  intros [T H X XS Y YS [LA VA] [LC VC] S [D C] F FS N] BE. unfold gcm_finish. destruct g as [tab gx gy ga gc gst a]. cbn [g_tab g_x g_y0 g_lena g_lenc g_status g_a] in *. subst gx gy.
  destruct (wrap_ok tab x y0 ga gc gst a h T H XS LA LC) as [-> SB]. cbn [bind]. destruct (proj1 C y0 YS) as (-> & _ & _). cbn [bind]. rewrite VA, VC in *.
  unfold aes_end. assert (NN : (60 <? 4 * (a_nr a + 1))%nat = false) by (apply Nat.ltb_ge; lia). rewrite NN. cbn [bind]. eexists. rewrite gctr_block by apply SB. rewrite map2_bxor. reflexivity.
Qed.
Lemma lens_small la lc : lens (la mod q64) (lc mod q64) = lens la lc.
Proof.
  unfold lens. assert (M : forall v, be_bytes 8 (8 * (v mod q64)) = be_bytes 8 (8 * v)); [|rewrite !M; reflexivity].
  intros v. rewrite <- (be_bytes_mod 8 (8 * (v mod q64))), <- (be_bytes_mod 8 (8 * v)). f_equal. change (256 ^ Z.of_nat 8) with q64. apply Zmult_mod_idemp_r.
Qed.

Lemma blocks_one x : length x = 16%nat -> blocks_of x = [x].
Proof. intros L. unfold blocks_of. rewrite L. change (16 / 16)%nat with 1%nat. cbn [blocks16]. rewrite firstn_all2 by lia. reflexivity. Qed.
Lemma init_gs g key iv E : bytes key -> key_len (length key / 4) -> bytes iv ->
  (exists a D, aes_init aes_new M_ECB (length key) key None = Some (true, a) /\ cip a E D /\ a_nr a = (length key / 4 + 6)%nat) ->
  exists g', gcm_init false g (length key) key (length iv) iv = Some g' /\ gs g' (E (repeat 0 16)) E (gcm_J0 E iv) (gcm_J0 E iv) (repeat 0 16) 0 0 G_HEADER.
Proof.
  intros B KL BI (a & D & I & C & NR). unfold gcm_init. rewrite I. cbn [bind]. destruct (proj1 C _ st_zero) as (EZ & SH & _). rewrite EZ. cbn [bind]. set (h := E (repeat 0 16)) in *.
  assert (N14 : (a_nr a <= 14)%nat) by (rewrite NR; destruct KL as [-> |[-> | ->]]; lia). assert (L0 : lok (0, 0)) by (unfold lok, u32; cbn [fst snd]; lia).
  unfold gcm_J0. fold h. destruct (Nat.eqb_spec (length iv) 12) as [L|L].
  - rewrite L. cbn [Nat.ltb Nat.leb]. rewrite firstn_all2 by lia. change (gunpack 1) with [0; 0; 0; 1]. eexists. split; [reflexivity|].
    assert (SJ : st (iv ++ [0; 0; 0; 1])) by (split; [rewrite app_length, L; reflexivity|apply Forall_app; split; [exact BI|repeat constructor; lia]]).
    constructor; cbn; auto; try exact SH; try exact st_zero; try exact SJ. exists D. apply cip_set, C.
  - unfold gcm_ghash. cbn [g_status st_cipher Nat.eqb G_HEADER G_CIPHER negb g_tab g_x g_y0 g_lena g_lenc g_a]. rewrite Nat.ltb_irrefl, firstn_len.
    destruct (absorb_ok h SH (length iv) iv (repeat 0 16) (0, 0) (le_n _) st_zero BI L0) as (l' & EQ & SX & L' & V'). rewrite EQ. cbn [bind].
    match goal with |- context [gcm_wrap false (mkGCM ?t ?x ?y ?la ?lc ?s ?b)] => destruct (wrap_ok t x y la lc s b h eq_refl SH SX L0 L') as [-> SB] end. cbn [bind].
    change (lval (0, 0)) with 0 in *. rewrite V' in *. cbn [Z.add] in *. change (lens 0 (Z.of_nat (length iv) mod q64)) with (lens (0 mod q64) (Z.of_nat (length iv) mod q64)) in *. rewrite lens_small in *.
    assert (J : ghash h (zpad iv ++ repeat 0 8 ++ len64 iv) = block_mul (bxor (ghash_from h (repeat 0 16) (zblocks iv)) (lens 0 (Z.of_nat (length iv)))) h).
    { unfold ghash. rewrite blocks_of_app by apply zpad_mod. rewrite ghash_app. fold (zblocks iv). change (repeat 0 8 ++ len64 iv) with (lens 0 (Z.of_nat (length iv))). rewrite (blocks_one _ (proj1 (lens_st _ _))). reflexivity. }
    rewrite J. eexists. split; [reflexivity|]. set (jj := block_mul _ _) in *. assert (LL : lok (0, 0) /\ lval (0, 0) = 0) by (split; [exact L0|reflexivity]).
    constructor; [reflexivity|exact SH|reflexivity|exact st_zero|reflexivity|exact SB|exact LL|exact LL|reflexivity|exists D; apply cip_set, C|reflexivity|exact SB|exact N14].
Qed.
Lemma tag_ghash h a c : ghash h (zpad a ++ zpad c ++ len64 a ++ len64 c) =
  block_mul (bxor (ghash_from h (ghash_from h (repeat 0 16) (zblocks a)) (zblocks c)) (lens (Z.of_nat (length a)) (Z.of_nat (length c)))) h.
Proof.
  unfold ghash. rewrite blocks_of_app by apply zpad_mod. rewrite blocks_of_app by apply zpad_mod. rewrite !ghash_app. fold (zblocks a) (zblocks c).
  change (len64 a ++ len64 c) with (lens (Z.of_nat (length a)) (Z.of_nat (length c))). rewrite (blocks_one _ (proj1 (lens_st _ _))). reflexivity.
Qed.
(* a run with any cipher E the key leads to *)
Lemma run_gen (enc : bool) g key iv hs ps E : bytes key -> key_len (length key / 4) -> bytes iv -> Forall bytes hs -> Forall bytes ps -> aligned hs -> aligned ps ->
  (exists a D, aes_init aes_new M_ECB (length key) key None = Some (true, a) /\ cip a E D /\ a_nr a = (length key / 4 + 6)%nat) ->
  let o := gcm_cipher E iv (concat ps) in
  gcm_run enc false g key iv hs ps = Some (true, o, gcm_tag E iv (concat hs) (if enc then o else concat ps)).
Proof.
  intros BK KL BI BH BP AH AP IE o. destruct (init_gs g key iv E BK KL BI IE) as (g0 & E0 & G0). destruct IE as (a & D & _ & C & _). assert (BE : blockfn E) by (intros s S; apply (proj1 C s S)).
  unfold gcm_run. rewrite E0. cbn [bind]. destruct (headers_ok _ _ _ _ _ hs g0 _ _ G0 BH AH) as (g1 & s1 & E1 & S1 & G1). rewrite E1. cbn [bind].
  destruct (pieces_ok enc _ _ _ _ BE ps g1 _ _ _ _ G1 S1 BP AP) as (g2 & f2 & s2 & E2 & G2). rewrite E2. cbn [bind]. destruct (finish_ok _ _ _ _ _ _ _ _ _ G2 BE) as (g3 & E3). rewrite E3. cbn [bind andb].
  unfold gcm_tag. rewrite tag_ghash. change (gctr E (inc_32 (gcm_J0 E iv)) (concat ps)) with o in *. rewrite lens_small. cbn [Z.add].
  assert (SJ : st (inc_32 (gcm_J0 E iv))) by (apply inc_32_st; exact (gs_fs _ _ _ _ _ _ _ _ _ G0)).
  assert (LO : length o = length (concat ps)) by (apply (gctr_len E BE (length (concat ps))); [lia|exact SJ]).
  do 3 f_equal. destruct enc; rewrite ?LO; reflexivity.
Qed.
Lemma std_init key : bytes key -> length key = 16%nat \/ length key = 24%nat ->
  exists a D, aes_init aes_new M_ECB (length key) key None = Some (true, a) /\ cip a (AES_enc key) D /\ a_nr a = (length key / 4 + 6)%nat.
Proof.
  intros B L. destruct (init_cip M_ECB key None B (key_len_std key L)) as (a & E & D & I & C & _ & _ & NR & Q). destruct (Q L) as [-> _]. exists a, D. auto.
Qed.
(* C113 *)
Lemma gcm_encrypts : forall g key iv hs ps, bytes key -> length key = 16%nat \/ length key = 24%nat -> bytes iv -> Forall bytes hs -> Forall bytes ps -> aligned hs -> aligned ps ->
  let c := gcm_cipher (AES_enc key) iv (concat ps) in
  gcm_run true false g key iv hs ps = Some (true, c, gcm_tag (AES_enc key) iv (concat hs) c) /\ length c = length (concat ps).
Proof.
  intros g key iv hs ps BK L BI BH BP AH AP c. pose proof (std_init key BK L) as SI. split; [exact (run_gen true g key iv hs ps (AES_enc key) BK (key_len_std key L) BI BH BP AH AP SI)|].
  destruct (init_gs g key iv (AES_enc key) BK (key_len_std key L) BI SI) as (g0 & _ & G0). destruct SI as (a & D & _ & C & _).
  apply (gctr_len (AES_enc key)) with (n := length (concat ps)); [intros s S; apply (proj1 C s S)|lia|apply inc_32_st; exact (gs_fs _ _ _ _ _ _ _ _ _ G0)].
Qed.
(* C114 *)
Lemma gcm_decrypts : forall g key iv hs cs, bytes key -> length key = 16%nat \/ length key = 24%nat -> bytes iv -> Forall bytes hs -> Forall bytes cs -> aligned hs -> aligned cs ->
  gcm_run false false g key iv hs cs = Some (true, gcm_cipher (AES_enc key) iv (concat cs), gcm_tag (AES_enc key) iv (concat hs) (concat cs)) /\
  forall p, concat cs = gcm_cipher (AES_enc key) iv p -> gcm_cipher (AES_enc key) iv (concat cs) = p.
Proof.
  intros g key iv hs cs BK L BI BH BP AH AP. pose proof (std_init key BK L) as SI. split; [exact (run_gen false g key iv hs cs (AES_enc key) BK (key_len_std key L) BI BH BP AH AP SI)|].
  intros p P. destruct (init_gs g key iv (AES_enc key) BK (key_len_std key L) BI SI) as (g0 & _ & G0). destruct SI as (a & D & _ & C & _). rewrite P.
  apply (gctr_twice (AES_enc key)) with (n := length p); [intros s S; apply (proj1 C s S)|lia|apply inc_32_st; exact (gs_fs _ _ _ _ _ _ _ _ _ G0)].
Qed.
(* C114: the round trip in one statement *)
Lemma gcm_round_trip : forall g g' key iv hs ps cs, bytes key -> In (length key / 4)%nat [4; 6; 8]%nat -> bytes iv -> Forall bytes hs -> Forall bytes ps -> aligned hs -> aligned ps -> aligned cs ->
  exists c t, gcm_run true false g key iv hs ps = Some (true, c, t) /\ (concat cs = c -> gcm_run false false g' key iv hs cs = Some (true, concat ps, t)).
Proof.
  intros g g' key iv hs ps cs BK L BI BH BP AH AP AC. assert (KL : key_len (length key / 4)) by (destruct L as [L|[L|[L|[]]]]; rewrite <- L; unfold key_len; auto).
  destruct (init_cip M_ECB key None BK KL) as (a & E & D & I & C & _ & _ & NR & _). assert (SI : exists a D, aes_init aes_new M_ECB (length key) key None = Some (true, a) /\ cip a E D /\ a_nr a = (length key / 4 + 6)%nat) by (exists a, D; auto).
  do 2 eexists. split; [exact (run_gen true g key iv hs ps E BK KL BI BH BP AH AP SI)|]. intros CC.
  assert (BE : blockfn E) by (intros s S; apply (proj1 C s S)). destruct (init_gs g key iv E BK KL BI SI) as (g0 & _ & G0). assert (SJ : st (inc_32 (gcm_J0 E iv))) by (apply inc_32_st; exact (gs_fs _ _ _ _ _ _ _ _ _ G0)).
  assert (BP' : bytes (concat ps)) by (clear -BP; induction BP; [constructor|cbn [concat]; apply Forall_app; auto]).
  assert (BC : Forall bytes cs).
  { assert (BB : bytes (concat cs)) by (rewrite CC; apply (gctr_bytes E BE (length (concat ps))); [lia|exact SJ|exact BP']). clear -BB. induction cs as [|c cs IH]; [constructor|]. cbn [concat] in BB. apply Forall_app in BB. constructor; [apply BB|apply IH, BB]. }
  rewrite (run_gen false g' key iv hs cs E BK KL BI BH BC AH AC SI). cbn zeta. rewrite CC. do 3 f_equal. apply (gctr_twice E BE (length (concat ps))); [lia|exact SJ].
Qed.

(* C115 *)
Lemma status_no g chk b : g_status g <> G_HEADER -> add_header chk g b (length b) = Some (false, g).
Proof. intros N. unfold add_header. destruct (Nat.eqb_spec (g_status g) G_HEADER) as [E|E]; [contradiction|reflexivity]. Qed.
Lemma gcm_unaligned : forall chk g b c g', add_header chk g b (length b) = Some (true, g') -> (length b mod 16 <> 0)%nat -> add_header chk g' c (length c) = Some (false, g').
Proof.
  intros chk g b c g' H M. apply status_no. unfold add_header in H. destruct (negb (g_status g =? G_HEADER)%nat); [discriminate H|]. rewrite Nat.ltb_irrefl in H.
  destruct (absorb _ _ _ _ _ _) as [[x l]|]; [|discriminate H]. cbn [bind] in H. destruct (Nat.eqb_spec (length b mod 16) 0) as [E|E]; [contradiction|]. injection H as <-. discriminate.
Qed.
Lemma data_flag enc chk g d b o g' : add_data enc chk g d b (length b) = Some (true, o, g') -> (g_status g' = G_CIPHER \/ g_status g' = G_NOMORE) /\ ((length b mod 16 <> 0)%nat -> g_status g' = G_NOMORE).
Proof.
  unfold add_data. intros H. destruct (Nat.eqb_spec (st_cipher (g_status g)) G_CIPHER) as [E|E]; [|discriminate H]. cbn [negb] in H. rewrite Nat.ltb_irrefl in H. destruct (length d <? length b)%nat; [discriminate H|]. cbn [orb] in H.
  destruct (crypt _ _ _ _ _ _ _ _ _) as [[[[a1 o1] x1] l1]|]; [|discriminate H]. cbn [bind] in H. destruct (Nat.eqb_spec (length b mod 16) 0) as [M|M]; injection H as <- <-; cbn [g_status]; rewrite ?E; split; auto. intros N. contradiction.
Qed.
Lemma gcm_data_unaligned : forall enc chk g d b o g', add_data enc chk g d b (length b) = Some (true, o, g') ->
  (forall c, add_header chk g' c (length c) = Some (false, g')) /\ ((length b mod 16 <> 0)%nat -> forall enc' d' c, add_data enc' chk g' d' c (length c) = Some (false, d', g')).
Proof.
  intros enc chk g d b o g' H. destruct (data_flag _ _ _ _ _ _ _ H) as [S N]. split; [intros c; apply status_no; destruct S as [-> | ->]; discriminate|]. intros M enc' d' c. specialize (N M). unfold add_data. rewrite N. cbn. destruct g'. cbn in N. rewrite N. reflexivity.
Qed.
(* C116: u32 additions checked *)
Lemma foldM_none {A B} (f : A -> B -> option A) (P : B) : (forall a, f a P = None) -> forall l a, In P l -> foldM f l a = None.
Proof.
  intros H. induction l as [|b l IH]; intros a I; [destruct I|]. cbn [foldM]. destruct I as [-> |I]; [rewrite H; reflexivity|]. destruct (f a b); [apply IH, I|reflexivity].
Qed.
Transparent gf2mul.
Lemma gf2_zero tab x i : (i < 128)%nat -> gbit x i = 0 -> gf2mul true tab x = None.
Proof.
  intros I Z. unfold gf2mul. rewrite (foldM_none _ i); [reflexivity| |apply in_seq; lia]. intros a. unfold gf2_step. rewrite Z. reflexivity.
Qed.
Opaque gf2mul.
Lemma byte_bit b : 0 <= b < 256 -> b <> 255 -> exists j, (j < 8)%nat /\ Z.land (Z.shiftr b (7 - Z.of_nat j)) 1 = 0.
Proof.
  intros B N. destruct (forallb (fun j => negb (Z.land (Z.shiftr b (7 - Z.of_nat j)) 1 =? 0)) (seq 0 8)) eqn:F.
  - exfalso. apply N. assert (K : forall n, (n < 256)%nat -> forallb (fun j => negb (Z.land (Z.shiftr (Z.of_nat n) (7 - Z.of_nat j)) 1 =? 0)) (seq 0 8) = true -> n = 255%nat).
    { assert (A : forallb (fun n => implb (forallb (fun j => negb (Z.land (Z.shiftr (Z.of_nat n) (7 - Z.of_nat j)) 1 =? 0)) (seq 0 8)) (n =? 255)%nat) (seq 0 256) = true) by (vm_compute; reflexivity).
      intros n L H. rewrite forallb_forall in A. specialize (A n (proj2 (in_seq _ _ _) (conj (Nat.le_0_l n) L))). rewrite H in A. apply Nat.eqb_eq in A. exact A. }
    specialize (K (Z.to_nat b) ltac:(lia)). rewrite Z2Nat.id in K by lia. specialize (K F). lia.
  - assert (EX : existsb (fun j => Z.land (Z.shiftr b (7 - Z.of_nat j)) 1 =? 0) (seq 0 8) = true).
    { revert F. generalize (seq 0 8). induction l as [|j l IH]; [discriminate|]. cbn [forallb existsb]. destruct (Z.land (Z.shiftr b (7 - Z.of_nat j)) 1 =? 0); cbn [negb orb andb]; auto. }
    apply existsb_exists in EX. destruct EX as (j & J & Z). apply in_seq in J. exists j. split; [lia|]. apply Z.eqb_eq, Z.
Qed.
Lemma not_all n x : length x = n -> x <> repeat 255 n -> exists k, (k < n)%nat /\ nth k x 0 <> 255.
Proof.
  revert n. induction x as [|a x IH]; intros [|n] L N; try discriminate L; [contradiction N; reflexivity|]. injection L as L. destruct (Z.eq_dec a 255) as [-> |A].
  - destruct (IH n L) as (k & K & V); [intros ->; apply N; reflexivity|]. exists (S k). split; [lia|exact V].
  - exists 0%nat. split; [lia|exact A].
Qed.
Lemma gf2mul_checked : forall tab x, length x = 16%nat -> bytes x -> x <> repeat 255 16 -> gf2mul true tab x = None.
Proof.
  intros tab x L B N. destruct (not_all 16 x L N) as (k & K & V). assert (BK : 0 <= nth k x 0 < 256) by (apply (proj1 (Forall_forall _ _) B), nth_In; lia).
  destruct (byte_bit _ BK V) as (j & J & Z). apply (gf2_zero tab x (8 * k + j)); [lia|]. unfold gbit.
  replace ((8 * k + j) / 8)%nat with k by (apply (Nat.div_unique (8 * k + j) 8 k j); lia). replace ((8 * k + j) mod 8)%nat with j by (apply (Nat.mod_unique (8 * k + j) 8 k j); lia). exact Z.
Qed.
Lemma init12 chk g nk key iv g' : length iv = 12%nat -> gcm_init chk g nk key 12 iv = Some g' -> g_x g' = repeat 0 16 /\ g_lena g' = (0, 0) /\ g_lenc g' = (0, 0) /\ g_status g' = G_HEADER.
Proof.
  intros L. unfold gcm_init. destruct (aes_init _ _ _ _ _) as [[u a]|]; [|discriminate]. cbn [bind]. destruct (ecb_encrypt a (repeat 0 16)); [|discriminate]. cbn [bind Nat.eqb]. rewrite L. cbn [Nat.ltb Nat.leb]. intros H. injection H as <-. auto.
Qed.
Lemma gcm_checked_empty : forall enc g key iv, length iv = 12%nat -> gcm_run enc true g key iv [] [] = None.
Proof.
  intros enc g key iv L. unfold gcm_run. rewrite L. destruct (gcm_init true g (length key) key 12 iv) as [g'|] eqn:I; [|reflexivity]. destruct (init12 _ _ _ _ _ _ L I) as (X & LA & LC & S). cbn [bind add_headers add_pieces]. unfold gcm_finish, gcm_wrap.
  rewrite X, LA, LC. match goal with |- context [gf2mul true ?t ?x] => change x with (repeat 0 16); rewrite (gf2mul_checked t (repeat 0 16)) by (apply st_zero || discriminate) end. reflexivity.
Qed.
Lemma len_add_small chk n : forall l1, 0 <= l1 -> l1 + Z.of_nat n < 4294967296 -> len_add chk n (0, l1) = Some (0, l1 + Z.of_nat n).
Proof.
  induction n as [|n IH]; intros l1 P L; [cbn; rewrite Z.add_0_r; reflexivity|]. cbn [len_add len_inc]. unfold inc32. destruct (Z.eqb_spec (l1 + 1) 4294967296) as [E|E]; [lia|]. cbn [bind]. destruct (Z.eqb_spec (l1 + 1) 0) as [E0|E0]; [lia|]. cbn [bind]. rewrite IH by lia. do 2 f_equal. lia.
Qed.
Lemma bxor_zero : forall y n, length y = n -> bxor (repeat 0 n) y = y.
Proof. induction y as [|a y IH]; intros [|n] L; try discriminate L; [reflexivity|]. change (Z.lxor 0 a :: bxor (repeat 0 n) y = a :: y). rewrite Z.lxor_0_l. f_equal. apply IH. injection L as L. exact L. Qed.
Lemma gcm_checked_header : forall enc g key iv h hs ps, length iv = 12%nat -> bytes h -> h <> [] -> firstn 16 h <> repeat 255 16 -> gcm_run enc true g key iv (h :: hs) ps = None.
Proof.
  intros enc g key iv h hs ps L B NE N. unfold gcm_run. rewrite L. destruct (gcm_init true g (length key) key 12 iv) as [g'|] eqn:I; [|reflexivity]. destruct (init12 _ _ _ _ _ _ L I) as (X & LA & LC & S). cbn [bind add_headers]. unfold add_header. rewrite S. cbn [Nat.eqb negb G_HEADER].
  rewrite Nat.ltb_irrefl, firstn_len, X, LA. destruct h as [|h0 h]; [contradiction NE; reflexivity|]. set (b := h0 :: h) in *. unfold b at 1. cbn [length absorb]. unfold b at 1. rewrite len_add_small by lia. cbn [bind].
  rewrite (xor_blk _ b st_zero), bxor_zero by apply (blk_st b B). rewrite gf2mul_checked; [reflexivity|apply (blk_st b B)|apply (blk_st b B)|]. intros E. apply N.
  unfold blk in E. destruct (le_lt_dec 16 (length b)) as [G|G]; [replace (16 - length b)%nat with 0%nat in E by lia; cbn [repeat] in E; rewrite app_nil_r in E; exact E|].
  exfalso. apply (f_equal (fun l => nth 15 l 0)) in E. rewrite app_nth2 in E by (rewrite firstn_length; lia). rewrite nth_repeat in E. discriminate E.
Qed.
Lemma gcm_checked_refuted : exists key iv p r, length key = 16%nat /\ length iv = 12%nat /\ bytes p /\ gcm_run true false gcm_new key iv [p] [] = Some r /\ gcm_run true true gcm_new key iv [p] [] = None.
Proof.
  destruct (gcm_encrypts gcm_new (repeat 0 16) (repeat 0 12) [[1]] []) as [E _]; [apply zero_bytes|left; reflexivity|apply zero_bytes|repeat constructor; lia|constructor|constructor|constructor|].
  exists (repeat 0 16), (repeat 0 12), [1]. eexists. split; [reflexivity|]. split; [reflexivity|]. split; [repeat constructor; lia|]. split; [exact E|]. apply gcm_checked_header; [reflexivity|repeat constructor; lia|discriminate|discriminate].
Qed.
(* C117 *)
Definition k32 : list Z := map Z.of_nat (seq 0 32).
Lemma gcm256_refuted : exists key iv p c t, length key = 32%nat /\ bytes key /\ length iv = 12%nat /\ bytes iv /\ bytes p /\
  gcm_run true false gcm_new key iv [] [p] = Some (true, c, t) /\ c <> gcm_cipher (AES_enc key) iv p.
Proof.
  set (iv := repeat 0 12). set (p := repeat 0 16). assert (BK : bytes k32) by (apply Forall_forall; intros x X; apply in_map_iff in X; destruct X as (i & <- & X); apply in_seq in X; lia).
  assert (KL : key_len (length k32 / 4)) by (right; right; reflexivity). destruct (init_cip M_ECB k32 None BK KL) as (a & E & D & I & C & _ & _ & NR & _).
  assert (SI : exists a D, aes_init aes_new M_ECB (length k32) k32 None = Some (true, a) /\ cip a E D /\ a_nr a = (length k32 / 4 + 6)%nat) by (exists a, D; auto).
  pose proof (run_gen true gcm_new k32 iv [] [p] E BK KL (zero_bytes 12) (Forall_nil _) (Forall_cons _ (zero_bytes 16) (Forall_nil _)) (Forall_nil _) (Forall_nil _) SI) as R.
  exists k32, iv, p. do 2 eexists. split; [reflexivity|]. split; [exact BK|]. split; [reflexivity|]. split; [apply zero_bytes|]. split; [apply zero_bytes|]. split; [exact R|].
  change (concat [p]) with p. set (b := repeat 0 15 ++ [2]). assert (SB : st b) by (split; [reflexivity|repeat constructor; lia]).
  assert (CC : forall F, length (F b) = 16%nat -> gcm_cipher F iv p = F b).
  { intros F LF. unfold gcm_cipher. change (inc_32 (gcm_J0 F iv)) with b. rewrite gctr_block by reflexivity. rewrite bxor_comm. apply bxor_zero, LF. }
  destruct (proj1 C b SB) as (EB & SE & _). rewrite (CC E (proj1 SE)).
  assert (EV : ('(_, a) <- aes_init aes_new M_ECB (length k32) k32 None ;; ecb_encrypt a b) = Some (E b)) by (rewrite I; exact EB). rewrite (CC (AES_enc k32)); [|vm_compute; reflexivity].
  intros Q. rewrite Q in EV. revert EV. vm_compute. discriminate.
Qed.
