(* Property theorems about mpin.rs.  The spec is SpecMpin; scalar, ident, in_G1, in_G2 (MpinT),
   buf, answer (MpinU) and reads (MpinV) say what the arguments are.  Arrays that the code
   writes to are arguments and results; optional arrays and generators are options.  chk says
   whether overflow is checked, fuel bounds the search for a point.  None is a panic. *)
From Coq Require Import ZArith List.
From Verif Require Import Prim SpecBytes SpecMac SpecRand NumT FieldQ FieldQ2 SpecCurve EcpP Ecp2P Denote Tower SpecPairing Rand RandP SpecEcdh Ecdh EcdhP SpecMpin Mpin G1Ord MpinT MpinU MpinV.
Import ListNotations.
Open Scope Z_scope.

(* hash_id *)
Theorem C124_hash : forall chk sha id w, ident chk sha id -> (48 <= length w)%nat -> hash_id chk sha id w = Some (true, mp_hash sha 0 id ++ skipn 48 w).
Proof. exact hash_identity. Qed.
Print Assumptions C124_hash.

(* every identity has one point, of order r *)
Theorem C124_point : forall chk sha n id, ident chk sha id -> exists A, map_pt (mp_hash sha n id) A /\ on1 A /\ A <> Inf /\ mul1 r255 A = Inf /\ forall A', map_pt (mp_hash sha n id) A' -> A' = A.
Proof. exact every_point. Qed.
Print Assumptions C124_point.

(* get_client_secret *)
Theorem C124_client_secret : forall fuel s cid cst A, scalar s -> num_of s mod r255 <> 0 -> bytes cid -> (48 <= length cid)%nat -> map_pt cid A -> q381 <= Z.of_nat fuel -> (97 <= length cst)%nat ->
  get_client_secret fuel s cid cst = Some (0, enc_pt (mul1 (num_of s) A) ++ skipn 97 cst).
Proof. exact client_secret. Qed.
Print Assumptions C124_client_secret.

(* get_client_permit *)
Theorem C124_permit : forall chk fuel sha date s id ctt A, ident chk sha id -> scalar s -> num_of s mod r255 <> 0 -> map_pt (mp_hash sha date id) A -> q381 <= Z.of_nat fuel -> (97 <= length ctt)%nat ->
  get_client_permit chk fuel sha date s id ctt = Some (0, enc_pt (mul1 (num_of s) A) ++ skipn 97 ctt).
Proof. exact client_permit. Qed.
Print Assumptions C124_permit.

(* get_server_secret *)
Theorem C124_server_secret : forall s sst, bytes s -> (48 <= length s)%nat -> num_of s mod r255 <> 0 -> (192 <= length sst)%nat ->
  exists bs, get_server_secret s sst = Some (0, bs ++ skipn 192 sst) /\ length bs = 192%nat /\ forall t, bytes t -> in_G2 (bs ++ t) (mul2 (num_of s) G2gen).
Proof. exact server_secret. Qed.
Print Assumptions C124_server_secret.

(* random_generate *)
Theorem C124_random : forall rd f s, gives rd f -> (48 <= length s)%nat ->
  exists rd', random_generate rd s = Some (0, be_bytes 48 (stream_num f 510 mod r255) ++ skipn 48 s, rd') /\ gives rd' (fun k => f (64 + k)%nat).
Proof. exact random_secret. Qed.
Print Assumptions C124_random.

(* client_1 that draws x is client_1 with that x *)
Theorem C124_client_random : forall chk fuel sha date id rd f x pin token sec xid xcid permit, gives rd f -> bytes x -> (48 <= length x)%nat ->
  let x' := be_bytes 48 (stream_num f 510 mod r255) ++ skipn 48 x in
  exists rd', gives rd' (fun k => f (64 + k)%nat) /\ client_1 chk fuel sha date id (Some rd) x pin token sec xid xcid permit =
    match client_1 chk fuel sha date id None x' pin token sec xid xcid permit with Some (r, y, s, u, uc, _) => Some (r, y, s, u, uc, Some rd') | None => None end.
Proof. exact client_1_random. Qed.
Print Assumptions C124_client_random.

(* get_g1_multiple of a point *)
Theorem C124_multiple : forall fuel x g w p, scalar x -> num_of x mod r255 <> 0 -> in_G1 g p -> (97 <= length w)%nat ->
  get_g1_multiple fuel None 0 x g w = Some (0, x, enc_pt (mul1 (num_of x) p) ++ skipn 97 w, None).
Proof. exact g1_multiple. Qed.
Print Assumptions C124_multiple.

(* recombine_g1 *)
Theorem C125_client : forall r1 r2 w p q, in_G1 r1 p -> in_G1 r2 q -> padd1 p q <> Inf -> (97 <= length w)%nat -> recombine_g1 r1 r2 w = Some (0, enc_pt (padd1 p q) ++ skipn 97 w).
Proof. exact recombine_client. Qed.
Print Assumptions C125_client.

(* recombine_g2 *)
Theorem C125_server : forall r1 r2 w p q, in_G2 r1 p -> in_G2 r2 q -> padd2 p q <> Inf -> (192 <= length w)%nat ->
  exists bs, recombine_g2 r1 r2 w = Some (0, bs ++ skipn 192 w) /\ length bs = 192%nat /\ forall t, bytes t -> in_G2 (bs ++ t) (padd2 p q).
Proof. exact recombine_server. Qed.
Print Assumptions C125_server.

(* the shares of two masters give the secret of their sum *)
Theorem C125_shares : forall fuel s1 s2 s cid c1 c2 c w, scalar s1 -> scalar s2 -> scalar s -> num_of s1 mod r255 <> 0 -> num_of s2 mod r255 <> 0 -> num_of s mod r255 <> 0 ->
  num_of s mod r255 = (num_of s1 + num_of s2) mod r255 -> bytes cid -> (48 <= length cid)%nat -> q381 <= Z.of_nat fuel ->
  (97 <= length c1)%nat -> (97 <= length c2)%nat -> (97 <= length c)%nat -> (97 <= length w)%nat -> bytes c1 -> bytes c2 ->
  exists t1 t2 t, get_client_secret fuel s1 cid c1 = Some (0, t1) /\ get_client_secret fuel s2 cid c2 = Some (0, t2) /\ get_client_secret fuel s cid c = Some (0, t ++ skipn 97 c) /\
    recombine_g1 t1 t2 w = Some (0, t ++ skipn 97 w).
Proof. exact shares_client. Qed.
Print Assumptions C125_shares.

(* extract_pin *)
Theorem C126_extract_pin : forall chk fuel sha id pin token A p, ident chk sha id -> q381 <= Z.of_nat fuel -> map_pt (mp_hash sha 0 id) A -> - 2 ^ 31 <= pin < 2 ^ 31 -> in_G1 token p -> (97 <= length token)%nat ->
  padd1 p (pneg1 (mul1 (pin_val pin) A)) <> Inf -> extract_pin chk fuel sha id pin token = Some (0, enc_pt (padd1 p (pneg1 (mul1 (pin_val pin) A))) ++ skipn 97 token).
Proof. exact extract_pin_value. Qed.
Print Assumptions C126_extract_pin.

(* extract_factor and restore_factor *)
Theorem C126_factor : forall chk fuel sha id v bits token A p, ident chk sha id -> q381 <= Z.of_nat fuel -> map_pt (mp_hash sha 0 id) A -> (bits <= 32)%nat -> in_G1 token p -> (97 <= length token)%nat ->
  let F := mul1 (v mod 2 ^ Z.of_nat bits) A in
  (padd1 p (pneg1 F) <> Inf -> extract_factor chk fuel sha id v bits token = Some (0, enc_pt (padd1 p (pneg1 F)) ++ skipn 97 token)) /\
  (padd1 p F <> Inf -> restore_factor chk fuel sha id v bits token = Some (0, enc_pt (padd1 p F) ++ skipn 97 token)).
Proof. exact extract_restore. Qed.
Print Assumptions C126_factor.

(* restore_factor undoes extract_factor *)
Theorem C126_round_trip : forall chk fuel sha id v bits t p, ident chk sha id -> q381 <= Z.of_nat fuel -> (bits <= 32)%nat -> on1 p -> p <> Inf -> mul1 r255 p = Inf -> bytes t ->
  (forall A, map_pt (mp_hash sha 0 id) A -> padd1 p (pneg1 (mul1 (v mod 2 ^ Z.of_nat bits) A)) <> Inf) ->
  exists w, extract_factor chk fuel sha id v bits (enc_pt p ++ t) = Some (0, w) /\ restore_factor chk fuel sha id v bits w = Some (0, enc_pt p ++ t).
Proof. exact factor_round_trip. Qed.
Print Assumptions C126_round_trip.

(* without a date *)
Theorem C127_run : forall chk fuel sha id s pin pin' x y c0 sst0 sec0 xid0 hid0, ident chk sha id -> q381 <= Z.of_nat fuel -> scalar s -> scalar x -> scalar y ->
  0 <= pin < 2 ^ 31 -> 0 <= pin' < 2 ^ 31 -> buf 97 c0 -> buf 192 sst0 -> buf 97 sec0 -> buf 97 xid0 -> buf 97 hid0 ->
  let v := pin mod 10000 in let p := pin' mod 10000 in
  num_of s mod r255 <> 0 -> (num_of s - v) mod r255 <> 0 -> (num_of s - v + p) mod r255 <> 0 -> num_of x mod r255 <> 0 -> (num_of x + num_of y) mod r255 <> 0 ->
  exists hcid cst token sst sec xid hid sec2,
    hash_id chk sha id (repeat 0 48) = Some (true, hcid) /\ get_client_secret fuel s hcid c0 = Some (0, cst) /\ extract_pin chk fuel sha id pin cst = Some (0, token) /\
    get_server_secret s sst0 = Some (0, sst) /\ client_1 chk fuel sha 0 id None x pin' token sec0 (Some xid0) None None = Some (0, x, sec, Some xid, None, None) /\
    server_1 chk fuel sha 0 id hid0 None = Some (hid, None) /\ client_2 x y sec = Some (0, sec2) /\
    answer (server_2 0 hid None y sst (Some xid) None sec2) v p.
Proof. exact mpin_run. Qed.
Print Assumptions C127_run.

(* with a date and a permit *)
Theorem C127_run_date : forall chk fuel sha id date s pin pin' x y c0 d0 sst0 sec0 xid0 xcid0 hid0 htid0, ident chk sha id -> q381 <= Z.of_nat fuel -> scalar s -> scalar x -> scalar y ->
  date <> 0 -> 0 <= pin < 2 ^ 31 -> 0 <= pin' < 2 ^ 31 -> buf 97 c0 -> buf 97 d0 -> buf 192 sst0 -> buf 97 sec0 -> buf 97 xid0 -> buf 97 xcid0 -> buf 97 hid0 -> buf 97 htid0 ->
  let v := pin mod 10000 in let p := pin' mod 10000 in
  num_of s mod r255 <> 0 -> (num_of s - v) mod r255 <> 0 -> (num_of s - v + p) mod r255 <> 0 -> num_of x mod r255 <> 0 -> (num_of x + num_of y) mod r255 <> 0 ->
  (forall A B, map_pt (mp_hash sha 0 id) A -> map_pt (mp_hash sha date (mp_hash sha 0 id)) B ->
     padd1 A B <> Inf /\ padd1 (mul1 ((num_of s - v + p) mod r255) A) (mul1 (num_of s) B) <> Inf) ->
  exists hcid cst token permit sst sec xid xcid hid htid sec2,
    hash_id chk sha id (repeat 0 48) = Some (true, hcid) /\ get_client_secret fuel s hcid c0 = Some (0, cst) /\ extract_pin chk fuel sha id pin cst = Some (0, token) /\
    get_client_permit chk fuel sha date s hcid d0 = Some (0, permit) /\ get_server_secret s sst0 = Some (0, sst) /\
    client_1 chk fuel sha date id None x pin' token sec0 (Some xid0) (Some xcid0) (Some permit) = Some (0, x, sec, Some xid, Some xcid, None) /\
    server_1 chk fuel sha date id hid0 (Some htid0) = Some (hid, Some htid) /\ client_2 x y sec = Some (0, sec2) /\
    answer (server_2 date hid (Some htid) y sst (Some xid) (Some xcid) sec2) v p.
Proof. exact mpin_run_date. Qed.
Print Assumptions C127_run_date.

(* the challenge of the one-pass protocol *)
Theorem C127_y : forall chk sha t u y, ident chk sha u -> buf 48 y -> get_y chk sha t u y = Some (be_bytes 48 (be_int (mp_hash sha t u) mod r255) ++ skipn 48 y).
Proof. exact get_y_value. Qed.
Print Assumptions C127_y.

(* points of any order in the commitment and the response *)
Theorem C128_decision : forall date hid htid y sst xid xcid msec e f u a s U A V,
  bytes sst -> (192 <= length sst)%nat -> 0 <= s -> s mod r255 <> 0 -> decodes2 sst (mul2 s G2gen) ->
  (if date =? 0 then xid else xcid) = Some u -> reads u U -> U <> Inf -> scalar y -> (if date =? 0 then Some hid else htid) = Some a -> in_G1 a A -> reads msec V -> V <> Inf ->
  let D := padd1 V (mul1 s (padd1 (mul1 (num_of y) A) U)) in
  (mul1 h1c D = Inf -> server_2 date hid htid y sst xid xcid msec e f = Some (0, e, f)) /\
  (mul1 h1c D <> Inf -> xid = None \/ e = None \/ f = None -> server_2 date hid htid y sst xid xcid msec e f = Some (-19, e, f)).
Proof. exact server_2_exact. Qed.
Print Assumptions C128_decision.

(* the error codes *)
Theorem C128_invalid : forall date hid htid y sst xid xcid msec e f S, bytes sst -> (192 <= length sst)%nat -> decodes2 sst S ->
  let run := server_2 date hid htid y sst xid xcid msec e f in
  (S = Inf -> run = Some (-14, e, f)) /\
  (S <> Inf -> (if date =? 0 then xid else xcid) = None -> run = Some (-11, e, f)) /\
  (forall u U, S <> Inf -> (if date =? 0 then xid else xcid) = Some u -> reads u U ->
     (U = Inf -> run = Some (-14, e, f)) /\
     (U <> Inf -> scalar y ->
        ((if date =? 0 then Some hid else htid) = None -> run = Some (-11, e, f)) /\
        (forall a A, (if date =? 0 then Some hid else htid) = Some a -> reads a A ->
           (A = Inf -> run = Some (-14, e, f)) /\
           (forall V, A <> Inf -> mul1 r255 A = Inf -> reads msec V -> V = Inf -> run = Some (-14, e, f))))).
Proof. exact server_2_invalid. Qed.
Print Assumptions C128_invalid.

(* a response outside the group of order r *)
Theorem C129_response_refuted : exists hid y sst xid A U V V', (exists s, 0 <= s /\ s mod r255 <> 0 /\ decodes2 sst (mul2 s G2gen)) /\ in_G1 hid A /\ scalar y /\ in_G1 xid U /\
  in_G1 (enc_pt V) V /\ on1 V' /\ V' <> V /\ mul1 r255 V' <> Inf /\
  (forall e f, server_2 0 hid None y sst (Some xid) None (enc_pt V) e f = Some (0, e, f)) /\
  (forall e f, server_2 0 hid None y sst (Some xid) None (enc_pt V') e f = Some (0, e, f)).
Proof. exact response_refuted. Qed.
Print Assumptions C129_response_refuted.

(* a commitment made after the challenge needs no secret at all *)
Theorem C129_outsider : forall hid y sst e f A s t, bytes sst -> (192 <= length sst)%nat -> 0 <= s -> s mod r255 <> 0 -> decodes2 sst (mul2 s G2gen) -> scalar y -> in_G1 hid A -> bytes t ->
  let U := padd1 (pneg1 (mul1 (num_of y) A)) T3 in
  server_2 0 hid None y sst (Some (enc_pt U ++ t)) None (enc_pt T3 ++ t) e f = Some (0, e, f).
Proof. exact outsider. Qed.
Print Assumptions C129_outsider.

(* all identities give the same point *)
Theorem C130_unsupported : forall chk fuel sha date id id' hid htid w, ~ is_sha sha ->
  hash_id chk sha id w = Some (false, w) /\ server_1 chk fuel sha date id hid htid = server_1 chk fuel sha date id' hid htid.
Proof. exact unsupported_hash. Qed.
Print Assumptions C130_unsupported.

(* two identities, no failure *)
Theorem C130_unsupported_refuted : exists fuel sha id id' hid A, ~ is_sha sha /\ id <> id' /\ in_G1 hid A /\
  (forall chk, server_1 chk fuel sha 0 id (repeat 0 97) None = Some (hid, None)) /\ (forall chk, server_1 chk fuel sha 0 id' (repeat 0 97) None = Some (hid, None)).
Proof. exact unsupported_refuted. Qed.
Print Assumptions C130_unsupported_refuted.

(* 2345 and 12345 *)
Theorem C131_pins_refuted : exists fuel sha id s pin pin' x y cst token sst sec xid hid sec2 hcid, pin <> pin' /\ 0 <= pin < 100000 /\ 0 <= pin' < 100000 /\
  hash_id false sha id (repeat 0 48) = Some (true, hcid) /\ get_client_secret fuel s hcid (repeat 0 97) = Some (0, cst) /\ extract_pin false fuel sha id pin cst = Some (0, token) /\
  get_server_secret s (repeat 0 192) = Some (0, sst) /\ client_1 false fuel sha 0 id None x pin' token (repeat 0 97) (Some (repeat 0 97)) None None = Some (0, x, sec, Some xid, None, None) /\
  server_1 false fuel sha 0 id (repeat 0 97) None = Some (hid, None) /\ client_2 x y sec = Some (0, sec2) /\ server_2 0 hid None y sst (Some xid) None sec2 None None = Some (0, None, None).
Proof. exact pins_refuted. Qed.
Print Assumptions C131_pins_refuted.

(* the PIN counts twice *)
Theorem C132_no_permit : forall chk fuel sha date id x pin token sec xid xcid A p, ident chk sha id -> q381 <= Z.of_nat fuel -> map_pt (mp_hash sha 0 id) A -> date <> 0 -> scalar x ->
  in_G1 token p -> pin_val pin <> 0 -> buf 97 sec -> padd1 (padd1 p (mul1 (pin_val pin) A)) (mul1 (pin_val pin) A) <> Inf ->
  (xid = None /\ xcid = None) ->
  client_1 chk fuel sha date id None x pin token sec xid xcid None =
    Some (0, x, enc_pt (padd1 (padd1 p (mul1 (pin_val pin) A)) (mul1 (pin_val pin) A)) ++ skipn 97 sec, None, None, None).
Proof. exact no_permit. Qed.
Print Assumptions C132_no_permit.

(* no error *)
Theorem C132_no_permit_refuted : exists fuel sha date id x pin token sec, date <> 0 /\ client_1 false fuel sha date id None x pin token (repeat 0 97) None None None = Some (0, x, sec, None, None, None).
Proof. exact no_permit_refuted. Qed.
Print Assumptions C132_no_permit_refuted.
