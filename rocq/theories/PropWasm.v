(** Property theorems (generated by tools/mkprop.py from WasmThms.v, which holds the proofs). *)
From Verif Require Import Base Util MatterTables Matter IndexerTables Crypto Prims PrimsDefs StdStr Data Json Common DataDefs Saider Tholder TholderDefs Sadder Prefixer Signer SignerDefs Spec Wasm WasmDefs WasmThms.

(** C67: a number that is returned to JavaScript comes as its two 64 bit halves *)
Theorem C67_out : forall (P : Profile) (C : Crypto) (F : Floats) (m : matter) (s : sadder) (n : N), bytes_ok (m_raw m) = true ->
  (number_num m = Ok n -> exists u, js_number_num m = Ok u /\ halves u n) /\
  (seqner_sn m = Ok n -> exists u, js_seqner_sn m = Ok u /\ halves u n) /\
  (serder_sn s = Ok n -> exists u, js_serder_sn s = Ok u /\ halves u n) /\
  (serder_fn s = Ok n -> exists u, js_serder_fn s = Ok u /\ halves u n).
Proof. exact C67_out_pf. Qed.
Print Assumptions C67_out.

(** C67: a number that comes from JavaScript is read as the bitwise or of its halves, so it is
    the same number exactly if it is below 2^64; others silently become smaller numbers *)
Theorem C67_in : forall (P : Profile) (u : u128) (n : N), halves u n -> exists k,
  js_number_new_with_num u = number_of k /\ js_seqner_new_with_sn u = seqner_of k /\
  (forall numh code, js_number_new (Some u) numh code None None None None = number_of k) /\
  (forall snh, js_seqner_new (Some u) snh None None None None None = seqner_of k) /\
  k < 2 ^ 64 /\ (k = n <-> n < 2 ^ 64) /\ (forall i, i < 64 -> N.testbit k i = N.testbit n i || N.testbit n (i + 64)).
Proof. exact C67_in_pf. Qed.
Print Assumptions C67_in.

Example C67_out_ex : forall (P : Profile) (C : Crypto) (F : Floats), number_of (2 ^ 64 + 5) = Ok (Mat (s2b "0A") 0 (to_be 16 (2 ^ 64 + 5))) /\
  js_number_num (Mat (s2b "0A") 0 (to_be 16 (2 ^ 64 + 5))) = Ok (Halves 5 1) /\ halves (Halves 5 1) (2 ^ 64 + 5).
Proof. exact C67_out_ex_pf. Qed.

(** so different numbers become the same, and a Number is not rebuilt from its own value *)
Theorem C67_rebuild_refuted : forall (P : Profile), exists m u m', number_of (2 ^ 64) = Ok m /\ js_number_num m = Ok u /\ js_number_new_with_num u = Ok m' /\ number_num m' = Ok 1.
Proof. exact C67_rebuild_refuted_pf. Qed.
Print Assumptions C67_rebuild_refuted.

(** C67: the same as a round trip: a Number made of [n], and a Seqner, is rebuilt from the value it gives to JavaScript exactly if [n] is below 2^64 *)
Theorem C67_rebuild : forall (P : Profile) (n : N) (m s : matter), n < 2 ^ 128 -> number_of n = Ok m -> seqner_of n = Ok s ->
  exists u v m' s', js_number_num m = Ok u /\ js_number_new_with_num u = Ok m' /\ (m' = m <-> n < 2 ^ 64) /\
    js_seqner_sn s = Ok v /\ js_seqner_new_with_sn v = Ok s' /\ (s' = s <-> n < 2 ^ 64).
Proof. exact C67_rebuild_pf. Qed.
Print Assumptions C67_rebuild.

Example C67_rebuild_ex : forall (P : Profile), number_of 300 = Ok (Mat (s2b "M") 0 [1; 44]) /\ seqner_of 300 = Ok (Mat (s2b "0A") 0 (to_be 16 300)) /\ 300 < 2 ^ 64.
Proof. exact C67_rebuild_ex_pf. Qed.

(** C68: a value passed as JSON text is handed to the library as the value the text reads as; names as they are, except that what is not a string is the empty name *)
Theorem C68_values : forall (P : Profile) (C : Crypto) (F : Floats) (s : bytes) (v : data) (a : option (list (option bytes))) (l : option (list bytes)), from_json s = Ok v -> names a l ->
  (js_tholder_new_with_thold s = tholder_of_thold v /\ js_tholder_new_with_sith s = tholder_of_sith v) /\
  (forall limen, js_tholder_new (Some s) limen None = tholder_new (Some v) limen None /\ js_tholder_new None limen (Some s) = tholder_new None limen (Some v) /\ js_tholder_new None limen None = tholder_new None limen None) /\
  (forall s' v' limen, from_json s' = Ok v' -> js_tholder_new (Some s) limen (Some s') = tholder_new (Some v) limen (Some v')) /\
  (forall label kind code raw qb64b qb64 qb2, js_saider_new (Some s) label kind a code raw qb64b qb64 qb2 = saider_new (Some v) label kind l code raw qb64b qb64 qb2 /\
     js_saider_new None label kind a code raw qb64b qb64 qb2 = saider_new None label kind l code raw qb64b qb64 qb2) /\
  (forall label kind code, js_saider_new_with_sad s label kind a code = saider_new (Some v) label kind l code None None None None) /\
  (forall self prefixed versioned kind label, js_said_verify self s prefixed versioned kind label a = said_verify self v prefixed versioned kind label l) /\
  (forall code raw kind sad, js_serder_new code raw kind (Some s) sad = serder_new code raw kind (Some v) sad /\ js_serder_new code raw kind None sad = serder_new code raw kind None sad) /\
  (forall code kind, js_serder_new_with_ked s code kind = serder_new code None kind (Some v) None) /\
  (forall code raw qb64b qb64 qb2, js_prefixer_new (Some s) a code raw qb64b qb64 qb2 = prefixer_new (Some v) l code raw qb64b qb64 qb2 /\ js_prefixer_new None a code raw qb64b qb64 qb2 = prefixer_new None l code raw qb64b qb64 qb2) /\
  (forall code, js_prefixer_new_with_ked s a code = prefixer_new (Some v) l code None None None None) /\
  (forall self prefixed, js_prefixer_verify self s prefixed = prefixer_verify self v prefixed).
Proof. exact C68_values_pf. Qed.
Print Assumptions C68_values.

(** C68: a text that does not read as a value is a crash, not an error, in every one of these calls, even beside material that would be used instead *)
Theorem C68_invalid : forall (P : Profile) (C : Crypto) (F : Floats) (s : bytes) (a : option (list (option bytes))), (forall v, from_json s <> Ok v) ->
  (js_tholder_new_with_thold s = Panic /\ js_tholder_new_with_sith s = Panic) /\
  (forall limen o, js_tholder_new (Some s) limen o = Panic /\ js_tholder_new o limen (Some s) = Panic) /\
  (forall label kind code raw qb64b qb64 qb2, js_saider_new (Some s) label kind a code raw qb64b qb64 qb2 = Panic) /\
  (forall label kind code, js_saider_new_with_sad s label kind a code = Panic) /\
  (forall self prefixed versioned kind label, js_said_verify self s prefixed versioned kind label a = Panic) /\
  (forall code kind label, js_saidify s code kind label a = Panic) /\
  (forall code raw kind sad, js_serder_new code raw kind (Some s) sad = Panic) /\
  (forall code kind, js_serder_new_with_ked s code kind = Panic) /\
  (forall code raw qb64b qb64 qb2, js_prefixer_new (Some s) a code raw qb64b qb64 qb2 = Panic) /\
  (forall code, js_prefixer_new_with_ked s a code = Panic) /\
  (forall self prefixed, js_prefixer_verify self s prefixed = Panic).
Proof. exact C68_invalid_pf. Qed.
Print Assumptions C68_invalid.

(** the hypotheses are met by a text with white space and an array with a number in it, and by texts that are not JSON, or hold too large a number *)
Example C68_values_ex : forall (P : Profile) (F : Floats), from_json (s2b " [ ""1/2"", ""1/2""] ") = Ok (VArr [VStr (s2b "1/2"); VStr (s2b "1/2")]) /\
  names (Some [Some (s2b "a"); None]) (Some [s2b "a"; []]) /\ (forall v, from_json (s2b "{") <> Ok v) /\ (forall v, from_json (s2b "9223372036854775808") <> Ok v) /\ from_json (s2b "{") = Err E_Json.
Proof. exact C68_values_ex_pf. Qed.

(** C68: a threshold is rebuilt from its thold text, always, and from its sith text, if it has a clause *)
Theorem C68_threshold : forall (P : Profile) (F : Floats) (t : tholder), made_tholder P F t ->
  js_tholder_new_with_thold (js_tholder_thold t) = Ok t /\
  (th_thold t <> VArr [] -> exists s, js_tholder_sith t = Ok s /\ js_tholder_new_with_sith s = Ok t).
Proof. exact C68_threshold_pf. Qed.
Print Assumptions C68_threshold.

Example C68_threshold_ex : forall (P : Profile) (F : Floats), exists t, made_tholder P F t /\ js_tholder_sith t = Ok (s2b "[[""1/2"",""1/2"",""1/3""],[""1"",""0""]]") /\ js_tholder_thold t = s2b "[[""1/2"",""1/2"",""1/3""],[""1"",""0""]]" /\ exists u, made_tholder P F u /\ js_tholder_thold u = s2b "2" /\ js_tholder_sith u = Ok (s2b """2""").
Proof. exact C68_threshold_ex_pf. Qed.

(** C69: saidify never returns its result: where the library's saidify succeeds it crashes *)
Theorem C69_saidify : forall (P : Profile) (C : Crypto) (F : Floats) (s : bytes) (code kind label : option bytes) (a : option (list (option bytes))),
  (forall r, js_saidify s code kind label a <> Ok r) /\ (forall v l, from_json s = Ok v -> names a l ->
    (forall e, js_saidify s code kind label a = Err e <-> saidify v code kind label l = Err e) /\ (js_saidify s code kind label a = Panic <-> (exists r, saidify v code kind label l = Ok r) \/ saidify v code kind label l = Panic)).
Proof. exact C69_saidify_pf. Qed.
Print Assumptions C69_saidify.

Example C69_saidify_ex : forall (P : Profile) (F : Floats), let s := s2b "{""d"":"""",""x"":7}" in
  from_json s = Ok (VObj [(s2b "d", VStr []); (s2b "x", VInt 7)]) /\ (exists r, saidify (H0 := toy_crypto) (VObj [(s2b "d", VStr []); (s2b "x", VInt 7)]) None None None None = Ok r) /\ js_saidify (C := toy_crypto) s None None None None = Panic.
Proof. exact C69_saidify_ex_pf. Qed.

(** C69: neither does ked, for any Serder *)
Theorem C69_ked : forall (P : Profile) (C : Crypto) (F : Floats) (s : sadder), js_serder P C F s -> js_serder_ked s = Panic.
Proof. exact C69_ked_pf. Qed.
Print Assumptions C69_ked.

Example C69_ked_ex : forall (P : Profile), exists s, js_serder P toy_crypto toy_floats s.
Proof. exact C69_ked_ex_pf. Qed.

(** C70: the keys, digests and witnesses of an event come as an array with every entry in its place *)
Theorem C70_arrays : forall (P : Profile) (C : Crypto) (s : sadder),
  (forall l, serder_verfers s = Ok l -> js_serder_verfers s = Ok (map Some l)) /\ (forall l, serder_digers s = Ok l -> js_serder_digers s = Ok (map Some l)) /\ (forall l, serder_werfers s = Ok l -> js_serder_werfers s = Ok (map Some l)) /\ (forall e, (serder_verfers s = Err e <-> js_serder_verfers s = Err e) /\ (serder_digers s = Err e <-> js_serder_digers s = Err e) /\ (serder_werfers s = Err e <-> js_serder_werfers s = Err e)).
Proof. exact C70_arrays_pf. Qed.
Print Assumptions C70_arrays.

Example C70_arrays_ex : forall (P : Profile) (C : Crypto), let key := s2b "D" ++ rep 65 43 in let wit := s2b "B" ++ rep 65 43 in
  let s := Sdr (s2b "E") [] (VObj [(s2b "k", VArr [VStr key; VStr wit])]) (s2b "KERI") (s2b "JSON") 0 (Common.Ver 1 0) (Mat (s2b "E") 0 []) in
  js_serder_verfers s = Ok [Some (Mat (s2b "D") 0 (rep 0 32)); Some (Mat (s2b "B") 0 (rep 0 32))].
Proof. exact C70_arrays_ex_pf. Qed.

(** C70: the signer at a position of a list of signers *)
Theorem C70_signers : forall (before after : list signer) (s : signer) (l : list signer) (i : N),
  js_signers_get (before ++ s :: after) (len before) = Some s /\ (js_signers_get l i = None <-> len l <= i).
Proof. exact C70_signers_pf. Qed.
Print Assumptions C70_signers.

(** C70: the named codes are distinct, and are all codes of the tables but the secp256r1 ones *)
Theorem C70_codex :
  (forall a b : matter_codex, matter_codex_code a = matter_codex_code b -> a = b) /\ (forall a b : indexer_codex, indexer_codex_code a = indexer_codex_code b -> a = b) /\ (forall c, (exists a, matter_codex_code a = c) <-> In c (map fst sizage_table) /\ ~ In c r1_codes) /\ (forall c, (exists a, indexer_codex_code a = c) <-> In c (map fst i_sizage_table) /\ ~ In c r1_indexer_codes).
Proof. exact C70_codex_pf. Qed.
Print Assumptions C70_codex.

Example C70_codex_ex : matter_codex_code M_Blake3_256 = s2b "E" /\ indexer_codex_code X_Ed25519_Big_Crt = s2b "2B" /\ In (s2b "1AAJ") r1_codes.
Proof. exact C70_codex_ex_pf. Qed.

(** C70: the names stand for what they say: the codes of the two named signature suites, the integer codes by width, the digest codes by size, the variable size codes by lead bytes *)
Theorem C70_roles :
  (let m := matter_codex_code in let x := indexer_codex_code in
   nth_error suites 0 = Some (Suite (m M_Ed25519Seed) (m M_Ed25519) (m M_Ed25519N) (m M_Ed25519_Sig) (x X_Ed25519) (x X_Ed25519_Crt) (x X_Ed25519_Big) (x X_Ed25519_Big_Crt) 32 S_Ed25519) /\
   nth_error suites 1 = Some (Suite (m M_ECDSA_256k1_Seed) (m M_ECDSA_256k1) (m M_ECDSA_256k1N) (m M_ECDSA_256k1_Sig) (x X_ECDSA_256k1) (x X_ECDSA_256k1_Crt) (x X_ECDSA_256k1_Big) (x X_ECDSA_256k1_Big_Crt) 33 S_256k1) /\
   number_widths = [(m M_Short, 2); (m M_Long, 4); (m M_Big, 8); (m M_Salt_128, 16)] /\
   (forall c n, In (c, n) digest_sizes <-> n = 32 /\ In c (map m [M_Blake3_256; M_Blake2b_256; M_Blake2s_256; M_SHA3_256; M_SHA2_256]) \/ n = 64 /\ In c (map m [M_Blake3_512; M_Blake2b_512; M_SHA3_512; M_SHA2_512])) /\
   map m [M_StrB64_L0; M_StrB64_L1; M_StrB64_L2] = map (fun lead => small_var_code lead 65) [0; 1; 2] /\ map m [M_StrB64_Big_L0; M_StrB64_Big_L1; M_StrB64_Big_L2] = map (fun lead => large_var_code lead 65) [0; 1; 2] /\
   map m [M_Bytes_L0; M_Bytes_L1; M_Bytes_L2] = map (fun lead => small_var_code lead 66) [0; 1; 2] /\ map m [M_Bytes_Big_L0; M_Bytes_Big_L1; M_Bytes_Big_L2] = map (fun lead => large_var_code lead 66) [0; 1; 2]).
Proof. exact C70_roles_pf. Qed.
Print Assumptions C70_roles.
