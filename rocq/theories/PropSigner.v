(** Property theorems (generated by tools/mkprop.py from SignerThms.v, which holds the proofs). *)
From Verif Require Import Base Utf8 Util MatterTables Matter IndexerTables Indexer StdStr Spec MatterDefs IndexerDefs Crypto Prims PrimsDefs Signer SignerDefs SignerThms.

(** C26: a Signer has a seed code and a key of the same suite, transferable or
    not as asked; an input parsed as another primitive is rejected *)
Theorem C26_signer : forall (P : Profile) (C : Crypto) (entropy : N) (transferable : option bool) (code raw qb64b qb64 qb2 : option bytes) (s : signer),
  signer_new entropy transferable code raw qb64b qb64 qb2 = Ok s ->
  exists u, In u suites /\ m_code (sn_matter s) = su_seed u /\
    m_code (sn_verfer s) = (if unwrap_or transferable true then su_key u else su_key_nt u) /\
    (none qb64b && none qb64 && none qb2 = false -> matter_new code raw qb64b qb64 qb2 = Ok (sn_matter s)).
Proof. exact C26_signer_pf. Qed.
Print Assumptions C26_signer.

Example C26_signer_ex : forall P : Profile,
  signer_new (C := toy_scheme) 0 None (Some (s2b "J")) (Some (rep 7 32)) None None None = Ok (Sgn (Mat (s2b "J") 0 (rep 7 32)) (Mat (s2b "1AAB") 0 (2 :: rep 7 32))) /\
  signer_new (C := toy_scheme) 0 None None None None (Some (s2b "MAAA")) None = Err E_UnexpectedCode.
Proof. exact C26_signer_ex_pf. Qed.

(** C27: a Salter made from raw bytes has the salt code; made from text or bytes it has whatever code they have *)
Theorem C27_salter : forall (P : Profile) (C : Crypto) (tier code : option bytes) (raw t b : bytes) (s : salter),
  (salter_of_raw raw code tier = Ok s <-> (code = None \/ code = Some (s2b "0A")) /\ 16 <= len raw /\ s = Slt (Mat (s2b "0A") 0 (take 16 raw)) (unwrap_or tier (s2b "low"))) /\
  (salter_of_text t tier = Ok s <-> exists m, parse_text t = Ok m /\ s = Slt m (unwrap_or tier (s2b "low"))) /\
  (salter_of_text_bytes t tier = Ok s <-> exists m, parse_text_bytes t = Ok m /\ s = Slt m (unwrap_or tier (s2b "low"))) /\
  (salter_of_binary b tier = Ok s <-> exists m, parse_binary b = Ok m /\ s = Slt m (unwrap_or tier (s2b "low"))).
Proof. exact C27_salter_pf. Qed.
Print Assumptions C27_salter.

(** C27: so a "salt" can be a short number, and then seeds are derived from it *)
Theorem C27_salter_any_code_refuted : forall (P : Profile) (C : Crypto), salter_of_text (s2b "MAAA") None = Ok (Slt (Mat (s2b "M") 0 [0; 0]) (s2b "low")).
Proof. exact C27_salter_any_code_refuted_pf. Qed.
Print Assumptions C27_salter_any_code_refuted.

Example C27_salter_ex : forall (P : Profile) (C : Crypto), salter_of_raw (s2b "0123456789abcdef") None None = Ok (Slt (Mat (s2b "0A") 0 (s2b "0123456789abcdef")) (s2b "low")) /\
  salter_of_text (s2b "0AAwMTIzNDU2Nzg5YWJjZGVm") None = Ok (Slt (Mat (s2b "0A") 0 (s2b "0123456789abcdef")) (s2b "low")).
Proof. exact C27_salter_ex_pf. Qed.

(** C57: signers: from at least 32 raw bytes (the rest is ignored), from random, from their own text and binary forms *)
Theorem C57_signer_from_raw : forall (P : Profile) (C : Crypto) (u : suite_info) (raw pk : bytes) (transferable : bool), scheme_contract C -> In u suites -> bytes_ok raw = true ->
  32 <= len raw -> x_public (su_alg u) (take 32 raw) = Some pk ->
  exists s, signer_of_raw raw transferable (su_seed u) = Ok s /\ is_signer s u transferable /\ m_raw (sn_matter s) = take 32 raw /\ m_raw (sn_verfer s) = pk.
Proof. exact C57_signer_from_raw_pf. Qed.
Print Assumptions C57_signer_from_raw.

Theorem C57_signer_random : forall (P : Profile) (C : Crypto) (u : suite_info) (entropy : N) (transferable : bool), scheme_contract C -> generate_contract C -> In u suites ->
  exists s, signer_random entropy transferable (su_seed u) = Ok s /\ is_signer s u transferable.
Proof. exact C57_signer_random_pf. Qed.
Print Assumptions C57_signer_random.

Theorem C57_signer_round_trip : forall (P : Profile) (C : Crypto) (u : suite_info) (transferable : bool) (s : signer), scheme_contract C -> is_signer s u transferable ->
  exists t b vt vb, matter_qb64 (sn_matter s) = Ok t /\ matter_qb2 (sn_matter s) = Ok b /\ len t = 44 /\
    signer_of_text t transferable = Ok s /\ signer_of_text_bytes t transferable = Ok s /\ signer_of_binary b transferable = Ok s /\
    matter_qb64 (sn_verfer s) = Ok vt /\ matter_qb2 (sn_verfer s) = Ok vb /\ matter_transferable (sn_verfer s) = transferable /\
    verfer_new None None None (Some vt) None = Ok (sn_verfer s) /\ verfer_new None None None None (Some vb) = Ok (sn_verfer s).
Proof. exact C57_signer_round_trip_pf. Qed.
Print Assumptions C57_signer_round_trip.

(** C57: an unindexed signature carries the signer's key, verifies under it, and survives its text and binary forms *)
Theorem C57_sign_then_verify : forall (P : Profile) (C : Crypto) (u : suite_info) (transferable : bool) (s : signer) (entropy : N) (msg : bytes),
  scheme_contract C -> is_signer s u transferable ->
  exists c, sign_unindexed s entropy msg = Ok c /\ cg_verfer c = sn_verfer s /\ m_code (cg_matter c) = su_sig u /\
    verfer_verify (cg_verfer c) (m_raw (cg_matter c)) msg = Ok true /\
    exists t b, matter_qb64 (cg_matter c) = Ok t /\ matter_qb2 (cg_matter c) = Ok b /\
      cigar_new (Some (sn_verfer s)) None None None (Some t) None = Ok c /\ cigar_new (Some (sn_verfer s)) None None None None (Some b) = Ok c.
Proof. exact C57_sign_then_verify_pf. Qed.
Print Assumptions C57_sign_then_verify.

(** C57: verification asks the scheme of the key's code, with exactly the key, signature and message
    given; anything that is not a key is an error *)
Theorem C57_verify_iff : forall (C : Crypto) (v : matter) (u : suite_info) (sig msg : bytes), In u suites ->
  (m_code v = su_key u \/ m_code v = su_key_nt u -> len (m_raw v) = su_key_size u ->
   (len sig = 64 -> verfer_verify v sig msg = match x_verify (su_alg u) (m_raw v) sig msg with Some b => Ok b | None => Err E_Crypto end) /\
   (verfer_verify v sig msg = Ok true -> x_verify (su_alg u) (m_raw v) sig msg = Some true)) /\
  (~ In (m_code v) key_codes -> verfer_verify v sig msg = Err E_UnexpectedCode).
Proof. exact C57_verify_iff_pf. Qed.
Print Assumptions C57_verify_iff.

Example C57_verify_iff_ex : let v := Mat (s2b "1AAI") 0 (2 :: rep 7 32) in let sig := rep 7 32 ++ rep 3 32 in
  m_code v = su_key_nt (nth 2 suites (Suite [] [] [] [] [] [] [] [] 0 S_Ed25519)) /\ len (m_raw v) = 33 /\ len sig = 64 /\
  verfer_verify (H := toy_scheme) v sig (s2b "abc") = Ok true /\ verfer_verify (H := toy_scheme) v sig (s2b "abcd") = Ok false.
Proof. exact C57_verify_iff_ex_pf. Qed.

(** C56: the code, index and other index of an indexed signature; it verifies under the attached key, and its wire forms parse to the same signature *)
Theorem C56_indexed_signature : forall (P : Profile) (C : Crypto) (u : suite_info) (transferable only : bool) (s : signer) (entropy index : N) (ondex : option N) (msg : bytes),
  scheme_contract C -> is_signer s u transferable -> index < 4096 -> (only = false -> forall o, ondex = Some o -> o < 4096) ->
  let other := match ondex with Some o => o | None => index end in
  exists g, sign_indexed s entropy msg only index ondex = Ok g /\ sg_verfer g = sn_verfer s /\
    x_code (sg_indexer g) = (if only then if index <? 64 then su_current u else su_current_big u
                             else if (index =? other) && (index <? 64) then su_both u else su_both_big u) /\
    x_index (sg_indexer g) = index /\ x_ondex (sg_indexer g) = (if only then 0 else other) /\
    verfer_verify (sg_verfer g) (x_raw (sg_indexer g)) msg = Ok true /\
    exists t b, indexer_qb64 (sg_indexer g) = Ok t /\ indexer_qb2 (sg_indexer g) = Ok b /\
      siger_new (Some (sn_verfer s)) None None None None None (Some t) None = Ok g /\ siger_new (Some (sn_verfer s)) None None None None None None (Some b) = Ok g.
Proof. exact C56_indexed_signature_pf. Qed.
Print Assumptions C56_indexed_signature.

(** C56: indices of 4096 and more are rejected *)
Theorem C56_out_of_range : forall (P : Profile) (C : Crypto) (u : suite_info) (transferable only : bool) (s : signer) (entropy index : N) (ondex : option N) (msg : bytes),
  scheme_contract C -> is_signer s u transferable -> 4096 <= index \/ (only = false /\ exists o, ondex = Some o /\ 4096 <= o) ->
  sign_indexed s entropy msg only index ondex = Err E_InvalidVarIndex.
Proof. exact C56_out_of_range_pf. Qed.
Print Assumptions C56_out_of_range.

(** the assumptions on the schemes are met by a toy scheme *)
Example C57_sign_ex : scheme_contract toy_scheme /\ generate_contract toy_scheme /\
  is_signer (C := toy_scheme) (Sgn (Mat (s2b "Q") 0 (rep 7 32)) (Mat (s2b "1AAI") 0 (2 :: rep 7 32))) (nth 2 suites (Suite [] [] [] [] [] [] [] [] 0 S_Ed25519)) false.
Proof. exact C57_sign_ex_pf. Qed.

Example C56_indexed_signature_ex : forall P : Profile, let s := Sgn (Mat (s2b "A") 0 (rep 7 32)) (Mat (s2b "D") 0 (rep 7 32)) in
  let x only index ondex := match sign_indexed (C := toy_scheme) s 0 (s2b "abc") only index ondex with Ok g => Ok (x_code (sg_indexer g), x_index (sg_indexer g), x_ondex (sg_indexer g)) | Err e => Err e | Panic => Panic end in
  x false 63 None = Ok (s2b "A", 63, 63) /\ x false 64 None = Ok (s2b "2A", 64, 64) /\ x false 1 (Some 2) = Ok (s2b "2A", 1, 2) /\
  x true 63 (Some 9) = Ok (s2b "B", 63, 0) /\ x true 64 None = Ok (s2b "2B", 64, 0) /\ x true 4096 None = Err E_InvalidVarIndex.
Proof. exact C56_indexed_signature_ex_pf. Qed.

Theorem C58_batch : forall (P : Profile) (C : Crypto) (s : salter) (count start : N) (path : bytes) (code : option bytes) (transferable : option bool) (tier : option bytes) (temp : option bool) (l : list signer),
  start + count <= 2 ^ 64 ->
  (salter_signers s (Some count) (Some start) (Some path) code transferable tier temp = Ok l <->
   len l = count /\ forall i, i < count -> exists x, nth_error l (N.to_nat i) = Some x /\ salter_signer s code transferable (Some (nth_path path start i)) tier temp = Ok x).
Proof. exact C58_batch_pf. Qed.
Print Assumptions C58_batch.

(** C58: defaults: one signer, starting at 0, empty path *)
Theorem C58_defaults : forall (P : Profile) (C : Crypto) (s : salter) (code : option bytes) (transferable : option bool) (tier : option bytes) (temp : option bool),
  salter_signers s None None None code transferable tier temp = salter_signers s (Some 1) (Some 0) (Some []) code transferable tier temp /\
  salter_signer s None None None None None = salter_signer s (Some (s2b "A")) (Some true) (Some []) (Some (sl_tier s)) (Some false).
Proof. exact C58_defaults_pf. Qed.
Print Assumptions C58_defaults.

(** C58: the paths of a batch are pairwise distinct *)
Theorem C58_paths_distinct : forall (path : bytes) (start i j : N), nth_path path start i = nth_path path start j -> i = j.
Proof. exact C58_paths_distinct_pf. Qed.
Print Assumptions C58_paths_distinct.

(** C58: but different path prefixes can give the same path, hence the same keys *)
Theorem C58_prefix_collision_refuted : forall (P : Profile) (C : Crypto) (s : salter), s2b "1" <> s2b "" /\
  salter_signers s (Some 1) (Some 1) (Some (s2b "1")) None None None None = salter_signers s (Some 1) (Some 17) (Some (s2b "")) None None None None.
Proof. exact C58_prefix_collision_refuted_pf. Qed.
Print Assumptions C58_prefix_collision_refuted.

(** C58: beyond 2^64 the program panics, or wraps around in a build without overflow checks *)
Example C58_wrap_ex : forall P : Profile, let s := Slt (Mat (s2b "0A") 0 (rep 1 16)) (s2b "low") in
  salter_signers (C := toy_scheme) s (Some 2) (Some (2 ^ 64 - 1)) None None None None None =
  if overflow_checks then Panic else
    (a <- salter_signer (C := toy_scheme) s None None (Some (s2b "ffffffffffffffff")) None None ;; b <- salter_signer (C := toy_scheme) s None None (Some (s2b "0")) None None ;; Ok [a; b]).
Proof. exact C58_wrap_ex_pf. Qed.

Theorem C58_stretch : forall (C : Crypto) (s : salter) (size : N) (path : bytes) (tier : option bytes) (temp : bool) (seed : bytes),
  salter_stretch s (Some size) (Some path) tier (Some temp) = Ok seed <->
  exists m p, In (used_tier temp tier (sl_tier s), (m, p)) tiers /\ x_argon2id path (m_raw (sl_matter s)) m p size = Some seed.
Proof. exact C58_stretch_pf. Qed.
Print Assumptions C58_stretch.

Theorem C58_seed : forall (P : Profile) (C : Crypto) (s : salter) (u : suite_info) (path : bytes) (transferable : bool) (tier : option bytes) (temp : bool) (x : signer), In u suites ->
  (salter_signer s (Some (su_seed u)) (Some transferable) (Some path) tier (Some temp) = Ok x <->
   exists seed, salter_stretch s (Some 32) (Some path) tier (Some temp) = Ok seed /\ signer_of_raw seed transferable (su_seed u) = Ok x).
Proof. exact C58_seed_pf. Qed.
Print Assumptions C58_seed.

(** C58: a tier that does not exist is rejected, unless temporary *)
Theorem C58_unknown_tier : forall (C : Crypto) (s : salter) (size path tier : option _) (temp : option bool), ~ In (used_tier (unwrap_or temp false) tier (sl_tier s)) (map fst tiers) ->
  salter_stretch s size path tier temp = Err E_Value.
Proof. exact C58_unknown_tier_pf. Qed.
Print Assumptions C58_unknown_tier.

Example C58_ex : forall P : Profile, let s := Slt (Mat (s2b "0A") 0 (rep 1 16)) (s2b "low") in
  salter_signers (C := toy_scheme) s (Some 2) (Some 15) (Some (s2b "a/")) (Some (s2b "A")) (Some true) None (Some true) =
  Ok [Sgn (Mat (s2b "A") 0 (rep 3 32)) (Mat (s2b "D") 0 (rep 3 32)); Sgn (Mat (s2b "A") 0 (rep 4 32)) (Mat (s2b "D") 0 (rep 4 32))] /\
  salter_stretch (C := toy_scheme) s None None (Some (s2b "none")) None = Err E_Value.
Proof. exact C58_ex_pf. Qed.

Theorem C59_text_panics_iff : forall (P : Profile) (C : Crypto) (t : bytes) (transferable : bool),
  signer_of_text t transferable = Panic <->
  parse_text t = Panic \/ exists m, parse_text t = Ok m /\ m_code m = s2b "A" /\ In 61 (take 44 t).
Proof. exact C59_text_panics_iff_pf. Qed.
Print Assumptions C59_text_panics_iff.

(** C59: other ways of making a Signer: bytes that are text as text; binary only when Matter panics; raw and random never *)
Theorem C59_others : forall (P : Profile) (C : Crypto) (t b raw code : bytes) (entropy : N) (transferable : bool),
  (signer_of_text_bytes t transferable = Panic <-> utf8_valid t = true /\ signer_of_text t transferable = Panic) /\
  (bytes_ok b = true -> (signer_of_binary b transferable = Panic <-> parse_binary b = Panic)) /\
  signer_of_raw raw transferable code <> Panic /\
  signer_random entropy transferable code <> Panic.
Proof. exact C59_others_pf. Qed.
Print Assumptions C59_others.

(** C59: signing and verifying never panic *)
Theorem C59_sign_never_panics : forall (P : Profile) (C : Crypto) (s : signer) (entropy index : N) (ondex : option N) (only : bool) (msg sig : bytes) (v : matter),
  sign_unindexed s entropy msg <> Panic /\ sign_indexed s entropy msg only index ondex <> Panic /\ verfer_verify v sig msg <> Panic.
Proof. exact C59_sign_never_panics_pf. Qed.
Print Assumptions C59_sign_never_panics.

Example C59_ex : forall P : Profile, parse_text (s2b "A" ++ rep 65 42 ++ s2b "=") = Ok (Mat (s2b "A") 0 (rep 0 31)) /\
  signer_of_text (C := toy_scheme) (s2b "A" ++ rep 65 42 ++ s2b "=") true = Panic /\
  (exists s, signer_of_text (C := toy_scheme) (s2b "A" ++ rep 65 43) true = Ok s).
Proof. exact C59_ex_pf. Qed.
