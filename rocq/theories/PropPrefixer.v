(** Property theorems (generated by tools/mkprop.py from PrefixerThms.v, which holds the proofs). *)
From Verif Require Import Base MatterTables Matter StdStr Data Spec MatterDefs Crypto Prims PrimsDefs DataDefs CommonDefs SaiderDefs Prefixer PrefixerDefs PrefixerThms.

(** C54: made from an event with the code of a key, a Prefixer is that key: the
    event is an inception event with exactly one key, which has that code; for the
    fixed codes "n", "b" and "a" are absent or empty texts *)
Theorem C54_key : forall (P : Profile) (C : Crypto) (o : list (bytes * data)) (allows : option (list bytes)) (c : bytes) (m : matter),
  NoDup (map fst o) -> In c (fixed_key_codes ++ rotating_key_codes) ->
  prefixer_of_ked (VObj o) allows (Some c) = Ok m <->
  allowed allows c /\ inception o /\ (exists t key, sole_key o t /\ parse_text t = Ok key /\ m_code key = c /\ build c (m_raw key) = Ok m) /\
  (In c fixed_key_codes -> absent_or_empty o (s2b "n") /\ absent_or_empty o (s2b "b") /\ absent_or_empty o (s2b "a")).
Proof. exact C54_key_pf. Qed.
Print Assumptions C54_key.

Example C54_key_ex : forall P : Profile,
  let o := [(s2b "v", VStr (s2b "KERI10JSON000000_")); (s2b "t", VStr (s2b "icp")); (s2b "d", VStr []); (s2b "i", VStr []); (s2b "k", VArr [VStr (s2b "BKxy2sgzfplyr-tgwIxS19f2OchFHtLwPWD3v4oYimBx")]); (s2b "n", VStr [])] in
  exists m, prefixer_of_ked (C := toy_crypto) (VObj o) None (Some (s2b "B")) = Ok m /\ matter_qb64 m = Ok (s2b "BKxy2sgzfplyr-tgwIxS19f2OchFHtLwPWD3v4oYimBx") /\ prefixer_verify (C := toy_crypto) m (VObj o) None = Ok true /\
    prefixer_of_ked (C := toy_crypto) (VObj o) None (Some (s2b "D")) = Err E_Derivation.
Proof. exact C54_key_ex_pf. Qed.

(** C54: made with a digest code, a Prefixer is the digest of the text of the inception event with placeholders for "d" and "i" *)
Theorem C54_digest : forall (P : Profile) (C : Crypto) (o : list (bytes * data)) (allows : option (list bytes)) (c : bytes) (m : matter),
  hash_contract C -> NoDup (map fst o) -> In c (map fst digest_sizes) ->
  prefixer_of_ked (VObj o) allows (Some c) = Ok m <->
  allowed allows c /\ inception o /\ exists text, event_text (blank c o) text /\ m = Mat c 0 (x_hash c text).
Proof. exact C54_digest_pf. Qed.
Print Assumptions C54_digest.

Example C54_digest_ex : hash_contract toy_crypto /\ forall P : Profile,
  let o := [(s2b "v", VStr (s2b "KERI10JSON000000_")); (s2b "t", VStr (s2b "icp")); (s2b "d", VStr []); (s2b "i", VStr []); (s2b "k", VArr [])] in
  event_text (blank (s2b "E") o) (s2b "{""v"":""KERI10JSON000090_"",""t"":""icp"",""d"":""############################################"",""i"":""############################################"",""k"":[]}") /\
  exists m, prefixer_of_ked (C := toy_crypto) (VObj o) None (Some (s2b "E")) = Ok m /\ m_code m = s2b "E" /\ prefixer_verify (C := toy_crypto) m (VObj o) None = Ok true.
Proof. exact C54_digest_ex_pf. Qed.

(** C54: other codes and codes that are not allowed are rejected, also when the code is that of the entry "i" *)
Theorem C54_code : forall (P : Profile) (C : Crypto) (o : list (bytes * data)) (ked : data) (allows : option (list bytes)) (c : bytes), NoDup (map fst o) ->
  (~ In c prefix_codes \/ ~ allowed allows c -> prefixer_of_ked ked allows (Some c) = Err E_UnexpectedCode) /\
  (~ In (s2b "i") (map fst o) -> prefixer_of_ked (VObj o) allows None = Err E_Validation) /\
  (forall t x, In (s2b "i", VStr t) o -> parse_text t = Ok x -> prefixer_of_ked (VObj o) allows None = prefixer_of_ked (VObj o) allows (Some (m_code x))) /\
  (forall t, In (s2b "i", VStr t) o -> (forall x, parse_text t <> Ok x) -> forall m, prefixer_of_ked (VObj o) allows None <> Ok m) /\
  prefixer_new None allows (Some c) None None None None = Err E_Validation.
Proof. exact C54_code_pf. Qed.
Print Assumptions C54_code.

Example C54_code_ex : forall P : Profile, ~ In (s2b "M") prefix_codes /\ ~ allowed (Some [s2b "D"]) (s2b "E") /\ allowed (Some [s2b "D"; s2b "E"]) (s2b "E").
Proof. exact C54_code_ex_pf. Qed.

(** C54: a Prefixer made from material is what the general constructor returns; only the code argument is checked *)
Theorem C54_material : forall (P : Profile) (C : Crypto) (ked : option data) (allows : option (list bytes)) (code raw qb64b qb64 qb2 : option bytes),
  (raw, qb64b, qb64, qb2) <> (None, None, None, None) -> let c := unwrap_or code (s2b "B") in
  (In c prefix_codes -> prefixer_new ked allows code raw qb64b qb64 qb2 = matter_new code raw qb64b qb64 qb2) /\
  (~ In c prefix_codes -> prefixer_new ked allows code raw qb64b qb64 qb2 = Err E_UnexpectedCode).
Proof. exact C54_material_pf. Qed.
Print Assumptions C54_material.

(** C54: so a parsed Prefixer can have any code *)
Theorem C54_material_refuted : forall (P : Profile) (C : Crypto), exists m, prefixer_new None None None None None (Some (s2b "MAAA")) None = Ok m /\ ~ In (m_code m) prefix_codes.
Proof. exact C54_material_refuted_pf. Qed.
Print Assumptions C54_material_refuted.

(** C54: verification of a key prefix: an inception event with that key only, which
    is its entry "i" too when asked for; a fixed key has no next keys *)
Theorem C54_verify_key : forall (P : Profile) (C : Crypto) (m : matter) (q : bytes) (o : list (bytes * data)) (prefixed : option bool),
  NoDup (map fst o) -> In (m_code m) (fixed_key_codes ++ rotating_key_codes) -> matter_qb64 m = Ok q ->
  prefixer_verify m (VObj o) prefixed = Ok true <->
  inception o /\ sole_key o q /\ (prefixed = Some true -> In (s2b "i", VStr q) o) /\ (In (m_code m) fixed_key_codes -> no_next o).
Proof. exact C54_verify_key_pf. Qed.
Print Assumptions C54_verify_key.

(** C54: verification of a digest prefix *)
Theorem C54_verify_digest : forall (P : Profile) (C : Crypto) (m : matter) (o : list (bytes * data)) (prefixed : option bool),
  hash_contract C -> is_diger m -> NoDup (map fst o) ->
  prefixer_verify m (VObj o) prefixed = Ok true <->
  inception o /\ (exists text, event_text (blank (m_code m) o) text /\ m_raw m = x_hash (m_code m) text) /\
  (prefixed = Some true -> exists q, matter_qb64 m = Ok q /\ In (s2b "i", VStr q) o).
Proof. exact C54_verify_digest_pf. Qed.
Print Assumptions C54_verify_digest.

(** C54: a digest prefix derived from an event verifies it, also after the prefix is stored in the event *)
Theorem C54_digest_verifies : forall (P : Profile) (C : Crypto) (o : list (bytes * data)) (allows : option (list bytes)) (c : bytes) (m : matter),
  hash_contract C -> NoDup (map fst o) -> In c (map fst digest_sizes) -> prefixer_of_ked (VObj o) allows (Some c) = Ok m ->
  prefixer_verify m (VObj o) None = Ok true /\ exists q, matter_qb64 m = Ok q /\
  (In (s2b "i") (map fst o) -> prefixer_verify m (VObj (put (s2b "i") (VStr q) o)) (Some true) = Ok true /\ prefixer_of_ked (VObj (put (s2b "i") (VStr q) o)) allows None = Ok m).
Proof. exact C54_digest_verifies_pf. Qed.
Print Assumptions C54_digest_verifies.

(** C54: a key prefix derived from an event verifies it exactly if the key's text is the prefix's text *)
Theorem C54_key_verifies : forall (P : Profile) (C : Crypto) (o : list (bytes * data)) (allows : option (list bytes)) (c t q : bytes) (m : matter),
  NoDup (map fst o) -> In c (fixed_key_codes ++ rotating_key_codes) -> prefixer_of_ked (VObj o) allows (Some c) = Ok m -> sole_key o t -> matter_qb64 m = Ok q ->
  (prefixer_verify m (VObj o) None = Ok true <-> t = q) /\ (prefixer_verify m (VObj o) (Some true) = Ok true <-> t = q /\ In (s2b "i", VStr q) o).
Proof. exact C54_key_verifies_pf. Qed.
Print Assumptions C54_key_verifies.

(** C54: a key with characters after it is accepted, but the derived prefix does not verify the event *)
Theorem C54_key_verifies_refuted : forall (P : Profile) (C : Crypto), exists o m,
  NoDup (map fst o) /\ prefixer_of_ked (VObj o) None (Some (s2b "D")) = Ok m /\ prefixer_verify m (VObj o) None = Ok false.
Proof. exact C54_key_verifies_refuted_pf. Qed.
Print Assumptions C54_key_verifies_refuted.

(** C54: an inception event with the usual empty lists cannot have a fixed key derived, though its prefix verifies; nor do witnesses and seals matter then *)
Theorem C54_fixed_key_refuted : forall (P : Profile) (C : Crypto), let o n b := [(s2b "t", VStr (s2b "icp")); (s2b "k", VArr [VStr (s2b "B" ++ rep 65 43)]); (s2b "n", n); (s2b "b", b)] in
  prefixer_of_ked (VObj (o (VArr []) (VArr []))) None (Some (s2b "B")) = Err E_Conversion /\
  exists m, matter_new None None None (Some (s2b "B" ++ rep 65 43)) None = Ok m /\ prefixer_verify m (VObj (o (VArr []) (VArr []))) None = Ok true /\
  prefixer_of_ked (VObj (o (VStr []) (VStr (s2b "x")))) None (Some (s2b "B")) = Err E_Derivation /\ prefixer_verify m (VObj (o (VStr []) (VStr (s2b "x")))) None = Ok true.
Proof. exact C54_fixed_key_refuted_pf. Qed.
Print Assumptions C54_fixed_key_refuted.

(** C54: a digest prefix binds the whole event: two events, each with its version
    string first, that it verifies have the same digest, and if the texts are the
    same they agree in everything but "v", "d" and "i" *)
Theorem C54_binding : forall (P : Profile) (C : Crypto) (m : matter) (vs1 vs2 : bytes) (r1 r2 : list (bytes * data)) (p1 p2 : option bool),
  hash_contract C -> is_diger m -> let o1 := (s2b "v", VStr vs1) :: r1 in let o2 := (s2b "v", VStr vs2) :: r2 in good float_text (VObj o1) -> good float_text (VObj o2) ->
  prefixer_verify m (VObj o1) p1 = Ok true -> prefixer_verify m (VObj o2) p2 = Ok true ->
  exists t1 t2, event_text (blank (m_code m) o1) t1 /\ event_text (blank (m_code m) o2) t2 /\ x_hash (m_code m) t1 = x_hash (m_code m) t2 /\
    (t1 = t2 -> without [s2b "d"; s2b "i"] r1 = without [s2b "d"; s2b "i"] r2).
Proof. exact C54_binding_pf. Qed.
Print Assumptions C54_binding.

Example C54_binding_ex : forall P : Profile, let o r := (s2b "v", VStr (s2b "KERI10JSON000000_")) :: (s2b "t", VStr (s2b "icp")) :: (s2b "d", VStr []) :: (s2b "i", VStr []) :: r in
  exists m, is_diger m /\ good float_text (VObj (o [(s2b "k", VArr [])])) /\ prefixer_verify (C := toy_crypto) m (VObj (o [(s2b "k", VArr [])])) None = Ok true /\ prefixer_verify (C := toy_crypto) m (VObj (o [(s2b "k", VArr [VNull])])) None = Ok false.
Proof. exact C54_binding_ex_pf. Qed.

(** C54: verification panics exactly if the event is not a map or has no entry "t" *)
Theorem C54_verify_panics : forall (P : Profile) (C : Crypto) (m : matter) (ked : data) (prefixed : option bool),
  hash_contract C -> constructed m -> (forall o, ked = VObj o -> NoDup (map fst o)) ->
  prefixer_verify m ked prefixed = Panic <-> (forall o, ked <> VObj o) \/ exists o, ked = VObj o /\ ~ In (s2b "t") (map fst o).
Proof. exact C54_verify_panics_pf. Qed.
Print Assumptions C54_verify_panics.

Example C54_verify_panics_ex : forall P : Profile, prefixer_verify (C := toy_crypto) (Mat (s2b "B") 0 (rep 0 32)) (VObj [(s2b "k", VArr [])]) None = Panic /\ prefixer_verify (C := toy_crypto) (Mat (s2b "B") 0 (rep 0 32)) (VObj [(s2b "t", VStr (s2b "icp"))]) None = Ok false /\ prefixer_verify (C := toy_crypto) (Mat (s2b "B") 0 (rep 0 32)) (VObj [(s2b "t", VStr (s2b "rot"))]) None = Err E_Value.
Proof. exact C54_verify_panics_ex_pf. Qed.

(** C54: construction from an event panics only without an entry "t", for a value that is not a map, or when the key or the prefix in "i" is a text that makes the general parser panic *)
Theorem C54_new_panics : forall (P : Profile) (C : Crypto) (o : list (bytes * data)) (allows : option (list bytes)) (c : bytes), hash_contract C -> NoDup (map fst o) ->
  (prefixer_of_ked (VObj o) allows (Some c) = Panic <-> In c prefix_codes /\ allowed allows c /\
     (~ In (s2b "t") (map fst o) \/ In c (fixed_key_codes ++ rotating_key_codes) /\ inception o /\ exists t, sole_key o t /\ parse_text t = Panic)) /\
  (prefixer_of_ked (VObj o) allows None = Panic <-> exists t, In (s2b "i", VStr t) o /\
     (parse_text t = Panic \/ exists x, parse_text t = Ok x /\ prefixer_of_ked (VObj o) allows (Some (m_code x)) = Panic)).
Proof. exact C54_new_panics_pf. Qed.
Print Assumptions C54_new_panics.

Example C54_new_panics_ex : forall P : Profile, let o k := [(s2b "t", VStr (s2b "icp")); (s2b "k", VArr [VStr k])] in
  prefixer_of_ked (C := toy_crypto) (VObj []) None (Some (s2b "B")) = Panic /\ prefixer_of_ked (C := toy_crypto) (VObj (o (s2b "5AAA"))) None (Some (s2b "B")) = Panic /\ prefixer_of_ked (C := toy_crypto) (VObj []) None (Some (s2b "A")) = Err E_UnexpectedCode.
Proof. exact C54_new_panics_ex_pf. Qed.
