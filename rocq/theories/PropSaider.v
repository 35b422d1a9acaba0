(** Property theorems (generated by tools/mkprop.py from SaiderThms.v, which holds the proofs). *)
From Verif Require Import Base Utf8 MatterTables Matter StdStr Data Spec MatterDefs Crypto Prims PrimsDefs DataDefs CommonDefs Saider SaiderDefs SaiderThms.

(** C26: a Saider: parsed ones are what the general parser returns, if the code is a digest code. *)
Theorem C26_saider : forall (P : Profile) (C : Crypto) (code qb64b qb64 qb2 : option bytes),
  checked m_code (map fst digest_sizes) (matter_new code None qb64b qb64 qb2) (saider_new None None None None code None qb64b qb64 qb2).
Proof. exact C26_saider_pf. Qed.
Print Assumptions C26_saider.

(** C26: and every Saider, however made, has a digest code. *)
Theorem C26_saider_code : forall (P : Profile) (C : Crypto) (sad : option data) (label kind : option bytes) (ignore : option (list bytes)) (code raw qb64b qb64 qb2 : option bytes) (s : matter),
  saider_new sad label kind ignore code raw qb64b qb64 qb2 = Ok s -> In (m_code s) (map fst digest_sizes).
Proof. exact C26_saider_code_pf. Qed.
Print Assumptions C26_saider_code.

(** accepted and refused codes exist *)
Example C26_saider_ex : forall P : Profile,
  saider_new (H0 := toy_crypto) None None None None (Some (s2b "E")) (Some (rep 7 32)) None None None = Ok (Mat (s2b "E") 0 (rep 7 32)) /\
  saider_new (H0 := toy_crypto) None None None None (Some (s2b "D")) (Some (rep 7 32)) None None None = Err E_UnexpectedCode /\
  saider_new (H0 := toy_crypto) None None None None None None None (Some (s2b "MAAA")) None = Err E_UnexpectedCode.
Proof. exact C26_saider_ex_pf. Qed.

(** C51: saidify succeeds exactly on objects that have the label, with a digest
    code and (if there is a version string) a size that can be written; the result
    is the digest of the object with the placeholder, sized, less the ignored
    entries, and the object with the digest's text in its place. *)
Theorem C51_saidify : forall (P : Profile) (C : Crypto) (o : list (bytes * data)) (code kind label : option bytes) (ignore : option (list bytes)) (s : matter) (sad : data),
  hash_contract C -> NoDup (map fst o) ->
  let lab := unwrap_or label (s2b "d") in let c := unwrap_or code (s2b "E") in
  saidify (VObj o) code kind label ignore = Ok (s, sad) <->
  In lab (map fst o) /\ In c (map fst digest_sizes) /\ (kind = None \/ kind = Some (s2b "JSON")) /\
  exists o' q, sized_as (put lab (placeholder c) o) o' /\
    s = Mat c 0 (x_hash c (to_json (VObj (without (unwrap_or ignore []) o')))) /\ matter_qb64 s = Ok q /\ sad = VObj (put lab (VStr q) o').
Proof. exact C51_saidify_pf. Qed.
Print Assumptions C51_saidify.

(** C52: a Saider verifies exactly the objects whose placeholder form has its
    digest, whose version string states the right size (if asked), and whose label
    field is the Saider's text (if asked). *)
Theorem C52_verify : forall (P : Profile) (C : Crypto) (s : matter) (o : list (bytes * data)) (prefixed versioned : option bool) (kind label : option bytes) (ignore : option (list bytes)),
  hash_contract C -> is_diger s -> NoDup (map fst o) -> let lab := unwrap_or label (s2b "d") in
  said_verify s (VObj o) prefixed versioned kind label ignore = Ok true <->
  (kind = None \/ kind = Some (s2b "JSON")) /\ exists o', sized_as (put lab (placeholder (m_code s)) o) o' /\
    m_raw s = x_hash (m_code s) (to_json (VObj (without (unwrap_or ignore []) o'))) /\
    (versioned <> Some false -> o' = put lab (placeholder (m_code s)) o) /\
    (prefixed = Some true -> exists q, matter_qb64 s = Ok q /\ In (lab, VStr q) o).
Proof. exact C52_verify_pf. Qed.
Print Assumptions C52_verify.

(** C51: what saidify returns verifies, whatever checks are asked for. *)
Theorem C51_saidify_verifies : forall (P : Profile) (C : Crypto) (o : list (bytes * data)) (code kind label : option bytes) (ignore : option (list bytes)) (s : matter) (sad : data) (prefixed versioned : option bool),
  hash_contract C -> NoDup (map fst o) -> saidify (VObj o) code kind label ignore = Ok (s, sad) ->
  said_verify s sad prefixed versioned kind label ignore = Ok true.
Proof. exact C51_saidify_verifies_pf. Qed.
Print Assumptions C51_saidify_verifies.

(** C51: the version string of the result states the length of its JSON. *)
Theorem C51_saidify_size : forall (P : Profile) (C : Crypto) (o : list (bytes * data)) (code kind label : option bytes) (ignore : option (list bytes)) (s : matter) (sad : data),
  hash_contract C -> NoDup (map fst o) -> saidify (VObj o) code kind label ignore = Ok (s, sad) -> In (s2b "v") (map fst o) ->
  let size := len (to_json sad) mod 2 ^ 32 in size < 2 ^ 24 /\
  exists ident old, (ident = s2b "KERI" \/ ident = s2b "ACDC") /\ In (s2b "v", VStr (version_text ident 1 0 (s2b "JSON") old)) o /\ vget sad (s2b "v") = Ok (VStr (version_text ident 1 0 (s2b "JSON") size)).
Proof. exact C51_saidify_size_pf. Qed.
Print Assumptions C51_saidify_size.

(** C51: saidify returns on every value; a value that is not an object is an error. *)
Theorem C51_saidify_total : forall (P : Profile) (C : Crypto) (sad : data) (code kind label : option bytes) (ignore : option (list bytes)),
  hash_contract C -> good (fun _ => True) sad -> saidify sad code kind label ignore <> Panic.
Proof. exact C51_saidify_total_pf. Qed.
Print Assumptions C51_saidify_total.

(** a concrete object, with and without version string *)
Example C51_saidify_ex : hash_contract toy_crypto /\ forall P : Profile,
  (exists s sad, saidify (H0 := toy_crypto) (VObj [(s2b "v", VStr (s2b "KERI10JSON000000_")); (s2b "d", VStr []); (s2b "x", VInt 7)]) None None None None = Ok (s, sad) /\
    to_json sad = s2b "{""v"":""KERI10JSON000052_"",""d"":""EFJSUlJSUlJSUlJSUlJSUlJSUlJSUlJSUlJSUlJSUlJS"",""x"":7}") /\
  (exists s sad, saidify (H0 := toy_crypto) (VObj [(s2b "id", VNull); (s2b "x", VArr [])]) (Some (s2b "0G")) None (Some (s2b "id")) (Some [s2b "x"]) = Ok (s, sad)).
Proof. exact C51_saidify_ex_pf. Qed.

(** C52: when verify panics: a value that is not an object, or the label asked for
    is missing from an object that is otherwise fine. *)
Theorem C52_verify_panics : forall (P : Profile) (C : Crypto) (s : matter) (sad : data) (prefixed versioned : option bool) (kind label : option bytes) (ignore : option (list bytes)),
  hash_contract C -> is_diger s -> good (fun _ => True) sad -> let lab := unwrap_or label (s2b "d") in
  said_verify s sad prefixed versioned kind label ignore = Panic <->
  (forall o, sad <> VObj o) \/
  exists o, sad = VObj o /\ prefixed = Some true /\ ~ In lab (map fst o) /\ said_verify s sad None versioned kind label ignore = Ok true.
Proof. exact C52_verify_panics_pf. Qed.
Print Assumptions C52_verify_panics.

Example C52_verify_panics_ex : forall P : Profile, said_verify (H0 := toy_crypto) (Mat (s2b "E") 0 (rep 52 32)) (VObj []) (Some true) None None None None = Panic /\
  said_verify (H0 := toy_crypto) (Mat (s2b "E") 0 (rep 52 32)) (VObj []) None None None None None = Ok true /\
  said_verify (H0 := toy_crypto) (Mat (s2b "E") 0 (rep 52 32)) (VArr []) None None None None None = Panic.
Proof. exact C52_verify_panics_ex_pf. Qed.

(** C52: one identifier verifies two objects only if their placeholder texts have
    the same digest, and if the texts are the same then the objects agree
    outside the label, the ignored entries, and the version string unless it was checked. *)
Theorem C52_binding : forall (P : Profile) (C : Crypto) (s : matter) (o1 o2 : list (bytes * data)) (versioned : option bool) (p1 p2 : option bool) (kind label : option bytes) (ignore : option (list bytes)),
  hash_contract C -> is_diger s -> good float_text (VObj o1) -> good float_text (VObj o2) ->
  said_verify s (VObj o1) p1 versioned kind label ignore = Ok true -> said_verify s (VObj o2) p2 versioned kind label ignore = Ok true ->
  let lab := unwrap_or label (s2b "d") in let ign := unwrap_or ignore [] in
  exists o1' o2', sized_as (put lab (placeholder (m_code s)) o1) o1' /\ sized_as (put lab (placeholder (m_code s)) o2) o2' /\
  let t1 := to_json (VObj (without ign o1')) in let t2 := to_json (VObj (without ign o2')) in
  x_hash (m_code s) t1 = x_hash (m_code s) t2 /\
  (t1 = t2 -> without (s2b "v" :: lab :: ign) o1 = without (s2b "v" :: lab :: ign) o2 /\
     (versioned <> Some false -> without (lab :: ign) o1 = without (lab :: ign) o2)).
Proof. exact C52_binding_pf. Qed.
Print Assumptions C52_binding.

(** C52: an object changed anywhere outside the label and the ignored entries still
    verifies only if the digest function collides on these two different texts. *)
Theorem C52_tamper : forall (P : Profile) (C : Crypto) (s : matter) (o1 o2 : list (bytes * data)) (kind label : option bytes) (ignore : option (list bytes)),
  hash_contract C -> is_diger s -> good float_text (VObj o1) -> good float_text (VObj o2) ->
  let lab := unwrap_or label (s2b "d") in let ign := unwrap_or ignore [] in
  let text o := to_json (VObj (without ign (put lab (placeholder (m_code s)) o))) in
  said_verify s (VObj o1) None None kind label ignore = Ok true -> without (lab :: ign) o1 <> without (lab :: ign) o2 ->
  said_verify s (VObj o2) None None kind label ignore = Ok true ->
  text o1 <> text o2 /\ x_hash (m_code s) (text o1) = x_hash (m_code s) (text o2).
Proof. exact C52_tamper_pf. Qed.
Print Assumptions C52_tamper.

Example C52_binding_ex : forall P : Profile, is_diger (Mat (s2b "E") 0 (rep 58 32)) /\ good float_text (VObj [(s2b "d", VNull); (s2b "x", VInt 7)]) /\
  said_verify (H0 := toy_crypto) (Mat (s2b "E") 0 (rep 58 32)) (VObj [(s2b "d", VNull); (s2b "x", VInt 7)]) None None None None None = Ok true /\
  said_verify (H0 := toy_crypto) (Mat (s2b "E") 0 (rep 58 32)) (VObj [(s2b "d", VNull); (s2b "x", VInt 77)]) None None None None None = Ok false /\
  said_verify (H0 := toy_crypto) (Mat (s2b "E") 0 (rep 81 32)) (VObj [(s2b "v", VStr (s2b "KERI10JSON000000_")); (s2b "d", VNull); (s2b "x", VInt 7)]) None None None None None = Ok false.
Proof. exact C52_binding_ex_pf. Qed.

(** C51: a Saider made from an object that has the label: digest of the sized
    placeholder form; the code is the requested one, or that of the identifier in
    the label field (an empty one means E). *)
Theorem C51_new_with_sad : forall (P : Profile) (C : Crypto) (o : list (bytes * data)) (code kind label : option bytes) (ignore : option (list bytes)) (s : matter),
  hash_contract C -> NoDup (map fst o) -> let lab := unwrap_or label (s2b "d") in
  saider_new (Some (VObj o)) label kind ignore code None None None None = Ok s <->
  exists c o', In lab (map fst o) /\ In c (map fst digest_sizes) /\ (kind = None \/ kind = Some (s2b "JSON")) /\
    (code = Some c \/ code = None /\ exists t, In (lab, VStr t) o /\ (t = [] /\ c = s2b "E" \/ t <> [] /\ exists m, parse_text t = Ok m /\ m_code m = c)) /\
    sized_as (put lab (placeholder c) o) o' /\ s = Mat c 0 (x_hash c (to_json (VObj (without (unwrap_or ignore []) o')))).
Proof. exact C51_new_with_sad_pf. Qed.
Print Assumptions C51_new_with_sad.
