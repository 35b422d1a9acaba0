(** Property theorems (generated by tools/mkprop.py from AccessThms.v, which holds the proofs). *)
From Verif Require Import Base Utf8 MatterTables Matter StdStr Data Json Spec MatterDefs Crypto Prims PrimsDefs DataDefs Common CommonDefs SaiderDefs Tholder TholderDefs Sadder SadderDefs AccessDefs AccessThms.

(** C62: the current keys and the digests of the next keys: what the texts of the list read as, in order, each with a
    code of its kind; an entry that is absent, or not a list, is an empty list; the
    only panics are those of the parser *)
Theorem C62_keys : forall (P : Profile) (C : Crypto) (F : Floats) (s : sadder) (o : list (bytes * data)), holds s o ->
  (forall l, serder_verfers s = Ok l <-> (exists vs, In (s2b "k", VArr vs) o /\ Forall2 (prim_text key_codes) vs l) \/ (forall vs, ~ In (s2b "k", VArr vs) o) /\ l = []) /\
  (serder_verfers s = Panic <-> exists vs, In (s2b "k", VArr vs) o /\ text_panics key_codes vs) /\
  (forall l, serder_digers s = Ok l <-> (exists vs, In (s2b "n", VArr vs) o /\ Forall2 (prim_text (map fst digest_sizes)) vs l) \/ (forall vs, ~ In (s2b "n", VArr vs) o) /\ l = []) /\
  (serder_digers s = Panic <-> exists vs, In (s2b "n", VArr vs) o /\ text_panics (map fst digest_sizes) vs).
Proof. exact C62_keys_pf. Qed.
Print Assumptions C62_keys.

(** C62: the witnesses: the same, but an entry that is not a list is an error *)
Theorem C62_witnesses : forall (P : Profile) (C : Crypto) (F : Floats) (s : sadder) (o : list (bytes * data)), holds s o ->
  (forall l, serder_werfers s = Ok l <-> (exists vs, In (s2b "b", VArr vs) o /\ Forall2 (prim_text key_codes) vs l) \/ ~ In (s2b "b") (map fst o) /\ l = []) /\
  (serder_werfers s = Panic <-> exists vs, In (s2b "b", VArr vs) o /\ text_panics key_codes vs).
Proof. exact C62_witnesses_pf. Qed.
Print Assumptions C62_witnesses.

Example C62_keys_ex : forall P : Profile, let key := s2b "D" ++ rep 65 43 in let dig := s2b "E" ++ rep 65 43 in let wit := s2b "B" ++ rep 65 43 in
  let o := [(s2b "k", VArr [VStr key; VStr wit]); (s2b "n", VArr [VStr dig]); (s2b "b", VArr [VStr wit])] in let s := Sdr (s2b "E") [] (VObj o) (s2b "KERI") (s2b "JSON") 0 (Ver 1 0) (Mat (s2b "E") 0 []) in
  holds s o /\ serder_verfers s = Ok [Mat (s2b "D") 0 (rep 0 32); Mat (s2b "B") 0 (rep 0 32)] /\ serder_digers (H0 := toy_crypto) s = Ok [Mat (s2b "E") 0 (rep 0 32)] /\ serder_werfers s = Ok [Mat (s2b "B") 0 (rep 0 32)].
Proof. exact C62_keys_ex_pf. Qed.

(** C62: a list of keys that is not a list is silently no keys, a list of witnesses is not *)
Theorem C62_not_a_list_refuted : forall (P : Profile) (C : Crypto) (F : Floats), exists s o, holds s o /\ In (s2b "k", VStr (s2b "D" ++ rep 65 43)) o /\ serder_verfers s = Ok [] /\ In (s2b "b", VStr (s2b "B" ++ rep 65 43)) o /\ serder_werfers s = Err E_Conversion.
Proof. exact C62_not_a_list_refuted_pf. Qed.
Print Assumptions C62_not_a_list_refuted.

(** C62: the signing thresholds of the current and of the next keys *)
Theorem C62_thresholds : forall (P : Profile) (C : Crypto) (F : Floats) (s : sadder) (o : list (bytes * data)), holds s o ->
  (serder_tholder s = Ok None <-> ~ In (s2b "kt") (map fst o)) /\ (forall t, serder_tholder s = Ok (Some t) <-> exists v, In (s2b "kt", v) o /\ tholder_of_sith v = Ok t) /\ (serder_tholder s = Panic <-> exists v, In (s2b "kt", v) o /\ tholder_of_sith v = Panic) /\
  (serder_ntholder s = Ok None <-> ~ In (s2b "nt") (map fst o)) /\ (forall t, serder_ntholder s = Ok (Some t) <-> exists v, In (s2b "nt", v) o /\ tholder_of_sith v = Ok t) /\ (serder_ntholder s = Panic <-> exists v, In (s2b "nt", v) o /\ tholder_of_sith v = Panic).
Proof. exact C62_thresholds_pf. Qed.
Print Assumptions C62_thresholds.

Example C62_thresholds_ex : forall (P : Profile) (C : Crypto) (F : Floats), let o := [(s2b "kt", VStr (s2b "2")); (s2b "nt", VArr [VStr (s2b "1/2"); VStr (s2b "1/2")])] in let s := Sdr (s2b "E") [] (VObj o) (s2b "KERI") (s2b "JSON") 0 (Ver 1 0) (Mat (s2b "E") 0 []) in
  holds s o /\ exists t n, serder_tholder s = Ok (Some t) /\ tholder_num t = Ok (Some 2) /\ serder_ntholder s = Ok (Some n) /\ th_weighted n = true /\ th_size n = 2.
Proof. exact C62_thresholds_ex_pf. Qed.

(** C62: the sequence number is read from hexadecimal (of either case, with an optional '+'; the empty text is 0); it panics exactly without an entry "s" *)
Theorem C62_sequence : forall (P : Profile) (C : Crypto) (F : Floats) (s : sadder) (o : list (bytes * data)), holds s o ->
  (forall n, serder_sn s = Ok n <-> exists t, In (s2b "s", VStr t) o /\ sequence_text t n) /\
  (forall m, serder_sner s = Ok m <-> exists t n, In (s2b "s", VStr t) o /\ sequence_text t n /\ number_of n = Ok m) /\
  (serder_sn s = Panic <-> ~ In (s2b "s") (map fst o)) /\ (serder_sner s = Panic <-> ~ In (s2b "s") (map fst o)).
Proof. exact C62_sequence_pf. Qed.
Print Assumptions C62_sequence.

Example C62_sequence_ex : forall (P : Profile) (C : Crypto) (F : Floats), let o := [(s2b "s", VStr (s2b "1F"))] in let s := Sdr (s2b "E") [] (VObj o) (s2b "KERI") (s2b "JSON") 0 (Ver 1 0) (Mat (s2b "E") 0 []) in
  holds s o /\ serder_sn s = Ok 31.
Proof. exact C62_sequence_ex_pf. Qed.

(** C62: the first seen number, when there is one, is read as the text of a primitive *)
Theorem C62_first_seen : forall (P : Profile) (C : Crypto) (F : Floats) (s : sadder) (o : list (bytes * data)), holds s o ->
  (serder_fner s = Ok None <-> ~ In (s2b "f") (map fst o)) /\ (~ In (s2b "f") (map fst o) -> serder_fn s = Err E_Validation) /\
  (forall m, serder_fner s = Ok (Some m) <-> exists t, In (s2b "f", VStr t) o /\ parse_text t = Ok m) /\
  (serder_fner s = Panic <-> exists t, In (s2b "f", VStr t) o /\ parse_text t = Panic) /\
  (forall n m t, n < 2 ^ 128 -> number_of n = Ok m -> matter_qb64 m = Ok t -> In (s2b "f", VStr t) o -> serder_fn s = Ok n).
Proof. exact C62_first_seen_pf. Qed.
Print Assumptions C62_first_seen.

Example C62_first_seen_ex : forall (P : Profile) (C : Crypto) (F : Floats), let o := [(s2b "f", VStr (s2b "MAAB"))] in let s := Sdr (s2b "E") [] (VObj o) (s2b "KERI") (s2b "JSON") 0 (Ver 1 0) (Mat (s2b "E") 0 []) in
  holds s o /\ serder_fn s = Ok 1.
Proof. exact C62_first_seen_ex_pf. Qed.

(** C62: so a first seen number in hexadecimal, as the sequence number is written, is not read *)
Theorem C62_first_seen_refuted : forall (P : Profile) (C : Crypto) (F : Floats), exists s o, holds s o /\ In (s2b "s", VStr (s2b "1")) o /\ In (s2b "f", VStr (s2b "1")) o /\ serder_sn s = Ok 1 /\ forall n, serder_fn s <> Ok n.
Proof. exact C62_first_seen_refuted_pf. Qed.
Print Assumptions C62_first_seen_refuted.

(** C62: the identifier prefix, and whether the event changes the keys *)
Theorem C62_event : forall (P : Profile) (C : Crypto) (F : Floats) (s : sadder) (o : list (bytes * data)), holds s o ->
  (forall t, serder_pre s = Ok t <-> In (s2b "i", VStr t) o) /\ (serder_pre s = Panic <-> ~ In (s2b "i") (map fst o)) /\
  (forall b, serder_est s = Ok b <-> exists ilk, In (s2b "t", VStr ilk) o /\ (b = true <-> In ilk establishing)) /\ (serder_est s = Panic <-> ~ In (s2b "t") (map fst o)).
Proof. exact C62_event_pf. Qed.
Print Assumptions C62_event.

Example C62_event_ex : forall (P : Profile) (C : Crypto) (F : Floats), let o := [(s2b "t", VStr (s2b "drt")); (s2b "i", VStr (s2b "EA"))] in let s := Sdr (s2b "E") [] (VObj o) (s2b "KERI") (s2b "JSON") 0 (Ver 1 0) (Mat (s2b "E") 0 []) in
  holds s o /\ serder_est s = Ok true /\ serder_pre s = Ok (s2b "EA").
Proof. exact C62_event_ex_pf. Qed.

(** C62: what a credential says *)
Theorem C62_credential : forall (s : sadder) (o : list (bytes * data)), holds s o ->
  (forall t, creder_issuer s = Ok t <-> In (s2b "i", VStr t) o) /\ (creder_issuer s = Panic <-> ~ In (s2b "i") (map fst o)) /\
  (forall t, creder_schema s = Ok t <-> In (s2b "s", VStr t) o) /\ (creder_schema s = Panic <-> ~ In (s2b "s") (map fst o)) /\
  (forall v, creder_subject s = Ok v <-> In (s2b "a", v) o) /\ (creder_subject s = Panic <-> ~ In (s2b "a") (map fst o)) /\
  (forall t, creder_status s = Ok (Some t) <-> In (s2b "ri", VStr t) o) /\ (creder_status s = Ok None <-> ~ In (s2b "ri") (map fst o)) /\ creder_status s <> Panic /\
  (forall v, creder_chains s = Ok v <-> In (s2b "e", v) o \/ ~ In (s2b "e") (map fst o) /\ v = VObj []).
Proof. exact C62_credential_pf. Qed.
Print Assumptions C62_credential.

Example C62_credential_ex : let o := [(s2b "i", VStr (s2b "x")); (s2b "a", VObj [])] in let s := Sdr (s2b "E") [] (VObj o) (s2b "ACDC") (s2b "JSON") 0 (Ver 1 0) (Mat (s2b "E") 0 []) in
  holds s o /\ creder_issuer s = Ok (s2b "x") /\ creder_subject s = Ok (VObj []) /\ creder_status s = Ok None /\ creder_chains s = Ok (VObj []) /\ creder_schema s = Panic.
Proof. exact C62_credential_ex_pf. Qed.

(** C62: every message that was loaded holds an object with distinct keys, so all of the above applies to it; its identifier is at the front of its entry "d", unless that has padding characters there *)
Theorem C62_loaded : forall (P : Profile) (C : Crypto) (F : Floats) (code kind : option bytes) (ked : option data) (sad : option sadder) (raw : bytes) (s : sadder), float_shape F ->
  serder_new code (Some raw) kind ked sad = Ok s \/ creder_new code (Some raw) kind ked sad = Ok s ->
  exists o t k, holds s o /\ In (s2b "d", VStr t) o /\ k <= len t /\ (~ In 61 (take k t) -> sadder_said s = Ok (take k t) /\ sadder_saidb s = Ok (take k t)).
Proof. exact C62_loaded_pf. Qed.
Print Assumptions C62_loaded.

Example C62_loaded_ex : exists F : Floats, float_shape F /\ forall P : Profile, exists s, serder_new (H0 := toy_crypto) (H1 := F) None (Some (s2b "{""v"":""KERI10JSON00004c_"",""d"":""" ++ s2b "E" ++ rep 65 43 ++ s2b """}")) None None None = Ok s /\
  sadder_said s = Ok (s2b "E" ++ rep 65 43).
Proof. exact C62_loaded_ex_pf. Qed.

(** C62: and so does every message made from an object with distinct keys *)
Theorem C62_made : forall (P : Profile) (C : Crypto) (F : Floats) (code kind : option bytes) (sad : option sadder) (pre post : list (bytes * data)) (vs : bytes) (s : sadder),
  len (to_json (VObj pre)) <= 7 -> let o x := pre ++ (s2b "v", VStr x) :: post in NoDup (map fst (o vs)) ->
  serder_new code None kind (Some (VObj (o vs))) sad = Ok s \/ creder_new code None kind (Some (VObj (o vs))) sad = Ok s ->
  exists w, holds s (o w) /\ forall k x, k <> s2b "v" -> In (k, x) (o w) <-> In (k, x) (o vs).
Proof. exact C62_made_pf. Qed.
Print Assumptions C62_made.
