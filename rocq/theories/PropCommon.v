(** Property theorems (generated by tools/mkprop.py from CommonThms.v, which holds the proofs). *)
From Verif Require Import Base Utf8 StdStr Data Spec Common CommonDefs CommonThms.

(** C48: deversify accepts exactly the version strings of a known protocol, JSON,
    and gives back their parts; it never panics. *)
Theorem C48_deversify : forall (vs ident kind : bytes) (major minor size : N),
  deversify vs = Ok (VP ident kind (Ver major minor) size) <->
  (ident = s2b "KERI" \/ ident = s2b "ACDC") /\ kind = s2b "JSON" /\ major < 16 /\ minor < 16 /\ size < 2 ^ 24 /\ vs = version_text ident major minor kind size.
Proof. exact C48_deversify_pf. Qed.
Print Assumptions C48_deversify.

Theorem C48_deversify_total : forall vs : bytes, deversify vs <> Panic.
Proof. exact C48_deversify_total_pf. Qed.
Print Assumptions C48_deversify_total.

(** versify of parts that fit gives that version string, and deversify reads it back. *)
Theorem C48_versify : forall (ident kind : bytes) (major minor size : N), ident = s2b "KERI" \/ ident = s2b "ACDC" -> kind = s2b "JSON" -> major < 16 -> minor < 16 -> size < 2 ^ 24 ->
  exists vs, versify (Some ident) (Some (Ver major minor)) (Some kind) (Some size) = Ok vs /\ vs = version_text ident major minor kind size /\
  deversify vs = Ok (VP ident kind (Ver major minor) size).
Proof. exact C48_versify_pf. Qed.
Print Assumptions C48_versify.

(** Other protocols and kinds are refused by versify. *)
Theorem C48_versify_refuses : forall (ident kind : bytes) (v : version) (size : N), ~ (ident = s2b "KERI" \/ ident = s2b "ACDC") \/ kind <> s2b "JSON" ->
  versify (Some ident) (Some v) (Some kind) (Some size) = Err E_Validation.
Proof. exact C48_versify_refuses_pf. Qed.
Print Assumptions C48_versify_refuses.

Example C48_version_ex : version_text (s2b "KERI") 1 0 (s2b "JSON") 251 = s2b "KERI10JSON0000fb_" /\
  deversify (s2b "ACDC1fJSONffffff_") = Ok (VP (s2b "ACDC") (s2b "JSON") (Ver 1 15) 16777215) /\ deversify (s2b "xKERI10JSON0000fb_") = Err E_ParseInt.
Proof. exact C48_version_ex_pf. Qed.

(** Outside those ranges versify succeeds but makes a string that deversify refuses. *)
Theorem C48_versify_overflow_refuted : (exists vs e, versify None None None (Some (2 ^ 24)) = Ok vs /\ deversify vs = Err e) /\
  (exists vs e, versify None (Some (Ver 16 0)) None None = Ok vs /\ deversify vs = Err e).
Proof. exact C48_versify_overflow_refuted_pf. Qed.
Print Assumptions C48_versify_overflow_refuted.

(** C49: if "v" is the first entry, or the entries before it take at most 7
    characters of JSON, then sizeify succeeds exactly for a version string of
    version 1.0 and (up to 2^32 bytes, see [C49_sizeify_short]) less than 2^24 bytes of
    JSON; the result's raw is the JSON of the result's object, which differs from
    the given one in the size stated by "v", and that is the length of raw (mod 2^32). *)
Theorem C49_sizeify : forall (pre post : list (bytes * data)) (vs : bytes) (kind : option bytes) (r : sizeified),
  ~ In (s2b "v") (map fst pre) -> len (to_json (VObj pre)) <= 7 ->
  let obj (x : bytes) := VObj (pre ++ (s2b "v", VStr x) :: post) in
  let size := len (to_json (obj vs)) mod 2 ^ 32 in
  sizeify (obj vs) kind = Ok r <->
  exists ident m, (ident = s2b "KERI" \/ ident = s2b "ACDC") /\ m < 2 ^ 24 /\ vs = version_text ident 1 0 (s2b "JSON") m /\
    (kind = None \/ kind = Some (s2b "JSON")) /\ size < 2 ^ 24 /\
    sz_ked r = obj (version_text ident 1 0 (s2b "JSON") size) /\ sz_raw r = to_json (sz_ked r) /\
    sz_ident r = ident /\ sz_kind r = s2b "JSON" /\ sz_version r = Ver 1 0.
Proof. exact C49_sizeify_pf. Qed.
Print Assumptions C49_sizeify.

(** For JSON below 2^32 bytes: the stated size is the true length, and the length does not change. *)
Theorem C49_sizeify_short : forall (pre post : list (bytes * data)) (vs : bytes) (kind : option bytes) (r : sizeified),
  ~ In (s2b "v") (map fst pre) -> len (to_json (VObj pre)) <= 7 -> let ked := VObj (pre ++ (s2b "v", VStr vs) :: post) in
  len (to_json ked) < 2 ^ 32 -> sizeify ked kind = Ok r ->
  sz_raw r = to_json (sz_ked r) /\ vget (sz_ked r) (s2b "v") = Ok (VStr (version_text (sz_ident r) 1 0 (s2b "JSON") (len (sz_raw r)))) /\
  len (sz_raw r) = len (to_json ked) /\ len (sz_raw r) < 2 ^ 24 /\ sizeify (sz_ked r) kind = Ok r.
Proof. exact C49_sizeify_short_pf. Qed.
Print Assumptions C49_sizeify_short.

Example C49_sizeify_ex : sizeify (VObj [(s2b "v", VStr (s2b "KERI10JSON000000_")); (s2b "d", VStr (s2b "abc"))]) None =
  Ok (SZ (s2b "{""v"":""KERI10JSON000023_"",""d"":""abc""}") (s2b "KERI") (s2b "JSON") (VObj [(s2b "v", VStr (s2b "KERI10JSON000023_")); (s2b "d", VStr (s2b "abc"))]) (Ver 1 0)).
Proof. exact C49_sizeify_ex_pf. Qed.

(** For every object: raw is the JSON of the given object with its first
    version-like text, which starts within 12 characters, replaced by a version
    string that states the length; "v" is set to that version string. *)
Theorem C49_sizeify_general : forall (ked : data) (kind : option bytes) (r : sizeified), sizeify ked kind = Ok r ->
  let json := to_json ked in let size := len json mod 2 ^ 32 in
  exists k m, first_version_at json k /\ k <= 12 /\ size < 2 ^ 24 /\ m < 2 ^ 24 /\ let new := version_text (sz_ident r) 1 0 (s2b "JSON") size in
  vget ked (s2b "v") = Ok (VStr (version_text (sz_ident r) 1 0 (s2b "JSON") m)) /\
  sz_raw r = take k json ++ new ++ drop (k + 17) json /\ len (sz_raw r) = len json /\ vset ked (s2b "v") (VStr new) = Ok (sz_ked r).
Proof. exact C49_sizeify_general_pf. Qed.
Print Assumptions C49_sizeify_general.

(** The general form does not imply that raw is the JSON of the result: a key may have the form of a version string. *)
Theorem C49_sizeify_general_refuted : exists ked r, sizeify ked None = Ok r /\ sz_raw r <> to_json (sz_ked r).
Proof. exact C49_sizeify_general_refuted_pf. Qed.
Print Assumptions C49_sizeify_general_refuted.

(** sizeify returns on every value. *)
Theorem C49_sizeify_total : forall (ked : data) (kind : option bytes), sizeify ked kind <> Panic.
Proof. exact C49_sizeify_total_pf. Qed.
Print Assumptions C49_sizeify_total.

(** C50: sniff succeeds exactly on UTF-8 texts of at least 29 bytes whose first
    version-like text starts within 12 bytes and is of kind JSON, and returns its parts (whatever the protocol). *)
Theorem C50_sniff : forall (raw ident kind : bytes) (major minor size : N),
  sniff raw = Ok (VP ident kind (Ver major minor) size) <->
  29 <= len raw /\ utf8_valid raw = true /\ tag ident /\ kind = s2b "JSON" /\ major < 16 /\ minor < 16 /\ size < 2 ^ 24 /\
  exists k r, k <= 12 /\ first_version_at raw k /\ raw = take k raw ++ version_text ident major minor kind size ++ r.
Proof. exact C50_sniff_pf. Qed.
Print Assumptions C50_sniff.

(** sniff returns on every byte string. *)
Theorem C50_sniff_total : forall raw : bytes, sniff raw <> Panic.
Proof. exact C50_sniff_total_pf. Qed.
Print Assumptions C50_sniff_total.

Example C50_sniff_ex : sniff (s2b "{""v"":""ABCD2aJSON000123_"",""t"":1}") = Ok (VP (s2b "ABCD") (s2b "JSON") (Ver 2 10) 291).
Proof. exact C50_sniff_ex_pf. Qed.
