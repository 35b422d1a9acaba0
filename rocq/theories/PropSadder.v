(** Property theorems (generated by tools/mkprop.py from SadderThms.v, which holds the proofs). *)
From Verif Require Import Base Utf8 MatterTables Matter StdStr Data Json Spec MatterDefs Crypto Prims PrimsDefs DataDefs Common CommonDefs Saider SaiderDefs Sadder SadderDefs SadderThms.

(** C50: a Serder (Creder) is built from bytes exactly when they announce a version
    1.0 JSON KERI (ACDC) message no longer than they are, the announced part reads
    as an object, and its "d" is the text of a digest of the expected code; then it
    holds that part and nothing of what follows it. *)
Theorem C50_load : forall (P : Profile) (C : Crypto) (F : Floats) (code kind : option bytes) (ked : option data) (sad : option sadder) (raw : bytes) (s : sadder),
  (serder_new code (Some raw) kind ked sad = Ok s <-> loaded P F (s2b "KERI") (unwrap_or code (s2b "E")) raw s) /\
  (creder_new code (Some raw) kind ked sad = Ok s <-> loaded P F (s2b "ACDC") (unwrap_or code (s2b "E")) raw s).
Proof. exact C50_load_pf. Qed.
Print Assumptions C50_load.

(** Loading panics exactly when a version 1.0 JSON message is announced and: fewer
    bytes follow than announced; or its text reads as JSON with a number that a
    value cannot hold (see C47); or what is read has no entry "d"; or "d" is a
    string on which the identifier parser panics (see C09). *)
Theorem C50_load_panics : forall (P : Profile) (C : Crypto) (F : Floats) (code kind : option bytes) (ked : option data) (sad : option sadder) (raw : bytes),
  (serder_new code (Some raw) kind ked sad = Panic <-> creder_new code (Some raw) kind ked sad = Panic) /\
  (serder_new code (Some raw) kind ked sad = Panic <->
   exists ident size, announces raw ident size /\
     (len raw < size \/ size <= len raw /\ utf8_valid (take size raw) = true /\
      (from_json (take size raw) = Panic \/ exists v, from_json (take size raw) = Ok v /\
        ((forall x, vget v (s2b "d") <> Ok x) \/ exists t, vget v (s2b "d") = Ok (VStr t) /\ parse_text t = Panic)))).
Proof. exact C50_load_panics_pf. Qed.
Print Assumptions C50_load_panics.

(** a message with trailing text loads, and holds only the message; a message
    announcing too much, or without "d", or holding 1e300, panics *)
Example C50_load_ex : forall P : Profile, let said := s2b "E" ++ rep 65 43 in let msg := s2b "{""v"":""KERI10JSON00004c_"",""d"":""" ++ said ++ s2b """}" in
  serder_new (H0 := toy_crypto) (H1 := toy_floats) None (Some (msg ++ s2b "-AAB")) None None None =
    Ok (Sdr (s2b "E") msg (VObj [(s2b "v", VStr (s2b "KERI10JSON00004c_")); (s2b "d", VStr said)]) (s2b "KERI") (s2b "JSON") 76 (Ver 1 0) (Mat (s2b "E") 0 (rep 0 32))) /\
  creder_new (H0 := toy_crypto) (H1 := toy_floats) None (Some msg) None None None = Err E_Value /\
  serder_new (H0 := toy_crypto) (H1 := toy_floats) (Some (s2b "F")) (Some msg) None None None = Err E_Validation /\
  serder_new (H0 := toy_crypto) (H1 := toy_floats) None (Some (take 75 msg)) None None None = Panic /\
  serder_new (H0 := toy_crypto) (H1 := toy_floats) None (Some (s2b "{""v"":""KERI10JSON00001f_"",""x"":1}")) None None None = Panic /\
  serder_new (H0 := toy_crypto) (H1 := toy_floats) None (Some (s2b "{""v"":""KERI10JSON000023_"",""x"":1e300}")) None None None = Panic.
Proof. exact C50_load_ex_pf. Qed.

(** C55: what was loaded loads again, alone or followed by any text, as the same message. *)
Theorem C55_load_again : forall (P : Profile) (C : Crypto) (F : Floats) (code : option bytes) (raw tail : bytes) (s : sadder), utf8_valid tail = true ->
  (serder_new code (Some raw) None None None = Ok s -> serder_new code (Some (sd_raw s ++ tail)) None None None = Ok s) /\
  (creder_new code (Some raw) None None None = Ok s -> creder_new code (Some (sd_raw s ++ tail)) None None None = Ok s).
Proof. exact C55_load_again_pf. Qed.
Print Assumptions C55_load_again.

(** C55: a Serder (Creder) is made from an object in which the entries before "v"
    take at most 7 characters of JSON exactly when "v" is a KERI (ACDC) version
    1.0 JSON version string, the size fits and "d" is a digest text of the code; raw is
    the JSON of the stored object, whose version string states its size. *)
Theorem C55_from_ked : forall (P : Profile) (C : Crypto) (F : Floats) (code kind : option bytes) (sad : option sadder) (pre post : list (bytes * data)) (vs : bytes) (s : sadder),
  ~ In (s2b "v") (map fst pre) -> len (to_json (VObj pre)) <= 7 -> let obj x := VObj (pre ++ (s2b "v", VStr x) :: post) in
  (serder_new code None kind (Some (obj vs)) sad = Ok s <-> made P (s2b "KERI") (unwrap_or code (s2b "E")) kind obj vs s) /\
  (creder_new code None kind (Some (obj vs)) sad = Ok s <-> made P (s2b "ACDC") (unwrap_or code (s2b "E")) kind obj vs s).
Proof. exact C55_from_ked_pf. Qed.
Print Assumptions C55_from_ked.

(** C55: then the parts agree, making it again from the stored object gives it
    back, and so does loading its raw bytes, alone or followed by any text, if its
    values survive JSON (see C46). *)
Theorem C55_consistent : forall (P : Profile) (C : Crypto) (F : Floats) (code kind : option bytes) (sad : option sadder) (pre post : list (bytes * data)) (vs : bytes) (s : sadder),
  ~ In (s2b "v") (map fst pre) -> len (to_json (VObj pre)) <= 7 -> let ked := VObj (pre ++ (s2b "v", VStr vs) :: post) in len (to_json ked) < 2 ^ 32 ->
  forall new, new = serder_new \/ new = creder_new -> new code None kind (Some ked) sad = Ok s ->
  sd_raw s = to_json (sd_ked s) /\ sd_size s = len (sd_raw s) /\ sd_code s = unwrap_or code (s2b "E") /\ sd_kind s = s2b "JSON" /\ sd_version s = Ver 1 0 /\
  vget (sd_ked s) (s2b "v") = Ok (VStr (version_text (sd_ident s) 1 0 (s2b "JSON") (sd_size s))) /\
  (forall k, k <> s2b "v" -> vget (sd_ked s) k = vget ked k) /\
  (exists t, vget ked (s2b "d") = Ok (VStr t) /\ parse_text t = Ok (sd_saider s)) /\
  new code None kind (Some (sd_ked s)) sad = Ok s /\
  (survives F ked -> forall tail, utf8_valid tail = true -> new code (Some (sd_raw s ++ tail)) kind None sad = Ok s).
Proof. exact C55_consistent_pf. Qed.
Print Assumptions C55_consistent.

(** C55: repopulating sets every field as construction does, whatever was there before ... *)
Theorem C55_populate : forall (P : Profile) (C : Crypto) (F : Floats) (self s : sadder) (raw : bytes) (ked : data) (kind : option bytes),
  (populate_from_raw self raw = (s, Ok tt) <-> exists ident, loaded P F ident (sd_code self) raw s) /\
  (populate_from_ked self ked kind = (s, Ok tt) -> forall other, sd_code other = sd_code self -> populate_from_ked other ked kind = (s, Ok tt)) /\
  (forall k, populate_from_kind_and_self self k = populate_from_ked self (sd_ked self) (Some k)) /\
  (serder_new (Some (sd_code self)) None kind (Some ked) None = Ok s <-> populate_from_ked self ked kind = (s, Ok tt) /\ sd_ident s = s2b "KERI") /\
  (creder_new (Some (sd_code self)) None kind (Some ked) None = Ok s <-> populate_from_ked self ked kind = (s, Ok tt) /\ sd_ident s = s2b "ACDC").
Proof. exact C55_populate_pf. Qed.
Print Assumptions C55_populate.

(** ... but a failed repopulation can leave the object changed, in part. *)
Theorem C55_populate_atomic_refuted : exists raw s s' e, forall P : Profile, serder_new (H0 := toy_crypto) (H1 := toy_floats) None (Some raw) None None None = Ok s /\
  exists raw2, populate_from_raw (H0 := toy_crypto) (H1 := toy_floats) s raw2 = (s', Err e) /\ sd_raw s' <> sd_raw s /\ sd_saider s' = sd_saider s.
Proof. exact C55_populate_atomic_refuted_pf. Qed.
Print Assumptions C55_populate_atomic_refuted.

(** C55: loading does not check the identifier: this message loads although its "d" is not the digest of its contents. *)
Theorem C55_said_verified_refuted : exists raw s, forall P : Profile, serder_new (H0 := toy_crypto) (H1 := toy_floats) None (Some raw) None None None = Ok s /\
  said_verify (H0 := toy_crypto) (sd_saider s) (sd_ked s) None None None None None = Ok false.
Proof. exact C55_said_verified_refuted_pf. Qed.
Print Assumptions C55_said_verified_refuted.

(** an object that satisfies the hypotheses of the theorems on C55 *)
Example C55_consistent_ex : forall P : Profile, let said := s2b "E" ++ rep 65 43 in let ked vs := VObj [(s2b "v", VStr vs); (s2b "d", VStr said); (s2b "a", VArr [VInt 1; VStr [195; 169]])] in
  (exists s, serder_new (H0 := toy_crypto) (H1 := toy_floats) None None None (Some (ked (s2b "KERI10JSON000000_"))) None = Ok s /\ sd_size s = 89 /\ sd_ked s = ked (s2b "KERI10JSON000059_")) /\ survives toy_floats (ked (s2b "KERI10JSON000000_")).
Proof. exact C55_consistent_ex_pf. Qed.
