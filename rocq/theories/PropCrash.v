(** Property theorems (generated by tools/mkprop.py from CrashThms.v, which holds the proofs). *)
From Verif Require Import Base Utf8 MatterTables Matter IndexerTables Indexer StdStr Data Json Spec MatterDefs IndexerDefs Crypto Prims PrimsDefs Signer SignerDefs DataDefs Common CommonDefs Saider SaiderDefs Tholder TholderDefs Sadder SadderDefs Pather PatherDefs CrashDefs CrashThms.

(** C66: building from a code and raw bytes panics exactly when the code starts like a variable
    size code but is too short for one (or a character lies across the place where it is cut),
    unless the raw bytes are too long for that anyway *)
Theorem C66_build : forall (P : Profile) (code raw : bytes),
  build code raw = Panic <->
  (len raw mod 2 ^ 32 + 2) / 3 < 64 ^ 4 /\ exists c r, code = c :: r /\
   (In c (s2b "456") /\ (len code < 2 \/ inside code 1 \/ inside code 2) \/ In c (s2b "789") /\ (len code < 4 \/ inside code 1 \/ inside code 4)).
Proof. exact C66_build_pf. Qed.
Print Assumptions C66_build.

Example C66_build_ex : forall P : Profile, build (s2b "7AA") [1] = Panic /\ build (s2b "4" ++ [195; 169]) [] = Panic /\ build (s2b "4B") [1] <> Panic.
Proof. exact C66_build_ex_pf. Qed.

(** C66: the constructors of keys, signatures, digests, numbers, dates and texts panic exactly
    when the general constructor does, and with a number or Base64 text they never do *)
Theorem C66_primitives : forall (P : Profile) (C : Crypto) (verfer : option matter) (index ondex : option N) (code raw qb64b qb64 qb2 : option bytes) (n : N) (h t : bytes), hash_contract C ->
  (cigar_new verfer code raw qb64b qb64 qb2 = Panic <-> matter_new code raw qb64b qb64 qb2 = Panic) /\
  (siger_new verfer index ondex code raw qb64b qb64 qb2 = Panic <-> indexer_new index ondex code raw qb64b qb64 qb2 = Panic) /\
  (forall ser, diger_new ser code raw qb64b qb64 qb2 = Panic <-> matter_new code raw qb64b qb64 qb2 = Panic) /\
  (forall num numh, (raw, qb64b, qb64, qb2) <> (None, None, None, None) -> number_new num numh code raw qb64b qb64 qb2 = Panic <-> In (unwrap_or code (s2b "M")) (map fst number_widths) /\ matter_new (Some (unwrap_or code (s2b "M"))) raw qb64b qb64 qb2 = Panic) /\
  number_new (Some n) None code None None None None <> Panic /\ number_new None (Some h) code None None None None <> Panic /\
  seqner_of n <> Panic /\ seqner_of_hex h <> Panic /\
  bexter_of t <> Panic.
Proof. exact C66_primitives_pf. Qed.
Print Assumptions C66_primitives.

(** C66: computing an identifier from an object panics exactly when no code is given and the text
    at the label makes the parser panic; values that are not objects are errors *)
Theorem C66_saider : forall (P : Profile) (C : Crypto) (sad : data) (code raw kind label : option bytes) (ignore : option (list bytes)),
  hash_contract C -> DataDefs.good (fun _ => True) sad -> (code = None \/ raw = None) ->
  saider_new (Some sad) label kind ignore code raw None None None = Panic <->
  code = None /\ exists o t, sad = VObj o /\ In (unwrap_or label (s2b "d"), VStr t) o /\ parse_text t = Panic.
Proof. exact C66_saider_pf. Qed.
Print Assumptions C66_saider.

(** An object with the text "5AAA" at 'd' panics (that code has no such size), one with a proper text does not. *)
Example C66_saider_ex : forall (P : Profile) (C : Crypto), let sad t := VObj [(s2b "d", VStr t)] in
  (forall t, DataDefs.good (fun _ => True) (sad t)) /\ parse_text (s2b "5AAA") = Panic /\ saider_new (Some (sad (s2b "5AAA"))) None None None None None None None None = Panic /\ parse_text (s2b "xyz") <> Panic.
Proof. exact C66_saider_ex_pf. Qed.

(** C66: an event or credential built from an object panics exactly when the version string is in
    order and the entry 'd' is missing or its text makes the parser panic *)
Theorem C66_event : forall (P : Profile) (C : Crypto) (F : Floats) (code kind : option bytes) (ked : data) (sad : option sadder), DataDefs.good (fun _ => True) ked ->
  let crashes := (exists r, sizeify ked kind = Ok r) /\ exists o, ked = VObj o /\ (~ In (s2b "d") (map fst o) \/ exists t, In (s2b "d", VStr t) o /\ parse_text t = Panic) in
  (serder_new code None kind (Some ked) sad = Panic <-> crashes) /\ (creder_new code None kind (Some ked) sad = Panic <-> crashes).
Proof. exact C66_event_pf. Qed.
Print Assumptions C66_event.

(** C66: a signing threshold given as a value panics at most for a weight "0/0" or weights too many
    or too fine for 32 bits; given as text it panics exactly when reading the JSON panics or the
    list that was read does *)
Theorem C66_threshold : forall (P : Profile) (F : Floats),
  (forall v, harmless v -> tholder_of_thold v <> Panic) /\
  (forall v, (forall s, v <> VStr s) -> harmless v -> harmless (VArr [v]) -> tholder_of_sith v <> Panic) /\
  (forall s, tholder_of_sith (VStr s) = Panic <-> (exists r, s = s2b "[" ++ r) /\ (from_json s = Panic \/ exists l, from_json s = Ok (VArr l) /\ tholder_of_sith (VArr l) = Panic)).
Proof. exact C66_threshold_pf. Qed.
Print Assumptions C66_threshold.

(** Thresholds that are harmless, and some that are not. *)
Example C66_threshold_ex : harmless (VArr [VArr [VStr (s2b "1/2"); VStr (s2b "2/3"); VInt 1]; VNull]) /\
  forall (P : Profile) (F : Floats), tholder_of_sith (VArr [VStr (s2b "0/0")]) = Panic /\ tholder_of_sith (VStr (s2b "[""1/2"",""0/0""]")) = Panic /\ tholder_of_sith (VStr (s2b "[9223372036854775808]")) = Panic.
Proof. exact C66_threshold_ex_pf. Qed.

(** C66: the text and path of a Pather or Bexter never panic, nor do testing for a prefix and
    joining; only strip can (see C35) *)
Theorem C66_path : forall (P : Profile) (C : Crypto) (a b : matter) (path : data) (t : bytes), bytes_ok (m_raw a) = true -> bytes_ok (m_raw b) = true ->
  bext_of a <> Panic /\ pather_path a <> Panic /\ pather_starts_with a b <> Panic /\ pather_root a b <> Panic /\
  pather_of_bext t <> Panic /\ pather_of_path path <> Panic.
Proof. exact C66_path_pf. Qed.
Print Assumptions C66_path.

(** C42: the limen of a threshold is accepted exactly if it is a number or a text of weights, and means
    the threshold of that number or of these weights; everything else is an error *)
Theorem C42_limen : forall (P : Profile) (F : Floats) (l : bytes),
  (l = [] -> tholder_of_limen l = Err E_EmptyMaterial) /\ (utf8_valid l = false -> tholder_of_limen l = Err E_Utf8) /\
  (forall m, utf8_valid l = true -> parse_text l = Ok m ->
     (forall v, limen_value m v -> tholder_of_limen l = tholder_of_thold v) /\
     (~ In (m_code m) (limen_numbers ++ limen_texts) -> tholder_of_limen l = Err E_UnexpectedCode)) /\
  (forall t, tholder_of_limen l = Ok t -> utf8_valid l = true /\ exists m v, parse_text l = Ok m /\ limen_value m v /\ tholder_of_thold v = Ok t).
Proof. exact C42_limen_pf. Qed.
Print Assumptions C42_limen.

Example C42_limen_ex : forall P : Profile, exists m, parse_text (s2b "4AAEA1s2c1s2c1s3a1c0") = Ok m /\ limen_value m (clause_texts [[s2b "1/2"; s2b "1/2"; s2b "1/3"]; [s2b "1"; s2b "0"]]) /\
  exists m, parse_text (s2b "MAAC") = Ok m /\ limen_value m (VInt 2).
Proof. exact C42_limen_ex_pf. Qed.

(** C66: exactly which limens panic: those cut within their code (the parser itself reports these),
    and those with the code of a number or text that the parser panics on, or that give a panicking threshold *)
Theorem C66_limen : forall (P : Profile) (F : Floats) (l : bytes), tholder_of_limen l = Panic <->
  utf8_valid l = true /\ exists c r h, l = c :: r /\ code_length c h /\
   (len l < h \/ inside l h \/
    In (take h l) (limen_numbers ++ limen_texts) /\ (parse_text l = Panic \/ exists m, parse_text l = Ok m /\ (In (m_code m) limen_numbers /\ number_num m = Panic \/ exists v, limen_value m v /\ tholder_of_thold v = Panic))).
Proof. exact C66_limen_pf. Qed.
Print Assumptions C66_limen.

(** A text shorter than its code, a number text with '=', and a weight "0/0" panic. *)
Example C66_limen_ex : forall (P : Profile) (F : Floats), tholder_of_limen (s2b "1") = Panic /\ tholder_of_limen (s2b "MAA=") = Panic /\ tholder_of_limen (s2b "4AABA0s0") = Panic /\ tholder_of_limen (s2b "EAAA") = Err E_UnexpectedCode.
Proof. exact C66_limen_ex_pf. Qed.
