(** Property theorems (generated by tools/mkprop.py from TextThms.v, which holds the proofs). *)
From Verif Require Import Base Utf8 Matter Counter Indexer StdStr Data Json Crypto Prims Common Sadder Spec MatterDefs CounterDefs IndexerDefs PrimsDefs DataDefs CommonDefs SadderDefs GrammarDefs TextDefs TextThms.

(** C72: the bytes that are taken as text are exactly the UTF-8 of sequences of Unicode scalar values *)
Theorem C72_utf8 : forall s : bytes, utf8_valid s = true <-> utf8_text s.
Proof. exact C72_utf8_pf. Qed.
Print Assumptions C72_utf8.

(** "aé€😀", and what is refused: an overlong form, a surrogate, a code point above U+10FFFF, a character cut short *)
Example C72_utf8_ex : utf8_text [97; 195; 169; 226; 130; 172; 240; 159; 152; 128] /\
  ~ utf8_text [192; 128] /\ ~ utf8_text [224; 159; 191] /\ ~ utf8_text [237; 160; 128] /\ ~ utf8_text [240; 143; 191; 191] /\ ~ utf8_text [244; 144; 128; 128] /\ ~ utf8_text [226; 130].
Proof. exact C72_utf8_ex_pf. Qed.

(** C72: giving a primitive, counter or signature as bytes is the same as giving it as text; bytes that are no text are an error, not a crash *)
Theorem C72_bytes : forall (P : Profile) (t : bytes),
  (utf8_text t -> parse_text_bytes t = parse_text t /\ counter_parse_text_bytes t = counter_parse_text t /\ sig_parse_text_bytes t = sig_parse_text t) /\
  (~ utf8_text t -> parse_text_bytes t = Err E_Utf8 /\ counter_parse_text_bytes t = Err E_Utf8 /\ sig_parse_text_bytes t = Err E_Utf8).
Proof. exact C72_bytes_pf. Qed.
Print Assumptions C72_bytes.

Example C72_bytes_ex : forall P : Profile, (exists m, parse_text_bytes (s2b "BAAAAAAAAAAAAAAAAAAAAAAAAAAAAAAAAAAAAAAAAAAA" ++ [195; 169]) = Ok m) /\ parse_text_bytes (s2b "BAAAAAAAAAAAAAAAAAAAAAAAAAAAAAAAAAAAAAAAAAAA" ++ [195]) = Err E_Utf8.
Proof. exact C72_bytes_ex_pf. Qed.

(** C72: all strings and keys of a value read from a text are texts, whatever escapes they were written with; and the JSON of a value made of texts is a text *)
Theorem C72_json : forall (F : Floats) (s : bytes) (v : data),
  (utf8_text s -> from_json s = Ok v -> all_texts v) /\ (good float_text v -> all_texts v -> utf8_text (to_json v)).
Proof. exact C72_json_pf. Qed.
Print Assumptions C72_json.

(** escapes, a surrogate pair and a key with plain multi-byte characters; a lone surrogate would be no text and is refused *)
Example C72_json_ex : (exists s, s = s2b "{""" ++ [195; 169] ++ s2b """:""\u00e9\ud83d\ude00\u0800""}" /\ utf8_text s /\ from_json (H := toy_floats) s = Ok (VObj [([195; 169], VStr [195; 169; 240; 159; 152; 128; 224; 160; 128])])) /\
  from_json (H := toy_floats) (s2b """\ud83d""") = Err E_Json.
Proof. exact C72_json_ex_pf. Qed.

(** C72: what is loaded is made of texts, and bytes that are no text are not loaded *)
Theorem C72_loaded : forall (P : Profile) (C : Crypto) (F : Floats) (code : option bytes) (raw : bytes) (s : sadder) new, new = serder_new \/ new = creder_new ->
  new code (Some raw) None None None = Ok s -> utf8_text raw /\ utf8_text (sd_raw s) /\ all_texts (sd_ked s).
Proof. exact C72_loaded_pf. Qed.
Print Assumptions C72_loaded.

(** C71: a Serder (Creder) is built from bytes exactly when the announced part of them is a text of the JSON grammar that stands for an object with a digest of the
    expected code at "d"; in whatever layout, with whatever escapes *)
Theorem C71_load : forall (P : Profile) (C : Crypto) (F : Floats) (code : option bytes) (raw : bytes) (s : sadder) (new : option bytes -> option bytes -> option bytes -> option data -> option sadder -> outcome sadder) (ident : bytes),
  new = serder_new /\ ident = s2b "KERI" \/ new = creder_new /\ ident = s2b "ACDC" ->
  new code (Some raw) None None None = Ok s <->
  exists size j v m, announces raw ident size /\ size <= len raw /\ utf8_text (take size raw) /\ jtext 127 (take size raw) j /\ same j v /\
    identified v (unwrap_or code (s2b "E")) m /\ s = Sdr (unwrap_or code (s2b "E")) (take size raw) v ident (s2b "JSON") size (Ver 1 0) m.
Proof. exact C71_load_pf. Qed.
Print Assumptions C71_load.

(** an event written with white space and escapes *)
Example C71_load_ex : forall P : Profile, exists s, serder_new (H0 := toy_crypto) (H1 := toy_floats) None (Some (s2b "{""v"" : ""KERI10JSON00005f_"", ""\u0064"" : ""EAAAAAAAAAAAAAAAAAAAAAAAAAAAAAAAAAAAAAAAAAAA"" , ""a"":[]}")) None None None = Ok s /\
  sd_ked s = VObj [(s2b "v", VStr (s2b "KERI10JSON00005f_")); (s2b "d", VStr (s2b "EAAAAAAAAAAAAAAAAAAAAAAAAAAAAAAAAAAAAAAAAAAA")); (s2b "a", VArr [])].
Proof. exact C71_load_ex_pf. Qed.
