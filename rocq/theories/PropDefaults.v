(** Property theorems (generated by tools/mkprop.py from DefaultsThms.v, which holds the proofs). *)
From Verif Require Import Base Utf8 MatterTables Matter StdStr Data Json Spec MatterDefs Counter Indexer Crypto Prims PrimsDefs Signer SignerDefs Common Saider Tholder Sadder Pather Pretty Prefixer Defaults DefaultsDefs DefaultsThms.

(** C76: the sequence number of a Seqner with any fields: its first sixteen raw bytes, whatever its code and size; with fewer it panics *)
Theorem C76_seqner : forall (m : matter),
  (len (m_raw m) < 16 -> seqner_sn m = Panic /\ seqner_snh m = Panic) /\
  (16 <= len (m_raw m) -> seqner_sn m = Ok (value 256 (take 16 (m_raw m))) /\
     exists h, seqner_snh m = Ok h /\ hex_canonical h /\ (bytes_ok (m_raw m) = true -> hex_input h (value 256 (take 16 (m_raw m))))).
Proof. exact C76_seqner_pf. Qed.
Print Assumptions C76_seqner.

(** C76: the number of a Number with any fields: the raw bytes, if they are as many as its code says; a panic if not; an error for another code *)
Theorem C76_number : forall (m : matter),
  (forall w, In (m_code m, w) number_widths -> len (m_raw m) = w -> number_num m = Ok (value 256 (m_raw m)) /\ number_positive m = Ok (0 <? value 256 (m_raw m)) /\
     exists h, number_numh m = Ok h /\ hex_canonical h /\ (bytes_ok (m_raw m) = true -> hex_input h (value 256 (m_raw m)))) /\
  (forall w, In (m_code m, w) number_widths -> len (m_raw m) <> w -> number_num m = Panic /\ number_positive m = Panic /\ number_numh m = Panic) /\
  (~ In (m_code m) (map fst number_widths) -> number_num m = Err E_UnexpectedCode /\ number_positive m = Err E_UnexpectedCode /\ number_numh m = Err E_UnexpectedCode).
Proof. exact C76_number_pf. Qed.
Print Assumptions C76_number.

(** C76: the date of a Dater with any fields is its text without the code, translated; it fails as the text does *)
Theorem C76_dater : forall (P : Profile) (m : matter), bytes_ok (m_raw m) = true ->
  dater_dts m = match matter_qb64 m with Ok q => Ok (dts_shown (drop (len (m_code m)) q)) | Err e => Err e | Panic => Panic end.
Proof. exact C76_dater_pf. Qed.
Print Assumptions C76_dater.

(** C76: the text of a Bexter or Pather with any raw bytes and any size: the raw bytes after the lead bytes in Base64-URL, without the
    characters the lead bytes make, or without one leading 'A' if there are none; '=' is shown if the bytes do not fill the last group *)
Theorem C76_bext : forall (code raw : bytes) (lead type size : N), lead <= 2 -> In type var_types ->
  code = small_var_code lead type \/ code = large_var_code lead type -> bytes_ok raw = true ->
  let t := b64_padded (rep 0 lead ++ raw) in
  bext_of (Mat code size raw) = Ok (if lead =? 0 then match t with c :: r => if c =? 65 then r else t | [] => [] end else drop (lead + 1) t) /\
  pad_to_3 (len (rep 0 lead ++ raw)) = pad_to_3 (lead + len raw).
Proof. exact C76_bext_pf. Qed.
Print Assumptions C76_bext.

Example C76_accessors_ex : forall P : Profile,
  seqner_sn (Mat (s2b "4A") 7 (rep 0 15 ++ [5; 9; 9])) = Ok 5 /\ seqner_snh (Mat (s2b "0A") 0 [1; 2; 3]) = Panic /\
  number_num (Mat (s2b "0H") 0 [0; 0; 1; 2]) = Ok 258 /\ number_numh (Mat (s2b "0H") 0 [0; 0; 1; 2]) = Ok (s2b "102") /\ number_num (Mat (s2b "0H") 0 [1; 2]) = Panic /\ number_num (Mat (s2b "E") 0 (rep 0 32)) = Err E_UnexpectedCode /\
  dater_dts (Mat (s2b "1AAG") 0 [1; 2; 115]) = Ok (s2b "AQJz") /\ dater_dts (Mat (s2b "1AAG") 0 [113; 215; 41]) = Ok (s2b ":.:+") /\ dater_dts (Mat (s2b "1AAG") 0 [1]) = Err E_InvalidCodeSize /\
  bext_of (Mat (s2b "4A") 9 [0; 16; 131; 255]) = Ok (s2b "BCD_w==") /\ bext_of (Mat (s2b "5A") 0 [255]) = Ok (s2b "8=") /\ bext_of (Mat (s2b "6A") 0 []) = Ok (s2b "=").
Proof. exact C76_accessors_ex_pf. Qed.

(** C76: a digest with any fields: a check compares all its raw bytes with the digest of the data; for a code that is not a digest it is an error *)
Theorem C76_digest : forall (C : Crypto) (m : matter) (ser : bytes),
  (In (m_code m) (map fst digest_sizes) -> exists b, diger_verify m ser = Ok b /\ (b = true <-> m_raw m = x_hash (m_code m) ser)) /\
  (~ In (m_code m) (map fst digest_sizes) -> diger_verify m ser = Err E_UnexpectedCode) /\
  (forall n, hash_contract C -> In (m_code m, n) digest_sizes -> len (m_raw m) <> n -> diger_verify m ser = Ok false).
Proof. exact C76_digest_pf. Qed.
Print Assumptions C76_digest.

(** C76: a signature made without a key holds an empty key: its text and binary are errors, and checking any signature of any message under it is an error, never an answer *)
Theorem C76_no_key : forall (P : Profile) (C : Crypto) (index ondex : option N) (code raw qb64b qb64 qb2 : option bytes) (k : matter),
  ((exists c, cigar_new None code raw qb64b qb64 qb2 = Ok c /\ k = cg_verfer c) \/ (exists s, siger_new None index ondex code raw qb64b qb64 qb2 = Ok s /\ k = sg_verfer s)) ->
  (forall sig ser, verfer_verify k sig ser = Err E_Crypto) /\ matter_qb64 k = Err E_InvalidCodeSize /\ matter_qb64b k = Err E_InvalidCodeSize /\ matter_qb2 k = Err E_InvalidCodeSize.
Proof. exact C76_no_key_pf. Qed.
Print Assumptions C76_no_key.

Example C76_no_key_ex : forall P : Profile, exists c s, cigar_new None (Some (s2b "0B")) (Some (rep 3 64)) None None None = Ok c /\ siger_new None (Some 1) None (Some (s2b "A")) (Some (rep 3 64)) None None None = Ok s /\
  cg_matter c = Mat (s2b "0B") 0 (rep 3 64) /\ sg_indexer s = Idx (s2b "A") (rep 3 64) 1 1.
Proof. exact C76_no_key_ex_pf. Qed.

(** C76: a key with any fields: checking a signature is an error for a code that is not a key, and for an Ed25519 key or signature of another length; it never panics *)
Theorem C76_key : forall (P : Profile) (C : Crypto) (k : matter) (sig ser : bytes),
  verfer_verify k sig ser <> Panic /\
  (~ In (m_code k) key_codes -> verfer_verify k sig ser = Err E_UnexpectedCode) /\
  (In (m_code k) [s2b "B"; s2b "D"] -> len (m_raw k) <> 32 \/ len sig <> 64 -> verfer_verify k sig ser = Err E_Crypto).
Proof. exact C76_key_pf. Qed.
Print Assumptions C76_key.

Example C76_key_ex : forall P : Profile, verfer_verify (H := toy_crypto) (Mat (s2b "D") 0 (rep 1 31)) (rep 3 64) [] = Err E_Crypto /\ verfer_verify (H := toy_crypto) (Mat (s2b "E") 0 (rep 1 32)) (rep 3 64) [] = Err E_UnexpectedCode /\
  verfer_verify (H := toy_crypto) (Mat (s2b "D") 5 (rep 1 32)) (rep 1 32 ++ rep 0 32) [] = Ok true /\ diger_verify (H := toy_crypto) (Mat (s2b "E") 0 (rep 2 32)) [1; 1] = Ok true /\ diger_verify (H := toy_crypto) (Mat (s2b "E") 0 []) [1; 1] = Ok false.
Proof. exact C76_key_ex_pf. Qed.

(** C76: a Signer with any fields: it cannot sign with a code that is not a seed, nor with an Ed25519 seed of another length than 32 *)
Theorem C76_signer : forall (P : Profile) (C : Crypto) (s : signer) (entropy index : N) (ondex : option N) (only : bool) (ser : bytes),
  (~ In (m_code (sn_matter s)) (map su_seed suites) -> sign_unindexed s entropy ser = Err E_UnexpectedCode /\ sign_indexed s entropy ser only index ondex = Err E_UnexpectedCode) /\
  (m_code (sn_matter s) = s2b "A" -> len (m_raw (sn_matter s)) <> 32 -> sign_unindexed s entropy ser = Err E_Crypto /\ sign_indexed s entropy ser only index ondex = Err E_Crypto).
Proof. exact C76_signer_pf. Qed.
Print Assumptions C76_signer.

(** C76: the default objects of the types of fixed size hold no raw bytes: each of the encoders gives an error, but a default Dater has a text without a date; a default Signer cannot sign, a default Diger verifies nothing;
    the default Number and Seqner panic when asked for their number; the default Counter has no known code *)
Theorem C76_defaults : forall (P : Profile) (C : Crypto),
  Forall (fun m => m_raw m = [] /\ m_size m = 0 /\ table_code (m_code m) /\ matter_qb64 m = Err E_InvalidCodeSize /\ matter_qb64b m = Err E_InvalidCodeSize /\ matter_qb2 m = Err E_InvalidCodeSize) empty_defaults /\
  indexer_qb64 (sg_indexer siger_default) = Err E_InvalidCodeSize /\ indexer_qb2 (sg_indexer siger_default) = Err E_InvalidCodeSize /\
  number_num number_default = Panic /\ seqner_sn seqner_default = Panic /\ matter_qb64 dater_default = Ok (s2b "1AAG") /\ dater_dts dater_default = Ok [] /\ matter_qb2 dater_default = Err E_InvalidCodeSize /\
  counter_qb64 counter_default = Err E_UnknownSizage /\ counter_qb2 counter_default = Err E_UnknownSizage /\ counter_full_size counter_default = Err E_UnknownSizage /\
  (hash_contract C -> forall ser, diger_verify diger_default ser = Ok false) /\
  (forall entropy ser, sign_unindexed signer_default entropy ser = Err E_Crypto) /\
  (forall sig ser, verfer_verify (sn_verfer signer_default) sig ser = Err E_Crypto).
Proof. exact C76_defaults_pf. Qed.
Print Assumptions C76_defaults.

(** C76: a default Bexter or Pather is the empty text *)
Theorem C76_empty_text : forall (P : Profile), bexter_default = pather_default /\
  matter_qb64 bexter_default = Ok (s2b "4AAA") /\ matter_qb2 bexter_default = Ok [224; 0; 0] /\ bext_of bexter_default = Ok [] /\ bexter_of [] = Ok bexter_default /\
  parse_text (s2b "4AAA") = Ok bexter_default /\ pather_path pather_default = Err E_Value.
Proof. exact C76_empty_text_pf. Qed.
Print Assumptions C76_empty_text.

(** C76: the default threshold shows one, yet it is met by no signatures at all, however many, and has no text *)
Theorem C76_threshold : forall (P : Profile) (indices : list N),
  tholder_num tholder_default = Ok (Some 1) /\ tholder_sith tholder_default = Ok (VStr (s2b "1")) /\ th_size tholder_default = 1 /\
  satisfy tholder_default indices = Ok false /\ tholder_limen tholder_default = Err E_Value.
Proof. exact C76_threshold_pf. Qed.
Print Assumptions C76_threshold.

(** C76: a default Serder or Creder: an empty object with no bytes and no identifier; the accessors of optional entries answer that there are none,
    those of required entries panic *)
Theorem C76_message : forall (P : Profile) (C : Crypto) (F : Floats) (ident : bytes), let s := sadder_default ident in
  sd_raw s = [] /\ sd_ked s = VObj [] /\ sd_ident s = ident /\ sd_kind s = s2b "JSON" /\ sd_size s = 0 /\ sd_version s = Ver 1 0 /\ sd_code s = s2b "E" /\
  sadder_said s = Err E_InvalidCodeSize /\ sadder_saidb s = Err E_InvalidCodeSize /\
  serder_verfers s = Ok [] /\ serder_digers s = Ok [] /\ serder_werfers s = Ok [] /\ serder_tholder s = Ok None /\ serder_ntholder s = Ok None /\ serder_fner s = Ok None /\ serder_fn s = Err E_Validation /\
  serder_sner s = Panic /\ serder_sn s = Panic /\ serder_pre s = Panic /\ serder_est s = Panic /\
  creder_status s = Ok None /\ creder_chains s = Ok (VObj []) /\ creder_issuer s = Panic /\ creder_schema s = Panic /\ creder_subject s = Panic /\
  sadder_pretty s None = Ok (s2b "{}").
Proof. exact C76_message_pf. Qed.
Print Assumptions C76_message.
