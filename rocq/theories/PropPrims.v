(** Property theorems (generated by tools/mkprop.py from PrimsThms.v, which holds the proofs). *)
From Verif Require Import Base Utf8 Util MatterTables Matter IndexerTables Indexer StdStr Spec MatterDefs Crypto Prims PrimsDefs PrimsThms.

(** C26: the digest codes are the ones reported as digestive; every code but the non-transferable
    keys is reported as transferable, and the code alone decides, so any parse of an encoding agrees *)
Theorem C26_code_classes : forall (m : matter),
  (matter_digestive m = true <-> In (m_code m) (map fst digest_sizes)) /\
  (matter_transferable m = false <-> In (m_code m) (map s2b ["B"; "1AAA"; "1AAC"; "1AAI"]%string)).
Proof. exact C26_code_classes_pf. Qed.
Print Assumptions C26_code_classes.

Example C26_code_classes_ex : matter_digestive (Mat (s2b "E") 0 (rep 0 32)) = true /\ matter_digestive (Mat (s2b "D") 0 (rep 0 32)) = false /\
  matter_transferable (Mat (s2b "D") 0 (rep 0 32)) = true /\ matter_transferable (Mat (s2b "B") 0 (rep 0 32)) = false.
Proof. exact C26_code_classes_ex_pf. Qed.

(** C26: a Verfer is what the general constructor returns, if the code is a key code *)
Theorem C26_verfer : forall (P : Profile) (code raw qb64b qb64 qb2 : option bytes),
  checked m_code key_codes (matter_new (Some (unwrap_or code (s2b "B"))) raw qb64b qb64 qb2) (verfer_new code raw qb64b qb64 qb2).
Proof. exact C26_verfer_pf. Qed.
Print Assumptions C26_verfer.

(** C26: a Cigar *)
Theorem C26_cigar : forall (P : Profile) (verfer : option matter) (code raw qb64b qb64 qb2 : option bytes) (c : cigar),
  cigar_new verfer code raw qb64b qb64 qb2 = Ok c <->
  exists m, matter_new code raw qb64b qb64 qb2 = Ok m /\ In (m_code m) signature_codes /\ c = Cig m (unwrap_or verfer verfer_default).
Proof. exact C26_cigar_pf. Qed.
Print Assumptions C26_cigar.

(** C26: a Siger *)
Theorem C26_siger : forall (P : Profile) (verfer : option matter) (index ondex : option N) (code raw qb64b qb64 qb2 : option bytes) (s : siger),
  siger_new verfer index ondex code raw qb64b qb64 qb2 = Ok s <->
  exists x, indexer_new index ondex code raw qb64b qb64 qb2 = Ok x /\ In (x_code x) indexed_signature_codes /\ s = Sg x (unwrap_or verfer verfer_default).
Proof. exact C26_siger_pf. Qed.
Print Assumptions C26_siger.

(** C26: a Diger: parsed or built as given if that works, otherwise the digest of
    the serialisation, always with a digest code *)
Theorem C26_diger : forall (P : Profile) (C : Crypto) (ser code raw qb64b qb64 qb2 : option bytes) (d : matter),
  diger_new ser code raw qb64b qb64 qb2 = Ok d -> hash_contract C ->
  In (m_code d) (map fst digest_sizes) /\
  (matter_new code raw qb64b qb64 qb2 = Ok d \/
   exists s e, ser = Some s /\ matter_new code raw qb64b qb64 qb2 = Err e /\ m_code d = unwrap_or code (s2b "E") /\ m_raw d = x_hash (m_code d) s).
Proof. exact C26_diger_pf. Qed.
Print Assumptions C26_diger.

(** C26: a Seqner *)
Theorem C26_seqner : forall (P : Profile) (sn : option N) (snh code raw qb64b qb64 qb2 : option bytes) (m : matter),
  seqner_new sn snh code raw qb64b qb64 qb2 = Ok m -> m_code m = s2b "0A".
Proof. exact C26_seqner_pf. Qed.
Print Assumptions C26_seqner.

(** C26: a Dater *)
Theorem C26_dater : forall (P : Profile) (now : bytes) (dts code raw qb64b qb64 qb2 : option bytes) (m : matter),
  dater_new now dts code raw qb64b qb64 qb2 = Ok m -> m_code m = s2b "1AAG".
Proof. exact C26_dater_pf. Qed.
Print Assumptions C26_dater.

(** C26: a Bexter *)
Theorem C26_bexter : forall (P : Profile) (bext code raw qb64b qb64 qb2 : option bytes) (m : matter),
  bexter_new bext code raw qb64b qb64 qb2 = Ok m -> In (m_code m) text_codes.
Proof. exact C26_bexter_pf. Qed.
Print Assumptions C26_bexter.

(** C26: when raw bytes, text or binary are given, Seqner, Dater and Bexter are what the general
    constructor returns, if the code is theirs; a number, date or Base64 text beside them is ignored
    by Seqner and Dater and used by Bexter; without any of them Bexter is an error *)
Theorem C26_material : forall (P : Profile) (sn : option N) (now : bytes) (snh dts bext code raw qb64b qb64 qb2 : option bytes),
  (raw, qb64b, qb64, qb2) <> (None, None, None, None) ->
  checked m_code [s2b "0A"] (matter_new (Some (unwrap_or code (s2b "0A"))) raw qb64b qb64 qb2) (seqner_new sn snh code raw qb64b qb64 qb2) /\
  checked m_code [s2b "1AAG"] (matter_new (Some (unwrap_or code (s2b "1AAG"))) raw qb64b qb64 qb2) (dater_new now dts code raw qb64b qb64 qb2) /\
  checked m_code text_codes (matter_new (Some (unwrap_or code (s2b "4A"))) raw qb64b qb64 qb2) (bexter_new None code raw qb64b qb64 qb2) /\
  (forall t, bexter_new (Some t) code raw qb64b qb64 qb2 = bexter_new (Some t) code None None None None) /\
  bexter_new None code None None None None = Err E_EmptyMaterial.
Proof. exact C26_material_pf. Qed.
Print Assumptions C26_material.

(** C26: a Diger with material that can be read is what the general constructor returns, if its code
    is a digest code; the serialisation is only hashed when it cannot *)
Theorem C26_diger_material : forall (P : Profile) (C : Crypto) (ser code raw qb64b qb64 qb2 : option bytes),
  (forall d, matter_new code raw qb64b qb64 qb2 = Ok d -> checked m_code (map fst digest_sizes) (Ok d) (diger_new ser code raw qb64b qb64 qb2)) /\
  (forall e, matter_new code raw qb64b qb64 qb2 = Err e -> diger_new ser code raw qb64b qb64 qb2 =
     match ser with Some s => diger_of s code | None => Err E_Validation end) /\
  (matter_new code raw qb64b qb64 qb2 = Panic -> diger_new ser code raw qb64b qb64 qb2 = Panic).
Proof. exact C26_diger_material_pf. Qed.
Print Assumptions C26_diger_material.

(** accepted and rejected codes exist *)
Example C26_codes_ex : forall P : Profile,
  verfer_new (Some (s2b "D")) (Some (rep 7 32)) None None None = Ok (Mat (s2b "D") 0 (rep 7 32)) /\
  verfer_new (Some (s2b "E")) (Some (rep 7 32)) None None None = Err E_UnexpectedCode /\
  verfer_new None None None (Some (s2b "MAAA")) None = Err E_UnexpectedCode /\
  cigar_new None (Some (s2b "0B")) (Some (rep 7 64)) None None None = Ok (Cig (Mat (s2b "0B") 0 (rep 7 64)) verfer_default) /\
  siger_new None (Some 3) None (Some (s2b "A")) (Some (rep 7 64)) None None None = Ok (Sg (Idx (s2b "A") (rep 7 64) 3 3) verfer_default) /\
  siger_new None (Some 3) None (Some (s2b "0A")) (Some (rep 7 114)) None None None = Err E_UnexpectedCode /\
  (exists m, bexter_new (Some (s2b "abc")) None None None None None = Ok m) /\
  bexter_new None (Some (s2b "4B")) (Some [1]) None None None = Err E_UnexpectedCode /\
  seqner_new None None None None None (Some (s2b "MAAA")) None = Err E_UnexpectedCode.
Proof. exact C26_codes_ex_pf. Qed.

(** C27: from a number, a hex string or raw bytes a Number has one of its four codes ... *)
Theorem C27_number : forall (P : Profile) (m : matter),
  (forall n, n < 2 ^ 128 -> number_of n = Ok m -> In (m_code m) (map fst number_widths)) /\
  (forall s, number_of_hex s = Ok m -> In (m_code m) (map fst number_widths)) /\
  (forall raw code, number_of_raw raw code = Ok m -> m_code m = unwrap_or code (s2b "M") /\ In (m_code m) (map fst number_widths)).
Proof. exact C27_number_pf. Qed.
Print Assumptions C27_number.

(** C27: with raw bytes, text or binary the code argument (Short by default) is checked before anything
    is read, and a number given beside them is ignored; a number wins over a hex string *)
Theorem C27_number_material : forall (P : Profile) (num : option N) (numh code raw qb64b qb64 qb2 : option bytes),
  ((raw, qb64b, qb64, qb2) <> (None, None, None, None) ->
   (In (unwrap_or code (s2b "M")) (map fst number_widths) ->
      number_new num numh code raw qb64b qb64 qb2 = matter_new (Some (unwrap_or code (s2b "M"))) raw qb64b qb64 qb2) /\
   (~ In (unwrap_or code (s2b "M")) (map fst number_widths) -> number_new num numh code raw qb64b qb64 qb2 = Err E_UnexpectedCode)) /\
  (forall n, number_new (Some n) numh code None None None None = number_of n) /\
  (forall h, number_new None (Some h) code None None None None = number_of_hex h) /\
  number_new None None code None None None None = number_of 0 /\
  (forall n snh c, seqner_new (Some n) snh (Some (s2b "0A")) None None None None = seqner_of n /\ seqner_new None None c None None None None = seqner_new (Some 0) None c None None None None).
Proof. exact C27_number_material_pf. Qed.
Print Assumptions C27_number_material.

(** C27: ... but parsed text or bytes are taken with whatever code they have *)
Theorem C27_number_parse_unchecked : forall (P : Profile) (t b : bytes),
  number_of_text t = parse_text t /\ number_of_text_bytes t = parse_text_bytes t /\ number_of_binary b = parse_binary b.
Proof. exact C27_number_parse_unchecked_pf. Qed.
Print Assumptions C27_number_parse_unchecked.

(** C27: so a Number need not have a number code, and then has no value *)
Theorem C27_number_any_code_refuted : exists t m, ~ In (m_code m) (map fst number_widths) /\ forall P : Profile,
  number_of_text t = Ok m /\ number_num m = Err E_UnexpectedCode.
Proof. exact C27_number_any_code_refuted_pf. Qed.
Print Assumptions C27_number_any_code_refuted.

(** C28 *)
Theorem C28_number : forall (P : Profile) (n : N), n < 2 ^ 128 ->
  exists m w, number_of n = Ok m /\ number_num m = Ok n /\ number_positive m = Ok (0 <? n) /\
    In (m_code m, w) number_widths /\ n < 256 ^ w /\ (forall c' w', In (c', w') number_widths -> n < 256 ^ w' -> w <= w') /\
    m_raw m = byte_numeral w n /\
    exists t b, matter_qb64 m = Ok t /\ matter_qb2 m = Ok b /\ number_of_text t = Ok m /\ number_of_text_bytes t = Ok m /\ number_of_binary b = Ok m.
Proof. exact C28_number_pf. Qed.
Print Assumptions C28_number.

Example C28_number_ex : 70000 < 2 ^ 128 /\ forall P : Profile, number_of 70000 = Ok (Mat (s2b "0H") 0 [0; 1; 17; 112]) /\
  matter_qb64 (Mat (s2b "0H") 0 [0; 1; 17; 112]) = Ok (s2b "0HAAARFw").
Proof. exact C28_number_ex_pf. Qed.

(** C29: exactly which strings are accepted, and with which value *)
Theorem C29_hex_input : forall (P : Profile) (s : bytes) (n : N),
  hex_input s n -> number_of_hex s = number_of n /\ seqner_of_hex s = seqner_of n.
Proof. exact C29_hex_input_pf. Qed.
Print Assumptions C29_hex_input.

Theorem C29_hex_rejected : forall (P : Profile) (s : bytes), (forall n, ~ hex_input s n) ->
  (s <> [] -> number_of_hex s = Err E_ParseInt) /\ seqner_of_hex s = Err E_ParseInt.
Proof. exact C29_hex_rejected_pf. Qed.
Print Assumptions C29_hex_rejected.

(** C29: the empty string is zero for a Number *)
Theorem C29_empty : forall (P : Profile), number_of_hex [] = number_of 0.
Proof. exact C29_empty_pf. Qed.
Print Assumptions C29_empty.

(** C29: numh prints a canonical numeral that is read back as the same number *)
Theorem C29_hex_round_trip : forall (P : Profile) (n : N) (m : matter), n < 2 ^ 128 -> number_of n = Ok m ->
  exists h, number_numh m = Ok h /\ hex_numeral h n /\ hex_canonical h /\ number_of_hex h = Ok m.
Proof. exact C29_hex_round_trip_pf. Qed.
Print Assumptions C29_hex_round_trip.

Example C29_hex_ex : hex_input (s2b "+00fF") 255 /\ (forall n, ~ hex_input (s2b "-1") n) /\ (forall n, ~ hex_input (s2b "1g") n) /\
  (forall n, ~ hex_input (s2b "+") n) /\ forall P : Profile, number_of_hex (s2b "+00fF") = Ok (Mat (s2b "M") 0 [0; 255]) /\ number_numh (Mat (s2b "M") 0 [0; 255]) = Ok (s2b "ff").
Proof. exact C29_hex_ex_pf. Qed.

Theorem C30_num_no_panic : forall (P : Profile) (m : matter),
  (exists n, n < 2 ^ 128 /\ number_of n = Ok m) \/ (exists s, number_of_hex s = Ok m) \/
  (exists raw code, bytes_ok raw = true /\ number_of_raw raw code = Ok m) \/ (exists b, bytes_ok b = true /\ number_of_binary b = Ok m) ->
  number_num m <> Panic.
Proof. exact C30_num_no_panic_pf. Qed.
Print Assumptions C30_num_no_panic.

(** C30: from text it panics exactly when the text has a number code and a '=' inside *)
Theorem C30_num_panics_iff : forall (P : Profile) (t : bytes) (m : matter), number_of_text t = Ok m ->
  exists k, matter_full_size m = Ok k /\ (number_num m = Panic <-> In (m_code m) (map fst number_widths) /\ In 61 (take k t)).
Proof. exact C30_num_panics_iff_pf. Qed.
Print Assumptions C30_num_panics_iff.

Theorem C30_num_panics_refuted : exists t m, forall P : Profile, number_of_text t = Ok m /\ number_num m = Panic.
Proof. exact C30_num_panics_refuted_pf. Qed.
Print Assumptions C30_num_panics_refuted.

Theorem C31_sn_round_trip : forall (P : Profile) (n : N), n < 2 ^ 128 ->
  exists m t b h, seqner_of n = Ok m /\ seqner_sn m = Ok n /\ seqner_snh m = Ok h /\ hex_numeral h n /\ hex_canonical h /\ seqner_of_hex h = Ok m /\
    matter_qb64 m = Ok t /\ len t = 24 /\ matter_qb2 m = Ok b /\ len b = 18 /\ seqner_of_text t = Ok m /\ seqner_of_binary b = Ok m.
Proof. exact C31_sn_round_trip_pf. Qed.
Print Assumptions C31_sn_round_trip.

(** C31: numeric order is the byte order of the binary forms *)
Theorem C31_order : forall (P : Profile) (n1 n2 : N) (m1 m2 : matter) (b1 b2 : bytes), n1 < 2 ^ 128 -> n2 < 2 ^ 128 ->
  seqner_of n1 = Ok m1 -> seqner_of n2 = Ok m2 -> matter_qb2 m1 = Ok b1 -> matter_qb2 m2 = Ok b2 ->
  (n1 < n2 <-> lex_lt b1 b2).
Proof. exact C31_order_pf. Qed.
Print Assumptions C31_order.

(** C31: but not the character order of the texts *)
Theorem C31_text_order_refuted : exists n1 n2 m1 m2 t1 t2, n1 < n2 /\ forall P : Profile, seqner_of n1 = Ok m1 /\ seqner_of n2 = Ok m2 /\
  matter_qb64 m1 = Ok t1 /\ matter_qb64 m2 = Ok t2 /\ lex_lt t2 t1.
Proof. exact C31_text_order_refuted_pf. Qed.
Print Assumptions C31_text_order_refuted.

(** C32: a text whose first 32 characters are of the date alphabet is accepted
    and shown again (with ':' '.' '+' wherever 'c' 'd' 'p' was given); it
    survives the text and binary encodings *)
Theorem C32_accepts : forall (P : Profile) (now t : bytes), utf8_valid t = true -> 32 <= len t -> (forall c, In c (take 32 t) -> date_char c) ->
  exists m q b, dater_of now t = Ok m /\ dater_dts m = Ok (dts_shown (take 32 t)) /\ matter_qb64 m = Ok q /\ matter_qb2 m = Ok b /\
    dater_of_text now q = Ok m /\ dater_of_binary now b = Ok m.
Proof. exact C32_accepts_pf. Qed.
Print Assumptions C32_accepts.

(** C32: 32 characters without 'c', 'd', 'p' (every ISO-8601 time stamp) round-trip *)
Theorem C32_round_trip : forall (P : Profile) (now t : bytes), len t = 32 -> (forall c, In c t -> date_char c /\ ~ In c (s2b "cdp")) ->
  exists m, dater_of now t = Ok m /\ dater_dts m = Ok t.
Proof. exact C32_round_trip_pf. Qed.
Print Assumptions C32_round_trip.

(** C32: the current time is used when no text is given *)
Theorem C32_now : forall (P : Profile) (now any : bytes), dater_now now = dater_of any now.
Proof. exact C32_now_pf. Qed.
Print Assumptions C32_now.

(** C32: no other text gives a readable date; shorter texts are rejected *)
Theorem C32_accepts_iff : forall (P : Profile) (now t : bytes), utf8_valid t = true ->
  ((exists m d, dater_of now t = Ok m /\ dater_dts m = Ok d) <-> 32 <= len t /\ forall c, In c (take 32 t) -> date_char c) /\
  (len t < 32 -> dater_of now t = Err E_Shortage) /\ (dater_of now t = Panic <-> inside t 32).
Proof. exact C32_accepts_iff_pf. Qed.
Print Assumptions C32_accepts_iff.

Example C32_ex : let t := s2b "2020-08-22T17:50:09.988921+00:00" in len t = 32 /\ (forall c, In c t -> date_char c /\ ~ In c (s2b "cdp")) /\
  forall P : Profile, exists m, dater_of [] t = Ok m /\ matter_qb64 m = Ok (s2b "1AAG2020-08-22T17c50c09d988921p00c00").
Proof. exact C32_ex_pf. Qed.

(** C32: the text is not checked to be a date *)
Theorem C32_not_a_date_refuted : forall P : Profile, exists m, dater_of [] (s2b "this-is-not-a-date-at-all-really") = Ok m.
Proof. exact C32_not_a_date_refuted_pf. Qed.
Print Assumptions C32_not_a_date_refuted.

(** C33: a Base64-URL text that fits is accepted; it is shown again except for the lost 'A' *)
Theorem C33_round_trip : forall (P : Profile) (t : bytes), b64_text t -> len t <= 64 ^ 4 * 4 - 4 ->
  exists m q b, bexter_of t = Ok m /\ bext_of m = Ok (bext_shown t) /\ matter_qb64 m = Ok q /\ matter_qb2 m = Ok b /\
    bexter_of_text q = Ok m /\ bexter_of_binary b = Ok m.
Proof. exact C33_round_trip_pf. Qed.
Print Assumptions C33_round_trip.

(** C33: exactly the texts of a length a positive multiple of four that start with 'A' come back changed *)
Theorem C33_exact_iff : forall (P : Profile) (t : bytes), b64_text t -> len t <= 64 ^ 4 * 4 - 4 ->
  (exists m, bexter_of t = Ok m /\ bext_of m = Ok t) <-> ~ (len t mod 4 = 0 /\ exists r, t = 65 :: r).
Proof. exact C33_exact_iff_pf. Qed.
Print Assumptions C33_exact_iff.

(** C33: two texts give the same object iff they are equal up to that 'A' *)
Theorem C33_same_object : forall (P : Profile) (t1 t2 : bytes) (m1 m2 : matter), b64_text t1 -> b64_text t2 ->
  len t1 <= 64 ^ 4 * 4 - 4 -> len t2 <= 64 ^ 4 * 4 - 4 -> bexter_of t1 = Ok m1 -> bexter_of t2 = Ok m2 ->
  (m1 = m2 <-> t1 = t2 \/ (t1 = 65 :: t2 /\ len t1 mod 4 = 0) \/ (t2 = 65 :: t1 /\ len t2 mod 4 = 0)).
Proof. exact C33_same_object_pf. Qed.
Print Assumptions C33_same_object.

(** C33: other texts are rejected: not Base64-URL, or too long *)
Theorem C33_rejects : forall (P : Profile) (t : bytes),
  (~ b64_text t -> bexter_of t = Err E_Value) /\
  (b64_text t -> 64 ^ 4 * 4 - 4 < len t -> len t < 2 ^ 32 -> bexter_of t = Err E_InvalidVarRawSize).
Proof. exact C33_rejects_pf. Qed.
Print Assumptions C33_rejects.

Example C33_ex : forall P : Profile, b64_text (s2b "Hi_there") /\
  (exists m, bexter_of (s2b "Hi_there") = Ok m /\ matter_qb64 m = Ok (s2b "4AACHi_there") /\ bext_of m = Ok (s2b "Hi_there")) /\
  (exists m, bexter_of (s2b "AABC") = Ok m /\ bexter_of (s2b "ABC") = Ok m /\ bext_of m = Ok (s2b "ABC")) /\ ~ b64_text (s2b "a b").
Proof. exact C33_ex_pf. Qed.

(** C53: a digest object made from a serialisation has the digest of its code,
    verifies exactly the messages with the same digest, and needs a digest code *)
Theorem C53_digest : forall (P : Profile) (C : Crypto) (code ser : bytes) (n : N), hash_contract C -> In (code, n) digest_sizes ->
  exists d, diger_of ser (Some code) = Ok d /\ (code = s2b "E" -> diger_of ser None = Ok d) /\ is_diger d /\ m_code d = code /\ m_raw d = x_hash code ser /\
    forall ser', diger_verify d ser' = Ok (bytes_eqb (x_hash code ser') (x_hash code ser)).
Proof. exact C53_digest_pf. Qed.
Print Assumptions C53_digest.

(** C53: verification is equality with the digest of the message *)
Theorem C53_verify_iff : forall (C : Crypto) (d : matter) (ser : bytes), In (m_code d) (map fst digest_sizes) ->
  exists b, diger_verify d ser = Ok b /\ (b = true <-> m_raw d = x_hash (m_code d) ser).
Proof. exact C53_verify_iff_pf. Qed.
Print Assumptions C53_verify_iff.

(** C53: comparing two digests: equal, or of different algorithms and both of the same message *)
Theorem C53_compare_iff : forall (P : Profile) (C : Crypto) (d1 d2 : matter) (ser : bytes), is_diger d1 -> is_diger d2 ->
  exists q2 b, matter_qb64b d2 = Ok q2 /\ diger_compare d1 ser None (Some d2) = Ok b /\ diger_compare d1 ser (Some q2) None = Ok b /\
    (b = true <-> d1 = d2 \/ (m_code d1 <> m_code d2 /\ m_raw d1 = x_hash (m_code d1) ser /\ m_raw d2 = x_hash (m_code d2) ser)).
Proof. exact C53_compare_iff_pf. Qed.
Print Assumptions C53_compare_iff.

(** C53: without anything to compare with, an error *)
Theorem C53_compare_nothing : forall (P : Profile) (C : Crypto) (d : matter) (ser : bytes), diger_compare d ser None None = Err E_Value.
Proof. exact C53_compare_nothing_pf. Qed.
Print Assumptions C53_compare_nothing.

(** a toy digest satisfies the contract *)
Example C53_ex : hash_contract toy_crypto /\ forall P : Profile, exists d1 d2, diger_of (H := toy_crypto) (s2b "abc") (Some (s2b "E")) = Ok d1 /\ diger_of (H := toy_crypto) (s2b "abc") (Some (s2b "0G")) = Ok d2 /\
  diger_verify (H := toy_crypto) d1 (s2b "abcd") = Ok false /\ diger_compare (H := toy_crypto) d1 (s2b "abc") None (Some d2) = Ok true.
Proof. exact C53_ex_pf. Qed.
