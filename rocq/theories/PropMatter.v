(** Property theorems (generated by tools/mkprop.py from MatterThms.v, which holds the proofs). *)
From Verif Require Import Base Utf8 B64 Util MatterTables Matter Spec MatterDefs MatterThms.

(** C01 *)
Theorem C01_text_round_trip : forall (P : Profile) (code raw : bytes) (m : matter),
  table_code code -> bytes_ok raw = true -> build code raw = Ok m ->
  exists t, matter_qb64 m = Ok t /\ parse_text t = Ok m /\ matter_qb64b m = Ok t /\ parse_text_bytes t = Ok m.
Proof. exact C01_text_round_trip_pf. Qed.
Print Assumptions C01_text_round_trip.

Example C01_text_round_trip_ex : table_code (s2b "5B") /\ bytes_ok [1; 2; 255] = true /\
  forall P : Profile, build (s2b "5B") [1; 2; 255] = Ok (Mat (s2b "4B") 1 [1; 2; 255]) /\
    matter_qb64 (Mat (s2b "4B") 1 [1; 2; 255]) = Ok (s2b "4BABAQL_").
Proof. exact C01_text_round_trip_ex_pf. Qed.

(** C02 *)
Theorem C02_binary_round_trip : forall (P : Profile) (code raw : bytes) (m : matter),
  table_code code -> bytes_ok raw = true -> build code raw = Ok m ->
  exists b, matter_qb2 m = Ok b /\ bytes_ok b = true /\ parse_binary b = Ok m.
Proof. exact C02_binary_round_trip_pf. Qed.
Print Assumptions C02_binary_round_trip.

Example C02_binary_round_trip_ex : table_code (s2b "M") /\ forall P : Profile,
  build (s2b "M") [18; 52; 86] = Ok (Mat (s2b "M") 0 [18; 52]) /\ matter_qb2 (Mat (s2b "M") 0 [18; 52]) = Ok [48; 18; 52].
Proof. exact C02_binary_round_trip_ex_pf. Qed.

(** C03: the text is the binary form in Base64, code and size in front, raw at the end, zero bits in between *)
Theorem C03_composable : forall (P : Profile) (m : matter), constructed m ->
  exists t b soft pre, matter_qb64 m = Ok t /\ matter_qb2 m = Ok b /\
    len b mod 3 = 0 /\ t = b64_of b /\
    is_prefix (m_code m ++ soft) t /\ b = pre ++ m_raw m /\
    (soft = [] /\ m_size m = 0 \/ exists k, soft = b64_numeral k (m_size m) /\ m_size m < 64 ^ k).
Proof. exact C03_composable_pf. Qed.
Print Assumptions C03_composable.

(** C03: conversion commutes with concatenation of any list of primitives *)
Theorem C03_concatenation : forall (P : Profile) (l : list (matter * bytes * bytes)),
  (forall m t b, In (m, t, b) l -> constructed m /\ matter_qb64 m = Ok t /\ matter_qb2 m = Ok b) ->
  concat (map (fun x => snd (fst x)) l) = b64_of (concat (map snd l)).
Proof. exact C03_concatenation_pf. Qed.
Print Assumptions C03_concatenation.

Example C03_composable_ex : forall P : Profile, constructed (Mat (s2b "6B") 2 [1; 2; 3; 4]) /\
  matter_qb64 (Mat (s2b "6B") 2 [1; 2; 3; 4]) = Ok (s2b "6BACAAABAgME") /\
  matter_qb2 (Mat (s2b "6B") 2 [1; 2; 3; 4]) = Ok [232; 16; 2; 0; 0; 1; 2; 3; 4] /\
  b64_of [232; 16; 2; 0; 0; 1; 2; 3; 4] = s2b "6BACAAABAgME".
Proof. exact C03_composable_ex_pf. Qed.

(** C04 *)
Theorem C04_self_framing : forall (P : Profile) (m : matter), constructed m ->
  exists t b, matter_qb64 m = Ok t /\ matter_qb2 m = Ok b /\
    matter_full_size m = Ok (len t) /\ len b * 4 = len t * 3 /\
    (forall tail, utf8_valid tail = true -> parse_text (t ++ tail) = Ok m) /\
    (forall tail, bytes_ok tail = true -> parse_binary (b ++ tail) = Ok m).
Proof. exact C04_self_framing_pf. Qed.
Print Assumptions C04_self_framing.

(** C04: a concatenation of any number of primitives parses back one by one *)
Theorem C04_stream : forall (P : Profile) (l : list (matter * bytes)) (tail : bytes),
  (forall m t, In (m, t) l -> constructed m /\ matter_qb64 m = Ok t) -> utf8_valid tail = true ->
  parse_all (length l) (concat (map snd l) ++ tail) = Ok (map fst l).
Proof. exact C04_stream_pf. Qed.
Print Assumptions C04_stream.

Example C04_self_framing_ex : forall P : Profile, constructed (Mat (s2b "2AAA") 0 [7; 9]) /\
  parse_text (s2b "2AAAAAcJ-AAB") = Ok (Mat (s2b "2AAA") 0 [7; 9]) /\ matter_full_size (Mat (s2b "2AAA") 0 [7; 9]) = Ok 8.
Proof. exact C04_self_framing_ex_pf. Qed.

(** C05: whatever parses and has no '=' in the consumed part is exactly what re-encoding gives *)
Theorem C05_text_canonical : forall (P : Profile) (t : bytes) (m : matter),
  parse_text t = Ok m -> exists k, matter_full_size m = Ok k /\ k <= len t /\
    (~ In 61 (take k t) -> matter_qb64 m = Ok (take k t) /\ b64_text (take k t)).
Proof. exact C05_text_canonical_pf. Qed.
Print Assumptions C05_text_canonical.

(** C05, for every string, '=' included: equal results come from equal consumed texts *)
Theorem C05_no_malleability : forall (P : Profile) (t1 t2 : bytes) (m : matter),
  parse_text t1 = Ok m -> parse_text t2 = Ok m ->
  exists k, matter_full_size m = Ok k /\ k <= len t1 /\ k <= len t2 /\ take k t1 = take k t2.
Proof. exact C05_no_malleability_pf. Qed.
Print Assumptions C05_no_malleability.

Example C05_text_canonical_ex : forall P : Profile, parse_text (s2b "MBI0junk") = Ok (Mat (s2b "M") 0 [18; 52]) /\
  take 4 (s2b "MBI0junk") = s2b "MBI0" /\ parse_text (s2b "MQAB") = Err E_Prepad.
Proof. exact C05_text_canonical_ex_pf. Qed.

(** C06 refuted: padding is accepted, and the result cannot be encoded again *)
Theorem C06_padding_accepted_refuted : exists t m, In 61 t /\ forall P : Profile,
  parse_text t = Ok m /\ matter_qb64 m = Err E_InvalidCodeSize /\ matter_qb2 m = Err E_InvalidCodeSize.
Proof. exact C06_padding_accepted_refuted_pf. Qed.
Print Assumptions C06_padding_accepted_refuted.

(** ... and with overflow checks re-encoding panics *)
Theorem C06_reencode_panics_refuted : exists t m, parse_text (P := true) t = Ok m /\ parse_text (P := false) t = Ok m /\
  matter_qb64 (H := true) m = Panic /\ matter_qb64 (H := false) m = Err E_InvalidCodeSize.
Proof. exact C06_reencode_panics_refuted_pf. Qed.
Print Assumptions C06_reencode_panics_refuted.

(** C06: exactly which accepted texts can be encoded again *)
Theorem C06_reencodes_iff : forall (P : Profile) (t : bytes) (m : matter), parse_text t = Ok m ->
  exists k, matter_full_size m = Ok k /\ k <= len t /\
    ((exists q, matter_qb64 m = Ok q) <-> ~ In 61 (take k t)) /\
    (~ In 61 (take k t) -> exists b, matter_qb64 m = Ok (take k t) /\ matter_qb2 m = Ok b /\ b64_of b = take k t).
Proof. exact C06_reencodes_iff_pf. Qed.
Print Assumptions C06_reencodes_iff.

(** C07 *)
Theorem C07_binary_canonical : forall (P : Profile) (b : bytes) (m : matter), bytes_ok b = true ->
  parse_binary b = Ok m -> exists k, matter_full_size m = Ok k /\ k mod 4 = 0 /\ k * 3 / 4 <= len b /\
    matter_qb2 m = Ok (take (k * 3 / 4) b) /\ matter_qb64 m = Ok (b64_of (take (k * 3 / 4) b)).
Proof. exact C07_binary_canonical_pf. Qed.
Print Assumptions C07_binary_canonical.

Example C07_binary_canonical_ex : forall P : Profile, parse_binary [48; 18; 52; 99] = Ok (Mat (s2b "M") 0 [18; 52]) /\
  parse_binary [49; 18; 52] = Err E_NonZeroedPadBits.
Proof. exact C07_binary_canonical_ex_pf. Qed.

(** C08: same acceptance, same primitive, same panics *)
Theorem C08_text_binary_agree : forall (P : Profile) (b : bytes), bytes_ok b = true -> len b mod 3 = 0 ->
  (forall m, parse_text (b64_of b) = Ok m <-> parse_binary b = Ok m) /\
  (parse_text (b64_of b) = Panic <-> parse_binary b = Panic).
Proof. exact C08_text_binary_agree_pf. Qed.
Print Assumptions C08_text_binary_agree.

Example C08_text_binary_agree_ex : forall P : Profile, bytes_ok [228; 16; 1; 0; 1; 2] = true /\ b64_of [228; 16; 1; 0; 1; 2] = s2b "5BABAAEC" /\
  parse_binary [228; 16; 1; 0; 1; 2] = Ok (Mat (s2b "5B") 1 [1; 2]).
Proof. exact C08_text_binary_agree_ex_pf. Qed.

(** C09: exactly which texts, of all, make the parser panic: a slice position
    inside a multi-byte character (end of the code, of the fixed size text, of
    the size characters, of the sized text), lead bytes without room, or two
    lead bytes but only one byte of padded text *)
Theorem C09_text_panics_iff : forall (P : Profile) (t : bytes), parse_text t = Panic <->
  (exists c r h, t = c :: r /\ code_length c h /\ inside t h) \/
  (exists code n f, In (code, (n, f)) fixed_codes /\ is_prefix code t /\ inside t f) \/
  (exists code, In code variable_codes /\ is_prefix code t /\ let w := len code in
     (inside t (2 * w) \/ exists n, n < 64 ^ w /\ take w (drop w t) = b64_numeral w n /\ inside t (4 * n + 2 * w))) \/
  (exists h, In h empty_lead_heads /\ is_prefix h t) \/
  (exists h c1 c2, In h short_lead_heads /\ In c1 b64_alphabet /\ In c2 (s2b "AQgw") /\ is_prefix (h ++ [c1; c2; 61; 61]) t).
Proof. exact C09_text_panics_iff_pf. Qed.
Print Assumptions C09_text_panics_iff.

(** C09: exactly which texts (ASCII, without '=') make the parser panic *)
Theorem C09_ascii_text_panics_iff : forall (P : Profile) (t : bytes), ascii_no_pad t ->
  (parse_text t = Panic <-> exists h, In h empty_lead_heads /\ is_prefix h t).
Proof. exact C09_ascii_text_panics_iff_pf. Qed.
Print Assumptions C09_ascii_text_panics_iff.

(** C09: exactly which byte strings make the binary parser panic *)
Theorem C09_binary_panics_iff : forall (P : Profile) (b : bytes), bytes_ok b = true ->
  (parse_binary b = Panic <-> exists h hb, In h empty_lead_heads /\ len hb mod 3 = 0 /\ bytes_ok hb = true /\ b64_of hb = h /\ is_prefix hb b).
Proof. exact C09_binary_panics_iff_pf. Qed.
Print Assumptions C09_binary_panics_iff.

(** C09 refuted: ASCII, padded and non-ASCII texts, and bytes, that panic in both profiles *)
Theorem C09_never_panics_refuted : forall P : Profile,
  parse_text (s2b "5AAA") = Panic /\ parse_text (s2b "3AAAAA==") = Panic /\
  (utf8_valid (s2b "1" ++ [195; 169; 195; 169]) = true /\ parse_text (s2b "1" ++ [195; 169; 195; 169]) = Panic) /\
  parse_binary [228; 0; 0] = Panic.
Proof. exact C09_never_panics_refuted_pf. Qed.
Print Assumptions C09_never_panics_refuted.

(** C10: what each argument of the constructor does: raw material needs a code; without it the
    first of the three encodings given is read, whatever the code argument *)
Theorem C10_arguments : forall (P : Profile) (code raw t v : bytes) (c qb64b qb64 qb2 : option bytes),
  matter_new (Some code) (Some raw) qb64b qb64 qb2 = build code raw /\
  matter_new None (Some raw) qb64b qb64 qb2 = Err E_EmptyMaterial /\
  matter_new c None (Some t) qb64 qb2 = parse_text_bytes t /\
  matter_new c None None (Some t) qb2 = parse_text t /\
  matter_new c None None None (Some v) = parse_binary v /\
  matter_new c None None None None = Err E_Validation.
Proof. exact C10_arguments_pf. Qed.
Print Assumptions C10_arguments.

(** C10 *)
Theorem C10_raw_size : forall (P : Profile) (code raw : bytes) (n f : N), In (code, (n, f)) fixed_codes ->
  (len raw < n -> build code raw = Err E_Shortage) /\
  (n <= len raw -> build code raw = Ok (Mat code 0 (take n raw)) /\
     (bytes_ok raw = true -> exists t, matter_qb64 (Mat code 0 (take n raw)) = Ok t /\ len t = f)).
Proof. exact C10_raw_size_pf. Qed.
Print Assumptions C10_raw_size.

(** C10: every other code is rejected, unless it starts like a variable size code *)
Theorem C10_unknown_code : forall (P : Profile) (code raw : bytes), ~ table_code code ->
  (forall c r, code = c :: r -> ~ In c (s2b "456789")) ->
  build code raw = Err E_EmptyMaterial \/ build code raw = Err E_UnknownSizage.
Proof. exact C10_unknown_code_pf. Qed.
Print Assumptions C10_unknown_code.

(** C10 refuted for the rest: "4Z" is accepted but can never be encoded; "4" panics *)
Theorem C10_unknown_variable_code_refuted : ~ table_code (s2b "4Z") /\ forall P : Profile,
  build (s2b "4Z") [1; 2; 3] = Ok (Mat (s2b "4Z") 1 [1; 2; 3]) /\ matter_qb64 (Mat (s2b "4Z") 1 [1; 2; 3]) = Err E_UnknownSizage /\
  build (s2b "4") [1; 2; 3] = Panic.
Proof. exact C10_unknown_variable_code_refuted_pf. Qed.
Print Assumptions C10_unknown_variable_code_refuted.

Example C10_raw_size_ex : In (s2b "0A", (16, 24)) fixed_codes /\ In (s2b "1AAF", (3, 8)) fixed_codes /\
  forall P : Profile, build (s2b "1AAF") [1; 2; 3; 4] = Ok (Mat (s2b "1AAF") 0 [1; 2; 3]).
Proof. exact C10_raw_size_ex_pf. Qed.

(** C11 *)
Theorem C11_variable_code_selection : forall (P : Profile) (code raw : bytes) (type lead0 : N),
  In type var_types -> lead0 <= 2 -> len raw < 2 ^ 32 ->
  let lead := pad_to_3 (len raw) in
  let quads := (len raw + lead) / 3 in
  (code = small_var_code lead0 type ->
     (quads < 64 ^ 2 -> build code raw = Ok (Mat (small_var_code lead type) quads raw)) /\
     (64 ^ 2 <= quads < 64 ^ 4 -> build code raw = Ok (Mat (large_var_code lead type) quads raw)) /\
     (64 ^ 4 <= quads -> build code raw = Err E_InvalidVarRawSize)) /\
  (code = large_var_code lead0 type ->
     (quads < 64 ^ 4 -> build code raw = Ok (Mat (large_var_code lead type) quads raw)) /\
     (64 ^ 4 <= quads -> build code raw = Err E_InvalidVarRawSize)).
Proof. exact C11_variable_code_selection_pf. Qed.
Print Assumptions C11_variable_code_selection.

(** C11 refuted at 4 GiB: the length is cut to 32 bits and the raw silently truncated *)
Theorem C11_four_gib_truncated_refuted : exists raw, len raw = 2 ^ 32 /\ forall P : Profile,
  build (s2b "4B") raw = Ok (Mat (s2b "4B") 0 []).
Proof. exact C11_four_gib_truncated_refuted_pf. Qed.
Print Assumptions C11_four_gib_truncated_refuted.

Example C11_variable_code_selection_ex : forall P : Profile,
  build (s2b "4A") [9] = Ok (Mat (s2b "6A") 1 [9]) /\
  build (s2b "4B") (rep 7 12286) = Ok (Mat (s2b "9AAB") 4096 (rep 7 12286)).
Proof. exact C11_variable_code_selection_ex_pf. Qed.

(** C12 *)
Theorem C12_prefix_free : forall (P : Profile) (m1 m2 : matter) (t1 t2 b1 b2 : bytes), constructed m1 -> constructed m2 ->
  matter_qb64 m1 = Ok t1 -> matter_qb64 m2 = Ok t2 -> matter_qb2 m1 = Ok b1 -> matter_qb2 m2 = Ok b2 ->
  (is_prefix t1 t2 -> m1 = m2) /\ (is_prefix b1 b2 -> m1 = m2).
Proof. exact C12_prefix_free_pf. Qed.
Print Assumptions C12_prefix_free.

Example C12_prefix_free_ex : forall P : Profile, constructed (Mat (s2b "M") 0 [0; 1]) /\ constructed (Mat (s2b "0H") 0 [0; 0; 0; 1]).
Proof. exact C12_prefix_free_ex_pf. Qed.

(** C13: encoding succeeds and gives the same result with and without overflow checks *)
Theorem C13_encodes : forall (P : Profile) (m : matter), constructed m ->
  exists t b k, forall Q : Profile, matter_qb64 m = Ok t /\ matter_qb2 m = Ok b /\ matter_full_size m = Ok k.
Proof. exact C13_encodes_pf. Qed.
Print Assumptions C13_encodes.

(** C13: the same for everything the binary parser accepts *)
Theorem C13_parsed_binary_encodes : forall (P : Profile) (b : bytes) (m : matter), bytes_ok b = true -> parse_binary b = Ok m ->
  exists t b' k, forall Q : Profile, matter_qb64 m = Ok t /\ matter_qb2 m = Ok b' /\ matter_full_size m = Ok k.
Proof. exact C13_parsed_binary_encodes_pf. Qed.
Print Assumptions C13_parsed_binary_encodes.
