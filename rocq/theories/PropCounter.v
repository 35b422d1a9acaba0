(** Property theorems (generated by tools/mkprop.py from CounterThms.v, which holds the proofs). *)
From Verif Require Import Base Utf8 Util CounterTables Counter Spec CounterDefs CounterThms.

(** C14: the constructor accepts exactly the counts that fit the code *)
Theorem C14_range : forall (P : Profile) (code : bytes) (w n : N), In (code, w) count_codes ->
  (n < 64 ^ w -> new_counter code n = Ok (Ctr code n)) /\ (64 ^ w <= n -> new_counter code n = Err E_InvalidVarIndex).
Proof. exact C14_range_pf. Qed.
Print Assumptions C14_range.

(** C14: text is code and count numeral, binary is its Base64 decoding, both parse back whatever follows *)
Theorem C14_round_trip : forall (P : Profile) (code : bytes) (w n : N) (c : counter),
  In (code, w) count_codes -> new_counter code n = Ok c ->
  c = Ctr code n /\
  exists t b, counter_qb64 c = Ok t /\ counter_qb64b c = Ok t /\ counter_qb2 c = Ok b /\
    t = code ++ b64_numeral w n /\ t = b64_of b /\ len b mod 3 = 0 /\ counter_full_size c = Ok (len t) /\
    (forall tail, utf8_valid tail = true -> counter_parse_text (t ++ tail) = Ok c /\ counter_parse_text_bytes (t ++ tail) = Ok c) /\
    (forall tail, bytes_ok tail = true -> counter_parse_binary (b ++ tail) = Ok c).
Proof. exact C14_round_trip_pf. Qed.
Print Assumptions C14_round_trip.

Example C14_round_trip_ex : In (s2b "-0V", 5) count_codes /\ forall P : Profile, new_counter (s2b "-0V") 16777217 = Ok (Ctr (s2b "-0V") 16777217) /\
  counter_qb64 (Ctr (s2b "-0V") 16777217) = Ok (s2b "-0VBAAAB") /\ new_counter (s2b "-A") 4096 = Err E_InvalidVarIndex.
Proof. exact C14_round_trip_ex_pf. Qed.

(** C14: what each argument of the constructor does: the code decides; then the number, the Base64
    numeral, or one; without a code the first of the three encodings given is read *)
Theorem C14_arguments : forall (P : Profile) (code t u v : bytes) (count : option N) (cb qb64b qb64 qb2 : option bytes) (w n : N),
  counter_new (Some n) cb (Some code) qb64b qb64 qb2 = new_counter code n /\
  counter_new None None (Some code) qb64b qb64 qb2 = new_counter code 1 /\
  (w <= 5 -> n < 64 ^ w -> n < 2 ^ 32 -> counter_new None (Some (b64_numeral w n)) (Some code) qb64b qb64 qb2 = new_counter code n) /\
  (~ b64_text u -> exists e, counter_new None (Some u) (Some code) qb64b qb64 qb2 = Err e) /\
  counter_new count cb None (Some t) qb64 qb2 = counter_parse_text_bytes t /\
  counter_new count cb None None (Some t) qb2 = counter_parse_text t /\
  counter_new count cb None None None (Some v) = counter_parse_binary v /\
  counter_new count cb None None None None = Err E_Validation.
Proof. exact C14_arguments_pf. Qed.
Print Assumptions C14_arguments.

(** C14: an out-of-range count written directly into the struct is refused by both encoders *)
Theorem C14_encoders_reject : forall (P : Profile) (code : bytes) (w n : N), In (code, w) count_codes -> 64 ^ w <= n ->
  counter_qb64 (Ctr code n) = Err E_InvalidVarIndex /\ counter_qb2 (Ctr code n) = Err E_InvalidVarIndex.
Proof. exact C14_encoders_reject_pf. Qed.
Print Assumptions C14_encoders_reject.

(** C14: codes outside the table are refused by every operation *)
Theorem C14_unknown_code : forall (P : Profile) (code : bytes) (n : N), ~ In code (map fst count_codes) ->
  (exists e, new_counter code n = Err e) /\ counter_qb64 (Ctr code n) = Err E_UnknownSizage /\ counter_qb2 (Ctr code n) = Err E_UnknownSizage.
Proof. exact C14_unknown_code_pf. Qed.
Print Assumptions C14_unknown_code.

(** C15 *)
Theorem C15_text_canonical : forall (P : Profile) (t : bytes) (c : counter), counter_parse_text t = Ok c ->
  exists w k, In (c_code c, w) count_codes /\ c_count c < 64 ^ w /\ counter_full_size c = Ok k /\ k <= len t /\ counter_qb64 c = Ok (take k t).
Proof. exact C15_text_canonical_pf. Qed.
Print Assumptions C15_text_canonical.

Theorem C15_binary_canonical : forall (P : Profile) (b : bytes) (c : counter), bytes_ok b = true -> counter_parse_binary b = Ok c ->
  exists w k, In (c_code c, w) count_codes /\ c_count c < 64 ^ w /\ counter_full_size c = Ok k /\ k * 3 / 4 <= len b /\ counter_qb2 c = Ok (take (k * 3 / 4) b).
Proof. exact C15_binary_canonical_pf. Qed.
Print Assumptions C15_binary_canonical.

Example C15_canonical_ex : forall P : Profile, counter_parse_text (s2b "--AAAABCxyz") = Ok (Ctr (s2b "--AAA") 66) /\
  counter_parse_binary [248; 0; 66; 7] = Ok (Ctr (s2b "-A") 66).
Proof. exact C15_canonical_ex_pf. Qed.

(** C16: exactly which texts make the parser panic *)
Theorem C16_text_panic_iff : forall (P : Profile) (t : bytes),
  counter_parse_text t = Panic <->
  (len t = 1 \/ inside t 2 \/ (is_prefix (s2b "-0") t /\ inside t 3) \/ (is_prefix (s2b "--") t /\ inside t 5) \/
   exists code w, In (code, w) count_codes /\ is_prefix code t /\ inside t (len code + w)).
Proof. exact C16_text_panic_iff_pf. Qed.
Print Assumptions C16_text_panic_iff.

Example C16_text_panic_iff_ex : forall P : Profile, counter_parse_text (s2b "-") = Panic /\ counter_parse_text (s2b "-" ++ [195; 169]) = Panic /\ utf8_valid (s2b "-" ++ [195; 169]) = true /\ inside (s2b "-" ++ [195; 169]) 2.
Proof. exact C16_text_panic_iff_ex_pf. Qed.

(** C16: on ASCII text only the one-character text panics *)
Theorem C16_ascii : forall (P : Profile) (t : bytes), (forall c, In c t -> c < 128) -> counter_parse_text t = Panic <-> len t = 1.
Proof. exact C16_ascii_pf. Qed.
Print Assumptions C16_ascii.

(** C16: the binary parser never panics *)
Theorem C16_binary_never_panics : forall (P : Profile) (b : bytes), bytes_ok b = true -> counter_parse_binary b <> Panic.
Proof. exact C16_binary_never_panics_pf. Qed.
Print Assumptions C16_binary_never_panics.

(** C16: building and encoding never panic, whatever the code and count *)
Theorem C16_build_never_panics : forall (P : Profile) (code : bytes) (n : N),
  new_counter code n <> Panic /\ counter_qb64 (Ctr code n) <> Panic /\ counter_qb2 (Ctr code n) <> Panic /\ counter_full_size (Ctr code n) <> Panic.
Proof. exact C16_build_never_panics_pf. Qed.
Print Assumptions C16_build_never_panics.

(** C17: width zero means the width of the code; otherwise the requested width *)
Theorem C17_width : forall (P : Profile) (code : bytes) (w n l : N), In (code, w) count_codes -> n < 2 ^ 32 ->
  (n < 64 ^ w -> counter_count_as_b64 (Ctr code n) 0 = Ok (b64_numeral w n)) /\
  (l <> 0 -> n < 64 ^ l -> counter_count_as_b64 (Ctr code n) l = Ok (b64_numeral l n)).
Proof. exact C17_width_pf. Qed.
Print Assumptions C17_width.

Example C17_width_ex : forall P : Profile, counter_count_as_b64 (Ctr (s2b "-A") 65) 5 = Ok (s2b "AAABB") /\ counter_count_as_b64 (Ctr (s2b "-A") 65) 0 = Ok (s2b "BB").
Proof. exact C17_width_ex_pf. Qed.

(** C17: what happens when the count does not fit [l] characters: it is silently cut to its [l] leading digits
    (for counts below 2^24, which a 32-bit float holds exactly: see the comment of [skip_digits]) ... *)
Theorem C17_overflow_truncates : forall (P : Profile) (code : bytes) (n l k : N), 1 <= l <= 3 -> n < 2 ^ 24 ->
  0 < k -> 64 ^ (l + k - 1) < n -> n < 64 ^ (l + k) ->
  counter_count_as_b64 (Ctr code n) l = Ok (b64_numeral l (n / 64 ^ k)).
Proof. exact C17_overflow_truncates_pf. Qed.
Print Assumptions C17_overflow_truncates.

(** C17: ... except at exactly 64^l (and 64^(l+k)), where one character too many is produced *)
Theorem C17_power_too_long : forall (P : Profile) (code : bytes) (l k : N), 1 <= l -> l + k <= 5 ->
  counter_count_as_b64 (Ctr code (64 ^ (l + k))) l = Ok (b64_numeral (l + 1) (64 ^ l)).
Proof. exact C17_power_too_long_pf. Qed.
Print Assumptions C17_power_too_long.

Example C17_overflow_ex : forall P : Profile, counter_count_as_b64 (Ctr (s2b "-A") 130) 1 = Ok (s2b "C") /\ counter_count_as_b64 (Ctr (s2b "-A") 64) 1 = Ok (s2b "BA").
Proof. exact C17_overflow_ex_pf. Qed.

Theorem C18_semver : forall a b c : N,
  (a < 64 /\ b < 64 /\ c < 64 -> sem_ver_to_b64 a b c = Ok (b64_numeral 1 a ++ b64_numeral 1 b ++ b64_numeral 1 c)) /\
  (64 <= a \/ 64 <= b \/ 64 <= c -> sem_ver_to_b64 a b c = Err E_Parsing).
Proof. exact C18_semver_pf. Qed.
Print Assumptions C18_semver.

Theorem C18_injective : forall (a b c a' b' c' : N) (t : bytes), sem_ver_to_b64 a b c = Ok t -> sem_ver_to_b64 a' b' c' = Ok t ->
  len t = 3 /\ a = a' /\ b = b' /\ c = c'.
Proof. exact C18_injective_pf. Qed.
Print Assumptions C18_injective.

(** C18: the string form agrees with the numeric form for every dotted decimal string *)
Theorem C18_string : forall (p1 p2 p3 : bytes) (a b c : N), decimal p1 a -> decimal p2 b -> decimal p3 c ->
  (a < 64 /\ b < 64 /\ c < 64 -> sem_ver_str_to_b64 (p1 ++ s2b "." ++ p2 ++ s2b "." ++ p3) = sem_ver_to_b64 a b c) /\
  (64 <= a \/ 64 <= b \/ 64 <= c -> exists e, sem_ver_str_to_b64 (p1 ++ s2b "." ++ p2 ++ s2b "." ++ p3) = Err e).
Proof. exact C18_string_pf. Qed.
Print Assumptions C18_string.

(** C18: missing parts count as zero *)
Theorem C18_short_strings : forall (p1 p2 : bytes) (a b : N), decimal p1 a -> decimal p2 b -> a < 64 -> b < 64 ->
  sem_ver_str_to_b64 p1 = sem_ver_to_b64 a 0 0 /\ sem_ver_str_to_b64 (p1 ++ s2b "." ++ p2) = sem_ver_to_b64 a b 0 /\ sem_ver_str_to_b64 [] = sem_ver_to_b64 0 0 0.
Proof. exact C18_short_strings_pf. Qed.
Print Assumptions C18_short_strings.

Theorem C18_string_total : forall v : bytes, sem_ver_str_to_b64 v <> Panic /\ (forall t, sem_ver_str_to_b64 v = Ok t -> len t = 3 /\ b64_text t).
Proof. exact C18_string_total_pf. Qed.
Print Assumptions C18_string_total.

Example C18_string_ex : decimal (s2b "07") 7 /\ sem_ver_str_to_b64 (s2b "1.07.63") = Ok (s2b "BH_") /\ sem_ver_str_to_b64 (s2b "1.64.0") = Err E_Parsing /\
  sem_ver_str_to_b64 (s2b "+5") = Ok (s2b "FAA") /\ sem_ver_str_to_b64 (s2b "1.-0.2") = Ok (s2b "BAC") /\ sem_ver_str_to_b64 (s2b "1.-1.2") = Err E_Conversion.
Proof. exact C18_string_ex_pf. Qed.
