(** Property theorems (generated by tools/mkprop.py from IndexerThms.v, which holds the proofs). *)
From Verif Require Import Base Utf8 Util IndexerTables Indexer Spec CounterDefs IndexerDefs IndexerThms.

(** C19: the text parses back, whatever follows: same code, raw and index, and
    the other index that the text shows *)
Theorem C19_text_round_trip : forall (P : Profile) (code raw : bytes) (s : sig_info) (index : N) (ondex : option N) (x : indexer),
  In (code, s) sig_codes -> bytes_ok raw = true -> new_sig code raw index ondex = Ok x ->
  exists t, indexer_qb64 x = Ok t /\ indexer_qb64b x = Ok t /\ len t = sig_full s /\ b64_text t /\ indexer_full_size x = Ok (len t) /\
    x_code x = code /\ x_raw x = take (sig_raw s) raw /\ x_index x = index /\
    forall tail, utf8_valid tail = true ->
      sig_parse_text (t ++ tail) = Ok (Idx code (x_raw x) index (shown_ondex s index (x_ondex x))) /\
      sig_parse_text_bytes (t ++ tail) = Ok (Idx code (x_raw x) index (shown_ondex s index (x_ondex x))).
Proof. exact C19_text_round_trip_pf. Qed.
Print Assumptions C19_text_round_trip.

(** C19: nothing is lost when the other index was left out, equals the index, or is carried by the code *)
Theorem C19_same_indexer : forall (P : Profile) (code raw : bytes) (s : sig_info) (index : N) (ondex : option N) (x : indexer),
  In (code, s) sig_codes -> bytes_ok raw = true -> new_sig code raw index ondex = Ok x ->
  (ondex = None \/ ondex = Some index \/ 0 < sig_ondex s) ->
  exists t, indexer_qb64 x = Ok t /\ sig_parse_text t = Ok x.
Proof. exact C19_same_indexer_pf. Qed.
Print Assumptions C19_same_indexer.

(** C19 refuted: the other index of a code that cannot carry it is accepted and silently lost *)
Theorem C19_ondex_lost_refuted : forall P : Profile, exists x t x', new_sig (s2b "A") (rep 7 64) 0 (Some 5) = Ok x /\ x_ondex x = 5 /\
  indexer_qb64 x = Ok t /\ sig_parse_text t = Ok x' /\ x_ondex x' = 0.
Proof. exact C19_ondex_lost_refuted_pf. Qed.
Print Assumptions C19_ondex_lost_refuted.

Example C19_text_round_trip_ex : In (s2b "2A", Sig false 2 2 64 92) sig_codes /\ forall P : Profile,
  new_sig (s2b "2A") (rep 0 64) 65 (Some 4095) = Ok (Idx (s2b "2A") (rep 0 64) 65 4095) /\
  indexer_qb64 (Idx (s2b "2A") (rep 0 64) 65 4095) = Ok (s2b "2ABB__" ++ rep 65 86).
Proof. exact C19_text_round_trip_ex_pf. Qed.

(** C20: the binary form parses back; with overflow checks the codes with six soft characters panic *)
Theorem C20_binary_round_trip : forall (P : Profile) (code raw : bytes) (s : sig_info) (index : N) (ondex : option N) (x : indexer),
  In (code, s) sig_codes -> bytes_ok raw = true -> new_sig code raw index ondex = Ok x ->
  (sig_index s + sig_ondex s < 6 \/ overflow_checks = false) ->
  exists b, indexer_qb2 x = Ok b /\ bytes_ok b = true /\ len b * 4 = sig_full s * 3 /\
    forall tail, bytes_ok tail = true -> sig_parse_binary (b ++ tail) = Ok (Idx code (x_raw x) index (shown_ondex s index (x_ondex x))).
Proof. exact C20_binary_round_trip_pf. Qed.
Print Assumptions C20_binary_round_trip.

Theorem C20_big_codes_panic : forall (P : Profile) (code raw : bytes) (s : sig_info) (index : N) (ondex : option N) (x : indexer),
  In (code, s) sig_codes -> bytes_ok raw = true -> new_sig code raw index ondex = Ok x ->
  (indexer_qb2 x = Panic <-> sig_index s + sig_ondex s = 6 /\ overflow_checks = true).
Proof. exact C20_big_codes_panic_pf. Qed.
Print Assumptions C20_big_codes_panic.

Example C20_binary_ex : In (s2b "3A", Sig false 3 3 114 160) sig_codes /\
  new_sig (P := true) (s2b "3A") (rep 1 114) 4096 None = Ok (Idx (s2b "3A") (rep 1 114) 4096 4096) /\ indexer_qb2 (H := true) (Idx (s2b "3A") (rep 1 114) 4096 4096) = Panic /\
  indexer_qb2 (H := false) (Idx (s2b "3A") (rep 1 114) 4096 4096) = Ok ([220; 0; 64; 0; 16; 0]%N ++ rep 1 114).
Proof. exact C20_binary_ex_pf. Qed.

(** C21: text and binary are one code; code, index and other index in front, raw behind *)
Theorem C21_composable : forall (P : Profile) (code raw : bytes) (s : sig_info) (index : N) (ondex : option N) (x : indexer),
  In (code, s) sig_codes -> bytes_ok raw = true -> new_sig code raw index ondex = Ok x ->
  exists t, indexer_qb64 x = Ok t /\ is_prefix (code ++ b64_numeral (sig_index s) index ++ b64_numeral (sig_ondex s) (x_ondex x)) t /\
    forall b, indexer_qb2 x = Ok b -> t = b64_of b /\ len b mod 3 = 0 /\ (exists pre, b = pre ++ x_raw x) /\ len (x_raw x) = sig_raw s.
Proof. exact C21_composable_pf. Qed.
Print Assumptions C21_composable.

Example C21_composable_ex : forall P : Profile, indexer_qb64 (Idx (s2b "0B") (rep 0 114) 63 0) = Ok (s2b "0B_A" ++ rep 65 152) /\
  indexer_qb2 (Idx (s2b "0B") (rep 0 114) 63 0) = Ok ([208; 31; 192]%N ++ rep 0 114).
Proof. exact C21_composable_ex_pf. Qed.

(** C22: exactly what the constructor accepts *)
Theorem C22_accepts_iff : forall (P : Profile) (code raw : bytes) (s : sig_info) (index : N) (ondex : option N) (x : indexer),
  In (code, s) sig_codes ->
  (new_sig code raw index ondex = Ok x <->
   index < 64 ^ sig_index s /\ (sig_current s = true -> ondex = None) /\
   (forall o, ondex = Some o -> 0 < sig_ondex s -> o < 64 ^ sig_ondex s) /\ sig_raw s <= len raw /\
   x = Idx code (take (sig_raw s) raw) index (match ondex with Some o => o | None => if sig_current s then 0 else index end)).
Proof. exact C22_accepts_iff_pf. Qed.
Print Assumptions C22_accepts_iff.

(** C22: what each argument of the constructor does: raw material needs a code and its index
    defaults to zero; without it the first of the three encodings given is read *)
Theorem C22_arguments : forall (P : Profile) (code raw t v : bytes) (i : N) (index ondex : option N) (c qb64b qb64 qb2 : option bytes),
  indexer_new (Some i) ondex (Some code) (Some raw) qb64b qb64 qb2 = new_sig code raw i ondex /\
  indexer_new None ondex (Some code) (Some raw) qb64b qb64 qb2 = new_sig code raw 0 ondex /\
  indexer_new index ondex None (Some raw) qb64b qb64 qb2 = Err E_EmptyMaterial /\
  indexer_new index ondex c None (Some t) qb64 qb2 = sig_parse_text_bytes t /\
  indexer_new index ondex c None None (Some t) qb2 = sig_parse_text t /\
  indexer_new index ondex c None None None (Some v) = sig_parse_binary v /\
  indexer_new index ondex c None None None None = Err E_Validation.
Proof. exact C22_arguments_pf. Qed.
Print Assumptions C22_arguments.

(** C22: rejection is an error, never a panic, for every code, index and other index *)
Theorem C22_never_panics : forall (P : Profile) (code raw : bytes) (index : N) (ondex : option N), new_sig code raw index ondex <> Panic.
Proof. exact C22_never_panics_pf. Qed.
Print Assumptions C22_never_panics.

(** C22: codes outside the table are rejected *)
Theorem C22_unknown_code : forall (P : Profile) (code raw : bytes) (index : N) (ondex : option N),
  ~ In code (map fst sig_codes) -> ~ In code (map fst lead_codes) -> code <> var_sig_code -> exists e, new_sig code raw index ondex = Err e.
Proof. exact C22_unknown_code_pf. Qed.
Print Assumptions C22_unknown_code.

(** C22: the variable size placeholder code takes its length from the index and round-trips *)
Theorem C22_variable_code : forall (P : Profile) (raw : bytes) (index : N) (ondex : option N) (x : indexer), bytes_ok raw = true ->
  (new_sig var_sig_code raw index ondex = Ok x <-> index < 4096 /\ (ondex = None \/ ondex = Some index) /\ 3 * index <= len raw /\
     x = Idx var_sig_code (take (3 * index) raw) index (match ondex with Some o => o | None => 0 end)) /\
  (new_sig var_sig_code raw index ondex = Ok x -> exists t b, indexer_qb64 x = Ok t /\ indexer_qb2 x = Ok b /\ len t = 4 + 4 * index /\ t = b64_of b /\
     sig_parse_text t = Ok (Idx var_sig_code (x_raw x) index index) /\ sig_parse_binary b = Ok (Idx var_sig_code (x_raw x) index index)).
Proof. exact C22_variable_code_pf. Qed.
Print Assumptions C22_variable_code.

(** C22: the two placeholder codes with a lead byte are accepted by the constructor and can never be encoded *)
Theorem C22_lead_codes_useless : forall (P : Profile) (code raw : bytes) (s : sig_info) (index : N) (ondex : option N) (x : indexer),
  In (code, s) lead_codes -> new_sig code raw index ondex = Ok x -> x_code x = code /\ (forall t, indexer_qb64 x <> Ok t) /\ (forall b, indexer_qb2 x <> Ok b).
Proof. exact C22_lead_codes_useless_pf. Qed.
Print Assumptions C22_lead_codes_useless.

(** C22: examples, with the mismatching other index accepted *)
Example C22_accepts_ex : forall P : Profile, new_sig (s2b "B") (rep 1 64) 63 None = Ok (Idx (s2b "B") (rep 1 64) 63 0) /\
  new_sig (s2b "B") (rep 1 64) 64 None = Err E_InvalidVarIndex /\ new_sig (s2b "B") (rep 1 64) 3 (Some 3) = Err E_InvalidVarIndex /\
  new_sig (s2b "A") (rep 1 64) 3 None = Ok (Idx (s2b "A") (rep 1 64) 3 3) /\ new_sig (s2b "A") (rep 1 64) 3 (Some 70000) = Ok (Idx (s2b "A") (rep 1 64) 3 70000) /\
  new_sig (s2b "1z") (rep 1 54) 3 None = Ok (Idx (s2b "1z") (rep 1 54) 3 0).
Proof. exact C22_accepts_ex_pf. Qed.

Theorem C23_text_canonical : forall (P : Profile) (t : bytes) (x : indexer) (s : sig_info),
  sig_parse_text t = Ok x -> In (x_code x, s) sig_codes ->
  sig_full s <= len t /\ indexer_full_size x = Ok (sig_full s) /\ x_ondex x = shown_ondex s (x_index x) (x_ondex x) /\
  (~ In 61 (take (sig_full s) t) -> indexer_qb64 x = Ok (take (sig_full s) t) /\ b64_text (take (sig_full s) t) /\ len (x_raw x) = sig_raw s /\
     new_sig (x_code x) (x_raw x) (x_index x) (if sig_current s then None else Some (x_ondex x)) = Ok x).
Proof. exact C23_text_canonical_pf. Qed.
Print Assumptions C23_text_canonical.

Theorem C23_binary_canonical : forall (P : Profile) (b : bytes) (x : indexer) (s : sig_info), bytes_ok b = true ->
  sig_parse_binary b = Ok x -> In (x_code x, s) sig_codes ->
  sig_full s * 3 / 4 <= len b /\ indexer_qb64 x = Ok (b64_of (take (sig_full s * 3 / 4) b)) /\
  (sig_index s + sig_ondex s < 6 \/ overflow_checks = false -> indexer_qb2 x = Ok (take (sig_full s * 3 / 4) b)).
Proof. exact C23_binary_canonical_pf. Qed.
Print Assumptions C23_binary_canonical.

(** C23 refuted with padding: the padding character is accepted and the short signature cannot be encoded again *)
Theorem C23_padding_accepted_refuted : forall P : Profile, exists x, sig_parse_text (s2b "AA" ++ rep 65 84 ++ s2b "A=") = Ok x /\ len (x_raw x) = 63 /\ indexer_qb64 x = Err E_InvalidCodeSize.
Proof. exact C23_padding_accepted_refuted_pf. Qed.
Print Assumptions C23_padding_accepted_refuted.

Example C23_canonical_ex : forall P : Profile, In (s2b "B", Sig true 1 0 64 88) sig_codes /\ ~ In 61 (s2b "BD" ++ rep 65 86) /\
  sig_parse_text (s2b "BD" ++ rep 65 90) = Ok (Idx (s2b "B") (rep 0 64) 3 0) /\ sig_parse_text (s2b "0BAB" ++ rep 65 152) = Err E_Value.
Proof. exact C23_canonical_ex_pf. Qed.

(** C24: the text encoder rejects an index or other index that does not fit *)
Theorem C24_text_rejects : forall (P : Profile) (x : indexer) (s : sig_info), In (x_code x, s) sig_codes ->
  (64 ^ sig_index s <= x_index x \/ (0 < sig_ondex s /\ 64 ^ sig_ondex s <= x_ondex x)) -> indexer_qb64 x = Err E_InvalidVarIndex.
Proof. exact C24_text_rejects_pf. Qed.
Print Assumptions C24_text_rejects.

(** C24: the binary encoder rejects it too for the codes without an other index *)
Theorem C24_small_codes_reject : forall (P : Profile) (x : indexer) (s : sig_info), In (x_code x, s) sig_codes -> sig_ondex s = 0 ->
  64 ^ sig_index s <= x_index x -> indexer_qb2 x = Err E_InvalidVarIndex.
Proof. exact C24_small_codes_reject_pf. Qed.
Print Assumptions C24_small_codes_reject.

(** C24 refuted: for every code with an other index, the binary encoder writes some out-of-range index as another index *)
Theorem C24_binary_accepts_refuted : forall code, In code (map s2b ["0A"; "0B"; "2A"; "2B"; "2C"; "2D"; "2E"; "2F"]%string) ->
  exists s x i, In (code, s) sig_codes /\ forall P : Profile, new_sig code (rep 7 (sig_raw s)) 0 None = Ok x /\ 64 ^ sig_index s < i /\
    indexer_qb64 (set_index x i) = Err E_InvalidVarIndex /\
    exists b x', indexer_qb2 (set_index x i) = Ok b /\ sig_parse_binary b = Ok x' /\ x_index x' < i.
Proof. exact C24_binary_accepts_refuted_pf. Qed.
Print Assumptions C24_binary_accepts_refuted.

Example C24_text_rejects_ex : forall P : Profile, indexer_qb64 (set_ondex (Idx (s2b "2A") (rep 7 64) 0 0) 4096) = Err E_InvalidVarIndex /\
  (exists b, indexer_qb2 (set_ondex (Idx (s2b "2A") (rep 7 64) 0 0) 4097) = Ok b).
Proof. exact C24_text_rejects_ex_pf. Qed.

(** C25: the binary parser never panics *)
Theorem C25_binary_never_panics : forall (P : Profile) (b : bytes), bytes_ok b = true -> sig_parse_binary b <> Panic.
Proof. exact C25_binary_never_panics_pf. Qed.
Print Assumptions C25_binary_never_panics.

Theorem C25_text_panic_iff : forall (P : Profile) (t : bytes),
  sig_parse_text t = Panic <->
  (exists c r, t = c :: r /\ ((letter c /\ inside t 1) \/ (48 <= c <= 52 /\ inside t 2))) \/
  (exists code s, In (code, s) (sig_codes ++ lead_codes) /\ is_prefix code t /\
     let h := len code in let i := h + sig_index s in let o := i + sig_ondex s in o <= len t /\
     (inside t i \/ b64_text (drop h (take i t)) /\ (inside t o \/ ondex_chars s (drop i (take o t)) /\ inside t (sig_full s)))) \/
  (is_prefix var_sig_code t /\ 4 <= len t /\ (inside t 4 \/ exists n, n < 4096 /\ drop 2 (take 4 t) = b64_numeral 2 n /\ inside t (4 + 4 * n))).
Proof. exact C25_text_panic_iff_pf. Qed.
Print Assumptions C25_text_panic_iff.

(** C25: so ASCII text never panics *)
Theorem C25_ascii_never_panics : forall (P : Profile) (t : bytes), (forall c, In c t -> c < 128) -> sig_parse_text t <> Panic.
Proof. exact C25_ascii_never_panics_pf. Qed.
Print Assumptions C25_ascii_never_panics.

Example C25_text_panic_ex : forall P : Profile, utf8_valid (s2b "0" ++ [226; 130; 172]) = true /\ sig_parse_text (s2b "0" ++ [226; 130; 172]) = Panic /\ inside (s2b "0" ++ [226; 130; 172]) 2.
Proof. exact C25_text_panic_ex_pf. Qed.
