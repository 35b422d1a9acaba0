(** Property theorems (generated by tools/mkprop.py from AssembleThms.v, which holds the proofs). *)
From Verif Require Import Base Utf8 MatterTables Matter Spec MatterDefs Indexer IndexerDefs AssembleThms.

(** C74: the text encoder of a fixed size primitive with any fields: it checks the number of raw bytes only modulo three, and ignores the size;
    for the codes with lead bytes it may fail by underflow *)
Theorem C74_fixed_text : forall (P : Profile) (code raw : bytes) (n f size : N), In (code, (n, f)) fixed_codes -> bytes_ok raw = true ->
  let pad := pad_to_3 (len raw) in let lead := pad_to_3 n - len code mod 4 in
  matter_qb64 (Mat code size raw) =
    if pad =? pad_to_3 n then Ok (code ++ drop (len code mod 4) (b64_of (rep 0 pad ++ raw)))
    else if (overflow_checks && (pad <? lead))%bool then Panic else Err E_InvalidCodeSize.
Proof. exact C74_fixed_text_pf. Qed.
Print Assumptions C74_fixed_text.

(** C74: the binary encoder checks it exactly, and still ignores the size *)
Theorem C74_fixed_binary : forall (P : Profile) (code raw : bytes) (n f size : N), In (code, (n, f)) fixed_codes -> bytes_ok raw = true ->
  (len raw <> n -> matter_qb2 (Mat code size raw) = Err E_InvalidCodeSize) /\
  (len raw = n -> exists t b, matter_qb64 (Mat code size raw) = Ok t /\ matter_qb2 (Mat code size raw) = Ok b /\ len t = f /\ b64_of b = t) /\
  matter_full_size (Mat code size raw) = Ok f.
Proof. exact C74_fixed_binary_pf. Qed.
Print Assumptions C74_fixed_binary.

(** C74: a variable size primitive with any fields: the text encoder checks that the size fits its characters and the number of raw bytes modulo three,
    not that the two agree; the binary encoder does; full_size may overflow *)
Theorem C74_variable : forall (P : Profile) (code raw : bytes) (lead type w size : N), lead <= 2 -> In type var_types ->
  (code = small_var_code lead type /\ w = 2 \/ code = large_var_code lead type /\ w = 4) -> bytes_ok raw = true -> size < 2 ^ 32 ->
  let m := Mat code size raw in
  (64 ^ w <= size -> matter_qb64 m = Err E_InvalidVarSize /\ matter_qb2 m = Err E_InvalidVarSize) /\
  (size < 64 ^ w ->
     matter_qb64 m = (if pad_to_3 (len raw) =? lead then Ok (code ++ b64_numeral w size ++ b64_of (rep 0 lead ++ raw)) else Err E_InvalidCodeSize) /\
     (len raw + lead <> 3 * size -> matter_qb2 m = Err E_InvalidCodeSize) /\
     (len raw + lead = 3 * size -> exists t b, matter_qb64 m = Ok t /\ matter_qb2 m = Ok b /\ b64_of b = t)) /\
  matter_full_size m = (if 2 * w + 4 * size <? 2 ^ 32 then Ok (2 * w + 4 * size) else if overflow_checks then Panic else Ok ((2 * w + 4 * size) mod 2 ^ 32)).
Proof. exact C74_variable_pf. Qed.
Print Assumptions C74_variable.

(** C74: any other code is refused by all three *)
Theorem C74_unknown : forall (P : Profile) (m : matter), ~ table_code (m_code m) ->
  matter_qb64 m = Err E_UnknownSizage /\ matter_qb2 m = Err E_UnknownSizage /\ matter_full_size m = Err E_UnknownSizage.
Proof. exact C74_unknown_pf. Qed.
Print Assumptions C74_unknown.

(** C74: whatever the fields, binary that the encoder gives reads back, before any bytes, as the same code and raw *)
Theorem C74_binary_faithful : forall (P : Profile) (m : matter) (b tail : bytes), bytes_ok (m_raw m) = true -> bytes_ok tail = true -> m_size m < 2 ^ 32 -> matter_qb2 m = Ok b ->
  exists m', parse_binary (b ++ tail) = Ok m' /\ m_code m' = m_code m /\ m_raw m' = m_raw m /\ (In (m_code m) variable_codes -> m' = m) /\ (In (m_code m) (map fst fixed_codes) -> m_size m' = 0).
Proof. exact C74_binary_faithful_pf. Qed.
Print Assumptions C74_binary_faithful.

(** C74: but text that the encoder gives for too few raw bytes takes in the text that follows, and for too many leaves the rest *)
Theorem C74_text_rewrites : forall (P : Profile) (code raw next t : bytes) (n f size : N), In (code, (n, f)) fixed_codes -> bytes_ok raw = true -> bytes_ok next = true -> len next mod 3 = 0 ->
  matter_qb64 (Mat code size raw) = Ok t ->
  (n <= len raw + len next -> parse_text (t ++ b64_of next) = Ok (Mat code 0 (take n (raw ++ next)))) /\
  (len raw + len next < n -> parse_text (t ++ b64_of next) = Err E_Shortage).
Proof. exact C74_text_rewrites_pf. Qed.
Print Assumptions C74_text_rewrites.

(** C74: and text of a variable size primitive is read by its size, whatever raw bytes it was made from *)
Theorem C74_variable_rewrites : forall (P : Profile) (code raw next t : bytes) (lead type w size : N), lead <= 2 -> In type var_types ->
  (code = small_var_code lead type /\ w = 2 \/ code = large_var_code lead type /\ w = 4) -> bytes_ok raw = true -> bytes_ok next = true -> len next mod 3 = 0 ->
  matter_qb64 (Mat code size raw) = Ok t ->
  (0 < size \/ lead = 0 -> 3 * size <= lead + len raw + len next -> parse_text (t ++ b64_of next) = Ok (Mat code size (take (3 * size - lead) (raw ++ next)))) /\
  (lead + len raw + len next < 3 * size -> parse_text (t ++ b64_of next) = Err E_Shortage) /\
  (size = 0 -> 0 < lead -> parse_text (t ++ b64_of next) = Panic).
Proof. exact C74_variable_rewrites_pf. Qed.
Print Assumptions C74_variable_rewrites.

(** a key assembled with five raw bytes takes in the text that follows; its binary is refused; with lead bytes the encoder underflows *)
Example C74_ex : In (s2b "D", (32, 44)) fixed_codes /\ In (s2b "3AAA", (1, 8)) fixed_codes /\
  matter_qb64 (H := true) (Mat (s2b "D") 0 [1; 2; 3; 4; 5]) = Ok (s2b "DAECAwQF") /\ matter_qb2 (H := true) (Mat (s2b "D") 0 [1; 2; 3; 4; 5]) = Err E_InvalidCodeSize /\
  parse_text (P := true) (s2b "DAECAwQF" ++ b64_of (rep 9 27)) = Ok (Mat (s2b "D") 0 ([1; 2; 3; 4; 5] ++ rep 9 27)) /\
  matter_qb64 (H := true) (Mat (s2b "3AAA") 0 []) = Panic /\ matter_qb64 (H := false) (Mat (s2b "3AAA") 0 []) = Err E_InvalidCodeSize /\
  matter_qb64 (H := true) (Mat (s2b "4B") 2 [1; 2; 3]) = Ok (s2b "4BACAQID") /\ matter_full_size (H := true) (Mat (s2b "4B") (2 ^ 30) []) = Panic.
Proof. exact C74_ex_pf. Qed.

(** C74: an indexed signature with any fields that fit: both encoders check the number of raw bytes exactly, and the text reads back as what it shows; the text for
    a current-only code with another index than zero is made but refused by the reader *)
Theorem C74_indexed : forall (P : Profile) (x : indexer) (s : sig_info), In (x_code x, s) sig_codes -> bytes_ok (x_raw x) = true ->
  x_index x < 64 ^ sig_index s -> (sig_ondex s = 0 \/ x_ondex x < 64 ^ sig_ondex s) ->
  (len (x_raw x) <> sig_raw s -> indexer_qb64 x = Err E_InvalidCodeSize /\ indexer_qb2 x = if (sig_index s + sig_ondex s =? 6) && overflow_checks then Panic else Err E_InvalidCodeSize) /\
  (len (x_raw x) = sig_raw s -> exists t, indexer_qb64 x = Ok t /\ len t = sig_full s /\ forall tail, utf8_valid tail = true ->
     sig_parse_text (t ++ tail) = if sig_current s && negb (sig_ondex s =? 0) && negb (x_ondex x =? 0) then Err E_Value else Ok (Idx (x_code x) (x_raw x) (x_index x) (shown_ondex s (x_index x) (x_ondex x)))).
Proof. exact C74_indexed_pf. Qed.
Print Assumptions C74_indexed.

Example C74_indexed_ex : forall P : Profile, let x := Idx (s2b "2B") (rep 7 64) 5 6 in let t := s2b "2BAFAG" ++ drop 2 (b64_of ([0; 0] ++ rep 7 64)) in
  In (x_code x, Sig true 2 2 64 92) sig_codes /\ indexer_qb64 x = Ok t /\ sig_parse_text t = Err E_Value.
Proof. exact C74_indexed_ex_pf. Qed.

(** C74: an index or ondex too large for its code is refused in text *)
Theorem C74_index_text : forall (P : Profile) (x : indexer) (s : sig_info), In (x_code x, s) sig_codes ->
  64 ^ sig_index s <= x_index x \/ (0 < sig_ondex s /\ 64 ^ sig_ondex s <= x_ondex x) -> indexer_qb64 x = Err E_InvalidVarIndex.
Proof. exact C74_index_text_pf. Qed.
Print Assumptions C74_index_text.

(** C74: but the binary encoder takes it and writes its leading digits only: the binary is that of another index *)
Theorem C74_index_binary : forall (P : Profile) (x : indexer) (s : sig_info) (k : N), In (x_code x, s) sig_codes -> sig_ondex s <= 2 -> 0 < k <= sig_ondex s -> x_ondex x < 64 ^ sig_ondex s ->
  64 ^ (sig_index s + k - 1) < x_index x < 64 ^ (sig_index s + k) -> indexer_qb2 x = indexer_qb2 (Idx (x_code x) (x_raw x) (x_index x / 64 ^ k) (x_ondex x)).
Proof. exact C74_index_binary_pf. Qed.
Print Assumptions C74_index_binary.

(** C74: the same for the second index of the big codes, which the binary encoder does not check at all *)
Theorem C74_ondex_binary : forall (P : Profile) (x : indexer) (s : sig_info) (k : N), In (x_code x, s) sig_codes -> sig_ondex s = 2 -> 0 < k <= 2 -> x_index x < 64 ^ sig_index s ->
  64 ^ (sig_ondex s + k - 1) < x_ondex x < 64 ^ (sig_ondex s + k) -> indexer_qb2 x = indexer_qb2 (Idx (x_code x) (x_raw x) (x_index x) (x_ondex x / 64 ^ k)).
Proof. exact C74_ondex_binary_pf. Qed.
Print Assumptions C74_ondex_binary.

(** a signature assembled with index 4100 has the binary of index 64, whose reader sees 64 *)
Example C74_index_ex : forall P : Profile, let x := Idx (s2b "2A") (rep 7 64) 4100 5000 in In (x_code x, Sig false 2 2 64 92) sig_codes /\
  indexer_qb64 x = Err E_InvalidVarIndex /\ exists b, indexer_qb2 x = Ok b /\ sig_parse_binary b = Ok (Idx (s2b "2A") (rep 7 64) 64 78).
Proof. exact C74_index_ex_pf. Qed.
