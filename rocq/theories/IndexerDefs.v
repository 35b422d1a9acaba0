(** Definitions used only to state the Indexer properties. *)
From Verif Require Import Base IndexerTables Indexer Spec CounterDefs.

(** The signature codes: does the code stand for a signature of the current key
    list only; number of Base64 characters of the index and of the other index;
    raw bytes; text characters. *)
Record sig_info := Sig { sig_current : bool; sig_index : N; sig_ondex : N; sig_raw : N; sig_full : N }.
Definition sig_codes : list (bytes * sig_info) :=
  map (fun c => (s2b c, Sig false 1 0 64 88)) ["A"; "C"; "E"]%string ++
  map (fun c => (s2b c, Sig true 1 0 64 88)) ["B"; "D"; "F"]%string ++
  [(s2b "0A", Sig false 1 1 114 156); (s2b "0B", Sig true 1 1 114 156)] ++
  map (fun c => (s2b c, Sig false 2 2 64 92)) ["2A"; "2C"; "2E"]%string ++
  map (fun c => (s2b c, Sig true 2 2 64 92)) ["2B"; "2D"; "2F"]%string ++
  [(s2b "3A", Sig false 3 3 114 160); (s2b "3B", Sig true 3 3 114 160)].
(** placeholder codes of the table: fixed size with lead bytes ... *)
Definition lead_codes : list (bytes * sig_info) := [(s2b "1z", Sig false 1 1 54 76); (s2b "4z", Sig false 3 3 54 80)].
(** ... and variable size: two characters of index count the quadlets *)
Definition var_sig_code : bytes := s2b "0z".

Section D.
Context `{P : Profile}.
(** the API calls *)
Definition new_sig (code raw : bytes) (index : N) (ondex : option N) : outcome indexer :=
  indexer_new (Some index) ondex (Some code) (Some raw) None None None.
Definition sig_parse_text (t : bytes) : outcome indexer := indexer_new None None None None None (Some t) None.
Definition sig_parse_text_bytes (t : bytes) : outcome indexer := indexer_new None None None None (Some t) None None.
Definition sig_parse_binary (b : bytes) : outcome indexer := indexer_new None None None None None None (Some b).
End D.

(** the other index the text shows: none (zero) for current-only codes, the
    index when the code has no characters for it *)
Definition shown_ondex (s : sig_info) (index ondex : N) : N :=
  if sig_current s then 0 else if sig_ondex s =? 0 then index else ondex.
(** the Base64 characters of the other index that are accepted *)
Definition ondex_chars (s : sig_info) (ox : bytes) : Prop :=
  sig_ondex s = 0 \/ (b64_text ox /\ (sig_current s = true -> forall c, In c ox -> c = 65)).
