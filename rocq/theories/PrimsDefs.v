(** Definitions used only to state the properties of the typed primitives
    (Verfer, Diger, Cigar, Siger, Number, Seqner, Dater, Bexter). *)
From Verif Require Import Base Utf8 MatterTables Matter Indexer Spec MatterDefs Crypto Prims.

(** Which codes each type may have. *)
Definition key_codes : list bytes := map s2b ["B"; "D"; "1AAA"; "1AAB"; "1AAI"; "1AAJ"]%string.
Definition signature_codes : list bytes := map s2b ["0B"; "0C"; "0I"]%string.
Definition indexed_signature_codes : list bytes :=
  map s2b ["A"; "B"; "C"; "D"; "E"; "F"; "2A"; "2B"; "2C"; "2D"; "2E"; "2F"]%string.
(** digest codes with the number of bytes of the digest *)
Definition digest_sizes : list (bytes * N) :=
  map (fun c => (s2b c, 32)) ["E"; "F"; "G"; "H"; "I"]%string ++ map (fun c => (s2b c, 64)) ["0D"; "0E"; "0F"; "0G"]%string.
(** integer codes with their width in bytes *)
Definition number_widths : list (bytes * N) := [(s2b "M", 2); (s2b "0H", 4); (s2b "N", 8); (s2b "0A", 16)].
Definition text_codes : list bytes := map s2b ["4A"; "5A"; "6A"; "7AAA"; "8AAA"; "9AAA"]%string.

(** The result of a check of the code on the result of another constructor. *)
Definition checked {A} (code_of : A -> bytes) (codes : list bytes) (r r' : outcome A) : Prop :=
  (forall v, r' = Ok v <-> r = Ok v /\ In (code_of v) codes) /\
  (forall e, r' = Err e <-> r = Err e \/ (exists v, r = Ok v /\ ~ In (code_of v) codes) /\ e = E_UnexpectedCode) /\
  (r' = Panic <-> r = Panic).

(** Hexadecimal numerals: digits of either case. *)
Definition hex_digit (c d : N) : Prop :=
  48 <= c <= 57 /\ d = c - 48 \/ 97 <= c <= 102 /\ d = c - 87 \/ 65 <= c <= 70 /\ d = c - 55.
Definition hex_numeral (s : bytes) (n : N) : Prop := exists ds, Forall2 hex_digit s ds /\ n = value 16 ds.
(** what [from_str_radix] accepts *)
Definition hex_input (s : bytes) (n : N) : Prop :=
  exists d, d <> [] /\ (s = d \/ s = 43 :: d) /\ hex_numeral d n /\ n < 2 ^ 128.
(** lower case, no superfluous zeros *)
Definition hex_canonical (s : bytes) : Prop :=
  (forall c, In c s -> 48 <= c <= 57 \/ 97 <= c <= 102) /\ (s = s2b "0" \/ exists c r, s = c :: r /\ c <> 48).

(** lexicographic order of byte strings *)
Inductive lex_lt : list N -> list N -> Prop :=
| lex_nil y l : lex_lt [] (y :: l)
| lex_head x y l l' : x < y -> lex_lt (x :: l) (y :: l')
| lex_tail x l l' : lex_lt l l' -> lex_lt (x :: l) (x :: l').

(** Date texts: Base64-URL characters and the three characters that are mapped *)
Definition date_char (c : N) : Prop := In c b64_alphabet \/ In c (s2b ":.+").
Definition dts_shown (t : bytes) : bytes :=
  map (fun c => if c =? 99 then 58 else if c =? 100 then 46 else if c =? 112 then 43 else c) t.

Section D.
Context `{P : Profile}.
(** Number::new_with_num, new_with_numh, new_with_raw, new_with_qb64, new_with_qb64b, new_with_qb2 *)
Definition number_of (n : N) : outcome matter := number_new (Some n) None None None None None None.
Definition number_of_hex (s : bytes) : outcome matter := number_new None (Some s) None None None None None.
Definition number_of_raw (raw : bytes) (code : option bytes) : outcome matter := number_new None None code (Some raw) None None None.
Definition number_of_text (t : bytes) : outcome matter := number_new None None None None None (Some t) None.
Definition number_of_text_bytes (t : bytes) : outcome matter := number_new None None None None (Some t) None None.
Definition number_of_binary (b : bytes) : outcome matter := number_new None None None None None None (Some b).
(** Seqner::new_with_sn, new_with_snh, new_with_raw, new_with_qb64, new_with_qb2 *)
Definition seqner_of (n : N) : outcome matter := seqner_new (Some n) None None None None None None.
Definition seqner_of_hex (s : bytes) : outcome matter := seqner_new None (Some s) None None None None None.
Definition seqner_of_text (t : bytes) : outcome matter := seqner_new None None None None None (Some t) None.
Definition seqner_of_binary (b : bytes) : outcome matter := seqner_new None None None None None None (Some b).
(** Dater::new_with_dts(dts, None) and new_with_qb64, new_with_qb2; [now] is the clock *)
Definition dater_of (now dts : bytes) : outcome matter := dater_new now (Some dts) None None None None None.
Definition dater_now (now : bytes) : outcome matter := dater_new now None None None None None None.
Definition dater_of_text (now t : bytes) : outcome matter := dater_new now None None None None (Some t) None.
Definition dater_of_binary (now b : bytes) : outcome matter := dater_new now None None None None None (Some b).
(** Bexter::new_with_bext, new_with_qb64, new_with_qb2 *)
Definition bexter_of (t : bytes) : outcome matter := bexter_new (Some t) None None None None None.
Definition bexter_of_text (t : bytes) : outcome matter := bexter_new None None None None (Some t) None.
Definition bexter_of_binary (b : bytes) : outcome matter := bexter_new None None None None None (Some b).
(** Diger::new_with_ser *)
Definition diger_of `{Crypto} (ser : bytes) (code : option bytes) : outcome matter := diger_new (Some ser) code None None None None.
Definition is_diger (m : matter) : Prop := constructed m /\ In (m_code m) (map fst digest_sizes).
End D.

(** the digest functions return digests of the size of their code *)
Definition hash_contract (C : Crypto) : Prop :=
  forall code n ser, In (code, n) digest_sizes -> len (x_hash code ser) = n /\ bytes_ok (x_hash code ser) = true.

(** the text that is shown for a Base64 text: a leading 'A' is lost when the
    length is a (non-zero) multiple of four *)
Definition bext_shown (t : bytes) : bytes :=
  match t with
  | c :: r => if (len t mod 4 =? 0) && (c =? 65) then r else t
  | [] => []
  end.

(** A toy instance of the cryptographic functions, used in examples only. *)
Definition toy_hash (code ser : bytes) : bytes := rep (len ser mod 256) (if len code =? 1 then 32 else 64).
Definition toy_crypto : Crypto := Build_Crypto toy_hash (fun _ e => rep (e mod 256) 32) (fun _ k => Some k) (fun _ _ k m => Some (k ++ rep (len m mod 256) 32))
  (fun _ k s m => Some (bytes_eqb s (k ++ rep (len m mod 256) 32))) (fun _ _ _ _ n => Some (rep 9 n)) (fun e => rep (e mod 256) 16).
