(** Model of the WebAssembly bindings, /repo/wasm/src: the functions in which a
    value is converted on its way to or from JavaScript, that is, every function
    that takes or returns a [U128], a [Value] or an array.  The remaining methods
    hand their arguments to the method of the same name of /repo/src and return
    what it returns; they have no definition here.

    Simplifications: a JavaScript error carries the text of the library's error
    (error.rs:13-17); here it is that error.  A [String] is its UTF-8 bytes.  An
    object that is passed by value is consumed, which is not modelled.  usize is
    32 bits wide in a WebAssembly module; the model of /repo/src has 64 bits. *)
From Verif Require Import Base MatterTables Matter IndexerTables Indexer Crypto Prims StdStr Data Json Common Saider Tholder Sadder Prefixer Signer.

(** util.rs:4-8 *)
Record u128 := Halves { low : N; high : N }.
(** util.rs:10-14 *)
Definition u128_of_n (n : N) : u128 := Halves (n mod 2 ^ 64) (N.shiftr n 64 mod 2 ^ 64).
(** util.rs:16-20: the upper half is not shifted *)
Definition n_of_u128 (u : u128) : N := N.lor (high u) (low u).

(** util.rs:36-41: [unwrap] on what [serde_json::from_str] returns *)
Definition value_of_text `{Floats} (s : bytes) : outcome data :=
  match json_from_str s with Ok j => import j | _ => Panic end.
(** [thold.map(Value::from)] and the like *)
Definition value_of_opt `{Floats} (s : option bytes) : outcome (option data) :=
  match s with None => Ok None | Some s => v <- value_of_text s ;; Ok (Some v) end.
(** [.expect(..)] *)
Definition expect {A} (r : outcome A) : outcome A := match r with Ok a => Ok a | _ => Panic end.
(** A JavaScript array: of each entry, the text if it is a string.
    [v.as_string().unwrap_or_default()] (primitives/saider.rs:43-46, prefixer.rs:23-26) *)
Definition names_of_array (a : option (list (option bytes))) : option (list bytes) :=
  match a with None => None | Some l => Some (map (fun v => unwrap_or v []) l) end.

Section Wasm.
Context `{P : Profile} `{C : Crypto} `{F : Floats}.

(** primitives/number.rs:13-34, 36-39, 66-69 *)
Definition js_number_new (num : option u128) (numh code raw qb64b qb64 qb2 : option bytes) : outcome matter :=
  number_new (option_map n_of_u128 num) numh code raw qb64b qb64 qb2.
Definition js_number_new_with_num (num : u128) : outcome matter := number_new (Some (n_of_u128 num)) None None None None None None.
Definition js_number_num (m : matter) : outcome u128 := n <- number_num m ;; Ok (u128_of_n n).
(** primitives/seqner.rs:13-34, 36-39, 66-69 *)
Definition js_seqner_new (sn : option u128) (snh code raw qb64b qb64 qb2 : option bytes) : outcome matter :=
  seqner_new (option_map n_of_u128 sn) snh code raw qb64b qb64 qb2.
Definition js_seqner_new_with_sn (sn : u128) : outcome matter := seqner_new (Some (n_of_u128 sn)) None None None None None None.
Definition js_seqner_sn (m : matter) : outcome u128 := n <- seqner_sn m ;; Ok (u128_of_n n).

(** primitives/tholder.rs:15-29 *)
Definition js_tholder_new (thold : option bytes) (limen : option bytes) (sith : option bytes) : outcome tholder :=
  t <- value_of_opt thold ;; s <- value_of_opt sith ;; tholder_new t limen s.
(** primitives/tholder.rs:31-34, 41-44 *)
Definition js_tholder_new_with_thold (thold : bytes) : outcome tholder := t <- value_of_text thold ;; tholder_new (Some t) None None.
Definition js_tholder_new_with_sith (sith : bytes) : outcome tholder := s <- value_of_text sith ;; tholder_new None None (Some s).
(** primitives/tholder.rs:46-49: [to_json] always returns a text *)
Definition js_tholder_thold (t : tholder) : bytes := to_json (th_thold t).
(** primitives/tholder.rs:75-79 *)
Definition js_tholder_sith (t : tholder) : outcome bytes := s <- tholder_sith t ;; Ok (to_json s).

(** primitives/saider.rs:30-60 *)
Definition js_saider_new (sad : option bytes) (label kind : option bytes) (ignore : option (list (option bytes))) (code raw qb64b qb64 qb2 : option bytes) : outcome matter :=
  s <- value_of_opt sad ;; saider_new s label kind (names_of_array ignore) code raw qb64b qb64 qb2.
(** primitives/saider.rs:62-85: [to_string] is the conversion of data.rs:54-59 *)
Definition js_saidify (sad : bytes) (code kind label : option bytes) (ignore : option (list (option bytes))) : outcome (matter * bytes) :=
  v <- value_of_text sad ;; r <- saidify v code kind label (names_of_array ignore) ;;
  t <- expect (to_string (snd r)) ;; Ok (fst r, t).
(** primitives/saider.rs:87-112 *)
Definition js_said_verify (self : matter) (sad : bytes) (prefixed versioned : option bool) (kind label : option bytes) (ignore : option (list (option bytes))) : outcome bool :=
  v <- value_of_text sad ;; said_verify self v prefixed versioned kind label (names_of_array ignore).
(** primitives/saider.rs:114-134 *)
Definition js_saider_new_with_sad (sad : bytes) (label kind : option bytes) (ignore : option (list (option bytes))) (code : option bytes) : outcome matter :=
  v <- value_of_text sad ;; saider_new (Some v) label kind (names_of_array ignore) code None None None None.

(** primitives/serder.rs:16-33 *)
Definition js_serder_new (code raw kind ked : option bytes) (sad : option sadder) : outcome sadder :=
  k <- value_of_opt ked ;; serder_new code raw kind k sad.
(** primitives/serder.rs:35-43 *)
Definition js_serder_new_with_ked (ked : bytes) (code kind : option bytes) : outcome sadder :=
  k <- value_of_text ked ;; serder_new code None kind (Some k) None.
(** primitives/serder.rs:45-73: a new array of that length, and [arr.set(i, ..)] for every position in turn.
    An entry that was not set would be undefined. *)
Definition js_array_set {A} (l : list A) (arr : list (option A)) (i : nat) : list (option A) :=
  match list_set (fun _ => nth_error l i) i arr with Some arr' => arr' | None => arr end.
Definition js_array {A} (l : list A) : list (option A) := fold_left (js_array_set l) (seq 0 (length l)) (repeat None (length l)).
Definition js_serder_verfers (s : sadder) : outcome (list (option matter)) := l <- serder_verfers s ;; Ok (js_array l).
Definition js_serder_digers (s : sadder) : outcome (list (option matter)) := l <- serder_digers s ;; Ok (js_array l).
Definition js_serder_werfers (s : sadder) : outcome (list (option matter)) := l <- serder_werfers s ;; Ok (js_array l).
(** primitives/serder.rs:90-93, 100-103 *)
Definition js_serder_sn (s : sadder) : outcome u128 := n <- serder_sn s ;; Ok (u128_of_n n).
Definition js_serder_fn (s : sadder) : outcome u128 := n <- serder_fn s ;; Ok (u128_of_n n).
(** primitives/serder.rs:113-116: [to_string] again *)
Definition js_serder_ked (s : sadder) : outcome bytes := expect (to_string (sd_ked s)).

(** primitives/prefixer.rs:13-38 *)
Definition js_prefixer_new (ked : option bytes) (allows : option (list (option bytes))) (code raw qb64b qb64 qb2 : option bytes) : outcome matter :=
  k <- value_of_opt ked ;; prefixer_new k (names_of_array allows) code raw qb64b qb64 qb2.
(** primitives/prefixer.rs:40-52 *)
Definition js_prefixer_new_with_ked (ked : bytes) (allows : option (list (option bytes))) (code : option bytes) : outcome matter :=
  k <- value_of_text ked ;; prefixer_new (Some k) (names_of_array allows) code None None None None.
(** primitives/prefixer.rs:74-76 *)
Definition js_prefixer_verify (self : matter) (ked : bytes) (prefixed : option bool) : outcome bool :=
  k <- value_of_text ked ;; prefixer_verify self k prefixed.

(** primitives/salter.rs:92-117, primitives/signer.rs:103-124 *)
Definition js_signers_get (l : list signer) (i : N) : option signer := if i <? len l then nth_error l (N.to_nat i) else None.
End Wasm.

(** primitives/codex.rs:5-55 *)
Inductive matter_codex :=
  | M_Ed25519Seed | M_Ed25519N | M_X25519 | M_Ed25519 | M_Blake3_256 | M_Blake2b_256 | M_Blake2s_256 | M_SHA3_256
  | M_SHA2_256 | M_ECDSA_256k1_Seed | M_Ed448_Seed | M_X448 | M_Short | M_Big | M_X25519_Private | M_X25519_Cipher_Seed
  | M_Salt_128 | M_Ed25519_Sig | M_ECDSA_256k1_Sig | M_Blake3_512 | M_Blake2b_512 | M_SHA3_512 | M_SHA2_512 | M_Long
  | M_ECDSA_256k1N | M_ECDSA_256k1 | M_Ed448N | M_Ed448 | M_Ed448_Sig | M_Tern | M_DateTime | M_X25519_Cipher_Salt
  | M_TBD1 | M_TBD2 | M_StrB64_L0 | M_StrB64_L1 | M_StrB64_L2 | M_StrB64_Big_L0 | M_StrB64_Big_L1 | M_StrB64_Big_L2
  | M_Bytes_L0 | M_Bytes_L1 | M_Bytes_L2 | M_Bytes_Big_L0 | M_Bytes_Big_L1 | M_Bytes_Big_L2.
(** primitives/codex.rs:57-113, with the constants of the library's tables *)
Definition matter_codex_code (c : matter_codex) : bytes :=
  match c with
  | M_Ed25519Seed => s2b "A" | M_Ed25519N => s2b "B" | M_X25519 => s2b "C" | M_Ed25519 => s2b "D" | M_Blake3_256 => s2b "E"
  | M_Blake2b_256 => s2b "F" | M_Blake2s_256 => s2b "G" | M_SHA3_256 => s2b "H" | M_SHA2_256 => s2b "I" | M_ECDSA_256k1_Seed => s2b "J"
  | M_Ed448_Seed => s2b "K" | M_X448 => s2b "L" | M_Short => s2b "M" | M_Big => s2b "N" | M_X25519_Private => s2b "O"
  | M_X25519_Cipher_Seed => s2b "P" | M_Salt_128 => s2b "0A" | M_Ed25519_Sig => s2b "0B" | M_ECDSA_256k1_Sig => s2b "0C" | M_Blake3_512 => s2b "0D"
  | M_Blake2b_512 => s2b "0E" | M_SHA3_512 => s2b "0F" | M_SHA2_512 => s2b "0G" | M_Long => s2b "0H" | M_ECDSA_256k1N => s2b "1AAA"
  | M_ECDSA_256k1 => s2b "1AAB" | M_Ed448N => s2b "1AAC" | M_Ed448 => s2b "1AAD" | M_Ed448_Sig => s2b "1AAE" | M_Tern => s2b "1AAF"
  | M_DateTime => s2b "1AAG" | M_X25519_Cipher_Salt => s2b "1AAH" | M_TBD1 => s2b "2AAA" | M_TBD2 => s2b "3AAA" | M_StrB64_L0 => s2b "4A"
  | M_StrB64_L1 => s2b "5A" | M_StrB64_L2 => s2b "6A" | M_StrB64_Big_L0 => s2b "7AAA" | M_StrB64_Big_L1 => s2b "8AAA" | M_StrB64_Big_L2 => s2b "9AAA"
  | M_Bytes_L0 => s2b "4B" | M_Bytes_L1 => s2b "5B" | M_Bytes_L2 => s2b "6B" | M_Bytes_Big_L0 => s2b "7AAB" | M_Bytes_Big_L1 => s2b "8AAB"
  | M_Bytes_Big_L2 => s2b "9AAB"
  end.
(** primitives/codex.rs:115-134 *)
Inductive indexer_codex :=
  | X_Ed25519 | X_Ed25519_Crt | X_ECDSA_256k1 | X_ECDSA_256k1_Crt | X_Ed448 | X_Ed448_Crt | X_Ed25519_Big | X_Ed25519_Big_Crt
  | X_ECDSA_256k1_Big | X_ECDSA_256k1_Big_Crt | X_Ed448_Big | X_Ed448_Big_Crt | X_TBD0 | X_TBD1 | X_TBD4.
(** primitives/codex.rs:136-161, with the constants of the library's tables *)
Definition indexer_codex_code (c : indexer_codex) : bytes :=
  match c with
  | X_Ed25519 => s2b "A" | X_Ed25519_Crt => s2b "B" | X_ECDSA_256k1 => s2b "C" | X_ECDSA_256k1_Crt => s2b "D" | X_Ed448 => s2b "0A"
  | X_Ed448_Crt => s2b "0B" | X_Ed25519_Big => s2b "2A" | X_Ed25519_Big_Crt => s2b "2B" | X_ECDSA_256k1_Big => s2b "2C" | X_ECDSA_256k1_Big_Crt => s2b "2D"
  | X_Ed448_Big => s2b "3A" | X_Ed448_Big_Crt => s2b "3B" | X_TBD0 => s2b "0z" | X_TBD1 => s2b "1z" | X_TBD4 => s2b "4z"
  end.
