(** Specification vocabulary used by the property statements: positional
    numerals, Base64-URL, the CESR code table.  Nothing here mentions the
    functions of the model (only bytes and lists). *)
From Verif Require Import Base.

(** The URL-safe Base64 alphabet (RFC 4648 section 5). *)
Definition b64_alphabet : bytes :=
  s2b "ABCDEFGHIJKLMNOPQRSTUVWXYZabcdefghijklmnopqrstuvwxyz0123456789-_".

Definition b64_text (t : bytes) : Prop := forall c, In c t -> In c b64_alphabet.

(** Big-endian value of a digit list, and the [k] digit numeral of [n]. *)
Fixpoint value (base : N) (l : list N) : N :=
  match l with [] => 0 | d :: r => d * base ^ N.of_nat (length r) + value base r end.
Fixpoint numeral (base : N) (k : nat) (n : N) : list N :=
  match k with O => [] | S k' => (n / base ^ N.of_nat k') mod base :: numeral base k' n end.

(** Base64-URL text with [k] characters of the number [n]; byte string. *)
Definition b64_numeral (k n : N) : bytes :=
  map (fun d => nth (N.to_nat d) b64_alphabet 0) (numeral 64 (N.to_nat k) n).
Definition byte_numeral (k n : N) : bytes := numeral 256 (N.to_nat k) n.

(** Base64-URL encoding of a byte string whose length is a multiple of 3: the
    same number written in base 64. *)
Definition b64_of (bs : bytes) : bytes := b64_numeral (len bs / 3 * 4) (value 256 bs).

(** The CESR master code table of the crate: fixed size codes with the number
    of raw bytes and the number of text characters ... *)
Definition fixed_codes : list (bytes * (N * N)) :=
  map (fun c => (s2b c, (32, 44)))
    ["A"; "B"; "C"; "D"; "E"; "F"; "G"; "H"; "I"; "J"; "O"; "Q"]%string ++
  [ (s2b "K", (56, 76)); (s2b "L", (56, 76)); (s2b "M", (2, 4)); (s2b "N", (8, 12)); (s2b "P", (92, 124));
    (s2b "0A", (16, 24)); (s2b "0H", (4, 8)) ] ++
  map (fun c => (s2b c, (64, 88))) ["0B"; "0C"; "0D"; "0E"; "0F"; "0G"; "0I"]%string ++
  [ (s2b "1AAA", (33, 48)); (s2b "1AAB", (33, 48)); (s2b "1AAC", (57, 80)); (s2b "1AAD", (57, 80));
    (s2b "1AAE", (39, 56)); (s2b "1AAF", (3, 8)); (s2b "1AAG", (24, 36)); (s2b "1AAH", (72, 100));
    (s2b "1AAI", (33, 48)); (s2b "1AAJ", (33, 48)); (s2b "2AAA", (2, 8)); (s2b "3AAA", (1, 8)) ].

(** ... and variable size codes: a selector for the number of lead bytes
    (0, 1, 2), then the type; small codes count quadlets with 2 characters,
    large codes with 4. *)
Definition small_var_code (lead : N) (type : N) : bytes := [nth (N.to_nat lead) (s2b "456") 0; type].
Definition large_var_code (lead : N) (type : N) : bytes := [nth (N.to_nat lead) (s2b "789") 0] ++ s2b "AA" ++ [type].
Definition var_types : list N := s2b "AB".
Definition variable_codes : list bytes :=
  flat_map (fun type => flat_map (fun lead => [small_var_code lead type; large_var_code lead type]) [0; 1; 2]) var_types.

Definition table_code (c : bytes) : Prop := In c (map fst fixed_codes) \/ In c variable_codes.

(** number of bytes to add to reach a multiple of three *)
Definition pad_to_3 (n : N) : N := (3 - n mod 3) mod 3.

Definition is_prefix (a b : bytes) : Prop := exists r, b = a ++ r.

(** position [k] of [t] is inside a multi-byte UTF-8 character *)
Definition inside (t : bytes) (k : N) : Prop := exists c, nth_error t (N.to_nat k) = Some c /\ 128 <= c < 192.
(** ASCII letters *)
Definition letter (c : N) : Prop := 65 <= c <= 90 \/ 97 <= c <= 122.
