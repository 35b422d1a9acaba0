(** Definitions used only to state the Counter properties. *)
From Verif Require Import Base Util CounterTables Counter Spec.

(** count codes with the number of Base64 characters of the count *)
Definition count_codes : list (bytes * N) :=
  map (fun c => (s2b c, 2))
    ["-A"; "-B"; "-C"; "-D"; "-E"; "-F"; "-G"; "-H"; "-I"; "-J"; "-K"; "-L"; "-V"]%string ++
  [(s2b "-0V", 5); (s2b "--AAA", 3)].

Section D.
Context `{P : Profile}.
(** the API calls *)
Definition new_counter (code : bytes) (count : N) : outcome counter := counter_new (Some count) None (Some code) None None None.
Definition counter_parse_text (t : bytes) : outcome counter := counter_new None None None None (Some t) None.
Definition counter_parse_text_bytes (t : bytes) : outcome counter := counter_new None None None (Some t) None None.
Definition counter_parse_binary (b : bytes) : outcome counter := counter_new None None None None None (Some b).
End D.

(** [p] is a decimal numeral of [n] *)
Definition decimal (p : bytes) (n : N) : Prop :=
  p <> [] /\ (forall c, In c p -> 48 <= c <= 57) /\ value 10 (map (fun c => c - 48) p) = n.
