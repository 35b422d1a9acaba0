(** Definitions used only to state the Matter properties. *)
From Verif Require Import Base Utf8 Util MatterTables Matter Spec.

Section D.
Context `{P : Profile}.
(** what the API calls are: build from code and raw, parse text, parse bytes *)
Definition build (code raw : bytes) : outcome matter := matter_new (Some code) (Some raw) None None None.
Definition parse_text (t : bytes) : outcome matter := matter_new None None None (Some t) None.
Definition parse_text_bytes (t : bytes) : outcome matter := matter_new None None (Some t) None None.
Definition parse_binary (b : bytes) : outcome matter := matter_new None None None None (Some b).

(** a primitive a user can construct with a code of the table *)
Definition constructed (m : matter) : Prop :=
  exists code raw, table_code code /\ bytes_ok raw = true /\ build code raw = Ok m.

(** parsing a concatenation: repeatedly parse, then skip full_size characters *)
Fixpoint parse_all (n : nat) (t : bytes) : outcome (list matter) :=
  match n with
  | O => Ok []
  | S n' =>
      m <- parse_text t ;;
      k <- matter_full_size m ;;
      rest <- parse_all n' (drop k t) ;;
      Ok (m :: rest)
  end.
End D.

(** ASCII text without the Base64 padding character *)
Definition ascii_no_pad (t : bytes) : Prop := forall c, In c t -> c < 128 /\ c <> 61.

(** the texts "code with lead bytes, size zero": no room for the lead bytes *)
Definition empty_lead_heads : list bytes :=
  [s2b "5AAA"; s2b "5BAA"; s2b "6AAA"; s2b "6BAA";
   s2b "8AAAAAAA"; s2b "8AABAAAA"; s2b "9AAAAAAA"; s2b "9AABAAAA"].
(** the texts "code with two lead bytes, size one quadlet" (fixed code 3AAA included) *)
Definition short_lead_heads : list bytes := [s2b "3AAA"; s2b "6AAB"; s2b "6BAB"; s2b "9AAAAAAB"; s2b "9AABAAAB"].
(** number of characters of the codes that start with [c] *)
Definition code_length (c h : N) : Prop :=
  letter c /\ h = 1 \/ In c (s2b "0456") /\ h = 2 \/ In c (s2b "123789") /\ h = 4.
