(** UTF-8 texts, stated by code points.  Used only to state properties. *)
From Verif Require Import Base Data Json GrammarDefs.

(** Unicode scalar values: all code points except the surrogates *)
Definition scalar (n : N) : Prop := n < 55296 \/ 57344 <= n < 1114112.
(** a text: the UTF-8 bytes of scalar values one after the other *)
Inductive utf8_text : bytes -> Prop :=
| ut_end : utf8_text []
| ut_char n u s : scalar n -> utf8_char n u -> utf8_text s -> utf8_text (u ++ s).
(** all strings and keys of a value are such texts *)
Inductive all_texts : data -> Prop :=
| at_null : all_texts VNull
| at_bool b : all_texts (VBool b)
| at_int i : all_texts (VInt i)
| at_float t : all_texts (VFloat t)
| at_str s : utf8_text s -> all_texts (VStr s)
| at_arr a : (forall v, In v a -> all_texts v) -> all_texts (VArr a)
| at_obj o : (forall k v, In (k, v) o -> utf8_text k /\ all_texts v) -> all_texts (VObj o).
