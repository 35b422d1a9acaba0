(** Definitions used only to state the properties of printed JSON. *)
From Verif Require Import Base.

(** the lower case of an ASCII letter *)
Definition lower (c : N) : N := if (65 <=? c) && (c <=? 90) then c + 32 else c.
