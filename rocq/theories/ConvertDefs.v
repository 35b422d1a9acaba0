(** Definitions used only to state the properties of the conversions of values. *)
From Verif Require Import Base Data Convert.

(** which of the six conversions succeed: to string, boolean, integer, float, list, map *)
Definition converts (v : data) : list bool :=
  let ok {A} (x : outcome A) := match x with Ok _ => true | _ => false end in
  [ok (try_string v); ok (try_bool v); ok (try_i64 v); ok (try_f64 v); ok (try_vec v); ok (try_map v)].
Definition failed {A} (x : outcome A) : Prop := match x with Ok _ => True | Err e => e = E_Conversion | Panic => False end.
