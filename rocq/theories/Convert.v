(** Model of /repo/src/data.rs:312-390: [TryFrom<&Value>] for String, bool, i64, f64, Vec<Value>
    and IndexMap<String, Value>.  Unlike [to_i64] and [to_f64] (Data.v) the conversions to
    numbers accept both kinds of numbers.

    Simplification: a [VFloat] holds the text of its f64, "null" for a NaN or an infinity; [as i64]
    takes a NaN to 0 and infinities to the extremes, here the text "null" goes to 0. *)
From Verif Require Import Base StdStr Data Json Float.

(** data.rs:312-321 *)
Definition try_string (v : data) : outcome bytes := match v with VStr s => Ok s | _ => Err E_Conversion end.
(** data.rs:323-332 *)
Definition try_bool (v : data) : outcome bool := match v with VBool b => Ok b | _ => Err E_Conversion end.
(** the number in an exponent ("e", sign, digits; or nothing) *)
Definition exponent_number (ex : bytes) : Z :=
  match ex with
  | [] => 0%Z
  | _ :: 43 :: d => Z.of_N (dec_value d)
  | _ :: 45 :: d => (- Z.of_N (dec_value d))%Z
  | _ :: d => Z.of_N (dec_value d)
  end.
(** the f64 of a text: sign and magnitude of the nearest one *)
Definition text_f64 (t : bytes) : option (bool * N) :=
  match numeral t with
  | Some (neg, d, f, ex) => Some (neg, dec_round (dec_value (d ++ f)) (exponent_number ex - Z.of_N (len f)))
  | None => None
  end.
(** [x as i64]: towards zero, saturating *)
Definition f64_as_i64 (neg : bool) (k : N) : Z :=
  let n := Z.of_N (k / f64_one) in
  if neg then Z.max (- 2 ^ 63) (- n) else Z.min (2 ^ 63 - 1) n.
(** [x as f64] *)
Definition i64_as_f64 (i : Z) : bytes := f64_text (i <? 0)%Z (f64_of_int (Z.abs_N i)).
(** data.rs:334-349 *)
Definition try_i64 (v : data) : outcome Z :=
  match v with
  | VInt i => Ok i
  | VFloat t => match text_f64 t with Some (neg, k) => Ok (f64_as_i64 neg k) | None => Ok 0%Z end
  | _ => Err E_Conversion
  end.
(** data.rs:351-366 *)
Definition try_f64 (v : data) : outcome bytes :=
  match v with
  | VInt i => Ok (i64_as_f64 i)
  | VFloat t => Ok t
  | _ => Err E_Conversion
  end.
(** data.rs:368-377 *)
Definition try_vec (v : data) : outcome (list data) := match v with VArr a => Ok a | _ => Err E_Conversion end.
(** data.rs:379-388 *)
Definition try_map (v : data) : outcome (list (bytes * data)) := match v with VObj o => Ok o | _ => Err E_Conversion end.
