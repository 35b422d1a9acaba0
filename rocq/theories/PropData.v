(** Property theorems (generated by tools/mkprop.py from DataThms.v, which holds the proofs). *)
From Verif Require Import Base StdStr Data Json Spec DataDefs DataThms.

(** C45: different values have different JSON texts. *)
Theorem C45_json_injective : forall v w : data, good float_text v -> good float_text w -> to_json v = to_json w -> v = w.
Proof. exact C45_json_injective_pf. Qed.
Print Assumptions C45_json_injective.

(** Two values that differ only in the order of keys: both meet the hypothesis, and their texts differ. *)
Example C45_json_injective_ex : let v := VObj [(s2b "a", VInt (-5)); (s2b "b", VArr [VStr [34; 10]; VNull; VFloat (s2b "1.5e-7")])] in
  let w := VObj [(s2b "b", VArr [VStr [34; 10]; VNull; VFloat (s2b "1.5e-7")]); (s2b "a", VInt (-5))] in
  good float_text v /\ good float_text w /\ v <> w.
Proof. exact C45_json_injective_ex_pf. Qed.

(** A NaN prints as null (data.rs prints floats through serde_json), like the null value. *)
Theorem C45_json_injective_refuted : exists v w : data, v <> w /\ to_json v = to_json w /\ v = VFloat (s2b "null") /\ w = VNull.
Proof. exact C45_json_injective_refuted_pf. Qed.
Print Assumptions C45_json_injective_refuted.

(** C46: a value whose floats survive reading is read back from its JSON text exactly
    when it is nested at most 127 deep; deeper values are refused with an error. *)
Theorem C46_json_round_trip : forall (F : Floats) (v : data),
  good (fun t => float_text t /\ In 46 t /\ float_of_text t = Some t) v ->
  (depth v <= 127 -> from_json (to_json v) = Ok v) /\ (127 < depth v -> from_json (to_json v) = Err E_Json).
Proof. exact C46_json_round_trip_pf. Qed.
Print Assumptions C46_json_round_trip.

(** The hypothesis is met by a nested value without floats, whatever reads floats, and by one with a float. *)
Example C46_json_round_trip_ex : (forall F : Floats, let v := VArr [VObj [(s2b "n", VInt (2 ^ 63 - 1)); ([9], VBool true)]; VStr []; VArr []] in
    good (fun t => float_text t /\ In 46 t /\ float_of_text t = Some t) v /\ depth v = 2) /\
  from_json (H := toy_floats) (to_json (VObj [(s2b "f", VFloat (s2b "-2.5"))])) = Ok (VObj [(s2b "f", VFloat (s2b "-2.5"))]).
Proof. exact C46_json_round_trip_ex_pf. Qed.

(** Floats printed without a '.' do not survive: 1e300 is a JSON number, and importing it panics. *)
Theorem C46_json_round_trip_refuted : exists (F : Floats) (v : data), float_shape F /\ good (fun t => float_text t /\ float_of_text t = Some t) v /\
  to_json v = s2b "1e300" /\ from_json (to_json v) = Panic.
Proof. exact C46_json_round_trip_refuted_pf. Qed.
Print Assumptions C46_json_round_trip_refuted.

(** C46 for texts: whatever text a value was read from, the value has i64 integers, distinct
    keys and at most 127 levels, and its own JSON text reads back to the same value if each
    of its floats is read back from its text (C79 says which are). *)
Theorem C46_json_stable : forall (F : Floats) (s : bytes) (v : data), float_shape F -> from_json s = Ok v ->
  good float_text v /\ depth v <= 127 /\ (good (fun t => float_of_text t = Some t) v -> from_json (to_json v) = Ok v).
Proof. exact C46_json_stable_pf. Qed.
Print Assumptions C46_json_stable.

(** A text with white space, escapes, a repeated key and floats. *)
Example C46_json_stable_ex : from_json (H := toy_floats) (s2b " { ""a"" : [ 1 , -0.5e1 ] , ""b"": ""\u0041\n"", ""a"":-7 } ") = Ok (VObj [(s2b "a", VInt (-7)); (s2b "b", VStr [65; 10])]).
Proof. exact C46_json_stable_ex_pf. Qed.

(** C47: reading a JSON text returns a value or an error, except that it panics
    exactly when the text is JSON and a number in it is an integer above i64::MAX
    or a float printed without a '.'. *)
Theorem C47_json_import : forall (F : Floats) (s : bytes),
  from_json s = Panic <-> exists j, json_from_str s = Ok j /\ unimportable j.
Proof. exact C47_json_import_pf. Qed.
Print Assumptions C47_json_import.

Example C47_json_import_ex : from_json (H := toy_floats) (s2b "[{""k"":9223372036854775807}]") = Ok (VArr [VObj [(s2b "k", VInt 9223372036854775807)]]).
Proof. exact C47_json_import_ex_pf. Qed.

(** The property as first stated is false. *)
Theorem C47_json_import_refuted : exists s, forall F : Floats, from_json s = Panic.
Proof. exact C47_json_import_refuted_pf. Qed.
Print Assumptions C47_json_import_refuted.

(** C60: assigning an object entry: the entry reads back, the others are unchanged,
    and keys keep their order, a new key going last; anything but an object panics. *)
Theorem C60_value_set : forall (o : list (bytes * data)) (k : bytes) (x : data), exists o',
  vset (VObj o) k x = Ok (VObj o') /\ vget (VObj o') k = Ok x /\
  (forall k', k' <> k -> vget (VObj o') k' = vget (VObj o) k') /\
  (In k (map fst o) -> map fst o' = map fst o) /\ (~ In k (map fst o) -> o' = o ++ [(k, x)]) /\
  (NoDup (map fst o) -> NoDup (map fst o')).
Proof. exact C60_value_set_pf. Qed.
Print Assumptions C60_value_set.

Theorem C60_value_set_other : forall (v : data) (k : bytes) (x : data), (forall o, v <> VObj o) -> vset v k x = Panic /\ vget v k = Panic.
Proof. exact C60_value_set_other_pf. Qed.
Print Assumptions C60_value_set_other.

(** Reading an entry returns the value stored under that key, and panics exactly when there is none. *)
Theorem C60_value_get : forall (o : list (bytes * data)) (k : bytes), NoDup (map fst o) ->
  (forall x, vget (VObj o) k = Ok x <-> In (k, x) o) /\ (vget (VObj o) k = Panic <-> ~ In k (map fst o)).
Proof. exact C60_value_get_pf. Qed.
Print Assumptions C60_value_get.

Example C60_value_set_ex : vset (VObj [(s2b "a", VNull); (s2b "b", VNull)]) (s2b "a") (VInt 3) = Ok (VObj [(s2b "a", VInt 3); (s2b "b", VNull)]) /\
  vset (VObj [(s2b "a", VNull)]) (s2b "b") (VInt 3) = Ok (VObj [(s2b "a", VNull); (s2b "b", VInt 3)]).
Proof. exact C60_value_set_ex_pf. Qed.

(** C60: reading and writing by position: the element there, with what is before and after it unchanged;
    an object entry keeps its key; a position past the end panics, and so does anything but an array or object. *)
Theorem C60_position : forall (a b : list data) (o p : list (bytes * data)) (k : bytes) (x y v : data) (i : N),
  vnth (VArr (a ++ x :: b)) (len a) = Ok x /\ vset_nth (VArr (a ++ x :: b)) (len a) y = Ok (VArr (a ++ y :: b)) /\
  vnth (VObj (o ++ (k, x) :: p)) (len o) = Ok x /\ vset_nth (VObj (o ++ (k, x) :: p)) (len o) y = Ok (VObj (o ++ (k, y) :: p)) /\
  ((vnth v i = Panic <-> ~ exists w, vset_nth v i w <> Panic) /\
   (vnth v i = Panic <-> (forall a, v <> VArr a) /\ (forall o, v <> VObj o) \/ (exists a, v = VArr a /\ len a <= i) \/ (exists o, v = VObj o /\ len o <= i))).
Proof. exact C60_position_pf. Qed.
Print Assumptions C60_position.

Example C60_position_ex : vset_nth (VArr [VNull; VBool true]) 1 (VInt 2) = Ok (VArr [VNull; VInt 2]) /\
  vset_nth (VObj [(s2b "a", VNull)]) 0 (VInt 2) = Ok (VObj [(s2b "a", VInt 2)]) /\ vnth (VObj [(s2b "a", VNull)]) 1 = Panic /\ vnth (VStr (s2b "ab")) 0 = Panic.
Proof. exact C60_position_ex_pf. Qed.

(** C60: each conversion succeeds exactly on the values made from that type, with what was put in, and is an error on the others. *)
Theorem C60_conversions : forall (v : data),
  (forall b, to_bool v = Ok b <-> v = VBool b) /\ (forall s, to_string v = Ok s <-> v = VStr s) /\ (forall i, to_i64 v = Ok i <-> v = VInt i) /\
  (forall f, to_f64 v = Ok f <-> v = VFloat f) /\ (forall a, to_vec v = Ok a <-> v = VArr a) /\ (forall o, to_map v = Ok o <-> v = VObj o) /\
  to_bool v <> Panic /\ to_string v <> Panic /\ to_i64 v <> Panic /\ to_f64 v <> Panic /\ to_vec v <> Panic /\ to_map v <> Panic.
Proof. exact C60_conversions_pf. Qed.
Print Assumptions C60_conversions.

Example C60_conversions_ex : to_i64 (VInt (-3)) = Ok (-3)%Z /\ to_i64 (VFloat (s2b "1.0")) = Err E_Conversion /\ to_f64 (VInt 1) = Err E_Conversion.
Proof. exact C60_conversions_ex_pf. Qed.
