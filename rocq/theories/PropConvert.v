(** Property theorems (generated by tools/mkprop.py from ConvertThms.v, which holds the proofs). *)
From Verif Require Import Base Data Spec DataDefs Float FloatDefs Convert ConvertDefs ConvertThms.

(** C80: every value converts to what it holds and to nothing else, except that either kind of number converts
    to both kinds; the others are refused with a conversion error, and nothing panics. *)
Theorem C80_kinds : forall v : data,
  converts v = (match v with
                | VNull => [false; false; false; false; false; false]
                | VStr _ => [true; false; false; false; false; false]
                | VBool _ => [false; true; false; false; false; false]
                | VInt _ | VFloat _ => [false; false; true; true; false; false]
                | VArr _ => [false; false; false; false; true; false]
                | VObj _ => [false; false; false; false; false; true]
                end) /\
  (forall s, try_string v = Ok s <-> v = VStr s) /\ (forall b, try_bool v = Ok b <-> v = VBool b) /\
  (forall a, try_vec v = Ok a <-> v = VArr a) /\ (forall o, try_map v = Ok o <-> v = VObj o) /\
  (forall i, to_i64 v = Ok i -> try_i64 v = Ok i) /\ (forall t, to_f64 v = Ok t -> try_f64 v = Ok t) /\
  failed (try_string v) /\ failed (try_bool v) /\ failed (try_i64 v) /\ failed (try_f64 v) /\ failed (try_vec v) /\ failed (try_map v).
Proof. exact C80_kinds_pf. Qed.
Print Assumptions C80_kinds.

Example C80_kinds_ex : map converts [VStr (s2b "string"); VBool false; VInt 3; VFloat (s2b "6.7"); VArr []; VObj []]
  = [[true; false; false; false; false; false]; [false; true; false; false; false; false]; [false; false; true; true; false; false];
     [false; false; true; true; false; false]; [false; false; false; false; true; false]; [false; false; false; false; false; true]].
Proof. exact C80_kinds_ex_pf. Qed.

(** C80: a float converts to the integer next to it towards zero, or to the nearest i64
    if there is none. *)
Theorem C80_float_to_integer : forall (neg : bool) (k : N), is_f64 k -> exists z, try_i64 (VFloat (f64_text neg k)) = Ok z /\
  (- 2 ^ 63 <= z < 2 ^ 63)%Z /\ (if neg then z <= 0 else 0 <= z)%Z /\
  (Z.abs z * 2 ^ 1074 <= Z.of_N k)%Z /\
  ((Z.of_N k < (Z.abs z + 1) * 2 ^ 1074)%Z \/ z = (if neg then - 2 ^ 63 else 2 ^ 63 - 1)%Z).
Proof. exact C80_float_to_integer_pf. Qed.
Print Assumptions C80_float_to_integer.

Example C80_float_to_integer_ex : try_i64 (VFloat (s2b "-6.7")) = Ok (-6)%Z /\ try_i64 (VFloat (s2b "1e300")) = Ok (2 ^ 63 - 1)%Z /\ is_f64 (2 ^ 1074) /\ try_i64 (VFloat (f64_text true (2 ^ 1074))) = Ok (-1)%Z.
Proof. exact C80_float_to_integer_ex_pf. Qed.

(** C80: an integer converts to the f64 nearest to it; converting this back gives the integer if
    it is at most 2^53 in size (refuted for larger ones). *)
Theorem C80_integer_to_float : forall i : Z, (- 2 ^ 63 <= i < 2 ^ 63)%Z -> exists k, nearest k (Z.abs_N i * 2 ^ 1074) 1 /\
  try_f64 (VInt i) = Ok (f64_text (i <? 0)%Z k) /\ ((Z.abs i <= 2 ^ 53)%Z -> try_i64 (VFloat (f64_text (i <? 0)%Z k)) = Ok i).
Proof. exact C80_integer_to_float_pf. Qed.
Print Assumptions C80_integer_to_float.

Example C80_integer_to_float_ex : try_f64 (VInt (-3)) = Ok (s2b "-3.0") /\ try_f64 (VInt (3 * 10 ^ 17 + 1)) = Ok (s2b "3e17").
Proof. exact C80_integer_to_float_ex_pf. Qed.

Theorem C80_integer_to_float_refuted : exists (i : Z) (t : bytes), (- 2 ^ 63 <= i < 2 ^ 63)%Z /\ try_f64 (VInt i) = Ok t /\ try_i64 (VFloat t) = Ok (i - 1)%Z.
Proof. exact C80_integer_to_float_refuted_pf. Qed.
Print Assumptions C80_integer_to_float_refuted.
