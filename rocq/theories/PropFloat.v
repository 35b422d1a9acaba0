(** Property theorems (generated by tools/mkprop.py from FloatThms.v, which holds the proofs). *)
From Verif Require Import Base Data Json Spec DataDefs Float FloatDefs Matter Crypto HashDefs Saider FloatThms.

(** C79: the f64 operations the reader uses round as IEEE 754 prescribes: to the nearest f64, a
    tie to the even one; this determines the result. *)
Theorem C79_rounding : forall a b k : N, b <> 0 -> (nearest k a b <-> k = round_f64 a b).
Proof. exact C79_rounding_pf. Qed.
Print Assumptions C79_rounding.

(** 0.1 is 0x1.999999999999ap-4; 2^53 + 1 is a tie. *)
Example C79_rounding_ex : round_f64 f64_one 10 = 7205759403792794 * 2 ^ 1018 /\ nearest (2 ^ 53 * f64_one) ((2 ^ 53 + 1) * f64_one) 1.
Proof. exact C79_rounding_ex_pf. Qed.

(** C79, reading: a numeral whose digits make an integer below 2^53 and that scales it by
    at most 10^22 is read as the f64 nearest to it. *)
Theorem C79_reads_nearest : forall (t : bytes) (neg : bool) (c : N) (q x : Z),
  denotes t neg c q x -> c < 2 ^ 53 -> (-22 <= q <= 22)%Z -> (Z.abs x < 2 ^ 31)%Z ->
  exists k, f64_read t = Some (neg, k) /\ nearest_decimal k c q.
Proof. exact C79_reads_nearest_pf. Qed.
Print Assumptions C79_reads_nearest.

(** -12.5e-3 is such a numeral, read as the f64 that prints as -0.0125. *)
Example C79_reads_nearest_ex : denotes (s2b "-12.5e-3") true 125 (-4) (-3) /\ match f64_read (s2b "-12.5e-3") with Some (neg, k) => f64_text neg k | None => [] end = s2b "-0.0125".
Proof. exact C79_reads_nearest_ex_pf. Qed.

(** C79, printing: every f64 is printed as a numeral with a point or an exponent, and it is the
    f64 nearest to that numeral; so two different f64 are printed differently. *)
Theorem C79_prints : forall (neg : bool) (k : N), is_f64 k -> float_text (f64_text neg k) /\
  (exists c q x, denotes (f64_text neg k) neg c q x /\ nearest_decimal k c q) /\
  (forall neg' k', is_f64 k' -> f64_text neg' k' = f64_text neg k -> neg' = neg /\ k' = k).
Proof. exact C79_prints_pf. Qed.
Print Assumptions C79_prints.

Example C79_prints_ex : is_f64 (5 ^ 22 * 2 ^ 1096) /\ f64_text true (5 ^ 22 * 2 ^ 1096) = s2b "-1e22" /\ is_f64 1 /\ f64_text false 1 = s2b "5e-324".
Proof. exact C79_prints_ex_pf. Qed.

(** C79, printing is shortest: apart from zeros at the end an f64 is printed with at most 17 digits,
    and with no more digits than any other decimal to which it is the nearest f64. *)
Theorem C79_shortest : forall (neg : bool) (k : N), is_f64 k -> k <> 0 -> exists (c j : N) (q x : Z),
  denotes (f64_text neg k) neg (c * 10 ^ j) q x /\ c < 10 ^ 17 /\
  forall (n c2 : N) (q2 : Z), c2 < 10 ^ n -> nearest_decimal k c2 q2 -> c < 10 ^ n.
Proof. exact C79_shortest_pf. Qed.
Print Assumptions C79_shortest.

Example C79_shortest_ex : exists k, is_f64 k /\ k <> 0 /\ nearest_decimal k 67 (-1) /\ f64_text false k = s2b "6.7".
Proof. exact C79_shortest_ex_pf. Qed.

(** C79, round trip: an f64 whose text is short is read back from it. *)
Theorem C79_stable : forall (neg : bool) (k : N), is_f64 k -> short (f64_text neg k) -> f64_read (f64_text neg k) = Some (neg, k).
Proof. exact C79_stable_pf. Qed.
Print Assumptions C79_stable.

(** 6.7 and 1e22 are *)
Example C79_stable_ex : (exists k, is_f64 k /\ f64_text false k = s2b "6.7" /\ short (s2b "6.7")) /\ short (s2b "1e22") /\ f64_text false (5 ^ 22 * 2 ^ 1096) = s2b "1e22".
Proof. exact C79_stable_ex_pf. Qed.

(** C79: whatever is read is an f64 (never infinite, C47), and it prints as a JSON number with a
    point or an exponent: what the theorems about JSON texts assume of number reading. *)
Theorem C79_shape : float_shape real_floats /\ forall (t u : bytes), float_of_text (Floats := real_floats) t = Some u ->
  exists neg k, f64_read t = Some (neg, k) /\ is_f64 k /\ u = f64_text neg k.
Proof. exact C79_shape_pf. Qed.
Print Assumptions C79_shape.

(** C79, all numerals: the error is at most 2^-50 of the number and 2^-1073; numerals above the largest
    f64, and only those (up to that error), are out of range. *)
Theorem C79_error_bound : forall (t : bytes) (neg : bool) (c : N) (q x : Z) (a b : N),
  denotes t neg c q x -> len t <= 10 ^ 9 -> (Z.abs x <= 10 ^ 9)%Z -> decimal_ratio c q a b ->
  match f64_read t with
  | Some (neg', k) => neg' = neg /\ k < 2 ^ 2098 /\ about k a b
  | None => (2 ^ 50 - 1) * 2 ^ 2098 * b <= 2 ^ 50 * a
  end.
Proof. exact C79_error_bound_pf. Qed.
Print Assumptions C79_error_bound.

(** a number with 30 digits, and one out of range; the second f64 after 2^53 is not about 2^53 *)
Example C79_error_bound_ex : denotes (s2b "300000000000000000000000000001e-10") false 300000000000000000000000000001 (-10) (-10) /\
  decimal_ratio 300000000000000000000000000001 (-10) (300000000000000000000000000001 * 2 ^ 1074) (10 ^ 10) /\
  float_of_text (Floats := real_floats) (s2b "300000000000000000000000000001e-10") = Some (s2b "3e19") /\
  denotes (s2b "1e309") false 1 309 309 /\ f64_read (s2b "1e309") = None /\ ~ about ((2 ^ 53 + 16) * 2 ^ 1074) (2 ^ 53 * 2 ^ 1074) 1.
Proof. exact C79_error_bound_ex_pf. Qed.

(** C79, values: a value at most 127 levels deep, each float of which is an f64 printed with a point
    and few digits, is read back from its JSON text. *)
Theorem C79_json_round_trip : forall v : data,
  good (fun t => In 46 t /\ short t /\ exists neg k, is_f64 k /\ t = f64_text neg k) v -> depth v <= 127 ->
  from_json (H := real_floats) (to_json v) = Ok v.
Proof. exact C79_json_round_trip_pf. Qed.
Print Assumptions C79_json_round_trip.

Example C79_json_round_trip_ex : let v := VObj [(s2b "x", VFloat (s2b "6.7"))] in good (fun t => In 46 t /\ short t /\ exists neg k, is_f64 k /\ t = f64_text neg k) v /\
  from_json (H := real_floats) (to_json v) = Ok v.
Proof. exact C79_json_round_trip_ex_pf. Qed.

(** C79: without few digits it fails, as the reader rounds more than once: the f64 9007199254740991.0 is read back as
    9007199254740990.0; and the document 5e36 is read, but cannot be read back from its own text. *)
Theorem C79_unstable : (exists k v, is_f64 k /\ f64_text false k = s2b "9007199254740991.0" /\ v = VFloat (f64_text false k) /\
    from_json (H := real_floats) (to_json v) = Ok (VFloat (s2b "9007199254740990.0"))) /\
  (exists v, from_json (H := real_floats) (s2b "5e36") = Ok v /\ v = VFloat (s2b "5.0000000000000004e36") /\ from_json (H := real_floats) (to_json v) = Panic).
Proof. exact C79_unstable_pf. Qed.
Print Assumptions C79_unstable.

(** C79: so the identifier that [saidify] puts into a value need not verify against the value
    read from its serialization. *)
Theorem C79_said_lost : forall (P : Profile) (C : Crypto), exists sad s sad' v,
  saidify (H0 := with_digests C) sad None None None None = Ok (s, sad') /\
  said_verify (H0 := with_digests C) s sad' None None None None None = Ok true /\
  from_json (H := real_floats) (to_json sad') = Ok v /\
  said_verify (H0 := with_digests C) s v None None None None None = Ok false.
Proof. exact C79_said_lost_pf. Qed.
Print Assumptions C79_said_lost.
