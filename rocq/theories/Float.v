(** The f64 arithmetic behind serde_json 1.0 (external).  [Floats] of Json.v is an
    oracle, so that theorems hold whatever reads numbers; here is the actual one:
    what reads a numeral (serde_json's [Deserializer], features = preserve_order,
    i.e. without float_roundtrip: /repo/Cargo.toml:26) and what prints an f64 (ryu,
    used by [json!(n.f).to_string()], data.rs:113, and [n.to_string()], data.rs:287).

    A finite f64 is a sign and a magnitude; the magnitude is represented by the
    integer [k] with value k * 2^-1074 (every finite f64 is such a multiple). *)
From Verif Require Import Base StdStr Data Json.

(** the integer nearest to a / b, a tie going to the even one *)
Definition half_even (a b : N) : N :=
  let '(q, r) := N.div_eucl a b in
  if 2 * r <? b then q else if b <? 2 * r then q + 1 else if N.even q then q else q + 1.
(** IEEE 754 rounding: the f64 nearest to (a / b) * 2^-1074, 53 bits of precision *)
Definition round_f64 (a b : N) : N :=
  let e := N.log2 (a / b) - 52 in
  half_even a (b * 2 ^ e) * 2 ^ e.
Definition f64_one : N := 2 ^ 1074.
(** magnitudes from here on are infinite *)
Definition f64_inf : N := 2 ^ 2098.
Definition fmul (x y : N) : N := round_f64 (x * y) f64_one.
Definition fdiv (x y : N) : N := round_f64 (x * f64_one) y.
(** [n as f64] *)
Definition f64_of_int (n : N) : N := round_f64 (n * f64_one) 1.
(** serde_json de.rs [POW10]: the constants 1e0 ... 1e308 *)
Definition pow10 (n : N) : N := f64_of_int (10 ^ n).

(** serde_json de.rs [parse_integer], [parse_long_integer]: digits are collected in
    a u64; those after it is full only count for the exponent *)
Fixpoint collect_int (s : N) (d : bytes) : N * N :=
  match d with
  | [] => (s, 0)
  | c :: r => let s' := s * 10 + (c - 48) in if 2 ^ 64 <=? s' then (s, len d) else collect_int s' r
  end.
(** de.rs [parse_decimal], [parse_decimal_overflow]: digits after the u64 is full are ignored;
    the number of digits collected *)
Fixpoint collect_frac (s : N) (d : bytes) : N * N :=
  match d with
  | [] => (s, 0)
  | c :: r =>
    let s' := s * 10 + (c - 48) in
    if 2 ^ 64 <=? s' then (s, 0) else let '(t, n) := collect_frac s' r in (t, n + 1)
  end.
(** de.rs [f64_from_parts]; dividing by 1e308 twice leaves nothing of a u64, so the fuel is enough *)
Fixpoint from_parts (fuel : nat) (f : N) (e : Z) : option N :=
  if (Z.abs e <=? 308)%Z then
    if (0 <=? e)%Z then let g := fmul f (pow10 (Z.to_N e)) in if f64_inf <=? g then None else Some g
    else Some (fdiv f (pow10 (Z.to_N (- e))))
  else if f =? 0 then Some 0
  else if (0 <=? e)%Z then None
  else match fuel with O => Some 0 | S n => from_parts n (fdiv f (pow10 308)) (e + 308) end.
(** [i32::saturating_add] *)
Definition sat_i32 (z : Z) : Z := Z.max (- 2 ^ 31) (Z.min (2 ^ 31 - 1) z).
(** de.rs [parse_exponent], [parse_exponent_overflow] on the text of an exponent ("e", sign, digits) *)
Definition with_exponent (s : N) (start : Z) (ex : bytes) : option N :=
  match ex with
  | [] => from_parts 8 (f64_of_int s) start
  | _ :: r =>
    let '(positive, d) := match r with 43 :: d => (true, d) | 45 :: d => (false, d) | _ => (true, r) end in
    let x := dec_value d in
    if 2 ^ 31 <=? x then if negb (s =? 0) && positive then None else Some 0
    else from_parts 8 (f64_of_int s) (sat_i32 (if positive then start + Z.of_N x else start - Z.of_N x))
  end.
Definition split_sign (t : bytes) : bool * bytes := match t with 45 :: r => (true, r) | _ => (false, t) end.
(** The numeral's parts: sign, digits, digits of the fraction, exponent.  None: not a numeral. *)
Definition numeral (t : bytes) : option (bool * bytes * bytes * bytes) :=
  let '(neg, s) := split_sign t in
  match span_digits s with
  | ([], _) => None
  | (d, r) =>
    match read_frac r with
    | None => None
    | Some (fr, r) =>
      match read_exp r with
      | Some (ex, []) => Some (neg, d, match fr with _ :: f => f | [] => [] end, ex)
      | _ => None
      end
    end
  end.
(** The f64 read from a numeral: None is "number out of range".  Simplification: the i32 that
    counts digits beyond the u64 does not overflow (numerals of 2^31 digits). *)
Definition f64_read (t : bytes) : option (bool * N) :=
  match numeral t with
  | None => None
  | Some (neg, d, f, ex) =>
    let '(s, more) := collect_int 0 d in
    let '(s, less) := collect_frac s f in
    match with_exponent s (Z.of_N more - Z.of_N less) ex with
    | Some k => Some (neg, k)
    | None => None
    end
  end.

(** c * 10^q, in units of 2^-1074, as a fraction *)
Definition dec_num (c : N) (q : Z) : N := c * 10 ^ Z.to_N q * f64_one.
Definition dec_den (q : Z) : N := 10 ^ Z.to_N (- q).
(** the f64 nearest to c * 10^q *)
Definition dec_round (c : N) (q : Z) : N := round_f64 (dec_num c q) (dec_den q).
(** ryu's documented contract: the shortest decimal that rounds to the number, and of those
    the nearest to it.  [p] is the number of digits before the point (negative for zeros after
    it), [n] the number of digits tried first.  The last resort, the exact value, is not needed
    for n + fuel >= 17. *)
Fixpoint shortest_from (fuel : nat) (k : N) (p n : Z) : N * Z :=
  match fuel with
  | O => (k * 5 ^ 1074, (-1074)%Z)
  | S f =>
    let q := (p - n)%Z in
    let a := k * 10 ^ Z.to_N (- q) in
    let b := f64_one * 10 ^ Z.to_N q in
    let near := half_even a b in
    let other := if near =? a / b then near + 1 else near - 1 in
    if dec_round near q =? k then (near, q)
    else if dec_round other q =? k then (other, q)
    else shortest_from f k p (n + 1)
  end.
(** without trailing zeros *)
Fixpoint strip_zeros (fuel : nat) (c : N) (q : Z) : N * Z :=
  match fuel with
  | O => (c, q)
  | S f => if (c mod 10 =? 0) && negb (c =? 0) then strip_zeros f (c / 10) (q + 1) else (c, q)
  end.
(** is k (in units of 2^-1074) below 10^z? *)
Definition below (k : N) (z : Z) : bool := k * 10 ^ Z.to_N (- z) <? f64_one * 10 ^ Z.to_N z.
(** the number of digits before the point (negative: of zeros after it); estimated from the number
    of bits, as log10 2 is about 30103/100000; the last case, counting the digits, is not needed *)
Definition magnitude (k : N) : Z :=
  let z := ((Z.of_N (N.log2 k) - 1074) * 30103 / 100000 + 1)%Z in
  if below k z && negb (below k (z - 1)) then z
  else if below k (z + 1) && negb (below k z) then (z + 1)%Z
  else (Z.of_N (len (to_dec (k * 10 ^ 400 / f64_one))) - 400)%Z.
Definition shortest (k : N) : N * Z :=
  let p := magnitude k in
  let '(c, q) := shortest_from 17 k p 1 in
  strip_zeros 20 c q.
(** ryu pretty/mod.rs [format64] *)
Definition f64_text (neg : bool) (k : N) : bytes :=
  (if neg then [45] else []) ++
  if k =? 0 then s2b "0.0"
  else
    let '(c, q) := shortest k in
    let d := to_dec c in
    let l := Z.of_N (len d) in
    let kk := (l + q)%Z in
    if (0 <=? q)%Z && (kk <=? 16)%Z then d ++ rep 48 (Z.to_N q) ++ s2b ".0"
    else if (0 <? kk)%Z && (kk <=? 16)%Z then take (Z.to_N kk) d ++ [46] ++ drop (Z.to_N kk) d
    else if (-5 <? kk)%Z && (kk <=? 0)%Z then s2b "0." ++ rep 48 (Z.to_N (- kk)) ++ d
    else if (l =? 1)%Z then d ++ [101] ++ show_int (kk - 1)
    else take 1 d ++ [46] ++ drop 1 d ++ [101] ++ show_int (kk - 1).

Definition real_floats : Floats :=
  {| float_of_text := fun t => match f64_read t with Some (neg, k) => Some (f64_text neg k) | None => None end |}.
