(** Definitions used only to state the properties of floating point numbers. *)
From Verif Require Import Base StdStr Data Json Spec DataDefs Float.

(** Magnitudes of f64 (as multiples of 2^-1074): at most 53 significant bits. *)
Definition is_f64 (k : N) : Prop := exists m e, k = m * 2 ^ e /\ m < 2 ^ 53.
Definition dist (a b : N) : N := (a - b) + (b - a).
(** IEEE 754 round-to-nearest, ties to even: [k] is the f64 for (a / b) * 2^-1074.  No f64 is
    nearer; and if another one is as near, then k is the one with an even significand of 53 bits
    (of all bits, for the subnormal numbers). *)
Definition nearest (k a b : N) : Prop :=
  is_f64 k /\ forall x, is_f64 x -> dist a (k * b) <= dist a (x * b) /\
    (x <> k -> dist a (x * b) = dist a (k * b) -> (2 ^ (N.log2 k - 52 + 1) | k)).

(** the number a sequence of decimal digits stands for *)
Definition digits_value (d : bytes) : N := fold_left (fun a c => 10 * a + (c - 48)) d 0.
(** the numeral [t] stands for plus or minus c * 10^q; [x] is the number in its exponent *)
Definition denotes (t : bytes) (neg : bool) (c : N) (q x : Z) : Prop :=
  exists d f frac ex, t = (if neg then [45] else []) ++ d ++ frac ++ ex /\ d <> [] /\ (forall h, In h (d ++ f) -> digit h) /\
    (frac = [] /\ f = [] \/ frac = 46 :: f /\ f <> []) /\
    (ex = [] /\ x = 0%Z \/ exists e s y, ex = e :: s ++ y /\ (e = 101 \/ e = 69) /\ y <> [] /\ (forall h, In h y -> digit h) /\
      ((s = [] \/ s = [43]) /\ x = Z.of_N (digits_value y) \/ s = [45] /\ x = (- Z.of_N (digits_value y))%Z)) /\
    c = digits_value (d ++ f) /\ q = (x - Z.of_N (len f))%Z.
(** c * 10^q in units of 2^-1074 is a / b *)
Definition decimal_ratio (c : N) (q : Z) (a b : N) : Prop :=
  (if (0 <=? q)%Z then a = c * 10 ^ Z.to_N q * 2 ^ 1074 /\ b = 1 else a = c * 2 ^ 1074 /\ b = 10 ^ Z.to_N (- q)).
(** [k] is the f64 nearest to c * 10^q *)
Definition nearest_decimal (k c : N) (q : Z) : Prop := forall a b, decimal_ratio c q a b -> nearest k a b.
(** numerals whose digits, taken as one integer, are below 2^53 (all with 15 digits are) and that
    scale it by at most 10^22 *)
Definition short (t : bytes) : Prop := exists neg c q x, denotes t neg c q x /\ c < 2 ^ 53 /\ (-22 <= q <= 22)%Z /\ (Z.abs x < 2 ^ 31)%Z.
(** [k] is a / b up to the relative error 2^-50 and two units (of 2^-1074) *)
Definition about (k a b : N) : Prop := dist a (k * b) * 2 ^ 50 <= a + 2 * 2 ^ 50 * b.
