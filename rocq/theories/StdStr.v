(** Rust standard library string functions used by the crate (external code,
    by their documented contract). *)
From Verif Require Import Base.

(** [s.split(c)] for an ASCII char [c]: always at least one part. *)
Fixpoint split_on (c : N) (s : bytes) : list bytes :=
  match s with
  | [] => [[]]
  | x :: r =>
    if x =? c then [] :: split_on c r
    else match split_on c r with
         | p :: ps => (x :: p) :: ps
         | [] => [[x]]
         end
  end.

(** [parts.join(sep)] *)
Fixpoint join (sep : bytes) (parts : list bytes) : bytes :=
  match parts with
  | [] => []
  | [p] => p
  | p :: ps => p ++ sep ++ join sep ps
  end.

(** [char::to_digit(radix)], radix 10 or 16 *)
Definition digit_val (radix c : N) : option N :=
  let d := if (48 <=? c) && (c <=? 57) then Some (c - 48)
           else if (97 <=? c) && (c <=? 122) then Some (c - 87)
           else if (65 <=? c) && (c <=? 90) then Some (c - 55)
           else None in
  match d with Some v => if v <? radix then Some v else None | None => None end.

Fixpoint digits_val (radix : N) (s : bytes) (acc : N) : option N :=
  match s with
  | [] => Some acc
  | c :: r => match digit_val radix c with Some d => digits_val radix r (acc * radix + d) | None => None end
  end.

(** [uN::from_str_radix(s, radix)] / [s.parse::<uN>()], [max] the largest value:
    optional '+', then one or more digits, error on overflow. *)
Definition parse_uint (radix max : N) (s : bytes) : option N :=
  let body := match s with 43 :: r => r | _ => s end in
  match body with
  | [] => None
  | _ => match digits_val radix body 0 with
         | Some n => if n <=? max then Some n else None
         | None => None
         end
  end.

(** [s.parse::<iN>()]: optional sign. *)
Definition parse_int (radix : N) (lo hi : Z) (s : bytes) : option Z :=
  let '(neg, body) := match s with 43 :: r => (false, r) | 45 :: r => (true, r) | _ => (false, s) end in
  match body with
  | [] => None
  | _ => match digits_val radix body 0 with
         | Some n => let z := if neg : bool then (- Z.of_N n)%Z else Z.of_N n in
                     if ((lo <=? z) && (z <=? hi))%Z then Some z else None
         | None => None
         end
  end.

(** [format!("{n:x}")] / [n.to_string()]: positional digits, least significant
    computed first, no leading zeros; fuel = number of bits. *)
Definition digit_char (d : N) : N := if d <? 10 then 48 + d else 87 + d.
Fixpoint to_radix_fuel (fuel : nat) (radix n : N) (acc : bytes) : bytes :=
  match fuel with
  | O => acc
  | S f => let acc := digit_char (n mod radix) :: acc in
           if n / radix =? 0 then acc else to_radix_fuel f radix (n / radix) acc
  end.
Definition to_radix (radix n : N) : bytes := to_radix_fuel (S (N.to_nat (N.size n))) radix n [].
Definition to_hex (n : N) : bytes := to_radix 16 n.
Definition to_dec (n : N) : bytes := to_radix 10 n.

(** [s.starts_with(p)] *)
Fixpoint starts_with (p s : bytes) : bool :=
  match p, s with
  | [], _ => true
  | x :: p', y :: s' => (x =? y) && starts_with p' s'
  | _, [] => false
  end.

(** [s.replace(from, to)] for single ASCII chars *)
Definition replace_char (from to : N) (s : bytes) : bytes := map (fun c => if c =? from then to else c) s.
