(** Definitions used only to state the properties of signing thresholds. *)
From Coq Require Import QArith.
From Verif Require Import Base Matter StdStr Data Json Spec Prims PrimsDefs Tholder.
Open Scope N_scope.

(** decimal numeral; an integer text is one with an optional sign, within 32 bits *)
Definition dec_numeral (s : bytes) (n : N) : Prop := exists ds, Forall2 (fun c d => 48 <= c <= 57 /\ d = c - 48) s ds /\ n = value 10 ds.
Definition int_text (s : bytes) (z : Z) : Prop :=
  exists d n, d <> [] /\ dec_numeral d n /\ ((s = d \/ s = 43 :: d) /\ z = Z.of_N n \/ s = 45 :: d /\ z = (- Z.of_N n)%Z) /\ (- 2 ^ 31 <= z < 2 ^ 31)%Z.

(** hexadecimal integer text with an optional sign, within 64 bits *)
Definition hex_int_text (s : bytes) (z : Z) : Prop :=
  exists d n, d <> [] /\ hex_numeral d n /\ ((s = d \/ s = 43 :: d) /\ z = Z.of_N n \/ s = 45 :: d /\ z = (- Z.of_N n)%Z) /\ (- 2 ^ 63 <= z < 2 ^ 63)%Z.

(** A weight is a fraction: numerator and denominator. *)
Definition weight : Type := N * N.
Definition fraction (w : weight) : Q := (inject_Z (Z.of_N (fst w)) / inject_Z (Z.of_N (snd w)))%Q.
(** in lowest terms *)
Definition lowest (w : weight) : weight := let g := N.gcd (fst w) (snd w) in (fst w / g, snd w / g).
(** how often [c] occurs *)
Definition occurrences (c : N) (s : bytes) : N := len (filter (N.eqb c) s).
(** [t] is accepted as the weight [w]: "a/b" with 0 <= a <= b and 0 < b; or, if the number of
    slashes is not one, what stands before the first slash is "0" or "1" *)
Definition weight_text (t : bytes) (w : weight) : Prop :=
  (exists a b, t = a ++ s2b "/" ++ b /\ int_text a (Z.of_N (fst w)) /\ int_text b (Z.of_N (snd w)) /\ fst w <= snd w /\ 0 < snd w) \/
  (occurrences 47 t <> 1 /\ exists n, (n = 0 \/ n = 1) /\ w = (n, 1) /\ (t = to_dec n \/ exists r, t = to_dec n ++ s2b "/" ++ r)).
(** a zero denominator: these texts panic *)
Definition zero_over_zero (t : bytes) : Prop := exists a b, t = a ++ s2b "/" ++ b /\ int_text a 0 /\ int_text b 0.

(** the sum of the weights of a clause *)
Definition total (c : list weight) : Q := fold_right (fun w s => (fraction w + s)%Q) 0%Q c.
(** the sum of the weights of a clause at the chosen positions, the first weight being at [pos] *)
Fixpoint weight_at (chosen : list N) (pos : N) (c : list weight) : Q :=
  match c with
  | [] => 0%Q
  | w :: r => ((if existsb (N.eqb pos) chosen then fraction w else 0) + weight_at chosen (pos + 1) r)%Q
  end.
(** every clause reaches 1; positions are counted through all clauses *)
Definition satisfied (cs : list (list weight)) (chosen : list N) : Prop :=
  forall before c after, cs = before ++ c :: after -> (1 <= weight_at chosen (len (concat before)) c)%Q.

(** The weights of a clause can be added with 32 bit integers: the number of weights times the
    least common multiple of the denominators is below 2^31. *)
Definition fits (c : list weight) : Prop := len c * fold_right N.lcm 1 (map snd c) < 2 ^ 31.

(** the threshold value that shows the weights [cs] *)
Definition show (w : weight) : bytes := if snd w =? 1 then to_dec (fst w) else to_dec (fst w) ++ s2b "/" ++ to_dec (snd w).
Definition clause_texts (ts : list (list bytes)) : data := VArr (map (fun c => VArr (map VStr c)) ts).
Definition clauses_value (cs : list (list weight)) : data := clause_texts (map (map show) cs).

(** how many characters the weights take when written with a separator after each *)
Definition text_length (ws : list weight) : N := fold_right (fun w n => len (show w) + 1 + n) 0 ws.

(** a weight between 0 and 1 in lowest terms, with 32 bit parts *)
Definition proper (w : weight) : Prop := 0 < snd w /\ fst w <= snd w /\ snd w < 2 ^ 31 /\ N.gcd (fst w) (snd w) = 1.
(** [t] is a weighted threshold, and these are its weights *)
Definition weights (t : tholder) (cs : list (list weight)) : Prop := th_weighted t = true /\ th_thold t = clauses_value cs /\ Forall (Forall proper) cs.

(** [Tholder::new_with_thold], [new_with_limen], [new_with_sith] *)
Definition tholder_of_thold `{Profile} `{Floats} (v : data) : outcome tholder := tholder_new (Some v) None None.
Definition tholder_of_limen `{Profile} `{Floats} (l : bytes) : outcome tholder := tholder_new None (Some l) None.
Definition tholder_of_sith `{Profile} `{Floats} (v : data) : outcome tholder := tholder_new None None (Some v).
(** [t] was returned by some constructor *)
Definition made_tholder (P : Profile) (F : Floats) (t : tholder) : Prop := exists thold limen sith, tholder_new thold limen sith = Ok t.
