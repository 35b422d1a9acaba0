(** Definitions used only to state the properties of JSON texts with white space. *)
From Verif Require Import Base StdStr Data.

(** blanks, line feeds, tabs, carriage returns *)
Definition white (w : bytes) : Prop := forall c, In c w -> c = 32 \/ c = 10 \/ c = 9 \/ c = 13.
(** a JSON text of the value, with white space wherever JSON allows it within *)
Fixpoint laid (v : data) (t : bytes) : Prop :=
  match v with
  | VArr a => exists w ts, white w /\ t = [91] ++ w ++ join [44] ts ++ [93] /\
      (fix go (a : list data) (ts : list bytes) : Prop :=
         match a, ts with
         | [], [] => True
         | v :: a, t :: ts => (exists w1 t0 w2, white w1 /\ white w2 /\ laid v t0 /\ t = w1 ++ t0 ++ w2) /\ go a ts
         | _, _ => False
         end) a ts
  | VObj o => exists w ts, white w /\ t = [123] ++ w ++ join [44] ts ++ [125] /\
      (fix go (o : list (bytes * data)) (ts : list bytes) : Prop :=
         match o, ts with
         | [], [] => True
         | (k, v) :: o, t :: ts =>
             (exists w1 w2 w3 w4 t0, white w1 /\ white w2 /\ white w3 /\ white w4 /\ laid v t0 /\
                t = w1 ++ json_string k ++ w2 ++ [58] ++ w3 ++ t0 ++ w4) /\ go o ts
         | _, _ => False
         end) o ts
  | _ => t = to_json v
  end.

(** the lines of the pretty text of a value: what is empty or has no parts on one
    line, parts indented by two blanks, a comma after each part but the last *)
Definition indent (l : bytes) : bytes := [32; 32] ++ l.
Fixpoint on_last (f : bytes -> bytes) (ls : list bytes) : list bytes :=
  match ls with [] => [] | [l] => [f l] | l :: r => l :: on_last f r end.
Definition on_first (f : bytes -> bytes) (ls : list bytes) : list bytes := match ls with [] => [] | l :: r => f l :: r end.
Fixpoint commas (ps : list (list bytes)) : list bytes :=
  match ps with [] => [] | [p] => p | p :: r => on_last (fun l => l ++ [44]) p ++ commas r end.
Fixpoint lines (v : data) : list bytes :=
  match v with
  | VArr [] | VObj [] => [to_json v]
  | VArr a => [[91]] ++ map indent (commas (map lines a)) ++ [[93]]
  | VObj o => [[123]] ++ map indent (commas (map (fun kv => on_first (fun l => json_string (fst kv) ++ s2b ": " ++ l) (lines (snd kv))) o)) ++ [[125]]
  | _ => [to_json v]
  end.
