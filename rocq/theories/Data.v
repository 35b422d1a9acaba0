(** Model of /repo/src/data.rs: [Value], its conversions, index operators and
    JSON text.  (The [dat!] macro only calls the constructors.)

    Simplifications: an f64 is represented by the text [serde_json] prints for
    it ("null" for a NaN or an infinity, which print as null); an i64 is a [Z];
    a [String] is the list of its UTF-8 bytes; an [IndexMap] is the list of its
    entries in order. *)
From Verif Require Import Base StdStr.

(** data.rs:13-43 *)
Inductive data :=
| VNull
| VBool (b : bool)
| VInt (i : Z)
| VFloat (t : bytes)
| VStr (s : bytes)
| VArr (a : list data)
| VObj (o : list (bytes * data)).

(** data.rs:46-103 *)
Definition to_bool (v : data) : outcome bool := match v with VBool b => Ok b | _ => Err E_Conversion end.
Definition to_string (v : data) : outcome bytes := match v with VStr s => Ok s | _ => Err E_Conversion end.
Definition to_i64 (v : data) : outcome Z := match v with VInt i => Ok i | _ => Err E_Conversion end.
Definition to_f64 (v : data) : outcome bytes := match v with VFloat t => Ok t | _ => Err E_Conversion end.
Definition to_vec (v : data) : outcome (list data) := match v with VArr a => Ok a | _ => Err E_Conversion end.
Definition to_map (v : data) : outcome (list (bytes * data)) := match v with VObj o => Ok o | _ => Err E_Conversion end.

(** IndexMap: get, contains_key, insert (an existing key keeps its place) *)
Fixpoint map_get {A} (k : bytes) (o : list (bytes * A)) : option A :=
  match o with
  | [] => None
  | (k', v) :: r => if bytes_eqb k k' then Some v else map_get k r
  end.
Definition contains_key {A} (k : bytes) (o : list (bytes * A)) : bool := match map_get k o with Some _ => true | None => false end.
Fixpoint map_insert {A} (k : bytes) (v : A) (o : list (bytes * A)) : list (bytes * A) :=
  match o with
  | [] => [(k, v)]
  | (k', v') :: r => if bytes_eqb k k' then (k', v) :: r else (k', v') :: map_insert k v r
  end.

(** data.rs:146-165 [Index]: panics when absent *)
Definition vget (v : data) (k : bytes) : outcome data :=
  match v with VObj o => match map_get k o with Some x => Ok x | None => Panic end | _ => Panic end.
Definition vnth (v : data) (i : N) : outcome data :=
  match v with
  | VArr a => match nth_error a (N.to_nat i) with Some x => Ok x | None => Panic end
  | VObj o => match nth_error o (N.to_nat i) with Some (_, x) => Ok x | None => Panic end
  | _ => Panic
  end.
(** data.rs:177-191 [v[k] = x] through [IndexMut]: inserts a missing key at the end *)
Definition vset (v : data) (k : bytes) (x : data) : outcome data :=
  match v with VObj o => Ok (VObj (map_insert k x o)) | _ => Panic end.

(** data.rs:167-175 [v[i] = x] through [IndexMut<usize>]: an entry keeps its key *)
Fixpoint list_set {A} (f : A -> A) (i : nat) (l : list A) : option (list A) :=
  match l, i with
  | [], _ => None
  | a :: r, O => Some (f a :: r)
  | a :: r, S j => match list_set f j r with Some r' => Some (a :: r') | None => None end
  end.
Definition vset_nth (v : data) (i : N) (x : data) : outcome data :=
  match v with
  | VArr a => match list_set (fun _ => x) (N.to_nat i) a with Some a' => Ok (VArr a') | None => Panic end
  | VObj o => match list_set (fun kv => (fst kv, x)) (N.to_nat i) o with Some o' => Ok (VObj o') | None => Panic end
  | _ => Panic
  end.

(** serde_json's string escaping: quote, backslash and control characters *)
Definition hex_nibble (d : N) : N := digit_char d.
Definition escape_char (c : N) : bytes :=
  if c =? 34 then [92; 34]
  else if c =? 92 then [92; 92]
  else if c =? 8 then [92; 98]
  else if c =? 9 then [92; 116]
  else if c =? 10 then [92; 110]
  else if c =? 12 then [92; 102]
  else if c =? 13 then [92; 114]
  else if c <? 32 then s2b "\u00" ++ [hex_nibble (c / 16); hex_nibble (c mod 16)]
  else [c].
Definition json_string (s : bytes) : bytes := [34] ++ flat_map escape_char s ++ [34].
(** i64's decimal text *)
Definition show_int (i : Z) : bytes := if (i <? 0)%Z then 45 :: to_dec (Z.to_N (- i)) else to_dec (Z.to_N i).

(** data.rs:105-132 (never fails) *)
Fixpoint to_json (v : data) : bytes :=
  match v with
  | VNull => s2b "null"
  | VBool b => if b then s2b "true" else s2b "false"
  | VInt i => show_int i
  | VFloat t => t
  | VStr s => json_string s
  | VArr a => [91] ++ join [44] (map to_json a) ++ [93]
  | VObj o => [123] ++ join [44] (map (fun kv => json_string (fst kv) ++ [58] ++ to_json (snd kv)) o) ++ [125]
  end.
