(** serde_json 1.0 (external, features = preserve_order): [serde_json::from_str]
    into [serde_json::Value]; and data.rs:281-310 [From<&JsonValue> for Value]. *)
From Verif Require Import Base StdStr Data.

(** serde_json::Number without arbitrary_precision: u64, negative i64, or f64 *)
Inductive jnum := JPos (n : N) | JNeg (z : Z) | JFlt (t : bytes).
Inductive json :=
| JNull
| JBool (b : bool)
| JNum (n : jnum)
| JStr (s : bytes)
| JArr (a : list json)
| JObj (o : list (bytes * json)).

(** f64 parsing of a decimal numeral: the text of the f64 that is read, None when out of range *)
Class Floats := { float_of_text : bytes -> option bytes }.

(** whitespace: space, \n, \t, \r *)
Fixpoint skip_ws (s : bytes) : bytes :=
  match s with
  | c :: r => if (c =? 32) || (c =? 10) || (c =? 9) || (c =? 13) then skip_ws r else s
  | [] => []
  end.

Definition is_digit (c : N) : bool := (48 <=? c) && (c <=? 57).
(** the longest run of digits *)
Fixpoint span_digits (s : bytes) : bytes * bytes :=
  match s with
  | c :: r => if is_digit c then let '(d, t) := span_digits r in (c :: d, t) else ([], s)
  | [] => ([], [])
  end.

(** optional fraction: '.' and at least one digit.  None = error *)
Definition read_frac (s : bytes) : option (bytes * bytes) :=
  match s with
  | 46 :: r => match span_digits r with ([], _) => None | (d, t) => Some (46 :: d, t) end
  | _ => Some ([], s)
  end.
(** optional exponent: 'e' or 'E', optional sign, at least one digit *)
Definition read_exp (s : bytes) : option (bytes * bytes) :=
  match s with
  | c :: r =>
    if (c =? 101) || (c =? 69) then
      let '(sign, r) := match r with 43 :: r' => ([43], r') | 45 :: r' => ([45], r') | _ => ([], r) end in
      match span_digits r with ([], _) => None | (d, t) => Some (c :: sign ++ d, t) end
    else Some ([], s)
  | [] => Some ([], s)
  end.
Definition dec_value (d : bytes) : N := match digits_val 10 d 0 with Some n => n | None => 0 end.
Section Json.
Context `{F : Floats}.
Definition read_float (t : bytes) : option jnum := match float_of_text t with Some u => Some (JFlt u) | None => None end.
(** a number after its sign [neg] *)
Definition read_number (neg : bool) (s : bytes) : option (jnum * bytes) :=
  let '(d, r) := span_digits s in
  match d with
  | [] => None
  | c :: d' =>
    if (c =? 48) && negb (len d' =? 0) then None  (* leading zero *)
    else
      match read_frac r with
      | None => None
      | Some (fr, r) =>
        match read_exp r with
        | None => None
        | Some (ex, r) =>
          let sign := if neg then [45] else [] in
          match fr, ex with
          | [], [] =>
            let n := dec_value d in
            if neg then
              (* -0 and numbers below i64::MIN become floats *)
              if (n =? 0) || (2 ^ 63 <? n) then match read_float (sign ++ d) with Some x => Some (x, r) | None => None end
              else Some (JNeg (- Z.of_N n), r)
            else if n <? 2 ^ 64 then Some (JPos n, r)
            else match read_float d with Some x => Some (x, r) | None => None end
          | _, _ => match read_float (sign ++ d ++ fr ++ ex) with Some x => Some (x, r) | None => None end
          end
        end
      end
  end.

(** four hexadecimal digits *)
Definition hex4 (s : bytes) : option (N * bytes) :=
  match s with
  | a :: b :: c :: d :: r =>
    match digit_val 16 a, digit_val 16 b, digit_val 16 c, digit_val 16 d with
    | Some a, Some b, Some c, Some d => Some (((a * 16 + b) * 16 + c) * 16 + d, r)
    | _, _, _, _ => None
    end
  | _ => None
  end.
(** UTF-8 encoding of a scalar value *)
Definition utf8_encode (n : N) : bytes :=
  if n <? 128 then [n]
  else if n <? 2048 then [192 + n / 64; 128 + n mod 64]
  else if n <? 65536 then [224 + n / 4096; 128 + n / 64 mod 64; 128 + n mod 64]
  else [240 + n / 262144; 128 + n / 4096 mod 64; 128 + n / 64 mod 64; 128 + n mod 64].
(** after the backslash; the result of the escape and the rest *)
Definition read_escape (s : bytes) : option (bytes * bytes) :=
  match s with
  | 34 :: r => Some ([34], r)
  | 92 :: r => Some ([92], r)
  | 47 :: r => Some ([47], r)
  | 98 :: r => Some ([8], r)
  | 102 :: r => Some ([12], r)
  | 110 :: r => Some ([10], r)
  | 114 :: r => Some ([13], r)
  | 116 :: r => Some ([9], r)
  | 117 :: r =>
    match hex4 r with
    | None => None
    | Some (n, r) =>
      if (56320 <=? n) && (n <=? 57343) then None  (* lone trailing surrogate *)
      else if (55296 <=? n) && (n <=? 56319) then
        match r with
        | 92 :: 117 :: r =>
          match hex4 r with
          | None => None
          | Some (m, r) =>
            if (56320 <=? m) && (m <=? 57343) then Some (utf8_encode (65536 + (n - 55296) * 1024 + (m - 56320)), r) else None
          end
        | _ => None
        end
      else Some (utf8_encode n, r)
    end
  | _ => None
  end.
(** the rest of a string after the opening quote *)
Fixpoint read_string (fuel : nat) (s : bytes) : option (bytes * bytes) :=
  match fuel with
  | O => None
  | S f =>
    match s with
    | [] => None
    | c :: r =>
      if c =? 34 then Some ([], r)
      else if c =? 92 then
        match read_escape r with
        | None => None
        | Some (e, r) => match read_string f r with Some (x, t) => Some (e ++ x, t) | None => None end
        end
      else if c <? 32 then None
      else match read_string f r with Some (x, t) => Some (c :: x, t) | None => None end
    end
  end.
Definition read_str (s : bytes) : option (bytes * bytes) := read_string (S (length s)) s.

Definition literal (t : bytes) (v : json) (s : bytes) : option (json * bytes) :=
  if starts_with t s then Some (v, drop (len t) s) else None.

(** A value, after skipping white space.  [depth] is the remaining depth (128 at
    the start); [fuel] bounds the number of nested calls and is taken from the
    length of the text.  [elems]/[members] read what follows '[' / '{' or a comma. *)
Fixpoint read_value (fuel : nat) (depth : N) (s : bytes) : option (json * bytes) :=
  match fuel with
  | O => None
  | S f =>
    match skip_ws s with
    | [] => None
    | c :: r =>
      if c =? 110 then literal (s2b "ull") JNull r
      else if c =? 116 then literal (s2b "rue") (JBool true) r
      else if c =? 102 then literal (s2b "alse") (JBool false) r
      else if c =? 45 then match read_number true r with Some (n, t) => Some (JNum n, t) | None => None end
      else if is_digit c then match read_number false (c :: r) with Some (n, t) => Some (JNum n, t) | None => None end
      else if c =? 34 then match read_str r with Some (x, t) => Some (JStr x, t) | None => None end
      else if c =? 91 then
        if depth <=? 1 then None
        else match skip_ws r with
             | 93 :: t => Some (JArr [], t)
             | _ => match read_elems f (depth - 1) r with Some (a, t) => Some (JArr a, t) | None => None end
             end
      else if c =? 123 then
        if depth <=? 1 then None
        else match skip_ws r with
             | 125 :: t => Some (JObj [], t)
             | _ => match read_members f (depth - 1) r [] with Some (o, t) => Some (JObj o, t) | None => None end
             end
      else None
    end
  end
with read_elems (fuel : nat) (depth : N) (s : bytes) : option (list json * bytes) :=
  match fuel with
  | O => None
  | S f =>
    match read_value f depth s with
    | None => None
    | Some (v, r) =>
      match skip_ws r with
      | 44 :: r => match read_elems f depth r with Some (a, t) => Some (v :: a, t) | None => None end
      | 93 :: t => Some ([v], t)
      | _ => None
      end
    end
  end
with read_members (fuel : nat) (depth : N) (s : bytes) (acc : list (bytes * json)) : option (list (bytes * json) * bytes) :=
  match fuel with
  | O => None
  | S f =>
    match skip_ws s with
    | 34 :: r =>
      match read_str r with
      | None => None
      | Some (k, r) =>
        match skip_ws r with
        | 58 :: r =>
          match read_value f depth r with
          | None => None
          | Some (v, r) =>
            let acc := map_insert k v acc in
            match skip_ws r with
            | 44 :: r => read_members f depth r acc
            | 125 :: t => Some (acc, t)
            | _ => None
            end
          end
        | _ => None
        end
      end
    | _ => None
    end
  end.

(** the whole text; [limit] is serde_json's recursion limit of 128 *)
Definition json_read_depth (limit : N) (s : bytes) : option json :=
  match read_value (S (2 * length s)) limit s with
  | Some (v, r) => match skip_ws r with [] => Some v | _ => None end
  | None => None
  end.
Definition json_from_str (s : bytes) : outcome json := match json_read_depth 128 s with Some v => Ok v | None => Err E_Json end.
End Json.

(** serde_json::Number's text, and as_i64 *)
Definition jnum_text (n : jnum) : bytes := match n with JPos n => to_dec n | JNeg z => show_int z | JFlt t => t end.
Definition jnum_as_i64 (n : jnum) : option Z :=
  match n with JPos n => if n <? 2 ^ 63 then Some (Z.of_N n) else None | JNeg z => Some z | JFlt _ => None end.

(** data.rs:286-292 [Number] *)
Definition import_num (n : jnum) : outcome data :=
  if existsb (N.eqb 46) (jnum_text n) then
    match n with JFlt t => Ok (VFloat t) | _ => Ok (VFloat (jnum_text n)) end
  else match jnum_as_i64 n with Some z => Ok (VInt z) | None => Panic end.
(** data.rs:281-310 *)
Fixpoint import (j : json) : outcome data :=
  match j with
  | JNull => Ok VNull
  | JBool b => Ok (VBool b)
  | JNum n => import_num n
  | JStr s => Ok (VStr s)
  | JArr a =>
      l <- (fix go (a : list json) : outcome (list data) :=
              match a with [] => Ok [] | e :: r => v <- import e ;; l <- go r ;; Ok (v :: l) end) a ;;
      Ok (VArr l)
  | JObj o =>
      l <- (fix go (o : list (bytes * json)) (acc : list (bytes * data)) : outcome (list (bytes * data)) :=
              match o with [] => Ok acc | (k, e) :: r => v <- import e ;; go r (map_insert k v acc) end) o [] ;;
      Ok (VObj l)
  end.
