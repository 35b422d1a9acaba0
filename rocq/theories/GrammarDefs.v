(** The JSON grammar (RFC 8259), stated independently of the reader: which texts
    are JSON and what each of them stands for.  Used only to state properties. *)
From Verif Require Import Base StdStr Data Json Spec PrimsDefs DataDefs.

Definition ws (w : bytes) : Prop := forall c, In c w -> In c [32; 9; 10; 13].

(** a decimal integer and its value *)
Definition decimal (d : bytes) (n : N) : Prop := int_part d /\ n = value 10 (map (fun c => c - 48) d).
(** Numbers: non-negative ones below 2^64 and negative ones down to -2^63 are
    integers; all other numerals are floating point numbers, if they are in range. *)
Inductive jnumber {F : Floats} : bytes -> jnum -> Prop :=
| jn_pos d n : decimal d n -> n < 2 ^ 64 -> jnumber d (JPos n)
| jn_neg d n : decimal d n -> 0 < n <= 2 ^ 63 -> jnumber (45 :: d) (JNeg (- Z.of_N n))
| jn_float t u : float_text t -> float_of_text t = Some u -> jnumber t (JFlt u)
| jn_big d n u : decimal d n -> 2 ^ 64 <= n -> float_of_text d = Some u -> jnumber d (JFlt u)
| jn_low d n u : decimal d n -> n = 0 \/ 2 ^ 63 < n -> float_of_text (45 :: d) = Some u -> jnumber (45 :: d) (JFlt u).

(** the UTF-8 bytes of a code point, by the groups of six bits *)
Inductive utf8_char : N -> bytes -> Prop :=
| u1 n : n < 128 -> utf8_char n [n]
| u2 n a b : 128 <= n < 2048 -> b < 64 -> n = a * 64 + b -> utf8_char n [192 + a; 128 + b]
| u3 n a b c : 2048 <= n < 65536 -> b < 64 -> c < 64 -> n = (a * 64 + b) * 64 + c -> utf8_char n [224 + a; 128 + b; 128 + c]
| u4 n a b c d : 65536 <= n < 1114112 -> b < 64 -> c < 64 -> d < 64 -> n = ((a * 64 + b) * 64 + c) * 64 + d -> utf8_char n [240 + a; 128 + b; 128 + c; 128 + d].
Definition short_escapes : list (N * N) := [(34, 34); (92, 92); (47, 47); (98, 8); (102, 12); (110, 10); (114, 13); (116, 9)].
(** what is between the quotes, and the string it stands for *)
Inductive jbody : bytes -> bytes -> Prop :=
| jb_end : jbody [] []
| jb_plain c b s : 32 <= c -> c <> 34 -> c <> 92 -> jbody b s -> jbody (c :: b) (c :: s)
| jb_short e c b s : In (e, c) short_escapes -> jbody b s -> jbody ([92; e] ++ b) (c :: s)
| jb_code h n u b s : length h = 4%nat -> hex_numeral h n -> ~ (55296 <= n <= 57343) -> utf8_char n u -> jbody b s -> jbody ([92; 117] ++ h ++ b) (u ++ s)
| jb_pair h1 h2 n m u b s : length h1 = 4%nat -> length h2 = 4%nat -> hex_numeral h1 n -> hex_numeral h2 m -> 55296 <= n <= 56319 -> 56320 <= m <= 57343 ->
    utf8_char (65536 + (n - 55296) * 1024 + (m - 56320)) u -> jbody b s -> jbody ([92; 117] ++ h1 ++ [92; 117] ++ h2 ++ b) (u ++ s).
Definition jstring (t s : bytes) : Prop := exists b, t = [34] ++ b ++ [34] /\ jbody b s.

(** the keys of an object in the order of their first occurrence *)
Fixpoint firsts (l : list bytes) : list bytes :=
  match l with [] => [] | k :: r => k :: filter (fun k' => negb (bytes_eqb k k')) (firsts r) end.
(** repeated keys: the place of the first, the value of the last *)
Definition last_wins (l o : list (bytes * json)) : Prop :=
  map fst o = firsts (map fst l) /\ forall k j, In (k, j) o <-> exists before after, l = before ++ (k, j) :: after /\ ~ In k (map fst after).

(** [jvalue d t j]: the text [t], which nests at most [d] arrays and objects, stands for [j] *)
Inductive jvalue {F : Floats} : nat -> bytes -> json -> Prop :=
| jv_null d : jvalue d (s2b "null") JNull
| jv_true d : jvalue d (s2b "true") (JBool true)
| jv_false d : jvalue d (s2b "false") (JBool false)
| jv_number d t n : jnumber t n -> jvalue d t (JNum n)
| jv_string d t s : jstring t s -> jvalue d t (JStr s)
| jv_empty_array d w : ws w -> jvalue (S d) ([91] ++ w ++ [93]) (JArr [])
| jv_array d t a : jelems d t a -> jvalue (S d) ([91] ++ t ++ [93]) (JArr a)
| jv_empty_object d w : ws w -> jvalue (S d) ([123] ++ w ++ [125]) (JObj [])
| jv_object d t l o : jmembers d t l -> last_wins l o -> jvalue (S d) ([123] ++ t ++ [125]) (JObj o)
with jelems {F : Floats} : nat -> bytes -> list json -> Prop :=
| je_one d w1 t w2 j : ws w1 -> jvalue d t j -> ws w2 -> jelems d (w1 ++ t ++ w2) [j]
| je_more d w1 t w2 j u a : ws w1 -> jvalue d t j -> ws w2 -> jelems d u a -> jelems d (w1 ++ t ++ w2 ++ [44] ++ u) (j :: a)
with jmembers {F : Floats} : nat -> bytes -> list (bytes * json) -> Prop :=
| jm_one d w1 q k w2 w3 t w4 j : ws w1 -> jstring q k -> ws w2 -> ws w3 -> jvalue d t j -> ws w4 -> jmembers d (w1 ++ q ++ w2 ++ [58] ++ w3 ++ t ++ w4) [(k, j)]
| jm_more d w1 q k w2 w3 t w4 j u l : ws w1 -> jstring q k -> ws w2 -> ws w3 -> jvalue d t j -> ws w4 -> jmembers d u l ->
    jmembers d (w1 ++ q ++ w2 ++ [58] ++ w3 ++ t ++ w4 ++ [44] ++ u) ((k, j) :: l).
(** a JSON document: a value with white space around it *)
Definition jtext {F : Floats} (d : nat) (s : bytes) (j : json) : Prop := exists w1 t w2, s = w1 ++ t ++ w2 /\ ws w1 /\ jvalue d t j /\ ws w2.

(** the [Value] of a JSON document; numbers from 2^63 and floats that print without '.' have none *)
Inductive same : json -> data -> Prop :=
| same_null : same JNull VNull
| same_bool b : same (JBool b) (VBool b)
| same_pos n : n < 2 ^ 63 -> same (JNum (JPos n)) (VInt (Z.of_N n))
| same_neg z : same (JNum (JNeg z)) (VInt z)
| same_float t : In 46 t -> same (JNum (JFlt t)) (VFloat t)
| same_str s : same (JStr s) (VStr s)
| same_arr a b : Forall2 same a b -> same (JArr a) (VArr b)
| same_obj o p : Forall2 (fun x y => fst x = fst y /\ same (snd x) (snd y)) o p -> same (JObj o) (VObj p).
