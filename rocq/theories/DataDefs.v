(** Definitions used only to state the properties of [Value] and its JSON text. *)
From Verif Require Import Base StdStr Data Json Spec.

Definition digit (c : N) : Prop := 48 <= c <= 57.
(** decimal digits without superfluous zero *)
Definition int_part (d : bytes) : Prop := d <> [] /\ (forall c, In c d -> digit c) /\ (forall r, d = 48 :: r -> r = []).
(** A JSON number text that is not an integer: what is printed for a finite f64. *)
Definition float_text (t : bytes) : Prop :=
  exists sign d frac exp, t = sign ++ d ++ frac ++ exp /\ (sign = [] \/ sign = [45]) /\ int_part d /\
    (frac = [] \/ exists f, frac = 46 :: f /\ f <> [] /\ forall c, In c f -> digit c) /\
    (exp = [] \/ exists e s x, exp = e :: s ++ x /\ (e = 101 \/ e = 69) /\ (s = [] \/ s = [43] \/ s = [45]) /\ x <> [] /\ forall c, In c x -> digit c) /\
    (frac <> [] \/ exp <> []).

(** A value that can exist: integers are i64, keys are distinct, and each float is in [fl]. *)
Inductive good (fl : bytes -> Prop) : data -> Prop :=
| good_null : good fl VNull
| good_bool b : good fl (VBool b)
| good_int i : (- 2 ^ 63 <= i < 2 ^ 63)%Z -> good fl (VInt i)
| good_float t : fl t -> good fl (VFloat t)
| good_str s : good fl (VStr s)
| good_arr a : (forall v, In v a -> good fl v) -> good fl (VArr a)
| good_obj o : NoDup (map fst o) -> (forall k v, In (k, v) o -> good fl v) -> good fl (VObj o).

(** nesting depth of arrays and objects *)
Fixpoint depth (v : data) : N :=
  match v with
  | VArr a => 1 + fold_right N.max 0 (map depth a)
  | VObj o => 1 + fold_right N.max 0 (map (fun kv => depth (snd kv)) o)
  | _ => 0
  end.

(** reading a JSON text into a [Value]: Value::from(&serde_json::from_str(text)?) *)
Definition from_json `{Floats} (s : bytes) : outcome data := j <- json_from_str s ;; import j.

(** what is assumed of reading floating point numerals: the result prints as a float text.
    (That this text is read back as itself is not assumed: C79_unstable.) *)
Definition float_shape (F : Floats) : Prop := forall t u, float_of_text t = Some u -> float_text u.

(** A number of a parsed JSON document that [Value] cannot hold: an integer above
    i64::MAX, or a float whose text has no '.' (such as 1e300). *)
Inductive unimportable : json -> Prop :=
| un_pos n : 2 ^ 63 <= n -> unimportable (JNum (JPos n))
| un_float t : ~ In 46 t -> unimportable (JNum (JFlt t))
| un_arr a j : In j a -> unimportable j -> unimportable (JArr a)
| un_obj o k j : In (k, j) o -> unimportable j -> unimportable (JObj o).

(** A toy instance for examples: reads exactly the numerals with a fraction or an
    exponent as themselves, and appends ".0" to integers. *)
Definition toy_floats : Floats := {| float_of_text := fun t => if existsb (fun c => (c =? 46) || (c =? 101) || (c =? 69)) t then Some t else Some (t ++ s2b ".0") |}.
