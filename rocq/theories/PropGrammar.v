(** Property theorems (generated by tools/mkprop.py from GrammarThms.v, which holds the proofs). *)
From Verif Require Import Base StdStr Data Json Spec PrimsDefs DataDefs GrammarDefs GrammarThms.

(** C71: the JSON texts that are read are exactly those of the grammar with at most 127 nested arrays and objects, and each is read as what it stands for *)
Theorem C71_reads : forall (F : Floats) (s : bytes),
  (forall j, json_from_str s = Ok j <-> jtext 127 s j) /\ (json_from_str s = Err E_Json <-> forall j, ~ jtext 127 s j).
Proof. exact C71_reads_pf. Qed.
Print Assumptions C71_reads.

(** C71: a text of the grammar stands for one document *)
Theorem C71_unambiguous : forall (F : Floats) (d : nat) (s : bytes) (j j' : json), jtext d s j -> jtext d s j' -> j = j'.
Proof. exact C71_unambiguous_pf. Qed.
Print Assumptions C71_unambiguous.

(** C71: the [Value] of a text is that of the document it stands for; a document that has none, because of one of its numbers, is a crash; all other texts are errors *)
Theorem C71_value : forall (F : Floats) (s : bytes),
  (forall v, from_json s = Ok v <-> exists j, jtext 127 s j /\ same j v) /\
  (from_json s = Err E_Json <-> forall j, ~ jtext 127 s j) /\
  (from_json s = Panic <-> exists j, jtext 127 s j /\ forall v, ~ same j v).
Proof. exact C71_value_pf. Qed.
Print Assumptions C71_value.

(** a document with white space, escapes, a surrogate pair, numbers of all kinds and a repeated key; documents with an integer too large for an i64; and texts that are no documents *)
Example C71_value_ex : forall F : Floats,
  (let s := [32] ++ s2b "{ ""a\u00e9\uD83D\ude00\/"" :[ 1,-2 , true,null]," ++ [10; 9] ++ s2b """b"":{} , ""a\u00e9\uD83D\ude00\/"":[18446744073709551615] } " in
   let k := s2b "a" ++ [195; 169; 240; 159; 152; 128; 47] in
   jtext 127 s (JObj [(k, JArr [JNum (JPos 18446744073709551615)]); (s2b "b", JObj [])]) /\ forall v, ~ same (JObj [(k, JArr [JNum (JPos 18446744073709551615)]); (s2b "b", JObj [])]) v) /\
  (exists j, jtext 127 (s2b "[""\u0041\n"", false,-9223372036854775808]") j /\ same j (VArr [VStr [65; 10]; VBool false; VInt (- 2 ^ 63)])) /\
  forall s, In s (map s2b ["01"; "1."; "+1"; "[1,]"; "{""a"":1,}"; "'a'"; """\ud83d"""; """\u12"""; "nul"; "[1 2]"; ""; "{a:1}"]%string) -> forall j, ~ jtext 127 s j.
Proof. exact C71_value_ex_pf. Qed.
