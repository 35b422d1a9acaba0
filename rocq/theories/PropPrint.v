(** Property theorems (generated by tools/mkprop.py from PrintThms.v, which holds the proofs). *)
From Coq Require Import ListDec.
From Verif Require Import Base StdStr Data Json Spec PrimsDefs DataDefs GrammarDefs PrintDefs PrintThms.

(** C75: no JSON text that is read as the value, whatever its layout, escapes and repeated keys, is shorter than the text printed for it, and one that is as long
    differs from it only in the case of letters (of the hexadecimal digits of escapes) *)
Theorem C75_shortest : forall (F : Floats) (t : bytes) (v : data), from_json t = Ok v -> good (fun _ => False) v ->
  len (to_json v) <= len t /\ (len t = len (to_json v) -> map lower t = map lower (to_json v)).
Proof. exact C75_shortest_pf. Qed.
Print Assumptions C75_shortest.

(** two layouts and escapes of one value: the printed text is the shortest, and the only one of its length but for the case of [\u001F] *)
Example C75_shortest_ex : forall F : Floats, let v := VObj [(s2b "a", VArr [VStr [13; 31; 65]; VInt (-7)])] in
  good (fun _ => False) v /\ from_json (s2b "{""a"":0, ""a"" : [""\r\u001F\u0041"", -7] }") = Ok v /\ from_json (s2b "{""a"":[""\r\u001FA"",-7]}") = Ok v /\
  to_json v = s2b "{""a"":[""\r\u001fA"",-7]}".
Proof. exact C75_shortest_ex_pf. Qed.

(** C75: the printed text is a text of the JSON grammar, standing for the value, that nests exactly as deep as the value - for values of any depth *)
Theorem C75_grammatical : forall (F : Floats) (v : data), good (fun t => float_text t /\ In 46 t /\ float_of_text t = Some t) v ->
  (exists j, jtext (N.to_nat (depth v)) (to_json v) j /\ same j v) /\ (forall d j, jtext d (to_json v) j -> (N.to_nat (depth v) <= d)%nat).
Proof. exact C75_grammatical_pf. Qed.
Print Assumptions C75_grammatical.
