(** Property theorems (generated by tools/mkprop.py from LayoutThms.v, which holds the proofs). *)
From Verif Require Import Base StdStr Data Json Spec DataDefs Prims Common Sadder SadderDefs LayoutDefs Pretty LayoutThms.

(** C46: white space anywhere in the JSON text of a value, where JSON allows it, does
    not change what is read. *)
Theorem C46_layout : forall (F : Floats) (v : data) (w1 t w2 : bytes),
  good (fun t => float_text t /\ In 46 t /\ float_of_text t = Some t) v -> depth v <= 127 ->
  laid v t -> white w1 -> white w2 -> from_json (w1 ++ t ++ w2) = Ok v.
Proof. exact C46_layout_pf. Qed.
Print Assumptions C46_layout.

(** A text with white space in every place. *)
Example C46_layout_ex : let v := VObj [(s2b "a", VArr [VInt 1; VArr []]); (s2b "b", VObj [])] in
  let t := s2b "{ ""a"" : [ 1 , [ ] ] ," ++ [10; 9] ++ s2b """b"":{ }" ++ [13] ++ s2b "}" in
  laid v t /\ from_json (H := toy_floats) ([32] ++ t ++ [10]) = Ok v.
Proof. exact C46_layout_ex_pf. Qed.

(** C63: the pretty text of an event or credential is the lines of its content, joined
    by line feeds.  It is returned whole if it has at most [size] bytes (1024 if no
    size is given); otherwise its first [size] bytes are, unless that cuts through a
    character, which panics. Content nested more than 127 deep gives an error. *)
Theorem C63_pretty : forall (F : Floats) (s : sadder) (size : option N),
  let n := match size with Some n => n | None => 1024 end in
  let t := join [10] (lines (sd_ked s)) in
  good (fun t => float_text t /\ float_of_text t = Some t) (sd_ked s) ->
  (depth (sd_ked s) <= 127 ->
     (len t <= n -> sadder_pretty s size = Ok t) /\
     (n < len t -> boundary t n = true -> sadder_pretty s size = Ok (take n t)) /\
     (n < len t -> boundary t n = false -> sadder_pretty s size = Panic)) /\
  (127 < depth (sd_ked s) -> sadder_pretty s size = Err E_Json).
Proof. exact C63_pretty_pf. Qed.
Print Assumptions C63_pretty.

(** A text of nine lines; cut to seven bytes; and cut within a character, which panics. *)
Example C63_pretty_ex : let v := VObj [(s2b "a", VArr [VInt 1; VObj [(s2b "x", VNull)]]); (s2b "e", VStr [195; 169]); (s2b "z", VArr [])] in
  let s := Sdr [] [] v [] [] 0 (Ver 1 0) verfer_default in
  let t := join [10] ([s2b "{"; s2b "  ""a"": ["; s2b "    1,"; s2b "    {"; s2b "      ""x"": null"; s2b "    }"; s2b "  ],"] ++ [s2b "  ""e"": """ ++ [195; 169] ++ s2b ""","; s2b "  ""z"": []"; s2b "}"]) in
  sadder_pretty (H := toy_floats) s None = Ok t /\ sadder_pretty (H := toy_floats) s (Some 7) = Ok (s2b "{" ++ [10] ++ s2b "  ""a""") /\
  sadder_pretty (H := toy_floats) s (Some 60) = Panic.
Proof. exact C63_pretty_ex_pf. Qed.

(** C63: a pretty text that was not cut reads as the content. *)
Theorem C63_read_back : forall (F : Floats) (s : sadder) (size : option N) (t : bytes),
  good (fun t => float_text t /\ In 46 t /\ float_of_text t = Some t) (sd_ked s) ->
  sadder_pretty s size = Ok t -> len t < match size with Some n => n | None => 1024 end ->
  from_json t = Ok (sd_ked s).
Proof. exact C63_read_back_pf. Qed.
Print Assumptions C63_read_back.

Example C63_read_back_ex : let v := VObj [(s2b "a", VArr [VInt (-1); VStr [34; 10]])] in let s := Sdr [] [] v [] [] 0 (Ver 1 0) verfer_default in
  exists t, sadder_pretty (H := toy_floats) s None = Ok t /\ len t = 35 /\ t <> to_json v /\ from_json (H := toy_floats) t = Ok v.
Proof. exact C63_read_back_ex_pf. Qed.
