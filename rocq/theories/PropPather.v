(** Property theorems (generated by tools/mkprop.py from PatherThms.v, which holds the proofs). *)
From Verif Require Import Base MatterTables Matter StdStr Data Json Spec MatterDefs Crypto Prims PrimsDefs DataDefs TholderDefs Saider Sadder Pather PatherDefs PatherThms.

(** C26: a Pather has a text code; from material it is what the general constructor returns; a bext wins over material, and material over a path *)
Theorem C26_pather : forall (P : Profile) (path : option data) (bext code raw qb64b qb64 qb2 : option bytes),
  (forall m, pather_new path bext code raw qb64b qb64 qb2 = Ok m -> In (m_code m) text_codes) /\
  ((raw, qb64b, qb64, qb2) <> (None, None, None, None) ->
     checked m_code text_codes (matter_new (Some (unwrap_or code (s2b "4A"))) raw qb64b qb64 qb2) (pather_new path None code raw qb64b qb64 qb2)) /\
  (forall t, pather_new path (Some t) code raw qb64b qb64 qb2 = bexter_new (Some t) code None None None None) /\
  pather_new None None code None None None None = Err E_EmptyMaterial.
Proof. exact C26_pather_pf. Qed.
Print Assumptions C26_pather.

Example C26_pather_ex : forall P : Profile, pather_new None None None None None (Some (s2b "4BACA-field0")) None = Err E_UnexpectedCode /\
  pather_new None None None None None (Some (s2b "6AABAAA-")) None = Ok (Mat (s2b "6A") 1 [62]) /\
  pather_new (Some (VArr [])) None None None None None None = Ok (Mat (s2b "6A") 1 [62]).
Proof. exact C26_pather_ex_pf. Qed.

(** C34: a path of proper components is kept, and so is its text; the text and binary forms are read back *)
Theorem C34_round_trip : forall (P : Profile) (cs : list bytes), Forall proper_component cs -> len (path_text cs) <= 64 ^ 4 * 4 - 4 ->
  exists m q b, pather_of_path (path_value cs) = Ok m /\ pather_of_bext (path_text cs) = Ok m /\ is_pather m /\
    pather_path m = Ok (path_value cs) /\ bext_of m = Ok (path_text cs) /\ matter_qb64 m = Ok q /\ matter_qb2 m = Ok b /\
    pather_of_text q = Ok m /\ pather_of_binary b = Ok m.
Proof. exact C34_round_trip_pf. Qed.
Print Assumptions C34_round_trip.

Example C34_round_trip_ex : forall P : Profile, Forall proper_component [s2b "field0"; s2b "1"; s2b "z_"] /\
  exists m, pather_of_path (path_value [s2b "field0"; s2b "1"; s2b "z_"]) = Ok m /\ bext_of m = Ok (s2b "-field0-1-z_") /\ matter_qb64 m = Ok (s2b "4AAD-field0-1-z_").
Proof. exact C34_round_trip_ex_pf. Qed.

(** C34: exactly which path values are accepted: lists of texts and integers that are written with Base64-URL characters *)
Theorem C34_accepted : forall (P : Profile) (v : data),
  (forall m, pather_of_path v = Ok m -> exists es cs, v = VArr es /\ Forall2 written es cs /\ Forall b64_text cs /\ (len (path_text cs) < 2 ^ 32 -> bext_of m = Ok (path_text cs))) /\
  (forall es cs, v = VArr es -> Forall2 written es cs -> Forall b64_text cs ->
     (len (path_text cs) <= 64 ^ 4 * 4 - 4 -> exists m, pather_of_path v = Ok m /\ pather_of_bext (path_text cs) = Ok m /\ is_pather m) /\
     (64 ^ 4 * 4 - 4 < len (path_text cs) < 2 ^ 32 -> pather_of_path v = Err E_InvalidVarRawSize)) /\
  ((forall es, v <> VArr es) -> pather_of_path v = Err E_Conversion) /\
  (forall es cs e r, v = VArr (es ++ e :: r) -> Forall2 written es cs -> Forall b64_text cs ->
     ((forall c, ~ written e c) -> pather_of_path v = Err E_Conversion) /\ (forall c, written e c -> ~ b64_text c -> pather_of_path v = Err E_Value)).
Proof. exact C34_accepted_pf. Qed.
Print Assumptions C34_accepted.

Example C34_accepted_ex : forall P : Profile, written (VInt 12) (s2b "12") /\ pather_of_path (VArr [VStr (s2b "a"); VInt 12]) = pather_of_path (path_value [s2b "a"; s2b "12"]) /\
  pather_of_path (VArr [VStr (s2b "a"); VStr (s2b "@")]) = Err E_Value /\ pather_of_path (VArr [VStr (s2b "a"); VNull]) = Err E_Conversion.
Proof. exact C34_accepted_ex_pf. Qed.

(** C34: the path of any Pather: its text, which must start with a dash, is taken apart at the dashes; it is empty if a dash follows the first one *)
Theorem C34_path : forall (P : Profile) (m : matter), is_pather m -> exists t, bext_of m = Ok t /\
  ((forall r, t <> s2b "-" ++ r) -> pather_path m = Err E_Value) /\
  (forall cs, t = path_text cs -> cs <> [] -> Forall (fun c => ~ In 45 c) cs -> pather_path m = Ok (path_value (match cs with [] :: _ => [] | _ => cs end))).
Proof. exact C34_path_pf. Qed.
Print Assumptions C34_path.

Example C34_path_ex : forall P : Profile, exists m, pather_of_bext (s2b "-a--b") = Ok m /\ is_pather m /\ s2b "-a--b" = path_text [s2b "a"; []; s2b "b"] /\ pather_path m = Ok (path_value [s2b "a"; []; s2b "b"]).
Proof. exact C34_path_ex_pf. Qed.

(** C34: without the restriction to proper components it is false: empty components and components with dashes are accepted and change the path *)
Theorem C34_round_trip_refuted : forall P : Profile,
  (exists m, pather_of_path (path_value [s2b "a-b"]) = Ok m /\ pather_path m = Ok (path_value [s2b "a"; s2b "b"])) /\
  (exists m, pather_of_path (path_value [[]; s2b "a"]) = Ok m /\ pather_path m = Ok (path_value [])) /\
  (exists m, pather_of_path (VArr [VInt (-1)]) = Ok m /\ pather_path m = Ok (path_value [])).
Proof. exact C34_round_trip_refuted_pf. Qed.
Print Assumptions C34_round_trip_refuted.

(** C35: rooting puts the components of the root in front *)
Theorem C35_root : forall (P : Profile) (a b : matter) (va vb : data), is_pather a -> is_pather b -> pather_path a = Ok va -> pather_path b = Ok vb ->
  exists ca cb, va = path_value ca /\ vb = path_value cb /\ pather_root a b = pather_of_path (path_value (cb ++ ca)) /\
    (len (path_text (cb ++ ca)) <= 64 ^ 4 * 4 - 4 -> exists m, pather_root a b = Ok m /\ is_pather m /\ pather_path m = Ok (path_value (cb ++ ca)) /\ bext_of m = Ok (path_text (cb ++ ca))).
Proof. exact C35_root_pf. Qed.
Print Assumptions C35_root.

Example C35_root_ex : forall P : Profile, exists a b m, is_pather a /\ is_pather b /\ pather_path a = Ok (path_value [s2b "a"; s2b "b"]) /\ pather_path b = Ok (path_value [s2b "r"]) /\
  pather_root a b = Ok m /\ bext_of m = Ok (s2b "-r-a-b") /\ exists n, pather_strip m b = Ok n /\ pather_path n = Ok (path_value [s2b "a"; s2b "b"]).
Proof. exact C35_root_ex_pf. Qed.

(** C35: stripping a leading part removes it, if its components are different from each other and do not occur in the rest *)
Theorem C35_strip : forall (P : Profile) (a b : matter) (r q : list bytes), is_pather a -> pather_path a = Ok (path_value (r ++ q)) -> pather_path b = Ok (path_value r) ->
  NoDup r -> (forall c, In c r -> ~ In c q) -> pather_strip a b = pather_of_path (path_value q) /\
  ((forall c q', q = c :: q' -> c <> []) -> exists m, pather_strip a b = Ok m /\ is_pather m /\ pather_path m = Ok (path_value q)).
Proof. exact C35_strip_pf. Qed.
Print Assumptions C35_strip.

(** C35: stripping undoes rooting under the same condition *)
Theorem C35_root_strip : forall (P : Profile) (a b : matter) (ca cb : list bytes), is_pather a -> is_pather b -> pather_path a = Ok (path_value ca) -> pather_path b = Ok (path_value cb) ->
  NoDup cb -> (forall c, In c cb -> ~ In c ca) -> len (path_text (cb ++ ca)) <= 64 ^ 4 * 4 - 4 ->
  exists m n, pather_root a b = Ok m /\ pather_strip m b = Ok n /\ pather_path n = Ok (path_value ca).
Proof. exact C35_root_strip_pf. Qed.
Print Assumptions C35_root_strip.

(** C35: a root with more components leaves the path alone; otherwise a component of the root that does not occur in the path panics *)
Theorem C35_strip_other : forall (P : Profile) (a b : matter) (ca cb : list bytes), pather_path a = Ok (path_value ca) -> pather_path b = Ok (path_value cb) ->
  (len ca < len cb -> pather_strip a b = Ok a) /\
  (len cb <= len ca -> (exists c, In c cb /\ ~ In c ca) -> pather_strip a b = Panic).
Proof. exact C35_strip_other_pf. Qed.
Print Assumptions C35_strip_other.

Example C35_strip_other_ex : forall P : Profile, exists a b, pather_of_bext (s2b "-ab") = Ok a /\ pather_of_bext (s2b "-a") = Ok b /\
  pather_path a = Ok (path_value [s2b "ab"]) /\ pather_path b = Ok (path_value [s2b "a"]) /\ pather_starts_with a b = Ok true /\ pather_strip a b = Panic.
Proof. exact C35_strip_other_ex_pf. Qed.

(** C35: otherwise the wrong components can go: another occurrence of a component of the root, or one that is not in front; or it panics *)
Theorem C35_strip_refuted : forall P : Profile,
  (exists a b m, pather_of_bext (s2b "-a-b-a") = Ok a /\ pather_of_bext (s2b "-a") = Ok b /\ pather_strip a b = Ok m /\ pather_path m = Ok (path_value [s2b "a"; s2b "b"])) /\
  (exists a b m, pather_of_bext (s2b "-a-b-c") = Ok a /\ pather_of_bext (s2b "-b") = Ok b /\ pather_strip a b = Ok m /\ pather_path m = Ok (path_value [s2b "a"; s2b "c"])) /\
  (exists a b, pather_of_bext (s2b "-a-a") = Ok a /\ pather_of_bext (s2b "-a-a") = Ok b /\ pather_strip a b = Panic).
Proof. exact C35_strip_refuted_pf. Qed.
Print Assumptions C35_strip_refuted.

(** C36: the prefix test compares the texts; it never fails *)
Theorem C36_text : forall (P : Profile) (a b : matter), is_pather a -> is_pather b ->
  exists ta tb x, bext_of a = Ok ta /\ bext_of b = Ok tb /\ pather_starts_with a b = Ok x /\ (x = true <-> is_prefix tb ta).
Proof. exact C36_text_pf. Qed.
Print Assumptions C36_text.

(** C36: in terms of components: all components of the prefix but the last are the same, and the last is the start of the component at its place *)
Theorem C36_components : forall (P : Profile) (a b : matter) (ca cb : list bytes), Forall proper_component ca -> Forall proper_component cb ->
  pather_of_path (path_value ca) = Ok a -> pather_of_path (path_value cb) = Ok b -> len (path_text ca) <= 64 ^ 4 * 4 - 4 -> len (path_text cb) <= 64 ^ 4 * 4 - 4 ->
  exists x, pather_starts_with a b = Ok x /\ (x = true <-> cb = [] \/ exists init l y rest, cb = init ++ [l] /\ ca = init ++ (l ++ y) :: rest).
Proof. exact C36_components_pf. Qed.
Print Assumptions C36_components.

Example C36_components_ex : forall P : Profile, Forall proper_component [s2b "ab"; s2b "c"] /\ Forall proper_component [s2b "a"] /\
  exists a b, pather_of_path (path_value [s2b "ab"; s2b "c"]) = Ok a /\ pather_of_path (path_value [s2b "a"]) = Ok b /\ pather_starts_with a b = Ok true /\ pather_starts_with b a = Ok false.
Proof. exact C36_components_ex_pf. Qed.

(** C36: a path whose components start with those of the other passes the test *)
Theorem C36_prefix : forall (P : Profile) (a b : matter) (cb rest : list bytes), Forall proper_component (cb ++ rest) ->
  pather_of_path (path_value (cb ++ rest)) = Ok a -> pather_of_path (path_value cb) = Ok b -> len (path_text (cb ++ rest)) <= 64 ^ 4 * 4 - 4 -> len (path_text cb) <= 64 ^ 4 * 4 - 4 -> pather_starts_with a b = Ok true.
Proof. exact C36_prefix_pf. Qed.
Print Assumptions C36_prefix.

(** C36: the converse is false *)
Theorem C36_prefix_refuted : forall P : Profile, exists a b, pather_of_path (path_value [s2b "ab"]) = Ok a /\ pather_of_path (path_value [s2b "a"]) = Ok b /\ pather_starts_with a b = Ok true.
Proof. exact C36_prefix_refuted_pf. Qed.
Print Assumptions C36_prefix_refuted.

(** C37: resolving finds exactly the value the components lead to: a numeral counts entries, other components are keys; otherwise an error, never a panic *)
Theorem C37_resolve : forall (P : Profile) (a : matter) (v : data), is_pather a ->
  (forall cs x, pather_path a = Ok (path_value cs) -> pather_resolve a v = Ok x <-> leads v cs x) /\
  (forall e, pather_path a = Err e -> pather_resolve a v = Err e) /\ pather_resolve a v <> Panic.
Proof. exact C37_resolve_pf. Qed.
Print Assumptions C37_resolve.

Example C37_resolve_ex : forall P : Profile, exists a, pather_of_bext (s2b "-0-z-1") = Ok a /\ is_pather a /\ pather_path a = Ok (path_value [s2b "0"; s2b "z"; s2b "1"]) /\
  pather_resolve a (VObj [(s2b "field", VObj [(s2b "y", VNull); (s2b "z", VArr [VInt 7; VInt 8])])]) = Ok (VInt 8) /\
  leads (VObj [(s2b "field", VObj [(s2b "y", VNull); (s2b "z", VArr [VInt 7; VInt 8])])]) [s2b "0"; s2b "z"; s2b "1"] (VInt 8).
Proof. exact C37_resolve_ex_pf. Qed.

(** C37: resolving a rooted path is resolving the root, then the path inside the result, if no component of the root is empty *)
Theorem C37_compose : forall (P : Profile) (a b c : matter) (ca cb : list bytes) (v : data), is_pather a -> is_pather b -> pather_path a = Ok (path_value ca) -> pather_path b = Ok (path_value cb) ->
  Forall (fun k => k <> []) cb -> len (path_text (cb ++ ca)) <= 64 ^ 4 * 4 - 4 -> pather_root a b = Ok c ->
  pather_resolve c v = (x <- pather_resolve b v ;; pather_resolve a x).
Proof. exact C37_compose_pf. Qed.
Print Assumptions C37_compose.

Example C37_compose_ex : forall P : Profile, exists a b c, is_pather a /\ is_pather b /\ pather_path a = Ok (path_value [s2b "a"; s2b "b"]) /\ pather_path b = Ok (path_value [s2b "r"]) /\ pather_root a b = Ok c /\
  pather_resolve c (VObj [(s2b "r", VObj [(s2b "a", VObj [(s2b "b", VInt 3)])])]) = Ok (VInt 3).
Proof. exact C37_compose_ex_pf. Qed.

(** C37: with an empty component it is false: everything after it is ignored in a map *)
Theorem C37_compose_refuted : forall P : Profile, exists a b c x, pather_of_bext (s2b "-b") = Ok a /\ pather_of_bext (s2b "-a-") = Ok b /\ pather_root a b = Ok c /\
  pather_resolve b (VObj [(s2b "a", VObj [(s2b "b", VInt 1)])]) = Ok x /\ pather_resolve a x = Ok (VInt 1) /\ pather_resolve c (VObj [(s2b "a", VObj [(s2b "b", VInt 1)])]) = Ok x.
Proof. exact C37_compose_refuted_pf. Qed.
Print Assumptions C37_compose_refuted.

(** C37: a key that is a numeral cannot be reached by its name *)
Theorem C37_numeric_key_refuted : forall P : Profile, exists a, pather_of_bext (s2b "-1") = Ok a /\ pather_resolve a (VObj [(s2b "1", VInt 5)]) = Err E_Value /\ pather_resolve a (VObj [(s2b "1", VInt 5); (s2b "x", VInt 6)]) = Ok (VInt 6).
Proof. exact C37_numeric_key_refuted_pf. Qed.
Print Assumptions C37_numeric_key_refuted.

(** C37: the tail of a message: an identifier text, or the JSON of a map or list *)
Theorem C37_tail : forall (P : Profile) (C : Crypto) (a : matter) (s : sadder) (t : bytes), is_pather a -> pather_tail a s = Ok t <->
  exists cs v, pather_path a = Ok (path_value cs) /\ leads (sd_ked s) cs v /\
    ((v = VStr t /\ exists m, parse_text t = Ok m /\ In (m_code m) (map fst digest_sizes)) \/ ((exists l, v = VArr l) \/ (exists o, v = VObj o)) /\ t = to_json v).
Proof. exact C37_tail_pf. Qed.
Print Assumptions C37_tail.

Example C37_tail_ex : forall (P : Profile) (C : Crypto) (s : sadder), sd_ked s = VObj [(s2b "d", VStr (s2b "EBdXt3gIXOf2BBWNHdSXCJnFJL5OuQPyM5K0neuniccM")); (s2b "a", VArr [VInt 1; VInt 2])] ->
  exists a b, pather_of_bext (s2b "-d") = Ok a /\ is_pather a /\ pather_tail a s = Ok (s2b "EBdXt3gIXOf2BBWNHdSXCJnFJL5OuQPyM5K0neuniccM") /\ pather_of_bext (s2b "-a") = Ok b /\ pather_tail b s = Ok (s2b "[1,2]").
Proof. exact C37_tail_ex_pf. Qed.
