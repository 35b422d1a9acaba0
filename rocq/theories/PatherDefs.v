(** Definitions used only to state the properties of paths. *)
From Verif Require Import Base MatterTables Matter StdStr Data Spec MatterDefs Prims PrimsDefs TholderDefs Pather.

(** the text of a path: every component after a dash *)
Definition path_text (cs : list bytes) : bytes := match cs with [] => s2b "-" | _ => flat_map (fun c => s2b "-" ++ c) cs end.
(** the path value *)
Definition path_value (cs : list bytes) : data := VArr (map VStr cs).
(** a proper component: not empty, Base64-URL characters except the dash *)
Definition proper_component (c : bytes) : Prop := c <> [] /\ b64_text c /\ ~ In 45 c.
(** an element of a path value that is written as the component [c] *)
Definition written (e : data) (c : bytes) : Prop := e = VStr c \/ exists n, e = VInt (Z.of_N n) /\ c = to_dec n \/ e = VInt (- Z.of_N n) /\ c = s2b "-" ++ to_dec n /\ 0 < n.

Section D.
Context `{P : Profile}.
(** Pather::new_with_path, new_with_bext, new_with_qb64, new_with_qb64b, new_with_qb2 *)
Definition pather_of_path (v : data) : outcome matter := pather_new (Some v) None None None None None None.
Definition pather_of_bext (t : bytes) : outcome matter := pather_new None (Some t) None None None None None.
Definition pather_of_text (t : bytes) : outcome matter := pather_new None None None None None (Some t) None.
Definition pather_of_text_bytes (t : bytes) : outcome matter := pather_new None None None None (Some t) None None.
Definition pather_of_binary (b : bytes) : outcome matter := pather_new None None None None None None (Some b).
Definition is_pather (m : matter) : Prop := constructed m /\ In (m_code m) text_codes.
End D.

(** a component that is a position: a decimal numeral below 2^64 *)
Definition position (c : bytes) (i : N) : Prop := c <> [] /\ dec_numeral c i /\ i < 2 ^ 64.
(** the first entry with key [k] *)
Definition entry (m : list (bytes * data)) (k : bytes) (v : data) : Prop :=
  exists before after, m = before ++ (k, v) :: after /\ ~ In k (map fst before).
(** the components [cs] lead from a value to a value inside it *)
Inductive leads : data -> list bytes -> data -> Prop :=
| leads_end v : leads v [] v
| leads_item a c i w cs x : position c i -> nth_error a (N.to_nat i) = Some w -> leads w cs x -> leads (VArr a) (c :: cs) x
| leads_entry m c i k w cs x : position c i -> nth_error m (N.to_nat i) = Some (k, w) -> leads w cs x -> leads (VObj m) (c :: cs) x
| leads_key m c w cs x : c <> [] -> (forall i, ~ position c i) -> entry m c w -> leads w cs x -> leads (VObj m) (c :: cs) x
| leads_self m cs : leads (VObj m) ([] :: cs) (VObj m).
