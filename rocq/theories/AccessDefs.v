(** Definitions used only to state the properties of the accessors of Serder and Creder. *)
From Verif Require Import Base MatterTables Matter StdStr Data Spec MatterDefs Crypto Prims PrimsDefs Sadder.

(** the object a message holds *)
Definition holds (s : sadder) (o : list (bytes * data)) : Prop := sd_ked s = VObj o /\ NoDup (map fst o).
(** the value is the text of a primitive whose code is one of [codes] *)
Definition prim_text `{Profile} (codes : list bytes) (v : data) (m : matter) : Prop := exists t, v = VStr t /\ parse_text t = Ok m /\ In (m_code m) codes.
(** a list in which some text, after good ones, makes the parser panic *)
Definition text_panics `{Profile} (codes : list bytes) (vs : list data) : Prop :=
  exists a ms t b, vs = a ++ VStr t :: b /\ Forall2 (prim_text codes) a ms /\ parse_text t = Panic.
(** a sequence number in hexadecimal; nothing is zero *)
Definition sequence_text (t : bytes) (n : N) : Prop := hex_input t n \/ t = [] /\ n = 0.
(** events that change the keys *)
Definition establishing : list bytes := map s2b ["icp"; "rot"; "dip"; "drt"]%string.
