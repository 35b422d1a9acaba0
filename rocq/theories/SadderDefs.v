(** Definitions used only to state the properties of Serder and Creder. *)
From Verif Require Import Base Utf8 Matter StdStr Data Json DataDefs MatterDefs PrimsDefs Common CommonDefs Sadder.

(** every string and key of a value is UTF-8 (as every Rust [String] is) *)
Inductive texts : data -> Prop :=
| tx_null : texts VNull
| tx_bool b : texts (VBool b)
| tx_int i : texts (VInt i)
| tx_float t : texts (VFloat t)
| tx_str s : utf8_valid s = true -> texts (VStr s)
| tx_arr a : (forall v, In v a -> texts v) -> texts (VArr a)
| tx_obj o : (forall k v, In (k, v) o -> utf8_valid k = true /\ texts v) -> texts (VObj o).
(** a value that survives a round trip through JSON text (see C46) *)
Definition survives (F : Floats) (v : data) : Prop :=
  good (fun t => float_text t /\ In 46 t /\ float_of_text t = Some t) v /\ texts v /\ depth v <= 127.

(** [raw] starts, after at most 12 bytes and without an earlier version-like text,
    with a version string of protocol [ident], version 1.0, JSON, that states [size] *)
Definition announces (raw ident : bytes) (size : N) : Prop :=
  29 <= len raw /\ utf8_valid raw = true /\ tag ident /\ size < 2 ^ 24 /\
  exists k r, k <= 12 /\ first_version_at raw k /\ raw = take k raw ++ version_text ident 1 0 (s2b "JSON") size ++ r.
(** the "d" entry of [v] is the text of the digest [m] with code [code] *)
Definition identified `{Profile} (v : data) (code : bytes) (m : matter) : Prop :=
  exists t, vget v (s2b "d") = Ok (VStr t) /\ parse_text t = Ok m /\ m_code m = code /\ In code (map fst digest_sizes).
(** what is stored when [raw] is loaded: the announced part of it, and the value that part reads as *)
Definition loaded (P : Profile) (F : Floats) (ident code raw : bytes) (s : sadder) : Prop :=
  exists size v m, announces raw ident size /\ size <= len raw /\ utf8_valid (take size raw) = true /\
    from_json (take size raw) = Ok v /\ identified v code m /\
    s = Sdr code (take size raw) v ident (s2b "JSON") size (Ver 1 0) m.
(** what is stored when an object with the version string [vs] in its place is
    given: the object with the version string that states its size, and its JSON *)
Definition made (P : Profile) (ident code : bytes) (kind : option bytes) (obj : bytes -> data) (vs : bytes) (s : sadder) : Prop :=
  let size := len (to_json (obj vs)) mod 2 ^ 32 in let v := obj (version_text ident 1 0 (s2b "JSON") size) in
  exists old m, old < 2 ^ 24 /\ vs = version_text ident 1 0 (s2b "JSON") old /\ (kind = None \/ kind = Some (s2b "JSON")) /\ size < 2 ^ 24 /\
    identified v code m /\ s = Sdr code (to_json v) v ident (s2b "JSON") size (Ver 1 0) m.
