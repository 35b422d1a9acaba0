(** Definitions used only to state the properties of self-addressing identifiers. *)
From Verif Require Import Base StdStr Data Spec CommonDefs.

(** [o] with the entry [k] set to [x], in its place or at the end *)
Definition put (k : bytes) (x : data) (o : list (bytes * data)) : list (bytes * data) :=
  if existsb (bytes_eqb k) (map fst o) then map (fun e => if bytes_eqb k (fst e) then (k, x) else e) o else o ++ [(k, x)].
(** [o] without the entries named in [ks] *)
Definition without (ks : list bytes) (o : list (bytes * data)) : list (bytes * data) :=
  filter (fun e => negb (existsb (bytes_eqb (fst e)) ks)) o.
(** the placeholder for an identifier: as many '#' as the text of a digest of that code has characters *)
Definition placeholder (code : bytes) : data := VStr (rep 35 (if len code =? 1 then 44 else 88)).
(** [o'] is [o] with the size in its version string, if it has one, set to the
    length of its JSON text.  Only version 1.0 JSON, at most 2^24-1 bytes, and the
    first version-like text must start within the first 12 bytes. *)
Definition sized_as (o o' : list (bytes * data)) : Prop :=
  (~ In (s2b "v") (map fst o) /\ o' = o) \/
  exists ident m k, In (s2b "v", VStr (version_text ident 1 0 (s2b "JSON") m)) o /\ (ident = s2b "KERI" \/ ident = s2b "ACDC") /\ m < 2 ^ 24 /\
    first_version_at (to_json (VObj o)) k /\ k <= 12 /\ let n := len (to_json (VObj o)) mod 2 ^ 32 in n < 2 ^ 24 /\
    o' = put (s2b "v") (VStr (version_text ident 1 0 (s2b "JSON") n)) o.
(** the serialisation kind that was requested is JSON, the only one *)
Definition kind_ok (kind : option bytes) : Prop := kind = None \/ kind = Some (s2b "JSON").
