(** Definitions used only to state the properties of identifier prefixes. *)
From Verif Require Import Base MatterTables Matter StdStr Data Spec MatterDefs Crypto Prims PrimsDefs CommonDefs SaiderDefs Prefixer.

(** the codes of keys, by whether the identifier can rotate them *)
Definition fixed_key_codes : list bytes := map s2b ["B"; "1AAA"; "1AAI"]%string.
Definition rotating_key_codes : list bytes := map s2b ["D"; "1AAB"; "1AAJ"]%string.
(** the codes of prefixes *)
Definition prefix_codes : list bytes := fixed_key_codes ++ rotating_key_codes ++ map fst digest_sizes.
(** an inception event *)
Definition inception (o : list (bytes * data)) : Prop := exists ilk, In (s2b "t", VStr ilk) o /\ In ilk (map s2b ["icp"; "dip"; "vcp"]%string).
(** its only key *)
Definition sole_key (o : list (bytes * data)) (t : bytes) : Prop := In (s2b "k", VArr [VStr t]) o.
Definition absent_or_empty (o : list (bytes * data)) (k : bytes) : Prop := ~ In k (map fst o) \/ In (k, VStr []) o.
(** what "n" may be when the prefix of a fixed key is verified *)
Definition no_next (o : list (bytes * data)) : Prop :=
  forall v, In (s2b "n", v) o -> (forall t, v = VStr t -> t = []) /\ (forall l, v = VArr l -> l = []).
(** the allow list, if it is not empty, contains the code *)
Definition allowed (allows : option (list bytes)) (c : bytes) : Prop := allows = None \/ allows = Some [] \/ exists l, allows = Some l /\ In c l.
(** the event with placeholders for its identifier and its prefix *)
Definition blank (c : bytes) (o : list (bytes * data)) : list (bytes * data) := put (s2b "d") (placeholder c) (put (s2b "i") (placeholder c) o).
(** the text that is hashed: the JSON of the event with the first version-like text, within the first 12 bytes, replaced by the version string with the true size *)
Definition event_text (o : list (bytes * data)) (text : bytes) : Prop :=
  exists ident m k, In (s2b "v", VStr (version_text ident 1 0 (s2b "JSON") m)) o /\ (ident = s2b "KERI" \/ ident = s2b "ACDC") /\ m < 2 ^ 24 /\
    let json := to_json (VObj o) in let n := len json mod 2 ^ 32 in first_version_at json k /\ k <= 12 /\ n < 2 ^ 24 /\
    text = take k json ++ version_text ident 1 0 (s2b "JSON") n ++ drop (k + 17) json.

Section D.
Context `{P : Profile} `{C : Crypto}.
(** Prefixer::new_with_ked *)
Definition prefixer_of_ked (ked : data) (allows : option (list bytes)) (code : option bytes) : outcome matter := prefixer_new (Some ked) allows code None None None None.
End D.
