(** Definitions used only to state the properties of event logs: what an event and
    a log of events are, in terms of the library's calls. *)
From Verif Require Import Base Utf8 Matter StdStr Data Json Spec Crypto Prims PrimsDefs Common Saider SaiderDefs Sadder Prefixer PrefixerDefs CommonDefs InceptDefs.

Section D.
Context `{P : Profile} `{C : Crypto} `{F : Floats}.
(** loaded from some bytes *)
Definition from_bytes (s : sadder) : Prop := exists code raw, serder_new code (Some raw) None None None = Ok s.
(** its identifier verifies its content, and is the entry "d" *)
Definition verified (s : sadder) : Prop := said_verify (sd_saider s) (sd_ked s) (Some true) None None None None = Ok true.
(** its version string comes first; its identifier is its prefix and the entry "d"
    too, and verifies as a prefix *)
Definition self_addressed (s : sadder) : Prop :=
  (exists v r, sd_ked s = VObj ((s2b "v", VStr v) :: r)) /\ prefixer_verify (sd_saider s) (sd_ked s) (Some true) = Ok true /\ exists q, sadder_said s = Ok q /\ vget (sd_ked s) (s2b "d") = Ok (VStr q).
(** [b] is the event after [a]: it names [a]'s identifier in "p", has the next
    sequence number and the same prefix *)
Definition follows (a b : sadder) : Prop :=
  exists q n i, sadder_said a = Ok q /\ vget (sd_ked b) (s2b "p") = Ok (VStr q) /\
    serder_sn a = Ok n /\ serder_sn b = Ok (n + 1) /\ serder_pre a = Ok i /\ serder_pre b = Ok i.
(** a log, newest event first; [first] is the check made on the oldest event *)
Inductive event_log (first : sadder -> Prop) : list sadder -> Prop :=
| log_first a : from_bytes a -> first a -> serder_sn a = Ok 0 -> event_log first [a]
| log_next a b l : event_log first (a :: l) -> from_bytes b -> verified b -> follows a b -> event_log first (b :: a :: l).
(** a text whose digest the identifier of [s] is, when it verifies: the content with
    placeholders for the identifier (and for the prefix, when that is the identifier) *)
Definition digested (s : sadder) (t : bytes) : Prop :=
  exists o, sd_ked s = VObj o /\ let c := m_code (sd_saider s) in t = to_json (VObj (put (s2b "d") (placeholder c) o)) \/ event_text (blank c o) t.
(** two different texts, one of each event, that the digest function of the
    identifier maps to the same digest *)
Definition collide (a b : sadder) : Prop :=
  exists t1 t2, digested a t1 /\ digested b t2 /\ t1 <> t2 /\ x_hash (m_code (sd_saider a)) t1 = x_hash (m_code (sd_saider a)) t2.
(** the events of the two logs at some distance from the newest collide *)
Definition collision (l1 l2 : list sadder) : Prop :=
  exists i e1 e2, nth_error l1 i = Some e1 /\ nth_error l2 i = Some e2 /\ collide e1 e2.
(** reading events, one after the other, from the bytes [w]; [rest] remains *)
Inductive read_events : bytes -> list sadder -> bytes -> Prop :=
| read_no_events w : read_events w [] w
| read_an_event w s l rest : (exists code, serder_new code (Some w) None None None = Ok s) -> read_events (drop (sd_size s) w) l rest -> read_events w (s :: l) rest.
(** the keys are those that the digests announced *)
Definition announced (digests keys : list matter) : Prop :=
  Forall2 (fun d k => exists t, matter_qb64b k = Ok t /\ diger_verify d t = Ok true) digests keys.
End D.

(** Examples: events made with toy instances of the digest function and of floats. *)
Definition no_floats : Floats := {| float_of_text := fun _ => None |}.
Section T.
Context `{P : Profile}.
Definition no_event : sadder := Sdr [] [] VNull [] [] 0 (Ver 0 0) (Mat [] 0 []).
Definition or_none (r : outcome sadder) : sadder := match r with Ok s => s | _ => no_event end.
Definition vs0 : data := VStr (version_text (s2b "KERI") 1 0 (s2b "JSON") 0).
(** an event made by saidify *)
Definition said_event (o : list (bytes * data)) : sadder :=
  or_none (r <- saidify (H0 := sum_crypto) (VObj o) None None None None ;; serder_new (H0 := sum_crypto) (H1 := no_floats) None None None (Some (snd r)) None).
(** a first event whose prefix is derived from it *)
Definition prefix_event (o : list (bytes * data)) : sadder :=
  or_none (m <- prefixer_of_ked (C := sum_crypto) (VObj o) None (Some (s2b "E")) ;; q <- matter_qb64 m ;;
    serder_new (H0 := sum_crypto) (H1 := no_floats) None None None (Some (VObj (put (s2b "d") (VStr q) (put (s2b "i") (VStr q) o)))) None).
Definition text_of_said (s : sadder) : data := match sadder_said s with Ok q => VStr q | _ => VNull end.
Definition toy_icp (i : bytes) : list (bytes * data) := [(s2b "v", vs0); (s2b "t", VStr (s2b "icp")); (s2b "d", VStr []); (s2b "i", VStr i); (s2b "s", VStr (s2b "0")); (s2b "k", VArr [])].
Definition toy_rot (before : sadder) (sn : bytes) (note : Z) : list (bytes * data) :=
  [(s2b "v", vs0); (s2b "t", VStr (s2b "rot")); (s2b "d", VStr []); (s2b "i", match serder_pre before with Ok i => VStr i | _ => VNull end); (s2b "s", VStr sn); (s2b "p", text_of_said before); (s2b "a", VInt note)].
End T.
