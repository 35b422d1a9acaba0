(** Property theorems (generated by tools/mkprop.py from LogThms.v, which holds the proofs). *)
From Verif Require Import Base Utf8 MatterTables Matter StdStr Data Json Spec MatterDefs Crypto Prims PrimsDefs DataDefs Common CommonDefs Saider SaiderDefs Sadder SadderDefs Prefixer PrefixerDefs AccessDefs InceptDefs PrintDefs LogDefs LogThms.

(** C77: two logs whose newest events have the same identifier have the same events,
    unless two of their events, at the same place, are a collision of the digest function. *)
Theorem C77_history : forall (P : Profile) (C : Crypto) (F : Floats) (a b : sadder) (l1 l2 : list sadder), hash_contract C -> float_shape F ->
  event_log verified (a :: l1) -> event_log verified (b :: l2) -> sadder_said a = sadder_said b ->
  map sd_ked (a :: l1) = map sd_ked (b :: l2) \/ collision (a :: l1) (b :: l2).
Proof. exact C77_history_pf. Qed.
Print Assumptions C77_history.

(** C77: the same for logs whose prefix is the identifier of their first event; only the
    version string of that event may differ. *)
Theorem C77_history_self_addressing : forall (P : Profile) (C : Crypto) (F : Floats) (a b : sadder) (l1 l2 : list sadder), hash_contract C -> float_shape F ->
  event_log self_addressed (a :: l1) -> event_log self_addressed (b :: l2) -> sadder_said a = sadder_said b ->
  (exists ks v1 v2 r, map sd_ked (a :: l1) = ks ++ [VObj ((s2b "v", VStr v1) :: r)] /\ map sd_ked (b :: l2) = ks ++ [VObj ((s2b "v", VStr v2) :: r)]) \/
  collision (a :: l1) (b :: l2).
Proof. exact C77_history_self_addressing_pf. Qed.
Print Assumptions C77_history_self_addressing.

(** C77: the prefix of such logs determines their first event, in the same sense. *)
Theorem C77_prefix : forall (P : Profile) (C : Crypto) (F : Floats) (l1 l2 : list sadder) (a b e1 e2 : sadder), hash_contract C -> float_shape F ->
  event_log self_addressed (l1 ++ [a]) -> event_log self_addressed (l2 ++ [b]) -> In e1 (l1 ++ [a]) -> In e2 (l2 ++ [b]) -> serder_pre e1 = serder_pre e2 ->
  (exists v1 v2 r, sd_ked a = VObj ((s2b "v", VStr v1) :: r) /\ sd_ked b = VObj ((s2b "v", VStr v2) :: r)) \/ collide a b.
Proof. exact C77_prefix_pf. Qed.
Print Assumptions C77_prefix.

(** C77: in a log the events are numbered from 0, oldest first, and have one prefix. *)
Theorem C77_numbered : forall (P : Profile) (C : Crypto) (F : Floats) (first : sadder -> Prop) (l : list sadder), event_log first l ->
  (forall k e, nth_error (rev l) k = Some e -> serder_sn e = Ok (N.of_nat k)) /\ forall e e', In e l -> In e' l -> serder_pre e = serder_pre e'.
Proof. exact C77_numbered_pf. Qed.
Print Assumptions C77_numbered.

(** C77: a log, written out oldest event first and followed by any text, is read back. *)
Theorem C77_transport : forall (P : Profile) (C : Crypto) (F : Floats) (first : sadder -> Prop) (l : list sadder) (tail : bytes), event_log first l -> utf8_valid tail = true ->
  read_events (concat (map sd_raw (rev l)) ++ tail) (rev l) tail.
Proof. exact C77_transport_pf. Qed.
Print Assumptions C77_transport.

(** C77: the next keys announced in an event are determined: two lists of keys that
    verify against the same digests are the same, unless two of them collide. *)
Theorem C77_rotation : forall (P : Profile) (C : Crypto) (F : Floats) (a b1 b2 : sadder) (ds k1 k2 : list matter), float_shape F -> from_bytes a -> from_bytes b1 -> from_bytes b2 ->
  serder_digers a = Ok ds -> serder_verfers b1 = Ok k1 -> serder_verfers b2 = Ok k2 -> announced ds k1 -> announced ds k2 ->
  k1 = k2 \/ exists i d x y t1 t2, nth_error ds i = Some d /\ nth_error k1 i = Some x /\ nth_error k2 i = Some y /\ matter_qb64b x = Ok t1 /\ matter_qb64b y = Ok t2 /\
    t1 <> t2 /\ x_hash (m_code d) t1 = x_hash (m_code d) t2.
Proof. exact C77_rotation_pf. Qed.
Print Assumptions C77_rotation.

(** C77: keys do verify against the digests made of their texts. *)
Theorem C77_announce : forall (P : Profile) (C : Crypto) (F : Floats) (codes : list bytes) (texts : list bytes) (keys digests : list matter), hash_contract C -> (forall c, In c codes -> In c (map fst digest_sizes)) ->
  Forall2 (fun k t => matter_qb64b k = Ok t) keys texts -> Forall2 (fun ct d => diger_of (snd ct) (Some (fst ct)) = Ok d) (combine codes texts) digests -> len codes = len texts ->
  announced digests keys.
Proof. exact C77_announce_pf. Qed.
Print Assumptions C77_announce.

(** C77: a log is extended by saidifying an object with the right "p", "s" and "i". *)
Theorem C77_extend : forall (P : Profile) (C : Crypto) (F : Floats) (first : sadder -> Prop) (a : sadder) (l : list sadder) (code : option bytes) (pre post : list (bytes * data)) (old n : N) (q i t : bytes) (x : matter) (sad : data),
  hash_contract C -> event_log first (a :: l) -> sadder_said a = Ok q -> serder_sn a = Ok n -> serder_pre a = Ok i ->
  ~ In (s2b "d") (map fst pre) -> len (to_json (VObj pre)) <= 7 ->
  let o := pre ++ (s2b "v", VStr (version_text (s2b "KERI") 1 0 (s2b "JSON") old)) :: post in
  In (s2b "p", VStr q) o -> In (s2b "s", VStr t) o -> sequence_text t (n + 1) -> In (s2b "i", VStr i) o ->
  survives F (VObj o) -> len (to_json sad) < 2 ^ 32 -> old < 2 ^ 24 ->
  saidify (VObj o) code None None None = Ok (x, sad) ->
  exists b, serder_new code None None (Some sad) None = Ok b /\ event_log first (b :: a :: l).
Proof. exact C77_extend_pf. Qed.
Print Assumptions C77_extend.

(** a log of two events; another log differs in the newest event; the identifiers tell them apart *)
Example C77_history_ex : forall P : Profile, hash_contract sum_crypto /\ float_shape no_floats /\
  let a := said_event (toy_icp (s2b "x")) in let b := said_event (toy_rot a (s2b "1") 7) in let b' := said_event (toy_rot a (s2b "1") 8) in
  event_log (C := sum_crypto) (F := no_floats) (verified (C := sum_crypto)) [b; a] /\ event_log (C := sum_crypto) (F := no_floats) (verified (C := sum_crypto)) [b'; a] /\
  serder_pre b = serder_pre b' /\ sadder_said b <> sadder_said b' /\ sd_ked b <> sd_ked b'.
Proof. exact C77_history_ex_pf. Qed.

Example C77_history_self_addressing_ex : forall P : Profile, let a := prefix_event (toy_icp []) in let b := said_event (toy_rot a (s2b "1") 7) in
  event_log (C := sum_crypto) (F := no_floats) (self_addressed (C := sum_crypto)) [b; a] /\ serder_pre b = sadder_said a /\ sd_size a = 152.
Proof. exact C77_history_self_addressing_ex_pf. Qed.

(** C77 refuted: an identifier alone does not determine the event, with any digest function: a first event
    whose prefix is its identifier, and the same event with a placeholder as its prefix, verified
    the other way, are digests of the same text *)
Theorem C77_identifier_refuted : forall P : Profile, let a := prefix_event (toy_icp []) in let b := said_event (toy_icp (rep 35 44)) in
  from_bytes (C := sum_crypto) (F := no_floats) a /\ from_bytes (C := sum_crypto) (F := no_floats) b /\ self_addressed (C := sum_crypto) a /\ verified (C := sum_crypto) b /\ sadder_said a = sadder_said b /\ serder_pre a <> serder_pre b /\
  exists t, digested a t /\ digested b t.
Proof. exact C77_identifier_refuted_pf. Qed.
Print Assumptions C77_identifier_refuted.

(** keys and the digests that announce them *)
Example C77_rotation_ex : forall P : Profile, let k1 := Mat (s2b "D") 0 (rep 1 32) in let k2 := Mat (s2b "D") 0 (rep 2 32) in
  exists t1 t2 d1 d2, matter_qb64b k1 = Ok t1 /\ matter_qb64b k2 = Ok t2 /\ diger_of (H := sum_crypto) t1 (Some (s2b "E")) = Ok d1 /\ diger_of (H := sum_crypto) t2 (Some (s2b "G")) = Ok d2 /\
  announced (C := sum_crypto) [d1; d2] [k1; k2] /\ ~ announced (C := sum_crypto) [d1; d2] [k2; k1].
Proof. exact C77_rotation_ex_pf. Qed.

(** C77: the bytes of a verified event are its content in compact JSON (but for the case of
    letters), if the content has no floats and its version string is the one that was read. *)
Theorem C77_bytes : forall (P : Profile) (C : Crypto) (F : Floats) (s : sadder), hash_contract C -> float_shape F -> from_bytes s -> verified s ->
  good (fun _ => False) (sd_ked s) -> vget (sd_ked s) (s2b "v") = Ok (VStr (version_text (s2b "KERI") 1 0 (s2b "JSON") (sd_size s))) ->
  len (sd_raw s) = len (to_json (sd_ked s)) /\ map lower (sd_raw s) = map lower (to_json (sd_ked s)).
Proof. exact C77_bytes_pf. Qed.
Print Assumptions C77_bytes.

Example C77_bytes_ex : forall P : Profile, let a := said_event (toy_icp (s2b "x")) in from_bytes (C := sum_crypto) (F := no_floats) a /\ verified (C := sum_crypto) a /\ good (fun _ => False) (sd_ked a) /\
  vget (sd_ked a) (s2b "v") = Ok (VStr (version_text (s2b "KERI") 1 0 (s2b "JSON") (sd_size a))).
Proof. exact C77_bytes_ex_pf. Qed.

(** C77 refuted: in general the bytes are not determined by the verified content: "v" can be given twice, the first
    is the one that is read as the version string, the second is the one that is verified *)
Theorem C77_bytes_refuted : forall P : Profile, let a := said_event (toy_icp (s2b "x")) in
  let raw := s2b "{""v"":""" ++ version_text (s2b "KERI") 1 0 (s2b "JSON") (len (sd_raw a) + 24) ++ s2b """," ++ drop 1 (sd_raw a) in
  exists s, serder_new (H0 := sum_crypto) (H1 := no_floats) None (Some raw) None None None = Ok s /\ sd_raw s = raw /\ verified (C := sum_crypto) s /\ sd_ked s = sd_ked a /\ sd_saider s = sd_saider a /\ sd_raw s <> sd_raw a /\
    good (fun _ => False) (sd_ked s).
Proof. exact C77_bytes_refuted_pf. Qed.
Print Assumptions C77_bytes_refuted.

Example C77_extend_ex : forall P : Profile, let a := said_event (toy_icp (s2b "x")) in let o := toy_rot a (s2b "1") 7 in
  o = [] ++ (s2b "v", VStr (version_text (s2b "KERI") 1 0 (s2b "JSON") 0)) :: tl o /\ survives no_floats (VObj o) /\ sequence_text (s2b "1") (0 + 1) /\
  exists x sad, saidify (H0 := sum_crypto) (VObj o) None None None None = Ok (x, sad) /\ len (to_json sad) < 2 ^ 32.
Proof. exact C77_extend_ex_pf. Qed.
