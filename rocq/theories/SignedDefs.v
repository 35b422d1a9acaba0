(** Definitions used only to state the properties of signed events: what a sender
    writes and what a receiver does, in terms of the library's calls. *)
From Verif Require Import Base Utf8 Matter Counter Indexer Data Json Spec CounterDefs IndexerDefs Crypto Prims Signer SignerDefs Common Tholder Sadder StreamDefs.

Section D.
Context `{P : Profile} `{C : Crypto} `{F : Floats}.
(** each of the [who]-th signers signs [msg], indexed by its position *)
Definition signs (signers : list signer) (entropy : N -> N) (msg : bytes) (only : bool) (i : N) (g : siger) : Prop :=
  exists s, nth_error signers (N.to_nat i) = Some s /\ sign_indexed s (entropy i) msg only i None = Ok g.
(** read an event, then a count code, then the signatures it counts *)
Definition receive (wire : bytes) : outcome (sadder * list item * bytes) :=
  s <- serder_new None (Some wire) None None None ;;
  g <- read_group [K_sig] (drop (sd_size s) wire) ;;
  Ok (s, snd (fst g), snd g).
(** one signature verifies the event under the key its index names *)
Definition check_one (s : sadder) (keys : list matter) (i : item) : outcome bool :=
  match i with
  | I_sig x => match nth_error keys (N.to_nat (x_index x)) with
               | Some k => verfer_verify k (x_raw x) (sd_raw s)
               | None => Ok false
               end
  | _ => Ok false
  end.
(** all do, and the indices satisfy the signing threshold *)
Definition index_of (i : item) : N := match i with I_sig x => x_index x | _ => 0 end.
Definition accept (s : sadder) (sigs : list item) : outcome bool :=
  keys <- serder_verfers s ;;
  oks <- each (check_one s keys) sigs ;;
  t <- serder_tholder s ;;
  match t with
  | Some t => b <- satisfy t (map index_of sigs) ;; Ok (forallb (fun x => x) oks && b)
  | None => Ok false
  end.
End D.
Section V.
Context `{C : Crypto}.
(** the signature [x] verifies the event under the key at the position that [x] names *)
Definition vouches (s : sadder) (keys : list matter) (x : indexer) : Prop :=
  exists k u, nth_error keys (N.to_nat (x_index x)) = Some k /\ In u suites /\ (m_code k = su_key u \/ m_code k = su_key_nt u) /\
    x_verify (su_alg u) (m_raw k) (x_raw x) (sd_raw s) = Some true.
(** one of the signatures given is by the key at position [p] *)
Definition vouched (s : sadder) (keys : list matter) (sigs : list item) (p : N) : Prop :=
  exists x, In (I_sig x) sigs /\ x_index x = p /\ vouches s keys x.
End V.
(** an event for examples: two keys, threshold [kt] *)
Definition toy_event (kt k1 k2 : bytes) : bytes :=
  s2b "{""v"":""KERI10JSON0000c3_"",""t"":""icp"",""d"":""E" ++ rep 65 43 ++ s2b """,""kt"":""" ++ kt ++ s2b """,""k"":[""" ++ k1 ++ s2b """,""" ++ k2 ++ s2b """]}".
Definition toy_signer (n : N) : signer := Sgn (Mat (s2b "A") 0 (rep n 32)) (Mat (s2b "D") 0 (rep n 32)).
