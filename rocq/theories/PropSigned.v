(** Property theorems (generated by tools/mkprop.py from SignedThms.v, which holds the proofs). *)
From Verif Require Import Base Utf8 Matter Counter Indexer StdStr Data Json Spec MatterDefs CounterDefs IndexerDefs Crypto Prims PrimsDefs Signer SignerDefs DataDefs Common CommonDefs SaiderDefs Tholder TholderDefs Sadder SadderDefs AccessDefs StreamDefs SignedDefs SignedThms.

(** C65: an event is signed by the signers at any positions [who] whose keys it lists;
    its text, a count code and the signatures, followed by any text, are received as
    that event and those signatures, each of which verifies under the key its index
    names; so the event is accepted exactly if the positions satisfy its signing threshold. *)
Theorem C65_signed_event : forall (P : Profile) (C : Crypto) (F : Floats) (raw : bytes) (s : sadder) (o : list (bytes * data)) (signers : list signer) (keys : list bytes) (who : list N) (entropy : N -> N) (only : bool) (tail : bytes),
  scheme_contract C -> serder_new None (Some raw) None None None = Ok s -> holds s o -> In (s2b "k", VArr (map VStr keys)) o ->
  Forall2 (fun sg k => (exists u tr, is_signer sg u tr) /\ matter_qb64 (sn_verfer sg) = Ok k) signers keys ->
  (forall i, In i who -> i < len signers /\ i < 4096) -> len who < 4096 -> utf8_valid tail = true ->
  exists sigs count texts, Forall2 (signs signers entropy (sd_raw s) only) who sigs /\ counter_qb64 (Ctr (s2b "-A") (len who)) = Ok count /\
    Forall2 (fun g t => indexer_qb64 (sg_indexer g) = Ok t) sigs texts /\
    let items := map (fun g => I_sig (sg_indexer g)) sigs in
    receive (sd_raw s ++ count ++ concat texts ++ tail) = Ok (s, items, tail) /\
    serder_verfers s = Ok (map sn_verfer signers) /\ (forall i, In i items -> check_one s (map sn_verfer signers) i = Ok true) /\
    forall t, serder_tholder s = Ok (Some t) -> accept s items = satisfy t who.
Proof. exact C65_signed_event_pf. Qed.
Print Assumptions C65_signed_event.

(** C65: what acceptance shows: every signature verifies the event under a key the event
    lists; if no position is repeated, at least as many different keys as the threshold
    number have signed; and for a weighted threshold the different keys that have signed
    reach it in every clause, whether or not positions are repeated. *)
Theorem C65_accepted : forall (P : Profile) (C : Crypto) (F : Floats) (s : sadder) (o : list (bytes * data)) (sigs : list item), holds s o -> accept s sigs = Ok true ->
  exists keys t, serder_verfers s = Ok keys /\ serder_tholder s = Ok (Some t) /\
    (forall i, In i sigs -> exists x, i = I_sig x /\ vouches s keys x) /\
    (forall n, tholder_num t = Ok (Some n) -> NoDup (map index_of sigs) -> 0 < n /\ exists ps, NoDup ps /\ n <= len ps /\ forall p, In p ps -> vouched s keys sigs p) /\
    (forall cs, weights t cs -> len (concat cs) < 2 ^ 32 -> exists ps, NoDup ps /\ (forall p, In p ps -> vouched s keys sigs p) /\ satisfied cs ps).
Proof. exact C65_accepted_pf. Qed.
Print Assumptions C65_accepted.

(** Two keys; a threshold of two is met by both signatures. *)
Example C65_signed_event_ex : forall P : Profile, let C := toy_scheme in let F := toy_floats in
  exists k7 k9 s o, matter_qb64 (sn_verfer (toy_signer 7)) = Ok k7 /\ matter_qb64 (sn_verfer (toy_signer 9)) = Ok k9 /\ scheme_contract C /\
    serder_new None (Some (toy_event (s2b "2") k7 k9)) None None None = Ok s /\ holds s o /\ In (s2b "k", VArr (map VStr [k7; k9])) o /\
    Forall2 (fun sg k => (exists u tr, is_signer sg u tr) /\ matter_qb64 (sn_verfer sg) = Ok k) [toy_signer 7; toy_signer 9] [k7; k9] /\
    match sign_indexed (toy_signer 7) 0 (sd_raw s) false 0 None, sign_indexed (toy_signer 9) 0 (sd_raw s) false 1 None with
    | Ok a, Ok b => accept s [I_sig (sg_indexer a); I_sig (sg_indexer b)] = Ok true /\ accept s [I_sig (sg_indexer a)] = Ok false /\
        match indexer_qb64 (sg_indexer a), indexer_qb64 (sg_indexer b) with
        | Ok ta, Ok tb => receive (sd_raw s ++ s2b "-AAC" ++ ta ++ tb ++ s2b "{") = Ok (s, [I_sig (sg_indexer a); I_sig (sg_indexer b)], s2b "{")
        | _, _ => False
        end
    | _, _ => False
    end.
Proof. exact C65_signed_event_ex_pf. Qed.

(** C65: without distinct positions that is all there is: the same signature given twice meets a threshold of two keys *)
Theorem C65_replay_refuted : forall P : Profile, let C := toy_scheme in let F := toy_floats in
  exists k7 k9 s t a, matter_qb64 (sn_verfer (toy_signer 7)) = Ok k7 /\ matter_qb64 (sn_verfer (toy_signer 9)) = Ok k9 /\
    serder_new None (Some (toy_event (s2b "2") k7 k9)) None None None = Ok s /\ serder_tholder s = Ok (Some t) /\ tholder_num t = Ok (Some 2) /\
    sign_indexed (toy_signer 7) 0 (sd_raw s) false 0 None = Ok a /\ accept s [I_sig (sg_indexer a); I_sig (sg_indexer a)] = Ok true.
Proof. exact C65_replay_refuted_pf. Qed.
Print Assumptions C65_replay_refuted.
