(** Property theorems (generated by tools/mkprop.py from FlowThms.v, which holds the proofs). *)
From Verif Require Import Base Utf8 MatterTables Matter StdStr Data Json Spec MatterDefs Crypto Prims PrimsDefs DataDefs Common CommonDefs Saider SaiderDefs Sadder SadderDefs FlowThms.

(** C61: an object in which "v" comes first (or within the first 7 characters) and
    that has a "d" is saidified; the result makes a Serder with exactly that object and
    identifier; its raw bytes, alone or before any text, load as the same Serder;
    and the loaded identifier verifies the loaded object. *)
Theorem C61_end_to_end : forall (P : Profile) (C : Crypto) (F : Floats) (code : option bytes) (pre post : list (bytes * data)) (ident : bytes) (old : N) (x : matter) (sad : data) (tail : bytes),
  hash_contract C -> ~ In (s2b "d") (map fst pre) -> len (to_json (VObj pre)) <= 7 ->
  let o := pre ++ (s2b "v", VStr (version_text ident 1 0 (s2b "JSON") old)) :: post in
  survives F (VObj o) -> len (to_json sad) < 2 ^ 32 -> old < 2 ^ 24 -> utf8_valid tail = true ->
  saidify (VObj o) code None None None = Ok (x, sad) ->
  forall new, ident = s2b "KERI" /\ new = serder_new \/ ident = s2b "ACDC" /\ new = creder_new ->
  exists s, new code None None (Some sad) None = Ok s /\ sd_ked s = sad /\ sd_saider s = x /\ sd_raw s = to_json sad /\
    new code (Some (sd_raw s ++ tail)) None None None = Ok s /\
    forall prefixed versioned, said_verify (sd_saider s) (sd_ked s) prefixed versioned None None None = Ok true.
Proof. exact C61_end_to_end_pf. Qed.
Print Assumptions C61_end_to_end.

(** a concrete run *)
Example C61_end_to_end_ex : forall P : Profile, let o := [(s2b "v", VStr (version_text (s2b "KERI") 1 0 (s2b "JSON") 0)); (s2b "t", VStr (s2b "icp")); (s2b "d", VStr [])] in
  survives toy_floats (VObj o) /\ hash_contract toy_crypto /\ exists x sad s, saidify (H0 := toy_crypto) (VObj o) None None None None = Ok (x, sad) /\ len (to_json sad) = 86 /\
  serder_new (H0 := toy_crypto) (H1 := toy_floats) None None None (Some sad) None = Ok s /\ sd_size s = 86 /\ m_raw (sd_saider s) = rep 86 32.
Proof. exact C61_end_to_end_ex_pf. Qed.
