(** Property theorems (generated by tools/mkprop.py from InceptThms.v, which holds the proofs). *)
From Verif Require Import Base Utf8 MatterTables Matter StdStr Data Json Spec MatterDefs Crypto Prims PrimsDefs DataDefs Common CommonDefs Saider SaiderDefs Sadder SadderDefs Prefixer PrefixerDefs InceptDefs InceptThms.

(** C73: the prefix of an inception event with a digest code, stored in its "i" and its "d", makes a Serder with exactly that event, whose prefix and identifier both are that
    text; its bytes, alone or before any text, load as the same Serder; and the loaded event's prefix is derived from it again and verifies it.
    But the identifier does not verify as a self-addressing identifier (only "d" is blanked then), unless the digests of two different texts are the same. *)
Theorem C73_self_addressing : forall (P : Profile) (C : Crypto) (F : Floats) (pre post : list (bytes * data)) (old : N) (allows : option (list bytes)) (c q tail : bytes) (m : matter),
  hash_contract C -> len (to_json (VObj pre)) <= 7 -> (forall k, In k [s2b "d"; s2b "i"] -> ~ In k (map fst pre) /\ In k (map fst post)) ->
  let o := pre ++ (s2b "v", VStr (version_text (s2b "KERI") 1 0 (s2b "JSON") old)) :: post in
  survives F (VObj o) -> old < 2 ^ 24 -> utf8_valid tail = true -> In c (map fst digest_sizes) ->
  prefixer_of_ked (VObj o) allows (Some c) = Ok m -> matter_qb64 m = Ok q ->
  let ked := put (s2b "d") (VStr q) (put (s2b "i") (VStr q) o) in len (to_json (VObj ked)) < 2 ^ 32 ->
  exists s k, serder_new (Some c) None None (Some (VObj ked)) None = Ok s /\ sd_ked s = VObj k /\ (forall e, e <> s2b "v" -> vget (VObj k) e = vget (VObj ked) e) /\
    serder_pre s = Ok q /\ sadder_said s = Ok q /\
    serder_new (Some c) (Some (sd_raw s ++ tail)) None None None = Ok s /\
    prefixer_of_ked (sd_ked s) allows None = Ok m /\ prefixer_verify m (sd_ked s) (Some true) = Ok true /\
    let blanked := to_json (VObj (blank c k)) in let saided := to_json (VObj (put (s2b "d") (placeholder c) k)) in
    m_raw m = x_hash c blanked /\ blanked <> saided /\
    (x_hash c blanked <> x_hash c saided -> forall prefixed versioned, said_verify (sd_saider s) (sd_ked s) prefixed versioned None None None = Ok false).
Proof. exact C73_self_addressing_pf. Qed.
Print Assumptions C73_self_addressing.

(** a run: the event, its prefix and identifier; the loaded event's prefix verifies it, its identifier does not *)
Example C73_self_addressing_ex : forall P : Profile, let o := [(s2b "v", VStr (version_text (s2b "KERI") 1 0 (s2b "JSON") 0)); (s2b "t", VStr (s2b "icp")); (s2b "d", VStr []); (s2b "i", VStr []); (s2b "k", VArr [])] in
  survives toy_floats (VObj o) /\ hash_contract sum_crypto /\ exists m q s, prefixer_of_ked (C := sum_crypto) (VObj o) None (Some (s2b "E")) = Ok m /\ matter_qb64 m = Ok q /\
  let ked := put (s2b "d") (VStr q) (put (s2b "i") (VStr q) o) in serder_new (H0 := sum_crypto) (H1 := toy_floats) None None None (Some (VObj ked)) None = Ok s /\ sd_size s = 144 /\
  prefixer_verify (C := sum_crypto) m (sd_ked s) (Some true) = Ok true /\ said_verify (H0 := sum_crypto) (sd_saider s) (sd_ked s) None None None None None = Ok false.
Proof. exact C73_self_addressing_ex_pf. Qed.
