(** The unit tests of /repo/src/core/creder.rs, /repo/src/core/sadder.rs, /repo/src/core/saider.rs, /repo/src/core/serder.rs on the model: written by tools/mkconform.py.
    Every definition is one case of a test function; it is [Ok tt] if all assertions hold. *)
From Verif Require Import Base Utf8 B64 Util StdStr MatterTables Matter CounterTables Counter IndexerTables Indexer Crypto Prims Signer Data Json Common Saider Tholder Sadder Pather Prefixer Pretty Defaults DataDefs Hash Float ConformDefs.
#[local] Existing Instance test_crypto.
#[local] Existing Instance real_floats.
Section T.
Context {P : Profile}.
(** core/creder.rs, sanity *)
Definition t_creder_sanity_0 : outcome unit :=
  let x1 := (VObj (fold_left (fun o e => map_insert (fst e) (snd e) o) [((s2b "v"), (VStr (s2b "KERI10JSON0001e7_"))); ((s2b "t"), (VStr (s2b "icp"))); ((s2b "d"), (VStr (s2b "EA_1ZGv4tEhJW2AYH0wLh2lLlllmH3dwpH3RGs2GtgXr"))); ((s2b "i"), (VStr (s2b "EA_1ZGv4tEhJW2AYH0wLh2lLlllmH3dwpH3RGs2GtgXr"))); ((s2b "s"), (VStr (s2b "0"))); ((s2b "kt"), (VStr (s2b "2"))); ((s2b "k"), (VArr [(VStr (s2b "DID6gcblxh8yiILkx_tratCNdDiYHWInyrZOF0dHgn-s")); (VStr (s2b "DJgKrw-dQFtDUZ6ahEzc-HJqe5NOXF_F4xMXy41bvApe")); (VStr (s2b "DMEijEab-eqt7AEhLyrMcHH8I36HPYOn1rjnvwycPURK"))])); ((s2b "nt"), (VStr (s2b "2"))); ((s2b "n"), (VArr [(VStr (s2b "EP7pWgkdErxn23QcvAH5ovQQrjZgtgc2qv-X79JKctUV")); (VStr (s2b "ENJus7HZN9Dsm7jHkn8vTC5Wk2VRhjtGQ9NaOa57OydR")); (VStr (s2b "EMLWypoar99qGWhnlaX_07W8bbqchTILXH96SGbSV42I"))])); ((s2b "bt"), (VStr (s2b "0"))); ((s2b "b"), (VArr [])); ((s2b "c"), (VArr [])); ((s2b "a"), (VArr []))] [])) in
  let x2 := (VObj (fold_left (fun o e => map_insert (fst e) (snd e) o) [((s2b "v"), (VStr (s2b "ACDC10JSON00022b_"))); ((s2b "d"), (VStr (s2b "ENIcZJXSgLgz5whOszoME4DPe7B93Qltk6n6C6E9YxF2"))); ((s2b "i"), (VStr (s2b "ENayINhHQnx6525EpcTmkvo6ZixiJyiskwkVNbMPohYa"))); ((s2b "ri"), (VStr (s2b "EINZnO3Z30Q7y2oV1sDCQphieRH244-XJFRAbzuFbU7n"))); ((s2b "s"), (VStr (s2b "EE5uDJTq5cc6AEdqbyMpvARUjsK_chNdInf3xyRoCBcT"))); ((s2b "a"), (VObj (fold_left (fun o e => map_insert (fst e) (snd e) o) [((s2b "d"), (VStr (s2b "EOsCUbK6Ve7qb-h15ljNyvVhLz2rq6iaCcA86AAoeZyX"))); ((s2b "dt"), (VStr (s2b "2023-04-30T00:34:11.853572+00:00")))] []))); ((s2b "e"), (VObj (fold_left (fun o e => map_insert (fst e) (snd e) o) [((s2b "d"), (VStr (s2b "ECuynR9pRY6A6dWRlc2DTSF7AWY2a-w-6qhx7vd-pWT-"))); ((s2b "acceptedBlock"), (VObj (fold_left (fun o e => map_insert (fst e) (snd e) o) [((s2b "d"), (VStr (s2b "EOvQJIx58cCC-xB5LIWeApUH80Jxo8WxGNsLb-1HKLcy"))); ((s2b "n"), (VStr (s2b "EE_Wrv2OHqIOptEni3mE3Ckc4C6jO1RvgtxdpDZBiuB0"))); ((s2b "s"), (VStr (s2b "EDiWb-53cI8FBPOpF69LrLCSElNjG-BAChHp2-OsLmbC")))] [])))] [])))] [])) in
  x3 <~ unw (Ok (to_json x1)) ;;
  let x4 := x3 in
  let x5 := x4 in
  x6 <~ unw (Ok (to_json x2)) ;;
  let x7 := x6 in
  let x8 := x7 in
  _ <~ need (errs (creder_new None (Some x5) None None None)) ;;
  let x9 := creder_new (None) ((Some x8)) (None) (None) (None) in
  _ <~ need (ok (x9)) ;;
  x10 <~ unw (x9) ;;
  let x11 := x10 in
  _ <~ need (ok (creder_new (None) None (None) (Some (sd_ked x11)) None)) ;;
  x12 <~ unw (creder_chains x11) ;;
  x13 <~ unw (Ok (to_json x12)) ;;
  x14 <~ unw (Ok (to_json (VObj (fold_left (fun o e => map_insert (fst e) (snd e) o) [((s2b "d"), (VStr (s2b "ECuynR9pRY6A6dWRlc2DTSF7AWY2a-w-6qhx7vd-pWT-"))); ((s2b "acceptedBlock"), (VObj (fold_left (fun o e => map_insert (fst e) (snd e) o) [((s2b "d"), (VStr (s2b "EOvQJIx58cCC-xB5LIWeApUH80Jxo8WxGNsLb-1HKLcy"))); ((s2b "n"), (VStr (s2b "EE_Wrv2OHqIOptEni3mE3Ckc4C6jO1RvgtxdpDZBiuB0"))); ((s2b "s"), (VStr (s2b "EDiWb-53cI8FBPOpF69LrLCSElNjG-BAChHp2-OsLmbC")))] [])))] [])))) ;;
  _ <~ need (same x13 x14) ;;
  x15 <~ unw (creder_issuer x11) ;;
  _ <~ need (same x15 (s2b "ENayINhHQnx6525EpcTmkvo6ZixiJyiskwkVNbMPohYa")) ;;
  x16 <~ unw (creder_subject x11) ;;
  x17 <~ unw (Ok (to_json x16)) ;;
  x18 <~ unw (Ok (to_json (VObj (fold_left (fun o e => map_insert (fst e) (snd e) o) [((s2b "d"), (VStr (s2b "EOsCUbK6Ve7qb-h15ljNyvVhLz2rq6iaCcA86AAoeZyX"))); ((s2b "dt"), (VStr (s2b "2023-04-30T00:34:11.853572+00:00")))] [])))) ;;
  _ <~ need (same x17 x18) ;;
  x19 <~ unw (creder_schema x11) ;;
  _ <~ need (same x19 (s2b "EE5uDJTq5cc6AEdqbyMpvARUjsK_chNdInf3xyRoCBcT")) ;;
  x20 <~ unw (creder_status x11) ;;
  x21 <~ unw (x20) ;;
  _ <~ need (same x21 (s2b "EINZnO3Z30Q7y2oV1sDCQphieRH244-XJFRAbzuFbU7n")) ;;
  let x22 := (VObj (fold_left (fun o e => map_insert (fst e) (snd e) o) [((s2b "v"), (VStr (s2b "ACDC10JSON000000_"))); ((s2b "d"), (VStr (s2b ""))); ((s2b "i"), (VStr (s2b "ENayINhHQnx6525EpcTmkvo6ZixiJyiskwkVNbMPohYa"))); ((s2b "s"), (VStr (s2b "EE5uDJTq5cc6AEdqbyMpvARUjsK_chNdInf3xyRoCBcT"))); ((s2b "a"), (VObj (fold_left (fun o e => map_insert (fst e) (snd e) o) [((s2b "d"), (VStr (s2b "EOsCUbK6Ve7qb-h15ljNyvVhLz2rq6iaCcA86AAoeZyX"))); ((s2b "dt"), (VStr (s2b "2023-04-30T00:34:11.853572+00:00")))] [])))] [])) in
  x23 <~ unw (Ok (to_json x22)) ;;
  let x24 := x23 in
  let x25 := x24 in
  x26 <~ unw (versify ((Some (s2b "ACDC"))) (None) (None) ((Some (N.of_nat (length x25))))) ;;
  let x27 := x26 in
  x28 <~ unw (vset x22 (s2b "v") (VStr x27)) ;;
  x29 <~ unw (saidify (x28) (None) (None) (None) (None)) ;;
  let '(x30, x31) := x29 in
  x32 <~ unw (Ok (to_json x31)) ;;
  let x33 := x32 in
  let x34 := x33 in
  x35 <~ unw (creder_new None (Some x34) None None None) ;;
  let x36 := x35 in
  x37 <~ unw (creder_status x36) ;;
  _ <~ need (same x37 None) ;;
  x38 <~ unw (creder_chains x36) ;;
  _ <~ need (same x38 (VObj [])) ;;
  _ <~ need (same (sd_raw x36) x34) ;;
  _ <~ need (same (sd_kind x36) (s2b "JSON")) ;;
  _ <~ need (same (sd_size x36) (N.of_nat (length x34))) ;;
  _ <~ need (same (sd_version x36) current_version) ;;
  Ok tt.
(** core/sadder.rs, new *)
Definition t_sadder_new_0 : outcome unit :=
  let x1 := (VObj (fold_left (fun o e => map_insert (fst e) (snd e) o) [((s2b "v"), (VStr (s2b "KERI10JSON000000_"))); ((s2b "d"), (VStr (s2b "")))] [])) in
  x2 <~ unw (saidify (x1) (None) (None) (None) (None)) ;;
  let '(x3, x4) := x2 in
  x5 <~ unw (matter_qb64 x3) ;;
  let x6 := x5 in
  x7 <~ unw (matter_qb64b x3) ;;
  let x8 := x7 in
  x9 <~ unw (sadder_new (s2b "KERI") (None) (None) (None) ((Some x4)) (None)) ;;
  let x10 := x9 in
  x11 <~ unw (sadder_said x10) ;;
  _ <~ need (same x11 x6) ;;
  x12 <~ unw (sadder_saidb x10) ;;
  _ <~ need (same x12 x8) ;;
  _ <~ need (same (sd_ked x10) x4) ;;
  x13 <~ unw (vget (sd_ked x10) (s2b "d")) ;;
  x14 <~ unw (to_string x13) ;;
  _ <~ need (same x14 x6) ;;
  x15 <~ unw (sadder_new (s2b "KERI") (None) ((Some (sd_raw x10))) (None) (None) (None)) ;;
  let x16 := x15 in
  x17 <~ unw (sadder_said x16) ;;
  _ <~ need (same x17 x6) ;;
  x18 <~ unw (sadder_saidb x16) ;;
  _ <~ need (same x18 x8) ;;
  _ <~ need (same (sd_ked x16) x4) ;;
  x19 <~ unw (vget (sd_ked x16) (s2b "d")) ;;
  x20 <~ unw (to_string x19) ;;
  _ <~ need (same x20 x6) ;;
  x21 <~ unw (sadder_new (s2b "KERI") (None) (None) (None) (None) ((Some x16))) ;;
  let x22 := x21 in
  x23 <~ unw (sadder_said x22) ;;
  _ <~ need (same x23 x6) ;;
  x24 <~ unw (sadder_saidb x22) ;;
  _ <~ need (same x24 x8) ;;
  _ <~ need (same (sd_ked x22) x4) ;;
  x25 <~ unw (vget (sd_ked x22) (s2b "d")) ;;
  x26 <~ unw (to_string x25) ;;
  _ <~ need (same x26 x6) ;;
  Ok tt.
(** core/sadder.rs, new_unhappy_paths *)
Definition t_sadder_new_unhappy_paths_0 : outcome unit :=
  let x1 := (VObj (fold_left (fun o e => map_insert (fst e) (snd e) o) [((s2b "v"), (VStr (s2b "KERI10JSON000000_"))); ((s2b "d"), (VStr (s2b "")))] [])) in
  x2 <~ unw (saidify (x1) (None) (None) (None) (None)) ;;
  let '(x3, x4) := x2 in
  let x5 := x4 in
  x6 <~ unw (vset x5 (s2b "v") (VStr (s2b "KERI11JSON000000_"))) ;;
  x7 <~ unw (Ok (to_json x4)) ;;
  let x8 := x7 in
  x9 <~ unw (Ok (to_json x6)) ;;
  let x10 := x9 in
  _ <~ need (errs (sadder_new (s2b "KERI") (None) ((Some x10)) (None) (None) (None))) ;;
  _ <~ need (errs (sadder_new (s2b "KERI") (None) (None) (None) (None) (None))) ;;
  _ <~ need (same (m_code x3) (s2b "E")) ;;
  _ <~ need (errs (sadder_new (s2b "KERI") ((Some (s2b "F"))) ((Some x8)) (None) (None) (None))) ;;
  _ <~ need (errs (sadder_new (s2b "KERI") ((Some (s2b "F"))) (None) (None) ((Some x4)) (None))) ;;
  Ok tt.
(** core/sadder.rs, populate_from_kind_and_self *)
Definition t_sadder_populate_from_kind_and_self_0 : outcome unit :=
  let x1 := (VObj (fold_left (fun o e => map_insert (fst e) (snd e) o) [((s2b "v"), (VStr (s2b "KERI10JSON000000_"))); ((s2b "d"), (VStr (s2b "")))] [])) in
  x2 <~ unw (saidify (x1) (None) (None) (None) (None)) ;;
  let '(x3, x4) := x2 in
  x5 <~ unw (sadder_new (s2b "KERI") (None) (None) (None) ((Some x4)) (None)) ;;
  let x6 := x5 in
  _ <~ need (ok (snd (populate_from_kind_and_self x6 ((s2b "JSON"))))) ;;
  Ok tt.
(** core/sadder.rs, populate_from_kind_and_self_unhappy_paths *)
Definition t_sadder_populate_from_kind_and_self_unhappy_paths_0 : outcome unit :=
  let x1 := (VObj (fold_left (fun o e => map_insert (fst e) (snd e) o) [((s2b "v"), (VStr (s2b "KERI10JSON000000_"))); ((s2b "d"), (VStr (s2b "")))] [])) in
  x2 <~ unw (saidify (x1) ((Some (s2b "E"))) (None) (None) (None)) ;;
  let '(x3, x4) := x2 in
  x5 <~ unw (saidify (x1) ((Some (s2b "F"))) (None) (None) (None)) ;;
  let '(x6, x7) := x5 in
  x8 <~ unw (matter_qb64 x6) ;;
  x10 <~ unw (matter_qb64 x6) ;;
  x9 <~ unw (vset x4 (s2b "d") (VStr x10)) ;;
  let x11 := (sadder_default (s2b "KERI")) in
  let x12 := (Sdr (sd_code x11) (sd_raw x11) x9 (sd_ident x11) (sd_kind x11) (sd_size x11) (sd_version x11) (sd_saider x11)) in
  let x13 := (set_code x12 (s2b "E")) in
  _ <~ need (errs (snd (populate_from_kind_and_self x13 ((s2b "JSON"))))) ;;
  Ok tt.
(** core/sadder.rs, pretty *)
Definition t_sadder_pretty_0 : outcome unit :=
  let x1 := (VObj (fold_left (fun o e => map_insert (fst e) (snd e) o) [((s2b "v"), (VStr (s2b "KERI10JSON000000_"))); ((s2b "d"), (VStr (s2b "")))] [])) in
  x2 <~ unw (saidify (x1) (None) (None) (None) (None)) ;;
  let '(x3, x4) := x2 in
  x5 <~ unw (sadder_new (s2b "KERI") (None) (None) (None) ((Some x4)) (None)) ;;
  let x6 := x5 in
  x7 <~ unw (sadder_pretty x6 (None)) ;;
  _ <~ need (same x7 [123; 10; 32; 32; 34; 118; 34; 58; 32; 34; 75; 69; 82; 73; 49; 48; 74; 83; 79; 78; 48; 48; 48; 48; 52; 99; 95; 34; 44; 10; 32; 32; 34; 100; 34; 58; 32; 34; 69; 78; 53; 103; 113; 111; 100; 89; 68; 71; 80; 83; 89; 81; 118; 100; 105; 120; 67; 106; 102; 68; 50; 108; 101; 113; 98; 54; 122; 104; 80; 111; 68; 89; 99; 66; 50; 49; 104; 102; 113; 117; 56; 100; 34; 10; 125]) ;;
  x8 <~ unw (sadder_pretty x6 ((Some 10))) ;;
  _ <~ need (same x8 [123; 10; 32; 32; 34; 118; 34; 58; 32; 34]) ;;
  Ok tt.
(** core/saider.rs, convenience *)
Definition t_saider_convenience_0 : outcome unit :=
  let x1 := (VObj (fold_left (fun o e => map_insert (fst e) (snd e) o) [((s2b "d"), (VStr (s2b "")))] [])) in
  x2 <~ unw (saider_new ((Some x1)) (None) (None) (None) (None) (None) (None) (None) (None)) ;;
  let x3 := x2 in
  _ <~ need (ok (saider_new (Some x1) (None) (None) (None) (None) None None None None)) ;;
  _ <~ need (ok (saider_new None None None None ((Some (m_code x3))) (Some (m_raw x3)) None None None)) ;;
  x4 <~ unw (matter_qb64b x3) ;;
  _ <~ need (ok (saider_new None None None None None None (Some x4) None None)) ;;
  x5 <~ unw (matter_qb64 x3) ;;
  _ <~ need (ok (saider_new None None None None None None None (Some x5) None)) ;;
  x6 <~ unw (matter_qb2 x3) ;;
  _ <~ need (ok (saider_new None None None None None None None None (Some x6))) ;;
  Ok tt.
(** core/saider.rs, new *)
Definition t_saider_new_0 : outcome unit :=
  x1 <~ unw (saider_new ((Some (VObj (fold_left (fun o e => map_insert (fst e) (snd e) o) [((s2b "d"), (VStr (s2b "")))] [])))) ((Some (s2b "d"))) (None) (None) (None) (None) (None) (None) (None)) ;;
  let x2 := x1 in
  x3 <~ unw (matter_qb64 x2) ;;
  _ <~ need (ok (saider_new (None) (None) (None) (None) (None) (None) (None) ((Some x3)) (None))) ;;
  Ok tt.
(** core/saider.rs, new_with_qb64 *)
Definition t_saider_new_with_qb64_0 : outcome unit :=
  let x1 := (s2b "E") in
  let x2 := (s2b "EBG9LuUbFzV4OV5cGS9IeQWzy9SuyVFyVrpRc4l1xzPA") in
  x3 <~ unw (saider_new (None) (None) (None) (None) (None) (None) (None) ((Some x2)) (None)) ;;
  let x4 := x3 in
  _ <~ need (same (m_code x4) x1) ;;
  x5 <~ unw (matter_qb64 x4) ;;
  _ <~ need (same x5 x2) ;;
  Ok tt.
(** core/saider.rs, new_with_qb64 *)
Definition t_saider_new_with_qb64_1 : outcome unit :=
  let x1 := (s2b "F") in
  let x2 := (s2b "FG1_1lgNJ69QPnJK-pD5s8cinFFYhnGN8nuyz8Mdrezg") in
  x3 <~ unw (saider_new (None) (None) (None) (None) (None) (None) (None) ((Some x2)) (None)) ;;
  let x4 := x3 in
  _ <~ need (same (m_code x4) x1) ;;
  x5 <~ unw (matter_qb64 x4) ;;
  _ <~ need (same x5 x2) ;;
  Ok tt.
(** core/saider.rs, basic *)
Definition t_saider_basic_0 : outcome unit :=
  let x1 := (s2b "EMRvS7lGxc1eDleXBkvSHkFs8vUrslRcla6UXOJdcczw") in
  let x2 : option (bytes) := None in
  let x3 : option (bytes) := None in
  let x4 := (Some (s2b "$id")) in
  let x5 := (VObj (fold_left (fun o e => map_insert (fst e) (snd e) o) [((s2b "$id"), (VStr (s2b ""))); ((s2b "$schema"), (VStr (s2b "http://json-schema.org/draft-07/schema#"))); ((s2b "type"), (VStr (s2b "object"))); ((s2b "properties"), (VObj (fold_left (fun o e => map_insert (fst e) (snd e) o) [((s2b "a"), (VObj (fold_left (fun o e => map_insert (fst e) (snd e) o) [((s2b "type"), (VStr (s2b "string")))] []))); ((s2b "b"), (VObj (fold_left (fun o e => map_insert (fst e) (snd e) o) [((s2b "type"), (VStr (s2b "number")))] []))); ((s2b "c"), (VObj (fold_left (fun o e => map_insert (fst e) (snd e) o) [((s2b "type"), (VStr (s2b "string"))); ((s2b "format"), (VStr (s2b "date-time")))] [])))] [])))] [])) in
  x6 <~ unw (saidify (x5) (x2) (x3) (x4) (None)) ;;
  let '(x7, x8) := x6 in
  x9 <~ unw (matter_qb64 x7) ;;
  _ <~ need (same x9 x1) ;;
  let x10 := (VObj (fold_left (fun o e => map_insert (fst e) (snd e) o) [((s2b "$id"), (VStr x1)); ((s2b "$schema"), (VStr (s2b "http://json-schema.org/draft-07/schema#"))); ((s2b "type"), (VStr (s2b "object"))); ((s2b "properties"), (VObj (fold_left (fun o e => map_insert (fst e) (snd e) o) [((s2b "a"), (VObj (fold_left (fun o e => map_insert (fst e) (snd e) o) [((s2b "type"), (VStr (s2b "string")))] []))); ((s2b "b"), (VObj (fold_left (fun o e => map_insert (fst e) (snd e) o) [((s2b "type"), (VStr (s2b "number")))] []))); ((s2b "c"), (VObj (fold_left (fun o e => map_insert (fst e) (snd e) o) [((s2b "type"), (VStr (s2b "string"))); ((s2b "format"), (VStr (s2b "date-time")))] [])))] [])))] [])) in
  x11 <~ unw (said_verify x7 (x10) ((Some true)) (None) (None) (x4) (None)) ;;
  _ <~ need x11 ;;
  x12 <~ unw (said_verify x7 (x5) ((Some false)) (None) (None) (x4) (None)) ;;
  _ <~ need x12 ;;
  x13 <~ unw (said_verify x7 (x5) ((Some true)) (None) (None) (x4) (None)) ;;
  _ <~ need (negb x13) ;;
  Ok tt.
(** core/saider.rs, basic *)
Definition t_saider_basic_1 : outcome unit :=
  let x1 := (s2b "EMRvS7lGxc1eDleXBkvSHkFs8vUrslRcla6UXOJdcczw") in
  let x2 := (Some (s2b "E")) in
  let x3 : option (bytes) := None in
  let x4 := (Some (s2b "$id")) in
  let x5 := (VObj (fold_left (fun o e => map_insert (fst e) (snd e) o) [((s2b "$id"), (VStr (s2b ""))); ((s2b "$schema"), (VStr (s2b "http://json-schema.org/draft-07/schema#"))); ((s2b "type"), (VStr (s2b "object"))); ((s2b "properties"), (VObj (fold_left (fun o e => map_insert (fst e) (snd e) o) [((s2b "a"), (VObj (fold_left (fun o e => map_insert (fst e) (snd e) o) [((s2b "type"), (VStr (s2b "string")))] []))); ((s2b "b"), (VObj (fold_left (fun o e => map_insert (fst e) (snd e) o) [((s2b "type"), (VStr (s2b "number")))] []))); ((s2b "c"), (VObj (fold_left (fun o e => map_insert (fst e) (snd e) o) [((s2b "type"), (VStr (s2b "string"))); ((s2b "format"), (VStr (s2b "date-time")))] [])))] [])))] [])) in
  x6 <~ unw (saidify (x5) (x2) (x3) (x4) (None)) ;;
  let '(x7, x8) := x6 in
  x9 <~ unw (matter_qb64 x7) ;;
  _ <~ need (same x9 x1) ;;
  let x10 := (VObj (fold_left (fun o e => map_insert (fst e) (snd e) o) [((s2b "$id"), (VStr x1)); ((s2b "$schema"), (VStr (s2b "http://json-schema.org/draft-07/schema#"))); ((s2b "type"), (VStr (s2b "object"))); ((s2b "properties"), (VObj (fold_left (fun o e => map_insert (fst e) (snd e) o) [((s2b "a"), (VObj (fold_left (fun o e => map_insert (fst e) (snd e) o) [((s2b "type"), (VStr (s2b "string")))] []))); ((s2b "b"), (VObj (fold_left (fun o e => map_insert (fst e) (snd e) o) [((s2b "type"), (VStr (s2b "number")))] []))); ((s2b "c"), (VObj (fold_left (fun o e => map_insert (fst e) (snd e) o) [((s2b "type"), (VStr (s2b "string"))); ((s2b "format"), (VStr (s2b "date-time")))] [])))] [])))] [])) in
  x11 <~ unw (said_verify x7 (x10) ((Some true)) (None) (None) (x4) (None)) ;;
  _ <~ need x11 ;;
  x12 <~ unw (said_verify x7 (x5) ((Some false)) (None) (None) (x4) (None)) ;;
  _ <~ need x12 ;;
  x13 <~ unw (said_verify x7 (x5) ((Some true)) (None) (None) (x4) (None)) ;;
  _ <~ need (negb x13) ;;
  Ok tt.
(** core/saider.rs, basic *)
Definition t_saider_basic_2 : outcome unit :=
  let x1 := (s2b "EMRvS7lGxc1eDleXBkvSHkFs8vUrslRcla6UXOJdcczw") in
  let x2 : option (bytes) := None in
  let x3 := (Some (s2b "JSON")) in
  let x4 := (Some (s2b "$id")) in
  let x5 := (VObj (fold_left (fun o e => map_insert (fst e) (snd e) o) [((s2b "$id"), (VStr (s2b ""))); ((s2b "$schema"), (VStr (s2b "http://json-schema.org/draft-07/schema#"))); ((s2b "type"), (VStr (s2b "object"))); ((s2b "properties"), (VObj (fold_left (fun o e => map_insert (fst e) (snd e) o) [((s2b "a"), (VObj (fold_left (fun o e => map_insert (fst e) (snd e) o) [((s2b "type"), (VStr (s2b "string")))] []))); ((s2b "b"), (VObj (fold_left (fun o e => map_insert (fst e) (snd e) o) [((s2b "type"), (VStr (s2b "number")))] []))); ((s2b "c"), (VObj (fold_left (fun o e => map_insert (fst e) (snd e) o) [((s2b "type"), (VStr (s2b "string"))); ((s2b "format"), (VStr (s2b "date-time")))] [])))] [])))] [])) in
  x6 <~ unw (saidify (x5) (x2) (x3) (x4) (None)) ;;
  let '(x7, x8) := x6 in
  x9 <~ unw (matter_qb64 x7) ;;
  _ <~ need (same x9 x1) ;;
  let x10 := (VObj (fold_left (fun o e => map_insert (fst e) (snd e) o) [((s2b "$id"), (VStr x1)); ((s2b "$schema"), (VStr (s2b "http://json-schema.org/draft-07/schema#"))); ((s2b "type"), (VStr (s2b "object"))); ((s2b "properties"), (VObj (fold_left (fun o e => map_insert (fst e) (snd e) o) [((s2b "a"), (VObj (fold_left (fun o e => map_insert (fst e) (snd e) o) [((s2b "type"), (VStr (s2b "string")))] []))); ((s2b "b"), (VObj (fold_left (fun o e => map_insert (fst e) (snd e) o) [((s2b "type"), (VStr (s2b "number")))] []))); ((s2b "c"), (VObj (fold_left (fun o e => map_insert (fst e) (snd e) o) [((s2b "type"), (VStr (s2b "string"))); ((s2b "format"), (VStr (s2b "date-time")))] [])))] [])))] [])) in
  x11 <~ unw (said_verify x7 (x10) ((Some true)) (None) (None) (x4) (None)) ;;
  _ <~ need x11 ;;
  x12 <~ unw (said_verify x7 (x5) ((Some false)) (None) (None) (x4) (None)) ;;
  _ <~ need x12 ;;
  x13 <~ unw (said_verify x7 (x5) ((Some true)) (None) (None) (x4) (None)) ;;
  _ <~ need (negb x13) ;;
  Ok tt.
(** core/saider.rs, basic *)
Definition t_saider_basic_3 : outcome unit :=
  let x1 := (s2b "EMRvS7lGxc1eDleXBkvSHkFs8vUrslRcla6UXOJdcczw") in
  let x2 := (Some (s2b "E")) in
  let x3 := (Some (s2b "JSON")) in
  let x4 := (Some (s2b "$id")) in
  let x5 := (VObj (fold_left (fun o e => map_insert (fst e) (snd e) o) [((s2b "$id"), (VStr (s2b ""))); ((s2b "$schema"), (VStr (s2b "http://json-schema.org/draft-07/schema#"))); ((s2b "type"), (VStr (s2b "object"))); ((s2b "properties"), (VObj (fold_left (fun o e => map_insert (fst e) (snd e) o) [((s2b "a"), (VObj (fold_left (fun o e => map_insert (fst e) (snd e) o) [((s2b "type"), (VStr (s2b "string")))] []))); ((s2b "b"), (VObj (fold_left (fun o e => map_insert (fst e) (snd e) o) [((s2b "type"), (VStr (s2b "number")))] []))); ((s2b "c"), (VObj (fold_left (fun o e => map_insert (fst e) (snd e) o) [((s2b "type"), (VStr (s2b "string"))); ((s2b "format"), (VStr (s2b "date-time")))] [])))] [])))] [])) in
  x6 <~ unw (saidify (x5) (x2) (x3) (x4) (None)) ;;
  let '(x7, x8) := x6 in
  x9 <~ unw (matter_qb64 x7) ;;
  _ <~ need (same x9 x1) ;;
  let x10 := (VObj (fold_left (fun o e => map_insert (fst e) (snd e) o) [((s2b "$id"), (VStr x1)); ((s2b "$schema"), (VStr (s2b "http://json-schema.org/draft-07/schema#"))); ((s2b "type"), (VStr (s2b "object"))); ((s2b "properties"), (VObj (fold_left (fun o e => map_insert (fst e) (snd e) o) [((s2b "a"), (VObj (fold_left (fun o e => map_insert (fst e) (snd e) o) [((s2b "type"), (VStr (s2b "string")))] []))); ((s2b "b"), (VObj (fold_left (fun o e => map_insert (fst e) (snd e) o) [((s2b "type"), (VStr (s2b "number")))] []))); ((s2b "c"), (VObj (fold_left (fun o e => map_insert (fst e) (snd e) o) [((s2b "type"), (VStr (s2b "string"))); ((s2b "format"), (VStr (s2b "date-time")))] [])))] [])))] [])) in
  x11 <~ unw (said_verify x7 (x10) ((Some true)) (None) (None) (x4) (None)) ;;
  _ <~ need x11 ;;
  x12 <~ unw (said_verify x7 (x5) ((Some false)) (None) (None) (x4) (None)) ;;
  _ <~ need x12 ;;
  x13 <~ unw (said_verify x7 (x5) ((Some true)) (None) (None) (x4) (None)) ;;
  _ <~ need (negb x13) ;;
  Ok tt.
(** core/saider.rs, basic *)
Definition t_saider_basic_4 : outcome unit :=
  let x1 := (s2b "FFtf9ZYDSevUD5ySvqQ-bPHIpxRWIZxjfJ7ss_DHa3s4") in
  let x2 := (Some (s2b "F")) in
  let x3 : option (bytes) := None in
  let x4 := (Some (s2b "$id")) in
  let x5 := (VObj (fold_left (fun o e => map_insert (fst e) (snd e) o) [((s2b "$id"), (VStr (s2b ""))); ((s2b "$schema"), (VStr (s2b "http://json-schema.org/draft-07/schema#"))); ((s2b "type"), (VStr (s2b "object"))); ((s2b "properties"), (VObj (fold_left (fun o e => map_insert (fst e) (snd e) o) [((s2b "a"), (VObj (fold_left (fun o e => map_insert (fst e) (snd e) o) [((s2b "type"), (VStr (s2b "string")))] []))); ((s2b "b"), (VObj (fold_left (fun o e => map_insert (fst e) (snd e) o) [((s2b "type"), (VStr (s2b "number")))] []))); ((s2b "c"), (VObj (fold_left (fun o e => map_insert (fst e) (snd e) o) [((s2b "type"), (VStr (s2b "string"))); ((s2b "format"), (VStr (s2b "date-time")))] [])))] [])))] [])) in
  x6 <~ unw (saidify (x5) (x2) (x3) (x4) (None)) ;;
  let '(x7, x8) := x6 in
  x9 <~ unw (matter_qb64 x7) ;;
  _ <~ need (same x9 x1) ;;
  let x10 := (VObj (fold_left (fun o e => map_insert (fst e) (snd e) o) [((s2b "$id"), (VStr x1)); ((s2b "$schema"), (VStr (s2b "http://json-schema.org/draft-07/schema#"))); ((s2b "type"), (VStr (s2b "object"))); ((s2b "properties"), (VObj (fold_left (fun o e => map_insert (fst e) (snd e) o) [((s2b "a"), (VObj (fold_left (fun o e => map_insert (fst e) (snd e) o) [((s2b "type"), (VStr (s2b "string")))] []))); ((s2b "b"), (VObj (fold_left (fun o e => map_insert (fst e) (snd e) o) [((s2b "type"), (VStr (s2b "number")))] []))); ((s2b "c"), (VObj (fold_left (fun o e => map_insert (fst e) (snd e) o) [((s2b "type"), (VStr (s2b "string"))); ((s2b "format"), (VStr (s2b "date-time")))] [])))] [])))] [])) in
  x11 <~ unw (said_verify x7 (x10) ((Some true)) (None) (None) (x4) (None)) ;;
  _ <~ need x11 ;;
  x12 <~ unw (said_verify x7 (x5) ((Some false)) (None) (None) (x4) (None)) ;;
  _ <~ need x12 ;;
  x13 <~ unw (said_verify x7 (x5) ((Some true)) (None) (None) (x4) (None)) ;;
  _ <~ need (negb x13) ;;
  Ok tt.
(** core/saider.rs, keri *)
Definition t_saider_keri_0 : outcome unit :=
  let x1 := (s2b "d") in
  let x2 := (s2b "E") in
  x3 <~ unw (versify ((Some (s2b "KERI"))) ((Some (Ver 1 0))) ((Some (s2b "JSON"))) ((Some 0))) ;;
  let x4 := x3 in
  _ <~ need (same x4 (s2b "KERI10JSON000000_")) ;;
  let x5 := (VObj (fold_left (fun o e => map_insert (fst e) (snd e) o) [((s2b "v"), (VStr x4)); ((s2b "t"), (VStr (s2b "rep"))); ((s2b "d"), (VStr (s2b ""))); ((s2b "dt"), (VStr (s2b "2020-08-22T17:50:12.988921+00:00"))); ((s2b "r"), (VStr (s2b "logs/processor"))); ((s2b "a"), (VObj (fold_left (fun o e => map_insert (fst e) (snd e) o) [((s2b "d"), (VStr (s2b "EBabiu_JCkE0GbiglDXNB5C4NQq-hiGgxhHKXBxkiojg"))); ((s2b "i"), (VStr (s2b "EB0_D51cTh_q6uOQ-byFiv5oNXZ-cxdqCqBAa4JmBLtb"))); ((s2b "name"), (VStr (s2b "John Jones"))); ((s2b "role"), (VStr (s2b "Founder")))] [])))] [])) in
  x6 <~ unw (saider_new ((Some x5)) ((Some x1)) (None) (None) ((Some x2)) (None) (None) (None) (None)) ;;
  let x7 := x6 in
  _ <~ need (same (m_code x7) x2) ;;
  x8 <~ unw (matter_qb64 x7) ;;
  _ <~ need (same x8 (s2b "ELzewBpZHSENRP-sL_G_2Ji4YDdNkns9AzFzufleJqdw")) ;;
  x9 <~ unw (said_verify x7 (x5) ((Some false)) ((Some false)) (None) (None) (None)) ;;
  _ <~ need x9 ;;
  x10 <~ unw (said_verify x7 (x5) ((Some false)) (None) (None) (None) (None)) ;;
  _ <~ need (negb x10) ;;
  x11 <~ unw (said_verify x7 (x5) ((Some true)) ((Some false)) (None) (None) (None)) ;;
  _ <~ need (negb x11) ;;
  let x12 := x5 in
  x13 <~ unw (matter_qb64 x7) ;;
  x15 <~ unw (matter_qb64 x7) ;;
  x14 <~ unw (vset x12 x1 (VStr x15)) ;;
  x16 <~ unw (said_verify x7 (x14) ((Some true)) ((Some false)) (None) (None) (None)) ;;
  _ <~ need x16 ;;
  let x17 := x14 in
  x18 <~ unw (said_derive (x5) ((Some x2)) (None) ((Some x1)) (None)) ;;
  let '(x19, x20) := x18 in
  x21 <~ unw (vget x20 (s2b "v")) ;;
  x22 <~ unw (to_string x21) ;;
  x24 <~ unw (vget x20 (s2b "v")) ;;
  x25 <~ unw (to_string x24) ;;
  x23 <~ unw (vset x17 (s2b "v") (VStr x25)) ;;
  x26 <~ unw (said_verify x7 (x23) ((Some true)) (None) (None) (None) (None)) ;;
  _ <~ need x26 ;;
  let x27 := (VObj (fold_left (fun o e => map_insert (fst e) (snd e) o) [((s2b "d"), (VStr (s2b ""))); ((s2b "first"), (VStr (s2b "John"))); ((s2b "last"), (VStr (s2b "Doe"))); ((s2b "read"), (VBool false))] [])) in
  x28 <~ unw (saider_new ((Some x27)) (None) (None) ((Some [(s2b "read")])) ((Some x2)) (None) (None) (None) (None)) ;;
  let x29 := x28 in
  let x30 := (s2b "EBam6rzvfq0yF6eI7Czrg3dUVhqg2cwNkSoJvyHWPj3p") in
  x31 <~ unw (matter_qb64 x29) ;;
  _ <~ need (same x31 x30) ;;
  x32 <~ unw (saidify (x27) ((Some x2)) (None) ((Some (s2b "d"))) ((Some [(s2b "read")]))) ;;
  let '(x33, x34) := x32 in
  x35 <~ unw (matter_qb64 x29) ;;
  x36 <~ unw (matter_qb64 x33) ;;
  _ <~ need (same x35 x36) ;;
  x37 <~ unw (vget x34 (s2b "d")) ;;
  x38 <~ unw (to_string x37) ;;
  _ <~ need (same x38 x30) ;;
  x39 <~ unw (vget x34 (s2b "read")) ;;
  x40 <~ unw (to_bool x39) ;;
  _ <~ need (negb x40) ;;
  x41 <~ unw (said_verify x33 (x34) ((Some true)) (None) (None) ((Some (s2b "d"))) ((Some [(s2b "read")]))) ;;
  _ <~ need x41 ;;
  x42 <~ unw (vset x34 (s2b "read") (VBool true)) ;;
  x43 <~ unw (said_verify x33 (x42) ((Some true)) (None) (None) ((Some (s2b "d"))) ((Some [(s2b "read")]))) ;;
  _ <~ need x43 ;;
  x44 <~ unw (saider_new ((Some x42)) (None) (None) ((Some [(s2b "read")])) ((Some x2)) (None) (None) (None) (None)) ;;
  let x45 := x44 in
  x46 <~ unw (matter_qb64 x33) ;;
  x47 <~ unw (matter_qb64 x45) ;;
  _ <~ need (same x46 x47) ;;
  x48 <~ unw (vget x42 (s2b "read")) ;;
  x49 <~ unw (to_bool x48) ;;
  _ <~ need x49 ;;
  Ok tt.
(** core/saider.rs, new_with_things *)
Definition t_saider_new_with_things_0 : outcome unit :=
  x1 <~ unw (saider_new ((Some (VObj (fold_left (fun o e => map_insert (fst e) (snd e) o) [((s2b "d"), (VStr (s2b "")))] [])))) ((Some (s2b "d"))) (None) (None) (None) (None) (None) (None) (None)) ;;
  let x2 := x1 in
  x3 <~ unw (matter_qb64 x2) ;;
  x4 <~ unw (saider_new ((Some (VObj (fold_left (fun o e => map_insert (fst e) (snd e) o) [((s2b "d"), (VStr x3))] [])))) ((Some (s2b "d"))) (None) (None) (None) (None) (None) (None) (None)) ;;
  let x5 := x4 in
  _ <~ need (same (m_code x2) (m_code x5)) ;;
  x6 <~ unw (matter_qb64 x2) ;;
  x7 <~ unw (matter_qb64 x5) ;;
  _ <~ need (same x6 x7) ;;
  x8 <~ unw (matter_qb64b x2) ;;
  x9 <~ unw (saider_new (None) (None) (None) (None) (None) (None) ((Some x8)) (None) (None)) ;;
  let x10 := x9 in
  _ <~ need (same (m_code x2) (m_code x10)) ;;
  x11 <~ unw (matter_qb64 x2) ;;
  x12 <~ unw (matter_qb64 x10) ;;
  _ <~ need (same x11 x12) ;;
  x13 <~ unw (matter_qb2 x2) ;;
  x14 <~ unw (saider_new (None) (None) (None) (None) (None) (None) (None) (None) ((Some x13))) ;;
  let x15 := x14 in
  _ <~ need (same (m_code x2) (m_code x15)) ;;
  x16 <~ unw (matter_qb64 x2) ;;
  x17 <~ unw (matter_qb64 x5) ;;
  _ <~ need (same x16 x17) ;;
  x18 <~ unw (nth_error (m_raw x15) (N.to_nat 0)) ;;
  let x19 := [(N.lxor x18 255)] in
  let x20 := (x19 ++ (drop 1 (m_raw x15))) in
  let x21 := (Mat (m_code x15) (m_size x15) x20) in
  x22 <~ unw (matter_qb64 x2) ;;
  x23 <~ unw (said_verify x21 ((VObj (fold_left (fun o e => map_insert (fst e) (snd e) o) [((s2b "d"), (VStr x22))] []))) (None) (None) (None) (None) (None)) ;;
  _ <~ need (negb x23) ;;
  Ok tt.
(** core/saider.rs, unhappy_paths *)
Definition t_saider_unhappy_paths_0 : outcome unit :=
  _ <~ need (errs (validate saider_codes ((s2b "D")))) ;;
  _ <~ need (errs (saider_new (None) (None) (None) (None) (None) ((Some [])) (None) (None) (None))) ;;
  _ <~ need (errs (saider_new ((Some (VObj []))) ((Some (s2b "d"))) (None) (None) (None) (None) (None) (None) (None))) ;;
  _ <~ need (errs (saider_new ((Some (VObj (fold_left (fun o e => map_insert (fst e) (snd e) o) [((s2b "d"), (VBool true))] [])))) ((Some (s2b "d"))) (None) (None) (None) (None) (None) (None) (None))) ;;
  _ <~ need (errs (saider_new (None) (None) (None) (None) (None) (None) (None) (None) (None))) ;;
  x1 <~ unw (said_verify (Mat (s2b "CESR") 0 []) ((VObj [])) (None) (None) (None) (None) (None)) ;;
  _ <~ need (negb x1) ;;
  _ <~ need (errs (saidify ((VObj [])) (None) (None) (None) (None))) ;;
  Ok tt.
(** core/serder.rs, convenience *)
Definition t_serder_convenience_0 : outcome unit :=
  let x1 := (s2b "KERI10JSON000000_") in
  let x2 := (VObj (fold_left (fun o e => map_insert (fst e) (snd e) o) [((s2b "v"), (VStr x1)); ((s2b "d"), (VStr (s2b ""))); ((s2b "i"), (VStr (s2b "ABCDEFG"))); ((s2b "s"), (VStr (s2b "0001"))); ((s2b "t"), (VStr (s2b "rot")))] [])) in
  x3 <~ unw (saidify (x2) (None) (None) (None) (None)) ;;
  let '(x4, x5) := x3 in
  x6 <~ unw (serder_new (None) None (None) (Some x5) None) ;;
  let x7 := x6 in
  x8 <~ unw (serder_new None (Some (sd_raw x7)) None None None) ;;
  let x9 := x8 in
  x10 <~ unw (serder_pre x7) ;;
  x11 <~ unw (serder_pre x9) ;;
  _ <~ need (same x10 x11) ;;
  Ok tt.
(** core/serder.rs, python_interop *)
Definition t_serder_python_interop_0 : outcome unit :=
  _ <~ need (errs (serder_new (None) (None) (None) (None) (None))) ;;
  let x1 := (s2b "KERI10JSON000000_") in
  let x2 := (VObj (fold_left (fun o e => map_insert (fst e) (snd e) o) [((s2b "v"), (VStr x1)); ((s2b "d"), (VStr (s2b ""))); ((s2b "i"), (VStr (s2b "ABCDEFG"))); ((s2b "s"), (VStr (s2b "0001"))); ((s2b "t"), (VStr (s2b "rot")))] [])) in
  x3 <~ unw (saidify (x2) (None) (None) (None) (None)) ;;
  let '(x4, x5) := x3 in
  x6 <~ unw (serder_new (None) (None) (None) ((Some x5)) (None)) ;;
  let x7 := x6 in
  _ <~ need (same (sd_ked x7) x5) ;;
  _ <~ need (same (sd_kind x7) (s2b "JSON")) ;;
  _ <~ need (same (sd_version x7) current_version) ;;
  x8 <~ unw (sadder_said x7) ;;
  _ <~ need (same x8 (s2b "EIM66TjBMfwPnbwK7oZqbZyGz9nOeVmQHeH3NZxrsk8F")) ;;
  x9 <~ unw (sadder_saidb x7) ;;
  _ <~ need (same x9 (s2b "EIM66TjBMfwPnbwK7oZqbZyGz9nOeVmQHeH3NZxrsk8F")) ;;
  _ <~ need (same (sd_size x7) 111) ;;
  x10 <~ unw (serder_verfers x7) ;;
  _ <~ need (same x10 []) ;;
  _ <~ need (same (sd_raw x7) (s2b "{""v"":""KERI10JSON00006f_"",""d"":""EIM66TjBMfwPnbwK7oZqbZyGz9nOeVmQHeH3NZxrsk8F"",""i"":""ABCDEFG"",""s"":""0001"",""t"":""rot""}")) ;;
  x11 <~ unw (serder_sn x7) ;;
  _ <~ need (same x11 1) ;;
  x12 <~ unw (serder_pre x7) ;;
  _ <~ need (same x12 (s2b "ABCDEFG")) ;;
  x13 <~ unw (serder_pre x7) ;;
  _ <~ need (same x13 (s2b "ABCDEFG")) ;;
  x14 <~ unw (Ok (to_json x5)) ;;
  let x15 := x14 in
  _ <~ need (same x15 (s2b "{""v"":""KERI10JSON00006f_"",""d"":""EIM66TjBMfwPnbwK7oZqbZyGz9nOeVmQHeH3NZxrsk8F"",""i"":""ABCDEFG"",""s"":""0001"",""t"":""rot""}")) ;;
  x16 <~ unw (versify (None) (None) ((Some (s2b "JSON"))) ((Some (N.of_nat (length x15))))) ;;
  let x17 := x16 in
  _ <~ need (same x17 (s2b "KERI10JSON00006f_")) ;;
  let x18 := (s2b "v") in
  x19 <~ unw (vset x5 x18 (VStr x17)) ;;
  x20 <~ unw (sadder_pretty x7 (None)) ;;
  let x21 := x20 in
  _ <~ need (same x21 (((((([123; 10] ++ [32; 32; 34; 118; 34; 58; 32; 34; 75; 69; 82; 73; 49; 48; 74; 83; 79; 78; 48; 48; 48; 48; 54; 102; 95; 34; 44; 10]) ++ [32; 32; 34; 100; 34; 58; 32; 34; 69; 73; 77; 54; 54; 84; 106; 66; 77; 102; 119; 80; 110; 98; 119; 75; 55; 111; 90; 113; 98; 90; 121; 71; 122; 57; 110; 79; 101; 86; 109; 81; 72; 101; 72; 51; 78; 90; 120; 114; 115; 107; 56; 70; 34; 44; 10]) ++ [32; 32; 34; 105; 34; 58; 32; 34; 65; 66; 67; 68; 69; 70; 71; 34; 44; 10]) ++ [32; 32; 34; 115; 34; 58; 32; 34; 48; 48; 48; 49; 34; 44; 10]) ++ [32; 32; 34; 116; 34; 58; 32; 34; 114; 111; 116; 34; 10]) ++ (s2b "}"))) ;;
  x22 <~ unw (Ok (to_json x19)) ;;
  let x23 := x22 in
  let x24 := x23 in
  _ <~ need (errs (sniff ((take version_full_size x24)))) ;;
  x25 <~ unw (sniff ((take minimum_sniff_size x24))) ;;
  let x26 := x25 in
  _ <~ need (same (vp_ident x26) (s2b "KERI")) ;;
  _ <~ need (same (vp_kind x26) (s2b "JSON")) ;;
  _ <~ need (same (vp_size x26) 111) ;;
  x27 <~ unw (sniff (x24)) ;;
  let x28 := x27 in
  _ <~ need (same (vp_ident x28) (s2b "KERI")) ;;
  _ <~ need (same (vp_kind x28) (s2b "JSON")) ;;
  _ <~ need (same (vp_size x28) 111) ;;
  let x29 := x24 in
  let x30 := (x29 ++ (s2b "extra attached at the end")) in
  let x31 := (VObj (fold_left (fun o e => map_insert (fst e) (snd e) o) [((s2b "v"), (VStr (s2b "KERI10JSON00006a_"))); ((s2b "d"), (VStr (s2b "HAg9_-rPd8oga-oyPghCEIlJZHKbYXcP86LQl0Yg2AvA"))); ((s2b "i"), (VStr (s2b "ABCDEFG"))); ((s2b "s"), (VInt (Z.of_N 1))); ((s2b "t"), (VStr (s2b "rot")))] [])) in
  let x32 := (s2b "{""v"":""KERI10JSON00006a_"",""d"":""HAg9_-rPd8oga-oyPghCEIlJZHKbYXcP86LQl0Yg2AvA"",""i"":""ABCDEFG"",""s"":1,""t"":""rot""}") in
  x33 <~ unw (serder_new ((Some (s2b "H"))) ((Some x32)) (None) (None) (None)) ;;
  let x34 := x33 in
  _ <~ need (same (sd_kind x34) (s2b "JSON")) ;;
  _ <~ need (same (sd_raw x34) x32) ;;
  _ <~ need (same (sd_ked x34) x31) ;;
  _ <~ need (same (m_code (sd_saider x34)) (s2b "H")) ;;
  let x35 := (VObj (fold_left (fun o e => map_insert (fst e) (snd e) o) [((s2b "v"), (VStr (s2b "KERI10JSON00006a_"))); ((s2b "d"), (VStr (s2b "EADZ055vgh5utgSY3OOL1lW0m1pJ1W0Ia6-SVuGa0OqE"))); ((s2b "i"), (VStr (s2b "ABCDEFG"))); ((s2b "s"), (VInt (Z.of_N 1))); ((s2b "t"), (VStr (s2b "rot")))] [])) in
  let x36 := (s2b "{""v"":""KERI10JSON00006a_"",""d"":""EADZ055vgh5utgSY3OOL1lW0m1pJ1W0Ia6-SVuGa0OqE"",""i"":""ABCDEFG"",""s"":1,""t"":""rot""}") in
  x37 <~ unw (serder_new ((Some (s2b "E"))) ((Some x36)) (None) (None) (None)) ;;
  let x38 := x37 in
  _ <~ need (same (sd_kind x38) (s2b "JSON")) ;;
  _ <~ need (same (sd_raw x38) x36) ;;
  _ <~ need (same (sd_ked x38) x35) ;;
  _ <~ need (same (m_code (sd_saider x38)) (s2b "E")) ;;
  x39 <~ unw (serder_est x38) ;;
  _ <~ need x39 ;;
  Ok tt.
(** core/serder.rs, creation *)
Definition t_serder_creation_0 : outcome unit :=
  let x1 := (VObj (fold_left (fun o e => map_insert (fst e) (snd e) o) [((s2b "v"), (VStr (s2b "KERI10JSON00011c_"))); ((s2b "t"), (VStr (s2b "rep"))); ((s2b "d"), (VStr (s2b "EBAjyPZ8Ed4XXl5cVZhqAy7SuaGivQp0WqQKVXvg7oqd"))); ((s2b "dt"), (VStr (s2b "2020-08-22T17:50:12.988921+00:00"))); ((s2b "r"), (VStr (s2b "logs/processor"))); ((s2b "a"), (VObj (fold_left (fun o e => map_insert (fst e) (snd e) o) [((s2b "d"), (VStr (s2b "EBAjyPZ8Ed4XXl5cVZhqAy7SuaGivQp0WqQKVXvg7oqd"))); ((s2b "i"), (VStr (s2b "BEy_EvE8OUMqj0AgCJ3wOCOrIVHVtwubYAysPyaAv9VI"))); ((s2b "name"), (VStr (s2b "John Jones"))); ((s2b "role"), (VStr (s2b "Founder")))] [])))] [])) in
  x2 <~ unw (serder_new (None) (None) (None) ((Some x1)) (None)) ;;
  let x3 := x2 in
  x4 <~ unw (sadder_said x3) ;;
  _ <~ need (same x4 (s2b "EBAjyPZ8Ed4XXl5cVZhqAy7SuaGivQp0WqQKVXvg7oqd")) ;;
  x5 <~ unw (sadder_saidb x3) ;;
  _ <~ need (same x5 (s2b "EBAjyPZ8Ed4XXl5cVZhqAy7SuaGivQp0WqQKVXvg7oqd")) ;;
  let x6 := (VObj (fold_left (fun o e => map_insert (fst e) (snd e) o) [((s2b "v"), (VStr (s2b "KERI10JSON000000_"))); ((s2b "t"), (VStr (s2b "icp"))); ((s2b "d"), (VStr (s2b ""))); ((s2b "i"), (VStr (s2b "BEy_EvE8OUMqj0AgCJ3wOCOrIVHVtwubYAysPyaAv9VI"))); ((s2b "s"), (VStr (s2b "0"))); ((s2b "kt"), (VStr (s2b "1"))); ((s2b "k"), (VArr [(VStr (s2b "BC9Df6ssUZQFQZJYVUyfudw4WTQsugGcvVD_Z4ChFGE4"))])); ((s2b "n"), (VStr (s2b ""))); ((s2b "bt"), (VStr (s2b "0"))); ((s2b "b"), (VArr [])); ((s2b "c"), (VArr [])); ((s2b "a"), (VArr []))] [])) in
  x7 <~ unw (saidify (x6) (None) (None) (None) (None)) ;;
  let '(x8, x9) := x7 in
  x10 <~ unw (serder_new (None) (None) (None) ((Some x9)) (None)) ;;
  let x11 := x10 in
  x12 <~ unw (serder_tholder x11) ;;
  x13 <~ unw (x12) ;;
  x14 <~ unw (tholder_sith x13) ;;
  _ <~ need (same x14 (VStr (s2b "1"))) ;;
  x15 <~ unw (serder_tholder x11) ;;
  x16 <~ unw (x15) ;;
  _ <~ need (same (th_thold x16) (VInt (Z.of_N 1))) ;;
  x17 <~ unw (serder_sn x11) ;;
  _ <~ need (same x17 0) ;;
  x18 <~ unw (serder_sner x11) ;;
  x19 <~ unw (number_num x18) ;;
  _ <~ need (same x19 0) ;;
  x20 <~ unw (serder_ntholder x11) ;;
  _ <~ need (none (x20)) ;;
  x21 <~ unw (serder_fner x11) ;;
  _ <~ need (none (x21)) ;;
  _ <~ need (errs (serder_fn x11)) ;;
  x22 <~ unw (serder_digers x11) ;;
  _ <~ need (same (N.of_nat (length x22)) 0) ;;
  x23 <~ unw (vset x9 (s2b "s") (VStr (s2b "-1"))) ;;
  x24 <~ unw (serder_new (None) (None) (None) ((Some x23)) (None)) ;;
  let x25 := x24 in
  _ <~ need (errs (serder_sn x25)) ;;
  x26 <~ unw (vset x23 (s2b "s") (VStr (s2b "15.34"))) ;;
  x27 <~ unw (serder_new (None) (None) (None) ((Some x26)) (None)) ;;
  let x28 := x27 in
  _ <~ need (errs (serder_sn x28)) ;;
  x29 <~ unw (number_new ((Some 0)) (None) (None) (None) (None) (None) (None)) ;;
  x30 <~ unw (matter_qb64 x29) ;;
  let x31 := (VObj (fold_left (fun o e => map_insert (fst e) (snd e) o) [((s2b "v"), (VStr (s2b "KERI10JSON000000_"))); ((s2b "t"), (VStr (s2b "icp"))); ((s2b "d"), (VStr (s2b ""))); ((s2b "i"), (VStr (s2b "BEy_EvE8OUMqj0AgCJ3wOCOrIVHVtwubYAysPyaAv9VI"))); ((s2b "s"), (VStr (s2b "0"))); ((s2b "kt"), (VStr (s2b "1"))); ((s2b "k"), (VArr [(VStr (s2b "BC9Df6ssUZQFQZJYVUyfudw4WTQsugGcvVD_Z4ChFGE4"))])); ((s2b "nt"), (VStr (s2b "1"))); ((s2b "n"), (VArr [(VStr (s2b "ELC5L3iBVD77d_MYbYGGCUQgqQBju1o4x1Ud-z2sL-ux"))])); ((s2b "bt"), (VStr (s2b "0"))); ((s2b "f"), (VStr x30)); ((s2b "b"), (VArr [])); ((s2b "c"), (VArr [])); ((s2b "a"), (VArr []))] [])) in
  x32 <~ unw (saidify (x31) (None) (None) (None) (None)) ;;
  let '(x33, x34) := x32 in
  x35 <~ unw (serder_new (None) (None) (None) ((Some x34)) (None)) ;;
  let x36 := x35 in
  x37 <~ unw (serder_tholder x36) ;;
  x38 <~ unw (x37) ;;
  x39 <~ unw (tholder_sith x38) ;;
  _ <~ need (same x39 (VStr (s2b "1"))) ;;
  x40 <~ unw (serder_tholder x36) ;;
  x41 <~ unw (x40) ;;
  _ <~ need (same (th_thold x41) (VInt (Z.of_N 1))) ;;
  x42 <~ unw (serder_sn x36) ;;
  _ <~ need (same x42 0) ;;
  x43 <~ unw (serder_sner x36) ;;
  x44 <~ unw (number_num x43) ;;
  _ <~ need (same x44 0) ;;
  x45 <~ unw (serder_ntholder x36) ;;
  x46 <~ unw (x45) ;;
  x47 <~ unw (tholder_sith x46) ;;
  _ <~ need (same x47 (VStr (s2b "1"))) ;;
  x48 <~ unw (serder_ntholder x36) ;;
  x49 <~ unw (x48) ;;
  _ <~ need (same (th_thold x49) (VInt (Z.of_N 1))) ;;
  x50 <~ unw (serder_fner x36) ;;
  _ <~ need (some (x50)) ;;
  x51 <~ unw (serder_fn x36) ;;
  _ <~ need (same x51 0) ;;
  x52 <~ unw (serder_digers x36) ;;
  _ <~ need (same (N.of_nat (length x52)) 1) ;;
  x53 <~ unw (number_new ((Some 0)) (None) (None) (None) (None) (None) (None)) ;;
  x54 <~ unw (matter_qb64 x53) ;;
  let x55 := (VObj (fold_left (fun o e => map_insert (fst e) (snd e) o) [((s2b "v"), (VStr (s2b "ACDC10JSON000000_"))); ((s2b "t"), (VStr (s2b "icp"))); ((s2b "d"), (VStr (s2b ""))); ((s2b "i"), (VStr (s2b "BEy_EvE8OUMqj0AgCJ3wOCOrIVHVtwubYAysPyaAv9VI"))); ((s2b "s"), (VStr (s2b "0"))); ((s2b "kt"), (VStr (s2b "1"))); ((s2b "k"), (VArr [(VStr (s2b "BC9Df6ssUZQFQZJYVUyfudw4WTQsugGcvVD_Z4ChFGE4"))])); ((s2b "nt"), (VStr (s2b "1"))); ((s2b "n"), (VArr [(VStr (s2b "ELC5L3iBVD77d_MYbYGGCUQgqQBju1o4x1Ud-z2sL-ux"))])); ((s2b "bt"), (VStr (s2b "0"))); ((s2b "f"), (VStr x54)); ((s2b "b"), (VArr [])); ((s2b "c"), (VArr [])); ((s2b "a"), (VArr []))] [])) in
  x56 <~ unw (saidify (x55) (None) (None) (None) (None)) ;;
  let '(x57, x58) := x56 in
  _ <~ need (errs (serder_new (None) (None) (None) ((Some x58)) (None))) ;;
  Ok tt.
End T.

(** the 1 cases of core/creder.rs *)
Definition creder_cases {P : Profile} : list (outcome unit) :=
  [t_creder_sanity_0].
Example creder_conforms : forall P : Profile, forallb ok creder_cases = true.
Proof. intros [|]; vm_compute; reflexivity. Qed.
(** the 5 cases of core/sadder.rs *)
Definition sadder_cases {P : Profile} : list (outcome unit) :=
  [t_sadder_new_0; t_sadder_new_unhappy_paths_0; t_sadder_populate_from_kind_and_self_0; t_sadder_populate_from_kind_and_self_unhappy_paths_0; t_sadder_pretty_0].
Example sadder_conforms : forall P : Profile, forallb ok sadder_cases = true.
Proof. intros [|]; vm_compute; reflexivity. Qed.
(** the 12 cases of core/saider.rs *)
Definition saider_cases {P : Profile} : list (outcome unit) :=
  [t_saider_convenience_0; t_saider_new_0; t_saider_new_with_qb64_0; t_saider_new_with_qb64_1; t_saider_basic_0; t_saider_basic_1; t_saider_basic_2; t_saider_basic_3; t_saider_basic_4; t_saider_keri_0; t_saider_new_with_things_0; t_saider_unhappy_paths_0].
Example saider_conforms : forall P : Profile, forallb ok saider_cases = true.
Proof. intros [|]; vm_compute; reflexivity. Qed.
(** the 3 cases of core/serder.rs *)
Definition serder_cases {P : Profile} : list (outcome unit) :=
  [t_serder_convenience_0; t_serder_python_interop_0; t_serder_creation_0].
Example serder_conforms : forall P : Profile, forallb ok serder_cases = true.
Proof. intros [|]; vm_compute; reflexivity. Qed.
