(** The unit tests of /repo/src/core/bexter.rs, /repo/src/core/common.rs, /repo/src/core/counter/mod.rs, /repo/src/core/counter/tables.rs, /repo/src/core/dater.rs, /repo/src/core/number.rs, /repo/src/core/seqner.rs, /repo/src/core/util.rs, /repo/src/data.rs on the model: written by tools/mkconform.py.
    Every definition is one case of a test function; it is [Ok tt] if all assertions hold. *)
From Verif Require Import Base Utf8 B64 Util StdStr MatterTables Matter CounterTables Counter IndexerTables Indexer Crypto Prims Signer Data Json Common Saider Tholder Sadder Pather Prefixer Pretty Defaults DataDefs Hash Float ConformDefs.
#[local] Existing Instance test_crypto.
#[local] Existing Instance real_floats.
Section T.
Context {P : Profile}.
(** core/bexter.rs, convenience *)
Definition t_bexter_convenience_0 : outcome unit :=
  _ <~ need (ok (bexter_new (Some (s2b "A")) None None None None None)) ;;
  _ <~ need (ok (bexter_new None ((Some (s2b "4A"))) (Some [0; 0; 0]) None None None)) ;;
  _ <~ need (ok (bexter_new None None None (Some (s2b "4AABAAAA")) None None)) ;;
  _ <~ need (ok (bexter_new None None None None (Some (s2b "4AABAAAA")) None)) ;;
  _ <~ need (ok (bexter_new None None None None None (Some [224; 0; 1; 0; 0; 0]))) ;;
  Ok tt.
(** core/bexter.rs, python_interop *)
Definition t_bexter_python_interop_0 : outcome unit :=
  _ <~ need (errs (bexter_new (None) (None) (None) (None) (None) (None))) ;;
  let x1 := (s2b "@!") in
  _ <~ need (errs (bexter_new ((Some x1)) (None) (None) (None) (None) (None))) ;;
  Ok tt.
(** core/bexter.rs, snowflakes *)
Definition t_bexter_snowflakes_0 : outcome unit :=
  let x1 := (s2b "AAAA") in
  let x2 := (s2b "4A") in
  let x3 := [0; 0; 0] in
  let x4 := (s2b "4AABAAAA") in
  let x5 := (s2b "4AABAAAA") in
  let x6 := [224; 0; 1; 0; 0; 0] in
  let x7 := (s2b "AAA") in
  x8 <~ unw (bexter_new ((Some x1)) (None) (None) (None) (None) (None)) ;;
  let x9 := x8 in
  _ <~ need (same (m_code x9) x2) ;;
  _ <~ need (same (m_raw x9) x3) ;;
  x10 <~ unw (matter_qb64b x9) ;;
  _ <~ need (same x10 x4) ;;
  x11 <~ unw (matter_qb64 x9) ;;
  _ <~ need (same x11 x5) ;;
  x12 <~ unw (matter_qb2 x9) ;;
  _ <~ need (same x12 x6) ;;
  x13 <~ unw (bext_of x9) ;;
  _ <~ need (same x13 x7) ;;
  Ok tt.
(** core/bexter.rs, snowflakes *)
Definition t_bexter_snowflakes_1 : outcome unit :=
  let x1 := (s2b "ABBB") in
  let x2 := (s2b "4A") in
  let x3 := [0; 16; 65] in
  let x4 := (s2b "4AABABBB") in
  let x5 := (s2b "4AABABBB") in
  let x6 := [224; 0; 1; 0; 16; 65] in
  let x7 := (s2b "BBB") in
  x8 <~ unw (bexter_new ((Some x1)) (None) (None) (None) (None) (None)) ;;
  let x9 := x8 in
  _ <~ need (same (m_code x9) x2) ;;
  _ <~ need (same (m_raw x9) x3) ;;
  x10 <~ unw (matter_qb64b x9) ;;
  _ <~ need (same x10 x4) ;;
  x11 <~ unw (matter_qb64 x9) ;;
  _ <~ need (same x11 x5) ;;
  x12 <~ unw (matter_qb2 x9) ;;
  _ <~ need (same x12 x6) ;;
  x13 <~ unw (bext_of x9) ;;
  _ <~ need (same x13 x7) ;;
  Ok tt.
(** core/bexter.rs, creation *)
Definition t_bexter_creation_0 : outcome unit :=
  let x1 := (s2b "") in
  let x2 := (s2b "4A") in
  let x3 := (s2b "") in
  let x4 := (s2b "4AAA") in
  let x5 := (s2b "4AAA") in
  let x6 := [224; 0; 0] in
  x7 <~ unw (bexter_new ((Some x1)) (None) (None) (None) (None) (None)) ;;
  let x8 := x7 in
  _ <~ need (same (m_code x8) x2) ;;
  _ <~ need (same (m_raw x8) x3) ;;
  x9 <~ unw (matter_qb64b x8) ;;
  _ <~ need (same x9 x4) ;;
  x10 <~ unw (matter_qb64 x8) ;;
  _ <~ need (same x10 x5) ;;
  x11 <~ unw (matter_qb2 x8) ;;
  _ <~ need (same x11 x6) ;;
  x12 <~ unw (bext_of x8) ;;
  _ <~ need (same x12 x1) ;;
  Ok tt.
(** core/bexter.rs, creation *)
Definition t_bexter_creation_1 : outcome unit :=
  let x1 := (s2b "-") in
  let x2 := (s2b "6A") in
  let x3 := (s2b ">") in
  let x4 := (s2b "6AABAAA-") in
  let x5 := (s2b "6AABAAA-") in
  let x6 := [232; 0; 1; 0; 0; 62] in
  x7 <~ unw (bexter_new ((Some x1)) (None) (None) (None) (None) (None)) ;;
  let x8 := x7 in
  _ <~ need (same (m_code x8) x2) ;;
  _ <~ need (same (m_raw x8) x3) ;;
  x9 <~ unw (matter_qb64b x8) ;;
  _ <~ need (same x9 x4) ;;
  x10 <~ unw (matter_qb64 x8) ;;
  _ <~ need (same x10 x5) ;;
  x11 <~ unw (matter_qb2 x8) ;;
  _ <~ need (same x11 x6) ;;
  x12 <~ unw (bext_of x8) ;;
  _ <~ need (same x12 x1) ;;
  Ok tt.
(** core/bexter.rs, creation *)
Definition t_bexter_creation_2 : outcome unit :=
  let x1 := (s2b "-A") in
  let x2 := (s2b "5A") in
  let x3 := [15; 128] in
  let x4 := (s2b "5AABAA-A") in
  let x5 := (s2b "5AABAA-A") in
  let x6 := [228; 0; 1; 0; 15; 128] in
  x7 <~ unw (bexter_new ((Some x1)) (None) (None) (None) (None) (None)) ;;
  let x8 := x7 in
  _ <~ need (same (m_code x8) x2) ;;
  _ <~ need (same (m_raw x8) x3) ;;
  x9 <~ unw (matter_qb64b x8) ;;
  _ <~ need (same x9 x4) ;;
  x10 <~ unw (matter_qb64 x8) ;;
  _ <~ need (same x10 x5) ;;
  x11 <~ unw (matter_qb2 x8) ;;
  _ <~ need (same x11 x6) ;;
  x12 <~ unw (bext_of x8) ;;
  _ <~ need (same x12 x1) ;;
  Ok tt.
(** core/bexter.rs, creation *)
Definition t_bexter_creation_3 : outcome unit :=
  let x1 := (s2b "-A-") in
  let x2 := (s2b "4A") in
  let x3 := [3; 224; 62] in
  let x4 := (s2b "4AABA-A-") in
  let x5 := (s2b "4AABA-A-") in
  let x6 := [224; 0; 1; 3; 224; 62] in
  x7 <~ unw (bexter_new ((Some x1)) (None) (None) (None) (None) (None)) ;;
  let x8 := x7 in
  _ <~ need (same (m_code x8) x2) ;;
  _ <~ need (same (m_raw x8) x3) ;;
  x9 <~ unw (matter_qb64b x8) ;;
  _ <~ need (same x9 x4) ;;
  x10 <~ unw (matter_qb64 x8) ;;
  _ <~ need (same x10 x5) ;;
  x11 <~ unw (matter_qb2 x8) ;;
  _ <~ need (same x11 x6) ;;
  x12 <~ unw (bext_of x8) ;;
  _ <~ need (same x12 x1) ;;
  Ok tt.
(** core/bexter.rs, creation *)
Definition t_bexter_creation_4 : outcome unit :=
  let x1 := (s2b "-A-B") in
  let x2 := (s2b "4A") in
  let x3 := [248; 15; 129] in
  let x4 := (s2b "4AAB-A-B") in
  let x5 := (s2b "4AAB-A-B") in
  let x6 := [224; 0; 1; 248; 15; 129] in
  x7 <~ unw (bexter_new ((Some x1)) (None) (None) (None) (None) (None)) ;;
  let x8 := x7 in
  _ <~ need (same (m_code x8) x2) ;;
  _ <~ need (same (m_raw x8) x3) ;;
  x9 <~ unw (matter_qb64b x8) ;;
  _ <~ need (same x9 x4) ;;
  x10 <~ unw (matter_qb64 x8) ;;
  _ <~ need (same x10 x5) ;;
  x11 <~ unw (matter_qb2 x8) ;;
  _ <~ need (same x11 x6) ;;
  x12 <~ unw (bext_of x8) ;;
  _ <~ need (same x12 x1) ;;
  Ok tt.
(** core/bexter.rs, creation *)
Definition t_bexter_creation_5 : outcome unit :=
  let x1 := (s2b "A") in
  let x2 := (s2b "6A") in
  let x3 := [0] in
  let x4 := (s2b "6AABAAAA") in
  let x5 := (s2b "6AABAAAA") in
  let x6 := [232; 0; 1; 0; 0; 0] in
  x7 <~ unw (bexter_new ((Some x1)) (None) (None) (None) (None) (None)) ;;
  let x8 := x7 in
  _ <~ need (same (m_code x8) x2) ;;
  _ <~ need (same (m_raw x8) x3) ;;
  x9 <~ unw (matter_qb64b x8) ;;
  _ <~ need (same x9 x4) ;;
  x10 <~ unw (matter_qb64 x8) ;;
  _ <~ need (same x10 x5) ;;
  x11 <~ unw (matter_qb2 x8) ;;
  _ <~ need (same x11 x6) ;;
  x12 <~ unw (bext_of x8) ;;
  _ <~ need (same x12 x1) ;;
  Ok tt.
(** core/bexter.rs, creation *)
Definition t_bexter_creation_6 : outcome unit :=
  let x1 := (s2b "AA") in
  let x2 := (s2b "5A") in
  let x3 := [0; 0] in
  let x4 := (s2b "5AABAAAA") in
  let x5 := (s2b "5AABAAAA") in
  let x6 := [228; 0; 1; 0; 0; 0] in
  x7 <~ unw (bexter_new ((Some x1)) (None) (None) (None) (None) (None)) ;;
  let x8 := x7 in
  _ <~ need (same (m_code x8) x2) ;;
  _ <~ need (same (m_raw x8) x3) ;;
  x9 <~ unw (matter_qb64b x8) ;;
  _ <~ need (same x9 x4) ;;
  x10 <~ unw (matter_qb64 x8) ;;
  _ <~ need (same x10 x5) ;;
  x11 <~ unw (matter_qb2 x8) ;;
  _ <~ need (same x11 x6) ;;
  x12 <~ unw (bext_of x8) ;;
  _ <~ need (same x12 x1) ;;
  Ok tt.
(** core/bexter.rs, creation *)
Definition t_bexter_creation_7 : outcome unit :=
  let x1 := (s2b "AAA") in
  let x2 := (s2b "4A") in
  let x3 := [0; 0; 0] in
  let x4 := (s2b "4AABAAAA") in
  let x5 := (s2b "4AABAAAA") in
  let x6 := [224; 0; 1; 0; 0; 0] in
  x7 <~ unw (bexter_new ((Some x1)) (None) (None) (None) (None) (None)) ;;
  let x8 := x7 in
  _ <~ need (same (m_code x8) x2) ;;
  _ <~ need (same (m_raw x8) x3) ;;
  x9 <~ unw (matter_qb64b x8) ;;
  _ <~ need (same x9 x4) ;;
  x10 <~ unw (matter_qb64 x8) ;;
  _ <~ need (same x10 x5) ;;
  x11 <~ unw (matter_qb2 x8) ;;
  _ <~ need (same x11 x6) ;;
  x12 <~ unw (bext_of x8) ;;
  _ <~ need (same x12 x1) ;;
  Ok tt.
(** core/bexter.rs, creation *)
Definition t_bexter_creation_8 : outcome unit :=
  let x1 := (s2b "ABB") in
  let x2 := (s2b "4A") in
  let x3 := [0; 0; 65] in
  let x4 := (s2b "4AABAABB") in
  let x5 := (s2b "4AABAABB") in
  let x6 := [224; 0; 1; 0; 0; 65] in
  x7 <~ unw (bexter_new ((Some x1)) (None) (None) (None) (None) (None)) ;;
  let x8 := x7 in
  _ <~ need (same (m_code x8) x2) ;;
  _ <~ need (same (m_raw x8) x3) ;;
  x9 <~ unw (matter_qb64b x8) ;;
  _ <~ need (same x9 x4) ;;
  x10 <~ unw (matter_qb64 x8) ;;
  _ <~ need (same x10 x5) ;;
  x11 <~ unw (matter_qb2 x8) ;;
  _ <~ need (same x11 x6) ;;
  x12 <~ unw (bext_of x8) ;;
  _ <~ need (same x12 x1) ;;
  Ok tt.
(** core/bexter.rs, creation *)
Definition t_bexter_creation_9 : outcome unit :=
  let x1 := (s2b "BBB") in
  let x2 := (s2b "4A") in
  let x3 := [0; 16; 65] in
  let x4 := (s2b "4AABABBB") in
  let x5 := (s2b "4AABABBB") in
  let x6 := [224; 0; 1; 0; 16; 65] in
  x7 <~ unw (bexter_new ((Some x1)) (None) (None) (None) (None) (None)) ;;
  let x8 := x7 in
  _ <~ need (same (m_code x8) x2) ;;
  _ <~ need (same (m_raw x8) x3) ;;
  x9 <~ unw (matter_qb64b x8) ;;
  _ <~ need (same x9 x4) ;;
  x10 <~ unw (matter_qb64 x8) ;;
  _ <~ need (same x10 x5) ;;
  x11 <~ unw (matter_qb2 x8) ;;
  _ <~ need (same x11 x6) ;;
  x12 <~ unw (bext_of x8) ;;
  _ <~ need (same x12 x1) ;;
  Ok tt.
(** core/bexter.rs, unhappy *)
Definition t_bexter_unhappy_0 : outcome unit :=
  _ <~ need (errs (bexter_new (None) (None) (None) (None) ((Some (s2b "DKxy2sgzfplyr-tgwIxS19f2OchFHtLwPWD3v4oYimBx"))) (None))) ;;
  Ok tt.
(** core/common.rs, loads *)
Definition t_common_loads_0 : outcome unit :=
  x1 <~ unw (Ok (to_json (VObj []))) ;;
  let x2 := x1 in
  _ <~ need (ok (loads (x2) (None) (None))) ;;
  Ok tt.
(** core/common.rs, sniff_unhappy_paths *)
Definition t_common_sniff_unhappy_paths_0 : outcome unit :=
  _ <~ need (errs (sniff ([]))) ;;
  x1 <~ unw (Ok (to_json (VObj (fold_left (fun o e => map_insert (fst e) (snd e) o) [((s2b "v"), (VStr (s2b "version string must be valid!")))] [])))) ;;
  _ <~ need (errs (sniff (x1))) ;;
  x2 <~ unw (Ok (to_json (VObj (fold_left (fun o e => map_insert (fst e) (snd e) o) [((s2b "i"), (VStr (s2b "needs to start within 12 characters!"))); ((s2b "v"), (VStr (s2b "KERI10JSON000000_")))] [])))) ;;
  _ <~ need (errs (sniff (x2))) ;;
  x3 <~ unw (Ok (to_json (VObj (fold_left (fun o e => map_insert (fst e) (snd e) o) [((s2b "v"), (VStr (s2b "KERI10ABCD000000_"))); ((s2b "confusing but necessary filler"), (VStr (s2b "hmm...maybe a 12 octet magic prefix?")))] [])))) ;;
  _ <~ need (errs (sniff (x3))) ;;
  Ok tt.
(** core/common.rs, loads_unhappy_paths *)
Definition t_common_loads_unhappy_paths_0 : outcome unit :=
  x1 <~ unw (Ok (to_json (VObj []))) ;;
  let x2 := x1 in
  _ <~ need (errs (loads (x2) (None) ((Some (s2b "CESR"))))) ;;
  _ <~ need (errs (loads (x2) ((Some 1024)) ((Some (s2b "CESR"))))) ;;
  Ok tt.
(** core/common.rs, sizeify_unhappy_paths *)
Definition t_common_sizeify_unhappy_paths_0 : outcome unit :=
  _ <~ need (errs (sizeify ((VObj [])) (None))) ;;
  _ <~ need (errs (sizeify ((VObj (fold_left (fun o e => map_insert (fst e) (snd e) o) [((s2b "v"), (VStr (s2b "KERIffJSON000000_")))] []))) (None))) ;;
  _ <~ need (errs (sizeify ((VObj (fold_left (fun o e => map_insert (fst e) (snd e) o) [((s2b "v"), (VStr (s2b "KERI10JSON000000_")))] []))) ((Some (s2b "CESR"))))) ;;
  _ <~ need (errs (sizeify ((VObj (fold_left (fun o e => map_insert (fst e) (snd e) o) [((s2b "i"), (VStr (s2b "filler entry"))); ((s2b "v"), (VStr (s2b "KERI10JSON000000_")))] []))) (None))) ;;
  Ok tt.
(** core/common.rs, versify_unhappy_paths *)
Definition t_common_versify_unhappy_paths_0 : outcome unit :=
  _ <~ need (errs (versify ((Some (s2b "CESR"))) (None) (None) (None))) ;;
  _ <~ need (errs (versify (None) (None) ((Some (s2b "CESR"))) (None))) ;;
  Ok tt.
(** core/common.rs, deversify_unhappy_paths *)
Definition t_common_deversify_unhappy_paths_0 : outcome unit :=
  let x1 := (s2b "CESR10JSON000000_") in
  _ <~ need (errs (deversify (x1))) ;;
  Ok tt.
(** core/common.rs, deversify_unhappy_paths *)
Definition t_common_deversify_unhappy_paths_1 : outcome unit :=
  let x1 := (s2b "KERI10CESR000000_") in
  _ <~ need (errs (deversify (x1))) ;;
  Ok tt.
(** core/common.rs, deversify_unhappy_paths *)
Definition t_common_deversify_unhappy_paths_2 : outcome unit :=
  let x1 := (s2b "KERIXXJSON000000_") in
  _ <~ need (errs (deversify (x1))) ;;
  Ok tt.
(** core/common.rs, dumps_unhappy_paths *)
Definition t_common_dumps_unhappy_paths_0 : outcome unit :=
  _ <~ need (errs (dumps ((VObj [])) ((Some (s2b "CESR"))))) ;;
  Ok tt.
(** core/counter/mod.rs, new *)
Definition t_counter_new_0 : outcome unit :=
  let x1 := (s2b "-AAB") in
  let x2 := 1 in
  let x3 := (s2b "B") in
  let x4 := (s2b "-A") in
  _ <~ need (errs (counter_new (None) (None) (None) (None) (None) (None))) ;;
  x5 <~ unw (counter_new (None) (None) ((Some x4)) (None) (None) (None)) ;;
  let x6 := x5 in
  _ <~ need (same (c_count x6) 1) ;;
  x7 <~ unw (counter_new ((Some x2)) (None) ((Some x4)) (None) (None) (None)) ;;
  let x8 := x7 in
  x9 <~ unw (counter_new (None) ((Some x3)) ((Some x4)) (None) (None) (None)) ;;
  let x10 := x9 in
  x11 <~ unw (counter_new (None) (None) (None) (None) ((Some x1)) (None)) ;;
  let x12 := x11 in
  _ <~ need (same (c_code x8) x4) ;;
  _ <~ need (same (c_code x10) x4) ;;
  _ <~ need (same (c_code x12) x4) ;;
  _ <~ need (same (c_count x8) x2) ;;
  _ <~ need (same (c_count x10) x2) ;;
  _ <~ need (same (c_count x12) x2) ;;
  x13 <~ unw (counter_qb64b x8 ) ;;
  let x14 := x13 in
  x15 <~ unw (counter_qb2 x8 ) ;;
  let x16 := x15 in
  _ <~ need (ok (counter_new (None) (None) (None) ((Some x14)) (None) (None))) ;;
  _ <~ need (ok (counter_new (None) (None) (None) (None) (None) ((Some x16)))) ;;
  Ok tt.
(** core/counter/mod.rs, new *)
Definition t_counter_new_1 : outcome unit :=
  let x1 := (s2b "-AAF") in
  let x2 := 5 in
  let x3 := (s2b "F") in
  let x4 := (s2b "-A") in
  _ <~ need (errs (counter_new (None) (None) (None) (None) (None) (None))) ;;
  x5 <~ unw (counter_new (None) (None) ((Some x4)) (None) (None) (None)) ;;
  let x6 := x5 in
  _ <~ need (same (c_count x6) 1) ;;
  x7 <~ unw (counter_new ((Some x2)) (None) ((Some x4)) (None) (None) (None)) ;;
  let x8 := x7 in
  x9 <~ unw (counter_new (None) ((Some x3)) ((Some x4)) (None) (None) (None)) ;;
  let x10 := x9 in
  x11 <~ unw (counter_new (None) (None) (None) (None) ((Some x1)) (None)) ;;
  let x12 := x11 in
  _ <~ need (same (c_code x8) x4) ;;
  _ <~ need (same (c_code x10) x4) ;;
  _ <~ need (same (c_code x12) x4) ;;
  _ <~ need (same (c_count x8) x2) ;;
  _ <~ need (same (c_count x10) x2) ;;
  _ <~ need (same (c_count x12) x2) ;;
  x13 <~ unw (counter_qb64b x8 ) ;;
  let x14 := x13 in
  x15 <~ unw (counter_qb2 x8 ) ;;
  let x16 := x15 in
  _ <~ need (ok (counter_new (None) (None) (None) ((Some x14)) (None) (None))) ;;
  _ <~ need (ok (counter_new (None) (None) (None) (None) (None) ((Some x16)))) ;;
  Ok tt.
(** core/counter/mod.rs, new *)
Definition t_counter_new_2 : outcome unit :=
  let x1 := (s2b "-0VAAAQA") in
  let x2 := 1024 in
  let x3 := (s2b "QA") in
  let x4 := (s2b "-0V") in
  _ <~ need (errs (counter_new (None) (None) (None) (None) (None) (None))) ;;
  x5 <~ unw (counter_new (None) (None) ((Some x4)) (None) (None) (None)) ;;
  let x6 := x5 in
  _ <~ need (same (c_count x6) 1) ;;
  x7 <~ unw (counter_new ((Some x2)) (None) ((Some x4)) (None) (None) (None)) ;;
  let x8 := x7 in
  x9 <~ unw (counter_new (None) ((Some x3)) ((Some x4)) (None) (None) (None)) ;;
  let x10 := x9 in
  x11 <~ unw (counter_new (None) (None) (None) (None) ((Some x1)) (None)) ;;
  let x12 := x11 in
  _ <~ need (same (c_code x8) x4) ;;
  _ <~ need (same (c_code x10) x4) ;;
  _ <~ need (same (c_code x12) x4) ;;
  _ <~ need (same (c_count x8) x2) ;;
  _ <~ need (same (c_count x10) x2) ;;
  _ <~ need (same (c_count x12) x2) ;;
  x13 <~ unw (counter_qb64b x8 ) ;;
  let x14 := x13 in
  x15 <~ unw (counter_qb2 x8 ) ;;
  let x16 := x15 in
  _ <~ need (ok (counter_new (None) (None) (None) ((Some x14)) (None) (None))) ;;
  _ <~ need (ok (counter_new (None) (None) (None) (None) (None) ((Some x16)))) ;;
  Ok tt.
(** core/counter/mod.rs, creation *)
Definition t_counter_creation_0 : outcome unit :=
  let x1 := (s2b "-AAB") in
  let x2 := 1 in
  let x3 := (s2b "B") in
  let x4 := (s2b "-A") in
  let x5 := x1 in
  x6 <~ unw (b64_decode (x1)) ;;
  let x7 := x6 in
  x8 <~ unw (counter_new ((Some x2)) (None) ((Some x4)) (None) (None) (None)) ;;
  let x9 := x8 in
  x10 <~ unw (counter_new (None) ((Some x3)) ((Some x4)) (None) (None) (None)) ;;
  let x11 := x10 in
  x12 <~ unw (counter_new (None) (None) (None) (None) ((Some x1)) (None)) ;;
  let x13 := x12 in
  x14 <~ unw (counter_new (None) (None) (None) ((Some x5)) (None) (None)) ;;
  let x15 := x14 in
  x16 <~ unw (counter_new (None) (None) (None) (None) (None) ((Some x7))) ;;
  let x17 := x16 in
  _ <~ need (same (c_code x9) (c_code x11)) ;;
  _ <~ need (same (c_count x9) (c_count x11)) ;;
  _ <~ need (same (c_code x9) (c_code x13)) ;;
  _ <~ need (same (c_count x9) (c_count x13)) ;;
  _ <~ need (same (c_code x9) (c_code x15)) ;;
  _ <~ need (same (c_count x9) (c_count x15)) ;;
  _ <~ need (same (c_code x9) (c_code x17)) ;;
  _ <~ need (same (c_count x9) (c_count x17)) ;;
  Ok tt.
(** core/counter/mod.rs, creation *)
Definition t_counter_creation_1 : outcome unit :=
  let x1 := (s2b "-AAF") in
  let x2 := 5 in
  let x3 := (s2b "F") in
  let x4 := (s2b "-A") in
  let x5 := x1 in
  x6 <~ unw (b64_decode (x1)) ;;
  let x7 := x6 in
  x8 <~ unw (counter_new ((Some x2)) (None) ((Some x4)) (None) (None) (None)) ;;
  let x9 := x8 in
  x10 <~ unw (counter_new (None) ((Some x3)) ((Some x4)) (None) (None) (None)) ;;
  let x11 := x10 in
  x12 <~ unw (counter_new (None) (None) (None) (None) ((Some x1)) (None)) ;;
  let x13 := x12 in
  x14 <~ unw (counter_new (None) (None) (None) ((Some x5)) (None) (None)) ;;
  let x15 := x14 in
  x16 <~ unw (counter_new (None) (None) (None) (None) (None) ((Some x7))) ;;
  let x17 := x16 in
  _ <~ need (same (c_code x9) (c_code x11)) ;;
  _ <~ need (same (c_count x9) (c_count x11)) ;;
  _ <~ need (same (c_code x9) (c_code x13)) ;;
  _ <~ need (same (c_count x9) (c_count x13)) ;;
  _ <~ need (same (c_code x9) (c_code x15)) ;;
  _ <~ need (same (c_count x9) (c_count x15)) ;;
  _ <~ need (same (c_code x9) (c_code x17)) ;;
  _ <~ need (same (c_count x9) (c_count x17)) ;;
  Ok tt.
(** core/counter/mod.rs, creation *)
Definition t_counter_creation_2 : outcome unit :=
  let x1 := (s2b "-0VAAAQA") in
  let x2 := 1024 in
  let x3 := (s2b "QA") in
  let x4 := (s2b "-0V") in
  let x5 := x1 in
  x6 <~ unw (b64_decode (x1)) ;;
  let x7 := x6 in
  x8 <~ unw (counter_new ((Some x2)) (None) ((Some x4)) (None) (None) (None)) ;;
  let x9 := x8 in
  x10 <~ unw (counter_new (None) ((Some x3)) ((Some x4)) (None) (None) (None)) ;;
  let x11 := x10 in
  x12 <~ unw (counter_new (None) (None) (None) (None) ((Some x1)) (None)) ;;
  let x13 := x12 in
  x14 <~ unw (counter_new (None) (None) (None) ((Some x5)) (None) (None)) ;;
  let x15 := x14 in
  x16 <~ unw (counter_new (None) (None) (None) (None) (None) ((Some x7))) ;;
  let x17 := x16 in
  _ <~ need (same (c_code x9) (c_code x11)) ;;
  _ <~ need (same (c_count x9) (c_count x11)) ;;
  _ <~ need (same (c_code x9) (c_code x13)) ;;
  _ <~ need (same (c_count x9) (c_count x13)) ;;
  _ <~ need (same (c_code x9) (c_code x15)) ;;
  _ <~ need (same (c_count x9) (c_count x15)) ;;
  _ <~ need (same (c_code x9) (c_code x17)) ;;
  _ <~ need (same (c_count x9) (c_count x17)) ;;
  Ok tt.
(** core/counter/mod.rs, versioned_creation *)
Definition t_counter_versioned_creation_0 : outcome unit :=
  let x1 := 0 in
  let x2 := (s2b "AAA") in
  let x3 := 0 in
  let x4 := (s2b "AAA") in
  let x5 := (s2b "--AAA") in
  let x6 := (x5 ++ x2) in
  let x7 := x6 in
  x8 <~ unw (b64_decode (x6)) ;;
  let x9 := x8 in
  x10 <~ unw (counter_new ((Some x3)) (None) ((Some x5)) (None) (None) (None)) ;;
  let x11 := x10 in
  x12 <~ unw (counter_new (None) ((Some x4)) ((Some x5)) (None) (None) (None)) ;;
  let x13 := x12 in
  x14 <~ unw (counter_new (None) (None) (None) (None) ((Some x6)) (None)) ;;
  let x15 := x14 in
  x16 <~ unw (counter_new (None) (None) (None) ((Some x7)) (None) (None)) ;;
  let x17 := x16 in
  x18 <~ unw (counter_new (None) (None) (None) (None) (None) ((Some x9))) ;;
  let x19 := x18 in
  _ <~ need (same (c_code x11) x5) ;;
  _ <~ need (same (c_count x11) x1) ;;
  _ <~ need (same (c_code x11) (c_code x13)) ;;
  _ <~ need (same (c_count x11) (c_count x13)) ;;
  _ <~ need (same (c_code x11) (c_code x15)) ;;
  _ <~ need (same (c_count x11) (c_count x15)) ;;
  _ <~ need (same (c_code x11) (c_code x17)) ;;
  _ <~ need (same (c_count x11) (c_count x17)) ;;
  _ <~ need (same (c_code x11) (c_code x19)) ;;
  _ <~ need (same (c_count x11) (c_count x19)) ;;
  x20 <~ unw (counter_count_as_b64 x11 (3)) ;;
  _ <~ need (same x20 x2) ;;
  x21 <~ unw (counter_count_as_b64 x11 (0)) ;;
  _ <~ need (same x21 x2) ;;
  Ok tt.
(** core/counter/mod.rs, b64_overflow_and_underflow *)
Definition t_counter_b64_overflow_and_underflow_0 : outcome unit :=
  let x1 := (s2b "-AAB") in
  let x2 := (x1 ++ (s2b "ABCD")) in
  x3 <~ unw (counter_new (None) (None) (None) (None) ((Some x2)) (None)) ;;
  let x4 := x3 in
  x5 <~ unw (counter_qb64 x4 ) ;;
  x6 <~ unw (c_sizage ((c_code x4))) ;;
  _ <~ need (same (N.of_nat (length x5)) (fs x6)) ;;
  let x7 := (take ((N.of_nat (length x1)) - 1)%N x1) in
  _ <~ need (errs (counter_new_with_qb64 (x7))) ;;
  Ok tt.
(** core/counter/mod.rs, binary_overflow_and_underflow *)
Definition t_counter_binary_overflow_and_underflow_0 : outcome unit :=
  let x1 := [248; 0; 1] in
  let x2 := x1 in
  let x3 := (take ((N.of_nat (length x2)) + 5)%N (x2 ++ repeat 1 (N.to_nat ((N.of_nat (length x2)) + 5)%N))) in
  x4 <~ unw (counter_new (None) (None) (None) (None) (None) ((Some x3))) ;;
  let x5 := x4 in
  x6 <~ unw (counter_qb2 x5 ) ;;
  _ <~ need (same x6 x1) ;;
  x7 <~ unw (counter_qb64 x5 ) ;;
  x8 <~ unw (c_sizage ((c_code x5))) ;;
  _ <~ need (same (N.of_nat (length x7)) (fs x8)) ;;
  let x9 := (take ((N.of_nat (length x1)) - 1)%N x1) in
  _ <~ need (errs (counter_new (None) (None) (None) (None) (None) ((Some x9)))) ;;
  Ok tt.
(** core/counter/mod.rs, exfil_infil_bexfil_binfil *)
Definition t_counter_exfil_infil_bexfil_binfil_0 : outcome unit :=
  let x1 := (s2b "-0VAAAQA") in
  x2 <~ unw (counter_new (None) (None) (None) (None) ((Some x1)) (None)) ;;
  let x3 := x2 in
  x4 <~ unw (counter_qb2 x3 ) ;;
  let x5 := x4 in
  x6 <~ unw (counter_new (None) (None) (None) (None) (None) ((Some x5))) ;;
  let x7 := x6 in
  _ <~ need (same (c_code x3) (c_code x7)) ;;
  _ <~ need (same (c_count x3) (c_count x7)) ;;
  x8 <~ unw (counter_qb2 x3 ) ;;
  x9 <~ unw (counter_qb2 x7 ) ;;
  _ <~ need (same x8 x9) ;;
  x10 <~ unw (counter_qb64 x7 ) ;;
  _ <~ need (same x1 x10) ;;
  Ok tt.
(** core/counter/mod.rs, semantic_versioning_strings *)
Definition t_counter_semantic_versioning_strings_0 : outcome unit :=
  let x1 := (s2b "1.2.3") in
  let x2 := (s2b "BCD") in
  x3 <~ unw (sem_ver_str_to_b64 (x1)) ;;
  _ <~ need (same x3 x2) ;;
  Ok tt.
(** core/counter/mod.rs, semantic_versioning_strings *)
Definition t_counter_semantic_versioning_strings_1 : outcome unit :=
  let x1 := (s2b "1.1") in
  let x2 := (s2b "BBA") in
  x3 <~ unw (sem_ver_str_to_b64 (x1)) ;;
  _ <~ need (same x3 x2) ;;
  Ok tt.
(** core/counter/mod.rs, semantic_versioning_strings *)
Definition t_counter_semantic_versioning_strings_2 : outcome unit :=
  let x1 := (s2b "1.") in
  let x2 := (s2b "BAA") in
  x3 <~ unw (sem_ver_str_to_b64 (x1)) ;;
  _ <~ need (same x3 x2) ;;
  Ok tt.
(** core/counter/mod.rs, semantic_versioning_strings *)
Definition t_counter_semantic_versioning_strings_3 : outcome unit :=
  let x1 := (s2b "1") in
  let x2 := (s2b "BAA") in
  x3 <~ unw (sem_ver_str_to_b64 (x1)) ;;
  _ <~ need (same x3 x2) ;;
  Ok tt.
(** core/counter/mod.rs, semantic_versioning_strings *)
Definition t_counter_semantic_versioning_strings_4 : outcome unit :=
  let x1 := (s2b "1.2.") in
  let x2 := (s2b "BCA") in
  x3 <~ unw (sem_ver_str_to_b64 (x1)) ;;
  _ <~ need (same x3 x2) ;;
  Ok tt.
(** core/counter/mod.rs, semantic_versioning_strings *)
Definition t_counter_semantic_versioning_strings_5 : outcome unit :=
  let x1 := (s2b "..") in
  let x2 := (s2b "AAA") in
  x3 <~ unw (sem_ver_str_to_b64 (x1)) ;;
  _ <~ need (same x3 x2) ;;
  Ok tt.
(** core/counter/mod.rs, semantic_versioning_strings *)
Definition t_counter_semantic_versioning_strings_6 : outcome unit :=
  let x1 := (s2b "1..3") in
  let x2 := (s2b "BAD") in
  x3 <~ unw (sem_ver_str_to_b64 (x1)) ;;
  _ <~ need (same x3 x2) ;;
  Ok tt.
(** core/counter/mod.rs, semantic_versioning_u8s *)
Definition t_counter_semantic_versioning_u8s_0 : outcome unit :=
  let x1 := 1 in
  let x2 := 0 in
  let x3 := 0 in
  let x4 := (s2b "BAA") in
  x5 <~ unw (sem_ver_to_b64 (x1) (x2) (x3)) ;;
  _ <~ need (same x5 x4) ;;
  Ok tt.
(** core/counter/mod.rs, semantic_versioning_u8s *)
Definition t_counter_semantic_versioning_u8s_1 : outcome unit :=
  let x1 := 0 in
  let x2 := 1 in
  let x3 := 0 in
  let x4 := (s2b "ABA") in
  x5 <~ unw (sem_ver_to_b64 (x1) (x2) (x3)) ;;
  _ <~ need (same x5 x4) ;;
  Ok tt.
(** core/counter/mod.rs, semantic_versioning_u8s *)
Definition t_counter_semantic_versioning_u8s_2 : outcome unit :=
  let x1 := 0 in
  let x2 := 0 in
  let x3 := 1 in
  let x4 := (s2b "AAB") in
  x5 <~ unw (sem_ver_to_b64 (x1) (x2) (x3)) ;;
  _ <~ need (same x5 x4) ;;
  Ok tt.
(** core/counter/mod.rs, semantic_versioning_u8s *)
Definition t_counter_semantic_versioning_u8s_3 : outcome unit :=
  let x1 := 3 in
  let x2 := 4 in
  let x3 := 5 in
  let x4 := (s2b "DEF") in
  x5 <~ unw (sem_ver_to_b64 (x1) (x2) (x3)) ;;
  _ <~ need (same x5 x4) ;;
  Ok tt.
(** core/counter/mod.rs, semantic_versioning_unhappy_strings *)
Definition t_counter_semantic_versioning_unhappy_strings_0 : outcome unit :=
  let x1 := (s2b "64.0.1") in
  _ <~ need (errs (sem_ver_str_to_b64 (x1))) ;;
  Ok tt.
(** core/counter/mod.rs, semantic_versioning_unhappy_strings *)
Definition t_counter_semantic_versioning_unhappy_strings_1 : outcome unit :=
  let x1 := (s2b "-1.0.1") in
  _ <~ need (errs (sem_ver_str_to_b64 (x1))) ;;
  Ok tt.
(** core/counter/mod.rs, semantic_versioning_unhappy_strings *)
Definition t_counter_semantic_versioning_unhappy_strings_2 : outcome unit :=
  let x1 := (s2b "0.0.64") in
  _ <~ need (errs (sem_ver_str_to_b64 (x1))) ;;
  Ok tt.
(** core/counter/mod.rs, semantic_versioning_unhappy_u32s *)
Definition t_counter_semantic_versioning_unhappy_u32s_0 : outcome unit :=
  let x1 := 64 in
  let x2 := 0 in
  let x3 := 0 in
  _ <~ need (errs (sem_ver_to_b64 (x1) (x2) (x3))) ;;
  Ok tt.
(** core/counter/mod.rs, unhappy_paths *)
Definition t_counter_unhappy_paths_0 : outcome unit :=
  _ <~ need (errs (counter_new_with_code_and_count ((s2b "")) (1))) ;;
  _ <~ need (errs (counter_new_with_code_and_count ((s2b "-A")) ((64 * 64)%N))) ;;
  _ <~ need (errs (sem_ver_str_to_b64 ((s2b "1.2.3.4")))) ;;
  _ <~ need (errs (sem_ver_str_to_b64 ((s2b "bad.semantic.version")))) ;;
  _ <~ need (errs (counter_qb64 (Ctr (s2b "-A") (64 * 64)%N) )) ;;
  _ <~ need (errs (counter_new (None) (None) (None) (None) ((Some (s2b ""))) (None))) ;;
  _ <~ need (errs (counter_new (None) (None) (None) (None) ((Some (s2b "--"))) (None))) ;;
  _ <~ need (errs (counter_new (None) (None) (None) (None) ((Some (s2b "__"))) (None))) ;;
  _ <~ need (errs (counter_new (None) (None) (None) (None) ((Some (s2b "-A"))) (None))) ;;
  _ <~ need (errs (counter_new (None) (None) (None) ((Some [])) (None) (None))) ;;
  _ <~ need (errs (counter_new (None) (None) (None) (None) (None) ((Some [])))) ;;
  _ <~ need (errs (counter_new (None) (None) (None) (None) (None) ((Some [248; 0])))) ;;
  _ <~ need (errs (counter_new (None) (None) (None) (None) (None) ((Some [252; 0])))) ;;
  _ <~ need (errs (counter_new (None) (None) (None) (None) (None) ((Some [251; 224])))) ;;
  Ok tt.
(** core/counter/mod.rs, qb64b *)
Definition t_counter_qb64b_0 : outcome unit :=
  let x1 := (s2b "-A") in
  let x2 := 1 in
  let x3 := (Ctr x1 x2) in
  x4 <~ unw (counter_qb64b x3 ) ;;
  let x5 := x4 in
  _ <~ need (ok (counter_new (None) (None) (None) ((Some x5)) (None) (None))) ;;
  Ok tt.
(** core/counter/mod.rs, qb_size *)
Definition t_counter_qb_size_0 : outcome unit :=
  let x1 := (s2b "-AAB") in
  let x2 := (s2b "-A") in
  let x3 := 4 in
  x4 <~ unw (counter_new (None) (None) (None) (None) ((Some x1)) (None)) ;;
  let x5 := x4 in
  _ <~ need (same (c_code x5) x2) ;;
  x6 <~ unw (counter_full_size x5 ) ;;
  _ <~ need (same x6 x3) ;;
  Ok tt.
(** core/counter/mod.rs, qb_size *)
Definition t_counter_qb_size_1 : outcome unit :=
  let x1 := (s2b "-0VAAAQA") in
  let x2 := (s2b "-0V") in
  let x3 := 8 in
  x4 <~ unw (counter_new (None) (None) (None) (None) ((Some x1)) (None)) ;;
  let x5 := x4 in
  _ <~ need (same (c_code x5) x2) ;;
  x6 <~ unw (counter_full_size x5 ) ;;
  _ <~ need (same x6 x3) ;;
  Ok tt.
(** core/counter/mod.rs, qb_size *)
Definition t_counter_qb_size_2 : outcome unit :=
  let x1 := (s2b "--AAAAAA") in
  let x2 := (s2b "--AAA") in
  let x3 := 8 in
  x4 <~ unw (counter_new (None) (None) (None) (None) ((Some x1)) (None)) ;;
  let x5 := x4 in
  _ <~ need (same (c_code x5) x2) ;;
  x6 <~ unw (counter_full_size x5 ) ;;
  _ <~ need (same x6 x3) ;;
  Ok tt.
(** core/counter/tables.rs, hardage *)
Definition t_counter_tables_hardage_0 : outcome unit :=
  let x1 := (s2b "-A") in
  let x2 := 2 in
  x3 <~ unw (c_hardage (x1)) ;;
  _ <~ need (same x3 x2) ;;
  Ok tt.
(** core/counter/tables.rs, hardage *)
Definition t_counter_tables_hardage_1 : outcome unit :=
  let x1 := (s2b "-B") in
  let x2 := 2 in
  x3 <~ unw (c_hardage (x1)) ;;
  _ <~ need (same x3 x2) ;;
  Ok tt.
(** core/counter/tables.rs, hardage *)
Definition t_counter_tables_hardage_2 : outcome unit :=
  let x1 := (s2b "-C") in
  let x2 := 2 in
  x3 <~ unw (c_hardage (x1)) ;;
  _ <~ need (same x3 x2) ;;
  Ok tt.
(** core/counter/tables.rs, hardage *)
Definition t_counter_tables_hardage_3 : outcome unit :=
  let x1 := (s2b "-D") in
  let x2 := 2 in
  x3 <~ unw (c_hardage (x1)) ;;
  _ <~ need (same x3 x2) ;;
  Ok tt.
(** core/counter/tables.rs, hardage *)
Definition t_counter_tables_hardage_4 : outcome unit :=
  let x1 := (s2b "-E") in
  let x2 := 2 in
  x3 <~ unw (c_hardage (x1)) ;;
  _ <~ need (same x3 x2) ;;
  Ok tt.
(** core/counter/tables.rs, hardage *)
Definition t_counter_tables_hardage_5 : outcome unit :=
  let x1 := (s2b "-F") in
  let x2 := 2 in
  x3 <~ unw (c_hardage (x1)) ;;
  _ <~ need (same x3 x2) ;;
  Ok tt.
(** core/counter/tables.rs, hardage *)
Definition t_counter_tables_hardage_6 : outcome unit :=
  let x1 := (s2b "-G") in
  let x2 := 2 in
  x3 <~ unw (c_hardage (x1)) ;;
  _ <~ need (same x3 x2) ;;
  Ok tt.
(** core/counter/tables.rs, hardage *)
Definition t_counter_tables_hardage_7 : outcome unit :=
  let x1 := (s2b "-H") in
  let x2 := 2 in
  x3 <~ unw (c_hardage (x1)) ;;
  _ <~ need (same x3 x2) ;;
  Ok tt.
(** core/counter/tables.rs, hardage *)
Definition t_counter_tables_hardage_8 : outcome unit :=
  let x1 := (s2b "-I") in
  let x2 := 2 in
  x3 <~ unw (c_hardage (x1)) ;;
  _ <~ need (same x3 x2) ;;
  Ok tt.
(** core/counter/tables.rs, hardage *)
Definition t_counter_tables_hardage_9 : outcome unit :=
  let x1 := (s2b "-J") in
  let x2 := 2 in
  x3 <~ unw (c_hardage (x1)) ;;
  _ <~ need (same x3 x2) ;;
  Ok tt.
(** core/counter/tables.rs, hardage *)
Definition t_counter_tables_hardage_10 : outcome unit :=
  let x1 := (s2b "-K") in
  let x2 := 2 in
  x3 <~ unw (c_hardage (x1)) ;;
  _ <~ need (same x3 x2) ;;
  Ok tt.
(** core/counter/tables.rs, hardage *)
Definition t_counter_tables_hardage_11 : outcome unit :=
  let x1 := (s2b "-L") in
  let x2 := 2 in
  x3 <~ unw (c_hardage (x1)) ;;
  _ <~ need (same x3 x2) ;;
  Ok tt.
(** core/counter/tables.rs, hardage *)
Definition t_counter_tables_hardage_12 : outcome unit :=
  let x1 := (s2b "-V") in
  let x2 := 2 in
  x3 <~ unw (c_hardage (x1)) ;;
  _ <~ need (same x3 x2) ;;
  Ok tt.
(** core/counter/tables.rs, hardage *)
Definition t_counter_tables_hardage_13 : outcome unit :=
  let x1 := (s2b "-0") in
  let x2 := 3 in
  x3 <~ unw (c_hardage (x1)) ;;
  _ <~ need (same x3 x2) ;;
  Ok tt.
(** core/counter/tables.rs, hardage *)
Definition t_counter_tables_hardage_14 : outcome unit :=
  let x1 := (s2b "--") in
  let x2 := 5 in
  x3 <~ unw (c_hardage (x1)) ;;
  _ <~ need (same x3 x2) ;;
  Ok tt.
(** core/counter/tables.rs, bardage *)
Definition t_counter_tables_bardage_0 : outcome unit :=
  let x1 := [62; 0] in
  let x2 := 2 in
  x3 <~ unw (c_bardage (x1)) ;;
  _ <~ need (same x3 x2) ;;
  Ok tt.
(** core/counter/tables.rs, bardage *)
Definition t_counter_tables_bardage_1 : outcome unit :=
  let x1 := [62; 1] in
  let x2 := 2 in
  x3 <~ unw (c_bardage (x1)) ;;
  _ <~ need (same x3 x2) ;;
  Ok tt.
(** core/counter/tables.rs, bardage *)
Definition t_counter_tables_bardage_2 : outcome unit :=
  let x1 := [62; 2] in
  let x2 := 2 in
  x3 <~ unw (c_bardage (x1)) ;;
  _ <~ need (same x3 x2) ;;
  Ok tt.
(** core/counter/tables.rs, bardage *)
Definition t_counter_tables_bardage_3 : outcome unit :=
  let x1 := [62; 3] in
  let x2 := 2 in
  x3 <~ unw (c_bardage (x1)) ;;
  _ <~ need (same x3 x2) ;;
  Ok tt.
(** core/counter/tables.rs, bardage *)
Definition t_counter_tables_bardage_4 : outcome unit :=
  let x1 := [62; 4] in
  let x2 := 2 in
  x3 <~ unw (c_bardage (x1)) ;;
  _ <~ need (same x3 x2) ;;
  Ok tt.
(** core/counter/tables.rs, bardage *)
Definition t_counter_tables_bardage_5 : outcome unit :=
  let x1 := [62; 5] in
  let x2 := 2 in
  x3 <~ unw (c_bardage (x1)) ;;
  _ <~ need (same x3 x2) ;;
  Ok tt.
(** core/counter/tables.rs, bardage *)
Definition t_counter_tables_bardage_6 : outcome unit :=
  let x1 := [62; 6] in
  let x2 := 2 in
  x3 <~ unw (c_bardage (x1)) ;;
  _ <~ need (same x3 x2) ;;
  Ok tt.
(** core/counter/tables.rs, bardage *)
Definition t_counter_tables_bardage_7 : outcome unit :=
  let x1 := [62; 7] in
  let x2 := 2 in
  x3 <~ unw (c_bardage (x1)) ;;
  _ <~ need (same x3 x2) ;;
  Ok tt.
(** core/counter/tables.rs, bardage *)
Definition t_counter_tables_bardage_8 : outcome unit :=
  let x1 := [62; 8] in
  let x2 := 2 in
  x3 <~ unw (c_bardage (x1)) ;;
  _ <~ need (same x3 x2) ;;
  Ok tt.
(** core/counter/tables.rs, bardage *)
Definition t_counter_tables_bardage_9 : outcome unit :=
  let x1 := [62; 9] in
  let x2 := 2 in
  x3 <~ unw (c_bardage (x1)) ;;
  _ <~ need (same x3 x2) ;;
  Ok tt.
(** core/counter/tables.rs, bardage *)
Definition t_counter_tables_bardage_10 : outcome unit :=
  let x1 := [62; 10] in
  let x2 := 2 in
  x3 <~ unw (c_bardage (x1)) ;;
  _ <~ need (same x3 x2) ;;
  Ok tt.
(** core/counter/tables.rs, bardage *)
Definition t_counter_tables_bardage_11 : outcome unit :=
  let x1 := [62; 11] in
  let x2 := 2 in
  x3 <~ unw (c_bardage (x1)) ;;
  _ <~ need (same x3 x2) ;;
  Ok tt.
(** core/counter/tables.rs, bardage *)
Definition t_counter_tables_bardage_12 : outcome unit :=
  let x1 := [62; 21] in
  let x2 := 2 in
  x3 <~ unw (c_bardage (x1)) ;;
  _ <~ need (same x3 x2) ;;
  Ok tt.
(** core/counter/tables.rs, bardage *)
Definition t_counter_tables_bardage_13 : outcome unit :=
  let x1 := [62; 52] in
  let x2 := 3 in
  x3 <~ unw (c_bardage (x1)) ;;
  _ <~ need (same x3 x2) ;;
  Ok tt.
(** core/counter/tables.rs, bardage *)
Definition t_counter_tables_bardage_14 : outcome unit :=
  let x1 := [62; 62] in
  let x2 := 5 in
  x3 <~ unw (c_bardage (x1)) ;;
  _ <~ need (same x3 x2) ;;
  Ok tt.
(** core/counter/tables.rs, sizage *)
Definition t_counter_tables_sizage_0 : outcome unit :=
  let x1 := (s2b "-A") in
  let x2 := 2 in
  let x3 := 2 in
  let x4 := 4 in
  let x5 := 0 in
  x6 <~ unw (c_sizage (x1)) ;;
  let x7 := x6 in
  _ <~ need (same (hs x7) x2) ;;
  _ <~ need (same (ss x7) x3) ;;
  _ <~ need (same (fs x7) x4) ;;
  _ <~ need (same (ls x7) x5) ;;
  Ok tt.
(** core/counter/tables.rs, sizage *)
Definition t_counter_tables_sizage_1 : outcome unit :=
  let x1 := (s2b "-B") in
  let x2 := 2 in
  let x3 := 2 in
  let x4 := 4 in
  let x5 := 0 in
  x6 <~ unw (c_sizage (x1)) ;;
  let x7 := x6 in
  _ <~ need (same (hs x7) x2) ;;
  _ <~ need (same (ss x7) x3) ;;
  _ <~ need (same (fs x7) x4) ;;
  _ <~ need (same (ls x7) x5) ;;
  Ok tt.
(** core/counter/tables.rs, sizage *)
Definition t_counter_tables_sizage_2 : outcome unit :=
  let x1 := (s2b "-C") in
  let x2 := 2 in
  let x3 := 2 in
  let x4 := 4 in
  let x5 := 0 in
  x6 <~ unw (c_sizage (x1)) ;;
  let x7 := x6 in
  _ <~ need (same (hs x7) x2) ;;
  _ <~ need (same (ss x7) x3) ;;
  _ <~ need (same (fs x7) x4) ;;
  _ <~ need (same (ls x7) x5) ;;
  Ok tt.
(** core/counter/tables.rs, sizage *)
Definition t_counter_tables_sizage_3 : outcome unit :=
  let x1 := (s2b "-D") in
  let x2 := 2 in
  let x3 := 2 in
  let x4 := 4 in
  let x5 := 0 in
  x6 <~ unw (c_sizage (x1)) ;;
  let x7 := x6 in
  _ <~ need (same (hs x7) x2) ;;
  _ <~ need (same (ss x7) x3) ;;
  _ <~ need (same (fs x7) x4) ;;
  _ <~ need (same (ls x7) x5) ;;
  Ok tt.
(** core/counter/tables.rs, sizage *)
Definition t_counter_tables_sizage_4 : outcome unit :=
  let x1 := (s2b "-E") in
  let x2 := 2 in
  let x3 := 2 in
  let x4 := 4 in
  let x5 := 0 in
  x6 <~ unw (c_sizage (x1)) ;;
  let x7 := x6 in
  _ <~ need (same (hs x7) x2) ;;
  _ <~ need (same (ss x7) x3) ;;
  _ <~ need (same (fs x7) x4) ;;
  _ <~ need (same (ls x7) x5) ;;
  Ok tt.
(** core/counter/tables.rs, sizage *)
Definition t_counter_tables_sizage_5 : outcome unit :=
  let x1 := (s2b "-F") in
  let x2 := 2 in
  let x3 := 2 in
  let x4 := 4 in
  let x5 := 0 in
  x6 <~ unw (c_sizage (x1)) ;;
  let x7 := x6 in
  _ <~ need (same (hs x7) x2) ;;
  _ <~ need (same (ss x7) x3) ;;
  _ <~ need (same (fs x7) x4) ;;
  _ <~ need (same (ls x7) x5) ;;
  Ok tt.
(** core/counter/tables.rs, sizage *)
Definition t_counter_tables_sizage_6 : outcome unit :=
  let x1 := (s2b "-G") in
  let x2 := 2 in
  let x3 := 2 in
  let x4 := 4 in
  let x5 := 0 in
  x6 <~ unw (c_sizage (x1)) ;;
  let x7 := x6 in
  _ <~ need (same (hs x7) x2) ;;
  _ <~ need (same (ss x7) x3) ;;
  _ <~ need (same (fs x7) x4) ;;
  _ <~ need (same (ls x7) x5) ;;
  Ok tt.
(** core/counter/tables.rs, sizage *)
Definition t_counter_tables_sizage_7 : outcome unit :=
  let x1 := (s2b "-H") in
  let x2 := 2 in
  let x3 := 2 in
  let x4 := 4 in
  let x5 := 0 in
  x6 <~ unw (c_sizage (x1)) ;;
  let x7 := x6 in
  _ <~ need (same (hs x7) x2) ;;
  _ <~ need (same (ss x7) x3) ;;
  _ <~ need (same (fs x7) x4) ;;
  _ <~ need (same (ls x7) x5) ;;
  Ok tt.
(** core/counter/tables.rs, sizage *)
Definition t_counter_tables_sizage_8 : outcome unit :=
  let x1 := (s2b "-I") in
  let x2 := 2 in
  let x3 := 2 in
  let x4 := 4 in
  let x5 := 0 in
  x6 <~ unw (c_sizage (x1)) ;;
  let x7 := x6 in
  _ <~ need (same (hs x7) x2) ;;
  _ <~ need (same (ss x7) x3) ;;
  _ <~ need (same (fs x7) x4) ;;
  _ <~ need (same (ls x7) x5) ;;
  Ok tt.
(** core/counter/tables.rs, sizage *)
Definition t_counter_tables_sizage_9 : outcome unit :=
  let x1 := (s2b "-J") in
  let x2 := 2 in
  let x3 := 2 in
  let x4 := 4 in
  let x5 := 0 in
  x6 <~ unw (c_sizage (x1)) ;;
  let x7 := x6 in
  _ <~ need (same (hs x7) x2) ;;
  _ <~ need (same (ss x7) x3) ;;
  _ <~ need (same (fs x7) x4) ;;
  _ <~ need (same (ls x7) x5) ;;
  Ok tt.
(** core/counter/tables.rs, sizage *)
Definition t_counter_tables_sizage_10 : outcome unit :=
  let x1 := (s2b "-K") in
  let x2 := 2 in
  let x3 := 2 in
  let x4 := 4 in
  let x5 := 0 in
  x6 <~ unw (c_sizage (x1)) ;;
  let x7 := x6 in
  _ <~ need (same (hs x7) x2) ;;
  _ <~ need (same (ss x7) x3) ;;
  _ <~ need (same (fs x7) x4) ;;
  _ <~ need (same (ls x7) x5) ;;
  Ok tt.
(** core/counter/tables.rs, sizage *)
Definition t_counter_tables_sizage_11 : outcome unit :=
  let x1 := (s2b "-L") in
  let x2 := 2 in
  let x3 := 2 in
  let x4 := 4 in
  let x5 := 0 in
  x6 <~ unw (c_sizage (x1)) ;;
  let x7 := x6 in
  _ <~ need (same (hs x7) x2) ;;
  _ <~ need (same (ss x7) x3) ;;
  _ <~ need (same (fs x7) x4) ;;
  _ <~ need (same (ls x7) x5) ;;
  Ok tt.
(** core/counter/tables.rs, sizage *)
Definition t_counter_tables_sizage_12 : outcome unit :=
  let x1 := (s2b "-V") in
  let x2 := 2 in
  let x3 := 2 in
  let x4 := 4 in
  let x5 := 0 in
  x6 <~ unw (c_sizage (x1)) ;;
  let x7 := x6 in
  _ <~ need (same (hs x7) x2) ;;
  _ <~ need (same (ss x7) x3) ;;
  _ <~ need (same (fs x7) x4) ;;
  _ <~ need (same (ls x7) x5) ;;
  Ok tt.
(** core/counter/tables.rs, sizage *)
Definition t_counter_tables_sizage_13 : outcome unit :=
  let x1 := (s2b "-0V") in
  let x2 := 3 in
  let x3 := 5 in
  let x4 := 8 in
  let x5 := 0 in
  x6 <~ unw (c_sizage (x1)) ;;
  let x7 := x6 in
  _ <~ need (same (hs x7) x2) ;;
  _ <~ need (same (ss x7) x3) ;;
  _ <~ need (same (fs x7) x4) ;;
  _ <~ need (same (ls x7) x5) ;;
  Ok tt.
(** core/counter/tables.rs, sizage *)
Definition t_counter_tables_sizage_14 : outcome unit :=
  let x1 := (s2b "--AAA") in
  let x2 := 5 in
  let x3 := 3 in
  let x4 := 8 in
  let x5 := 0 in
  x6 <~ unw (c_sizage (x1)) ;;
  let x7 := x6 in
  _ <~ need (same (hs x7) x2) ;;
  _ <~ need (same (ss x7) x3) ;;
  _ <~ need (same (fs x7) x4) ;;
  _ <~ need (same (ls x7) x5) ;;
  Ok tt.
(** core/counter/tables.rs, unhappy_paths *)
Definition t_counter_tables_unhappy_paths_0 : outcome unit :=
  _ <~ need (errs (c_sizage ((s2b "CESR")))) ;;
  _ <~ need (errs (c_bardage ([63; 0]))) ;;
  Ok tt.
(** core/dater.rs, convenience *)
Definition t_dater_convenience_0 : outcome unit :=
  let x1 := (s2b "2020-08-22T17:50:09.988921-01:00") in
  x2 <~ unw (dater_new (s2b "2020-08-22T17:50:09.988921+00:00") ((Some x1)) (None) (None) (None) (None) (None)) ;;
  let x3 := x2 in
  _ <~ need (ok (dater_new (s2b "2020-08-22T17:50:09.988921+00:00") (Some x1) (None) None None None None)) ;;
  _ <~ need (ok (dater_new (s2b "2020-08-22T17:50:09.988921+00:00") None ((Some (m_code x3))) (Some (m_raw x3)) None None None)) ;;
  x4 <~ unw (matter_qb64b x3) ;;
  _ <~ need (ok (dater_new (s2b "2020-08-22T17:50:09.988921+00:00") None None None (Some x4) None None)) ;;
  x5 <~ unw (matter_qb64 x3) ;;
  _ <~ need (ok (dater_new (s2b "2020-08-22T17:50:09.988921+00:00") None None None None (Some x5) None)) ;;
  x6 <~ unw (matter_qb2 x3) ;;
  _ <~ need (ok (dater_new (s2b "2020-08-22T17:50:09.988921+00:00") None None None None None (Some x6))) ;;
  Ok tt.
(** core/dater.rs, new *)
Definition t_dater_new_0 : outcome unit :=
  let x1 := (s2b "2020-08-22T17:50:09.988921-01:00") in
  x2 <~ unw (dater_new (s2b "2020-08-22T17:50:09.988921+00:00") ((Some x1)) (None) (None) (None) (None) (None)) ;;
  x3 <~ unw (matter_qb64 x2) ;;
  let x4 := x3 in
  _ <~ need (ok (dater_new (s2b "2020-08-22T17:50:09.988921+00:00") ((Some x1)) (None) (None) (None) (None) (None))) ;;
  _ <~ need (ok (dater_new (s2b "2020-08-22T17:50:09.988921+00:00") (None) (None) (None) (None) ((Some x4)) (None))) ;;
  Ok tt.
(** core/dater.rs, new_default *)
Definition t_dater_new_default_0 : outcome unit :=
  x1 <~ unw (dater_new (s2b "2020-08-22T17:50:09.988921+00:00") (None) (None) (None) (None) (None) (None)) ;;
  let x2 := x1 in
  _ <~ need (same (m_code x2) (s2b "1AAG")) ;;
  _ <~ need (same (N.of_nat (length (m_raw x2))) 24) ;;
  x3 <~ unw (matter_qb64 x2) ;;
  _ <~ need (same (N.of_nat (length x3)) 36) ;;
  x4 <~ unw (matter_qb2 x2) ;;
  _ <~ need (same (N.of_nat (length x4)) 27) ;;
  x5 <~ unw (dater_dts x2) ;;
  _ <~ need (same (N.of_nat (length x5)) 32) ;;
  Ok tt.
(** core/dater.rs, new_with_data *)
Definition t_dater_new_with_data_0 : outcome unit :=
  let x1 := (s2b "2020-08-22T17:50:09.988921+00:00") in
  let x2 := (s2b "1AAG2020-08-22T17c50c09d988921p00c00") in
  let x3 := [219; 77; 180; 251; 79; 62; 219; 100; 245; 237; 206; 116; 115; 79; 93; 247; 207; 61; 219; 90; 116; 209; 205; 52] in
  let x4 := [212; 0; 6; 219; 77; 180; 251; 79; 62; 219; 100; 245; 237; 206; 116; 115; 79; 93; 247; 207; 61; 219; 90; 116; 209; 205; 52] in
  x5 <~ unw (dater_new (s2b "2020-08-22T17:50:09.988921+00:00") ((Some x1)) (None) (None) (None) (None) (None)) ;;
  let x6 := x5 in
  _ <~ need (same (m_code x6) (s2b "1AAG")) ;;
  x7 <~ unw (dater_dts x6) ;;
  _ <~ need (same x7 x1) ;;
  x8 <~ unw (dater_dts x6) ;;
  _ <~ need (same x8 x1) ;;
  _ <~ need (same (m_raw x6) x3) ;;
  x9 <~ unw (matter_qb64 x6) ;;
  _ <~ need (same x9 x2) ;;
  x10 <~ unw (matter_qb64b x6) ;;
  _ <~ need (same x10 x2) ;;
  x11 <~ unw (matter_qb2 x6) ;;
  _ <~ need (same x11 x4) ;;
  Ok tt.
(** core/dater.rs, new_with_data *)
Definition t_dater_new_with_data_1 : outcome unit :=
  let x1 := (s2b "2020-08-22T17:50:09.988921+00:00") in
  let x2 := (s2b "1AAG2020-08-22T17c50c09d988921p00c00") in
  let x3 := [219; 77; 180; 251; 79; 62; 219; 100; 245; 237; 206; 116; 115; 79; 93; 247; 207; 61; 219; 90; 116; 209; 205; 52] in
  let x4 := [212; 0; 6; 219; 77; 180; 251; 79; 62; 219; 100; 245; 237; 206; 116; 115; 79; 93; 247; 207; 61; 219; 90; 116; 209; 205; 52] in
  x5 <~ unw (dater_new (s2b "2020-08-22T17:50:09.988921+00:00") (None) ((Some (s2b "1AAG"))) ((Some x3)) (None) (None) (None)) ;;
  let x6 := x5 in
  _ <~ need (same (m_code x6) (s2b "1AAG")) ;;
  x7 <~ unw (dater_dts x6) ;;
  _ <~ need (same x7 x1) ;;
  x8 <~ unw (dater_dts x6) ;;
  _ <~ need (same x8 x1) ;;
  _ <~ need (same (m_raw x6) x3) ;;
  x9 <~ unw (matter_qb64 x6) ;;
  _ <~ need (same x9 x2) ;;
  x10 <~ unw (matter_qb64b x6) ;;
  _ <~ need (same x10 x2) ;;
  x11 <~ unw (matter_qb2 x6) ;;
  _ <~ need (same x11 x4) ;;
  Ok tt.
(** core/dater.rs, new_with_data *)
Definition t_dater_new_with_data_2 : outcome unit :=
  let x1 := (s2b "2020-08-22T17:50:09.988921+00:00") in
  let x2 := (s2b "1AAG2020-08-22T17c50c09d988921p00c00") in
  let x3 := [219; 77; 180; 251; 79; 62; 219; 100; 245; 237; 206; 116; 115; 79; 93; 247; 207; 61; 219; 90; 116; 209; 205; 52] in
  let x4 := [212; 0; 6; 219; 77; 180; 251; 79; 62; 219; 100; 245; 237; 206; 116; 115; 79; 93; 247; 207; 61; 219; 90; 116; 209; 205; 52] in
  x5 <~ unw (dater_new (s2b "2020-08-22T17:50:09.988921+00:00") (None) (None) ((Some x3)) (None) (None) (None)) ;;
  let x6 := x5 in
  _ <~ need (same (m_code x6) (s2b "1AAG")) ;;
  x7 <~ unw (dater_dts x6) ;;
  _ <~ need (same x7 x1) ;;
  x8 <~ unw (dater_dts x6) ;;
  _ <~ need (same x8 x1) ;;
  _ <~ need (same (m_raw x6) x3) ;;
  x9 <~ unw (matter_qb64 x6) ;;
  _ <~ need (same x9 x2) ;;
  x10 <~ unw (matter_qb64b x6) ;;
  _ <~ need (same x10 x2) ;;
  x11 <~ unw (matter_qb2 x6) ;;
  _ <~ need (same x11 x4) ;;
  Ok tt.
(** core/dater.rs, new_with_data *)
Definition t_dater_new_with_data_3 : outcome unit :=
  let x1 := (s2b "2020-08-22T17:50:09.988921+00:00") in
  let x2 := (s2b "1AAG2020-08-22T17c50c09d988921p00c00") in
  let x3 := [219; 77; 180; 251; 79; 62; 219; 100; 245; 237; 206; 116; 115; 79; 93; 247; 207; 61; 219; 90; 116; 209; 205; 52] in
  let x4 := [212; 0; 6; 219; 77; 180; 251; 79; 62; 219; 100; 245; 237; 206; 116; 115; 79; 93; 247; 207; 61; 219; 90; 116; 209; 205; 52] in
  x5 <~ unw (dater_new (s2b "2020-08-22T17:50:09.988921+00:00") (None) (None) (None) ((Some x2)) (None) (None)) ;;
  let x6 := x5 in
  _ <~ need (same (m_code x6) (s2b "1AAG")) ;;
  x7 <~ unw (dater_dts x6) ;;
  _ <~ need (same x7 x1) ;;
  x8 <~ unw (dater_dts x6) ;;
  _ <~ need (same x8 x1) ;;
  _ <~ need (same (m_raw x6) x3) ;;
  x9 <~ unw (matter_qb64 x6) ;;
  _ <~ need (same x9 x2) ;;
  x10 <~ unw (matter_qb64b x6) ;;
  _ <~ need (same x10 x2) ;;
  x11 <~ unw (matter_qb2 x6) ;;
  _ <~ need (same x11 x4) ;;
  Ok tt.
(** core/dater.rs, new_with_data *)
Definition t_dater_new_with_data_4 : outcome unit :=
  let x1 := (s2b "2020-08-22T17:50:09.988921+00:00") in
  let x2 := (s2b "1AAG2020-08-22T17c50c09d988921p00c00") in
  let x3 := [219; 77; 180; 251; 79; 62; 219; 100; 245; 237; 206; 116; 115; 79; 93; 247; 207; 61; 219; 90; 116; 209; 205; 52] in
  let x4 := [212; 0; 6; 219; 77; 180; 251; 79; 62; 219; 100; 245; 237; 206; 116; 115; 79; 93; 247; 207; 61; 219; 90; 116; 209; 205; 52] in
  x5 <~ unw (dater_new (s2b "2020-08-22T17:50:09.988921+00:00") (None) (None) (None) (None) ((Some x2)) (None)) ;;
  let x6 := x5 in
  _ <~ need (same (m_code x6) (s2b "1AAG")) ;;
  x7 <~ unw (dater_dts x6) ;;
  _ <~ need (same x7 x1) ;;
  x8 <~ unw (dater_dts x6) ;;
  _ <~ need (same x8 x1) ;;
  _ <~ need (same (m_raw x6) x3) ;;
  x9 <~ unw (matter_qb64 x6) ;;
  _ <~ need (same x9 x2) ;;
  x10 <~ unw (matter_qb64b x6) ;;
  _ <~ need (same x10 x2) ;;
  x11 <~ unw (matter_qb2 x6) ;;
  _ <~ need (same x11 x4) ;;
  Ok tt.
(** core/dater.rs, new_with_data *)
Definition t_dater_new_with_data_5 : outcome unit :=
  let x1 := (s2b "2020-08-22T17:50:09.988921+00:00") in
  let x2 := (s2b "1AAG2020-08-22T17c50c09d988921p00c00") in
  let x3 := [219; 77; 180; 251; 79; 62; 219; 100; 245; 237; 206; 116; 115; 79; 93; 247; 207; 61; 219; 90; 116; 209; 205; 52] in
  let x4 := [212; 0; 6; 219; 77; 180; 251; 79; 62; 219; 100; 245; 237; 206; 116; 115; 79; 93; 247; 207; 61; 219; 90; 116; 209; 205; 52] in
  x5 <~ unw (dater_new (s2b "2020-08-22T17:50:09.988921+00:00") (None) (None) (None) (None) (None) ((Some x4))) ;;
  let x6 := x5 in
  _ <~ need (same (m_code x6) (s2b "1AAG")) ;;
  x7 <~ unw (dater_dts x6) ;;
  _ <~ need (same x7 x1) ;;
  x8 <~ unw (dater_dts x6) ;;
  _ <~ need (same x8 x1) ;;
  _ <~ need (same (m_raw x6) x3) ;;
  x9 <~ unw (matter_qb64 x6) ;;
  _ <~ need (same x9 x2) ;;
  x10 <~ unw (matter_qb64b x6) ;;
  _ <~ need (same x10 x2) ;;
  x11 <~ unw (matter_qb2 x6) ;;
  _ <~ need (same x11 x4) ;;
  Ok tt.
(** core/dater.rs, new_with_data *)
Definition t_dater_new_with_data_6 : outcome unit :=
  let x1 := (s2b "2020-08-22T17:50:09.988921-01:00") in
  let x2 := (s2b "1AAG2020-08-22T17c50c09d988921-01c00") in
  let x3 := [219; 77; 180; 251; 79; 62; 219; 100; 245; 237; 206; 116; 115; 79; 93; 247; 207; 61; 219; 95; 180; 213; 205; 52] in
  let x4 := [212; 0; 6; 219; 77; 180; 251; 79; 62; 219; 100; 245; 237; 206; 116; 115; 79; 93; 247; 207; 61; 219; 95; 180; 213; 205; 52] in
  x5 <~ unw (dater_new (s2b "2020-08-22T17:50:09.988921+00:00") ((Some x1)) (None) (None) (None) (None) (None)) ;;
  let x6 := x5 in
  _ <~ need (same (m_code x6) (s2b "1AAG")) ;;
  x7 <~ unw (dater_dts x6) ;;
  _ <~ need (same x7 x1) ;;
  x8 <~ unw (dater_dts x6) ;;
  _ <~ need (same x8 x1) ;;
  _ <~ need (same (m_raw x6) x3) ;;
  x9 <~ unw (matter_qb64 x6) ;;
  _ <~ need (same x9 x2) ;;
  x10 <~ unw (matter_qb64b x6) ;;
  _ <~ need (same x10 x2) ;;
  x11 <~ unw (matter_qb2 x6) ;;
  _ <~ need (same x11 x4) ;;
  Ok tt.
(** core/dater.rs, new_with_data *)
Definition t_dater_new_with_data_7 : outcome unit :=
  let x1 := (s2b "2020-08-22T17:50:09.988921-01:00") in
  let x2 := (s2b "1AAG2020-08-22T17c50c09d988921-01c00") in
  let x3 := [219; 77; 180; 251; 79; 62; 219; 100; 245; 237; 206; 116; 115; 79; 93; 247; 207; 61; 219; 95; 180; 213; 205; 52] in
  let x4 := [212; 0; 6; 219; 77; 180; 251; 79; 62; 219; 100; 245; 237; 206; 116; 115; 79; 93; 247; 207; 61; 219; 95; 180; 213; 205; 52] in
  x5 <~ unw (dater_new (s2b "2020-08-22T17:50:09.988921+00:00") (None) ((Some (s2b "1AAG"))) ((Some x3)) (None) (None) (None)) ;;
  let x6 := x5 in
  _ <~ need (same (m_code x6) (s2b "1AAG")) ;;
  x7 <~ unw (dater_dts x6) ;;
  _ <~ need (same x7 x1) ;;
  x8 <~ unw (dater_dts x6) ;;
  _ <~ need (same x8 x1) ;;
  _ <~ need (same (m_raw x6) x3) ;;
  x9 <~ unw (matter_qb64 x6) ;;
  _ <~ need (same x9 x2) ;;
  x10 <~ unw (matter_qb64b x6) ;;
  _ <~ need (same x10 x2) ;;
  x11 <~ unw (matter_qb2 x6) ;;
  _ <~ need (same x11 x4) ;;
  Ok tt.
(** core/dater.rs, new_with_data *)
Definition t_dater_new_with_data_8 : outcome unit :=
  let x1 := (s2b "2020-08-22T17:50:09.988921-01:00") in
  let x2 := (s2b "1AAG2020-08-22T17c50c09d988921-01c00") in
  let x3 := [219; 77; 180; 251; 79; 62; 219; 100; 245; 237; 206; 116; 115; 79; 93; 247; 207; 61; 219; 95; 180; 213; 205; 52] in
  let x4 := [212; 0; 6; 219; 77; 180; 251; 79; 62; 219; 100; 245; 237; 206; 116; 115; 79; 93; 247; 207; 61; 219; 95; 180; 213; 205; 52] in
  x5 <~ unw (dater_new (s2b "2020-08-22T17:50:09.988921+00:00") (None) (None) ((Some x3)) (None) (None) (None)) ;;
  let x6 := x5 in
  _ <~ need (same (m_code x6) (s2b "1AAG")) ;;
  x7 <~ unw (dater_dts x6) ;;
  _ <~ need (same x7 x1) ;;
  x8 <~ unw (dater_dts x6) ;;
  _ <~ need (same x8 x1) ;;
  _ <~ need (same (m_raw x6) x3) ;;
  x9 <~ unw (matter_qb64 x6) ;;
  _ <~ need (same x9 x2) ;;
  x10 <~ unw (matter_qb64b x6) ;;
  _ <~ need (same x10 x2) ;;
  x11 <~ unw (matter_qb2 x6) ;;
  _ <~ need (same x11 x4) ;;
  Ok tt.
(** core/dater.rs, new_with_data *)
Definition t_dater_new_with_data_9 : outcome unit :=
  let x1 := (s2b "2020-08-22T17:50:09.988921-01:00") in
  let x2 := (s2b "1AAG2020-08-22T17c50c09d988921-01c00") in
  let x3 := [219; 77; 180; 251; 79; 62; 219; 100; 245; 237; 206; 116; 115; 79; 93; 247; 207; 61; 219; 95; 180; 213; 205; 52] in
  let x4 := [212; 0; 6; 219; 77; 180; 251; 79; 62; 219; 100; 245; 237; 206; 116; 115; 79; 93; 247; 207; 61; 219; 95; 180; 213; 205; 52] in
  x5 <~ unw (dater_new (s2b "2020-08-22T17:50:09.988921+00:00") (None) (None) (None) ((Some x2)) (None) (None)) ;;
  let x6 := x5 in
  _ <~ need (same (m_code x6) (s2b "1AAG")) ;;
  x7 <~ unw (dater_dts x6) ;;
  _ <~ need (same x7 x1) ;;
  x8 <~ unw (dater_dts x6) ;;
  _ <~ need (same x8 x1) ;;
  _ <~ need (same (m_raw x6) x3) ;;
  x9 <~ unw (matter_qb64 x6) ;;
  _ <~ need (same x9 x2) ;;
  x10 <~ unw (matter_qb64b x6) ;;
  _ <~ need (same x10 x2) ;;
  x11 <~ unw (matter_qb2 x6) ;;
  _ <~ need (same x11 x4) ;;
  Ok tt.
(** core/dater.rs, new_with_data *)
Definition t_dater_new_with_data_10 : outcome unit :=
  let x1 := (s2b "2020-08-22T17:50:09.988921-01:00") in
  let x2 := (s2b "1AAG2020-08-22T17c50c09d988921-01c00") in
  let x3 := [219; 77; 180; 251; 79; 62; 219; 100; 245; 237; 206; 116; 115; 79; 93; 247; 207; 61; 219; 95; 180; 213; 205; 52] in
  let x4 := [212; 0; 6; 219; 77; 180; 251; 79; 62; 219; 100; 245; 237; 206; 116; 115; 79; 93; 247; 207; 61; 219; 95; 180; 213; 205; 52] in
  x5 <~ unw (dater_new (s2b "2020-08-22T17:50:09.988921+00:00") (None) (None) (None) (None) ((Some x2)) (None)) ;;
  let x6 := x5 in
  _ <~ need (same (m_code x6) (s2b "1AAG")) ;;
  x7 <~ unw (dater_dts x6) ;;
  _ <~ need (same x7 x1) ;;
  x8 <~ unw (dater_dts x6) ;;
  _ <~ need (same x8 x1) ;;
  _ <~ need (same (m_raw x6) x3) ;;
  x9 <~ unw (matter_qb64 x6) ;;
  _ <~ need (same x9 x2) ;;
  x10 <~ unw (matter_qb64b x6) ;;
  _ <~ need (same x10 x2) ;;
  x11 <~ unw (matter_qb2 x6) ;;
  _ <~ need (same x11 x4) ;;
  Ok tt.
(** core/dater.rs, new_with_data *)
Definition t_dater_new_with_data_11 : outcome unit :=
  let x1 := (s2b "2020-08-22T17:50:09.988921-01:00") in
  let x2 := (s2b "1AAG2020-08-22T17c50c09d988921-01c00") in
  let x3 := [219; 77; 180; 251; 79; 62; 219; 100; 245; 237; 206; 116; 115; 79; 93; 247; 207; 61; 219; 95; 180; 213; 205; 52] in
  let x4 := [212; 0; 6; 219; 77; 180; 251; 79; 62; 219; 100; 245; 237; 206; 116; 115; 79; 93; 247; 207; 61; 219; 95; 180; 213; 205; 52] in
  x5 <~ unw (dater_new (s2b "2020-08-22T17:50:09.988921+00:00") (None) (None) (None) (None) (None) ((Some x4))) ;;
  let x6 := x5 in
  _ <~ need (same (m_code x6) (s2b "1AAG")) ;;
  x7 <~ unw (dater_dts x6) ;;
  _ <~ need (same x7 x1) ;;
  x8 <~ unw (dater_dts x6) ;;
  _ <~ need (same x8 x1) ;;
  _ <~ need (same (m_raw x6) x3) ;;
  x9 <~ unw (matter_qb64 x6) ;;
  _ <~ need (same x9 x2) ;;
  x10 <~ unw (matter_qb64b x6) ;;
  _ <~ need (same x10 x2) ;;
  x11 <~ unw (matter_qb2 x6) ;;
  _ <~ need (same x11 x4) ;;
  Ok tt.
(** core/dater.rs, unhappy_new_with_code_and_raw *)
Definition t_dater_unhappy_new_with_code_and_raw_0 : outcome unit :=
  let x1 := (s2b "N") in
  let x2 := [219; 77; 180; 251; 79; 62; 219; 100; 245; 237; 206; 116; 115; 79; 93; 247; 207; 61; 219; 95; 180; 213; 205; 52] in
  _ <~ need (errs (dater_new (s2b "2020-08-22T17:50:09.988921+00:00") (None) ((Some x1)) ((Some x2)) (None) (None) (None))) ;;
  Ok tt.
(** core/dater.rs, unhappy_new_with_code_and_raw *)
Definition t_dater_unhappy_new_with_code_and_raw_1 : outcome unit :=
  let x1 := (s2b "1AAG") in
  let x2 := [219; 77; 180; 251; 79; 62; 219; 100; 245; 237; 206; 116; 115; 79; 93; 247; 207; 61; 219; 95; 180; 213] in
  _ <~ need (errs (dater_new (s2b "2020-08-22T17:50:09.988921+00:00") (None) ((Some x1)) ((Some x2)) (None) (None) (None))) ;;
  Ok tt.
(** core/dater.rs, unhappy_new_with_code_and_raw *)
Definition t_dater_unhappy_new_with_code_and_raw_2 : outcome unit :=
  let x1 := (s2b "1AAG") in
  let x2 := [219; 77; 180; 251; 79; 62; 219; 100; 245; 237; 206; 116; 115; 79; 93; 247; 207; 61; 219; 95; 180; 213; 255] in
  _ <~ need (errs (dater_new (s2b "2020-08-22T17:50:09.988921+00:00") (None) ((Some x1)) ((Some x2)) (None) (None) (None))) ;;
  Ok tt.
(** core/dater.rs, unhappy_new_with_code_and_raw *)
Definition t_dater_unhappy_new_with_code_and_raw_3 : outcome unit :=
  let x1 := (s2b "") in
  let x2 := [219; 77; 180; 251; 79; 62; 219; 100; 245; 237; 206; 116; 115; 79; 93; 247; 207; 61; 219; 95; 180; 213; 205; 52] in
  _ <~ need (errs (dater_new (s2b "2020-08-22T17:50:09.988921+00:00") (None) ((Some x1)) ((Some x2)) (None) (None) (None))) ;;
  Ok tt.
(** core/dater.rs, unhappy_new_with_dts *)
Definition t_dater_unhappy_new_with_dts_0 : outcome unit :=
  let x1 := (s2b "not a date") in
  _ <~ need (errs (dater_new (s2b "2020-08-22T17:50:09.988921+00:00") ((Some x1)) (None) (None) (None) (None) (None))) ;;
  Ok tt.
(** core/dater.rs, unhappy_new_with_dts *)
Definition t_dater_unhappy_new_with_dts_1 : outcome unit :=
  let x1 := (s2b "2020-08-22T17:50:09.988921-01") in
  _ <~ need (errs (dater_new (s2b "2020-08-22T17:50:09.988921+00:00") ((Some x1)) (None) (None) (None) (None) (None))) ;;
  Ok tt.
(** core/dater.rs, unhappy_new_with_qb64 *)
Definition t_dater_unhappy_new_with_qb64_0 : outcome unit :=
  let x1 := (s2b "1ABG2020-08-22T17c50c09d988921-01c00") in
  _ <~ need (errs (dater_new (s2b "2020-08-22T17:50:09.988921+00:00") (None) (None) (None) (None) ((Some x1)) (None))) ;;
  _ <~ need (errs (dater_new (s2b "2020-08-22T17:50:09.988921+00:00") (None) (None) (None) ((Some x1)) (None) (None))) ;;
  Ok tt.
(** core/dater.rs, unhappy_new_with_qb64 *)
Definition t_dater_unhappy_new_with_qb64_1 : outcome unit :=
  let x1 := (s2b "1AAG2020-08-22T17c50c09d988921-01c") in
  _ <~ need (errs (dater_new (s2b "2020-08-22T17:50:09.988921+00:00") (None) (None) (None) (None) ((Some x1)) (None))) ;;
  _ <~ need (errs (dater_new (s2b "2020-08-22T17:50:09.988921+00:00") (None) (None) (None) ((Some x1)) (None) (None))) ;;
  Ok tt.
(** core/dater.rs, unhappy_new_with_qb64 *)
Definition t_dater_unhappy_new_with_qb64_2 : outcome unit :=
  let x1 := (s2b "1AAG") in
  _ <~ need (errs (dater_new (s2b "2020-08-22T17:50:09.988921+00:00") (None) (None) (None) (None) ((Some x1)) (None))) ;;
  _ <~ need (errs (dater_new (s2b "2020-08-22T17:50:09.988921+00:00") (None) (None) (None) ((Some x1)) (None) (None))) ;;
  Ok tt.
(** core/dater.rs, unhappy_new_with_qb2 *)
Definition t_dater_unhappy_new_with_qb2_0 : outcome unit :=
  let x1 := [212; 1; 6; 219; 77; 180; 251; 79; 62; 219; 100; 245; 237; 206; 116; 115; 79; 93; 247; 207; 61; 219; 95; 180; 213; 205; 52] in
  _ <~ need (errs (dater_new (s2b "2020-08-22T17:50:09.988921+00:00") (None) (None) (None) (None) (None) ((Some x1)))) ;;
  Ok tt.
(** core/dater.rs, unhappy_new_with_qb2 *)
Definition t_dater_unhappy_new_with_qb2_1 : outcome unit :=
  let x1 := [212; 0; 6; 219; 77; 180; 251; 79; 62; 219; 100; 245; 237; 206; 116; 115; 79; 93; 247; 207; 61; 219; 95; 180; 213] in
  _ <~ need (errs (dater_new (s2b "2020-08-22T17:50:09.988921+00:00") (None) (None) (None) (None) (None) ((Some x1)))) ;;
  Ok tt.
(** core/dater.rs, unhappy_new_with_qb2 *)
Definition t_dater_unhappy_new_with_qb2_2 : outcome unit :=
  let x1 := [212; 0; 6; 219; 77; 180; 251; 79; 62; 219; 100; 245; 237; 206; 116; 115; 79; 93; 247; 207; 61; 219; 95; 180; 213] in
  _ <~ need (errs (dater_new (s2b "2020-08-22T17:50:09.988921+00:00") (None) (None) (None) (None) (None) ((Some x1)))) ;;
  Ok tt.
(** core/number.rs, convenience *)
Definition t_number_convenience_0 : outcome unit :=
  let x1 := 1 in
  let x2 := (s2b "1") in
  let x3 := (s2b "M") in
  let x4 := [0; 1] in
  let x5 := (s2b "MAAB") in
  let x6 := (s2b "MAAB") in
  let x7 := [48; 0; 1] in
  _ <~ need (ok (number_new (Some x1) None None None None None None)) ;;
  _ <~ need (ok (number_new None (Some x2) None None None None None)) ;;
  _ <~ need (ok (number_new None None ((Some x3)) (Some x4) None None None)) ;;
  _ <~ need (ok (number_new None None None None (Some x6) None None)) ;;
  _ <~ need (ok (number_new None None None None None (Some x5) None)) ;;
  _ <~ need (ok (number_new None None None None None None (Some x7))) ;;
  Ok tt.
(** core/number.rs, python_interop *)
Definition t_number_python_interop_0 : outcome unit :=
  _ <~ need (errs (number_new (None) (None) (None) ((Some [])) (None) (None) (None))) ;;
  x1 <~ unw (number_new (None) (None) (None) (None) (None) (None) (None)) ;;
  let x2 := x1 in
  _ <~ need (same (m_code x2) (s2b "M")) ;;
  _ <~ need (same (m_raw x2) [0; 0]) ;;
  x3 <~ unw (matter_qb64 x2) ;;
  _ <~ need (same x3 (s2b "MAAA")) ;;
  x4 <~ unw (matter_qb64b x2) ;;
  _ <~ need (same x4 (s2b "MAAA")) ;;
  x5 <~ unw (matter_qb2 x2) ;;
  _ <~ need (same x5 [48; 0; 0]) ;;
  x6 <~ unw (number_num x2) ;;
  _ <~ need (same x6 0) ;;
  x7 <~ unw (number_numh x2) ;;
  _ <~ need (same x7 (s2b "0")) ;;
  x8 <~ unw (number_positive x2) ;;
  _ <~ need (negb x8) ;;
  x9 <~ unw (number_new (None) ((Some (s2b ""))) (None) (None) (None) (None) (None)) ;;
  let x10 := x9 in
  x11 <~ unw (number_num x10) ;;
  _ <~ need (same x11 0) ;;
  _ <~ need (errs (number_new (None) ((Some (s2b "invalid"))) (None) (None) (None) (None) (None))) ;;
  let x12 := 1 in
  let x13 := (s2b "1") in
  let x14 := (s2b "M") in
  let x15 := [0; 1] in
  let x16 := (s2b "MAAB") in
  let x17 := (s2b "MAAB") in
  let x18 := [48; 0; 1] in
  x19 <~ unw (number_new ((Some x12)) (None) (None) (None) (None) (None) (None)) ;;
  let x20 := x19 in
  _ <~ need (same (m_code x20) x14) ;;
  _ <~ need (same (m_raw x20) x15) ;;
  x21 <~ unw (matter_qb64b x20) ;;
  _ <~ need (same x21 x17) ;;
  x22 <~ unw (matter_qb64 x20) ;;
  _ <~ need (same x22 x16) ;;
  x23 <~ unw (matter_qb2 x20) ;;
  _ <~ need (same x23 x18) ;;
  x24 <~ unw (number_num x20) ;;
  _ <~ need (same x24 x12) ;;
  x25 <~ unw (number_numh x20) ;;
  _ <~ need (same x25 x13) ;;
  x26 <~ unw (number_positive x20) ;;
  _ <~ need x26 ;;
  Ok tt.
(** core/number.rs, unhappy_paths *)
Definition t_number_unhappy_paths_0 : outcome unit :=
  _ <~ need (errs (number_new (None) (None) ((Some (s2b "CESR"))) ((Some [])) (None) (None) (None))) ;;
  Ok tt.
(** core/number.rs, happy *)
Definition t_number_happy_0 : outcome unit :=
  let x1 := 65535 in
  let x2 := (s2b "ffff") in
  let x3 := (s2b "M") in
  let x4 := [255; 255] in
  let x5 := (s2b "MP__") in
  let x6 := (s2b "MP__") in
  let x7 := [48; 255; 255] in
  let x8 := true in
  x9 <~ unw (number_new ((Some x1)) (None) (None) (None) (None) (None) (None)) ;;
  let x10 := x9 in
  _ <~ need (same (m_code x10) x3) ;;
  _ <~ need (same (m_raw x10) x4) ;;
  x11 <~ unw (matter_qb64b x10) ;;
  _ <~ need (same x11 x6) ;;
  x12 <~ unw (matter_qb64 x10) ;;
  _ <~ need (same x12 x5) ;;
  x13 <~ unw (matter_qb2 x10) ;;
  _ <~ need (same x13 x7) ;;
  x14 <~ unw (number_num x10) ;;
  _ <~ need (same x14 x1) ;;
  x15 <~ unw (number_numh x10) ;;
  _ <~ need (same x15 x2) ;;
  x16 <~ unw (number_positive x10) ;;
  _ <~ need (same x16 x8) ;;
  Ok tt.
(** core/number.rs, happy *)
Definition t_number_happy_1 : outcome unit :=
  let x1 := 65535 in
  let x2 := (s2b "ffff") in
  let x3 := (s2b "M") in
  let x4 := [255; 255] in
  let x5 := (s2b "MP__") in
  let x6 := (s2b "MP__") in
  let x7 := [48; 255; 255] in
  let x8 := true in
  x9 <~ unw (number_new (None) ((Some x2)) (None) (None) (None) (None) (None)) ;;
  let x10 := x9 in
  _ <~ need (same (m_code x10) x3) ;;
  _ <~ need (same (m_raw x10) x4) ;;
  x11 <~ unw (matter_qb64b x10) ;;
  _ <~ need (same x11 x6) ;;
  x12 <~ unw (matter_qb64 x10) ;;
  _ <~ need (same x12 x5) ;;
  x13 <~ unw (matter_qb2 x10) ;;
  _ <~ need (same x13 x7) ;;
  x14 <~ unw (number_num x10) ;;
  _ <~ need (same x14 x1) ;;
  x15 <~ unw (number_numh x10) ;;
  _ <~ need (same x15 x2) ;;
  x16 <~ unw (number_positive x10) ;;
  _ <~ need (same x16 x8) ;;
  Ok tt.
(** core/number.rs, happy *)
Definition t_number_happy_2 : outcome unit :=
  let x1 := 65535 in
  let x2 := (s2b "ffff") in
  let x3 := (s2b "M") in
  let x4 := [255; 255] in
  let x5 := (s2b "MP__") in
  let x6 := (s2b "MP__") in
  let x7 := [48; 255; 255] in
  let x8 := true in
  x9 <~ unw (number_new (None) (None) ((Some x3)) ((Some x4)) (None) (None) (None)) ;;
  let x10 := x9 in
  _ <~ need (same (m_code x10) x3) ;;
  _ <~ need (same (m_raw x10) x4) ;;
  x11 <~ unw (matter_qb64b x10) ;;
  _ <~ need (same x11 x6) ;;
  x12 <~ unw (matter_qb64 x10) ;;
  _ <~ need (same x12 x5) ;;
  x13 <~ unw (matter_qb2 x10) ;;
  _ <~ need (same x13 x7) ;;
  x14 <~ unw (number_num x10) ;;
  _ <~ need (same x14 x1) ;;
  x15 <~ unw (number_numh x10) ;;
  _ <~ need (same x15 x2) ;;
  x16 <~ unw (number_positive x10) ;;
  _ <~ need (same x16 x8) ;;
  Ok tt.
(** core/number.rs, happy *)
Definition t_number_happy_3 : outcome unit :=
  let x1 := 65535 in
  let x2 := (s2b "ffff") in
  let x3 := (s2b "M") in
  let x4 := [255; 255] in
  let x5 := (s2b "MP__") in
  let x6 := (s2b "MP__") in
  let x7 := [48; 255; 255] in
  let x8 := true in
  x9 <~ unw (number_new (None) (None) (None) (None) ((Some x6)) (None) (None)) ;;
  let x10 := x9 in
  _ <~ need (same (m_code x10) x3) ;;
  _ <~ need (same (m_raw x10) x4) ;;
  x11 <~ unw (matter_qb64b x10) ;;
  _ <~ need (same x11 x6) ;;
  x12 <~ unw (matter_qb64 x10) ;;
  _ <~ need (same x12 x5) ;;
  x13 <~ unw (matter_qb2 x10) ;;
  _ <~ need (same x13 x7) ;;
  x14 <~ unw (number_num x10) ;;
  _ <~ need (same x14 x1) ;;
  x15 <~ unw (number_numh x10) ;;
  _ <~ need (same x15 x2) ;;
  x16 <~ unw (number_positive x10) ;;
  _ <~ need (same x16 x8) ;;
  Ok tt.
(** core/number.rs, happy *)
Definition t_number_happy_4 : outcome unit :=
  let x1 := 65535 in
  let x2 := (s2b "ffff") in
  let x3 := (s2b "M") in
  let x4 := [255; 255] in
  let x5 := (s2b "MP__") in
  let x6 := (s2b "MP__") in
  let x7 := [48; 255; 255] in
  let x8 := true in
  x9 <~ unw (number_new (None) (None) (None) (None) (None) ((Some x5)) (None)) ;;
  let x10 := x9 in
  _ <~ need (same (m_code x10) x3) ;;
  _ <~ need (same (m_raw x10) x4) ;;
  x11 <~ unw (matter_qb64b x10) ;;
  _ <~ need (same x11 x6) ;;
  x12 <~ unw (matter_qb64 x10) ;;
  _ <~ need (same x12 x5) ;;
  x13 <~ unw (matter_qb2 x10) ;;
  _ <~ need (same x13 x7) ;;
  x14 <~ unw (number_num x10) ;;
  _ <~ need (same x14 x1) ;;
  x15 <~ unw (number_numh x10) ;;
  _ <~ need (same x15 x2) ;;
  x16 <~ unw (number_positive x10) ;;
  _ <~ need (same x16 x8) ;;
  Ok tt.
(** core/number.rs, happy *)
Definition t_number_happy_5 : outcome unit :=
  let x1 := 65535 in
  let x2 := (s2b "ffff") in
  let x3 := (s2b "M") in
  let x4 := [255; 255] in
  let x5 := (s2b "MP__") in
  let x6 := (s2b "MP__") in
  let x7 := [48; 255; 255] in
  let x8 := true in
  x9 <~ unw (number_new (None) (None) (None) (None) (None) (None) ((Some x7))) ;;
  let x10 := x9 in
  _ <~ need (same (m_code x10) x3) ;;
  _ <~ need (same (m_raw x10) x4) ;;
  x11 <~ unw (matter_qb64b x10) ;;
  _ <~ need (same x11 x6) ;;
  x12 <~ unw (matter_qb64 x10) ;;
  _ <~ need (same x12 x5) ;;
  x13 <~ unw (matter_qb2 x10) ;;
  _ <~ need (same x13 x7) ;;
  x14 <~ unw (number_num x10) ;;
  _ <~ need (same x14 x1) ;;
  x15 <~ unw (number_numh x10) ;;
  _ <~ need (same x15 x2) ;;
  x16 <~ unw (number_positive x10) ;;
  _ <~ need (same x16 x8) ;;
  Ok tt.
(** core/number.rs, happy *)
Definition t_number_happy_6 : outcome unit :=
  let x1 := 4294967295 in
  let x2 := (s2b "ffffffff") in
  let x3 := (s2b "0H") in
  let x4 := [255; 255; 255; 255] in
  let x5 := (s2b "0HD_____") in
  let x6 := (s2b "0HD_____") in
  let x7 := [208; 112; 255; 255; 255; 255] in
  let x8 := true in
  x9 <~ unw (number_new ((Some x1)) (None) (None) (None) (None) (None) (None)) ;;
  let x10 := x9 in
  _ <~ need (same (m_code x10) x3) ;;
  _ <~ need (same (m_raw x10) x4) ;;
  x11 <~ unw (matter_qb64b x10) ;;
  _ <~ need (same x11 x6) ;;
  x12 <~ unw (matter_qb64 x10) ;;
  _ <~ need (same x12 x5) ;;
  x13 <~ unw (matter_qb2 x10) ;;
  _ <~ need (same x13 x7) ;;
  x14 <~ unw (number_num x10) ;;
  _ <~ need (same x14 x1) ;;
  x15 <~ unw (number_numh x10) ;;
  _ <~ need (same x15 x2) ;;
  x16 <~ unw (number_positive x10) ;;
  _ <~ need (same x16 x8) ;;
  Ok tt.
(** core/number.rs, happy *)
Definition t_number_happy_7 : outcome unit :=
  let x1 := 4294967295 in
  let x2 := (s2b "ffffffff") in
  let x3 := (s2b "0H") in
  let x4 := [255; 255; 255; 255] in
  let x5 := (s2b "0HD_____") in
  let x6 := (s2b "0HD_____") in
  let x7 := [208; 112; 255; 255; 255; 255] in
  let x8 := true in
  x9 <~ unw (number_new (None) ((Some x2)) (None) (None) (None) (None) (None)) ;;
  let x10 := x9 in
  _ <~ need (same (m_code x10) x3) ;;
  _ <~ need (same (m_raw x10) x4) ;;
  x11 <~ unw (matter_qb64b x10) ;;
  _ <~ need (same x11 x6) ;;
  x12 <~ unw (matter_qb64 x10) ;;
  _ <~ need (same x12 x5) ;;
  x13 <~ unw (matter_qb2 x10) ;;
  _ <~ need (same x13 x7) ;;
  x14 <~ unw (number_num x10) ;;
  _ <~ need (same x14 x1) ;;
  x15 <~ unw (number_numh x10) ;;
  _ <~ need (same x15 x2) ;;
  x16 <~ unw (number_positive x10) ;;
  _ <~ need (same x16 x8) ;;
  Ok tt.
(** core/number.rs, happy *)
Definition t_number_happy_8 : outcome unit :=
  let x1 := 4294967295 in
  let x2 := (s2b "ffffffff") in
  let x3 := (s2b "0H") in
  let x4 := [255; 255; 255; 255] in
  let x5 := (s2b "0HD_____") in
  let x6 := (s2b "0HD_____") in
  let x7 := [208; 112; 255; 255; 255; 255] in
  let x8 := true in
  x9 <~ unw (number_new (None) (None) ((Some x3)) ((Some x4)) (None) (None) (None)) ;;
  let x10 := x9 in
  _ <~ need (same (m_code x10) x3) ;;
  _ <~ need (same (m_raw x10) x4) ;;
  x11 <~ unw (matter_qb64b x10) ;;
  _ <~ need (same x11 x6) ;;
  x12 <~ unw (matter_qb64 x10) ;;
  _ <~ need (same x12 x5) ;;
  x13 <~ unw (matter_qb2 x10) ;;
  _ <~ need (same x13 x7) ;;
  x14 <~ unw (number_num x10) ;;
  _ <~ need (same x14 x1) ;;
  x15 <~ unw (number_numh x10) ;;
  _ <~ need (same x15 x2) ;;
  x16 <~ unw (number_positive x10) ;;
  _ <~ need (same x16 x8) ;;
  Ok tt.
(** core/number.rs, happy *)
Definition t_number_happy_9 : outcome unit :=
  let x1 := 4294967295 in
  let x2 := (s2b "ffffffff") in
  let x3 := (s2b "0H") in
  let x4 := [255; 255; 255; 255] in
  let x5 := (s2b "0HD_____") in
  let x6 := (s2b "0HD_____") in
  let x7 := [208; 112; 255; 255; 255; 255] in
  let x8 := true in
  x9 <~ unw (number_new (None) (None) (None) (None) ((Some x6)) (None) (None)) ;;
  let x10 := x9 in
  _ <~ need (same (m_code x10) x3) ;;
  _ <~ need (same (m_raw x10) x4) ;;
  x11 <~ unw (matter_qb64b x10) ;;
  _ <~ need (same x11 x6) ;;
  x12 <~ unw (matter_qb64 x10) ;;
  _ <~ need (same x12 x5) ;;
  x13 <~ unw (matter_qb2 x10) ;;
  _ <~ need (same x13 x7) ;;
  x14 <~ unw (number_num x10) ;;
  _ <~ need (same x14 x1) ;;
  x15 <~ unw (number_numh x10) ;;
  _ <~ need (same x15 x2) ;;
  x16 <~ unw (number_positive x10) ;;
  _ <~ need (same x16 x8) ;;
  Ok tt.
(** core/number.rs, happy *)
Definition t_number_happy_10 : outcome unit :=
  let x1 := 4294967295 in
  let x2 := (s2b "ffffffff") in
  let x3 := (s2b "0H") in
  let x4 := [255; 255; 255; 255] in
  let x5 := (s2b "0HD_____") in
  let x6 := (s2b "0HD_____") in
  let x7 := [208; 112; 255; 255; 255; 255] in
  let x8 := true in
  x9 <~ unw (number_new (None) (None) (None) (None) (None) ((Some x5)) (None)) ;;
  let x10 := x9 in
  _ <~ need (same (m_code x10) x3) ;;
  _ <~ need (same (m_raw x10) x4) ;;
  x11 <~ unw (matter_qb64b x10) ;;
  _ <~ need (same x11 x6) ;;
  x12 <~ unw (matter_qb64 x10) ;;
  _ <~ need (same x12 x5) ;;
  x13 <~ unw (matter_qb2 x10) ;;
  _ <~ need (same x13 x7) ;;
  x14 <~ unw (number_num x10) ;;
  _ <~ need (same x14 x1) ;;
  x15 <~ unw (number_numh x10) ;;
  _ <~ need (same x15 x2) ;;
  x16 <~ unw (number_positive x10) ;;
  _ <~ need (same x16 x8) ;;
  Ok tt.
(** core/number.rs, happy *)
Definition t_number_happy_11 : outcome unit :=
  let x1 := 4294967295 in
  let x2 := (s2b "ffffffff") in
  let x3 := (s2b "0H") in
  let x4 := [255; 255; 255; 255] in
  let x5 := (s2b "0HD_____") in
  let x6 := (s2b "0HD_____") in
  let x7 := [208; 112; 255; 255; 255; 255] in
  let x8 := true in
  x9 <~ unw (number_new (None) (None) (None) (None) (None) (None) ((Some x7))) ;;
  let x10 := x9 in
  _ <~ need (same (m_code x10) x3) ;;
  _ <~ need (same (m_raw x10) x4) ;;
  x11 <~ unw (matter_qb64b x10) ;;
  _ <~ need (same x11 x6) ;;
  x12 <~ unw (matter_qb64 x10) ;;
  _ <~ need (same x12 x5) ;;
  x13 <~ unw (matter_qb2 x10) ;;
  _ <~ need (same x13 x7) ;;
  x14 <~ unw (number_num x10) ;;
  _ <~ need (same x14 x1) ;;
  x15 <~ unw (number_numh x10) ;;
  _ <~ need (same x15 x2) ;;
  x16 <~ unw (number_positive x10) ;;
  _ <~ need (same x16 x8) ;;
  Ok tt.
(** core/number.rs, happy *)
Definition t_number_happy_12 : outcome unit :=
  let x1 := 18446744073709551615 in
  let x2 := (s2b "ffffffffffffffff") in
  let x3 := (s2b "N") in
  let x4 := [255; 255; 255; 255; 255; 255; 255; 255] in
  let x5 := (s2b "NP__________") in
  let x6 := (s2b "NP__________") in
  let x7 := [52; 255; 255; 255; 255; 255; 255; 255; 255] in
  let x8 := true in
  x9 <~ unw (number_new ((Some x1)) (None) (None) (None) (None) (None) (None)) ;;
  let x10 := x9 in
  _ <~ need (same (m_code x10) x3) ;;
  _ <~ need (same (m_raw x10) x4) ;;
  x11 <~ unw (matter_qb64b x10) ;;
  _ <~ need (same x11 x6) ;;
  x12 <~ unw (matter_qb64 x10) ;;
  _ <~ need (same x12 x5) ;;
  x13 <~ unw (matter_qb2 x10) ;;
  _ <~ need (same x13 x7) ;;
  x14 <~ unw (number_num x10) ;;
  _ <~ need (same x14 x1) ;;
  x15 <~ unw (number_numh x10) ;;
  _ <~ need (same x15 x2) ;;
  x16 <~ unw (number_positive x10) ;;
  _ <~ need (same x16 x8) ;;
  Ok tt.
(** core/number.rs, happy *)
Definition t_number_happy_13 : outcome unit :=
  let x1 := 18446744073709551615 in
  let x2 := (s2b "ffffffffffffffff") in
  let x3 := (s2b "N") in
  let x4 := [255; 255; 255; 255; 255; 255; 255; 255] in
  let x5 := (s2b "NP__________") in
  let x6 := (s2b "NP__________") in
  let x7 := [52; 255; 255; 255; 255; 255; 255; 255; 255] in
  let x8 := true in
  x9 <~ unw (number_new (None) ((Some x2)) (None) (None) (None) (None) (None)) ;;
  let x10 := x9 in
  _ <~ need (same (m_code x10) x3) ;;
  _ <~ need (same (m_raw x10) x4) ;;
  x11 <~ unw (matter_qb64b x10) ;;
  _ <~ need (same x11 x6) ;;
  x12 <~ unw (matter_qb64 x10) ;;
  _ <~ need (same x12 x5) ;;
  x13 <~ unw (matter_qb2 x10) ;;
  _ <~ need (same x13 x7) ;;
  x14 <~ unw (number_num x10) ;;
  _ <~ need (same x14 x1) ;;
  x15 <~ unw (number_numh x10) ;;
  _ <~ need (same x15 x2) ;;
  x16 <~ unw (number_positive x10) ;;
  _ <~ need (same x16 x8) ;;
  Ok tt.
(** core/number.rs, happy *)
Definition t_number_happy_14 : outcome unit :=
  let x1 := 18446744073709551615 in
  let x2 := (s2b "ffffffffffffffff") in
  let x3 := (s2b "N") in
  let x4 := [255; 255; 255; 255; 255; 255; 255; 255] in
  let x5 := (s2b "NP__________") in
  let x6 := (s2b "NP__________") in
  let x7 := [52; 255; 255; 255; 255; 255; 255; 255; 255] in
  let x8 := true in
  x9 <~ unw (number_new (None) (None) ((Some x3)) ((Some x4)) (None) (None) (None)) ;;
  let x10 := x9 in
  _ <~ need (same (m_code x10) x3) ;;
  _ <~ need (same (m_raw x10) x4) ;;
  x11 <~ unw (matter_qb64b x10) ;;
  _ <~ need (same x11 x6) ;;
  x12 <~ unw (matter_qb64 x10) ;;
  _ <~ need (same x12 x5) ;;
  x13 <~ unw (matter_qb2 x10) ;;
  _ <~ need (same x13 x7) ;;
  x14 <~ unw (number_num x10) ;;
  _ <~ need (same x14 x1) ;;
  x15 <~ unw (number_numh x10) ;;
  _ <~ need (same x15 x2) ;;
  x16 <~ unw (number_positive x10) ;;
  _ <~ need (same x16 x8) ;;
  Ok tt.
(** core/number.rs, happy *)
Definition t_number_happy_15 : outcome unit :=
  let x1 := 18446744073709551615 in
  let x2 := (s2b "ffffffffffffffff") in
  let x3 := (s2b "N") in
  let x4 := [255; 255; 255; 255; 255; 255; 255; 255] in
  let x5 := (s2b "NP__________") in
  let x6 := (s2b "NP__________") in
  let x7 := [52; 255; 255; 255; 255; 255; 255; 255; 255] in
  let x8 := true in
  x9 <~ unw (number_new (None) (None) (None) (None) ((Some x6)) (None) (None)) ;;
  let x10 := x9 in
  _ <~ need (same (m_code x10) x3) ;;
  _ <~ need (same (m_raw x10) x4) ;;
  x11 <~ unw (matter_qb64b x10) ;;
  _ <~ need (same x11 x6) ;;
  x12 <~ unw (matter_qb64 x10) ;;
  _ <~ need (same x12 x5) ;;
  x13 <~ unw (matter_qb2 x10) ;;
  _ <~ need (same x13 x7) ;;
  x14 <~ unw (number_num x10) ;;
  _ <~ need (same x14 x1) ;;
  x15 <~ unw (number_numh x10) ;;
  _ <~ need (same x15 x2) ;;
  x16 <~ unw (number_positive x10) ;;
  _ <~ need (same x16 x8) ;;
  Ok tt.
(** core/number.rs, happy *)
Definition t_number_happy_16 : outcome unit :=
  let x1 := 18446744073709551615 in
  let x2 := (s2b "ffffffffffffffff") in
  let x3 := (s2b "N") in
  let x4 := [255; 255; 255; 255; 255; 255; 255; 255] in
  let x5 := (s2b "NP__________") in
  let x6 := (s2b "NP__________") in
  let x7 := [52; 255; 255; 255; 255; 255; 255; 255; 255] in
  let x8 := true in
  x9 <~ unw (number_new (None) (None) (None) (None) (None) ((Some x5)) (None)) ;;
  let x10 := x9 in
  _ <~ need (same (m_code x10) x3) ;;
  _ <~ need (same (m_raw x10) x4) ;;
  x11 <~ unw (matter_qb64b x10) ;;
  _ <~ need (same x11 x6) ;;
  x12 <~ unw (matter_qb64 x10) ;;
  _ <~ need (same x12 x5) ;;
  x13 <~ unw (matter_qb2 x10) ;;
  _ <~ need (same x13 x7) ;;
  x14 <~ unw (number_num x10) ;;
  _ <~ need (same x14 x1) ;;
  x15 <~ unw (number_numh x10) ;;
  _ <~ need (same x15 x2) ;;
  x16 <~ unw (number_positive x10) ;;
  _ <~ need (same x16 x8) ;;
  Ok tt.
(** core/number.rs, happy *)
Definition t_number_happy_17 : outcome unit :=
  let x1 := 18446744073709551615 in
  let x2 := (s2b "ffffffffffffffff") in
  let x3 := (s2b "N") in
  let x4 := [255; 255; 255; 255; 255; 255; 255; 255] in
  let x5 := (s2b "NP__________") in
  let x6 := (s2b "NP__________") in
  let x7 := [52; 255; 255; 255; 255; 255; 255; 255; 255] in
  let x8 := true in
  x9 <~ unw (number_new (None) (None) (None) (None) (None) (None) ((Some x7))) ;;
  let x10 := x9 in
  _ <~ need (same (m_code x10) x3) ;;
  _ <~ need (same (m_raw x10) x4) ;;
  x11 <~ unw (matter_qb64b x10) ;;
  _ <~ need (same x11 x6) ;;
  x12 <~ unw (matter_qb64 x10) ;;
  _ <~ need (same x12 x5) ;;
  x13 <~ unw (matter_qb2 x10) ;;
  _ <~ need (same x13 x7) ;;
  x14 <~ unw (number_num x10) ;;
  _ <~ need (same x14 x1) ;;
  x15 <~ unw (number_numh x10) ;;
  _ <~ need (same x15 x2) ;;
  x16 <~ unw (number_positive x10) ;;
  _ <~ need (same x16 x8) ;;
  Ok tt.
(** core/number.rs, happy *)
Definition t_number_happy_18 : outcome unit :=
  let x1 := 340282366920938463463374607431768211455 in
  let x2 := (s2b "ffffffffffffffffffffffffffffffff") in
  let x3 := (s2b "0A") in
  let x4 := [255; 255; 255; 255; 255; 255; 255; 255; 255; 255; 255; 255; 255; 255; 255; 255] in
  let x5 := (s2b "0AD_____________________") in
  let x6 := (s2b "0AD_____________________") in
  let x7 := [208; 0; 255; 255; 255; 255; 255; 255; 255; 255; 255; 255; 255; 255; 255; 255; 255; 255] in
  let x8 := true in
  x9 <~ unw (number_new ((Some x1)) (None) (None) (None) (None) (None) (None)) ;;
  let x10 := x9 in
  _ <~ need (same (m_code x10) x3) ;;
  _ <~ need (same (m_raw x10) x4) ;;
  x11 <~ unw (matter_qb64b x10) ;;
  _ <~ need (same x11 x6) ;;
  x12 <~ unw (matter_qb64 x10) ;;
  _ <~ need (same x12 x5) ;;
  x13 <~ unw (matter_qb2 x10) ;;
  _ <~ need (same x13 x7) ;;
  x14 <~ unw (number_num x10) ;;
  _ <~ need (same x14 x1) ;;
  x15 <~ unw (number_numh x10) ;;
  _ <~ need (same x15 x2) ;;
  x16 <~ unw (number_positive x10) ;;
  _ <~ need (same x16 x8) ;;
  Ok tt.
(** core/number.rs, happy *)
Definition t_number_happy_19 : outcome unit :=
  let x1 := 340282366920938463463374607431768211455 in
  let x2 := (s2b "ffffffffffffffffffffffffffffffff") in
  let x3 := (s2b "0A") in
  let x4 := [255; 255; 255; 255; 255; 255; 255; 255; 255; 255; 255; 255; 255; 255; 255; 255] in
  let x5 := (s2b "0AD_____________________") in
  let x6 := (s2b "0AD_____________________") in
  let x7 := [208; 0; 255; 255; 255; 255; 255; 255; 255; 255; 255; 255; 255; 255; 255; 255; 255; 255] in
  let x8 := true in
  x9 <~ unw (number_new (None) ((Some x2)) (None) (None) (None) (None) (None)) ;;
  let x10 := x9 in
  _ <~ need (same (m_code x10) x3) ;;
  _ <~ need (same (m_raw x10) x4) ;;
  x11 <~ unw (matter_qb64b x10) ;;
  _ <~ need (same x11 x6) ;;
  x12 <~ unw (matter_qb64 x10) ;;
  _ <~ need (same x12 x5) ;;
  x13 <~ unw (matter_qb2 x10) ;;
  _ <~ need (same x13 x7) ;;
  x14 <~ unw (number_num x10) ;;
  _ <~ need (same x14 x1) ;;
  x15 <~ unw (number_numh x10) ;;
  _ <~ need (same x15 x2) ;;
  x16 <~ unw (number_positive x10) ;;
  _ <~ need (same x16 x8) ;;
  Ok tt.
(** core/number.rs, happy *)
Definition t_number_happy_20 : outcome unit :=
  let x1 := 340282366920938463463374607431768211455 in
  let x2 := (s2b "ffffffffffffffffffffffffffffffff") in
  let x3 := (s2b "0A") in
  let x4 := [255; 255; 255; 255; 255; 255; 255; 255; 255; 255; 255; 255; 255; 255; 255; 255] in
  let x5 := (s2b "0AD_____________________") in
  let x6 := (s2b "0AD_____________________") in
  let x7 := [208; 0; 255; 255; 255; 255; 255; 255; 255; 255; 255; 255; 255; 255; 255; 255; 255; 255] in
  let x8 := true in
  x9 <~ unw (number_new (None) (None) ((Some x3)) ((Some x4)) (None) (None) (None)) ;;
  let x10 := x9 in
  _ <~ need (same (m_code x10) x3) ;;
  _ <~ need (same (m_raw x10) x4) ;;
  x11 <~ unw (matter_qb64b x10) ;;
  _ <~ need (same x11 x6) ;;
  x12 <~ unw (matter_qb64 x10) ;;
  _ <~ need (same x12 x5) ;;
  x13 <~ unw (matter_qb2 x10) ;;
  _ <~ need (same x13 x7) ;;
  x14 <~ unw (number_num x10) ;;
  _ <~ need (same x14 x1) ;;
  x15 <~ unw (number_numh x10) ;;
  _ <~ need (same x15 x2) ;;
  x16 <~ unw (number_positive x10) ;;
  _ <~ need (same x16 x8) ;;
  Ok tt.
(** core/number.rs, happy *)
Definition t_number_happy_21 : outcome unit :=
  let x1 := 340282366920938463463374607431768211455 in
  let x2 := (s2b "ffffffffffffffffffffffffffffffff") in
  let x3 := (s2b "0A") in
  let x4 := [255; 255; 255; 255; 255; 255; 255; 255; 255; 255; 255; 255; 255; 255; 255; 255] in
  let x5 := (s2b "0AD_____________________") in
  let x6 := (s2b "0AD_____________________") in
  let x7 := [208; 0; 255; 255; 255; 255; 255; 255; 255; 255; 255; 255; 255; 255; 255; 255; 255; 255] in
  let x8 := true in
  x9 <~ unw (number_new (None) (None) (None) (None) ((Some x6)) (None) (None)) ;;
  let x10 := x9 in
  _ <~ need (same (m_code x10) x3) ;;
  _ <~ need (same (m_raw x10) x4) ;;
  x11 <~ unw (matter_qb64b x10) ;;
  _ <~ need (same x11 x6) ;;
  x12 <~ unw (matter_qb64 x10) ;;
  _ <~ need (same x12 x5) ;;
  x13 <~ unw (matter_qb2 x10) ;;
  _ <~ need (same x13 x7) ;;
  x14 <~ unw (number_num x10) ;;
  _ <~ need (same x14 x1) ;;
  x15 <~ unw (number_numh x10) ;;
  _ <~ need (same x15 x2) ;;
  x16 <~ unw (number_positive x10) ;;
  _ <~ need (same x16 x8) ;;
  Ok tt.
(** core/number.rs, happy *)
Definition t_number_happy_22 : outcome unit :=
  let x1 := 340282366920938463463374607431768211455 in
  let x2 := (s2b "ffffffffffffffffffffffffffffffff") in
  let x3 := (s2b "0A") in
  let x4 := [255; 255; 255; 255; 255; 255; 255; 255; 255; 255; 255; 255; 255; 255; 255; 255] in
  let x5 := (s2b "0AD_____________________") in
  let x6 := (s2b "0AD_____________________") in
  let x7 := [208; 0; 255; 255; 255; 255; 255; 255; 255; 255; 255; 255; 255; 255; 255; 255; 255; 255] in
  let x8 := true in
  x9 <~ unw (number_new (None) (None) (None) (None) (None) ((Some x5)) (None)) ;;
  let x10 := x9 in
  _ <~ need (same (m_code x10) x3) ;;
  _ <~ need (same (m_raw x10) x4) ;;
  x11 <~ unw (matter_qb64b x10) ;;
  _ <~ need (same x11 x6) ;;
  x12 <~ unw (matter_qb64 x10) ;;
  _ <~ need (same x12 x5) ;;
  x13 <~ unw (matter_qb2 x10) ;;
  _ <~ need (same x13 x7) ;;
  x14 <~ unw (number_num x10) ;;
  _ <~ need (same x14 x1) ;;
  x15 <~ unw (number_numh x10) ;;
  _ <~ need (same x15 x2) ;;
  x16 <~ unw (number_positive x10) ;;
  _ <~ need (same x16 x8) ;;
  Ok tt.
(** core/number.rs, happy *)
Definition t_number_happy_23 : outcome unit :=
  let x1 := 340282366920938463463374607431768211455 in
  let x2 := (s2b "ffffffffffffffffffffffffffffffff") in
  let x3 := (s2b "0A") in
  let x4 := [255; 255; 255; 255; 255; 255; 255; 255; 255; 255; 255; 255; 255; 255; 255; 255] in
  let x5 := (s2b "0AD_____________________") in
  let x6 := (s2b "0AD_____________________") in
  let x7 := [208; 0; 255; 255; 255; 255; 255; 255; 255; 255; 255; 255; 255; 255; 255; 255; 255; 255] in
  let x8 := true in
  x9 <~ unw (number_new (None) (None) (None) (None) (None) (None) ((Some x7))) ;;
  let x10 := x9 in
  _ <~ need (same (m_code x10) x3) ;;
  _ <~ need (same (m_raw x10) x4) ;;
  x11 <~ unw (matter_qb64b x10) ;;
  _ <~ need (same x11 x6) ;;
  x12 <~ unw (matter_qb64 x10) ;;
  _ <~ need (same x12 x5) ;;
  x13 <~ unw (matter_qb2 x10) ;;
  _ <~ need (same x13 x7) ;;
  x14 <~ unw (number_num x10) ;;
  _ <~ need (same x14 x1) ;;
  x15 <~ unw (number_numh x10) ;;
  _ <~ need (same x15 x2) ;;
  x16 <~ unw (number_positive x10) ;;
  _ <~ need (same x16 x8) ;;
  Ok tt.
(** core/number.rs, truncates *)
Definition t_number_truncates_0 : outcome unit :=
  let x1 := 65535 in
  let x2 := (s2b "ffff") in
  let x3 := (s2b "M") in
  let x4 := [255; 255] in
  let x5 := [255; 255; 255] in
  let x6 := (s2b "MP__") in
  let x7 := (s2b "MP__") in
  let x8 := [48; 255; 255] in
  let x9 := true in
  x10 <~ unw (number_new (None) (None) ((Some x3)) ((Some x5)) (None) (None) (None)) ;;
  let x11 := x10 in
  _ <~ need (negb (same x4 x5)) ;;
  _ <~ need (same (m_code x11) x3) ;;
  _ <~ need (same (m_raw x11) x4) ;;
  x12 <~ unw (matter_qb64b x11) ;;
  _ <~ need (same x12 x7) ;;
  x13 <~ unw (matter_qb64 x11) ;;
  _ <~ need (same x13 x6) ;;
  x14 <~ unw (matter_qb2 x11) ;;
  _ <~ need (same x14 x8) ;;
  x15 <~ unw (number_num x11) ;;
  _ <~ need (same x15 x1) ;;
  x16 <~ unw (number_numh x11) ;;
  _ <~ need (same x16 x2) ;;
  x17 <~ unw (number_positive x11) ;;
  _ <~ need (same x17 x9) ;;
  _ <~ need (errs (number_new (None) (None) ((Some x3)) ((Some [255])) (None) (None) (None))) ;;
  Ok tt.
(** core/number.rs, truncates *)
Definition t_number_truncates_1 : outcome unit :=
  let x1 := 4294967295 in
  let x2 := (s2b "ffffffff") in
  let x3 := (s2b "0H") in
  let x4 := [255; 255; 255; 255] in
  let x5 := [255; 255; 255; 255; 255] in
  let x6 := (s2b "0HD_____") in
  let x7 := (s2b "0HD_____") in
  let x8 := [208; 112; 255; 255; 255; 255] in
  let x9 := true in
  x10 <~ unw (number_new (None) (None) ((Some x3)) ((Some x5)) (None) (None) (None)) ;;
  let x11 := x10 in
  _ <~ need (negb (same x4 x5)) ;;
  _ <~ need (same (m_code x11) x3) ;;
  _ <~ need (same (m_raw x11) x4) ;;
  x12 <~ unw (matter_qb64b x11) ;;
  _ <~ need (same x12 x7) ;;
  x13 <~ unw (matter_qb64 x11) ;;
  _ <~ need (same x13 x6) ;;
  x14 <~ unw (matter_qb2 x11) ;;
  _ <~ need (same x14 x8) ;;
  x15 <~ unw (number_num x11) ;;
  _ <~ need (same x15 x1) ;;
  x16 <~ unw (number_numh x11) ;;
  _ <~ need (same x16 x2) ;;
  x17 <~ unw (number_positive x11) ;;
  _ <~ need (same x17 x9) ;;
  _ <~ need (errs (number_new (None) (None) ((Some x3)) ((Some [255])) (None) (None) (None))) ;;
  Ok tt.
(** core/number.rs, truncates *)
Definition t_number_truncates_2 : outcome unit :=
  let x1 := 18446744073709551615 in
  let x2 := (s2b "ffffffffffffffff") in
  let x3 := (s2b "N") in
  let x4 := [255; 255; 255; 255; 255; 255; 255; 255] in
  let x5 := [255; 255; 255; 255; 255; 255; 255; 255; 255] in
  let x6 := (s2b "NP__________") in
  let x7 := (s2b "NP__________") in
  let x8 := [52; 255; 255; 255; 255; 255; 255; 255; 255] in
  let x9 := true in
  x10 <~ unw (number_new (None) (None) ((Some x3)) ((Some x5)) (None) (None) (None)) ;;
  let x11 := x10 in
  _ <~ need (negb (same x4 x5)) ;;
  _ <~ need (same (m_code x11) x3) ;;
  _ <~ need (same (m_raw x11) x4) ;;
  x12 <~ unw (matter_qb64b x11) ;;
  _ <~ need (same x12 x7) ;;
  x13 <~ unw (matter_qb64 x11) ;;
  _ <~ need (same x13 x6) ;;
  x14 <~ unw (matter_qb2 x11) ;;
  _ <~ need (same x14 x8) ;;
  x15 <~ unw (number_num x11) ;;
  _ <~ need (same x15 x1) ;;
  x16 <~ unw (number_numh x11) ;;
  _ <~ need (same x16 x2) ;;
  x17 <~ unw (number_positive x11) ;;
  _ <~ need (same x17 x9) ;;
  _ <~ need (errs (number_new (None) (None) ((Some x3)) ((Some [255])) (None) (None) (None))) ;;
  Ok tt.
(** core/number.rs, truncates *)
Definition t_number_truncates_3 : outcome unit :=
  let x1 := 340282366920938463463374607431768211455 in
  let x2 := (s2b "ffffffffffffffffffffffffffffffff") in
  let x3 := (s2b "0A") in
  let x4 := [255; 255; 255; 255; 255; 255; 255; 255; 255; 255; 255; 255; 255; 255; 255; 255] in
  let x5 := [255; 255; 255; 255; 255; 255; 255; 255; 255; 255; 255; 255; 255; 255; 255; 255; 255] in
  let x6 := (s2b "0AD_____________________") in
  let x7 := (s2b "0AD_____________________") in
  let x8 := [208; 0; 255; 255; 255; 255; 255; 255; 255; 255; 255; 255; 255; 255; 255; 255; 255; 255] in
  let x9 := true in
  x10 <~ unw (number_new (None) (None) ((Some x3)) ((Some x5)) (None) (None) (None)) ;;
  let x11 := x10 in
  _ <~ need (negb (same x4 x5)) ;;
  _ <~ need (same (m_code x11) x3) ;;
  _ <~ need (same (m_raw x11) x4) ;;
  x12 <~ unw (matter_qb64b x11) ;;
  _ <~ need (same x12 x7) ;;
  x13 <~ unw (matter_qb64 x11) ;;
  _ <~ need (same x13 x6) ;;
  x14 <~ unw (matter_qb2 x11) ;;
  _ <~ need (same x14 x8) ;;
  x15 <~ unw (number_num x11) ;;
  _ <~ need (same x15 x1) ;;
  x16 <~ unw (number_numh x11) ;;
  _ <~ need (same x16 x2) ;;
  x17 <~ unw (number_positive x11) ;;
  _ <~ need (same x17 x9) ;;
  _ <~ need (errs (number_new (None) (None) ((Some x3)) ((Some [255])) (None) (None) (None))) ;;
  Ok tt.
(** core/seqner.rs, convenience *)
Definition t_seqner_convenience_0 : outcome unit :=
  let x1 := [0; 0; 0; 0; 0; 0; 0; 0; 0; 0; 0; 0; 0; 0; 0; 10] in
  x2 <~ unw (seqner_new (None) (None) (None) ((Some x1)) (None) (None) (None)) ;;
  let x3 := x2 in
  x4 <~ unw (seqner_sn x3) ;;
  _ <~ need (ok (seqner_new (Some x4) None None None None None None)) ;;
  x5 <~ unw (seqner_snh x3) ;;
  _ <~ need (ok (seqner_new None (Some x5) None None None None None)) ;;
  _ <~ need (ok (seqner_new None None ((Some (m_code x3))) (Some (m_raw x3)) None None None)) ;;
  x6 <~ unw (matter_qb64b x3) ;;
  _ <~ need (ok (seqner_new None None None None (Some x6) None None)) ;;
  x7 <~ unw (matter_qb64 x3) ;;
  _ <~ need (ok (seqner_new None None None None None (Some x7) None)) ;;
  x8 <~ unw (matter_qb2 x3) ;;
  _ <~ need (ok (seqner_new None None None None None None (Some x8))) ;;
  Ok tt.
(** core/seqner.rs, new_default_and_zero *)
Definition t_seqner_new_default_and_zero_0 : outcome unit :=
  let x1 := (s2b "0AAAAAAAAAAAAAAAAAAAAAAA") in
  let x2 := [208; 0; 0; 0; 0; 0; 0; 0; 0; 0; 0; 0; 0; 0; 0; 0; 0; 0] in
  x3 <~ unw (seqner_new (None) (None) ((Some (s2b "0A"))) (None) (None) (None) (None)) ;;
  let x4 := x3 in
  _ <~ need (same (m_raw x4) (drop 2 x2)) ;;
  _ <~ need (same (m_code x4) (s2b "0A")) ;;
  x5 <~ unw (seqner_sn x4) ;;
  _ <~ need (same x5 0) ;;
  x6 <~ unw (seqner_snh x4) ;;
  _ <~ need (same x6 (s2b "0")) ;;
  x7 <~ unw (matter_qb64 x4) ;;
  _ <~ need (same x7 x1) ;;
  x8 <~ unw (matter_qb64b x4) ;;
  _ <~ need (same x8 x1) ;;
  x9 <~ unw (matter_qb2 x4) ;;
  _ <~ need (same x9 x2) ;;
  Ok tt.
(** core/seqner.rs, new_default_and_zero *)
Definition t_seqner_new_default_and_zero_1 : outcome unit :=
  let x1 := (s2b "0AAAAAAAAAAAAAAAAAAAAAAA") in
  let x2 := [208; 0; 0; 0; 0; 0; 0; 0; 0; 0; 0; 0; 0; 0; 0; 0; 0; 0] in
  x3 <~ unw (seqner_new (None) (None) ((Some (s2b "0A"))) ((Some [0; 0; 0; 0; 0; 0; 0; 0; 0; 0; 0; 0; 0; 0; 0; 0])) (None) (None) (None)) ;;
  let x4 := x3 in
  _ <~ need (same (m_raw x4) (drop 2 x2)) ;;
  _ <~ need (same (m_code x4) (s2b "0A")) ;;
  x5 <~ unw (seqner_sn x4) ;;
  _ <~ need (same x5 0) ;;
  x6 <~ unw (seqner_snh x4) ;;
  _ <~ need (same x6 (s2b "0")) ;;
  x7 <~ unw (matter_qb64 x4) ;;
  _ <~ need (same x7 x1) ;;
  x8 <~ unw (matter_qb64b x4) ;;
  _ <~ need (same x8 x1) ;;
  x9 <~ unw (matter_qb2 x4) ;;
  _ <~ need (same x9 x2) ;;
  Ok tt.
(** core/seqner.rs, new_default_and_zero *)
Definition t_seqner_new_default_and_zero_2 : outcome unit :=
  let x1 := (s2b "0AAAAAAAAAAAAAAAAAAAAAAA") in
  let x2 := [208; 0; 0; 0; 0; 0; 0; 0; 0; 0; 0; 0; 0; 0; 0; 0; 0; 0] in
  x3 <~ unw (seqner_new ((Some 0)) (None) ((Some (s2b "0A"))) (None) (None) (None) (None)) ;;
  let x4 := x3 in
  _ <~ need (same (m_raw x4) (drop 2 x2)) ;;
  _ <~ need (same (m_code x4) (s2b "0A")) ;;
  x5 <~ unw (seqner_sn x4) ;;
  _ <~ need (same x5 0) ;;
  x6 <~ unw (seqner_snh x4) ;;
  _ <~ need (same x6 (s2b "0")) ;;
  x7 <~ unw (matter_qb64 x4) ;;
  _ <~ need (same x7 x1) ;;
  x8 <~ unw (matter_qb64b x4) ;;
  _ <~ need (same x8 x1) ;;
  x9 <~ unw (matter_qb2 x4) ;;
  _ <~ need (same x9 x2) ;;
  Ok tt.
(** core/seqner.rs, new_default_and_zero *)
Definition t_seqner_new_default_and_zero_3 : outcome unit :=
  let x1 := (s2b "0AAAAAAAAAAAAAAAAAAAAAAA") in
  let x2 := [208; 0; 0; 0; 0; 0; 0; 0; 0; 0; 0; 0; 0; 0; 0; 0; 0; 0] in
  x3 <~ unw (seqner_new (None) ((Some (s2b "0"))) ((Some (s2b "0A"))) (None) (None) (None) (None)) ;;
  let x4 := x3 in
  _ <~ need (same (m_raw x4) (drop 2 x2)) ;;
  _ <~ need (same (m_code x4) (s2b "0A")) ;;
  x5 <~ unw (seqner_sn x4) ;;
  _ <~ need (same x5 0) ;;
  x6 <~ unw (seqner_snh x4) ;;
  _ <~ need (same x6 (s2b "0")) ;;
  x7 <~ unw (matter_qb64 x4) ;;
  _ <~ need (same x7 x1) ;;
  x8 <~ unw (matter_qb64b x4) ;;
  _ <~ need (same x8 x1) ;;
  x9 <~ unw (matter_qb2 x4) ;;
  _ <~ need (same x9 x2) ;;
  Ok tt.
(** core/seqner.rs, new_default_and_zero *)
Definition t_seqner_new_default_and_zero_4 : outcome unit :=
  let x1 := (s2b "0AAAAAAAAAAAAAAAAAAAAAAA") in
  let x2 := [208; 0; 0; 0; 0; 0; 0; 0; 0; 0; 0; 0; 0; 0; 0; 0; 0; 0] in
  x3 <~ unw (seqner_new (None) ((Some (s2b "00"))) ((Some (s2b "0A"))) (None) (None) (None) (None)) ;;
  let x4 := x3 in
  _ <~ need (same (m_raw x4) (drop 2 x2)) ;;
  _ <~ need (same (m_code x4) (s2b "0A")) ;;
  x5 <~ unw (seqner_sn x4) ;;
  _ <~ need (same x5 0) ;;
  x6 <~ unw (seqner_snh x4) ;;
  _ <~ need (same x6 (s2b "0")) ;;
  x7 <~ unw (matter_qb64 x4) ;;
  _ <~ need (same x7 x1) ;;
  x8 <~ unw (matter_qb64b x4) ;;
  _ <~ need (same x8 x1) ;;
  x9 <~ unw (matter_qb2 x4) ;;
  _ <~ need (same x9 x2) ;;
  Ok tt.
(** core/seqner.rs, new_default_and_zero *)
Definition t_seqner_new_default_and_zero_5 : outcome unit :=
  let x1 := (s2b "0AAAAAAAAAAAAAAAAAAAAAAA") in
  let x2 := [208; 0; 0; 0; 0; 0; 0; 0; 0; 0; 0; 0; 0; 0; 0; 0; 0; 0] in
  x3 <~ unw (seqner_new (None) (None) (None) (None) ((Some x1)) (None) (None)) ;;
  let x4 := x3 in
  _ <~ need (same (m_raw x4) (drop 2 x2)) ;;
  _ <~ need (same (m_code x4) (s2b "0A")) ;;
  x5 <~ unw (seqner_sn x4) ;;
  _ <~ need (same x5 0) ;;
  x6 <~ unw (seqner_snh x4) ;;
  _ <~ need (same x6 (s2b "0")) ;;
  x7 <~ unw (matter_qb64 x4) ;;
  _ <~ need (same x7 x1) ;;
  x8 <~ unw (matter_qb64b x4) ;;
  _ <~ need (same x8 x1) ;;
  x9 <~ unw (matter_qb2 x4) ;;
  _ <~ need (same x9 x2) ;;
  Ok tt.
(** core/seqner.rs, new_default_and_zero *)
Definition t_seqner_new_default_and_zero_6 : outcome unit :=
  let x1 := (s2b "0AAAAAAAAAAAAAAAAAAAAAAA") in
  let x2 := [208; 0; 0; 0; 0; 0; 0; 0; 0; 0; 0; 0; 0; 0; 0; 0; 0; 0] in
  x3 <~ unw (seqner_new (None) (None) (None) (None) (None) ((Some x1)) (None)) ;;
  let x4 := x3 in
  _ <~ need (same (m_raw x4) (drop 2 x2)) ;;
  _ <~ need (same (m_code x4) (s2b "0A")) ;;
  x5 <~ unw (seqner_sn x4) ;;
  _ <~ need (same x5 0) ;;
  x6 <~ unw (seqner_snh x4) ;;
  _ <~ need (same x6 (s2b "0")) ;;
  x7 <~ unw (matter_qb64 x4) ;;
  _ <~ need (same x7 x1) ;;
  x8 <~ unw (matter_qb64b x4) ;;
  _ <~ need (same x8 x1) ;;
  x9 <~ unw (matter_qb2 x4) ;;
  _ <~ need (same x9 x2) ;;
  Ok tt.
(** core/seqner.rs, new_default_and_zero *)
Definition t_seqner_new_default_and_zero_7 : outcome unit :=
  let x1 := (s2b "0AAAAAAAAAAAAAAAAAAAAAAA") in
  let x2 := [208; 0; 0; 0; 0; 0; 0; 0; 0; 0; 0; 0; 0; 0; 0; 0; 0; 0] in
  x3 <~ unw (seqner_new (None) (None) (None) (None) (None) (None) ((Some x2))) ;;
  let x4 := x3 in
  _ <~ need (same (m_raw x4) (drop 2 x2)) ;;
  _ <~ need (same (m_code x4) (s2b "0A")) ;;
  x5 <~ unw (seqner_sn x4) ;;
  _ <~ need (same x5 0) ;;
  x6 <~ unw (seqner_snh x4) ;;
  _ <~ need (same x6 (s2b "0")) ;;
  x7 <~ unw (matter_qb64 x4) ;;
  _ <~ need (same x7 x1) ;;
  x8 <~ unw (matter_qb64b x4) ;;
  _ <~ need (same x8 x1) ;;
  x9 <~ unw (matter_qb2 x4) ;;
  _ <~ need (same x9 x2) ;;
  Ok tt.
(** core/seqner.rs, new_with_data *)
Definition t_seqner_new_with_data_0 : outcome unit :=
  let x1 := (s2b "0AAAAAAAAAAAAAAAAAAAAAAK") in
  let x2 := [208; 0; 0; 0; 0; 0; 0; 0; 0; 0; 0; 0; 0; 0; 0; 0; 0; 10] in
  x3 <~ unw (seqner_new (None) (None) ((Some (s2b "0A"))) ((Some [0; 0; 0; 0; 0; 0; 0; 0; 0; 0; 0; 0; 0; 0; 0; 10])) (None) (None) (None)) ;;
  let x4 := x3 in
  _ <~ need (same (m_raw x4) (drop 2 x2)) ;;
  _ <~ need (same (m_code x4) (s2b "0A")) ;;
  x5 <~ unw (seqner_sn x4) ;;
  _ <~ need (same x5 10) ;;
  x6 <~ unw (seqner_snh x4) ;;
  _ <~ need (same x6 (s2b "a")) ;;
  x7 <~ unw (matter_qb64 x4) ;;
  _ <~ need (same x7 x1) ;;
  x8 <~ unw (matter_qb64b x4) ;;
  _ <~ need (same x8 x1) ;;
  x9 <~ unw (matter_qb2 x4) ;;
  _ <~ need (same x9 x2) ;;
  Ok tt.
(** core/seqner.rs, new_with_data *)
Definition t_seqner_new_with_data_1 : outcome unit :=
  let x1 := (s2b "0AAAAAAAAAAAAAAAAAAAAAAK") in
  let x2 := [208; 0; 0; 0; 0; 0; 0; 0; 0; 0; 0; 0; 0; 0; 0; 0; 0; 10] in
  x3 <~ unw (seqner_new ((Some 10)) (None) ((Some (s2b "0A"))) (None) (None) (None) (None)) ;;
  let x4 := x3 in
  _ <~ need (same (m_raw x4) (drop 2 x2)) ;;
  _ <~ need (same (m_code x4) (s2b "0A")) ;;
  x5 <~ unw (seqner_sn x4) ;;
  _ <~ need (same x5 10) ;;
  x6 <~ unw (seqner_snh x4) ;;
  _ <~ need (same x6 (s2b "a")) ;;
  x7 <~ unw (matter_qb64 x4) ;;
  _ <~ need (same x7 x1) ;;
  x8 <~ unw (matter_qb64b x4) ;;
  _ <~ need (same x8 x1) ;;
  x9 <~ unw (matter_qb2 x4) ;;
  _ <~ need (same x9 x2) ;;
  Ok tt.
(** core/seqner.rs, new_with_data *)
Definition t_seqner_new_with_data_2 : outcome unit :=
  let x1 := (s2b "0AAAAAAAAAAAAAAAAAAAAAAK") in
  let x2 := [208; 0; 0; 0; 0; 0; 0; 0; 0; 0; 0; 0; 0; 0; 0; 0; 0; 10] in
  x3 <~ unw (seqner_new (None) ((Some (s2b "A"))) ((Some (s2b "0A"))) (None) (None) (None) (None)) ;;
  let x4 := x3 in
  _ <~ need (same (m_raw x4) (drop 2 x2)) ;;
  _ <~ need (same (m_code x4) (s2b "0A")) ;;
  x5 <~ unw (seqner_sn x4) ;;
  _ <~ need (same x5 10) ;;
  x6 <~ unw (seqner_snh x4) ;;
  _ <~ need (same x6 (s2b "a")) ;;
  x7 <~ unw (matter_qb64 x4) ;;
  _ <~ need (same x7 x1) ;;
  x8 <~ unw (matter_qb64b x4) ;;
  _ <~ need (same x8 x1) ;;
  x9 <~ unw (matter_qb2 x4) ;;
  _ <~ need (same x9 x2) ;;
  Ok tt.
(** core/seqner.rs, new_with_data *)
Definition t_seqner_new_with_data_3 : outcome unit :=
  let x1 := (s2b "0AAAAAAAAAAAAAAAAAAAAAAK") in
  let x2 := [208; 0; 0; 0; 0; 0; 0; 0; 0; 0; 0; 0; 0; 0; 0; 0; 0; 10] in
  x3 <~ unw (seqner_new (None) ((Some (s2b "0A"))) ((Some (s2b "0A"))) (None) (None) (None) (None)) ;;
  let x4 := x3 in
  _ <~ need (same (m_raw x4) (drop 2 x2)) ;;
  _ <~ need (same (m_code x4) (s2b "0A")) ;;
  x5 <~ unw (seqner_sn x4) ;;
  _ <~ need (same x5 10) ;;
  x6 <~ unw (seqner_snh x4) ;;
  _ <~ need (same x6 (s2b "a")) ;;
  x7 <~ unw (matter_qb64 x4) ;;
  _ <~ need (same x7 x1) ;;
  x8 <~ unw (matter_qb64b x4) ;;
  _ <~ need (same x8 x1) ;;
  x9 <~ unw (matter_qb2 x4) ;;
  _ <~ need (same x9 x2) ;;
  Ok tt.
(** core/seqner.rs, new_with_data *)
Definition t_seqner_new_with_data_4 : outcome unit :=
  let x1 := (s2b "0AAAAAAAAAAAAAAAAAAAAAAK") in
  let x2 := [208; 0; 0; 0; 0; 0; 0; 0; 0; 0; 0; 0; 0; 0; 0; 0; 0; 10] in
  x3 <~ unw (seqner_new (None) (None) (None) (None) ((Some x1)) (None) (None)) ;;
  let x4 := x3 in
  _ <~ need (same (m_raw x4) (drop 2 x2)) ;;
  _ <~ need (same (m_code x4) (s2b "0A")) ;;
  x5 <~ unw (seqner_sn x4) ;;
  _ <~ need (same x5 10) ;;
  x6 <~ unw (seqner_snh x4) ;;
  _ <~ need (same x6 (s2b "a")) ;;
  x7 <~ unw (matter_qb64 x4) ;;
  _ <~ need (same x7 x1) ;;
  x8 <~ unw (matter_qb64b x4) ;;
  _ <~ need (same x8 x1) ;;
  x9 <~ unw (matter_qb2 x4) ;;
  _ <~ need (same x9 x2) ;;
  Ok tt.
(** core/seqner.rs, new_with_data *)
Definition t_seqner_new_with_data_5 : outcome unit :=
  let x1 := (s2b "0AAAAAAAAAAAAAAAAAAAAAAK") in
  let x2 := [208; 0; 0; 0; 0; 0; 0; 0; 0; 0; 0; 0; 0; 0; 0; 0; 0; 10] in
  x3 <~ unw (seqner_new (None) (None) (None) (None) (None) ((Some x1)) (None)) ;;
  let x4 := x3 in
  _ <~ need (same (m_raw x4) (drop 2 x2)) ;;
  _ <~ need (same (m_code x4) (s2b "0A")) ;;
  x5 <~ unw (seqner_sn x4) ;;
  _ <~ need (same x5 10) ;;
  x6 <~ unw (seqner_snh x4) ;;
  _ <~ need (same x6 (s2b "a")) ;;
  x7 <~ unw (matter_qb64 x4) ;;
  _ <~ need (same x7 x1) ;;
  x8 <~ unw (matter_qb64b x4) ;;
  _ <~ need (same x8 x1) ;;
  x9 <~ unw (matter_qb2 x4) ;;
  _ <~ need (same x9 x2) ;;
  Ok tt.
(** core/seqner.rs, new_with_data *)
Definition t_seqner_new_with_data_6 : outcome unit :=
  let x1 := (s2b "0AAAAAAAAAAAAAAAAAAAAAAK") in
  let x2 := [208; 0; 0; 0; 0; 0; 0; 0; 0; 0; 0; 0; 0; 0; 0; 0; 0; 10] in
  x3 <~ unw (seqner_new (None) (None) (None) (None) (None) (None) ((Some x2))) ;;
  let x4 := x3 in
  _ <~ need (same (m_raw x4) (drop 2 x2)) ;;
  _ <~ need (same (m_code x4) (s2b "0A")) ;;
  x5 <~ unw (seqner_sn x4) ;;
  _ <~ need (same x5 10) ;;
  x6 <~ unw (seqner_snh x4) ;;
  _ <~ need (same x6 (s2b "a")) ;;
  x7 <~ unw (matter_qb64 x4) ;;
  _ <~ need (same x7 x1) ;;
  x8 <~ unw (matter_qb64b x4) ;;
  _ <~ need (same x8 x1) ;;
  x9 <~ unw (matter_qb2 x4) ;;
  _ <~ need (same x9 x2) ;;
  Ok tt.
(** core/seqner.rs, new_max *)
Definition t_seqner_new_max_0 : outcome unit :=
  let x1 := (s2b "0AD_____________________") in
  let x2 := [208; 0; 255; 255; 255; 255; 255; 255; 255; 255; 255; 255; 255; 255; 255; 255; 255; 255] in
  x3 <~ unw (seqner_new (None) (None) ((Some (s2b "0A"))) ((Some [255; 255; 255; 255; 255; 255; 255; 255; 255; 255; 255; 255; 255; 255; 255; 255])) (None) (None) (None)) ;;
  let x4 := x3 in
  _ <~ need (same (m_raw x4) (drop 2 x2)) ;;
  _ <~ need (same (m_code x4) (s2b "0A")) ;;
  x5 <~ unw (seqner_sn x4) ;;
  _ <~ need (same x5 340282366920938463463374607431768211455) ;;
  x6 <~ unw (seqner_snh x4) ;;
  _ <~ need (same x6 (s2b "ffffffffffffffffffffffffffffffff")) ;;
  x7 <~ unw (matter_qb64 x4) ;;
  _ <~ need (same x7 x1) ;;
  x8 <~ unw (matter_qb64b x4) ;;
  _ <~ need (same x8 x1) ;;
  x9 <~ unw (matter_qb2 x4) ;;
  _ <~ need (same x9 x2) ;;
  Ok tt.
(** core/seqner.rs, new_max *)
Definition t_seqner_new_max_1 : outcome unit :=
  let x1 := (s2b "0AD_____________________") in
  let x2 := [208; 0; 255; 255; 255; 255; 255; 255; 255; 255; 255; 255; 255; 255; 255; 255; 255; 255] in
  x3 <~ unw (seqner_new ((Some 340282366920938463463374607431768211455)) (None) ((Some (s2b "0A"))) (None) (None) (None) (None)) ;;
  let x4 := x3 in
  _ <~ need (same (m_raw x4) (drop 2 x2)) ;;
  _ <~ need (same (m_code x4) (s2b "0A")) ;;
  x5 <~ unw (seqner_sn x4) ;;
  _ <~ need (same x5 340282366920938463463374607431768211455) ;;
  x6 <~ unw (seqner_snh x4) ;;
  _ <~ need (same x6 (s2b "ffffffffffffffffffffffffffffffff")) ;;
  x7 <~ unw (matter_qb64 x4) ;;
  _ <~ need (same x7 x1) ;;
  x8 <~ unw (matter_qb64b x4) ;;
  _ <~ need (same x8 x1) ;;
  x9 <~ unw (matter_qb2 x4) ;;
  _ <~ need (same x9 x2) ;;
  Ok tt.
(** core/seqner.rs, new_max *)
Definition t_seqner_new_max_2 : outcome unit :=
  let x1 := (s2b "0AD_____________________") in
  let x2 := [208; 0; 255; 255; 255; 255; 255; 255; 255; 255; 255; 255; 255; 255; 255; 255; 255; 255] in
  x3 <~ unw (seqner_new (None) ((Some (s2b "ffffffffffffffffffffffffffffffff"))) ((Some (s2b "0A"))) (None) (None) (None) (None)) ;;
  let x4 := x3 in
  _ <~ need (same (m_raw x4) (drop 2 x2)) ;;
  _ <~ need (same (m_code x4) (s2b "0A")) ;;
  x5 <~ unw (seqner_sn x4) ;;
  _ <~ need (same x5 340282366920938463463374607431768211455) ;;
  x6 <~ unw (seqner_snh x4) ;;
  _ <~ need (same x6 (s2b "ffffffffffffffffffffffffffffffff")) ;;
  x7 <~ unw (matter_qb64 x4) ;;
  _ <~ need (same x7 x1) ;;
  x8 <~ unw (matter_qb64b x4) ;;
  _ <~ need (same x8 x1) ;;
  x9 <~ unw (matter_qb2 x4) ;;
  _ <~ need (same x9 x2) ;;
  Ok tt.
(** core/seqner.rs, new_max *)
Definition t_seqner_new_max_3 : outcome unit :=
  let x1 := (s2b "0AD_____________________") in
  let x2 := [208; 0; 255; 255; 255; 255; 255; 255; 255; 255; 255; 255; 255; 255; 255; 255; 255; 255] in
  x3 <~ unw (seqner_new (None) (None) (None) (None) ((Some x1)) (None) (None)) ;;
  let x4 := x3 in
  _ <~ need (same (m_raw x4) (drop 2 x2)) ;;
  _ <~ need (same (m_code x4) (s2b "0A")) ;;
  x5 <~ unw (seqner_sn x4) ;;
  _ <~ need (same x5 340282366920938463463374607431768211455) ;;
  x6 <~ unw (seqner_snh x4) ;;
  _ <~ need (same x6 (s2b "ffffffffffffffffffffffffffffffff")) ;;
  x7 <~ unw (matter_qb64 x4) ;;
  _ <~ need (same x7 x1) ;;
  x8 <~ unw (matter_qb64b x4) ;;
  _ <~ need (same x8 x1) ;;
  x9 <~ unw (matter_qb2 x4) ;;
  _ <~ need (same x9 x2) ;;
  Ok tt.
(** core/seqner.rs, new_max *)
Definition t_seqner_new_max_4 : outcome unit :=
  let x1 := (s2b "0AD_____________________") in
  let x2 := [208; 0; 255; 255; 255; 255; 255; 255; 255; 255; 255; 255; 255; 255; 255; 255; 255; 255] in
  x3 <~ unw (seqner_new (None) (None) (None) (None) (None) ((Some x1)) (None)) ;;
  let x4 := x3 in
  _ <~ need (same (m_raw x4) (drop 2 x2)) ;;
  _ <~ need (same (m_code x4) (s2b "0A")) ;;
  x5 <~ unw (seqner_sn x4) ;;
  _ <~ need (same x5 340282366920938463463374607431768211455) ;;
  x6 <~ unw (seqner_snh x4) ;;
  _ <~ need (same x6 (s2b "ffffffffffffffffffffffffffffffff")) ;;
  x7 <~ unw (matter_qb64 x4) ;;
  _ <~ need (same x7 x1) ;;
  x8 <~ unw (matter_qb64b x4) ;;
  _ <~ need (same x8 x1) ;;
  x9 <~ unw (matter_qb2 x4) ;;
  _ <~ need (same x9 x2) ;;
  Ok tt.
(** core/seqner.rs, new_max *)
Definition t_seqner_new_max_5 : outcome unit :=
  let x1 := (s2b "0AD_____________________") in
  let x2 := [208; 0; 255; 255; 255; 255; 255; 255; 255; 255; 255; 255; 255; 255; 255; 255; 255; 255] in
  x3 <~ unw (seqner_new (None) (None) (None) (None) (None) (None) ((Some x2))) ;;
  let x4 := x3 in
  _ <~ need (same (m_raw x4) (drop 2 x2)) ;;
  _ <~ need (same (m_code x4) (s2b "0A")) ;;
  x5 <~ unw (seqner_sn x4) ;;
  _ <~ need (same x5 340282366920938463463374607431768211455) ;;
  x6 <~ unw (seqner_snh x4) ;;
  _ <~ need (same x6 (s2b "ffffffffffffffffffffffffffffffff")) ;;
  x7 <~ unw (matter_qb64 x4) ;;
  _ <~ need (same x7 x1) ;;
  x8 <~ unw (matter_qb64b x4) ;;
  _ <~ need (same x8 x1) ;;
  x9 <~ unw (matter_qb2 x4) ;;
  _ <~ need (same x9 x2) ;;
  Ok tt.
(** core/seqner.rs, unhappy_new_with_code_and_raw *)
Definition t_seqner_unhappy_new_with_code_and_raw_0 : outcome unit :=
  let x1 := (s2b "") in
  let x2 := (s2b "") in
  _ <~ need (errs (seqner_new (None) (None) ((Some x1)) ((Some x2)) (None) (None) (None))) ;;
  Ok tt.
(** core/seqner.rs, unhappy_new_with_code_and_raw *)
Definition t_seqner_unhappy_new_with_code_and_raw_1 : outcome unit :=
  let x1 := (s2b "") in
  let x2 := [0; 0; 0; 0; 0; 0; 0; 0; 0; 0; 0; 0; 0; 0; 0; 10] in
  _ <~ need (errs (seqner_new (None) (None) ((Some x1)) ((Some x2)) (None) (None) (None))) ;;
  Ok tt.
(** core/seqner.rs, unhappy_new_with_code_and_raw *)
Definition t_seqner_unhappy_new_with_code_and_raw_2 : outcome unit :=
  let x1 := (s2b "N") in
  let x2 := [0; 0; 0; 0; 0; 0; 0; 0; 0; 0; 0; 0; 0; 0; 0; 10] in
  _ <~ need (errs (seqner_new (None) (None) ((Some x1)) ((Some x2)) (None) (None) (None))) ;;
  Ok tt.
(** core/seqner.rs, unhappy_new_with_code_and_raw *)
Definition t_seqner_unhappy_new_with_code_and_raw_3 : outcome unit :=
  let x1 := (s2b "0A") in
  let x2 := [0; 0; 0; 0; 0; 0; 0; 0; 0; 0; 0; 0; 0; 0; 0] in
  _ <~ need (errs (seqner_new (None) (None) ((Some x1)) ((Some x2)) (None) (None) (None))) ;;
  Ok tt.
(** core/seqner.rs, unhappy_new_with_snh *)
Definition t_seqner_unhappy_new_with_snh_0 : outcome unit :=
  let x1 := (s2b "") in
  _ <~ need (errs (seqner_new (None) ((Some x1)) (None) (None) (None) (None) (None))) ;;
  Ok tt.
(** core/seqner.rs, unhappy_new_with_snh *)
Definition t_seqner_unhappy_new_with_snh_1 : outcome unit :=
  let x1 := (s2b "not a hex") in
  _ <~ need (errs (seqner_new (None) ((Some x1)) (None) (None) (None) (None) (None))) ;;
  Ok tt.
(** core/seqner.rs, unhappy_new_with_snh *)
Definition t_seqner_unhappy_new_with_snh_2 : outcome unit :=
  let x1 := (s2b "FFFFFFFFFFFFFFFFFFFFFFFFFFFFFFFFFF") in
  _ <~ need (errs (seqner_new (None) ((Some x1)) (None) (None) (None) (None) (None))) ;;
  Ok tt.
(** core/seqner.rs, unhappy_new_with_qb64 *)
Definition t_seqner_unhappy_new_with_qb64_0 : outcome unit :=
  let x1 := (s2b "0BAAAAAAAAAAAAAAAAAAAAAA") in
  _ <~ need (errs (seqner_new (None) (None) (None) (None) ((Some x1)) (None) (None))) ;;
  _ <~ need (errs (seqner_new (None) (None) (None) (None) (None) ((Some x1)) (None))) ;;
  Ok tt.
(** core/seqner.rs, unhappy_new_with_qb64 *)
Definition t_seqner_unhappy_new_with_qb64_1 : outcome unit :=
  let x1 := (s2b "0A_AAAAAAAAAAAAAAAAAAAAA") in
  _ <~ need (errs (seqner_new (None) (None) (None) (None) ((Some x1)) (None) (None))) ;;
  _ <~ need (errs (seqner_new (None) (None) (None) (None) (None) ((Some x1)) (None))) ;;
  Ok tt.
(** core/seqner.rs, unhappy_new_with_qb64 *)
Definition t_seqner_unhappy_new_with_qb64_2 : outcome unit :=
  let x1 := (s2b "0AAAAAAAAAAAAAAAAAAAAAA") in
  _ <~ need (errs (seqner_new (None) (None) (None) (None) ((Some x1)) (None) (None))) ;;
  _ <~ need (errs (seqner_new (None) (None) (None) (None) (None) ((Some x1)) (None))) ;;
  Ok tt.
(** core/seqner.rs, unhappy_new_with_qb2 *)
Definition t_seqner_unhappy_new_with_qb2_0 : outcome unit :=
  let x1 := [224; 0; 0; 0; 0; 0; 0; 0; 0; 0; 0; 0; 0; 0; 0; 0; 0; 0] in
  _ <~ need (errs (seqner_new (None) (None) (None) (None) (None) (None) ((Some x1)))) ;;
  Ok tt.
(** core/seqner.rs, unhappy_new_with_qb2 *)
Definition t_seqner_unhappy_new_with_qb2_1 : outcome unit :=
  let x1 := [208; 1; 0; 0; 0; 0; 0; 0; 0; 0; 0; 0; 0; 0; 0; 0; 0; 0] in
  _ <~ need (errs (seqner_new (None) (None) (None) (None) (None) (None) ((Some x1)))) ;;
  Ok tt.
(** core/seqner.rs, unhappy_new_with_qb2 *)
Definition t_seqner_unhappy_new_with_qb2_2 : outcome unit :=
  let x1 := [208; 0; 0; 0; 0; 0; 0; 0; 0; 0; 0; 0; 0; 0; 0; 0; 0] in
  _ <~ need (errs (seqner_new (None) (None) (None) (None) (None) (None) ((Some x1)))) ;;
  Ok tt.
(** core/util.rs, u32_to_b64 *)
Definition t_util_u32_to_b64_0 : outcome unit :=
  let x1 := 32 in
  let x2 := 0 in
  let x3 := (s2b "") in
  x4 <~ unw (u32_to_b64 (x1) (x2)) ;;
  _ <~ need (same x4 x3) ;;
  Ok tt.
(** core/util.rs, u32_to_b64 *)
Definition t_util_u32_to_b64_1 : outcome unit :=
  let x1 := 1 in
  let x2 := 0 in
  let x3 := (s2b "") in
  x4 <~ unw (u32_to_b64 (x1) (x2)) ;;
  _ <~ need (same x4 x3) ;;
  Ok tt.
(** core/util.rs, u32_to_b64 *)
Definition t_util_u32_to_b64_2 : outcome unit :=
  let x1 := 0 in
  let x2 := 1 in
  let x3 := (s2b "A") in
  x4 <~ unw (u32_to_b64 (x1) (x2)) ;;
  _ <~ need (same x4 x3) ;;
  Ok tt.
(** core/util.rs, u32_to_b64 *)
Definition t_util_u32_to_b64_3 : outcome unit :=
  let x1 := 1 in
  let x2 := 1 in
  let x3 := (s2b "B") in
  x4 <~ unw (u32_to_b64 (x1) (x2)) ;;
  _ <~ need (same x4 x3) ;;
  Ok tt.
(** core/util.rs, u32_to_b64 *)
Definition t_util_u32_to_b64_4 : outcome unit :=
  let x1 := 0 in
  let x2 := 2 in
  let x3 := (s2b "AA") in
  x4 <~ unw (u32_to_b64 (x1) (x2)) ;;
  _ <~ need (same x4 x3) ;;
  Ok tt.
(** core/util.rs, u32_to_b64 *)
Definition t_util_u32_to_b64_5 : outcome unit :=
  let x1 := 1 in
  let x2 := 2 in
  let x3 := (s2b "AB") in
  x4 <~ unw (u32_to_b64 (x1) (x2)) ;;
  _ <~ need (same x4 x3) ;;
  Ok tt.
(** core/util.rs, u32_to_b64 *)
Definition t_util_u32_to_b64_6 : outcome unit :=
  let x1 := 4095 in
  let x2 := 2 in
  let x3 := (s2b "__") in
  x4 <~ unw (u32_to_b64 (x1) (x2)) ;;
  _ <~ need (same x4 x3) ;;
  Ok tt.
(** core/util.rs, u32_to_b64 *)
Definition t_util_u32_to_b64_7 : outcome unit :=
  let x1 := 16777215 in
  let x2 := 4 in
  let x3 := (s2b "____") in
  x4 <~ unw (u32_to_b64 (x1) (x2)) ;;
  _ <~ need (same x4 x3) ;;
  Ok tt.
(** core/util.rs, u32_to_b64 *)
Definition t_util_u32_to_b64_8 : outcome unit :=
  let x1 := 16777215 in
  let x2 := 1 in
  let x3 := (s2b "_") in
  x4 <~ unw (u32_to_b64 (x1) (x2)) ;;
  _ <~ need (same x4 x3) ;;
  Ok tt.
(** core/util.rs, u64_to_b64 *)
Definition t_util_u64_to_b64_0 : outcome unit :=
  let x1 := 32 in
  let x2 := 0 in
  let x3 := (s2b "") in
  x4 <~ unw (u64_to_b64 (x1) (x2)) ;;
  _ <~ need (same x4 x3) ;;
  Ok tt.
(** core/util.rs, u64_to_b64 *)
Definition t_util_u64_to_b64_1 : outcome unit :=
  let x1 := 1 in
  let x2 := 0 in
  let x3 := (s2b "") in
  x4 <~ unw (u64_to_b64 (x1) (x2)) ;;
  _ <~ need (same x4 x3) ;;
  Ok tt.
(** core/util.rs, u64_to_b64 *)
Definition t_util_u64_to_b64_2 : outcome unit :=
  let x1 := 0 in
  let x2 := 1 in
  let x3 := (s2b "A") in
  x4 <~ unw (u64_to_b64 (x1) (x2)) ;;
  _ <~ need (same x4 x3) ;;
  Ok tt.
(** core/util.rs, u64_to_b64 *)
Definition t_util_u64_to_b64_3 : outcome unit :=
  let x1 := 1 in
  let x2 := 1 in
  let x3 := (s2b "B") in
  x4 <~ unw (u64_to_b64 (x1) (x2)) ;;
  _ <~ need (same x4 x3) ;;
  Ok tt.
(** core/util.rs, u64_to_b64 *)
Definition t_util_u64_to_b64_4 : outcome unit :=
  let x1 := 0 in
  let x2 := 2 in
  let x3 := (s2b "AA") in
  x4 <~ unw (u64_to_b64 (x1) (x2)) ;;
  _ <~ need (same x4 x3) ;;
  Ok tt.
(** core/util.rs, u64_to_b64 *)
Definition t_util_u64_to_b64_5 : outcome unit :=
  let x1 := 1 in
  let x2 := 2 in
  let x3 := (s2b "AB") in
  x4 <~ unw (u64_to_b64 (x1) (x2)) ;;
  _ <~ need (same x4 x3) ;;
  Ok tt.
(** core/util.rs, u64_to_b64 *)
Definition t_util_u64_to_b64_6 : outcome unit :=
  let x1 := 4095 in
  let x2 := 2 in
  let x3 := (s2b "__") in
  x4 <~ unw (u64_to_b64 (x1) (x2)) ;;
  _ <~ need (same x4 x3) ;;
  Ok tt.
(** core/util.rs, u64_to_b64 *)
Definition t_util_u64_to_b64_7 : outcome unit :=
  let x1 := 16777215 in
  let x2 := 4 in
  let x3 := (s2b "____") in
  x4 <~ unw (u64_to_b64 (x1) (x2)) ;;
  _ <~ need (same x4 x3) ;;
  Ok tt.
(** core/util.rs, u64_to_b64 *)
Definition t_util_u64_to_b64_8 : outcome unit :=
  let x1 := 281474976710655 in
  let x2 := 8 in
  let x3 := (s2b "________") in
  x4 <~ unw (u64_to_b64 (x1) (x2)) ;;
  _ <~ need (same x4 x3) ;;
  Ok tt.
(** core/util.rs, u64_to_b64 *)
Definition t_util_u64_to_b64_9 : outcome unit :=
  let x1 := 16777215 in
  let x2 := 1 in
  let x3 := (s2b "_") in
  x4 <~ unw (u64_to_b64 (x1) (x2)) ;;
  _ <~ need (same x4 x3) ;;
  Ok tt.
(** core/util.rs, u64_to_b64 *)
Definition t_util_u64_to_b64_10 : outcome unit :=
  let x1 := 281474976710655 in
  let x2 := 1 in
  let x3 := (s2b "_") in
  x4 <~ unw (u64_to_b64 (x1) (x2)) ;;
  _ <~ need (same x4 x3) ;;
  Ok tt.
(** core/util.rs, b64_to_u32 *)
Definition t_util_b64_to_u32_0 : outcome unit :=
  let x1 := 0 in
  let x2 := (s2b "A") in
  x3 <~ unw (b64_to_u32 (x2)) ;;
  _ <~ need (same x3 x1) ;;
  Ok tt.
(** core/util.rs, b64_to_u32 *)
Definition t_util_b64_to_u32_1 : outcome unit :=
  let x1 := 1 in
  let x2 := (s2b "B") in
  x3 <~ unw (b64_to_u32 (x2)) ;;
  _ <~ need (same x3 x1) ;;
  Ok tt.
(** core/util.rs, b64_to_u32 *)
Definition t_util_b64_to_u32_2 : outcome unit :=
  let x1 := 0 in
  let x2 := (s2b "AA") in
  x3 <~ unw (b64_to_u32 (x2)) ;;
  _ <~ need (same x3 x1) ;;
  Ok tt.
(** core/util.rs, b64_to_u32 *)
Definition t_util_b64_to_u32_3 : outcome unit :=
  let x1 := 1 in
  let x2 := (s2b "AB") in
  x3 <~ unw (b64_to_u32 (x2)) ;;
  _ <~ need (same x3 x1) ;;
  Ok tt.
(** core/util.rs, b64_to_u32 *)
Definition t_util_b64_to_u32_4 : outcome unit :=
  let x1 := 4095 in
  let x2 := (s2b "__") in
  x3 <~ unw (b64_to_u32 (x2)) ;;
  _ <~ need (same x3 x1) ;;
  Ok tt.
(** core/util.rs, b64_to_u32 *)
Definition t_util_b64_to_u32_5 : outcome unit :=
  let x1 := 16777215 in
  let x2 := (s2b "____") in
  x3 <~ unw (b64_to_u32 (x2)) ;;
  _ <~ need (same x3 x1) ;;
  Ok tt.
(** core/util.rs, b64_to_u64 *)
Definition t_util_b64_to_u64_0 : outcome unit :=
  let x1 := 0 in
  let x2 := (s2b "A") in
  x3 <~ unw (b64_to_u64 (x2)) ;;
  _ <~ need (same x3 x1) ;;
  Ok tt.
(** core/util.rs, b64_to_u64 *)
Definition t_util_b64_to_u64_1 : outcome unit :=
  let x1 := 1 in
  let x2 := (s2b "B") in
  x3 <~ unw (b64_to_u64 (x2)) ;;
  _ <~ need (same x3 x1) ;;
  Ok tt.
(** core/util.rs, b64_to_u64 *)
Definition t_util_b64_to_u64_2 : outcome unit :=
  let x1 := 0 in
  let x2 := (s2b "AA") in
  x3 <~ unw (b64_to_u64 (x2)) ;;
  _ <~ need (same x3 x1) ;;
  Ok tt.
(** core/util.rs, b64_to_u64 *)
Definition t_util_b64_to_u64_3 : outcome unit :=
  let x1 := 1 in
  let x2 := (s2b "AB") in
  x3 <~ unw (b64_to_u64 (x2)) ;;
  _ <~ need (same x3 x1) ;;
  Ok tt.
(** core/util.rs, b64_to_u64 *)
Definition t_util_b64_to_u64_4 : outcome unit :=
  let x1 := 4095 in
  let x2 := (s2b "__") in
  x3 <~ unw (b64_to_u64 (x2)) ;;
  _ <~ need (same x3 x1) ;;
  Ok tt.
(** core/util.rs, b64_to_u64 *)
Definition t_util_b64_to_u64_5 : outcome unit :=
  let x1 := 16777215 in
  let x2 := (s2b "____") in
  x3 <~ unw (b64_to_u64 (x2)) ;;
  _ <~ need (same x3 x1) ;;
  Ok tt.
(** core/util.rs, b64_to_u64 *)
Definition t_util_b64_to_u64_6 : outcome unit :=
  let x1 := 281474976710655 in
  let x2 := (s2b "________") in
  x3 <~ unw (b64_to_u64 (x2)) ;;
  _ <~ need (same x3 x1) ;;
  Ok tt.
(** core/util.rs, b64_char_to_index *)
Definition t_util_b64_char_to_index_0 : outcome unit :=
  let x1 := (s2b "ABCDEFGHIJKLMNOPQRSTUVWXYZabcdefghijklmnopqrstuvwxyz0123456789-_") in
  x2 <~ unw (b64_char_to_index (65)) ;;
  _ <~ need (same x2 (0 mod 256)) ;;
  x3 <~ unw (b64_char_to_index (66)) ;;
  _ <~ need (same x3 (1 mod 256)) ;;
  x4 <~ unw (b64_char_to_index (67)) ;;
  _ <~ need (same x4 (2 mod 256)) ;;
  x5 <~ unw (b64_char_to_index (68)) ;;
  _ <~ need (same x5 (3 mod 256)) ;;
  x6 <~ unw (b64_char_to_index (69)) ;;
  _ <~ need (same x6 (4 mod 256)) ;;
  x7 <~ unw (b64_char_to_index (70)) ;;
  _ <~ need (same x7 (5 mod 256)) ;;
  x8 <~ unw (b64_char_to_index (71)) ;;
  _ <~ need (same x8 (6 mod 256)) ;;
  x9 <~ unw (b64_char_to_index (72)) ;;
  _ <~ need (same x9 (7 mod 256)) ;;
  x10 <~ unw (b64_char_to_index (73)) ;;
  _ <~ need (same x10 (8 mod 256)) ;;
  x11 <~ unw (b64_char_to_index (74)) ;;
  _ <~ need (same x11 (9 mod 256)) ;;
  x12 <~ unw (b64_char_to_index (75)) ;;
  _ <~ need (same x12 (10 mod 256)) ;;
  x13 <~ unw (b64_char_to_index (76)) ;;
  _ <~ need (same x13 (11 mod 256)) ;;
  x14 <~ unw (b64_char_to_index (77)) ;;
  _ <~ need (same x14 (12 mod 256)) ;;
  x15 <~ unw (b64_char_to_index (78)) ;;
  _ <~ need (same x15 (13 mod 256)) ;;
  x16 <~ unw (b64_char_to_index (79)) ;;
  _ <~ need (same x16 (14 mod 256)) ;;
  x17 <~ unw (b64_char_to_index (80)) ;;
  _ <~ need (same x17 (15 mod 256)) ;;
  x18 <~ unw (b64_char_to_index (81)) ;;
  _ <~ need (same x18 (16 mod 256)) ;;
  x19 <~ unw (b64_char_to_index (82)) ;;
  _ <~ need (same x19 (17 mod 256)) ;;
  x20 <~ unw (b64_char_to_index (83)) ;;
  _ <~ need (same x20 (18 mod 256)) ;;
  x21 <~ unw (b64_char_to_index (84)) ;;
  _ <~ need (same x21 (19 mod 256)) ;;
  x22 <~ unw (b64_char_to_index (85)) ;;
  _ <~ need (same x22 (20 mod 256)) ;;
  x23 <~ unw (b64_char_to_index (86)) ;;
  _ <~ need (same x23 (21 mod 256)) ;;
  x24 <~ unw (b64_char_to_index (87)) ;;
  _ <~ need (same x24 (22 mod 256)) ;;
  x25 <~ unw (b64_char_to_index (88)) ;;
  _ <~ need (same x25 (23 mod 256)) ;;
  x26 <~ unw (b64_char_to_index (89)) ;;
  _ <~ need (same x26 (24 mod 256)) ;;
  x27 <~ unw (b64_char_to_index (90)) ;;
  _ <~ need (same x27 (25 mod 256)) ;;
  x28 <~ unw (b64_char_to_index (97)) ;;
  _ <~ need (same x28 (26 mod 256)) ;;
  x29 <~ unw (b64_char_to_index (98)) ;;
  _ <~ need (same x29 (27 mod 256)) ;;
  x30 <~ unw (b64_char_to_index (99)) ;;
  _ <~ need (same x30 (28 mod 256)) ;;
  x31 <~ unw (b64_char_to_index (100)) ;;
  _ <~ need (same x31 (29 mod 256)) ;;
  x32 <~ unw (b64_char_to_index (101)) ;;
  _ <~ need (same x32 (30 mod 256)) ;;
  x33 <~ unw (b64_char_to_index (102)) ;;
  _ <~ need (same x33 (31 mod 256)) ;;
  x34 <~ unw (b64_char_to_index (103)) ;;
  _ <~ need (same x34 (32 mod 256)) ;;
  x35 <~ unw (b64_char_to_index (104)) ;;
  _ <~ need (same x35 (33 mod 256)) ;;
  x36 <~ unw (b64_char_to_index (105)) ;;
  _ <~ need (same x36 (34 mod 256)) ;;
  x37 <~ unw (b64_char_to_index (106)) ;;
  _ <~ need (same x37 (35 mod 256)) ;;
  x38 <~ unw (b64_char_to_index (107)) ;;
  _ <~ need (same x38 (36 mod 256)) ;;
  x39 <~ unw (b64_char_to_index (108)) ;;
  _ <~ need (same x39 (37 mod 256)) ;;
  x40 <~ unw (b64_char_to_index (109)) ;;
  _ <~ need (same x40 (38 mod 256)) ;;
  x41 <~ unw (b64_char_to_index (110)) ;;
  _ <~ need (same x41 (39 mod 256)) ;;
  x42 <~ unw (b64_char_to_index (111)) ;;
  _ <~ need (same x42 (40 mod 256)) ;;
  x43 <~ unw (b64_char_to_index (112)) ;;
  _ <~ need (same x43 (41 mod 256)) ;;
  x44 <~ unw (b64_char_to_index (113)) ;;
  _ <~ need (same x44 (42 mod 256)) ;;
  x45 <~ unw (b64_char_to_index (114)) ;;
  _ <~ need (same x45 (43 mod 256)) ;;
  x46 <~ unw (b64_char_to_index (115)) ;;
  _ <~ need (same x46 (44 mod 256)) ;;
  x47 <~ unw (b64_char_to_index (116)) ;;
  _ <~ need (same x47 (45 mod 256)) ;;
  x48 <~ unw (b64_char_to_index (117)) ;;
  _ <~ need (same x48 (46 mod 256)) ;;
  x49 <~ unw (b64_char_to_index (118)) ;;
  _ <~ need (same x49 (47 mod 256)) ;;
  x50 <~ unw (b64_char_to_index (119)) ;;
  _ <~ need (same x50 (48 mod 256)) ;;
  x51 <~ unw (b64_char_to_index (120)) ;;
  _ <~ need (same x51 (49 mod 256)) ;;
  x52 <~ unw (b64_char_to_index (121)) ;;
  _ <~ need (same x52 (50 mod 256)) ;;
  x53 <~ unw (b64_char_to_index (122)) ;;
  _ <~ need (same x53 (51 mod 256)) ;;
  x54 <~ unw (b64_char_to_index (48)) ;;
  _ <~ need (same x54 (52 mod 256)) ;;
  x55 <~ unw (b64_char_to_index (49)) ;;
  _ <~ need (same x55 (53 mod 256)) ;;
  x56 <~ unw (b64_char_to_index (50)) ;;
  _ <~ need (same x56 (54 mod 256)) ;;
  x57 <~ unw (b64_char_to_index (51)) ;;
  _ <~ need (same x57 (55 mod 256)) ;;
  x58 <~ unw (b64_char_to_index (52)) ;;
  _ <~ need (same x58 (56 mod 256)) ;;
  x59 <~ unw (b64_char_to_index (53)) ;;
  _ <~ need (same x59 (57 mod 256)) ;;
  x60 <~ unw (b64_char_to_index (54)) ;;
  _ <~ need (same x60 (58 mod 256)) ;;
  x61 <~ unw (b64_char_to_index (55)) ;;
  _ <~ need (same x61 (59 mod 256)) ;;
  x62 <~ unw (b64_char_to_index (56)) ;;
  _ <~ need (same x62 (60 mod 256)) ;;
  x63 <~ unw (b64_char_to_index (57)) ;;
  _ <~ need (same x63 (61 mod 256)) ;;
  x64 <~ unw (b64_char_to_index (45)) ;;
  _ <~ need (same x64 (62 mod 256)) ;;
  x65 <~ unw (b64_char_to_index (95)) ;;
  _ <~ need (same x65 (63 mod 256)) ;;
  Ok tt.
(** core/util.rs, b64_index_to_char *)
Definition t_util_b64_index_to_char_0 : outcome unit :=
  let x1 := ([] : bytes) in
  x2 <~ unw (b64_index_to_char (0)) ;;
  x3 <~ unw ((Some 65)) ;;
  _ <~ need (same x2 x3) ;;
  x4 <~ unw (b64_index_to_char (1)) ;;
  x5 <~ unw ((Some 66)) ;;
  _ <~ need (same x4 x5) ;;
  x6 <~ unw (b64_index_to_char (2)) ;;
  x7 <~ unw ((Some 67)) ;;
  _ <~ need (same x6 x7) ;;
  x8 <~ unw (b64_index_to_char (3)) ;;
  x9 <~ unw ((Some 68)) ;;
  _ <~ need (same x8 x9) ;;
  x10 <~ unw (b64_index_to_char (4)) ;;
  x11 <~ unw ((Some 69)) ;;
  _ <~ need (same x10 x11) ;;
  x12 <~ unw (b64_index_to_char (5)) ;;
  x13 <~ unw ((Some 70)) ;;
  _ <~ need (same x12 x13) ;;
  x14 <~ unw (b64_index_to_char (6)) ;;
  x15 <~ unw ((Some 71)) ;;
  _ <~ need (same x14 x15) ;;
  x16 <~ unw (b64_index_to_char (7)) ;;
  x17 <~ unw ((Some 72)) ;;
  _ <~ need (same x16 x17) ;;
  x18 <~ unw (b64_index_to_char (8)) ;;
  x19 <~ unw ((Some 73)) ;;
  _ <~ need (same x18 x19) ;;
  x20 <~ unw (b64_index_to_char (9)) ;;
  x21 <~ unw ((Some 74)) ;;
  _ <~ need (same x20 x21) ;;
  x22 <~ unw (b64_index_to_char (10)) ;;
  x23 <~ unw ((Some 75)) ;;
  _ <~ need (same x22 x23) ;;
  x24 <~ unw (b64_index_to_char (11)) ;;
  x25 <~ unw ((Some 76)) ;;
  _ <~ need (same x24 x25) ;;
  x26 <~ unw (b64_index_to_char (12)) ;;
  x27 <~ unw ((Some 77)) ;;
  _ <~ need (same x26 x27) ;;
  x28 <~ unw (b64_index_to_char (13)) ;;
  x29 <~ unw ((Some 78)) ;;
  _ <~ need (same x28 x29) ;;
  x30 <~ unw (b64_index_to_char (14)) ;;
  x31 <~ unw ((Some 79)) ;;
  _ <~ need (same x30 x31) ;;
  x32 <~ unw (b64_index_to_char (15)) ;;
  x33 <~ unw ((Some 80)) ;;
  _ <~ need (same x32 x33) ;;
  x34 <~ unw (b64_index_to_char (16)) ;;
  x35 <~ unw ((Some 81)) ;;
  _ <~ need (same x34 x35) ;;
  x36 <~ unw (b64_index_to_char (17)) ;;
  x37 <~ unw ((Some 82)) ;;
  _ <~ need (same x36 x37) ;;
  x38 <~ unw (b64_index_to_char (18)) ;;
  x39 <~ unw ((Some 83)) ;;
  _ <~ need (same x38 x39) ;;
  x40 <~ unw (b64_index_to_char (19)) ;;
  x41 <~ unw ((Some 84)) ;;
  _ <~ need (same x40 x41) ;;
  x42 <~ unw (b64_index_to_char (20)) ;;
  x43 <~ unw ((Some 85)) ;;
  _ <~ need (same x42 x43) ;;
  x44 <~ unw (b64_index_to_char (21)) ;;
  x45 <~ unw ((Some 86)) ;;
  _ <~ need (same x44 x45) ;;
  x46 <~ unw (b64_index_to_char (22)) ;;
  x47 <~ unw ((Some 87)) ;;
  _ <~ need (same x46 x47) ;;
  x48 <~ unw (b64_index_to_char (23)) ;;
  x49 <~ unw ((Some 88)) ;;
  _ <~ need (same x48 x49) ;;
  x50 <~ unw (b64_index_to_char (24)) ;;
  x51 <~ unw ((Some 89)) ;;
  _ <~ need (same x50 x51) ;;
  x52 <~ unw (b64_index_to_char (25)) ;;
  x53 <~ unw ((Some 90)) ;;
  _ <~ need (same x52 x53) ;;
  x54 <~ unw (b64_index_to_char (26)) ;;
  x55 <~ unw ((Some 97)) ;;
  _ <~ need (same x54 x55) ;;
  x56 <~ unw (b64_index_to_char (27)) ;;
  x57 <~ unw ((Some 98)) ;;
  _ <~ need (same x56 x57) ;;
  x58 <~ unw (b64_index_to_char (28)) ;;
  x59 <~ unw ((Some 99)) ;;
  _ <~ need (same x58 x59) ;;
  x60 <~ unw (b64_index_to_char (29)) ;;
  x61 <~ unw ((Some 100)) ;;
  _ <~ need (same x60 x61) ;;
  x62 <~ unw (b64_index_to_char (30)) ;;
  x63 <~ unw ((Some 101)) ;;
  _ <~ need (same x62 x63) ;;
  x64 <~ unw (b64_index_to_char (31)) ;;
  x65 <~ unw ((Some 102)) ;;
  _ <~ need (same x64 x65) ;;
  x66 <~ unw (b64_index_to_char (32)) ;;
  x67 <~ unw ((Some 103)) ;;
  _ <~ need (same x66 x67) ;;
  x68 <~ unw (b64_index_to_char (33)) ;;
  x69 <~ unw ((Some 104)) ;;
  _ <~ need (same x68 x69) ;;
  x70 <~ unw (b64_index_to_char (34)) ;;
  x71 <~ unw ((Some 105)) ;;
  _ <~ need (same x70 x71) ;;
  x72 <~ unw (b64_index_to_char (35)) ;;
  x73 <~ unw ((Some 106)) ;;
  _ <~ need (same x72 x73) ;;
  x74 <~ unw (b64_index_to_char (36)) ;;
  x75 <~ unw ((Some 107)) ;;
  _ <~ need (same x74 x75) ;;
  x76 <~ unw (b64_index_to_char (37)) ;;
  x77 <~ unw ((Some 108)) ;;
  _ <~ need (same x76 x77) ;;
  x78 <~ unw (b64_index_to_char (38)) ;;
  x79 <~ unw ((Some 109)) ;;
  _ <~ need (same x78 x79) ;;
  x80 <~ unw (b64_index_to_char (39)) ;;
  x81 <~ unw ((Some 110)) ;;
  _ <~ need (same x80 x81) ;;
  x82 <~ unw (b64_index_to_char (40)) ;;
  x83 <~ unw ((Some 111)) ;;
  _ <~ need (same x82 x83) ;;
  x84 <~ unw (b64_index_to_char (41)) ;;
  x85 <~ unw ((Some 112)) ;;
  _ <~ need (same x84 x85) ;;
  x86 <~ unw (b64_index_to_char (42)) ;;
  x87 <~ unw ((Some 113)) ;;
  _ <~ need (same x86 x87) ;;
  x88 <~ unw (b64_index_to_char (43)) ;;
  x89 <~ unw ((Some 114)) ;;
  _ <~ need (same x88 x89) ;;
  x90 <~ unw (b64_index_to_char (44)) ;;
  x91 <~ unw ((Some 115)) ;;
  _ <~ need (same x90 x91) ;;
  x92 <~ unw (b64_index_to_char (45)) ;;
  x93 <~ unw ((Some 116)) ;;
  _ <~ need (same x92 x93) ;;
  x94 <~ unw (b64_index_to_char (46)) ;;
  x95 <~ unw ((Some 117)) ;;
  _ <~ need (same x94 x95) ;;
  x96 <~ unw (b64_index_to_char (47)) ;;
  x97 <~ unw ((Some 118)) ;;
  _ <~ need (same x96 x97) ;;
  x98 <~ unw (b64_index_to_char (48)) ;;
  x99 <~ unw ((Some 119)) ;;
  _ <~ need (same x98 x99) ;;
  x100 <~ unw (b64_index_to_char (49)) ;;
  x101 <~ unw ((Some 120)) ;;
  _ <~ need (same x100 x101) ;;
  x102 <~ unw (b64_index_to_char (50)) ;;
  x103 <~ unw ((Some 121)) ;;
  _ <~ need (same x102 x103) ;;
  x104 <~ unw (b64_index_to_char (51)) ;;
  x105 <~ unw ((Some 122)) ;;
  _ <~ need (same x104 x105) ;;
  x106 <~ unw (b64_index_to_char (52)) ;;
  x107 <~ unw ((Some 48)) ;;
  _ <~ need (same x106 x107) ;;
  x108 <~ unw (b64_index_to_char (53)) ;;
  x109 <~ unw ((Some 49)) ;;
  _ <~ need (same x108 x109) ;;
  x110 <~ unw (b64_index_to_char (54)) ;;
  x111 <~ unw ((Some 50)) ;;
  _ <~ need (same x110 x111) ;;
  x112 <~ unw (b64_index_to_char (55)) ;;
  x113 <~ unw ((Some 51)) ;;
  _ <~ need (same x112 x113) ;;
  x114 <~ unw (b64_index_to_char (56)) ;;
  x115 <~ unw ((Some 52)) ;;
  _ <~ need (same x114 x115) ;;
  x116 <~ unw (b64_index_to_char (57)) ;;
  x117 <~ unw ((Some 53)) ;;
  _ <~ need (same x116 x117) ;;
  x118 <~ unw (b64_index_to_char (58)) ;;
  x119 <~ unw ((Some 54)) ;;
  _ <~ need (same x118 x119) ;;
  x120 <~ unw (b64_index_to_char (59)) ;;
  x121 <~ unw ((Some 55)) ;;
  _ <~ need (same x120 x121) ;;
  x122 <~ unw (b64_index_to_char (60)) ;;
  x123 <~ unw ((Some 56)) ;;
  _ <~ need (same x122 x123) ;;
  x124 <~ unw (b64_index_to_char (61)) ;;
  x125 <~ unw ((Some 57)) ;;
  _ <~ need (same x124 x125) ;;
  x126 <~ unw (b64_index_to_char (62)) ;;
  x127 <~ unw ((Some 45)) ;;
  _ <~ need (same x126 x127) ;;
  Ok tt.
(** core/util.rs, code_b2_to_b64 *)
Definition t_util_code_b2_to_b64_0 : outcome unit :=
  let x1 := [0] in
  let x2 := 1 in
  let x3 := (s2b "A") in
  x4 <~ unw (code_b2_to_b64 (x1) (x2)) ;;
  _ <~ need (same x4 x3) ;;
  Ok tt.
(** core/util.rs, code_b2_to_b64 *)
Definition t_util_code_b2_to_b64_1 : outcome unit :=
  let x1 := [0; 0; 0; 0; 0; 0] in
  let x2 := 8 in
  let x3 := (s2b "AAAAAAAA") in
  x4 <~ unw (code_b2_to_b64 (x1) (x2)) ;;
  _ <~ need (same x4 x3) ;;
  Ok tt.
(** core/util.rs, code_b2_to_b64 *)
Definition t_util_code_b2_to_b64_2 : outcome unit :=
  let x1 := [8; 68; 145] in
  let x2 := 4 in
  let x3 := (s2b "CESR") in
  x4 <~ unw (code_b2_to_b64 (x1) (x2)) ;;
  _ <~ need (same x4 x3) ;;
  Ok tt.
(** core/util.rs, code_b2_to_b64 *)
Definition t_util_code_b2_to_b64_3 : outcome unit :=
  let x1 := [40; 68; 72; 0; 32; 194] in
  let x2 := 8 in
  let x3 := (s2b "KERIACDC") in
  x4 <~ unw (code_b2_to_b64 (x1) (x2)) ;;
  _ <~ need (same x4 x3) ;;
  Ok tt.
(** core/util.rs, code_b2_to_b64 *)
Definition t_util_code_b2_to_b64_4 : outcome unit :=
  let x1 := [252] in
  let x2 := 1 in
  let x3 := (s2b "_") in
  x4 <~ unw (code_b2_to_b64 (x1) (x2)) ;;
  _ <~ need (same x4 x3) ;;
  Ok tt.
(** core/util.rs, code_b2_to_b64 *)
Definition t_util_code_b2_to_b64_5 : outcome unit :=
  let x1 := [255; 255; 255; 255; 255; 255] in
  let x2 := 8 in
  let x3 := (s2b "________") in
  x4 <~ unw (code_b2_to_b64 (x1) (x2)) ;;
  _ <~ need (same x4 x3) ;;
  Ok tt.
(** core/util.rs, code_b2_to_b64 *)
Definition t_util_code_b2_to_b64_6 : outcome unit :=
  let x1 := [244; 0; 1] in
  let x2 := 4 in
  let x3 := (s2b "9AAB") in
  x4 <~ unw (code_b2_to_b64 (x1) (x2)) ;;
  _ <~ need (same x4 x3) ;;
  Ok tt.
(** core/util.rs, code_b2_to_b64 *)
Definition t_util_code_b2_to_b64_7 : outcome unit :=
  let x1 := [244; 0; 1] in
  let x2 := 0 in
  let x3 := (s2b "") in
  x4 <~ unw (code_b2_to_b64 (x1) (x2)) ;;
  _ <~ need (same x4 x3) ;;
  Ok tt.
(** core/util.rs, code_b64_to_b2 *)
Definition t_util_code_b64_to_b2_0 : outcome unit :=
  let x1 := [0] in
  let x2 := (s2b "A") in
  x3 <~ unw (code_b64_to_b2 (x2)) ;;
  _ <~ need (same x3 x1) ;;
  Ok tt.
(** core/util.rs, code_b64_to_b2 *)
Definition t_util_code_b64_to_b2_1 : outcome unit :=
  let x1 := [0; 0; 0; 0; 0; 0] in
  let x2 := (s2b "AAAAAAAA") in
  x3 <~ unw (code_b64_to_b2 (x2)) ;;
  _ <~ need (same x3 x1) ;;
  Ok tt.
(** core/util.rs, code_b64_to_b2 *)
Definition t_util_code_b64_to_b2_2 : outcome unit :=
  let x1 := [8; 68; 145] in
  let x2 := (s2b "CESR") in
  x3 <~ unw (code_b64_to_b2 (x2)) ;;
  _ <~ need (same x3 x1) ;;
  Ok tt.
(** core/util.rs, code_b64_to_b2 *)
Definition t_util_code_b64_to_b2_3 : outcome unit :=
  let x1 := [40; 68; 72; 0; 32; 194] in
  let x2 := (s2b "KERIACDC") in
  x3 <~ unw (code_b64_to_b2 (x2)) ;;
  _ <~ need (same x3 x1) ;;
  Ok tt.
(** core/util.rs, code_b64_to_b2 *)
Definition t_util_code_b64_to_b2_4 : outcome unit :=
  let x1 := [252] in
  let x2 := (s2b "_") in
  x3 <~ unw (code_b64_to_b2 (x2)) ;;
  _ <~ need (same x3 x1) ;;
  Ok tt.
(** core/util.rs, code_b64_to_b2 *)
Definition t_util_code_b64_to_b2_5 : outcome unit :=
  let x1 := [255; 255; 255; 255; 255; 255] in
  let x2 := (s2b "________") in
  x3 <~ unw (code_b64_to_b2 (x2)) ;;
  _ <~ need (same x3 x1) ;;
  Ok tt.
(** core/util.rs, code_b64_to_b2 *)
Definition t_util_code_b64_to_b2_6 : outcome unit :=
  let x1 := [244; 0; 1] in
  let x2 := (s2b "9AAB") in
  x3 <~ unw (code_b64_to_b2 (x2)) ;;
  _ <~ need (same x3 x1) ;;
  Ok tt.
(** core/util.rs, nab_sextets *)
Definition t_util_nab_sextets_0 : outcome unit :=
  let x1 := [255; 255; 255] in
  let x2 := 4 in
  let x3 := [63; 63; 63; 63] in
  x4 <~ unw (nab_sextets (x1) (x2)) ;;
  _ <~ need (same x4 x3) ;;
  x5 <~ unw (nab_sextets ([255; 255; 255; 0; 0; 0]) (8)) ;;
  _ <~ need (same x5 [63; 63; 63; 63; 0; 0; 0; 0]) ;;
  x6 <~ unw (nab_sextets ([255]) (1)) ;;
  _ <~ need (same x6 [63]) ;;
  x7 <~ unw (nab_sextets ([127; 127]) (2)) ;;
  _ <~ need (same x7 [31; 55]) ;;
  Ok tt.
(** core/util.rs, nab_sextets *)
Definition t_util_nab_sextets_1 : outcome unit :=
  let x1 := [255; 255; 255] in
  let x2 := 4 in
  let x3 := [63; 63; 63; 63] in
  x4 <~ unw (nab_sextets (x1) (x2)) ;;
  _ <~ need (same x4 x3) ;;
  x5 <~ unw (nab_sextets ([255; 255; 255; 0; 0; 0]) (8)) ;;
  _ <~ need (same x5 [63; 63; 63; 63; 0; 0; 0; 0]) ;;
  x6 <~ unw (nab_sextets ([255]) (1)) ;;
  _ <~ need (same x6 [63]) ;;
  x7 <~ unw (nab_sextets ([127; 127]) (2)) ;;
  _ <~ need (same x7 [31; 55]) ;;
  Ok tt.
(** core/util.rs, nab_sextets *)
Definition t_util_nab_sextets_2 : outcome unit :=
  let x1 := [255; 255; 255; 0; 0; 0] in
  let x2 := 8 in
  let x3 := [63; 63; 63; 63; 0; 0; 0; 0] in
  x4 <~ unw (nab_sextets (x1) (x2)) ;;
  _ <~ need (same x4 x3) ;;
  x5 <~ unw (nab_sextets ([255; 255; 255; 0; 0; 0]) (8)) ;;
  _ <~ need (same x5 [63; 63; 63; 63; 0; 0; 0; 0]) ;;
  x6 <~ unw (nab_sextets ([255]) (1)) ;;
  _ <~ need (same x6 [63]) ;;
  x7 <~ unw (nab_sextets ([127; 127]) (2)) ;;
  _ <~ need (same x7 [31; 55]) ;;
  Ok tt.
(** core/util.rs, nab_sextets *)
Definition t_util_nab_sextets_3 : outcome unit :=
  let x1 := [255] in
  let x2 := 1 in
  let x3 := [63] in
  x4 <~ unw (nab_sextets (x1) (x2)) ;;
  _ <~ need (same x4 x3) ;;
  x5 <~ unw (nab_sextets ([255; 255; 255; 0; 0; 0]) (8)) ;;
  _ <~ need (same x5 [63; 63; 63; 63; 0; 0; 0; 0]) ;;
  x6 <~ unw (nab_sextets ([255]) (1)) ;;
  _ <~ need (same x6 [63]) ;;
  x7 <~ unw (nab_sextets ([127; 127]) (2)) ;;
  _ <~ need (same x7 [31; 55]) ;;
  Ok tt.
(** core/util.rs, nab_sextets *)
Definition t_util_nab_sextets_4 : outcome unit :=
  let x1 := [127; 127] in
  let x2 := 2 in
  let x3 := [31; 55] in
  x4 <~ unw (nab_sextets (x1) (x2)) ;;
  _ <~ need (same x4 x3) ;;
  x5 <~ unw (nab_sextets ([255; 255; 255; 0; 0; 0]) (8)) ;;
  _ <~ need (same x5 [63; 63; 63; 63; 0; 0; 0; 0]) ;;
  x6 <~ unw (nab_sextets ([255]) (1)) ;;
  _ <~ need (same x6 [63]) ;;
  x7 <~ unw (nab_sextets ([127; 127]) (2)) ;;
  _ <~ need (same x7 [31; 55]) ;;
  Ok tt.
(** core/util.rs, unhappy_paths *)
Definition t_util_unhappy_paths_0 : outcome unit :=
  _ <~ need (errs (b64_char_to_index (35))) ;;
  _ <~ need (errs (b64_index_to_char (64))) ;;
  _ <~ need (errs (code_b2_to_b64 ([0]) (2))) ;;
  _ <~ need (errs (code_b2_to_b64 ((repeat 0 (N.to_nat 32))) (9))) ;;
  _ <~ need (errs (nab_sextets ([127; 127]) (3))) ;;
  Ok tt.
(** data.rs, macros *)
Definition t_data_macros_0 : outcome unit :=
  let x1 := (- 1234567890)%Z in
  let x2 := (s2b "string") in
  let x3 := (VObj (fold_left (fun o e => map_insert (fst e) (snd e) o) [((s2b "thing"), (VInt (Z.of_N 2))); ((s2b "other thing"), (VArr [(VStr x2); (VFloat (s2b "1.666")); (VInt x1); (VBool true); (VObj (fold_left (fun o e => map_insert (fst e) (snd e) o) [((s2b "nested array"), (VArr [(VObj []); (VArr [])]))] []))])); ((s2b "last thing"), VNull)] [])) in
  x4 <~ unw (Ok (to_json x3)) ;;
  _ <~ need (same x4 (s2b "{""thing"":2,""other thing"":[""string"",1.666,-1234567890,true,{""nested array"":[{},[]]}],""last thing"":null}")) ;;
  x5 <~ unw (vget x3 (s2b "thing")) ;;
  x6 <~ unw (vnth x3 0) ;;
  _ <~ need (same x5 x6) ;;
  x7 <~ unw (vget x3 (s2b "thing")) ;;
  x8 <~ unw (vnth x3 1) ;;
  _ <~ need (negb (same x7 x8)) ;;
  x9 <~ unw (vget x3 (s2b "thing")) ;;
  _ <~ need (same ((to_json x9)) (s2b "2")) ;;
  x10 <~ unw (vget x3 (s2b "last thing")) ;;
  _ <~ need (same x10 VNull) ;;
  x11 <~ unw (vget x3 (s2b "other thing")) ;;
  x12 <~ unw (vnth x11 3) ;;
  x13 <~ unw (to_bool x12) ;;
  _ <~ need x13 ;;
  x14 <~ unw (vget x3 (s2b "thing")) ;;
  x15 <~ unw (to_i64 x14) ;;
  _ <~ need (same (x15)%Z (2)%Z) ;;
  x16 <~ unw (vget x3 (s2b "other thing")) ;;
  x17 <~ unw (vnth x16 1) ;;
  x18 <~ unw (to_f64 x17) ;;
  _ <~ need (same x18 (s2b "1.666")) ;;
  x19 <~ unw (vget x3 (s2b "other thing")) ;;
  x20 <~ unw (vnth x19 0) ;;
  x21 <~ unw (to_string x20) ;;
  _ <~ need (same x21 (s2b "string")) ;;
  x22 <~ unw (vget x3 (s2b "other thing")) ;;
  x23 <~ unw (vnth x22 4) ;;
  x24 <~ unw (vget x23 (s2b "nested array")) ;;
  x25 <~ unw (vnth x24 1) ;;
  x26 <~ unw (to_vec x25) ;;
  _ <~ need (same x26 []) ;;
  x27 <~ unw (vget x3 (s2b "other thing")) ;;
  x28 <~ unw (vnth x27 4) ;;
  x29 <~ unw (vget x28 (s2b "nested array")) ;;
  x30 <~ unw (vnth x29 0) ;;
  x31 <~ unw (to_map x30) ;;
  _ <~ need (same x31 ([] : list (bytes * data))) ;;
  x32 <~ unw (vset x3 (s2b "thing") (VObj (fold_left (fun o e => map_insert (fst e) (snd e) o) [((s2b "something more complex"), (VObj (fold_left (fun o e => map_insert (fst e) (snd e) o) [((s2b "key"), (VInt (Z.of_N 987654321)))] [])))] []))) ;;
  x33 <~ unw (vnth x32 1) ;;
  x35 <~ unw (vset_nth x33 1 (VBool true)) ;;
  x34 <~ unw (vset_nth x32 1 x35) ;;
  x36 <~ unw (Ok (to_json x34)) ;;
  _ <~ need (same x36 (s2b "{""thing"":{""something more complex"":{""key"":987654321}},""other thing"":[""string"",true,-1234567890,true,{""nested array"":[{},[]]}],""last thing"":null}")) ;;
  x37 <~ unw (Ok (to_json x34)) ;;
  x38 <~ unw (from_json (x37)) ;;
  let x39 := x38 in
  let x40 := x39 in
  x41 <~ unw (Ok (to_json x34)) ;;
  x42 <~ unw (Ok (to_json x40)) ;;
  _ <~ need (same x41 x42) ;;
  Ok tt.
(** data.rs, value *)
Definition t_data_value_0 : outcome unit :=
  _ <~ need (ok (Ok (to_json (VObj [])))) ;;
  let x1 : list (data) := [] in
  let x2 := ([] : list (bytes * data)) in
  let x3 := (map_insert (s2b "test") (VBool true) x2) in
  let x4 := (VObj (fold_left (fun o e => map_insert (fst e) (snd e) o) [((s2b "f32"), (VFloat (s2b "0.0"))); ((s2b "f64"), (VFloat (s2b "0.0"))); ((s2b "i8"), (VInt (Z.of_N 0))); ((s2b "i16"), (VInt (Z.of_N 0))); ((s2b "i32"), (VInt (Z.of_N 0))); ((s2b "i64"), (VInt (Z.of_N 0))); ((s2b "u8"), (VInt (Z.of_N 0))); ((s2b "u16"), (VInt (Z.of_N 0))); ((s2b "u32"), (VInt (Z.of_N 0))); ((s2b "hash map"), (VObj x3)); ((s2b "array"), (VArr x1))] [])) in
  x5 <~ unw (Ok (to_json x4)) ;;
  let x6 := x5 in
  _ <~ need (same x6 (s2b "{""f32"":0.0,""f64"":0.0,""i8"":0,""i16"":0,""i32"":0,""i64"":0,""u8"":0,""u16"":0,""u32"":0,""hash map"":{""test"":true},""array"":[]}")) ;;
  x7 <~ unw (vnth x4 0) ;;
  _ <~ need (errs (to_bool x7)) ;;
  x8 <~ unw (vget x4 (s2b "hash map")) ;;
  _ <~ need (errs (to_i64 x8)) ;;
  x9 <~ unw (vget x4 (s2b "hash map")) ;;
  _ <~ need (errs (to_f64 x9)) ;;
  x10 <~ unw (vget x4 (s2b "f32")) ;;
  _ <~ need (errs (to_vec x10)) ;;
  x11 <~ unw (vget x4 (s2b "f32")) ;;
  _ <~ need (errs (to_map x11)) ;;
  x12 <~ unw (vget x4 (s2b "f64")) ;;
  _ <~ need (errs (to_i64 x12)) ;;
  x13 <~ unw (vget x4 (s2b "i64")) ;;
  _ <~ need (errs (to_f64 x13)) ;;
  x14 <~ unw (from_json (x6)) ;;
  let x15 := x14 in
  let x16 := x15 in
  x17 <~ unw (Ok (to_json x16)) ;;
  _ <~ need (same x6 x17) ;;
  Ok tt.
End T.

(** the 15 cases of core/bexter.rs *)
Definition bexter_cases {P : Profile} : list (outcome unit) :=
  [t_bexter_convenience_0; t_bexter_python_interop_0; t_bexter_snowflakes_0; t_bexter_snowflakes_1; t_bexter_creation_0; t_bexter_creation_1; t_bexter_creation_2; t_bexter_creation_3; t_bexter_creation_4; t_bexter_creation_5; t_bexter_creation_6; t_bexter_creation_7; t_bexter_creation_8; t_bexter_creation_9; t_bexter_unhappy_0].
Example bexter_conforms : forall P : Profile, forallb ok bexter_cases = true.
Proof. intros [|]; vm_compute; reflexivity. Qed.
(** the 9 cases of core/common.rs *)
Definition common_cases {P : Profile} : list (outcome unit) :=
  [t_common_loads_0; t_common_sniff_unhappy_paths_0; t_common_loads_unhappy_paths_0; t_common_sizeify_unhappy_paths_0; t_common_versify_unhappy_paths_0; t_common_deversify_unhappy_paths_0; t_common_deversify_unhappy_paths_1; t_common_deversify_unhappy_paths_2; t_common_dumps_unhappy_paths_0].
Example common_conforms : forall P : Profile, forallb ok common_cases = true.
Proof. intros [|]; vm_compute; reflexivity. Qed.
(** the 30 cases of core/counter/mod.rs *)
Definition counter_mod_cases {P : Profile} : list (outcome unit) :=
  [t_counter_new_0; t_counter_new_1; t_counter_new_2; t_counter_creation_0; t_counter_creation_1; t_counter_creation_2; t_counter_versioned_creation_0; t_counter_b64_overflow_and_underflow_0; t_counter_binary_overflow_and_underflow_0; t_counter_exfil_infil_bexfil_binfil_0; t_counter_semantic_versioning_strings_0; t_counter_semantic_versioning_strings_1; t_counter_semantic_versioning_strings_2; t_counter_semantic_versioning_strings_3; t_counter_semantic_versioning_strings_4; t_counter_semantic_versioning_strings_5; t_counter_semantic_versioning_strings_6; t_counter_semantic_versioning_u8s_0; t_counter_semantic_versioning_u8s_1; t_counter_semantic_versioning_u8s_2; t_counter_semantic_versioning_u8s_3; t_counter_semantic_versioning_unhappy_strings_0; t_counter_semantic_versioning_unhappy_strings_1; t_counter_semantic_versioning_unhappy_strings_2; t_counter_semantic_versioning_unhappy_u32s_0; t_counter_unhappy_paths_0; t_counter_qb64b_0; t_counter_qb_size_0; t_counter_qb_size_1; t_counter_qb_size_2].
Example counter_mod_conforms : forall P : Profile, forallb ok counter_mod_cases = true.
Proof. intros [|]; vm_compute; reflexivity. Qed.
(** the 46 cases of core/counter/tables.rs *)
Definition counter_tables_cases {P : Profile} : list (outcome unit) :=
  [t_counter_tables_hardage_0; t_counter_tables_hardage_1; t_counter_tables_hardage_2; t_counter_tables_hardage_3; t_counter_tables_hardage_4; t_counter_tables_hardage_5; t_counter_tables_hardage_6; t_counter_tables_hardage_7; t_counter_tables_hardage_8; t_counter_tables_hardage_9; t_counter_tables_hardage_10; t_counter_tables_hardage_11; t_counter_tables_hardage_12; t_counter_tables_hardage_13; t_counter_tables_hardage_14; t_counter_tables_bardage_0; t_counter_tables_bardage_1; t_counter_tables_bardage_2; t_counter_tables_bardage_3; t_counter_tables_bardage_4; t_counter_tables_bardage_5; t_counter_tables_bardage_6; t_counter_tables_bardage_7; t_counter_tables_bardage_8; t_counter_tables_bardage_9; t_counter_tables_bardage_10; t_counter_tables_bardage_11; t_counter_tables_bardage_12; t_counter_tables_bardage_13; t_counter_tables_bardage_14; t_counter_tables_sizage_0; t_counter_tables_sizage_1; t_counter_tables_sizage_2; t_counter_tables_sizage_3; t_counter_tables_sizage_4; t_counter_tables_sizage_5; t_counter_tables_sizage_6; t_counter_tables_sizage_7; t_counter_tables_sizage_8; t_counter_tables_sizage_9; t_counter_tables_sizage_10; t_counter_tables_sizage_11; t_counter_tables_sizage_12; t_counter_tables_sizage_13; t_counter_tables_sizage_14; t_counter_tables_unhappy_paths_0].
Example counter_tables_conforms : forall P : Profile, forallb ok counter_tables_cases = true.
Proof. intros [|]; vm_compute; reflexivity. Qed.
(** the 27 cases of core/dater.rs *)
Definition dater_cases {P : Profile} : list (outcome unit) :=
  [t_dater_convenience_0; t_dater_new_0; t_dater_new_default_0; t_dater_new_with_data_0; t_dater_new_with_data_1; t_dater_new_with_data_2; t_dater_new_with_data_3; t_dater_new_with_data_4; t_dater_new_with_data_5; t_dater_new_with_data_6; t_dater_new_with_data_7; t_dater_new_with_data_8; t_dater_new_with_data_9; t_dater_new_with_data_10; t_dater_new_with_data_11; t_dater_unhappy_new_with_code_and_raw_0; t_dater_unhappy_new_with_code_and_raw_1; t_dater_unhappy_new_with_code_and_raw_2; t_dater_unhappy_new_with_code_and_raw_3; t_dater_unhappy_new_with_dts_0; t_dater_unhappy_new_with_dts_1; t_dater_unhappy_new_with_qb64_0; t_dater_unhappy_new_with_qb64_1; t_dater_unhappy_new_with_qb64_2; t_dater_unhappy_new_with_qb2_0; t_dater_unhappy_new_with_qb2_1; t_dater_unhappy_new_with_qb2_2].
Example dater_conforms : forall P : Profile, forallb ok dater_cases = true.
Proof. intros [|]; vm_compute; reflexivity. Qed.
(** the 31 cases of core/number.rs *)
Definition number_cases {P : Profile} : list (outcome unit) :=
  [t_number_convenience_0; t_number_python_interop_0; t_number_unhappy_paths_0; t_number_happy_0; t_number_happy_1; t_number_happy_2; t_number_happy_3; t_number_happy_4; t_number_happy_5; t_number_happy_6; t_number_happy_7; t_number_happy_8; t_number_happy_9; t_number_happy_10; t_number_happy_11; t_number_happy_12; t_number_happy_13; t_number_happy_14; t_number_happy_15; t_number_happy_16; t_number_happy_17; t_number_happy_18; t_number_happy_19; t_number_happy_20; t_number_happy_21; t_number_happy_22; t_number_happy_23; t_number_truncates_0; t_number_truncates_1; t_number_truncates_2; t_number_truncates_3].
Example number_conforms : forall P : Profile, forallb ok number_cases = true.
Proof. intros [|]; vm_compute; reflexivity. Qed.
(** the 35 cases of core/seqner.rs *)
Definition seqner_cases {P : Profile} : list (outcome unit) :=
  [t_seqner_convenience_0; t_seqner_new_default_and_zero_0; t_seqner_new_default_and_zero_1; t_seqner_new_default_and_zero_2; t_seqner_new_default_and_zero_3; t_seqner_new_default_and_zero_4; t_seqner_new_default_and_zero_5; t_seqner_new_default_and_zero_6; t_seqner_new_default_and_zero_7; t_seqner_new_with_data_0; t_seqner_new_with_data_1; t_seqner_new_with_data_2; t_seqner_new_with_data_3; t_seqner_new_with_data_4; t_seqner_new_with_data_5; t_seqner_new_with_data_6; t_seqner_new_max_0; t_seqner_new_max_1; t_seqner_new_max_2; t_seqner_new_max_3; t_seqner_new_max_4; t_seqner_new_max_5; t_seqner_unhappy_new_with_code_and_raw_0; t_seqner_unhappy_new_with_code_and_raw_1; t_seqner_unhappy_new_with_code_and_raw_2; t_seqner_unhappy_new_with_code_and_raw_3; t_seqner_unhappy_new_with_snh_0; t_seqner_unhappy_new_with_snh_1; t_seqner_unhappy_new_with_snh_2; t_seqner_unhappy_new_with_qb64_0; t_seqner_unhappy_new_with_qb64_1; t_seqner_unhappy_new_with_qb64_2; t_seqner_unhappy_new_with_qb2_0; t_seqner_unhappy_new_with_qb2_1; t_seqner_unhappy_new_with_qb2_2].
Example seqner_conforms : forall P : Profile, forallb ok seqner_cases = true.
Proof. intros [|]; vm_compute; reflexivity. Qed.
(** the 56 cases of core/util.rs *)
Definition util_cases {P : Profile} : list (outcome unit) :=
  [t_util_u32_to_b64_0; t_util_u32_to_b64_1; t_util_u32_to_b64_2; t_util_u32_to_b64_3; t_util_u32_to_b64_4; t_util_u32_to_b64_5; t_util_u32_to_b64_6; t_util_u32_to_b64_7; t_util_u32_to_b64_8; t_util_u64_to_b64_0; t_util_u64_to_b64_1; t_util_u64_to_b64_2; t_util_u64_to_b64_3; t_util_u64_to_b64_4; t_util_u64_to_b64_5; t_util_u64_to_b64_6; t_util_u64_to_b64_7; t_util_u64_to_b64_8; t_util_u64_to_b64_9; t_util_u64_to_b64_10; t_util_b64_to_u32_0; t_util_b64_to_u32_1; t_util_b64_to_u32_2; t_util_b64_to_u32_3; t_util_b64_to_u32_4; t_util_b64_to_u32_5; t_util_b64_to_u64_0; t_util_b64_to_u64_1; t_util_b64_to_u64_2; t_util_b64_to_u64_3; t_util_b64_to_u64_4; t_util_b64_to_u64_5; t_util_b64_to_u64_6; t_util_b64_char_to_index_0; t_util_b64_index_to_char_0; t_util_code_b2_to_b64_0; t_util_code_b2_to_b64_1; t_util_code_b2_to_b64_2; t_util_code_b2_to_b64_3; t_util_code_b2_to_b64_4; t_util_code_b2_to_b64_5; t_util_code_b2_to_b64_6; t_util_code_b2_to_b64_7; t_util_code_b64_to_b2_0; t_util_code_b64_to_b2_1; t_util_code_b64_to_b2_2; t_util_code_b64_to_b2_3; t_util_code_b64_to_b2_4; t_util_code_b64_to_b2_5; t_util_code_b64_to_b2_6; t_util_nab_sextets_0; t_util_nab_sextets_1; t_util_nab_sextets_2; t_util_nab_sextets_3; t_util_nab_sextets_4; t_util_unhappy_paths_0].
Example util_conforms : forall P : Profile, forallb ok util_cases = true.
Proof. intros [|]; vm_compute; reflexivity. Qed.
(** the 2 cases of data.rs *)
Definition data_cases {P : Profile} : list (outcome unit) :=
  [t_data_macros_0; t_data_value_0].
Example data_conforms : forall P : Profile, forallb ok data_cases = true.
Proof. intros [|]; vm_compute; reflexivity. Qed.
