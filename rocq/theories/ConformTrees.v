(** The unit tests of /repo/src/core/pather.rs, /repo/src/core/prefixer.rs, /repo/src/core/tholder.rs on the model: written by tools/mkconform.py.
    Every definition is one case of a test function; it is [Ok tt] if all assertions hold. *)
From Verif Require Import Base Utf8 B64 Util StdStr MatterTables Matter CounterTables Counter IndexerTables Indexer Crypto Prims Signer Data Json Common Saider Tholder Sadder Pather Prefixer Pretty Defaults DataDefs Hash Float ConformDefs.
#[local] Existing Instance test_crypto.
#[local] Existing Instance real_floats.
Section T.
Context {P : Profile}.
(** core/pather.rs, convenience *)
Definition t_pather_convenience_0 : outcome unit :=
  x1 <~ unw (pather_new None (Some (s2b "-a")) None None None None None) ;;
  let x2 := x1 in
  x3 <~ unw (bext_of x2) ;;
  _ <~ need (ok (pather_new None (Some x3) None None None None None)) ;;
  x4 <~ unw (pather_path x2 ) ;;
  _ <~ need (ok (pather_new (Some x4) None None None None None None)) ;;
  x5 <~ unw (matter_qb2 x2) ;;
  _ <~ need (ok (pather_new None None None None None None (Some x5))) ;;
  x6 <~ unw (matter_qb64 x2) ;;
  _ <~ need (ok (pather_new None None None None None (Some x6) None)) ;;
  x7 <~ unw (matter_qb64b x2) ;;
  _ <~ need (ok (pather_new None None None None (Some x7) None None)) ;;
  _ <~ need (ok (pather_new None None (None) (Some (m_raw x2)) None None None)) ;;
  Ok tt.
(** core/pather.rs, unhappy *)
Definition t_pather_unhappy_0 : outcome unit :=
  _ <~ need (errs (pather_new (None) (None) ((Some (s2b "E"))) ((Some (s2b "00000000000000000000000000000000"))) (None) (None) (None))) ;;
  _ <~ need (errs (pather_new (None) ((Some (s2b "@!"))) (None) (None) (None) (None) (None))) ;;
  _ <~ need (errs (pather_new (None) (None) (None) (None) (None) (None) (None))) ;;
  x1 <~ unw (pather_new (None) (None) ((Some (s2b "4A"))) ((Some (s2b "00"))) (None) (None) (None)) ;;
  let x2 := x1 in
  _ <~ need (errs (pather_path x2 )) ;;
  let x3 := (VObj (fold_left (fun o e => map_insert (fst e) (snd e) o) [((s2b "a"), (VArr [(VInt (Z.of_N 1))]))] [])) in
  x4 <~ unw (pather_new (None) ((Some (s2b "-1"))) (None) (None) (None) (None) (None)) ;;
  let x5 := x4 in
  _ <~ need (errs (pather_resolve x5 (x3))) ;;
  x6 <~ unw (pather_new (None) ((Some (s2b "-b"))) (None) (None) (None) (None) (None)) ;;
  let x7 := x6 in
  _ <~ need (errs (pather_resolve x7 (x3))) ;;
  x8 <~ unw (pather_new (None) ((Some (s2b "-a-1"))) (None) (None) (None) (None) (None)) ;;
  let x9 := x8 in
  _ <~ need (errs (pather_resolve x9 (x3))) ;;
  let x10 := (VInt (Z.of_N 2)) in
  x11 <~ unw (pather_new (None) ((Some (s2b "-0"))) (None) (None) (None) (None) (None)) ;;
  let x12 := x11 in
  _ <~ need (errs (pather_resolve x12 (x10))) ;;
  Ok tt.
(** core/pather.rs, resolve *)
Definition t_pather_resolve_0 : outcome unit :=
  let x1 := (VObj (fold_left (fun o e => map_insert (fst e) (snd e) o) [((s2b "a"), (VArr [(VInt (Z.of_N 2))]))] [])) in
  x2 <~ unw (pather_new (None) ((Some (s2b "-a-0"))) (None) (None) (None) (None) (None)) ;;
  let x3 := x2 in
  x4 <~ unw (pather_resolve x3 (x1)) ;;
  _ <~ need (same x4 (VInt (Z.of_N 2))) ;;
  x5 <~ unw ((v <- to_vec (VArr [(VStr (s2b ""))]) ;; resolve x1 v)) ;;
  _ <~ need (same x5 x1) ;;
  Ok tt.
(** core/pather.rs, root *)
Definition t_pather_root_0 : outcome unit :=
  x1 <~ unw (pather_new None (Some (s2b "-a")) None None None None None) ;;
  let x2 := x1 in
  x3 <~ unw (pather_new None (Some (s2b "-r")) None None None None None) ;;
  let x4 := x3 in
  x5 <~ unw (pather_root x2 (x4)) ;;
  x6 <~ unw (bext_of x5) ;;
  _ <~ need (same x6 (s2b "-r-a")) ;;
  Ok tt.
(** core/pather.rs, tail *)
Definition t_pather_tail_0 : outcome unit :=
  let x1 := (s2b "KERI10JSON000000_") in
  let x2 := (VObj (fold_left (fun o e => map_insert (fst e) (snd e) o) [((s2b "v"), (VStr x1)); ((s2b "d"), (VStr (s2b ""))); ((s2b "i"), (VStr (s2b "ABCDEFG"))); ((s2b "s"), (VObj [])); ((s2b "t"), (VStr (s2b "rot"))); ((s2b "x"), (VInt (Z.of_N 1)))] [])) in
  x3 <~ unw (saidify (x2) (None) (None) (None) (None)) ;;
  let '(x4, x5) := x3 in
  x6 <~ unw (serder_new (None) (None) (None) ((Some x5)) (None)) ;;
  let x7 := x6 in
  x8 <~ unw (pather_new None (Some (s2b "-d")) None None None None None) ;;
  let x9 := x8 in
  x10 <~ unw (pather_tail x9 (x7)) ;;
  x11 <~ unw (vget x5 (s2b "d")) ;;
  x12 <~ unw (to_string x11) ;;
  _ <~ need (same x10 x12) ;;
  x13 <~ unw (pather_new None (Some (s2b "-s")) None None None None None) ;;
  let x14 := x13 in
  x15 <~ unw (pather_tail x14 (x7)) ;;
  _ <~ need (same x15 (s2b "{}")) ;;
  x16 <~ unw (pather_new None (Some (s2b "-x")) None None None None None) ;;
  let x17 := x16 in
  _ <~ need (errs (pather_tail x17 (x7))) ;;
  Ok tt.
(** core/pather.rs, python_interop *)
Definition t_pather_python_interop_0 : outcome unit :=
  let x1 := (VObj (fold_left (fun o e => map_insert (fst e) (snd e) o) [((s2b "a"), (VObj (fold_left (fun o e => map_insert (fst e) (snd e) o) [((s2b "z"), (VStr (s2b "value"))); ((s2b "b"), (VObj (fold_left (fun o e => map_insert (fst e) (snd e) o) [((s2b "x"), (VInt (Z.of_N 1))); ((s2b "y"), (VInt (Z.of_N 2))); ((s2b "c"), (VStr (s2b "test")))] [])))] [])))] [])) in
  let x2 := (VArr []) in
  x3 <~ unw (pather_new ((Some x2)) (None) (None) (None) (None) (None) (None)) ;;
  let x4 := x3 in
  x5 <~ unw (bext_of x4) ;;
  _ <~ need (same x5 (s2b "-")) ;;
  x6 <~ unw (matter_qb64 x4) ;;
  _ <~ need (same x6 (s2b "6AABAAA-")) ;;
  _ <~ need (same (m_raw x4) (s2b ">")) ;;
  x7 <~ unw (pather_resolve x4 (x1)) ;;
  _ <~ need (same x7 x1) ;;
  x8 <~ unw (pather_path x4 ) ;;
  _ <~ need (same x8 x2) ;;
  let x9 := (VArr [(VStr (s2b "a")); (VStr (s2b "b")); (VStr (s2b "c"))]) in
  x10 <~ unw (pather_new ((Some x9)) (None) (None) (None) (None) (None) (None)) ;;
  let x11 := x10 in
  x12 <~ unw (bext_of x11) ;;
  _ <~ need (same x12 (s2b "-a-b-c")) ;;
  x13 <~ unw (matter_qb64 x11) ;;
  _ <~ need (same x13 (s2b "5AACAA-a-b-c")) ;;
  _ <~ need (same (m_raw x11) [15; 154; 249; 191; 156]) ;;
  x14 <~ unw (pather_resolve x11 (x1)) ;;
  x15 <~ unw (to_string x14) ;;
  _ <~ need (same x15 (s2b "test")) ;;
  x16 <~ unw (pather_path x11 ) ;;
  _ <~ need (same x16 x9) ;;
  let x17 := (VArr [(VStr (s2b "0")); (VStr (s2b "1")); (VStr (s2b "2"))]) in
  x18 <~ unw (pather_new ((Some x17)) (None) (None) (None) (None) (None) (None)) ;;
  let x19 := x18 in
  x20 <~ unw (bext_of x19) ;;
  _ <~ need (same x20 (s2b "-0-1-2")) ;;
  x21 <~ unw (matter_qb64 x19) ;;
  _ <~ need (same x21 (s2b "5AACAA-0-1-2")) ;;
  _ <~ need (same (m_raw x19) [15; 180; 251; 95; 182]) ;;
  x22 <~ unw (pather_resolve x19 (x1)) ;;
  x23 <~ unw (to_string x22) ;;
  _ <~ need (same x23 (s2b "test")) ;;
  x24 <~ unw (pather_path x19 ) ;;
  _ <~ need (same x24 x17) ;;
  let x25 := (VObj (fold_left (fun o e => map_insert (fst e) (snd e) o) [((s2b "field0"), (VObj (fold_left (fun o e => map_insert (fst e) (snd e) o) [((s2b "z"), (VStr (s2b "value"))); ((s2b "field1"), (VObj (fold_left (fun o e => map_insert (fst e) (snd e) o) [((s2b "field2"), (VInt (Z.of_N 1))); ((s2b "field3"), (VInt (Z.of_N 2))); ((s2b "c"), (VStr (s2b "test")))] [])))] [])))] [])) in
  let x26 := (VArr [(VStr (s2b "field0"))]) in
  x27 <~ unw (pather_new ((Some x26)) (None) (None) (None) (None) (None) (None)) ;;
  let x28 := x27 in
  x29 <~ unw (bext_of x28) ;;
  _ <~ need (same x29 (s2b "-field0")) ;;
  x30 <~ unw (matter_qb64 x28) ;;
  _ <~ need (same x30 (s2b "4AACA-field0")) ;;
  _ <~ need (same (m_raw x28) [3; 231; 226; 122; 87; 116]) ;;
  x31 <~ unw (pather_resolve x28 (x25)) ;;
  _ <~ need (same x31 (VObj (fold_left (fun o e => map_insert (fst e) (snd e) o) [((s2b "z"), (VStr (s2b "value"))); ((s2b "field1"), (VObj (fold_left (fun o e => map_insert (fst e) (snd e) o) [((s2b "field2"), (VInt (Z.of_N 1))); ((s2b "field3"), (VInt (Z.of_N 2))); ((s2b "c"), (VStr (s2b "test")))] [])))] []))) ;;
  x32 <~ unw (pather_path x28 ) ;;
  _ <~ need (same x32 x26) ;;
  let x33 := (VArr [(VStr (s2b "field0")); (VStr (s2b "field1")); (VStr (s2b "field3"))]) in
  x34 <~ unw (pather_new ((Some x33)) (None) (None) (None) (None) (None) (None)) ;;
  let x35 := x34 in
  x36 <~ unw (bext_of x35) ;;
  _ <~ need (same x36 (s2b "-field0-field1-field3")) ;;
  x37 <~ unw (matter_qb64 x35) ;;
  _ <~ need (same x37 (s2b "6AAGAAA-field0-field1-field3")) ;;
  _ <~ need (same (m_raw x35) [62; 126; 39; 165; 119; 79; 159; 137; 233; 93; 215; 231; 226; 122; 87; 119]) ;;
  x38 <~ unw (pather_resolve x35 (x25)) ;;
  x39 <~ unw (to_i64 x38) ;;
  _ <~ need (same (x39)%Z (2)%Z) ;;
  x40 <~ unw (pather_path x35 ) ;;
  _ <~ need (same x40 x33) ;;
  let x41 := (VArr [(VStr (s2b "field0")); (VStr (s2b "1")); (VStr (s2b "0"))]) in
  x42 <~ unw (pather_new ((Some x41)) (None) (None) (None) (None) (None) (None)) ;;
  let x43 := x42 in
  x44 <~ unw (bext_of x43) ;;
  _ <~ need (same x44 (s2b "-field0-1-0")) ;;
  x45 <~ unw (matter_qb64 x43) ;;
  _ <~ need (same x45 (s2b "4AADA-field0-1-0")) ;;
  _ <~ need (same (m_raw x43) [3; 231; 226; 122; 87; 116; 251; 95; 180]) ;;
  x46 <~ unw (pather_resolve x43 (x25)) ;;
  x47 <~ unw (to_i64 x46) ;;
  _ <~ need (same (x47)%Z (1)%Z) ;;
  x48 <~ unw (pather_path x43 ) ;;
  _ <~ need (same x48 x41) ;;
  let x49 := (VObj (fold_left (fun o e => map_insert (fst e) (snd e) o) [((s2b "field0"), (VObj (fold_left (fun o e => map_insert (fst e) (snd e) o) [((s2b "z"), (VObj (fold_left (fun o e => map_insert (fst e) (snd e) o) [((s2b "field2"), (VInt (Z.of_N 1))); ((s2b "field3"), (VInt (Z.of_N 2))); ((s2b "c"), (VStr (s2b "test")))] []))); ((s2b "field1"), (VStr (s2b "value")))] [])))] [])) in
  let x50 := (s2b "-0-z-2") in
  x51 <~ unw (pather_new (None) ((Some x50)) (None) (None) (None) (None) (None)) ;;
  let x52 := x51 in
  x53 <~ unw (bext_of x52) ;;
  _ <~ need (same x53 x50) ;;
  x54 <~ unw (matter_qb64 x52) ;;
  _ <~ need (same x54 (s2b "5AACAA-0-z-2")) ;;
  _ <~ need (same (m_raw x52) [15; 180; 251; 63; 182]) ;;
  x55 <~ unw (pather_resolve x52 (x49)) ;;
  x56 <~ unw (to_string x55) ;;
  _ <~ need (same x56 (s2b "test")) ;;
  x57 <~ unw (pather_path x52 ) ;;
  _ <~ need (same x57 (VArr [(VStr (s2b "0")); (VStr (s2b "z")); (VStr (s2b "2"))])) ;;
  let x58 := (s2b "-0-a") in
  x59 <~ unw (pather_new (None) ((Some x58)) (None) (None) (None) (None) (None)) ;;
  let x60 := x59 in
  x61 <~ unw (bext_of x60) ;;
  _ <~ need (same x61 x58) ;;
  x62 <~ unw (matter_qb64 x60) ;;
  _ <~ need (same x62 (s2b "4AAB-0-a")) ;;
  _ <~ need (same (m_raw x60) [251; 79; 154]) ;;
  _ <~ need (errs (pather_resolve x60 (x49))) ;;
  x63 <~ unw (pather_path x60 ) ;;
  _ <~ need (same x63 (VArr [(VStr (s2b "0")); (VStr (s2b "a"))])) ;;
  let x64 := (s2b "-0-field1-0") in
  x65 <~ unw (pather_new (None) ((Some x64)) (None) (None) (None) (None) (None)) ;;
  let x66 := x65 in
  x67 <~ unw (bext_of x66) ;;
  _ <~ need (same x67 x64) ;;
  x68 <~ unw (matter_qb64 x66) ;;
  _ <~ need (same x68 (s2b "4AADA-0-field1-0")) ;;
  _ <~ need (same (m_raw x66) [3; 237; 62; 126; 39; 165; 119; 95; 180]) ;;
  _ <~ need (errs (pather_resolve x66 (x49))) ;;
  x69 <~ unw (pather_path x66 ) ;;
  _ <~ need (same x69 (VArr [(VStr (s2b "0")); (VStr (s2b "field1")); (VStr (s2b "0"))])) ;;
  let x70 := (VArr [(VStr (s2b "Not$Base64")); (VStr (s2b "@moreso")); (VStr (s2b "*again"))]) in
  _ <~ need (errs (pather_new ((Some x70)) (None) (None) (None) (None) (None) (None))) ;;
  let x71 := (s2b "-a") in
  x72 <~ unw (pather_new (None) ((Some x71)) (None) (None) (None) (None) (None)) ;;
  let x73 := x72 in
  x74 <~ unw (pather_new (None) ((Some (s2b "-a-b"))) (None) (None) (None) (None) (None)) ;;
  let x75 := x74 in
  x76 <~ unw (pather_new (None) ((Some x71)) (None) (None) (None) (None) (None)) ;;
  let x77 := x76 in
  x78 <~ unw (pather_starts_with x77 (x73)) ;;
  _ <~ need x78 ;;
  x79 <~ unw (pather_starts_with x77 (x75)) ;;
  _ <~ need (negb x79) ;;
  x80 <~ unw (pather_strip x77 (x73)) ;;
  let x81 := x80 in
  x82 <~ unw (pather_path x81 ) ;;
  _ <~ need (same x82 (VArr [])) ;;
  x83 <~ unw (pather_strip x77 (x75)) ;;
  let x84 := x83 in
  x85 <~ unw (pather_path x84 ) ;;
  x86 <~ unw (pather_path x77 ) ;;
  _ <~ need (same x85 x86) ;;
  x87 <~ unw (pather_new (None) ((Some (s2b "-a-b-c-d-e-f"))) (None) (None) (None) (None) (None)) ;;
  let x88 := x87 in
  x89 <~ unw (pather_starts_with x88 (x73)) ;;
  _ <~ need x89 ;;
  x90 <~ unw (pather_starts_with x88 (x75)) ;;
  _ <~ need x90 ;;
  x91 <~ unw (pather_strip x88 (x73)) ;;
  let x92 := x91 in
  x93 <~ unw (pather_path x92 ) ;;
  _ <~ need (same x93 (VArr [(VStr (s2b "b")); (VStr (s2b "c")); (VStr (s2b "d")); (VStr (s2b "e")); (VStr (s2b "f"))])) ;;
  x94 <~ unw (pather_strip x88 (x75)) ;;
  let x95 := x94 in
  x96 <~ unw (pather_path x95 ) ;;
  _ <~ need (same x96 (VArr [(VStr (s2b "c")); (VStr (s2b "d")); (VStr (s2b "e")); (VStr (s2b "f"))])) ;;
  Ok tt.
(** core/prefixer.rs, convenience *)
Definition t_prefixer_convenience_0 : outcome unit :=
  let x1 := (s2b "B") in
  let x2 := [172; 114; 218; 200; 51; 126; 153; 114; 175; 235; 96; 192; 140; 82; 215; 215; 246; 57; 200; 69; 30; 210; 240; 61; 96; 247; 191; 138; 24; 138; 96; 113] in
  let x3 := (s2b "BKxy2sgzfplyr-tgwIxS19f2OchFHtLwPWD3v4oYimBx") in
  x4 <~ unw (verfer_new ((Some x1)) ((Some x2)) (None) (None) (None)) ;;
  let x5 := x4 in
  x6 <~ unw (matter_qb64 x5) ;;
  let x7 := (VObj (fold_left (fun o e => map_insert (fst e) (snd e) o) [((s2b "k"), (VArr [(VStr x6)])); ((s2b "n"), (VStr (s2b ""))); ((s2b "t"), (VStr (s2b "icp"))); ((s2b "i"), (VStr x3))] [])) in
  x8 <~ unw (prefixer_new ((Some x7)) (None) ((Some x1)) (None) (None) (None) (None)) ;;
  let x9 := x8 in
  _ <~ need (ok (prefixer_new (Some x7) (None) (None) None None None None)) ;;
  _ <~ need (ok (prefixer_new None None ((Some (m_code x9))) (Some (m_raw x9)) None None None)) ;;
  x10 <~ unw (matter_qb64b x9) ;;
  _ <~ need (ok (prefixer_new None None None None (Some x10) None None)) ;;
  x11 <~ unw (matter_qb64 x9) ;;
  _ <~ need (ok (prefixer_new None None None None None (Some x11) None)) ;;
  x12 <~ unw (matter_qb2 x9) ;;
  _ <~ need (ok (prefixer_new None None None None None None (Some x12))) ;;
  Ok tt.
(** core/prefixer.rs, new_unhappy_paths_by_values *)
Definition t_prefixer_new_unhappy_paths_by_values_0 : outcome unit :=
  let x1 := [172; 114; 218; 200; 51; 126; 153; 114; 175; 235; 96; 192; 140; 82; 215; 215; 246; 57; 200; 69; 30; 210; 240; 61; 96; 247; 191; 138; 24; 138; 96; 113] in
  let x2 := (errs (prefixer_new (None) (None) (None) (None) (None) (None) (None))) in
  _ <~ need x2 ;;
  Ok tt.
(** core/prefixer.rs, new_unhappy_paths_by_values *)
Definition t_prefixer_new_unhappy_paths_by_values_1 : outcome unit :=
  let x1 := [172; 114; 218; 200; 51; 126; 153; 114; 175; 235; 96; 192; 140; 82; 215; 215; 246; 57; 200; 69; 30; 210; 240; 61; 96; 247; 191; 138; 24; 138; 96; 113] in
  let x2 := (errs (prefixer_new (None) (None) (None) ((Some x1)) (None) (None) (None))) in
  _ <~ need x2 ;;
  Ok tt.
(** core/prefixer.rs, new_unhappy_paths_by_values *)
Definition t_prefixer_new_unhappy_paths_by_values_2 : outcome unit :=
  let x1 := [172; 114; 218; 200; 51; 126; 153; 114; 175; 235; 96; 192; 140; 82; 215; 215; 246; 57; 200; 69; 30; 210; 240; 61; 96; 247; 191; 138; 24; 138; 96; 113] in
  let x2 := (errs (prefixer_new (None) (None) ((Some (s2b ""))) ((Some x1)) (None) (None) (None))) in
  _ <~ need x2 ;;
  Ok tt.
(** core/prefixer.rs, new_unhappy_paths_by_values *)
Definition t_prefixer_new_unhappy_paths_by_values_3 : outcome unit :=
  let x1 := [172; 114; 218; 200; 51; 126; 153; 114; 175; 235; 96; 192; 140; 82; 215; 215; 246; 57; 200; 69; 30; 210; 240; 61; 96; 247; 191; 138; 24; 138; 96; 113] in
  let x2 := (errs (prefixer_new (None) (None) ((Some (s2b "7AAB"))) ((Some x1)) (None) (None) (None))) in
  _ <~ need x2 ;;
  Ok tt.
(** core/prefixer.rs, new_unhappy_paths *)
Definition t_prefixer_new_unhappy_paths_0 : outcome unit :=
  let x1 : option (bytes) := None in
  let x2 := [(s2b "DKxy2sgzfplyr-tgwIxS19f2OchFHtLwPWD3v4oYimBx")] in
  let x3 := (s2b "") in
  let x4 := (s2b "icp") in
  let x5 : option (bytes) := None in
  let x6 : option (bytes) := None in
  let x7 := (VObj []) in
  let x8 := [] in
  let x9 := (x8 ++ [(VStr (s2b "DKxy2sgzfplyr-tgwIxS19f2OchFHtLwPWD3v4oYimBx"))]) in
  x10 <~ unw (vset x7 (s2b "k") (VArr x9)) ;;
  x11 <~ unw (vset x10 (s2b "n") (VStr x3)) ;;
  x12 <~ unw (vset x11 (s2b "t") (VStr x4)) ;;
  _ <~ need (errs (prefixer_new ((Some x12)) (None) (x6) (None) (None) (None) (None))) ;;
  Ok tt.
(** core/prefixer.rs, new_unhappy_paths *)
Definition t_prefixer_new_unhappy_paths_1 : outcome unit :=
  let x1 : option (bytes) := None in
  let x2 := [(s2b "DKxy2sgzfplyr-tgwIxS19f2OchFHtLwPWD3v4oYimBx")] in
  let x3 := (s2b "") in
  let x4 := (s2b "icp") in
  let x5 := (Some (s2b "BKxy2sgzfplyr-tgwIxS19f2OchFHtLwPWD3v4oYimBx")) in
  let x6 : option (bytes) := None in
  let x7 := (VObj []) in
  let x8 := [] in
  let x9 := (x8 ++ [(VStr (s2b "DKxy2sgzfplyr-tgwIxS19f2OchFHtLwPWD3v4oYimBx"))]) in
  x10 <~ unw (vset x7 (s2b "k") (VArr x9)) ;;
  x11 <~ unw (vset x10 (s2b "n") (VStr x3)) ;;
  x12 <~ unw (vset x11 (s2b "t") (VStr x4)) ;;
  let x13 := (s2b "BKxy2sgzfplyr-tgwIxS19f2OchFHtLwPWD3v4oYimBx") in
  x14 <~ unw (vset x12 (s2b "i") (VStr x13)) ;;
  _ <~ need (errs (prefixer_new ((Some x14)) (None) (x6) (None) (None) (None) (None))) ;;
  Ok tt.
(** core/prefixer.rs, new_unhappy_paths *)
Definition t_prefixer_new_unhappy_paths_2 : outcome unit :=
  let x1 : option (bytes) := None in
  let x2 := [(s2b "BKxy2sgzfplyr-tgwIxS19f2OchFHtLwPWD3v4oYimBx")] in
  let x3 := (s2b "") in
  let x4 := (s2b "icp") in
  let x5 := (Some (s2b "DKxy2sgzfplyr-tgwIxS19f2OchFHtLwPWD3v4oYimBx")) in
  let x6 := (Some (s2b "D")) in
  let x7 := (VObj []) in
  let x8 := [] in
  let x9 := (x8 ++ [(VStr (s2b "BKxy2sgzfplyr-tgwIxS19f2OchFHtLwPWD3v4oYimBx"))]) in
  x10 <~ unw (vset x7 (s2b "k") (VArr x9)) ;;
  x11 <~ unw (vset x10 (s2b "n") (VStr x3)) ;;
  x12 <~ unw (vset x11 (s2b "t") (VStr x4)) ;;
  let x13 := (s2b "DKxy2sgzfplyr-tgwIxS19f2OchFHtLwPWD3v4oYimBx") in
  x14 <~ unw (vset x12 (s2b "i") (VStr x13)) ;;
  _ <~ need (errs (prefixer_new ((Some x14)) (None) (x6) (None) (None) (None) (None))) ;;
  Ok tt.
(** core/prefixer.rs, new_unhappy_paths *)
Definition t_prefixer_new_unhappy_paths_3 : outcome unit :=
  let x1 := (Some (s2b "KERI10JSON000000_")) in
  let x2 := [(s2b "EKxy2sgzfplyr-tgwIxS19f2OchFHtLwPWD3v4oYimBx")] in
  let x3 := (s2b "") in
  let x4 := (s2b "ksn") in
  let x5 := (Some (s2b "")) in
  let x6 := (Some (s2b "E")) in
  let x7 := (VObj []) in
  let x8 := (s2b "KERI10JSON000000_") in
  x9 <~ unw (vset x7 (s2b "v") (VStr x8)) ;;
  let x10 := [] in
  let x11 := (x10 ++ [(VStr (s2b "EKxy2sgzfplyr-tgwIxS19f2OchFHtLwPWD3v4oYimBx"))]) in
  x12 <~ unw (vset x9 (s2b "k") (VArr x11)) ;;
  x13 <~ unw (vset x12 (s2b "n") (VStr x3)) ;;
  x14 <~ unw (vset x13 (s2b "t") (VStr x4)) ;;
  let x15 := (s2b "") in
  x16 <~ unw (vset x14 (s2b "i") (VStr x15)) ;;
  _ <~ need (errs (prefixer_new ((Some x16)) (None) (x6) (None) (None) (None) (None))) ;;
  Ok tt.
(** core/prefixer.rs, new_unhappy_paths *)
Definition t_prefixer_new_unhappy_paths_4 : outcome unit :=
  let x1 : option (bytes) := None in
  let x2 := [(s2b "DKxy2sgzfplyr-tgwIxS19f2OchFHtLwPWD3v4oYimBx"); (s2b "DKxy2sgzfplyr-tgwIxS19f2OchFHtLwPWD3v4oYimBx")] in
  let x3 := (s2b "") in
  let x4 := (s2b "icp") in
  let x5 := (Some (s2b "")) in
  let x6 := (Some (s2b "B")) in
  let x7 := (VObj []) in
  let x8 := [] in
  let x9 := (x8 ++ [(VStr (s2b "DKxy2sgzfplyr-tgwIxS19f2OchFHtLwPWD3v4oYimBx"))]) in
  let x10 := (x9 ++ [(VStr (s2b "DKxy2sgzfplyr-tgwIxS19f2OchFHtLwPWD3v4oYimBx"))]) in
  x11 <~ unw (vset x7 (s2b "k") (VArr x10)) ;;
  x12 <~ unw (vset x11 (s2b "n") (VStr x3)) ;;
  x13 <~ unw (vset x12 (s2b "t") (VStr x4)) ;;
  let x14 := (s2b "") in
  x15 <~ unw (vset x13 (s2b "i") (VStr x14)) ;;
  _ <~ need (errs (prefixer_new ((Some x15)) (None) (x6) (None) (None) (None) (None))) ;;
  Ok tt.
(** core/prefixer.rs, new_unhappy_paths *)
Definition t_prefixer_new_unhappy_paths_5 : outcome unit :=
  let x1 : option (bytes) := None in
  let x2 := [(s2b "DKxy2sgzfplyr-tgwIxS19f2OchFHtLwPWD3v4oYimBx"); (s2b "DKxy2sgzfplyr-tgwIxS19f2OchFHtLwPWD3v4oYimBx")] in
  let x3 := (s2b "") in
  let x4 := (s2b "icp") in
  let x5 := (Some (s2b "")) in
  let x6 := (Some (s2b "D")) in
  let x7 := (VObj []) in
  let x8 := [] in
  let x9 := (x8 ++ [(VStr (s2b "DKxy2sgzfplyr-tgwIxS19f2OchFHtLwPWD3v4oYimBx"))]) in
  let x10 := (x9 ++ [(VStr (s2b "DKxy2sgzfplyr-tgwIxS19f2OchFHtLwPWD3v4oYimBx"))]) in
  x11 <~ unw (vset x7 (s2b "k") (VArr x10)) ;;
  x12 <~ unw (vset x11 (s2b "n") (VStr x3)) ;;
  x13 <~ unw (vset x12 (s2b "t") (VStr x4)) ;;
  let x14 := (s2b "") in
  x15 <~ unw (vset x13 (s2b "i") (VStr x14)) ;;
  _ <~ need (errs (prefixer_new ((Some x15)) (None) (x6) (None) (None) (None) (None))) ;;
  Ok tt.
(** core/prefixer.rs, new_unhappy_paths *)
Definition t_prefixer_new_unhappy_paths_6 : outcome unit :=
  let x1 : option (bytes) := None in
  let x2 : list (bytes) := [] in
  let x3 := (s2b "") in
  let x4 := (s2b "icp") in
  let x5 := (Some (s2b "")) in
  let x6 := (Some (s2b "B")) in
  let x7 := (VObj []) in
  x8 <~ unw (vset x7 (s2b "n") (VStr x3)) ;;
  x9 <~ unw (vset x8 (s2b "t") (VStr x4)) ;;
  let x10 := (s2b "") in
  x11 <~ unw (vset x9 (s2b "i") (VStr x10)) ;;
  _ <~ need (errs (prefixer_new ((Some x11)) (None) (x6) (None) (None) (None) (None))) ;;
  Ok tt.
(** core/prefixer.rs, new_unhappy_paths *)
Definition t_prefixer_new_unhappy_paths_7 : outcome unit :=
  let x1 : option (bytes) := None in
  let x2 : list (bytes) := [] in
  let x3 := (s2b "") in
  let x4 := (s2b "icp") in
  let x5 := (Some (s2b "")) in
  let x6 := (Some (s2b "D")) in
  let x7 := (VObj []) in
  x8 <~ unw (vset x7 (s2b "n") (VStr x3)) ;;
  x9 <~ unw (vset x8 (s2b "t") (VStr x4)) ;;
  let x10 := (s2b "") in
  x11 <~ unw (vset x9 (s2b "i") (VStr x10)) ;;
  _ <~ need (errs (prefixer_new ((Some x11)) (None) (x6) (None) (None) (None) (None))) ;;
  Ok tt.
(** core/prefixer.rs, new_nontransferable_unhappy_paths *)
Definition t_prefixer_new_nontransferable_unhappy_paths_0 : outcome unit :=
  let x1 := (s2b "ABC") in
  let x2 : option (bytes) := None in
  let x3 : option (bytes) := None in
  let x4 := (s2b "B") in
  let x5 := (s2b "BKxy2sgzfplyr-tgwIxS19f2OchFHtLwPWD3v4oYimBx") in
  let x6 := [172; 114; 218; 200; 51; 126; 153; 114; 175; 235; 96; 192; 140; 82; 215; 215; 246; 57; 200; 69; 30; 210; 240; 61; 96; 247; 191; 138; 24; 138; 96; 113] in
  x7 <~ unw (verfer_new ((Some x4)) ((Some x6)) (None) (None) (None)) ;;
  let x8 := x7 in
  x9 <~ unw (matter_qb64 x8) ;;
  let x10 := (VObj (fold_left (fun o e => map_insert (fst e) (snd e) o) [((s2b "k"), (VArr [(VStr x9)])); ((s2b "n"), (VStr x1)); ((s2b "t"), (VStr (s2b "icp"))); ((s2b "i"), (VStr x5))] [])) in
  _ <~ need (errs (prefixer_new ((Some x10)) (None) ((Some x4)) (None) (None) (None) (None))) ;;
  Ok tt.
(** core/prefixer.rs, new_nontransferable_unhappy_paths *)
Definition t_prefixer_new_nontransferable_unhappy_paths_1 : outcome unit :=
  let x1 := (s2b "") in
  let x2 := (Some (s2b "ABC")) in
  let x3 : option (bytes) := None in
  let x4 := (s2b "B") in
  let x5 := (s2b "BKxy2sgzfplyr-tgwIxS19f2OchFHtLwPWD3v4oYimBx") in
  let x6 := [172; 114; 218; 200; 51; 126; 153; 114; 175; 235; 96; 192; 140; 82; 215; 215; 246; 57; 200; 69; 30; 210; 240; 61; 96; 247; 191; 138; 24; 138; 96; 113] in
  x7 <~ unw (verfer_new ((Some x4)) ((Some x6)) (None) (None) (None)) ;;
  let x8 := x7 in
  x9 <~ unw (matter_qb64 x8) ;;
  let x10 := (VObj (fold_left (fun o e => map_insert (fst e) (snd e) o) [((s2b "k"), (VArr [(VStr x9)])); ((s2b "n"), (VStr x1)); ((s2b "t"), (VStr (s2b "icp"))); ((s2b "i"), (VStr x5))] [])) in
  let x11 := (s2b "ABC") in
  x12 <~ unw (vset x10 (s2b "a") (VStr x11)) ;;
  _ <~ need (errs (prefixer_new ((Some x12)) (None) ((Some x4)) (None) (None) (None) (None))) ;;
  Ok tt.
(** core/prefixer.rs, new_nontransferable_unhappy_paths *)
Definition t_prefixer_new_nontransferable_unhappy_paths_2 : outcome unit :=
  let x1 := (s2b "") in
  let x2 : option (bytes) := None in
  let x3 := (Some (s2b "ABC")) in
  let x4 := (s2b "B") in
  let x5 := (s2b "BKxy2sgzfplyr-tgwIxS19f2OchFHtLwPWD3v4oYimBx") in
  let x6 := [172; 114; 218; 200; 51; 126; 153; 114; 175; 235; 96; 192; 140; 82; 215; 215; 246; 57; 200; 69; 30; 210; 240; 61; 96; 247; 191; 138; 24; 138; 96; 113] in
  x7 <~ unw (verfer_new ((Some x4)) ((Some x6)) (None) (None) (None)) ;;
  let x8 := x7 in
  x9 <~ unw (matter_qb64 x8) ;;
  let x10 := (VObj (fold_left (fun o e => map_insert (fst e) (snd e) o) [((s2b "k"), (VArr [(VStr x9)])); ((s2b "n"), (VStr x1)); ((s2b "t"), (VStr (s2b "icp"))); ((s2b "i"), (VStr x5))] [])) in
  let x11 := (s2b "ABC") in
  x12 <~ unw (vset x10 (s2b "b") (VStr x11)) ;;
  _ <~ need (errs (prefixer_new ((Some x12)) (None) ((Some x4)) (None) (None) (None) (None))) ;;
  Ok tt.
(** core/prefixer.rs, verify_unhappy_paths *)
Definition t_prefixer_verify_unhappy_paths_0 : outcome unit :=
  let x1 := (s2b "B") in
  let x2 := (s2b "DKxy2sgzfplyr-tgwIxS19f2OchFHtLwPWD3v4oYimBx") in
  let x3 := (s2b "BKxy2sgzfplyr-tgwIxS19f2OchFHtLwPWD3v4oYimBx") in
  let x4 := [172; 114; 218; 200; 51; 126; 153; 114; 175; 235; 96; 192; 140; 82; 215; 215; 246; 57; 200; 69; 30; 210; 240; 61; 96; 247; 191; 138; 24; 138; 96; 113] in
  let x5 := [166; 95; 137; 52; 74; 242; 53; 84; 193; 131; 35; 6; 152; 76; 166; 239; 26; 179; 104; 234; 65; 58; 120; 39; 218; 4; 136; 178; 196; 95; 246; 0] in
  x6 <~ unw (verfer_new ((Some x1)) ((Some x4)) (None) (None) (None)) ;;
  let x7 := x6 in
  x8 <~ unw (matter_qb64 x7) ;;
  let x9 := (VObj (fold_left (fun o e => map_insert (fst e) (snd e) o) [((s2b "k"), (VArr [(VStr x8)])); ((s2b "n"), (VStr (s2b ""))); ((s2b "t"), (VStr (s2b "icp"))); ((s2b "i"), (VStr x3))] [])) in
  x10 <~ unw (prefixer_new ((Some x9)) (None) ((Some x1)) (None) (None) (None) (None)) ;;
  let x11 := x10 in
  x12 <~ unw (to_map x9) ;;
  let x13 := x12 in
  let x14 := (map_remove (s2b "k") x13) in
  let x15 := (VObj x14) in
  x16 <~ unw (prefixer_verify x11 (x15) (None)) ;;
  _ <~ need (negb x16) ;;
  x17 <~ unw (verfer_new ((Some x1)) ((Some x4)) (None) (None) (None)) ;;
  let x18 := x17 in
  x19 <~ unw (matter_qb64 x18) ;;
  let x20 := (VObj (fold_left (fun o e => map_insert (fst e) (snd e) o) [((s2b "k"), (VArr [(VStr x19)])); ((s2b "n"), (VStr (s2b ""))); ((s2b "t"), (VStr (s2b "icp"))); ((s2b "i"), (VStr x3))] [])) in
  x21 <~ unw (prefixer_new ((Some x20)) (None) ((Some x1)) (None) (None) (None) (None)) ;;
  let x22 := x21 in
  x23 <~ unw (matter_qb64 x18) ;;
  x24 <~ unw (matter_qb64 x18) ;;
  x26 <~ unw (matter_qb64 x18) ;;
  x27 <~ unw (matter_qb64 x18) ;;
  x25 <~ unw (vset x20 (s2b "k") (VArr [(VStr x26); (VStr x27)])) ;;
  x28 <~ unw (prefixer_verify x22 (x25) (None)) ;;
  _ <~ need (negb x28) ;;
  x29 <~ unw (verfer_new ((Some x1)) ((Some x4)) (None) (None) (None)) ;;
  let x30 := x29 in
  x31 <~ unw (matter_qb64 x30) ;;
  let x32 := (VObj (fold_left (fun o e => map_insert (fst e) (snd e) o) [((s2b "k"), (VArr [(VStr x31)])); ((s2b "n"), (VStr (s2b ""))); ((s2b "t"), (VStr (s2b "icp"))); ((s2b "i"), (VStr x2))] [])) in
  x33 <~ unw (prefixer_new ((Some x32)) (None) ((Some x1)) (None) (None) (None) (None)) ;;
  let x34 := x33 in
  x35 <~ unw (vset x32 (s2b "k") (VArr [(VStr (s2b "ABC"))])) ;;
  x36 <~ unw (prefixer_verify x34 (x35) (None)) ;;
  _ <~ need (negb x36) ;;
  x37 <~ unw (verfer_new ((Some x1)) ((Some x4)) (None) (None) (None)) ;;
  let x38 := x37 in
  x39 <~ unw (matter_qb64 x38) ;;
  let x40 := (VObj (fold_left (fun o e => map_insert (fst e) (snd e) o) [((s2b "k"), (VArr [(VStr x39)])); ((s2b "n"), (VStr (s2b ""))); ((s2b "t"), (VStr (s2b "icp"))); ((s2b "i"), (VStr x3))] [])) in
  x41 <~ unw (prefixer_new ((Some x40)) (None) ((Some x1)) (None) (None) (None) (None)) ;;
  let x42 := x41 in
  x43 <~ unw (verfer_new ((Some x1)) ((Some x5)) (None) (None) (None)) ;;
  let x44 := x43 in
  x45 <~ unw (matter_qb64 x44) ;;
  x47 <~ unw (matter_qb64 x44) ;;
  x46 <~ unw (vset x40 (s2b "k") (VArr [(VStr x47)])) ;;
  x48 <~ unw (prefixer_verify x42 (x46) (None)) ;;
  _ <~ need (negb x48) ;;
  x49 <~ unw (verfer_new ((Some x1)) ((Some x4)) (None) (None) (None)) ;;
  let x50 := x49 in
  x51 <~ unw (matter_qb64 x50) ;;
  let x52 := (VObj (fold_left (fun o e => map_insert (fst e) (snd e) o) [((s2b "k"), (VArr [(VStr x51)])); ((s2b "n"), (VStr (s2b ""))); ((s2b "t"), (VStr (s2b "icp"))); ((s2b "i"), (VStr x3))] [])) in
  x53 <~ unw (prefixer_new ((Some x52)) (None) ((Some x1)) (None) (None) (None) (None)) ;;
  let x54 := x53 in
  x55 <~ unw (vset x52 (s2b "t") (VStr (s2b "ksn"))) ;;
  _ <~ need (errs (prefixer_verify x54 (x55) (None))) ;;
  Ok tt.
(** core/prefixer.rs, verify_unhappy_paths *)
Definition t_prefixer_verify_unhappy_paths_1 : outcome unit :=
  let x1 := (s2b "D") in
  let x2 := (s2b "DKxy2sgzfplyr-tgwIxS19f2OchFHtLwPWD3v4oYimBx") in
  let x3 := (s2b "BKxy2sgzfplyr-tgwIxS19f2OchFHtLwPWD3v4oYimBx") in
  let x4 := [172; 114; 218; 200; 51; 126; 153; 114; 175; 235; 96; 192; 140; 82; 215; 215; 246; 57; 200; 69; 30; 210; 240; 61; 96; 247; 191; 138; 24; 138; 96; 113] in
  let x5 := [166; 95; 137; 52; 74; 242; 53; 84; 193; 131; 35; 6; 152; 76; 166; 239; 26; 179; 104; 234; 65; 58; 120; 39; 218; 4; 136; 178; 196; 95; 246; 0] in
  x6 <~ unw (verfer_new ((Some x1)) ((Some x4)) (None) (None) (None)) ;;
  let x7 := x6 in
  x8 <~ unw (matter_qb64 x7) ;;
  let x9 := (VObj (fold_left (fun o e => map_insert (fst e) (snd e) o) [((s2b "k"), (VArr [(VStr x8)])); ((s2b "n"), (VStr (s2b ""))); ((s2b "t"), (VStr (s2b "icp"))); ((s2b "i"), (VStr x3))] [])) in
  x10 <~ unw (prefixer_new ((Some x9)) (None) ((Some x1)) (None) (None) (None) (None)) ;;
  let x11 := x10 in
  x12 <~ unw (to_map x9) ;;
  let x13 := x12 in
  let x14 := (map_remove (s2b "k") x13) in
  let x15 := (VObj x14) in
  x16 <~ unw (prefixer_verify x11 (x15) (None)) ;;
  _ <~ need (negb x16) ;;
  x17 <~ unw (verfer_new ((Some x1)) ((Some x4)) (None) (None) (None)) ;;
  let x18 := x17 in
  x19 <~ unw (matter_qb64 x18) ;;
  let x20 := (VObj (fold_left (fun o e => map_insert (fst e) (snd e) o) [((s2b "k"), (VArr [(VStr x19)])); ((s2b "n"), (VStr (s2b ""))); ((s2b "t"), (VStr (s2b "icp"))); ((s2b "i"), (VStr x3))] [])) in
  x21 <~ unw (prefixer_new ((Some x20)) (None) ((Some x1)) (None) (None) (None) (None)) ;;
  let x22 := x21 in
  x23 <~ unw (matter_qb64 x18) ;;
  x24 <~ unw (matter_qb64 x18) ;;
  x26 <~ unw (matter_qb64 x18) ;;
  x27 <~ unw (matter_qb64 x18) ;;
  x25 <~ unw (vset x20 (s2b "k") (VArr [(VStr x26); (VStr x27)])) ;;
  x28 <~ unw (prefixer_verify x22 (x25) (None)) ;;
  _ <~ need (negb x28) ;;
  x29 <~ unw (verfer_new ((Some x1)) ((Some x4)) (None) (None) (None)) ;;
  let x30 := x29 in
  x31 <~ unw (matter_qb64 x30) ;;
  let x32 := (VObj (fold_left (fun o e => map_insert (fst e) (snd e) o) [((s2b "k"), (VArr [(VStr x31)])); ((s2b "n"), (VStr (s2b ""))); ((s2b "t"), (VStr (s2b "icp"))); ((s2b "i"), (VStr x2))] [])) in
  x33 <~ unw (prefixer_new ((Some x32)) (None) ((Some x1)) (None) (None) (None) (None)) ;;
  let x34 := x33 in
  x35 <~ unw (vset x32 (s2b "k") (VArr [(VStr (s2b "ABC"))])) ;;
  x36 <~ unw (prefixer_verify x34 (x35) (None)) ;;
  _ <~ need (negb x36) ;;
  x37 <~ unw (verfer_new ((Some x1)) ((Some x4)) (None) (None) (None)) ;;
  let x38 := x37 in
  x39 <~ unw (matter_qb64 x38) ;;
  let x40 := (VObj (fold_left (fun o e => map_insert (fst e) (snd e) o) [((s2b "k"), (VArr [(VStr x39)])); ((s2b "n"), (VStr (s2b ""))); ((s2b "t"), (VStr (s2b "icp"))); ((s2b "i"), (VStr x3))] [])) in
  x41 <~ unw (prefixer_new ((Some x40)) (None) ((Some x1)) (None) (None) (None) (None)) ;;
  let x42 := x41 in
  x43 <~ unw (verfer_new ((Some x1)) ((Some x5)) (None) (None) (None)) ;;
  let x44 := x43 in
  x45 <~ unw (matter_qb64 x44) ;;
  x47 <~ unw (matter_qb64 x44) ;;
  x46 <~ unw (vset x40 (s2b "k") (VArr [(VStr x47)])) ;;
  x48 <~ unw (prefixer_verify x42 (x46) (None)) ;;
  _ <~ need (negb x48) ;;
  x49 <~ unw (verfer_new ((Some x1)) ((Some x4)) (None) (None) (None)) ;;
  let x50 := x49 in
  x51 <~ unw (matter_qb64 x50) ;;
  let x52 := (VObj (fold_left (fun o e => map_insert (fst e) (snd e) o) [((s2b "k"), (VArr [(VStr x51)])); ((s2b "n"), (VStr (s2b ""))); ((s2b "t"), (VStr (s2b "icp"))); ((s2b "i"), (VStr x3))] [])) in
  x53 <~ unw (prefixer_new ((Some x52)) (None) ((Some x1)) (None) (None) (None) (None)) ;;
  let x54 := x53 in
  x55 <~ unw (vset x52 (s2b "t") (VStr (s2b "ksn"))) ;;
  _ <~ need (errs (prefixer_verify x54 (x55) (None))) ;;
  Ok tt.
(** core/prefixer.rs, verify_unhappy_non_transferable *)
Definition t_prefixer_verify_unhappy_non_transferable_0 : outcome unit :=
  let x1 := (s2b "BKxy2sgzfplyr-tgwIxS19f2OchFHtLwPWD3v4oYimBx") in
  let x2 := [172; 114; 218; 200; 51; 126; 153; 114; 175; 235; 96; 192; 140; 82; 215; 215; 246; 57; 200; 69; 30; 210; 240; 61; 96; 247; 191; 138; 24; 138; 96; 113] in
  x3 <~ unw (verfer_new ((Some (s2b "B"))) ((Some x2)) (None) (None) (None)) ;;
  let x4 := x3 in
  x5 <~ unw (matter_qb64 x4) ;;
  let x6 := (VObj (fold_left (fun o e => map_insert (fst e) (snd e) o) [((s2b "k"), (VArr [(VStr x5)])); ((s2b "n"), (VStr (s2b ""))); ((s2b "t"), (VStr (s2b "icp"))); ((s2b "i"), (VStr x1))] [])) in
  x7 <~ unw (prefixer_new ((Some x6)) (None) ((Some (s2b "B"))) (None) (None) (None) (None)) ;;
  let x8 := x7 in
  x9 <~ unw (matter_qb64 x4) ;;
  x11 <~ unw (matter_qb64 x4) ;;
  x10 <~ unw (vset x6 (s2b "n") (VArr [(VStr x11)])) ;;
  x12 <~ unw (prefixer_verify x8 (x10) (None)) ;;
  _ <~ need (negb x12) ;;
  Ok tt.
(** core/prefixer.rs, code *)
Definition t_prefixer_code_0 : outcome unit :=
  let x1 := (s2b "B") in
  let x2 := [172; 114; 218; 200; 51; 126; 153; 114; 175; 235; 96; 192; 140; 82; 215; 215; 246; 57; 200; 69; 30; 210; 240; 61; 96; 247; 191; 138; 24; 138; 96; 113] in
  x3 <~ unw (prefixer_new (None) (None) ((Some x1)) ((Some x2)) (None) (None) (None)) ;;
  let x4 := x3 in
  _ <~ need (same (m_code x4) x1) ;;
  Ok tt.
(** core/prefixer.rs, code *)
Definition t_prefixer_code_1 : outcome unit :=
  let x1 := (s2b "D") in
  let x2 := [172; 114; 218; 200; 51; 126; 153; 114; 175; 235; 96; 192; 140; 82; 215; 215; 246; 57; 200; 69; 30; 210; 240; 61; 96; 247; 191; 138; 24; 138; 96; 113] in
  x3 <~ unw (prefixer_new (None) (None) ((Some x1)) ((Some x2)) (None) (None) (None)) ;;
  let x4 := x3 in
  _ <~ need (same (m_code x4) x1) ;;
  Ok tt.
(** core/prefixer.rs, code *)
Definition t_prefixer_code_2 : outcome unit :=
  let x1 := (s2b "1AAA") in
  let x2 := [3; 255; 118; 143; 178; 184; 55; 19; 70; 2; 228; 133; 245; 29; 78; 111; 47; 213; 104; 237; 230; 187; 124; 195; 195; 112; 78; 253; 28; 253; 160; 124; 146] in
  x3 <~ unw (prefixer_new (None) (None) ((Some x1)) ((Some x2)) (None) (None) (None)) ;;
  let x4 := x3 in
  _ <~ need (same (m_code x4) x1) ;;
  Ok tt.
(** core/prefixer.rs, code *)
Definition t_prefixer_code_3 : outcome unit :=
  let x1 := (s2b "1AAB") in
  let x2 := [3; 255; 118; 143; 178; 184; 55; 19; 70; 2; 228; 133; 245; 29; 78; 111; 47; 213; 104; 237; 230; 187; 124; 195; 195; 112; 78; 253; 28; 253; 160; 124; 146] in
  x3 <~ unw (prefixer_new (None) (None) ((Some x1)) ((Some x2)) (None) (None) (None)) ;;
  let x4 := x3 in
  _ <~ need (same (m_code x4) x1) ;;
  Ok tt.
(** core/prefixer.rs, verification_basic *)
Definition t_prefixer_verification_basic_0 : outcome unit :=
  let x1 := (s2b "B") in
  let x2 := [172; 114; 218; 200; 51; 126; 153; 114; 175; 235; 96; 192; 140; 82; 215; 215; 246; 57; 200; 69; 30; 210; 240; 61; 96; 247; 191; 138; 24; 138; 96; 113] in
  let x3 := (s2b "") in
  let x4 := true in
  let x5 := false in
  x6 <~ unw (prefixer_new (None) (None) ((Some x1)) ((Some x2)) (None) (None) (None)) ;;
  let x7 := x6 in
  x8 <~ unw (matter_qb64 x7) ;;
  let x9 := (VObj (fold_left (fun o e => map_insert (fst e) (snd e) o) [((s2b "k"), (VArr [(VStr x8)])); ((s2b "n"), (VStr x3)); ((s2b "t"), (VStr (s2b "icp")))] [])) in
  x10 <~ unw (prefixer_verify x7 (x9) (None)) ;;
  _ <~ need (same x10 x4) ;;
  x11 <~ unw (prefixer_verify x7 (x9) ((Some true))) ;;
  _ <~ need (same x11 x5) ;;
  Ok tt.
(** core/prefixer.rs, verification_basic *)
Definition t_prefixer_verification_basic_1 : outcome unit :=
  let x1 := (s2b "B") in
  let x2 := [172; 114; 218; 200; 51; 126; 153; 114; 175; 235; 96; 192; 140; 82; 215; 215; 246; 57; 200; 69; 30; 210; 240; 61; 96; 247; 191; 138; 24; 138; 96; 113] in
  let x3 := (s2b "ABC") in
  let x4 := false in
  let x5 := false in
  x6 <~ unw (prefixer_new (None) (None) ((Some x1)) ((Some x2)) (None) (None) (None)) ;;
  let x7 := x6 in
  x8 <~ unw (matter_qb64 x7) ;;
  let x9 := (VObj (fold_left (fun o e => map_insert (fst e) (snd e) o) [((s2b "k"), (VArr [(VStr x8)])); ((s2b "n"), (VStr x3)); ((s2b "t"), (VStr (s2b "icp")))] [])) in
  x10 <~ unw (prefixer_verify x7 (x9) (None)) ;;
  _ <~ need (same x10 x4) ;;
  x11 <~ unw (prefixer_verify x7 (x9) ((Some true))) ;;
  _ <~ need (same x11 x5) ;;
  Ok tt.
(** core/prefixer.rs, verification_basic *)
Definition t_prefixer_verification_basic_2 : outcome unit :=
  let x1 := (s2b "D") in
  let x2 := [172; 114; 218; 200; 51; 126; 153; 114; 175; 235; 96; 192; 140; 82; 215; 215; 246; 57; 200; 69; 30; 210; 240; 61; 96; 247; 191; 138; 24; 138; 96; 113] in
  let x3 := (s2b "") in
  let x4 := true in
  let x5 := false in
  x6 <~ unw (prefixer_new (None) (None) ((Some x1)) ((Some x2)) (None) (None) (None)) ;;
  let x7 := x6 in
  x8 <~ unw (matter_qb64 x7) ;;
  let x9 := (VObj (fold_left (fun o e => map_insert (fst e) (snd e) o) [((s2b "k"), (VArr [(VStr x8)])); ((s2b "n"), (VStr x3)); ((s2b "t"), (VStr (s2b "icp")))] [])) in
  x10 <~ unw (prefixer_verify x7 (x9) (None)) ;;
  _ <~ need (same x10 x4) ;;
  x11 <~ unw (prefixer_verify x7 (x9) ((Some true))) ;;
  _ <~ need (same x11 x5) ;;
  Ok tt.
(** core/prefixer.rs, verification_basic *)
Definition t_prefixer_verification_basic_3 : outcome unit :=
  let x1 := (s2b "D") in
  let x2 := [172; 114; 218; 200; 51; 126; 153; 114; 175; 235; 96; 192; 140; 82; 215; 215; 246; 57; 200; 69; 30; 210; 240; 61; 96; 247; 191; 138; 24; 138; 96; 113] in
  let x3 := (s2b "ABC") in
  let x4 := true in
  let x5 := false in
  x6 <~ unw (prefixer_new (None) (None) ((Some x1)) ((Some x2)) (None) (None) (None)) ;;
  let x7 := x6 in
  x8 <~ unw (matter_qb64 x7) ;;
  let x9 := (VObj (fold_left (fun o e => map_insert (fst e) (snd e) o) [((s2b "k"), (VArr [(VStr x8)])); ((s2b "n"), (VStr x3)); ((s2b "t"), (VStr (s2b "icp")))] [])) in
  x10 <~ unw (prefixer_verify x7 (x9) (None)) ;;
  _ <~ need (same x10 x4) ;;
  x11 <~ unw (prefixer_verify x7 (x9) ((Some true))) ;;
  _ <~ need (same x11 x5) ;;
  Ok tt.
(** core/prefixer.rs, verification_basic *)
Definition t_prefixer_verification_basic_4 : outcome unit :=
  let x1 := (s2b "1AAA") in
  let x2 := [3; 255; 118; 143; 178; 184; 55; 19; 70; 2; 228; 133; 245; 29; 78; 111; 47; 213; 104; 237; 230; 187; 124; 195; 195; 112; 78; 253; 28; 253; 160; 124; 146] in
  let x3 := (s2b "") in
  let x4 := true in
  let x5 := false in
  x6 <~ unw (prefixer_new (None) (None) ((Some x1)) ((Some x2)) (None) (None) (None)) ;;
  let x7 := x6 in
  x8 <~ unw (matter_qb64 x7) ;;
  let x9 := (VObj (fold_left (fun o e => map_insert (fst e) (snd e) o) [((s2b "k"), (VArr [(VStr x8)])); ((s2b "n"), (VStr x3)); ((s2b "t"), (VStr (s2b "icp")))] [])) in
  x10 <~ unw (prefixer_verify x7 (x9) (None)) ;;
  _ <~ need (same x10 x4) ;;
  x11 <~ unw (prefixer_verify x7 (x9) ((Some true))) ;;
  _ <~ need (same x11 x5) ;;
  Ok tt.
(** core/prefixer.rs, verification_basic *)
Definition t_prefixer_verification_basic_5 : outcome unit :=
  let x1 := (s2b "1AAA") in
  let x2 := [3; 255; 118; 143; 178; 184; 55; 19; 70; 2; 228; 133; 245; 29; 78; 111; 47; 213; 104; 237; 230; 187; 124; 195; 195; 112; 78; 253; 28; 253; 160; 124; 146] in
  let x3 := (s2b "ABC") in
  let x4 := false in
  let x5 := false in
  x6 <~ unw (prefixer_new (None) (None) ((Some x1)) ((Some x2)) (None) (None) (None)) ;;
  let x7 := x6 in
  x8 <~ unw (matter_qb64 x7) ;;
  let x9 := (VObj (fold_left (fun o e => map_insert (fst e) (snd e) o) [((s2b "k"), (VArr [(VStr x8)])); ((s2b "n"), (VStr x3)); ((s2b "t"), (VStr (s2b "icp")))] [])) in
  x10 <~ unw (prefixer_verify x7 (x9) (None)) ;;
  _ <~ need (same x10 x4) ;;
  x11 <~ unw (prefixer_verify x7 (x9) ((Some true))) ;;
  _ <~ need (same x11 x5) ;;
  Ok tt.
(** core/prefixer.rs, verification_basic *)
Definition t_prefixer_verification_basic_6 : outcome unit :=
  let x1 := (s2b "1AAB") in
  let x2 := [3; 255; 118; 143; 178; 184; 55; 19; 70; 2; 228; 133; 245; 29; 78; 111; 47; 213; 104; 237; 230; 187; 124; 195; 195; 112; 78; 253; 28; 253; 160; 124; 146] in
  let x3 := (s2b "") in
  let x4 := true in
  let x5 := false in
  x6 <~ unw (prefixer_new (None) (None) ((Some x1)) ((Some x2)) (None) (None) (None)) ;;
  let x7 := x6 in
  x8 <~ unw (matter_qb64 x7) ;;
  let x9 := (VObj (fold_left (fun o e => map_insert (fst e) (snd e) o) [((s2b "k"), (VArr [(VStr x8)])); ((s2b "n"), (VStr x3)); ((s2b "t"), (VStr (s2b "icp")))] [])) in
  x10 <~ unw (prefixer_verify x7 (x9) (None)) ;;
  _ <~ need (same x10 x4) ;;
  x11 <~ unw (prefixer_verify x7 (x9) ((Some true))) ;;
  _ <~ need (same x11 x5) ;;
  Ok tt.
(** core/prefixer.rs, verification_basic *)
Definition t_prefixer_verification_basic_7 : outcome unit :=
  let x1 := (s2b "1AAB") in
  let x2 := [3; 255; 118; 143; 178; 184; 55; 19; 70; 2; 228; 133; 245; 29; 78; 111; 47; 213; 104; 237; 230; 187; 124; 195; 195; 112; 78; 253; 28; 253; 160; 124; 146] in
  let x3 := (s2b "ABC") in
  let x4 := true in
  let x5 := false in
  x6 <~ unw (prefixer_new (None) (None) ((Some x1)) ((Some x2)) (None) (None) (None)) ;;
  let x7 := x6 in
  x8 <~ unw (matter_qb64 x7) ;;
  let x9 := (VObj (fold_left (fun o e => map_insert (fst e) (snd e) o) [((s2b "k"), (VArr [(VStr x8)])); ((s2b "n"), (VStr x3)); ((s2b "t"), (VStr (s2b "icp")))] [])) in
  x10 <~ unw (prefixer_verify x7 (x9) (None)) ;;
  _ <~ need (same x10 x4) ;;
  x11 <~ unw (prefixer_verify x7 (x9) ((Some true))) ;;
  _ <~ need (same x11 x5) ;;
  Ok tt.
(** core/prefixer.rs, verification *)
Definition t_prefixer_verification_0 : outcome unit :=
  let x1 := (s2b "B") in
  let x2 := [172; 114; 218; 200; 51; 126; 153; 114; 175; 235; 96; 192; 140; 82; 215; 215; 246; 57; 200; 69; 30; 210; 240; 61; 96; 247; 191; 138; 24; 138; 96; 113] in
  let x3 := true in
  let x4 := false in
  x5 <~ unw (prefixer_new (None) (None) ((Some x1)) ((Some x2)) (None) (None) (None)) ;;
  let x6 := x5 in
  x7 <~ unw (matter_qb64 x6) ;;
  let x8 := (VObj (fold_left (fun o e => map_insert (fst e) (snd e) o) [((s2b "k"), (VArr [(VStr x7)])); ((s2b "t"), (VStr (s2b "icp")))] [])) in
  x9 <~ unw (prefixer_verify x6 (x8) (None)) ;;
  _ <~ need (same x9 x3) ;;
  x10 <~ unw (prefixer_verify x6 (x8) ((Some true))) ;;
  _ <~ need (same x10 x4) ;;
  Ok tt.
(** core/prefixer.rs, verification *)
Definition t_prefixer_verification_1 : outcome unit :=
  let x1 := (s2b "D") in
  let x2 := [172; 114; 218; 200; 51; 126; 153; 114; 175; 235; 96; 192; 140; 82; 215; 215; 246; 57; 200; 69; 30; 210; 240; 61; 96; 247; 191; 138; 24; 138; 96; 113] in
  let x3 := true in
  let x4 := false in
  x5 <~ unw (prefixer_new (None) (None) ((Some x1)) ((Some x2)) (None) (None) (None)) ;;
  let x6 := x5 in
  x7 <~ unw (matter_qb64 x6) ;;
  let x8 := (VObj (fold_left (fun o e => map_insert (fst e) (snd e) o) [((s2b "k"), (VArr [(VStr x7)])); ((s2b "t"), (VStr (s2b "icp")))] [])) in
  x9 <~ unw (prefixer_verify x6 (x8) (None)) ;;
  _ <~ need (same x9 x3) ;;
  x10 <~ unw (prefixer_verify x6 (x8) ((Some true))) ;;
  _ <~ need (same x10 x4) ;;
  Ok tt.
(** core/prefixer.rs, verification *)
Definition t_prefixer_verification_2 : outcome unit :=
  let x1 := (s2b "1AAA") in
  let x2 := [3; 255; 118; 143; 178; 184; 55; 19; 70; 2; 228; 133; 245; 29; 78; 111; 47; 213; 104; 237; 230; 187; 124; 195; 195; 112; 78; 253; 28; 253; 160; 124; 146] in
  let x3 := true in
  let x4 := false in
  x5 <~ unw (prefixer_new (None) (None) ((Some x1)) ((Some x2)) (None) (None) (None)) ;;
  let x6 := x5 in
  x7 <~ unw (matter_qb64 x6) ;;
  let x8 := (VObj (fold_left (fun o e => map_insert (fst e) (snd e) o) [((s2b "k"), (VArr [(VStr x7)])); ((s2b "t"), (VStr (s2b "icp")))] [])) in
  x9 <~ unw (prefixer_verify x6 (x8) (None)) ;;
  _ <~ need (same x9 x3) ;;
  x10 <~ unw (prefixer_verify x6 (x8) ((Some true))) ;;
  _ <~ need (same x10 x4) ;;
  Ok tt.
(** core/prefixer.rs, verification *)
Definition t_prefixer_verification_3 : outcome unit :=
  let x1 := (s2b "1AAB") in
  let x2 := [3; 255; 118; 143; 178; 184; 55; 19; 70; 2; 228; 133; 245; 29; 78; 111; 47; 213; 104; 237; 230; 187; 124; 195; 195; 112; 78; 253; 28; 253; 160; 124; 146] in
  let x3 := true in
  let x4 := false in
  x5 <~ unw (prefixer_new (None) (None) ((Some x1)) ((Some x2)) (None) (None) (None)) ;;
  let x6 := x5 in
  x7 <~ unw (matter_qb64 x6) ;;
  let x8 := (VObj (fold_left (fun o e => map_insert (fst e) (snd e) o) [((s2b "k"), (VArr [(VStr x7)])); ((s2b "t"), (VStr (s2b "icp")))] [])) in
  x9 <~ unw (prefixer_verify x6 (x8) (None)) ;;
  _ <~ need (same x9 x3) ;;
  x10 <~ unw (prefixer_verify x6 (x8) ((Some true))) ;;
  _ <~ need (same x10 x4) ;;
  Ok tt.
(** core/prefixer.rs, verification_verfer_no_prefix *)
Definition t_prefixer_verification_verfer_no_prefix_0 : outcome unit :=
  let x1 := (s2b "D") in
  let x2 := [172; 114; 218; 200; 51; 126; 153; 114; 175; 235; 96; 192; 140; 82; 215; 215; 246; 57; 200; 69; 30; 210; 240; 61; 96; 247; 191; 138; 24; 138; 96; 113] in
  let x3 := (s2b "D") in
  let x4 := true in
  let x5 := false in
  x6 <~ unw (verfer_new ((Some x1)) ((Some x2)) (None) (None) (None)) ;;
  let x7 := x6 in
  x8 <~ unw (matter_qb64 x7) ;;
  let x9 := (VObj (fold_left (fun o e => map_insert (fst e) (snd e) o) [((s2b "k"), (VArr [(VStr x8)])); ((s2b "n"), (VStr (s2b ""))); ((s2b "t"), (VStr (s2b "icp")))] [])) in
  x10 <~ unw (prefixer_new ((Some x9)) (None) ((Some x3)) (None) (None) (None) (None)) ;;
  let x11 := x10 in
  x12 <~ unw (matter_qb64 x11) ;;
  x13 <~ unw (matter_qb64 x7) ;;
  _ <~ need (same x12 x13) ;;
  x14 <~ unw (prefixer_verify x11 (x9) (None)) ;;
  _ <~ need (same x14 x4) ;;
  x15 <~ unw (prefixer_verify x11 (x9) ((Some true))) ;;
  _ <~ need (same x15 x5) ;;
  Ok tt.
(** core/prefixer.rs, verification_verfer *)
Definition t_prefixer_verification_verfer_0 : outcome unit :=
  let x1 := (s2b "B") in
  let x2 := [172; 114; 218; 200; 51; 126; 153; 114; 175; 235; 96; 192; 140; 82; 215; 215; 246; 57; 200; 69; 30; 210; 240; 61; 96; 247; 191; 138; 24; 138; 96; 113] in
  let x3 := (s2b "B") in
  let x4 := (s2b "DKxy2sgzfplyr-tgwIxS19f2OchFHtLwPWD3v4oYimBx") in
  let x5 := true in
  let x6 := false in
  x7 <~ unw (verfer_new ((Some x1)) ((Some x2)) (None) (None) (None)) ;;
  let x8 := x7 in
  x9 <~ unw (matter_qb64 x8) ;;
  let x10 := (VObj (fold_left (fun o e => map_insert (fst e) (snd e) o) [((s2b "k"), (VArr [(VStr x9)])); ((s2b "n"), (VStr (s2b ""))); ((s2b "t"), (VStr (s2b "icp"))); ((s2b "i"), (VStr x4))] [])) in
  x11 <~ unw (prefixer_new ((Some x10)) (None) ((Some x3)) (None) (None) (None) (None)) ;;
  let x12 := x11 in
  x13 <~ unw (matter_qb64 x12) ;;
  x14 <~ unw (matter_qb64 x8) ;;
  _ <~ need (same x13 x14) ;;
  x15 <~ unw (prefixer_verify x12 (x10) (None)) ;;
  _ <~ need (same x15 x5) ;;
  x16 <~ unw (prefixer_verify x12 (x10) ((Some true))) ;;
  _ <~ need (same x16 x6) ;;
  Ok tt.
(** core/prefixer.rs, verification_verfer *)
Definition t_prefixer_verification_verfer_1 : outcome unit :=
  let x1 := (s2b "B") in
  let x2 := [172; 114; 218; 200; 51; 126; 153; 114; 175; 235; 96; 192; 140; 82; 215; 215; 246; 57; 200; 69; 30; 210; 240; 61; 96; 247; 191; 138; 24; 138; 96; 113] in
  let x3 := (s2b "B") in
  let x4 := (s2b "BKxy2sgzfplyr-tgwIxS19f2OchFHtLwPWD3v4oYimBx") in
  let x5 := true in
  let x6 := true in
  x7 <~ unw (verfer_new ((Some x1)) ((Some x2)) (None) (None) (None)) ;;
  let x8 := x7 in
  x9 <~ unw (matter_qb64 x8) ;;
  let x10 := (VObj (fold_left (fun o e => map_insert (fst e) (snd e) o) [((s2b "k"), (VArr [(VStr x9)])); ((s2b "n"), (VStr (s2b ""))); ((s2b "t"), (VStr (s2b "icp"))); ((s2b "i"), (VStr x4))] [])) in
  x11 <~ unw (prefixer_new ((Some x10)) (None) ((Some x3)) (None) (None) (None) (None)) ;;
  let x12 := x11 in
  x13 <~ unw (matter_qb64 x12) ;;
  x14 <~ unw (matter_qb64 x8) ;;
  _ <~ need (same x13 x14) ;;
  x15 <~ unw (prefixer_verify x12 (x10) (None)) ;;
  _ <~ need (same x15 x5) ;;
  x16 <~ unw (prefixer_verify x12 (x10) ((Some true))) ;;
  _ <~ need (same x16 x6) ;;
  Ok tt.
(** core/prefixer.rs, digests *)
Definition t_prefixer_digests_0 : outcome unit :=
  let x1 := (s2b "E") in
  x2 <~ unw (diger_new ((Some (s2b ""))) ((Some x1)) (None) (None) (None) (None)) ;;
  let x3 := x2 in
  x4 <~ unw (versify (None) ((Some current_version)) ((Some (s2b "JSON"))) ((Some 0))) ;;
  let x5 := x4 in
  x6 <~ unw (matter_qb64 x3) ;;
  let x7 := (VObj (fold_left (fun o e => map_insert (fst e) (snd e) o) [((s2b "v"), (VStr x5)); ((s2b "k"), (VArr [(VStr x6)])); ((s2b "n"), (VStr (s2b ""))); ((s2b "t"), (VStr (s2b "icp")))] [])) in
  x8 <~ unw (sizeify (x7) (None)) ;;
  let x9 := x8 in
  x10 <~ unw (prefixer_new ((Some (sz_ked x9))) (None) ((Some x1)) (None) (None) (None) (None)) ;;
  let x11 := x10 in
  x12 <~ unw (prefixer_verify x11 ((sz_ked x9)) (None)) ;;
  _ <~ need x12 ;;
  x13 <~ unw (prefixer_verify x11 ((sz_ked x9)) ((Some true))) ;;
  _ <~ need (negb x13) ;;
  Ok tt.
(** core/prefixer.rs, digests *)
Definition t_prefixer_digests_1 : outcome unit :=
  let x1 := (s2b "0D") in
  x2 <~ unw (diger_new ((Some (s2b ""))) ((Some x1)) (None) (None) (None) (None)) ;;
  let x3 := x2 in
  x4 <~ unw (versify (None) ((Some current_version)) ((Some (s2b "JSON"))) ((Some 0))) ;;
  let x5 := x4 in
  x6 <~ unw (matter_qb64 x3) ;;
  let x7 := (VObj (fold_left (fun o e => map_insert (fst e) (snd e) o) [((s2b "v"), (VStr x5)); ((s2b "k"), (VArr [(VStr x6)])); ((s2b "n"), (VStr (s2b ""))); ((s2b "t"), (VStr (s2b "icp")))] [])) in
  x8 <~ unw (sizeify (x7) (None)) ;;
  let x9 := x8 in
  x10 <~ unw (prefixer_new ((Some (sz_ked x9))) (None) ((Some x1)) (None) (None) (None) (None)) ;;
  let x11 := x10 in
  x12 <~ unw (prefixer_verify x11 ((sz_ked x9)) (None)) ;;
  _ <~ need x12 ;;
  x13 <~ unw (prefixer_verify x11 ((sz_ked x9)) ((Some true))) ;;
  _ <~ need (negb x13) ;;
  Ok tt.
(** core/prefixer.rs, digests *)
Definition t_prefixer_digests_2 : outcome unit :=
  let x1 := (s2b "F") in
  x2 <~ unw (diger_new ((Some (s2b ""))) ((Some x1)) (None) (None) (None) (None)) ;;
  let x3 := x2 in
  x4 <~ unw (versify (None) ((Some current_version)) ((Some (s2b "JSON"))) ((Some 0))) ;;
  let x5 := x4 in
  x6 <~ unw (matter_qb64 x3) ;;
  let x7 := (VObj (fold_left (fun o e => map_insert (fst e) (snd e) o) [((s2b "v"), (VStr x5)); ((s2b "k"), (VArr [(VStr x6)])); ((s2b "n"), (VStr (s2b ""))); ((s2b "t"), (VStr (s2b "icp")))] [])) in
  x8 <~ unw (sizeify (x7) (None)) ;;
  let x9 := x8 in
  x10 <~ unw (prefixer_new ((Some (sz_ked x9))) (None) ((Some x1)) (None) (None) (None) (None)) ;;
  let x11 := x10 in
  x12 <~ unw (prefixer_verify x11 ((sz_ked x9)) (None)) ;;
  _ <~ need x12 ;;
  x13 <~ unw (prefixer_verify x11 ((sz_ked x9)) ((Some true))) ;;
  _ <~ need (negb x13) ;;
  Ok tt.
(** core/prefixer.rs, digests *)
Definition t_prefixer_digests_3 : outcome unit :=
  let x1 := (s2b "0E") in
  x2 <~ unw (diger_new ((Some (s2b ""))) ((Some x1)) (None) (None) (None) (None)) ;;
  let x3 := x2 in
  x4 <~ unw (versify (None) ((Some current_version)) ((Some (s2b "JSON"))) ((Some 0))) ;;
  let x5 := x4 in
  x6 <~ unw (matter_qb64 x3) ;;
  let x7 := (VObj (fold_left (fun o e => map_insert (fst e) (snd e) o) [((s2b "v"), (VStr x5)); ((s2b "k"), (VArr [(VStr x6)])); ((s2b "n"), (VStr (s2b ""))); ((s2b "t"), (VStr (s2b "icp")))] [])) in
  x8 <~ unw (sizeify (x7) (None)) ;;
  let x9 := x8 in
  x10 <~ unw (prefixer_new ((Some (sz_ked x9))) (None) ((Some x1)) (None) (None) (None) (None)) ;;
  let x11 := x10 in
  x12 <~ unw (prefixer_verify x11 ((sz_ked x9)) (None)) ;;
  _ <~ need x12 ;;
  x13 <~ unw (prefixer_verify x11 ((sz_ked x9)) ((Some true))) ;;
  _ <~ need (negb x13) ;;
  Ok tt.
(** core/prefixer.rs, digests *)
Definition t_prefixer_digests_4 : outcome unit :=
  let x1 := (s2b "G") in
  x2 <~ unw (diger_new ((Some (s2b ""))) ((Some x1)) (None) (None) (None) (None)) ;;
  let x3 := x2 in
  x4 <~ unw (versify (None) ((Some current_version)) ((Some (s2b "JSON"))) ((Some 0))) ;;
  let x5 := x4 in
  x6 <~ unw (matter_qb64 x3) ;;
  let x7 := (VObj (fold_left (fun o e => map_insert (fst e) (snd e) o) [((s2b "v"), (VStr x5)); ((s2b "k"), (VArr [(VStr x6)])); ((s2b "n"), (VStr (s2b ""))); ((s2b "t"), (VStr (s2b "icp")))] [])) in
  x8 <~ unw (sizeify (x7) (None)) ;;
  let x9 := x8 in
  x10 <~ unw (prefixer_new ((Some (sz_ked x9))) (None) ((Some x1)) (None) (None) (None) (None)) ;;
  let x11 := x10 in
  x12 <~ unw (prefixer_verify x11 ((sz_ked x9)) (None)) ;;
  _ <~ need x12 ;;
  x13 <~ unw (prefixer_verify x11 ((sz_ked x9)) ((Some true))) ;;
  _ <~ need (negb x13) ;;
  Ok tt.
(** core/prefixer.rs, digests *)
Definition t_prefixer_digests_5 : outcome unit :=
  let x1 := (s2b "H") in
  x2 <~ unw (diger_new ((Some (s2b ""))) ((Some x1)) (None) (None) (None) (None)) ;;
  let x3 := x2 in
  x4 <~ unw (versify (None) ((Some current_version)) ((Some (s2b "JSON"))) ((Some 0))) ;;
  let x5 := x4 in
  x6 <~ unw (matter_qb64 x3) ;;
  let x7 := (VObj (fold_left (fun o e => map_insert (fst e) (snd e) o) [((s2b "v"), (VStr x5)); ((s2b "k"), (VArr [(VStr x6)])); ((s2b "n"), (VStr (s2b ""))); ((s2b "t"), (VStr (s2b "icp")))] [])) in
  x8 <~ unw (sizeify (x7) (None)) ;;
  let x9 := x8 in
  x10 <~ unw (prefixer_new ((Some (sz_ked x9))) (None) ((Some x1)) (None) (None) (None) (None)) ;;
  let x11 := x10 in
  x12 <~ unw (prefixer_verify x11 ((sz_ked x9)) (None)) ;;
  _ <~ need x12 ;;
  x13 <~ unw (prefixer_verify x11 ((sz_ked x9)) ((Some true))) ;;
  _ <~ need (negb x13) ;;
  Ok tt.
(** core/prefixer.rs, digests *)
Definition t_prefixer_digests_6 : outcome unit :=
  let x1 := (s2b "0F") in
  x2 <~ unw (diger_new ((Some (s2b ""))) ((Some x1)) (None) (None) (None) (None)) ;;
  let x3 := x2 in
  x4 <~ unw (versify (None) ((Some current_version)) ((Some (s2b "JSON"))) ((Some 0))) ;;
  let x5 := x4 in
  x6 <~ unw (matter_qb64 x3) ;;
  let x7 := (VObj (fold_left (fun o e => map_insert (fst e) (snd e) o) [((s2b "v"), (VStr x5)); ((s2b "k"), (VArr [(VStr x6)])); ((s2b "n"), (VStr (s2b ""))); ((s2b "t"), (VStr (s2b "icp")))] [])) in
  x8 <~ unw (sizeify (x7) (None)) ;;
  let x9 := x8 in
  x10 <~ unw (prefixer_new ((Some (sz_ked x9))) (None) ((Some x1)) (None) (None) (None) (None)) ;;
  let x11 := x10 in
  x12 <~ unw (prefixer_verify x11 ((sz_ked x9)) (None)) ;;
  _ <~ need x12 ;;
  x13 <~ unw (prefixer_verify x11 ((sz_ked x9)) ((Some true))) ;;
  _ <~ need (negb x13) ;;
  Ok tt.
(** core/prefixer.rs, digests *)
Definition t_prefixer_digests_7 : outcome unit :=
  let x1 := (s2b "I") in
  x2 <~ unw (diger_new ((Some (s2b ""))) ((Some x1)) (None) (None) (None) (None)) ;;
  let x3 := x2 in
  x4 <~ unw (versify (None) ((Some current_version)) ((Some (s2b "JSON"))) ((Some 0))) ;;
  let x5 := x4 in
  x6 <~ unw (matter_qb64 x3) ;;
  let x7 := (VObj (fold_left (fun o e => map_insert (fst e) (snd e) o) [((s2b "v"), (VStr x5)); ((s2b "k"), (VArr [(VStr x6)])); ((s2b "n"), (VStr (s2b ""))); ((s2b "t"), (VStr (s2b "icp")))] [])) in
  x8 <~ unw (sizeify (x7) (None)) ;;
  let x9 := x8 in
  x10 <~ unw (prefixer_new ((Some (sz_ked x9))) (None) ((Some x1)) (None) (None) (None) (None)) ;;
  let x11 := x10 in
  x12 <~ unw (prefixer_verify x11 ((sz_ked x9)) (None)) ;;
  _ <~ need x12 ;;
  x13 <~ unw (prefixer_verify x11 ((sz_ked x9)) ((Some true))) ;;
  _ <~ need (negb x13) ;;
  Ok tt.
(** core/prefixer.rs, digests *)
Definition t_prefixer_digests_8 : outcome unit :=
  let x1 := (s2b "0G") in
  x2 <~ unw (diger_new ((Some (s2b ""))) ((Some x1)) (None) (None) (None) (None)) ;;
  let x3 := x2 in
  x4 <~ unw (versify (None) ((Some current_version)) ((Some (s2b "JSON"))) ((Some 0))) ;;
  let x5 := x4 in
  x6 <~ unw (matter_qb64 x3) ;;
  let x7 := (VObj (fold_left (fun o e => map_insert (fst e) (snd e) o) [((s2b "v"), (VStr x5)); ((s2b "k"), (VArr [(VStr x6)])); ((s2b "n"), (VStr (s2b ""))); ((s2b "t"), (VStr (s2b "icp")))] [])) in
  x8 <~ unw (sizeify (x7) (None)) ;;
  let x9 := x8 in
  x10 <~ unw (prefixer_new ((Some (sz_ked x9))) (None) ((Some x1)) (None) (None) (None) (None)) ;;
  let x11 := x10 in
  x12 <~ unw (prefixer_verify x11 ((sz_ked x9)) (None)) ;;
  _ <~ need x12 ;;
  x13 <~ unw (prefixer_verify x11 ((sz_ked x9)) ((Some true))) ;;
  _ <~ need (negb x13) ;;
  Ok tt.
(** core/prefixer.rs, digests_prefixed *)
Definition t_prefixer_digests_prefixed_0 : outcome unit :=
  let x1 := (s2b "E") in
  x2 <~ unw (diger_new ((Some (s2b ""))) ((Some x1)) (None) (None) (None) (None)) ;;
  let x3 := x2 in
  x4 <~ unw (versify (None) ((Some current_version)) ((Some (s2b "JSON"))) ((Some 0))) ;;
  let x5 := x4 in
  x6 <~ unw (matter_qb64 x3) ;;
  let x7 := (VObj (fold_left (fun o e => map_insert (fst e) (snd e) o) [((s2b "v"), (VStr x5)); ((s2b "k"), (VArr [(VStr x6)])); ((s2b "n"), (VStr (s2b ""))); ((s2b "t"), (VStr (s2b "icp"))); ((s2b "i"), (VStr (s2b ""))); ((s2b "d"), (VStr (s2b "")))] [])) in
  x8 <~ unw (sizeify (x7) (None)) ;;
  let x9 := x8 in
  let x10 := (sz_ked x9) in
  x11 <~ unw (prefixer_new ((Some x10)) (None) ((Some x1)) (None) (None) (None) (None)) ;;
  let x12 := x11 in
  x13 <~ unw (prefixer_verify x12 (x10) (None)) ;;
  _ <~ need x13 ;;
  x14 <~ unw (prefixer_verify x12 (x10) ((Some true))) ;;
  _ <~ need (negb x14) ;;
  x15 <~ unw (matter_qb64 x12) ;;
  x17 <~ unw (matter_qb64 x12) ;;
  x16 <~ unw (vset x10 (s2b "i") (VStr x17)) ;;
  x18 <~ unw (matter_qb64 x12) ;;
  x20 <~ unw (matter_qb64 x12) ;;
  x19 <~ unw (vset x16 (s2b "d") (VStr x20)) ;;
  x21 <~ unw (prefixer_verify x12 (x19) (None)) ;;
  _ <~ need x21 ;;
  x22 <~ unw (prefixer_verify x12 (x19) ((Some true))) ;;
  _ <~ need x22 ;;
  Ok tt.
(** core/prefixer.rs, digests_prefixed *)
Definition t_prefixer_digests_prefixed_1 : outcome unit :=
  let x1 := (s2b "0D") in
  x2 <~ unw (diger_new ((Some (s2b ""))) ((Some x1)) (None) (None) (None) (None)) ;;
  let x3 := x2 in
  x4 <~ unw (versify (None) ((Some current_version)) ((Some (s2b "JSON"))) ((Some 0))) ;;
  let x5 := x4 in
  x6 <~ unw (matter_qb64 x3) ;;
  let x7 := (VObj (fold_left (fun o e => map_insert (fst e) (snd e) o) [((s2b "v"), (VStr x5)); ((s2b "k"), (VArr [(VStr x6)])); ((s2b "n"), (VStr (s2b ""))); ((s2b "t"), (VStr (s2b "icp"))); ((s2b "i"), (VStr (s2b ""))); ((s2b "d"), (VStr (s2b "")))] [])) in
  x8 <~ unw (sizeify (x7) (None)) ;;
  let x9 := x8 in
  let x10 := (sz_ked x9) in
  x11 <~ unw (prefixer_new ((Some x10)) (None) ((Some x1)) (None) (None) (None) (None)) ;;
  let x12 := x11 in
  x13 <~ unw (prefixer_verify x12 (x10) (None)) ;;
  _ <~ need x13 ;;
  x14 <~ unw (prefixer_verify x12 (x10) ((Some true))) ;;
  _ <~ need (negb x14) ;;
  x15 <~ unw (matter_qb64 x12) ;;
  x17 <~ unw (matter_qb64 x12) ;;
  x16 <~ unw (vset x10 (s2b "i") (VStr x17)) ;;
  x18 <~ unw (matter_qb64 x12) ;;
  x20 <~ unw (matter_qb64 x12) ;;
  x19 <~ unw (vset x16 (s2b "d") (VStr x20)) ;;
  x21 <~ unw (prefixer_verify x12 (x19) (None)) ;;
  _ <~ need x21 ;;
  x22 <~ unw (prefixer_verify x12 (x19) ((Some true))) ;;
  _ <~ need x22 ;;
  Ok tt.
(** core/prefixer.rs, digests_prefixed *)
Definition t_prefixer_digests_prefixed_2 : outcome unit :=
  let x1 := (s2b "F") in
  x2 <~ unw (diger_new ((Some (s2b ""))) ((Some x1)) (None) (None) (None) (None)) ;;
  let x3 := x2 in
  x4 <~ unw (versify (None) ((Some current_version)) ((Some (s2b "JSON"))) ((Some 0))) ;;
  let x5 := x4 in
  x6 <~ unw (matter_qb64 x3) ;;
  let x7 := (VObj (fold_left (fun o e => map_insert (fst e) (snd e) o) [((s2b "v"), (VStr x5)); ((s2b "k"), (VArr [(VStr x6)])); ((s2b "n"), (VStr (s2b ""))); ((s2b "t"), (VStr (s2b "icp"))); ((s2b "i"), (VStr (s2b ""))); ((s2b "d"), (VStr (s2b "")))] [])) in
  x8 <~ unw (sizeify (x7) (None)) ;;
  let x9 := x8 in
  let x10 := (sz_ked x9) in
  x11 <~ unw (prefixer_new ((Some x10)) (None) ((Some x1)) (None) (None) (None) (None)) ;;
  let x12 := x11 in
  x13 <~ unw (prefixer_verify x12 (x10) (None)) ;;
  _ <~ need x13 ;;
  x14 <~ unw (prefixer_verify x12 (x10) ((Some true))) ;;
  _ <~ need (negb x14) ;;
  x15 <~ unw (matter_qb64 x12) ;;
  x17 <~ unw (matter_qb64 x12) ;;
  x16 <~ unw (vset x10 (s2b "i") (VStr x17)) ;;
  x18 <~ unw (matter_qb64 x12) ;;
  x20 <~ unw (matter_qb64 x12) ;;
  x19 <~ unw (vset x16 (s2b "d") (VStr x20)) ;;
  x21 <~ unw (prefixer_verify x12 (x19) (None)) ;;
  _ <~ need x21 ;;
  x22 <~ unw (prefixer_verify x12 (x19) ((Some true))) ;;
  _ <~ need x22 ;;
  Ok tt.
(** core/prefixer.rs, digests_prefixed *)
Definition t_prefixer_digests_prefixed_3 : outcome unit :=
  let x1 := (s2b "0E") in
  x2 <~ unw (diger_new ((Some (s2b ""))) ((Some x1)) (None) (None) (None) (None)) ;;
  let x3 := x2 in
  x4 <~ unw (versify (None) ((Some current_version)) ((Some (s2b "JSON"))) ((Some 0))) ;;
  let x5 := x4 in
  x6 <~ unw (matter_qb64 x3) ;;
  let x7 := (VObj (fold_left (fun o e => map_insert (fst e) (snd e) o) [((s2b "v"), (VStr x5)); ((s2b "k"), (VArr [(VStr x6)])); ((s2b "n"), (VStr (s2b ""))); ((s2b "t"), (VStr (s2b "icp"))); ((s2b "i"), (VStr (s2b ""))); ((s2b "d"), (VStr (s2b "")))] [])) in
  x8 <~ unw (sizeify (x7) (None)) ;;
  let x9 := x8 in
  let x10 := (sz_ked x9) in
  x11 <~ unw (prefixer_new ((Some x10)) (None) ((Some x1)) (None) (None) (None) (None)) ;;
  let x12 := x11 in
  x13 <~ unw (prefixer_verify x12 (x10) (None)) ;;
  _ <~ need x13 ;;
  x14 <~ unw (prefixer_verify x12 (x10) ((Some true))) ;;
  _ <~ need (negb x14) ;;
  x15 <~ unw (matter_qb64 x12) ;;
  x17 <~ unw (matter_qb64 x12) ;;
  x16 <~ unw (vset x10 (s2b "i") (VStr x17)) ;;
  x18 <~ unw (matter_qb64 x12) ;;
  x20 <~ unw (matter_qb64 x12) ;;
  x19 <~ unw (vset x16 (s2b "d") (VStr x20)) ;;
  x21 <~ unw (prefixer_verify x12 (x19) (None)) ;;
  _ <~ need x21 ;;
  x22 <~ unw (prefixer_verify x12 (x19) ((Some true))) ;;
  _ <~ need x22 ;;
  Ok tt.
(** core/prefixer.rs, digests_prefixed *)
Definition t_prefixer_digests_prefixed_4 : outcome unit :=
  let x1 := (s2b "G") in
  x2 <~ unw (diger_new ((Some (s2b ""))) ((Some x1)) (None) (None) (None) (None)) ;;
  let x3 := x2 in
  x4 <~ unw (versify (None) ((Some current_version)) ((Some (s2b "JSON"))) ((Some 0))) ;;
  let x5 := x4 in
  x6 <~ unw (matter_qb64 x3) ;;
  let x7 := (VObj (fold_left (fun o e => map_insert (fst e) (snd e) o) [((s2b "v"), (VStr x5)); ((s2b "k"), (VArr [(VStr x6)])); ((s2b "n"), (VStr (s2b ""))); ((s2b "t"), (VStr (s2b "icp"))); ((s2b "i"), (VStr (s2b ""))); ((s2b "d"), (VStr (s2b "")))] [])) in
  x8 <~ unw (sizeify (x7) (None)) ;;
  let x9 := x8 in
  let x10 := (sz_ked x9) in
  x11 <~ unw (prefixer_new ((Some x10)) (None) ((Some x1)) (None) (None) (None) (None)) ;;
  let x12 := x11 in
  x13 <~ unw (prefixer_verify x12 (x10) (None)) ;;
  _ <~ need x13 ;;
  x14 <~ unw (prefixer_verify x12 (x10) ((Some true))) ;;
  _ <~ need (negb x14) ;;
  x15 <~ unw (matter_qb64 x12) ;;
  x17 <~ unw (matter_qb64 x12) ;;
  x16 <~ unw (vset x10 (s2b "i") (VStr x17)) ;;
  x18 <~ unw (matter_qb64 x12) ;;
  x20 <~ unw (matter_qb64 x12) ;;
  x19 <~ unw (vset x16 (s2b "d") (VStr x20)) ;;
  x21 <~ unw (prefixer_verify x12 (x19) (None)) ;;
  _ <~ need x21 ;;
  x22 <~ unw (prefixer_verify x12 (x19) ((Some true))) ;;
  _ <~ need x22 ;;
  Ok tt.
(** core/prefixer.rs, digests_prefixed *)
Definition t_prefixer_digests_prefixed_5 : outcome unit :=
  let x1 := (s2b "H") in
  x2 <~ unw (diger_new ((Some (s2b ""))) ((Some x1)) (None) (None) (None) (None)) ;;
  let x3 := x2 in
  x4 <~ unw (versify (None) ((Some current_version)) ((Some (s2b "JSON"))) ((Some 0))) ;;
  let x5 := x4 in
  x6 <~ unw (matter_qb64 x3) ;;
  let x7 := (VObj (fold_left (fun o e => map_insert (fst e) (snd e) o) [((s2b "v"), (VStr x5)); ((s2b "k"), (VArr [(VStr x6)])); ((s2b "n"), (VStr (s2b ""))); ((s2b "t"), (VStr (s2b "icp"))); ((s2b "i"), (VStr (s2b ""))); ((s2b "d"), (VStr (s2b "")))] [])) in
  x8 <~ unw (sizeify (x7) (None)) ;;
  let x9 := x8 in
  let x10 := (sz_ked x9) in
  x11 <~ unw (prefixer_new ((Some x10)) (None) ((Some x1)) (None) (None) (None) (None)) ;;
  let x12 := x11 in
  x13 <~ unw (prefixer_verify x12 (x10) (None)) ;;
  _ <~ need x13 ;;
  x14 <~ unw (prefixer_verify x12 (x10) ((Some true))) ;;
  _ <~ need (negb x14) ;;
  x15 <~ unw (matter_qb64 x12) ;;
  x17 <~ unw (matter_qb64 x12) ;;
  x16 <~ unw (vset x10 (s2b "i") (VStr x17)) ;;
  x18 <~ unw (matter_qb64 x12) ;;
  x20 <~ unw (matter_qb64 x12) ;;
  x19 <~ unw (vset x16 (s2b "d") (VStr x20)) ;;
  x21 <~ unw (prefixer_verify x12 (x19) (None)) ;;
  _ <~ need x21 ;;
  x22 <~ unw (prefixer_verify x12 (x19) ((Some true))) ;;
  _ <~ need x22 ;;
  Ok tt.
(** core/prefixer.rs, digests_prefixed *)
Definition t_prefixer_digests_prefixed_6 : outcome unit :=
  let x1 := (s2b "0F") in
  x2 <~ unw (diger_new ((Some (s2b ""))) ((Some x1)) (None) (None) (None) (None)) ;;
  let x3 := x2 in
  x4 <~ unw (versify (None) ((Some current_version)) ((Some (s2b "JSON"))) ((Some 0))) ;;
  let x5 := x4 in
  x6 <~ unw (matter_qb64 x3) ;;
  let x7 := (VObj (fold_left (fun o e => map_insert (fst e) (snd e) o) [((s2b "v"), (VStr x5)); ((s2b "k"), (VArr [(VStr x6)])); ((s2b "n"), (VStr (s2b ""))); ((s2b "t"), (VStr (s2b "icp"))); ((s2b "i"), (VStr (s2b ""))); ((s2b "d"), (VStr (s2b "")))] [])) in
  x8 <~ unw (sizeify (x7) (None)) ;;
  let x9 := x8 in
  let x10 := (sz_ked x9) in
  x11 <~ unw (prefixer_new ((Some x10)) (None) ((Some x1)) (None) (None) (None) (None)) ;;
  let x12 := x11 in
  x13 <~ unw (prefixer_verify x12 (x10) (None)) ;;
  _ <~ need x13 ;;
  x14 <~ unw (prefixer_verify x12 (x10) ((Some true))) ;;
  _ <~ need (negb x14) ;;
  x15 <~ unw (matter_qb64 x12) ;;
  x17 <~ unw (matter_qb64 x12) ;;
  x16 <~ unw (vset x10 (s2b "i") (VStr x17)) ;;
  x18 <~ unw (matter_qb64 x12) ;;
  x20 <~ unw (matter_qb64 x12) ;;
  x19 <~ unw (vset x16 (s2b "d") (VStr x20)) ;;
  x21 <~ unw (prefixer_verify x12 (x19) (None)) ;;
  _ <~ need x21 ;;
  x22 <~ unw (prefixer_verify x12 (x19) ((Some true))) ;;
  _ <~ need x22 ;;
  Ok tt.
(** core/prefixer.rs, digests_prefixed *)
Definition t_prefixer_digests_prefixed_7 : outcome unit :=
  let x1 := (s2b "I") in
  x2 <~ unw (diger_new ((Some (s2b ""))) ((Some x1)) (None) (None) (None) (None)) ;;
  let x3 := x2 in
  x4 <~ unw (versify (None) ((Some current_version)) ((Some (s2b "JSON"))) ((Some 0))) ;;
  let x5 := x4 in
  x6 <~ unw (matter_qb64 x3) ;;
  let x7 := (VObj (fold_left (fun o e => map_insert (fst e) (snd e) o) [((s2b "v"), (VStr x5)); ((s2b "k"), (VArr [(VStr x6)])); ((s2b "n"), (VStr (s2b ""))); ((s2b "t"), (VStr (s2b "icp"))); ((s2b "i"), (VStr (s2b ""))); ((s2b "d"), (VStr (s2b "")))] [])) in
  x8 <~ unw (sizeify (x7) (None)) ;;
  let x9 := x8 in
  let x10 := (sz_ked x9) in
  x11 <~ unw (prefixer_new ((Some x10)) (None) ((Some x1)) (None) (None) (None) (None)) ;;
  let x12 := x11 in
  x13 <~ unw (prefixer_verify x12 (x10) (None)) ;;
  _ <~ need x13 ;;
  x14 <~ unw (prefixer_verify x12 (x10) ((Some true))) ;;
  _ <~ need (negb x14) ;;
  x15 <~ unw (matter_qb64 x12) ;;
  x17 <~ unw (matter_qb64 x12) ;;
  x16 <~ unw (vset x10 (s2b "i") (VStr x17)) ;;
  x18 <~ unw (matter_qb64 x12) ;;
  x20 <~ unw (matter_qb64 x12) ;;
  x19 <~ unw (vset x16 (s2b "d") (VStr x20)) ;;
  x21 <~ unw (prefixer_verify x12 (x19) (None)) ;;
  _ <~ need x21 ;;
  x22 <~ unw (prefixer_verify x12 (x19) ((Some true))) ;;
  _ <~ need x22 ;;
  Ok tt.
(** core/prefixer.rs, digests_prefixed *)
Definition t_prefixer_digests_prefixed_8 : outcome unit :=
  let x1 := (s2b "0G") in
  x2 <~ unw (diger_new ((Some (s2b ""))) ((Some x1)) (None) (None) (None) (None)) ;;
  let x3 := x2 in
  x4 <~ unw (versify (None) ((Some current_version)) ((Some (s2b "JSON"))) ((Some 0))) ;;
  let x5 := x4 in
  x6 <~ unw (matter_qb64 x3) ;;
  let x7 := (VObj (fold_left (fun o e => map_insert (fst e) (snd e) o) [((s2b "v"), (VStr x5)); ((s2b "k"), (VArr [(VStr x6)])); ((s2b "n"), (VStr (s2b ""))); ((s2b "t"), (VStr (s2b "icp"))); ((s2b "i"), (VStr (s2b ""))); ((s2b "d"), (VStr (s2b "")))] [])) in
  x8 <~ unw (sizeify (x7) (None)) ;;
  let x9 := x8 in
  let x10 := (sz_ked x9) in
  x11 <~ unw (prefixer_new ((Some x10)) (None) ((Some x1)) (None) (None) (None) (None)) ;;
  let x12 := x11 in
  x13 <~ unw (prefixer_verify x12 (x10) (None)) ;;
  _ <~ need x13 ;;
  x14 <~ unw (prefixer_verify x12 (x10) ((Some true))) ;;
  _ <~ need (negb x14) ;;
  x15 <~ unw (matter_qb64 x12) ;;
  x17 <~ unw (matter_qb64 x12) ;;
  x16 <~ unw (vset x10 (s2b "i") (VStr x17)) ;;
  x18 <~ unw (matter_qb64 x12) ;;
  x20 <~ unw (matter_qb64 x12) ;;
  x19 <~ unw (vset x16 (s2b "d") (VStr x20)) ;;
  x21 <~ unw (prefixer_verify x12 (x19) (None)) ;;
  _ <~ need x21 ;;
  x22 <~ unw (prefixer_verify x12 (x19) ((Some true))) ;;
  _ <~ need x22 ;;
  Ok tt.
(** core/tholder.rs, convenience *)
Definition t_tholder_convenience_0 : outcome unit :=
  _ <~ need (ok (tholder_new (Some (VInt (Z.of_N 11))) None None)) ;;
  _ <~ need (ok (tholder_new None (Some (s2b "MAAL")) None)) ;;
  _ <~ need (ok (tholder_new None None (Some (VStr (s2b "b"))))) ;;
  Ok tt.
(** core/tholder.rs, creation *)
Definition t_tholder_creation_0 : outcome unit :=
  let x1 := (s2b "MAAL") in
  x2 <~ unw (tholder_new (None) (None) ((Some (VStr (s2b "b"))))) ;;
  let x3 := x2 in
  _ <~ need (negb (th_weighted x3)) ;;
  _ <~ need (same (th_size x3) 11) ;;
  x4 <~ unw (to_i64 (th_thold x3)) ;;
  _ <~ need (same (x4)%Z (11)%Z) ;;
  x5 <~ unw (tholder_limen x3) ;;
  _ <~ need (same x5 x1) ;;
  x6 <~ unw (tholder_sith x3) ;;
  _ <~ need (same x6 (VStr (s2b "b"))) ;;
  x7 <~ unw (tholder_to_json x3) ;;
  _ <~ need (same x7 (s2b """b""")) ;;
  x8 <~ unw (tholder_num x3) ;;
  x9 <~ unw (x8) ;;
  _ <~ need (same x9 11) ;;
  x10 <~ unw (satisfy x3 ([0; 1; 2])) ;;
  _ <~ need (negb x10) ;;
  x11 <~ unw (satisfy x3 ([0; 1; 2; 3; 4; 5; 6; 7; 8; 9; 10])) ;;
  _ <~ need x11 ;;
  Ok tt.
(** core/tholder.rs, creation *)
Definition t_tholder_creation_1 : outcome unit :=
  let x1 := (s2b "MAAL") in
  x2 <~ unw (tholder_new (None) (None) ((Some (VInt (Z.of_N 11))))) ;;
  let x3 := x2 in
  _ <~ need (negb (th_weighted x3)) ;;
  _ <~ need (same (th_size x3) 11) ;;
  x4 <~ unw (to_i64 (th_thold x3)) ;;
  _ <~ need (same (x4)%Z (11)%Z) ;;
  x5 <~ unw (tholder_limen x3) ;;
  _ <~ need (same x5 x1) ;;
  x6 <~ unw (tholder_sith x3) ;;
  _ <~ need (same x6 (VStr (s2b "b"))) ;;
  x7 <~ unw (tholder_to_json x3) ;;
  _ <~ need (same x7 (s2b """b""")) ;;
  x8 <~ unw (tholder_num x3) ;;
  x9 <~ unw (x8) ;;
  _ <~ need (same x9 11) ;;
  x10 <~ unw (satisfy x3 ([0; 1; 2])) ;;
  _ <~ need (negb x10) ;;
  x11 <~ unw (satisfy x3 ([0; 1; 2; 3; 4; 5; 6; 7; 8; 9; 10])) ;;
  _ <~ need x11 ;;
  Ok tt.
(** core/tholder.rs, creation *)
Definition t_tholder_creation_2 : outcome unit :=
  let x1 := (s2b "MAAL") in
  x2 <~ unw (tholder_new (None) ((Some x1)) (None)) ;;
  let x3 := x2 in
  _ <~ need (negb (th_weighted x3)) ;;
  _ <~ need (same (th_size x3) 11) ;;
  x4 <~ unw (to_i64 (th_thold x3)) ;;
  _ <~ need (same (x4)%Z (11)%Z) ;;
  x5 <~ unw (tholder_limen x3) ;;
  _ <~ need (same x5 x1) ;;
  x6 <~ unw (tholder_sith x3) ;;
  _ <~ need (same x6 (VStr (s2b "b"))) ;;
  x7 <~ unw (tholder_to_json x3) ;;
  _ <~ need (same x7 (s2b """b""")) ;;
  x8 <~ unw (tholder_num x3) ;;
  x9 <~ unw (x8) ;;
  _ <~ need (same x9 11) ;;
  x10 <~ unw (satisfy x3 ([0; 1; 2])) ;;
  _ <~ need (negb x10) ;;
  x11 <~ unw (satisfy x3 ([0; 1; 2; 3; 4; 5; 6; 7; 8; 9; 10])) ;;
  _ <~ need x11 ;;
  Ok tt.
(** core/tholder.rs, creation *)
Definition t_tholder_creation_3 : outcome unit :=
  let x1 := (s2b "MAAL") in
  x2 <~ unw (tholder_new ((Some (VInt (Z.of_N 11)))) (None) (None)) ;;
  let x3 := x2 in
  _ <~ need (negb (th_weighted x3)) ;;
  _ <~ need (same (th_size x3) 11) ;;
  x4 <~ unw (to_i64 (th_thold x3)) ;;
  _ <~ need (same (x4)%Z (11)%Z) ;;
  x5 <~ unw (tholder_limen x3) ;;
  _ <~ need (same x5 x1) ;;
  x6 <~ unw (tholder_sith x3) ;;
  _ <~ need (same x6 (VStr (s2b "b"))) ;;
  x7 <~ unw (tholder_to_json x3) ;;
  _ <~ need (same x7 (s2b """b""")) ;;
  x8 <~ unw (tholder_num x3) ;;
  x9 <~ unw (x8) ;;
  _ <~ need (same x9 11) ;;
  x10 <~ unw (satisfy x3 ([0; 1; 2])) ;;
  _ <~ need (negb x10) ;;
  x11 <~ unw (satisfy x3 ([0; 1; 2; 3; 4; 5; 6; 7; 8; 9; 10])) ;;
  _ <~ need x11 ;;
  Ok tt.
(** core/tholder.rs, python_interop *)
Definition t_tholder_python_interop_0 : outcome unit :=
  _ <~ need (errs (tholder_new (None) (None) (None))) ;;
  _ <~ need (ok (tholder_new (None) (None) ((Some (VStr (s2b "[[""1/2"",""4/4""]]")))))) ;;
  _ <~ need (errs (tholder_new (None) (None) ((Some (VStr (s2b "[[""1/2"",""-3/4""]]")))))) ;;
  x1 <~ unw (satisfy tholder_default ([0; 1; 2; 3; 4; 5; 6; 7; 8; 9])) ;;
  _ <~ need (negb x1) ;;
  _ <~ need (ok (tholder_new (None) (None) ((Some (VStr (s2b "[[""1/2"",""3/4""]]")))))) ;;
  _ <~ need (ok (tholder_new (None) ((Some [])) ((Some (VStr (s2b "[[""1/2"",""3/4""]]")))))) ;;
  _ <~ need (errs (tholder_new (None) ((Some (s2b "DKxy2sgzfplyr-tgwIxS19f2OchFHtLwPWD3v4oYimBx"))) (None))) ;;
  x2 <~ unw (tholder_new (None) (None) ((Some (VStr (s2b "f"))))) ;;
  let x3 := x2 in
  _ <~ need (negb (th_weighted x3)) ;;
  _ <~ need (same (th_size x3) 15) ;;
  x4 <~ unw (to_i64 (th_thold x3)) ;;
  _ <~ need (same (x4)%Z (15)%Z) ;;
  x5 <~ unw (tholder_limen x3) ;;
  _ <~ need (same x5 (s2b "MAAP")) ;;
  x6 <~ unw (tholder_sith x3) ;;
  _ <~ need (same x6 (VStr (s2b "f"))) ;;
  x7 <~ unw (tholder_to_json x3) ;;
  _ <~ need (same x7 (s2b """f""")) ;;
  x8 <~ unw (tholder_num x3) ;;
  x9 <~ unw (x8) ;;
  _ <~ need (same x9 15) ;;
  x10 <~ unw (satisfy x3 ([0; 1; 2])) ;;
  _ <~ need (negb x10) ;;
  x11 <~ unw (satisfy x3 ([0; 1; 2; 3; 4; 5; 6; 7; 8; 9; 10; 11; 12; 13; 14])) ;;
  _ <~ need x11 ;;
  x12 <~ unw (tholder_new (None) (None) ((Some (VInt (Z.of_N 2))))) ;;
  let x13 := x12 in
  _ <~ need (negb (th_weighted x13)) ;;
  _ <~ need (same (th_size x13) 2) ;;
  x14 <~ unw (to_i64 (th_thold x13)) ;;
  _ <~ need (same (x14)%Z (2)%Z) ;;
  x15 <~ unw (tholder_limen x13) ;;
  _ <~ need (same x15 (s2b "MAAC")) ;;
  x16 <~ unw (tholder_sith x13) ;;
  _ <~ need (same x16 (VStr (s2b "2"))) ;;
  x17 <~ unw (tholder_to_json x13) ;;
  _ <~ need (same x17 (s2b """2""")) ;;
  x18 <~ unw (tholder_num x13) ;;
  x19 <~ unw (x18) ;;
  _ <~ need (same x19 2) ;;
  x20 <~ unw (satisfy x13 ([0; 1; 2])) ;;
  _ <~ need x20 ;;
  x21 <~ unw (satisfy x13 ([0; 1])) ;;
  _ <~ need x21 ;;
  x22 <~ unw (tholder_new (None) (None) ((Some (VInt (Z.of_N 1))))) ;;
  let x23 := x22 in
  _ <~ need (negb (th_weighted x23)) ;;
  _ <~ need (same (th_size x23) 1) ;;
  x24 <~ unw (to_i64 (th_thold x23)) ;;
  _ <~ need (same (x24)%Z (1)%Z) ;;
  x25 <~ unw (tholder_limen x23) ;;
  _ <~ need (same x25 (s2b "MAAB")) ;;
  x26 <~ unw (tholder_sith x23) ;;
  _ <~ need (same x26 (VStr (s2b "1"))) ;;
  x27 <~ unw (tholder_to_json x23) ;;
  _ <~ need (same x27 (s2b """1""")) ;;
  x28 <~ unw (tholder_num x23) ;;
  x29 <~ unw (x28) ;;
  _ <~ need (same x29 1) ;;
  x30 <~ unw (satisfy x23 ([0])) ;;
  _ <~ need x30 ;;
  _ <~ need (errs (tholder_new (None) (None) ((Some (VInt (- 1)%Z))))) ;;
  _ <~ need (errs (tholder_new (None) (None) ((Some (VArr [(VInt (Z.of_N 1))]))))) ;;
  _ <~ need (errs (tholder_new (None) (None) ((Some (VArr [(VInt (Z.of_N 2))]))))) ;;
  _ <~ need (errs (tholder_new (None) (None) ((Some (VArr [(VStr (s2b "2"))]))))) ;;
  _ <~ need (errs (tholder_new (None) (None) ((Some (VArr [(VFloat (s2b "0.5")); (VFloat (s2b "0.5"))]))))) ;;
  _ <~ need (errs (tholder_new (None) (None) ((Some (VArr [(VStr (s2b "0.5")); (VStr (s2b "0.5"))]))))) ;;
  _ <~ need (errs (tholder_new (None) (None) ((Some (VFloat (s2b "1.0")))))) ;;
  _ <~ need (errs (tholder_new (None) (None) ((Some (VStr (s2b "1.0")))))) ;;
  _ <~ need (errs (tholder_new (None) (None) ((Some (VFloat (s2b "0.5")))))) ;;
  _ <~ need (errs (tholder_new (None) (None) ((Some (VStr (s2b "0.5")))))) ;;
  _ <~ need (errs (tholder_new (None) (None) ((Some (VStr (s2b "1.0/2.0")))))) ;;
  _ <~ need (errs (tholder_new (None) (None) ((Some (VArr []))))) ;;
  _ <~ need (errs (tholder_new (None) (None) ((Some (VArr [(VStr (s2b "1/3")); (VStr (s2b "1/2")); (VArr [])]))))) ;;
  _ <~ need (errs (tholder_new (None) (None) ((Some (VArr [(VStr (s2b "1/3")); (VStr (s2b "1/2"))]))))) ;;
  _ <~ need (errs (tholder_new (None) (None) ((Some (VArr [(VArr []); (VArr [])]))))) ;;
  _ <~ need (errs (tholder_new (None) (None) ((Some (VArr [(VArr [(VStr (s2b "1/3")); (VStr (s2b "1/2"))]); (VArr [(VStr (s2b "1"))])]))))) ;;
  _ <~ need (errs (tholder_new (None) (None) ((Some (VArr [(VArr [(VStr (s2b "1/3")); (VStr (s2b "1/2"))]); (VArr [])]))))) ;;
  _ <~ need (errs (tholder_new (None) (None) ((Some (VArr [(VArr [(VStr (s2b "1/2")); (VStr (s2b "1/2"))]); (VArr [(VArr []); (VStr (s2b "1"))])]))))) ;;
  _ <~ need (errs (tholder_new (None) (None) ((Some (VArr [(VArr [(VStr (s2b "1/2")); (VStr (s2b "1/2")); (VStr (s2b "3/2"))])]))))) ;;
  _ <~ need (errs (tholder_new (None) (None) ((Some (VArr [(VStr (s2b "1/2")); (VStr (s2b "1/2")); (VStr (s2b "3/2"))]))))) ;;
  _ <~ need (errs (tholder_new (None) (None) ((Some (VArr [(VStr (s2b "1/2")); (VStr (s2b "1/2")); (VStr (s2b "2/1"))]))))) ;;
  _ <~ need (errs (tholder_new (None) (None) ((Some (VArr [(VStr (s2b "1/2")); (VStr (s2b "1/2")); (VStr (s2b "2"))]))))) ;;
  _ <~ need (errs (tholder_new (None) (None) ((Some (VArr [(VArr [(VStr (s2b "1/2")); (VStr (s2b "1/2")); (VStr (s2b "2"))])]))))) ;;
  _ <~ need (errs (tholder_new (None) (None) ((Some (VArr [(VArr [(VStr (s2b "1/2")); (VStr (s2b "1/2"))]); (VStr (s2b "1"))]))))) ;;
  _ <~ need (errs (tholder_new (None) (None) ((Some (VArr [(VArr [(VStr (s2b "1/2")); (VStr (s2b "1/2"))]); (VInt (Z.of_N 1))]))))) ;;
  _ <~ need (errs (tholder_new (None) (None) ((Some (VArr [(VArr [(VStr (s2b "1/2")); (VStr (s2b "1/2"))]); (VStr (s2b "1.0"))]))))) ;;
  _ <~ need (errs (tholder_new (None) (None) ((Some (VArr [(VStr (s2b "1/2")); (VStr (s2b "1/2")); (VArr [])]))))) ;;
  _ <~ need (errs (tholder_new (None) (None) ((Some (VArr [(VStr (s2b "1/2")); (VFloat (s2b "0.5"))]))))) ;;
  x31 <~ unw (tholder_new (None) (None) ((Some (VArr [(VStr (s2b "1/2")); (VStr (s2b "1/2")); (VStr (s2b "1/4")); (VStr (s2b "1/4")); (VStr (s2b "1/4"))])))) ;;
  let x32 := x31 in
  _ <~ need (th_weighted x32) ;;
  _ <~ need (same (th_size x32) 5) ;;
  _ <~ need (same (th_thold x32) (VArr [(VArr [(VStr (s2b "1/2")); (VStr (s2b "1/2")); (VStr (s2b "1/4")); (VStr (s2b "1/4")); (VStr (s2b "1/4"))])])) ;;
  x33 <~ unw (tholder_limen x32) ;;
  _ <~ need (same x33 (s2b "4AAFA1s2c1s2c1s4c1s4c1s4")) ;;
  x34 <~ unw (tholder_sith x32) ;;
  _ <~ need (same x34 (VArr [(VStr (s2b "1/2")); (VStr (s2b "1/2")); (VStr (s2b "1/4")); (VStr (s2b "1/4")); (VStr (s2b "1/4"))])) ;;
  x35 <~ unw (tholder_to_json x32) ;;
  _ <~ need (same x35 (s2b "[""1/2"",""1/2"",""1/4"",""1/4"",""1/4""]")) ;;
  x36 <~ unw (tholder_num x32) ;;
  _ <~ need (same x36 None) ;;
  x37 <~ unw (satisfy x32 ([0; 2; 4])) ;;
  _ <~ need x37 ;;
  x38 <~ unw (satisfy x32 ([0; 1])) ;;
  _ <~ need x38 ;;
  x39 <~ unw (satisfy x32 ([1; 3; 4])) ;;
  _ <~ need x39 ;;
  x40 <~ unw (satisfy x32 ([0; 1; 2; 3; 4])) ;;
  _ <~ need x40 ;;
  x41 <~ unw (satisfy x32 ([3; 2; 0])) ;;
  _ <~ need x41 ;;
  x42 <~ unw (satisfy x32 ([0; 0; 1; 2; 1])) ;;
  _ <~ need x42 ;;
  x43 <~ unw (satisfy x32 ([0; 2])) ;;
  _ <~ need (negb x43) ;;
  x44 <~ unw (satisfy x32 ([2; 3; 4])) ;;
  _ <~ need (negb x44) ;;
  x45 <~ unw (satisfy x32 ([0; 0; 2])) ;;
  _ <~ need (negb x45) ;;
  x46 <~ unw (tholder_new (None) (None) ((Some (VArr [(VStr (s2b "1/2")); (VStr (s2b "1/2")); (VStr (s2b "1/4")); (VStr (s2b "1/4")); (VStr (s2b "1/4")); (VStr (s2b "0"))])))) ;;
  let x47 := x46 in
  _ <~ need (th_weighted x47) ;;
  _ <~ need (same (th_size x47) 6) ;;
  _ <~ need (same (th_thold x47) (VArr [(VArr [(VStr (s2b "1/2")); (VStr (s2b "1/2")); (VStr (s2b "1/4")); (VStr (s2b "1/4")); (VStr (s2b "1/4")); (VStr (s2b "0"))])])) ;;
  x48 <~ unw (tholder_limen x47) ;;
  _ <~ need (same x48 (s2b "6AAGAAA1s2c1s2c1s4c1s4c1s4c0")) ;;
  x49 <~ unw (tholder_sith x47) ;;
  _ <~ need (same x49 (VArr [(VStr (s2b "1/2")); (VStr (s2b "1/2")); (VStr (s2b "1/4")); (VStr (s2b "1/4")); (VStr (s2b "1/4")); (VStr (s2b "0"))])) ;;
  x50 <~ unw (tholder_to_json x47) ;;
  _ <~ need (same x50 (s2b "[""1/2"",""1/2"",""1/4"",""1/4"",""1/4"",""0""]")) ;;
  x51 <~ unw (tholder_num x47) ;;
  _ <~ need (same x51 None) ;;
  x52 <~ unw (satisfy x47 ([0; 2; 4])) ;;
  _ <~ need x52 ;;
  x53 <~ unw (satisfy x47 ([0; 1])) ;;
  _ <~ need x53 ;;
  x54 <~ unw (satisfy x47 ([1; 3; 4])) ;;
  _ <~ need x54 ;;
  x55 <~ unw (satisfy x47 ([0; 1; 2; 3; 4])) ;;
  _ <~ need x55 ;;
  x56 <~ unw (satisfy x47 ([3; 2; 0])) ;;
  _ <~ need x56 ;;
  x57 <~ unw (satisfy x47 ([0; 0; 1; 2; 1])) ;;
  _ <~ need x57 ;;
  x58 <~ unw (satisfy x47 ([0; 2; 5])) ;;
  _ <~ need (negb x58) ;;
  x59 <~ unw (satisfy x47 ([2; 3; 4; 5])) ;;
  _ <~ need (negb x59) ;;
  x60 <~ unw (tholder_new (None) (None) ((Some (VArr [(VArr [(VStr (s2b "1/2")); (VStr (s2b "1/2")); (VStr (s2b "1/4")); (VStr (s2b "1/4")); (VStr (s2b "1/4"))])])))) ;;
  let x61 := x60 in
  _ <~ need (th_weighted x61) ;;
  _ <~ need (same (th_size x61) 5) ;;
  _ <~ need (same (th_thold x61) (VArr [(VArr [(VStr (s2b "1/2")); (VStr (s2b "1/2")); (VStr (s2b "1/4")); (VStr (s2b "1/4")); (VStr (s2b "1/4"))])])) ;;
  x62 <~ unw (tholder_limen x61) ;;
  _ <~ need (same x62 (s2b "4AAFA1s2c1s2c1s4c1s4c1s4")) ;;
  x63 <~ unw (tholder_sith x61) ;;
  _ <~ need (same x63 (VArr [(VStr (s2b "1/2")); (VStr (s2b "1/2")); (VStr (s2b "1/4")); (VStr (s2b "1/4")); (VStr (s2b "1/4"))])) ;;
  x64 <~ unw (tholder_to_json x61) ;;
  _ <~ need (same x64 (s2b "[""1/2"",""1/2"",""1/4"",""1/4"",""1/4""]")) ;;
  x65 <~ unw (tholder_num x61) ;;
  _ <~ need (same x65 None) ;;
  x66 <~ unw (satisfy x61 ([0; 2; 4])) ;;
  _ <~ need x66 ;;
  x67 <~ unw (satisfy x61 ([0; 1])) ;;
  _ <~ need x67 ;;
  x68 <~ unw (satisfy x61 ([1; 3; 4])) ;;
  _ <~ need x68 ;;
  x69 <~ unw (satisfy x61 ([0; 1; 2; 3; 4])) ;;
  _ <~ need x69 ;;
  x70 <~ unw (satisfy x61 ([3; 2; 0])) ;;
  _ <~ need x70 ;;
  x71 <~ unw (satisfy x61 ([0; 0; 1; 2; 1])) ;;
  _ <~ need x71 ;;
  x72 <~ unw (satisfy x61 ([0; 2])) ;;
  _ <~ need (negb x72) ;;
  x73 <~ unw (satisfy x61 ([2; 3; 4])) ;;
  _ <~ need (negb x73) ;;
  x74 <~ unw (satisfy x61 ([0; 0; 2])) ;;
  _ <~ need (negb x74) ;;
  x75 <~ unw (tholder_new (None) (None) ((Some (VArr [(VArr [(VStr (s2b "1/2")); (VStr (s2b "1/2")); (VStr (s2b "1/4")); (VStr (s2b "1/4")); (VStr (s2b "1/4"))]); (VArr [(VStr (s2b "1/1")); (VStr (s2b "1"))])])))) ;;
  let x76 := x75 in
  _ <~ need (th_weighted x76) ;;
  _ <~ need (same (th_size x76) 7) ;;
  _ <~ need (same (th_thold x76) (VArr [(VArr [(VStr (s2b "1/2")); (VStr (s2b "1/2")); (VStr (s2b "1/4")); (VStr (s2b "1/4")); (VStr (s2b "1/4"))]); (VArr [(VStr (s2b "1")); (VStr (s2b "1"))])])) ;;
  x77 <~ unw (tholder_limen x76) ;;
  _ <~ need (same x77 (s2b "4AAGA1s2c1s2c1s4c1s4c1s4a1c1")) ;;
  x78 <~ unw (tholder_sith x76) ;;
  _ <~ need (same x78 (VArr [(VArr [(VStr (s2b "1/2")); (VStr (s2b "1/2")); (VStr (s2b "1/4")); (VStr (s2b "1/4")); (VStr (s2b "1/4"))]); (VArr [(VStr (s2b "1")); (VStr (s2b "1"))])])) ;;
  x79 <~ unw (tholder_to_json x76) ;;
  _ <~ need (same x79 (s2b "[[""1/2"",""1/2"",""1/4"",""1/4"",""1/4""],[""1"",""1""]]")) ;;
  x80 <~ unw (tholder_num x76) ;;
  _ <~ need (same x80 None) ;;
  x81 <~ unw (satisfy x76 ([1; 2; 3; 5])) ;;
  _ <~ need x81 ;;
  x82 <~ unw (satisfy x76 ([0; 1; 6])) ;;
  _ <~ need x82 ;;
  x83 <~ unw (satisfy x76 ([0; 1])) ;;
  _ <~ need (negb x83) ;;
  x84 <~ unw (satisfy x76 ([5; 6])) ;;
  _ <~ need (negb x84) ;;
  x85 <~ unw (satisfy x76 ([2; 3; 4])) ;;
  _ <~ need (negb x85) ;;
  x86 <~ unw (satisfy x76 ([])) ;;
  _ <~ need (negb x86) ;;
  x87 <~ unw (tholder_new (None) ((Some (s2b "4AAGA1s2c1s2c1s4c1s4c1s4a1c1"))) (None)) ;;
  let x88 := x87 in
  _ <~ need (th_weighted x88) ;;
  _ <~ need (same (th_size x88) 7) ;;
  _ <~ need (same (th_thold x88) (VArr [(VArr [(VStr (s2b "1/2")); (VStr (s2b "1/2")); (VStr (s2b "1/4")); (VStr (s2b "1/4")); (VStr (s2b "1/4"))]); (VArr [(VStr (s2b "1")); (VStr (s2b "1"))])])) ;;
  x89 <~ unw (tholder_limen x88) ;;
  _ <~ need (same x89 (s2b "4AAGA1s2c1s2c1s4c1s4c1s4a1c1")) ;;
  x90 <~ unw (tholder_sith x88) ;;
  _ <~ need (same x90 (VArr [(VArr [(VStr (s2b "1/2")); (VStr (s2b "1/2")); (VStr (s2b "1/4")); (VStr (s2b "1/4")); (VStr (s2b "1/4"))]); (VArr [(VStr (s2b "1")); (VStr (s2b "1"))])])) ;;
  x91 <~ unw (tholder_to_json x88) ;;
  _ <~ need (same x91 (s2b "[[""1/2"",""1/2"",""1/4"",""1/4"",""1/4""],[""1"",""1""]]")) ;;
  x92 <~ unw (tholder_num x88) ;;
  _ <~ need (same x92 None) ;;
  x93 <~ unw (satisfy x88 ([1; 2; 3; 5])) ;;
  _ <~ need x93 ;;
  x94 <~ unw (satisfy x88 ([0; 1; 6])) ;;
  _ <~ need x94 ;;
  x95 <~ unw (satisfy x88 ([0; 1])) ;;
  _ <~ need (negb x95) ;;
  x96 <~ unw (satisfy x88 ([5; 6])) ;;
  _ <~ need (negb x96) ;;
  x97 <~ unw (satisfy x88 ([2; 3; 4])) ;;
  _ <~ need (negb x97) ;;
  x98 <~ unw (satisfy x88 ([])) ;;
  _ <~ need (negb x98) ;;
  x99 <~ unw (tholder_new ((Some (VArr [(VArr [(VStr (s2b "1/2")); (VStr (s2b "1/2")); (VStr (s2b "1/4")); (VStr (s2b "1/4")); (VStr (s2b "1/4"))]); (VArr [(VStr (s2b "1/1")); (VStr (s2b "1/1"))])]))) (None) (None)) ;;
  let x100 := x99 in
  _ <~ need (th_weighted x100) ;;
  _ <~ need (same (th_size x100) 7) ;;
  _ <~ need (same (th_thold x100) (VArr [(VArr [(VStr (s2b "1/2")); (VStr (s2b "1/2")); (VStr (s2b "1/4")); (VStr (s2b "1/4")); (VStr (s2b "1/4"))]); (VArr [(VStr (s2b "1")); (VStr (s2b "1"))])])) ;;
  x101 <~ unw (tholder_limen x100) ;;
  _ <~ need (same x101 (s2b "4AAGA1s2c1s2c1s4c1s4c1s4a1c1")) ;;
  x102 <~ unw (tholder_sith x100) ;;
  _ <~ need (same x102 (VArr [(VArr [(VStr (s2b "1/2")); (VStr (s2b "1/2")); (VStr (s2b "1/4")); (VStr (s2b "1/4")); (VStr (s2b "1/4"))]); (VArr [(VStr (s2b "1")); (VStr (s2b "1"))])])) ;;
  x103 <~ unw (tholder_to_json x100) ;;
  _ <~ need (same x103 (s2b "[[""1/2"",""1/2"",""1/4"",""1/4"",""1/4""],[""1"",""1""]]")) ;;
  x104 <~ unw (tholder_num x100) ;;
  _ <~ need (same x104 None) ;;
  x105 <~ unw (satisfy x100 ([1; 2; 3; 5])) ;;
  _ <~ need x105 ;;
  x106 <~ unw (satisfy x100 ([0; 1; 6])) ;;
  _ <~ need x106 ;;
  x107 <~ unw (satisfy x100 ([0; 1])) ;;
  _ <~ need (negb x107) ;;
  x108 <~ unw (satisfy x100 ([5; 6])) ;;
  _ <~ need (negb x108) ;;
  x109 <~ unw (satisfy x100 ([2; 3; 4])) ;;
  _ <~ need (negb x109) ;;
  x110 <~ unw (satisfy x100 ([])) ;;
  _ <~ need (negb x110) ;;
  Ok tt.
End T.

(** the 6 cases of core/pather.rs *)
Definition pather_cases {P : Profile} : list (outcome unit) :=
  [t_pather_convenience_0; t_pather_unhappy_0; t_pather_resolve_0; t_pather_root_0; t_pather_tail_0; t_pather_python_interop_0].
Example pather_conforms : forall P : Profile, forallb ok pather_cases = true.
Proof. intros [|]; vm_compute; reflexivity. Qed.
(** the 56 cases of core/prefixer.rs *)
Definition prefixer_cases {P : Profile} : list (outcome unit) :=
  [t_prefixer_convenience_0; t_prefixer_new_unhappy_paths_by_values_0; t_prefixer_new_unhappy_paths_by_values_1; t_prefixer_new_unhappy_paths_by_values_2; t_prefixer_new_unhappy_paths_by_values_3; t_prefixer_new_unhappy_paths_0; t_prefixer_new_unhappy_paths_1; t_prefixer_new_unhappy_paths_2; t_prefixer_new_unhappy_paths_3; t_prefixer_new_unhappy_paths_4; t_prefixer_new_unhappy_paths_5; t_prefixer_new_unhappy_paths_6; t_prefixer_new_unhappy_paths_7; t_prefixer_new_nontransferable_unhappy_paths_0; t_prefixer_new_nontransferable_unhappy_paths_1; t_prefixer_new_nontransferable_unhappy_paths_2; t_prefixer_verify_unhappy_paths_0; t_prefixer_verify_unhappy_paths_1; t_prefixer_verify_unhappy_non_transferable_0; t_prefixer_code_0; t_prefixer_code_1; t_prefixer_code_2; t_prefixer_code_3; t_prefixer_verification_basic_0; t_prefixer_verification_basic_1; t_prefixer_verification_basic_2; t_prefixer_verification_basic_3; t_prefixer_verification_basic_4; t_prefixer_verification_basic_5; t_prefixer_verification_basic_6; t_prefixer_verification_basic_7; t_prefixer_verification_0; t_prefixer_verification_1; t_prefixer_verification_2; t_prefixer_verification_3; t_prefixer_verification_verfer_no_prefix_0; t_prefixer_verification_verfer_0; t_prefixer_verification_verfer_1; t_prefixer_digests_0; t_prefixer_digests_1; t_prefixer_digests_2; t_prefixer_digests_3; t_prefixer_digests_4; t_prefixer_digests_5; t_prefixer_digests_6; t_prefixer_digests_7; t_prefixer_digests_8; t_prefixer_digests_prefixed_0; t_prefixer_digests_prefixed_1; t_prefixer_digests_prefixed_2; t_prefixer_digests_prefixed_3; t_prefixer_digests_prefixed_4; t_prefixer_digests_prefixed_5; t_prefixer_digests_prefixed_6; t_prefixer_digests_prefixed_7; t_prefixer_digests_prefixed_8].
Example prefixer_conforms : forall P : Profile, forallb ok prefixer_cases = true.
Proof. intros [|]; vm_compute; reflexivity. Qed.
(** the 6 cases of core/tholder.rs *)
Definition tholder_cases {P : Profile} : list (outcome unit) :=
  [t_tholder_convenience_0; t_tholder_creation_0; t_tholder_creation_1; t_tholder_creation_2; t_tholder_creation_3; t_tholder_python_interop_0].
Example tholder_conforms : forall P : Profile, forallb ok tholder_cases = true.
Proof. intros [|]; vm_compute; reflexivity. Qed.
