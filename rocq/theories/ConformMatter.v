(** The unit tests of /repo/src/core/matter/mod.rs, /repo/src/core/matter/tables.rs on the model: written by tools/mkconform.py.
    Every definition is one case of a test function; it is [Ok tt] if all assertions hold. *)
From Verif Require Import Base Utf8 B64 Util StdStr MatterTables Matter CounterTables Counter IndexerTables Indexer Crypto Prims Signer Data Json Common Saider Tholder Sadder Pather Prefixer Pretty Defaults DataDefs Hash Float ConformDefs.
#[local] Existing Instance test_crypto.
#[local] Existing Instance real_floats.
Section T.
Context {P : Profile}.
(** core/matter/mod.rs, conversion_variable_length *)
Definition t_matter_conversion_variable_length_0 : outcome unit :=
  let x1 := [0; 1; 2; 3; 4; 5; 6; 7; 8] in
  let x2 := (s2b "4A") in
  x3 <~ unw (matter_new ((Some x2)) ((Some x1)) (None) (None) (None)) ;;
  let x4 := x3 in
  x5 <~ unw (matter_qb64 x4) ;;
  x6 <~ unw (matter_new (None) (None) (None) ((Some x5)) (None)) ;;
  let x7 := x6 in
  _ <~ need (same (m_code x7) (m_code x4)) ;;
  _ <~ need (same (m_raw x7) (m_raw x4)) ;;
  _ <~ need (same (m_size x7) (m_size x4)) ;;
  Ok tt.
(** core/matter/mod.rs, conversion_variable_length *)
Definition t_matter_conversion_variable_length_1 : outcome unit :=
  let x1 := [0; 1; 2; 3; 4; 5; 6; 7; 8] in
  let x2 := (s2b "4A") in
  x3 <~ unw (matter_new ((Some x2)) ((Some x1)) (None) (None) (None)) ;;
  let x4 := x3 in
  x5 <~ unw (matter_qb2 x4) ;;
  x6 <~ unw (matter_new (None) (None) (None) (None) ((Some x5))) ;;
  let x7 := x6 in
  _ <~ need (same (m_code x7) (m_code x4)) ;;
  _ <~ need (same (m_raw x7) (m_raw x4)) ;;
  _ <~ need (same (m_size x7) (m_size x4)) ;;
  Ok tt.
(** core/matter/mod.rs, conversion_variable_length *)
Definition t_matter_conversion_variable_length_2 : outcome unit :=
  let x1 := [0; 1; 2; 3; 4; 5; 6; 7] in
  let x2 := (s2b "5A") in
  x3 <~ unw (matter_new ((Some x2)) ((Some x1)) (None) (None) (None)) ;;
  let x4 := x3 in
  x5 <~ unw (matter_qb64 x4) ;;
  x6 <~ unw (matter_new (None) (None) (None) ((Some x5)) (None)) ;;
  let x7 := x6 in
  _ <~ need (same (m_code x7) (m_code x4)) ;;
  _ <~ need (same (m_raw x7) (m_raw x4)) ;;
  _ <~ need (same (m_size x7) (m_size x4)) ;;
  Ok tt.
(** core/matter/mod.rs, conversion_variable_length *)
Definition t_matter_conversion_variable_length_3 : outcome unit :=
  let x1 := [0; 1; 2; 3; 4; 5; 6; 7] in
  let x2 := (s2b "5A") in
  x3 <~ unw (matter_new ((Some x2)) ((Some x1)) (None) (None) (None)) ;;
  let x4 := x3 in
  x5 <~ unw (matter_qb2 x4) ;;
  x6 <~ unw (matter_new (None) (None) (None) (None) ((Some x5))) ;;
  let x7 := x6 in
  _ <~ need (same (m_code x7) (m_code x4)) ;;
  _ <~ need (same (m_raw x7) (m_raw x4)) ;;
  _ <~ need (same (m_size x7) (m_size x4)) ;;
  Ok tt.
(** core/matter/mod.rs, conversion_variable_length *)
Definition t_matter_conversion_variable_length_4 : outcome unit :=
  let x1 := [0; 1; 2; 3; 4; 5; 6] in
  let x2 := (s2b "6A") in
  x3 <~ unw (matter_new ((Some x2)) ((Some x1)) (None) (None) (None)) ;;
  let x4 := x3 in
  x5 <~ unw (matter_qb64 x4) ;;
  x6 <~ unw (matter_new (None) (None) (None) ((Some x5)) (None)) ;;
  let x7 := x6 in
  _ <~ need (same (m_code x7) (m_code x4)) ;;
  _ <~ need (same (m_raw x7) (m_raw x4)) ;;
  _ <~ need (same (m_size x7) (m_size x4)) ;;
  Ok tt.
(** core/matter/mod.rs, conversion_variable_length *)
Definition t_matter_conversion_variable_length_5 : outcome unit :=
  let x1 := [0; 1; 2; 3; 4; 5; 6] in
  let x2 := (s2b "6A") in
  x3 <~ unw (matter_new ((Some x2)) ((Some x1)) (None) (None) (None)) ;;
  let x4 := x3 in
  x5 <~ unw (matter_qb2 x4) ;;
  x6 <~ unw (matter_new (None) (None) (None) (None) ((Some x5))) ;;
  let x7 := x6 in
  _ <~ need (same (m_code x7) (m_code x4)) ;;
  _ <~ need (same (m_raw x7) (m_raw x4)) ;;
  _ <~ need (same (m_size x7) (m_size x4)) ;;
  Ok tt.
(** core/matter/mod.rs, conversion_variable_length *)
Definition t_matter_conversion_variable_length_6 : outcome unit :=
  let x1 := [0; 1; 2; 3; 4; 5; 6; 7; 8] in
  let x2 := (s2b "4B") in
  x3 <~ unw (matter_new ((Some x2)) ((Some x1)) (None) (None) (None)) ;;
  let x4 := x3 in
  x5 <~ unw (matter_qb64 x4) ;;
  x6 <~ unw (matter_new (None) (None) (None) ((Some x5)) (None)) ;;
  let x7 := x6 in
  _ <~ need (same (m_code x7) (m_code x4)) ;;
  _ <~ need (same (m_raw x7) (m_raw x4)) ;;
  _ <~ need (same (m_size x7) (m_size x4)) ;;
  Ok tt.
(** core/matter/mod.rs, conversion_variable_length *)
Definition t_matter_conversion_variable_length_7 : outcome unit :=
  let x1 := [0; 1; 2; 3; 4; 5; 6; 7; 8] in
  let x2 := (s2b "4B") in
  x3 <~ unw (matter_new ((Some x2)) ((Some x1)) (None) (None) (None)) ;;
  let x4 := x3 in
  x5 <~ unw (matter_qb2 x4) ;;
  x6 <~ unw (matter_new (None) (None) (None) (None) ((Some x5))) ;;
  let x7 := x6 in
  _ <~ need (same (m_code x7) (m_code x4)) ;;
  _ <~ need (same (m_raw x7) (m_raw x4)) ;;
  _ <~ need (same (m_size x7) (m_size x4)) ;;
  Ok tt.
(** core/matter/mod.rs, conversion_variable_length *)
Definition t_matter_conversion_variable_length_8 : outcome unit :=
  let x1 := [0; 1; 2; 3; 4; 5; 6; 7] in
  let x2 := (s2b "5B") in
  x3 <~ unw (matter_new ((Some x2)) ((Some x1)) (None) (None) (None)) ;;
  let x4 := x3 in
  x5 <~ unw (matter_qb64 x4) ;;
  x6 <~ unw (matter_new (None) (None) (None) ((Some x5)) (None)) ;;
  let x7 := x6 in
  _ <~ need (same (m_code x7) (m_code x4)) ;;
  _ <~ need (same (m_raw x7) (m_raw x4)) ;;
  _ <~ need (same (m_size x7) (m_size x4)) ;;
  Ok tt.
(** core/matter/mod.rs, conversion_variable_length *)
Definition t_matter_conversion_variable_length_9 : outcome unit :=
  let x1 := [0; 1; 2; 3; 4; 5; 6; 7] in
  let x2 := (s2b "5B") in
  x3 <~ unw (matter_new ((Some x2)) ((Some x1)) (None) (None) (None)) ;;
  let x4 := x3 in
  x5 <~ unw (matter_qb2 x4) ;;
  x6 <~ unw (matter_new (None) (None) (None) (None) ((Some x5))) ;;
  let x7 := x6 in
  _ <~ need (same (m_code x7) (m_code x4)) ;;
  _ <~ need (same (m_raw x7) (m_raw x4)) ;;
  _ <~ need (same (m_size x7) (m_size x4)) ;;
  Ok tt.
(** core/matter/mod.rs, conversion_variable_length *)
Definition t_matter_conversion_variable_length_10 : outcome unit :=
  let x1 := [0; 1; 2; 3; 4; 5; 6] in
  let x2 := (s2b "6B") in
  x3 <~ unw (matter_new ((Some x2)) ((Some x1)) (None) (None) (None)) ;;
  let x4 := x3 in
  x5 <~ unw (matter_qb64 x4) ;;
  x6 <~ unw (matter_new (None) (None) (None) ((Some x5)) (None)) ;;
  let x7 := x6 in
  _ <~ need (same (m_code x7) (m_code x4)) ;;
  _ <~ need (same (m_raw x7) (m_raw x4)) ;;
  _ <~ need (same (m_size x7) (m_size x4)) ;;
  Ok tt.
(** core/matter/mod.rs, conversion_variable_length *)
Definition t_matter_conversion_variable_length_11 : outcome unit :=
  let x1 := [0; 1; 2; 3; 4; 5; 6] in
  let x2 := (s2b "6B") in
  x3 <~ unw (matter_new ((Some x2)) ((Some x1)) (None) (None) (None)) ;;
  let x4 := x3 in
  x5 <~ unw (matter_qb2 x4) ;;
  x6 <~ unw (matter_new (None) (None) (None) (None) ((Some x5))) ;;
  let x7 := x6 in
  _ <~ need (same (m_code x7) (m_code x4)) ;;
  _ <~ need (same (m_raw x7) (m_raw x4)) ;;
  _ <~ need (same (m_size x7) (m_size x4)) ;;
  Ok tt.
(** core/matter/mod.rs, conversion_variable_length *)
Definition t_matter_conversion_variable_length_12 : outcome unit :=
  let x1 := [0; 1; 2; 3; 4; 5; 6; 7; 8] in
  let x2 := (s2b "7AAA") in
  x3 <~ unw (matter_new ((Some x2)) ((Some x1)) (None) (None) (None)) ;;
  let x4 := x3 in
  x5 <~ unw (matter_qb64 x4) ;;
  x6 <~ unw (matter_new (None) (None) (None) ((Some x5)) (None)) ;;
  let x7 := x6 in
  _ <~ need (same (m_code x7) (m_code x4)) ;;
  _ <~ need (same (m_raw x7) (m_raw x4)) ;;
  _ <~ need (same (m_size x7) (m_size x4)) ;;
  Ok tt.
(** core/matter/mod.rs, conversion_variable_length *)
Definition t_matter_conversion_variable_length_13 : outcome unit :=
  let x1 := [0; 1; 2; 3; 4; 5; 6; 7; 8] in
  let x2 := (s2b "7AAA") in
  x3 <~ unw (matter_new ((Some x2)) ((Some x1)) (None) (None) (None)) ;;
  let x4 := x3 in
  x5 <~ unw (matter_qb2 x4) ;;
  x6 <~ unw (matter_new (None) (None) (None) (None) ((Some x5))) ;;
  let x7 := x6 in
  _ <~ need (same (m_code x7) (m_code x4)) ;;
  _ <~ need (same (m_raw x7) (m_raw x4)) ;;
  _ <~ need (same (m_size x7) (m_size x4)) ;;
  Ok tt.
(** core/matter/mod.rs, conversion_variable_length *)
Definition t_matter_conversion_variable_length_14 : outcome unit :=
  let x1 := [0; 1; 2; 3; 4; 5; 6; 7] in
  let x2 := (s2b "8AAA") in
  x3 <~ unw (matter_new ((Some x2)) ((Some x1)) (None) (None) (None)) ;;
  let x4 := x3 in
  x5 <~ unw (matter_qb64 x4) ;;
  x6 <~ unw (matter_new (None) (None) (None) ((Some x5)) (None)) ;;
  let x7 := x6 in
  _ <~ need (same (m_code x7) (m_code x4)) ;;
  _ <~ need (same (m_raw x7) (m_raw x4)) ;;
  _ <~ need (same (m_size x7) (m_size x4)) ;;
  Ok tt.
(** core/matter/mod.rs, conversion_variable_length *)
Definition t_matter_conversion_variable_length_15 : outcome unit :=
  let x1 := [0; 1; 2; 3; 4; 5; 6; 7] in
  let x2 := (s2b "8AAA") in
  x3 <~ unw (matter_new ((Some x2)) ((Some x1)) (None) (None) (None)) ;;
  let x4 := x3 in
  x5 <~ unw (matter_qb2 x4) ;;
  x6 <~ unw (matter_new (None) (None) (None) (None) ((Some x5))) ;;
  let x7 := x6 in
  _ <~ need (same (m_code x7) (m_code x4)) ;;
  _ <~ need (same (m_raw x7) (m_raw x4)) ;;
  _ <~ need (same (m_size x7) (m_size x4)) ;;
  Ok tt.
(** core/matter/mod.rs, conversion_variable_length *)
Definition t_matter_conversion_variable_length_16 : outcome unit :=
  let x1 := [0; 1; 2; 3; 4; 5; 6] in
  let x2 := (s2b "9AAA") in
  x3 <~ unw (matter_new ((Some x2)) ((Some x1)) (None) (None) (None)) ;;
  let x4 := x3 in
  x5 <~ unw (matter_qb64 x4) ;;
  x6 <~ unw (matter_new (None) (None) (None) ((Some x5)) (None)) ;;
  let x7 := x6 in
  _ <~ need (same (m_code x7) (m_code x4)) ;;
  _ <~ need (same (m_raw x7) (m_raw x4)) ;;
  _ <~ need (same (m_size x7) (m_size x4)) ;;
  Ok tt.
(** core/matter/mod.rs, conversion_variable_length *)
Definition t_matter_conversion_variable_length_17 : outcome unit :=
  let x1 := [0; 1; 2; 3; 4; 5; 6] in
  let x2 := (s2b "9AAA") in
  x3 <~ unw (matter_new ((Some x2)) ((Some x1)) (None) (None) (None)) ;;
  let x4 := x3 in
  x5 <~ unw (matter_qb2 x4) ;;
  x6 <~ unw (matter_new (None) (None) (None) (None) ((Some x5))) ;;
  let x7 := x6 in
  _ <~ need (same (m_code x7) (m_code x4)) ;;
  _ <~ need (same (m_raw x7) (m_raw x4)) ;;
  _ <~ need (same (m_size x7) (m_size x4)) ;;
  Ok tt.
(** core/matter/mod.rs, conversion_variable_length *)
Definition t_matter_conversion_variable_length_18 : outcome unit :=
  let x1 := [0; 1; 2; 3; 4; 5; 6; 7; 8] in
  let x2 := (s2b "7AAB") in
  x3 <~ unw (matter_new ((Some x2)) ((Some x1)) (None) (None) (None)) ;;
  let x4 := x3 in
  x5 <~ unw (matter_qb64 x4) ;;
  x6 <~ unw (matter_new (None) (None) (None) ((Some x5)) (None)) ;;
  let x7 := x6 in
  _ <~ need (same (m_code x7) (m_code x4)) ;;
  _ <~ need (same (m_raw x7) (m_raw x4)) ;;
  _ <~ need (same (m_size x7) (m_size x4)) ;;
  Ok tt.
(** core/matter/mod.rs, conversion_variable_length *)
Definition t_matter_conversion_variable_length_19 : outcome unit :=
  let x1 := [0; 1; 2; 3; 4; 5; 6; 7; 8] in
  let x2 := (s2b "7AAB") in
  x3 <~ unw (matter_new ((Some x2)) ((Some x1)) (None) (None) (None)) ;;
  let x4 := x3 in
  x5 <~ unw (matter_qb2 x4) ;;
  x6 <~ unw (matter_new (None) (None) (None) (None) ((Some x5))) ;;
  let x7 := x6 in
  _ <~ need (same (m_code x7) (m_code x4)) ;;
  _ <~ need (same (m_raw x7) (m_raw x4)) ;;
  _ <~ need (same (m_size x7) (m_size x4)) ;;
  Ok tt.
(** core/matter/mod.rs, conversion_variable_length *)
Definition t_matter_conversion_variable_length_20 : outcome unit :=
  let x1 := [0; 1; 2; 3; 4; 5; 6; 7] in
  let x2 := (s2b "8AAB") in
  x3 <~ unw (matter_new ((Some x2)) ((Some x1)) (None) (None) (None)) ;;
  let x4 := x3 in
  x5 <~ unw (matter_qb64 x4) ;;
  x6 <~ unw (matter_new (None) (None) (None) ((Some x5)) (None)) ;;
  let x7 := x6 in
  _ <~ need (same (m_code x7) (m_code x4)) ;;
  _ <~ need (same (m_raw x7) (m_raw x4)) ;;
  _ <~ need (same (m_size x7) (m_size x4)) ;;
  Ok tt.
(** core/matter/mod.rs, conversion_variable_length *)
Definition t_matter_conversion_variable_length_21 : outcome unit :=
  let x1 := [0; 1; 2; 3; 4; 5; 6; 7] in
  let x2 := (s2b "8AAB") in
  x3 <~ unw (matter_new ((Some x2)) ((Some x1)) (None) (None) (None)) ;;
  let x4 := x3 in
  x5 <~ unw (matter_qb2 x4) ;;
  x6 <~ unw (matter_new (None) (None) (None) (None) ((Some x5))) ;;
  let x7 := x6 in
  _ <~ need (same (m_code x7) (m_code x4)) ;;
  _ <~ need (same (m_raw x7) (m_raw x4)) ;;
  _ <~ need (same (m_size x7) (m_size x4)) ;;
  Ok tt.
(** core/matter/mod.rs, conversion_variable_length *)
Definition t_matter_conversion_variable_length_22 : outcome unit :=
  let x1 := [0; 1; 2; 3; 4; 5; 6] in
  let x2 := (s2b "9AAB") in
  x3 <~ unw (matter_new ((Some x2)) ((Some x1)) (None) (None) (None)) ;;
  let x4 := x3 in
  x5 <~ unw (matter_qb64 x4) ;;
  x6 <~ unw (matter_new (None) (None) (None) ((Some x5)) (None)) ;;
  let x7 := x6 in
  _ <~ need (same (m_code x7) (m_code x4)) ;;
  _ <~ need (same (m_raw x7) (m_raw x4)) ;;
  _ <~ need (same (m_size x7) (m_size x4)) ;;
  Ok tt.
(** core/matter/mod.rs, conversion_variable_length *)
Definition t_matter_conversion_variable_length_23 : outcome unit :=
  let x1 := [0; 1; 2; 3; 4; 5; 6] in
  let x2 := (s2b "9AAB") in
  x3 <~ unw (matter_new ((Some x2)) ((Some x1)) (None) (None) (None)) ;;
  let x4 := x3 in
  x5 <~ unw (matter_qb2 x4) ;;
  x6 <~ unw (matter_new (None) (None) (None) (None) ((Some x5))) ;;
  let x7 := x6 in
  _ <~ need (same (m_code x7) (m_code x4)) ;;
  _ <~ need (same (m_raw x7) (m_raw x4)) ;;
  _ <~ need (same (m_size x7) (m_size x4)) ;;
  Ok tt.
(** core/matter/mod.rs, new_variable_length *)
Definition t_matter_new_variable_length_0 : outcome unit :=
  let x1 := (s2b "4B") in
  let x2 := [0; 1; 2; 3; 4; 5; 6; 7; 8] in
  x3 <~ unw (matter_new ((Some x1)) ((Some x2)) (None) (None) (None)) ;;
  let x4 := x3 in
  x5 <~ unw (matter_qb64 x4) ;;
  let x6 := x5 in
  x7 <~ unw (matter_qb64b x4) ;;
  let x8 := x7 in
  x9 <~ unw (matter_qb2 x4) ;;
  let x10 := x9 in
  _ <~ need (ok (matter_new ((Some x1)) ((Some x2)) (None) (None) (None))) ;;
  _ <~ need (ok (matter_new (None) (None) ((Some x8)) (None) (None))) ;;
  _ <~ need (ok (matter_new (None) (None) (None) ((Some x6)) (None))) ;;
  _ <~ need (ok (matter_new (None) (None) (None) (None) ((Some x10)))) ;;
  Ok tt.
(** core/matter/mod.rs, new *)
Definition t_matter_new_0 : outcome unit :=
  _ <~ need (errs (matter_new (None) (None) (None) (None) (None))) ;;
  _ <~ need (errs (matter_new (None) ((Some [])) (None) (None) (None))) ;;
  let x1 := (s2b "E") in
  let x2 := (s2b "BGlOiUdp5sMmfotHfCWQKEzWR91C72AH0lT84c0um-Qj") in
  x3 <~ unw (matter_new (None) (None) (None) ((Some x2)) (None)) ;;
  let x4 := x3 in
  let x5 := (m_raw x4) in
  x6 <~ unw (matter_qb64b x4) ;;
  let x7 := x6 in
  x8 <~ unw (matter_qb2 x4) ;;
  let x9 := x8 in
  _ <~ need (ok (matter_new ((Some x1)) ((Some x5)) (None) (None) (None))) ;;
  _ <~ need (ok (matter_new (None) (None) ((Some x7)) (None) (None))) ;;
  _ <~ need (ok (matter_new (None) (None) (None) ((Some x2)) (None))) ;;
  _ <~ need (ok (matter_new (None) (None) (None) (None) ((Some x9)))) ;;
  Ok tt.
(** core/matter/mod.rs, defaults_and_overrides *)
Definition t_matter_defaults_and_overrides_0 : outcome unit :=
  let x1 := (Mat (s2b "E") 0 []) in
  _ <~ need (same (m_code x1) (s2b "E")) ;;
  let x2 := (Mat (s2b "E") 3 []) in
  _ <~ need (same (m_size x2) 3) ;;
  let x3 := (Mat (s2b "P") 1 (s2b "a")) in
  _ <~ need (same (m_raw x3) (s2b "a")) ;;
  _ <~ need (same (m_code x3) (s2b "P")) ;;
  _ <~ need (same (m_size x3) 1) ;;
  Ok tt.
(** core/matter/mod.rs, conversion *)
Definition t_matter_conversion_0 : outcome unit :=
  let x1 := (s2b "BGlOiUdp5sMmfotHfCWQKEzWR91C72AH0lT84c0um-Qj") in
  x2 <~ unw (matter_new (None) (None) (None) ((Some x1)) (None)) ;;
  let x3 := x2 in
  x4 <~ unw (matter_new ((Some (m_code x3))) ((Some (m_raw x3))) (None) (None) (None)) ;;
  let x5 := x4 in
  _ <~ need (same (m_code x3) (s2b "B")) ;;
  _ <~ need (same (m_code x5) (m_code x3)) ;;
  _ <~ need (same (m_raw x5) (m_raw x3)) ;;
  _ <~ need (same (m_size x5) (m_size x3)) ;;
  x6 <~ unw (matter_qb64 x5) ;;
  _ <~ need (same x6 x1) ;;
  Ok tt.
(** core/matter/mod.rs, conversion *)
Definition t_matter_conversion_1 : outcome unit :=
  let x1 := (s2b "BGlOiUdp5sMmfotHfCWQKEzWR91C72AH0lT84c0um-Qj") in
  x2 <~ unw (matter_new (None) (None) (None) ((Some x1)) (None)) ;;
  let x3 := x2 in
  x4 <~ unw (matter_qb64b x3) ;;
  x5 <~ unw (matter_new (None) (None) ((Some x4)) (None) (None)) ;;
  let x6 := x5 in
  _ <~ need (same (m_code x3) (s2b "B")) ;;
  _ <~ need (same (m_code x6) (m_code x3)) ;;
  _ <~ need (same (m_raw x6) (m_raw x3)) ;;
  _ <~ need (same (m_size x6) (m_size x3)) ;;
  x7 <~ unw (matter_qb64 x6) ;;
  _ <~ need (same x7 x1) ;;
  Ok tt.
(** core/matter/mod.rs, conversion *)
Definition t_matter_conversion_2 : outcome unit :=
  let x1 := (s2b "BGlOiUdp5sMmfotHfCWQKEzWR91C72AH0lT84c0um-Qj") in
  x2 <~ unw (matter_new (None) (None) (None) ((Some x1)) (None)) ;;
  let x3 := x2 in
  x4 <~ unw (matter_qb2 x3) ;;
  x5 <~ unw (matter_new (None) (None) (None) (None) ((Some x4))) ;;
  let x6 := x5 in
  _ <~ need (same (m_code x3) (s2b "B")) ;;
  _ <~ need (same (m_code x6) (m_code x3)) ;;
  _ <~ need (same (m_raw x6) (m_raw x3)) ;;
  _ <~ need (same (m_size x6) (m_size x3)) ;;
  x7 <~ unw (matter_qb64 x6) ;;
  _ <~ need (same x7 x1) ;;
  Ok tt.
(** core/matter/mod.rs, big_boundary *)
Definition t_matter_big_boundary_0 : outcome unit :=
  x1 <~ unw (matter_new ((Some (s2b "6B"))) ((Some (repeat 0 (N.to_nat ((4095 * 3)%N + 1)%N)))) (None) (None) (None)) ;;
  let x2 := x1 in
  _ <~ need (same (N.of_nat (length (m_raw x2))) ((4095 * 3)%N + 1)%N) ;;
  _ <~ need (same (m_code x2) (s2b "9AAB")) ;;
  Ok tt.
(** core/matter/mod.rs, unhappy_paths *)
Definition t_matter_unhappy_paths_0 : outcome unit :=
  _ <~ need (errs (matter_new (None) (None) (None) (None) (None))) ;;
  _ <~ need (errs (matter_new ((Some (s2b ""))) ((Some [])) (None) (None) (None))) ;;
  _ <~ need (errs (matter_new ((Some (s2b "E"))) ((Some [])) (None) (None) (None))) ;;
  _ <~ need (errs (matter_new (None) (None) ((Some [])) (None) (None))) ;;
  _ <~ need (errs (matter_new (None) (None) (None) ((Some (s2b ""))) (None))) ;;
  _ <~ need (errs (matter_new (None) (None) (None) (None) ((Some [])))) ;;
  _ <~ need (errs (matter_new (None) (None) (None) (None) (None))) ;;
  _ <~ need (errs (matter_new ((Some (s2b "CESR"))) ((Some [])) (None) (None) (None))) ;;
  _ <~ need (errs (matter_qb64 (Mat (s2b "E") 32 (repeat 0 (N.to_nat 31))))) ;;
  _ <~ need (errs (matter_new (None) (None) (None) ((Some (s2b "0"))) (None))) ;;
  _ <~ need (errs (matter_new (None) (None) (None) (None) ((Some [(N.shiftl 52 2)])))) ;;
  _ <~ need (errs (matter_new (None) (None) (None) ((Some (s2b "4A"))) (None))) ;;
  _ <~ need (errs (matter_new (None) (None) (None) (None) ((Some [224; 0])))) ;;
  _ <~ need (errs (matter_new (None) (None) (None) ((Some (s2b "E"))) (None))) ;;
  _ <~ need (errs (matter_new (None) (None) (None) (None) ((Some [(N.shiftl 4 2)])))) ;;
  _ <~ need (errs (matter_qb64 (Mat (s2b "6B") 4096 (repeat 0 (N.to_nat 4096))))) ;;
  _ <~ need (errs (matter_qb2 (Mat (s2b "6B") 4096 (repeat 0 (N.to_nat 4096))))) ;;
  _ <~ need (errs (matter_qb64 (Mat (s2b "5B") 4095 (repeat 0 (N.to_nat 3))))) ;;
  _ <~ need (errs (matter_qb2 (Mat (s2b "5B") 4095 (repeat 0 (N.to_nat 3))))) ;;
  _ <~ need (errs (matter_new (None) (None) (None) ((Some (s2b "E___________________________________________"))) (None))) ;;
  _ <~ need (errs (matter_new (None) (None) (None) (None) ((Some [19; 255; 255; 255; 255; 255; 255; 255; 255; 255; 255; 255; 255; 255; 255; 255; 255; 255; 255; 255; 255; 255; 255; 255; 255; 255; 255; 255; 255; 255; 255; 255; 255])))) ;;
  _ <~ need (errs (matter_new (None) (None) (None) ((Some (s2b "5AAB____"))) (None))) ;;
  _ <~ need (errs (matter_new (None) (None) (None) (None) ((Some [228; 0; 1; 255; 255; 255])))) ;;
  _ <~ need (errs (matter_new (None) (None) (None) ((Some (s2b "6AAB____"))) (None))) ;;
  _ <~ need (errs (matter_new (None) (None) (None) (None) ((Some [232; 0; 1; 255; 255; 255])))) ;;
  _ <~ need (errs (matter_new (None) (None) (None) (None) ((Some [248])))) ;;
  _ <~ need (errs (matter_new (None) (None) (None) (None) ((Some [252])))) ;;
  Ok tt.
(** core/matter/mod.rs, full_size *)
Definition t_matter_full_size_0 : outcome unit :=
  let x1 := (s2b "NAAAAAAAAAAA") in
  let x2 := 12 in
  x3 <~ unw (matter_new (None) (None) (None) ((Some x1)) (None)) ;;
  let x4 := x3 in
  x5 <~ unw (matter_full_size x4) ;;
  _ <~ need (same x5 x2) ;;
  Ok tt.
(** core/matter/mod.rs, full_size *)
Definition t_matter_full_size_1 : outcome unit :=
  let x1 := (s2b "4AAC-A-1-B-3") in
  let x2 := 12 in
  x3 <~ unw (matter_new (None) (None) (None) ((Some x1)) (None)) ;;
  let x4 := x3 in
  x5 <~ unw (matter_full_size x4) ;;
  _ <~ need (same x5 x2) ;;
  Ok tt.
(** core/matter/mod.rs, digestive *)
Definition t_matter_digestive_0 : outcome unit :=
  x1 <~ unw (matter_new_with_code_and_raw ((s2b "E")) ((s2b "00000000000000000000000000000000"))) ;;
  let x2 := x1 in
  let x3 := true in
  _ <~ need (same (matter_digestive x2) x3) ;;
  Ok tt.
(** core/matter/mod.rs, digestive *)
Definition t_matter_digestive_1 : outcome unit :=
  x1 <~ unw (matter_new_with_code_and_raw ((s2b "0D")) ((s2b "0000000000000000000000000000000000000000000000000000000000000000"))) ;;
  let x2 := x1 in
  let x3 := true in
  _ <~ need (same (matter_digestive x2) x3) ;;
  Ok tt.
(** core/matter/mod.rs, digestive *)
Definition t_matter_digestive_2 : outcome unit :=
  x1 <~ unw (matter_new_with_code_and_raw ((s2b "F")) ((s2b "00000000000000000000000000000000"))) ;;
  let x2 := x1 in
  let x3 := true in
  _ <~ need (same (matter_digestive x2) x3) ;;
  Ok tt.
(** core/matter/mod.rs, digestive *)
Definition t_matter_digestive_3 : outcome unit :=
  x1 <~ unw (matter_new_with_code_and_raw ((s2b "0E")) ((s2b "0000000000000000000000000000000000000000000000000000000000000000"))) ;;
  let x2 := x1 in
  let x3 := true in
  _ <~ need (same (matter_digestive x2) x3) ;;
  Ok tt.
(** core/matter/mod.rs, digestive *)
Definition t_matter_digestive_4 : outcome unit :=
  x1 <~ unw (matter_new_with_code_and_raw ((s2b "G")) ((s2b "00000000000000000000000000000000"))) ;;
  let x2 := x1 in
  let x3 := true in
  _ <~ need (same (matter_digestive x2) x3) ;;
  Ok tt.
(** core/matter/mod.rs, digestive *)
Definition t_matter_digestive_5 : outcome unit :=
  x1 <~ unw (matter_new_with_code_and_raw ((s2b "H")) ((s2b "00000000000000000000000000000000"))) ;;
  let x2 := x1 in
  let x3 := true in
  _ <~ need (same (matter_digestive x2) x3) ;;
  Ok tt.
(** core/matter/mod.rs, digestive *)
Definition t_matter_digestive_6 : outcome unit :=
  x1 <~ unw (matter_new_with_code_and_raw ((s2b "0F")) ((s2b "0000000000000000000000000000000000000000000000000000000000000000"))) ;;
  let x2 := x1 in
  let x3 := true in
  _ <~ need (same (matter_digestive x2) x3) ;;
  Ok tt.
(** core/matter/mod.rs, digestive *)
Definition t_matter_digestive_7 : outcome unit :=
  x1 <~ unw (matter_new_with_code_and_raw ((s2b "I")) ((s2b "00000000000000000000000000000000"))) ;;
  let x2 := x1 in
  let x3 := true in
  _ <~ need (same (matter_digestive x2) x3) ;;
  Ok tt.
(** core/matter/mod.rs, digestive *)
Definition t_matter_digestive_8 : outcome unit :=
  x1 <~ unw (matter_new_with_code_and_raw ((s2b "0G")) ((s2b "0000000000000000000000000000000000000000000000000000000000000000"))) ;;
  let x2 := x1 in
  let x3 := true in
  _ <~ need (same (matter_digestive x2) x3) ;;
  Ok tt.
(** core/matter/mod.rs, digestive *)
Definition t_matter_digestive_9 : outcome unit :=
  x1 <~ unw (matter_new_with_code_and_raw ((s2b "D")) ((s2b "00000000000000000000000000000000"))) ;;
  let x2 := x1 in
  let x3 := false in
  _ <~ need (same (matter_digestive x2) x3) ;;
  Ok tt.
(** core/matter/mod.rs, transferable *)
Definition t_matter_transferable_0 : outcome unit :=
  x1 <~ unw (matter_new_with_code_and_raw ((s2b "D")) ((s2b "00000000000000000000000000000000"))) ;;
  let x2 := x1 in
  let x3 := true in
  _ <~ need (same (matter_transferable x2) x3) ;;
  Ok tt.
(** core/matter/mod.rs, transferable *)
Definition t_matter_transferable_1 : outcome unit :=
  x1 <~ unw (matter_new_with_code_and_raw ((s2b "1AAB")) ((s2b "000000000000000000000000000000000"))) ;;
  let x2 := x1 in
  let x3 := true in
  _ <~ need (same (matter_transferable x2) x3) ;;
  Ok tt.
(** core/matter/mod.rs, transferable *)
Definition t_matter_transferable_2 : outcome unit :=
  x1 <~ unw (matter_new_with_code_and_raw ((s2b "1AAJ")) ((s2b "000000000000000000000000000000000"))) ;;
  let x2 := x1 in
  let x3 := true in
  _ <~ need (same (matter_transferable x2) x3) ;;
  Ok tt.
(** core/matter/mod.rs, transferable *)
Definition t_matter_transferable_3 : outcome unit :=
  x1 <~ unw (matter_new_with_code_and_raw ((s2b "B")) ((s2b "00000000000000000000000000000000"))) ;;
  let x2 := x1 in
  let x3 := false in
  _ <~ need (same (matter_transferable x2) x3) ;;
  Ok tt.
(** core/matter/mod.rs, transferable *)
Definition t_matter_transferable_4 : outcome unit :=
  x1 <~ unw (matter_new_with_code_and_raw ((s2b "1AAA")) ((s2b "000000000000000000000000000000000"))) ;;
  let x2 := x1 in
  let x3 := false in
  _ <~ need (same (matter_transferable x2) x3) ;;
  Ok tt.
(** core/matter/mod.rs, transferable *)
Definition t_matter_transferable_5 : outcome unit :=
  x1 <~ unw (matter_new_with_code_and_raw ((s2b "1AAI")) ((s2b "000000000000000000000000000000000"))) ;;
  let x2 := x1 in
  let x3 := false in
  _ <~ need (same (matter_transferable x2) x3) ;;
  Ok tt.
(** core/matter/tables.rs, sizage *)
Definition t_matter_tables_sizage_0 : outcome unit :=
  let x1 := (s2b "A") in
  let x2 := 1 in
  let x3 := 0 in
  let x4 := 44 in
  let x5 := 0 in
  x6 <~ unw (get_sizage (x1)) ;;
  let x7 := x6 in
  _ <~ need (same (hs x7) x2) ;;
  _ <~ need (same (ss x7) x3) ;;
  _ <~ need (same (fs x7) x4) ;;
  _ <~ need (same (ls x7) x5) ;;
  Ok tt.
(** core/matter/tables.rs, sizage *)
Definition t_matter_tables_sizage_1 : outcome unit :=
  let x1 := (s2b "B") in
  let x2 := 1 in
  let x3 := 0 in
  let x4 := 44 in
  let x5 := 0 in
  x6 <~ unw (get_sizage (x1)) ;;
  let x7 := x6 in
  _ <~ need (same (hs x7) x2) ;;
  _ <~ need (same (ss x7) x3) ;;
  _ <~ need (same (fs x7) x4) ;;
  _ <~ need (same (ls x7) x5) ;;
  Ok tt.
(** core/matter/tables.rs, sizage *)
Definition t_matter_tables_sizage_2 : outcome unit :=
  let x1 := (s2b "C") in
  let x2 := 1 in
  let x3 := 0 in
  let x4 := 44 in
  let x5 := 0 in
  x6 <~ unw (get_sizage (x1)) ;;
  let x7 := x6 in
  _ <~ need (same (hs x7) x2) ;;
  _ <~ need (same (ss x7) x3) ;;
  _ <~ need (same (fs x7) x4) ;;
  _ <~ need (same (ls x7) x5) ;;
  Ok tt.
(** core/matter/tables.rs, sizage *)
Definition t_matter_tables_sizage_3 : outcome unit :=
  let x1 := (s2b "D") in
  let x2 := 1 in
  let x3 := 0 in
  let x4 := 44 in
  let x5 := 0 in
  x6 <~ unw (get_sizage (x1)) ;;
  let x7 := x6 in
  _ <~ need (same (hs x7) x2) ;;
  _ <~ need (same (ss x7) x3) ;;
  _ <~ need (same (fs x7) x4) ;;
  _ <~ need (same (ls x7) x5) ;;
  Ok tt.
(** core/matter/tables.rs, sizage *)
Definition t_matter_tables_sizage_4 : outcome unit :=
  let x1 := (s2b "E") in
  let x2 := 1 in
  let x3 := 0 in
  let x4 := 44 in
  let x5 := 0 in
  x6 <~ unw (get_sizage (x1)) ;;
  let x7 := x6 in
  _ <~ need (same (hs x7) x2) ;;
  _ <~ need (same (ss x7) x3) ;;
  _ <~ need (same (fs x7) x4) ;;
  _ <~ need (same (ls x7) x5) ;;
  Ok tt.
(** core/matter/tables.rs, sizage *)
Definition t_matter_tables_sizage_5 : outcome unit :=
  let x1 := (s2b "F") in
  let x2 := 1 in
  let x3 := 0 in
  let x4 := 44 in
  let x5 := 0 in
  x6 <~ unw (get_sizage (x1)) ;;
  let x7 := x6 in
  _ <~ need (same (hs x7) x2) ;;
  _ <~ need (same (ss x7) x3) ;;
  _ <~ need (same (fs x7) x4) ;;
  _ <~ need (same (ls x7) x5) ;;
  Ok tt.
(** core/matter/tables.rs, sizage *)
Definition t_matter_tables_sizage_6 : outcome unit :=
  let x1 := (s2b "G") in
  let x2 := 1 in
  let x3 := 0 in
  let x4 := 44 in
  let x5 := 0 in
  x6 <~ unw (get_sizage (x1)) ;;
  let x7 := x6 in
  _ <~ need (same (hs x7) x2) ;;
  _ <~ need (same (ss x7) x3) ;;
  _ <~ need (same (fs x7) x4) ;;
  _ <~ need (same (ls x7) x5) ;;
  Ok tt.
(** core/matter/tables.rs, sizage *)
Definition t_matter_tables_sizage_7 : outcome unit :=
  let x1 := (s2b "H") in
  let x2 := 1 in
  let x3 := 0 in
  let x4 := 44 in
  let x5 := 0 in
  x6 <~ unw (get_sizage (x1)) ;;
  let x7 := x6 in
  _ <~ need (same (hs x7) x2) ;;
  _ <~ need (same (ss x7) x3) ;;
  _ <~ need (same (fs x7) x4) ;;
  _ <~ need (same (ls x7) x5) ;;
  Ok tt.
(** core/matter/tables.rs, sizage *)
Definition t_matter_tables_sizage_8 : outcome unit :=
  let x1 := (s2b "I") in
  let x2 := 1 in
  let x3 := 0 in
  let x4 := 44 in
  let x5 := 0 in
  x6 <~ unw (get_sizage (x1)) ;;
  let x7 := x6 in
  _ <~ need (same (hs x7) x2) ;;
  _ <~ need (same (ss x7) x3) ;;
  _ <~ need (same (fs x7) x4) ;;
  _ <~ need (same (ls x7) x5) ;;
  Ok tt.
(** core/matter/tables.rs, sizage *)
Definition t_matter_tables_sizage_9 : outcome unit :=
  let x1 := (s2b "J") in
  let x2 := 1 in
  let x3 := 0 in
  let x4 := 44 in
  let x5 := 0 in
  x6 <~ unw (get_sizage (x1)) ;;
  let x7 := x6 in
  _ <~ need (same (hs x7) x2) ;;
  _ <~ need (same (ss x7) x3) ;;
  _ <~ need (same (fs x7) x4) ;;
  _ <~ need (same (ls x7) x5) ;;
  Ok tt.
(** core/matter/tables.rs, sizage *)
Definition t_matter_tables_sizage_10 : outcome unit :=
  let x1 := (s2b "K") in
  let x2 := 1 in
  let x3 := 0 in
  let x4 := 76 in
  let x5 := 0 in
  x6 <~ unw (get_sizage (x1)) ;;
  let x7 := x6 in
  _ <~ need (same (hs x7) x2) ;;
  _ <~ need (same (ss x7) x3) ;;
  _ <~ need (same (fs x7) x4) ;;
  _ <~ need (same (ls x7) x5) ;;
  Ok tt.
(** core/matter/tables.rs, sizage *)
Definition t_matter_tables_sizage_11 : outcome unit :=
  let x1 := (s2b "L") in
  let x2 := 1 in
  let x3 := 0 in
  let x4 := 76 in
  let x5 := 0 in
  x6 <~ unw (get_sizage (x1)) ;;
  let x7 := x6 in
  _ <~ need (same (hs x7) x2) ;;
  _ <~ need (same (ss x7) x3) ;;
  _ <~ need (same (fs x7) x4) ;;
  _ <~ need (same (ls x7) x5) ;;
  Ok tt.
(** core/matter/tables.rs, sizage *)
Definition t_matter_tables_sizage_12 : outcome unit :=
  let x1 := (s2b "M") in
  let x2 := 1 in
  let x3 := 0 in
  let x4 := 4 in
  let x5 := 0 in
  x6 <~ unw (get_sizage (x1)) ;;
  let x7 := x6 in
  _ <~ need (same (hs x7) x2) ;;
  _ <~ need (same (ss x7) x3) ;;
  _ <~ need (same (fs x7) x4) ;;
  _ <~ need (same (ls x7) x5) ;;
  Ok tt.
(** core/matter/tables.rs, sizage *)
Definition t_matter_tables_sizage_13 : outcome unit :=
  let x1 := (s2b "N") in
  let x2 := 1 in
  let x3 := 0 in
  let x4 := 12 in
  let x5 := 0 in
  x6 <~ unw (get_sizage (x1)) ;;
  let x7 := x6 in
  _ <~ need (same (hs x7) x2) ;;
  _ <~ need (same (ss x7) x3) ;;
  _ <~ need (same (fs x7) x4) ;;
  _ <~ need (same (ls x7) x5) ;;
  Ok tt.
(** core/matter/tables.rs, sizage *)
Definition t_matter_tables_sizage_14 : outcome unit :=
  let x1 := (s2b "O") in
  let x2 := 1 in
  let x3 := 0 in
  let x4 := 44 in
  let x5 := 0 in
  x6 <~ unw (get_sizage (x1)) ;;
  let x7 := x6 in
  _ <~ need (same (hs x7) x2) ;;
  _ <~ need (same (ss x7) x3) ;;
  _ <~ need (same (fs x7) x4) ;;
  _ <~ need (same (ls x7) x5) ;;
  Ok tt.
(** core/matter/tables.rs, sizage *)
Definition t_matter_tables_sizage_15 : outcome unit :=
  let x1 := (s2b "P") in
  let x2 := 1 in
  let x3 := 0 in
  let x4 := 124 in
  let x5 := 0 in
  x6 <~ unw (get_sizage (x1)) ;;
  let x7 := x6 in
  _ <~ need (same (hs x7) x2) ;;
  _ <~ need (same (ss x7) x3) ;;
  _ <~ need (same (fs x7) x4) ;;
  _ <~ need (same (ls x7) x5) ;;
  Ok tt.
(** core/matter/tables.rs, sizage *)
Definition t_matter_tables_sizage_16 : outcome unit :=
  let x1 := (s2b "Q") in
  let x2 := 1 in
  let x3 := 0 in
  let x4 := 44 in
  let x5 := 0 in
  x6 <~ unw (get_sizage (x1)) ;;
  let x7 := x6 in
  _ <~ need (same (hs x7) x2) ;;
  _ <~ need (same (ss x7) x3) ;;
  _ <~ need (same (fs x7) x4) ;;
  _ <~ need (same (ls x7) x5) ;;
  Ok tt.
(** core/matter/tables.rs, sizage *)
Definition t_matter_tables_sizage_17 : outcome unit :=
  let x1 := (s2b "0A") in
  let x2 := 2 in
  let x3 := 0 in
  let x4 := 24 in
  let x5 := 0 in
  x6 <~ unw (get_sizage (x1)) ;;
  let x7 := x6 in
  _ <~ need (same (hs x7) x2) ;;
  _ <~ need (same (ss x7) x3) ;;
  _ <~ need (same (fs x7) x4) ;;
  _ <~ need (same (ls x7) x5) ;;
  Ok tt.
(** core/matter/tables.rs, sizage *)
Definition t_matter_tables_sizage_18 : outcome unit :=
  let x1 := (s2b "0B") in
  let x2 := 2 in
  let x3 := 0 in
  let x4 := 88 in
  let x5 := 0 in
  x6 <~ unw (get_sizage (x1)) ;;
  let x7 := x6 in
  _ <~ need (same (hs x7) x2) ;;
  _ <~ need (same (ss x7) x3) ;;
  _ <~ need (same (fs x7) x4) ;;
  _ <~ need (same (ls x7) x5) ;;
  Ok tt.
(** core/matter/tables.rs, sizage *)
Definition t_matter_tables_sizage_19 : outcome unit :=
  let x1 := (s2b "0C") in
  let x2 := 2 in
  let x3 := 0 in
  let x4 := 88 in
  let x5 := 0 in
  x6 <~ unw (get_sizage (x1)) ;;
  let x7 := x6 in
  _ <~ need (same (hs x7) x2) ;;
  _ <~ need (same (ss x7) x3) ;;
  _ <~ need (same (fs x7) x4) ;;
  _ <~ need (same (ls x7) x5) ;;
  Ok tt.
(** core/matter/tables.rs, sizage *)
Definition t_matter_tables_sizage_20 : outcome unit :=
  let x1 := (s2b "0D") in
  let x2 := 2 in
  let x3 := 0 in
  let x4 := 88 in
  let x5 := 0 in
  x6 <~ unw (get_sizage (x1)) ;;
  let x7 := x6 in
  _ <~ need (same (hs x7) x2) ;;
  _ <~ need (same (ss x7) x3) ;;
  _ <~ need (same (fs x7) x4) ;;
  _ <~ need (same (ls x7) x5) ;;
  Ok tt.
(** core/matter/tables.rs, sizage *)
Definition t_matter_tables_sizage_21 : outcome unit :=
  let x1 := (s2b "0E") in
  let x2 := 2 in
  let x3 := 0 in
  let x4 := 88 in
  let x5 := 0 in
  x6 <~ unw (get_sizage (x1)) ;;
  let x7 := x6 in
  _ <~ need (same (hs x7) x2) ;;
  _ <~ need (same (ss x7) x3) ;;
  _ <~ need (same (fs x7) x4) ;;
  _ <~ need (same (ls x7) x5) ;;
  Ok tt.
(** core/matter/tables.rs, sizage *)
Definition t_matter_tables_sizage_22 : outcome unit :=
  let x1 := (s2b "0F") in
  let x2 := 2 in
  let x3 := 0 in
  let x4 := 88 in
  let x5 := 0 in
  x6 <~ unw (get_sizage (x1)) ;;
  let x7 := x6 in
  _ <~ need (same (hs x7) x2) ;;
  _ <~ need (same (ss x7) x3) ;;
  _ <~ need (same (fs x7) x4) ;;
  _ <~ need (same (ls x7) x5) ;;
  Ok tt.
(** core/matter/tables.rs, sizage *)
Definition t_matter_tables_sizage_23 : outcome unit :=
  let x1 := (s2b "0G") in
  let x2 := 2 in
  let x3 := 0 in
  let x4 := 88 in
  let x5 := 0 in
  x6 <~ unw (get_sizage (x1)) ;;
  let x7 := x6 in
  _ <~ need (same (hs x7) x2) ;;
  _ <~ need (same (ss x7) x3) ;;
  _ <~ need (same (fs x7) x4) ;;
  _ <~ need (same (ls x7) x5) ;;
  Ok tt.
(** core/matter/tables.rs, sizage *)
Definition t_matter_tables_sizage_24 : outcome unit :=
  let x1 := (s2b "0H") in
  let x2 := 2 in
  let x3 := 0 in
  let x4 := 8 in
  let x5 := 0 in
  x6 <~ unw (get_sizage (x1)) ;;
  let x7 := x6 in
  _ <~ need (same (hs x7) x2) ;;
  _ <~ need (same (ss x7) x3) ;;
  _ <~ need (same (fs x7) x4) ;;
  _ <~ need (same (ls x7) x5) ;;
  Ok tt.
(** core/matter/tables.rs, sizage *)
Definition t_matter_tables_sizage_25 : outcome unit :=
  let x1 := (s2b "0I") in
  let x2 := 2 in
  let x3 := 0 in
  let x4 := 88 in
  let x5 := 0 in
  x6 <~ unw (get_sizage (x1)) ;;
  let x7 := x6 in
  _ <~ need (same (hs x7) x2) ;;
  _ <~ need (same (ss x7) x3) ;;
  _ <~ need (same (fs x7) x4) ;;
  _ <~ need (same (ls x7) x5) ;;
  Ok tt.
(** core/matter/tables.rs, sizage *)
Definition t_matter_tables_sizage_26 : outcome unit :=
  let x1 := (s2b "1AAA") in
  let x2 := 4 in
  let x3 := 0 in
  let x4 := 48 in
  let x5 := 0 in
  x6 <~ unw (get_sizage (x1)) ;;
  let x7 := x6 in
  _ <~ need (same (hs x7) x2) ;;
  _ <~ need (same (ss x7) x3) ;;
  _ <~ need (same (fs x7) x4) ;;
  _ <~ need (same (ls x7) x5) ;;
  Ok tt.
(** core/matter/tables.rs, sizage *)
Definition t_matter_tables_sizage_27 : outcome unit :=
  let x1 := (s2b "1AAB") in
  let x2 := 4 in
  let x3 := 0 in
  let x4 := 48 in
  let x5 := 0 in
  x6 <~ unw (get_sizage (x1)) ;;
  let x7 := x6 in
  _ <~ need (same (hs x7) x2) ;;
  _ <~ need (same (ss x7) x3) ;;
  _ <~ need (same (fs x7) x4) ;;
  _ <~ need (same (ls x7) x5) ;;
  Ok tt.
(** core/matter/tables.rs, sizage *)
Definition t_matter_tables_sizage_28 : outcome unit :=
  let x1 := (s2b "1AAC") in
  let x2 := 4 in
  let x3 := 0 in
  let x4 := 80 in
  let x5 := 0 in
  x6 <~ unw (get_sizage (x1)) ;;
  let x7 := x6 in
  _ <~ need (same (hs x7) x2) ;;
  _ <~ need (same (ss x7) x3) ;;
  _ <~ need (same (fs x7) x4) ;;
  _ <~ need (same (ls x7) x5) ;;
  Ok tt.
(** core/matter/tables.rs, sizage *)
Definition t_matter_tables_sizage_29 : outcome unit :=
  let x1 := (s2b "1AAD") in
  let x2 := 4 in
  let x3 := 0 in
  let x4 := 80 in
  let x5 := 0 in
  x6 <~ unw (get_sizage (x1)) ;;
  let x7 := x6 in
  _ <~ need (same (hs x7) x2) ;;
  _ <~ need (same (ss x7) x3) ;;
  _ <~ need (same (fs x7) x4) ;;
  _ <~ need (same (ls x7) x5) ;;
  Ok tt.
(** core/matter/tables.rs, sizage *)
Definition t_matter_tables_sizage_30 : outcome unit :=
  let x1 := (s2b "1AAE") in
  let x2 := 4 in
  let x3 := 0 in
  let x4 := 56 in
  let x5 := 0 in
  x6 <~ unw (get_sizage (x1)) ;;
  let x7 := x6 in
  _ <~ need (same (hs x7) x2) ;;
  _ <~ need (same (ss x7) x3) ;;
  _ <~ need (same (fs x7) x4) ;;
  _ <~ need (same (ls x7) x5) ;;
  Ok tt.
(** core/matter/tables.rs, sizage *)
Definition t_matter_tables_sizage_31 : outcome unit :=
  let x1 := (s2b "1AAF") in
  let x2 := 4 in
  let x3 := 0 in
  let x4 := 8 in
  let x5 := 0 in
  x6 <~ unw (get_sizage (x1)) ;;
  let x7 := x6 in
  _ <~ need (same (hs x7) x2) ;;
  _ <~ need (same (ss x7) x3) ;;
  _ <~ need (same (fs x7) x4) ;;
  _ <~ need (same (ls x7) x5) ;;
  Ok tt.
(** core/matter/tables.rs, sizage *)
Definition t_matter_tables_sizage_32 : outcome unit :=
  let x1 := (s2b "1AAG") in
  let x2 := 4 in
  let x3 := 0 in
  let x4 := 36 in
  let x5 := 0 in
  x6 <~ unw (get_sizage (x1)) ;;
  let x7 := x6 in
  _ <~ need (same (hs x7) x2) ;;
  _ <~ need (same (ss x7) x3) ;;
  _ <~ need (same (fs x7) x4) ;;
  _ <~ need (same (ls x7) x5) ;;
  Ok tt.
(** core/matter/tables.rs, sizage *)
Definition t_matter_tables_sizage_33 : outcome unit :=
  let x1 := (s2b "1AAH") in
  let x2 := 4 in
  let x3 := 0 in
  let x4 := 100 in
  let x5 := 0 in
  x6 <~ unw (get_sizage (x1)) ;;
  let x7 := x6 in
  _ <~ need (same (hs x7) x2) ;;
  _ <~ need (same (ss x7) x3) ;;
  _ <~ need (same (fs x7) x4) ;;
  _ <~ need (same (ls x7) x5) ;;
  Ok tt.
(** core/matter/tables.rs, sizage *)
Definition t_matter_tables_sizage_34 : outcome unit :=
  let x1 := (s2b "1AAI") in
  let x2 := 4 in
  let x3 := 0 in
  let x4 := 48 in
  let x5 := 0 in
  x6 <~ unw (get_sizage (x1)) ;;
  let x7 := x6 in
  _ <~ need (same (hs x7) x2) ;;
  _ <~ need (same (ss x7) x3) ;;
  _ <~ need (same (fs x7) x4) ;;
  _ <~ need (same (ls x7) x5) ;;
  Ok tt.
(** core/matter/tables.rs, sizage *)
Definition t_matter_tables_sizage_35 : outcome unit :=
  let x1 := (s2b "1AAJ") in
  let x2 := 4 in
  let x3 := 0 in
  let x4 := 48 in
  let x5 := 0 in
  x6 <~ unw (get_sizage (x1)) ;;
  let x7 := x6 in
  _ <~ need (same (hs x7) x2) ;;
  _ <~ need (same (ss x7) x3) ;;
  _ <~ need (same (fs x7) x4) ;;
  _ <~ need (same (ls x7) x5) ;;
  Ok tt.
(** core/matter/tables.rs, sizage *)
Definition t_matter_tables_sizage_36 : outcome unit :=
  let x1 := (s2b "2AAA") in
  let x2 := 4 in
  let x3 := 0 in
  let x4 := 8 in
  let x5 := 1 in
  x6 <~ unw (get_sizage (x1)) ;;
  let x7 := x6 in
  _ <~ need (same (hs x7) x2) ;;
  _ <~ need (same (ss x7) x3) ;;
  _ <~ need (same (fs x7) x4) ;;
  _ <~ need (same (ls x7) x5) ;;
  Ok tt.
(** core/matter/tables.rs, sizage *)
Definition t_matter_tables_sizage_37 : outcome unit :=
  let x1 := (s2b "3AAA") in
  let x2 := 4 in
  let x3 := 0 in
  let x4 := 8 in
  let x5 := 2 in
  x6 <~ unw (get_sizage (x1)) ;;
  let x7 := x6 in
  _ <~ need (same (hs x7) x2) ;;
  _ <~ need (same (ss x7) x3) ;;
  _ <~ need (same (fs x7) x4) ;;
  _ <~ need (same (ls x7) x5) ;;
  Ok tt.
(** core/matter/tables.rs, sizage *)
Definition t_matter_tables_sizage_38 : outcome unit :=
  let x1 := (s2b "4A") in
  let x2 := 2 in
  let x3 := 2 in
  let x4 := 4294967295 in
  let x5 := 0 in
  x6 <~ unw (get_sizage (x1)) ;;
  let x7 := x6 in
  _ <~ need (same (hs x7) x2) ;;
  _ <~ need (same (ss x7) x3) ;;
  _ <~ need (same (fs x7) x4) ;;
  _ <~ need (same (ls x7) x5) ;;
  Ok tt.
(** core/matter/tables.rs, sizage *)
Definition t_matter_tables_sizage_39 : outcome unit :=
  let x1 := (s2b "5A") in
  let x2 := 2 in
  let x3 := 2 in
  let x4 := 4294967295 in
  let x5 := 1 in
  x6 <~ unw (get_sizage (x1)) ;;
  let x7 := x6 in
  _ <~ need (same (hs x7) x2) ;;
  _ <~ need (same (ss x7) x3) ;;
  _ <~ need (same (fs x7) x4) ;;
  _ <~ need (same (ls x7) x5) ;;
  Ok tt.
(** core/matter/tables.rs, sizage *)
Definition t_matter_tables_sizage_40 : outcome unit :=
  let x1 := (s2b "6A") in
  let x2 := 2 in
  let x3 := 2 in
  let x4 := 4294967295 in
  let x5 := 2 in
  x6 <~ unw (get_sizage (x1)) ;;
  let x7 := x6 in
  _ <~ need (same (hs x7) x2) ;;
  _ <~ need (same (ss x7) x3) ;;
  _ <~ need (same (fs x7) x4) ;;
  _ <~ need (same (ls x7) x5) ;;
  Ok tt.
(** core/matter/tables.rs, sizage *)
Definition t_matter_tables_sizage_41 : outcome unit :=
  let x1 := (s2b "7AAA") in
  let x2 := 4 in
  let x3 := 4 in
  let x4 := 4294967295 in
  let x5 := 0 in
  x6 <~ unw (get_sizage (x1)) ;;
  let x7 := x6 in
  _ <~ need (same (hs x7) x2) ;;
  _ <~ need (same (ss x7) x3) ;;
  _ <~ need (same (fs x7) x4) ;;
  _ <~ need (same (ls x7) x5) ;;
  Ok tt.
(** core/matter/tables.rs, sizage *)
Definition t_matter_tables_sizage_42 : outcome unit :=
  let x1 := (s2b "8AAA") in
  let x2 := 4 in
  let x3 := 4 in
  let x4 := 4294967295 in
  let x5 := 1 in
  x6 <~ unw (get_sizage (x1)) ;;
  let x7 := x6 in
  _ <~ need (same (hs x7) x2) ;;
  _ <~ need (same (ss x7) x3) ;;
  _ <~ need (same (fs x7) x4) ;;
  _ <~ need (same (ls x7) x5) ;;
  Ok tt.
(** core/matter/tables.rs, sizage *)
Definition t_matter_tables_sizage_43 : outcome unit :=
  let x1 := (s2b "9AAA") in
  let x2 := 4 in
  let x3 := 4 in
  let x4 := 4294967295 in
  let x5 := 2 in
  x6 <~ unw (get_sizage (x1)) ;;
  let x7 := x6 in
  _ <~ need (same (hs x7) x2) ;;
  _ <~ need (same (ss x7) x3) ;;
  _ <~ need (same (fs x7) x4) ;;
  _ <~ need (same (ls x7) x5) ;;
  Ok tt.
(** core/matter/tables.rs, sizage *)
Definition t_matter_tables_sizage_44 : outcome unit :=
  let x1 := (s2b "4B") in
  let x2 := 2 in
  let x3 := 2 in
  let x4 := 4294967295 in
  let x5 := 0 in
  x6 <~ unw (get_sizage (x1)) ;;
  let x7 := x6 in
  _ <~ need (same (hs x7) x2) ;;
  _ <~ need (same (ss x7) x3) ;;
  _ <~ need (same (fs x7) x4) ;;
  _ <~ need (same (ls x7) x5) ;;
  Ok tt.
(** core/matter/tables.rs, sizage *)
Definition t_matter_tables_sizage_45 : outcome unit :=
  let x1 := (s2b "5B") in
  let x2 := 2 in
  let x3 := 2 in
  let x4 := 4294967295 in
  let x5 := 1 in
  x6 <~ unw (get_sizage (x1)) ;;
  let x7 := x6 in
  _ <~ need (same (hs x7) x2) ;;
  _ <~ need (same (ss x7) x3) ;;
  _ <~ need (same (fs x7) x4) ;;
  _ <~ need (same (ls x7) x5) ;;
  Ok tt.
(** core/matter/tables.rs, sizage *)
Definition t_matter_tables_sizage_46 : outcome unit :=
  let x1 := (s2b "6B") in
  let x2 := 2 in
  let x3 := 2 in
  let x4 := 4294967295 in
  let x5 := 2 in
  x6 <~ unw (get_sizage (x1)) ;;
  let x7 := x6 in
  _ <~ need (same (hs x7) x2) ;;
  _ <~ need (same (ss x7) x3) ;;
  _ <~ need (same (fs x7) x4) ;;
  _ <~ need (same (ls x7) x5) ;;
  Ok tt.
(** core/matter/tables.rs, sizage *)
Definition t_matter_tables_sizage_47 : outcome unit :=
  let x1 := (s2b "7AAB") in
  let x2 := 4 in
  let x3 := 4 in
  let x4 := 4294967295 in
  let x5 := 0 in
  x6 <~ unw (get_sizage (x1)) ;;
  let x7 := x6 in
  _ <~ need (same (hs x7) x2) ;;
  _ <~ need (same (ss x7) x3) ;;
  _ <~ need (same (fs x7) x4) ;;
  _ <~ need (same (ls x7) x5) ;;
  Ok tt.
(** core/matter/tables.rs, sizage *)
Definition t_matter_tables_sizage_48 : outcome unit :=
  let x1 := (s2b "8AAB") in
  let x2 := 4 in
  let x3 := 4 in
  let x4 := 4294967295 in
  let x5 := 1 in
  x6 <~ unw (get_sizage (x1)) ;;
  let x7 := x6 in
  _ <~ need (same (hs x7) x2) ;;
  _ <~ need (same (ss x7) x3) ;;
  _ <~ need (same (fs x7) x4) ;;
  _ <~ need (same (ls x7) x5) ;;
  Ok tt.
(** core/matter/tables.rs, sizage *)
Definition t_matter_tables_sizage_49 : outcome unit :=
  let x1 := (s2b "9AAB") in
  let x2 := 4 in
  let x3 := 4 in
  let x4 := 4294967295 in
  let x5 := 2 in
  x6 <~ unw (get_sizage (x1)) ;;
  let x7 := x6 in
  _ <~ need (same (hs x7) x2) ;;
  _ <~ need (same (ss x7) x3) ;;
  _ <~ need (same (fs x7) x4) ;;
  _ <~ need (same (ls x7) x5) ;;
  Ok tt.
(** core/matter/tables.rs, hardage *)
Definition t_matter_tables_hardage_0 : outcome unit :=
  let x1 := 65 in
  let x2 := 1 in
  x3 <~ unw (hardage (x1)) ;;
  _ <~ need (same x3 x2) ;;
  Ok tt.
(** core/matter/tables.rs, hardage *)
Definition t_matter_tables_hardage_1 : outcome unit :=
  let x1 := 66 in
  let x2 := 1 in
  x3 <~ unw (hardage (x1)) ;;
  _ <~ need (same x3 x2) ;;
  Ok tt.
(** core/matter/tables.rs, hardage *)
Definition t_matter_tables_hardage_2 : outcome unit :=
  let x1 := 67 in
  let x2 := 1 in
  x3 <~ unw (hardage (x1)) ;;
  _ <~ need (same x3 x2) ;;
  Ok tt.
(** core/matter/tables.rs, hardage *)
Definition t_matter_tables_hardage_3 : outcome unit :=
  let x1 := 68 in
  let x2 := 1 in
  x3 <~ unw (hardage (x1)) ;;
  _ <~ need (same x3 x2) ;;
  Ok tt.
(** core/matter/tables.rs, hardage *)
Definition t_matter_tables_hardage_4 : outcome unit :=
  let x1 := 69 in
  let x2 := 1 in
  x3 <~ unw (hardage (x1)) ;;
  _ <~ need (same x3 x2) ;;
  Ok tt.
(** core/matter/tables.rs, hardage *)
Definition t_matter_tables_hardage_5 : outcome unit :=
  let x1 := 70 in
  let x2 := 1 in
  x3 <~ unw (hardage (x1)) ;;
  _ <~ need (same x3 x2) ;;
  Ok tt.
(** core/matter/tables.rs, hardage *)
Definition t_matter_tables_hardage_6 : outcome unit :=
  let x1 := 71 in
  let x2 := 1 in
  x3 <~ unw (hardage (x1)) ;;
  _ <~ need (same x3 x2) ;;
  Ok tt.
(** core/matter/tables.rs, hardage *)
Definition t_matter_tables_hardage_7 : outcome unit :=
  let x1 := 72 in
  let x2 := 1 in
  x3 <~ unw (hardage (x1)) ;;
  _ <~ need (same x3 x2) ;;
  Ok tt.
(** core/matter/tables.rs, hardage *)
Definition t_matter_tables_hardage_8 : outcome unit :=
  let x1 := 73 in
  let x2 := 1 in
  x3 <~ unw (hardage (x1)) ;;
  _ <~ need (same x3 x2) ;;
  Ok tt.
(** core/matter/tables.rs, hardage *)
Definition t_matter_tables_hardage_9 : outcome unit :=
  let x1 := 74 in
  let x2 := 1 in
  x3 <~ unw (hardage (x1)) ;;
  _ <~ need (same x3 x2) ;;
  Ok tt.
(** core/matter/tables.rs, hardage *)
Definition t_matter_tables_hardage_10 : outcome unit :=
  let x1 := 75 in
  let x2 := 1 in
  x3 <~ unw (hardage (x1)) ;;
  _ <~ need (same x3 x2) ;;
  Ok tt.
(** core/matter/tables.rs, hardage *)
Definition t_matter_tables_hardage_11 : outcome unit :=
  let x1 := 76 in
  let x2 := 1 in
  x3 <~ unw (hardage (x1)) ;;
  _ <~ need (same x3 x2) ;;
  Ok tt.
(** core/matter/tables.rs, hardage *)
Definition t_matter_tables_hardage_12 : outcome unit :=
  let x1 := 77 in
  let x2 := 1 in
  x3 <~ unw (hardage (x1)) ;;
  _ <~ need (same x3 x2) ;;
  Ok tt.
(** core/matter/tables.rs, hardage *)
Definition t_matter_tables_hardage_13 : outcome unit :=
  let x1 := 78 in
  let x2 := 1 in
  x3 <~ unw (hardage (x1)) ;;
  _ <~ need (same x3 x2) ;;
  Ok tt.
(** core/matter/tables.rs, hardage *)
Definition t_matter_tables_hardage_14 : outcome unit :=
  let x1 := 79 in
  let x2 := 1 in
  x3 <~ unw (hardage (x1)) ;;
  _ <~ need (same x3 x2) ;;
  Ok tt.
(** core/matter/tables.rs, hardage *)
Definition t_matter_tables_hardage_15 : outcome unit :=
  let x1 := 80 in
  let x2 := 1 in
  x3 <~ unw (hardage (x1)) ;;
  _ <~ need (same x3 x2) ;;
  Ok tt.
(** core/matter/tables.rs, hardage *)
Definition t_matter_tables_hardage_16 : outcome unit :=
  let x1 := 81 in
  let x2 := 1 in
  x3 <~ unw (hardage (x1)) ;;
  _ <~ need (same x3 x2) ;;
  Ok tt.
(** core/matter/tables.rs, hardage *)
Definition t_matter_tables_hardage_17 : outcome unit :=
  let x1 := 82 in
  let x2 := 1 in
  x3 <~ unw (hardage (x1)) ;;
  _ <~ need (same x3 x2) ;;
  Ok tt.
(** core/matter/tables.rs, hardage *)
Definition t_matter_tables_hardage_18 : outcome unit :=
  let x1 := 83 in
  let x2 := 1 in
  x3 <~ unw (hardage (x1)) ;;
  _ <~ need (same x3 x2) ;;
  Ok tt.
(** core/matter/tables.rs, hardage *)
Definition t_matter_tables_hardage_19 : outcome unit :=
  let x1 := 84 in
  let x2 := 1 in
  x3 <~ unw (hardage (x1)) ;;
  _ <~ need (same x3 x2) ;;
  Ok tt.
(** core/matter/tables.rs, hardage *)
Definition t_matter_tables_hardage_20 : outcome unit :=
  let x1 := 85 in
  let x2 := 1 in
  x3 <~ unw (hardage (x1)) ;;
  _ <~ need (same x3 x2) ;;
  Ok tt.
(** core/matter/tables.rs, hardage *)
Definition t_matter_tables_hardage_21 : outcome unit :=
  let x1 := 86 in
  let x2 := 1 in
  x3 <~ unw (hardage (x1)) ;;
  _ <~ need (same x3 x2) ;;
  Ok tt.
(** core/matter/tables.rs, hardage *)
Definition t_matter_tables_hardage_22 : outcome unit :=
  let x1 := 87 in
  let x2 := 1 in
  x3 <~ unw (hardage (x1)) ;;
  _ <~ need (same x3 x2) ;;
  Ok tt.
(** core/matter/tables.rs, hardage *)
Definition t_matter_tables_hardage_23 : outcome unit :=
  let x1 := 88 in
  let x2 := 1 in
  x3 <~ unw (hardage (x1)) ;;
  _ <~ need (same x3 x2) ;;
  Ok tt.
(** core/matter/tables.rs, hardage *)
Definition t_matter_tables_hardage_24 : outcome unit :=
  let x1 := 89 in
  let x2 := 1 in
  x3 <~ unw (hardage (x1)) ;;
  _ <~ need (same x3 x2) ;;
  Ok tt.
(** core/matter/tables.rs, hardage *)
Definition t_matter_tables_hardage_25 : outcome unit :=
  let x1 := 90 in
  let x2 := 1 in
  x3 <~ unw (hardage (x1)) ;;
  _ <~ need (same x3 x2) ;;
  Ok tt.
(** core/matter/tables.rs, hardage *)
Definition t_matter_tables_hardage_26 : outcome unit :=
  let x1 := 97 in
  let x2 := 1 in
  x3 <~ unw (hardage (x1)) ;;
  _ <~ need (same x3 x2) ;;
  Ok tt.
(** core/matter/tables.rs, hardage *)
Definition t_matter_tables_hardage_27 : outcome unit :=
  let x1 := 98 in
  let x2 := 1 in
  x3 <~ unw (hardage (x1)) ;;
  _ <~ need (same x3 x2) ;;
  Ok tt.
(** core/matter/tables.rs, hardage *)
Definition t_matter_tables_hardage_28 : outcome unit :=
  let x1 := 99 in
  let x2 := 1 in
  x3 <~ unw (hardage (x1)) ;;
  _ <~ need (same x3 x2) ;;
  Ok tt.
(** core/matter/tables.rs, hardage *)
Definition t_matter_tables_hardage_29 : outcome unit :=
  let x1 := 100 in
  let x2 := 1 in
  x3 <~ unw (hardage (x1)) ;;
  _ <~ need (same x3 x2) ;;
  Ok tt.
(** core/matter/tables.rs, hardage *)
Definition t_matter_tables_hardage_30 : outcome unit :=
  let x1 := 101 in
  let x2 := 1 in
  x3 <~ unw (hardage (x1)) ;;
  _ <~ need (same x3 x2) ;;
  Ok tt.
(** core/matter/tables.rs, hardage *)
Definition t_matter_tables_hardage_31 : outcome unit :=
  let x1 := 102 in
  let x2 := 1 in
  x3 <~ unw (hardage (x1)) ;;
  _ <~ need (same x3 x2) ;;
  Ok tt.
(** core/matter/tables.rs, hardage *)
Definition t_matter_tables_hardage_32 : outcome unit :=
  let x1 := 103 in
  let x2 := 1 in
  x3 <~ unw (hardage (x1)) ;;
  _ <~ need (same x3 x2) ;;
  Ok tt.
(** core/matter/tables.rs, hardage *)
Definition t_matter_tables_hardage_33 : outcome unit :=
  let x1 := 104 in
  let x2 := 1 in
  x3 <~ unw (hardage (x1)) ;;
  _ <~ need (same x3 x2) ;;
  Ok tt.
(** core/matter/tables.rs, hardage *)
Definition t_matter_tables_hardage_34 : outcome unit :=
  let x1 := 105 in
  let x2 := 1 in
  x3 <~ unw (hardage (x1)) ;;
  _ <~ need (same x3 x2) ;;
  Ok tt.
(** core/matter/tables.rs, hardage *)
Definition t_matter_tables_hardage_35 : outcome unit :=
  let x1 := 106 in
  let x2 := 1 in
  x3 <~ unw (hardage (x1)) ;;
  _ <~ need (same x3 x2) ;;
  Ok tt.
(** core/matter/tables.rs, hardage *)
Definition t_matter_tables_hardage_36 : outcome unit :=
  let x1 := 107 in
  let x2 := 1 in
  x3 <~ unw (hardage (x1)) ;;
  _ <~ need (same x3 x2) ;;
  Ok tt.
(** core/matter/tables.rs, hardage *)
Definition t_matter_tables_hardage_37 : outcome unit :=
  let x1 := 108 in
  let x2 := 1 in
  x3 <~ unw (hardage (x1)) ;;
  _ <~ need (same x3 x2) ;;
  Ok tt.
(** core/matter/tables.rs, hardage *)
Definition t_matter_tables_hardage_38 : outcome unit :=
  let x1 := 109 in
  let x2 := 1 in
  x3 <~ unw (hardage (x1)) ;;
  _ <~ need (same x3 x2) ;;
  Ok tt.
(** core/matter/tables.rs, hardage *)
Definition t_matter_tables_hardage_39 : outcome unit :=
  let x1 := 110 in
  let x2 := 1 in
  x3 <~ unw (hardage (x1)) ;;
  _ <~ need (same x3 x2) ;;
  Ok tt.
(** core/matter/tables.rs, hardage *)
Definition t_matter_tables_hardage_40 : outcome unit :=
  let x1 := 111 in
  let x2 := 1 in
  x3 <~ unw (hardage (x1)) ;;
  _ <~ need (same x3 x2) ;;
  Ok tt.
(** core/matter/tables.rs, hardage *)
Definition t_matter_tables_hardage_41 : outcome unit :=
  let x1 := 112 in
  let x2 := 1 in
  x3 <~ unw (hardage (x1)) ;;
  _ <~ need (same x3 x2) ;;
  Ok tt.
(** core/matter/tables.rs, hardage *)
Definition t_matter_tables_hardage_42 : outcome unit :=
  let x1 := 113 in
  let x2 := 1 in
  x3 <~ unw (hardage (x1)) ;;
  _ <~ need (same x3 x2) ;;
  Ok tt.
(** core/matter/tables.rs, hardage *)
Definition t_matter_tables_hardage_43 : outcome unit :=
  let x1 := 114 in
  let x2 := 1 in
  x3 <~ unw (hardage (x1)) ;;
  _ <~ need (same x3 x2) ;;
  Ok tt.
(** core/matter/tables.rs, hardage *)
Definition t_matter_tables_hardage_44 : outcome unit :=
  let x1 := 115 in
  let x2 := 1 in
  x3 <~ unw (hardage (x1)) ;;
  _ <~ need (same x3 x2) ;;
  Ok tt.
(** core/matter/tables.rs, hardage *)
Definition t_matter_tables_hardage_45 : outcome unit :=
  let x1 := 116 in
  let x2 := 1 in
  x3 <~ unw (hardage (x1)) ;;
  _ <~ need (same x3 x2) ;;
  Ok tt.
(** core/matter/tables.rs, hardage *)
Definition t_matter_tables_hardage_46 : outcome unit :=
  let x1 := 117 in
  let x2 := 1 in
  x3 <~ unw (hardage (x1)) ;;
  _ <~ need (same x3 x2) ;;
  Ok tt.
(** core/matter/tables.rs, hardage *)
Definition t_matter_tables_hardage_47 : outcome unit :=
  let x1 := 118 in
  let x2 := 1 in
  x3 <~ unw (hardage (x1)) ;;
  _ <~ need (same x3 x2) ;;
  Ok tt.
(** core/matter/tables.rs, hardage *)
Definition t_matter_tables_hardage_48 : outcome unit :=
  let x1 := 119 in
  let x2 := 1 in
  x3 <~ unw (hardage (x1)) ;;
  _ <~ need (same x3 x2) ;;
  Ok tt.
(** core/matter/tables.rs, hardage *)
Definition t_matter_tables_hardage_49 : outcome unit :=
  let x1 := 120 in
  let x2 := 1 in
  x3 <~ unw (hardage (x1)) ;;
  _ <~ need (same x3 x2) ;;
  Ok tt.
(** core/matter/tables.rs, hardage *)
Definition t_matter_tables_hardage_50 : outcome unit :=
  let x1 := 121 in
  let x2 := 1 in
  x3 <~ unw (hardage (x1)) ;;
  _ <~ need (same x3 x2) ;;
  Ok tt.
(** core/matter/tables.rs, hardage *)
Definition t_matter_tables_hardage_51 : outcome unit :=
  let x1 := 122 in
  let x2 := 1 in
  x3 <~ unw (hardage (x1)) ;;
  _ <~ need (same x3 x2) ;;
  Ok tt.
(** core/matter/tables.rs, hardage *)
Definition t_matter_tables_hardage_52 : outcome unit :=
  let x1 := 48 in
  let x2 := 2 in
  x3 <~ unw (hardage (x1)) ;;
  _ <~ need (same x3 x2) ;;
  Ok tt.
(** core/matter/tables.rs, hardage *)
Definition t_matter_tables_hardage_53 : outcome unit :=
  let x1 := 52 in
  let x2 := 2 in
  x3 <~ unw (hardage (x1)) ;;
  _ <~ need (same x3 x2) ;;
  Ok tt.
(** core/matter/tables.rs, hardage *)
Definition t_matter_tables_hardage_54 : outcome unit :=
  let x1 := 53 in
  let x2 := 2 in
  x3 <~ unw (hardage (x1)) ;;
  _ <~ need (same x3 x2) ;;
  Ok tt.
(** core/matter/tables.rs, hardage *)
Definition t_matter_tables_hardage_55 : outcome unit :=
  let x1 := 54 in
  let x2 := 2 in
  x3 <~ unw (hardage (x1)) ;;
  _ <~ need (same x3 x2) ;;
  Ok tt.
(** core/matter/tables.rs, hardage *)
Definition t_matter_tables_hardage_56 : outcome unit :=
  let x1 := 49 in
  let x2 := 4 in
  x3 <~ unw (hardage (x1)) ;;
  _ <~ need (same x3 x2) ;;
  Ok tt.
(** core/matter/tables.rs, hardage *)
Definition t_matter_tables_hardage_57 : outcome unit :=
  let x1 := 50 in
  let x2 := 4 in
  x3 <~ unw (hardage (x1)) ;;
  _ <~ need (same x3 x2) ;;
  Ok tt.
(** core/matter/tables.rs, hardage *)
Definition t_matter_tables_hardage_58 : outcome unit :=
  let x1 := 51 in
  let x2 := 4 in
  x3 <~ unw (hardage (x1)) ;;
  _ <~ need (same x3 x2) ;;
  Ok tt.
(** core/matter/tables.rs, hardage *)
Definition t_matter_tables_hardage_59 : outcome unit :=
  let x1 := 55 in
  let x2 := 4 in
  x3 <~ unw (hardage (x1)) ;;
  _ <~ need (same x3 x2) ;;
  Ok tt.
(** core/matter/tables.rs, hardage *)
Definition t_matter_tables_hardage_60 : outcome unit :=
  let x1 := 56 in
  let x2 := 4 in
  x3 <~ unw (hardage (x1)) ;;
  _ <~ need (same x3 x2) ;;
  Ok tt.
(** core/matter/tables.rs, hardage *)
Definition t_matter_tables_hardage_61 : outcome unit :=
  let x1 := 57 in
  let x2 := 4 in
  x3 <~ unw (hardage (x1)) ;;
  _ <~ need (same x3 x2) ;;
  Ok tt.
(** core/matter/tables.rs, raw_size *)
Definition t_matter_tables_raw_size_0 : outcome unit :=
  x1 <~ unw (raw_size ((s2b "D"))) ;;
  _ <~ need (same x1 32) ;;
  Ok tt.
(** core/matter/tables.rs, unhappy_paths *)
Definition t_matter_tables_unhappy_paths_0 : outcome unit :=
  _ <~ need (errs (hardage (45))) ;;
  _ <~ need (errs (hardage (95))) ;;
  _ <~ need (errs (hardage (35))) ;;
  _ <~ need (errs (bardage (64))) ;;
  _ <~ need (errs (raw_size ((s2b "4B")))) ;;
  Ok tt.
End T.

(** the 50 cases of core/matter/mod.rs *)
Definition matter_mod_cases {P : Profile} : list (outcome unit) :=
  [t_matter_conversion_variable_length_0; t_matter_conversion_variable_length_1; t_matter_conversion_variable_length_2; t_matter_conversion_variable_length_3; t_matter_conversion_variable_length_4; t_matter_conversion_variable_length_5; t_matter_conversion_variable_length_6; t_matter_conversion_variable_length_7; t_matter_conversion_variable_length_8; t_matter_conversion_variable_length_9; t_matter_conversion_variable_length_10; t_matter_conversion_variable_length_11; t_matter_conversion_variable_length_12; t_matter_conversion_variable_length_13; t_matter_conversion_variable_length_14; t_matter_conversion_variable_length_15; t_matter_conversion_variable_length_16; t_matter_conversion_variable_length_17; t_matter_conversion_variable_length_18; t_matter_conversion_variable_length_19; t_matter_conversion_variable_length_20; t_matter_conversion_variable_length_21; t_matter_conversion_variable_length_22; t_matter_conversion_variable_length_23; t_matter_new_variable_length_0; t_matter_new_0; t_matter_defaults_and_overrides_0; t_matter_conversion_0; t_matter_conversion_1; t_matter_conversion_2; t_matter_big_boundary_0; t_matter_unhappy_paths_0; t_matter_full_size_0; t_matter_full_size_1; t_matter_digestive_0; t_matter_digestive_1; t_matter_digestive_2; t_matter_digestive_3; t_matter_digestive_4; t_matter_digestive_5; t_matter_digestive_6; t_matter_digestive_7; t_matter_digestive_8; t_matter_digestive_9; t_matter_transferable_0; t_matter_transferable_1; t_matter_transferable_2; t_matter_transferable_3; t_matter_transferable_4; t_matter_transferable_5].
Example matter_mod_conforms : forall P : Profile, forallb ok matter_mod_cases = true.
Proof. intros [|]; vm_compute; reflexivity. Qed.
(** the 114 cases of core/matter/tables.rs *)
Definition matter_tables_cases {P : Profile} : list (outcome unit) :=
  [t_matter_tables_sizage_0; t_matter_tables_sizage_1; t_matter_tables_sizage_2; t_matter_tables_sizage_3; t_matter_tables_sizage_4; t_matter_tables_sizage_5; t_matter_tables_sizage_6; t_matter_tables_sizage_7; t_matter_tables_sizage_8; t_matter_tables_sizage_9; t_matter_tables_sizage_10; t_matter_tables_sizage_11; t_matter_tables_sizage_12; t_matter_tables_sizage_13; t_matter_tables_sizage_14; t_matter_tables_sizage_15; t_matter_tables_sizage_16; t_matter_tables_sizage_17; t_matter_tables_sizage_18; t_matter_tables_sizage_19; t_matter_tables_sizage_20; t_matter_tables_sizage_21; t_matter_tables_sizage_22; t_matter_tables_sizage_23; t_matter_tables_sizage_24; t_matter_tables_sizage_25; t_matter_tables_sizage_26; t_matter_tables_sizage_27; t_matter_tables_sizage_28; t_matter_tables_sizage_29; t_matter_tables_sizage_30; t_matter_tables_sizage_31; t_matter_tables_sizage_32; t_matter_tables_sizage_33; t_matter_tables_sizage_34; t_matter_tables_sizage_35; t_matter_tables_sizage_36; t_matter_tables_sizage_37; t_matter_tables_sizage_38; t_matter_tables_sizage_39; t_matter_tables_sizage_40; t_matter_tables_sizage_41; t_matter_tables_sizage_42; t_matter_tables_sizage_43; t_matter_tables_sizage_44; t_matter_tables_sizage_45; t_matter_tables_sizage_46; t_matter_tables_sizage_47; t_matter_tables_sizage_48; t_matter_tables_sizage_49; t_matter_tables_hardage_0; t_matter_tables_hardage_1; t_matter_tables_hardage_2; t_matter_tables_hardage_3; t_matter_tables_hardage_4; t_matter_tables_hardage_5; t_matter_tables_hardage_6; t_matter_tables_hardage_7; t_matter_tables_hardage_8; t_matter_tables_hardage_9; t_matter_tables_hardage_10; t_matter_tables_hardage_11; t_matter_tables_hardage_12; t_matter_tables_hardage_13; t_matter_tables_hardage_14; t_matter_tables_hardage_15; t_matter_tables_hardage_16; t_matter_tables_hardage_17; t_matter_tables_hardage_18; t_matter_tables_hardage_19; t_matter_tables_hardage_20; t_matter_tables_hardage_21; t_matter_tables_hardage_22; t_matter_tables_hardage_23; t_matter_tables_hardage_24; t_matter_tables_hardage_25; t_matter_tables_hardage_26; t_matter_tables_hardage_27; t_matter_tables_hardage_28; t_matter_tables_hardage_29; t_matter_tables_hardage_30; t_matter_tables_hardage_31; t_matter_tables_hardage_32; t_matter_tables_hardage_33; t_matter_tables_hardage_34; t_matter_tables_hardage_35; t_matter_tables_hardage_36; t_matter_tables_hardage_37; t_matter_tables_hardage_38; t_matter_tables_hardage_39; t_matter_tables_hardage_40; t_matter_tables_hardage_41; t_matter_tables_hardage_42; t_matter_tables_hardage_43; t_matter_tables_hardage_44; t_matter_tables_hardage_45; t_matter_tables_hardage_46; t_matter_tables_hardage_47; t_matter_tables_hardage_48; t_matter_tables_hardage_49; t_matter_tables_hardage_50; t_matter_tables_hardage_51; t_matter_tables_hardage_52; t_matter_tables_hardage_53; t_matter_tables_hardage_54; t_matter_tables_hardage_55; t_matter_tables_hardage_56; t_matter_tables_hardage_57; t_matter_tables_hardage_58; t_matter_tables_hardage_59; t_matter_tables_hardage_60; t_matter_tables_hardage_61; t_matter_tables_raw_size_0; t_matter_tables_unhappy_paths_0].
Example matter_tables_conforms : forall P : Profile, forallb ok matter_tables_cases = true.
Proof. intros [|]; vm_compute; reflexivity. Qed.
