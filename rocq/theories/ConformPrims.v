(** The unit tests of /repo/src/core/cigar.rs, /repo/src/core/diger.rs, /repo/src/core/salter.rs, /repo/src/core/siger.rs, /repo/src/core/signer.rs, /repo/src/core/verfer.rs, /repo/src/crypto/hash.rs, /repo/src/crypto/sign.rs on the model: written by tools/mkconform.py.
    Every definition is one case of a test function; it is [Ok tt] if all assertions hold. *)
From Verif Require Import Base Utf8 B64 Util StdStr MatterTables Matter CounterTables Counter IndexerTables Indexer Crypto Prims Signer Data Json Common Saider Tholder Sadder Pather Prefixer Pretty Defaults DataDefs Hash Float ConformDefs.
#[local] Existing Instance test_crypto.
#[local] Existing Instance real_floats.
Section T.
Context {P : Profile}.
(** core/cigar.rs, convenience *)
Definition t_cigar_convenience_0 : outcome unit :=
  let x1 := (s2b "D") in
  let x2 := (s2b "abcdefghijklmnopqrstuvwxyz012345") in
  x3 <~ unw (verfer_new ((Some x1)) ((Some x2)) (None) (None) (None)) ;;
  let x4 := x3 in
  let x5 := (s2b "0B") in
  let x6 := (s2b "0123456789abcdefghijklmnopqrstuvwxyzABCDEFGHIJKLMNOPQRSTUVWXYZ[]") in
  x7 <~ unw (cigar_new ((Some x4)) ((Some x5)) ((Some x6)) (None) (None) (None)) ;;
  let x8 := x7 in
  _ <~ need (ok (cigar_new ((Some x4)) ((Some (m_code (cg_matter x8)))) (Some (m_raw (cg_matter x8))) None None None)) ;;
  x9 <~ unw (matter_qb64b (cg_matter x8)) ;;
  _ <~ need (ok (cigar_new ((Some x4)) None None (Some x9) None None)) ;;
  x10 <~ unw (matter_qb64 (cg_matter x8)) ;;
  _ <~ need (ok (cigar_new ((Some x4)) None None None (Some x10) None)) ;;
  x11 <~ unw (matter_qb2 (cg_matter x8)) ;;
  _ <~ need (ok (cigar_new ((Some x4)) None None None None (Some x11))) ;;
  Ok tt.
(** core/cigar.rs, new *)
Definition t_cigar_new_0 : outcome unit :=
  let x1 := (s2b "D") in
  let x2 := (s2b "abcdefghijklmnopqrstuvwxyz012345") in
  x3 <~ unw (verfer_new ((Some x1)) ((Some x2)) (None) (None) (None)) ;;
  let x4 := x3 in
  let x5 := (s2b "0B") in
  let x6 := (s2b "0123456789abcdefghijklmnopqrstuvwxyzABCDEFGHIJKLMNOPQRSTUVWXYZ[]") in
  _ <~ need (ok (cigar_new ((Some x4)) ((Some x5)) ((Some x6)) (None) (None) (None))) ;;
  _ <~ need (ok (cigar_new (None) ((Some x5)) ((Some x6)) (None) (None) (None))) ;;
  Ok tt.
(** core/cigar.rs, new_with_code_and_raw *)
Definition t_cigar_new_with_code_and_raw_0 : outcome unit :=
  let x1 := (s2b "D") in
  let x2 := (s2b "abcdefghijklmnopqrstuvwxyz012345") in
  x3 <~ unw (verfer_new ((Some x1)) ((Some x2)) (None) (None) (None)) ;;
  let x4 := x3 in
  let x5 := (s2b "0B") in
  let x6 := (s2b "0123456789abcdefghijklmnopqrstuvwxyzABCDEFGHIJKLMNOPQRSTUVWXYZ[]") in
  x7 <~ unw (cigar_new ((Some x4)) ((Some x5)) ((Some x6)) (None) (None) (None)) ;;
  let x8 := x7 in
  _ <~ need (same (m_code (cg_matter x8)) x5) ;;
  _ <~ need (same (m_raw (cg_matter x8)) x6) ;;
  _ <~ need (same (m_raw (cg_verfer x8)) (m_raw x4)) ;;
  _ <~ need (same (m_code (cg_verfer x8)) (m_code x4)) ;;
  Ok tt.
(** core/cigar.rs, new_with_qb64 *)
Definition t_cigar_new_with_qb64_0 : outcome unit :=
  let x1 := (s2b "0BCdI8OSQkMJ9r-xigjEByEjIua7LHH3AOJ22PQKqljMhuhcgh9nGRcKnsz5KvKd7K_H9-1298F4Id1DxvIoEmCQ") in
  let x2 := (s2b "D") in
  let x3 := (s2b "abcdefghijklmnopqrstuvwxyz012345") in
  x4 <~ unw (verfer_new ((Some x2)) ((Some x3)) (None) (None) (None)) ;;
  let x5 := x4 in
  x6 <~ unw (cigar_new ((Some x5)) (None) (None) (None) ((Some x1)) (None)) ;;
  let x7 := x6 in
  _ <~ need (same (m_code (cg_matter x7)) (s2b "0B")) ;;
  x8 <~ unw (matter_qb64 (cg_matter x7)) ;;
  _ <~ need (same x8 x1) ;;
  _ <~ need (same (m_raw (cg_verfer x7)) (m_raw x5)) ;;
  _ <~ need (same (m_code (cg_verfer x7)) (m_code x5)) ;;
  Ok tt.
(** core/cigar.rs, new_with_qb64b *)
Definition t_cigar_new_with_qb64b_0 : outcome unit :=
  let x1 := (s2b "0BCdI8OSQkMJ9r-xigjEByEjIua7LHH3AOJ22PQKqljMhuhcgh9nGRcKnsz5KvKd7K_H9-1298F4Id1DxvIoEmCQ") in
  let x2 := (s2b "D") in
  let x3 := (s2b "abcdefghijklmnopqrstuvwxyz012345") in
  x4 <~ unw (verfer_new ((Some x2)) ((Some x3)) (None) (None) (None)) ;;
  let x5 := x4 in
  x6 <~ unw (cigar_new ((Some x5)) (None) (None) ((Some x1)) (None) (None)) ;;
  let x7 := x6 in
  _ <~ need (same (m_code (cg_matter x7)) (s2b "0B")) ;;
  x8 <~ unw (matter_qb64b (cg_matter x7)) ;;
  _ <~ need (same x8 x1) ;;
  _ <~ need (same (m_raw (cg_verfer x7)) (m_raw x5)) ;;
  _ <~ need (same (m_code (cg_verfer x7)) (m_code x5)) ;;
  Ok tt.
(** core/cigar.rs, new_with_qb2 *)
Definition t_cigar_new_with_qb2_0 : outcome unit :=
  let x1 := [208; 16; 157; 35; 195; 146; 66; 67; 9; 246; 191; 177; 138; 8; 196; 7; 33; 35; 34; 230; 187; 44; 113; 247; 0; 226; 118; 216; 244; 10; 170; 88; 204; 134; 232; 92; 130; 31; 103; 25; 23; 10; 158; 204; 249; 42; 242; 157; 236; 175; 199; 247; 237; 118; 247; 193; 120; 33; 221; 67; 198; 242; 40; 18; 96; 144] in
  let x2 := (s2b "D") in
  let x3 := (s2b "abcdefghijklmnopqrstuvwxyz012345") in
  x4 <~ unw (verfer_new ((Some x2)) ((Some x3)) (None) (None) (None)) ;;
  let x5 := x4 in
  x6 <~ unw (cigar_new ((Some x5)) (None) (None) (None) (None) ((Some x1))) ;;
  let x7 := x6 in
  _ <~ need (same (m_code (cg_matter x7)) (s2b "0B")) ;;
  x8 <~ unw (matter_qb2 (cg_matter x7)) ;;
  _ <~ need (same x8 x1) ;;
  _ <~ need (same (m_raw (cg_verfer x7)) (m_raw x5)) ;;
  _ <~ need (same (m_code (cg_verfer x7)) (m_code x5)) ;;
  Ok tt.
(** core/cigar.rs, set_verfer *)
Definition t_cigar_set_verfer_0 : outcome unit :=
  let x1 := (s2b "0BCdI8OSQkMJ9r-xigjEByEjIua7LHH3AOJ22PQKqljMhuhcgh9nGRcKnsz5KvKd7K_H9-1298F4Id1DxvIoEmCQ") in
  let x2 := (s2b "D") in
  let x3 := (s2b "abcdefghijklmnopqrstuvwxyz012345") in
  x4 <~ unw (verfer_new ((Some x2)) ((Some x3)) (None) (None) (None)) ;;
  let x5 := x4 in
  x6 <~ unw (cigar_new ((Some x5)) (None) (None) (None) ((Some x1)) (None)) ;;
  let x7 := x6 in
  let x8 := (s2b "B") in
  let x9 := (s2b "abcdefghijklmnopqrstuvwxyz543210") in
  x10 <~ unw (verfer_new ((Some x8)) ((Some x9)) (None) (None) (None)) ;;
  let x11 := x10 in
  _ <~ need (negb (same (m_raw (cg_verfer x7)) x9)) ;;
  let x12 := (Cig (cg_matter x7) x11) in
  _ <~ need (same (m_raw (cg_verfer x12)) x9) ;;
  Ok tt.
(** core/cigar.rs, unhappy_paths *)
Definition t_cigar_unhappy_paths_0 : outcome unit :=
  let x1 := (s2b "D") in
  let x2 := (s2b "abcdefghijklmnopqrstuvwxyz012345") in
  x3 <~ unw (verfer_new ((Some x1)) ((Some x2)) (None) (None) (None)) ;;
  let x4 := x3 in
  _ <~ need (errs (cigar_new ((Some x4)) ((Some (s2b "CESR"))) ((Some [])) (None) (None) (None))) ;;
  Ok tt.
(** core/diger.rs, convenience *)
Definition t_diger_convenience_0 : outcome unit :=
  let x1 := (s2b "abcdefg") in
  x2 <~ unw (diger_new ((Some x1)) (None) (None) (None) (None) (None)) ;;
  let x3 := x2 in
  _ <~ need (ok (diger_new (Some x1) (None) None None None None)) ;;
  _ <~ need (ok (diger_new None ((Some (m_code x3))) (Some (m_raw x3)) None None None)) ;;
  x4 <~ unw (matter_qb64b x3) ;;
  _ <~ need (ok (diger_new None None None (Some x4) None None)) ;;
  x5 <~ unw (matter_qb64 x3) ;;
  _ <~ need (ok (diger_new None None None None (Some x5) None)) ;;
  x6 <~ unw (matter_qb2 x3) ;;
  _ <~ need (ok (diger_new None None None None None (Some x6))) ;;
  Ok tt.
(** core/diger.rs, conversions *)
Definition t_diger_conversions_0 : outcome unit :=
  let x1 := (s2b "E") in
  let x2 := (s2b "abcdefghijklmnopqrstuvwxyz0123456789") in
  x3 <~ unw (diger_new ((Some x2)) ((Some x1)) (None) (None) (None) (None)) ;;
  let x4 := x3 in
  x5 <~ unw (diger_new (None) ((Some x1)) ((Some (m_raw x4))) (None) (None) (None)) ;;
  let x6 := x5 in
  x7 <~ unw (matter_qb64 x6) ;;
  x8 <~ unw (matter_qb64 x4) ;;
  _ <~ need (same x7 x8) ;;
  x9 <~ unw (matter_qb64b x6) ;;
  x10 <~ unw (matter_qb64b x4) ;;
  _ <~ need (same x9 x10) ;;
  x11 <~ unw (matter_qb2 x6) ;;
  x12 <~ unw (matter_qb2 x4) ;;
  _ <~ need (same x11 x12) ;;
  _ <~ need (same (m_code x6) (m_code x4)) ;;
  Ok tt.
(** core/diger.rs, conversions *)
Definition t_diger_conversions_1 : outcome unit :=
  let x1 := (s2b "E") in
  let x2 := (s2b "abcdefghijklmnopqrstuvwxyz0123456789") in
  x3 <~ unw (diger_new ((Some x2)) ((Some x1)) (None) (None) (None) (None)) ;;
  let x4 := x3 in
  x5 <~ unw (matter_qb64b x4) ;;
  x6 <~ unw (diger_new (None) (None) (None) ((Some x5)) (None) (None)) ;;
  let x7 := x6 in
  x8 <~ unw (matter_qb64 x7) ;;
  x9 <~ unw (matter_qb64 x4) ;;
  _ <~ need (same x8 x9) ;;
  x10 <~ unw (matter_qb64b x7) ;;
  x11 <~ unw (matter_qb64b x4) ;;
  _ <~ need (same x10 x11) ;;
  x12 <~ unw (matter_qb2 x7) ;;
  x13 <~ unw (matter_qb2 x4) ;;
  _ <~ need (same x12 x13) ;;
  _ <~ need (same (m_code x7) (m_code x4)) ;;
  Ok tt.
(** core/diger.rs, conversions *)
Definition t_diger_conversions_2 : outcome unit :=
  let x1 := (s2b "E") in
  let x2 := (s2b "abcdefghijklmnopqrstuvwxyz0123456789") in
  x3 <~ unw (diger_new ((Some x2)) ((Some x1)) (None) (None) (None) (None)) ;;
  let x4 := x3 in
  x5 <~ unw (matter_qb64 x4) ;;
  x6 <~ unw (diger_new (None) (None) (None) (None) ((Some x5)) (None)) ;;
  let x7 := x6 in
  x8 <~ unw (matter_qb64 x7) ;;
  x9 <~ unw (matter_qb64 x4) ;;
  _ <~ need (same x8 x9) ;;
  x10 <~ unw (matter_qb64b x7) ;;
  x11 <~ unw (matter_qb64b x4) ;;
  _ <~ need (same x10 x11) ;;
  x12 <~ unw (matter_qb2 x7) ;;
  x13 <~ unw (matter_qb2 x4) ;;
  _ <~ need (same x12 x13) ;;
  _ <~ need (same (m_code x7) (m_code x4)) ;;
  Ok tt.
(** core/diger.rs, conversions *)
Definition t_diger_conversions_3 : outcome unit :=
  let x1 := (s2b "E") in
  let x2 := (s2b "abcdefghijklmnopqrstuvwxyz0123456789") in
  x3 <~ unw (diger_new ((Some x2)) ((Some x1)) (None) (None) (None) (None)) ;;
  let x4 := x3 in
  x5 <~ unw (matter_qb2 x4) ;;
  x6 <~ unw (diger_new (None) (None) (None) (None) (None) ((Some x5))) ;;
  let x7 := x6 in
  x8 <~ unw (matter_qb64 x7) ;;
  x9 <~ unw (matter_qb64 x4) ;;
  _ <~ need (same x8 x9) ;;
  x10 <~ unw (matter_qb64b x7) ;;
  x11 <~ unw (matter_qb64b x4) ;;
  _ <~ need (same x10 x11) ;;
  x12 <~ unw (matter_qb2 x7) ;;
  x13 <~ unw (matter_qb2 x4) ;;
  _ <~ need (same x12 x13) ;;
  _ <~ need (same (m_code x7) (m_code x4)) ;;
  Ok tt.
(** core/diger.rs, invalid *)
Definition t_diger_invalid_0 : outcome unit :=
  let x1 := (s2b "E") in
  let x2 := (s2b "abcdefghijklmnopqrstuvwxyz0123456789") in
  x3 <~ unw (matter_new ((Some (s2b "D"))) ((Some x2)) (None) (None) (None)) ;;
  let x4 := x3 in
  x5 <~ unw (matter_qb64b x4) ;;
  let x6 := (errs (diger_new (None) (None) (None) ((Some x5)) (None) (None))) in
  _ <~ need x6 ;;
  Ok tt.
(** core/diger.rs, invalid *)
Definition t_diger_invalid_1 : outcome unit :=
  let x1 := (s2b "E") in
  let x2 := (s2b "abcdefghijklmnopqrstuvwxyz0123456789") in
  x3 <~ unw (matter_new ((Some (s2b "D"))) ((Some x2)) (None) (None) (None)) ;;
  let x4 := x3 in
  x5 <~ unw (matter_qb64 x4) ;;
  let x6 := (errs (diger_new (None) (None) (None) (None) ((Some x5)) (None))) in
  _ <~ need x6 ;;
  Ok tt.
(** core/diger.rs, invalid *)
Definition t_diger_invalid_2 : outcome unit :=
  let x1 := (s2b "E") in
  let x2 := (s2b "abcdefghijklmnopqrstuvwxyz0123456789") in
  x3 <~ unw (matter_new ((Some (s2b "D"))) ((Some x2)) (None) (None) (None)) ;;
  let x4 := x3 in
  x5 <~ unw (matter_qb2 x4) ;;
  let x6 := (errs (diger_new (None) (None) (None) (None) (None) ((Some x5)))) in
  _ <~ need x6 ;;
  Ok tt.
(** core/diger.rs, compare *)
Definition t_diger_compare_0 : outcome unit :=
  let x1 := (s2b "E") in
  let x2 := [225; 190; 77; 122; 138; 181; 86; 10; 164; 25; 158; 234; 51; 152; 73; 186; 142; 41; 61; 85; 202; 10; 129; 0; 103; 38; 209; 132; 81; 158; 100; 127] in
  let x3 := [0; 1; 2] in
  x4 <~ unw (diger_new (None) ((Some x1)) ((Some x2)) (None) (None) (None)) ;;
  let x5 := x4 in
  x6 <~ unw (matter_qb64b x5) ;;
  let x7 := x6 in
  x8 <~ unw (diger_compare x5 (x3) ((Some x7)) (None)) ;;
  _ <~ need x8 ;;
  x9 <~ unw (diger_compare x5 (x3) (None) ((Some x5))) ;;
  _ <~ need x9 ;;
  _ <~ need (errs (diger_compare x5 (x3) (None) (None))) ;;
  Ok tt.
(** core/diger.rs, verify *)
Definition t_diger_verify_0 : outcome unit :=
  let x1 := [225; 190; 77; 122; 138; 181; 86; 10; 164; 25; 158; 234; 51; 152; 73; 186; 142; 41; 61; 85; 202; 10; 129; 0; 103; 38; 209; 132; 81; 158; 100; 127; 91; 73; 184; 47; 128; 90; 83; 140; 104; 145; 92; 26; 232; 3; 92; 144; 15; 209; 212; 177; 57; 2; 146; 15; 208; 94; 20; 80; 130; 47; 54; 222] in
  x2 <~ unw (diger_new (None) ((Some (s2b "0D"))) ((Some x1)) (None) (None) (None)) ;;
  let x3 := x2 in
  x4 <~ unw (diger_verify x3 ([0; 1; 2])) ;;
  _ <~ need x4 ;;
  Ok tt.
(** core/diger.rs, compare_dig *)
Definition t_diger_compare_dig_0 : outcome unit :=
  let x1 := (s2b "E") in
  let x2 := [225; 190; 77; 122; 138; 181; 86; 10; 164; 25; 158; 234; 51; 152; 73; 186; 142; 41; 61; 85; 202; 10; 129; 0; 103; 38; 209; 132; 81; 158; 100; 127] in
  let x3 := [0; 1; 2] in
  x4 <~ unw (diger_new (None) ((Some x1)) ((Some x2)) (None) (None) (None)) ;;
  let x5 := x4 in
  x6 <~ unw (matter_qb64b x5) ;;
  let x7 := x6 in
  x8 <~ unw (diger_compare x5 (x3) ((Some x7)) (None)) ;;
  _ <~ need x8 ;;
  x9 <~ unw (nth_error x7 (N.to_nat 30)) ;;
  let x10 := x9 in
  let x11 := (if (same x10 0) then 63 else (x10 - 1)%N) in
  let x12 := upd x7 (N.to_nat 30) x11 in
  x13 <~ unw (diger_compare x5 (x3) ((Some x12)) (None)) ;;
  _ <~ need (negb x13) ;;
  let x14 := (s2b "F") in
  x15 <~ unw (digest (x14) (x3)) ;;
  let x16 := x15 in
  x17 <~ unw (matter_new ((Some x14)) ((Some x16)) (None) (None) (None)) ;;
  let x18 := x17 in
  x19 <~ unw (matter_qb64b x18) ;;
  x20 <~ unw (diger_compare x5 (x3) ((Some x19)) (None)) ;;
  _ <~ need x20 ;;
  x21 <~ unw (digest (x14) ([0; 1; 2; 3])) ;;
  let x22 := x21 in
  x23 <~ unw (matter_new ((Some x14)) ((Some x22)) (None) (None) (None)) ;;
  let x24 := x23 in
  x25 <~ unw (matter_qb64b x24) ;;
  x26 <~ unw (diger_compare x5 (x3) ((Some x25)) (None)) ;;
  _ <~ need (negb x26) ;;
  Ok tt.
(** core/diger.rs, compare_diger *)
Definition t_diger_compare_diger_0 : outcome unit :=
  let x1 := (s2b "E") in
  let x2 := [225; 190; 77; 122; 138; 181; 86; 10; 164; 25; 158; 234; 51; 152; 73; 186; 142; 41; 61; 85; 202; 10; 129; 0; 103; 38; 209; 132; 81; 158; 100; 127] in
  let x3 := [0; 1; 2] in
  x4 <~ unw (diger_new (None) ((Some x1)) ((Some x2)) (None) (None) (None)) ;;
  let x5 := x4 in
  x6 <~ unw (matter_qb64b x5) ;;
  let x7 := x6 in
  x8 <~ unw (diger_new (None) (None) (None) ((Some x7)) (None) (None)) ;;
  let x9 := x8 in
  x10 <~ unw (diger_compare x5 (x3) (None) ((Some x9))) ;;
  _ <~ need x10 ;;
  x11 <~ unw (nth_error x7 (N.to_nat 30)) ;;
  let x12 := x11 in
  let x13 := (if (same x12 0) then 63 else (x12 - 1)%N) in
  let x14 := upd x7 (N.to_nat 30) x13 in
  x15 <~ unw (diger_new (None) (None) (None) ((Some x14)) (None) (None)) ;;
  let x16 := x15 in
  x17 <~ unw (diger_compare x5 (x3) (None) ((Some x16))) ;;
  _ <~ need (negb x17) ;;
  let x18 := (s2b "F") in
  x19 <~ unw (digest (x18) (x3)) ;;
  let x20 := x19 in
  x21 <~ unw (diger_new (None) ((Some x18)) ((Some x20)) (None) (None) (None)) ;;
  let x22 := x21 in
  x23 <~ unw (diger_compare x5 (x3) (None) ((Some x22))) ;;
  _ <~ need x23 ;;
  x24 <~ unw (digest (x18) ([0; 1; 2; 3])) ;;
  let x25 := x24 in
  x26 <~ unw (diger_new (None) ((Some x18)) ((Some x25)) (None) (None) (None)) ;;
  let x27 := x26 in
  x28 <~ unw (diger_compare x5 (x3) (None) ((Some x27))) ;;
  _ <~ need (negb x28) ;;
  Ok tt.
(** core/diger.rs, python_interop *)
Definition t_diger_python_interop_0 : outcome unit :=
  let x1 := (s2b "abcdefghijklmnopqrstuvwxyz0123456789") in
  x2 <~ unw (diger_new ((Some x1)) ((Some (s2b "E"))) (None) (None) (None) (None)) ;;
  let x3 := x2 in
  x4 <~ unw (diger_new ((Some x1)) ((Some (s2b "H"))) (None) (None) (None) (None)) ;;
  let x5 := x4 in
  x6 <~ unw (diger_new ((Some x1)) ((Some (s2b "F"))) (None) (None) (None) (None)) ;;
  let x7 := x6 in
  x8 <~ unw (diger_compare x3 (x1) (None) ((Some x5))) ;;
  _ <~ need x8 ;;
  x9 <~ unw (diger_compare x3 (x1) (None) ((Some x7))) ;;
  _ <~ need x9 ;;
  x10 <~ unw (diger_compare x5 (x1) (None) ((Some x7))) ;;
  _ <~ need x10 ;;
  x11 <~ unw (matter_qb64b x5) ;;
  x12 <~ unw (diger_compare x3 (x1) ((Some x11)) (None)) ;;
  _ <~ need x12 ;;
  x13 <~ unw (matter_qb64b x7) ;;
  x14 <~ unw (diger_compare x3 (x1) ((Some x13)) (None)) ;;
  _ <~ need x14 ;;
  x15 <~ unw (matter_qb64b x7) ;;
  x16 <~ unw (diger_compare x5 (x1) ((Some x15)) (None)) ;;
  _ <~ need x16 ;;
  let x17 := (s2b "ABCDEFGHIJKLMNOPQSTUVWXYXZabcdefghijklmnopqrstuvwxyz0123456789") in
  x18 <~ unw (diger_new ((Some x17)) ((Some (s2b "E"))) (None) (None) (None) (None)) ;;
  let x19 := x18 in
  x20 <~ unw (diger_compare x3 (x1) (None) ((Some x19))) ;;
  _ <~ need (negb x20) ;;
  x21 <~ unw (matter_qb64b x19) ;;
  x22 <~ unw (diger_compare x3 (x1) ((Some x21)) (None)) ;;
  _ <~ need (negb x22) ;;
  x23 <~ unw (diger_new ((Some x17)) ((Some (s2b "H"))) (None) (None) (None) (None)) ;;
  let x24 := x23 in
  x25 <~ unw (diger_compare x3 (x1) (None) ((Some x24))) ;;
  _ <~ need (negb x25) ;;
  x26 <~ unw (matter_qb64b x24) ;;
  x27 <~ unw (diger_compare x3 (x1) ((Some x26)) (None)) ;;
  _ <~ need (negb x27) ;;
  Ok tt.
(** core/diger.rs, unhappy_paths *)
Definition t_diger_unhappy_paths_0 : outcome unit :=
  _ <~ need (errs (diger_new (None) (None) (None) (None) (None) (None))) ;;
  Ok tt.
(** core/salter.rs, convenience *)
Definition t_salter_convenience_0 : outcome unit :=
  x1 <~ unw (salter_new 0 (None) None None None None None) ;;
  let x2 := x1 in
  _ <~ need (ok (salter_new 0 (None) None None None None None)) ;;
  _ <~ need (ok (salter_new 0 (None) ((Some (m_code (sl_matter x2)))) (Some (m_raw (sl_matter x2))) None None None)) ;;
  x3 <~ unw (matter_qb64b (sl_matter x2)) ;;
  _ <~ need (ok (salter_new 0 (None) None None (Some x3) None None)) ;;
  x4 <~ unw (matter_qb64 (sl_matter x2)) ;;
  _ <~ need (ok (salter_new 0 (None) None None None (Some x4) None)) ;;
  x5 <~ unw (matter_qb2 (sl_matter x2)) ;;
  _ <~ need (ok (salter_new 0 (None) None None None None (Some x5))) ;;
  Ok tt.
(** core/siger.rs, convenience *)
Definition t_siger_convenience_0 : outcome unit :=
  let x1 := (s2b "D") in
  let x2 := (s2b "abcdefghijklmnopqrstuvwxyz012345") in
  x3 <~ unw (verfer_new ((Some x1)) ((Some x2)) (None) (None) (None)) ;;
  let x4 := x3 in
  let x5 := (s2b "A") in
  let x6 := (s2b "0123456789abcdefghijklmnopqrstuvwxyzABCDEFGHIJKLMNOPQRSTUVWXYZ[]") in
  x7 <~ unw (siger_new ((Some x4)) (None) (None) ((Some x5)) ((Some x6)) (None) (None) (None)) ;;
  let x8 := x7 in
  _ <~ need (ok (siger_new ((Some x4)) (None) (None) ((Some (x_code (sg_indexer x8)))) (Some (x_raw (sg_indexer x8))) None None None)) ;;
  x9 <~ unw (indexer_qb64b (sg_indexer x8)) ;;
  _ <~ need (ok (siger_new ((Some x4)) None None None None (Some x9) None None)) ;;
  x10 <~ unw (indexer_qb64 (sg_indexer x8)) ;;
  _ <~ need (ok (siger_new ((Some x4)) None None None None None (Some x10) None)) ;;
  x11 <~ unw (indexer_qb2 (sg_indexer x8)) ;;
  _ <~ need (ok (siger_new ((Some x4)) None None None None None None (Some x11))) ;;
  Ok tt.
(** core/siger.rs, new *)
Definition t_siger_new_0 : outcome unit :=
  let x1 := (s2b "D") in
  let x2 := (s2b "abcdefghijklmnopqrstuvwxyz012345") in
  x3 <~ unw (verfer_new ((Some x1)) ((Some x2)) (None) (None) (None)) ;;
  let x4 := x3 in
  let x5 := (s2b "A") in
  let x6 := (s2b "0123456789abcdefghijklmnopqrstuvwxyzABCDEFGHIJKLMNOPQRSTUVWXYZ[]") in
  _ <~ need (ok (siger_new ((Some x4)) (None) (None) ((Some x5)) ((Some x6)) (None) (None) (None))) ;;
  _ <~ need (ok (siger_new (None) (None) (None) ((Some x5)) ((Some x6)) (None) (None) (None))) ;;
  Ok tt.
(** core/siger.rs, python_interop *)
Definition t_siger_python_interop_0 : outcome unit :=
  _ <~ need (errs (siger_new (None) (None) (None) ((Some (s2b ""))) ((Some (s2b ""))) (None) (None) (None))) ;;
  let x1 := (s2b "AACdI8OSQkMJ9r-xigjEByEjIua7LHH3AOJ22PQKqljMhuhcgh9nGRcKnsz5KvKd7K_H9-1298F4Id1DxvIoEmCQ") in
  let x2 := x1 in
  x3 <~ unw (siger_new (None) (None) (None) (None) (None) ((Some x2)) (None) (None)) ;;
  let x4 := x3 in
  _ <~ need (same (x_code (sg_indexer x4)) (s2b "A")) ;;
  _ <~ need (same (x_index (sg_indexer x4)) 0) ;;
  _ <~ need (same (x_ondex (sg_indexer x4)) 0) ;;
  x5 <~ unw (indexer_qb64 (sg_indexer x4)) ;;
  _ <~ need (same x5 x1) ;;
  _ <~ need (same (sg_verfer x4) verfer_default) ;;
  x6 <~ unw (siger_new (None) (None) (None) (None) (None) (None) ((Some x1)) (None)) ;;
  let x7 := x6 in
  _ <~ need (same (x_code (sg_indexer x7)) (s2b "A")) ;;
  _ <~ need (same (x_index (sg_indexer x7)) 0) ;;
  _ <~ need (same (x_ondex (sg_indexer x7)) 0) ;;
  x8 <~ unw (indexer_qb64 (sg_indexer x7)) ;;
  _ <~ need (same x8 x1) ;;
  _ <~ need (same (sg_verfer x7) verfer_default) ;;
  let x9 := [1; 35; 69; 103; 137; 171; 205; 239; 0; 0; 17; 17; 34; 34; 51; 51; 68; 68; 85; 85; 102; 102; 119; 119; 136; 136; 153; 153; 0; 0; 170; 170] in
  let x10 := (s2b "D") in
  x11 <~ unw (verfer_new ((Some x10)) ((Some x9)) (None) (None) (None)) ;;
  let x12 := x11 in
  let x13 := (Sg (sg_indexer x7) x12) in
  _ <~ need (same (sg_verfer x13) x12) ;;
  x14 <~ unw (siger_new ((Some x12)) (None) (None) (None) (None) (None) ((Some x1)) (None)) ;;
  let x15 := x14 in
  _ <~ need (same (sg_verfer x15) x12) ;;
  Ok tt.
(** core/siger.rs, new_with_code_and_raw *)
Definition t_siger_new_with_code_and_raw_0 : outcome unit :=
  let x1 := [1; 35; 69; 103; 137; 171; 205; 239; 0; 0; 17; 17; 34; 34; 51; 51; 68; 68; 85; 85; 102; 102; 119; 119; 136; 136; 153; 153; 0; 0; 170; 170] in
  let x2 := (s2b "D") in
  x3 <~ unw (verfer_new ((Some x2)) ((Some x1)) (None) (None) (None)) ;;
  let x4 := x3 in
  let x5 := (s2b "A") in
  let x6 := [1; 35; 69; 103; 137; 171; 205; 239; 0; 0; 17; 17; 34; 34; 51; 51; 68; 68; 85; 85; 102; 102; 119; 119; 136; 136; 153; 153; 0; 0; 170; 170; 1; 35; 69; 103; 137; 171; 205; 239; 0; 0; 17; 17; 34; 34; 51; 51; 68; 68; 85; 85; 102; 102; 119; 119; 136; 136; 153; 153; 0; 0; 170; 170] in
  _ <~ need (ok (siger_new ((Some x4)) (None) (None) ((Some x5)) ((Some x6)) (None) (None) (None))) ;;
  _ <~ need (ok (siger_new (None) (None) (None) ((Some x5)) ((Some x6)) (None) (None) (None))) ;;
  Ok tt.
(** core/siger.rs, new_with_qb64b *)
Definition t_siger_new_with_qb64b_0 : outcome unit :=
  let x1 := [1; 35; 69; 103; 137; 171; 205; 239; 0; 0; 17; 17; 34; 34; 51; 51; 68; 68; 85; 85; 102; 102; 119; 119; 136; 136; 153; 153; 0; 0; 170; 170] in
  let x2 := (s2b "D") in
  x3 <~ unw (verfer_new ((Some x2)) ((Some x1)) (None) (None) (None)) ;;
  let x4 := x3 in
  let x5 := (s2b "AACdI8OSQkMJ9r-xigjEByEjIua7LHH3AOJ22PQKqljMhuhcgh9nGRcKnsz5KvKd7K_H9-1298F4Id1DxvIoEmCQ") in
  let x6 := x5 in
  _ <~ need (ok (siger_new ((Some x4)) (None) (None) (None) (None) ((Some x6)) (None) (None))) ;;
  _ <~ need (ok (siger_new (None) (None) (None) (None) (None) ((Some x6)) (None) (None))) ;;
  Ok tt.
(** core/siger.rs, new_with_qb2 *)
Definition t_siger_new_with_qb2_0 : outcome unit :=
  let x1 := [1; 35; 69; 103; 137; 171; 205; 239; 0; 0; 17; 17; 34; 34; 51; 51; 68; 68; 85; 85; 102; 102; 119; 119; 136; 136; 153; 153; 0; 0; 170; 170] in
  let x2 := (s2b "D") in
  x3 <~ unw (verfer_new ((Some x2)) ((Some x1)) (None) (None) (None)) ;;
  let x4 := x3 in
  x5 <~ unw (b64_decode ((s2b "AACdI8OSQkMJ9r-xigjEByEjIua7LHH3AOJ22PQKqljMhuhcgh9nGRcKnsz5KvKd7K_H9-1298F4Id1DxvIoEmCQ"))) ;;
  let x6 := x5 in
  _ <~ need (ok (siger_new ((Some x4)) (None) (None) (None) (None) (None) (None) ((Some x6)))) ;;
  _ <~ need (ok (siger_new (None) (None) (None) (None) (None) (None) (None) ((Some x6)))) ;;
  Ok tt.
(** core/siger.rs, unhappy_paths *)
Definition t_siger_unhappy_paths_0 : outcome unit :=
  _ <~ need (errs (siger_new (None) (None) (None) ((Some (s2b "CESR"))) ((Some [])) (None) (None) (None))) ;;
  Ok tt.
(** core/signer.rs, cigar_siger_raw_material_equivalence *)
Definition t_signer_cigar_siger_raw_material_equivalence_0 : outcome unit :=
  let x1 := (s2b "abcdef") in
  x2 <~ unw (signer_new 0 (None) (None) None None None None) ;;
  let x3 := x2 in
  x4 <~ unw (sign_unindexed x3 0 (x1)) ;;
  let x5 := x4 in
  x6 <~ unw (sign_indexed x3 0 (x1) (false) (0) (None)) ;;
  let x7 := x6 in
  _ <~ need (same (m_raw (cg_matter x5)) (x_raw (sg_indexer x7))) ;;
  Ok tt.
(** core/signer.rs, convenience *)
Definition t_signer_convenience_0 : outcome unit :=
  x1 <~ unw (signer_new 0 (None) (None) (None) (None) (None) (None)) ;;
  let x2 := x1 in
  _ <~ need (ok (signer_new 0 (None) (None) None None None None)) ;;
  _ <~ need (ok (signer_new 0 (None) ((Some (m_code (sn_matter x2)))) (Some (m_raw (sn_matter x2))) None None None)) ;;
  x3 <~ unw (matter_qb64b (sn_matter x2)) ;;
  _ <~ need (ok (signer_new 0 (None) None None (Some x3) None None)) ;;
  x4 <~ unw (matter_qb64 (sn_matter x2)) ;;
  _ <~ need (ok (signer_new 0 (None) None None None (Some x4) None)) ;;
  x5 <~ unw (matter_qb2 (sn_matter x2)) ;;
  _ <~ need (ok (signer_new 0 (None) None None None None (Some x5))) ;;
  Ok tt.
(** core/signer.rs, new *)
Definition t_signer_new_0 : outcome unit :=
  x1 <~ unw (signer_new 0 (None) (None) (None) (None) (None) (None)) ;;
  let x2 := x1 in
  x3 <~ unw (matter_qb64 (sn_matter x2)) ;;
  _ <~ need (ok (signer_new 0 (None) (None) (None) (None) ((Some x3)) (None))) ;;
  Ok tt.
(** core/signer.rs, conversions *)
Definition t_signer_conversions_0 : outcome unit :=
  let x1 := (s2b "A") in
  x2 <~ unw (signer_new 0 ((Some false)) ((Some x1)) (None) (None) (None) (None)) ;;
  let x3 := x2 in
  x4 <~ unw (matter_qb64b (sn_matter x3)) ;;
  _ <~ need (ok (signer_new 0 ((Some true)) (None) (None) ((Some x4)) (None) (None))) ;;
  x5 <~ unw (matter_qb64 (sn_matter x3)) ;;
  _ <~ need (ok (signer_new 0 ((Some true)) (None) (None) (None) ((Some x5)) (None))) ;;
  x6 <~ unw (matter_qb2 (sn_matter x3)) ;;
  _ <~ need (ok (signer_new 0 ((Some true)) (None) (None) (None) (None) ((Some x6)))) ;;
  Ok tt.
(** core/signer.rs, conversions *)
Definition t_signer_conversions_1 : outcome unit :=
  let x1 := (s2b "J") in
  x2 <~ unw (signer_new 0 ((Some false)) ((Some x1)) (None) (None) (None) (None)) ;;
  let x3 := x2 in
  x4 <~ unw (matter_qb64b (sn_matter x3)) ;;
  _ <~ need (ok (signer_new 0 ((Some true)) (None) (None) ((Some x4)) (None) (None))) ;;
  x5 <~ unw (matter_qb64 (sn_matter x3)) ;;
  _ <~ need (ok (signer_new 0 ((Some true)) (None) (None) (None) ((Some x5)) (None))) ;;
  x6 <~ unw (matter_qb2 (sn_matter x3)) ;;
  _ <~ need (ok (signer_new 0 ((Some true)) (None) (None) (None) (None) ((Some x6)))) ;;
  Ok tt.
(** core/signer.rs, conversions *)
Definition t_signer_conversions_2 : outcome unit :=
  let x1 := (s2b "Q") in
  x2 <~ unw (signer_new 0 ((Some false)) ((Some x1)) (None) (None) (None) (None)) ;;
  let x3 := x2 in
  x4 <~ unw (matter_qb64b (sn_matter x3)) ;;
  _ <~ need (ok (signer_new 0 ((Some true)) (None) (None) ((Some x4)) (None) (None))) ;;
  x5 <~ unw (matter_qb64 (sn_matter x3)) ;;
  _ <~ need (ok (signer_new 0 ((Some true)) (None) (None) (None) ((Some x5)) (None))) ;;
  x6 <~ unw (matter_qb2 (sn_matter x3)) ;;
  _ <~ need (ok (signer_new 0 ((Some true)) (None) (None) (None) (None) ((Some x6)))) ;;
  Ok tt.
(** core/signer.rs, sign_ecdsa_256k1_unindexed *)
Definition t_signer_sign_ecdsa_256k1_unindexed_0 : outcome unit :=
  let x1 := (s2b "abcdefghijklmnopqrstuvwxyz0123456789") in
  let x2 := (s2b "abcdefghijklmnopqrstuvwxyz0123456789ABCDEFG") in
  x3 <~ unw (signer_new 0 ((Some true)) ((Some (s2b "J"))) (None) (None) (None) (None)) ;;
  let x4 := x3 in
  x5 <~ unw (sign_unindexed x4 0 (x1)) ;;
  let x6 := x5 in
  _ <~ need (same (m_code (cg_matter x6)) (s2b "0C")) ;;
  x7 <~ unw (verfer_verify (sn_verfer x4) ((m_raw (cg_matter x6))) (x1)) ;;
  _ <~ need x7 ;;
  x8 <~ unw (verfer_verify (sn_verfer x4) ((m_raw (cg_matter x6))) (x2)) ;;
  _ <~ need (negb x8) ;;
  Ok tt.
(** core/signer.rs, sign_ecdsa_256r1_unindexed *)
Definition t_signer_sign_ecdsa_256r1_unindexed_0 : outcome unit :=
  let x1 := (s2b "abcdefghijklmnopqrstuvwxyz0123456789") in
  let x2 := (s2b "abcdefghijklmnopqrstuvwxyz0123456789ABCDEFG") in
  x3 <~ unw (signer_new 0 ((Some true)) ((Some (s2b "Q"))) (None) (None) (None) (None)) ;;
  let x4 := x3 in
  x5 <~ unw (sign_unindexed x4 0 (x1)) ;;
  let x6 := x5 in
  _ <~ need (same (m_code (cg_matter x6)) (s2b "0I")) ;;
  x7 <~ unw (verfer_verify (sn_verfer x4) ((m_raw (cg_matter x6))) (x1)) ;;
  _ <~ need x7 ;;
  x8 <~ unw (verfer_verify (sn_verfer x4) ((m_raw (cg_matter x6))) (x2)) ;;
  _ <~ need (negb x8) ;;
  Ok tt.
(** core/signer.rs, sign_ecdsa_256k1_indexed *)
Definition t_signer_sign_ecdsa_256k1_indexed_0 : outcome unit :=
  let x1 := false in
  let x2 := 0 in
  let x3 : option (N) := None in
  let x4 := 0 in
  let x5 := (s2b "C") in
  let x6 := (s2b "abcdefghijklmnopqrstuvwxyz0123456789") in
  let x7 := (s2b "abcdefghijklmnopqrstuvwxyz0123456789ABCDEFG") in
  x8 <~ unw (signer_new 0 ((Some true)) ((Some (s2b "J"))) (None) (None) (None) (None)) ;;
  let x9 := x8 in
  x10 <~ unw (sign_indexed x9 0 (x6) (x1) (x2) (x3)) ;;
  let x11 := x10 in
  _ <~ need (same (x_code (sg_indexer x11)) x5) ;;
  _ <~ need (same (x_index (sg_indexer x11)) x2) ;;
  _ <~ need (same (x_ondex (sg_indexer x11)) x4) ;;
  x12 <~ unw (verfer_verify (sn_verfer x9) ((x_raw (sg_indexer x11))) (x6)) ;;
  _ <~ need x12 ;;
  x13 <~ unw (verfer_verify (sn_verfer x9) ((x_raw (sg_indexer x11))) (x7)) ;;
  _ <~ need (negb x13) ;;
  Ok tt.
(** core/signer.rs, sign_ecdsa_256k1_indexed *)
Definition t_signer_sign_ecdsa_256k1_indexed_1 : outcome unit :=
  let x1 := false in
  let x2 := 1 in
  let x3 : option (N) := None in
  let x4 := 1 in
  let x5 := (s2b "C") in
  let x6 := (s2b "abcdefghijklmnopqrstuvwxyz0123456789") in
  let x7 := (s2b "abcdefghijklmnopqrstuvwxyz0123456789ABCDEFG") in
  x8 <~ unw (signer_new 0 ((Some true)) ((Some (s2b "J"))) (None) (None) (None) (None)) ;;
  let x9 := x8 in
  x10 <~ unw (sign_indexed x9 0 (x6) (x1) (x2) (x3)) ;;
  let x11 := x10 in
  _ <~ need (same (x_code (sg_indexer x11)) x5) ;;
  _ <~ need (same (x_index (sg_indexer x11)) x2) ;;
  _ <~ need (same (x_ondex (sg_indexer x11)) x4) ;;
  x12 <~ unw (verfer_verify (sn_verfer x9) ((x_raw (sg_indexer x11))) (x6)) ;;
  _ <~ need x12 ;;
  x13 <~ unw (verfer_verify (sn_verfer x9) ((x_raw (sg_indexer x11))) (x7)) ;;
  _ <~ need (negb x13) ;;
  Ok tt.
(** core/signer.rs, sign_ecdsa_256k1_indexed *)
Definition t_signer_sign_ecdsa_256k1_indexed_2 : outcome unit :=
  let x1 := false in
  let x2 := 1 in
  let x3 := (Some 3) in
  let x4 := 3 in
  let x5 := (s2b "2C") in
  let x6 := (s2b "abcdefghijklmnopqrstuvwxyz0123456789") in
  let x7 := (s2b "abcdefghijklmnopqrstuvwxyz0123456789ABCDEFG") in
  x8 <~ unw (signer_new 0 ((Some true)) ((Some (s2b "J"))) (None) (None) (None) (None)) ;;
  let x9 := x8 in
  x10 <~ unw (sign_indexed x9 0 (x6) (x1) (x2) (x3)) ;;
  let x11 := x10 in
  _ <~ need (same (x_code (sg_indexer x11)) x5) ;;
  _ <~ need (same (x_index (sg_indexer x11)) x2) ;;
  _ <~ need (same (x_ondex (sg_indexer x11)) x4) ;;
  x12 <~ unw (verfer_verify (sn_verfer x9) ((x_raw (sg_indexer x11))) (x6)) ;;
  _ <~ need x12 ;;
  x13 <~ unw (verfer_verify (sn_verfer x9) ((x_raw (sg_indexer x11))) (x7)) ;;
  _ <~ need (negb x13) ;;
  Ok tt.
(** core/signer.rs, sign_ecdsa_256k1_indexed *)
Definition t_signer_sign_ecdsa_256k1_indexed_3 : outcome unit :=
  let x1 := false in
  let x2 := 67 in
  let x3 := (Some 3) in
  let x4 := 3 in
  let x5 := (s2b "2C") in
  let x6 := (s2b "abcdefghijklmnopqrstuvwxyz0123456789") in
  let x7 := (s2b "abcdefghijklmnopqrstuvwxyz0123456789ABCDEFG") in
  x8 <~ unw (signer_new 0 ((Some true)) ((Some (s2b "J"))) (None) (None) (None) (None)) ;;
  let x9 := x8 in
  x10 <~ unw (sign_indexed x9 0 (x6) (x1) (x2) (x3)) ;;
  let x11 := x10 in
  _ <~ need (same (x_code (sg_indexer x11)) x5) ;;
  _ <~ need (same (x_index (sg_indexer x11)) x2) ;;
  _ <~ need (same (x_ondex (sg_indexer x11)) x4) ;;
  x12 <~ unw (verfer_verify (sn_verfer x9) ((x_raw (sg_indexer x11))) (x6)) ;;
  _ <~ need x12 ;;
  x13 <~ unw (verfer_verify (sn_verfer x9) ((x_raw (sg_indexer x11))) (x7)) ;;
  _ <~ need (negb x13) ;;
  Ok tt.
(** core/signer.rs, sign_ecdsa_256k1_indexed *)
Definition t_signer_sign_ecdsa_256k1_indexed_4 : outcome unit :=
  let x1 := false in
  let x2 := 67 in
  let x3 := (Some 67) in
  let x4 := 67 in
  let x5 := (s2b "2C") in
  let x6 := (s2b "abcdefghijklmnopqrstuvwxyz0123456789") in
  let x7 := (s2b "abcdefghijklmnopqrstuvwxyz0123456789ABCDEFG") in
  x8 <~ unw (signer_new 0 ((Some true)) ((Some (s2b "J"))) (None) (None) (None) (None)) ;;
  let x9 := x8 in
  x10 <~ unw (sign_indexed x9 0 (x6) (x1) (x2) (x3)) ;;
  let x11 := x10 in
  _ <~ need (same (x_code (sg_indexer x11)) x5) ;;
  _ <~ need (same (x_index (sg_indexer x11)) x2) ;;
  _ <~ need (same (x_ondex (sg_indexer x11)) x4) ;;
  x12 <~ unw (verfer_verify (sn_verfer x9) ((x_raw (sg_indexer x11))) (x6)) ;;
  _ <~ need x12 ;;
  x13 <~ unw (verfer_verify (sn_verfer x9) ((x_raw (sg_indexer x11))) (x7)) ;;
  _ <~ need (negb x13) ;;
  Ok tt.
(** core/signer.rs, sign_ecdsa_256k1_indexed *)
Definition t_signer_sign_ecdsa_256k1_indexed_5 : outcome unit :=
  let x1 := true in
  let x2 := 4 in
  let x3 : option (N) := None in
  let x4 := 0 in
  let x5 := (s2b "D") in
  let x6 := (s2b "abcdefghijklmnopqrstuvwxyz0123456789") in
  let x7 := (s2b "abcdefghijklmnopqrstuvwxyz0123456789ABCDEFG") in
  x8 <~ unw (signer_new 0 ((Some true)) ((Some (s2b "J"))) (None) (None) (None) (None)) ;;
  let x9 := x8 in
  x10 <~ unw (sign_indexed x9 0 (x6) (x1) (x2) (x3)) ;;
  let x11 := x10 in
  _ <~ need (same (x_code (sg_indexer x11)) x5) ;;
  _ <~ need (same (x_index (sg_indexer x11)) x2) ;;
  _ <~ need (same (x_ondex (sg_indexer x11)) x4) ;;
  x12 <~ unw (verfer_verify (sn_verfer x9) ((x_raw (sg_indexer x11))) (x6)) ;;
  _ <~ need x12 ;;
  x13 <~ unw (verfer_verify (sn_verfer x9) ((x_raw (sg_indexer x11))) (x7)) ;;
  _ <~ need (negb x13) ;;
  Ok tt.
(** core/signer.rs, sign_ecdsa_256k1_indexed *)
Definition t_signer_sign_ecdsa_256k1_indexed_6 : outcome unit :=
  let x1 := true in
  let x2 := 4 in
  let x3 := (Some 6) in
  let x4 := 0 in
  let x5 := (s2b "D") in
  let x6 := (s2b "abcdefghijklmnopqrstuvwxyz0123456789") in
  let x7 := (s2b "abcdefghijklmnopqrstuvwxyz0123456789ABCDEFG") in
  x8 <~ unw (signer_new 0 ((Some true)) ((Some (s2b "J"))) (None) (None) (None) (None)) ;;
  let x9 := x8 in
  x10 <~ unw (sign_indexed x9 0 (x6) (x1) (x2) (x3)) ;;
  let x11 := x10 in
  _ <~ need (same (x_code (sg_indexer x11)) x5) ;;
  _ <~ need (same (x_index (sg_indexer x11)) x2) ;;
  _ <~ need (same (x_ondex (sg_indexer x11)) x4) ;;
  x12 <~ unw (verfer_verify (sn_verfer x9) ((x_raw (sg_indexer x11))) (x6)) ;;
  _ <~ need x12 ;;
  x13 <~ unw (verfer_verify (sn_verfer x9) ((x_raw (sg_indexer x11))) (x7)) ;;
  _ <~ need (negb x13) ;;
  Ok tt.
(** core/signer.rs, sign_ecdsa_256k1_indexed *)
Definition t_signer_sign_ecdsa_256k1_indexed_7 : outcome unit :=
  let x1 := true in
  let x2 := 65 in
  let x3 : option (N) := None in
  let x4 := 0 in
  let x5 := (s2b "2D") in
  let x6 := (s2b "abcdefghijklmnopqrstuvwxyz0123456789") in
  let x7 := (s2b "abcdefghijklmnopqrstuvwxyz0123456789ABCDEFG") in
  x8 <~ unw (signer_new 0 ((Some true)) ((Some (s2b "J"))) (None) (None) (None) (None)) ;;
  let x9 := x8 in
  x10 <~ unw (sign_indexed x9 0 (x6) (x1) (x2) (x3)) ;;
  let x11 := x10 in
  _ <~ need (same (x_code (sg_indexer x11)) x5) ;;
  _ <~ need (same (x_index (sg_indexer x11)) x2) ;;
  _ <~ need (same (x_ondex (sg_indexer x11)) x4) ;;
  x12 <~ unw (verfer_verify (sn_verfer x9) ((x_raw (sg_indexer x11))) (x6)) ;;
  _ <~ need x12 ;;
  x13 <~ unw (verfer_verify (sn_verfer x9) ((x_raw (sg_indexer x11))) (x7)) ;;
  _ <~ need (negb x13) ;;
  Ok tt.
(** core/signer.rs, sign_ecdsa_256k1_indexed *)
Definition t_signer_sign_ecdsa_256k1_indexed_8 : outcome unit :=
  let x1 := true in
  let x2 := 65 in
  let x3 := (Some 67) in
  let x4 := 0 in
  let x5 := (s2b "2D") in
  let x6 := (s2b "abcdefghijklmnopqrstuvwxyz0123456789") in
  let x7 := (s2b "abcdefghijklmnopqrstuvwxyz0123456789ABCDEFG") in
  x8 <~ unw (signer_new 0 ((Some true)) ((Some (s2b "J"))) (None) (None) (None) (None)) ;;
  let x9 := x8 in
  x10 <~ unw (sign_indexed x9 0 (x6) (x1) (x2) (x3)) ;;
  let x11 := x10 in
  _ <~ need (same (x_code (sg_indexer x11)) x5) ;;
  _ <~ need (same (x_index (sg_indexer x11)) x2) ;;
  _ <~ need (same (x_ondex (sg_indexer x11)) x4) ;;
  x12 <~ unw (verfer_verify (sn_verfer x9) ((x_raw (sg_indexer x11))) (x6)) ;;
  _ <~ need x12 ;;
  x13 <~ unw (verfer_verify (sn_verfer x9) ((x_raw (sg_indexer x11))) (x7)) ;;
  _ <~ need (negb x13) ;;
  Ok tt.
(** core/signer.rs, sign_ecdsa_256r1_indexed *)
Definition t_signer_sign_ecdsa_256r1_indexed_0 : outcome unit :=
  let x1 := false in
  let x2 := 0 in
  let x3 : option (N) := None in
  let x4 := 0 in
  let x5 := (s2b "E") in
  let x6 := (s2b "abcdefghijklmnopqrstuvwxyz0123456789") in
  let x7 := (s2b "abcdefghijklmnopqrstuvwxyz0123456789ABCDEFG") in
  x8 <~ unw (signer_new 0 ((Some true)) ((Some (s2b "Q"))) (None) (None) (None) (None)) ;;
  let x9 := x8 in
  x10 <~ unw (sign_indexed x9 0 (x6) (x1) (x2) (x3)) ;;
  let x11 := x10 in
  _ <~ need (same (x_code (sg_indexer x11)) x5) ;;
  _ <~ need (same (x_index (sg_indexer x11)) x2) ;;
  _ <~ need (same (x_ondex (sg_indexer x11)) x4) ;;
  x12 <~ unw (verfer_verify (sn_verfer x9) ((x_raw (sg_indexer x11))) (x6)) ;;
  _ <~ need x12 ;;
  x13 <~ unw (verfer_verify (sn_verfer x9) ((x_raw (sg_indexer x11))) (x7)) ;;
  _ <~ need (negb x13) ;;
  Ok tt.
(** core/signer.rs, sign_ecdsa_256r1_indexed *)
Definition t_signer_sign_ecdsa_256r1_indexed_1 : outcome unit :=
  let x1 := false in
  let x2 := 1 in
  let x3 : option (N) := None in
  let x4 := 1 in
  let x5 := (s2b "E") in
  let x6 := (s2b "abcdefghijklmnopqrstuvwxyz0123456789") in
  let x7 := (s2b "abcdefghijklmnopqrstuvwxyz0123456789ABCDEFG") in
  x8 <~ unw (signer_new 0 ((Some true)) ((Some (s2b "Q"))) (None) (None) (None) (None)) ;;
  let x9 := x8 in
  x10 <~ unw (sign_indexed x9 0 (x6) (x1) (x2) (x3)) ;;
  let x11 := x10 in
  _ <~ need (same (x_code (sg_indexer x11)) x5) ;;
  _ <~ need (same (x_index (sg_indexer x11)) x2) ;;
  _ <~ need (same (x_ondex (sg_indexer x11)) x4) ;;
  x12 <~ unw (verfer_verify (sn_verfer x9) ((x_raw (sg_indexer x11))) (x6)) ;;
  _ <~ need x12 ;;
  x13 <~ unw (verfer_verify (sn_verfer x9) ((x_raw (sg_indexer x11))) (x7)) ;;
  _ <~ need (negb x13) ;;
  Ok tt.
(** core/signer.rs, sign_ecdsa_256r1_indexed *)
Definition t_signer_sign_ecdsa_256r1_indexed_2 : outcome unit :=
  let x1 := false in
  let x2 := 1 in
  let x3 := (Some 3) in
  let x4 := 3 in
  let x5 := (s2b "2E") in
  let x6 := (s2b "abcdefghijklmnopqrstuvwxyz0123456789") in
  let x7 := (s2b "abcdefghijklmnopqrstuvwxyz0123456789ABCDEFG") in
  x8 <~ unw (signer_new 0 ((Some true)) ((Some (s2b "Q"))) (None) (None) (None) (None)) ;;
  let x9 := x8 in
  x10 <~ unw (sign_indexed x9 0 (x6) (x1) (x2) (x3)) ;;
  let x11 := x10 in
  _ <~ need (same (x_code (sg_indexer x11)) x5) ;;
  _ <~ need (same (x_index (sg_indexer x11)) x2) ;;
  _ <~ need (same (x_ondex (sg_indexer x11)) x4) ;;
  x12 <~ unw (verfer_verify (sn_verfer x9) ((x_raw (sg_indexer x11))) (x6)) ;;
  _ <~ need x12 ;;
  x13 <~ unw (verfer_verify (sn_verfer x9) ((x_raw (sg_indexer x11))) (x7)) ;;
  _ <~ need (negb x13) ;;
  Ok tt.
(** core/signer.rs, sign_ecdsa_256r1_indexed *)
Definition t_signer_sign_ecdsa_256r1_indexed_3 : outcome unit :=
  let x1 := false in
  let x2 := 67 in
  let x3 := (Some 3) in
  let x4 := 3 in
  let x5 := (s2b "2E") in
  let x6 := (s2b "abcdefghijklmnopqrstuvwxyz0123456789") in
  let x7 := (s2b "abcdefghijklmnopqrstuvwxyz0123456789ABCDEFG") in
  x8 <~ unw (signer_new 0 ((Some true)) ((Some (s2b "Q"))) (None) (None) (None) (None)) ;;
  let x9 := x8 in
  x10 <~ unw (sign_indexed x9 0 (x6) (x1) (x2) (x3)) ;;
  let x11 := x10 in
  _ <~ need (same (x_code (sg_indexer x11)) x5) ;;
  _ <~ need (same (x_index (sg_indexer x11)) x2) ;;
  _ <~ need (same (x_ondex (sg_indexer x11)) x4) ;;
  x12 <~ unw (verfer_verify (sn_verfer x9) ((x_raw (sg_indexer x11))) (x6)) ;;
  _ <~ need x12 ;;
  x13 <~ unw (verfer_verify (sn_verfer x9) ((x_raw (sg_indexer x11))) (x7)) ;;
  _ <~ need (negb x13) ;;
  Ok tt.
(** core/signer.rs, sign_ecdsa_256r1_indexed *)
Definition t_signer_sign_ecdsa_256r1_indexed_4 : outcome unit :=
  let x1 := false in
  let x2 := 67 in
  let x3 := (Some 67) in
  let x4 := 67 in
  let x5 := (s2b "2E") in
  let x6 := (s2b "abcdefghijklmnopqrstuvwxyz0123456789") in
  let x7 := (s2b "abcdefghijklmnopqrstuvwxyz0123456789ABCDEFG") in
  x8 <~ unw (signer_new 0 ((Some true)) ((Some (s2b "Q"))) (None) (None) (None) (None)) ;;
  let x9 := x8 in
  x10 <~ unw (sign_indexed x9 0 (x6) (x1) (x2) (x3)) ;;
  let x11 := x10 in
  _ <~ need (same (x_code (sg_indexer x11)) x5) ;;
  _ <~ need (same (x_index (sg_indexer x11)) x2) ;;
  _ <~ need (same (x_ondex (sg_indexer x11)) x4) ;;
  x12 <~ unw (verfer_verify (sn_verfer x9) ((x_raw (sg_indexer x11))) (x6)) ;;
  _ <~ need x12 ;;
  x13 <~ unw (verfer_verify (sn_verfer x9) ((x_raw (sg_indexer x11))) (x7)) ;;
  _ <~ need (negb x13) ;;
  Ok tt.
(** core/signer.rs, sign_ecdsa_256r1_indexed *)
Definition t_signer_sign_ecdsa_256r1_indexed_5 : outcome unit :=
  let x1 := true in
  let x2 := 4 in
  let x3 : option (N) := None in
  let x4 := 0 in
  let x5 := (s2b "F") in
  let x6 := (s2b "abcdefghijklmnopqrstuvwxyz0123456789") in
  let x7 := (s2b "abcdefghijklmnopqrstuvwxyz0123456789ABCDEFG") in
  x8 <~ unw (signer_new 0 ((Some true)) ((Some (s2b "Q"))) (None) (None) (None) (None)) ;;
  let x9 := x8 in
  x10 <~ unw (sign_indexed x9 0 (x6) (x1) (x2) (x3)) ;;
  let x11 := x10 in
  _ <~ need (same (x_code (sg_indexer x11)) x5) ;;
  _ <~ need (same (x_index (sg_indexer x11)) x2) ;;
  _ <~ need (same (x_ondex (sg_indexer x11)) x4) ;;
  x12 <~ unw (verfer_verify (sn_verfer x9) ((x_raw (sg_indexer x11))) (x6)) ;;
  _ <~ need x12 ;;
  x13 <~ unw (verfer_verify (sn_verfer x9) ((x_raw (sg_indexer x11))) (x7)) ;;
  _ <~ need (negb x13) ;;
  Ok tt.
(** core/signer.rs, sign_ecdsa_256r1_indexed *)
Definition t_signer_sign_ecdsa_256r1_indexed_6 : outcome unit :=
  let x1 := true in
  let x2 := 4 in
  let x3 := (Some 6) in
  let x4 := 0 in
  let x5 := (s2b "F") in
  let x6 := (s2b "abcdefghijklmnopqrstuvwxyz0123456789") in
  let x7 := (s2b "abcdefghijklmnopqrstuvwxyz0123456789ABCDEFG") in
  x8 <~ unw (signer_new 0 ((Some true)) ((Some (s2b "Q"))) (None) (None) (None) (None)) ;;
  let x9 := x8 in
  x10 <~ unw (sign_indexed x9 0 (x6) (x1) (x2) (x3)) ;;
  let x11 := x10 in
  _ <~ need (same (x_code (sg_indexer x11)) x5) ;;
  _ <~ need (same (x_index (sg_indexer x11)) x2) ;;
  _ <~ need (same (x_ondex (sg_indexer x11)) x4) ;;
  x12 <~ unw (verfer_verify (sn_verfer x9) ((x_raw (sg_indexer x11))) (x6)) ;;
  _ <~ need x12 ;;
  x13 <~ unw (verfer_verify (sn_verfer x9) ((x_raw (sg_indexer x11))) (x7)) ;;
  _ <~ need (negb x13) ;;
  Ok tt.
(** core/signer.rs, sign_ecdsa_256r1_indexed *)
Definition t_signer_sign_ecdsa_256r1_indexed_7 : outcome unit :=
  let x1 := true in
  let x2 := 65 in
  let x3 : option (N) := None in
  let x4 := 0 in
  let x5 := (s2b "2F") in
  let x6 := (s2b "abcdefghijklmnopqrstuvwxyz0123456789") in
  let x7 := (s2b "abcdefghijklmnopqrstuvwxyz0123456789ABCDEFG") in
  x8 <~ unw (signer_new 0 ((Some true)) ((Some (s2b "Q"))) (None) (None) (None) (None)) ;;
  let x9 := x8 in
  x10 <~ unw (sign_indexed x9 0 (x6) (x1) (x2) (x3)) ;;
  let x11 := x10 in
  _ <~ need (same (x_code (sg_indexer x11)) x5) ;;
  _ <~ need (same (x_index (sg_indexer x11)) x2) ;;
  _ <~ need (same (x_ondex (sg_indexer x11)) x4) ;;
  x12 <~ unw (verfer_verify (sn_verfer x9) ((x_raw (sg_indexer x11))) (x6)) ;;
  _ <~ need x12 ;;
  x13 <~ unw (verfer_verify (sn_verfer x9) ((x_raw (sg_indexer x11))) (x7)) ;;
  _ <~ need (negb x13) ;;
  Ok tt.
(** core/signer.rs, sign_ecdsa_256r1_indexed *)
Definition t_signer_sign_ecdsa_256r1_indexed_8 : outcome unit :=
  let x1 := true in
  let x2 := 65 in
  let x3 := (Some 67) in
  let x4 := 0 in
  let x5 := (s2b "2F") in
  let x6 := (s2b "abcdefghijklmnopqrstuvwxyz0123456789") in
  let x7 := (s2b "abcdefghijklmnopqrstuvwxyz0123456789ABCDEFG") in
  x8 <~ unw (signer_new 0 ((Some true)) ((Some (s2b "Q"))) (None) (None) (None) (None)) ;;
  let x9 := x8 in
  x10 <~ unw (sign_indexed x9 0 (x6) (x1) (x2) (x3)) ;;
  let x11 := x10 in
  _ <~ need (same (x_code (sg_indexer x11)) x5) ;;
  _ <~ need (same (x_index (sg_indexer x11)) x2) ;;
  _ <~ need (same (x_ondex (sg_indexer x11)) x4) ;;
  x12 <~ unw (verfer_verify (sn_verfer x9) ((x_raw (sg_indexer x11))) (x6)) ;;
  _ <~ need x12 ;;
  x13 <~ unw (verfer_verify (sn_verfer x9) ((x_raw (sg_indexer x11))) (x7)) ;;
  _ <~ need (negb x13) ;;
  Ok tt.
(** core/signer.rs, unhappy_paths *)
Definition t_signer_unhappy_paths_0 : outcome unit :=
  let x1 := (repeat 0 (N.to_nat 32)) in
  _ <~ need (errs (signer_new 0 ((Some false)) ((Some (s2b "B"))) ((Some x1)) (None) (None) (None))) ;;
  _ <~ need (errs (signer_new 0 ((Some false)) ((Some (s2b "B"))) (None) (None) (None) (None))) ;;
  Ok tt.
(** core/verfer.rs, convenience *)
Definition t_verfer_convenience_0 : outcome unit :=
  let x1 := [1; 35; 69; 103; 137; 171; 205; 239; 0; 0; 17; 17; 34; 34; 51; 51; 68; 68; 85; 85; 102; 102; 119; 119; 136; 136; 153; 153; 0; 0; 170; 170] in
  let x2 := (s2b "B") in
  x3 <~ unw (verfer_new ((Some x2)) ((Some x1)) (None) (None) (None)) ;;
  let x4 := x3 in
  _ <~ need (ok (verfer_new ((Some (m_code x4))) (Some (m_raw x4)) None None None)) ;;
  x5 <~ unw (matter_qb64b x4) ;;
  _ <~ need (ok (verfer_new None None (Some x5) None None)) ;;
  x6 <~ unw (matter_qb64 x4) ;;
  _ <~ need (ok (verfer_new None None None (Some x6) None)) ;;
  x7 <~ unw (matter_qb2 x4) ;;
  _ <~ need (ok (verfer_new None None None None (Some x7))) ;;
  Ok tt.
(** core/verfer.rs, new *)
Definition t_verfer_new_0 : outcome unit :=
  let x1 := [1; 35; 69; 103; 137; 171; 205; 239; 0; 0; 17; 17; 34; 34; 51; 51; 68; 68; 85; 85; 102; 102; 119; 119; 136; 136; 153; 153; 0; 0; 170; 170] in
  let x2 := (s2b "B") in
  _ <~ need (ok (verfer_new ((Some x2)) ((Some x1)) (None) (None) (None))) ;;
  Ok tt.
(** core/verfer.rs, new_with_code_and_raw *)
Definition t_verfer_new_with_code_and_raw_0 : outcome unit :=
  let x1 := [1; 35; 69; 103; 137; 171; 205; 239; 0; 0; 17; 17; 34; 34; 51; 51; 68; 68; 85; 85; 102; 102; 119; 119; 136; 136; 153; 153; 0; 0; 170; 170] in
  let x2 := (s2b "B") in
  x3 <~ unw (verfer_new ((Some x2)) ((Some x1)) (None) (None) (None)) ;;
  let x4 := x3 in
  _ <~ need (same (m_raw x4) x1) ;;
  let x5 := (s2b "E") in
  _ <~ need (errs (verfer_new ((Some x5)) ((Some x1)) (None) (None) (None))) ;;
  Ok tt.
(** core/verfer.rs, new_with_qb64 *)
Definition t_verfer_new_with_qb64_0 : outcome unit :=
  let x1 := [1; 35; 69; 103; 137; 171; 205; 239; 0; 0; 17; 17; 34; 34; 51; 51; 68; 68; 85; 85; 102; 102; 119; 119; 136; 136; 153; 153; 0; 0; 170; 170] in
  let x2 := (s2b "B") in
  x3 <~ unw (verfer_new ((Some x2)) ((Some x1)) (None) (None) (None)) ;;
  x4 <~ unw (matter_qb64 x3) ;;
  let x5 := x4 in
  let x6 := (s2b "E") in
  x7 <~ unw (matter_new ((Some x6)) ((Some x1)) (None) (None) (None)) ;;
  x8 <~ unw (matter_qb64 x7) ;;
  let x9 := x8 in
  _ <~ need (ok (verfer_new (None) (None) (None) ((Some x5)) (None))) ;;
  _ <~ need (errs (verfer_new (None) (None) (None) ((Some x9)) (None))) ;;
  Ok tt.
(** core/verfer.rs, new_with_qb64b *)
Definition t_verfer_new_with_qb64b_0 : outcome unit :=
  let x1 := [1; 35; 69; 103; 137; 171; 205; 239; 0; 0; 17; 17; 34; 34; 51; 51; 68; 68; 85; 85; 102; 102; 119; 119; 136; 136; 153; 153; 0; 0; 170; 170] in
  let x2 := (s2b "B") in
  x3 <~ unw (verfer_new ((Some x2)) ((Some x1)) (None) (None) (None)) ;;
  x4 <~ unw (matter_qb64b x3) ;;
  let x5 := x4 in
  let x6 := (s2b "E") in
  x7 <~ unw (matter_new ((Some x6)) ((Some x1)) (None) (None) (None)) ;;
  x8 <~ unw (matter_qb64b x7) ;;
  let x9 := x8 in
  _ <~ need (ok (verfer_new (None) (None) ((Some x5)) (None) (None))) ;;
  _ <~ need (errs (verfer_new (None) (None) ((Some x9)) (None) (None))) ;;
  Ok tt.
(** core/verfer.rs, new_with_qb2 *)
Definition t_verfer_new_with_qb2_0 : outcome unit :=
  let x1 := [1; 35; 69; 103; 137; 171; 205; 239; 0; 0; 17; 17; 34; 34; 51; 51; 68; 68; 85; 85; 102; 102; 119; 119; 136; 136; 153; 153; 0; 0; 170; 170] in
  let x2 := (s2b "B") in
  x3 <~ unw (verfer_new ((Some x2)) ((Some x1)) (None) (None) (None)) ;;
  x4 <~ unw (matter_qb2 x3) ;;
  let x5 := x4 in
  let x6 := (s2b "E") in
  x7 <~ unw (matter_new ((Some x6)) ((Some x1)) (None) (None) (None)) ;;
  x8 <~ unw (matter_qb2 x7) ;;
  let x9 := x8 in
  _ <~ need (ok (verfer_new (None) (None) (None) (None) ((Some x5)))) ;;
  _ <~ need (errs (verfer_new (None) (None) (None) (None) ((Some x9)))) ;;
  Ok tt.
(** core/verfer.rs, unhappy_paths *)
Definition t_verfer_unhappy_paths_0 : outcome unit :=
  _ <~ need (errs (verfer_verify (Mat (s2b "E") 0 []) ([]) ([]))) ;;
  Ok tt.
(** crypto/hash.rs, digest *)
Definition t_crypto_hash_digest_0 : outcome unit :=
  let x1 := [0; 1; 2] in
  let x2 := (s2b "E") in
  let x3 := [225; 190; 77; 122; 138; 181; 86; 10; 164; 25; 158; 234; 51; 152; 73; 186; 142; 41; 61; 85; 202; 10; 129; 0; 103; 38; 209; 132; 81; 158; 100; 127] in
  x4 <~ unw (digest (x2) (x1)) ;;
  _ <~ need (same x4 x3) ;;
  Ok tt.
(** crypto/hash.rs, digest *)
Definition t_crypto_hash_digest_1 : outcome unit :=
  let x1 := [0; 1; 2] in
  let x2 := (s2b "0D") in
  let x3 := [225; 190; 77; 122; 138; 181; 86; 10; 164; 25; 158; 234; 51; 152; 73; 186; 142; 41; 61; 85; 202; 10; 129; 0; 103; 38; 209; 132; 81; 158; 100; 127; 91; 73; 184; 47; 128; 90; 83; 140; 104; 145; 92; 26; 232; 3; 92; 144; 15; 209; 212; 177; 57; 2; 146; 15; 208; 94; 20; 80; 130; 47; 54; 222] in
  x4 <~ unw (digest (x2) (x1)) ;;
  _ <~ need (same x4 x3) ;;
  Ok tt.
(** crypto/hash.rs, digest *)
Definition t_crypto_hash_digest_2 : outcome unit :=
  let x1 := (s2b "abc") in
  let x2 := (s2b "F") in
  let x3 := [189; 221; 129; 60; 99; 66; 57; 114; 49; 113; 239; 63; 238; 152; 87; 155; 148; 150; 78; 59; 177; 203; 62; 66; 114; 98; 200; 192; 104; 213; 35; 25] in
  x4 <~ unw (digest (x2) (x1)) ;;
  _ <~ need (same x4 x3) ;;
  Ok tt.
(** crypto/hash.rs, digest *)
Definition t_crypto_hash_digest_3 : outcome unit :=
  let x1 := (s2b "The quick brown fox jumps over the lazy dog") in
  let x2 := (s2b "0E") in
  let x3 := [168; 173; 212; 189; 221; 253; 147; 228; 135; 125; 39; 70; 230; 40; 23; 177; 22; 54; 74; 31; 167; 188; 20; 141; 149; 9; 11; 199; 51; 59; 54; 115; 248; 36; 1; 207; 122; 162; 228; 203; 30; 205; 144; 41; 110; 63; 20; 203; 84; 19; 248; 237; 119; 190; 115; 4; 91; 19; 145; 76; 220; 214; 169; 24] in
  x4 <~ unw (digest (x2) (x1)) ;;
  _ <~ need (same x4 x3) ;;
  Ok tt.
(** crypto/hash.rs, digest *)
Definition t_crypto_hash_digest_4 : outcome unit :=
  let x1 := [0; 1; 2] in
  let x2 := (s2b "G") in
  let x3 := [232; 249; 28; 110; 242; 50; 160; 65; 69; 42; 176; 225; 73; 7; 12; 221; 125; 209; 118; 158; 117; 179; 165; 146; 27; 227; 120; 118; 196; 92; 153; 0] in
  x4 <~ unw (digest (x2) (x1)) ;;
  _ <~ need (same x4 x3) ;;
  Ok tt.
(** crypto/hash.rs, digest *)
Definition t_crypto_hash_digest_5 : outcome unit :=
  let x1 := (s2b "abc") in
  let x2 := (s2b "H") in
  let x3 := [58; 152; 93; 167; 79; 226; 37; 178; 4; 92; 23; 45; 107; 211; 144; 189; 133; 95; 8; 110; 62; 157; 82; 91; 70; 191; 226; 69; 17; 67; 21; 50] in
  x4 <~ unw (digest (x2) (x1)) ;;
  _ <~ need (same x4 x3) ;;
  Ok tt.
(** crypto/hash.rs, digest *)
Definition t_crypto_hash_digest_6 : outcome unit :=
  let x1 := (s2b "abc") in
  let x2 := (s2b "0F") in
  let x3 := [183; 81; 133; 11; 26; 87; 22; 138; 86; 147; 205; 146; 75; 107; 9; 110; 8; 246; 33; 130; 116; 68; 247; 13; 136; 79; 93; 2; 64; 210; 113; 46; 16; 225; 22; 233; 25; 42; 243; 201; 26; 126; 197; 118; 71; 227; 147; 64; 87; 52; 11; 76; 244; 8; 213; 165; 101; 146; 248; 39; 78; 236; 83; 240] in
  x4 <~ unw (digest (x2) (x1)) ;;
  _ <~ need (same x4 x3) ;;
  Ok tt.
(** crypto/hash.rs, digest *)
Definition t_crypto_hash_digest_7 : outcome unit :=
  let x1 := (s2b "abc") in
  let x2 := (s2b "I") in
  let x3 := [186; 120; 22; 191; 143; 1; 207; 234; 65; 65; 64; 222; 93; 174; 34; 35; 176; 3; 97; 163; 150; 23; 122; 156; 180; 16; 255; 97; 242; 0; 21; 173] in
  x4 <~ unw (digest (x2) (x1)) ;;
  _ <~ need (same x4 x3) ;;
  Ok tt.
(** crypto/hash.rs, digest *)
Definition t_crypto_hash_digest_8 : outcome unit :=
  let x1 := (s2b "abc") in
  let x2 := (s2b "0G") in
  let x3 := [221; 175; 53; 161; 147; 97; 122; 186; 204; 65; 115; 73; 174; 32; 65; 49; 18; 230; 250; 78; 137; 169; 126; 162; 10; 158; 238; 230; 75; 85; 211; 154; 33; 146; 153; 42; 39; 79; 193; 168; 54; 186; 60; 35; 163; 254; 235; 189; 69; 77; 68; 35; 100; 60; 232; 14; 42; 154; 201; 79; 165; 76; 164; 159] in
  x4 <~ unw (digest (x2) (x1)) ;;
  _ <~ need (same x4 x3) ;;
  Ok tt.
(** crypto/hash.rs, unhappy_paths *)
Definition t_crypto_hash_unhappy_paths_0 : outcome unit :=
  _ <~ need (errs (digest ((s2b "D")) ([]))) ;;
  Ok tt.
(** crypto/sign.rs, end_to_end *)
Definition t_crypto_sign_end_to_end_0 : outcome unit :=
  let x1 := (s2b "D") in
  let x2 := (s2b "abcdefghijklmnopqrstuvwxyz") in
  x3 <~ unw (sign_generate (x1) 0) ;;
  let x4 := x3 in
  x5 <~ unw (sign_sign (x1) 0 (x4) (x2)) ;;
  let x6 := x5 in
  x7 <~ unw (sign_public_key (x1) (x4)) ;;
  let x8 := x7 in
  x9 <~ unw (sign_verify (x1) (x8) (x6) (x2)) ;;
  _ <~ need x9 ;;
  Ok tt.
(** crypto/sign.rs, end_to_end *)
Definition t_crypto_sign_end_to_end_1 : outcome unit :=
  let x1 := (s2b "1AAB") in
  let x2 := (s2b "abcdefghijklmnopqrstuvwxyz") in
  x3 <~ unw (sign_generate (x1) 0) ;;
  let x4 := x3 in
  x5 <~ unw (sign_sign (x1) 0 (x4) (x2)) ;;
  let x6 := x5 in
  x7 <~ unw (sign_public_key (x1) (x4)) ;;
  let x8 := x7 in
  x9 <~ unw (sign_verify (x1) (x8) (x6) (x2)) ;;
  _ <~ need x9 ;;
  Ok tt.
(** crypto/sign.rs, end_to_end *)
Definition t_crypto_sign_end_to_end_2 : outcome unit :=
  let x1 := (s2b "1AAJ") in
  let x2 := (s2b "abcdefghijklmnopqrstuvwxyz") in
  x3 <~ unw (sign_generate (x1) 0) ;;
  let x4 := x3 in
  x5 <~ unw (sign_sign (x1) 0 (x4) (x2)) ;;
  let x6 := x5 in
  x7 <~ unw (sign_public_key (x1) (x4)) ;;
  let x8 := x7 in
  x9 <~ unw (sign_verify (x1) (x8) (x6) (x2)) ;;
  _ <~ need x9 ;;
  Ok tt.
(** crypto/sign.rs, unhappy_paths *)
Definition t_crypto_sign_unhappy_paths_0 : outcome unit :=
  let x1 := (s2b "H") in
  _ <~ need (errs (sign_generate (x1) 0)) ;;
  _ <~ need (errs (sign_public_key (x1) ([]))) ;;
  _ <~ need (errs (sign_sign (x1) 0 ([]) ([]))) ;;
  _ <~ need (errs (sign_verify (x1) ([]) ([]) ([]))) ;;
  Ok tt.
End T.

(** the 8 cases of core/cigar.rs *)
Definition cigar_cases {P : Profile} : list (outcome unit) :=
  [t_cigar_convenience_0; t_cigar_new_0; t_cigar_new_with_code_and_raw_0; t_cigar_new_with_qb64_0; t_cigar_new_with_qb64b_0; t_cigar_new_with_qb2_0; t_cigar_set_verfer_0; t_cigar_unhappy_paths_0].
Example cigar_conforms : forall P : Profile, forallb ok cigar_cases = true.
Proof. intros [|]; vm_compute; reflexivity. Qed.
(** the 14 cases of core/diger.rs *)
Definition diger_cases {P : Profile} : list (outcome unit) :=
  [t_diger_convenience_0; t_diger_conversions_0; t_diger_conversions_1; t_diger_conversions_2; t_diger_conversions_3; t_diger_invalid_0; t_diger_invalid_1; t_diger_invalid_2; t_diger_compare_0; t_diger_verify_0; t_diger_compare_dig_0; t_diger_compare_diger_0; t_diger_python_interop_0; t_diger_unhappy_paths_0].
Example diger_conforms : forall P : Profile, forallb ok diger_cases = true.
Proof. intros [|]; vm_compute; reflexivity. Qed.
(** the 1 cases of core/salter.rs *)
Definition salter_cases {P : Profile} : list (outcome unit) :=
  [t_salter_convenience_0].
Example salter_conforms : forall P : Profile, forallb ok salter_cases = true.
Proof. intros [|]; vm_compute; reflexivity. Qed.
(** the 7 cases of core/siger.rs *)
Definition siger_cases {P : Profile} : list (outcome unit) :=
  [t_siger_convenience_0; t_siger_new_0; t_siger_python_interop_0; t_siger_new_with_code_and_raw_0; t_siger_new_with_qb64b_0; t_siger_new_with_qb2_0; t_siger_unhappy_paths_0].
Example siger_conforms : forall P : Profile, forallb ok siger_cases = true.
Proof. intros [|]; vm_compute; reflexivity. Qed.
(** the 27 cases of core/signer.rs *)
Definition signer_cases {P : Profile} : list (outcome unit) :=
  [t_signer_cigar_siger_raw_material_equivalence_0; t_signer_convenience_0; t_signer_new_0; t_signer_conversions_0; t_signer_conversions_1; t_signer_conversions_2; t_signer_sign_ecdsa_256k1_unindexed_0; t_signer_sign_ecdsa_256r1_unindexed_0; t_signer_sign_ecdsa_256k1_indexed_0; t_signer_sign_ecdsa_256k1_indexed_1; t_signer_sign_ecdsa_256k1_indexed_2; t_signer_sign_ecdsa_256k1_indexed_3; t_signer_sign_ecdsa_256k1_indexed_4; t_signer_sign_ecdsa_256k1_indexed_5; t_signer_sign_ecdsa_256k1_indexed_6; t_signer_sign_ecdsa_256k1_indexed_7; t_signer_sign_ecdsa_256k1_indexed_8; t_signer_sign_ecdsa_256r1_indexed_0; t_signer_sign_ecdsa_256r1_indexed_1; t_signer_sign_ecdsa_256r1_indexed_2; t_signer_sign_ecdsa_256r1_indexed_3; t_signer_sign_ecdsa_256r1_indexed_4; t_signer_sign_ecdsa_256r1_indexed_5; t_signer_sign_ecdsa_256r1_indexed_6; t_signer_sign_ecdsa_256r1_indexed_7; t_signer_sign_ecdsa_256r1_indexed_8; t_signer_unhappy_paths_0].
Example signer_conforms : forall P : Profile, forallb ok signer_cases = true.
Proof. intros [|]; vm_compute; reflexivity. Qed.
(** the 7 cases of core/verfer.rs *)
Definition verfer_cases {P : Profile} : list (outcome unit) :=
  [t_verfer_convenience_0; t_verfer_new_0; t_verfer_new_with_code_and_raw_0; t_verfer_new_with_qb64_0; t_verfer_new_with_qb64b_0; t_verfer_new_with_qb2_0; t_verfer_unhappy_paths_0].
Example verfer_conforms : forall P : Profile, forallb ok verfer_cases = true.
Proof. intros [|]; vm_compute; reflexivity. Qed.
(** the 10 cases of crypto/hash.rs *)
Definition crypto_hash_cases {P : Profile} : list (outcome unit) :=
  [t_crypto_hash_digest_0; t_crypto_hash_digest_1; t_crypto_hash_digest_2; t_crypto_hash_digest_3; t_crypto_hash_digest_4; t_crypto_hash_digest_5; t_crypto_hash_digest_6; t_crypto_hash_digest_7; t_crypto_hash_digest_8; t_crypto_hash_unhappy_paths_0].
Example crypto_hash_conforms : forall P : Profile, forallb ok crypto_hash_cases = true.
Proof. intros [|]; vm_compute; reflexivity. Qed.
(** the 4 cases of crypto/sign.rs *)
Definition crypto_sign_cases {P : Profile} : list (outcome unit) :=
  [t_crypto_sign_end_to_end_0; t_crypto_sign_end_to_end_1; t_crypto_sign_end_to_end_2; t_crypto_sign_unhappy_paths_0].
Example crypto_sign_conforms : forall P : Profile, forallb ok crypto_sign_cases = true.
Proof. intros [|]; vm_compute; reflexivity. Qed.
