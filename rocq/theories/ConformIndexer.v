(** The unit tests of /repo/src/core/indexer/mod.rs, /repo/src/core/indexer/tables.rs on the model: written by tools/mkconform.py.
    Every definition is one case of a test function; it is [Ok tt] if all assertions hold. *)
From Verif Require Import Base Utf8 B64 Util StdStr MatterTables Matter CounterTables Counter IndexerTables Indexer Crypto Prims Signer Data Json Common Saider Tholder Sadder Pather Prefixer Pretty Defaults DataDefs Hash Float ConformDefs.
#[local] Existing Instance test_crypto.
#[local] Existing Instance real_floats.
Section T.
Context {P : Profile}.
(** core/indexer/mod.rs, new_variable_length *)
Definition t_indexer_new_variable_length_0 : outcome unit :=
  _ <~ need (errs (indexer_new (None) (None) (None) (None) (None) (None) (None))) ;;
  _ <~ need (errs (indexer_new (None) (None) (None) ((Some [])) (None) (None) (None))) ;;
  let x1 := (s2b "0z") in
  let x2 := [0; 1; 2; 3; 4; 5; 6; 7; 8] in
  x3 <~ unw (indexer_new (None) (None) ((Some x1)) ((Some x2)) (None) (None) (None)) ;;
  let x4 := x3 in
  x5 <~ unw (indexer_qb64 x4) ;;
  let x6 := x5 in
  x7 <~ unw (indexer_qb64b x4) ;;
  let x8 := x7 in
  x9 <~ unw (indexer_qb2 x4) ;;
  let x10 := x9 in
  _ <~ need (ok (indexer_new (None) (None) ((Some x1)) ((Some x2)) (None) (None) (None))) ;;
  _ <~ need (ok (indexer_new (None) (None) (None) (None) ((Some x8)) (None) (None))) ;;
  _ <~ need (ok (indexer_new (None) (None) (None) (None) (None) ((Some x6)) (None))) ;;
  _ <~ need (ok (indexer_new (None) (None) (None) (None) (None) (None) ((Some x10)))) ;;
  Ok tt.
(** core/indexer/mod.rs, new *)
Definition t_indexer_new_0 : outcome unit :=
  _ <~ need (errs (indexer_new (None) (None) (None) (None) (None) (None) (None))) ;;
  _ <~ need (errs (indexer_new (None) (None) (None) ((Some [])) (None) (None) (None))) ;;
  let x1 := (s2b "A") in
  let x2 := (s2b "AACZ0jw5JCQwn2v7GKCMQHISMi5rsscfcA4nbY9AqqWMyG6FyCH2cZFwqezPkq8p3sr8f37Xb3wXgh3UPG8igSYJ") in
  x3 <~ unw (indexer_new (None) (None) (None) (None) (None) ((Some x2)) (None)) ;;
  let x4 := x3 in
  let x5 := (x_raw x4) in
  x6 <~ unw (indexer_qb64b x4) ;;
  let x7 := x6 in
  x8 <~ unw (indexer_qb2 x4) ;;
  let x9 := x8 in
  _ <~ need (ok (indexer_new (None) (None) ((Some x1)) ((Some x5)) (None) (None) (None))) ;;
  _ <~ need (ok (indexer_new (None) (None) (None) (None) ((Some x7)) (None) (None))) ;;
  _ <~ need (ok (indexer_new (None) (None) (None) (None) (None) ((Some x2)) (None))) ;;
  _ <~ need (ok (indexer_new (None) (None) (None) (None) (None) (None) ((Some x9)))) ;;
  Ok tt.
(** core/indexer/mod.rs, python_interop *)
Definition t_indexer_python_interop_0 : outcome unit :=
  let x1 := [153; 210; 60; 57; 36; 36; 48; 159; 107; 251; 24; 160; 140; 64; 114; 18; 50; 46; 107; 178; 199; 31; 112; 14; 39; 109; 143; 64; 170; 165; 140; 200; 110; 133; 200; 33; 246; 113; 145; 112; 169; 236; 207; 146; 175; 41; 222; 202; 252; 127; 126; 215; 111; 124; 23; 130; 29; 212; 60; 111; 34; 129; 38; 9] in
  let x2 := [0; 0; 153; 210; 60; 57; 36; 36; 48; 159; 107; 251; 24; 160; 140; 64; 114; 18; 50; 46; 107; 178; 199; 31; 112; 14; 39; 109; 143; 64; 170; 165; 140; 200; 110; 133; 200; 33; 246; 113; 145; 112; 169; 236; 207; 146; 175; 41; 222; 202; 252; 127; 126; 215; 111; 124; 23; 130; 29; 212; 60; 111; 34; 129; 38; 9] in
  x3 <~ unw (indexer_new (None) (None) ((Some (s2b "A"))) ((Some x1)) (None) (None) (None)) ;;
  let x4 := x3 in
  _ <~ need (same (N.of_nat (length x1)) 64) ;;
  let x5 := ((3 - ((N.of_nat (length x1)) mod 3)%N)%N mod 3)%N in
  let x6 := x1 in
  let x7 := repeat 0 (N.to_nat x5) ++ x6 in
  let x8 := (b64_encode (x7)) in
  _ <~ need (same x8 (s2b "AACZ0jw5JCQwn2v7GKCMQHISMi5rsscfcA4nbY9AqqWMyG6FyCH2cZFwqezPkq8p3sr8f37Xb3wXgh3UPG8igSYJ")) ;;
  _ <~ need (same (N.of_nat (length x8)) 88) ;;
  let x9 := (s2b "A") in
  x10 <~ unw (u32_to_b64 (0) (1)) ;;
  let x11 := (x9 ++ x10) in
  _ <~ need (same x11 (s2b "AA")) ;;
  let x12 := (x11 ++ (drop x5 x8)) in
  _ <~ need (same x12 (s2b "AACZ0jw5JCQwn2v7GKCMQHISMi5rsscfcA4nbY9AqqWMyG6FyCH2cZFwqezPkq8p3sr8f37Xb3wXgh3UPG8igSYJ")) ;;
  _ <~ need (same (N.of_nat (length x12)) 88) ;;
  x13 <~ unw (b64_decode (x12)) ;;
  _ <~ need (same x2 x13) ;;
  _ <~ need (same (N.of_nat (length x2)) 66) ;;
  _ <~ need (same (x_code x4) (s2b "A")) ;;
  _ <~ need (same (x_code x4) (s2b "A")) ;;
  _ <~ need (same (x_raw x4) x1) ;;
  _ <~ need (same (x_raw x4) x1) ;;
  _ <~ need (same (x_index x4) 0) ;;
  _ <~ need (same (x_ondex x4) 0) ;;
  x14 <~ unw (indexer_qb64 x4) ;;
  _ <~ need (same x14 x8) ;;
  x15 <~ unw (indexer_qb64b x4) ;;
  _ <~ need (same x15 x8) ;;
  x16 <~ unw (indexer_qb2 x4) ;;
  _ <~ need (same x16 x2) ;;
  Ok tt.
(** core/indexer/mod.rs, python_interop *)
Definition t_indexer_python_interop_1 : outcome unit :=
  let x1 := [153; 210; 60; 57; 36; 36; 48; 159; 107; 251; 24; 160; 140; 64; 114; 18; 50; 46; 107; 178; 199; 31; 112; 14; 39; 109; 143; 64; 170; 165; 140; 200; 110; 133; 200; 33; 246; 113; 145; 112; 169; 236; 207; 146; 175; 41; 222; 202; 252; 127; 126; 215; 111; 124; 23; 130; 29; 212; 60; 111; 34; 129; 38; 9] in
  let x2 := [0; 0; 153; 210; 60; 57; 36; 36; 48; 159; 107; 251; 24; 160; 140; 64; 114; 18; 50; 46; 107; 178; 199; 31; 112; 14; 39; 109; 143; 64; 170; 165; 140; 200; 110; 133; 200; 33; 246; 113; 145; 112; 169; 236; 207; 146; 175; 41; 222; 202; 252; 127; 126; 215; 111; 124; 23; 130; 29; 212; 60; 111; 34; 129; 38; 9] in
  x3 <~ unw (indexer_new (None) (None) (None) (None) (None) ((Some (s2b "AACZ0jw5JCQwn2v7GKCMQHISMi5rsscfcA4nbY9AqqWMyG6FyCH2cZFwqezPkq8p3sr8f37Xb3wXgh3UPG8igSYJ"))) (None)) ;;
  let x4 := x3 in
  _ <~ need (same (N.of_nat (length x1)) 64) ;;
  let x5 := ((3 - ((N.of_nat (length x1)) mod 3)%N)%N mod 3)%N in
  let x6 := x1 in
  let x7 := repeat 0 (N.to_nat x5) ++ x6 in
  let x8 := (b64_encode (x7)) in
  _ <~ need (same x8 (s2b "AACZ0jw5JCQwn2v7GKCMQHISMi5rsscfcA4nbY9AqqWMyG6FyCH2cZFwqezPkq8p3sr8f37Xb3wXgh3UPG8igSYJ")) ;;
  _ <~ need (same (N.of_nat (length x8)) 88) ;;
  let x9 := (s2b "A") in
  x10 <~ unw (u32_to_b64 (0) (1)) ;;
  let x11 := (x9 ++ x10) in
  _ <~ need (same x11 (s2b "AA")) ;;
  let x12 := (x11 ++ (drop x5 x8)) in
  _ <~ need (same x12 (s2b "AACZ0jw5JCQwn2v7GKCMQHISMi5rsscfcA4nbY9AqqWMyG6FyCH2cZFwqezPkq8p3sr8f37Xb3wXgh3UPG8igSYJ")) ;;
  _ <~ need (same (N.of_nat (length x12)) 88) ;;
  x13 <~ unw (b64_decode (x12)) ;;
  _ <~ need (same x2 x13) ;;
  _ <~ need (same (N.of_nat (length x2)) 66) ;;
  _ <~ need (same (x_code x4) (s2b "A")) ;;
  _ <~ need (same (x_code x4) (s2b "A")) ;;
  _ <~ need (same (x_raw x4) x1) ;;
  _ <~ need (same (x_raw x4) x1) ;;
  _ <~ need (same (x_index x4) 0) ;;
  _ <~ need (same (x_ondex x4) 0) ;;
  x14 <~ unw (indexer_qb64 x4) ;;
  _ <~ need (same x14 x8) ;;
  x15 <~ unw (indexer_qb64b x4) ;;
  _ <~ need (same x15 x8) ;;
  x16 <~ unw (indexer_qb2 x4) ;;
  _ <~ need (same x16 x2) ;;
  Ok tt.
(** core/indexer/mod.rs, python_interop *)
Definition t_indexer_python_interop_2 : outcome unit :=
  let x1 := [153; 210; 60; 57; 36; 36; 48; 159; 107; 251; 24; 160; 140; 64; 114; 18; 50; 46; 107; 178; 199; 31; 112; 14; 39; 109; 143; 64; 170; 165; 140; 200; 110; 133; 200; 33; 246; 113; 145; 112; 169; 236; 207; 146; 175; 41; 222; 202; 252; 127; 126; 215; 111; 124; 23; 130; 29; 212; 60; 111; 34; 129; 38; 9] in
  let x2 := [0; 0; 153; 210; 60; 57; 36; 36; 48; 159; 107; 251; 24; 160; 140; 64; 114; 18; 50; 46; 107; 178; 199; 31; 112; 14; 39; 109; 143; 64; 170; 165; 140; 200; 110; 133; 200; 33; 246; 113; 145; 112; 169; 236; 207; 146; 175; 41; 222; 202; 252; 127; 126; 215; 111; 124; 23; 130; 29; 212; 60; 111; 34; 129; 38; 9] in
  x3 <~ unw (indexer_new (None) (None) (None) (None) ((Some (s2b "AACZ0jw5JCQwn2v7GKCMQHISMi5rsscfcA4nbY9AqqWMyG6FyCH2cZFwqezPkq8p3sr8f37Xb3wXgh3UPG8igSYJ"))) (None) (None)) ;;
  let x4 := x3 in
  _ <~ need (same (N.of_nat (length x1)) 64) ;;
  let x5 := ((3 - ((N.of_nat (length x1)) mod 3)%N)%N mod 3)%N in
  let x6 := x1 in
  let x7 := repeat 0 (N.to_nat x5) ++ x6 in
  let x8 := (b64_encode (x7)) in
  _ <~ need (same x8 (s2b "AACZ0jw5JCQwn2v7GKCMQHISMi5rsscfcA4nbY9AqqWMyG6FyCH2cZFwqezPkq8p3sr8f37Xb3wXgh3UPG8igSYJ")) ;;
  _ <~ need (same (N.of_nat (length x8)) 88) ;;
  let x9 := (s2b "A") in
  x10 <~ unw (u32_to_b64 (0) (1)) ;;
  let x11 := (x9 ++ x10) in
  _ <~ need (same x11 (s2b "AA")) ;;
  let x12 := (x11 ++ (drop x5 x8)) in
  _ <~ need (same x12 (s2b "AACZ0jw5JCQwn2v7GKCMQHISMi5rsscfcA4nbY9AqqWMyG6FyCH2cZFwqezPkq8p3sr8f37Xb3wXgh3UPG8igSYJ")) ;;
  _ <~ need (same (N.of_nat (length x12)) 88) ;;
  x13 <~ unw (b64_decode (x12)) ;;
  _ <~ need (same x2 x13) ;;
  _ <~ need (same (N.of_nat (length x2)) 66) ;;
  _ <~ need (same (x_code x4) (s2b "A")) ;;
  _ <~ need (same (x_code x4) (s2b "A")) ;;
  _ <~ need (same (x_raw x4) x1) ;;
  _ <~ need (same (x_raw x4) x1) ;;
  _ <~ need (same (x_index x4) 0) ;;
  _ <~ need (same (x_ondex x4) 0) ;;
  x14 <~ unw (indexer_qb64 x4) ;;
  _ <~ need (same x14 x8) ;;
  x15 <~ unw (indexer_qb64b x4) ;;
  _ <~ need (same x15 x8) ;;
  x16 <~ unw (indexer_qb2 x4) ;;
  _ <~ need (same x16 x2) ;;
  Ok tt.
(** core/indexer/mod.rs, python_interop *)
Definition t_indexer_python_interop_3 : outcome unit :=
  let x1 := [153; 210; 60; 57; 36; 36; 48; 159; 107; 251; 24; 160; 140; 64; 114; 18; 50; 46; 107; 178; 199; 31; 112; 14; 39; 109; 143; 64; 170; 165; 140; 200; 110; 133; 200; 33; 246; 113; 145; 112; 169; 236; 207; 146; 175; 41; 222; 202; 252; 127; 126; 215; 111; 124; 23; 130; 29; 212; 60; 111; 34; 129; 38; 9] in
  let x2 := [0; 0; 153; 210; 60; 57; 36; 36; 48; 159; 107; 251; 24; 160; 140; 64; 114; 18; 50; 46; 107; 178; 199; 31; 112; 14; 39; 109; 143; 64; 170; 165; 140; 200; 110; 133; 200; 33; 246; 113; 145; 112; 169; 236; 207; 146; 175; 41; 222; 202; 252; 127; 126; 215; 111; 124; 23; 130; 29; 212; 60; 111; 34; 129; 38; 9] in
  x3 <~ unw (indexer_new (None) (None) (None) (None) (None) (None) ((Some x2))) ;;
  let x4 := x3 in
  _ <~ need (same (N.of_nat (length x1)) 64) ;;
  let x5 := ((3 - ((N.of_nat (length x1)) mod 3)%N)%N mod 3)%N in
  let x6 := x1 in
  let x7 := repeat 0 (N.to_nat x5) ++ x6 in
  let x8 := (b64_encode (x7)) in
  _ <~ need (same x8 (s2b "AACZ0jw5JCQwn2v7GKCMQHISMi5rsscfcA4nbY9AqqWMyG6FyCH2cZFwqezPkq8p3sr8f37Xb3wXgh3UPG8igSYJ")) ;;
  _ <~ need (same (N.of_nat (length x8)) 88) ;;
  let x9 := (s2b "A") in
  x10 <~ unw (u32_to_b64 (0) (1)) ;;
  let x11 := (x9 ++ x10) in
  _ <~ need (same x11 (s2b "AA")) ;;
  let x12 := (x11 ++ (drop x5 x8)) in
  _ <~ need (same x12 (s2b "AACZ0jw5JCQwn2v7GKCMQHISMi5rsscfcA4nbY9AqqWMyG6FyCH2cZFwqezPkq8p3sr8f37Xb3wXgh3UPG8igSYJ")) ;;
  _ <~ need (same (N.of_nat (length x12)) 88) ;;
  x13 <~ unw (b64_decode (x12)) ;;
  _ <~ need (same x2 x13) ;;
  _ <~ need (same (N.of_nat (length x2)) 66) ;;
  _ <~ need (same (x_code x4) (s2b "A")) ;;
  _ <~ need (same (x_code x4) (s2b "A")) ;;
  _ <~ need (same (x_raw x4) x1) ;;
  _ <~ need (same (x_raw x4) x1) ;;
  _ <~ need (same (x_index x4) 0) ;;
  _ <~ need (same (x_ondex x4) 0) ;;
  x14 <~ unw (indexer_qb64 x4) ;;
  _ <~ need (same x14 x8) ;;
  x15 <~ unw (indexer_qb64b x4) ;;
  _ <~ need (same x15 x8) ;;
  x16 <~ unw (indexer_qb2 x4) ;;
  _ <~ need (same x16 x2) ;;
  Ok tt.
(** core/indexer/mod.rs, exfil_infil_bexfil_binfil *)
Definition t_indexer_exfil_infil_bexfil_binfil_0 : outcome unit :=
  let x1 := (s2b "AACZ0jw5JCQwn2v7GKCMQHISMi5rsscfcA4nbY9AqqWMyG6FyCH2cZFwqezPkq8p3sr8f37Xb3wXgh3UPG8igSYJ") in
  x2 <~ unw (indexer_new (None) (None) (None) (None) (None) ((Some x1)) (None)) ;;
  let x3 := x2 in
  x4 <~ unw (indexer_new (None) (None) ((Some (x_code x3))) ((Some (x_raw x3))) (None) (None) (None)) ;;
  let x5 := x4 in
  _ <~ need (same (x_code x3) (s2b "A")) ;;
  _ <~ need (same (x_code x5) (x_code x3)) ;;
  _ <~ need (same (x_raw x5) (x_raw x3)) ;;
  _ <~ need (same (x_index x5) (x_index x3)) ;;
  _ <~ need (same (x_ondex x5) (x_ondex x3)) ;;
  x6 <~ unw (indexer_qb64 x5) ;;
  _ <~ need (same x6 x1) ;;
  Ok tt.
(** core/indexer/mod.rs, exfil_infil_bexfil_binfil *)
Definition t_indexer_exfil_infil_bexfil_binfil_1 : outcome unit :=
  let x1 := (s2b "AACZ0jw5JCQwn2v7GKCMQHISMi5rsscfcA4nbY9AqqWMyG6FyCH2cZFwqezPkq8p3sr8f37Xb3wXgh3UPG8igSYJ") in
  x2 <~ unw (indexer_new (None) (None) (None) (None) (None) ((Some x1)) (None)) ;;
  let x3 := x2 in
  x4 <~ unw (indexer_qb64b x3) ;;
  x5 <~ unw (indexer_new (None) (None) (None) (None) ((Some x4)) (None) (None)) ;;
  let x6 := x5 in
  _ <~ need (same (x_code x3) (s2b "A")) ;;
  _ <~ need (same (x_code x6) (x_code x3)) ;;
  _ <~ need (same (x_raw x6) (x_raw x3)) ;;
  _ <~ need (same (x_index x6) (x_index x3)) ;;
  _ <~ need (same (x_ondex x6) (x_ondex x3)) ;;
  x7 <~ unw (indexer_qb64 x6) ;;
  _ <~ need (same x7 x1) ;;
  Ok tt.
(** core/indexer/mod.rs, exfil_infil_bexfil_binfil *)
Definition t_indexer_exfil_infil_bexfil_binfil_2 : outcome unit :=
  let x1 := (s2b "AACZ0jw5JCQwn2v7GKCMQHISMi5rsscfcA4nbY9AqqWMyG6FyCH2cZFwqezPkq8p3sr8f37Xb3wXgh3UPG8igSYJ") in
  x2 <~ unw (indexer_new (None) (None) (None) (None) (None) ((Some x1)) (None)) ;;
  let x3 := x2 in
  x4 <~ unw (indexer_qb2 x3) ;;
  x5 <~ unw (indexer_new (None) (None) (None) (None) (None) (None) ((Some x4))) ;;
  let x6 := x5 in
  _ <~ need (same (x_code x3) (s2b "A")) ;;
  _ <~ need (same (x_code x6) (x_code x3)) ;;
  _ <~ need (same (x_raw x6) (x_raw x3)) ;;
  _ <~ need (same (x_index x6) (x_index x3)) ;;
  _ <~ need (same (x_ondex x6) (x_ondex x3)) ;;
  x7 <~ unw (indexer_qb64 x6) ;;
  _ <~ need (same x7 x1) ;;
  Ok tt.
(** core/indexer/mod.rs, zero_fs *)
Definition t_indexer_zero_fs_0 : outcome unit :=
  x1 <~ unw (indexer_new ((Some 1)) ((Some 1)) ((Some (s2b "0z"))) ((Some [0; 0; 0])) (None) (None) (None)) ;;
  let x2 := x1 in
  x3 <~ unw (indexer_qb64 x2) ;;
  _ <~ need (ok (indexer_new (None) (None) (None) (None) (None) ((Some x3)) (None))) ;;
  x4 <~ unw (indexer_qb64b x2) ;;
  _ <~ need (ok (indexer_new (None) (None) (None) (None) ((Some x4)) (None) (None))) ;;
  x5 <~ unw (indexer_qb2 x2) ;;
  _ <~ need (ok (indexer_new (None) (None) (None) (None) (None) (None) ((Some x5)))) ;;
  Ok tt.
(** core/indexer/mod.rs, unhappy_paths *)
Definition t_indexer_unhappy_paths_0 : outcome unit :=
  _ <~ need (errs (indexer_new (None) (None) ((Some (s2b ""))) ((Some [])) (None) (None) (None))) ;;
  _ <~ need (errs (indexer_new (None) (None) ((Some (s2b "A"))) ((Some [])) (None) (None) (None))) ;;
  _ <~ need (errs (indexer_new (None) (None) (None) (None) ((Some [])) (None) (None))) ;;
  _ <~ need (errs (indexer_new (None) (None) (None) (None) (None) ((Some (s2b ""))) (None))) ;;
  _ <~ need (errs (indexer_new (None) (None) (None) (None) (None) (None) ((Some [])))) ;;
  _ <~ need (errs (indexer_new (None) (None) ((Some (s2b "CESR"))) ((Some [])) (None) (None) (None))) ;;
  _ <~ need (errs (indexer_new (None) (None) (None) (None) (None) ((Some (s2b "0"))) (None))) ;;
  _ <~ need (errs (indexer_new ((Some 65536)) (None) ((Some (s2b "A"))) ((Some [])) (None) (None) (None))) ;;
  _ <~ need (errs (indexer_new (None) ((Some 65535)) ((Some (s2b "0A"))) ((Some [])) (None) (None) (None))) ;;
  _ <~ need (errs (indexer_new (None) ((Some 1)) ((Some (s2b "B"))) ((Some [])) (None) (None) (None))) ;;
  _ <~ need (errs (indexer_new (None) ((Some 1)) ((Some (s2b "0z"))) ((Some [])) (None) (None) (None))) ;;
  let x1 := (Idx (s2b "0z") (s2b "") 65536 0) in
  _ <~ need (errs (indexer_qb64 x1)) ;;
  _ <~ need (errs (indexer_qb2 x1)) ;;
  let x2 := (Idx (s2b "0A") (s2b "") 0 65536) in
  _ <~ need (errs (indexer_qb64 x2)) ;;
  _ <~ need (errs (indexer_qb2 x2)) ;;
  let x3 := (Idx (s2b "A") (s2b "ab") 0 0) in
  _ <~ need (errs (indexer_qb64 x3)) ;;
  _ <~ need (errs (indexer_qb2 x3)) ;;
  let x4 := (Idx (s2b "2A") (s2b "a") 0 0) in
  _ <~ need (errs (indexer_qb64 x4)) ;;
  _ <~ need (errs (indexer_qb2 x4)) ;;
  _ <~ need (errs (indexer_new (None) (None) (None) (None) (None) ((Some (s2b "A"))) (None))) ;;
  let x5 := (s2b "0BAB") in
  _ <~ need (errs (indexer_new (None) (None) (None) (None) (None) ((Some x5)) (None))) ;;
  let x6 := (s2b "0AAA") in
  _ <~ need (errs (indexer_new (None) (None) (None) (None) (None) ((Some x6)) (None))) ;;
  let x7 := (s2b "AA_AAAAAAAAAAAAAAAAAAAAAAAAAAAAAAAAAAAAAAAAAAAAAAAAAAAAAAAAAAAAAAAAAAAAAAAAAAAAAAAAAAAAA") in
  _ <~ need (errs (indexer_new (None) (None) (None) (None) (None) ((Some x7)) (None))) ;;
  let x8 := (s2b "1zAA_AAAAAAAAAAAAAAAAAAAAAAAAAAAAAAAAAAAAAAAAAAAAAAAAAAAAAAAAAAAAAAAAAAAAAAA") in
  _ <~ need (errs (indexer_new (None) (None) (None) (None) (None) ((Some x8)) (None))) ;;
  let x9 := [208] in
  _ <~ need (errs (indexer_new (None) (None) (None) (None) (None) (None) ((Some x9)))) ;;
  let x10 := [208; 0] in
  _ <~ need (errs (indexer_new (None) (None) (None) (None) (None) (None) ((Some x10)))) ;;
  let x11 := [208; 16; 1] in
  _ <~ need (errs (indexer_new (None) (None) (None) (None) (None) (None) ((Some x11)))) ;;
  x12 <~ unw (b64_decode ((s2b "0AAA"))) ;;
  let x13 := x12 in
  _ <~ need (errs (indexer_new (None) (None) (None) (None) (None) (None) ((Some x13)))) ;;
  x14 <~ unw (b64_decode ((s2b "AA_AAAAAAAAAAAAAAAAAAAAAAAAAAAAAAAAAAAAAAAAAAAAAAAAAAAAAAAAAAAAAAAAAAAAAAAAAAAAAAAAAAAAA"))) ;;
  let x15 := x14 in
  _ <~ need (errs (indexer_new (None) (None) (None) (None) (None) (None) ((Some x15)))) ;;
  x16 <~ unw (b64_decode ((s2b "1zAA_AAAAAAAAAAAAAAAAAAAAAAAAAAAAAAAAAAAAAAAAAAAAAAAAAAAAAAAAAAAAAAAAAAAAAAA"))) ;;
  let x17 := x16 in
  _ <~ need (errs (indexer_new (None) (None) (None) (None) (None) (None) ((Some x17)))) ;;
  Ok tt.
(** core/indexer/mod.rs, raw_size *)
Definition t_indexer_raw_size_0 : outcome unit :=
  let x1 := (s2b "A") in
  let x2 := 88 in
  let x3 := (repeat 65 (N.to_nat (x2 - (N.of_nat (length x1)))%N)) in
  let x4 := (concat [x1; x3]) in
  x5 <~ unw (indexer_new (None) (None) (None) (None) (None) ((Some x4)) (None)) ;;
  let x6 := x5 in
  x7 <~ unw (indexer_full_size x6) ;;
  _ <~ need (same x7 x2) ;;
  Ok tt.
(** core/indexer/mod.rs, raw_size *)
Definition t_indexer_raw_size_1 : outcome unit :=
  let x1 := (s2b "0A") in
  let x2 := 156 in
  let x3 := (repeat 65 (N.to_nat (x2 - (N.of_nat (length x1)))%N)) in
  let x4 := (concat [x1; x3]) in
  x5 <~ unw (indexer_new (None) (None) (None) (None) (None) ((Some x4)) (None)) ;;
  let x6 := x5 in
  x7 <~ unw (indexer_full_size x6) ;;
  _ <~ need (same x7 x2) ;;
  Ok tt.
(** core/indexer/mod.rs, raw_size *)
Definition t_indexer_raw_size_2 : outcome unit :=
  let x1 := (s2b "2A") in
  let x2 := 92 in
  let x3 := (repeat 65 (N.to_nat (x2 - (N.of_nat (length x1)))%N)) in
  let x4 := (concat [x1; x3]) in
  x5 <~ unw (indexer_new (None) (None) (None) (None) (None) ((Some x4)) (None)) ;;
  let x6 := x5 in
  x7 <~ unw (indexer_full_size x6) ;;
  _ <~ need (same x7 x2) ;;
  Ok tt.
(** core/indexer/mod.rs, raw_size *)
Definition t_indexer_raw_size_3 : outcome unit :=
  let x1 := (s2b "3A") in
  let x2 := 160 in
  let x3 := (repeat 65 (N.to_nat (x2 - (N.of_nat (length x1)))%N)) in
  let x4 := (concat [x1; x3]) in
  x5 <~ unw (indexer_new (None) (None) (None) (None) (None) ((Some x4)) (None)) ;;
  let x6 := x5 in
  x7 <~ unw (indexer_full_size x6) ;;
  _ <~ need (same x7 x2) ;;
  Ok tt.
(** core/indexer/tables.rs, sizage *)
Definition t_indexer_tables_sizage_0 : outcome unit :=
  let x1 := (s2b "A") in
  let x2 := 1 in
  let x3 := 1 in
  let x4 := 0 in
  let x5 := 88 in
  let x6 := 0 in
  x7 <~ unw (get_isizage (x1)) ;;
  let x8 := x7 in
  _ <~ need (same (i_hs x8) x2) ;;
  _ <~ need (same (i_ss x8) x3) ;;
  _ <~ need (same (i_os x8) x4) ;;
  _ <~ need (same (i_fs x8) x5) ;;
  _ <~ need (same (i_ls x8) x6) ;;
  Ok tt.
(** core/indexer/tables.rs, sizage *)
Definition t_indexer_tables_sizage_1 : outcome unit :=
  let x1 := (s2b "B") in
  let x2 := 1 in
  let x3 := 1 in
  let x4 := 0 in
  let x5 := 88 in
  let x6 := 0 in
  x7 <~ unw (get_isizage (x1)) ;;
  let x8 := x7 in
  _ <~ need (same (i_hs x8) x2) ;;
  _ <~ need (same (i_ss x8) x3) ;;
  _ <~ need (same (i_os x8) x4) ;;
  _ <~ need (same (i_fs x8) x5) ;;
  _ <~ need (same (i_ls x8) x6) ;;
  Ok tt.
(** core/indexer/tables.rs, sizage *)
Definition t_indexer_tables_sizage_2 : outcome unit :=
  let x1 := (s2b "C") in
  let x2 := 1 in
  let x3 := 1 in
  let x4 := 0 in
  let x5 := 88 in
  let x6 := 0 in
  x7 <~ unw (get_isizage (x1)) ;;
  let x8 := x7 in
  _ <~ need (same (i_hs x8) x2) ;;
  _ <~ need (same (i_ss x8) x3) ;;
  _ <~ need (same (i_os x8) x4) ;;
  _ <~ need (same (i_fs x8) x5) ;;
  _ <~ need (same (i_ls x8) x6) ;;
  Ok tt.
(** core/indexer/tables.rs, sizage *)
Definition t_indexer_tables_sizage_3 : outcome unit :=
  let x1 := (s2b "D") in
  let x2 := 1 in
  let x3 := 1 in
  let x4 := 0 in
  let x5 := 88 in
  let x6 := 0 in
  x7 <~ unw (get_isizage (x1)) ;;
  let x8 := x7 in
  _ <~ need (same (i_hs x8) x2) ;;
  _ <~ need (same (i_ss x8) x3) ;;
  _ <~ need (same (i_os x8) x4) ;;
  _ <~ need (same (i_fs x8) x5) ;;
  _ <~ need (same (i_ls x8) x6) ;;
  Ok tt.
(** core/indexer/tables.rs, sizage *)
Definition t_indexer_tables_sizage_4 : outcome unit :=
  let x1 := (s2b "E") in
  let x2 := 1 in
  let x3 := 1 in
  let x4 := 0 in
  let x5 := 88 in
  let x6 := 0 in
  x7 <~ unw (get_isizage (x1)) ;;
  let x8 := x7 in
  _ <~ need (same (i_hs x8) x2) ;;
  _ <~ need (same (i_ss x8) x3) ;;
  _ <~ need (same (i_os x8) x4) ;;
  _ <~ need (same (i_fs x8) x5) ;;
  _ <~ need (same (i_ls x8) x6) ;;
  Ok tt.
(** core/indexer/tables.rs, sizage *)
Definition t_indexer_tables_sizage_5 : outcome unit :=
  let x1 := (s2b "F") in
  let x2 := 1 in
  let x3 := 1 in
  let x4 := 0 in
  let x5 := 88 in
  let x6 := 0 in
  x7 <~ unw (get_isizage (x1)) ;;
  let x8 := x7 in
  _ <~ need (same (i_hs x8) x2) ;;
  _ <~ need (same (i_ss x8) x3) ;;
  _ <~ need (same (i_os x8) x4) ;;
  _ <~ need (same (i_fs x8) x5) ;;
  _ <~ need (same (i_ls x8) x6) ;;
  Ok tt.
(** core/indexer/tables.rs, sizage *)
Definition t_indexer_tables_sizage_6 : outcome unit :=
  let x1 := (s2b "0A") in
  let x2 := 2 in
  let x3 := 2 in
  let x4 := 1 in
  let x5 := 156 in
  let x6 := 0 in
  x7 <~ unw (get_isizage (x1)) ;;
  let x8 := x7 in
  _ <~ need (same (i_hs x8) x2) ;;
  _ <~ need (same (i_ss x8) x3) ;;
  _ <~ need (same (i_os x8) x4) ;;
  _ <~ need (same (i_fs x8) x5) ;;
  _ <~ need (same (i_ls x8) x6) ;;
  Ok tt.
(** core/indexer/tables.rs, sizage *)
Definition t_indexer_tables_sizage_7 : outcome unit :=
  let x1 := (s2b "0B") in
  let x2 := 2 in
  let x3 := 2 in
  let x4 := 1 in
  let x5 := 156 in
  let x6 := 0 in
  x7 <~ unw (get_isizage (x1)) ;;
  let x8 := x7 in
  _ <~ need (same (i_hs x8) x2) ;;
  _ <~ need (same (i_ss x8) x3) ;;
  _ <~ need (same (i_os x8) x4) ;;
  _ <~ need (same (i_fs x8) x5) ;;
  _ <~ need (same (i_ls x8) x6) ;;
  Ok tt.
(** core/indexer/tables.rs, sizage *)
Definition t_indexer_tables_sizage_8 : outcome unit :=
  let x1 := (s2b "2A") in
  let x2 := 2 in
  let x3 := 4 in
  let x4 := 2 in
  let x5 := 92 in
  let x6 := 0 in
  x7 <~ unw (get_isizage (x1)) ;;
  let x8 := x7 in
  _ <~ need (same (i_hs x8) x2) ;;
  _ <~ need (same (i_ss x8) x3) ;;
  _ <~ need (same (i_os x8) x4) ;;
  _ <~ need (same (i_fs x8) x5) ;;
  _ <~ need (same (i_ls x8) x6) ;;
  Ok tt.
(** core/indexer/tables.rs, sizage *)
Definition t_indexer_tables_sizage_9 : outcome unit :=
  let x1 := (s2b "2B") in
  let x2 := 2 in
  let x3 := 4 in
  let x4 := 2 in
  let x5 := 92 in
  let x6 := 0 in
  x7 <~ unw (get_isizage (x1)) ;;
  let x8 := x7 in
  _ <~ need (same (i_hs x8) x2) ;;
  _ <~ need (same (i_ss x8) x3) ;;
  _ <~ need (same (i_os x8) x4) ;;
  _ <~ need (same (i_fs x8) x5) ;;
  _ <~ need (same (i_ls x8) x6) ;;
  Ok tt.
(** core/indexer/tables.rs, sizage *)
Definition t_indexer_tables_sizage_10 : outcome unit :=
  let x1 := (s2b "2C") in
  let x2 := 2 in
  let x3 := 4 in
  let x4 := 2 in
  let x5 := 92 in
  let x6 := 0 in
  x7 <~ unw (get_isizage (x1)) ;;
  let x8 := x7 in
  _ <~ need (same (i_hs x8) x2) ;;
  _ <~ need (same (i_ss x8) x3) ;;
  _ <~ need (same (i_os x8) x4) ;;
  _ <~ need (same (i_fs x8) x5) ;;
  _ <~ need (same (i_ls x8) x6) ;;
  Ok tt.
(** core/indexer/tables.rs, sizage *)
Definition t_indexer_tables_sizage_11 : outcome unit :=
  let x1 := (s2b "2D") in
  let x2 := 2 in
  let x3 := 4 in
  let x4 := 2 in
  let x5 := 92 in
  let x6 := 0 in
  x7 <~ unw (get_isizage (x1)) ;;
  let x8 := x7 in
  _ <~ need (same (i_hs x8) x2) ;;
  _ <~ need (same (i_ss x8) x3) ;;
  _ <~ need (same (i_os x8) x4) ;;
  _ <~ need (same (i_fs x8) x5) ;;
  _ <~ need (same (i_ls x8) x6) ;;
  Ok tt.
(** core/indexer/tables.rs, sizage *)
Definition t_indexer_tables_sizage_12 : outcome unit :=
  let x1 := (s2b "2E") in
  let x2 := 2 in
  let x3 := 4 in
  let x4 := 2 in
  let x5 := 92 in
  let x6 := 0 in
  x7 <~ unw (get_isizage (x1)) ;;
  let x8 := x7 in
  _ <~ need (same (i_hs x8) x2) ;;
  _ <~ need (same (i_ss x8) x3) ;;
  _ <~ need (same (i_os x8) x4) ;;
  _ <~ need (same (i_fs x8) x5) ;;
  _ <~ need (same (i_ls x8) x6) ;;
  Ok tt.
(** core/indexer/tables.rs, sizage *)
Definition t_indexer_tables_sizage_13 : outcome unit :=
  let x1 := (s2b "2F") in
  let x2 := 2 in
  let x3 := 4 in
  let x4 := 2 in
  let x5 := 92 in
  let x6 := 0 in
  x7 <~ unw (get_isizage (x1)) ;;
  let x8 := x7 in
  _ <~ need (same (i_hs x8) x2) ;;
  _ <~ need (same (i_ss x8) x3) ;;
  _ <~ need (same (i_os x8) x4) ;;
  _ <~ need (same (i_fs x8) x5) ;;
  _ <~ need (same (i_ls x8) x6) ;;
  Ok tt.
(** core/indexer/tables.rs, sizage *)
Definition t_indexer_tables_sizage_14 : outcome unit :=
  let x1 := (s2b "3A") in
  let x2 := 2 in
  let x3 := 6 in
  let x4 := 3 in
  let x5 := 160 in
  let x6 := 0 in
  x7 <~ unw (get_isizage (x1)) ;;
  let x8 := x7 in
  _ <~ need (same (i_hs x8) x2) ;;
  _ <~ need (same (i_ss x8) x3) ;;
  _ <~ need (same (i_os x8) x4) ;;
  _ <~ need (same (i_fs x8) x5) ;;
  _ <~ need (same (i_ls x8) x6) ;;
  Ok tt.
(** core/indexer/tables.rs, sizage *)
Definition t_indexer_tables_sizage_15 : outcome unit :=
  let x1 := (s2b "3B") in
  let x2 := 2 in
  let x3 := 6 in
  let x4 := 3 in
  let x5 := 160 in
  let x6 := 0 in
  x7 <~ unw (get_isizage (x1)) ;;
  let x8 := x7 in
  _ <~ need (same (i_hs x8) x2) ;;
  _ <~ need (same (i_ss x8) x3) ;;
  _ <~ need (same (i_os x8) x4) ;;
  _ <~ need (same (i_fs x8) x5) ;;
  _ <~ need (same (i_ls x8) x6) ;;
  Ok tt.
(** core/indexer/tables.rs, sizage *)
Definition t_indexer_tables_sizage_16 : outcome unit :=
  let x1 := (s2b "0z") in
  let x2 := 2 in
  let x3 := 2 in
  let x4 := 0 in
  let x5 := 4294967295 in
  let x6 := 0 in
  x7 <~ unw (get_isizage (x1)) ;;
  let x8 := x7 in
  _ <~ need (same (i_hs x8) x2) ;;
  _ <~ need (same (i_ss x8) x3) ;;
  _ <~ need (same (i_os x8) x4) ;;
  _ <~ need (same (i_fs x8) x5) ;;
  _ <~ need (same (i_ls x8) x6) ;;
  Ok tt.
(** core/indexer/tables.rs, sizage *)
Definition t_indexer_tables_sizage_17 : outcome unit :=
  let x1 := (s2b "1z") in
  let x2 := 2 in
  let x3 := 2 in
  let x4 := 1 in
  let x5 := 76 in
  let x6 := 1 in
  x7 <~ unw (get_isizage (x1)) ;;
  let x8 := x7 in
  _ <~ need (same (i_hs x8) x2) ;;
  _ <~ need (same (i_ss x8) x3) ;;
  _ <~ need (same (i_os x8) x4) ;;
  _ <~ need (same (i_fs x8) x5) ;;
  _ <~ need (same (i_ls x8) x6) ;;
  Ok tt.
(** core/indexer/tables.rs, sizage *)
Definition t_indexer_tables_sizage_18 : outcome unit :=
  let x1 := (s2b "4z") in
  let x2 := 2 in
  let x3 := 6 in
  let x4 := 3 in
  let x5 := 80 in
  let x6 := 1 in
  x7 <~ unw (get_isizage (x1)) ;;
  let x8 := x7 in
  _ <~ need (same (i_hs x8) x2) ;;
  _ <~ need (same (i_ss x8) x3) ;;
  _ <~ need (same (i_os x8) x4) ;;
  _ <~ need (same (i_fs x8) x5) ;;
  _ <~ need (same (i_ls x8) x6) ;;
  Ok tt.
(** core/indexer/tables.rs, unkown_size *)
Definition t_indexer_tables_unkown_size_0 : outcome unit :=
  _ <~ need (errs (get_isizage ((s2b "z")))) ;;
  Ok tt.
(** core/indexer/tables.rs, hardage *)
Definition t_indexer_tables_hardage_0 : outcome unit :=
  let x1 := 65 in
  let x2 := 1 in
  x3 <~ unw (i_hardage (x1)) ;;
  _ <~ need (same x3 x2) ;;
  Ok tt.
(** core/indexer/tables.rs, hardage *)
Definition t_indexer_tables_hardage_1 : outcome unit :=
  let x1 := 71 in
  let x2 := 1 in
  x3 <~ unw (i_hardage (x1)) ;;
  _ <~ need (same x3 x2) ;;
  Ok tt.
(** core/indexer/tables.rs, hardage *)
Definition t_indexer_tables_hardage_2 : outcome unit :=
  let x1 := 98 in
  let x2 := 1 in
  x3 <~ unw (i_hardage (x1)) ;;
  _ <~ need (same x3 x2) ;;
  Ok tt.
(** core/indexer/tables.rs, hardage *)
Definition t_indexer_tables_hardage_3 : outcome unit :=
  let x1 := 122 in
  let x2 := 1 in
  x3 <~ unw (i_hardage (x1)) ;;
  _ <~ need (same x3 x2) ;;
  Ok tt.
(** core/indexer/tables.rs, hardage *)
Definition t_indexer_tables_hardage_4 : outcome unit :=
  let x1 := 48 in
  let x2 := 2 in
  x3 <~ unw (i_hardage (x1)) ;;
  _ <~ need (same x3 x2) ;;
  Ok tt.
(** core/indexer/tables.rs, hardage *)
Definition t_indexer_tables_hardage_5 : outcome unit :=
  let x1 := 49 in
  let x2 := 2 in
  x3 <~ unw (i_hardage (x1)) ;;
  _ <~ need (same x3 x2) ;;
  Ok tt.
(** core/indexer/tables.rs, hardage *)
Definition t_indexer_tables_hardage_6 : outcome unit :=
  let x1 := 50 in
  let x2 := 2 in
  x3 <~ unw (i_hardage (x1)) ;;
  _ <~ need (same x3 x2) ;;
  Ok tt.
(** core/indexer/tables.rs, hardage *)
Definition t_indexer_tables_hardage_7 : outcome unit :=
  let x1 := 51 in
  let x2 := 2 in
  x3 <~ unw (i_hardage (x1)) ;;
  _ <~ need (same x3 x2) ;;
  Ok tt.
(** core/indexer/tables.rs, hardage *)
Definition t_indexer_tables_hardage_8 : outcome unit :=
  let x1 := 52 in
  let x2 := 2 in
  x3 <~ unw (i_hardage (x1)) ;;
  _ <~ need (same x3 x2) ;;
  Ok tt.
(** core/indexer/tables.rs, unexpected_count_code *)
Definition t_indexer_tables_unexpected_count_code_0 : outcome unit :=
  _ <~ need (errs (i_hardage (45))) ;;
  Ok tt.
(** core/indexer/tables.rs, unexpected_op_code *)
Definition t_indexer_tables_unexpected_op_code_0 : outcome unit :=
  _ <~ need (errs (i_hardage (95))) ;;
  Ok tt.
(** core/indexer/tables.rs, unknown_hardage *)
Definition t_indexer_tables_unknown_hardage_0 : outcome unit :=
  _ <~ need (errs (i_hardage (56))) ;;
  Ok tt.
(** core/indexer/tables.rs, bardage *)
Definition t_indexer_tables_bardage_0 : outcome unit :=
  let x1 := 0 in
  let x2 := 1 in
  x3 <~ unw (i_bardage (x1)) ;;
  _ <~ need (same x3 x2) ;;
  Ok tt.
(** core/indexer/tables.rs, bardage *)
Definition t_indexer_tables_bardage_1 : outcome unit :=
  let x1 := 1 in
  let x2 := 1 in
  x3 <~ unw (i_bardage (x1)) ;;
  _ <~ need (same x3 x2) ;;
  Ok tt.
(** core/indexer/tables.rs, bardage *)
Definition t_indexer_tables_bardage_2 : outcome unit :=
  let x1 := 2 in
  let x2 := 1 in
  x3 <~ unw (i_bardage (x1)) ;;
  _ <~ need (same x3 x2) ;;
  Ok tt.
(** core/indexer/tables.rs, bardage *)
Definition t_indexer_tables_bardage_3 : outcome unit :=
  let x1 := 3 in
  let x2 := 1 in
  x3 <~ unw (i_bardage (x1)) ;;
  _ <~ need (same x3 x2) ;;
  Ok tt.
(** core/indexer/tables.rs, bardage *)
Definition t_indexer_tables_bardage_4 : outcome unit :=
  let x1 := 4 in
  let x2 := 1 in
  x3 <~ unw (i_bardage (x1)) ;;
  _ <~ need (same x3 x2) ;;
  Ok tt.
(** core/indexer/tables.rs, bardage *)
Definition t_indexer_tables_bardage_5 : outcome unit :=
  let x1 := 5 in
  let x2 := 1 in
  x3 <~ unw (i_bardage (x1)) ;;
  _ <~ need (same x3 x2) ;;
  Ok tt.
(** core/indexer/tables.rs, bardage *)
Definition t_indexer_tables_bardage_6 : outcome unit :=
  let x1 := 6 in
  let x2 := 1 in
  x3 <~ unw (i_bardage (x1)) ;;
  _ <~ need (same x3 x2) ;;
  Ok tt.
(** core/indexer/tables.rs, bardage *)
Definition t_indexer_tables_bardage_7 : outcome unit :=
  let x1 := 7 in
  let x2 := 1 in
  x3 <~ unw (i_bardage (x1)) ;;
  _ <~ need (same x3 x2) ;;
  Ok tt.
(** core/indexer/tables.rs, bardage *)
Definition t_indexer_tables_bardage_8 : outcome unit :=
  let x1 := 8 in
  let x2 := 1 in
  x3 <~ unw (i_bardage (x1)) ;;
  _ <~ need (same x3 x2) ;;
  Ok tt.
(** core/indexer/tables.rs, bardage *)
Definition t_indexer_tables_bardage_9 : outcome unit :=
  let x1 := 9 in
  let x2 := 1 in
  x3 <~ unw (i_bardage (x1)) ;;
  _ <~ need (same x3 x2) ;;
  Ok tt.
(** core/indexer/tables.rs, bardage *)
Definition t_indexer_tables_bardage_10 : outcome unit :=
  let x1 := 10 in
  let x2 := 1 in
  x3 <~ unw (i_bardage (x1)) ;;
  _ <~ need (same x3 x2) ;;
  Ok tt.
(** core/indexer/tables.rs, bardage *)
Definition t_indexer_tables_bardage_11 : outcome unit :=
  let x1 := 11 in
  let x2 := 1 in
  x3 <~ unw (i_bardage (x1)) ;;
  _ <~ need (same x3 x2) ;;
  Ok tt.
(** core/indexer/tables.rs, bardage *)
Definition t_indexer_tables_bardage_12 : outcome unit :=
  let x1 := 12 in
  let x2 := 1 in
  x3 <~ unw (i_bardage (x1)) ;;
  _ <~ need (same x3 x2) ;;
  Ok tt.
(** core/indexer/tables.rs, bardage *)
Definition t_indexer_tables_bardage_13 : outcome unit :=
  let x1 := 13 in
  let x2 := 1 in
  x3 <~ unw (i_bardage (x1)) ;;
  _ <~ need (same x3 x2) ;;
  Ok tt.
(** core/indexer/tables.rs, bardage *)
Definition t_indexer_tables_bardage_14 : outcome unit :=
  let x1 := 14 in
  let x2 := 1 in
  x3 <~ unw (i_bardage (x1)) ;;
  _ <~ need (same x3 x2) ;;
  Ok tt.
(** core/indexer/tables.rs, bardage *)
Definition t_indexer_tables_bardage_15 : outcome unit :=
  let x1 := 15 in
  let x2 := 1 in
  x3 <~ unw (i_bardage (x1)) ;;
  _ <~ need (same x3 x2) ;;
  Ok tt.
(** core/indexer/tables.rs, bardage *)
Definition t_indexer_tables_bardage_16 : outcome unit :=
  let x1 := 16 in
  let x2 := 1 in
  x3 <~ unw (i_bardage (x1)) ;;
  _ <~ need (same x3 x2) ;;
  Ok tt.
(** core/indexer/tables.rs, bardage *)
Definition t_indexer_tables_bardage_17 : outcome unit :=
  let x1 := 17 in
  let x2 := 1 in
  x3 <~ unw (i_bardage (x1)) ;;
  _ <~ need (same x3 x2) ;;
  Ok tt.
(** core/indexer/tables.rs, bardage *)
Definition t_indexer_tables_bardage_18 : outcome unit :=
  let x1 := 18 in
  let x2 := 1 in
  x3 <~ unw (i_bardage (x1)) ;;
  _ <~ need (same x3 x2) ;;
  Ok tt.
(** core/indexer/tables.rs, bardage *)
Definition t_indexer_tables_bardage_19 : outcome unit :=
  let x1 := 19 in
  let x2 := 1 in
  x3 <~ unw (i_bardage (x1)) ;;
  _ <~ need (same x3 x2) ;;
  Ok tt.
(** core/indexer/tables.rs, bardage *)
Definition t_indexer_tables_bardage_20 : outcome unit :=
  let x1 := 20 in
  let x2 := 1 in
  x3 <~ unw (i_bardage (x1)) ;;
  _ <~ need (same x3 x2) ;;
  Ok tt.
(** core/indexer/tables.rs, bardage *)
Definition t_indexer_tables_bardage_21 : outcome unit :=
  let x1 := 21 in
  let x2 := 1 in
  x3 <~ unw (i_bardage (x1)) ;;
  _ <~ need (same x3 x2) ;;
  Ok tt.
(** core/indexer/tables.rs, bardage *)
Definition t_indexer_tables_bardage_22 : outcome unit :=
  let x1 := 22 in
  let x2 := 1 in
  x3 <~ unw (i_bardage (x1)) ;;
  _ <~ need (same x3 x2) ;;
  Ok tt.
(** core/indexer/tables.rs, bardage *)
Definition t_indexer_tables_bardage_23 : outcome unit :=
  let x1 := 23 in
  let x2 := 1 in
  x3 <~ unw (i_bardage (x1)) ;;
  _ <~ need (same x3 x2) ;;
  Ok tt.
(** core/indexer/tables.rs, bardage *)
Definition t_indexer_tables_bardage_24 : outcome unit :=
  let x1 := 24 in
  let x2 := 1 in
  x3 <~ unw (i_bardage (x1)) ;;
  _ <~ need (same x3 x2) ;;
  Ok tt.
(** core/indexer/tables.rs, bardage *)
Definition t_indexer_tables_bardage_25 : outcome unit :=
  let x1 := 25 in
  let x2 := 1 in
  x3 <~ unw (i_bardage (x1)) ;;
  _ <~ need (same x3 x2) ;;
  Ok tt.
(** core/indexer/tables.rs, bardage *)
Definition t_indexer_tables_bardage_26 : outcome unit :=
  let x1 := 26 in
  let x2 := 1 in
  x3 <~ unw (i_bardage (x1)) ;;
  _ <~ need (same x3 x2) ;;
  Ok tt.
(** core/indexer/tables.rs, bardage *)
Definition t_indexer_tables_bardage_27 : outcome unit :=
  let x1 := 27 in
  let x2 := 1 in
  x3 <~ unw (i_bardage (x1)) ;;
  _ <~ need (same x3 x2) ;;
  Ok tt.
(** core/indexer/tables.rs, bardage *)
Definition t_indexer_tables_bardage_28 : outcome unit :=
  let x1 := 28 in
  let x2 := 1 in
  x3 <~ unw (i_bardage (x1)) ;;
  _ <~ need (same x3 x2) ;;
  Ok tt.
(** core/indexer/tables.rs, bardage *)
Definition t_indexer_tables_bardage_29 : outcome unit :=
  let x1 := 29 in
  let x2 := 1 in
  x3 <~ unw (i_bardage (x1)) ;;
  _ <~ need (same x3 x2) ;;
  Ok tt.
(** core/indexer/tables.rs, bardage *)
Definition t_indexer_tables_bardage_30 : outcome unit :=
  let x1 := 30 in
  let x2 := 1 in
  x3 <~ unw (i_bardage (x1)) ;;
  _ <~ need (same x3 x2) ;;
  Ok tt.
(** core/indexer/tables.rs, bardage *)
Definition t_indexer_tables_bardage_31 : outcome unit :=
  let x1 := 31 in
  let x2 := 1 in
  x3 <~ unw (i_bardage (x1)) ;;
  _ <~ need (same x3 x2) ;;
  Ok tt.
(** core/indexer/tables.rs, bardage *)
Definition t_indexer_tables_bardage_32 : outcome unit :=
  let x1 := 32 in
  let x2 := 1 in
  x3 <~ unw (i_bardage (x1)) ;;
  _ <~ need (same x3 x2) ;;
  Ok tt.
(** core/indexer/tables.rs, bardage *)
Definition t_indexer_tables_bardage_33 : outcome unit :=
  let x1 := 33 in
  let x2 := 1 in
  x3 <~ unw (i_bardage (x1)) ;;
  _ <~ need (same x3 x2) ;;
  Ok tt.
(** core/indexer/tables.rs, bardage *)
Definition t_indexer_tables_bardage_34 : outcome unit :=
  let x1 := 34 in
  let x2 := 1 in
  x3 <~ unw (i_bardage (x1)) ;;
  _ <~ need (same x3 x2) ;;
  Ok tt.
(** core/indexer/tables.rs, bardage *)
Definition t_indexer_tables_bardage_35 : outcome unit :=
  let x1 := 35 in
  let x2 := 1 in
  x3 <~ unw (i_bardage (x1)) ;;
  _ <~ need (same x3 x2) ;;
  Ok tt.
(** core/indexer/tables.rs, bardage *)
Definition t_indexer_tables_bardage_36 : outcome unit :=
  let x1 := 36 in
  let x2 := 1 in
  x3 <~ unw (i_bardage (x1)) ;;
  _ <~ need (same x3 x2) ;;
  Ok tt.
(** core/indexer/tables.rs, bardage *)
Definition t_indexer_tables_bardage_37 : outcome unit :=
  let x1 := 37 in
  let x2 := 1 in
  x3 <~ unw (i_bardage (x1)) ;;
  _ <~ need (same x3 x2) ;;
  Ok tt.
(** core/indexer/tables.rs, bardage *)
Definition t_indexer_tables_bardage_38 : outcome unit :=
  let x1 := 38 in
  let x2 := 1 in
  x3 <~ unw (i_bardage (x1)) ;;
  _ <~ need (same x3 x2) ;;
  Ok tt.
(** core/indexer/tables.rs, bardage *)
Definition t_indexer_tables_bardage_39 : outcome unit :=
  let x1 := 39 in
  let x2 := 1 in
  x3 <~ unw (i_bardage (x1)) ;;
  _ <~ need (same x3 x2) ;;
  Ok tt.
(** core/indexer/tables.rs, bardage *)
Definition t_indexer_tables_bardage_40 : outcome unit :=
  let x1 := 40 in
  let x2 := 1 in
  x3 <~ unw (i_bardage (x1)) ;;
  _ <~ need (same x3 x2) ;;
  Ok tt.
(** core/indexer/tables.rs, bardage *)
Definition t_indexer_tables_bardage_41 : outcome unit :=
  let x1 := 41 in
  let x2 := 1 in
  x3 <~ unw (i_bardage (x1)) ;;
  _ <~ need (same x3 x2) ;;
  Ok tt.
(** core/indexer/tables.rs, bardage *)
Definition t_indexer_tables_bardage_42 : outcome unit :=
  let x1 := 42 in
  let x2 := 1 in
  x3 <~ unw (i_bardage (x1)) ;;
  _ <~ need (same x3 x2) ;;
  Ok tt.
(** core/indexer/tables.rs, bardage *)
Definition t_indexer_tables_bardage_43 : outcome unit :=
  let x1 := 43 in
  let x2 := 1 in
  x3 <~ unw (i_bardage (x1)) ;;
  _ <~ need (same x3 x2) ;;
  Ok tt.
(** core/indexer/tables.rs, bardage *)
Definition t_indexer_tables_bardage_44 : outcome unit :=
  let x1 := 44 in
  let x2 := 1 in
  x3 <~ unw (i_bardage (x1)) ;;
  _ <~ need (same x3 x2) ;;
  Ok tt.
(** core/indexer/tables.rs, bardage *)
Definition t_indexer_tables_bardage_45 : outcome unit :=
  let x1 := 45 in
  let x2 := 1 in
  x3 <~ unw (i_bardage (x1)) ;;
  _ <~ need (same x3 x2) ;;
  Ok tt.
(** core/indexer/tables.rs, bardage *)
Definition t_indexer_tables_bardage_46 : outcome unit :=
  let x1 := 46 in
  let x2 := 1 in
  x3 <~ unw (i_bardage (x1)) ;;
  _ <~ need (same x3 x2) ;;
  Ok tt.
(** core/indexer/tables.rs, bardage *)
Definition t_indexer_tables_bardage_47 : outcome unit :=
  let x1 := 47 in
  let x2 := 1 in
  x3 <~ unw (i_bardage (x1)) ;;
  _ <~ need (same x3 x2) ;;
  Ok tt.
(** core/indexer/tables.rs, bardage *)
Definition t_indexer_tables_bardage_48 : outcome unit :=
  let x1 := 48 in
  let x2 := 1 in
  x3 <~ unw (i_bardage (x1)) ;;
  _ <~ need (same x3 x2) ;;
  Ok tt.
(** core/indexer/tables.rs, bardage *)
Definition t_indexer_tables_bardage_49 : outcome unit :=
  let x1 := 49 in
  let x2 := 1 in
  x3 <~ unw (i_bardage (x1)) ;;
  _ <~ need (same x3 x2) ;;
  Ok tt.
(** core/indexer/tables.rs, bardage *)
Definition t_indexer_tables_bardage_50 : outcome unit :=
  let x1 := 50 in
  let x2 := 1 in
  x3 <~ unw (i_bardage (x1)) ;;
  _ <~ need (same x3 x2) ;;
  Ok tt.
(** core/indexer/tables.rs, bardage *)
Definition t_indexer_tables_bardage_51 : outcome unit :=
  let x1 := 51 in
  let x2 := 1 in
  x3 <~ unw (i_bardage (x1)) ;;
  _ <~ need (same x3 x2) ;;
  Ok tt.
(** core/indexer/tables.rs, bardage *)
Definition t_indexer_tables_bardage_52 : outcome unit :=
  let x1 := 52 in
  let x2 := 2 in
  x3 <~ unw (i_bardage (x1)) ;;
  _ <~ need (same x3 x2) ;;
  Ok tt.
(** core/indexer/tables.rs, bardage *)
Definition t_indexer_tables_bardage_53 : outcome unit :=
  let x1 := 53 in
  let x2 := 2 in
  x3 <~ unw (i_bardage (x1)) ;;
  _ <~ need (same x3 x2) ;;
  Ok tt.
(** core/indexer/tables.rs, bardage *)
Definition t_indexer_tables_bardage_54 : outcome unit :=
  let x1 := 54 in
  let x2 := 2 in
  x3 <~ unw (i_bardage (x1)) ;;
  _ <~ need (same x3 x2) ;;
  Ok tt.
(** core/indexer/tables.rs, bardage *)
Definition t_indexer_tables_bardage_55 : outcome unit :=
  let x1 := 55 in
  let x2 := 2 in
  x3 <~ unw (i_bardage (x1)) ;;
  _ <~ need (same x3 x2) ;;
  Ok tt.
(** core/indexer/tables.rs, bardage *)
Definition t_indexer_tables_bardage_56 : outcome unit :=
  let x1 := 56 in
  let x2 := 2 in
  x3 <~ unw (i_bardage (x1)) ;;
  _ <~ need (same x3 x2) ;;
  Ok tt.
(** core/indexer/tables.rs, unexpected_bardage_count_code *)
Definition t_indexer_tables_unexpected_bardage_count_code_0 : outcome unit :=
  _ <~ need (errs (i_bardage (62))) ;;
  Ok tt.
(** core/indexer/tables.rs, unexpected_bardage_op_code *)
Definition t_indexer_tables_unexpected_bardage_op_code_0 : outcome unit :=
  _ <~ need (errs (i_bardage (63))) ;;
  Ok tt.
(** core/indexer/tables.rs, unknown_bardage *)
Definition t_indexer_tables_unknown_bardage_0 : outcome unit :=
  _ <~ need (errs (i_bardage (57))) ;;
  Ok tt.
End T.

(** the 15 cases of core/indexer/mod.rs *)
Definition indexer_mod_cases {P : Profile} : list (outcome unit) :=
  [t_indexer_new_variable_length_0; t_indexer_new_0; t_indexer_python_interop_0; t_indexer_python_interop_1; t_indexer_python_interop_2; t_indexer_python_interop_3; t_indexer_exfil_infil_bexfil_binfil_0; t_indexer_exfil_infil_bexfil_binfil_1; t_indexer_exfil_infil_bexfil_binfil_2; t_indexer_zero_fs_0; t_indexer_unhappy_paths_0; t_indexer_raw_size_0; t_indexer_raw_size_1; t_indexer_raw_size_2; t_indexer_raw_size_3].
Example indexer_mod_conforms : forall P : Profile, forallb ok indexer_mod_cases = true.
Proof. intros [|]; vm_compute; reflexivity. Qed.
(** the 92 cases of core/indexer/tables.rs *)
Definition indexer_tables_cases {P : Profile} : list (outcome unit) :=
  [t_indexer_tables_sizage_0; t_indexer_tables_sizage_1; t_indexer_tables_sizage_2; t_indexer_tables_sizage_3; t_indexer_tables_sizage_4; t_indexer_tables_sizage_5; t_indexer_tables_sizage_6; t_indexer_tables_sizage_7; t_indexer_tables_sizage_8; t_indexer_tables_sizage_9; t_indexer_tables_sizage_10; t_indexer_tables_sizage_11; t_indexer_tables_sizage_12; t_indexer_tables_sizage_13; t_indexer_tables_sizage_14; t_indexer_tables_sizage_15; t_indexer_tables_sizage_16; t_indexer_tables_sizage_17; t_indexer_tables_sizage_18; t_indexer_tables_unkown_size_0; t_indexer_tables_hardage_0; t_indexer_tables_hardage_1; t_indexer_tables_hardage_2; t_indexer_tables_hardage_3; t_indexer_tables_hardage_4; t_indexer_tables_hardage_5; t_indexer_tables_hardage_6; t_indexer_tables_hardage_7; t_indexer_tables_hardage_8; t_indexer_tables_unexpected_count_code_0; t_indexer_tables_unexpected_op_code_0; t_indexer_tables_unknown_hardage_0; t_indexer_tables_bardage_0; t_indexer_tables_bardage_1; t_indexer_tables_bardage_2; t_indexer_tables_bardage_3; t_indexer_tables_bardage_4; t_indexer_tables_bardage_5; t_indexer_tables_bardage_6; t_indexer_tables_bardage_7; t_indexer_tables_bardage_8; t_indexer_tables_bardage_9; t_indexer_tables_bardage_10; t_indexer_tables_bardage_11; t_indexer_tables_bardage_12; t_indexer_tables_bardage_13; t_indexer_tables_bardage_14; t_indexer_tables_bardage_15; t_indexer_tables_bardage_16; t_indexer_tables_bardage_17; t_indexer_tables_bardage_18; t_indexer_tables_bardage_19; t_indexer_tables_bardage_20; t_indexer_tables_bardage_21; t_indexer_tables_bardage_22; t_indexer_tables_bardage_23; t_indexer_tables_bardage_24; t_indexer_tables_bardage_25; t_indexer_tables_bardage_26; t_indexer_tables_bardage_27; t_indexer_tables_bardage_28; t_indexer_tables_bardage_29; t_indexer_tables_bardage_30; t_indexer_tables_bardage_31; t_indexer_tables_bardage_32; t_indexer_tables_bardage_33; t_indexer_tables_bardage_34; t_indexer_tables_bardage_35; t_indexer_tables_bardage_36; t_indexer_tables_bardage_37; t_indexer_tables_bardage_38; t_indexer_tables_bardage_39; t_indexer_tables_bardage_40; t_indexer_tables_bardage_41; t_indexer_tables_bardage_42; t_indexer_tables_bardage_43; t_indexer_tables_bardage_44; t_indexer_tables_bardage_45; t_indexer_tables_bardage_46; t_indexer_tables_bardage_47; t_indexer_tables_bardage_48; t_indexer_tables_bardage_49; t_indexer_tables_bardage_50; t_indexer_tables_bardage_51; t_indexer_tables_bardage_52; t_indexer_tables_bardage_53; t_indexer_tables_bardage_54; t_indexer_tables_bardage_55; t_indexer_tables_bardage_56; t_indexer_tables_unexpected_bardage_count_code_0; t_indexer_tables_unexpected_bardage_op_code_0; t_indexer_tables_unknown_bardage_0].
Example indexer_tables_conforms : forall P : Profile, forallb ok indexer_tables_cases = true.
Proof. intros [|]; vm_compute; reflexivity. Qed.
