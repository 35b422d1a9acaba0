(** Model of /repo/src/core/indexer/tables.rs. *)
From Verif Require Import Base.

(** tables.rs:130-137 *)
Record isizage := Isz { i_hs : N; i_ss : N; i_os : N; i_fs : N; i_ls : N }.

(** tables.rs:139-162 *)
Definition i_sizage_table : list (bytes * isizage) := [
  (s2b "A", Isz 1 1 0 88 0); (s2b "B", Isz 1 1 0 88 0); (s2b "C", Isz 1 1 0 88 0);
  (s2b "D", Isz 1 1 0 88 0); (s2b "E", Isz 1 1 0 88 0); (s2b "F", Isz 1 1 0 88 0);
  (s2b "0A", Isz 2 2 1 156 0); (s2b "0B", Isz 2 2 1 156 0);
  (s2b "2A", Isz 2 4 2 92 0); (s2b "2B", Isz 2 4 2 92 0); (s2b "2C", Isz 2 4 2 92 0);
  (s2b "2D", Isz 2 4 2 92 0); (s2b "2E", Isz 2 4 2 92 0); (s2b "2F", Isz 2 4 2 92 0);
  (s2b "3A", Isz 2 6 3 160 0); (s2b "3B", Isz 2 6 3 160 0);
  (s2b "0z", Isz 2 2 0 u32_max 0); (s2b "1z", Isz 2 2 1 76 1); (s2b "4z", Isz 2 6 3 80 1) ].

Definition get_isizage (s : bytes) : outcome isizage :=
  match assoc s i_sizage_table with Some z => Ok z | None => Err E_UnknownSizage end.

(** tables.rs:164-172; the argument is the first char of the text, here its
    first byte (a non-ASCII char is UnknownHardage, as is its lead byte) *)
Definition i_hardage (c : N) : outcome N :=
  if ((65 <=? c) && (c <=? 90)) || ((97 <=? c) && (c <=? 122)) then Ok 1
  else if (48 <=? c) && (c <=? 52) then Ok 2
  else if c =? 45 then Err E_UnexpectedCode
  else if c =? 95 then Err E_UnexpectedCode
  else Err E_UnknownHardage.

(** tables.rs:174-182 *)
Definition i_bardage (b : N) : outcome N :=
  if b <=? 51 then Ok 1
  else if b <=? 56 then Ok 2
  else if b =? 62 then Err E_UnexpectedCode
  else if b =? 63 then Err E_UnexpectedCode
  else Err E_UnknownBardage.

(** tables.rs:75-101 *)
Definition current_sig_codes : list bytes :=
  [s2b "B"; s2b "D"; s2b "F"; s2b "0B"; s2b "2B"; s2b "2D"; s2b "2F"; s2b "3B"].
(** tables.rs:103-129 *)
Definition both_sig_codes : list bytes :=
  [s2b "A"; s2b "C"; s2b "E"; s2b "0A"; s2b "2A"; s2b "2C"; s2b "2E"; s2b "3A"].
