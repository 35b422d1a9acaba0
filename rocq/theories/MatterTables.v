(** Model of /repo/src/core/matter/tables.rs. *)
From Verif Require Import Base.

(** tables.rs:8-14 *)
Record sizage := Sz { hs : N; ss : N; fs : N; ls : N }.

(** tables.rs:16-70 (fs = u32::MAX marks variable size codes) *)
Definition sizage_table : list (bytes * sizage) := [
  (s2b "A", Sz 1 0 44 0); (s2b "B", Sz 1 0 44 0); (s2b "C", Sz 1 0 44 0);
  (s2b "D", Sz 1 0 44 0); (s2b "E", Sz 1 0 44 0); (s2b "F", Sz 1 0 44 0);
  (s2b "G", Sz 1 0 44 0); (s2b "H", Sz 1 0 44 0); (s2b "I", Sz 1 0 44 0);
  (s2b "J", Sz 1 0 44 0); (s2b "K", Sz 1 0 76 0); (s2b "L", Sz 1 0 76 0);
  (s2b "M", Sz 1 0 4 0); (s2b "N", Sz 1 0 12 0); (s2b "O", Sz 1 0 44 0);
  (s2b "P", Sz 1 0 124 0); (s2b "Q", Sz 1 0 44 0);
  (s2b "0A", Sz 2 0 24 0); (s2b "0B", Sz 2 0 88 0); (s2b "0C", Sz 2 0 88 0);
  (s2b "0D", Sz 2 0 88 0); (s2b "0E", Sz 2 0 88 0); (s2b "0F", Sz 2 0 88 0);
  (s2b "0G", Sz 2 0 88 0); (s2b "0H", Sz 2 0 8 0); (s2b "0I", Sz 2 0 88 0);
  (s2b "1AAA", Sz 4 0 48 0); (s2b "1AAB", Sz 4 0 48 0); (s2b "1AAC", Sz 4 0 80 0);
  (s2b "1AAD", Sz 4 0 80 0); (s2b "1AAE", Sz 4 0 56 0); (s2b "1AAF", Sz 4 0 8 0);
  (s2b "1AAG", Sz 4 0 36 0); (s2b "1AAH", Sz 4 0 100 0); (s2b "1AAI", Sz 4 0 48 0);
  (s2b "1AAJ", Sz 4 0 48 0); (s2b "2AAA", Sz 4 0 8 1); (s2b "3AAA", Sz 4 0 8 2);
  (s2b "4A", Sz 2 2 u32_max 0); (s2b "5A", Sz 2 2 u32_max 1); (s2b "6A", Sz 2 2 u32_max 2);
  (s2b "7AAA", Sz 4 4 u32_max 0); (s2b "8AAA", Sz 4 4 u32_max 1); (s2b "9AAA", Sz 4 4 u32_max 2);
  (s2b "4B", Sz 2 2 u32_max 0); (s2b "5B", Sz 2 2 u32_max 1); (s2b "6B", Sz 2 2 u32_max 2);
  (s2b "7AAB", Sz 4 4 u32_max 0); (s2b "8AAB", Sz 4 4 u32_max 1); (s2b "9AAB", Sz 4 4 u32_max 2) ].

Definition get_sizage (s : bytes) : outcome sizage :=
  match assoc s sizage_table with Some z => Ok z | None => Err E_UnknownSizage end.

(** tables.rs:72-81.  The argument is the first byte of the text: a non-ASCII
    first char has a first byte >= 128 and falls in the last arm. *)
Definition hardage (c : N) : outcome N :=
  if ((65 <=? c) && (c <=? 90)) || ((97 <=? c) && (c <=? 122)) then Ok 1
  else if existsb (N.eqb c) [48; 52; 53; 54] then Ok 2
  else if existsb (N.eqb c) [49; 50; 51; 55; 56; 57] then Ok 4
  else if c =? 45 then Err E_UnexpectedCode
  else if c =? 95 then Err E_UnexpectedCode
  else Err E_UnknownHardage.

(** tables.rs:83-92 *)
Definition bardage (b : N) : outcome N :=
  if b <=? 51 then Ok 1
  else if (b =? 52) || ((56 <=? b) && (b <=? 58)) then Ok 2
  else if ((53 <=? b) && (b <=? 55)) || ((59 <=? b) && (b <=? 61)) then Ok 4
  else if b =? 62 then Err E_UnexpectedCode
  else if b =? 63 then Err E_UnexpectedCode
  else Err E_UnknownBardage.

(** tables.rs:94-102 (no subtraction can underflow for a table entry; the raw
    arithmetic is kept in N) *)
Definition raw_size (code : bytes) : outcome N :=
  szg <- get_sizage code ;;
  if fs szg =? u32_max then Err E_UnexpectedCode
  else let cs := hs szg + ss szg in Ok ((fs szg - cs) * 3 / 4 - ls szg).

(** tables.rs:3-4 *)
Definition small_vrz : list N := [52; 53; 54]. (* '4' '5' '6' *)
Definition large_vrz : list N := [55; 56; 57]. (* '7' '8' '9' *)
