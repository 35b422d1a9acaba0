(** Model of /repo/src/core/counter/tables.rs. *)
From Verif Require Import Base MatterTables.

(** tables.rs:11-30 ([ls] is 0 in every entry) *)
Definition c_sizage_table : list (bytes * sizage) := [
  (s2b "-A", Sz 2 2 4 0); (s2b "-B", Sz 2 2 4 0); (s2b "-C", Sz 2 2 4 0); (s2b "-D", Sz 2 2 4 0);
  (s2b "-E", Sz 2 2 4 0); (s2b "-F", Sz 2 2 4 0); (s2b "-G", Sz 2 2 4 0); (s2b "-H", Sz 2 2 4 0);
  (s2b "-I", Sz 2 2 4 0); (s2b "-J", Sz 2 2 4 0); (s2b "-K", Sz 2 2 4 0); (s2b "-L", Sz 2 2 4 0);
  (s2b "-V", Sz 2 2 4 0); (s2b "-0V", Sz 3 5 8 0); (s2b "--AAA", Sz 5 3 8 0) ].

Definition c_sizage (s : bytes) : outcome sizage :=
  match assoc s c_sizage_table with Some z => Ok z | None => Err E_UnknownSizage end.

(** tables.rs:32-40 *)
Definition c_hardage (s : bytes) : outcome N :=
  if mem_code s [s2b "-A"; s2b "-B"; s2b "-C"; s2b "-D"; s2b "-E"; s2b "-F"; s2b "-G"; s2b "-H";
                 s2b "-I"; s2b "-J"; s2b "-K"; s2b "-L"; s2b "-V"] then Ok 2
  else if bytes_eqb s (s2b "-0") then Ok 3
  else if bytes_eqb s (s2b "--") then Ok 5
  else Err E_UnknownHardage.

(** tables.rs:42-50; b">\x00" is [0x3e; 0], '4' = 0x34 *)
Definition c_bardage (b : bytes) : outcome N :=
  match b with
  | [x; y] =>
    if negb (x =? 62) then Err E_UnknownBardage
    else if (y <=? 11) || (y =? 21) then Ok 2
    else if y =? 52 then Ok 3
    else if y =? 62 then Ok 5
    else Err E_UnknownBardage
  | _ => Err E_UnknownBardage
  end.
