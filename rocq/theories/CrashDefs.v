(** Definitions used only to state which inputs make the composite types panic. *)
From Verif Require Import Base StdStr Matter Data Spec Prims Tholder TholderDefs.

(** no text in the place of a weight reads "0/0", and if the value is a list of lists of
    weights then its weights can be counted and added with 32 bits *)
Definition harmless (v : data) : Prop :=
  (forall cs ws t, v = VArr cs -> In (VArr ws) cs -> In (VStr t) ws -> ~ zero_over_zero t) /\
  (forall ts cs, v = clause_texts ts -> Forall2 (Forall2 weight_text) ts cs -> Forall fits (map (map lowest) cs) /\ len (concat cs) < 2 ^ 32).

(** The threshold value that the primitive [m] of a limen stands for: a number; or a text of
    clauses separated by 'a', of weights separated by 'c', with 's' for the slash. *)
Definition limen_numbers : list bytes := [s2b "M"; s2b "0H"; s2b "N"; s2b "0A"].
Definition limen_texts : list bytes := [s2b "4A"; s2b "5A"; s2b "6A"; s2b "7AAA"; s2b "8AAA"; s2b "9AAA"].
Definition with_slashes (w : bytes) : bytes := map (fun c => if c =? 115 then 47 else c) w.
Definition limen_value (m : matter) (v : data) : Prop :=
  (In (m_code m) limen_numbers /\ exists n, number_num m = Ok n /\ v = VInt (Z.of_N n)) \/
  (In (m_code m) limen_texts /\ exists ts, ts <> [] /\ Forall (fun c => c <> [] /\ Forall (fun w => ~ In 97 w /\ ~ In 99 w) c) ts /\
     bext_of m = Ok (join (s2b "a") (map (join (s2b "c")) ts)) /\ v = clause_texts (map (map with_slashes) ts)).
