(** Property theorems (generated by tools/mkprop.py from StreamThms.v, which holds the proofs). *)
From Verif Require Import Base Utf8 Matter Counter Indexer Spec MatterDefs CounterDefs IndexerDefs StreamDefs StreamThms.

(** C64: any sequence of primitives, count codes and signatures, written one after
    the other and followed by any text, reads back item by item. *)
Theorem C64_text : forall (P : Profile) (items : list item) (tail : bytes), Forall proper items -> utf8_valid tail = true ->
  exists texts, Forall2 (fun i t => item_text i = Ok t) items texts /\ read_items (map kind_of items) (concat texts ++ tail) = Ok (items, tail).
Proof. exact C64_text_pf. Qed.
Print Assumptions C64_text.

(** C64: the same in binary; and converting the whole stream between the two domains is
    converting its items. *)
Theorem C64_binary : forall (P : Profile) (items : list item) (tail : bytes), Forall proper items -> Forall has_binary items -> bytes_ok tail = true ->
  exists texts binaries, Forall2 (fun i t => item_text i = Ok t) items texts /\ Forall2 (fun i b => item_binary i = Ok b) items binaries /\
    concat texts = b64_of (concat binaries) /\ read_items_binary (map kind_of items) (concat binaries ++ tail) = Ok (items, tail).
Proof. exact C64_binary_pf. Qed.
Print Assumptions C64_binary.

(** C64: a count code followed by the groups it counts, each with items of the kinds
    [ks] (one signature; a key and a signature; ...) reads back as those, and what
    follows is left over. *)
Theorem C64_group : forall (P : Profile) (code : bytes) (w : N) (ks : list kind) (groups : list (list item)) (tail : bytes),
  In (code, w) count_codes -> len groups < 64 ^ w -> (forall g, In g groups -> map kind_of g = ks /\ Forall proper g) -> utf8_valid tail = true ->
  exists t texts, counter_qb64 (Ctr code (len groups)) = Ok t /\ new_counter code (len groups) = Ok (Ctr code (len groups)) /\
    Forall2 (fun i t => item_text i = Ok t) (concat groups) texts /\
    read_group ks (t ++ concat texts ++ tail) = Ok (code, concat groups, tail).
Proof. exact C64_group_pf. Qed.
Print Assumptions C64_group.

Theorem C64_group_binary : forall (P : Profile) (code : bytes) (w : N) (ks : list kind) (groups : list (list item)) (tail : bytes),
  In (code, w) count_codes -> len groups < 64 ^ w -> (forall g, In g groups -> map kind_of g = ks /\ Forall proper g /\ Forall has_binary g) -> bytes_ok tail = true ->
  exists b binaries, counter_qb2 (Ctr code (len groups)) = Ok b /\ Forall2 (fun i b => item_binary i = Ok b) (concat groups) binaries /\
    read_group_binary ks (b ++ concat binaries ++ tail) = Ok (code, concat groups, tail).
Proof. exact C64_group_binary_pf. Qed.
Print Assumptions C64_group_binary.

(** Two couples of a key and a signature, with their count, before other text. *)
Example C64_group_ex : forall P : Profile,
  let g n := [I_matter (Mat (s2b "B") 0 (rep n 32)); I_sig (Idx (s2b "2A") (rep n 64) 70 3)] in
  (forall i, In i (g 7 ++ g 9) -> proper i /\ has_binary i) /\ map kind_of (g 7) = [K_matter; K_sig] /\
  match counter_qb64 (Ctr (s2b "-C") 2), item_text (nth 0 (g 7) (I_count (Ctr [] 0))), item_text (nth 1 (g 7) (I_count (Ctr [] 0))), item_text (nth 0 (g 9) (I_count (Ctr [] 0))), item_text (nth 1 (g 9) (I_count (Ctr [] 0))) with
  | Ok c, Ok k1, Ok s1, Ok k2, Ok s2 => c = s2b "-CAC" /\ len k1 = 44 /\ len s1 = 92 /\ read_group [K_matter; K_sig] (c ++ k1 ++ s1 ++ k2 ++ s2 ++ s2b "{}") = Ok (s2b "-C", g 7 ++ g 9, s2b "{}")
  | _, _, _, _, _ => False
  end.
Proof. exact C64_group_ex_pf. Qed.
