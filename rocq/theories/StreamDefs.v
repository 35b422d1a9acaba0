(** Definitions used only to state the properties of streams: reading one item after
    the other, as a user of the library does (parse, then skip its full size). *)
From Verif Require Import Base Matter Counter Indexer Spec MatterDefs CounterDefs IndexerDefs.

Inductive item := I_matter (m : matter) | I_count (c : counter) | I_sig (x : indexer).
Inductive kind := K_matter | K_count | K_sig.
Definition kind_of (i : item) : kind := match i with I_matter _ => K_matter | I_count _ => K_count | I_sig _ => K_sig end.

Section D.
Context `{P : Profile}.
(** the items a user can construct; signatures such that their text carries the other index (see C19) *)
Definition proper (i : item) : Prop :=
  match i with
  | I_matter m => constructed m
  | I_count c => exists code w n, In (code, w) count_codes /\ new_counter code n = Ok c
  | I_sig x => exists code raw s index ondex, In (code, s) sig_codes /\ bytes_ok raw = true /\ new_sig code raw index ondex = Ok x /\
                 (ondex = None \/ ondex = Some index \/ 0 < sig_ondex s)
  end.
(** those with a binary form in this build profile (see C20) *)
Definition has_binary (i : item) : Prop :=
  match i with I_sig x => forall s, In (x_code x, s) sig_codes -> sig_index s + sig_ondex s < 6 \/ overflow_checks = false | _ => True end.

(** the encodings of an item and its size *)
Definition item_text (i : item) : outcome bytes := match i with I_matter m => matter_qb64 m | I_count c => counter_qb64 c | I_sig x => indexer_qb64 x end.
Definition item_binary (i : item) : outcome bytes := match i with I_matter m => matter_qb2 m | I_count c => counter_qb2 c | I_sig x => indexer_qb2 x end.
Definition item_size (i : item) : outcome N := match i with I_matter m => matter_full_size m | I_count c => counter_full_size c | I_sig x => indexer_full_size x end.
(** parse an item of a known kind at the front *)
Definition parse_item (k : kind) (s : bytes) : outcome item :=
  match k with
  | K_matter => m <- parse_text s ;; Ok (I_matter m)
  | K_count => c <- counter_parse_text s ;; Ok (I_count c)
  | K_sig => x <- sig_parse_text s ;; Ok (I_sig x)
  end.
Definition parse_item_binary (k : kind) (s : bytes) : outcome item :=
  match k with
  | K_matter => m <- parse_binary s ;; Ok (I_matter m)
  | K_count => c <- counter_parse_binary s ;; Ok (I_count c)
  | K_sig => x <- sig_parse_binary s ;; Ok (I_sig x)
  end.
(** items of these kinds, and what follows them *)
Fixpoint read_items (ks : list kind) (s : bytes) : outcome (list item * bytes) :=
  match ks with
  | [] => Ok ([], s)
  | k :: ks => i <- parse_item k s ;; n <- item_size i ;; r <- read_items ks (drop n s) ;; Ok (i :: fst r, snd r)
  end.
Fixpoint read_items_binary (ks : list kind) (s : bytes) : outcome (list item * bytes) :=
  match ks with
  | [] => Ok ([], s)
  | k :: ks => i <- parse_item_binary k s ;; n <- item_size i ;; r <- read_items_binary ks (drop (n * 3 / 4) s) ;; Ok (i :: fst r, snd r)
  end.
(** a count code, then as many items of kind [k] as it counts, [w] to each *)
Definition read_group (ks : list kind) (s : bytes) : outcome (bytes * list item * bytes) :=
  c <- counter_parse_text s ;; n <- counter_full_size c ;;
  r <- read_items (concat (repeat ks (N.to_nat (c_count c)))) (drop n s) ;; Ok (c_code c, fst r, snd r).
Definition read_group_binary (ks : list kind) (s : bytes) : outcome (bytes * list item * bytes) :=
  c <- counter_parse_binary s ;; n <- counter_full_size c ;;
  r <- read_items_binary (concat (repeat ks (N.to_nat (c_count c)))) (drop (n * 3 / 4) s) ;; Ok (c_code c, fst r, snd r).
End D.
