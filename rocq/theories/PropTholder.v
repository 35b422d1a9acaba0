(** Property theorems (generated by tools/mkprop.py from TholderThms.v, which holds the proofs). *)
From Coq Require Import QArith.
From Verif Require Import Base MatterTables Matter StdStr Data Json Prims Spec DataDefs Tholder TholderDefs TholderThms.

(** C38: an unweighted threshold is a number [n] below 2^32, satisfied by any list of at least [n] indices, if [n] is not 0 *)
Theorem C38_satisfied : forall (P : Profile) (F : Floats) (t : tholder), made_tholder P F t -> th_weighted t = false ->
  exists n, n < 2 ^ 32 /\ th_thold t = VInt (Z.of_N n) /\ tholder_num t = Ok (Some n) /\ th_size t = n /\
    forall indices, satisfy t indices = Ok ((0 <? n) && (n <=? len indices)).
Proof. exact C38_satisfied_pf. Qed.
Print Assumptions C38_satisfied.

Example C38_satisfied_ex : forall (P : Profile) (F : Floats), exists t, tholder_of_sith (VStr (s2b "a")) = Ok t /\ made_tholder P F t /\ th_weighted t = false /\ tholder_num t = Ok (Some 10).
Proof. exact C38_satisfied_ex_pf. Qed.

(** C38: how an unweighted threshold is given: as an integer, or in a sith also as signed hexadecimal text *)
Theorem C38_accepted : forall (P : Profile) (F : Floats) (n : N), n < 2 ^ 32 -> exists t,
  tholder_of_thold (VInt (Z.of_N n)) = Ok t /\ tholder_of_sith (VInt (Z.of_N n)) = Ok t /\ (forall s, hex_int_text s (Z.of_N n) -> tholder_of_sith (VStr s) = Ok t) /\
  th_weighted t = false /\ tholder_num t = Ok (Some n).
Proof. exact C38_accepted_pf. Qed.
Print Assumptions C38_accepted.

Example C38_accepted_ex : 255 < 2 ^ 32 /\ hex_int_text (s2b "+0Ff") 255.
Proof. exact C38_accepted_ex_pf. Qed.

(** C38: other integers and texts are rejected *)
Theorem C38_rejected : forall (P : Profile) (F : Floats) (z : Z) (s : bytes),
  ((z < 0)%Z -> tholder_of_thold (VInt z) = Err E_Value /\ tholder_of_sith (VInt z) = Err E_Value /\ (hex_int_text s z -> tholder_of_sith (VStr s) = Err E_Value)) /\
  ((2 ^ 32 <= z)%Z -> tholder_of_thold (VInt z) = Err E_TryFromInt /\ tholder_of_sith (VInt z) = Err E_TryFromInt /\ (hex_int_text s z -> tholder_of_sith (VStr s) = Err E_TryFromInt)) /\
  ((forall y, ~ hex_int_text s y) -> (forall r, s <> s2b "[" ++ r) -> tholder_of_sith (VStr s) = Err E_ParseInt).
Proof. exact C38_rejected_pf. Qed.
Print Assumptions C38_rejected.

(** C38: distinct indices are not required: one index given twice satisfies a threshold of 2 *)
Theorem C38_distinct_refuted : forall (P : Profile) (F : Floats), exists t, tholder_of_sith (VInt 2) = Ok t /\ satisfy t [0; 0] = Ok true.
Proof. exact C38_distinct_refuted_pf. Qed.
Print Assumptions C38_distinct_refuted.

(** C39: a weighted threshold has exactly one reading as clauses of proper weights *)
Theorem C39_weights : forall (P : Profile) (F : Floats) (t : tholder), made_tholder P F t -> th_weighted t = true ->
  exists cs, weights t cs /\ (forall cs', weights t cs' -> cs' = cs) /\ (len (concat cs) < 2 ^ 32 -> th_size t = len (concat cs)) /\ tholder_num t = Ok None.
Proof. exact C39_weights_pf. Qed.
Print Assumptions C39_weights.

(** C39: whatever the build, a threshold reported as satisfied is satisfied: in every
    clause the weights at the distinct given positions add up to at least 1 *)
Theorem C39_safe : forall (P : Profile) (F : Floats) (t : tholder) (cs : list (list weight)) (indices : list N),
  made_tholder P F t -> weights t cs -> len (concat cs) < 2 ^ 32 -> satisfy t indices = Ok true -> satisfied cs indices.
Proof. exact C39_safe_pf. Qed.
Print Assumptions C39_safe.

(** C39: and if the weights of every clause can be added within 32 bits, it decides exactly that *)
Theorem C39_exact : forall (P : Profile) (F : Floats) (t : tholder) (cs : list (list weight)) (indices : list N),
  made_tholder P F t -> weights t cs -> len (concat cs) < 2 ^ 32 -> Forall fits cs -> (forall i, In i indices -> i < th_size t) ->
  exists b, satisfy t indices = Ok b /\ (b = true <-> satisfied cs indices).
Proof. exact C39_exact_pf. Qed.
Print Assumptions C39_exact.

(** C39: with overflow checks on, the answer is that or a panic *)
Theorem C39_checked : forall (F : Floats) (t : tholder) (cs : list (list weight)) (indices : list N),
  made_tholder true F t -> weights t cs -> len (concat cs) < 2 ^ 32 -> (forall i, In i indices -> i < th_size t) ->
  (exists b, satisfy (P := true) t indices = Ok b /\ (b = true <-> satisfied cs indices)) \/ satisfy (P := true) t indices = Panic.
Proof. exact C39_checked_pf. Qed.
Print Assumptions C39_checked.

Example C39_exact_ex : forall (P : Profile) (F : Floats), exists t, tholder_of_sith (VArr [VArr [VStr (s2b "1/2"); VStr (s2b "2/4"); VStr (s2b "1/3")]; VArr [VStr (s2b "1"); VStr (s2b "0")]]) = Ok t /\
  made_tholder P F t /\ weights t [[(1, 2); (1, 2); (1, 3)]; [(1, 1); (0, 1)]] /\ Forall fits [[(1, 2); (1, 2); (1, 3)]; [(1, 1); (0, 1)]] /\
  satisfy t [3; 1; 0; 1] = Ok true /\ satisfy t [0; 2; 3] = Ok false /\ satisfied [[(1, 2); (1, 2); (1, 3)]; [(1, 1); (0, 1)]] [3; 1; 0; 1].
Proof. exact C39_exact_ex_pf. Qed.

(** C39: without overflow checks a satisfied threshold can be reported as not satisfied *)
Theorem C39_refuted : forall F : Floats, exists t cs, tholder_of_sith (H := false) (VArr (map VStr [s2b "1/2"; s2b "50/71"; s2b "4349/6399"; s2b "744/3797"])) = Ok t /\
  weights t cs /\ satisfied cs [1; 2; 3] /\ satisfy (P := false) t [1; 2; 3] = Ok false.
Proof. exact C39_refuted_pf. Qed.
Print Assumptions C39_refuted.

(** C40: for a weighted threshold only the set of given indices matters, even for panics *)
Theorem C40_set : forall (P : Profile) (F : Floats) (t : tholder) (a b : list N),
  made_tholder P F t -> th_weighted t = true -> (forall i, In i a <-> In i b) -> satisfy t a = satisfy t b.
Proof. exact C40_set_pf. Qed.
Print Assumptions C40_set.

(** C40: more signatures never unsatisfy *)
Theorem C40_monotone : forall (P : Profile) (F : Floats) (t : tholder) (a b : list N), made_tholder P F t -> satisfy t a = Ok true ->
  (th_weighted t = false -> len a <= len b -> satisfy t b = Ok true) /\
  (forall cs, weights t cs -> len (concat cs) < 2 ^ 32 -> (forall i, In i a -> In i b) -> (forall i, In i b -> i < th_size t) ->
     (Forall fits cs -> satisfy t b = Ok true) /\ (overflow_checks = true -> satisfy t b <> Ok false)).
Proof. exact C40_monotone_pf. Qed.
Print Assumptions C40_monotone.

Example C40_monotone_ex : forall (P : Profile) (F : Floats), exists t, made_tholder P F t /\ weights t [[(1, 2); (1, 2); (1, 3)]; [(1, 1); (0, 1)]] /\ satisfy t [0; 1; 3] = Ok true /\ satisfy t [4; 3; 2; 1; 0] = Ok true.
Proof. exact C40_monotone_ex_pf. Qed.

(** C41: if sums fit in 32 bits, the answer is a panic exactly if some index is not below the size, and never an error *)
Theorem C41_panic_iff : forall (P : Profile) (F : Floats) (t : tholder) (cs : list (list weight)) (indices : list N),
  made_tholder P F t -> weights t cs -> len (concat cs) < 2 ^ 32 -> Forall fits cs ->
  (satisfy t indices = Panic <-> exists i, In i indices /\ th_size t <= i) /\ (forall e, satisfy t indices <> Err e).
Proof. exact C41_panic_iff_pf. Qed.
Print Assumptions C41_panic_iff.

Example C41_panic_iff_ex : forall (P : Profile) (F : Floats), exists t, made_tholder P F t /\ weights t [[(1, 2); (1, 2); (1, 3)]; [(1, 1); (0, 1)]] /\ Forall fits [[(1, 2); (1, 2); (1, 3)]; [(1, 1); (0, 1)]] /\ th_size t = 5.
Proof. exact C41_panic_iff_ex_pf. Qed.

(** C41: the property as first stated is false: an index that is too large panics, in every build;
    and with overflow checks even indices in range can panic *)
Theorem C41_never_panics_refuted : forall (P : Profile) (F : Floats), exists t, tholder_of_sith (VArr (map VStr [s2b "1/2"; s2b "1/2"])) = Ok t /\ satisfy t [0; 1; 2] = Panic.
Proof. exact C41_never_panics_refuted_pf. Qed.
Print Assumptions C41_never_panics_refuted.

Theorem C41_overflow_refuted : forall F : Floats, exists t, tholder_of_sith (H := true) (VArr (map VStr [s2b "1/46349"; s2b "46348/46349"; s2b "1/46351"; s2b "46350/46351"])) = Ok t /\
  th_size t = 4 /\ satisfy (P := true) t [0; 2] = Panic.
Proof. exact C41_overflow_refuted_pf. Qed.
Print Assumptions C41_overflow_refuted.

(** C42: a weighted threshold that was accepted, in any build, has in every clause weights that add up to at least 1 *)
Theorem C42_sound : forall (P : Profile) (F : Floats) (t : tholder) (cs : list (list weight)), made_tholder P F t -> weights t cs -> Forall (fun c => (1 <= total c)%Q) cs.
Proof. exact C42_sound_pf. Qed.
Print Assumptions C42_sound.

(** C42: only integers and lists of lists of weight texts are accepted *)
Theorem C42_wellformed : forall (P : Profile) (F : Floats) (v : data) (t : tholder), tholder_of_thold v = Ok t ->
  (exists n, v = VInt (Z.of_N n) /\ n < 2 ^ 32) \/
  (exists ts cs, v = clause_texts ts /\ Forall2 (Forall2 weight_text) ts cs /\ weights t (map (map lowest) cs) /\ Forall (fun c => (1 <= total c)%Q) cs).
Proof. exact C42_wellformed_pf. Qed.
Print Assumptions C42_wellformed.

(** C42: lists of lists of weight texts are accepted if every clause adds up to at least 1 and
    rejected otherwise, as long as sums fit in 32 bits and the texts are not too long *)
Theorem C42_accepted : forall (P : Profile) (F : Floats) (ts : list (list bytes)) (cs : list (list weight)), Forall2 (Forall2 weight_text) ts cs ->
  Forall fits (map (map lowest) cs) -> text_length (concat (map (map lowest) cs)) <= 64 ^ 4 * 4 - 3 ->
  (Forall (fun c => (1 <= total c)%Q) cs -> exists t, tholder_of_thold (clause_texts ts) = Ok t /\ weights t (map (map lowest) cs) /\ th_size t = len (concat cs)) /\
  ((exists c, In c cs /\ (total c < 1)%Q) -> tholder_of_thold (clause_texts ts) = Err E_Value).
Proof. exact C42_accepted_pf. Qed.
Print Assumptions C42_accepted.

Example C42_accepted_ex : Forall2 (Forall2 weight_text) [[s2b "1/2"; s2b "2/4"]; [s2b "+01/1"; s2b "0"]] [[(1, 2); (2, 4)]; [(1, 1); (0, 1)]] /\
  Forall fits (map (map lowest) [[(1, 2); (2, 4)]; [(1, 1); (0, 1)]]) /\ Forall (fun c => (1 <= total c)%Q) [[(1, 2); (2, 4)]; [(1, 1); (0, 1)]] /\ (total [(1%N, 3%N); (1%N, 2%N)] < 1)%Q.
Proof. exact C42_accepted_ex_pf. Qed.

(** C42: a sith list is a list of clauses, or a single clause; an empty list is rejected *)
Theorem C42_sith_lists : forall (P : Profile) (F : Floats), tholder_of_sith (VArr []) = Err E_Value /\
  (forall ts, ts <> [] -> tholder_of_sith (clause_texts ts) = tholder_of_thold (clause_texts ts)) /\
  (forall ts, ts <> [] -> tholder_of_sith (VArr (map VStr ts)) = tholder_of_thold (clause_texts [ts])) /\
  (forall v t, tholder_of_sith v = Ok t -> (exists n, v = VInt n) \/ (exists s, v = VStr s) \/ (exists ts, ts <> [] /\ (v = clause_texts ts \/ exists ts', ts = [ts'] /\ v = VArr (map VStr ts')))).
Proof. exact C42_sith_lists_pf. Qed.
Print Assumptions C42_sith_lists.

(** C42: as first stated it is false: weights with several slashes are accepted, and "0/0" panics;
    an empty list of clauses is accepted as a thold and then always satisfied *)
Theorem C42_several_slashes_refuted : forall (P : Profile) (F : Floats), exists t, tholder_of_sith (VArr [VStr (s2b "1/2/3")]) = Ok t /\ th_thold t = VArr [VArr [VStr (s2b "1")]].
Proof. exact C42_several_slashes_refuted_pf. Qed.
Print Assumptions C42_several_slashes_refuted.

Theorem C42_zero_denominator_refuted : forall (P : Profile) (F : Floats) (before after : list (list bytes)) (a z b : list bytes) (cs : list (list weight)) (ws : list weight) (t : bytes),
  Forall2 (Forall2 weight_text) before cs -> Forall2 weight_text a ws -> zero_over_zero t -> z = t :: b -> tholder_of_thold (clause_texts (before ++ (a ++ z) :: after)) = Panic.
Proof. exact C42_zero_denominator_refuted_pf. Qed.
Print Assumptions C42_zero_denominator_refuted.

Example C42_zero_denominator_ex : zero_over_zero (s2b "0/0") /\ forall (P : Profile) (F : Floats), tholder_of_sith (VArr [VStr (s2b "1"); VStr (s2b "0/0")]) = Panic.
Proof. exact C42_zero_denominator_ex_pf. Qed.

Theorem C42_empty_refuted : forall (P : Profile) (F : Floats), exists t, tholder_of_thold (VArr []) = Ok t /\ satisfy t [] = Ok true.
Proof. exact C42_empty_refuted_pf. Qed.
Print Assumptions C42_empty_refuted.

(** C43: a threshold is rebuilt from its limen (if it has a clause, and its weights fit in a text of 2^32 characters) *)
Theorem C43_limen : forall (P : Profile) (F : Floats) (t : tholder), made_tholder P F t -> th_thold t <> VArr [] ->
  (forall cs, weights t cs -> text_length (concat cs) <= 2 ^ 32) -> exists l, tholder_limen t = Ok l /\ tholder_of_limen l = Ok t.
Proof. exact C43_limen_pf. Qed.
Print Assumptions C43_limen.

Example C43_limen_ex : forall (P : Profile) (F : Floats), exists t, made_tholder P F t /\ weights t [[(1, 2); (1, 2); (1, 3)]; [(1, 1); (0, 1)]] /\ tholder_limen t = Ok (s2b "4AAEA1s2c1s2c1s3a1c0") /\ tholder_of_limen (s2b "4AAEA1s2c1s2c1s3a1c0") = Ok t.
Proof. exact C43_limen_ex_pf. Qed.

(** C43: the threshold without clauses has a limen that is not accepted *)
Theorem C43_empty_refuted : forall (P : Profile) (F : Floats), exists t l, tholder_of_thold (VArr []) = Ok t /\ tholder_limen t = Ok l /\ forall u, tholder_of_limen l <> Ok u.
Proof. exact C43_empty_refuted_pf. Qed.
Print Assumptions C43_empty_refuted.

(** C44: a threshold is rebuilt from its thold, always, and from its sith, if it has a clause *)
Theorem C44_rebuilt : forall (P : Profile) (F : Floats) (t : tholder), made_tholder P F t -> tholder_of_thold (th_thold t) = Ok t /\
  (th_thold t <> VArr [] -> exists s, tholder_sith t = Ok s /\ tholder_of_sith s = Ok t).
Proof. exact C44_rebuilt_pf. Qed.
Print Assumptions C44_rebuilt.

Example C44_rebuilt_ex : forall (P : Profile) (F : Floats), exists t, made_tholder P F t /\ tholder_sith t = Ok (VArr [VStr (s2b "1/2"); VStr (s2b "1/2")]) /\ tholder_of_sith (VArr [VStr (s2b "1/2"); VStr (s2b "1/2")]) = Ok t.
Proof. exact C44_rebuilt_ex_pf. Qed.

(** C44: the empty threshold is not rebuilt from its sith *)
Theorem C44_empty_refuted : forall (P : Profile) (F : Floats), exists t, tholder_of_thold (VArr []) = Ok t /\ tholder_sith t = Ok (VArr []) /\ tholder_of_sith (VArr []) = Err E_Value.
Proof. exact C44_empty_refuted_pf. Qed.
Print Assumptions C44_empty_refuted.

(** C44: JSON text that starts with '[' is read as the list *)
Theorem C44_json_text : forall (P : Profile) (F : Floats) (s : bytes) (l : list data), from_json (s2b "[" ++ s) = Ok (VArr l) -> tholder_of_sith (VStr (s2b "[" ++ s)) = tholder_of_sith (VArr l).
Proof. exact C44_json_text_pf. Qed.
Print Assumptions C44_json_text.

Example C44_json_text_ex : forall F : Floats, from_json (s2b "[" ++ s2b " ""1/2"", ""1/2""]") = Ok (VArr [VStr (s2b "1/2"); VStr (s2b "1/2")]).
Proof. exact C44_json_text_ex_pf. Qed.

(** C44: a weighted threshold is rebuilt from its JSON text *)
Theorem C44_json : forall (P : Profile) (F : Floats) (t : tholder), made_tholder P F t -> th_weighted t = true -> th_thold t <> VArr [] ->
  exists j, tholder_to_json t = Ok j /\ tholder_of_sith (VStr j) = Ok t.
Proof. exact C44_json_pf. Qed.
Print Assumptions C44_json.

Example C44_json_ex : forall (P : Profile) (F : Floats), exists t, made_tholder P F t /\ th_weighted t = true /\ tholder_to_json t = Ok (s2b "[[""1/2"",""1/2"",""1/3""],[""1"",""0""]]").
Proof. exact C44_json_ex_pf. Qed.

(** C44: an unweighted threshold is not rebuilt from its JSON text *)
Theorem C44_json_refuted : forall (P : Profile) (F : Floats), exists t j, tholder_of_sith (VInt 2) = Ok t /\ tholder_to_json t = Ok j /\ tholder_of_sith (VStr j) = Err E_ParseInt.
Proof. exact C44_json_refuted_pf. Qed.
Print Assumptions C44_json_refuted.
