(** Thresholds: satisfaction. *)
From Coq Require Import QArith Lia.
From Verif Require Import Base Utf8 MatterTables Matter StdStr Data Json Prims Spec Tholder TholderDefs BaseFacts UtilFacts MatterDefs StdStrFacts SpecFacts PrimsDefs PrimsFacts PrimsFacts2 PrimsThms TholderFacts TholderFacts2 TholderFacts3.
Open Scope N_scope.

(** ** marks *)
Lemma In_insert x y l : In y (insert_sorted x l) <-> y = x \/ In y l.
Proof. induction l as [|z l IH]; cbn [insert_sorted]; [cbn; intuition|]. destruct (x <=? z); [cbn; intuition|]. cbn [In]. rewrite IH. intuition. Qed.
Lemma In_sort y l : In y (sort_n l) <-> In y l.
Proof. unfold sort_n. induction l as [|x l IH]; [reflexivity|]. cbn [fold_right]. rewrite In_insert, IH. cbn. intuition. Qed.
Lemma In_dedup y l : In y (dedup l) <-> In y l.
Proof.
  induction l as [|x l IH]; [reflexivity|]. cbn [dedup]. destruct l as [|z l]; [reflexivity|]. destruct (N.eqb_spec x z) as [->|].
  - rewrite IH. cbn. intuition.
  - cbn [In]. cbn [In] in IH. rewrite IH. intuition.
Qed.
Definition chosen (l : list N) (i : N) : bool := existsb (N.eqb i) l.
Lemma chosen_In l i : chosen l i = true <-> In i l.
Proof. unfold chosen. rewrite existsb_exists. split; [intros (x & I & E); apply N.eqb_eq in E; subst; auto|intros I; exists i; split; [auto|apply N.eqb_refl]]. Qed.
Lemma chosen_ext l l' i : (In i l <-> In i l') -> chosen l i = chosen l' i.
Proof. intros E. apply Bool.eq_iff_eq_true. rewrite !chosen_In. exact E. Qed.

Lemma index_at_nth {A} (l : list A) i : index_at l i = match nth_error l (N.to_nat i) with Some x => Ok x | None => Panic end.
Proof. reflexivity. Qed.
Lemma list_set_some {A} (f : A -> A) : forall n l, (n < length l)%nat -> exists l', list_set f n l = Some l' /\ length l' = length l /\ forall k, nth_error l' k = if Nat.eqb k n then option_map f (nth_error l k) else nth_error l k.
Proof.
  induction n as [|n IH]; intros [|x l] H; cbn [length] in H; try (exfalso; Lia.lia); cbn [list_set].
  - eexists. split; [reflexivity|]. split; [reflexivity|]. intros [|k]; reflexivity.
  - destruct (IH l ltac:(Lia.lia)) as (l' & E & L & N). rewrite E. cbn [option_map]. eexists. split; [reflexivity|]. split; [cbn [length]; congruence|]. intros [|k]; [reflexivity|]. cbn [nth_error Nat.eqb]. apply N.
Qed.
Lemma list_set_none {A} (f : A -> A) : forall n l, (length l <= n)%nat -> list_set f n l = None.
Proof. induction n as [|n IH]; intros [|x l] H; cbn [length] in H; try reflexivity; try (exfalso; Lia.lia). cbn [list_set]. rewrite IH by Lia.lia. reflexivity. Qed.
Lemma mark_ok idx : forall sats, (forall i, In i idx -> i < len sats) ->
  exists sats', mark sats idx = Ok sats' /\ len sats' = len sats /\ forall i, nth_error sats' (N.to_nat i) = option_map (fun b => chosen idx i || b) (nth_error sats (N.to_nat i)).
Proof.
  induction idx as [|i idx IH]; intros sats H; cbn [mark].
  - exists sats. split; [reflexivity|]. split; [reflexivity|]. intros i. destruct (nth_error sats (N.to_nat i)); reflexivity.
  - destruct (list_set_some (fun _ : bool => true) (N.to_nat i) sats) as (s1 & E & L & N). { specialize (H i (or_introl eq_refl)). unfold len in H. Lia.lia. } 
    rewrite E. assert (L1 : len s1 = len sats) by (unfold len; rewrite L; reflexivity). destruct (IH s1) as (s2 & E2 & L2 & N2). { intros k Hk. rewrite L1. apply H. right. exact Hk. }
    exists s2. split; [exact E2|]. split; [congruence|]. intros k. rewrite N2, N. unfold chosen. cbn [existsb]. destruct (N.eqb_spec k i) as [->|Hk].
    + rewrite Nat.eqb_refl. destruct (nth_error sats (N.to_nat i)); [|reflexivity]. cbn. rewrite Bool.orb_true_r. reflexivity.
    + replace (Nat.eqb (N.to_nat k) (N.to_nat i)) with false by (symmetry; apply Nat.eqb_neq; Lia.lia). reflexivity.
Qed.
Lemma mark_panic idx : forall sats i, In i idx -> len sats <= i -> mark sats idx = Panic.
Proof.
  induction idx as [|k idx IH]; intros sats i I H; [contradiction|]. cbn [mark]. destruct (N.lt_ge_cases k (len sats)) as [Hk|Hk].
  - destruct I as [->|I]; [exfalso; apply (N.lt_irrefl i); eapply N.lt_le_trans; eauto|]. destruct (list_set_some (fun _ : bool => true) (N.to_nat k) sats) as (s1 & E & L & _); [unfold len in Hk; Lia.lia|]. rewrite E. apply (IH s1 i I). unfold len in *. rewrite L. exact H.
  - rewrite list_set_none by (unfold len in Hk; Lia.lia). reflexivity.
Qed.
Lemma nth_rep (n : N) (i : N) : nth_error (rep false n) (N.to_nat i) = if i <? n then Some false else None.
Proof.
  unfold rep. destruct (N.ltb_spec i n).
  - rewrite nth_error_repeat by Lia.lia. reflexivity.
  - apply nth_error_None. rewrite repeat_length. Lia.lia.
Qed.

Lemma nth_error_same {A} : forall l l' : list A, (forall k, nth_error l k = nth_error l' k) -> l = l'.
Proof.
  induction l as [|x l IH]; intros [|y l'] H; [reflexivity|specialize (H 0%nat); discriminate|specialize (H 0%nat); discriminate|].
  f_equal; [specialize (H 0%nat); cbn in H; congruence|]. apply IH. intros k. exact (H (S k)).
Qed.
(** what [satisfy_weighted] marks *)
Definition marked (n : N) (idx : list N) : outcome (list bool) := mark (rep false n) (dedup (sort_n idx)).
Lemma marked_ok n idx : (forall i, In i idx -> i < n) -> exists sats, marked n idx = Ok sats /\ len sats = n /\ forall i, i < n -> index_at sats i = Ok (chosen idx i).
Proof.
  intros H. unfold marked. destruct (mark_ok (dedup (sort_n idx)) (rep false n)) as (s & E & L & N). { intros i I. rewrite In_dedup, In_sort in I. rewrite len_rep. auto. }
  exists s. split; [exact E|]. rewrite L, len_rep. split; [reflexivity|]. intros i Hi. rewrite index_at_nth, N, nth_rep. replace (i <? n) with true by (symmetry; apply N.ltb_lt; exact Hi). cbn [option_map]. rewrite Bool.orb_false_r. f_equal. apply chosen_ext. rewrite In_dedup, In_sort. reflexivity.
Qed.
Lemma marked_panic n idx i : In i idx -> n <= i -> marked n idx = Panic.
Proof. intros I H. unfold marked. apply (mark_panic _ _ i); [rewrite In_dedup, In_sort; exact I|rewrite len_rep; exact H]. Qed.
Lemma marked_set n idx idx' : (forall i, In i idx <-> In i idx') -> marked n idx = marked n idx'.
Proof.
  intros E. destruct (existsb (fun i => n <=? i) idx) eqn:X.
  - apply existsb_exists in X as (i & I & Hi). apply N.leb_le in Hi. rewrite (marked_panic n idx i), (marked_panic n idx' i); auto. apply E. exact I.
  - assert (A : forall i, In i idx -> i < n). { intros i I. destruct (N.lt_ge_cases i n) as [|Hi]; [auto|]. exfalso. assert (existsb (fun i => n <=? i) idx = true); [|congruence]. apply existsb_exists. exists i. split; [exact I|]. apply N.leb_le. exact Hi. }
    destruct (marked_ok n idx A) as (s & Es & Ls & Ns). destruct (marked_ok n idx') as (s' & Es' & Ls' & Ns'). { intros i I. apply A. apply E. exact I. }
    rewrite Es, Es'. f_equal. apply nth_error_same. intros k. specialize (Ns (N.of_nat k)). specialize (Ns' (N.of_nat k)). rewrite index_at_nth, Nat2N.id in Ns, Ns'.
    destruct (N.lt_ge_cases (N.of_nat k) n) as [Hk|Hk].
    + specialize (Ns Hk). specialize (Ns' Hk). rewrite (chosen_ext idx idx') in Ns by apply E. destruct (nth_error s k); [|discriminate]. destruct (nth_error s' k); [|discriminate]. congruence.
    + rewrite (proj2 (nth_error_None s k)), (proj2 (nth_error_None s' k)); [reflexivity| |]; unfold len in *; Lia.lia.
Qed.

(** ** selected weights *)
Fixpoint sel {A} (idx : list N) (pos : N) (c : list A) : list A :=
  match c with
  | [] => []
  | w :: r => if chosen idx pos then w :: sel idx (pos + 1) r else sel idx (pos + 1) r
  end.
Lemma sel_Forall2 {A B} (R : A -> B -> Prop) idx c d : Forall2 R c d -> forall pos, Forall2 R (sel idx pos c) (sel idx pos d).
Proof. induction 1; intros pos; cbn [sel]; [constructor|]. destruct (chosen idx pos); auto. Qed.
Lemma sel_Forall {A} (Q : A -> Prop) idx c : Forall Q c -> forall pos, Forall Q (sel idx pos c).
Proof. induction 1; intros pos; cbn [sel]; [constructor|]. destruct (chosen idx pos); auto. Qed.
Lemma sel_total idx c : forall pos, (weight_at idx pos c == total (sel idx pos c))%Q.
Proof.
  induction c as [|w c IH]; intros pos; cbn [weight_at sel]; [reflexivity|]. fold (chosen idx pos). rewrite IH. destruct (chosen idx pos).
  - cbn [total fold_right]. reflexivity.
  - ring.
Qed.
Section S.
Context `{P : Profile}.
Lemma clause_weight_eq sats idx c : forall pos cw, (forall i, i < len sats -> index_at sats i = Ok (chosen idx i)) -> pos + len c <= len sats ->
  clause_weight sats pos cw c = (s <- ratio_sum cw (sel idx pos c) ;; Ok (s, pos + len c)).
Proof.
  induction c as [|w c IH]; intros pos cw H L.
  - cbn [clause_weight sel ratio_sum obind]. change (len (@nil ratio)) with 0. rewrite N.add_0_r. reflexivity.
  - rewrite len_cons in *. cbn [clause_weight sel]. rewrite H by Lia.lia. cbn [obind]. destruct (chosen idx pos).
    + cbn [ratio_sum]. destruct (ratio_add cw w) as [s| |]; cbn [obind]; try reflexivity. rewrite IH by (auto; Lia.lia). replace (pos + 1 + len c) with (pos + (1 + len c)) by Lia.lia. reflexivity.
    + cbn [obind]. rewrite IH by (auto; Lia.lia). replace (pos + 1 + len c) with (pos + (1 + len c)) by Lia.lia. reflexivity.
Qed.

Definition good (w : weight) : Prop := 0 < snd w /\ fst w <= snd w.
Lemma stands_good c ws : Forall2 stands_for c ws -> Forall good ws.
Proof. induction 1 as [|r w c ws (_ & _ & A & B & _) F IH]; constructor; auto. split; auto. Qed.
Lemma good_pos ws : Forall good ws -> Forall (fun w : weight => 0 < snd w) ws.
Proof. intros H. eapply Forall_impl; [|exact H]. intros w [A _]. exact A. Qed.
Lemma sum_over_sel D idx ws : common D ws -> Forall good ws -> forall pos, (0 <= sum_over D (sel idx pos ws) <= sum_over D ws)%Z.
Proof.
  intros [HD C] G. induction ws as [|w ws IH]; intros pos; [cbn; Lia.lia|]. inversion C; inversion G; subst. specialize (IH H2 H6 (pos + 1)). cbn [sel]. destruct H5 as [G1 G2]. pose proof (over_bounds D w HD G1 G2 H1) as B.
  destruct (chosen idx pos); cbn [sum_over fold_right]; fold (sum_over D ws); fold (sum_over D (sel idx (pos + 1) ws)); Lia.lia.
Qed.
Lemma zero_terms D : (0 < D)%Z -> lowest_terms (Rat 0 1) /\ small (Rat 0 1) /\ is_over (Rat 0 1) 0 D.
Proof. intros H. repeat split; cbn; Lia.lia. Qed.
(** the sum of the selected weights *)
Lemma sel_sum idx pos c ws : Forall2 stands_for c ws -> fits ws \/ overflow_checks = true ->
  (exists s, ratio_sum (Rat 0 1) (sel idx pos c) = Ok s /\ (ratio_lt_one s = false <-> (1 <= weight_at idx pos ws)%Q)) \/
  (ratio_sum (Rat 0 1) (sel idx pos c) = Panic /\ overflow_checks = true /\ ~ fits ws).
Proof.
  intros F Hf. pose proof (stands_good c ws F) as G. pose proof (cden_common ws (good_pos ws G)) as C. pose proof C as [HD CD].
  destruct (zero_terms _ HD) as (Z1 & Z2 & Z3). pose proof (sel_Forall2 _ idx _ _ F pos) as Fs.
  assert (Cs : common (cden ws) (sel idx pos ws)) by (split; [exact HD|apply sel_Forall; exact CD]).
  pose proof (sum_over_sel _ idx _ C G pos) as B.
  assert (Bd : fits ws -> bounded (cden ws) (0 + sum_over (cden ws) (sel idx pos ws))).
  { intros X. destruct (fits_bounded ws G X) as [B1 B2]. split; [exact B1|]. eapply Z.le_lt_trans; [|exact B2]. apply B. }
  destruct (sum_exact (cden ws) _ _ (Rat 0 1) 0%Z Fs Cs Z1 Z2 Z3) as [(s & E & Ls & Ss & Es)|(E & O & N)].
  - destruct Hf; auto.
  - left. exists s. split; [exact E|]. pose proof (lt_one_iff s _ _ Ls HD Es) as LT. rewrite Z.add_0_l in LT.
    rewrite sel_total. rewrite (total_over (cden ws)) by (auto; apply sel_Forall, good_pos; exact G). rewrite one_le_over by exact HD. destruct (ratio_lt_one s).
    + split; [discriminate|]. intros X. destruct LT as [LT _]. specialize (LT eq_refl). Lia.lia.
    + split; [|reflexivity]. intros _. destruct LT as [_ LT]. destruct (Z.lt_ge_cases (sum_over (cden ws) (sel idx pos ws)) (cden ws)) as [X|X]; [specialize (LT X); discriminate|exact X].
  - right. split; [exact E|]. split; [exact O|]. intros X. apply N. apply Bd. exact X.
Qed.
Lemma sel_all {A} (c : list A) : forall pos, exists idx, sel idx pos c = c.
Proof.
  intros pos. exists (map N.of_nat (seq (N.to_nat pos) (length c))). 
  assert (X : forall c pos l, (forall i, N.to_nat pos <= i < N.to_nat pos + length c -> In i l)%nat -> sel (map N.of_nat l) pos c = c :> list A).
  { clear. induction c as [|x c IH]; intros pos l H; [reflexivity|]. cbn [sel]. replace (chosen (map N.of_nat l) pos) with true.
    - f_equal. apply IH. intros i Hi. apply H. cbn [length]. Lia.lia.
    - symmetry. apply chosen_In. apply in_map_iff. exists (N.to_nat pos). split; [Lia.lia|]. apply H. cbn [length]. Lia.lia. }
  apply X. intros i Hi. apply in_seq. Lia.lia.
Qed.
(** acceptance of a clause *)
Lemma check_clause_exact c ws : Forall2 stands_for c ws -> fits ws \/ overflow_checks = true ->
  (check_clause c = Ok tt /\ (1 <= total ws)%Q) \/ (check_clause c = Err E_Value /\ (total ws < 1)%Q) \/ (check_clause c = Panic /\ overflow_checks = true /\ ~ fits ws).
Proof.
  intros F Hf. unfold check_clause. destruct (sel_all (combine c ws) 0) as [idx _]. clear idx.
  set (idx := map N.of_nat (seq 0 (length c))).
  assert (X : forall A (d : list A), length d = length c -> sel idx 0 d = d).
  { intros A d Hd. assert (Y : forall d pos l, (forall i, N.to_nat pos <= i < N.to_nat pos + length d -> In i l)%nat -> sel (map N.of_nat l) pos d = d :> list A).
    { clear. induction d as [|x c IH]; intros pos l H; [reflexivity|]. cbn [sel]. replace (chosen (map N.of_nat l) pos) with true.
      - f_equal. apply IH. intros i Hi. apply H. cbn [length]. Lia.lia.
      - symmetry. apply chosen_In. apply in_map_iff. exists (N.to_nat pos). split; [Lia.lia|]. apply H. cbn [length]. Lia.lia. }
    apply Y. intros i Hi. apply in_seq. Lia.lia. }
  destruct (sel_sum idx 0 c ws F Hf) as [(s & E & I)|(E & O & N)]; rewrite X in E by reflexivity; rewrite E; cbn [obind].
  - rewrite sel_total, X in I by (symmetry; eapply Forall2_length; eauto). destruct (ratio_lt_one s).
    + right. left. split; [reflexivity|]. apply Qnot_le_lt. intros Y. apply I in Y. discriminate.
    + left. split; [reflexivity|]. apply I. reflexivity.
  - right. right. auto.
Qed.

(** ** all clauses *)
Fixpoint all_reach (idx : list N) (pos : N) (cs : list (list weight)) : Prop :=
  match cs with
  | [] => True
  | c :: r => (1 <= weight_at idx pos c)%Q /\ all_reach idx (pos + len c) r
  end.
Lemma all_reach_iff idx cs : all_reach idx 0 cs <-> satisfied cs idx.
Proof.
  unfold satisfied. assert (G : forall cs pos, all_reach idx pos cs <-> (forall before c after, cs = before ++ c :: after -> (1 <= weight_at idx (pos + len (concat before)) c)%Q)).
  { clear cs. induction cs as [|c cs IH]; intros pos; cbn [all_reach].
    - split; [intros _ [|? ?] c after H; discriminate|auto].
    - rewrite IH. split.
      + intros [H1 H2] before d after E. destruct before as [|b before]; injection E as -> ->.
        * cbn [concat]. change (len (@nil weight)) with 0. rewrite N.add_0_r. exact H1.
        * cbn [concat]. rewrite len_app, N.add_assoc. apply (H2 before d after). reflexivity.
      + intros H. split; [specialize (H [] c cs eq_refl); cbn [concat] in H; change (len (@nil weight)) with 0 in H; rewrite N.add_0_r in H; exact H|].
        intros before d after ->. specialize (H (c :: before) d after eq_refl). cbn [concat] in H. rewrite len_app, N.add_assoc in H. exact H. }
  rewrite G. reflexivity.
Qed.
Lemma satisfy_clauses_exact sats idx rs cs : (forall i, i < len sats -> index_at sats i = Ok (chosen idx i)) -> Forall2 (Forall2 stands_for) rs cs ->
  Forall fits cs \/ overflow_checks = true -> forall pos, pos + len (concat cs) <= len sats ->
  (exists b, satisfy_clauses sats pos rs = Ok b /\ (b = true <-> all_reach idx pos cs)) \/
  (satisfy_clauses sats pos rs = Panic /\ overflow_checks = true /\ ~ Forall fits cs).
Proof.
  intros H F. induction F as [|c ws rs cs Hc F IH]; intros Hf pos L; cbn [satisfy_clauses all_reach].
  - left. exists true. split; [reflexivity|tauto].
  - cbn [concat] in L. rewrite len_app in L. assert (Lc : len c = len ws) by (unfold len; f_equal; eapply Forall2_length; eauto).
    rewrite (clause_weight_eq sats idx) by (auto; Lia.lia).
    assert (Hf1 : fits ws \/ overflow_checks = true) by (destruct Hf as [X|]; [inversion X; auto|auto]). assert (Hf2 : Forall fits cs \/ overflow_checks = true) by (destruct Hf as [X|]; [inversion X; auto|auto]).
    destruct (sel_sum idx pos c ws Hc Hf1) as [(s & E & I)|(E & O & N)]; rewrite E; cbn [obind].
    + destruct (ratio_lt_one s).
      * left. exists false. split; [reflexivity|]. split; [discriminate|]. intros [X _]. apply I in X. discriminate.
      * rewrite Lc. destruct (IH Hf2 (pos + len ws) ltac:(Lia.lia)) as [(b & Eb & Ib)|(Eb & O & N)].
        -- left. exists b. split; [exact Eb|]. rewrite Ib. split; [intros X; split; [apply I; reflexivity|exact X]|tauto].
        -- right. split; [exact Eb|]. split; [exact O|]. intros X. inversion X; auto.
    + right. split; [reflexivity|]. split; [exact O|]. intros X. inversion X; auto.
Qed.
Lemma count_ok rs : forall n, n + len (concat rs) < 2 ^ 32 -> count_weights n rs = Ok (n + len (concat rs)).
Proof.
  induction rs as [|c rs IH]; intros n H; cbn [count_weights concat].
  - change (len (@nil ratio)) with 0. rewrite N.add_0_r. reflexivity.
  - cbn [concat] in H. rewrite len_app in *. unfold as_u32. change (2 ^ 32) with U32 in H. rewrite N.mod_small by Lia.lia. unfold add32. replace (n + len c <? U32) with true by (symmetry; apply N.ltb_lt; Lia.lia). cbn [obind]. rewrite IH by (change (2 ^ 32) with U32; Lia.lia). f_equal. Lia.lia.
Qed.
Lemma concat_len {A B} (R : A -> B -> Prop) rs cs : Forall2 (Forall2 R) rs cs -> len (concat rs) = len (concat cs).
Proof. induction 1 as [|r c rs cs H F IH]; [reflexivity|]. cbn [concat]. rewrite !len_app, IH. f_equal. unfold len. f_equal. eapply Forall2_length; eauto. Qed.
End S.
