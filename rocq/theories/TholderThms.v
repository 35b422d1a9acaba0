(** Proofs of the properties of signing thresholds. *)
From Coq Require Import QArith.
From Verif Require Import Base MatterTables Matter StdStr Data Json Prims Spec DataDefs Tholder TholderDefs.
From Verif Require Import Utf8 BaseFacts UtilFacts MatterDefs StdStrFacts SpecFacts PrimsDefs PrimsFacts PrimsFacts2 PrimsThms JsonFacts DataThms TholderFacts TholderFacts2 TholderFacts3 TholderFacts4 TholderFacts5 TholderFacts6 TholderFacts7.
Open Scope N_scope.

(** C38: an unweighted threshold is a number [n] below 2^32, satisfied by any list of at least [n] indices, if [n] is not 0 *)
Lemma C38_satisfied_pf : forall (P : Profile) (F : Floats) (t : tholder), made_tholder P F t -> th_weighted t = false ->
  exists n, n < 2 ^ 32 /\ th_thold t = VInt (Z.of_N n) /\ tholder_num t = Ok (Some n) /\ th_size t = n /\
    forall indices, satisfy t indices = Ok ((0 <? n) && (n <=? len indices)).
Proof.
  intros P F t H W. destruct (numeric_form t H W) as [n N]. pose proof N as (Hn & m & E & ->). exists n. split; [exact Hn|]. split; [reflexivity|]. split.
  - unfold tholder_num. cbn [th_weighted th_thold to_i64 obind]. replace ((Z.of_N n <? 0) || (Z.of_N u32_max <? Z.of_N n))%Z with false; [rewrite N2Z.id; reflexivity|]. symmetry. apply orb_false_iff. change (Z.of_N u32_max) with 4294967295%Z. change (2 ^ 32) with 4294967296 in Hn. split; apply Z.ltb_ge; Lia.lia.
  - split; [reflexivity|]. intros idx. unfold satisfy, satisfy_numeric. cbn [th_number th_bexter th_thold to_i64 obind]. f_equal. f_equal.
    + apply Bool.eq_iff_eq_true. rewrite Z.ltb_lt, N.ltb_lt. Lia.lia.
    + apply Bool.eq_iff_eq_true. rewrite Z.leb_le, N.leb_le. Lia.lia.
Qed.
Lemma C38_satisfied_ex_pf : forall (P : Profile) (F : Floats), exists t, tholder_of_sith (VStr (s2b "a")) = Ok t /\ made_tholder P F t /\ th_weighted t = false /\ tholder_num t = Ok (Some 10).
Proof.
  intros P F. eexists. split; [vm_compute; reflexivity|]. split; [exists None, None, (Some (VStr (s2b "a"))); vm_compute; reflexivity|]. split; vm_compute; reflexivity.
Qed.
(** C38: how an unweighted threshold is given: as an integer, or in a sith also as signed hexadecimal text *)
Lemma C38_accepted_pf : forall (P : Profile) (F : Floats) (n : N), n < 2 ^ 32 -> exists t,
  tholder_of_thold (VInt (Z.of_N n)) = Ok t /\ tholder_of_sith (VInt (Z.of_N n)) = Ok t /\ (forall s, hex_int_text s (Z.of_N n) -> tholder_of_sith (VStr s) = Ok t) /\
  th_weighted t = false /\ tholder_num t = Ok (Some n).
Proof.
  intros P F n Hn. destruct (numeric_made n Hn) as (t & E & N). exists t. rewrite of_thold_eq, of_sith_eq. split; [exact E|]. split; [exact E|]. split.
  - intros s Hs. rewrite of_sith_eq. unfold process_sith. rewrite (hex_int_not_bracket s _ Hs). apply parse_hex_i64_iff in Hs. rewrite Hs. exact E.
  - assert (M : made_tholder P F t) by (exists (Some (VInt (Z.of_N n))), None, None; apply new_thold; exact E). destruct N as (_ & m & _ & ->). split; [reflexivity|].
    destruct (C38_satisfied_pf P F _ M eq_refl) as (k & _ & Ek & Nk & _). cbn [th_thold] in Ek. injection Ek as Ek. apply N2Z.inj in Ek. subst k. exact Nk.
Qed.
Lemma C38_accepted_ex_pf : 255 < 2 ^ 32 /\ hex_int_text (s2b "+0Ff") 255.
Proof. split; [reflexivity|]. apply parse_hex_i64_iff. vm_compute. reflexivity. Qed.
(** C38: other integers and texts are rejected *)
Lemma C38_rejected_pf : forall (P : Profile) (F : Floats) (z : Z) (s : bytes),
  ((z < 0)%Z -> tholder_of_thold (VInt z) = Err E_Value /\ tholder_of_sith (VInt z) = Err E_Value /\ (hex_int_text s z -> tholder_of_sith (VStr s) = Err E_Value)) /\
  ((2 ^ 32 <= z)%Z -> tholder_of_thold (VInt z) = Err E_TryFromInt /\ tholder_of_sith (VInt z) = Err E_TryFromInt /\ (hex_int_text s z -> tholder_of_sith (VStr s) = Err E_TryFromInt)) /\
  ((forall y, ~ hex_int_text s y) -> (forall r, s <> s2b "[" ++ r) -> tholder_of_sith (VStr s) = Err E_ParseInt).
Proof.
  intros P F z s. rewrite of_thold_eq, !of_sith_eq.
  assert (T : hex_int_text s z -> process_sith (VStr s) = process_unweighted z). { intros Hs. unfold process_sith. rewrite (hex_int_not_bracket s _ Hs). apply parse_hex_i64_iff in Hs. rewrite Hs. reflexivity. }
  split; [|split].
  - intros H. assert (E : process_unweighted z = Err E_Value). { unfold process_unweighted. replace (z <? 0)%Z with true by (symmetry; apply Z.ltb_lt; exact H). reflexivity. } split; [exact E|]. split; [exact E|]. intros Hs. rewrite T by exact Hs. exact E.
  - intros H. assert (E : process_unweighted z = Err E_TryFromInt). { unfold process_unweighted. change (2 ^ 32)%Z with 4294967296%Z in H. replace (z <? 0)%Z with false by (symmetry; apply Z.ltb_ge; Lia.lia). replace (Z.of_N u32_max <? z)%Z with true by (symmetry; apply Z.ltb_lt; change (Z.of_N u32_max) with 4294967295%Z; Lia.lia). reflexivity. } split; [exact E|]. split; [exact E|]. intros Hs. rewrite T by exact Hs. exact E.
  - intros H Hb. unfold process_sith. replace (starts_with (s2b "[") s) with false.
    + destruct (parse_hex_i64_cases s) as [[y Hy]|E]; [exfalso; apply (H y); apply parse_hex_i64_iff; exact Hy|]. rewrite E. reflexivity.
    + symmetry. destruct (starts_with (s2b "[") s) eqn:E; [|reflexivity]. exfalso. apply starts_with_iff in E as [r E]. eapply Hb; eauto.
Qed.
(** C38: distinct indices are not required: one index given twice satisfies a threshold of 2 *)
Lemma C38_distinct_refuted_pf : forall (P : Profile) (F : Floats), exists t, tholder_of_sith (VInt 2) = Ok t /\ satisfy t [0; 0] = Ok true.
Proof. intros P F. eexists. split; [vm_compute; reflexivity|vm_compute; reflexivity]. Qed.

(** C39: a weighted threshold has exactly one reading as clauses of proper weights *)
Lemma C39_weights_pf : forall (P : Profile) (F : Floats) (t : tholder), made_tholder P F t -> th_weighted t = true ->
  exists cs, weights t cs /\ (forall cs', weights t cs' -> cs' = cs) /\ (len (concat cs) < 2 ^ 32 -> th_size t = len (concat cs)) /\ tholder_num t = Ok None.
Proof.
  intros P F t H W. destruct (made_weigh t H W) as (rs & cs & X). exists cs. split; [split; [exact W|split; [apply (we_value _ _ _ X)|apply (we_proper _ _ _ X)]]|]. split.
  - intros cs' (_ & E & Pr). apply (clauses_value_inj cs' cs Pr (we_proper _ _ _ X)). rewrite <- E. apply (we_value _ _ _ X).
  - split; [apply (weigh_size _ _ _ X)|]. unfold tholder_num. rewrite W. reflexivity.
Qed.
(** C39: whatever the build, a threshold reported as satisfied is satisfied: in every
    clause the weights at the distinct given positions add up to at least 1 *)
Lemma C39_safe_pf : forall (P : Profile) (F : Floats) (t : tholder) (cs : list (list weight)) (indices : list N),
  made_tholder P F t -> weights t cs -> len (concat cs) < 2 ^ 32 -> satisfy t indices = Ok true -> satisfied cs indices.
Proof.
  intros P F t cs idx M Hw L H. destruct (weights_weigh t cs M Hw) as (rs & W). rewrite (weigh_satisfy t rs cs idx W), (weigh_size t rs cs W L) in H.
  destruct (existsb (fun i => len (concat cs) <=? i) idx) eqn:X.
  - apply existsb_exists in X as (i & I & Hi). apply N.leb_le in Hi. rewrite (marked_panic _ idx i I Hi) in H. discriminate.
  - destruct (marked_ok (len (concat cs)) idx) as (sats & Es & Ls & Hs). { intros i I. destruct (N.lt_ge_cases i (len (concat cs))) as [|Hi]; [auto|]. exfalso. assert (existsb (fun i => len (concat cs) <=? i) idx = true); [|congruence]. apply existsb_exists. exists i. split; [exact I|]. apply N.leb_le. exact Hi. }
    rewrite Es in H. cbn [obind] in H. apply all_reach_iff. eapply (satisfy_clauses_safe sats idx rs cs); [rewrite Ls; exact Hs|apply (we_stands _ _ _ W)|rewrite Ls; Lia.lia|exact H].
Qed.
(** C39: and if the weights of every clause can be added within 32 bits, it decides exactly that *)
Lemma C39_exact_pf : forall (P : Profile) (F : Floats) (t : tholder) (cs : list (list weight)) (indices : list N),
  made_tholder P F t -> weights t cs -> len (concat cs) < 2 ^ 32 -> Forall fits cs -> (forall i, In i indices -> i < th_size t) ->
  exists b, satisfy t indices = Ok b /\ (b = true <-> satisfied cs indices).
Proof.
  intros P F t cs idx M Hw L Hf Hi. destruct (weights_weigh t cs M Hw) as (rs & W). rewrite (weigh_satisfy t rs cs idx W). pose proof (weigh_size t rs cs W L) as Sz. destruct (marked_ok (th_size t) idx Hi) as (sats & Es & Ls & Hs). rewrite Es. cbn [obind].
  destruct (satisfy_clauses_exact sats idx rs cs ltac:(rewrite Ls; exact Hs) (we_stands _ _ _ W) (or_introl Hf) 0 ltac:(rewrite Ls, Sz; Lia.lia)) as [(b & E & I)|(_ & _ & N)]; [|contradiction]. exists b. split; [exact E|]. rewrite I. apply all_reach_iff.
Qed.
(** C39: with overflow checks on, the answer is that or a panic *)
Lemma C39_checked_pf : forall (F : Floats) (t : tholder) (cs : list (list weight)) (indices : list N),
  made_tholder true F t -> weights t cs -> len (concat cs) < 2 ^ 32 -> (forall i, In i indices -> i < th_size t) ->
  (exists b, satisfy (P := true) t indices = Ok b /\ (b = true <-> satisfied cs indices)) \/ satisfy (P := true) t indices = Panic.
Proof.
  intros F t cs idx M Hw L Hi. destruct (weights_weigh (P := true) t cs M Hw) as (rs & W). rewrite (weigh_satisfy t rs cs idx W). pose proof (weigh_size t rs cs W L) as Sz. destruct (marked_ok (th_size t) idx Hi) as (sats & Es & Ls & Hs). rewrite Es. cbn [obind].
  destruct (satisfy_clauses_exact (P := true) sats idx rs cs ltac:(rewrite Ls; exact Hs) (we_stands _ _ _ W) (or_intror eq_refl) 0 ltac:(rewrite Ls, Sz; Lia.lia)) as [(b & E & I)|(E & _ & N)]; [|right; exact E]. left. exists b. split; [exact E|]. rewrite I. apply all_reach_iff.
Qed.
Definition two_clauses : data := VArr [VArr [VStr (s2b "1/2"); VStr (s2b "2/4"); VStr (s2b "1/3")]; VArr [VStr (s2b "1"); VStr (s2b "0")]].
Lemma two_clauses_made : forall (P : Profile) (F : Floats), exists t, tholder_of_sith two_clauses = Ok t /\ made_tholder P F t /\ weights t [[(1, 2); (1, 2); (1, 3)]; [(1, 1); (0, 1)]].
Proof.
  intros P F. eexists. split; [vm_compute; reflexivity|]. split; [exists None, None, (Some two_clauses); vm_compute; reflexivity|]. split; [reflexivity|]. split; [vm_compute; reflexivity|].
  repeat constructor; vm_compute; try reflexivity; discriminate.
Qed.
Lemma C39_exact_ex_pf : forall (P : Profile) (F : Floats), exists t, tholder_of_sith (VArr [VArr [VStr (s2b "1/2"); VStr (s2b "2/4"); VStr (s2b "1/3")]; VArr [VStr (s2b "1"); VStr (s2b "0")]]) = Ok t /\
  made_tholder P F t /\ weights t [[(1, 2); (1, 2); (1, 3)]; [(1, 1); (0, 1)]] /\ Forall fits [[(1, 2); (1, 2); (1, 3)]; [(1, 1); (0, 1)]] /\
  satisfy t [3; 1; 0; 1] = Ok true /\ satisfy t [0; 2; 3] = Ok false /\ satisfied [[(1, 2); (1, 2); (1, 3)]; [(1, 1); (0, 1)]] [3; 1; 0; 1].
Proof.
  intros P F. destruct (two_clauses_made P F) as (t & E & M & W). exists t. split; [exact E|]. split; [exact M|]. split; [exact W|]. split; [repeat constructor; vm_compute; reflexivity|].
  assert (S1 : satisfy t [3; 1; 0; 1] = Ok true) by (vm_compute in E; apply Ok_inj in E; subst t; vm_compute; reflexivity).
  split; [exact S1|]. split; [vm_compute in E; apply Ok_inj in E; subst t; vm_compute; reflexivity|]. eapply C39_safe_pf; eauto. vm_compute. reflexivity.
Qed.
(** C39: without overflow checks a satisfied threshold can be reported as not satisfied *)
Lemma C39_refuted_pf : forall F : Floats, exists t cs, tholder_of_sith (H := false) (VArr (map VStr [s2b "1/2"; s2b "50/71"; s2b "4349/6399"; s2b "744/3797"])) = Ok t /\
  weights t cs /\ satisfied cs [1; 2; 3] /\ satisfy (P := false) t [1; 2; 3] = Ok false.
Proof.
  intros F. eexists. exists [[(1, 2); (50, 71); (4349, 6399); (744, 3797)]]. split; [vm_compute; reflexivity|]. split; [split; [reflexivity|]; split; [vm_compute; reflexivity|repeat constructor; vm_compute; try reflexivity; discriminate]|].
  split; [|vm_compute; reflexivity]. apply all_reach_iff. split; [|exact I]. vm_compute. discriminate.
Qed.

(** C40: for a weighted threshold only the set of given indices matters, even for panics *)
Lemma C40_set_pf : forall (P : Profile) (F : Floats) (t : tholder) (a b : list N),
  made_tholder P F t -> th_weighted t = true -> (forall i, In i a <-> In i b) -> satisfy t a = satisfy t b.
Proof. intros P F t a b M Hw E. destruct (made_weigh t M Hw) as (rs & cs & W). rewrite !(weigh_satisfy t rs cs _ W). rewrite (marked_set (th_size t) a b E). reflexivity. Qed.
Lemma weight_at_mono a b c : (forall i, In i a -> In i b) -> Forall proper c -> forall pos, (weight_at a pos c <= weight_at b pos c)%Q.
Proof.
  intros H G. induction G as [|w c Hw G IH]; intros pos; cbn [weight_at]; [apply Qle_refl|]. apply Qplus_le_compat; [|apply IH].
  assert (N0 : (0 <= fraction w)%Q). { destruct Hw as (Hw & _). unfold fraction. apply Qle_shift_div_l; [unfold Qlt, inject_Z; cbn; Lia.lia|]. rewrite Qmult_0_l. unfold Qle, inject_Z; cbn. Lia.lia. }
  fold (chosen a pos). fold (chosen b pos). destruct (chosen a pos) eqn:A; [|destruct (chosen b pos); [exact N0|apply Qle_refl]].
  apply chosen_In in A. apply H in A. apply chosen_In in A. rewrite A. apply Qle_refl.
Qed.
(** C40: more signatures never unsatisfy *)
Lemma C40_monotone_pf : forall (P : Profile) (F : Floats) (t : tholder) (a b : list N), made_tholder P F t -> satisfy t a = Ok true ->
  (th_weighted t = false -> len a <= len b -> satisfy t b = Ok true) /\
  (forall cs, weights t cs -> len (concat cs) < 2 ^ 32 -> (forall i, In i a -> In i b) -> (forall i, In i b -> i < th_size t) ->
     (Forall fits cs -> satisfy t b = Ok true) /\ (overflow_checks = true -> satisfy t b <> Ok false)).
Proof.
  intros P F t a b M Ha. split.
  - intros W L. destruct (C38_satisfied_pf P F t M W) as (n & _ & _ & _ & _ & S). rewrite S in *. apply Ok_inj in Ha. apply andb_true_iff in Ha as [H1 H2]. rewrite H1. apply N.leb_le in H2. replace (n <=? len b) with true by (symmetry; apply N.leb_le; Lia.lia). reflexivity.
  - intros cs W L Hab Hb. pose proof (C39_safe_pf P F t cs a M W L Ha) as Sa. 
    assert (Sb : satisfied cs b). { intros before c after E. eapply Qle_trans; [apply (Sa before c after E)|]. apply weight_at_mono; [exact Hab|]. destruct W as (_ & _ & W). rewrite E in W. apply Forall_app in W as [_ W]. inversion W; auto. }
    split.
    + intros Hf. destruct (C39_exact_pf P F t cs b M W L Hf Hb) as (r & E & I). rewrite E. f_equal. apply I. exact Sb.
    + intros O X. destruct P; [|discriminate O]. destruct (C39_checked_pf F t cs b M W L Hb) as [(r & E & I)|E]; [|congruence]. rewrite E in X. apply Ok_inj in X. subst r. apply I in Sb. discriminate.
Qed.
Lemma C40_monotone_ex_pf : forall (P : Profile) (F : Floats), exists t, made_tholder P F t /\ weights t [[(1, 2); (1, 2); (1, 3)]; [(1, 1); (0, 1)]] /\ satisfy t [0; 1; 3] = Ok true /\ satisfy t [4; 3; 2; 1; 0] = Ok true.
Proof.
  intros P F. destruct (two_clauses_made P F) as (t & E & M & W). exists t. split; [exact M|]. split; [exact W|]. vm_compute in E. apply Ok_inj in E. subst t. split; vm_compute; reflexivity.
Qed.

(** C41: if sums fit in 32 bits, the answer is a panic exactly if some index is not below the size, and never an error *)
Lemma C41_panic_iff_pf : forall (P : Profile) (F : Floats) (t : tholder) (cs : list (list weight)) (indices : list N),
  made_tholder P F t -> weights t cs -> len (concat cs) < 2 ^ 32 -> Forall fits cs ->
  (satisfy t indices = Panic <-> exists i, In i indices /\ th_size t <= i) /\ (forall e, satisfy t indices <> Err e).
Proof.
  intros P F t cs idx M Hw L Hf. destruct (weights_weigh t cs M Hw) as (rs & W). 
  destruct (existsb (fun i => th_size t <=? i) idx) eqn:X.
  - apply existsb_exists in X as (i & I & Hi). apply N.leb_le in Hi. assert (E : satisfy t idx = Panic) by (rewrite (weigh_satisfy t rs cs idx W), (marked_panic _ idx i I Hi); reflexivity). rewrite E. split; [split; [intros _; exists i; auto|reflexivity]|discriminate].
  - assert (A : forall i, In i idx -> i < th_size t). { intros i I. destruct (N.lt_ge_cases i (th_size t)) as [|Hi]; [auto|]. exfalso. assert (existsb (fun i => th_size t <=? i) idx = true); [|congruence]. apply existsb_exists. exists i. split; [exact I|]. apply N.leb_le. exact Hi. }
    destruct (C39_exact_pf P F t cs idx M Hw L Hf A) as (b & E & _). rewrite E. split; [split; [discriminate|]|discriminate]. intros (i & I & Hi). specialize (A i I). Lia.lia.
Qed.
Lemma C41_panic_iff_ex_pf : forall (P : Profile) (F : Floats), exists t, made_tholder P F t /\ weights t [[(1, 2); (1, 2); (1, 3)]; [(1, 1); (0, 1)]] /\ Forall fits [[(1, 2); (1, 2); (1, 3)]; [(1, 1); (0, 1)]] /\ th_size t = 5.
Proof.
  intros P F. destruct (two_clauses_made P F) as (t & E & M & W). exists t. split; [exact M|]. split; [exact W|]. split; [repeat constructor; vm_compute; reflexivity|]. vm_compute in E. apply Ok_inj in E. subst t. reflexivity.
Qed.
(** C41: the property as first stated is false: an index that is too large panics, in every build;
    and with overflow checks even indices in range can panic *)
Lemma C41_never_panics_refuted_pf : forall (P : Profile) (F : Floats), exists t, tholder_of_sith (VArr (map VStr [s2b "1/2"; s2b "1/2"])) = Ok t /\ satisfy t [0; 1; 2] = Panic.
Proof. intros P F. eexists. split; [vm_compute; reflexivity|vm_compute; reflexivity]. Qed.
Lemma C41_overflow_refuted_pf : forall F : Floats, exists t, tholder_of_sith (H := true) (VArr (map VStr [s2b "1/46349"; s2b "46348/46349"; s2b "1/46351"; s2b "46350/46351"])) = Ok t /\
  th_size t = 4 /\ satisfy (P := true) t [0; 2] = Panic.
Proof. intros F. eexists. split; [vm_compute; reflexivity|]. split; vm_compute; reflexivity. Qed.

(** C42: a weighted threshold that was accepted, in any build, has in every clause weights that add up to at least 1 *)
Lemma C42_sound_pf : forall (P : Profile) (F : Floats) (t : tholder) (cs : list (list weight)), made_tholder P F t -> weights t cs -> Forall (fun c => (1 <= total c)%Q) cs.
Proof.
  intros P F t cs M Hw. destruct (weights_weigh t cs M Hw) as (rs & W). pose proof (weigh_checks t rs cs W) as K. pose proof (we_stands _ _ _ W) as S. clear W Hw. induction S as [|c ws rs cs H S' IH]; [constructor|]. inversion K; subst. constructor; [|apply IH; auto]. eapply check_clause_safe; eauto.
Qed.
(** C42: only integers and lists of lists of weight texts are accepted *)
Lemma C42_wellformed_pf : forall (P : Profile) (F : Floats) (v : data) (t : tholder), tholder_of_thold v = Ok t ->
  (exists n, v = VInt (Z.of_N n) /\ n < 2 ^ 32) \/
  (exists ts cs, v = clause_texts ts /\ Forall2 (Forall2 weight_text) ts cs /\ weights t (map (map lowest) cs) /\ Forall (fun c => (1 <= total c)%Q) cs).
Proof.
  intros P F v t H. rewrite of_thold_eq in H. unfold process_thold in H. destruct (to_i64 v) as [z| |] eqn:Ez.
  - left. destruct v; try discriminate Ez. apply Ok_inj in Ez. subst. apply process_unweighted_ok in H as [B _]. exists (Z.to_N z). split; [f_equal; Lia.lia|]. change (2 ^ 32)%Z with 4294967296%Z in B. change (2 ^ 32) with 4294967296. Lia.lia.
  - right. clear Ez. Local Ltac fin H := destruct (process_weighted_inv _ _ H) as (rs & b & H1 & H2 & H3 & E); pose proof H1 as H1'; apply vtr_ok in H1 as (ts & -> & F1 & K); destruct (texts_weights ts rs F1) as (cs & F2 & S); exists ts, cs; split; [reflexivity|]; split; [exact F2|]; destruct (lowest_all rs cs S) as [L1 L2]; split;
      [split; [rewrite E; reflexivity|]; split; [rewrite E; cbn [th_thold]; apply outer_show; exact S|exact L1]|]; clear - S K; induction S as [|c ws rs cs H S' IH]; [constructor|]; inversion K; subst; constructor; [eapply check_clause_safe; eauto|apply IH; auto].
    fin H.
  - right. clear Ez. fin H.
Qed.
Lemma fraction_lowest w : 0 < snd w -> (fraction (lowest w) == fraction w)%Q.
Proof.
  intros Hd. destruct w as [n d]. cbn [snd] in Hd. unfold fraction, lowest. cbn [fst snd]. set (g := N.gcd n d).
  assert (Hg : 0 < g). { destruct (N.eq_dec g 0) as [X|]; [apply N.gcd_eq_0 in X; Lia.lia|Lia.lia]. }
  destruct (N.gcd_divide_l n d) as [a Ha]. destruct (N.gcd_divide_r n d) as [b Hb]. fold g in Ha, Hb. clearbody g. subst n d. rewrite !N.div_mul by Lia.lia. rewrite !N2Z.inj_mul, !inject_Z_mult.
  assert (~ inject_Z (Z.of_N b) == 0)%Q. { unfold Qeq, inject_Z. cbn. destruct b; cbn in *; Lia.lia. }
  assert (~ inject_Z (Z.of_N g) == 0)%Q. { unfold Qeq, inject_Z. cbn. Lia.lia. }
  field. auto.
Qed.
Lemma total_lowest c ws : Forall2 stands_for c ws -> (total (map lowest ws) == total ws)%Q.
Proof. induction 1 as [|r w c ws (_ & _ & Hd & _) F IH]; [reflexivity|]. cbn [map total fold_right]. fold (total (map lowest ws)) (total ws). rewrite IH, fraction_lowest by exact Hd. reflexivity. Qed.
(** C42: lists of lists of weight texts are accepted if every clause adds up to at least 1 and
    rejected otherwise, as long as sums fit in 32 bits and the texts are not too long *)
Lemma C42_accepted_pf : forall (P : Profile) (F : Floats) (ts : list (list bytes)) (cs : list (list weight)), Forall2 (Forall2 weight_text) ts cs ->
  Forall fits (map (map lowest) cs) -> text_length (concat (map (map lowest) cs)) <= 64 ^ 4 * 4 - 3 ->
  (Forall (fun c => (1 <= total c)%Q) cs -> exists t, tholder_of_thold (clause_texts ts) = Ok t /\ weights t (map (map lowest) cs) /\ th_size t = len (concat cs)) /\
  ((exists c, In c cs /\ (total c < 1)%Q) -> tholder_of_thold (clause_texts ts) = Err E_Value).
Proof.
  intros P F ts cs FT Hf Hl. rewrite of_thold_eq, process_thold_texts. destruct (weights_texts ts cs FT) as (rs & FR & S). destruct (lowest_all rs cs S) as [L1 L2].
  assert (C : (Forall (fun c => (1 <= total c)%Q) cs /\ Forall (fun c => check_clause c = Ok tt) rs) \/ (~ Forall (fun c => (1 <= total c)%Q) cs /\ each check_clause rs = Err E_Value)).
  { clear - S Hf. induction S as [|c ws rs cs H S' IH]; [left; split; constructor|]. cbn [map] in Hf. inversion Hf as [|? ? Hf1 Hf2]; subst.
    assert (Hl : Forall2 stands_for c (map lowest ws)). { clear - H. induction H; cbn [map]; constructor; auto. apply (lowest_stands _ _ H). }
    destruct (check_clause_exact c (map lowest ws) Hl (or_introl Hf1)) as [[E T]|[[E T]|[_ [_ X]]]]; [| |contradiction]; rewrite (total_lowest c ws H) in T; cbn [each]; rewrite E; cbn [obind].
    - destruct (IH Hf2) as [[A B]|[A B]]; [left; split; constructor; auto|right; rewrite B; split; [intros X; inversion X; contradiction|reflexivity]].
    - right. split; [|reflexivity]. intros X. inversion X as [|? ? Y _]; subst. apply (Qlt_irrefl 1). eapply Qle_lt_trans; eauto. }
  split.
  - intros T. destruct C as [[_ K]|[N _]]; [|contradiction].
    assert (V : values_to_rationals (clause_texts ts) = Ok rs) by (apply vtr_ok; eauto).
    assert (Hc : Forall (fun c => c <> []) rs) by (eapply Forall_impl; [|exact K]; intros c; apply check_nonempty).
    assert (Lb : len (rationals_to_bext rs) <= 64 ^ 4 * 4 - 4 /\ len (concat rs) < 2 ^ 32).
    { change (64 ^ 4 * 4 - 3) with 67108861 in Hl. change (64 ^ 4 * 4 - 4) with 67108860. change (2 ^ 32) with 4294967296.
      assert (X : len (concat rs) <= text_length (concat (map (map lowest) cs))). { rewrite (concat_len _ _ _ L2). generalize (concat (map (map lowest) cs)). clear. induction l as [|w l IH]; [vm_compute; discriminate|]. rewrite len_cons. cbn [text_length fold_right]. fold (text_length l). Lia.lia. }
      destruct rs as [|c rs]; [vm_compute; split; [discriminate|reflexivity]|]. pose proof (len_bext (c :: rs) cs S ltac:(discriminate) Hc) as Y. Lia.lia. }
    destruct Lb as [Lb Lc]. destruct (C33_round_trip_pf P _ (bext_b64 rs cs S) Lb) as (m & _ & _ & Em & _).
    pose proof (count_ok rs 0 ltac:(rewrite N.add_0_l; exact Lc)) as Ec. rewrite N.add_0_l in Ec. rewrite (process_weighted_eq _ rs _ m V Ec Em). eexists. split; [reflexivity|]. split; [|cbn [th_size]; apply (concat_len _ _ _ S)].
    split; [reflexivity|]. split; [cbn [th_thold]; apply outer_show; exact S|exact L1].
  - intros (c & I & T). destruct C as [[A _]|[_ E]]; [exfalso; rewrite Forall_forall in A; apply (Qlt_irrefl 1); eapply Qle_lt_trans; [apply (A c I)|exact T]|].
    unfold process_weighted, values_to_rationals. cbn [clause_texts to_vec obind]. 
    assert (Ec : each clause_of_value (map (fun c => VArr (map VStr c)) ts) = Ok rs). { apply each_ok. clear - FR. induction FR as [|t r ts rs H F IH]; cbn [map]; constructor; auto. apply clause_ok. eauto. }
    rewrite Ec. cbn [obind]. rewrite E. reflexivity.
Qed.
Lemma C42_accepted_ex_pf : Forall2 (Forall2 weight_text) [[s2b "1/2"; s2b "2/4"]; [s2b "+01/1"; s2b "0"]] [[(1, 2); (2, 4)]; [(1, 1); (0, 1)]] /\
  Forall fits (map (map lowest) [[(1, 2); (2, 4)]; [(1, 1); (0, 1)]]) /\ Forall (fun c => (1 <= total c)%Q) [[(1, 2); (2, 4)]; [(1, 1); (0, 1)]] /\ (total [(1%N, 3%N); (1%N, 2%N)] < 1)%Q.
Proof.
  split; [|split; [repeat constructor; vm_compute; reflexivity|split; [repeat constructor; vm_compute; discriminate|vm_compute; reflexivity]]].
  assert (X : forall a b n d, parse_i32 a = Ok (Z.of_N n) -> parse_i32 b = Ok (Z.of_N d) -> n <= d -> 0 < d -> weight_text (a ++ s2b "/" ++ b) (n, d)).
  { intros a b n d Ha Hb H1 H2. left. exists a, b. cbn [fst snd]. split; [reflexivity|]. split; [apply parse_i32_iff; exact Ha|]. split; [apply parse_i32_iff; exact Hb|]. split; auto. }
  assert (T : forall a b n d, parse_i32 a = Ok (Z.of_N n) /\ parse_i32 b = Ok (Z.of_N d) /\ (n <=? d) = true /\ (0 <? d) = true -> weight_text (a ++ s2b "/" ++ b) (n, d)).
  { intros a b n d (Ha & Hb & H1 & H2). apply X; auto; [apply N.leb_le; exact H1|apply N.ltb_lt; exact H2]. }
  constructor; [|constructor; [|constructor]].
  - constructor; [|constructor; [|constructor]]; [apply (T (s2b "1") (s2b "2") 1 2)|apply (T (s2b "2") (s2b "4") 2 4)]; vm_compute; auto.
  - constructor; [|constructor; [|constructor]]; [apply (T (s2b "+01") (s2b "1") 1 1); vm_compute; auto|]. right. split; [vm_compute; discriminate|]. exists 0. auto.
Qed.
(** C42: a sith list is a list of clauses, or a single clause; an empty list is rejected *)
Lemma C42_sith_lists_pf : forall (P : Profile) (F : Floats), tholder_of_sith (VArr []) = Err E_Value /\
  (forall ts, ts <> [] -> tholder_of_sith (clause_texts ts) = tholder_of_thold (clause_texts ts)) /\
  (forall ts, ts <> [] -> tholder_of_sith (VArr (map VStr ts)) = tholder_of_thold (clause_texts [ts])) /\
  (forall v t, tholder_of_sith v = Ok t -> (exists n, v = VInt n) \/ (exists s, v = VStr s) \/ (exists ts, ts <> [] /\ (v = clause_texts ts \/ exists ts', ts = [ts'] /\ v = VArr (map VStr ts')))).
Proof.
  intros P F. split; [reflexivity|]. 
  assert (Txt : forall ts, each (fun clause => ws <- to_vec clause ;; if forallb is_text ws then Ok tt else Err E_Value) (map (fun c => VArr (map VStr c)) ts) = Ok (map (fun _ => tt) ts)).
  { clear. intros ts. apply each_ok. induction ts as [|c ts IH]; cbn [map]; constructor; auto. cbn [to_vec obind]. replace (forallb is_text (map VStr c)) with true; [reflexivity|]. symmetry. clear. induction c; [reflexivity|exact IHc]. }
  assert (Vec : forall ts, forallb is_vec (map (fun c => VArr (map VStr c)) ts) = true) by (clear; induction ts; [reflexivity|exact IHts]).
  split; [|split].
  - intros ts Hne. rewrite of_sith_eq, of_thold_eq, process_thold_texts. change (process_sith (clause_texts ts)) with (process_sith_list (clause_texts ts)). unfold process_sith_list. cbn [clause_texts to_vec obind]. specialize (Txt ts). specialize (Vec ts).
    remember (map (fun c => VArr (map VStr c)) ts) as arr eqn:Ea. destruct arr as [|a arr]; [destruct ts; [congruence|discriminate Ea]|]. rewrite Vec. cbv zeta. unfold clause_texts. rewrite <- Ea. cbn [to_vec obind]. rewrite Txt. reflexivity.
  - intros ts Hne. rewrite of_sith_eq, of_thold_eq, process_thold_texts. change (process_sith (VArr (map VStr ts))) with (process_sith_list (VArr (map VStr ts))). unfold process_sith_list. cbn [to_vec obind]. destruct ts as [|x ts]; [congruence|]. cbn [map].
    cbn [forallb is_vec andb]. cbv zeta iota. cbn [to_vec obind]. specialize (Txt [x :: ts]). cbn [map] in Txt. rewrite Txt. reflexivity.
  - intros v t H. rewrite of_sith_eq in H. assert (G : process_sith_list v = Ok t -> exists ts, ts <> [] /\ (v = clause_texts ts \/ exists ts', ts = [ts'] /\ v = VArr (map VStr ts'))).
    { clear H. unfold process_sith_list. destruct (to_vec v) as [l| |] eqn:Ev; [|discriminate|discriminate]. apply to_vec_ok in Ev. subst v. cbn [obind]. destruct l as [|x l]; [discriminate|]. cbv zeta. destruct (forallb is_vec (x :: l)) eqn:Hv.
      - cbn [to_vec obind]. destruct (each _ (x :: l)); [|discriminate|discriminate]. cbn [obind]. intros H. apply process_weigh in H as (rs & cs & H & _). apply vtr_ok in H as (ts & E & _). exists ts. split; [intros ->; discriminate E|auto].
      - cbn [to_vec obind]. destruct (each _ [VArr (x :: l)]); [|discriminate|discriminate]. cbn [obind]. intros H. apply process_weigh in H as (rs & cs & H & _). apply vtr_ok in H as (ts & E & _). destruct ts as [|ts' [|]]; try discriminate E. injection E as E. exists [ts']. split; [discriminate|]. right. exists ts'. rewrite E. auto. }
    destruct v as [| |z| |s|l|l]; try (right; right; apply G; exact H); eauto.
Qed.
(** C42: as first stated it is false: weights with several slashes are accepted, and "0/0" panics;
    an empty list of clauses is accepted as a thold and then always satisfied *)
Lemma C42_several_slashes_refuted_pf : forall (P : Profile) (F : Floats), exists t, tholder_of_sith (VArr [VStr (s2b "1/2/3")]) = Ok t /\ th_thold t = VArr [VArr [VStr (s2b "1")]].
Proof. intros P F. eexists. split; [vm_compute; reflexivity|vm_compute; reflexivity]. Qed.
Lemma C42_zero_denominator_refuted_pf : forall (P : Profile) (F : Floats) (before after : list (list bytes)) (a z b : list bytes) (cs : list (list weight)) (ws : list weight) (t : bytes),
  Forall2 (Forall2 weight_text) before cs -> Forall2 weight_text a ws -> zero_over_zero t -> z = t :: b -> tholder_of_thold (clause_texts (before ++ (a ++ z) :: after)) = Panic.
Proof.
  intros P F before after a z b cs ws t Hb Ha Ht ->. rewrite of_thold_eq, process_thold_texts. unfold process_weighted, values_to_rationals. cbn [clause_texts to_vec obind]. rewrite map_app. cbn [map].
  assert (X : forall A B (f : A -> outcome B) l l' x r, Forall2 (fun a b => f a = Ok b) l l' -> f x = Panic -> each f (l ++ x :: r) = Panic).
  { clear. intros A B f l l' x r F0 Hx. induction F0 as [|a b l l' H F0 IH]; cbn [app each]; [rewrite Hx; reflexivity|]. rewrite H. cbn [obind]. rewrite IH. reflexivity. }
  destruct (weights_texts before cs Hb) as (rs & FR & _).
  rewrite (X _ _ clause_of_value _ rs); [reflexivity| |].
  - clear - FR. induction FR as [|t r ts rs H F IH]; cbn [map]; constructor; auto. apply clause_ok. eauto.
  - unfold clause_of_value. cbn [to_vec obind]. rewrite map_app. cbn [map]. destruct (weights_texts [a] [ws] ltac:(constructor; [exact Ha|constructor])) as (rs' & FR' & _). inversion FR' as [|? r ? ? FR1 _]; subst. apply (X _ _ _ _ r).
    + clear - FR1. induction FR1; cbn [map]; constructor; auto.
    + cbn [Data.to_string obind]. apply weight_of_text_panic. exact Ht.
Qed.
Lemma C42_zero_denominator_ex_pf : zero_over_zero (s2b "0/0") /\ forall (P : Profile) (F : Floats), tholder_of_sith (VArr [VStr (s2b "1"); VStr (s2b "0/0")]) = Panic.
Proof. split; [apply (weight_of_text_panic (P := true)); vm_compute; reflexivity|]. intros P F. vm_compute. reflexivity. Qed.
Lemma C42_empty_refuted_pf : forall (P : Profile) (F : Floats), exists t, tholder_of_thold (VArr []) = Ok t /\ satisfy t [] = Ok true.
Proof. intros P F. eexists. split; [vm_compute; reflexivity|vm_compute; reflexivity]. Qed.

(** C43: a threshold is rebuilt from its limen (if it has a clause, and its weights fit in a text of 2^32 characters) *)
Lemma C43_limen_pf : forall (P : Profile) (F : Floats) (t : tholder), made_tholder P F t -> th_thold t <> VArr [] ->
  (forall cs, weights t cs -> text_length (concat cs) <= 2 ^ 32) -> exists l, tholder_limen t = Ok l /\ tholder_of_limen l = Ok t.
Proof.
  intros P F t M Hne Hl. destruct (th_weighted t) eqn:W.
  - destruct (weighted_form t M W) as [v Hv]. destruct (process_weigh v t Hv) as (rs & cs & Ev & X). assert (WT : weights t cs) by (split; [exact W|split; [apply (we_value _ _ _ X)|apply (we_proper _ _ _ X)]]). specialize (Hl cs WT).
    destruct (weighted_limen v t rs cs Hv Ev (we_stands _ _ _ X) (weigh_nonempty _ _ _ X Hne)) as (l & E & Ne & G).
    { replace (map (map lowest) cs) with cs; [exact Hl|]. pose proof (we_proper _ _ _ X) as Pr. clear - Pr. induction Pr as [|c cs H Pr IH]; [reflexivity|]. cbn [map]. rewrite <- IH. f_equal. clear - H. induction H as [|w c H Pr IH]; [reflexivity|]. cbn [map]. rewrite <- IH, (proper_lowest w H). reflexivity. }
    exists l. split; [exact E|]. apply new_limen; auto.
  - destruct (numeric_form t M W) as [n N]. destruct (numeric_limen n t N) as (l & E & Ne & G). exists l. split; [exact E|]. apply new_limen; auto.
Qed.
Lemma C43_limen_ex_pf : forall (P : Profile) (F : Floats), exists t, made_tholder P F t /\ weights t [[(1, 2); (1, 2); (1, 3)]; [(1, 1); (0, 1)]] /\ tholder_limen t = Ok (s2b "4AAEA1s2c1s2c1s3a1c0") /\ tholder_of_limen (s2b "4AAEA1s2c1s2c1s3a1c0") = Ok t.
Proof.
  intros P F. destruct (two_clauses_made P F) as (t & E & M & W). exists t. split; [exact M|]. split; [exact W|]. vm_compute in E. apply Ok_inj in E. subst t. split; vm_compute; reflexivity.
Qed.
(** C43: the threshold without clauses has a limen that is not accepted *)
Lemma C43_empty_refuted_pf : forall (P : Profile) (F : Floats), exists t l, tholder_of_thold (VArr []) = Ok t /\ tholder_limen t = Ok l /\ forall u, tholder_of_limen l <> Ok u.
Proof. intros P F. eexists. eexists. split; [vm_compute; reflexivity|]. split; [vm_compute; reflexivity|]. intros u H. vm_compute in H. discriminate. Qed.

(** C44: a threshold is rebuilt from its thold, always, and from its sith, if it has a clause *)
Lemma C44_rebuilt_pf : forall (P : Profile) (F : Floats) (t : tholder), made_tholder P F t -> tholder_of_thold (th_thold t) = Ok t /\
  (th_thold t <> VArr [] -> exists s, tholder_sith t = Ok s /\ tholder_of_sith s = Ok t).
Proof.
  intros P F t M. destruct (th_weighted t) eqn:W.
  - destruct (weighted_form t M W) as [v Hv]. destruct (process_weigh v t Hv) as (rs & cs & Ev & X). split.
    + rewrite of_thold_eq. pose proof (we_again _ _ _ X) as Ag. rewrite (we_value _ _ _ X) in *. exact Ag.
    + intros Hne. destruct (outer_sith v t rs Hv Ev (weigh_nonempty _ _ _ X Hne)) as (l & E & G). exists (VArr l). split; [exact E|]. rewrite of_sith_eq. exact G.
  - destruct (numeric_form t M W) as [n N]. destruct (numeric_sith n t N) as [E G]. split; [|intros _; exists (VStr (to_hex n)); split; [exact E|]; rewrite of_sith_eq; exact G].
    rewrite of_thold_eq. pose proof (numeric_process n t N) as Pu. destruct N as (_ & m & _ & ->). exact Pu.
Qed.
Lemma C44_rebuilt_ex_pf : forall (P : Profile) (F : Floats), exists t, made_tholder P F t /\ tholder_sith t = Ok (VArr [VStr (s2b "1/2"); VStr (s2b "1/2")]) /\ tholder_of_sith (VArr [VStr (s2b "1/2"); VStr (s2b "1/2")]) = Ok t.
Proof. intros P F. eexists. split; [exists (Some (VArr [VArr [VStr (s2b "2/4"); VStr (s2b "1/2")]])), None, None; vm_compute; reflexivity|]. split; [vm_compute; reflexivity|vm_compute; reflexivity]. Qed.
(** C44: the empty threshold is not rebuilt from its sith *)
Lemma C44_empty_refuted_pf : forall (P : Profile) (F : Floats), exists t, tholder_of_thold (VArr []) = Ok t /\ tholder_sith t = Ok (VArr []) /\ tholder_of_sith (VArr []) = Err E_Value.
Proof. intros P F. eexists. split; [vm_compute; reflexivity|]. split; vm_compute; reflexivity. Qed.
(** C44: JSON text that starts with '[' is read as the list *)
Lemma C44_json_text_pf : forall (P : Profile) (F : Floats) (s : bytes) (l : list data), from_json (s2b "[" ++ s) = Ok (VArr l) -> tholder_of_sith (VStr (s2b "[" ++ s)) = tholder_of_sith (VArr l).
Proof.
  intros P F s l H. rewrite !of_sith_eq. unfold process_sith. replace (starts_with (s2b "[") (s2b "[" ++ s)) with true by reflexivity. unfold from_json in H. destruct (json_from_str (s2b "[" ++ s)) as [j| |]; try discriminate. cbn [obind] in *. rewrite H. reflexivity.
Qed.
Lemma C44_json_text_ex_pf : forall F : Floats, from_json (s2b "[" ++ s2b " ""1/2"", ""1/2""]") = Ok (VArr [VStr (s2b "1/2"); VStr (s2b "1/2")]).
Proof. intros F. vm_compute. reflexivity. Qed.
Lemma texts_good fl ts : DataDefs.good fl (VArr (map VStr ts)) /\ depth (VArr (map VStr ts)) <= 1.
Proof.
  split; [constructor; intros v I; apply in_map_iff in I as (x & <- & _); constructor|]. cbn [depth]. assert (fold_right N.max 0 (map depth (map VStr ts)) = 0) as ->; [|Lia.lia]. induction ts as [|t ts IH]; [reflexivity|]. cbn [map fold_right depth]. rewrite IH. reflexivity.
Qed.
Lemma clauses_good fl ts : DataDefs.good fl (clause_texts ts) /\ depth (clause_texts ts) <= 2.
Proof.
  split; [constructor; intros v I; apply in_map_iff in I as (x & <- & _); apply texts_good|]. unfold clause_texts. cbn [depth]. assert (fold_right N.max 0 (map depth (map (fun c => VArr (map VStr c)) ts)) <= 1); [|Lia.lia].
  induction ts as [|t ts IH]; [vm_compute; discriminate|]. cbn [map fold_right]. pose proof (proj2 (texts_good fl t)). apply N.max_lub; assumption.
Qed.
(** C44: a weighted threshold is rebuilt from its JSON text *)
Lemma C44_json_pf : forall (P : Profile) (F : Floats) (t : tholder), made_tholder P F t -> th_weighted t = true -> th_thold t <> VArr [] ->
  exists j, tholder_to_json t = Ok j /\ tholder_of_sith (VStr j) = Ok t.
Proof.
  intros P F t M W Hne. destruct (weighted_form t M W) as [v Hv]. destruct (process_weigh v t Hv) as (rs & cs & Ev & X). destruct (outer_sith v t rs Hv Ev (weigh_nonempty _ _ _ X Hne)) as (l & E & G).
  exists (to_json (VArr l)). unfold tholder_to_json. rewrite E. cbn [obind]. split; [reflexivity|].
  assert (R : from_json (to_json (VArr l)) = Ok (VArr l)).
  { assert (S : tholder_of_sith (VArr l) = Ok t) by (rewrite of_sith_eq; exact G). destruct (C42_sith_lists_pf P F) as (_ & _ & _ & C). destruct (C _ _ S) as [[n Q]|[[s Q]|(ts & _ & [Q|(ts' & _ & Q)])]]; try discriminate Q; rewrite Q.
    - destruct (clauses_good (fun t => float_text t /\ In 46 t /\ float_of_text t = Some t) ts) as [Gd Dp]. apply (proj1 (C46_json_round_trip_pf F _ Gd)). Lia.lia.
    - destruct (texts_good (fun t => float_text t /\ In 46 t /\ float_of_text t = Some t) ts') as [Gd Dp]. apply (proj1 (C46_json_round_trip_pf F _ Gd)). Lia.lia. }
  change (to_json (VArr l)) with (s2b "[" ++ (join [44] (map to_json l) ++ [93])) in *. rewrite (C44_json_text_pf P F _ l R), of_sith_eq. exact G.
Qed.
Lemma C44_json_ex_pf : forall (P : Profile) (F : Floats), exists t, made_tholder P F t /\ th_weighted t = true /\ tholder_to_json t = Ok (s2b "[[""1/2"",""1/2"",""1/3""],[""1"",""0""]]").
Proof. intros P F. destruct (two_clauses_made P F) as (t & E & M & W). exists t. split; [exact M|]. vm_compute in E. apply Ok_inj in E. subst t. split; vm_compute; reflexivity. Qed.
(** C44: an unweighted threshold is not rebuilt from its JSON text *)
Lemma C44_json_refuted_pf : forall (P : Profile) (F : Floats), exists t j, tholder_of_sith (VInt 2) = Ok t /\ tholder_to_json t = Ok j /\ tholder_of_sith (VStr j) = Err E_ParseInt.
Proof. intros P F. eexists. eexists. split; [vm_compute; reflexivity|]. split; [vm_compute; reflexivity|]. vm_compute. reflexivity. Qed.
