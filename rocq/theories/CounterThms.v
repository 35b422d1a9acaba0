(** Proofs of the Counter properties (statements are repeated in PropCounter.v). *)
From Verif Require Import Base Utf8 Util CounterTables Counter Spec CounterDefs.
From Verif Require Import BaseFacts B64 B64Facts UtilFacts MatterTables MatterFacts MatterFacts2 MatterFacts3 SpecFacts StdStr StdStrFacts CounterFacts.

Lemma count_codes_sizage code w : In (code, w) count_codes <-> exists z, c_sizage code = Ok z /\ ss z = w.
Proof.
  split.
  - intros H. assert (E : forallb (fun e => match c_sizage (fst e) with Ok z => ss z =? snd e | _ => false end) count_codes = true) by (vm_compute; reflexivity).
    eapply forallb_forall in E; eauto. cbn [fst snd] in E. destruct (c_sizage code) as [z| |]; try discriminate. exists z. split; auto. lia.
  - intros [z [Hz <-]]. apply c_sizage_In in Hz.
    assert (E : forallb (fun e => existsb (fun x => bytes_eqb (fst e) (fst x) && (ss (snd e) =? snd x)) count_codes) c_sizage_table = true) by (vm_compute; reflexivity).
    eapply forallb_forall in E; eauto. apply existsb_exists in E as [[c w] [I E]]. cbn [fst snd] in E. apply andb_true_iff in E as [E1 E2].
    apply bytes_eqb_eq in E1. apply N.eqb_eq in E2. subst. auto.
Qed.
Lemma ctext_numeral z c : ctext z c = c_code c ++ b64_numeral (ss z) (c_count c).
Proof. unfold ctext, soft_of. rewrite b64_numeral_digits. reflexivity. Qed.
Lemma new_counter_wf `{P : Profile} code w n c : In (code, w) count_codes -> new_counter code n = Ok c ->
  exists z, ss z = w /\ c = Ctr code n /\ cwf c z.
Proof.
  intros Hc H. apply count_codes_sizage in Hc as [z [Hz <-]]. unfold new_counter, counter_new in H. cbn [obind] in H.
  rewrite (c_new_iff _ _ z Hz) in H. destruct (N.ltb_spec n (64 ^ ss z)); [|discriminate]. injection H as <-.
  exists z. repeat split; auto.
Qed.
Lemma parse_text_bytes_c `{P : Profile} t c : utf8_valid t = true -> counter_parse_text t = Ok c -> counter_parse_text_bytes t = Ok c.
Proof. intros Hu H. unfold counter_parse_text_bytes, counter_new, counter_new_with_qb64b, from_utf8. rewrite Hu. exact H. Qed.

Lemma utf8_app_ascii a b : ascii_ok a = true -> utf8_valid b = true -> utf8_valid (a ++ b) = true.
Proof.
  intros Ha Hb. induction a as [|x a IH]; auto. cbn in Ha. apply andb_true_iff in Ha as [Hx Ha]. cbn [app utf8_valid].
  replace (x <? 128) with true by lia. auto.
Qed.

(** C14: the constructor accepts exactly the counts that fit the code *)
Lemma C14_range_pf : forall (P : Profile) (code : bytes) (w n : N), In (code, w) count_codes ->
  (n < 64 ^ w -> new_counter code n = Ok (Ctr code n)) /\ (64 ^ w <= n -> new_counter code n = Err E_InvalidVarIndex).
Proof.
  intros P code w n Hc. apply count_codes_sizage in Hc as [z [Hz <-]]. unfold new_counter, counter_new. cbn [obind].
  rewrite (c_new_iff _ _ z Hz). split; intros H; destruct (N.ltb_spec n (64 ^ ss z)); auto; lia.
Qed.
(** C14: text is code and count numeral, binary is its Base64 decoding, both parse back whatever follows *)
Lemma C14_round_trip_pf : forall (P : Profile) (code : bytes) (w n : N) (c : counter),
  In (code, w) count_codes -> new_counter code n = Ok c ->
  c = Ctr code n /\
  exists t b, counter_qb64 c = Ok t /\ counter_qb64b c = Ok t /\ counter_qb2 c = Ok b /\
    t = code ++ b64_numeral w n /\ t = b64_of b /\ len b mod 3 = 0 /\ counter_full_size c = Ok (len t) /\
    (forall tail, utf8_valid tail = true -> counter_parse_text (t ++ tail) = Ok c /\ counter_parse_text_bytes (t ++ tail) = Ok c) /\
    (forall tail, bytes_ok tail = true -> counter_parse_binary (b ++ tail) = Ok c).
Proof.
  intros P code w n c Hc H. destruct (new_counter_wf _ _ _ _ Hc H) as [z [<- [Ec W]]]. split; auto.
  destruct (c_binfil_wf _ _ W) as [Hb [He [H3 H4]]]. pose proof (all_b64_ctext _ _ W) as Ha.
  exists (ctext z c), (bcode (ctext z c)). repeat split.
  - apply c_infil_wf; auto.
  - apply c_infil_wf; auto.
  - exact Hb.
  - rewrite ctext_numeral, Ec. reflexivity.
  - rewrite b64_of_encode; auto using bytes_ok_bcode.
  - exact H3.
  - rewrite len_ctext by auto. unfold counter_full_size. rewrite (cw_sz _ _ W). cbn [obind]. rewrite (cz_fs _ _ (c_sizage_facts _ _ (cw_sz _ _ W))). reflexivity.
  - apply c_exfil_text; auto.
  - apply parse_text_bytes_c; [|apply c_exfil_text; auto]. apply utf8_app_ascii; auto. apply all_b64_ascii; auto.
  - intros tail Ht. apply c_bexfil_bin; auto.
Qed.
Lemma C14_round_trip_ex_pf : In (s2b "-0V", 5) count_codes /\ forall P : Profile, new_counter (s2b "-0V") 16777217 = Ok (Ctr (s2b "-0V") 16777217) /\
  counter_qb64 (Ctr (s2b "-0V") 16777217) = Ok (s2b "-0VBAAAB") /\ new_counter (s2b "-A") 4096 = Err E_InvalidVarIndex.
Proof. split; [vm_compute; tauto|]. intros P. vm_compute. auto. Qed.
(** C14: what each argument of the constructor does: the code decides; then the number, the Base64
    numeral, or one; without a code the first of the three encodings given is read *)
Lemma C14_arguments_pf : forall (P : Profile) (code t u v : bytes) (count : option N) (cb qb64b qb64 qb2 : option bytes) (w n : N),
  counter_new (Some n) cb (Some code) qb64b qb64 qb2 = new_counter code n /\
  counter_new None None (Some code) qb64b qb64 qb2 = new_counter code 1 /\
  (w <= 5 -> n < 64 ^ w -> n < 2 ^ 32 -> counter_new None (Some (b64_numeral w n)) (Some code) qb64b qb64 qb2 = new_counter code n) /\
  (~ b64_text u -> exists e, counter_new None (Some u) (Some code) qb64b qb64 qb2 = Err e) /\
  counter_new count cb None (Some t) qb64 qb2 = counter_parse_text_bytes t /\
  counter_new count cb None None (Some t) qb2 = counter_parse_text t /\
  counter_new count cb None None None (Some v) = counter_parse_binary v /\
  counter_new count cb None None None None = Err E_Validation.
Proof.
  intros P code t u v count cb qb64b qb64 qb2 w n. repeat split; try reflexivity.
  - intros Hw Hn H32. unfold counter_new, new_counter. rewrite b64_numeral_digits.
    rewrite b64_to_u32_all; [|apply all_b64_chr, digits_lt; lia|rewrite len_map, len_digits; lia]. cbn [obind].
    rewrite ords_chr by (apply digits_lt; lia). rewrite digits_small by (rewrite ?N2Nat.id; auto; lia). reflexivity.
  - intros Hu. unfold counter_new. destruct (b64_to_u32 u) as [k|e|] eqn:E; cbn [obind]; eauto.
    + exfalso. apply Hu. apply b64_text_all. eapply b64_to_u32_ok; eauto.
    + exfalso. eapply b64_to_u32_not_panic; eauto.
Qed.
(** C14: an out-of-range count written directly into the struct is refused by both encoders *)
Lemma C14_encoders_reject_pf : forall (P : Profile) (code : bytes) (w n : N), In (code, w) count_codes -> 64 ^ w <= n ->
  counter_qb64 (Ctr code n) = Err E_InvalidVarIndex /\ counter_qb2 (Ctr code n) = Err E_InvalidVarIndex.
Proof.
  intros P code w n Hc Hn. apply count_codes_sizage in Hc as [z [Hz <-]]. unfold counter_qb64, counter_qb2, counter_binfil.
  rewrite (c_infil_range _ _ z) by auto. auto.
Qed.
(** C14: codes outside the table are refused by every operation *)
Lemma C14_unknown_code_pf : forall (P : Profile) (code : bytes) (n : N), ~ In code (map fst count_codes) ->
  (exists e, new_counter code n = Err e) /\ counter_qb64 (Ctr code n) = Err E_UnknownSizage /\ counter_qb2 (Ctr code n) = Err E_UnknownSizage.
Proof.
  intros P code n Hc. assert (E : c_sizage code = Err E_UnknownSizage).
  { destruct (c_sizage code) as [z|e|] eqn:Ez.
    - exfalso. apply Hc. apply in_map_iff. exists (code, ss z). split; auto. apply count_codes_sizage. eauto.
    - unfold c_sizage in Ez. destruct (assoc code c_sizage_table); congruence.
    - exfalso. eapply c_sizage_not_panic; eauto. }
  unfold new_counter, counter_new, counter_new_with_code_and_count, counter_qb64, counter_qb2, counter_binfil, counter_infil. cbn [obind c_code]. rewrite E.
  split; [|split; reflexivity]. destruct code; eexists; reflexivity.
Qed.

(** C15 *)
Lemma C15_text_canonical_pf : forall (P : Profile) (t : bytes) (c : counter), counter_parse_text t = Ok c ->
  exists w k, In (c_code c, w) count_codes /\ c_count c < 64 ^ w /\ counter_full_size c = Ok k /\ k <= len t /\ counter_qb64 c = Ok (take k t).
Proof.
  intros P t c H. apply c_exfil_inv in H as [z [W [Hl He]]]. exists (ss z), (cs_of z). repeat split; auto.
  - apply count_codes_sizage. exists z. split; auto. apply W.
  - apply W.
  - unfold counter_full_size. rewrite (cw_sz _ _ W). cbn [obind]. rewrite (cz_fs _ _ (c_sizage_facts _ _ (cw_sz _ _ W))). reflexivity.
  - rewrite He. apply c_infil_wf; auto.
Qed.
Lemma C15_binary_canonical_pf : forall (P : Profile) (b : bytes) (c : counter), bytes_ok b = true -> counter_parse_binary b = Ok c ->
  exists w k, In (c_code c, w) count_codes /\ c_count c < 64 ^ w /\ counter_full_size c = Ok k /\ k * 3 / 4 <= len b /\ counter_qb2 c = Ok (take (k * 3 / 4) b).
Proof.
  intros P b c Hok H. apply c_bexfil_inv in H as [z [W [Hl He]]]; auto. exists (ss z), (cs_of z). repeat split; auto.
  - apply count_codes_sizage. exists z. split; auto. apply W.
  - apply W.
  - unfold counter_full_size. rewrite (cw_sz _ _ W). cbn [obind]. rewrite (cz_fs _ _ (c_sizage_facts _ _ (cw_sz _ _ W))). reflexivity.
  - rewrite He. destruct (c_binfil_wf _ _ W) as [Hb _]. exact Hb.
Qed.
Lemma C15_canonical_ex_pf : forall P : Profile, counter_parse_text (s2b "--AAAABCxyz") = Ok (Ctr (s2b "--AAA") 66) /\
  counter_parse_binary [248; 0; 66; 7] = Ok (Ctr (s2b "-A") 66).
Proof. intros P. vm_compute. auto. Qed.

(** C16 *)
(** C16: exactly which texts make the parser panic *)
Lemma C16_text_panic_iff_pf : forall (P : Profile) (t : bytes),
  counter_parse_text t = Panic <->
  (len t = 1 \/ inside t 2 \/ (is_prefix (s2b "-0") t /\ inside t 3) \/ (is_prefix (s2b "--") t /\ inside t 5) \/
   exists code w, In (code, w) count_codes /\ is_prefix code t /\ inside t (len code + w)).
Proof.
  intros P t. unfold counter_parse_text, counter_new, counter_new_with_qb64. rewrite c_exfil_panic_iff.
  assert (Hin : forall k, inside t k -> k < len t).
  { intros k [c [Hc _]]. assert (N.to_nat k < length t)%nat by (apply nth_error_Some; congruence). unfold len. lia. }
  split.
  - intros [Hne Hp]. destruct Hp as [Hb|[[E [Hl Hb]]|[[E [Hl Hb]]|[code [z [Hz [E [Hb2 [Hl Hb]]]]]]]]].
    + apply boundary_false_iff in Hb as [Hb|Hb]; [|auto|lia]. left. destruct t; [congruence|]. rewrite len_cons in *. lia.
    + right. right. left. apply boundary_false_iff in Hb as [Hb|Hb]; [lia| |lia]. split; auto. apply is_prefix_take. split; [exact E|]. change (len (s2b "-0")) with 2. lia.
    + right. right. right. left. apply boundary_false_iff in Hb as [Hb|Hb]; [lia| |lia]. split; auto. apply is_prefix_take. split; [exact E|]. change (len (s2b "--")) with 2. lia.
    + right. right. right. right. exists code, (ss z). pose proof (c_sizage_facts _ _ Hz) as Z. pose proof (cz_hs _ _ Z). rewrite (cz_len _ _ Z).
      split; [apply count_codes_sizage; eauto|]. change (hs z + ss z) with (cs_of z). assert (cs_of z = hs z + ss z) by reflexivity.
      apply boundary_false_iff in Hb as [Hb|Hb]; [lia| |lia]. split; auto. apply is_prefix_take. rewrite (cz_len _ _ Z). split; auto. lia.
  - intros Hp. split.
    { intros ->. destruct Hp as [H|[H|[[_ H]|[[_ H]|[code [w [_ [_ H]]]]]]]]; [discriminate| | | |]; apply Hin in H; change (len (@nil N)) with 0 in H; lia. }
    destruct Hp as [H|[H|[[E H]|[[E H]|[code [w [Hc [E H]]]]]]]].
    + left. apply boundary_false_iff; [lia|]. left. lia.
    + left. apply boundary_false_iff; [lia|]. right. auto.
    + right. left. apply is_prefix_take in E as [E _]. split; [exact E|]. pose proof (Hin _ H). split; [lia|]. apply boundary_false_iff; [lia|auto].
    + right. right. left. apply is_prefix_take in E as [E _]. split; [exact E|]. pose proof (Hin _ H). split; [lia|]. apply boundary_false_iff; [lia|auto].
    + apply count_codes_sizage in Hc as [z [Hz <-]]. pose proof (c_sizage_facts _ _ Hz) as Z. pose proof (cz_hs _ _ Z). pose proof (cz_ss _ _ Z).
      rewrite (cz_len _ _ Z) in H. change (hs z + ss z) with (cs_of z) in H. assert (cs_of z = hs z + ss z) by reflexivity. pose proof (Hin _ H) as Hl.
      apply is_prefix_take in E as [E El]. rewrite (cz_len _ _ Z) in E, El.
      destruct (boundary t (hs z)) eqn:B; [right; right; right; exists code, z; repeat split; auto; [lia|apply boundary_false_iff; [lia|auto]]|].
      assert (Hs : hs z = 2 \/ (hs z = 3 /\ take 2 code = s2b "-0") \/ (hs z = 5 /\ take 2 code = s2b "--")).
      { apply c_sizage_In in Hz. assert (X : forallb (fun e => (hs (snd e) =? 2) || (hs (snd e) =? 3) && bytes_eqb (take 2 (fst e)) (s2b "-0") || (hs (snd e) =? 5) && bytes_eqb (take 2 (fst e)) (s2b "--")) c_sizage_table = true) by (vm_compute; reflexivity).
        eapply forallb_forall in X; eauto. cbn [fst snd] in X. rewrite !orb_true_iff, !andb_true_iff, !bytes_eqb_eq, !N.eqb_eq in X. tauto. }
      assert (T2 : take 2 t = take 2 code) by (rewrite <- E, take_take; f_equal; lia).
      destruct Hs as [Hs|[[Hs Ec]|[Hs Ec]]]; rewrite Hs in B.
      * left. auto.
      * right. left. split; [congruence|]. split; [lia|auto].
      * right. right. left. split; [congruence|]. split; [lia|auto].
Qed.
Lemma C16_text_panic_iff_ex_pf : forall P : Profile, counter_parse_text (s2b "-") = Panic /\ counter_parse_text (s2b "-" ++ [195; 169]) = Panic /\ utf8_valid (s2b "-" ++ [195; 169]) = true /\ inside (s2b "-" ++ [195; 169]) 2.
Proof. intros P. split; [|split; [|split]]; try (vm_compute; reflexivity). exists 169. split; [reflexivity|lia]. Qed.
(** C16: on ASCII text only the one-character text panics *)
Lemma C16_ascii_pf : forall (P : Profile) (t : bytes), (forall c, In c t -> c < 128) -> counter_parse_text t = Panic <-> len t = 1.
Proof.
  intros P t Ha. rewrite C16_text_panic_iff_pf.
  assert (Hin : forall k, ~ inside t k). { intros k [c [Hc Hr]]. apply nth_error_In in Hc. apply Ha in Hc. lia. }
  split; [|auto]. intros [H|[H|[[_ H]|[[_ H]|[code [w [_ [_ H]]]]]]]]; auto; exfalso; eapply Hin; eauto.
Qed.
(** C16: the binary parser never panics *)
Lemma C16_binary_never_panics_pf : forall (P : Profile) (b : bytes), bytes_ok b = true -> counter_parse_binary b <> Panic.
Proof. intros P b Hb. apply c_bexfil_not_panic; auto. Qed.
(** C16: building and encoding never panic, whatever the code and count *)
Lemma C16_build_never_panics_pf : forall (P : Profile) (code : bytes) (n : N),
  new_counter code n <> Panic /\ counter_qb64 (Ctr code n) <> Panic /\ counter_qb2 (Ctr code n) <> Panic /\ counter_full_size (Ctr code n) <> Panic.
Proof.
  intros P code n. destruct (in_dec (list_eq_dec N.eq_dec) code (map fst count_codes)) as [I|I].
  - apply in_map_iff in I as [[c w] [E I]]. cbn in E. subst c. destruct (C14_range_pf P _ _ n I) as [H1 H2].
    assert (F : counter_full_size (Ctr code n) <> Panic).
    { apply count_codes_sizage in I as [z [Hz _]]. unfold counter_full_size. cbn [c_code]. rewrite Hz. discriminate. }
    destruct (N.lt_ge_cases n (64 ^ w)) as [H|H].
    + specialize (H1 H). destruct (C14_round_trip_pf P _ _ _ _ I H1) as [_ [t [b [Ht [_ [Hb _]]]]]]. rewrite H1, Ht, Hb. repeat split; auto; discriminate.
    + destruct (C14_encoders_reject_pf P _ _ n I H) as [-> ->]. rewrite H2 by auto. repeat split; auto; discriminate.
  - destruct (C14_unknown_code_pf P code n I) as [[e ->] [-> ->]]. repeat split; try discriminate.
    unfold counter_full_size. cbn [c_code]. destruct (c_sizage code) eqn:E; try discriminate. exfalso. eapply c_sizage_not_panic; eauto.
Qed.

(** C17: width zero means the width of the code; otherwise the requested width *)
Lemma C17_width_pf : forall (P : Profile) (code : bytes) (w n l : N), In (code, w) count_codes -> n < 2 ^ 32 ->
  (n < 64 ^ w -> counter_count_as_b64 (Ctr code n) 0 = Ok (b64_numeral w n)) /\
  (l <> 0 -> n < 64 ^ l -> counter_count_as_b64 (Ctr code n) l = Ok (b64_numeral l n)).
Proof.
  intros P code w n l Hc Hn. assert (n < 64 ^ 11) by (npow; lia). apply count_codes_sizage in Hc as [z [Hz <-]]. unfold counter_count_as_b64. cbn [c_code c_count]. split.
  - intros Hw. change (0 =? 0) with true. cbv iota. rewrite Hz. cbn [obind]. rewrite u32_to_b64_ok by auto. rewrite b64_numeral_digits. reflexivity.
  - intros Hl Hf. replace (l =? 0) with false by lia. cbn [obind]. rewrite u32_to_b64_ok by auto. rewrite b64_numeral_digits. reflexivity.
Qed.
Lemma C17_width_ex_pf : forall P : Profile, counter_count_as_b64 (Ctr (s2b "-A") 65) 5 = Ok (s2b "AAABB") /\ counter_count_as_b64 (Ctr (s2b "-A") 65) 0 = Ok (s2b "BB").
Proof. intros P. vm_compute. auto. Qed.
Lemma u2b_skip fuel k : forall x out, N.of_nat k <= N.of_nat fuel -> x < 64 ^ N.of_nat fuel -> 64 ^ N.of_nat k <= x ->
  u2b_loop fuel x (N.of_nat k) out = u2b_loop (fuel - k) (x / 64 ^ N.of_nat k) 0 out.
Proof.
  revert fuel. induction k as [|k IH]; intros fuel x out Hk Hx Hk2.
  - change (64 ^ N.of_nat 0) with 1. rewrite N.div_1_r, Nat.sub_0_r. reflexivity.
  - destruct fuel as [|f]; [lia|]. cbn [u2b_loop]. rewrite Nat2N.inj_succ, N.pow_succ_r' in *.
    assert (0 < 64 ^ N.of_nat k) by (apply N.neq_0_lt_0, N.pow_nonzero; lia).
    replace (x =? 0) with false by nia. replace (N.succ (N.of_nat k) =? 0) with false by lia. replace (N.succ (N.of_nat k) - 1) with (N.of_nat k) by lia.
    rewrite IH; [|lia|apply N.div_lt_upper_bound; lia|apply N.div_le_lower_bound; lia].
    rewrite N.div_div by lia. reflexivity.
Qed.
Lemma skip_digits_found fuel n l : forall k k0, k0 <= k -> k - k0 < N.of_nat fuel -> n <= 64 ^ (l + k) -> (forall j, k0 <= j < k -> 64 ^ (l + j) < n) ->
  skip_digits fuel n l k0 = k.
Proof.
  induction fuel as [|f IH]; intros k k0 Hk Hf Hn Hj; [lia|]. cbn [skip_digits]. destruct (N.eq_dec k0 k) as [->|].
  - replace (n <=? 64 ^ (l + k)) with true by lia. reflexivity.
  - replace (n <=? 64 ^ (l + k0)) with false by (pose proof (Hj k0); lia). apply IH; auto; try lia. intros j Hj'. apply Hj. lia.
Qed.
(** C17: what happens when the count does not fit [l] characters: it is silently cut to its [l] leading digits
    (for counts below 2^24, which a 32-bit float holds exactly: see the comment of [skip_digits]) ... *)
Lemma C17_overflow_truncates_pf : forall (P : Profile) (code : bytes) (n l k : N), 1 <= l <= 3 -> n < 2 ^ 24 ->
  0 < k -> 64 ^ (l + k - 1) < n -> n < 64 ^ (l + k) ->
  counter_count_as_b64 (Ctr code n) l = Ok (b64_numeral l (n / 64 ^ k)).
Proof.
  intros P code n l k Hl Hn Hk H1 H2. assert (Hk5 : l + k <= 6).
  { destruct (N.le_gt_cases (l + k) 6); auto. exfalso. assert (64 ^ 6 <= 64 ^ (l + k - 1)) by (apply N.pow_le_mono_r; lia). revert Hn H0 H1. npow. lia. }
  assert (H11 : n < 64 ^ 11) by (npow; lia).
  unfold counter_count_as_b64. cbn [c_code c_count]. replace (l =? 0) with false by lia. cbn [obind]. unfold u32_to_b64. replace (l =? 0) with false by lia.
  rewrite (skip_digits_found 11 n l k 0); try lia.
  2:{ intros j Hj. eapply N.le_lt_trans; [apply (N.pow_le_mono_r 64 _ (l + k - 1)); lia|auto]. }
  assert (Hkn : 64 ^ k <= n). { apply N.lt_le_incl. eapply N.le_lt_trans; [apply (N.pow_le_mono_r 64 _ (l + k - 1)); lia|auto]. }
  rewrite <- (N2Nat.id k) at 1. rewrite u2b_skip; [|lia|exact H11|rewrite N2Nat.id; auto]. rewrite N2Nat.id.
  set (m := n / 64 ^ k). assert (Hm : m < 64 ^ l) by (unfold m; apply N.div_lt_upper_bound; [apply N.pow_nonzero; lia|rewrite <- N.pow_add_r; replace (k + l) with (l + k) by lia; auto]).
  assert (Hm2 : 64 ^ (l - 1) <= m). { unfold m. apply N.div_le_lower_bound; [apply N.pow_nonzero; lia|]. rewrite <- N.pow_add_r. replace (k + (l - 1)) with (l + k - 1) by lia. lia. }
  destruct (u2b_loop_spec (11 - N.to_nat k) m []) as [j [Hj [E [Hlt Hmin]]]].
  { eapply N.lt_le_trans; [exact Hm|]. apply N.pow_le_mono_r; lia. }
  rewrite E. cbn [obind]. rewrite app_nil_r, len_map, len_digits.
  assert (Ej : j = N.to_nat l).
  { apply Nat.le_antisymm; [apply Hmin; rewrite N2Nat.id; auto|]. destruct (le_lt_dec (N.to_nat l) j) as [|Hlt']; auto. exfalso.
    assert (64 ^ N.of_nat j <= 64 ^ (l - 1)) by (apply N.pow_le_mono_r; lia). lia. }
  subst j. rewrite N2Nat.id, N.sub_diag. change (rep 65 0) with (@nil N). cbn [app]. rewrite b64_numeral_digits. reflexivity.
Qed.
(** C17: ... except at exactly 64^l (and 64^(l+k)), where one character too many is produced *)
Lemma C17_power_too_long_pf : forall (P : Profile) (code : bytes) (l k : N), 1 <= l -> l + k <= 5 ->
  counter_count_as_b64 (Ctr code (64 ^ (l + k))) l = Ok (b64_numeral (l + 1) (64 ^ l)).
Proof.
  intros P code l k Hl Hk. assert (C : (l = 1 \/ l = 2 \/ l = 3 \/ l = 4 \/ l = 5) /\ (k = 0 \/ k = 1 \/ k = 2 \/ k = 3 \/ k = 4)) by lia.
  destruct C as [[-> | [-> | [-> | [-> | ->]]]] [-> | [-> | [-> | [-> | ->]]]]]; try lia; vm_compute; reflexivity.
Qed.
Lemma C17_overflow_ex_pf : forall P : Profile, counter_count_as_b64 (Ctr (s2b "-A") 130) 1 = Ok (s2b "C") /\ counter_count_as_b64 (Ctr (s2b "-A") 64) 1 = Ok (s2b "BA").
Proof. intros P. vm_compute. auto. Qed.

(** C18 *)
Lemma chr_numeral p : p < 64 -> [chr64 p] = b64_numeral 1 p.
Proof. intros H. rewrite b64_numeral_digits. change (digits 64 (N.to_nat 1) p) with [p mod 64]. rewrite N.mod_small by auto. reflexivity. Qed.
Lemma C18_semver_pf : forall a b c : N,
  (a < 64 /\ b < 64 /\ c < 64 -> sem_ver_to_b64 a b c = Ok (b64_numeral 1 a ++ b64_numeral 1 b ++ b64_numeral 1 c)) /\
  (64 <= a \/ 64 <= b \/ 64 <= c -> sem_ver_to_b64 a b c = Err E_Parsing).
Proof.
  intros a b c. unfold sem_ver_to_b64. rewrite sem_ver_parts_ok. cbn [existsb map]. split.
  - intros [Ha [Hb Hc]]. replace (63 <? a) with false by lia. replace (63 <? b) with false by lia. replace (63 <? c) with false by lia. cbn [orb].
    rewrite <- !chr_numeral by auto. reflexivity.
  - intros Hc. replace ((63 <? a) || ((63 <? b) || ((63 <? c) || false))) with true by lia. reflexivity.
Qed.
Lemma C18_injective_pf : forall (a b c a' b' c' : N) (t : bytes), sem_ver_to_b64 a b c = Ok t -> sem_ver_to_b64 a' b' c' = Ok t ->
  len t = 3 /\ a = a' /\ b = b' /\ c = c'.
Proof.
  intros a b c a' b' c' t. unfold sem_ver_to_b64. rewrite !sem_ver_parts_ok. cbn [existsb map].
  destruct ((63 <? a) || ((63 <? b) || ((63 <? c) || false))) eqn:E1; [discriminate|].
  destruct ((63 <? a') || ((63 <? b') || ((63 <? c') || false))) eqn:E2; [discriminate|].
  intros H1 H2. injection H1 as <-. injection H2 as E3 E4 E5. split; [reflexivity|].
  split; [|split]; apply chr64_inj; congruence || lia.
Qed.
Lemma decimal_digits p n : decimal p n -> StdStr.digits_val 10 p 0 = Some n.
Proof.
  intros [_ [Hc <-]]. rewrite value_val. apply digits_val_ok. clear -Hc. induction p as [|c p IH]; constructor.
  - specialize (Hc c (or_introl eq_refl)). unfold digit_val. replace ((48 <=? c) && (c <=? 57)) with true by lia. cbv zeta. replace (c - 48 <? 10) with true by lia. reflexivity.
  - apply IH. intros x Hx. apply Hc. right; auto.
Qed.
Lemma sem_ver_part_decimal p n : decimal p n -> sem_ver_part p = if n <=? 127 then Ok n else Err E_Conversion.
Proof.
  intros D. pose proof (decimal_digits _ _ D) as E. destruct D as [Hne [Hc _]]. destruct p as [|c p]; [congruence|].
  assert (48 <= c <= 57) by (apply Hc; left; auto). unfold sem_ver_part. rewrite parse_int_digits by lia. rewrite E.
  destruct (N.leb_spec n 127).
  - replace ((-128 <=? Z.of_N n) && (Z.of_N n <=? 127))%Z with true by lia. replace (Z.of_N n <? 0)%Z with false by lia. rewrite N2Z.id. reflexivity.
  - replace ((-128 <=? Z.of_N n) && (Z.of_N n <=? 127))%Z with false by lia. reflexivity.
Qed.
Lemma decimal_no_dot p n : decimal p n -> ~ In 46 p.
Proof. intros [_ [Hc _]] I. apply Hc in I. lia. Qed.
(** C18: the string form agrees with the numeric form for every dotted decimal string *)
Lemma C18_string_pf : forall (p1 p2 p3 : bytes) (a b c : N), decimal p1 a -> decimal p2 b -> decimal p3 c ->
  (a < 64 /\ b < 64 /\ c < 64 -> sem_ver_str_to_b64 (p1 ++ s2b "." ++ p2 ++ s2b "." ++ p3) = sem_ver_to_b64 a b c) /\
  (64 <= a \/ 64 <= b \/ 64 <= c -> exists e, sem_ver_str_to_b64 (p1 ++ s2b "." ++ p2 ++ s2b "." ++ p3) = Err e).
Proof.
  intros p1 p2 p3 a b c D1 D2 D3. unfold sem_ver_str_to_b64.
  change (p1 ++ s2b "." ++ p2 ++ s2b "." ++ p3) with (p1 ++ 46 :: (p2 ++ 46 :: p3)).
  rewrite !split_on_app by (eapply decimal_no_dot; eauto). rewrite split_on_none by (eapply decimal_no_dot; eauto).
  change (3 <? len [p1; p2; p3]) with false. cbv zeta iota. cbn [sem_ver_parts].
  rewrite (sem_ver_part_decimal p1 a), (sem_ver_part_decimal p2 b), (sem_ver_part_decimal p3 c) by auto. split.
  - intros [Ha [Hb Hc]]. replace (a <=? 127) with true by lia. replace (b <=? 127) with true by lia. replace (c <=? 127) with true by lia. reflexivity.
  - intros H. destruct (a <=? 127); [|eexists; reflexivity]. destruct (b <=? 127); [|eexists; reflexivity]. destruct (c <=? 127); [|eexists; reflexivity].
    cbn [obind]. change ([a; b; c] ++ rep 0 (3 - len [a; b; c])) with [a; b; c]. exists E_Parsing. apply C18_semver_pf. auto.
Qed.
(** C18: missing parts count as zero *)
Lemma C18_short_strings_pf : forall (p1 p2 : bytes) (a b : N), decimal p1 a -> decimal p2 b -> a < 64 -> b < 64 ->
  sem_ver_str_to_b64 p1 = sem_ver_to_b64 a 0 0 /\ sem_ver_str_to_b64 (p1 ++ s2b "." ++ p2) = sem_ver_to_b64 a b 0 /\ sem_ver_str_to_b64 [] = sem_ver_to_b64 0 0 0.
Proof.
  intros p1 p2 a b D1 D2 Ha Hb. split; [|split]; unfold sem_ver_str_to_b64.
  - rewrite split_on_none by (eapply decimal_no_dot; eauto). change (3 <? len [p1]) with false. cbv zeta iota. cbn [sem_ver_parts].
    rewrite (sem_ver_part_decimal p1 a) by auto. replace (a <=? 127) with true by lia. reflexivity.
  - change (p1 ++ s2b "." ++ p2) with (p1 ++ 46 :: p2). rewrite split_on_app by (eapply decimal_no_dot; eauto). rewrite split_on_none by (eapply decimal_no_dot; eauto). change (3 <? len [p1; p2]) with false. cbv zeta iota. cbn [sem_ver_parts].
    rewrite (sem_ver_part_decimal p1 a), (sem_ver_part_decimal p2 b) by auto. replace (a <=? 127) with true by lia. replace (b <=? 127) with true by lia. reflexivity.
  - reflexivity.
Qed.
(** C18: no version string makes it panic, and an accepted one gives three characters *)
Lemma sem_ver_parts_len l : forall ns, sem_ver_parts l = Ok ns -> len ns = len l.
Proof.
  induction l as [|s l IH]; intros ns H; cbn [sem_ver_parts] in H; [injection H as <-; reflexivity|].
  inv_bind H n En. inv_bind H ns' Ens. injection H as <-. rewrite !len_cons, (IH _ Ens). reflexivity.
Qed.
Lemma sem_ver_parts_not_panic l : sem_ver_parts l <> Panic.
Proof.
  induction l as [|s l IH]; cbn [sem_ver_parts]; [discriminate|]. intros H. apply bind_panic in H as [H|[n [_ H]]].
  - unfold sem_ver_part in H. destruct (parse_int _ _ _ _); [destruct (_ <? _)%Z; discriminate|destruct s; discriminate].
  - apply bind_panic in H as [H|[ns [_ H]]]; [auto|discriminate].
Qed.
Lemma C18_string_total_pf : forall v : bytes, sem_ver_str_to_b64 v <> Panic /\ (forall t, sem_ver_str_to_b64 v = Ok t -> len t = 3 /\ b64_text t).
Proof.
  intros v. unfold sem_ver_str_to_b64. destruct (3 <? len (split_on 46 v)) eqn:E; [split; [discriminate|intros t H; discriminate]|]. split.
  - intros H. apply bind_panic in H as [H|[ns [_ H]]]; [eapply sem_ver_parts_not_panic; eauto|]. rewrite sem_ver_parts_ok in H. destruct (existsb _ _); discriminate.
  - intros t H. inv_bind H ns Ens. apply sem_ver_parts_len in Ens. rewrite sem_ver_parts_ok in H. destruct (existsb _ _) eqn:Ex; [discriminate|]. injection H as <-.
    split; [rewrite len_map, len_app, len_rep; lia|]. apply b64_text_all, all_b64_chr. apply Forall_forall. intros d Hd.
    destruct (N.lt_ge_cases d 64); auto. exfalso. rewrite <- not_true_iff_false in Ex. apply Ex. apply existsb_exists. exists d. split; auto. lia.
Qed.
Lemma C18_string_ex_pf : decimal (s2b "07") 7 /\ sem_ver_str_to_b64 (s2b "1.07.63") = Ok (s2b "BH_") /\ sem_ver_str_to_b64 (s2b "1.64.0") = Err E_Parsing /\
  sem_ver_str_to_b64 (s2b "+5") = Ok (s2b "FAA") /\ sem_ver_str_to_b64 (s2b "1.-0.2") = Ok (s2b "BAC") /\ sem_ver_str_to_b64 (s2b "1.-1.2") = Err E_Conversion.
Proof. split; [split; [discriminate|split; [intros c; change (s2b "07") with [48; 55]; intros [<-|[<-|[]]]; lia|reflexivity]]|]. vm_compute. auto. Qed.
