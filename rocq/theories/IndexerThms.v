(** Indexer properties C19-C25. *)
From Verif Require Import Base Utf8 Util IndexerTables Indexer Spec CounterDefs IndexerDefs.
From Verif Require Import BaseFacts B64 B64Facts UtilFacts SpecFacts MatterFacts MatterFacts2 MatterFacts3 CounterFacts CounterThms IndexerFacts IndexerFacts2 IndexerFacts3.

(** the table of the model is the table of the specification *)
Definition sig_sz (s : sig_info) (code : bytes) : isizage :=
  Isz (len code) (sig_index s + sig_ondex s) (sig_ondex s) (sig_full s) 0.
Lemma sig_code_ok : forallb (fun e => match get_isizage (fst e) with
    | Ok z => (i_hs z =? len (fst e)) && (i_ss z =? sig_index (snd e) + sig_ondex (snd e)) && (i_os z =? sig_ondex (snd e)) && (i_fs z =? sig_full (snd e)) && (i_ls z =? 0)
       && Bool.eqb (sig_current (snd e)) (mem_code (fst e) current_sig_codes) && Bool.eqb (negb (sig_current (snd e))) (mem_code (fst e) both_sig_codes)
       && (sig_raw (snd e) =? rize_of z 0) && negb (ivar z) && (1 <=? sig_index (snd e)) && (sig_index (snd e) <=? 3)
    | _ => false end) sig_codes = true.
Proof. vm_compute. reflexivity. Qed.
Lemma sig_sizage code s : In (code, s) sig_codes -> exists z, get_isizage code = Ok z /\ i_hs z = len code /\ ims z = sig_index s /\ i_os z = sig_ondex s /\ i_fs z = sig_full s /\
  i_ls z = 0 /\ ics z = len code + sig_index s + sig_ondex s /\ mem_code code current_sig_codes = sig_current s /\ mem_code code both_sig_codes = negb (sig_current s) /\ ivar z = false /\ (forall i, rize_of z i = sig_raw s) /\ (forall i, ifull z i = sig_full s).
Proof.
  intros H. pose proof sig_code_ok as T. eapply forallb_forall in T; [|exact H]. cbn [fst snd] in T. destruct (get_isizage code) as [z| |] eqn:E; try discriminate.
  splitb T. exists z. assert (V : ivar z = false) by (apply negb_true_iff; auto). unfold ics, ims in *.
  repeat split; auto; try lia.
  - symmetry. apply eqb_prop; auto.
  - symmetry. apply eqb_prop; auto.
  - intros i. transitivity (rize_of z 0); [|lia]. unfold rize_of, ifull. rewrite V. reflexivity.
  - intros i. unfold ifull. rewrite V. lia.
Qed.
Lemma num64_numeral k n : num64 k n = b64_numeral k n.
Proof. symmetry. apply b64_numeral_digits. Qed.

Lemma new_sig_wf `{P : Profile} code s raw index ondex x : In (code, s) sig_codes -> bytes_ok raw = true -> new_sig code raw index ondex = Ok x ->
  exists z, iwf x z /\ cur_zero z x /\ x_code x = code /\ x_index x = index /\ x_raw x = take (sig_raw s) raw /\
    ims z = sig_index s /\ i_os z = sig_ondex s /\ ifull z (x_index x) = sig_full s /\ (i_ss z = sig_index s + sig_ondex s) /\
    seen z x = Idx code (x_raw x) index (shown_ondex s index (x_ondex x)).
Proof.
  intros Hin Hb H. destruct (sig_sizage _ _ Hin) as [z [Hz [Hh [Hm [Ho [Hf [Hl [Hc [Hcur [Hboth [V [Hr Hfu]]]]]]]]]]]].
  destruct (i_new_wf code z raw index ondex x Hz Hl Hb H) as [W [C [E1 [E2 [E3 E4]]]]]. exists z. rewrite Hr in E4. rewrite Hfu.
  split; [exact W|]. split; [exact C|]. repeat split; auto.
  - pose proof (iz_ss _ _ (isizage_facts _ _ Hz)). lia.
  - unfold seen, seen_ondex, shown_ondex. rewrite E1, E2, Hcur, Ho. reflexivity.
Qed.

(** C19: the text parses back, whatever follows: same code, raw and index, and
    the other index that the text shows *)
Lemma C19_text_round_trip_pf : forall (P : Profile) (code raw : bytes) (s : sig_info) (index : N) (ondex : option N) (x : indexer),
  In (code, s) sig_codes -> bytes_ok raw = true -> new_sig code raw index ondex = Ok x ->
  exists t, indexer_qb64 x = Ok t /\ indexer_qb64b x = Ok t /\ len t = sig_full s /\ b64_text t /\ indexer_full_size x = Ok (len t) /\
    x_code x = code /\ x_raw x = take (sig_raw s) raw /\ x_index x = index /\
    forall tail, utf8_valid tail = true ->
      sig_parse_text (t ++ tail) = Ok (Idx code (x_raw x) index (shown_ondex s index (x_ondex x))) /\
      sig_parse_text_bytes (t ++ tail) = Ok (Idx code (x_raw x) index (shown_ondex s index (x_ondex x))).
Proof.
  intros P code raw s index ondex x Hin Hb H. destruct (new_sig_wf _ _ _ _ _ _ Hin Hb H) as [z [W [C [E1 [E2 [E3 [E4 [E5 [E6 [E7 E8]]]]]]]]]].
  exists (itext z x). pose proof (all_b64_itext _ _ W) as Ha. rewrite (len_itext _ _ W), E6.
  split; [apply i_infil_wf; auto|]. split; [apply i_infil_wf; auto|]. split; [auto|]. split; [apply b64_text_all; auto|].
  split; [rewrite (i_full_size_wf _ _ W), E6; reflexivity|]. repeat (split; [auto; fail|]).
  intros tail Ht. rewrite <- E8. split; [apply i_exfil_text; auto|].
  unfold sig_parse_text_bytes, indexer_new, indexer_new_with_qb64b, from_utf8.
  rewrite utf8_app_ascii by (auto using all_b64_ascii). cbn [obind]. apply i_exfil_text; auto.
Qed.
(** C19: nothing is lost when the other index was left out, equals the index, or is carried by the code *)
Lemma C19_same_indexer_pf : forall (P : Profile) (code raw : bytes) (s : sig_info) (index : N) (ondex : option N) (x : indexer),
  In (code, s) sig_codes -> bytes_ok raw = true -> new_sig code raw index ondex = Ok x ->
  (ondex = None \/ ondex = Some index \/ 0 < sig_ondex s) ->
  exists t, indexer_qb64 x = Ok t /\ sig_parse_text t = Ok x.
Proof.
  intros P code raw s index ondex x Hin Hb H Hod. destruct (C19_text_round_trip_pf P code raw s index ondex x Hin Hb H) as [t [Ht [_ [_ [_ [_ [E1 [E2 [E3 Hp]]]]]]]]].
  exists t. split; [auto|]. destruct (Hp [] eq_refl) as [Hp1 _]. rewrite app_nil_r in Hp1. rewrite Hp1. f_equal.
  destruct (sig_sizage _ _ Hin) as [z [Hz [Hh [Hm [Ho [Hf [Hl [Hc [Hcur [Hboth [V [Hr Hfu]]]]]]]]]]]].
  destruct (i_new_wf code z raw index ondex x Hz Hl Hb H) as [W [C [_ [_ [Ex _]]]]].
  assert (Eo : shown_ondex s index (x_ondex x) = x_ondex x).
  { unfold shown_ondex. unfold new_sig, indexer_new in H. rewrite (i_new_eq _ z) in H by auto.
    destruct (64 ^ ims z <=? index); [discriminate|]. destruct (ondex_bad z ondex); [discriminate|]. rewrite Hcur in H.
    destruct (sig_current s) eqn:Cur.
    - destruct ondex; [discriminate|]. rewrite Ex. unfold ondex_val. rewrite Hboth. reflexivity.
    - destruct (N.eqb_spec (sig_ondex s) 0) as [E0|E0]; [|reflexivity]. rewrite Ex. unfold ondex_val. rewrite Hboth. destruct Hod as [->|[->|?]]; [reflexivity|reflexivity|lia]. }
  rewrite Eo. destruct x as [c0 r0 i0 o0]; cbn [x_code x_raw x_index x_ondex] in *. congruence.
Qed.
(** C19 refuted: the other index of a code that cannot carry it is accepted and silently lost *)
Lemma C19_ondex_lost_refuted_pf : forall P : Profile, exists x t x', new_sig (s2b "A") (rep 7 64) 0 (Some 5) = Ok x /\ x_ondex x = 5 /\
  indexer_qb64 x = Ok t /\ sig_parse_text t = Ok x' /\ x_ondex x' = 0.
Proof. intros P. do 3 eexists. repeat (split; [vm_compute; reflexivity|]). vm_compute. reflexivity. Qed.
Lemma C19_text_round_trip_ex_pf : In (s2b "2A", Sig false 2 2 64 92) sig_codes /\ forall P : Profile,
  new_sig (s2b "2A") (rep 0 64) 65 (Some 4095) = Ok (Idx (s2b "2A") (rep 0 64) 65 4095) /\
  indexer_qb64 (Idx (s2b "2A") (rep 0 64) 65 4095) = Ok (s2b "2ABB__" ++ rep 65 86).
Proof. split; [cbn; tauto|]. intros P. vm_compute. auto. Qed.

(** C20: the binary form parses back; with overflow checks the codes with six soft characters panic *)
Lemma C20_binary_round_trip_pf : forall (P : Profile) (code raw : bytes) (s : sig_info) (index : N) (ondex : option N) (x : indexer),
  In (code, s) sig_codes -> bytes_ok raw = true -> new_sig code raw index ondex = Ok x ->
  (sig_index s + sig_ondex s < 6 \/ overflow_checks = false) ->
  exists b, indexer_qb2 x = Ok b /\ bytes_ok b = true /\ len b * 4 = sig_full s * 3 /\
    forall tail, bytes_ok tail = true -> sig_parse_binary (b ++ tail) = Ok (Idx code (x_raw x) index (shown_ondex s index (x_ondex x))).
Proof.
  intros P code raw s index ondex x Hin Hb H Hc. destruct (new_sig_wf _ _ _ _ _ _ Hin Hb H) as [z [W [C [E1 [E2 [E3 [E4 [E5 [E6 [E7 E8]]]]]]]]]].
  exists (ibin z x). rewrite (i_binfil_wf _ _ W).
  split. { destruct Hc as [Hc|Hc]; [replace (i_ss z =? 6) with false by lia; reflexivity|rewrite Hc, andb_false_r; reflexivity]. }
  split; [apply bytes_ok_ibin; auto|]. split; [rewrite <- E6; apply len_ibin; auto|].
  intros tail Ht. rewrite <- E8. apply i_bexfil_bin; auto.
Qed.
Lemma C20_big_codes_panic_pf : forall (P : Profile) (code raw : bytes) (s : sig_info) (index : N) (ondex : option N) (x : indexer),
  In (code, s) sig_codes -> bytes_ok raw = true -> new_sig code raw index ondex = Ok x ->
  (indexer_qb2 x = Panic <-> sig_index s + sig_ondex s = 6 /\ overflow_checks = true).
Proof.
  intros P code raw s index ondex x Hin Hb H. destruct (new_sig_wf _ _ _ _ _ _ Hin Hb H) as [z [W [C [E1 [E2 [E3 [E4 [E5 [E6 [E7 E8]]]]]]]]]].
  unfold indexer_qb2. rewrite (i_binfil_wf _ _ W), E7. destruct (N.eqb_spec (sig_index s + sig_ondex s) 6); cbn [andb]; [destruct overflow_checks|]; split; intros Hx; try discriminate; intuition congruence.
Qed.
Lemma C20_binary_ex_pf : In (s2b "3A", Sig false 3 3 114 160) sig_codes /\
  new_sig (P := true) (s2b "3A") (rep 1 114) 4096 None = Ok (Idx (s2b "3A") (rep 1 114) 4096 4096) /\ indexer_qb2 (H := true) (Idx (s2b "3A") (rep 1 114) 4096 4096) = Panic /\
  indexer_qb2 (H := false) (Idx (s2b "3A") (rep 1 114) 4096 4096) = Ok ([220; 0; 64; 0; 16; 0]%N ++ rep 1 114).
Proof. split; [cbn; tauto|]. vm_compute. auto. Qed.

(** C21: text and binary are one code; code, index and other index in front, raw behind *)
Lemma C21_composable_pf : forall (P : Profile) (code raw : bytes) (s : sig_info) (index : N) (ondex : option N) (x : indexer),
  In (code, s) sig_codes -> bytes_ok raw = true -> new_sig code raw index ondex = Ok x ->
  exists t, indexer_qb64 x = Ok t /\ is_prefix (code ++ b64_numeral (sig_index s) index ++ b64_numeral (sig_ondex s) (x_ondex x)) t /\
    forall b, indexer_qb2 x = Ok b -> t = b64_of b /\ len b mod 3 = 0 /\ (exists pre, b = pre ++ x_raw x) /\ len (x_raw x) = sig_raw s.
Proof.
  intros P code raw s index ondex x Hin Hb H. destruct (new_sig_wf _ _ _ _ _ _ Hin Hb H) as [z [W [C [E1 [E2 [E3 [E4 [E5 [E6 [E7 E8]]]]]]]]]].
  exists (itext z x). split; [apply i_infil_wf; auto|]. split.
  - exists (drop (ics z mod 4) (b64_encode (rep 0 (ics z mod 4) ++ x_raw x))). unfold itext, iboth. rewrite E1, E2, E4, E5, !num64_numeral. rewrite <- !app_assoc. reflexivity.
  - intros b Hq. unfold indexer_qb2 in Hq. rewrite (i_binfil_wf _ _ W) in Hq. destruct ((i_ss z =? 6) && overflow_checks); [discriminate|]. injection Hq as <-.
    pose proof (len_ibin _ _ W) as [_ H3]. split; [rewrite b64_of_encode by (auto using bytes_ok_ibin); apply itext_encode; auto|].
    split; [auto|]. split; [eexists; reflexivity|]. pose proof (iw_raw _ _ W) as Hr. rewrite Hr.
    destruct (sig_sizage _ _ Hin) as [z' [Hz [_ [_ [_ [_ [_ [_ [_ [_ [_ [Hr' _]]]]]]]]]]]]. pose proof (iw_sz _ _ W) as Hz'. rewrite E1, Hz in Hz'. injection Hz' as ->.
    exact (Hr' (x_index x)).
Qed.
Lemma C21_composable_ex_pf : forall P : Profile, indexer_qb64 (Idx (s2b "0B") (rep 0 114) 63 0) = Ok (s2b "0B_A" ++ rep 65 152) /\
  indexer_qb2 (Idx (s2b "0B") (rep 0 114) 63 0) = Ok ([208; 31; 192]%N ++ rep 0 114).
Proof. intros P. vm_compute. auto. Qed.

(** C22: exactly what the constructor accepts *)
Lemma C22_accepts_iff_pf : forall (P : Profile) (code raw : bytes) (s : sig_info) (index : N) (ondex : option N) (x : indexer),
  In (code, s) sig_codes ->
  (new_sig code raw index ondex = Ok x <->
   index < 64 ^ sig_index s /\ (sig_current s = true -> ondex = None) /\
   (forall o, ondex = Some o -> 0 < sig_ondex s -> o < 64 ^ sig_ondex s) /\ sig_raw s <= len raw /\
   x = Idx code (take (sig_raw s) raw) index (match ondex with Some o => o | None => if sig_current s then 0 else index end)).
Proof.
  intros P code raw s index ondex x Hin. destruct (sig_sizage _ _ Hin) as [z [Hz [Hh [Hm [Ho [Hf [Hl [Hc [Hcur [Hboth [V [Hr Hfu]]]]]]]]]]]].
  unfold new_sig, indexer_new. rewrite (i_new_eq _ z) by auto. rewrite Hr, Hm, Hcur. unfold ondex_bad, ondex_mism, ondex_val. rewrite Hboth, Ho.
  destruct (N.leb_spec (64 ^ sig_index s) index) as [Hi|Hi]; cbn [orb]; [split; [discriminate|intros [? _]; lia]|].
  destruct ondex as [o|]; cbn [is_some].
  - destruct (sig_current s) eqn:Cur; cbn [negb andb orb].
    { rewrite orb_true_r. cbn [orb]. split; [discriminate|]. intros [_ [X _]]. specialize (X eq_refl). discriminate. }
    rewrite orb_false_r, orb_false_r. destruct (N.ltb_spec 0 (sig_ondex s)); cbn [andb].
    + destruct (N.leb_spec (64 ^ sig_ondex s) o).
      * split; [discriminate|]. intros [_ [_ [X _]]]. specialize (X o eq_refl H). lia.
      * destruct (N.ltb_spec (len raw) (sig_raw s)); [split; [discriminate|intros [_ [_ [_ [? _]]]]; lia]|].
        split; [intros [= <-]|intros [_ [_ [_ [_ ->]]]]; reflexivity]. repeat split; auto; try congruence; try discriminate.
    + destruct (N.ltb_spec (len raw) (sig_raw s)); [split; [discriminate|intros [_ [_ [_ [? _]]]]; lia]|].
      split; [intros [= <-]|intros [_ [_ [_ [_ ->]]]]; reflexivity]. repeat split; auto; try congruence; try discriminate; intros; lia.
  - rewrite !andb_false_r. cbn [orb]. destruct (N.ltb_spec (len raw) (sig_raw s)); [split; [discriminate|intros [_ [_ [_ [? _]]]]; lia]|].
    destruct (sig_current s); cbn [negb]; (split; [intros [= <-]|intros [_ [_ [_ [_ ->]]]]; reflexivity]); repeat split; auto; congruence.
Qed.
(** C22: what each argument of the constructor does: raw material needs a code and its index
    defaults to zero; without it the first of the three encodings given is read *)
Lemma C22_arguments_pf : forall (P : Profile) (code raw t v : bytes) (i : N) (index ondex : option N) (c qb64b qb64 qb2 : option bytes),
  indexer_new (Some i) ondex (Some code) (Some raw) qb64b qb64 qb2 = new_sig code raw i ondex /\
  indexer_new None ondex (Some code) (Some raw) qb64b qb64 qb2 = new_sig code raw 0 ondex /\
  indexer_new index ondex None (Some raw) qb64b qb64 qb2 = Err E_EmptyMaterial /\
  indexer_new index ondex c None (Some t) qb64 qb2 = sig_parse_text_bytes t /\
  indexer_new index ondex c None None (Some t) qb2 = sig_parse_text t /\
  indexer_new index ondex c None None None (Some v) = sig_parse_binary v /\
  indexer_new index ondex c None None None None = Err E_Validation.
Proof. intros. repeat split; reflexivity. Qed.
(** C22: rejection is an error, never a panic, for every code, index and other index *)
Lemma C22_never_panics_pf : forall (P : Profile) (code raw : bytes) (index : N) (ondex : option N), new_sig code raw index ondex <> Panic.
Proof.
  intros P code raw index ondex. unfold new_sig, indexer_new. destruct (get_isizage code) as [z|e|] eqn:E.
  - rewrite (i_new_eq _ z) by auto. destruct (_ || _); [discriminate|]. destruct (_ <? _); discriminate.
  - unfold indexer_new_with_code_and_raw. destruct code; [discriminate|]. rewrite E. discriminate.
  - exfalso. eapply isizage_not_panic; eauto.
Qed.
(** C22: codes outside the table are rejected *)
Lemma C22_unknown_code_pf : forall (P : Profile) (code raw : bytes) (index : N) (ondex : option N),
  ~ In code (map fst sig_codes) -> ~ In code (map fst lead_codes) -> code <> var_sig_code -> exists e, new_sig code raw index ondex = Err e.
Proof.
  intros P code raw index ondex H1 H2 H3. apply i_new_unknown. unfold get_isizage. destruct (assoc code i_sizage_table) as [z|] eqn:E; [|reflexivity]. exfalso.
  apply assoc_In in E. apply (in_map fst) in E. cbn [fst] in E.
  assert (X : forallb (fun c => mem_code c (map fst sig_codes ++ map fst lead_codes ++ [var_sig_code])) (map fst i_sizage_table) = true) by (vm_compute; reflexivity).
  eapply forallb_forall in X; [|exact E]. apply mem_code_In in X. rewrite !in_app_iff in X. cbn [In] in X. intuition congruence.
Qed.
(** C22: the variable size placeholder code takes its length from the index and round-trips *)
Lemma C22_variable_code_pf : forall (P : Profile) (raw : bytes) (index : N) (ondex : option N) (x : indexer), bytes_ok raw = true ->
  (new_sig var_sig_code raw index ondex = Ok x <-> index < 4096 /\ (ondex = None \/ ondex = Some index) /\ 3 * index <= len raw /\
     x = Idx var_sig_code (take (3 * index) raw) index (match ondex with Some o => o | None => 0 end)) /\
  (new_sig var_sig_code raw index ondex = Ok x -> exists t b, indexer_qb64 x = Ok t /\ indexer_qb2 x = Ok b /\ len t = 4 + 4 * index /\ t = b64_of b /\
     sig_parse_text t = Ok (Idx var_sig_code (x_raw x) index index) /\ sig_parse_binary b = Ok (Idx var_sig_code (x_raw x) index index)).
Proof.
  intros P raw index ondex x Hb. assert (Hz : get_isizage var_sig_code = Ok (Isz 2 2 0 u32_max 0)) by reflexivity. split.
  - unfold new_sig, indexer_new. rewrite (i_new_eq _ _ _ _ _ Hz). change (ims (Isz 2 2 0 u32_max 0)) with 2. change (64 ^ 2) with 4096.
    assert (Hr : rize_of (Isz 2 2 0 u32_max 0) index = 3 * index).
    { unfold rize_of, ifull. change (ivar (Isz 2 2 0 u32_max 0)) with true. change (ics (Isz 2 2 0 u32_max 0)) with 4. cbv iota. lia. }
    rewrite Hr. unfold ondex_bad, ondex_mism, ondex_val. change (mem_code var_sig_code current_sig_codes) with false. change (mem_code var_sig_code both_sig_codes) with false.
    cbn [i_os N.ltb N.compare andb negb]. change (0 =? 0) with true.
    destruct (N.leb_spec 4096 index) as [Hi|Hi]; cbn [orb]; [split; [discriminate|intros [? _]; lia]|].
    destruct ondex as [o|]; cbn [orb].
    + rewrite andb_true_r. change (0 <? 0) with false. cbn [andb orb]. destruct (N.eqb_spec o index) as [->|Ho]; cbn [negb].
      * destruct (N.ltb_spec (len raw) (3 * index)); [split; [discriminate|intros [_ [_ [? _]]]; lia]|].
        split; [intros [= <-]; auto 10|intros [_ [_ [_ ->]]]; reflexivity].
      * split; [discriminate|]. intros [_ [[?|[= ?]] _]]; [discriminate|contradiction].
    + destruct (N.ltb_spec (len raw) (3 * index)); [split; [discriminate|intros [_ [_ [? _]]]; lia]|].
      split; [intros [= <-]; auto 10|intros [_ [_ [_ ->]]]; reflexivity].
  - intros H. destruct (i_new_wf _ _ _ _ _ _ Hz eq_refl Hb H) as [W [C [E1 [E2 [E3 E4]]]]].
    exists (itext (Isz 2 2 0 u32_max 0) x), (ibin (Isz 2 2 0 u32_max 0) x).
    split; [apply i_infil_wf; auto|]. split; [unfold indexer_qb2; rewrite (i_binfil_wf _ _ W); reflexivity|].
    split. { rewrite len_itext by auto. rewrite E2. unfold ifull. change (ivar (Isz 2 2 0 u32_max 0)) with true. change (ics (Isz 2 2 0 u32_max 0)) with 4. cbv iota. lia. }
    pose proof (len_ibin _ _ W) as [_ H3].
    split; [rewrite b64_of_encode by (auto using bytes_ok_ibin); apply itext_encode; auto|].
    assert (Es : seen (Isz 2 2 0 u32_max 0) x = Idx var_sig_code (x_raw x) index index) by (unfold seen, seen_ondex; rewrite E1, E2; reflexivity).
    rewrite <- Es. split.
    + pose proof (i_exfil_text x _ [] W C eq_refl) as X. rewrite app_nil_r in X. exact X.
    + pose proof (i_bexfil_bin _ x [] W C eq_refl) as X. rewrite app_nil_r in X. exact X.
Qed.
(** C22: the two placeholder codes with a lead byte are accepted by the constructor and can never be encoded *)
Lemma C22_lead_codes_useless_pf : forall (P : Profile) (code raw : bytes) (s : sig_info) (index : N) (ondex : option N) (x : indexer),
  In (code, s) lead_codes -> new_sig code raw index ondex = Ok x -> x_code x = code /\ (forall t, indexer_qb64 x <> Ok t) /\ (forall b, indexer_qb2 x <> Ok b).
Proof.
  intros P code raw s index ondex x Hin H.
  assert (Hl : exists z, get_isizage code = Ok z /\ i_ls z = 1 /\ (forall i, rize_of z i = 54) /\ ics z mod 4 = 0 /\ (i_ss z <= 6)).
  { cbn in Hin. destruct Hin as [[= <- <-]|[[= <- <-]|[]]]; eexists; (split; [reflexivity|]); (split; [reflexivity|]); (split; [intros i; reflexivity|]); (split; [reflexivity|]); cbn; lia. }
  destruct Hl as [z [Hz [Hls [Hr [Hc4 Hss]]]]]. unfold new_sig, indexer_new in H. rewrite (i_new_eq _ z) in H by auto.
  destruct (_ || _); [discriminate|]. rewrite Hr in H. destruct (N.ltb_spec (len raw) 54); [discriminate|]. injection H as <-. cbn [x_code]. split; [auto|].
  assert (Hlr : len (take 54 raw) = 54) by (rewrite len_take; lia). unfold sub32.
  split; intros r Hq.
  - unfold indexer_qb64, indexer_infil in Hq. cbn [x_code x_raw x_index x_ondex] in Hq. rewrite Hz, Hlr in Hq. change ((3 - 54 mod 3) mod 3) with 0 in Hq. cbn [obind] in Hq.
    inv_bind Hq fs Efs. inv_bind Hq lim El. destruct (lim <? index); [discriminate|]. inv_bind Hq bad Eb. destruct bad; [discriminate|]. inv_bind Hq a Ea. inv_bind Hq b Eb2.
    destruct (negb _); [discriminate|]. inv_bind Hq d Ed. change (i_hs z + i_ss z) with (ics z) in Hq. rewrite Hc4 in Hq. rewrite Hls in Ed. unfold sub32 in Ed. cbn in Ed.
    destruct overflow_checks; [discriminate|]. injection Ed as <-. discriminate.
  - unfold indexer_qb2, indexer_binfil in Hq. cbn [x_code x_raw x_index x_ondex] in Hq. rewrite Hz, Hlr in Hq. change ((3 - 54 mod 3) mod 3) with 0 in Hq. cbn [obind] in Hq.
    inv_bind Hq lim El. destruct (lim <? index); [discriminate|]. inv_bind Hq bad Eb. destruct bad; [discriminate|]. inv_bind Hq fs Efs. inv_bind Hq a Ea. inv_bind Hq b Eb2.
    destruct (negb _); [discriminate|]. inv_bind Hq d Ed. change (i_hs z + i_ss z) with (ics z) in Hq. rewrite Hc4 in Hq. rewrite Hls in Ed. unfold sub32 in Ed. cbn in Ed.
    destruct overflow_checks; [discriminate|]. injection Ed as <-. discriminate.
Qed.
(** C22: examples, with the mismatching other index accepted *)
Lemma C22_accepts_ex_pf : forall P : Profile, new_sig (s2b "B") (rep 1 64) 63 None = Ok (Idx (s2b "B") (rep 1 64) 63 0) /\
  new_sig (s2b "B") (rep 1 64) 64 None = Err E_InvalidVarIndex /\ new_sig (s2b "B") (rep 1 64) 3 (Some 3) = Err E_InvalidVarIndex /\
  new_sig (s2b "A") (rep 1 64) 3 None = Ok (Idx (s2b "A") (rep 1 64) 3 3) /\ new_sig (s2b "A") (rep 1 64) 3 (Some 70000) = Ok (Idx (s2b "A") (rep 1 64) 3 70000) /\
  new_sig (s2b "1z") (rep 1 54) 3 None = Ok (Idx (s2b "1z") (rep 1 54) 3 0).
Proof. intros P. vm_compute. auto 10. Qed.

(** C23: an accepted text without '=' in the part read re-encodes to that part; so does any binary *)
Lemma iparsed_no_pad x z t : iparsed x z t -> i_ls z = 0 -> ~ In pad_char (take (ifull z (x_index x)) t) -> all_b64 (take (ifull z (x_index x)) t) = true.
Proof.
  intros Hp Hl Hn. rewrite (ip_text _ _ _ Hp Hl) in *. unfold itext in *. rewrite all_b64_app, (all_b64_iboth _ _ (ip_sz _ _ _ Hp)). cbn [andb].
  apply forallb_forall. intros c Hc.
  destruct (N.eq_dec c pad_char) as [->|Hne]; [exfalso; apply Hn; apply in_or_app; auto|].
  assert (Hb : bytes_ok (rep 0 (ics z mod 4) ++ x_raw x) = true) by (rewrite bytes_ok_app, bytes_ok_rep0; apply (ip_bytes _ _ _ Hp)).
  apply In_drop in Hc. unfold b64_encode in Hc. apply in_app_iff in Hc as [Hc|Hc].
  - pose proof (all_b64_chr _ (sextets_lt _ Hb)) as Ha. eapply forallb_forall in Ha; eauto.
  - apply repeat_spec in Hc. contradiction.
Qed.
Lemma C23_text_canonical_pf : forall (P : Profile) (t : bytes) (x : indexer) (s : sig_info),
  sig_parse_text t = Ok x -> In (x_code x, s) sig_codes ->
  sig_full s <= len t /\ indexer_full_size x = Ok (sig_full s) /\ x_ondex x = shown_ondex s (x_index x) (x_ondex x) /\
  (~ In 61 (take (sig_full s) t) -> indexer_qb64 x = Ok (take (sig_full s) t) /\ b64_text (take (sig_full s) t) /\ len (x_raw x) = sig_raw s /\
     new_sig (x_code x) (x_raw x) (x_index x) (if sig_current s then None else Some (x_ondex x)) = Ok x).
Proof.
  intros P t x s H Hin. destruct (i_exfil_parsed _ _ H) as [z Hp]. destruct (sig_sizage _ _ Hin) as [z' [Hz [Hh [Hm [Ho [Hf [Hl [Hc [Hcur [Hboth [V [Hr Hfu]]]]]]]]]]]].
  assert (z' = z) by (pose proof (ip_sz _ _ _ Hp) as X; rewrite Hz in X; congruence). subst z'.
  pose proof (ip_len _ _ _ Hp) as Hlen. rewrite Hfu in Hlen.
  split; [auto|]. split. { unfold indexer_full_size. rewrite Hz. cbn [obind]. change (i_fs z =? u32_max) with (ivar z). rewrite V. cbn [negb]. rewrite Hf. reflexivity. }
  split. { pose proof (ip_ondex _ _ _ Hp) as X. unfold seen_ondex in X. rewrite Hcur, Ho in X. exact X. }
  intros Hn. assert (Ha : all_b64 (take (sig_full s) t) = true) by (rewrite <- (Hfu (x_index x)); eapply iparsed_no_pad; eauto; rewrite Hfu; exact Hn).
  assert (W : iwf x z) by (eapply iparsed_wf; eauto; rewrite Hfu; exact Ha).
  assert (Hlr : len (x_raw x) = sig_raw s) by (rewrite (iw_raw _ _ W); apply Hr).
  split; [pose proof (ip_text _ _ _ Hp Hl) as X; rewrite Hfu in X; rewrite X; apply i_infil_wf; auto|]. split; [apply b64_text_all; auto|]. split; [auto|].
  apply (proj2 (C22_accepts_iff_pf P (x_code x) (x_raw x) s (x_index x) _ x Hin)). rewrite <- Hlr, take_all by lia.
  pose proof (iw_index _ _ W) as Hi. rewrite Hm in Hi. pose proof (iw_ondex _ _ W) as Hod. rewrite Ho in Hod.
  pose proof (ip_ondex _ _ _ Hp) as X. unfold seen_ondex in X. rewrite Hcur in X.
  destruct (sig_current s); repeat split; auto; try discriminate; try lia.
  - destruct x as [c0 r0 i0 o0]; cbn in *; congruence.
  - intros o [= <-] Hpos. destruct Hod; lia.
  - destruct x; reflexivity.
Qed.
Lemma C23_binary_canonical_pf : forall (P : Profile) (b : bytes) (x : indexer) (s : sig_info), bytes_ok b = true ->
  sig_parse_binary b = Ok x -> In (x_code x, s) sig_codes ->
  sig_full s * 3 / 4 <= len b /\ indexer_qb64 x = Ok (b64_of (take (sig_full s * 3 / 4) b)) /\
  (sig_index s + sig_ondex s < 6 \/ overflow_checks = false -> indexer_qb2 x = Ok (take (sig_full s * 3 / 4) b)).
Proof.
  intros P b x s Hok H Hin. destruct (i_bexfil_inv _ _ Hok H) as [z [Hz X]]. destruct (sig_sizage _ _ Hin) as [z' [Hz' [Hh [Hm [Ho [Hf [Hl [Hc [Hcur [Hboth [V [Hr Hfu]]]]]]]]]]]].
  assert (z' = z) by (rewrite Hz in Hz'; congruence). subst z'. destruct (X Hl) as [W [C [_ E]]]. rewrite Hfu in E. pose proof (len_ibin _ _ W) as [L4 L3]. rewrite Hfu in L4.
  assert (Et : take (sig_full s * 3 / 4) b = ibin z x) by (rewrite E; apply take_app_exact; lia). rewrite Et.
  split; [apply (f_equal len) in E; rewrite len_app in E; lia|]. split.
  - rewrite b64_of_encode by (auto using bytes_ok_ibin). rewrite <- itext_encode by auto. apply i_infil_wf; auto.
  - intros Hcc. unfold indexer_qb2. rewrite (i_binfil_wf _ _ W). pose proof (iz_ss _ _ (isizage_facts _ _ Hz)) as Hss.
    destruct Hcc as [Hcc|Hcc]; [replace (i_ss z =? 6) with false by lia; reflexivity|rewrite Hcc, andb_false_r; reflexivity].
Qed.
(** C23 refuted with padding: the padding character is accepted and the short signature cannot be encoded again *)
Lemma C23_padding_accepted_refuted_pf : forall P : Profile, exists x, sig_parse_text (s2b "AA" ++ rep 65 84 ++ s2b "A=") = Ok x /\ len (x_raw x) = 63 /\ indexer_qb64 x = Err E_InvalidCodeSize.
Proof. intros P. eexists. repeat (split; [vm_compute; reflexivity|]). vm_compute. reflexivity. Qed.
Lemma C23_canonical_ex_pf : forall P : Profile, In (s2b "B", Sig true 1 0 64 88) sig_codes /\ ~ In 61 (s2b "BD" ++ rep 65 86) /\
  sig_parse_text (s2b "BD" ++ rep 65 90) = Ok (Idx (s2b "B") (rep 0 64) 3 0) /\ sig_parse_text (s2b "0BAB" ++ rep 65 152) = Err E_Value.
Proof. intros P. split; [cbn; tauto|]. split; [|vm_compute; auto]. intros I. vm_compute in I. repeat destruct I as [I|I]; try discriminate; auto. Qed.

(** C24: the text encoder rejects an index or other index that does not fit *)
Lemma C24_text_rejects_pf : forall (P : Profile) (x : indexer) (s : sig_info), In (x_code x, s) sig_codes ->
  (64 ^ sig_index s <= x_index x \/ (0 < sig_ondex s /\ 64 ^ sig_ondex s <= x_ondex x)) -> indexer_qb64 x = Err E_InvalidVarIndex.
Proof.
  intros P x s Hin Hr. destruct (sig_sizage _ _ Hin) as [z [Hz [Hh [Hm [Ho [Hf [Hl [Hc [Hcur [Hboth [V [_ Hfu]]]]]]]]]]]]. pose proof (isizage_facts _ _ Hz) as Z. pose proof (iz_ms _ _ Z) as Hms. pose proof (iz_os _ _ Z) as Hos.
  unfold indexer_qb64, indexer_infil. rewrite Hz. cbn [obind]. change (i_ss z - i_os z) with (ims z). unfold i_full. change (i_fs z =? u32_max) with (ivar z). rewrite V. cbn [obind].
  rewrite pow_lim_ok by lia. cbn [obind]. destruct (pow64_3 (ims z)) as [Hp1 Hp2]; [lia|]. destruct (pow64_3 (i_os z)) as [Hq1 Hq2]; [lia|]. rewrite Hm, Ho in *.
  destruct (N.ltb_spec (64 ^ sig_index s - 1) (x_index x)); [reflexivity|]. destruct Hr as [Hr|[Hp Hr]]; [lia|].
  replace (0 <? sig_ondex s) with true by lia. rewrite pow_lim_ok by lia. cbn [obind]. replace (64 ^ sig_ondex s - 1 <? x_ondex x) with true by lia. reflexivity.
Qed.
(** C24: the binary encoder rejects it too for the codes without an other index *)
Lemma C24_small_codes_reject_pf : forall (P : Profile) (x : indexer) (s : sig_info), In (x_code x, s) sig_codes -> sig_ondex s = 0 ->
  64 ^ sig_index s <= x_index x -> indexer_qb2 x = Err E_InvalidVarIndex.
Proof.
  intros P x s Hin H0 Hr. destruct (sig_sizage _ _ Hin) as [z [Hz [Hh [Hm [Ho [Hf [Hl [Hc [Hcur [Hboth [V [_ Hfu]]]]]]]]]]]]. pose proof (isizage_facts _ _ Hz) as Z. pose proof (iz_ms _ _ Z) as Hms. pose proof (iz_ss _ _ Z) as Hss.
  unfold indexer_qb2, indexer_binfil. rewrite Hz. cbn [obind]. rewrite pow_lim_ok by lia. cbn [obind]. destruct (pow64_3 (ims z)) as [Hp1 Hp2]; [lia|].
  assert (Ess : i_ss z = sig_index s) by lia. rewrite Ess. rewrite Hm in *. replace (64 ^ sig_index s - 1 <? x_index x) with true by lia. reflexivity.
Qed.
(** C24 refuted: for every code with an other index, the binary encoder writes some out-of-range index as another index *)
Lemma C24_binary_accepts_refuted_pf : forall code, In code (map s2b ["0A"; "0B"; "2A"; "2B"; "2C"; "2D"; "2E"; "2F"]%string) ->
  exists s x i, In (code, s) sig_codes /\ forall P : Profile, new_sig code (rep 7 (sig_raw s)) 0 None = Ok x /\ 64 ^ sig_index s < i /\
    indexer_qb64 (set_index x i) = Err E_InvalidVarIndex /\
    exists b x', indexer_qb2 (set_index x i) = Ok b /\ sig_parse_binary b = Ok x' /\ x_index x' < i.
Proof.
  intros code Hin. cbn [map In] in Hin.
  repeat destruct Hin as [<-|Hin]; try contradiction.
  all: [> exists (Sig false 1 1 114 156), (Idx (s2b "0A") (rep 7 114) 0 0), 130 | exists (Sig true 1 1 114 156), (Idx (s2b "0B") (rep 7 114) 0 0), 130
   | exists (Sig false 2 2 64 92), (Idx (s2b "2A") (rep 7 64) 0 0), 5000 | exists (Sig true 2 2 64 92), (Idx (s2b "2B") (rep 7 64) 0 0), 5000
   | exists (Sig false 2 2 64 92), (Idx (s2b "2C") (rep 7 64) 0 0), 5000 | exists (Sig true 2 2 64 92), (Idx (s2b "2D") (rep 7 64) 0 0), 5000
   | exists (Sig false 2 2 64 92), (Idx (s2b "2E") (rep 7 64) 0 0), 5000 | exists (Sig true 2 2 64 92), (Idx (s2b "2F") (rep 7 64) 0 0), 5000].
  all: split; [cbn; tauto|]; intros P; split; [vm_compute; reflexivity|]; split; [cbn; lia|]; split; [vm_compute; reflexivity|]; do 2 eexists; split; [vm_compute; reflexivity|]; split; [vm_compute; reflexivity|cbn; lia].
Qed.
Lemma C24_text_rejects_ex_pf : forall P : Profile, indexer_qb64 (set_ondex (Idx (s2b "2A") (rep 7 64) 0 0) 4096) = Err E_InvalidVarIndex /\
  (exists b, indexer_qb2 (set_ondex (Idx (s2b "2A") (rep 7 64) 0 0) 4097) = Ok b).
Proof. intros P. split; [vm_compute; reflexivity|]. eexists. vm_compute. reflexivity. Qed.

(** C25: the binary parser never panics *)
Lemma C25_binary_never_panics_pf : forall (P : Profile) (b : bytes), bytes_ok b = true -> sig_parse_binary b <> Panic.
Proof. intros P b Hb. apply i_bexfil_not_panic; auto. Qed.
(** C25: the text parser panics exactly when a boundary it cuts at is inside a multi-byte character *)
Lemma inside_lt t k : inside t k -> k < len t.
Proof. intros [c [Hc _]]. assert (N.to_nat k < length t)%nat by (apply nth_error_Some; congruence). unfold len. lia. Qed.
Lemma ondex_chars_iff code s z ox : mem_code code current_sig_codes = sig_current s -> i_os z = sig_ondex s -> odx_ok code ox (i_os z) = true <-> ondex_chars s ox.
Proof.
  intros Hc Ho. unfold odx_ok, ondex_chars. rewrite Hc, Ho. rewrite orb_true_iff, N.eqb_eq, andb_true_iff, <- b64_text_all.
  split; (intros [H|[Hb H]]; [auto|]); right; (split; [auto|]).
  - intros E c Hin. rewrite E in H. cbn [negb orb] in H. apply N.eqb_eq in H. apply b64_text_all in Hb.
    assert (Hz : ords ox = rep 0 (len ox)). { apply val_rep0_inv in H; [|lia]. rewrite H, len_ords. reflexivity. }
    rewrite <- (chr_ords ox Hb), Hz in Hin. apply in_map_iff in Hin as [d [<- Hd]]. apply repeat_spec in Hd. subst d. reflexivity.
  - destruct (sig_current s); [|reflexivity]. specialize (H eq_refl). cbn [negb orb]. apply N.eqb_eq.
    clear Hb. induction ox as [|c r IH]; [reflexivity|]. assert (c = 65) by (apply H; left; auto). subst c. unfold ords in *. cbn [map]. rewrite val_cons. rewrite IH; [reflexivity|]. intros; apply H; right; auto.
Qed.
Lemma C25_text_panic_iff_pf : forall (P : Profile) (t : bytes),
  sig_parse_text t = Panic <->
  (exists c r, t = c :: r /\ ((letter c /\ inside t 1) \/ (48 <= c <= 52 /\ inside t 2))) \/
  (exists code s, In (code, s) (sig_codes ++ lead_codes) /\ is_prefix code t /\
     let h := len code in let i := h + sig_index s in let o := i + sig_ondex s in o <= len t /\
     (inside t i \/ b64_text (drop h (take i t)) /\ (inside t o \/ ondex_chars s (drop i (take o t)) /\ inside t (sig_full s)))) \/
  (is_prefix var_sig_code t /\ 4 <= len t /\ (inside t 4 \/ exists n, n < 4096 /\ drop 2 (take 4 t) = b64_numeral 2 n /\ inside t (4 + 4 * n))).
Proof.
  intros P t. unfold sig_parse_text, indexer_new, indexer_new_with_qb64. rewrite i_exfil_panic_iff.
  assert (Hh : forall c h, i_hardage c = Ok h <-> (letter c /\ h = 1) \/ (48 <= c <= 52 /\ h = 2)).
  { intros c h. unfold i_hardage, letter. destruct (((65 <=? c) && (c <=? 90)) || ((97 <=? c) && (c <=? 122))) eqn:E1.
    - split; [intros [= <-]; left; split; [|auto]; clear - E1; lia|]. intros [[_ ->]|[X ->]]; [reflexivity|clear - X E1; lia].
    - destruct ((48 <=? c) && (c <=? 52)) eqn:E2.
      + split; [intros [= <-]; right; split; [|auto]; clear - E2; lia|]. intros [[X ->]|[_ ->]]; [clear - X E1; lia|reflexivity].
      + split; [destruct (c =? 45), (c =? 95); discriminate|]. intros [[X ->]|[X ->]]; [clear - X E1; lia|clear - X E2; lia]. }
  assert (Ht : forall code s, In (code, s) (sig_codes ++ lead_codes) -> exists z, get_isizage code = Ok z /\ i_hs z = len code /\ ims z = sig_index s /\ i_os z = sig_ondex s /\
     ics z = len code + sig_index s + sig_ondex s /\ mem_code code current_sig_codes = sig_current s /\ (forall i, ifull z i = sig_full s) /\ 0 < sig_index s /\ 0 < sig_full s).
  { intros code s Hin. assert (Hq : 0 < sig_index s /\ 0 < sig_full s).
    { assert (X : forallb (fun e => (0 <? sig_index (snd e)) && (0 <? sig_full (snd e))) (sig_codes ++ lead_codes) = true) by (vm_compute; reflexivity).
      eapply forallb_forall in X; [|exact Hin]. cbn [snd] in X. lia. }
    apply in_app_iff in Hin as [Hin|Hin].
    - destruct (sig_sizage _ _ Hin) as [z [Hz [A1 [A2 [A3 [A4 [A5 [A6 [A7 [A8 [V [A9 A10]]]]]]]]]]]]. exists z. tauto.
    - cbn in Hin. destruct Hin as [[= <- <-]|[[= <- <-]|[]]]; eexists; (split; [reflexivity|]); repeat split; try tauto; reflexivity. }
  assert (Htab : forall code z, get_isizage code = Ok z -> code = var_sig_code \/ exists s, In (code, s) (sig_codes ++ lead_codes)).
  { intros code z Hz. apply isizage_In, (in_map fst) in Hz. cbn [fst] in Hz.
    assert (X : forallb (fun c => mem_code c ([var_sig_code] ++ map fst (sig_codes ++ lead_codes))) (map fst i_sizage_table) = true) by (vm_compute; reflexivity).
    eapply forallb_forall in X; [|exact Hz]. apply mem_code_In in X. apply in_app_iff in X as [X|X]; [left; destruct X as [X|[]]; auto|].
    right. apply in_map_iff in X as [[c s] [E1 E2]]. cbn [fst] in E1. subst c. eauto. }
  assert (Hvar : get_isizage var_sig_code = Ok (Isz 2 2 0 u32_max 0)) by reflexivity.
  assert (Bi : forall k, k <> 0 -> k <= len t -> boundary t k = false <-> inside t k).
  { intros k Hk Hl. rewrite boundary_false_iff by auto. split; [intros [?|?]; [lia|auto]|auto]. }
  assert (Hfirst : forall code, In code (map fst (sig_codes ++ lead_codes) ++ [var_sig_code]) -> is_prefix code t -> boundary t (len code) = false -> len code <= len t ->
     exists c r, t = c :: r /\ ((letter c /\ inside t 1) \/ (48 <= c <= 52 /\ inside t 2))).
  { intros code Hin [r Er] Hb Hl. assert (X : forallb (fun c => match c with x :: _ => match i_hardage x with Ok h => h =? len c | _ => false end | [] => false end) (map fst (sig_codes ++ lead_codes) ++ [var_sig_code]) = true) by (vm_compute; reflexivity).
    eapply forallb_forall in X; [|exact Hin]. destruct code as [|x cr]; [discriminate|]. destruct (i_hardage x) as [h| |] eqn:Eh; try discriminate.
    assert (h = len (x :: cr)) as -> by (clear - X; lia). exists x, (cr ++ r). split; [rewrite Er; reflexivity|].
    apply Bi in Hb; [|rewrite len_cons; clear; lia|auto]. apply Hh in Eh as [[L E]|[L E]]; rewrite E in Hb; auto. }
  split.
  - intros [[c [r [h [Et [Eh [Hl Hb]]]]]]|[hard [z [Hz [Ehd [Bh [Hl Hcut]]]]]]].
    { left. exists c, r. split; [auto|]. apply Hh in Eh as [[L ->]|[L ->]]; apply Bi in Hb; auto; lia. }
    right. destruct (Htab _ _ Hz) as [->|[s Hin]].
    + right. rewrite Hvar in Hz. injection Hz as <-. change (ics (Isz 2 2 0 u32_max 0)) with 4 in *. change (i_hs (Isz 2 2 0 u32_max 0)) with 2 in *.
      split; [apply is_prefix_take; split; [exact Ehd|change (len var_sig_code) with 2; lia]|]. split; [auto|].
      unfold icut in Hcut. change (i_hs (Isz 2 2 0 u32_max 0)) with 2 in *. change (ims (Isz 2 2 0 u32_max 0)) with 2 in *. change (ics (Isz 2 2 0 u32_max 0)) with 4 in *. change (2 + 2) with 4 in *.
      destruct Hcut as [Hb|[Ha [Hb|[_ [Hf Hb]]]]]; [left; apply Bi; auto; lia|left; apply Bi; auto; lia|]. right.
      set (ix := take 2 (drop 2 t)) in *. assert (Hlx : len ix = 2) by (unfold ix; rewrite len_take, len_drop; lia).
      exists (val 64 (ords ix)). pose proof (val64_lt ix) as Hv. rewrite Hlx in Hv. change (64 ^ 2) with 4096 in Hv. split; [auto|]. split.
      * rewrite drop_take. change (4 - 2) with 2. fold ix. rewrite <- num64_numeral. rewrite <- Hlx at 1. symmetry. apply num64_roundtrip; auto.
      * change (ifull (Isz 2 2 0 u32_max 0) (val 64 (ords ix))) with (val 64 (ords ix) * 4 + 4) in *. apply Bi in Hb; auto; [|clear; lia].
        replace (4 + 4 * val 64 (ords ix)) with (val 64 (ords ix) * 4 + 4) by lia. exact Hb.
    + left. exists hard, s. destruct (Ht _ _ Hin) as [z' [Hz' [A1 [A2 [A3 [A4 [A5 [A6 [A7 A8]]]]]]]]]. rewrite Hz in Hz'. injection Hz' as <-.
      assert (Hpre : is_prefix hard t) by (apply is_prefix_take; rewrite <- A1; split; [auto|]; rewrite A1; lia).
      split; [auto|]. split; [auto|]. cbv zeta. rewrite A4 in Hl. split; [auto|]. unfold icut in Hcut. rewrite A1, A2, A3, A4, A6 in Hcut.
      rewrite !drop_take. replace (len hard + sig_index s - len hard) with (sig_index s) by lia. replace (len hard + sig_index s + sig_ondex s - (len hard + sig_index s)) with (sig_ondex s) by lia.
      destruct Hcut as [Hb|[Ha Hcut]]; [left; apply Bi; auto; lia|]. right. split; [apply b64_text_all; auto|].
      destruct Hcut as [Hb|[Ho [Hf Hb]]]; [left; apply Bi; auto; lia|]. right. split; [rewrite <- A3 in Ho; eapply ondex_chars_iff; eauto; rewrite A3 in *; auto|]. apply Bi; auto; lia.
  - intros [[c [r [Et Hc]]]|[[code [s [Hin [Hpre Hcut]]]]|[Hpre [Hl Hcut]]]].
    + left. destruct Hc as [[L Hb]|[L Hb]]; pose proof (inside_lt _ _ Hb).
      * exists c, r, 1. repeat split; auto; [apply Hh; auto|lia|apply Bi; auto; lia].
      * exists c, r, 2. repeat split; auto; [apply Hh; auto|lia|apply Bi; auto; lia].
    + cbv zeta in Hcut. destruct Hcut as [Hl Hcut]. destruct (Ht _ _ Hin) as [z [Hz [A1 [A2 [A3 [A4 [A5 [A6 [A7 A8]]]]]]]]].
      pose proof Hpre as Hpre'. apply is_prefix_take in Hpre as [Ep Lp].
      destruct (boundary t (len code)) eqn:Bh.
      2:{ left. assert (Hin2 : In code (map fst (sig_codes ++ lead_codes) ++ [var_sig_code])) by (apply in_app_iff; left; apply (in_map fst) in Hin; exact Hin).
          destruct (Hfirst code Hin2 Hpre' Bh Lp) as [c [r [Et Hc]]]. destruct Hc as [[L Hb]|[L Hb]]; pose proof (inside_lt _ _ Hb).
          - exists c, r, 1. split; [auto|]. split; [apply Hh; auto|]. split; [lia|apply Bi; auto; lia].
          - exists c, r, 2. split; [auto|]. split; [apply Hh; auto|]. split; [lia|apply Bi; auto; lia]. }
      right. exists code, z. rewrite A1, A4. repeat split; auto. unfold icut. rewrite A1, A2, A3, A4, A6.
      rewrite !drop_take in Hcut. replace (len code + sig_index s - len code) with (sig_index s) in Hcut by lia. replace (len code + sig_index s + sig_ondex s - (len code + sig_index s)) with (sig_ondex s) in Hcut by lia.
      destruct Hcut as [Hb|[Ha Hcut]]; [left; apply Bi; auto; lia|]. right. split; [apply b64_text_all; auto|].
      destruct Hcut as [Hb|[Ho Hb]]; [left; apply Bi; auto; lia|]. right. pose proof (inside_lt _ _ Hb). split; [rewrite <- A3; eapply ondex_chars_iff; eauto; rewrite A3; auto|]. split; [lia|]. apply Bi; auto; lia.
    + pose proof Hpre as Hpre'. apply is_prefix_take in Hpre as [Ep Lp]. destruct (boundary t 2) eqn:Bh.
      2:{ left. assert (Hin2 : In var_sig_code (map fst (sig_codes ++ lead_codes) ++ [var_sig_code])) by (apply in_app_iff; right; left; auto).
          destruct (Hfirst _ Hin2 Hpre' Bh Lp) as [c [r [Et Hc]]]. destruct Hc as [[L Hb]|[L Hb]]; pose proof (inside_lt _ _ Hb).
          - exists c, r, 1. split; [auto|]. split; [apply Hh; auto|]. split; [lia|apply Bi; auto; lia].
          - exists c, r, 2. split; [auto|]. split; [apply Hh; auto|]. split; [lia|apply Bi; auto; lia]. }
      right. exists var_sig_code, (Isz 2 2 0 u32_max 0). split; [auto|]. split; [exact Ep|]. split; [exact Bh|]. split; [exact Hl|].
      unfold icut. change (i_hs (Isz 2 2 0 u32_max 0)) with 2 in *. change (ims (Isz 2 2 0 u32_max 0)) with 2 in *. change (ics (Isz 2 2 0 u32_max 0)) with 4 in *. change (2 + 2) with 4 in *.
      destruct Hcut as [Hb|[n [Hn [Ed Hb]]]]; [left; apply Bi; auto; lia|]. right. rewrite drop_take in Ed. change (4 - 2) with 2 in Ed. rewrite Ed, <- num64_numeral.
      split; [apply all_b64_num64|]. right. split; [reflexivity|].
      assert (Ev : val 64 (ords (num64 2 n)) = n). { unfold num64. rewrite ords_chr by (apply digits_lt; lia). apply digits_small; [lia|]. change (64 ^ N.of_nat (N.to_nat 2)) with 4096. auto. }
      rewrite Ev. unfold ifull. change (ivar (Isz 2 2 0 u32_max 0)) with true. cbv iota. change (ics (Isz 2 2 0 u32_max 0)) with 4.
      replace (n * 4 + 4) with (4 + 4 * n) by lia. pose proof (inside_lt _ _ Hb). split; [lia|]. apply Bi; auto; lia.
Qed.
(** C25: so ASCII text never panics *)
Lemma C25_ascii_never_panics_pf : forall (P : Profile) (t : bytes), (forall c, In c t -> c < 128) -> sig_parse_text t <> Panic.
Proof.
  intros P t Ha H. apply C25_text_panic_iff_pf in H.
  assert (Hin : forall k, ~ inside t k). { intros k [c [Hc Hr]]. apply nth_error_In in Hc. apply Ha in Hc. lia. }
  destruct H as [[c [r [_ [[_ H]|[_ H]]]]]|[[code [s [_ [_ [_ [H|[_ [H|[_ H]]]]]]]]]|[_ [_ [H|[n [_ [_ H]]]]]]]]; eapply Hin; eauto.
Qed.
Lemma C25_text_panic_ex_pf : forall P : Profile, utf8_valid (s2b "0" ++ [226; 130; 172]) = true /\ sig_parse_text (s2b "0" ++ [226; 130; 172]) = Panic /\ inside (s2b "0" ++ [226; 130; 172]) 2.
Proof. intros P. split; [reflexivity|]. split; [vm_compute; reflexivity|]. exists 130. split; [reflexivity|lia]. Qed.
