(** Proofs of the Matter property statements. *)
From Verif Require Import Base Utf8 B64 Util MatterTables Matter Spec MatterDefs.
From Verif Require BaseFacts B64Facts UtilFacts MatterFacts MatterFacts2 MatterFacts3 SpecFacts MatterFacts4.
Import BaseFacts B64Facts UtilFacts MatterFacts MatterFacts2 MatterFacts3 SpecFacts MatterFacts4.

Lemma constructed_wf `{P : Profile} m : constructed m -> exists z, wf m z.
Proof.
  intros [code [raw [Hc [Hb H]]]]. apply table_code_sizage in Hc as [z Hz]. unfold build, matter_new in H. eapply new_wf; eauto.
Qed.

(** C01 *)
Lemma C01_text_round_trip_pf : forall (P : Profile) (code raw : bytes) (m : matter),
  table_code code -> bytes_ok raw = true -> build code raw = Ok m ->
  exists t, matter_qb64 m = Ok t /\ parse_text t = Ok m /\ matter_qb64b m = Ok t /\ parse_text_bytes t = Ok m.
Proof.
  intros P code raw m Hc Hb H. destruct (constructed_wf m) as [z W]; [exists code, raw; auto|].
  exists (text_of z m). pose proof (exfil_text z m [] W eq_refl) as X. rewrite app_nil_r in X.
  assert (U : from_utf8 (text_of z m) = Ok (text_of z m)) by (apply from_utf8_ascii, all_b64_ascii, all_b64_text; auto).
  repeat split; try apply infil_wf; auto. unfold parse_text_bytes, matter_new, matter_new_with_qb64b. rewrite U. exact X.
Qed.
Lemma C01_text_round_trip_ex_pf : table_code (s2b "5B") /\ bytes_ok [1; 2; 255] = true /\
  forall P : Profile, build (s2b "5B") [1; 2; 255] = Ok (Mat (s2b "4B") 1 [1; 2; 255]) /\
    matter_qb64 (Mat (s2b "4B") 1 [1; 2; 255]) = Ok (s2b "4BABAQL_").
Proof. split; [right; vm_compute; tauto|]. split; [reflexivity|]. intros P; vm_compute; split; reflexivity. Qed.

(** C02 *)
Lemma C02_binary_round_trip_pf : forall (P : Profile) (code raw : bytes) (m : matter),
  table_code code -> bytes_ok raw = true -> build code raw = Ok m ->
  exists b, matter_qb2 m = Ok b /\ bytes_ok b = true /\ parse_binary b = Ok m.
Proof.
  intros P code raw m Hc Hb H. destruct (constructed_wf m) as [z W]; [exists code, raw; auto|].
  exists (bin_of z m). pose proof (bexfil_bin z m [] W eq_refl) as X. rewrite app_nil_r in X.
  repeat split; auto using binfil_wf, bytes_ok_bin.
Qed.
Lemma C02_binary_round_trip_ex_pf : table_code (s2b "M") /\ forall P : Profile,
  build (s2b "M") [18; 52; 86] = Ok (Mat (s2b "M") 0 [18; 52]) /\ matter_qb2 (Mat (s2b "M") 0 [18; 52]) = Ok [48; 18; 52].
Proof. split; [left; vm_compute; tauto|]. intros P; vm_compute; split; reflexivity. Qed.

(** C03: the text is the binary form in Base64, code and size in front, raw at the end, zero bits in between *)
Lemma C03_composable_pf : forall (P : Profile) (m : matter), constructed m ->
  exists t b soft pre, matter_qb64 m = Ok t /\ matter_qb2 m = Ok b /\
    len b mod 3 = 0 /\ t = b64_of b /\
    is_prefix (m_code m ++ soft) t /\ b = pre ++ m_raw m /\
    (soft = [] /\ m_size m = 0 \/ exists k, soft = b64_numeral k (m_size m) /\ m_size m < 64 ^ k).
Proof.
  intros P m Hm. destruct (constructed_wf m Hm) as [z W]. pose proof (len_bin _ _ W) as [_ H3].
  exists (text_of z m), (bin_of z m), (soft_of z (m_size m)), (bcode (both_of z m) ++ rep 0 (ls z)).
  split; [apply infil_wf; auto|]. split; [apply binfil_wf; auto|]. split; [auto|].
  split; [rewrite b64_of_encode by (auto using bytes_ok_bin); apply text_is_encode_bin; auto|].
  split; [eexists; reflexivity|]. split; [unfold bin_of; rewrite app_assoc; reflexivity|].
  pose proof (wf_len _ _ W) as Hl. unfold raw_len_ok in Hl. destruct (variable z) eqn:V.
  - right. exists (ss z). rewrite b64_numeral_digits. split; [reflexivity|tauto].
  - left. pose proof (get_sizage_zfacts _ _ (wf_sz _ _ W)) as Z. destruct (zf_fix _ _ Z V) as [Hs _]. destruct Hl as [Hl _]. split; auto.
    unfold soft_of. rewrite Hs. reflexivity.
Qed.

Lemma concat_bin `{P : Profile} l :
  (forall m t b, In (m, t, b) l -> constructed m /\ matter_qb64 m = Ok t /\ matter_qb2 m = Ok b) ->
  bytes_ok (concat (map snd l)) = true /\ len (concat (map snd l)) mod 3 = 0 /\
  concat (map (fun x => snd (fst x)) l) = b64_of (concat (map snd l)).
Proof.
  induction l as [|[[m t] b] l IH]; intros H; [vm_compute; auto|].
  destruct IH as [I1 [I2 I3]]; [intros; apply H; right; auto|].
  destruct (H m t b (or_introl eq_refl)) as [Hm [Ht Hb]]. destruct (constructed_wf m Hm) as [z W].
  unfold matter_qb64, matter_qb2 in *. rewrite (infil_wf z) in Ht by auto. rewrite (binfil_wf z) in Hb by auto. injection Ht as <-. injection Hb as <-.
  pose proof (len_bin _ _ W) as [_ H3]. cbn [map concat fst snd].
  rewrite bytes_ok_app, I1, bytes_ok_bin, len_app by auto. split; [reflexivity|]. split; [lia|].
  rewrite b64_of_app by auto using bytes_ok_bin. rewrite b64_of_encode by auto using bytes_ok_bin. rewrite <- text_is_encode_bin, I3; auto.
Qed.
(** C03: conversion commutes with concatenation of any list of primitives *)
Lemma C03_concatenation_pf : forall (P : Profile) (l : list (matter * bytes * bytes)),
  (forall m t b, In (m, t, b) l -> constructed m /\ matter_qb64 m = Ok t /\ matter_qb2 m = Ok b) ->
  concat (map (fun x => snd (fst x)) l) = b64_of (concat (map snd l)).
Proof. intros P l H. apply concat_bin; auto. Qed.
Lemma C03_composable_ex_pf : forall P : Profile, constructed (Mat (s2b "6B") 2 [1; 2; 3; 4]) /\
  matter_qb64 (Mat (s2b "6B") 2 [1; 2; 3; 4]) = Ok (s2b "6BACAAABAgME") /\
  matter_qb2 (Mat (s2b "6B") 2 [1; 2; 3; 4]) = Ok [232; 16; 2; 0; 0; 1; 2; 3; 4] /\
  b64_of [232; 16; 2; 0; 0; 1; 2; 3; 4] = s2b "6BACAAABAgME".
Proof.
  intros P. split; [exists (s2b "4B"), [1; 2; 3; 4]; split; [right; vm_compute; tauto|split; [reflexivity|vm_compute; reflexivity]]|].
  vm_compute. auto.
Qed.

(** C04 *)
Lemma C04_self_framing_pf : forall (P : Profile) (m : matter), constructed m ->
  exists t b, matter_qb64 m = Ok t /\ matter_qb2 m = Ok b /\
    matter_full_size m = Ok (len t) /\ len b * 4 = len t * 3 /\
    (forall tail, utf8_valid tail = true -> parse_text (t ++ tail) = Ok m) /\
    (forall tail, bytes_ok tail = true -> parse_binary (b ++ tail) = Ok m).
Proof.
  intros P m Hm. destruct (constructed_wf m Hm) as [z W]. pose proof (len_bin _ _ W) as [H4 _]. pose proof (len_text _ _ W) as Hl.
  exists (text_of z m), (bin_of z m). rewrite Hl. repeat split; auto using infil_wf, binfil_wf, full_size_wf.
  - intros tail Ht. apply exfil_text; auto.
  - intros tail Ht. apply bexfil_bin; auto.
Qed.
(** C04: a concatenation of any number of primitives parses back one by one *)
Lemma C04_stream_pf : forall (P : Profile) (l : list (matter * bytes)) (tail : bytes),
  (forall m t, In (m, t) l -> constructed m /\ matter_qb64 m = Ok t) -> utf8_valid tail = true ->
  parse_all (length l) (concat (map snd l) ++ tail) = Ok (map fst l).
Proof.
  intros P l tail. induction l as [|[m t] l IH]; intros H Hu; [reflexivity|].
  cbn [map concat length parse_all fst snd]. destruct (H m t (or_introl eq_refl)) as [Hm Ht].
  destruct (constructed_wf m Hm) as [z W]. unfold matter_qb64 in *. rewrite (infil_wf z) in Ht by auto. injection Ht as <-.
  assert (IH' : parse_all (length l) (concat (map snd l) ++ tail) = Ok (map fst l)) by (apply IH; auto; intros; apply H; right; auto).
  assert (Hu2 : utf8_valid (concat (map snd l) ++ tail) = true).
  { clear - H Hu. revert H. induction l as [|[m1 t1] l IHl]; intros H; [exact Hu|].
    cbn [map concat snd fst]. rewrite <- app_assoc.
    destruct (H m1 t1 (or_intror (or_introl eq_refl))) as [Hm1 Ht1]. destruct (constructed_wf m1 Hm1) as [z1 W1].
    unfold matter_qb64 in Ht1. rewrite (infil_wf z1) in Ht1 by auto. injection Ht1 as <-.
    pose proof (all_b64_ascii _ (all_b64_text _ _ W1)) as A.
    assert (Hr : utf8_valid (concat (map snd l) ++ tail) = true).
    { apply IHl. intros m' t' [E|I]; apply H; [left; auto|right; right; auto]. }
    clear - A Hr. induction (text_of z1 m1) as [|c r IHr]; [exact Hr|]. cbn in A. apply andb_true_iff in A as [Hc A].
    cbn [app utf8_valid]. rewrite Hc. apply IHr. exact A. }
  rewrite <- app_assoc. unfold parse_text, matter_new, matter_new_with_qb64. rewrite exfil_text by auto. cbn [obind].
  rewrite (full_size_wf z) by auto. cbn [obind]. rewrite drop_app_exact by (apply len_text; auto). rewrite IH'. reflexivity.
Qed.
Lemma C04_self_framing_ex_pf : forall P : Profile, constructed (Mat (s2b "2AAA") 0 [7; 9]) /\
  parse_text (s2b "2AAAAAcJ-AAB") = Ok (Mat (s2b "2AAA") 0 [7; 9]) /\ matter_full_size (Mat (s2b "2AAA") 0 [7; 9]) = Ok 8.
Proof.
  intros P. split; [exists (s2b "2AAA"), [7; 9]; split; [left; vm_compute; tauto|split; [reflexivity|vm_compute; reflexivity]]|].
  vm_compute. auto.
Qed.

Lemma no_pad_text_b64 z m t : parsed m z t -> ~ In pad_char (take (full_of z (m_size m)) t) -> all_b64 (take (full_of z (m_size m)) t) = true.
Proof.
  intros Hp Hn. rewrite (pa_text _ _ _ Hp) in *. unfold text_of, both_of, soft_of in *. rewrite !all_b64_app.
  pose proof (get_sizage_zfacts _ _ (pa_sz _ _ _ Hp)) as Z. rewrite (zf_b64 _ _ Z).
  rewrite all_b64_chr by (apply digits_lt; lia). cbn [andb].
  apply forallb_forall. intros c Hc. destruct (N.eq_dec c pad_char) as [->|Hne].
  - exfalso. apply Hn. apply in_or_app. right. exact Hc.
  - apply In_drop in Hc. unfold b64_encode in Hc. apply in_app_or in Hc as [Hc|Hc].
    + apply in_map_iff in Hc as [i [<- Hi]]. apply is_b64_chr64.
      assert (F : Forall (fun s => s < 64) (sextets (rep 0 (cs_of z mod 4 + ls z) ++ m_raw m))).
      { apply sextets_lt. rewrite bytes_ok_app, bytes_ok_rep0, (pa_bytes _ _ _ Hp). reflexivity. }
      rewrite Forall_forall in F. auto.
    + apply repeat_spec in Hc. contradiction.
Qed.

(** C05: whatever parses and has no '=' in the consumed part is exactly what re-encoding gives *)
Lemma C05_text_canonical_pf : forall (P : Profile) (t : bytes) (m : matter),
  parse_text t = Ok m -> exists k, matter_full_size m = Ok k /\ k <= len t /\
    (~ In 61 (take k t) -> matter_qb64 m = Ok (take k t) /\ b64_text (take k t)).
Proof.
  intros P t m H. destruct (exfil_parsed _ _ H) as [z Hp]. exists (full_of z (m_size m)).
  pose proof (get_sizage_zfacts _ _ (pa_sz _ _ _ Hp)) as Z.
  assert (Hf : matter_full_size m = Ok (full_of z (m_size m))).
  { unfold matter_full_size. rewrite (pa_sz _ _ _ Hp). cbn [obind]. change (fs z =? u32_max) with (variable z). unfold full_of.
    destruct (variable z) eqn:V; [|reflexivity]. cbn [negb]. pose proof (pa_size _ _ _ Hp) as Hs.
    destruct (zf_var _ _ Z V) as [_ [Hss _]]. pose proof (zf_cs8 _ _ Z).
    assert (m_size m < 64 ^ 4) by (eapply N.lt_le_trans; [exact Hs|]; apply N.pow_le_mono_r; lia).
    unfold cs_of in *. rewrite mul32_ok by (unfold U32; npow; lia). cbn [obind].
    rewrite add32_ok by (unfold U32; npow; lia). cbn [obind]. rewrite add32_ok by (unfold U32; npow; lia). f_equal. lia. }
  split; [exact Hf|]. split; [apply (pa_len _ _ _ Hp)|]. intros Hn.
  assert (Ha : all_b64 (take (full_of z (m_size m)) t) = true) by (apply no_pad_text_b64; auto).
  assert (W : wf m z) by (eapply parsed_wf; eauto). split; [|apply b64_text_all; auto].
  unfold matter_qb64. rewrite (infil_wf z) by auto. rewrite (pa_text _ _ _ Hp). reflexivity.
Qed.
(** C05, for every string, '=' included: equal results come from equal consumed texts *)
Lemma C05_no_malleability_pf : forall (P : Profile) (t1 t2 : bytes) (m : matter),
  parse_text t1 = Ok m -> parse_text t2 = Ok m ->
  exists k, matter_full_size m = Ok k /\ k <= len t1 /\ k <= len t2 /\ take k t1 = take k t2.
Proof.
  intros P t1 t2 m H1 H2. destruct (C05_text_canonical_pf P t1 m H1) as [k [Hk [Hl _]]].
  destruct (C05_text_canonical_pf P t2 m H2) as [k' [Hk' [Hl' _]]]. rewrite Hk in Hk'. injection Hk' as <-.
  exists k. repeat split; auto.
  destruct (exfil_parsed _ _ H1) as [z Hp]. destruct (exfil_parsed _ _ H2) as [z' Hp'].
  assert (z' = z) by (pose proof (pa_sz _ _ _ Hp); pose proof (pa_sz _ _ _ Hp'); congruence). subst z'.
  assert (Ef : k = full_of z (m_size m)).
  { apply (f_equal len) in Hk || idtac. pose proof Hk as Hk2. unfold matter_full_size in Hk2. rewrite (pa_sz _ _ _ Hp) in Hk2. cbn [obind] in Hk2.
    change (fs z =? u32_max) with (variable z) in Hk2. unfold full_of. destruct (variable z) eqn:V; cbn [negb] in Hk2; [|congruence].
    pose proof (get_sizage_zfacts _ _ (pa_sz _ _ _ Hp)) as Z. pose proof (pa_size _ _ _ Hp) as Hs.
    destruct (zf_var _ _ Z V) as [_ [Hss _]]. pose proof (zf_cs8 _ _ Z).
    assert (m_size m < 64 ^ 4) by (eapply N.lt_le_trans; [exact Hs|]; apply N.pow_le_mono_r; lia).
    unfold cs_of in *. rewrite mul32_ok in Hk2 by (unfold U32; npow; lia). cbn [obind] in Hk2.
    rewrite add32_ok in Hk2 by (unfold U32; npow; lia). cbn [obind] in Hk2. rewrite add32_ok in Hk2 by (unfold U32; npow; lia).
    injection Hk2 as <-. lia. }
  subst k. rewrite (pa_text _ _ _ Hp), (pa_text _ _ _ Hp'). reflexivity.
Qed.
Lemma C05_text_canonical_ex_pf : forall P : Profile, parse_text (s2b "MBI0junk") = Ok (Mat (s2b "M") 0 [18; 52]) /\
  take 4 (s2b "MBI0junk") = s2b "MBI0" /\ parse_text (s2b "MQAB") = Err E_Prepad.
Proof. intros P; vm_compute; auto. Qed.

(** C06 refuted: padding is accepted, and the result cannot be encoded again *)
Lemma C06_padding_accepted_refuted_pf : exists t m, In 61 t /\ forall P : Profile,
  parse_text t = Ok m /\ matter_qb64 m = Err E_InvalidCodeSize /\ matter_qb2 m = Err E_InvalidCodeSize.
Proof. exists (s2b "MAA="), (Mat (s2b "M") 0 [0]). split; [vm_compute; tauto|]. intros P; vm_compute; auto. Qed.
(** ... and with overflow checks re-encoding panics *)
Lemma C06_reencode_panics_refuted_pf : exists t m, parse_text (P := true) t = Ok m /\ parse_text (P := false) t = Ok m /\
  matter_qb64 (H := true) m = Panic /\ matter_qb64 (H := false) m = Err E_InvalidCodeSize.
Proof. exists (s2b "2AAAAA=="), (Mat (s2b "2AAA") 0 []). vm_compute; auto. Qed.
Lemma reencode_no_pad : forall (P : Profile) (t : bytes) (m : matter) (k : N),
  parse_text t = Ok m -> matter_full_size m = Ok k -> ~ In 61 (take k t) ->
  exists b, matter_qb64 m = Ok (take k t) /\ matter_qb2 m = Ok b /\ b64_of b = take k t.
Proof.
  intros P t m k H Hk Hn. destruct (C05_text_canonical_pf P t m H) as [k' [Hk' [Hl Hc]]]. rewrite Hk in Hk'. injection Hk' as <-.
  destruct (Hc Hn) as [Hq Hb]. destruct (exfil_parsed _ _ H) as [z Hp].
  assert (Ef : k = full_of z (m_size m)).
  { destruct (C05_no_malleability_pf P t t m H H) as [k2 [Hk2 _]].
    pose proof Hq as Hq2. assert (E : take k t = take k t) by reflexivity.
    pose proof Hk as Hk3. unfold matter_full_size in Hk3. rewrite (pa_sz _ _ _ Hp) in Hk3. cbn [obind] in Hk3.
    change (fs z =? u32_max) with (variable z) in Hk3. unfold full_of. destruct (variable z) eqn:V; cbn [negb] in Hk3; [|congruence].
    pose proof (get_sizage_zfacts _ _ (pa_sz _ _ _ Hp)) as Z. pose proof (pa_size _ _ _ Hp) as Hs.
    destruct (zf_var _ _ Z V) as [_ [Hss _]]. pose proof (zf_cs8 _ _ Z).
    assert (m_size m < 64 ^ 4) by (eapply N.lt_le_trans; [exact Hs|]; apply N.pow_le_mono_r; lia).
    unfold cs_of in *. rewrite mul32_ok in Hk3 by (unfold U32; npow; lia). cbn [obind] in Hk3.
    rewrite add32_ok in Hk3 by (unfold U32; npow; lia). cbn [obind] in Hk3. rewrite add32_ok in Hk3 by (unfold U32; npow; lia).
    injection Hk3 as <-. lia. }
  subst k. assert (Ha : all_b64 (take (full_of z (m_size m)) t) = true) by (apply no_pad_text_b64; auto).
  assert (W : wf m z) by (eapply parsed_wf; eauto). exists (bin_of z m). split; [auto|]. split; [apply binfil_wf; auto|].
  pose proof (len_bin _ _ W) as [_ H3]. rewrite b64_of_encode by auto using bytes_ok_bin. rewrite <- text_is_encode_bin by auto.
  symmetry. apply (pa_text _ _ _ Hp).
Qed.
Lemma pad_in_encode bs : In pad_char (b64_encode bs) -> bytes_ok bs = true -> len bs mod 3 <> 0.
Proof.
  intros H Hb E. apply b64_encode_all in E; auto. eapply forallb_forall in E; eauto. vm_compute in E. discriminate.
Qed.
Lemma infil_buf_mod3 `{P : Profile} m z q : get_sizage (m_code m) = Ok z -> matter_infil m = Ok q ->
  (len (m_raw m) + ls z + cs_of z mod 4) mod 3 = 0.
Proof.
  intros Hz H. unfold matter_infil in H. rewrite Hz in H. cbn [obind] in H. pose proof (get_sizage_zfacts _ _ Hz) as Z.
  pose proof (zf_cs3 _ _ Z) as Hc3. pose proof (zf_cs_ls _ _ Z) as Hcl.
  change (fs z =? u32_max) with (variable z) in H. destruct (variable z) eqn:V.
  - destruct (zf_var _ _ Z V) as [Hm [Hss _]]. change (hs z + ss z) with (cs_of z) in H.
    rewrite Hm in *. cbn in H. inv_bind H p Ep. inv_bind H lim El. destruct (lim <? m_size m); [discriminate|].
    inv_bind H soft Es. destruct (_ || _); [discriminate|]. inv_bind H b Eb.
    destruct (N.eq_dec (len (rep 0 (ls z) ++ m_raw m) mod 3) 0) as [E|E].
    + rewrite len_app, len_rep in E. rewrite <- E. f_equal. lia.
    + rewrite b64_encode_slice_err in Eb by auto. discriminate.
  - destruct (zf_fix _ _ Z V) as [H1 [H2 [H3 [H4 [H5 [H6 H7]]]]]].
    inv_bind H d Ed. assert (Hcl' : cs_of z = len (m_code m)) by (rewrite (zf_len _ _ Z); unfold cs_of; lia).
    destruct (negb _) eqn:En; [discriminate|]. rewrite <- Hcl' in En.
    unfold sub32 in Ed. destruct (ls z <=? (3 - len (m_raw m) mod 3) mod 3) eqn:El.
    + injection Ed as <-. lia.
    + destruct overflow_checks; [discriminate|]. injection Ed as <-. exfalso. unfold U32 in En. lia.
Qed.
Lemma full_size_parsed `{P : Profile} m z t : parsed m z t -> matter_full_size m = Ok (full_of z (m_size m)).
Proof.
  intros Hp. pose proof (get_sizage_zfacts _ _ (pa_sz _ _ _ Hp)) as Z.
  unfold matter_full_size. rewrite (pa_sz _ _ _ Hp). cbn [obind]. change (fs z =? u32_max) with (variable z). unfold full_of.
  destruct (variable z) eqn:V; [|reflexivity]. cbn [negb]. pose proof (pa_size _ _ _ Hp) as Hs.
  destruct (zf_var _ _ Z V) as [_ [Hss _]]. pose proof (zf_cs8 _ _ Z).
  assert (m_size m < 64 ^ 4) by (eapply N.lt_le_trans; [exact Hs|]; apply N.pow_le_mono_r; lia).
  unfold cs_of in *. rewrite mul32_ok by (unfold U32; npow; lia). cbn [obind].
  rewrite add32_ok by (unfold U32; npow; lia). cbn [obind]. rewrite add32_ok by (unfold U32; npow; lia). f_equal. lia.
Qed.
Lemma parsed_pad m z t : parsed m z t -> In pad_char (take (full_of z (m_size m)) t) -> (len (m_raw m) + ls z + cs_of z mod 4) mod 3 <> 0.
Proof.
  intros Hp Hi. rewrite (pa_text _ _ _ Hp) in Hi. pose proof (get_sizage_zfacts _ _ (pa_sz _ _ _ Hp)) as Z.
  unfold text_of in Hi. apply in_app_or in Hi as [Hi|Hi].
  - exfalso. assert (Ha : all_b64 (both_of z m) = true).
    { unfold both_of, soft_of. rewrite all_b64_app, (zf_b64 _ _ Z), all_b64_chr by (apply digits_lt; lia). reflexivity. }
    eapply forallb_forall in Ha; eauto. vm_compute in Ha. discriminate.
  - apply In_drop in Hi. apply pad_in_encode in Hi.
    + rewrite len_app, len_rep in Hi. intros E. apply Hi. rewrite <- E. f_equal. lia.
    + rewrite bytes_ok_app, bytes_ok_rep0, (pa_bytes _ _ _ Hp). reflexivity.
Qed.
(** C06: exactly which accepted texts can be encoded again *)
Lemma C06_reencodes_iff_pf : forall (P : Profile) (t : bytes) (m : matter), parse_text t = Ok m ->
  exists k, matter_full_size m = Ok k /\ k <= len t /\
    ((exists q, matter_qb64 m = Ok q) <-> ~ In 61 (take k t)) /\
    (~ In 61 (take k t) -> exists b, matter_qb64 m = Ok (take k t) /\ matter_qb2 m = Ok b /\ b64_of b = take k t).
Proof.
  intros P t m H. destruct (exfil_parsed _ _ H) as [z Hp]. exists (full_of z (m_size m)).
  pose proof (full_size_parsed _ _ _ Hp) as Hf. split; [exact Hf|]. split; [apply (pa_len _ _ _ Hp)|].
  pose proof (reencode_no_pad P t m _ H Hf) as Hr. split; [|exact Hr]. split.
  - intros [q Hq] Hi. eapply parsed_pad; eauto. eapply infil_buf_mod3; eauto. apply (pa_sz _ _ _ Hp).
  - intros Hn. destruct (Hr Hn) as [b [Hb _]]. eauto.
Qed.

(** C07 *)
Lemma C07_binary_canonical_pf : forall (P : Profile) (b : bytes) (m : matter), bytes_ok b = true ->
  parse_binary b = Ok m -> exists k, matter_full_size m = Ok k /\ k mod 4 = 0 /\ k * 3 / 4 <= len b /\
    matter_qb2 m = Ok (take (k * 3 / 4) b) /\ matter_qb64 m = Ok (b64_of (take (k * 3 / 4) b)).
Proof.
  intros P b m Hok H. destruct (bexfil_inv _ _ Hok H) as [z [W E]]. exists (full_of z (m_size m)).
  pose proof (len_bin _ _ W) as [H4 H3].
  assert (Hl : len (bin_of z m) = full_of z (m_size m) * 3 / 4) by lia.
  assert (Et : take (full_of z (m_size m) * 3 / 4) b = bin_of z m) by (rewrite E; apply take_app_exact; auto).
  split; [apply full_size_wf; auto|]. split; [lia|]. split; [apply (f_equal len) in E; rewrite len_app in E; lia|].
  rewrite Et. split; [apply binfil_wf; auto|]. rewrite b64_of_encode by auto using bytes_ok_bin. rewrite <- text_is_encode_bin by auto.
  apply infil_wf; auto.
Qed.
Lemma C07_binary_canonical_ex_pf : forall P : Profile, parse_binary [48; 18; 52; 99] = Ok (Mat (s2b "M") 0 [18; 52]) /\
  parse_binary [49; 18; 52] = Err E_NonZeroedPadBits.
Proof. intros P; vm_compute; auto. Qed.

(** C08: same acceptance, same primitive, same panics *)
Lemma C08_text_binary_agree_pf : forall (P : Profile) (b : bytes), bytes_ok b = true -> len b mod 3 = 0 ->
  (forall m, parse_text (b64_of b) = Ok m <-> parse_binary b = Ok m) /\
  (parse_text (b64_of b) = Panic <-> parse_binary b = Panic).
Proof.
  intros P b Hok H3. rewrite b64_of_encode by auto.
  assert (Ha : all_b64 (b64_encode b) = true) by (apply b64_encode_all; auto).
  assert (Hd : b64_decode (b64_encode b) = Ok b) by (apply b64_decode_encode; auto).
  split; [intros m; apply agree_ok; auto|]. split; intros H.
  - destruct (exfil_panic_inv (b64_encode b)) as [h [r [Hin E]]]; auto.
    { split; [apply all_b64_ascii; auto|]. intros I. eapply forallb_forall in Ha; [|exact I]. vm_compute in Ha. discriminate. }
    assert (Hh : all_b64 h = true /\ len h mod 4 = 0).
    { assert (X : forallb (fun h => all_b64 h && (len h mod 4 =? 0)) zero_heads = true) by (vm_compute; reflexivity).
      eapply forallb_forall in X; [|exact Hin]. apply andb_true_iff in X as [X1 X2]. split; auto. lia. }
    destruct Hh as [Hh1 Hh2]. destruct (b64_decode_all h Hh1 Hh2) as [hb [Hhb _]].
    destruct (b64_decode_all_inv _ _ Hh1 Hhb) as [Hhb3 Hlhb]. destruct (b64_decode_inv _ _ Hhb) as [Hokh Heh].
    assert (Hr : all_b64 r = true /\ len r mod 4 = 0).
    { rewrite E, all_b64_app in Ha. apply andb_true_iff in Ha as [_ Ha]. split; auto.
      pose proof (len_b64_encode b) as L. rewrite E, len_app in L. lia. }
    destruct Hr as [Hr1 Hr2]. destruct (b64_decode_all r Hr1 Hr2) as [rb [Hrb _]]. destruct (b64_decode_inv _ _ Hrb) as [Hokr Her].
    assert (Eb : b = hb ++ rb).
    { apply b64_encode_inj; auto; [rewrite bytes_ok_app, Hokh; auto|]. rewrite b64_encode_app by auto. congruence. }
    rewrite Eb. apply (bexfil_zero_head h); auto.
  - destruct (bexfil_panic_inv b Hok H) as [h [hb [r [Hin [Hhb E]]]]].
    assert (Hh : all_b64 h = true /\ len h mod 4 = 0).
    { assert (X : forallb (fun h => all_b64 h && (len h mod 4 =? 0)) zero_heads = true) by (vm_compute; reflexivity).
      eapply forallb_forall in X; [|exact Hin]. apply andb_true_iff in X as [X1 X2]. split; auto. lia. }
    destruct Hh as [Hh1 Hh2]. destruct (b64_decode_all_inv _ _ Hh1 Hhb) as [Hhb3 _]. destruct (b64_decode_inv _ _ Hhb) as [_ Heh].
    rewrite E, b64_encode_app, Heh by auto. apply exfil_zero_head; auto. apply utf8_ascii, b64_encode_ascii.
    rewrite E, bytes_ok_app in Hok. apply andb_true_iff in Hok; tauto.
Qed.
Lemma C08_text_binary_agree_ex_pf : forall P : Profile, bytes_ok [228; 16; 1; 0; 1; 2] = true /\ b64_of [228; 16; 1; 0; 1; 2] = s2b "5BABAAEC" /\
  parse_binary [228; 16; 1; 0; 1; 2] = Ok (Mat (s2b "5B") 1 [1; 2]).
Proof. intros P; vm_compute; auto. Qed.

Lemma ascii_no_pad_plain t : ascii_no_pad t -> plain t.
Proof.
  intros H. split.
  - apply forallb_forall. intros c Hc. destruct (H c Hc). lia.
  - intros I. destruct (H _ I) as [_ X]. apply X. reflexivity.
Qed.
(** C09: exactly which texts, of all, make the parser panic: a slice position
    inside a multi-byte character (end of the code, of the fixed size text, of
    the size characters, of the sized text), lead bytes without room, or two
    lead bytes but only one byte of padded text *)
Lemma C09_text_panics_iff_pf : forall (P : Profile) (t : bytes), parse_text t = Panic <->
  (exists c r h, t = c :: r /\ code_length c h /\ inside t h) \/
  (exists code n f, In (code, (n, f)) fixed_codes /\ is_prefix code t /\ inside t f) \/
  (exists code, In code variable_codes /\ is_prefix code t /\ let w := len code in
     (inside t (2 * w) \/ exists n, n < 64 ^ w /\ take w (drop w t) = b64_numeral w n /\ inside t (4 * n + 2 * w))) \/
  (exists h, In h empty_lead_heads /\ is_prefix h t) \/
  (exists h c1 c2, In h short_lead_heads /\ In c1 b64_alphabet /\ In c2 (s2b "AQgw") /\ is_prefix (h ++ [c1; c2; 61; 61]) t).
Proof.
  intros P t. unfold parse_text, matter_new, matter_new_with_qb64. rewrite exfil_panic_all. unfold panic_text.
  assert (Hh : forall c h, hardage c = Ok h <-> code_length c h).
  { intros c h. unfold hardage, code_length, letter. destruct (((65 <=? c) && (c <=? 90)) || ((97 <=? c) && (c <=? 122))) eqn:E1.
    - split; [intros [= <-]; left; split; [|auto]; clear - E1; lia|]. cbn [In s2b list_ascii_of_string map].
      intros [[_ ->]|[[X ->]|[X ->]]]; [reflexivity|exfalso|exfalso]; cbn in X; repeat (destruct X as [<-|X]; [discriminate E1|]); destruct X.
    - destruct (existsb (N.eqb c) [48; 52; 53; 54]) eqn:E2; [|destruct (existsb (N.eqb c) [49; 50; 51; 55; 56; 57]) eqn:E3].
      + apply existsb_exists in E2 as [x [Hx E2]]. apply N.eqb_eq in E2. subst x. split; [intros [= <-]; right; left; split; [exact Hx|auto]|].
        intros [[X ->]|[[X ->]|[X ->]]]; [clear - X E1; lia|reflexivity|]. exfalso. vm_compute in Hx, X. clear - Hx X. lia.
      + apply existsb_exists in E3 as [x [Hx E3]]. apply N.eqb_eq in E3. subst x. split; [intros [= <-]; right; right; split; [exact Hx|auto]|].
        intros [[X ->]|[[X ->]|[X ->]]]; [clear - X E1; lia| |reflexivity]. exfalso. vm_compute in Hx, X. clear - Hx X. lia.
      + split; [destruct (c =? 45), (c =? 95); discriminate|]. intros [[X ->]|[[X ->]|[X ->]]]; exfalso; [clear - X E1; lia| |].
        * assert (existsb (N.eqb c) [48; 52; 53; 54] = true) by (apply existsb_exists; exists c; split; [exact X|apply N.eqb_refl]). congruence.
        * assert (existsb (N.eqb c) [49; 50; 51; 55; 56; 57] = true) by (apply existsb_exists; exists c; split; [exact X|apply N.eqb_refl]). congruence. }
  assert (Hfix : forall code z, get_sizage code = Ok z -> variable z = false -> exists n, In (code, (n, fs z)) fixed_codes).
  { intros code z Hz V. assert (Ht : table_code code) by (apply table_code_sizage; eauto). destruct Ht as [Ht|Ht].
    - apply in_map_iff in Ht as [[c [n f]] [<- Hin]]. destruct (fixed_code_sizage _ _ _ Hin) as [z' [Hz' [_ [<- _]]]]. cbn [fst] in *.
      rewrite Hz in Hz'. injection Hz' as <-. eauto.
    - destruct (var_code_sizage _ Ht) as [z' [Hz' V']]. congruence. }
  assert (Hvar : forall code z, get_sizage code = Ok z -> variable z = true -> In code variable_codes /\ len code = hs z /\ ss z = hs z /\ cs_of z = 2 * len code).
  { intros code z Hz V. pose proof (get_sizage_zfacts _ _ Hz) as Z. destruct (zf_var _ _ Z V) as [_ [_ [Hs _]]].
    split; [|rewrite (zf_len _ _ Z); unfold cs_of; repeat split; lia].
    assert (Ht : table_code code) by (apply table_code_sizage; eauto). destruct Ht as [Ht|Ht]; auto.
    apply in_map_iff in Ht as [[c [n f]] [<- Hin]]. destruct (fixed_code_sizage _ _ _ Hin) as [z' [Hz' [V' _]]]. cbn [fst] in *. congruence. }
  split; (intros [H|[H|[H|[H|H]]]]; [left|right; left|right; right; left|right; right; right; left|right; right; right; right]).
  - destruct H as [c [r [h [E [Hc Hi]]]]]. exists c, r, h. split; auto. split; auto. apply Hh; auto.
  - destruct H as [code [z [Hz [V [Hp Hi]]]]]. destruct (Hfix _ _ Hz V) as [n Hin]. exists code, n, (fs z). auto.
  - destruct H as [code [z [Hz [V [Hp Hi]]]]]. destruct (Hvar _ _ Hz V) as [Hin [Hl [Hs Hc]]]. exists code. split; auto. split; auto. cbv zeta.
    rewrite Hc, Hs, <- Hl in Hi. destruct Hi as [Hi|[n [Hn [E Hi]]]]; [left; auto|]. right. exists n. split; auto. split.
    + rewrite E. unfold soft_of. rewrite Hs, <- Hl, b64_numeral_digits. reflexivity.
    + replace (4 * n) with (n * 4) by (apply N.mul_comm). exact Hi.
  - exact H.
  - exact H.
  - destruct H as [c [r [h [E [Hc Hi]]]]]. exists c, r, h. split; auto. split; auto. apply Hh; auto.
  - destruct H as [code [n [f [Hin [Hp Hi]]]]]. destruct (fixed_code_sizage _ _ _ Hin) as [z [Hz [V [E _]]]]. exists code, z. rewrite E. auto.
  - destruct H as [code [Hin [Hp Hi]]]. destruct (var_code_sizage _ Hin) as [z [Hz V]]. destruct (Hvar _ _ Hz V) as [_ [Hl [Hs Hc]]].
    exists code, z. split; auto. split; auto. split; auto. cbv zeta in Hi. rewrite Hc, Hs, <- Hl. destruct Hi as [Hi|[n [Hn [E Hi]]]]; [left; auto|].
    right. exists n. split; auto. split.
    + rewrite E. unfold soft_of. rewrite Hs, <- Hl, b64_numeral_digits. reflexivity.
    + replace (n * 4) with (4 * n) by (apply N.mul_comm). exact Hi.
  - exact H.
  - exact H.
Qed.
(** C09: exactly which texts (ASCII, without '=') make the parser panic *)
Lemma C09_ascii_text_panics_iff_pf : forall (P : Profile) (t : bytes), ascii_no_pad t ->
  (parse_text t = Panic <-> exists h, In h empty_lead_heads /\ is_prefix h t).
Proof.
  intros P t Ht. pose proof (ascii_no_pad_plain _ Ht) as Hp. split.
  - intros H. destruct (exfil_panic_inv t Hp H) as [h [r [Hin E]]]. exists h. split; [exact Hin|exists r; auto].
  - intros [h [Hin [r E]]]. subst t. apply exfil_zero_head; auto. apply utf8_ascii.
    destruct Hp as [Hp _]. rewrite ascii_ok_app in Hp. apply andb_true_iff in Hp; tauto.
Qed.
(** C09: exactly which byte strings make the binary parser panic *)
Lemma C09_binary_panics_iff_pf : forall (P : Profile) (b : bytes), bytes_ok b = true ->
  (parse_binary b = Panic <-> exists h hb, In h empty_lead_heads /\ len hb mod 3 = 0 /\ bytes_ok hb = true /\ b64_of hb = h /\ is_prefix hb b).
Proof.
  intros P b Hok. split.
  - intros H. destruct (bexfil_panic_inv b Hok H) as [h [hb [r [Hin [Hhb E]]]]]. exists h, hb.
    assert (Hh : all_b64 h = true).
    { assert (X : forallb all_b64 zero_heads = true) by (vm_compute; reflexivity). eapply forallb_forall in X; eauto. }
    destruct (b64_decode_all_inv _ _ Hh Hhb) as [Hhb3 _]. destruct (b64_decode_inv _ _ Hhb) as [Hokh Heh].
    repeat split; auto; [rewrite b64_of_encode; auto|exists r; auto].
  - intros [h [hb [Hin [H3 [Hokh [Eh [r E]]]]]]]. subst b. apply (bexfil_zero_head h); auto.
    + rewrite <- Eh, b64_of_encode by auto. apply b64_decode_encode; auto.
    + rewrite bytes_ok_app in Hok. apply andb_true_iff in Hok; tauto.
Qed.
(** C09 refuted: ASCII, padded and non-ASCII texts, and bytes, that panic in both profiles *)
Lemma C09_never_panics_refuted_pf : forall P : Profile,
  parse_text (s2b "5AAA") = Panic /\ parse_text (s2b "3AAAAA==") = Panic /\
  (utf8_valid (s2b "1" ++ [195; 169; 195; 169]) = true /\ parse_text (s2b "1" ++ [195; 169; 195; 169]) = Panic) /\
  parse_binary [228; 0; 0] = Panic.
Proof. intros P; vm_compute; auto 10. Qed.

(** C10: what each argument of the constructor does: raw material needs a code; without it the
    first of the three encodings given is read, whatever the code argument *)
Lemma C10_arguments_pf : forall (P : Profile) (code raw t v : bytes) (c qb64b qb64 qb2 : option bytes),
  matter_new (Some code) (Some raw) qb64b qb64 qb2 = build code raw /\
  matter_new None (Some raw) qb64b qb64 qb2 = Err E_EmptyMaterial /\
  matter_new c None (Some t) qb64 qb2 = parse_text_bytes t /\
  matter_new c None None (Some t) qb2 = parse_text t /\
  matter_new c None None None (Some v) = parse_binary v /\
  matter_new c None None None None = Err E_Validation.
Proof. intros. repeat split; reflexivity. Qed.
(** C10 *)
Lemma C10_raw_size_pf : forall (P : Profile) (code raw : bytes) (n f : N), In (code, (n, f)) fixed_codes ->
  (len raw < n -> build code raw = Err E_Shortage) /\
  (n <= len raw -> build code raw = Ok (Mat code 0 (take n raw)) /\
     (bytes_ok raw = true -> exists t, matter_qb64 (Mat code 0 (take n raw)) = Ok t /\ len t = f)).
Proof.
  intros P code raw n f Hin. destruct (fixed_code_sizage _ _ _ Hin) as [z [Hz [V [Hf Hn]]]].
  unfold build, matter_new. rewrite (new_fixed _ _ _ Hz V), Hn.
  split; intros Hl; [replace (len raw <? n) with true by lia; reflexivity|]. replace (len raw <? n) with false by lia.
  split; [reflexivity|]. intros Hb. assert (W : wf (Mat code 0 (take n raw)) z).
  { constructor; cbn [m_code m_size m_raw]; auto; [apply bytes_ok_take; auto|]. unfold raw_len_ok. rewrite V. split; auto.
    rewrite len_take. lia. }
  exists (text_of z (Mat code 0 (take n raw))). split; [apply infil_wf; auto|].
  rewrite len_text by auto. unfold full_of. rewrite V. exact Hf.
Qed.
(** C10: every other code is rejected, unless it starts like a variable size code *)
Lemma C10_unknown_code_pf : forall (P : Profile) (code raw : bytes), ~ table_code code ->
  (forall c r, code = c :: r -> ~ In c (s2b "456789")) ->
  build code raw = Err E_EmptyMaterial \/ build code raw = Err E_UnknownSizage.
Proof.
  intros P code raw Ht Hc. unfold build, matter_new, matter_new_with_code_and_raw. destruct code as [|c r]; [auto|right].
  specialize (Hc c r eq_refl).
  assert (E : (existsb (N.eqb c) small_vrz || existsb (N.eqb c) large_vrz) = false).
  { apply orb_false_iff. split; apply not_true_iff_false; intros X; apply existsb_exists in X as [x [Hx E]]; apply N.eqb_eq in E; subst x;
    apply Hc; vm_compute in Hx |- *; tauto. }
  rewrite E. unfold raw_size. destruct (get_sizage (c :: r)) as [z|e|] eqn:G.
  - exfalso. apply Ht. apply table_code_sizage. eauto.
  - unfold get_sizage in G. destruct (assoc _ _); [discriminate|]. injection G as <-. reflexivity.
  - exfalso. eapply get_sizage_not_panic; eauto.
Qed.
(** C10 refuted for the rest: "4Z" is accepted but can never be encoded; "4" panics *)
Lemma C10_unknown_variable_code_refuted_pf : ~ table_code (s2b "4Z") /\ forall P : Profile,
  build (s2b "4Z") [1; 2; 3] = Ok (Mat (s2b "4Z") 1 [1; 2; 3]) /\ matter_qb64 (Mat (s2b "4Z") 1 [1; 2; 3]) = Err E_UnknownSizage /\
  build (s2b "4") [1; 2; 3] = Panic.
Proof.
  split.
  - intros H. apply table_code_sizage in H as [z Hz]. vm_compute in Hz. discriminate.
  - intros P. vm_compute. auto.
Qed.
Lemma C10_raw_size_ex_pf : In (s2b "0A", (16, 24)) fixed_codes /\ In (s2b "1AAF", (3, 8)) fixed_codes /\
  forall P : Profile, build (s2b "1AAF") [1; 2; 3; 4] = Ok (Mat (s2b "1AAF") 0 [1; 2; 3]).
Proof. vm_compute. repeat split; auto 40. Qed.

(** C11 *)
Lemma C11_variable_code_selection_pf : forall (P : Profile) (code raw : bytes) (type lead0 : N),
  In type var_types -> lead0 <= 2 -> len raw < 2 ^ 32 ->
  let lead := pad_to_3 (len raw) in
  let quads := (len raw + lead) / 3 in
  (code = small_var_code lead0 type ->
     (quads < 64 ^ 2 -> build code raw = Ok (Mat (small_var_code lead type) quads raw)) /\
     (64 ^ 2 <= quads < 64 ^ 4 -> build code raw = Ok (Mat (large_var_code lead type) quads raw)) /\
     (64 ^ 4 <= quads -> build code raw = Err E_InvalidVarRawSize)) /\
  (code = large_var_code lead0 type ->
     (quads < 64 ^ 4 -> build code raw = Ok (Mat (large_var_code lead type) quads raw)) /\
     (64 ^ 4 <= quads -> build code raw = Err E_InvalidVarRawSize)).
Proof.
  intros P code raw type lead0 Ht Hl0 Hlen lead quads.
  assert (Hf : type = 65 \/ type = 66) by (cbn in Ht; destruct Ht as [<-|[<-|[]]]; auto).
  assert (Hty : type < 128) by lia.
  assert (Ecode : forall l, l <= 2 -> small_var_code l type = small_code type l /\ large_var_code l type = large_code type l).
  { intros l Hl. assert (l = 0 \/ l = 1 \/ l = 2) as [->|[->| ->]] by lia; split; reflexivity. }
  assert (Hn : as_u32 (len raw) = len raw) by (apply N.mod_small; exact Hlen).
  assert (Hlead : lead <= 2) by (unfold lead, pad_to_3; lia).
  destruct (Ecode lead0 Hl0) as [E1 E2]. destruct (Ecode lead Hlead) as [E3 E4]. rewrite E1, E2, E3, E4.
  unfold build, matter_new. split; intros ->.
  - rewrite new_small by auto. cbv zeta. rewrite Hn. rewrite take_all by lia.
    change (pad3 (len raw)) with lead. fold quads.
    split; [|split]; intros Hq.
    + replace (quads <? 64 ^ 2) with true by lia. reflexivity.
    + replace (quads <? 64 ^ 2) with false by lia. replace (quads <? 64 ^ 4) with true by lia. reflexivity.
    + replace (quads <? 64 ^ 2) with false by lia. replace (quads <? 64 ^ 4) with false by lia. reflexivity.
  - rewrite new_large by auto. cbv zeta. rewrite Hn. rewrite take_all by lia.
    change (pad3 (len raw)) with lead. fold quads.
    split; intros Hq.
    + replace (quads <? 64 ^ 4) with true by lia. reflexivity.
    + replace (quads <? 64 ^ 4) with false by lia. reflexivity.
Qed.
(** C11 refuted at 4 GiB: the length is cut to 32 bits and the raw silently truncated *)
Lemma C11_four_gib_truncated_refuted_pf : exists raw, len raw = 2 ^ 32 /\ forall P : Profile,
  build (s2b "4B") raw = Ok (Mat (s2b "4B") 0 []).
Proof.
  exists (rep 0 (2 ^ 32)). split; [apply len_rep|]. intros P. unfold build, matter_new.
  change (s2b "4B") with (small_code 66 0). rewrite new_small by lia. rewrite len_rep.
  change (as_u32 (2 ^ 32)) with 0. reflexivity.
Qed.
Lemma C11_variable_code_selection_ex_pf : forall P : Profile,
  build (s2b "4A") [9] = Ok (Mat (s2b "6A") 1 [9]) /\
  build (s2b "4B") (rep 7 12286) = Ok (Mat (s2b "9AAB") 4096 (rep 7 12286)).
Proof.
  intros P. split; [vm_compute; reflexivity|].
  destruct (C11_variable_code_selection_pf P (s2b "4B") (rep 7 12286) 66 0) as [H _]; [vm_compute; auto|lia|rewrite len_rep; npow; lia|].
  destruct (H eq_refl) as [_ [H2 _]]. rewrite len_rep in H2. apply H2. vm_compute; split; [discriminate|reflexivity].
Qed.

(** C12 *)
Lemma C12_prefix_free_pf : forall (P : Profile) (m1 m2 : matter) (t1 t2 b1 b2 : bytes), constructed m1 -> constructed m2 ->
  matter_qb64 m1 = Ok t1 -> matter_qb64 m2 = Ok t2 -> matter_qb2 m1 = Ok b1 -> matter_qb2 m2 = Ok b2 ->
  (is_prefix t1 t2 -> m1 = m2) /\ (is_prefix b1 b2 -> m1 = m2).
Proof.
  intros P m1 m2 t1 t2 b1 b2 C1 C2 H1 H2 H3 H4. destruct (constructed_wf m1 C1) as [z1 W1]. destruct (constructed_wf m2 C2) as [z2 W2].
  unfold matter_qb64, matter_qb2 in *. rewrite (infil_wf z1) in H1 by auto. rewrite (infil_wf z2) in H2 by auto.
  rewrite (binfil_wf z1) in H3 by auto. rewrite (binfil_wf z2) in H4 by auto.
  injection H1 as <-. injection H2 as <-. injection H3 as <-. injection H4 as <-. split; intros [r E].
  - eapply text_prefix_eq; eauto.
  - eapply bin_prefix_eq; eauto.
Qed.
Lemma C12_prefix_free_ex_pf : forall P : Profile, constructed (Mat (s2b "M") 0 [0; 1]) /\ constructed (Mat (s2b "0H") 0 [0; 0; 0; 1]).
Proof.
  intros P; split.
  - exists (s2b "M"), [0; 1]. split; [left; vm_compute; tauto|split; [reflexivity|vm_compute; reflexivity]].
  - exists (s2b "0H"), [0; 0; 0; 1]. split; [left; vm_compute; tauto|split; [reflexivity|vm_compute; reflexivity]].
Qed.

(** C13: encoding succeeds and gives the same result with and without overflow checks *)
Lemma C13_encodes_pf : forall (P : Profile) (m : matter), constructed m ->
  exists t b k, forall Q : Profile, matter_qb64 m = Ok t /\ matter_qb2 m = Ok b /\ matter_full_size m = Ok k.
Proof.
  intros P m Hm. destruct (constructed_wf m Hm) as [z W]. exists (text_of z m), (bin_of z m), (full_of z (m_size m)).
  intros Q. repeat split; [apply infil_wf|apply binfil_wf|apply full_size_wf]; auto.
Qed.
(** C13: the same for everything the binary parser accepts *)
Lemma C13_parsed_binary_encodes_pf : forall (P : Profile) (b : bytes) (m : matter), bytes_ok b = true -> parse_binary b = Ok m ->
  exists t b' k, forall Q : Profile, matter_qb64 m = Ok t /\ matter_qb2 m = Ok b' /\ matter_full_size m = Ok k.
Proof.
  intros P b m Hok H. destruct (bexfil_inv _ _ Hok H) as [z [W _]]. exists (text_of z m), (bin_of z m), (full_of z (m_size m)).
  intros Q. repeat split; [apply infil_wf|apply binfil_wf|apply full_size_wf]; auto.
Qed.
