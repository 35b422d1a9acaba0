(** Proofs about the Counter model. *)
From Verif Require Import Base BaseFacts Utf8 B64 B64Facts Util UtilFacts MatterTables MatterFacts MatterFacts2 MatterFacts3 CounterTables Counter StdStr.

Definition c_entry_ok (e : bytes * sizage) : bool :=
  let (code, z) := e in
  all_b64 code && (len code =? hs z) && (2 <=? hs z) && (hs z <=? 5) && (2 <=? ss z) && (ss z <=? 5)
  && ((cs_of z =? 4) || (cs_of z =? 8)) && (fs z =? cs_of z)
  && match code with
     | x :: y :: _ => match c_hardage [x; y] with Ok h => h =? hs z | _ => false end &&
          match ord64 x, ord64 y with Some i, Some j => (i <=? 62) && match c_bardage [i; j] with Ok h => h =? hs z | _ => false end | _, _ => false end
     | _ => false end.
Lemma c_table_ok : forallb c_entry_ok c_sizage_table = true.
Proof. vm_compute. reflexivity. Qed.
Lemma c_sizage_In code z : c_sizage code = Ok z -> In (code, z) c_sizage_table.
Proof. unfold c_sizage. destruct (assoc code c_sizage_table) eqn:E; [|discriminate]. intros [= ->]. apply assoc_In; auto. Qed.
Lemma c_sizage_not_panic code : c_sizage code <> Panic.
Proof. unfold c_sizage. destruct (assoc _ _); discriminate. Qed.

Record czfacts (code : bytes) (z : sizage) : Prop := {
  cz_b64 : all_b64 code = true;
  cz_len : len code = hs z;
  cz_hs : 2 <= hs z <= 5;
  cz_ss : 2 <= ss z <= 5;
  cz_cs : cs_of z = 4 \/ cs_of z = 8;
  cz_fs : fs z = cs_of z;
  cz_first : exists x y r i j, code = x :: y :: r /\ c_hardage [x; y] = Ok (hs z) /\ ord64 x = Some i /\ ord64 y = Some j /\ i <= 62 /\ c_bardage [i; j] = Ok (hs z)
}.
Lemma c_sizage_facts code z : c_sizage code = Ok z -> czfacts code z.
Proof.
  intros H. apply c_sizage_In in H. pose proof c_table_ok as T. eapply forallb_forall in T; eauto. unfold c_entry_ok in T.
  splitb T. constructor; auto; try lia.
  destruct code as [|x [|y r]]; try discriminate. apply andb_true_iff in T0 as [Hh Hb].
  destruct (c_hardage [x; y]) as [h| |] eqn:Eh; try discriminate. apply N.eqb_eq in Hh. subst h.
  destruct (ord64 x) as [i|] eqn:Ei; try discriminate. destruct (ord64 y) as [j|] eqn:Ej; try discriminate.
  apply andb_true_iff in Hb as [Hi Hb]. destruct (c_bardage [i; j]) as [h| |] eqn:Eb; try discriminate. apply N.eqb_eq in Hb. subst h.
  exists x, y, r, i, j. repeat split; auto. lia.
Qed.

Record cwf (c : counter) (z : sizage) : Prop := {
  cw_sz : c_sizage (c_code c) = Ok z;
  cw_count : c_count c < 64 ^ ss z
}.
Definition ctext (z : sizage) (c : counter) : bytes := c_code c ++ soft_of z (c_count c).

Lemma len_ctext c z : cwf c z -> len (ctext z c) = cs_of z.
Proof. intros [H _]. apply c_sizage_facts in H. unfold ctext, soft_of. rewrite len_app, len_map, len_digits, (cz_len _ _ H). unfold cs_of. lia. Qed.
Lemma all_b64_ctext c z : cwf c z -> all_b64 (ctext z c) = true.
Proof. intros [H _]. apply c_sizage_facts in H. unfold ctext, soft_of. rewrite all_b64_app, (cz_b64 _ _ H). apply all_b64_chr, digits_lt. lia. Qed.
Lemma pow64_ss z : 2 <= ss z <= 5 -> 64 ^ ss z < U32 /\ 64 ^ 2 <= 64 ^ ss z.
Proof.
  intros H. split.
  - eapply N.le_lt_trans; [apply (N.pow_le_mono_r 64 _ 5); lia|]. unfold U32. npow. lia.
  - apply N.pow_le_mono_r; lia.
Qed.

Section P.
Context `{P : Profile}.

Lemma c_new_iff code count z : c_sizage code = Ok z ->
  counter_new_with_code_and_count code count = if count <? 64 ^ ss z then Ok (Ctr code count) else Err E_InvalidVarIndex.
Proof.
  intros Hz. pose proof (c_sizage_facts _ _ Hz) as Z. unfold counter_new_with_code_and_count.
  destruct code as [|x r]; [vm_compute in Hz; discriminate|]. rewrite Hz. cbn [obind].
  destruct (pow64_ss z (cz_ss _ _ Z)) as [Hp Hp2]. change (hs z + ss z) with (cs_of z). rewrite (cz_fs _ _ Z), N.eqb_refl.
  replace (cs_of z mod 4 =? 0) with true by (pose proof (cz_cs _ _ Z); lia). cbn [negb orb].
  rewrite pow64_32_ok by auto. cbn [obind]. rewrite sub32_ok by (npow; lia). cbn [obind].
  destruct (N.ltb_spec count (64 ^ ss z)).
  - replace (64 ^ ss z - 1 <? count) with false by lia. reflexivity.
  - replace (64 ^ ss z - 1 <? count) with true by (npow; lia). reflexivity.
Qed.

Lemma c_infil_wf c z : cwf c z -> counter_infil c = Ok (ctext z c).
Proof.
  intros W. pose proof (len_ctext _ _ W) as Hl. destruct W as [Hz Hc]. pose proof (c_sizage_facts _ _ Hz) as Z.
  unfold counter_infil. rewrite Hz. cbn [obind]. destruct (pow64_ss z (cz_ss _ _ Z)) as [Hp Hp2]. change (hs z + ss z) with (cs_of z). rewrite (cz_fs _ _ Z), N.eqb_refl.
  replace (cs_of z mod 4 =? 0) with true by (pose proof (cz_cs _ _ Z); lia). cbn [negb orb].
  rewrite pow64_32_ok by auto. cbn [obind]. rewrite sub32_ok by (npow; lia). cbn [obind].
  replace (64 ^ ss z - 1 <? c_count c) with false by lia.
  rewrite u32_to_b64_ok; [|auto|unfold U32 in *; npow; lia]. cbn [obind]. fold (soft_of z (c_count c)). fold (ctext z c). rewrite Hl, N.eqb_refl. reflexivity.
Qed.
(** out-of-range counts are refused by the encoder as well *)
Lemma c_infil_range code count z : c_sizage code = Ok z -> 64 ^ ss z <= count -> counter_infil (Ctr code count) = Err E_InvalidVarIndex.
Proof.
  intros Hz Hc. pose proof (c_sizage_facts _ _ Hz) as Z.
  unfold counter_infil. cbn [c_code c_count]. rewrite Hz. cbn [obind]. destruct (pow64_ss z (cz_ss _ _ Z)) as [Hp Hp2]. change (hs z + ss z) with (cs_of z). rewrite (cz_fs _ _ Z), N.eqb_refl.
  replace (cs_of z mod 4 =? 0) with true by (pose proof (cz_cs _ _ Z); lia). cbn [negb orb].
  rewrite pow64_32_ok by auto. cbn [obind]. rewrite sub32_ok by (npow; lia). cbn [obind].
  replace (64 ^ ss z - 1 <? count) with true by (npow; lia). reflexivity.
Qed.

Lemma c_binfil_wf c z : cwf c z -> counter_binfil c = Ok (bcode (ctext z c)) /\ b64_encode (bcode (ctext z c)) = ctext z c
  /\ len (bcode (ctext z c)) mod 3 = 0 /\ len (bcode (ctext z c)) * 4 = cs_of z * 3.
Proof.
  intros W. pose proof (len_ctext _ _ W) as Hl. pose proof (all_b64_ctext _ _ W) as Ha. pose proof (cz_cs _ _ (c_sizage_facts _ _ (cw_sz _ _ W))) as Hcs.
  unfold counter_binfil. rewrite (c_infil_wf _ z) by auto. cbn [obind]. split; [apply code_b64_to_b2_ok; auto; lia|].
  rewrite len_bcode, Hl. split; [|lia].
  pose proof (bcode_sextets (ctext z c) [] Ha) as B. rewrite Hl in B.
  rewrite app_nil_r in B. rewrite B; try (change (len (@nil N)) with 0); try lia; auto.
  replace (cs_of z mod 4) with 0 by lia. rewrite drop_0. change (rep 0 0 ++ []) with (@nil N). change (b64_encode []) with (@nil N). apply app_nil_r.
Qed.

Lemma c_exfil_text c z tail : cwf c z -> utf8_valid tail = true -> counter_exfil (ctext z c ++ tail) = Ok c.
Proof.
  intros W Hu. pose proof (len_ctext _ _ W) as Hl. pose proof (all_b64_ascii _ (all_b64_ctext _ _ W)) as Hasc.
  pose proof (cw_sz _ _ W) as Hz. pose proof (c_sizage_facts _ _ Hz) as Z. pose proof (cz_hs _ _ Z) as Hh. pose proof (cz_ss _ _ Z) as Hss.
  assert (Hcs : cs_of z = hs z + ss z) by reflexivity.
  remember (ctext z c ++ tail) as t eqn:Et.
  assert (Hlen : len t = cs_of z + len tail) by (rewrite Et, len_app, Hl; reflexivity).
  assert (Bin : forall k, k <= cs_of z -> boundary t k = true).
  { intros k Hk. rewrite Et. destruct (N.eq_dec k (cs_of z)) as [->|].
    - rewrite <- Hl. apply boundary_after; auto.
    - apply boundary_app_ascii; auto. lia. }
  assert (Ehead : t = c_code c ++ soft_of z (c_count c) ++ tail) by (rewrite Et; unfold ctext; rewrite app_assoc; reflexivity).
  destruct (cz_first _ _ Z) as [x [y [r [i [j [Ec [Hhd [Hi [Hj [Hi62 Hbd]]]]]]]]]].
  unfold counter_exfil. destruct t as [|c0 t0] eqn:Et0; [exfalso; rewrite Ec in Ehead; discriminate|]. rewrite <- Et0 in *. clear Et0 c0 t0.
  rewrite str_slice_ok; [|lia|apply boundary_0|apply Bin; lia]. cbn [obind]. rewrite N.sub_0_r, drop_0.
  assert (E2 : take 2 t = [x; y]) by (rewrite Ehead, Ec; reflexivity). rewrite E2, Hhd. cbn [obind].
  replace (len t <? hs z) with false by lia.
  rewrite str_slice_ok; [|lia|apply boundary_0|apply Bin; lia]. cbn [obind]. rewrite N.sub_0_r, drop_0.
  assert (Eh : take (hs z) t = c_code c) by (rewrite Ehead; apply take_app_exact; apply (cz_len _ _ Z)). rewrite Eh, Hz. cbn [obind].
  rewrite <- Hcs. replace (len t <? cs_of z) with false by lia.
  rewrite str_slice_ok; [|lia|apply Bin; lia|apply Bin; lia]. cbn [obind].
  assert (Es : take (cs_of z - hs z) (drop (hs z) t) = soft_of z (c_count c)).
  { rewrite Ehead. rewrite drop_app_exact by apply (cz_len _ _ Z). apply take_app_exact. unfold soft_of. rewrite len_map, len_digits. lia. }
  rewrite Es. unfold soft_of. rewrite b64_to_u64_all; [|apply all_b64_chr, digits_lt; lia|rewrite len_map, len_digits; lia]. cbn [obind].
  rewrite ords_chr by (apply digits_lt; lia). pose proof (cw_count _ _ W) as Hc. rewrite digits_small by (rewrite ?N2Nat.id; lia).
  unfold as_u32. rewrite N.mod_small by (destruct (pow64_ss z Hss); lia). destruct c; reflexivity.
Qed.

Lemma c_exfil_inv t c : counter_exfil t = Ok c -> exists z, cwf c z /\ cs_of z <= len t /\ take (cs_of z) t = ctext z c.
Proof.
  unfold counter_exfil. destruct t as [|x t'] eqn:Et; [discriminate|]. rewrite <- Et. clear Et t'. intros H.
  inv_bind H f2 E2. inv_bind H hs0 Eh. destruct (len t <? hs0) eqn:El; [discriminate|].
  inv_bind H hard Ehard. inv_bind H z Ez. pose proof (c_sizage_facts _ _ Ez) as Z. pose proof (cz_ss _ _ Z) as Hss.
  pose proof (len_of_slice _ _ _ _ Ehard) as Hhl. rewrite (cz_len _ _ Z), N.sub_0_r in Hhl. subst hs0.
  apply str_slice_inv in Ehard as [_ [_ [_ [_ Ehard]]]]. rewrite N.sub_0_r, drop_0 in Ehard. change (hs z + ss z) with (cs_of z) in H.
  destruct (len t <? cs_of z) eqn:Elc; [discriminate|]. inv_bind H soft Esoft. inv_bind H n En. injection H as <-.
  pose proof (b64_to_u64_ok _ _ En) as Hsb. pose proof (len_of_slice _ _ _ _ Esoft) as Hsl. apply str_slice_inv in Esoft as [_ [_ [_ [_ Esoft]]]].
  assert (Hsl' : len soft = ss z) by (unfold cs_of in *; lia).
  rewrite b64_to_u64_all in En by (auto; lia). injection En as <-.
  pose proof (val64_lt soft) as Hv. rewrite Hsl' in Hv. destruct (pow64_ss z Hss) as [Hp _].
  unfold as_u32. rewrite N.mod_small by lia.
  exists z. split; [constructor; auto|]. split; [lia|]. unfold ctext. cbn [c_code c_count].
  rewrite soft_roundtrip by (auto; lia). subst soft hard. symmetry. apply take_drop_take. unfold cs_of; lia.
Qed.

(** binary *)
Lemma c_hard_text z c b : cwf c z -> bytes_ok b = true -> forall tail, b = bcode (ctext z c) ++ tail ->
  sextets b = ords (ctext z c) ++ sextets tail.
Proof.
  intros W Hok tail ->. destruct (c_binfil_wf _ _ W) as [_ [He [H3 _]]]. rewrite sextets_app by auto. f_equal.
  rewrite b64_encode_full in He by auto.
  transitivity (ords (map chr64 (sextets (bcode (ctext z c))))); [symmetry; apply ords_chr, sextets_lt, bytes_ok_bcode|rewrite He; reflexivity].
Qed.

Lemma c_bardage_vals l h : c_bardage l = Ok h -> h = 2 \/ h = 3 \/ h = 5.
Proof.
  unfold c_bardage. destruct l as [|x [|y [|]]]; try discriminate. repeat match goal with |- context [if ?b then _ else _] => destruct b end; intros E; try discriminate; injection E as <-; auto.
Qed.

Lemma c_bexfil_bin c z tail : cwf c z -> bytes_ok tail = true -> counter_bexfil (bcode (ctext z c) ++ tail) = Ok c.
Proof.
  intros W Ht. pose proof (len_ctext _ _ W) as Hl. pose proof (all_b64_ctext _ _ W) as Ha. destruct (c_binfil_wf _ _ W) as [_ [_ [H3 H4]]].
  pose proof (cw_sz _ _ W) as Hz. pose proof (c_sizage_facts _ _ Hz) as Z. pose proof (cz_hs _ _ Z) as Hh. pose proof (cz_ss _ _ Z) as Hss. pose proof (cz_cs _ _ Z) as Hc48.
  assert (Hcs : cs_of z = hs z + ss z) by reflexivity.
  set (b := bcode (ctext z c) ++ tail). assert (Hok : bytes_ok b = true) by (unfold b; rewrite bytes_ok_app, bytes_ok_bcode; auto).
  assert (Hlb : len b = len (bcode (ctext z c)) + len tail) by apply len_app.
  assert (Hsx : sextets b = ords (ctext z c) ++ sextets tail) by (apply c_hard_text with (b := b); auto).
  assert (Htk : forall k, k <= cs_of z -> take k (sextets b) = ords (take k (ctext z c))).
  { intros k Hk. rewrite Hsx, take_app, len_ords, Hl. replace (k - cs_of z) with 0 by lia. rewrite take_0, app_nil_r. unfold ords. apply take_map. }
  assert (Hch : forall k, k <= cs_of z -> map chr64 (take k (sextets b)) = take k (ctext z c)).
  { intros k Hk. rewrite Htk by auto. apply chr_ords. apply forallb_take; auto. }
  destruct (cz_first _ _ Z) as [x [y [r [i [j [Ec [Hhd [Hi [Hj [Hi62 Hbd]]]]]]]]]].
  unfold counter_bexfil. destruct b as [|b0 bt] eqn:Eb; [exfalso; change (len (@nil N)) with 0 in Hlb; lia|]. rewrite <- Eb in *. clear Eb b0 bt.
  rewrite nab_sextets_ok by (auto; try lia; change ((2 + 1) * 3 / 4) with 2; lia). cbn [obind].
  assert (E2 : take 2 (sextets b) = [i; j]).
  { rewrite Htk by lia. unfold ctext. rewrite Ec. change (take 2 ((x :: y :: r) ++ soft_of z (c_count c))) with [x; y]. unfold ords. cbn [map]. rewrite Hi, Hj. reflexivity. }
  rewrite E2. change (index_at [i; j] 0) with (Ok i). cbn [obind]. replace (62 <? i) with false by lia. rewrite Hbd. cbn [obind].
  replace (len b <? (hs z + 1) * 3 / 4) with false by lia. rewrite code_b2_to_b64_ok by (auto; lia). cbn [obind]. rewrite Hch by lia.
  assert (Eh : take (hs z) (ctext z c) = c_code c) by (unfold ctext; apply take_app_exact; apply (cz_len _ _ Z)). rewrite Eh, Hz. cbn [obind].
  rewrite <- Hcs. replace (len b <? (cs_of z + 1) * 3 / 4) with false by lia. rewrite code_b2_to_b64_ok by (auto; lia). cbn [obind].
  rewrite Hch by lia. rewrite (take_all (cs_of z)) by lia. rewrite str_slice_ascii by (auto using all_b64_ascii; lia). cbn [obind].
  assert (Es : take (cs_of z - hs z) (drop (hs z) (ctext z c)) = soft_of z (c_count c)).
  { unfold ctext. rewrite drop_app_exact by apply (cz_len _ _ Z). apply take_all. unfold soft_of. rewrite len_map, len_digits. lia. }
  rewrite Es. unfold soft_of. rewrite b64_to_u32_all; [|apply all_b64_chr, digits_lt; lia|rewrite len_map, len_digits; lia]. cbn [obind].
  rewrite ords_chr by (apply digits_lt; lia). pose proof (cw_count _ _ W) as Hc. rewrite digits_small by (rewrite ?N2Nat.id; lia).
  destruct c; reflexivity.
Qed.

Lemma c_bexfil_inv b c : bytes_ok b = true -> counter_bexfil b = Ok c ->
  exists z, cwf c z /\ cs_of z * 3 / 4 <= len b /\ take (cs_of z * 3 / 4) b = bcode (ctext z c).
Proof.
  intros Hok H. unfold counter_bexfil in H. destruct b as [|b0 bt] eqn:Eb; [discriminate|]. rewrite <- Eb in *. clear Eb b0 bt.
  inv_bind H sx Esx. inv_bind H f0 Ef0. destruct (62 <? f0); [destruct (f0 =? 63); discriminate|].
  inv_bind H hs0 Eh. pose proof (c_bardage_vals _ _ Eh) as Hhv. destruct (len b <? (hs0 + 1) * 3 / 4) eqn:El; [discriminate|].
  rewrite code_b2_to_b64_ok in H by (auto; lia). cbn [obind] in H. inv_bind H z Ez. pose proof (c_sizage_facts _ _ Ez) as Z.
  assert (Hhs : hs0 = hs z). { rewrite <- (cz_len _ _ Z), len_map, len_take, len_sextets. lia. } subst hs0.
  pose proof (cz_ss _ _ Z) as Hss. pose proof (cz_cs _ _ Z) as Hc48. change (hs z + ss z) with (cs_of z) in H.
  assert (Hcs : cs_of z = hs z + ss z) by reflexivity.
  destruct (len b <? (cs_of z + 1) * 3 / 4) eqn:Elc; [discriminate|]. rewrite code_b2_to_b64_ok in H by (auto; lia). cbn [obind] in H.
  assert (Hst : Forall (fun s => s < 64) (take (cs_of z) (sextets b))).
  { pose proof (sextets_lt _ Hok) as F. rewrite <- (take_drop_id (cs_of z) (sextets b)) in F. apply Forall_app in F. tauto. }
  set (both := map chr64 (take (cs_of z) (sextets b))) in *.
  assert (Hball : all_b64 both = true) by (apply all_b64_chr; auto).
  assert (Hbl : len both = cs_of z) by (unfold both; rewrite len_map, len_take, len_sextets; lia).
  inv_bind H soft Esoft. inv_bind H n En. injection H as <-.
  rewrite str_slice_ascii in Esoft by (auto using all_b64_ascii; lia). injection Esoft as Esoft.
  assert (Hsl : len soft = ss z) by (rewrite <- Esoft, len_take, len_drop; lia).
  assert (Hsb : all_b64 soft = true) by (rewrite <- Esoft; apply forallb_take, forallb_drop; auto).
  rewrite b64_to_u32_all in En by (auto; lia). injection En as <-. pose proof (val64_lt soft) as Hv. rewrite Hsl in Hv.
  set (c := Ctr (map chr64 (take (hs z) (sextets b))) (val 64 (ords soft))).
  assert (W : cwf c z) by (constructor; auto). exists z. split; [exact W|]. split; [lia|].
  assert (Et : ctext z c = both).
  { unfold ctext. cbn [c c_code c_count]. rewrite soft_roundtrip by (auto; lia). rewrite <- Esoft.
    replace (map chr64 (take (hs z) (sextets b))) with (take (hs z) both).
    - rewrite take_drop_take by lia. apply take_all. lia.
    - unfold both. rewrite take_map, take_take. f_equal. f_equal. lia. }
  destruct (c_binfil_wf _ _ W) as [_ [He [H3 H4]]].
  apply b64_encode_inj; auto using bytes_ok_take, bytes_ok_bcode. rewrite He, Et.
  assert (Hlk : len (take (cs_of z * 3 / 4) b) = cs_of z * 3 / 4) by (rewrite len_take; lia).
  rewrite b64_encode_full by lia. unfold both. f_equal.
  rewrite <- (take_drop_id (cs_of z * 3 / 4) b) at 2. rewrite sextets_app by lia.
  symmetry. apply take_app_exact. rewrite len_sextets, Hlk. lia.
Qed.

Lemma c_bexfil_not_panic b : bytes_ok b = true -> counter_bexfil b <> Panic.
Proof.
  intros Hok H. unfold counter_bexfil in H. destruct b as [|b0 bt] eqn:Eb; [discriminate|]. rewrite <- Eb in *. clear Eb b0 bt.
  destruct (N.lt_ge_cases (len b) 2) as [Hs|Hs].
  { rewrite nab_sextets_short in H by (change ((2 + 1) * 3 / 4) with 2; auto). discriminate. }
  rewrite nab_sextets_ok in H by (auto; try lia; change ((2 + 1) * 3 / 4) with 2; lia). cbn [obind] in H.
  assert (Hl2 : len (take 2 (sextets b)) = 2) by (rewrite len_take, len_sextets; lia).
  destruct (take 2 (sextets b)) as [|i r] eqn:E2; [discriminate|]. change (index_at (i :: r) 0) with (Ok i) in H. cbn [obind] in H.
  destruct (62 <? i); [destruct (i =? 63); discriminate|].
  apply bind_panic in H as [H|[hs0 [Eh H]]].
  { unfold c_bardage in H. destruct r as [|j [|? ?]]; try discriminate. repeat match type of H with context [if ?b then _ else _] => destruct b end; discriminate. }
  pose proof (c_bardage_vals _ _ Eh) as Hhv. destruct (len b <? (hs0 + 1) * 3 / 4) eqn:El; [discriminate|].
  rewrite code_b2_to_b64_ok in H by (auto; lia). cbn [obind] in H.
  apply bind_panic in H as [H|[z [Ez H]]]; [exfalso; eapply c_sizage_not_panic; eauto|]. pose proof (c_sizage_facts _ _ Ez) as Z.
  assert (Hhs : hs0 = hs z). { rewrite <- (cz_len _ _ Z), len_map, len_take, len_sextets. lia. } subst hs0.
  pose proof (cz_ss _ _ Z) as Hss. pose proof (cz_cs _ _ Z) as Hc48. change (hs z + ss z) with (cs_of z) in H.
  assert (Hcs : cs_of z = hs z + ss z) by reflexivity.
  destruct (len b <? (cs_of z + 1) * 3 / 4) eqn:Elc; [discriminate|]. rewrite code_b2_to_b64_ok in H by (auto; lia). cbn [obind] in H.
  rewrite str_slice_ascii in H.
  - cbn [obind] in H. apply bind_panic in H as [H|[? [_ H]]]; [eapply b64_to_u32_not_panic; eauto|discriminate].
  - apply all_b64_ascii, all_b64_chr. pose proof (sextets_lt _ Hok) as F. rewrite <- (take_drop_id (cs_of z) (sextets b)) in F. apply Forall_app in F. tauto.
  - lia.
  - rewrite len_map, len_take, len_sextets. lia.
Qed.

Lemma c_hardage_cases s h : c_hardage s = Ok h ->
  (h = 2 /\ len s = 2) \/ (h = 3 /\ s = s2b "-0") \/ (h = 5 /\ s = s2b "--").
Proof.
  unfold c_hardage. destruct (mem_code s _) eqn:E.
  - intros [= <-]. left. split; auto. apply mem_code_In in E. cbn in E. repeat destruct E as [<-|E]; try reflexivity. destruct E.
  - destruct (bytes_eqb s (s2b "-0")) eqn:E0; [intros [= <-]; apply bytes_eqb_eq in E0; auto|].
    destruct (bytes_eqb s (s2b "--")) eqn:E1; [intros [= <-]; apply bytes_eqb_eq in E1; auto|discriminate].
Qed.

Lemma str_slice_panic s a b : str_slice s a b = Panic -> a <= b -> boundary s a = true -> boundary s b = false.
Proof. intros H Hab Ha. destruct (boundary s b) eqn:E; auto. rewrite str_slice_ok in H by auto. discriminate. Qed.

(** every panic of the text parser is a cut of the text at a bad place *)
Lemma c_exfil_panic_iff t : counter_exfil t = Panic <->
  t <> [] /\ (boundary t 2 = false \/
   (take 2 t = s2b "-0" /\ 3 <= len t /\ boundary t 3 = false) \/
   (take 2 t = s2b "--" /\ 5 <= len t /\ boundary t 5 = false) \/
   (exists code z, c_sizage code = Ok z /\ take (hs z) t = code /\ boundary t (hs z) = true /\ cs_of z <= len t /\ boundary t (cs_of z) = false)).
Proof.
  split.
  - intros H. unfold counter_exfil in H. destruct t as [|x t'] eqn:Et; [discriminate|]. rewrite <- Et in *. split; [rewrite Et; discriminate|]. clear Et x t'.
    apply bind_panic in H as [H|[f2 [E2 H]]]; [left; apply str_slice_panic in H; auto using boundary_0; lia|].
    pose proof (len_of_slice _ _ _ _ E2) as L2. apply str_slice_inv in E2 as [_ [H2 [_ [B2 E2]]]]. rewrite N.sub_0_r, drop_0 in E2. right.
    apply bind_panic in H as [H|[hs0 [Eh H]]].
    { exfalso. unfold c_hardage in H. repeat match type of H with context [if ?b then _ else _] => destruct b end; discriminate. }
    destruct (len t <? hs0) eqn:El; [discriminate|]. pose proof (c_hardage_cases _ _ Eh) as Hc.
    apply bind_panic in H as [H|[hard [Ehard H]]].
    { apply str_slice_panic in H; auto using boundary_0; [|lia]. destruct Hc as [[-> _]|[[-> Ec]|[-> Ec]]].
      - congruence.
      - left. split; [congruence|split; [lia|auto]].
      - right. left. split; [congruence|split; [lia|auto]]. }
    apply bind_panic in H as [H|[z [Ez H]]]; [exfalso; eapply c_sizage_not_panic; eauto|]. pose proof (c_sizage_facts _ _ Ez) as Z.
    pose proof (len_of_slice _ _ _ _ Ehard) as Hhl. rewrite (cz_len _ _ Z), N.sub_0_r in Hhl. subst hs0.
    apply str_slice_inv in Ehard as [_ [_ [_ [Bh Ehard]]]]. rewrite N.sub_0_r, drop_0 in Ehard. change (hs z + ss z) with (cs_of z) in H.
    destruct (len t <? cs_of z) eqn:Elc; [discriminate|]. right. right. exists hard, z. repeat split; auto; [lia|].
    apply bind_panic in H as [H|[soft [Es H]]]; [apply str_slice_panic in H; auto; unfold cs_of; lia|].
    apply bind_panic in H as [H|[? [_ H]]]; [exfalso; eapply b64_to_u64_not_panic; eauto|discriminate].
  - intros [Hne Hp]. unfold counter_exfil. destruct t as [|x t'] eqn:Et; [congruence|]. rewrite <- Et in *. clear Et x t' Hne.
    unfold str_slice at 1. replace (0 <=? 2) with true by reflexivity. rewrite boundary_0. cbn [andb].
    destruct (boundary t 2) eqn:B2; [|reflexivity]. cbn [obind]. rewrite N.sub_0_r, drop_0. destruct Hp as [Hp|Hp]; [discriminate|].
    destruct Hp as [[E [Hl Hb]]|[[E [Hl Hb]]|[code [z [Hz [Ecode [Bh [Hl Hb]]]]]]]].
    + rewrite E. change (c_hardage (s2b "-0")) with (Ok (A:=N) 3). cbn [obind]. replace (len t <? 3) with false by lia.
      unfold str_slice. rewrite Hb, andb_false_r. reflexivity.
    + rewrite E. change (c_hardage (s2b "--")) with (Ok (A:=N) 5). cbn [obind]. replace (len t <? 5) with false by lia.
      unfold str_slice. rewrite Hb, andb_false_r. reflexivity.
    + pose proof (c_sizage_facts _ _ Hz) as Z. pose proof (cz_hs _ _ Z) as Hh. pose proof (cz_ss _ _ Z) as Hss.
      destruct (cz_first _ _ Z) as [x [y [r [i [j [Ec [Hhd _]]]]]]].
      assert (E2 : take 2 t = [x; y]).
      { replace 2 with (N.min 2 (hs z)) by lia. rewrite <- take_take, Ecode, Ec. reflexivity. }
      rewrite E2, Hhd. cbn [obind]. assert (Hcs : cs_of z = hs z + ss z) by reflexivity.
      replace (len t <? hs z) with false by lia. rewrite str_slice_ok; [|lia|apply boundary_0|exact Bh]. cbn [obind]. rewrite N.sub_0_r, drop_0, Ecode, Hz. cbn [obind].
      rewrite <- Hcs. replace (len t <? cs_of z) with false by lia. unfold str_slice. rewrite Hb, andb_false_r. reflexivity.
Qed.

(** numbers that do not fit: count_as_b64 with too small a width *)
Lemma parts_to_b64_ok l : Forall (fun p => p < 64) l -> parts_to_b64 l = Ok (map chr64 l).
Proof.
  induction l as [|p l IH]; intros F; [reflexivity|]. inversion F; subst. cbn [parts_to_b64].
  rewrite u32_to_b64_ok by (npow; lia). change (digits 64 (N.to_nat 1) p) with [p mod 64]. rewrite N.mod_small by auto.
  cbn [obind map]. rewrite IH by auto. reflexivity.
Qed.
Lemma sem_ver_parts_ok l : sem_ver_parts_to_b64 l = if existsb (fun p => 63 <? p) l then Err E_Parsing else Ok (map chr64 l).
Proof.
  unfold sem_ver_parts_to_b64. destruct (existsb _ l) eqn:E; [reflexivity|]. apply parts_to_b64_ok. apply Forall_forall. intros p Hp.
  destruct (N.lt_ge_cases p 64); auto. exfalso. rewrite <- not_true_iff_false in E. apply E. apply existsb_exists. exists p. split; auto. lia.
Qed.
End P.
