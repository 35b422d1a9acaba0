(** Proofs about the Indexer model. *)
From Verif Require Import Base BaseFacts Utf8 B64 B64Facts Util UtilFacts MatterTables MatterFacts MatterFacts2 MatterFacts3 IndexerTables Indexer.

Definition ics (z : isizage) : N := i_hs z + i_ss z.
Definition ims (z : isizage) : N := i_ss z - i_os z.
Definition ivar (z : isizage) : bool := i_fs z =? u32_max.

Definition i_entry_ok (e : bytes * isizage) : bool :=
  let (code, z) := e in
  all_b64 code && (len code =? i_hs z) && (1 <=? i_hs z) && (i_hs z <=? 2)
  && (1 <=? ims z) && (ims z <=? 3) && (i_os z <=? 3) && (i_os z + ims z =? i_ss z)
  && ((ics z =? 2) || (ics z =? 4) || (ics z =? 6) || (ics z =? 8))
  && (i_ls z <=? 1)
  && match code with
     | x :: _ => match i_hardage x with Ok h => h =? i_hs z | _ => false end &&
          match ord64 x with Some i => match i_bardage i with Ok h => h =? i_hs z | _ => false end | None => false end
     | [] => false end
  && (if ivar z then (ics z =? 4) && (ims z =? 2) && (i_os z =? 0) && (i_ls z =? 0)
      else (ics z <? i_fs z) && (i_fs z <=? 160) && (i_fs z mod 4 =? 0))
  && ((i_ls z =? 0) || (ics z mod 4 =? 0) && negb (mem_code code current_sig_codes))
  && (negb (mem_code code both_sig_codes) || (negb (ivar z) && (i_ls z =? 0)))
  && (negb (mem_code code current_sig_codes) || (negb (ivar z) && (i_ls z =? 0) && negb (mem_code code both_sig_codes))).
Lemma i_table_ok : forallb i_entry_ok i_sizage_table = true.
Proof. vm_compute. reflexivity. Qed.
Lemma isizage_In code z : get_isizage code = Ok z -> In (code, z) i_sizage_table.
Proof. unfold get_isizage. destruct (assoc code i_sizage_table) eqn:E; [|discriminate]. intros [= ->]. apply assoc_In; auto. Qed.
Lemma isizage_not_panic code : get_isizage code <> Panic.
Proof. unfold get_isizage. destruct (assoc _ _); discriminate. Qed.

Record izfacts (code : bytes) (z : isizage) : Prop := {
  iz_b64 : all_b64 code = true;
  iz_len : len code = i_hs z;
  iz_hs : 1 <= i_hs z <= 2;
  iz_ms : 1 <= ims z <= 3;
  iz_os : i_os z <= 3;
  iz_ss : i_os z + ims z = i_ss z;
  iz_cs : ics z = 2 \/ ics z = 4 \/ ics z = 6 \/ ics z = 8;
  iz_ls : i_ls z <= 1;
  iz_first : exists c r i, code = c :: r /\ i_hardage c = Ok (i_hs z) /\ ord64 c = Some i /\ i_bardage i = Ok (i_hs z);
  iz_var : ivar z = true -> ics z = 4 /\ ims z = 2 /\ i_os z = 0 /\ i_ls z = 0;
  iz_fix : ivar z = false -> ics z < i_fs z /\ i_fs z <= 160 /\ i_fs z mod 4 = 0;
  iz_lead : i_ls z = 0 \/ (ics z mod 4 = 0 /\ mem_code code current_sig_codes = false);
  iz_both : mem_code code both_sig_codes = true -> ivar z = false /\ i_ls z = 0;
  iz_cur : mem_code code current_sig_codes = true -> ivar z = false /\ i_ls z = 0 /\ mem_code code both_sig_codes = false
}.
Lemma isizage_facts code z : get_isizage code = Ok z -> izfacts code z.
Proof.
  intros H. apply isizage_In in H. pose proof i_table_ok as T. eapply forallb_forall in T; eauto. unfold i_entry_ok in T.
  splitb T. constructor; auto; try lia.
  - destruct code as [|c r]; [discriminate|]. apply andb_true_iff in T4 as [Hh Hb]. destruct (i_hardage c) as [h| |] eqn:Eh; try discriminate. apply N.eqb_eq in Hh. subst h.
    destruct (ord64 c) as [i|] eqn:Ei; try discriminate. destruct (i_bardage i) as [h| |] eqn:Eb; try discriminate. apply N.eqb_eq in Hb. subst h.
    exists c, r, i. auto.
  - intros V. rewrite V in T3. lia.
  - intros V. rewrite V in T3. lia.
  - destruct (mem_code code current_sig_codes); cbn in *; lia.
  - intros B. rewrite B in T1. cbn [negb orb] in T1. splitb T1. repeat split; try (apply negb_true_iff; assumption); lia.
  - intros B. rewrite B in T0. cbn [negb orb] in T0. splitb T0. repeat split; try (apply negb_true_iff; assumption); lia.
Qed.

Definition num64 (k n : N) : bytes := map chr64 (digits 64 (N.to_nat k) n).
Lemma len_num64 k n : len (num64 k n) = k. Proof. unfold num64. rewrite len_map, len_digits. lia. Qed.
Lemma all_b64_num64 k n : all_b64 (num64 k n) = true. Proof. apply all_b64_chr, digits_lt. lia. Qed.
Lemma num64_roundtrip t : all_b64 t = true -> num64 (len t) (val 64 (ords t)) = t.
Proof.
  intros Ha. unfold num64. rewrite <- (chr_ords t Ha) at 3. f_equal. replace (N.to_nat (len t)) with (length (ords t)).
  - apply digits_val; [lia|apply ords_lt].
  - unfold ords. rewrite map_length. unfold len. lia.
Qed.
Lemma read_num64 k n : k <= 5 -> n < 64 ^ k -> b64_to_u32 (num64 k n) = Ok n.
Proof.
  intros Hk Hn. rewrite b64_to_u32_all; [|apply all_b64_num64|rewrite len_num64; lia]. unfold num64. rewrite ords_chr by (apply digits_lt; lia).
  f_equal. apply digits_small; [lia|]. rewrite N2Nat.id. auto.
Qed.

Definition iboth (z : isizage) (x : indexer) : bytes := x_code x ++ num64 (ims z) (x_index x) ++ num64 (i_os z) (x_ondex x).
Definition itext (z : isizage) (x : indexer) : bytes :=
  iboth z x ++ drop (ics z mod 4) (b64_encode (rep 0 (ics z mod 4) ++ x_raw x)).
Definition ibin (z : isizage) (x : indexer) : bytes := bcode (iboth z x) ++ x_raw x.
Definition ifull (z : isizage) (index : N) : N := if ivar z then index * 4 + ics z else i_fs z.

Record iwf (x : indexer) (z : isizage) : Prop := {
  iw_sz : get_isizage (x_code x) = Ok z;
  iw_ls : i_ls z = 0;
  iw_bytes : bytes_ok (x_raw x) = true;
  iw_index : x_index x < 64 ^ ims z;
  iw_ondex : i_os z = 0 \/ x_ondex x < 64 ^ i_os z;
  iw_raw : len (x_raw x) = (ifull z (x_index x) - ics z) * 3 / 4
}.

Lemma len_iboth x z : get_isizage (x_code x) = Ok z -> len (iboth z x) = ics z.
Proof. intros H. pose proof (isizage_facts _ _ H) as Z. unfold iboth. rewrite !len_app, !len_num64, (iz_len _ _ Z). pose proof (iz_ss _ _ Z). unfold ics. lia. Qed.
Lemma all_b64_iboth x z : get_isizage (x_code x) = Ok z -> all_b64 (iboth z x) = true.
Proof. intros H. pose proof (isizage_facts _ _ H) as Z. unfold iboth. rewrite !all_b64_app, !all_b64_num64, (iz_b64 _ _ Z). reflexivity. Qed.
Lemma pow64_3 k : k <= 3 -> 64 ^ k <= 262144 /\ 1 <= 64 ^ k.
Proof. intros H. split; [change 262144 with (64 ^ 3); apply N.pow_le_mono_r; lia|]. change 1 with (64 ^ 0). apply N.pow_le_mono_r; lia. Qed.

Lemma ifull_facts code z index : get_isizage code = Ok z -> index < 64 ^ ims z ->
  ics z <= ifull z index /\ ifull z index mod 4 = 0 /\ ifull z index <= 16384 /\ (ivar z = false -> ics z < ifull z index).
Proof.
  intros H Hi. pose proof (isizage_facts _ _ H) as Z. unfold ifull. destruct (ivar z) eqn:V.
  - destruct (iz_var _ _ Z V) as [H1 [H2 [H3 H4]]]. rewrite H2 in Hi. revert Hi. npow. intros. lia.
  - destruct (iz_fix _ _ Z V) as [H1 [H2 H3]]. lia.
Qed.
Lemma raw_arith x z : iwf x z -> (len (x_raw x) + ics z mod 4) * 4 = (ifull z (x_index x) - ics z + ics z mod 4) * 3 /\
  (3 - len (x_raw x) mod 3) mod 3 = ics z mod 4 /\ (len (x_raw x) + ics z mod 4) mod 3 = 0 /\ (ics z mod 4 <> 0 -> 0 < len (x_raw x)).
Proof.
  intros W. pose proof (iw_sz _ _ W) as Hz. pose proof (isizage_facts _ _ Hz) as Z. destruct (ifull_facts _ _ _ Hz (iw_index _ _ W)) as [H1 [H2 [H3 H4]]].
  pose proof (iz_cs _ _ Z) as Hc. pose proof (iw_raw _ _ W) as Hr. unfold ifull in *. destruct (ivar z) eqn:V.
  - destruct (iz_var _ _ Z V) as [E _]. rewrite E in *. lia.
  - destruct (iz_fix _ _ Z V) as [E [E2 E3]]. lia.
Qed.

Section P.
Context `{P : Profile}.

Lemma pow_lim_ok k : k <= 5 -> pow_lim k = Ok (64 ^ k - 1).
Proof.
  intros H. unfold pow_lim. assert (64 ^ k <= 64 ^ 5) by (apply N.pow_le_mono_r; lia). rewrite pow64_32_ok by (unfold U32; revert H0; npow; lia). cbn [obind].
  apply sub32_ok. change 1 with (64 ^ 0). apply N.pow_le_mono_r; lia.
Qed.
Lemma pow_lim_6 : pow_lim 6 = if overflow_checks then Panic else Ok u32_max.
Proof. unfold pow_lim, pow64_32, sub32. destruct P; reflexivity. Qed.
Lemma i_full_ok code z index e : get_isizage code = Ok z -> index < 64 ^ ims z -> i_full z index e = Ok (ifull z index).
Proof.
  intros H Hi. pose proof (isizage_facts _ _ H) as Z. unfold i_full, ifull. change (i_fs z =? u32_max) with (ivar z). destruct (ivar z) eqn:V; [|reflexivity].
  change (i_hs z + i_ss z) with (ics z). destruct (iz_var _ _ Z V) as [-> [E [-> _]]]. change (4 mod 4) with 0. change (0 =? 0) with true. cbn [negb].
  unfold var_full. rewrite E in Hi. rewrite mul32_ok by (unfold U32; revert Hi; npow; lia). cbn [obind]. apply add32_ok. unfold U32. revert Hi. npow. lia.
Qed.

Lemma bad_ondex_ok (z : isizage) (o : N) : i_os z <= 3 -> (i_os z = 0 \/ o < 64 ^ i_os z) ->
  (if 0 <? i_os z then olim <- pow_lim (i_os z) ;; Ok (olim <? o) else Ok false) = Ok false.
Proof.
  intros H Ho. destruct (N.ltb_spec 0 (i_os z)); [|reflexivity]. rewrite pow_lim_ok by lia. cbn [obind]. destruct Ho as [|Ho]; [lia|]. f_equal. destruct (pow64_3 (i_os z)); lia.
Qed.
Lemma num64_small_ok k n : k <= 5 -> (k = 0 \/ n < 64 ^ k) -> u32_to_b64 n k = Ok (num64 k n).
Proof.
  intros Hk [->|Hn]; [reflexivity|]. apply u32_to_b64_ok; auto. eapply N.lt_le_trans; [exact Hn|]. apply N.pow_le_mono_r; lia.
Qed.

Lemma len_itext x z : iwf x z -> len (itext z x) = ifull z (x_index x).
Proof.
  intros W. pose proof (iw_sz _ _ W) as Hz. unfold itext. rewrite len_app, len_drop, len_b64_encode, len_app, len_rep, (len_iboth _ _ Hz).
  destruct (raw_arith _ _ W) as [H1 [H2 [H3 H4]]]. destruct (ifull_facts _ _ _ Hz (iw_index _ _ W)) as [H5 [H6 [H7 H8]]]. pose proof (iz_cs _ _ (isizage_facts _ _ Hz)). lia.
Qed.
Lemma ibuf_ok x z k : iwf x z -> bytes_ok (rep 0 k ++ x_raw x) = true.
Proof. intros W. rewrite bytes_ok_app, bytes_ok_rep0. apply W. Qed.
Lemma all_b64_itext x z : iwf x z -> all_b64 (itext z x) = true.
Proof.
  intros W. unfold itext. rewrite all_b64_app, (all_b64_iboth _ _ (iw_sz _ _ W)). cbn. apply forallb_drop. apply b64_encode_all; [eapply ibuf_ok; eauto|].
  rewrite len_app, len_rep. destruct (raw_arith _ _ W) as [H1 [H2 [H3 H4]]]. lia.
Qed.
Lemma i_infil_wf x z : iwf x z -> indexer_infil x = Ok (itext z x).
Proof.
  intros W. pose proof (iw_sz _ _ W) as Hz. pose proof (isizage_facts _ _ Hz) as Z. pose proof (len_itext _ _ W) as Hl. pose proof (len_iboth _ _ Hz) as Hlb.
  destruct (raw_arith _ _ W) as [H1 [H2 [H3 H4]]]. pose proof (iw_index _ _ W) as Hi. pose proof (iz_ms _ _ Z) as Hms. pose proof (iz_os _ _ Z) as Hos.
  unfold indexer_infil. rewrite Hz. cbn [obind]. change (i_hs z + i_ss z) with (ics z). change (i_ss z - i_os z) with (ims z).
  rewrite (i_full_ok _ _ _ _ Hz Hi). cbn [obind]. rewrite pow_lim_ok by lia. cbn [obind].
  replace (64 ^ ims z - 1 <? x_index x) with false by lia. rewrite bad_ondex_ok by (auto; apply W). cbn [obind].
  rewrite num64_small_ok by (auto; lia). cbn [obind]. rewrite num64_small_ok by (try lia; apply W). cbn [obind].
  fold (iboth z x). rewrite Hlb, N.eqb_refl. cbn [negb]. rewrite (iw_ls _ _ W), sub32_ok by lia. cbn [obind]. rewrite N.sub_0_r, H2, N.eqb_refl. cbn [negb].
  rewrite str_slice_ascii; [|apply b64_encode_ascii; eapply ibuf_ok; eauto|rewrite len_b64_encode, len_app, len_rep; lia|lia]. cbn [obind].
  rewrite take_all by (rewrite len_drop; lia). fold (itext z x). rewrite Hl, N.eqb_refl. reflexivity.
Qed.
Lemma itext_encode x z : iwf x z -> itext z x = b64_encode (ibin z x).
Proof.
  intros W. pose proof (iw_sz _ _ W) as Hz. pose proof (isizage_facts _ _ Hz) as Z. pose proof (len_iboth _ _ Hz) as Hlb. pose proof (iz_cs _ _ Z) as Hc.
  destruct (raw_arith _ _ W) as [H1 [H2 [H3 H4]]]. unfold ibin. rewrite bcode_sextets; rewrite ?Hlb; auto.
  - apply all_b64_iboth; auto.
  - lia.
  - lia.
  - apply W.
Qed.
Lemma len_ibin x z : iwf x z -> len (ibin z x) * 4 = ifull z (x_index x) * 3 /\ len (ibin z x) mod 3 = 0.
Proof.
  intros W. pose proof (iw_sz _ _ W) as Hz. unfold ibin. rewrite len_app, len_bcode, (len_iboth _ _ Hz). pose proof (iz_cs _ _ (isizage_facts _ _ Hz)) as Hc.
  destruct (raw_arith _ _ W) as [H1 [H2 [H3 H4]]]. destruct (ifull_facts _ _ _ Hz (iw_index _ _ W)) as [H5 [H6 [H7 H8]]]. lia.
Qed.
Lemma bytes_ok_ibin x z : iwf x z -> bytes_ok (ibin z x) = true.
Proof. intros W. unfold ibin. rewrite bytes_ok_app, bytes_ok_bcode. apply W. Qed.

Lemma i_binfil_wf x z : iwf x z -> indexer_binfil x = if (i_ss z =? 6) && overflow_checks then Panic else Ok (ibin z x).
Proof.
  intros W. pose proof (iw_sz _ _ W) as Hz. pose proof (isizage_facts _ _ Hz) as Z. pose proof (len_iboth _ _ Hz) as Hlb. pose proof (len_ibin _ _ W) as [Hlb1 Hlb2].
  destruct (raw_arith _ _ W) as [H1 [H2 [H3 H4]]]. pose proof (iw_index _ _ W) as Hi. pose proof (iz_ms _ _ Z) as Hms. pose proof (iz_os _ _ Z) as Hos. pose proof (iz_ss _ _ Z) as Hss. pose proof (iz_cs _ _ Z) as Hc.
  unfold indexer_binfil. rewrite Hz. cbn [obind]. change (i_hs z + i_ss z) with (ics z). change (i_ss z - i_os z) with (ims z).
  assert (Hs : (i_ss z = 6 /\ overflow_checks = true) \/ exists lim, pow_lim (i_ss z) = Ok lim /\ x_index x <= lim /\ ((i_ss z =? 6) && overflow_checks) = false).
  { destruct (N.eq_dec (i_ss z) 6) as [E|E].
    - destruct overflow_checks eqn:O; [left; auto|]. right. exists u32_max. rewrite E, pow_lim_6, O. split; auto. split; auto. destruct (pow64_3 (ims z)) as [Hp _]; [lia|]. unfold u32_max, U32. npow. lia.
    - right. exists (64 ^ i_ss z - 1). rewrite pow_lim_ok by lia. split; auto. split; [|replace (i_ss z =? 6) with false by lia; reflexivity].
      assert (64 ^ ims z <= 64 ^ i_ss z) by (apply N.pow_le_mono_r; lia). lia. }
  destruct Hs as [[E O]|[lim [El [Hlim Hf]]]].
  - rewrite E, pow_lim_6, O. reflexivity.
  - rewrite El, Hf. cbn [obind]. replace (lim <? x_index x) with false by lia.
    assert (Eb : (if i_os z =? 1 then olim <- pow_lim (i_os z) ;; Ok (olim <? x_ondex x) else Ok false) = Ok false).
    { destruct (N.eqb_spec (i_os z) 1) as [E1|E1]; [|reflexivity]. rewrite pow_lim_ok by lia. cbn [obind]. f_equal. destruct (iw_ondex _ _ W); [lia|]. destruct (pow64_3 (i_os z)); lia. }
    rewrite Eb. cbn [obind]. rewrite (i_full_ok _ _ _ _ Hz Hi). cbn [obind].
    rewrite num64_small_ok by (auto; lia). cbn [obind]. rewrite num64_small_ok by (try lia; apply W). cbn [obind].
    fold (iboth z x). rewrite Hlb, N.eqb_refl. cbn [negb]. rewrite (iw_ls _ _ W), sub32_ok by lia. cbn [obind]. rewrite N.sub_0_r, H2, N.eqb_refl. cbn [negb].
    destruct (code_full_ok (iboth z x) (ics z)) as [full [Ef [Hlf Hdf]]]; auto; try lia. { apply all_b64_iboth; auto. }
    rewrite Ef. cbn [obind]. rewrite Hdf. change (rep 0 0 ++ x_raw x) with (x_raw x). fold (ibin z x).
    replace (len (ibin z x) mod 3 =? 0) with true by lia. replace (len (ibin z x) * 4 / 3 =? ifull z (x_index x)) with true by lia. reflexivity.
Qed.
Lemma i_full_size_wf x z : iwf x z -> indexer_full_size x = Ok (ifull z (x_index x)).
Proof.
  intros W. pose proof (iw_sz _ _ W) as Hz. pose proof (isizage_facts _ _ Hz) as Z. unfold indexer_full_size. rewrite Hz. cbn [obind].
  pose proof (i_full_ok _ _ (x_index x) E_Validation Hz (iw_index _ _ W)) as E. unfold i_full in E. change (i_fs z =? u32_max) with (ivar z) in *.
  destruct (ivar z) eqn:V; [|exact E]. cbn [negb]. change (i_hs z + i_ss z) with (ics z) in *. destruct (iz_var _ _ Z V) as [E1 [_ [E2 _]]]. rewrite E1, E2 in E. rewrite E1. exact E.
Qed.

(** ** the other index as the parsers see it *)
Definition seen_ondex (z : isizage) (x : indexer) : N :=
  if mem_code (x_code x) current_sig_codes then 0 else if i_os z =? 0 then x_index x else x_ondex x.
Definition seen (z : isizage) (x : indexer) : indexer := Idx (x_code x) (x_raw x) (x_index x) (seen_ondex z x).
(** current-only codes carry a zero *)
Definition cur_zero (z : isizage) (x : indexer) : Prop :=
  mem_code (x_code x) current_sig_codes = true -> i_os z <> 0 -> x_ondex x = 0.
Lemma read_ondex_ok x z : iwf x z -> cur_zero z x -> read_ondex (x_code x) (num64 (i_os z) (x_ondex x)) (i_os z) (x_index x) = Ok (seen_ondex z x).
Proof.
  intros W C. pose proof (iz_os _ _ (isizage_facts _ _ (iw_sz _ _ W))) as Hos. unfold read_ondex, seen_ondex.
  destruct (mem_code (x_code x) current_sig_codes) eqn:M.
  - destruct (N.eqb_spec (i_os z) 0) as [E|E]; cbn [negb]; [reflexivity|]. rewrite (C M E). rewrite read_num64; [reflexivity|lia|destruct (pow64_3 (i_os z)); lia].
  - destruct (N.eqb_spec (i_os z) 0) as [E|E]; cbn [negb]; [reflexivity|]. apply read_num64; [lia|]. destruct (iw_ondex _ _ W); [lia|auto].
Qed.

Lemma i_exfil_reads x z tail : iwf x z -> utf8_valid tail = true ->
  indexer_exfil (itext z x ++ tail) = (o <- read_ondex (x_code x) (num64 (i_os z) (x_ondex x)) (i_os z) (x_index x) ;; Ok (Idx (x_code x) (x_raw x) (x_index x) o)).
Proof.
  intros W Hu. pose proof (iw_sz _ _ W) as Hz. pose proof (isizage_facts _ _ Hz) as Z. pose proof (len_itext _ _ W) as Hl. pose proof (len_iboth _ _ Hz) as Hlb.
  pose proof (all_b64_ascii _ (all_b64_itext _ _ W)) as Hasc. destruct (raw_arith _ _ W) as [H1 [H2 [H3 H4]]]. pose proof (iw_index _ _ W) as Hi.
  pose proof (iz_ms _ _ Z) as Hms. pose proof (iz_os _ _ Z) as Hos. pose proof (iz_ss _ _ Z) as Hss. pose proof (iz_cs _ _ Z) as Hc. pose proof (iz_hs _ _ Z) as Hh.
  destruct (ifull_facts _ _ _ Hz Hi) as [Hf1 [Hf2 [Hf3 Hf4]]]. assert (Hcs : ics z = i_hs z + i_ss z) by reflexivity.
  remember (itext z x ++ tail) as t eqn:Et.
  assert (Hlen : len t = ifull z (x_index x) + len tail) by (rewrite Et, len_app, Hl; reflexivity).
  assert (Bin : forall k, k <= ifull z (x_index x) -> boundary t k = true).
  { intros k Hk. rewrite Et. destruct (N.eq_dec k (ifull z (x_index x))) as [->|].
    - rewrite <- Hl. apply boundary_after; auto.
    - apply boundary_app_ascii; auto. lia. }
  assert (Ehead : t = x_code x ++ num64 (ims z) (x_index x) ++ num64 (i_os z) (x_ondex x) ++ drop (ics z mod 4) (b64_encode (rep 0 (ics z mod 4) ++ x_raw x)) ++ tail).
  { rewrite Et. unfold itext, iboth. rewrite <- !app_assoc. reflexivity. }
  assert (Htake : take (ifull z (x_index x)) t = itext z x) by (rewrite Et; apply take_app_exact; auto).
  destruct (iz_first _ _ Z) as [c [r [i [Ec [Hhd _]]]]].
  unfold indexer_exfil. destruct t as [|c0 t0] eqn:Et0; [exfalso; rewrite Ec in Ehead; discriminate|].
  assert (c0 = c) by (rewrite Ec in Ehead; injection Ehead; auto). subst c0. rewrite <- Et0 in *. clear Et0 t0. rewrite Hhd. cbn [obind].
  replace (len t <? i_hs z) with false by lia.
  rewrite str_slice_ok; [|lia|apply boundary_0|apply Bin; lia]. cbn [obind]. rewrite N.sub_0_r, drop_0.
  assert (Ehs : take (i_hs z) t = x_code x) by (rewrite Ehead; apply take_app_exact; apply (iz_len _ _ Z)). rewrite Ehs, Hz. cbn [obind].
  change (i_hs z + i_ss z) with (ics z). change (i_ss z - i_os z) with (ims z). replace (len t <? ics z) with false by lia.
  rewrite str_slice_ok; [|lia|apply Bin; lia|apply Bin; lia]. cbn [obind]. replace (i_hs z + ims z - i_hs z) with (ims z) by lia.
  assert (E1 : drop (i_hs z) t = num64 (ims z) (x_index x) ++ num64 (i_os z) (x_ondex x) ++ drop (ics z mod 4) (b64_encode (rep 0 (ics z mod 4) ++ x_raw x)) ++ tail)
    by (rewrite Ehead; apply drop_app_exact; apply (iz_len _ _ Z)).
  rewrite E1, take_app_exact by apply len_num64. rewrite read_num64 by (auto; lia). cbn [obind].
  rewrite str_slice_ok; [|lia|apply Bin; lia|apply Bin; lia]. cbn [obind]. replace (i_hs z + ims z + i_os z - (i_hs z + ims z)) with (i_os z) by lia.
  rewrite <- drop_drop, E1, drop_app_exact by apply len_num64. rewrite take_app_exact by apply len_num64.
  destruct (read_ondex (x_code x) (num64 (i_os z) (x_ondex x)) (i_os z) (x_index x)) as [o|e|]; cbn [obind]; [|reflexivity|reflexivity]. rewrite (i_full_ok _ _ _ _ Hz Hi). cbn [obind].
  replace (len t <? ifull z (x_index x)) with false by lia.
  rewrite str_slice_ok; [|lia|apply boundary_0|apply Bin; lia]. cbn [obind]. rewrite N.sub_0_r, drop_0, Htake.
  assert (Etail : str_slice (itext z x) (ics z) (len (itext z x)) = Ok (drop (ics z mod 4) (b64_encode (rep 0 (ics z mod 4) ++ x_raw x)))).
  { rewrite str_slice_ascii by (auto; lia). rewrite take_all by (rewrite len_drop; lia). unfold itext. rewrite drop_app_exact by auto. reflexivity. }
  rewrite (iw_ls _ _ W). destruct (N.eqb_spec (ics z mod 4) 0) as [E0|E0]; cbn [negb]; cbv iota.
  - rewrite Etail. cbn [obind]. rewrite E0, drop_0. change (rep 0 0 ++ x_raw x) with (x_raw x). rewrite b64_decode_encode by apply W. cbn [obind].
    rewrite slice_prefix by lia. cbn [obind]. rewrite take_0. change (from_be []) with 0. cbn [negb N.eqb]. rewrite slice_to_end by lia. rewrite drop_0. reflexivity.
  - rewrite Etail. cbn [obind]. rewrite <- rep65_zero by lia. rewrite b64_decode_encode by (eapply ibuf_ok; eauto). cbn [obind].
    rewrite slice_prefix by (rewrite len_app, len_rep; lia). cbn [obind]. rewrite take_app_exact by apply len_rep. rewrite from_be_val, val_zeros, N.mod_0_l by (apply N.pow_nonzero; lia).
    cbn [negb N.eqb]. rewrite slice_to_end by (rewrite len_app, len_rep; lia). rewrite drop_app_exact by apply len_rep. reflexivity.
Qed.
Lemma i_exfil_text x z tail : iwf x z -> cur_zero z x -> utf8_valid tail = true -> indexer_exfil (itext z x ++ tail) = Ok (seen z x).
Proof. intros W C Hu. rewrite i_exfil_reads by auto. rewrite read_ondex_ok by auto. reflexivity. Qed.
End P.
