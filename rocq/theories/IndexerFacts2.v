(** Constructor and decoders of Indexer: what acceptance means. *)
From Verif Require Import Base BaseFacts Utf8 B64 B64Facts Util UtilFacts MatterTables MatterFacts MatterFacts2 MatterFacts3 CounterFacts IndexerTables Indexer IndexerFacts.

Section P.
Context `{P : Profile}.

Definition rize_of (z : isizage) (index : N) : N := (ifull z index - ics z) * 3 / 4.
Definition ondex_bad (z : isizage) (ondex : option N) : bool :=
  match ondex with Some o => (0 <? i_os z) && (64 ^ i_os z <=? o) | None => false end.
Definition ondex_mism (code : bytes) (z : isizage) (index : N) (ondex : option N) : bool :=
  negb (mem_code code both_sig_codes) && match ondex with Some o => negb (o =? index) && (i_os z =? 0) | None => false end.
Definition is_some {A} (o : option A) : bool := match o with Some _ => true | None => false end.
Definition ondex_val (code : bytes) (index : N) (ondex : option N) : N :=
  match ondex with Some o => o | None => if mem_code code both_sig_codes then index else 0 end.

Lemma i_new_eq code z raw index ondex : get_isizage code = Ok z ->
  indexer_new_with_code_and_raw code raw index ondex =
  if (64 ^ ims z <=? index) || ondex_bad z ondex || (mem_code code current_sig_codes && is_some ondex) || ondex_mism code z index ondex
  then Err E_InvalidVarIndex
  else if len raw <? rize_of z index then Err E_Shortage
  else Ok (Idx code (take (rize_of z index) raw) index (ondex_val code index ondex)).
Proof.
  intros Hz. pose proof (isizage_facts _ _ Hz) as Z. pose proof (iz_ms _ _ Z) as Hms. pose proof (iz_os _ _ Z) as Hos.
  unfold indexer_new_with_code_and_raw. destruct code as [|c0 r0] eqn:Ec; [exfalso; destruct (iz_first _ _ Z) as [? [? [? [? _]]]]; discriminate|].
  rewrite <- Ec in *. clear Ec c0 r0. rewrite Hz. cbn [obind]. change (i_hs z + i_ss z) with (ics z). change (i_ss z - i_os z) with (ims z).
  rewrite pow_lim_ok by lia. cbn [obind]. destruct (pow64_3 (ims z)) as [Hp1 Hp2]; [lia|]. destruct (pow64_3 (i_os z)) as [Hq1 Hq2]; [lia|].
  destruct (N.leb_spec (64 ^ ims z) index) as [Hi|Hi].
  { replace (64 ^ ims z - 1 <? index) with true by lia. reflexivity. }
  replace (64 ^ ims z - 1 <? index) with false by lia. cbn [orb].
  assert (Eb : match ondex with
    | Some o => if 0 <? i_os z then olim <- pow_lim (i_os z);; Ok (olim <? o) else Ok false
    | None => Ok false end = Ok (ondex_bad z ondex)).
  { unfold ondex_bad. destruct ondex as [o|]; [|reflexivity]. destruct (N.ltb_spec 0 (i_os z)); [|reflexivity]. rewrite pow_lim_ok by lia. cbn [obind andb]. f_equal. lia. }
  rewrite Eb. cbn [obind]. destruct (ondex_bad z ondex); [reflexivity|]. cbn [orb].
  change (match ondex with Some _ => true | None => false end) with (is_some ondex).
  destruct (mem_code code current_sig_codes && is_some ondex); [reflexivity|]. cbn [orb].
  destruct (ifull_facts _ _ _ Hz Hi) as [Hf1 [Hf2 [Hf3 Hf4]]].
  assert (Efin : forall od, (fs <- i_full z index E_InvalidCodeSize;; d <- sub32 fs (ics z);; d3 <- mul32 d 3;;
       (if len raw <? d3 / 4 then Err E_Shortage else raw0 <- slice raw 0 (d3 / 4);; Ok (Idx code raw0 index match od with Some o => o | None => 0 end))) =
     if len raw <? rize_of z index then Err E_Shortage else Ok (Idx code (take (rize_of z index) raw) index match od with Some o => o | None => 0 end)).
  { intros od. rewrite (i_full_ok _ _ _ _ Hz Hi). cbn [obind]. rewrite sub32_ok by lia. cbn [obind]. rewrite mul32_ok by (unfold U32; lia). cbn [obind]. fold (rize_of z index).
    destruct (N.ltb_spec (len raw) (rize_of z index)); [reflexivity|]. rewrite slice_prefix by lia. reflexivity. }
  unfold ondex_mism, ondex_val. destruct (mem_code code both_sig_codes) eqn:MB; cbn [negb andb].
  - destruct ondex as [o|]; cbn [obind]; [exact (Efin (Some o))|exact (Efin (Some index))].
  - destruct ondex as [o|]; [destruct (negb (o =? index) && (i_os z =? 0)); [reflexivity|]|]; cbn [obind]; [exact (Efin (Some o))|exact (Efin None)].
Qed.
Lemma i_new_unknown code raw index ondex : get_isizage code = Err E_UnknownSizage ->
  exists e, indexer_new_with_code_and_raw code raw index ondex = Err e.
Proof. intros H. unfold indexer_new_with_code_and_raw. destruct code; [eexists; reflexivity|]. rewrite H. eexists; reflexivity. Qed.

Lemma i_new_wf code z raw index ondex x : get_isizage code = Ok z -> i_ls z = 0 -> bytes_ok raw = true ->
  indexer_new_with_code_and_raw code raw index ondex = Ok x ->
  iwf x z /\ cur_zero z x /\ x_code x = code /\ x_index x = index /\ x_ondex x = ondex_val code index ondex /\ x_raw x = take (rize_of z index) raw.
Proof.
  intros Hz Hl Hb H. pose proof (isizage_facts _ _ Hz) as Z. rewrite (i_new_eq _ z) in H by auto.
  destruct (64 ^ ims z <=? index) eqn:E1; [discriminate|]. destruct (ondex_bad z ondex) eqn:E2; [discriminate|].
  destruct (mem_code code current_sig_codes && is_some ondex) eqn:E3; [discriminate|]. destruct (ondex_mism code z index ondex) eqn:E4; [discriminate|].
  cbn [orb] in H. destruct (len raw <? rize_of z index) eqn:E5; [discriminate|]. injection H as <-. cbn [x_code x_index x_ondex x_raw].
  destruct (pow64_3 (i_os z)) as [Hq1 Hq2]; [pose proof (iz_os _ _ Z); lia|].
  assert (Hod : i_os z = 0 \/ ondex_val code index ondex < 64 ^ i_os z).
  { unfold ondex_bad, ondex_val in *. destruct ondex as [o|].
    - destruct (N.ltb_spec 0 (i_os z)); [right|left; lia]. cbn [andb] in E2. lia.
    - destruct (N.eq_dec (i_os z) 0); [left; auto|]. right. destruct (mem_code code both_sig_codes) eqn:MB; [|lia].
      assert (Hbo : forallb (fun c => match get_isizage c with Ok z => (i_os z =? 0) || (ims z =? i_os z) | _ => false end) both_sig_codes = true) by (vm_compute; reflexivity).
      apply mem_code_In in MB. eapply forallb_forall in Hbo; [|exact MB]. rewrite Hz in Hbo.
      assert (ims z = i_os z) as <- by lia. lia. }
  split; [|split; [|auto]].
  - constructor; cbn [x_code x_index x_ondex x_raw]; auto; [apply bytes_ok_take; auto|lia|rewrite len_take; unfold rize_of in *; lia].
  - intros M _. cbn [x_code x_ondex] in *. rewrite M in E3. destruct ondex; [discriminate|]. unfold ondex_val. destruct (iz_cur _ _ Z M) as [_ [_ ->]]. reflexivity.
Qed.

(** ** What a successful text parse guarantees ('=' allowed), codes without lead bytes *)
Record iparsed (x : indexer) (z : isizage) (t : bytes) : Prop := {
  ip_sz : get_isizage (x_code x) = Ok z;
  ip_len : ifull z (x_index x) <= len t;
  ip_bytes : bytes_ok (x_raw x) = true;
  ip_index : x_index x < 64 ^ ims z;
  ip_ondex : x_ondex x = seen_ondex z x;
  ip_ondex_lt : i_os z = 0 \/ x_ondex x < 64 ^ i_os z;
  ip_cur : cur_zero z x;
  ip_text : i_ls z = 0 -> take (ifull z (x_index x)) t = itext z x
}.

Lemma i_hardage_vals c h : i_hardage c = Ok h -> h = 1 \/ h = 2.
Proof. unfold i_hardage. repeat match goal with |- context [if ?b then _ else _] => destruct b end; intros [= <-]; auto. Qed.
Lemma i_bardage_vals c h : i_bardage c = Ok h -> h = 1 \/ h = 2.
Proof. unfold i_bardage. repeat match goal with |- context [if ?b then _ else _] => destruct b end; intros [= <-]; auto. Qed.

(** the other index read back *)
Lemma read_ondex_inv z hard odx index o : izfacts hard z -> len odx = i_os z -> read_ondex hard odx (i_os z) index = Ok o ->
  (i_os z <> 0 -> num64 (i_os z) o = odx /\ o < 64 ^ i_os z) /\ (mem_code hard current_sig_codes = true -> o = 0) /\
  (mem_code hard current_sig_codes = false -> i_os z = 0 -> o = index).
Proof.
  intros Z Hl H. pose proof (iz_os _ _ Z) as Hos. unfold read_ondex in H. 
  assert (Q : i_os z <> 0 -> b64_to_u32 odx = Ok o -> num64 (i_os z) o = odx /\ o < 64 ^ i_os z).
  { intros H0 E. pose proof (b64_to_u32_ok _ _ E) as Ha. rewrite b64_to_u32_all in E by (auto; lia). injection E as <-. rewrite <- Hl. split; [apply num64_roundtrip; auto|]. apply val64_lt. }
  destruct (mem_code hard current_sig_codes) eqn:M.
  - destruct (N.eqb_spec (i_os z) 0) as [E|E]; cbn [negb] in H.
    + injection H as <-. repeat split; auto; try discriminate; intros; contradiction.
    + inv_bind H o' Eo. destruct (negb (o' =? 0)) eqn:E1; [discriminate|]. injection H as <-. assert (o' = 0) by lia. subst o'. repeat split; auto; try discriminate; apply Q; auto.
  - destruct (N.eqb_spec (i_os z) 0) as [E|E]; cbn [negb] in H.
    + injection H as <-. repeat split; auto; try discriminate; intros; contradiction.
    + repeat split; auto; try discriminate; try (apply Q; auto); intros; contradiction.
Qed.

Lemma i_exfil_parsed t x : indexer_exfil t = Ok x -> exists z, iparsed x z t.
Proof.
  unfold indexer_exfil. destruct t as [|c t'] eqn:Et; [discriminate|]. rewrite <- Et. clear Et. rename t' into tt0.
  intros H. inv_bind H hs0 Eh. destruct (len t <? hs0) eqn:El; [discriminate|].
  inv_bind H hard Ehard. inv_bind H z Ez. pose proof (isizage_facts _ _ Ez) as Z.
  pose proof (len_of_slice _ _ _ _ Ehard) as Hhl. rewrite (iz_len _ _ Z), N.sub_0_r in Hhl. subst hs0.
  apply str_slice_inv in Ehard as [_ [Hhlen [_ [Hbd Ehard]]]]. rewrite N.sub_0_r, drop_0 in Ehard.
  change (i_hs z + i_ss z) with (ics z) in *. change (i_ss z - i_os z) with (ims z) in *.
  pose proof (iz_ms _ _ Z) as Hms. pose proof (iz_os _ _ Z) as Hos. pose proof (iz_ss _ _ Z) as Hss. pose proof (iz_cs _ _ Z) as Hc.
  assert (Hcs : ics z = i_hs z + ims z + i_os z) by (unfold ics; lia).
  destruct (len t <? ics z) eqn:Elc; [discriminate|]. inv_bind H it Eit. inv_bind H idx Ei. inv_bind H odx Eodx. inv_bind H ondex Eo.
  pose proof (len_of_slice _ _ _ _ Eit) as Hitl. replace (i_hs z + ims z - i_hs z) with (ims z) in Hitl by lia.
  pose proof (len_of_slice _ _ _ _ Eodx) as Hodl. replace (i_hs z + ims z + i_os z - (i_hs z + ims z)) with (i_os z) in Hodl by lia.
  apply str_slice_inv in Eit as [_ [_ [_ [_ Eit]]]]. replace (i_hs z + ims z - i_hs z) with (ims z) in Eit by lia.
  apply str_slice_inv in Eodx as [_ [_ [_ [_ Eodx]]]]. replace (i_hs z + ims z + i_os z - (i_hs z + ims z)) with (i_os z) in Eodx by lia.
  pose proof (b64_to_u32_ok _ _ Ei) as Hai. rewrite b64_to_u32_all in Ei by (auto; lia). injection Ei as Ei.
  assert (Hi : idx < 64 ^ ims z) by (rewrite <- Ei, <- Hitl; apply val64_lt).
  assert (Hnum : num64 (ims z) idx = it) by (rewrite <- Ei, <- Hitl; apply num64_roundtrip; auto).
  destruct (read_ondex_inv _ _ _ _ _ Z Hodl Eo) as [Ho1 [Ho2 Ho3]].
  rewrite (i_full_ok _ _ _ _ Ez Hi) in H. cbn [obind] in H. destruct (ifull_facts _ _ _ Ez Hi) as [Hf1 [Hf2 [Hf3 Hf4]]].
  set (f := ifull z idx) in *. destruct (len t <? f) eqn:Elf; [discriminate|].
  inv_bind H trim Etrim. apply str_slice_inv in Etrim as [_ [_ [_ [Hbf Etrim]]]]. rewrite N.sub_0_r, drop_0 in Etrim.
  inv_bind H raw Eraw. injection H as <-. exists z.
  assert (Hltrim : len trim = f) by (subst trim; rewrite len_take; lia).
  set (x := Idx hard raw idx ondex). 
  assert (Hboth : take (ics z) t = iboth z x).
  { unfold iboth, x. cbn [x_code x_index x_ondex]. rewrite Hnum. rewrite Hcs. replace (i_hs z + ims z + i_os z) with (i_hs z + (ims z + i_os z)) by lia.
    rewrite !take_split. rewrite <- Ehard. f_equal. rewrite <- Eit. f_equal. rewrite drop_drop. rewrite <- Eodx.
    destruct (N.eq_dec (i_os z) 0) as [E0|E0].
    - rewrite (len_zero odx) by lia. rewrite E0. reflexivity.
    - symmetry. apply Ho1; auto. }
  assert (Hsplit : take f t = iboth z x ++ drop (ics z) (take f t)).
  { rewrite <- Hboth. rewrite drop_take. symmetry. apply take_drop_take; auto. }
  assert (Hraw : bytes_ok raw = true /\ (i_ls z = 0 -> take f t = itext z x)).
  { destruct (N.eqb_spec (ics z mod 4) 0) as [E0|E0]; cbn [negb] in Eraw.
    - inv_bind Eraw tl0 Etl. apply str_slice_inv in Etl as [_ [_ [_ [_ Etl]]]]. rewrite take_all in Etl by (rewrite len_drop; lia).
      inv_bind Eraw paw Epaw. inv_bind Eraw pre Epre. destruct (negb (from_be pre =? 0)) eqn:Ec; [destruct (i_ls z =? 1); discriminate|].
      apply slice_inv in Eraw as [_ [_ Eraw]]. rewrite take_all in Eraw by (rewrite len_drop; lia). rewrite E0, drop_0 in Eraw. subst raw.
      apply b64_decode_inv in Epaw as [Hok He]. split; auto. intros _. rewrite Hsplit. unfold itext. f_equal. rewrite E0, drop_0. cbn [x_raw x]. change (rep 0 0 ++ paw) with paw. rewrite He, Etl, Etrim. reflexivity.
    - inv_bind Eraw tl0 Etl. apply str_slice_inv in Etl as [_ [_ [_ [_ Etl]]]]. rewrite take_all in Etl by (rewrite len_drop; lia).
      inv_bind Eraw paw Epaw. inv_bind Eraw pre Epre. apply slice_inv in Epre as [_ [Hlp Epre]]. rewrite N.sub_0_r, drop_0 in Epre.
      destruct (negb (from_be pre mod _ =? 0)) eqn:Ec; [discriminate|].
      apply slice_inv in Eraw as [_ [_ Eraw]]. rewrite take_all in Eraw by (rewrite len_drop; lia). rewrite from_be_val in Ec.
      pose proof (prepad_zero (ics z mod 4) tl0 paw ltac:(lia) Epaw Hlp ltac:(subst pre; lia)) as Hz0.
      apply b64_decode_inv in Epaw as [Hok He]. split; [subst raw; apply bytes_ok_drop; auto|]. intros _.
      rewrite Hsplit. unfold itext. f_equal. cbn [x_raw x]. 
      assert (Epaw2 : rep 0 (ics z mod 4) ++ raw = paw) by (rewrite <- Hz0, Eraw; apply take_drop_id). rewrite Epaw2, He.
      rewrite drop_app_exact by apply len_rep. rewrite Etl, Etrim. reflexivity. }
  destruct Hraw as [Hrb Htxt]. constructor; cbn [x x_code x_index x_raw x_ondex]; auto.
  - fold f. lia.
  - unfold seen_ondex, x. cbn [x_code x_index x_ondex]. destruct (mem_code hard current_sig_codes) eqn:M; [auto|]. destruct (N.eqb_spec (i_os z) 0); auto.
  - destruct (N.eq_dec (i_os z) 0); [left; auto|right; apply Ho1; auto].
  - intros M _. cbn [x_ondex x_code] in *. auto.
Qed.

Lemma iparsed_wf x z t : iparsed x z t -> i_ls z = 0 -> all_b64 (take (ifull z (x_index x)) t) = true -> iwf x z.
Proof.
  intros [Hz Hl Hb Hi Hod Holt Hcur Ht] Hls Ha. constructor; auto. specialize (Ht Hls).
  pose proof (isizage_facts _ _ Hz) as Z. pose proof (iz_cs _ _ Z) as Hc. destruct (ifull_facts _ _ _ Hz Hi) as [Hf1 [Hf2 [Hf3 Hf4]]].
  rewrite Ht in Ha. unfold itext in Ha. rewrite all_b64_app in Ha. apply andb_true_iff in Ha as [_ Ha].
  set (buf := rep 0 (ics z mod 4) ++ x_raw x) in *.
  assert (Hlb : len buf = ics z mod 4 + len (x_raw x)) by (unfold buf; rewrite len_app, len_rep; reflexivity).
  assert (Hmod : len buf mod 3 = 0).
  { destruct (N.eq_dec (len buf mod 3) 0) as [|Hne]; auto. exfalso.
    assert (Hp : In pad_char (drop (ics z mod 4) (b64_encode buf))).
    { unfold b64_encode. rewrite drop_app. apply in_or_app. right.
      replace (ics z mod 4 - len (map chr64 (sextets buf))) with 0 by (rewrite len_map, len_sextets; lia).
      rewrite drop_0. unfold rep.
      destruct (N.to_nat ((3 - len buf mod 3) mod 3)) eqn:E; [lia|]. left; reflexivity. }
    eapply forallb_forall in Ha; eauto. vm_compute in Ha. discriminate. }
  apply (f_equal len) in Ht. rewrite len_take in Ht. unfold itext in Ht. fold buf in Ht.
  rewrite len_app, len_drop, len_b64_encode, (len_iboth _ _ Hz) in Ht. unfold ifull in *. destruct (ivar z) eqn:V.
  - destruct (iz_var _ _ Z V) as [E _]. lia.
  - destruct (iz_fix _ _ Z V) as [E1 [E2 E3]]. lia.
Qed.

(** ** Binary *)
Lemma i_bexfil_inv b x : bytes_ok b = true -> indexer_bexfil b = Ok x -> exists z, get_isizage (x_code x) = Ok z /\
  (i_ls z = 0 -> iwf x z /\ cur_zero z x /\ x_ondex x = seen_ondex z x /\ b = ibin z x ++ drop (ifull z (x_index x) * 3 / 4) b).
Proof.
  intros Hok H. unfold indexer_bexfil in H. destruct b as [|b0 bt] eqn:Eb; [discriminate|]. rewrite <- Eb in *. clear Eb b0 bt.
  inv_bind H sx Esx. inv_bind H fst0 Efirst. inv_bind H hs0 Eh.
  destruct (len b <? (hs0 * 3 + 3) / 4) eqn:El; [discriminate|].
  inv_bind H hard Ehard. inv_bind H z Ez. pose proof (isizage_facts _ _ Ez) as Z.
  pose proof (i_bardage_vals _ _ Eh) as Hhv. rewrite code_b2_to_b64_ok in Ehard by (auto; lia). injection Ehard as Ehard.
  assert (Hhs : hs0 = i_hs z). { pose proof (iz_len _ _ Z) as Hl. rewrite <- Ehard in Hl. rewrite len_map, len_take, len_sextets in Hl. lia. }
  subst hs0. change (i_hs z + i_ss z) with (ics z) in *. change (i_ss z - i_os z) with (ims z) in *.
  pose proof (iz_ms _ _ Z) as Hms. pose proof (iz_os _ _ Z) as Hos. pose proof (iz_ss _ _ Z) as Hss. pose proof (iz_cs _ _ Z) as Hc. pose proof (iz_hs _ _ Z) as Hhs.
  assert (Hcs : ics z = i_hs z + ims z + i_os z) by (unfold ics; lia).
  destruct (len b <? (ics z + 1) * 3 / 4) eqn:Elc; [discriminate|].
  inv_bind H both Eboth. rewrite code_b2_to_b64_ok in Eboth by (auto; lia). injection Eboth as Eboth.
  inv_bind H it Eit. inv_bind H idx Ei. inv_bind H odx Eodx. inv_bind H ondex Eo.
  pose proof (len_of_slice _ _ _ _ Eit) as Hitl. replace (i_hs z + ims z - i_hs z) with (ims z) in Hitl by lia.
  pose proof (len_of_slice _ _ _ _ Eodx) as Hodl. replace (i_hs z + ims z + i_os z - (i_hs z + ims z)) with (i_os z) in Hodl by lia.
  apply str_slice_inv in Eit as [_ [_ [_ [_ Eit]]]]. replace (i_hs z + ims z - i_hs z) with (ims z) in Eit by lia.
  apply str_slice_inv in Eodx as [_ [_ [_ [_ Eodx]]]]. replace (i_hs z + ims z + i_os z - (i_hs z + ims z)) with (i_os z) in Eodx by lia.
  pose proof (b64_to_u32_ok _ _ Ei) as Hai. rewrite b64_to_u32_all in Ei by (auto; lia). injection Ei as Ei.
  assert (Hi : idx < 64 ^ ims z) by (rewrite <- Ei, <- Hitl; apply val64_lt).
  assert (Hnum : num64 (ims z) idx = it) by (rewrite <- Ei, <- Hitl; apply num64_roundtrip; auto).
  destruct (read_ondex_inv _ _ _ _ _ Z Hodl Eo) as [Ho1 [Ho2 Ho3]].
  rewrite (i_full_ok _ _ _ _ Ez Hi) in H. cbn [obind] in H. destruct (ifull_facts _ _ _ Ez Hi) as [Hf1 [Hf2 [Hf3 Hf4]]].
  set (f := ifull z idx) in *. 
  rewrite add32_ok in H by (unfold U32; lia). cbn [obind] in H. rewrite mul32_ok in H by (unfold U32; lia). cbn [obind] in H.
  replace ((f + 1) * 3 / 4) with (f * 3 / 4) in H by lia.
  destruct (len b <? f * 3 / 4) eqn:Elf; [discriminate|].
  rewrite slice_prefix in H by lia. cbn [obind] in H. inv_bind H u Echk. inv_bind H raw Eraw. injection H as <-. exists z. cbn [x_code]. split; [auto|]. intros Hls.
  set (x := Idx hard raw idx ondex) in *. set (trim := take (f * 3 / 4) b) in *. set (bcs := (ics z + 1) * 3 / 4) in *.
  assert (Hltrim : len trim = f * 3 / 4) by (unfold trim; rewrite len_take; lia).
  apply slice_inv in Eraw as [Hr1 [_ Eraw]]. rewrite take_all in Eraw by (rewrite len_drop; lia). rewrite Hls, N.add_0_r in *.
  assert (Hoktrim : bytes_ok trim = true) by (apply bytes_ok_take; auto).
  assert (Hboth : iboth z x = map chr64 (take (ics z) (sextets b))).
  { unfold iboth, x. cbn [x_code x_index x_ondex]. rewrite Hnum, Eboth. rewrite <- (take_all (ics z) both) by (rewrite <- Eboth, len_map, len_take; lia).
    rewrite Hcs. replace (i_hs z + ims z + i_os z) with (i_hs z + (ims z + i_os z)) by lia. rewrite !take_split. f_equal.
    { rewrite <- Ehard, <- Eboth, take_map. f_equal. rewrite take_take. f_equal. lia. }
    rewrite <- Eit. f_equal. rewrite drop_drop, <- Eodx. destruct (N.eq_dec (i_os z) 0) as [E0|E0].
    - rewrite (len_zero odx) by lia. rewrite E0. reflexivity.
    - apply Ho1; auto. }
  assert (Hbc : bcode (iboth z x) = take bcs trim).
  { rewrite Hboth. unfold trim. rewrite take_take. replace (N.min bcs (f * 3 / 4)) with bcs by (unfold bcs; lia).
    apply bcode_of_bytes; auto; [fold bcs; clear - Elc; lia|].
    intros Hne y Hy. destruct (N.eqb_spec (ics z mod 4) 0); [contradiction|]. cbn [negb] in Echk.
    inv_bind Echk pi Epi. unfold index_at in Epi. unfold trim in Epi. rewrite nth_error_take in Epi by (unfold bcs in *; lia).
    fold bcs in Hy. rewrite Hy in Epi. injection Epi as <-.
    destruct (negb (y mod _ =? 0)) eqn:Ex; [discriminate|]. lia. }
  assert (Hbin : ibin z x = trim).
  { unfold ibin. rewrite Hbc. cbn [x_raw x]. rewrite Eraw. apply take_drop_id. }
  assert (Hseen : ondex = seen_ondex z x).
  { unfold seen_ondex, x. cbn [x_code x_index x_ondex]. destruct (mem_code hard current_sig_codes) eqn:M; [auto|]. destruct (N.eqb_spec (i_os z) 0); auto. }
  split; [|split; [|split; [exact Hseen|]]].
  - constructor; cbn [x x_code x_index x_raw x_ondex]; auto.
    + subst raw. apply bytes_ok_drop; auto.
    + destruct (N.eq_dec (i_os z) 0); [left; auto|right; apply Ho1; auto].
    + assert (Hlr : len raw = f * 3 / 4 - bcs) by (subst raw; rewrite len_drop, Hltrim; reflexivity). fold f. rewrite Hlr. unfold bcs. lia.
  - intros M _. cbn [x x_ondex x_code] in *. auto.
  - rewrite Hbin. unfold trim. cbn [x x_index]. fold f. symmetry. apply take_drop_id.
Qed.

Lemma i_bexfil_bin z x tail : iwf x z -> cur_zero z x -> bytes_ok tail = true -> indexer_bexfil (ibin z x ++ tail) = Ok (seen z x).
Proof.
  intros W C Ht. pose proof (iw_sz _ _ W) as Hz. pose proof (isizage_facts _ _ Hz) as Z. pose proof (len_iboth _ _ Hz) as Hlb. pose proof (len_ibin _ _ W) as [Hl1 Hl2].
  pose proof (bytes_ok_ibin _ _ W) as Hokb. destruct (raw_arith _ _ W) as [H1 [H2 [H3 H4]]]. pose proof (iw_index _ _ W) as Hi.
  pose proof (iz_ms _ _ Z) as Hms. pose proof (iz_os _ _ Z) as Hos. pose proof (iz_ss _ _ Z) as Hss. pose proof (iz_cs _ _ Z) as Hc. pose proof (iz_hs _ _ Z) as Hh.
  destruct (ifull_facts _ _ _ Hz Hi) as [Hf1 [Hf2 [Hf3 Hf4]]]. assert (Hcs : ics z = i_hs z + i_ss z) by reflexivity.
  set (b := ibin z x ++ tail). assert (Hokall : bytes_ok b = true) by (unfold b; rewrite bytes_ok_app, Hokb; auto).
  assert (Hlenb : len b = len (ibin z x) + len tail) by (unfold b; apply len_app).
  assert (Hsx : sextets b = ords (itext z x) ++ sextets tail).
  { unfold b. rewrite sextets_app by auto. f_equal. rewrite itext_encode, b64_encode_full by auto. rewrite ords_chr; auto. apply sextets_lt; auto. }
  assert (Htk : forall k, k <= ics z -> map chr64 (take k (sextets b)) = take k (iboth z x)).
  { intros k Hk. rewrite <- take_map, Hsx, map_app. rewrite chr_ords by (apply all_b64_itext; auto).
    unfold itext. rewrite <- !app_assoc. rewrite take_app. rewrite Hlb. replace (k - ics z) with 0 by lia. rewrite take_0, app_nil_r. reflexivity. }
  assert (Hcode : map chr64 (take (i_hs z) (sextets b)) = x_code x).
  { rewrite Htk by lia. unfold iboth. apply take_app_exact. apply (iz_len _ _ Z). }
  destruct (iz_first _ _ Z) as [c [r [i [Ec [Hhd [Hid Hbd]]]]]].
  unfold indexer_bexfil. destruct b as [|b0 bt] eqn:Eb.
  { exfalso. rewrite len_nil in Hlenb. lia. }
  rewrite <- Eb in *. clear Eb b0 bt.
  assert (H1b : (1 + 1) * 3 / 4 <= len b) by (change ((1 + 1) * 3 / 4) with 1; lia).
  rewrite nab_sextets_ok by (auto; lia). cbn [obind].
  assert (Ef : index_at (take 1 (sextets b)) 0 = Ok i).
  { assert (E1 : map chr64 (take 1 (sextets b)) = [c]).
    { rewrite Htk by lia. unfold iboth. rewrite Ec. reflexivity. }
    destruct (take 1 (sextets b)) as [|i' [|? ?]] eqn:E; try discriminate.
    cbn [map] in E1. injection E1 as E1.
    assert (i' < 64). { pose proof (sextets_lt _ Hokall) as F. rewrite <- (take_drop_id 1 (sextets b)) in F. rewrite E in F. inversion F; auto. }
    rewrite <- E1 in Hid. rewrite ord64_chr64 in Hid by auto. injection Hid as ->. reflexivity. }
  rewrite Ef. cbn [obind]. rewrite Hbd. cbn [obind].
  replace (len b <? (i_hs z * 3 + 3) / 4) with false by lia.
  rewrite code_b2_to_b64_ok by (auto; lia). cbn [obind]. rewrite Hcode, Hz. cbn [obind].
  change (i_hs z + i_ss z) with (ics z). change (i_ss z - i_os z) with (ims z).
  replace (len b <? (ics z + 1) * 3 / 4) with false by lia. rewrite code_b2_to_b64_ok by (auto; lia). cbn [obind]. rewrite Htk by lia. rewrite (take_all (ics z)) by lia.
  assert (Hasc : ascii_ok (iboth z x) = true) by (apply all_b64_ascii, all_b64_iboth; auto).
  rewrite str_slice_ascii by (auto; lia). cbn [obind]. replace (i_hs z + ims z - i_hs z) with (ims z) by lia.
  assert (E1 : drop (i_hs z) (iboth z x) = num64 (ims z) (x_index x) ++ num64 (i_os z) (x_ondex x)) by (apply drop_app_exact; apply (iz_len _ _ Z)).
  rewrite E1, take_app_exact by apply len_num64. rewrite read_num64 by (auto; lia). cbn [obind].
  rewrite str_slice_ascii by (auto; lia). cbn [obind]. replace (i_hs z + ims z + i_os z - (i_hs z + ims z)) with (i_os z) by lia.
  rewrite <- drop_drop, E1, drop_app_exact by apply len_num64. rewrite take_all by (rewrite len_num64; lia).
  rewrite read_ondex_ok by auto. cbn [obind]. rewrite (i_full_ok _ _ _ _ Hz Hi). cbn [obind].
  rewrite add32_ok by (unfold U32; lia). cbn [obind]. rewrite mul32_ok by (unfold U32; lia). cbn [obind].
  assert (Hbfs : (ifull z (x_index x) + 1) * 3 / 4 = len (ibin z x)) by lia. rewrite Hbfs.
  replace (len b <? len (ibin z x)) with false by lia.
  rewrite slice_prefix by lia. cbn [obind]. unfold b. rewrite take_app_exact by auto. rewrite (iw_ls _ _ W), N.add_0_r.
  set (bcs := (ics z + 1) * 3 / 4) in *.
  assert (Hlbc : len (bcode (iboth z x)) = bcs) by (rewrite len_bcode, Hlb; reflexivity).
  assert (Echk : (if negb (ics z mod 4 =? 0) then
             pi <- index_at (ibin z x) (bcs - 1) ;;
             if negb (pi mod 2 ^ (2 * (ics z mod 4)) =? 0) then Err E_NonZeroedPadBits else Ok tt
           else
             if forallb (N.eqb 0) (drop bcs (take bcs (ibin z x))) then Ok tt
             else if 0 =? 1 then Err E_NonZeroedLeadByte else Err E_NonZeroedLeadBytes) = Ok tt).
  { destruct (N.eqb_spec (ics z mod 4) 0) as [E0|E0]; cbn [negb]; cbv iota.
    - unfold ibin. rewrite take_app_exact by auto. rewrite drop_all by lia. reflexivity.
    - assert (Hi2 : exists y, index_at (ibin z x) (bcs - 1) = Ok y /\ y mod 2 ^ (2 * (ics z mod 4)) = 0).
      { unfold index_at, ibin. rewrite nth_error_app_l by (unfold bcs in *; lia).
        unfold bcode. rewrite Hlb. fold bcs. rewrite to_be_digits.
        replace (N.to_nat bcs) with (S (N.to_nat (bcs - 1))) by (unfold bcs in *; lia). cbn [digits].
        rewrite nth_error_app2 by (rewrite length_digits; lia). rewrite length_digits, Nat.sub_diag. cbn [nth_error].
        eexists; split; [reflexivity|].
        assert (ics z mod 4 = 2) as M by lia; rewrite M; npow; lia. }
      destruct Hi2 as [y [-> Hy]]. cbn [obind]. rewrite Hy. reflexivity. }
  rewrite Echk. cbn [obind].
  rewrite slice_to_end by (unfold ibin; rewrite len_app, Hlbc; lia). cbn [obind].
  unfold ibin. rewrite drop_app_exact by auto. reflexivity.
Qed.

(** parsing binary never panics *)
Lemma read_ondex_not_panic hard odx os index : read_ondex hard odx os index <> Panic.
Proof.
  unfold read_ondex. pose proof (b64_to_u32_not_panic odx) as N. destruct (mem_code _ _), (negb (os =? 0)); try discriminate; destruct (b64_to_u32 odx); cbn [obind]; try discriminate; auto.
  destruct (negb _); discriminate.
Qed.
Lemma i_hardage_not_panic c : i_hardage c <> Panic.
Proof. unfold i_hardage. repeat match goal with |- context [if ?b then _ else _] => destruct b end; discriminate. Qed.
Lemma i_bardage_not_panic c : i_bardage c <> Panic.
Proof. unfold i_bardage. repeat match goal with |- context [if ?b then _ else _] => destruct b end; discriminate. Qed.

Lemma i_bexfil_not_panic b : bytes_ok b = true -> indexer_bexfil b <> Panic.
Proof.
  intros Hok H. unfold indexer_bexfil in H. destruct b as [|b0 bt] eqn:Eb; [discriminate|]. rewrite <- Eb in *.
  assert (Hb1 : 1 <= len b) by (subst b; rewrite len_cons; lia). clear Eb b0 bt.
  rewrite nab_sextets_ok in H by (auto; try lia; change ((1 + 1) * 3 / 4) with 1; lia). cbn [obind] in H.
  assert (Hl1 : len (take 1 (sextets b)) = 1) by (rewrite len_take, len_sextets; lia).
  destruct (take 1 (sextets b)) as [|i [|i2 sr]]; [discriminate Hl1| |rewrite !len_cons in Hl1; clear - Hl1; lia]. cbn [obind] in H. change (index_at [i] 0) with (Ok (A := N) i) in H. cbn [obind] in H.
  apply bind_panic in H as [H|[hs0 [Eh H]]]; [apply i_bardage_not_panic in H; auto|].
  destruct (len b <? (hs0 * 3 + 3) / 4) eqn:El; [discriminate|].
  pose proof (i_bardage_vals _ _ Eh) as Hhv. rewrite code_b2_to_b64_ok in H by (auto; lia). cbn [obind] in H.
  apply bind_panic in H as [H|[z [Ez H]]]; [apply isizage_not_panic in H; auto|].
  pose proof (isizage_facts _ _ Ez) as Z.
  assert (Hhs : hs0 = i_hs z). { pose proof (iz_len _ _ Z) as Hl. rewrite len_map, len_take, len_sextets in Hl. lia. }
  subst hs0. change (i_hs z + i_ss z) with (ics z) in *. change (i_ss z - i_os z) with (ims z) in *.
  pose proof (iz_ms _ _ Z) as Hms. pose proof (iz_os _ _ Z) as Hos. pose proof (iz_ss _ _ Z) as Hss. pose proof (iz_cs _ _ Z) as Hc. pose proof (iz_hs _ _ Z) as Hhs.
  assert (Hcs : ics z = i_hs z + ims z + i_os z) by (unfold ics; lia).
  destruct (len b <? (ics z + 1) * 3 / 4) eqn:Elc; [discriminate|]. rewrite code_b2_to_b64_ok in H by (auto; lia). cbn [obind] in H.
  set (both := map chr64 (take (ics z) (sextets b))) in *.
  assert (Hlb : len both = ics z) by (unfold both; rewrite len_map, len_take, len_sextets; lia).
  assert (Hab : all_b64 both = true).
  { unfold both. apply all_b64_chr. pose proof (sextets_lt _ Hok) as F. rewrite <- (take_drop_id (ics z) (sextets b)) in F. apply Forall_app in F. tauto. }
  rewrite str_slice_ascii in H by (try apply all_b64_ascii; auto; lia). cbn [obind] in H.
  replace (i_hs z + ims z - i_hs z) with (ims z) in H by lia.
  rewrite b64_to_u32_all in H; [|unfold all_b64; apply forallb_take, forallb_drop; auto|rewrite len_take; lia]. cbn [obind] in H.
  rewrite str_slice_ascii in H by (try apply all_b64_ascii; auto; lia). cbn [obind] in H.
  set (it := take (ims z) (drop (i_hs z) both)) in *. assert (Hit : len it = ims z) by (unfold it; rewrite len_take, len_drop; lia).
  assert (Hi : val 64 (ords it) < 64 ^ ims z) by (rewrite <- Hit; apply val64_lt). set (index := val 64 (ords it)) in *.
  apply bind_panic in H as [H|[ondex [Eo H]]]; [apply read_ondex_not_panic in H; auto|].
  rewrite (i_full_ok _ _ _ _ Ez Hi) in H. cbn [obind] in H. destruct (ifull_facts _ _ _ Ez Hi) as [Hf1 [Hf2 [Hf3 Hf4]]].
  set (f := ifull z index) in *. rewrite add32_ok in H by (unfold U32; lia). cbn [obind] in H. rewrite mul32_ok in H by (unfold U32; lia). cbn [obind] in H.
  destruct (len b <? (f + 1) * 3 / 4) eqn:Elf; [discriminate|]. rewrite slice_prefix in H by lia. cbn [obind] in H.
  assert (Hltrim : len (take ((f + 1) * 3 / 4) b) = (f + 1) * 3 / 4) by (rewrite len_take; lia).
  apply bind_panic in H as [H|[u [Eu H]]].
  - destruct (negb (ics z mod 4 =? 0)).
    + apply bind_panic in H as [H|[pi [_ H]]]; [|destruct (negb _); discriminate].
      unfold index_at in H. destruct (nth_error _ _) eqn:E in H; [discriminate|]. apply nth_error_None in E. unfold len in Hltrim. unfold bytes in *. lia.
    + destruct (forallb _ _); [discriminate|]. destruct (i_ls z =? 1); discriminate.
  - rewrite slice_to_end in H; [discriminate|]. rewrite Hltrim. pose proof (iz_ls _ _ Z) as Hls. unfold f, ifull in *. destruct (ivar z) eqn:V.
    + destruct (iz_var _ _ Z V) as [V1 [V2 [V3 V4]]]. lia.
    + destruct (iz_fix _ _ Z V) as [V1 [V2 V3]]. pose proof (iz_lead _ _ Z). lia.
Qed.
End P.
