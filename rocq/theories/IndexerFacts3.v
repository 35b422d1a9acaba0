(** Panics of the Indexer text parser. *)
From Verif Require Import Base BaseFacts Utf8 B64 B64Facts Util UtilFacts MatterTables MatterFacts MatterFacts2 MatterFacts3 CounterFacts IndexerTables Indexer IndexerFacts IndexerFacts2.

(** what the ondex characters must be for the parser to go on *)
Definition odx_ok (hard odx : bytes) (os : N) : bool :=
  (os =? 0) || (all_b64 odx && (negb (mem_code hard current_sig_codes) || (val 64 (ords odx) =? 0))).

Section P.
Context `{P : Profile}.

Lemma read_ondex_some hard odx os index : os <= 3 -> len odx = os ->
  odx_ok hard odx os = true -> exists o, read_ondex hard odx os index = Ok o.
Proof.
  intros Hs Hl H. unfold read_ondex, odx_ok in *. destruct (N.eqb_spec os 0) as [E|E]; cbn [negb orb] in *.
  - destruct (mem_code hard current_sig_codes); eauto.
  - apply andb_true_iff in H as [Ha H]. rewrite b64_to_u32_all by (auto; lia). cbn [obind]. destruct (mem_code hard current_sig_codes); cbn [negb orb] in H; [|eauto].
    rewrite H. cbn [negb]. eauto.
Qed.
Lemma read_ondex_odx hard odx os index o : os <= 3 -> len odx = os -> read_ondex hard odx os index = Ok o -> odx_ok hard odx os = true.
Proof.
  intros Hs Hl H. unfold read_ondex, odx_ok in *. destruct (N.eqb_spec os 0) as [E|E]; [reflexivity|]. cbn [negb orb] in *.
  destruct (mem_code hard current_sig_codes); cbn [negb orb].
  - inv_bind H o' Eo. pose proof (b64_to_u32_ok _ _ Eo) as Ha. rewrite Ha. rewrite b64_to_u32_all in Eo by (auto; lia). injection Eo as <-. cbn [andb].
    destruct (val 64 (ords odx) =? 0); [reflexivity|discriminate].
  - rewrite (b64_to_u32_ok _ _ H). reflexivity.
Qed.

Definition icut (t hard : bytes) (z : isizage) : Prop :=
  let ix := take (ims z) (drop (i_hs z) t) in
  let ox := take (i_os z) (drop (i_hs z + ims z) t) in
  boundary t (i_hs z + ims z) = false \/
  (all_b64 ix = true /\ (boundary t (ics z) = false \/
   (odx_ok hard ox (i_os z) = true /\ ifull z (val 64 (ords ix)) <= len t /\ boundary t (ifull z (val 64 (ords ix))) = false))).

Lemma i_exfil_panic_iff t : indexer_exfil t = Panic <->
  (exists c r h, t = c :: r /\ i_hardage c = Ok h /\ h <= len t /\ boundary t h = false) \/
  (exists hard z, get_isizage hard = Ok z /\ take (i_hs z) t = hard /\ boundary t (i_hs z) = true /\ ics z <= len t /\ icut t hard z).
Proof.
  assert (Bt : forall f k, k <= f -> f <= len t -> boundary t k = true -> boundary t f = true -> boundary (take f t) k = true).
  { intros f k Hkf Hf Bk Bf. destruct (N.eq_dec k f) as [->|Hne].
    - replace f with (len (take f t)) at 2 by (rewrite len_take; lia). apply boundary_len.
    - unfold boundary in *. rewrite nth_error_take by lia. destruct (nth_error t (N.to_nat k)) eqn:E; [exact Bk|].
      exfalso. apply nth_error_None in E. unfold len in Hf. lia. }
  split.
  - intros H. unfold indexer_exfil in H. destruct t as [|x t'] eqn:Et; [discriminate|]. rewrite <- Et in *.
    apply bind_panic in H as [H|[h [Eh H]]]; [exfalso; eapply i_hardage_not_panic; eauto|]. destruct (len t <? h) eqn:Elh; [discriminate|].
    apply bind_panic in H as [H|[hard [Ehard H]]].
    { left. exists x, t', h. apply str_slice_panic in H; auto using boundary_0; [|lia]. repeat split; auto. lia. }
    right. clear Et x t' Eh. apply bind_panic in H as [H|[z [Ez H]]]; [exfalso; eapply isizage_not_panic; eauto|]. pose proof (isizage_facts _ _ Ez) as Z.
    pose proof (len_of_slice _ _ _ _ Ehard) as Hhl. rewrite (iz_len _ _ Z), N.sub_0_r in Hhl. subst h.
    apply str_slice_inv in Ehard as [_ [_ [_ [Bh Ehard]]]]. rewrite N.sub_0_r, drop_0 in Ehard.
    change (i_hs z + i_ss z) with (ics z) in *. change (i_ss z - i_os z) with (ims z) in *.
    pose proof (iz_ms _ _ Z) as Hms. pose proof (iz_os _ _ Z) as Hos. pose proof (iz_ss _ _ Z) as Hss. pose proof (iz_cs _ _ Z) as Hc.
    assert (Hcs : ics z = i_hs z + ims z + i_os z) by (unfold ics; lia).
    destruct (len t <? ics z) eqn:Elc; [discriminate|]. exists hard, z. repeat split; auto; [lia|]. unfold icut.
    apply bind_panic in H as [H|[it [Eit H]]]; [left; apply str_slice_panic in H; auto; lia|].
    pose proof (len_of_slice _ _ _ _ Eit) as Hitl. replace (i_hs z + ims z - i_hs z) with (ims z) in Hitl by lia.
    apply str_slice_inv in Eit as [_ [_ [_ [Bi Eit]]]]. replace (i_hs z + ims z - i_hs z) with (ims z) in Eit by lia. rewrite <- Eit. right.
    apply bind_panic in H as [H|[idx [Ei H]]]; [exfalso; eapply b64_to_u32_not_panic; eauto|].
    pose proof (b64_to_u32_ok _ _ Ei) as Hai. split; [auto|]. rewrite b64_to_u32_all in Ei by (auto; lia). injection Ei as Ei. rewrite Ei.
    apply bind_panic in H as [H|[odx [Eodx H]]]; [left; rewrite Hcs; apply str_slice_panic in H; auto; lia|].
    pose proof (len_of_slice _ _ _ _ Eodx) as Hodl. replace (i_hs z + ims z + i_os z - (i_hs z + ims z)) with (i_os z) in Hodl by lia.
    apply str_slice_inv in Eodx as [_ [_ [_ [Bo Eodx]]]]. replace (i_hs z + ims z + i_os z - (i_hs z + ims z)) with (i_os z) in Eodx by lia. rewrite <- Eodx. right.
    apply bind_panic in H as [H|[ondex [Eo H]]]; [exfalso; eapply read_ondex_not_panic; eauto|].
    split; [eapply read_ondex_odx; eauto|].
    assert (Hi : idx < 64 ^ ims z) by (rewrite <- Ei, <- Hitl; apply val64_lt).
    rewrite (i_full_ok _ _ _ _ Ez Hi) in H. cbn [obind] in H. destruct (ifull_facts _ _ _ Ez Hi) as [Hf1 [Hf2 [Hf3 Hf4]]].
    assert (Hfix : ics z mod 4 <> 0 \/ i_ls z <> 0 -> ics z + 8 <= ifull z idx).
    { unfold ifull. destruct (ivar z) eqn:V.
      - destruct (iz_var _ _ Z V) as [V1 [V2 [V3 V4]]]. rewrite V1, V4. change (4 mod 4) with 0. intros [?|?]; lia.
      - intros _. assert (X : forallb (fun e => ivar (snd e) || (ics (snd e) + 8 <=? i_fs (snd e))) i_sizage_table = true) by (vm_compute; reflexivity).
        apply isizage_In in Ez. eapply forallb_forall in X; [|exact Ez]. cbn [snd] in X. rewrite V in X. cbn [orb] in X. lia. }
    set (f := ifull z idx) in *. destruct (len t <? f) eqn:Elf; [discriminate|]. split; [lia|].
    apply bind_panic in H as [H|[trim [Etrim H]]]; [apply str_slice_panic in H; auto using boundary_0; lia|].
    exfalso. apply str_slice_inv in Etrim as [_ [_ [_ [Bf Etrim]]]]. rewrite N.sub_0_r, drop_0 in Etrim.
    assert (Hlt : len trim = f) by (rewrite Etrim, len_take; lia).
    assert (Btc : boundary trim (ics z) = true) by (rewrite Etrim; apply Bt; auto; [lia|rewrite Hcs; auto]).
    assert (Etl : str_slice trim (ics z) (len trim) = Ok (drop (ics z) trim)).
    { rewrite str_slice_ok; auto using boundary_len; [|lia]. rewrite take_all; [reflexivity|]. rewrite len_drop. lia. }
    rewrite Etl in H. cbn [obind] in H. apply bind_panic in H as [H|[raw [_ H]]]; [|discriminate].
    destruct (N.eqb_spec (ics z mod 4) 0) as [E0|E0]; cbn [negb] in H.
    + apply bind_panic in H as [H|[paw [Ep H]]]; [eapply b64_decode_not_panic; eauto|].
      apply b64_decode_inv in Ep as [_ Ep]. apply (f_equal len) in Ep. rewrite len_b64_encode, len_drop, Hlt in Ep.
      pose proof (iz_ls _ _ Z) as Hls. assert (i_ls z <= len paw) by lia. rewrite slice_prefix in H by auto. cbn [obind] in H.
      destruct (negb _); [destruct (i_ls z =? 1); discriminate|]. rewrite E0, slice_to_end in H by lia. discriminate.
    + apply bind_panic in H as [H|[paw [Ep H]]]; [eapply b64_decode_not_panic; eauto|].
      apply b64_decode_inv in Ep as [_ Ep]. apply (f_equal len) in Ep. rewrite len_b64_encode, len_app, len_rep, len_drop, Hlt in Ep.
      specialize (Hfix (or_introl E0)). assert (ics z mod 4 <= len paw) by (clear - Hfix Hc Ep; lia). rewrite slice_prefix in H by auto. cbn [obind] in H.
      destruct (negb _); [discriminate|]. rewrite slice_to_end in H by auto. discriminate.
  - intros [[c [r [h [Et [Eh [Hl Hb]]]]]]|[hard [z [Ez [Ehard [Bh [Hl Hcut]]]]]]].
    + unfold indexer_exfil. rewrite Et. rewrite <- Et. rewrite Eh. cbn [obind]. replace (len t <? h) with false by lia.
      unfold str_slice. rewrite Hb, andb_false_r. reflexivity.
    + pose proof (isizage_facts _ _ Ez) as Z. pose proof (iz_hs _ _ Z) as Hhs.
      pose proof (iz_ms _ _ Z) as Hms. pose proof (iz_os _ _ Z) as Hos. pose proof (iz_ss _ _ Z) as Hss. pose proof (iz_cs _ _ Z) as Hc.
      assert (Hcs : ics z = i_hs z + ims z + i_os z) by (unfold ics; lia).
      destruct (iz_first _ _ Z) as [c [r [i [Ec [Hhd _]]]]].
      destruct t as [|c0 t0] eqn:Et; [exfalso; rewrite Ec, take_nil in Ehard; discriminate|].
      assert (c0 = c). { rewrite Ec in Ehard. replace (i_hs z) with (1 + (i_hs z - 1)) in Ehard by lia. rewrite take_cons in Ehard. injection Ehard; auto. } subst c0.
      unfold indexer_exfil. rewrite <- Et in *. clear Et t0. rewrite Hhd. cbn [obind]. replace (len t <? i_hs z) with false by lia.
      rewrite str_slice_ok; [|lia|apply boundary_0|exact Bh]. cbn [obind]. rewrite N.sub_0_r, drop_0, Ehard, Ez. cbn [obind].
      change (i_hs z + i_ss z) with (ics z) in *. change (i_ss z - i_os z) with (ims z) in *. replace (len t <? ics z) with false by lia.
      unfold icut in Hcut. set (ix := take (ims z) (drop (i_hs z) t)) in *. set (ox := take (i_os z) (drop (i_hs z + ims z) t)) in *.
      destruct (boundary t (i_hs z + ims z)) eqn:Bi; [|unfold str_slice at 1; rewrite Bi, andb_false_r; reflexivity].
      rewrite str_slice_ok; [|lia|auto|auto]. cbn [obind]. replace (i_hs z + ims z - i_hs z) with (ims z) by lia. fold ix.
      destruct Hcut as [?|[Hai Hcut]]; [discriminate|]. assert (Hlix : len ix = ims z) by (unfold ix; rewrite len_take, len_drop; lia).
      rewrite b64_to_u32_all by (auto; lia). cbn [obind].
      destruct (boundary t (ics z)) eqn:Bc; [|unfold str_slice at 1; rewrite <- Hcs, Bc, andb_false_r; reflexivity].
      rewrite str_slice_ok; [|lia|auto|rewrite <- Hcs; auto]. cbn [obind]. replace (i_hs z + ims z + i_os z - (i_hs z + ims z)) with (i_os z) by lia. fold ox.
      destruct Hcut as [?|[Hox [Hfl Hfb]]]; [discriminate|]. assert (Hlox : len ox = i_os z) by (unfold ox; rewrite len_take, len_drop; lia).
      destruct (read_ondex_some hard ox (i_os z) (val 64 (ords ix)) Hos Hlox Hox) as [o Eo]. rewrite Eo. cbn [obind].
      assert (Hi : val 64 (ords ix) < 64 ^ ims z) by (rewrite <- Hlix; apply val64_lt).
      rewrite (i_full_ok _ _ _ _ Ez Hi). cbn [obind]. replace (len t <? _) with false by lia.
      unfold str_slice at 1. rewrite Hfb, andb_false_r. reflexivity.
Qed.
End P.
