(** Decoders of Matter: what acceptance means, and binary parsing. *)
From Verif Require Import Base BaseFacts Utf8 B64 B64Facts Util UtilFacts MatterTables Matter MatterFacts.

Lemma hardage_vals c h : hardage c = Ok h -> h = 1 \/ h = 2 \/ h = 4.
Proof.
  unfold hardage. repeat match goal with |- context [if ?b then _ else _] => destruct b end; intros [= <-]; auto.
Qed.
Lemma bardage_vals c h : bardage c = Ok h -> h = 1 \/ h = 2 \/ h = 4.
Proof.
  unfold bardage. repeat match goal with |- context [if ?b then _ else _] => destruct b end; intros [= <-]; auto.
Qed.

Lemma len_of_slice s a b r : str_slice s a b = Ok r -> len r = b - a.
Proof. intros H. apply str_slice_inv in H as [H1 [H2 [_ [_ ->]]]]. rewrite len_take, len_drop. lia. Qed.

(** the pre-pad check: leading 'A's force the high bits, the check the low bits *)
Lemma prepad_zero k tl paw : 1 <= k <= 2 -> b64_decode (rep 65 k ++ tl) = Ok paw -> k <= len paw ->
  val 256 (take k paw) mod 2 ^ (2 * k) = 0 -> take k paw = rep 0 k.
Proof.
  intros Hk Hd Hlen Hv. assert (k = 1 \/ k = 2) as [-> | ->] by lia.
  - change (rep 65 1) with [65] in Hd. apply b64_decode_inv in Hd as [Hok He].
    destruct paw as [|a [|b [|c r]]].
    + lenbad Hlen.
    + change (b64_encode [a]) with [chr64 (a / 4); chr64 ((a mod 4) * 16); pad_char; pad_char] in He.
      cbn [app] in He. injection He as Ha _. repeat (apply bytes_ok_cons in Hok as [? Hok]).
      change 65 with (chr64 0) in Ha. apply chr64_inj in Ha; [|lia|lia].
      change (take 1 [a]) with [a] in *. rewrite val_single in Hv. change (2 ^ (2 * 1)) with 4 in Hv.
      assert (a = 0) by lia. subst; reflexivity.
    + change (b64_encode [a; b]) with [chr64 (a / 4); chr64 ((a mod 4) * 16 + b / 16); chr64 ((b mod 16) * 4); pad_char] in He.
      cbn [app] in He. injection He as Ha _. repeat (apply bytes_ok_cons in Hok as [? Hok]).
      change 65 with (chr64 0) in Ha. apply chr64_inj in Ha; [|lia|lia].
      change (take 1 [a; b]) with [a] in *. rewrite val_single in Hv. change (2 ^ (2 * 1)) with 4 in Hv.
      assert (a = 0) by lia. subst; reflexivity.
    + rewrite b64_encode_3 in He. cbn [app] in He. injection He as Ha _. repeat (apply bytes_ok_cons in Hok as [? Hok]).
      change 65 with (chr64 0) in Ha. apply chr64_inj in Ha; [|lia|lia].
      change (take 1 (a :: b :: c :: r)) with [a] in *. rewrite val_single in Hv. change (2 ^ (2 * 1)) with 4 in Hv.
      assert (a = 0) by lia. subst; reflexivity.
  - change (rep 65 2) with [65; 65] in Hd. apply b64_decode_inv in Hd as [Hok He].
    destruct paw as [|a [|b [|c r]]].
    + lenbad Hlen.
    + lenbad Hlen.
    + change (b64_encode [a; b]) with [chr64 (a / 4); chr64 ((a mod 4) * 16 + b / 16); chr64 ((b mod 16) * 4); pad_char] in He.
      cbn [app] in He. injection He as Ha Hb _. repeat (apply bytes_ok_cons in Hok as [? Hok]).
      change 65 with (chr64 0) in Ha, Hb. apply chr64_inj in Ha; [|lia|lia]. apply chr64_inj in Hb; [|lia|lia].
      change (take 2 [a; b]) with [a; b] in *. rewrite val_cons, val_single in Hv. change (2 ^ (2 * 2)) with 16 in Hv.
      change (len [b]) with 1 in Hv. npow. assert (a = 0) by lia. subst a. assert (b = 0) by lia. subst; reflexivity.
    + rewrite b64_encode_3 in He. cbn [app] in He. injection He as Ha Hb _. repeat (apply bytes_ok_cons in Hok as [? Hok]).
      change 65 with (chr64 0) in Ha, Hb. apply chr64_inj in Ha; [|lia|lia]. apply chr64_inj in Hb; [|lia|lia].
      change (take 2 (a :: b :: c :: r)) with [a; b] in *. rewrite val_cons, val_single in Hv. change (2 ^ (2 * 2)) with 16 in Hv.
      change (len [b]) with 1 in Hv. npow. assert (a = 0) by lia. subst a. assert (b = 0) by lia. subst; reflexivity.
Qed.

(** What a successful text parse guarantees, '=' allowed. *)
Record parsed (m : matter) (z : sizage) (t : bytes) : Prop := {
  pa_sz : get_sizage (m_code m) = Ok z;
  pa_len : full_of z (m_size m) <= len t;
  pa_bytes : bytes_ok (m_raw m) = true;
  pa_size : m_size m < 64 ^ ss z;
  pa_text : take (full_of z (m_size m)) t = text_of z m
}.

Section P.
Context `{P : Profile}.

Lemma soft_roundtrip z soft : all_b64 soft = true -> len soft = ss z -> ss z <= 5 -> soft_of z (val 64 (ords soft)) = soft.
Proof.
  intros Ha Hl Hs. unfold soft_of. rewrite <- (chr_ords soft Ha) at 2. f_equal.
  replace (N.to_nat (ss z)) with (length (ords soft)).
  - apply digits_val; [lia|apply ords_lt].
  - unfold ords. rewrite map_length. unfold len in Hl. lia.
Qed.

(** the common header step of the text parser *)
Lemma exfil_head t m : matter_exfil t = Ok m -> exists z size f,
  get_sizage (m_code m) = Ok z /\ m_size m = size /\ f = full_of z size /\
  size < 64 ^ ss z /\ f <= len t /\ boundary t f = true /\
  take (cs_of z) t = m_code m ++ soft_of z size /\ cs_of z <= f /\
  (if negb (cs_of z mod 4 =? 0) then
     exists paw, b64_decode (rep 65 (cs_of z mod 4) ++ drop (cs_of z) (take f t)) = Ok paw /\
       cs_of z mod 4 <= len paw /\ val 256 (take (cs_of z mod 4) paw) mod 2 ^ (2 * (cs_of z mod 4)) = 0 /\
       m_raw m = drop (cs_of z mod 4) paw
   else exists paw, b64_decode (drop (cs_of z) (take f t)) = Ok paw /\ ls z <= len paw /\
       val 256 (take (ls z) paw) = 0 /\ m_raw m = drop (ls z) paw).
Proof.
  unfold matter_exfil. destruct t as [|c t'] eqn:Et; [discriminate|]. rewrite <- Et. clear Et. rename t' into tt0.
  intros H. inv_bind H hs0 Eh. destruct (len t <? hs0) eqn:El; [discriminate|].
  inv_bind H hard Ehard. inv_bind H z Ez. pose proof (get_sizage_zfacts _ _ Ez) as Z.
  pose proof (len_of_slice _ _ _ _ Ehard) as Hhl. rewrite (zf_len _ _ Z), N.sub_0_r in Hhl. subst hs0.
  apply str_slice_inv in Ehard as [_ [Hhlen [_ [Hbd Ehard]]]]. rewrite N.sub_0_r, drop_0 in Ehard.
  inv_bind H fsz Efs. destruct fsz as [f size].
  change (fs z =? u32_max) with (variable z) in Efs. change (hs z + ss z) with (cs_of z) in *.
  assert (Hhead : f = full_of z size /\ size < 64 ^ ss z /\ (f <= len t -> take (cs_of z) t = hard ++ soft_of z size) /\ cs_of z <= f).
  { unfold full_of. destruct (variable z) eqn:V.
    - destruct (zf_var _ _ Z V) as [Hm [Hs _]]. destruct (negb (cs_of z mod 4 =? 0)) eqn:Hm4; [lia|]. destruct (len t <? cs_of z) eqn:Hlc; [discriminate|].
      inv_bind Efs soft Esoft. inv_bind Efs sz Esz. pose proof (b64_to_u32_ok _ _ Esz) as Hsb.
      pose proof (len_of_slice _ _ _ _ Esoft) as Hsl. apply str_slice_inv in Esoft as [Hs1 [Hs2 [Hs3 [Hs4 Esoft]]]].
      assert (Hss : len soft = ss z) by (unfold cs_of in *; lia).
      rewrite b64_to_u32_all in Esz by (auto; lia). injection Esz as <-.
      pose proof (val64_lt soft) as Hv. rewrite Hss in Hv.
      assert (Hv4 : val 64 (ords soft) < 64 ^ 4).
      { eapply N.lt_le_trans; [exact Hv|]. apply N.pow_le_mono_r; lia. }
      pose proof (zf_cs8 _ _ Z) as Hc8.
      rewrite mul32_ok in Efs by (unfold U32; npow; lia). cbn [obind] in Efs.
      rewrite add32_ok in Efs by (unfold U32; npow; lia). cbn [obind] in Efs. injection Efs as <- <-.
      repeat split; auto; [|lia]. intros _. rewrite soft_roundtrip by (auto; lia). subst hard soft.
      apply eq_sym, take_drop_take. unfold cs_of; lia.
    - destruct (zf_fix _ _ Z V) as [Hs [? [Hlt ?]]]. injection Efs as <- <-. rewrite Hs. repeat split; try lia; try (npow; lia).
      intros _. unfold soft_of. rewrite Hs. change (digits 64 (N.to_nat 0) 0) with (@nil N). cbn [map]. rewrite app_nil_r.
      subst hard. unfold cs_of. rewrite Hs, N.add_0_r. reflexivity. }
  destruct Hhead as [Ef [Hsz [Htk Hcf]]].
  destruct (len t <? f) eqn:Elf; [discriminate|]. specialize (Htk ltac:(lia)).
  inv_bind H trim Etrim. apply str_slice_inv in Etrim as [_ [_ [_ [Hbf Etrim]]]]. rewrite N.sub_0_r, drop_0 in Etrim.
  inv_bind H raw Eraw. injection H as <-. cbn [m_code m_size m_raw].
  assert (Hltrim : len trim = f) by (subst trim; rewrite len_take; lia).
  exists z, size, f. repeat (split; [auto; try lia; fail|]).
  destruct (negb (cs_of z mod 4 =? 0)) eqn:E0.
  - inv_bind Eraw tl0 Etl. apply str_slice_inv in Etl as [_ [_ [_ [_ Etl]]]]. rewrite take_all in Etl by (rewrite len_drop; lia).
    inv_bind Eraw paw Epaw. exists paw. subst tl0 trim. split; [exact Epaw|].
    inv_bind Eraw pre Epre. apply slice_inv in Epre as [_ [Hlp Epre]]. rewrite N.sub_0_r, drop_0 in Epre.
    destruct (negb (read_int pre mod _ =? 0)) eqn:Ec; [discriminate|].
    apply slice_inv in Eraw as [_ [_ Eraw]]. rewrite take_all in Eraw by (rewrite len_drop; lia).
    subst pre raw. unfold read_int in Ec. rewrite from_be_val in Ec. split; [exact Hlp|]. split; [lia|reflexivity].
  - inv_bind Eraw tl0 Etl. apply str_slice_inv in Etl as [_ [_ [_ [_ Etl]]]]. rewrite take_all in Etl by (rewrite len_drop; lia).
    inv_bind Eraw paw Epaw. exists paw. subst tl0 trim. split; [exact Epaw|].
    inv_bind Eraw pre Epre. apply slice_inv in Epre as [_ [Hlp Epre]]. rewrite N.sub_0_r, drop_0 in Epre.
    destruct (negb (read_int pre =? 0)) eqn:Ec; [destruct (ls z =? 1); discriminate|].
    apply slice_inv in Eraw as [_ [_ Eraw]]. rewrite take_all in Eraw by (rewrite len_drop; lia).
    subst pre raw. unfold read_int in Ec. rewrite from_be_val in Ec. split; [exact Hlp|]. split; [lia|reflexivity].
Qed.

Lemma exfil_parsed t m : matter_exfil t = Ok m -> exists z, parsed m z t.
Proof.
  intros H. apply exfil_head in H as [z [size [f [Hz [Es [Ef [Hs [Hft [Hb [Htk [Hcf Hraw]]]]]]]]]]].
  pose proof (get_sizage_zfacts _ _ Hz) as Z. pose proof (zf_cs3 _ _ Z) as Hc3. pose proof (zf_cs_ls _ _ Z) as Hcl.
  subst size f. exists z.
  assert (Hsplit : take (full_of z (m_size m)) t = (m_code m ++ soft_of z (m_size m)) ++ drop (cs_of z) (take (full_of z (m_size m)) t)).
  { rewrite <- Htk. rewrite drop_take. symmetry. apply take_drop_take; auto. }
  destruct (N.eqb_spec (cs_of z mod 4) 0) as [E0|E0]; cbn [negb] in Hraw.
  - destruct Hraw as [paw [Hd [Hlp [Hv Hr]]]]. apply b64_decode_inv in Hd as [Hok He].
    assert (Epaw : paw = rep 0 (ls z) ++ m_raw m).
    { rewrite <- (take_drop_id (ls z) paw), Hr. f_equal. apply val256_zero in Hv. rewrite Hv. f_equal. rewrite len_take. lia. }
    constructor; auto.
    + rewrite Hr. apply bytes_ok_drop; auto.
    + rewrite Hsplit. unfold text_of, both_of. f_equal. rewrite E0, N.add_0_l, drop_0, <- Epaw. auto.
  - destruct Hraw as [paw [Hd [Hlp [Hv Hr]]]]. pose proof Hd as Hd'. apply b64_decode_inv in Hd as [Hok He].
    assert (El : ls z = 0) by lia.
    assert (Epaw : paw = rep 0 (cs_of z mod 4) ++ m_raw m).
    { rewrite <- (take_drop_id (cs_of z mod 4) paw), Hr. f_equal. eapply prepad_zero; eauto. lia. }
    constructor; auto.
    + rewrite Hr. apply bytes_ok_drop; auto.
    + rewrite Hsplit. unfold text_of, both_of. f_equal. rewrite El, N.add_0_r, <- Epaw, He.
      rewrite drop_app_exact by apply len_rep. reflexivity.
Qed.

(** without '=' the parse result is a well-formed primitive *)
Lemma parsed_wf m z t : parsed m z t -> all_b64 (take (full_of z (m_size m)) t) = true -> wf m z.
Proof.
  intros [Hz Hl Hb Hs Ht] Ha. constructor; auto.
  pose proof (get_sizage_zfacts _ _ Hz) as Z. pose proof (zf_cs3 _ _ Z) as Hc3. pose proof (zf_cs_ls _ _ Z) as Hcl.
  rewrite Ht in Ha. unfold text_of in Ha. rewrite all_b64_app in Ha. apply andb_true_iff in Ha as [_ Ha].
  set (buf := rep 0 (cs_of z mod 4 + ls z) ++ m_raw m) in *.
  assert (Hlb : len buf = cs_of z mod 4 + ls z + len (m_raw m)) by (unfold buf; rewrite len_app, len_rep; reflexivity).
  assert (Hmod : len buf mod 3 = 0).
  { destruct (N.eq_dec (len buf mod 3) 0) as [|Hne]; auto. exfalso.
    assert (Hp : In pad_char (drop (cs_of z mod 4) (b64_encode buf))).
    { unfold b64_encode. rewrite drop_app. apply in_or_app. right.
      replace (cs_of z mod 4 - len (map chr64 (sextets buf))) with 0 by (rewrite len_map, len_sextets; lia).
      rewrite drop_0. unfold rep.
      destruct (N.to_nat ((3 - len buf mod 3) mod 3)) eqn:E; [lia|]. left; reflexivity. }
    eapply forallb_forall in Ha; eauto. vm_compute in Ha. discriminate. }
  apply (f_equal len) in Ht. rewrite len_take in Ht. unfold text_of in Ht. fold buf in Ht.
  rewrite len_app, len_drop, len_b64_encode in Ht. unfold both_of, soft_of in Ht.
  rewrite len_app, len_map, len_digits, (zf_len _ _ Z), N2Nat.id in Ht. change (hs z + ss z) with (cs_of z) in Ht.
  unfold raw_len_ok, full_of in *. destruct (variable z) eqn:V.
  - destruct (zf_var _ _ Z V) as [Hm [Hss _]]. split; auto. lia.
  - destruct (zf_fix _ _ Z V) as [H1 [H2 [H3 [H4 [H5 [H6 H7]]]]]]. split.
    + rewrite H1 in Hs. npow. lia.
    + lia.
Qed.

Theorem exfil_canonical t m : matter_exfil t = Ok m -> all_b64 t = true ->
  exists z, wf m z /\ t = text_of z m ++ drop (full_of z (m_size m)) t.
Proof.
  intros H Ha. destruct (exfil_parsed _ _ H) as [z Hp]. exists z. split.
  - eapply parsed_wf; eauto. apply forallb_take; auto.
  - rewrite <- (pa_text _ _ _ Hp). symmetry. apply take_drop_id.
Qed.

(** ** Binary *)
Lemma bcode_of_bytes b cs : bytes_ok b = true -> (cs = 1 \/ cs = 2 \/ cs = 4 \/ cs = 6 \/ cs = 8) ->
  ((cs + 1) * 3) / 4 <= len b ->
  (cs mod 4 <> 0 -> forall x, nth_error b (N.to_nat (((cs + 1) * 3) / 4 - 1)) = Some x -> x mod 2 ^ (2 * (cs mod 4)) = 0) ->
  bcode (map chr64 (take cs (sextets b))) = take (((cs + 1) * 3) / 4) b.
Proof.
  intros Hok Hcs Hlen Hpad.
  assert (Hs : Forall (fun d => d < 64) (take cs (sextets b))).
  { pose proof (sextets_lt _ Hok) as F. rewrite <- (take_drop_id cs (sextets b)) in F. apply Forall_app in F. tauto. }
  assert (Hls : len (take cs (sextets b)) = cs) by (rewrite len_take, len_sextets; lia).
  unfold bcode. rewrite ords_chr, len_map, Hls by auto. rewrite to_be_digits.
  assert (Ht : Forall (fun d => d < 256) (take ((cs + 1) * 3 / 4) b)) by (apply bytes_ok_Forall, bytes_ok_take; auto).
  assert (Hlt : len (take ((cs + 1) * 3 / 4) b) = (cs + 1) * 3 / 4) by (rewrite len_take; lia).
  rewrite <- (digits_val 256 (take ((cs + 1) * 3 / 4) b)) by (auto; lia).
  replace (length (take ((cs + 1) * 3 / 4) b)) with (N.to_nat ((cs + 1) * 3 / 4)) by (unfold len in Hlt; lia).
  f_equal. clear Hs Hls Ht Hlt.
  destruct Hcs as [->|[->|[->|[->| ->]]]].
  - change ((1 + 1) * 3 / 4) with 1 in *. destruct b as [|a b]; [lenbad Hlen|].
    specialize (Hpad ltac:(discriminate) a eq_refl). apply bytes_ok_cons in Hok as [? Hok].
    rewrite sextets_head1. change (take 1 (a :: b)) with [a]. rewrite !val_single. change (1 mod 4) with 1 in *. npow. lia.
  - change ((2 + 1) * 3 / 4) with 2 in *. destruct b as [|a [|b b2]]; [lenbad Hlen|lenbad Hlen|].
    specialize (Hpad ltac:(discriminate) b eq_refl). repeat (apply bytes_ok_cons in Hok as [? Hok]).
    rewrite sextets_head2. change (take 2 (a :: b :: b2)) with [a; b]. rewrite !val_cons, !val_nil.
    change (2 mod 4) with 2 in *. cbv [len length N.of_nat Pos.of_succ_nat Pos.succ] in *. npow. lia.
  - change ((4 + 1) * 3 / 4) with 3 in *. destruct b as [|a [|b [|c b3]]]; try (lenbad Hlen).
    rewrite sextets_3. cbv [take N.to_nat Pos.to_nat Pos.iter_op Nat.add firstn].
    repeat (apply bytes_ok_cons in Hok as [? Hok]). cbv [val fold_left]. change (4 mod 4) with 0. npow. lia.
  - change ((6 + 1) * 3 / 4) with 5 in *. destruct b as [|a [|b [|c [|d [|e b5]]]]]; try (lenbad Hlen).
    specialize (Hpad ltac:(discriminate) e eq_refl). repeat (apply bytes_ok_cons in Hok as [? Hok]).
    rewrite sextets_head6. cbv [take N.to_nat Pos.to_nat Pos.iter_op Nat.add firstn].
    cbv [val fold_left]. change (6 mod 4) with 2 in *. npow. lia.
  - change ((8 + 1) * 3 / 4) with 6 in *. destruct b as [|a [|b [|c [|d [|e [|f b6]]]]]]; try (lenbad Hlen).
    rewrite !sextets_3. cbv [take N.to_nat Pos.to_nat Pos.iter_op Nat.add firstn].
    repeat (apply bytes_ok_cons in Hok as [? Hok]). cbv [val fold_left]. change (8 mod 4) with 0. npow. lia.
Qed.

Lemma forallb_zeros l : forallb (N.eqb 0) l = true -> l = rep 0 (len l).
Proof.
  induction l as [|x l IH]; [reflexivity|]. cbn [forallb]. intros H. apply andb_true_iff in H as [Hx Hl].
  rewrite len_cons, rep_S. apply N.eqb_eq in Hx. subst x. f_equal. auto.
Qed.

Lemma cs_cases code z : zfacts code z -> cs_of z = 1 \/ cs_of z = 2 \/ cs_of z = 4 \/ cs_of z = 8.
Proof.
  intros Z. destruct (variable z) eqn:V.
  - destruct (zf_var _ _ Z V) as [H1 [H2 [H3 _]]]. unfold cs_of. lia.
  - destruct (zf_fix _ _ Z V) as [H1 _]. pose proof (zf_hs1 _ _ Z). pose proof (zf_hs4 _ _ Z). pose proof (zf_hs3 _ _ Z). unfold cs_of. lia.
Qed.

Lemma bexfil_inv b m : bytes_ok b = true -> matter_bexfil b = Ok m ->
  exists z, wf m z /\ b = bin_of z m ++ drop (full_of z (m_size m) * 3 / 4) b.
Proof.
  intros Hok H. unfold matter_bexfil in H. destruct b as [|b0 bt] eqn:Eb; [discriminate|]. rewrite <- Eb in *. clear Eb b0 bt.
  inv_bind H sx Esx. inv_bind H fst0 Efirst. inv_bind H hs0 Eh.
  destruct (len b <? (hs0 * 3 + 3) / 4) eqn:El; [discriminate|].
  inv_bind H hard Ehard. inv_bind H z Ez. pose proof (get_sizage_zfacts _ _ Ez) as Z.
  pose proof (bardage_vals _ _ Eh) as Hhv.
  rewrite code_b2_to_b64_ok in Ehard by (auto; lia). injection Ehard as Ehard.
  assert (Hhs : hs0 = hs z).
  { pose proof (zf_len _ _ Z) as Hl. rewrite <- Ehard in Hl. rewrite len_map, len_take, len_sextets in Hl. lia. }
  subst hs0. inv_bind H fsz Efs. destruct fsz as [f size].
  change (fs z =? u32_max) with (variable z) in Efs. change (hs z + ss z) with (cs_of z) in *.
  pose proof (cs_cases _ _ Z) as Hcs. pose proof (zf_cs8 _ _ Z) as Hc8. pose proof (zf_cs3 _ _ Z) as Hc3. pose proof (zf_cs_ls _ _ Z) as Hcl.
  assert (Hhead : f = full_of z size /\ size < 64 ^ ss z /\ cs_of z <= f /\ f < 2 ^ 27 /\
     (f * 3 / 4 <= len b -> map chr64 (take (cs_of z) (sextets b)) = hard ++ soft_of z size) /\ f mod 4 = 0).
  { unfold full_of. destruct (variable z) eqn:V.
    - destruct (zf_var _ _ Z V) as [Hm [Hs _]]. destruct (negb (cs_of z mod 4 =? 0)) eqn:Hm4; [lia|].
      destruct (len b <? (cs_of z + 1) * 3 / 4) eqn:Hlc; [discriminate|].
      inv_bind Efs both Eboth. rewrite code_b2_to_b64_ok in Eboth by (auto; lia). injection Eboth as Eboth.
      inv_bind Efs soft Esoft. inv_bind Efs sz Esz. pose proof (b64_to_u32_ok _ _ Esz) as Hsb.
      pose proof (len_of_slice _ _ _ _ Esoft) as Hsl. apply str_slice_inv in Esoft as [Hs1 [Hs2 [Hs3 [Hs4 Esoft]]]].
      assert (Hss : len soft = ss z) by (unfold cs_of in *; lia).
      rewrite b64_to_u32_all in Esz by (auto; lia). injection Esz as <-.
      pose proof (val64_lt soft) as Hv. rewrite Hss in Hv.
      assert (Hv4 : val 64 (ords soft) < 64 ^ 4).
      { eapply N.lt_le_trans; [exact Hv|]. apply N.pow_le_mono_r; lia. }
      rewrite mul32_ok in Efs by (unfold U32; npow; lia). cbn [obind] in Efs.
      rewrite add32_ok in Efs by (unfold U32; npow; lia). cbn [obind] in Efs. injection Efs as <- <-.
      repeat split; auto; try (npow; lia). intros _. rewrite soft_roundtrip by (auto; lia). rewrite Esoft, <- Eboth, <- Ehard.
      rewrite drop_map, take_map, <- map_app. f_equal. rewrite drop_take, take_take.
      replace (N.min (cs_of z - hs z) (cs_of z - hs z)) with (cs_of z - hs z) by lia.
      apply eq_sym, take_drop_take. unfold cs_of; lia.
    - destruct (zf_fix _ _ Z V) as [Hs [? [Hlt [? ?]]]]. injection Efs as <- <-. rewrite Hs. repeat split; try lia; try (npow; lia).
      intros _. unfold soft_of. rewrite Hs. change (digits 64 (N.to_nat 0) 0) with (@nil N). cbn [map]. rewrite app_nil_r.
      rewrite <- Ehard. unfold cs_of. rewrite Hs, N.add_0_r. reflexivity. }
  destruct Hhead as [Ef [Hsz [Hcf [Hf27 [Htk Hf4]]]]].
  rewrite add32_ok in H by (unfold U32; npow; lia). cbn [obind] in H.
  rewrite mul32_ok in H by (unfold U32; npow; lia). cbn [obind] in H.
  replace ((f + 1) * 3 / 4) with (f * 3 / 4) in H by lia.
  destruct (len b <? f * 3 / 4) eqn:Elf; [discriminate|]. specialize (Htk ltac:(lia)).
  rewrite slice_prefix in H by lia. cbn [obind] in H.
  inv_bind H u Echk. inv_bind H raw Eraw. injection H as <-. cbn [m_code m_size m_raw].
  set (trim := take (f * 3 / 4) b) in *. set (bcs := (cs_of z + 1) * 3 / 4) in *.
  assert (Hltrim : len trim = f * 3 / 4) by (unfold trim; rewrite len_take; lia).
  apply slice_inv in Eraw as [Hr1 [_ Eraw]]. rewrite take_all in Eraw by (rewrite len_drop; lia).
  assert (Hoktrim : bytes_ok trim = true) by (apply bytes_ok_take; auto).
  exists z.
  (* the code part *)
  assert (Hboth : both_of z (Mat hard size raw) = map chr64 (take (cs_of z) (sextets b))) by (rewrite Htk; reflexivity).
  assert (Hbc : bcode (both_of z (Mat hard size raw)) = take bcs trim).
  { rewrite Hboth. unfold trim. rewrite take_take. replace (N.min bcs (f * 3 / 4)) with bcs by (unfold bcs; lia).
    apply bcode_of_bytes; auto; [lia|unfold bcs in *; lia|].
    intros Hne x Hx. destruct (N.eqb_spec (cs_of z mod 4) 0); [contradiction|]. cbn [negb] in Echk.
    inv_bind Echk pi Epi. unfold index_at in Epi. unfold trim in Epi. rewrite nth_error_take in Epi by (unfold bcs in *; lia).
    fold bcs in Hx. rewrite Hx in Epi. injection Epi as <-.
    destruct (negb (x mod _ =? 0)) eqn:Ex; [discriminate|]. lia. }
  (* the lead part *)
  assert (Hlead : take (ls z) (drop bcs trim) = rep 0 (ls z)).
  { destruct (N.eqb_spec (cs_of z mod 4) 0) as [E0|E0]; cbn [negb] in Echk.
    - destruct (forallb (N.eqb 0) (drop bcs (take (bcs + ls z) trim))) eqn:Ez0; [|destruct (ls z =? 1); discriminate].
      apply forallb_zeros in Ez0. rewrite drop_take in Ez0. replace (bcs + ls z - bcs) with (ls z) in Ez0 by lia.
      rewrite Ez0. rewrite len_take, len_drop. f_equal. lia.
    - assert (ls z = 0) as -> by lia. reflexivity. }
  assert (Hbin : bin_of z (Mat hard size raw) = trim).
  { unfold bin_of. rewrite Hbc. cbn [m_raw]. rewrite <- (take_drop_id bcs trim) at 2. f_equal.
    rewrite <- (take_drop_id (ls z) (drop bcs trim)). rewrite Hlead, drop_drop, Eraw. reflexivity. }
  split.
  - constructor; cbn [m_code m_size m_raw]; auto.
    + subst raw. apply bytes_ok_drop; auto.
    + assert (Hlr : len raw = f * 3 / 4 - (bcs + ls z)) by (subst raw; rewrite len_drop, Hltrim; reflexivity).
      unfold raw_len_ok, full_of, bcs in *. destruct (variable z) eqn:V.
      * destruct (zf_var _ _ Z V) as [Hm _]. split; auto. lia.
      * destruct (zf_fix _ _ Z V) as [H1 [H2 [H3 [H4 [H5 [H6 H7]]]]]]. split.
        -- rewrite H1 in Hsz. npow. lia.
        -- lia.
  - rewrite Hbin. unfold trim. rewrite <- Ef. symmetry. apply take_drop_id.
Qed.

Lemma bexfil_bin z m tail : wf m z -> bytes_ok tail = true -> matter_bexfil (bin_of z m ++ tail) = Ok m.
Proof.
  intros W Ht. pose proof (len_both _ _ W) as Hlb. pose proof (len_bin _ _ W) as [Hlbin Hb3].
  pose proof (bytes_ok_bin _ _ W) as Hokb.
  pose proof (wf_sz _ _ W) as Hz. pose proof (get_sizage_zfacts _ _ Hz) as Z. pose proof (wf_len _ _ W) as Hl.
  pose proof (len_raw_pad _ _ W) as [Hq1 [Hq2 [Hq3 Hful]]]. pose proof (zf_cs3 _ _ Z) as Hcs3.
  pose proof (zf_hs1 _ _ Z) as Hh1. pose proof (zf_hs4 _ _ Z) as Hh4. pose proof (zf_cs_ls _ _ Z) as Hcl. pose proof (cs_cases _ _ Z) as Hcc.
  pose proof (zf_cs8 _ _ Z) as Hc8.
  assert (Hcshs : hs z <= cs_of z) by (unfold cs_of; lia).
  set (b := bin_of z m ++ tail). assert (Hokall : bytes_ok b = true) by (unfold b; rewrite bytes_ok_app, Hokb; auto).
  assert (Hlenb : len b = len (bin_of z m) + len tail) by (unfold b; apply len_app).
  assert (Hsx : sextets b = ords (text_of z m) ++ sextets tail).
  { unfold b. rewrite sextets_app by auto. f_equal. rewrite text_is_encode_bin, b64_encode_full by auto.
    rewrite ords_chr; auto. apply sextets_lt; auto. }
  assert (Htk : forall k, k <= cs_of z -> map chr64 (take k (sextets b)) = take k (both_of z m)).
  { intros k Hk. rewrite <- take_map, Hsx, map_app. rewrite chr_ords by (apply all_b64_text; auto).
    unfold text_of. rewrite <- !app_assoc. rewrite take_app. rewrite Hlb. replace (k - cs_of z) with 0 by lia.
    rewrite take_0, app_nil_r. reflexivity. }
  assert (Hcode : map chr64 (take (hs z) (sextets b)) = m_code m).
  { rewrite Htk by auto. unfold both_of. apply take_app_exact. apply (zf_len _ _ Z). }
  destruct (zf_first _ _ Z) as [c [r [i [Ec [Hh [Hi Hbd]]]]]].
  unfold matter_bexfil. destruct b as [|b0 bt] eqn:Eb.
  { exfalso. rewrite len_nil in Hlenb. lia. }
  rewrite <- Eb in *. clear Eb b0 bt.
  assert (H1b : (1 + 1) * 3 / 4 <= len b) by (change ((1 + 1) * 3 / 4) with 1; lia).
  rewrite nab_sextets_ok by (auto; lia). cbn [obind].
  assert (Ef : index_at (take 1 (sextets b)) 0 = Ok i).
  { assert (E1 : map chr64 (take 1 (sextets b)) = [c]).
    { rewrite Htk by lia. unfold both_of. rewrite Ec. reflexivity. }
    destruct (take 1 (sextets b)) as [|i' [|? ?]] eqn:E; try discriminate.
    cbn [map] in E1. injection E1 as E1.
    assert (i' < 64). { pose proof (sextets_lt _ Hokall) as F. rewrite <- (take_drop_id 1 (sextets b)) in F. rewrite E in F. inversion F; auto. }
    rewrite <- E1 in Hi. rewrite ord64_chr64 in Hi by auto. injection Hi as ->. reflexivity. }
  rewrite Ef. cbn [obind]. rewrite Hbd. cbn [obind].
  replace (len b <? (hs z * 3 + 3) / 4) with false by lia.
  rewrite code_b2_to_b64_ok by (auto; lia). cbn [obind]. rewrite Hcode, Hz. cbn [obind].
  change (fs z =? u32_max) with (variable z). change (hs z + ss z) with (cs_of z).
  assert (E : (if variable z then
           if negb (cs_of z mod 4 =? 0) then Err E_ParseQb2
           else if len b <? (cs_of z + 1) * 3 / 4 then Err E_Shortage
           else
             both <- code_b2_to_b64 b (cs_of z) ;;
             soft <- str_slice both (hs z) (cs_of z) ;;
             size <- b64_to_u32 soft ;;
             q <- mul32 size 4 ;;
             f <- add32 q (cs_of z) ;;
             Ok (f, size)
         else Ok (fs z, 0)) = Ok (full_of z (m_size m), m_size m)).
  { unfold raw_len_ok, full_of in *. destruct (variable z) eqn:V.
    - destruct (zf_var _ _ Z V) as [Hm [Hs _]]. destruct Hl as [Hsz Hl].
      rewrite Hm in *. change (0 =? 0) with true. cbn [negb]. cbv iota. replace (len b <? (cs_of z + 1) * 3 / 4) with false by lia.
      rewrite code_b2_to_b64_ok by (auto; lia). cbn [obind]. rewrite Htk by lia. rewrite (take_all (cs_of z)) by lia.
      rewrite str_slice_ascii; [|apply all_b64_ascii, all_b64_both; auto|auto|lia]. cbn [obind].
      assert (Es : take (cs_of z - hs z) (drop (hs z) (both_of z m)) = soft_of z (m_size m)).
      { unfold both_of. rewrite drop_app_exact by apply (zf_len _ _ Z).
        apply take_all. unfold soft_of. rewrite len_map, len_digits. unfold cs_of. lia. }
      rewrite Es. rewrite b64_to_u32_all.
      2:{ unfold soft_of. apply all_b64_chr, digits_lt. lia. }
      2:{ unfold soft_of. rewrite len_map, len_digits. lia. }
      cbn [obind]. unfold soft_of. rewrite ords_chr by (apply digits_lt; lia). rewrite digits_small by (rewrite ?N2Nat.id; lia).
      rewrite mul32_ok by (unfold U32; npow; lia). cbn [obind]. rewrite add32_ok by (unfold U32; npow; lia). reflexivity.
    - destruct Hl as [-> _]. reflexivity. }
  rewrite E. cbn [obind]. clear E.
  rewrite add32_ok by (unfold U32; npow; lia). cbn [obind]. rewrite mul32_ok by (unfold U32; npow; lia). cbn [obind].
  assert (Hbfs : (full_of z (m_size m) + 1) * 3 / 4 = len (bin_of z m)) by lia. rewrite Hbfs.
  replace (len b <? len (bin_of z m)) with false by lia.
  rewrite slice_prefix by lia. cbn [obind]. unfold b. rewrite take_app_exact by auto.
  set (bcs := (cs_of z + 1) * 3 / 4) in *.
  assert (Hlbc : len (bcode (both_of z m)) = bcs) by (rewrite len_bcode, Hlb; reflexivity).
  assert (Echk : (if negb (cs_of z mod 4 =? 0) then
             pi <- index_at (bin_of z m) (bcs - 1) ;;
             if negb (pi mod 2 ^ (2 * (cs_of z mod 4)) =? 0) then Err E_NonZeroedPadBits else Ok tt
           else
             if forallb (N.eqb 0) (drop bcs (take (bcs + ls z) (bin_of z m))) then Ok tt
             else if ls z =? 1 then Err E_NonZeroedLeadByte else Err E_NonZeroedLeadBytes) = Ok tt).
  { destruct (N.eqb_spec (cs_of z mod 4) 0) as [E0|E0]; cbn [negb]; cbv iota.
    - unfold bin_of. rewrite app_assoc. rewrite take_app_exact by (rewrite len_app, len_rep, Hlbc; reflexivity).
      rewrite drop_app_exact by auto. rewrite forallb_rep by reflexivity. reflexivity.
    - assert (Hi2 : exists x, index_at (bin_of z m) (bcs - 1) = Ok x /\ x mod 2 ^ (2 * (cs_of z mod 4)) = 0).
      { unfold index_at, bin_of. rewrite nth_error_app_l by (unfold bcs in *; lia).
        unfold bcode. rewrite Hlb. fold bcs. rewrite to_be_digits.
        replace (N.to_nat bcs) with (S (N.to_nat (bcs - 1))) by (unfold bcs in *; lia). cbn [digits].
        rewrite nth_error_app2 by (rewrite length_digits; lia). rewrite length_digits, Nat.sub_diag. cbn [nth_error].
        eexists; split; [reflexivity|].
        assert (cs_of z mod 4 = 1 \/ cs_of z mod 4 = 2) as [M|M] by lia; rewrite M; npow; lia. }
      destruct Hi2 as [x [-> Hx]]. cbn [obind]. rewrite Hx. reflexivity. }
  rewrite Echk. cbn [obind].
  rewrite slice_to_end by (unfold bin_of; rewrite !len_app, len_rep, Hlbc; lia). cbn [obind].
  unfold bin_of. rewrite app_assoc, drop_app_exact by (rewrite len_app, len_rep, Hlbc; reflexivity).
  destruct m; reflexivity.
Qed.
End P.
