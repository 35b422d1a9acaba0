(** Proofs about the Matter model. *)
From Verif Require Import Base BaseFacts Utf8 B64 B64Facts Util UtilFacts MatterTables Matter.

Definition variable (z : sizage) : bool := fs z =? u32_max.
Definition cs_of (z : sizage) : N := hs z + ss z.

(** ** Table invariants (finite, by computation) *)
Definition entry_ok (e : bytes * sizage) : bool :=
  let (code, z) := e in
  let cs := cs_of z in
  all_b64 code && (len code =? hs z) && (1 <=? hs z) && (hs z <=? 4) && negb (hs z =? 3)
  && match code with
     | c :: _ => match hardage c with Ok h => h =? hs z | _ => false end &&
                 match ord64 c with Some i => match bardage i with Ok h => h =? hs z | _ => false end | None => false end
     | [] => false end
  && (ls z <=? 2)
  && (if variable z then
        (cs mod 4 =? 0) && ((ss z =? 2) || (ss z =? 4)) && (ss z =? hs z)
      else
        (ss z =? 0) && (fs z mod 4 =? 0) && (cs <? fs z) && (fs z <=? 124)
        && (cs mod 4 + ls z <=? 2) && ((cs mod 4 =? 0) || (ls z =? 0))
        && (ls z <? (fs z - cs) * 3 / 4)
        && (((fs z - cs) * 3 / 4 + cs mod 4) * 4 =? (fs z - cs + cs mod 4) * 3)
        && ((fs z - cs + cs mod 4) mod 4 =? 0)).

Lemma table_ok : forallb entry_ok sizage_table = true.
Proof. vm_compute. reflexivity. Qed.

Lemma get_sizage_In code z : get_sizage code = Ok z -> In (code, z) sizage_table.
Proof. unfold get_sizage. destruct (assoc code sizage_table) eqn:E; [|discriminate]. intros [= ->]. apply assoc_In; auto. Qed.

Lemma get_sizage_entry code z : get_sizage code = Ok z -> entry_ok (code, z) = true.
Proof. intros H. apply get_sizage_In in H. pose proof table_ok as T. eapply forallb_forall in T; eauto. Qed.

Ltac splitb H :=
  repeat (let H1 := fresh H in apply andb_true_iff in H as [H H1]).

Record zfacts (code : bytes) (z : sizage) : Prop := {
  zf_b64 : all_b64 code = true;
  zf_len : len code = hs z;
  zf_hs1 : 1 <= hs z;
  zf_hs4 : hs z <= 4;
  zf_hs3 : hs z <> 3;
  zf_first : exists c r i, code = c :: r /\ hardage c = Ok (hs z) /\ ord64 c = Some i /\ bardage i = Ok (hs z);
  zf_ls : ls z <= 2;
  zf_cs8 : 1 <= cs_of z <= 8;
  zf_cs3 : cs_of z mod 4 + ls z <= 2;
  zf_cs_ls : cs_of z mod 4 = 0 \/ ls z = 0;
  zf_var : variable z = true -> cs_of z mod 4 = 0 /\ (ss z = 2 \/ ss z = 4) /\ ss z = hs z /\ fs z = u32_max;
  zf_fix : variable z = false -> ss z = 0 /\ fs z mod 4 = 0 /\ cs_of z < fs z /\ fs z <= 124 /\
     ls z < (fs z - cs_of z) * 3 / 4 /\ ((fs z - cs_of z) * 3 / 4 + cs_of z mod 4) * 4 = (fs z - cs_of z + cs_of z mod 4) * 3 /\
     (fs z - cs_of z + cs_of z mod 4) mod 4 = 0
}.

Lemma entry_zfacts code z : entry_ok (code, z) = true -> zfacts code z.
Proof.
  unfold entry_ok. intros H. splitb H.
  destruct code as [|c r]; [discriminate|].
  apply andb_true_iff in H2 as [Hh Hbd].
  destruct (hardage c) as [h| |] eqn:Eh; try discriminate. apply N.eqb_eq in Hh. subst h.
  destruct (ord64 c) as [i|] eqn:Ei; try discriminate.
  destruct (bardage i) as [h| |] eqn:Ebd; try discriminate. apply N.eqb_eq in Hbd. subst h.
  destruct (variable z) eqn:V.
  - splitb H0. unfold cs_of in *. unfold variable in V.
    assert (ss z = 2 \/ ss z = 4) by lia.
    constructor; auto; unfold cs_of, variable in *; try rewrite V; try lia; try discriminate.
    exists c, r, i. auto.
  - splitb H0. unfold cs_of in *. unfold variable in V.
    constructor; auto; unfold cs_of, variable in *; try rewrite V; try lia; try discriminate.
    exists c, r, i. auto.
Qed.

Lemma get_sizage_zfacts code z : get_sizage code = Ok z -> zfacts code z.
Proof. intros H. apply entry_zfacts, get_sizage_entry; auto. Qed.

(** ** Well-formed primitives and their wire forms *)
Definition raw_len_ok (z : sizage) (size : N) (raw : bytes) : Prop :=
  if variable z then size < 64 ^ ss z /\ len raw + ls z = size * 3
  else size = 0 /\ len raw = (fs z - cs_of z) * 3 / 4 - ls z.

Record wf (m : matter) (z : sizage) : Prop := {
  wf_sz : get_sizage (m_code m) = Ok z;
  wf_bytes : bytes_ok (m_raw m) = true;
  wf_len : raw_len_ok z (m_size m) (m_raw m)
}.

Definition soft_of (z : sizage) (size : N) : bytes := map chr64 (digits 64 (N.to_nat (ss z)) size).
Definition both_of (z : sizage) (m : matter) : bytes := m_code m ++ soft_of z (m_size m).
Definition text_of (z : sizage) (m : matter) : bytes :=
  both_of z m ++ drop (cs_of z mod 4) (b64_encode (rep 0 (cs_of z mod 4 + ls z) ++ m_raw m)).
Definition bin_of (z : sizage) (m : matter) : bytes :=
  bcode (both_of z m) ++ rep 0 (ls z) ++ m_raw m.
Definition full_of (z : sizage) (size : N) : N :=
  if variable z then size * 4 + cs_of z else fs z.

Lemma len_both z m : wf m z -> len (both_of z m) = cs_of z.
Proof.
  intros [Hz _ _]. unfold both_of, soft_of. rewrite len_app, len_map, len_digits. apply get_sizage_zfacts in Hz. destruct Hz.
  unfold cs_of. lia.
Qed.
Lemma all_b64_both z m : wf m z -> all_b64 (both_of z m) = true.
Proof.
  intros [Hz _ _]. unfold both_of, soft_of. rewrite all_b64_app. apply get_sizage_zfacts in Hz.
  rewrite (zf_b64 _ _ Hz). cbn. apply all_b64_chr, digits_lt. lia.
Qed.

Lemma soft_val z m : wf m z -> u32_to_b64 (m_size m) (ss z) = Ok (soft_of z (m_size m)).
Proof.
  intros [Hz _ Hl]. apply get_sizage_zfacts in Hz. unfold soft_of.
  apply u32_to_b64_ok; unfold raw_len_ok in Hl; destruct (variable z) eqn:V.
  - tauto.
  - destruct Hl as [-> _]. apply N.neq_0_lt_0, N.pow_nonzero. lia.
  - destruct Hl as [Hl _]. destruct (zf_var _ _ Hz V) as [_ [[E|E] _]]; rewrite E in Hl; npow; lia.
  - destruct Hl as [-> _]. npow. lia.
Qed.

Lemma len_raw_pad z m : wf m z -> (len (m_raw m) + ls z + cs_of z mod 4) * 4 = (full_of z (m_size m) - cs_of z + cs_of z mod 4) * 3
   /\ (full_of z (m_size m) - cs_of z + cs_of z mod 4) mod 4 = 0 /\ cs_of z <= full_of z (m_size m) /\ full_of z (m_size m) < 2 ^ 27.
Proof.
  intros [Hz _ Hl]. apply get_sizage_zfacts in Hz. unfold raw_len_ok, full_of in *. destruct (variable z) eqn:V.
  - destruct (zf_var _ _ Hz V) as [Hm [Hs _]]. rewrite Hm. destruct Hl as [H1 H2]. pose proof (zf_cs8 _ _ Hz) as H8. clear Hz.
    destruct Hs as [Hs|Hs]; rewrite Hs in H1; npow; lia.
  - destruct (zf_fix _ _ Hz V) as [H1 [H2 [H3 [H4 [H5 [H6 H7]]]]]]. destruct Hl as [_ Hl]. npow. lia.
Qed.

Lemma pad_of_raw z m : wf m z -> (3 - len (m_raw m) mod 3) mod 3 = cs_of z mod 4 + ls z.
Proof.
  intros W. pose proof (len_raw_pad _ _ W) as [H1 [H2 _]]. destruct W as [Hz _ _]. apply get_sizage_zfacts in Hz.
  pose proof (zf_cs3 _ _ Hz). lia.
Qed.

Lemma buffer_bytes_ok z m k : wf m z -> bytes_ok (rep 0 k ++ m_raw m) = true.
Proof. intros W. rewrite bytes_ok_app, bytes_ok_rep0. apply (wf_bytes _ _ W). Qed.

Lemma buffer_mod3 z m : wf m z -> len (rep 0 (cs_of z mod 4 + ls z) ++ m_raw m) mod 3 = 0.
Proof. intros W. rewrite len_app, len_rep. pose proof (pad_of_raw _ _ W). pose proof (len_raw_pad _ _ W). lia. Qed.

Lemma len_text z m : wf m z -> len (text_of z m) = full_of z (m_size m).
Proof.
  intros W. unfold text_of. rewrite len_app, len_both, len_drop, len_b64_encode, len_app, len_rep by auto.
  pose proof (len_raw_pad _ _ W) as [H1 [H2 [H3 _]]]. lia.
Qed.

Lemma all_b64_text z m : wf m z -> all_b64 (text_of z m) = true.
Proof.
  intros W. unfold text_of. rewrite all_b64_app, all_b64_both by auto. cbn. apply forallb_drop.
  apply b64_encode_all; [eapply buffer_bytes_ok; eauto|apply buffer_mod3; auto].
Qed.

(** ** Encoders *)
Section P.
Context `{P : Profile}.

Lemma infil_wf z m : wf m z -> matter_infil m = Ok (text_of z m).
Proof.
  intros W. pose proof (pad_of_raw _ _ W) as Hp. pose proof (buffer_mod3 _ _ W) as Hb3.
  pose proof (len_both _ _ W) as Hlb. pose proof (soft_val _ _ W) as Hsoft.
  pose proof (wf_sz _ _ W) as Hz. pose proof (get_sizage_zfacts _ _ Hz) as Z. pose proof (wf_len _ _ W) as Hl.
  unfold matter_infil. rewrite Hz. cbn [obind]. change (fs z =? u32_max) with (variable z). rewrite Hp.
  unfold raw_len_ok in Hl. destruct (variable z) eqn:V.
  - destruct (zf_var _ _ Z V) as [Hm [Hs [_ _]]]. destruct Hl as [Hsz Hl].
    unfold cs_of in *. rewrite Hm in *. change (0 =? 0) with true. cbn [negb]. cbv iota. rewrite N.add_0_l in *.
    assert (64 ^ ss z < U32) by (unfold U32; destruct Hs as [E|E]; rewrite E; npow; lia).
    rewrite pow64_32_ok by auto. cbn [obind].
    rewrite sub32_ok by (destruct Hs as [E|E]; rewrite E in *; npow; lia). cbn [obind].
    replace (64 ^ ss z - 1 <? m_size m) with false by lia.
    rewrite Hsoft. cbn [obind]. change (m_code m ++ soft_of z (m_size m)) with (both_of z m). rewrite Hlb, Hm.
    match goal with |- context [if ?b then Err E_InvalidCodeSize else _] => replace b with false by lia end.
    rewrite b64_encode_slice_exact by auto. cbn [obind].
    rewrite from_utf8_ascii by (apply b64_encode_ascii; eapply buffer_bytes_ok; eauto). cbn [obind].
    unfold text_of, cs_of. rewrite Hm, N.add_0_l, drop_0. reflexivity.
  - destruct (zf_fix _ _ Z V) as [Hss _]. destruct Hl as [Hsz Hl].
    rewrite sub32_ok by lia. cbn [obind]. replace (cs_of z mod 4 + ls z - ls z) with (cs_of z mod 4) by lia.
    rewrite (zf_len _ _ Z). assert (Ecs : cs_of z = hs z) by (unfold cs_of; lia). rewrite <- Ecs.
    rewrite N.eqb_refl. cbn [negb]. cbv iota.
    rewrite b64_encode_slice_exact by auto. cbn [obind].
    rewrite from_utf8_ascii by (apply b64_encode_ascii; eapply buffer_bytes_ok; eauto). cbn [obind].
    rewrite str_slice_ascii; [|apply b64_encode_ascii; eapply buffer_bytes_ok; eauto| |lia].
    2:{ rewrite len_b64_encode, len_app, len_rep. pose proof (zf_cs3 _ _ Z). lia. }
    cbn [obind]. rewrite take_all by (rewrite len_drop; lia).
    unfold text_of, both_of, soft_of. rewrite Hss. change (digits 64 (N.to_nat 0) (m_size m)) with (@nil N). cbn [map].
    rewrite app_nil_r. reflexivity.
Qed.

Lemma text_is_encode_bin z m : wf m z -> text_of z m = b64_encode (bin_of z m).
Proof.
  intros W. pose proof (len_both _ _ W) as Hlb. pose proof (wf_sz _ _ W) as Hz. pose proof (get_sizage_zfacts _ _ Hz) as Z.
  pose proof (len_raw_pad _ _ W) as [H1 [H2 [H3 _]]]. pose proof (zf_cs3 _ _ Z). pose proof (pad_of_raw _ _ W) as Hp.
  unfold bin_of. rewrite bcode_sextets; rewrite ?Hlb.
  - unfold text_of. rewrite app_assoc, <- rep_app. reflexivity.
  - apply all_b64_both; auto.
  - lia.
  - rewrite len_app, len_rep. lia.
  - intros Hc. rewrite len_app, len_rep. lia.
  - eapply buffer_bytes_ok; eauto.
Qed.

Lemma len_bin z m : wf m z -> len (bin_of z m) * 4 = full_of z (m_size m) * 3 /\ len (bin_of z m) mod 3 = 0.
Proof.
  intros W. unfold bin_of. rewrite !len_app, len_bcode, len_rep, (len_both z m W).
  pose proof (wf_sz _ _ W) as Hz. pose proof (get_sizage_zfacts _ _ Hz) as Z.
  pose proof (len_raw_pad _ _ W) as [H1 [H2 [H3 _]]]. pose proof (zf_cs3 _ _ Z). lia.
Qed.
Lemma bytes_ok_bin z m : wf m z -> bytes_ok (bin_of z m) = true.
Proof. intros W. unfold bin_of. rewrite bytes_ok_app, bytes_ok_bcode. cbn. eapply buffer_bytes_ok; eauto. Qed.

Lemma binfil_wf z m : wf m z -> matter_binfil m = Ok (bin_of z m).
Proof.
  intros W. pose proof (len_both _ _ W) as Hlb. pose proof (soft_val _ _ W) as Hsoft. pose proof (len_bin _ _ W) as [Hlbin Hb3].
  pose proof (wf_sz _ _ W) as Hz. pose proof (get_sizage_zfacts _ _ Hz) as Z. pose proof (wf_len _ _ W) as Hl.
  pose proof (len_raw_pad _ _ W) as [_ [_ [_ Hful]]].
  assert (E : (if variable z then
       if negb ((hs z + ss z) mod 4 =? 0) then Err E_InvalidCodeSize
       else
         p <- pow64_32 (ss z) ;;
         lim <- sub32 p 1 ;;
         if lim <? m_size m then Err E_InvalidVarSize
         else
           soft <- u32_to_b64 (m_size m) (ss z) ;;
           q <- mul32 (m_size m) 4 ;;
           f <- add32 (hs z + ss z) q ;;
           Ok (f, m_code m ++ soft)
     else Ok (fs z, m_code m)) = Ok (full_of z (m_size m), both_of z m)).
  { unfold raw_len_ok, full_of in *. destruct (variable z) eqn:V.
    - destruct (zf_var _ _ Z V) as [Hm [Hs [_ _]]]. destruct Hl as [Hsz Hl]. unfold cs_of in *.
      rewrite Hm in *. change (0 =? 0) with true. cbn [negb]. cbv iota.
      assert (64 ^ ss z < U32) by (unfold U32; destruct Hs as [E|E]; rewrite E; npow; lia).
      rewrite pow64_32_ok by auto. cbn [obind].
      rewrite sub32_ok by (destruct Hs as [E|E]; rewrite E in *; npow; lia). cbn [obind].
      replace (64 ^ ss z - 1 <? m_size m) with false by lia.
      rewrite Hsoft. cbn [obind]. rewrite mul32_ok by (unfold U32; npow; lia). cbn [obind].
      rewrite add32_ok by (unfold U32; npow; lia). cbn [obind]. rewrite (N.add_comm (hs z + ss z)). reflexivity.
    - destruct (zf_fix _ _ Z V) as [Hss _]. unfold both_of, soft_of. rewrite Hss.
      change (digits 64 (N.to_nat 0) (m_size m)) with (@nil N). cbn [map]. rewrite app_nil_r. reflexivity. }
  unfold matter_binfil. rewrite Hz. cbn [obind]. change (fs z =? u32_max) with (variable z). rewrite E. cbn [obind].
  change (hs z + ss z) with (cs_of z). rewrite Hlb, N.eqb_refl. cbn [negb]. cbv iota.
  destruct (code_full_ok (both_of z m) (cs_of z)) as [full [Ef [Hlf Hdf]]]; auto.
  { apply all_b64_both; auto. } { apply (zf_cs8 _ _ Z). } { apply (zf_cs8 _ _ Z). }
  rewrite Ef. cbn [obind]. rewrite Hdf. fold (bin_of z m).
  replace (len (bin_of z m) mod 3 =? 0) with true by lia.
  replace (len (bin_of z m) * 4 / 3 =? full_of z (m_size m)) with true by lia. reflexivity.
Qed.

Lemma full_size_wf z m : wf m z -> matter_full_size m = Ok (full_of z (m_size m)).
Proof.
  intros W. pose proof (wf_sz _ _ W) as Hz. pose proof (len_raw_pad _ _ W) as [_ [_ [_ Hf]]].
  unfold matter_full_size. rewrite Hz. cbn [obind]. change (fs z =? u32_max) with (variable z). unfold full_of in *.
  destruct (variable z); [|reflexivity]. cbn [negb]. cbv iota.
  unfold cs_of in *. rewrite mul32_ok by (unfold U32; npow; lia). cbn [obind].
  rewrite add32_ok by (unfold U32; npow; lia). cbn [obind]. rewrite add32_ok by (unfold U32; npow; lia). f_equal. lia.
Qed.

(** ** Text decoder on encoded primitives *)
Lemma val_zeros k : val 256 (rep 0 k) = 0.
Proof.
  unfold rep. induction (N.to_nat k) as [|n IH]; [reflexivity|]. cbn [repeat]. rewrite val_cons, IH. lia.
Qed.

Lemma val256_zero l : val 256 l = 0 -> l = rep 0 (len l).
Proof.
  induction l as [|x l IH]; [reflexivity|]. rewrite val_cons, len_cons, rep_S. intros H.
  assert (0 < 256 ^ len l) by (apply N.neq_0_lt_0, N.pow_nonzero; lia).
  assert (x = 0) by nia. subst x. f_equal. apply IH. lia.
Qed.

Lemma rep65_zero k : k <= 2 -> forall r, len r mod 3 = (3 - k) mod 3 -> (k <> 0 -> 0 < len r) ->
  b64_encode (rep 0 k ++ r) = rep 65 k ++ drop k (b64_encode (rep 0 k ++ r)).
Proof.
  intros Hk r Hr Hr0. assert (k = 0 \/ k = 1 \/ k = 2) as [->|[->| ->]] by lia.
  - reflexivity.
  - destruct r as [|x [|y r]]; [exfalso; cbn in *; lia|cbn in Hr; discriminate|].
    change (rep 0 1) with [0]. cbn [app]. rewrite b64_encode_3. rewrite drop1. reflexivity.
  - destruct r as [|x r]; [exfalso; cbn in *; lia|].
    change (rep 0 2) with [0; 0]. cbn [app]. rewrite b64_encode_3. rewrite drop2. reflexivity.
Qed.

(** the boundary right after an ASCII text followed by valid UTF-8 *)
Lemma boundary_after a b : utf8_valid b = true -> boundary (a ++ b) (len a) = true.
Proof.
  intros Hu. destruct b as [|x b].
  - rewrite app_nil_r. apply boundary_len.
  - unfold boundary. rewrite nth_error_app2 by (unfold len; lia).
    replace (N.to_nat (len a) - length a)%nat with 0%nat by (unfold len; lia). cbn [nth_error].
    apply orb_true_iff. right. cbn [utf8_valid] in Hu. unfold is_cont.
    destruct (x <? 128) eqn:E; [replace (128 <=? x) with false by lia; reflexivity|].
    destruct b as [|b1 b]; [discriminate|]. unfold rng in Hu.
    destruct ((194 <=? x) && (x <=? 223)) eqn:E1; [replace (x <? 192) with false by lia; rewrite andb_false_r; reflexivity|].
    destruct b as [|b2 b]; [discriminate|].
    destruct ((224 <=? x) && (x <=? 239)) eqn:E2; [replace (x <? 192) with false by lia; rewrite andb_false_r; reflexivity|].
    destruct b as [|b3 b]; [discriminate|].
    destruct ((240 <=? x) && (x <=? 244)) eqn:E3; [replace (x <? 192) with false by lia; rewrite andb_false_r; reflexivity|discriminate].
Qed.

Lemma exfil_text z m tail : wf m z -> utf8_valid tail = true -> matter_exfil (text_of z m ++ tail) = Ok m.
Proof.
  intros W Hu. pose proof (len_both _ _ W) as Hlb. pose proof (len_text _ _ W) as Hlt.
  pose proof (wf_sz _ _ W) as Hz. pose proof (get_sizage_zfacts _ _ Hz) as Z. pose proof (wf_len _ _ W) as Hl.
  pose proof (len_raw_pad _ _ W) as [Hq1 [Hq2 [Hq3 Hful]]]. pose proof (zf_cs3 _ _ Z) as Hcs3.
  pose proof (all_b64_ascii _ (all_b64_text _ _ W)) as Hasc. pose proof (zf_hs1 _ _ Z). pose proof (zf_cs_ls _ _ Z) as Hcl.
  assert (Hfull4 : cs_of z < full_of z (m_size m) \/ (variable z = true /\ m_size m = 0 /\ m_raw m = [] /\ ls z = 0)).
  { unfold raw_len_ok, full_of in *. destruct (variable z) eqn:V.
    - destruct (zf_var _ _ Z V). destruct Hl as [_ Hl]. destruct (N.eq_dec (m_size m) 0) as [E0|E0]; [|left; lia].
      right. repeat split; auto; [apply len_zero|]; lia.
    - destruct (zf_fix _ _ Z V) as [? [? [? ?]]]. left; lia. }
  remember (text_of z m ++ tail) as t eqn:Et.
  assert (Ehead : t = m_code m ++ (soft_of z (m_size m) ++ drop (cs_of z mod 4) (b64_encode (rep 0 (cs_of z mod 4 + ls z) ++ m_raw m))) ++ tail).
  { rewrite Et. unfold text_of, both_of. rewrite !app_assoc. reflexivity. }
  assert (Htake : take (full_of z (m_size m)) t = text_of z m) by (rewrite Et; apply take_app_exact; auto).
  destruct (zf_first _ _ Z) as [c [r [i [Ec [Hh [Hi Hbd]]]]]].
  unfold matter_exfil. destruct t as [|c0 t0] eqn:Et0.
  { exfalso. rewrite Ec in Ehead. discriminate. }
  assert (c0 = c) by (rewrite Ec in Ehead; injection Ehead; auto). subst c0.
  rewrite <- Et0 in *. clear Et0 t0. rewrite Hh. cbn [obind].
  assert (Hlen : len t = full_of z (m_size m) + len tail) by (rewrite Et, len_app, Hlt; reflexivity).
  assert (Hcshs : hs z <= cs_of z) by (unfold cs_of; lia).
  replace (len t <? hs z) with false by lia.
  assert (Bin : forall k, k <= full_of z (m_size m) -> boundary t k = true).
  { intros k Hk. rewrite Et. destruct (N.eq_dec k (full_of z (m_size m))) as [->|].
    - rewrite <- Hlt. apply boundary_after; auto.
    - apply boundary_app_ascii; auto. lia. }
  rewrite str_slice_ok; [|lia|apply boundary_0|apply Bin; lia]. cbn [obind].
  rewrite N.sub_0_r, drop_0.
  assert (Ehs : take (hs z) t = m_code m). { rewrite Ehead. apply take_app_exact. apply (zf_len _ _ Z). }
  rewrite Ehs, Hz. cbn [obind]. change (fs z =? u32_max) with (variable z). change (hs z + ss z) with (cs_of z).
  assert (E : (if variable z then
           if negb (cs_of z mod 4 =? 0) then Err E_InvalidCodeSize
           else if len t <? cs_of z then Err E_Shortage
           else
             soft <- str_slice t (hs z) (cs_of z) ;;
             size <- b64_to_u32 soft ;;
             q <- mul32 size 4 ;;
             f <- add32 q (cs_of z) ;;
             Ok (f, size)
         else Ok (fs z, 0)) = Ok (full_of z (m_size m), m_size m)).
  { unfold raw_len_ok, full_of in *. destruct (variable z) eqn:V.
    - destruct (zf_var _ _ Z V) as [Hm [Hs _]]. destruct Hl as [Hsz Hl].
      rewrite Hm in *. change (0 =? 0) with true. cbn [negb]. cbv iota. replace (len t <? cs_of z) with false by lia.
      rewrite str_slice_ok; [|lia|apply Bin; lia|apply Bin; lia]. cbn [obind].
      assert (Es : take (cs_of z - hs z) (drop (hs z) t) = soft_of z (m_size m)).
      { rewrite Ehead. rewrite drop_app_exact by apply (zf_len _ _ Z). rewrite <- app_assoc.
        apply take_app_exact. unfold soft_of. rewrite len_map, len_digits. unfold cs_of. lia. }
      rewrite Es. rewrite b64_to_u32_all.
      2:{ unfold soft_of. apply all_b64_chr, digits_lt. lia. }
      2:{ unfold soft_of. rewrite len_map, len_digits. lia. }
      cbn [obind]. unfold soft_of. rewrite ords_chr by (apply digits_lt; lia). rewrite digits_small by (rewrite ?N2Nat.id; lia).
      rewrite mul32_ok by (unfold U32; npow; lia). cbn [obind]. rewrite add32_ok by (unfold U32; npow; lia). reflexivity.
    - destruct Hl as [-> _]. reflexivity. }
  rewrite E. cbn [obind]. clear E.
  replace (len t <? full_of z (m_size m)) with false by lia.
  rewrite str_slice_ok; [|lia|apply boundary_0|apply Bin; lia]. cbn [obind]. rewrite N.sub_0_r, drop_0, Htake.
  assert (Etail : str_slice (text_of z m) (cs_of z) (len (text_of z m)) =
     Ok (drop (cs_of z mod 4) (b64_encode (rep 0 (cs_of z mod 4 + ls z) ++ m_raw m)))).
  { rewrite str_slice_ascii by (auto; lia). rewrite take_all by (rewrite len_drop; lia). unfold text_of.
    rewrite drop_app_exact by auto. reflexivity. }
  destruct (N.eqb_spec (cs_of z mod 4) 0) as [E0|E0]; cbn [negb]; cbv iota.
  - rewrite Etail. cbn [obind]. rewrite E0, N.add_0_l, drop_0.
    rewrite b64_decode_encode by (eapply buffer_bytes_ok; eauto). cbn [obind].
    rewrite slice_prefix by (rewrite len_app, len_rep; lia). cbn [obind].
    rewrite take_app_exact by apply len_rep. unfold read_int. rewrite from_be_val, val_zeros.
    change (0 =? 0) with true. cbn [negb]. cbv iota. rewrite slice_to_end by (rewrite len_app, len_rep; lia).
    rewrite drop_app_exact by apply len_rep. cbn [obind]. destruct m; reflexivity.
  - rewrite Etail. cbn [obind]. assert (ls z = 0) as El by lia. rewrite El, N.add_0_r in *.
    rewrite <- rep65_zero by (pose proof (pad_of_raw _ _ W); lia).
    rewrite b64_decode_encode by (eapply buffer_bytes_ok; eauto). cbn [obind].
    rewrite slice_prefix by (rewrite len_app, len_rep; lia). cbn [obind].
    rewrite take_app_exact by apply len_rep. unfold read_int. rewrite from_be_val, val_zeros, N.mod_0_l by (apply N.pow_nonzero; lia).
    change (0 =? 0) with true. cbn [negb]. cbv iota. rewrite slice_to_end by (rewrite len_app, len_rep; lia).
    rewrite drop_app_exact by apply len_rep. cbn [obind]. destruct m; reflexivity.
Qed.
End P.
