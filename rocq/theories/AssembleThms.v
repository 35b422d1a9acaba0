(** Property C74: primitives assembled with the setters. *)
From Verif Require Import Base Utf8 MatterTables Matter Spec MatterDefs Indexer IndexerDefs.
From Verif Require Import B64 Util BaseFacts B64Facts UtilFacts MatterFacts MatterFacts2 MatterFacts3 SpecFacts MatterFacts4 MatterThms IndexerTables IndexerFacts IndexerFacts2 IndexerFacts3 IndexerThms.

Lemma fixed_pad c n f z : In (c, (n, f)) fixed_codes -> get_sizage c = Ok z -> variable z = false /\ fs z = f /\ ss z = 0 /\ len c = cs_of z /\ ls z = pad_to_3 n - len c mod 4 /\ pad_to_3 n = cs_of z mod 4 + ls z /\ n = (f - cs_of z) * 3 / 4 - ls z.
Proof.
  intros H Hz. assert (E : forallb (fun e => match get_sizage (fst e) with Ok z => negb (variable z) && (fs z =? snd (snd e)) && (ss z =? 0) && (len (fst e) =? cs_of z) && (ls z =? pad_to_3 (fst (snd e)) - len (fst e) mod 4) && (pad_to_3 (fst (snd e)) =? cs_of z mod 4 + ls z) && (fst (snd e) =? (snd (snd e) - cs_of z) * 3 / 4 - ls z) | _ => false end) fixed_codes = true) by (vm_compute; reflexivity).
  eapply forallb_forall in E; eauto. cbn [fst snd] in E. rewrite Hz in E. splitb E. destruct (variable z); [discriminate|]. repeat split; auto; try apply N.eqb_eq; assumption.
Qed.

Section P.
Context `{P : Profile}.
Lemma infil_fixed c z size raw : get_sizage c = Ok z -> variable z = false -> bytes_ok raw = true ->
  matter_infil (Mat c size raw) = let pad := pad_to_3 (len raw) in
    if pad =? cs_of z mod 4 + ls z then Ok (c ++ drop (cs_of z mod 4) (b64_encode (rep 0 pad ++ raw))) else if (overflow_checks && (pad <? ls z))%bool then Panic else Err E_InvalidCodeSize.
Proof.
  intros Hz V B. pose proof (get_sizage_zfacts _ _ Hz) as Z. destruct (zf_fix _ _ Z V) as [Hss _]. pose proof (zf_cs3 _ _ Z) as H3.
  unfold matter_infil. cbn [m_code m_raw m_size]. rewrite Hz. cbn [obind]. change (fs z =? u32_max) with (variable z). rewrite V. fold (pad_to_3 (len raw)). cbv zeta. set (pad := pad_to_3 (len raw)).
  assert (Ecs : cs_of z = hs z) by (unfold cs_of; lia). rewrite (zf_len _ _ Z), <- Ecs.
  assert (Hp : pad <= 2) by (unfold pad, pad_to_3; lia).
  destruct (N.ltb_spec pad (ls z)) as [Lt|Ge].
  - replace (pad =? cs_of z mod 4 + ls z) with false by lia. unfold sub32. replace (ls z <=? pad) with false by lia. destruct overflow_checks; [reflexivity|]. cbn [andb]. cbn [obind]. pose proof (zf_ls _ _ Z).
    match goal with |- context [negb ?b] => replace b with false; [reflexivity|] end. symmetry. apply N.eqb_neq. unfold U32. npow. pose proof (N.mod_lt (cs_of z) 4). lia.
  - rewrite andb_false_r. rewrite sub32_ok by exact Ge. cbn [obind]. destruct (N.eqb_spec pad (cs_of z mod 4 + ls z)) as [E|E].
    + replace (cs_of z mod 4 =? pad - ls z) with true by lia. cbn [negb].
      assert (M3 : len (rep 0 pad ++ raw) mod 3 = 0) by (rewrite len_app, len_rep; unfold pad, pad_to_3; lia).
      assert (Bo : bytes_ok (rep 0 pad ++ raw) = true) by (rewrite bytes_ok_app, B, andb_true_r; apply forallb_rep; reflexivity).
      rewrite b64_encode_slice_exact by exact M3. cbn [obind]. rewrite from_utf8_ascii by (apply b64_encode_ascii; exact Bo). cbn [obind].
      rewrite str_slice_ascii; [|apply b64_encode_ascii; exact Bo| |lia]; [|rewrite len_b64_encode, len_app, len_rep; unfold pad, pad_to_3 in *; lia].
      cbn [obind]. rewrite take_all by (rewrite len_drop; lia). reflexivity.
    + replace (cs_of z mod 4 =? pad - ls z) with false by lia. reflexivity.
Qed.
Lemma soft_var z size : (ss z = 2 \/ ss z = 4) -> size < 64 ^ ss z -> u32_to_b64 size (ss z) = Ok (soft_of z size).
Proof. intros Hs L. apply u32_to_b64_ok; [exact L|]. destruct Hs as [E|E]; rewrite E in L; npow; lia. Qed.
Lemma infil_var c z size raw : get_sizage c = Ok z -> variable z = true -> bytes_ok raw = true ->
  matter_infil (Mat c size raw) = if 64 ^ ss z <=? size then Err E_InvalidVarSize
    else if pad_to_3 (len raw) =? ls z then Ok (c ++ soft_of z size ++ b64_encode (rep 0 (ls z) ++ raw)) else Err E_InvalidCodeSize.
Proof.
  intros Hz V B. pose proof (get_sizage_zfacts _ _ Hz) as Z. destruct (zf_var _ _ Z V) as [Hm [Hs [Hh _]]].
  unfold matter_infil. cbn [m_code m_raw m_size]. rewrite Hz. cbn [obind]. change (fs z =? u32_max) with (variable z). rewrite V. fold (pad_to_3 (len raw)). cbv zeta. set (pad := pad_to_3 (len raw)).
  change (hs z + ss z) with (cs_of z). rewrite Hm. cbn [N.eqb negb]. cbv iota.
  assert (64 ^ ss z < U32) by (unfold U32; destruct Hs as [E|E]; rewrite E; npow; lia).
  rewrite pow64_32_ok by auto. cbn [obind]. rewrite sub32_ok by (destruct Hs as [E|E]; rewrite E in *; npow; lia). cbn [obind].
  destruct (N.leb_spec (64 ^ ss z) size) as [Big|Sm].
  - replace (64 ^ ss z - 1 <? size) with true; [reflexivity|]. symmetry. apply N.ltb_lt. destruct Hs as [E|E]; rewrite E in *; npow; lia.
  - replace (64 ^ ss z - 1 <? size) with false by (symmetry; apply N.ltb_ge; destruct Hs as [E|E]; rewrite E in *; npow; lia).
    rewrite soft_var by auto. cbn [obind]. assert (Lb : len (c ++ soft_of z size) mod 4 = 0). { unfold soft_of. rewrite len_app, len_map, len_digits, (zf_len _ _ Z), N2Nat.id. exact Hm. }
    rewrite Lb. destruct (N.eqb_spec pad (ls z)) as [E|E].
    + replace ((ls z <=? pad) && negb (0 =? pad - ls z) || (pad <? ls z) && negb (0 =? ls z - pad))%bool with false by lia.
      assert (M3 : len (rep 0 (ls z) ++ raw) mod 3 = 0) by (rewrite len_app, len_rep, <- E; unfold pad, pad_to_3; lia).
      assert (Bo : bytes_ok (rep 0 (ls z) ++ raw) = true) by (rewrite bytes_ok_app, B, andb_true_r; apply forallb_rep; reflexivity).
      rewrite b64_encode_slice_exact by exact M3. cbn [obind]. rewrite from_utf8_ascii by (apply b64_encode_ascii; exact Bo). cbn [obind]. rewrite <- app_assoc. reflexivity.
    + replace ((ls z <=? pad) && negb (0 =? pad - ls z) || (pad <? ls z) && negb (0 =? ls z - pad))%bool with true by lia. reflexivity.
Qed.
Lemma binfil_any c z size raw : get_sizage c = Ok z -> (variable z = true -> size < 64 ^ ss z) ->
  matter_binfil (Mat c size raw) = let b := bcode (both_of z (Mat c size raw)) ++ rep 0 (ls z) ++ raw in if (len b mod 3 =? 0) && (len b * 4 / 3 =? full_of z size) then Ok b else Err E_InvalidCodeSize.
Proof.
  intros Hz L. pose proof (get_sizage_zfacts _ _ Hz) as Z. set (m := Mat c size raw).
  assert (E : (if variable z then
       if negb ((hs z + ss z) mod 4 =? 0) then Err E_InvalidCodeSize
       else
         p <- pow64_32 (ss z) ;;
         lim <- sub32 p 1 ;;
         if lim <? size then Err E_InvalidVarSize
         else
           soft <- u32_to_b64 size (ss z) ;;
           q <- mul32 size 4 ;;
           f <- add32 (hs z + ss z) q ;;
           Ok (f, c ++ soft)
     else Ok (fs z, c)) = Ok (full_of z size, both_of z m)).
  { unfold full_of, both_of. cbn [m m_code m_size]. destruct (variable z) eqn:V.
    - destruct (zf_var _ _ Z V) as [Hm [Hs [_ _]]]. specialize (L eq_refl). pose proof (zf_cs8 _ _ Z). unfold cs_of in *.
      rewrite Hm in *. change (0 =? 0) with true. cbn [negb]. cbv iota.
      assert (64 ^ ss z < U32) by (unfold U32; destruct Hs as [E|E]; rewrite E; npow; lia).
      rewrite pow64_32_ok by auto. cbn [obind].
      rewrite sub32_ok by (destruct Hs as [E|E]; rewrite E in *; npow; lia). cbn [obind].
      replace (64 ^ ss z - 1 <? size) with false by (symmetry; apply N.ltb_ge; destruct Hs as [E|E]; rewrite E in *; npow; lia).
      rewrite soft_var by auto. cbn [obind]. assert (size < 2 ^ 24) by (destruct Hs as [E|E]; rewrite E in *; npow; lia). rewrite mul32_ok by (unfold U32; npow; lia). cbn [obind].
      rewrite add32_ok by (unfold U32; npow; lia). cbn [obind]. rewrite (N.add_comm (hs z + ss z)). reflexivity.
    - destruct (zf_fix _ _ Z V) as [Hss _]. unfold soft_of. rewrite Hss. 
      change (digits 64 (N.to_nat 0) size) with (@nil N). cbn [map]. rewrite app_nil_r. reflexivity. }
  assert (Lb : len (both_of z m) = cs_of z) by (unfold both_of, soft_of, cs_of; cbn [m m_code m_size]; rewrite len_app, len_map, len_digits, (zf_len _ _ Z); lia).
  assert (Ab : all_b64 (both_of z m) = true) by (unfold both_of, soft_of; rewrite all_b64_app; cbn [m m_code m_size]; rewrite (zf_b64 _ _ Z); cbn [andb]; apply all_b64_chr, digits_lt; lia).
  unfold matter_binfil. change (m_code m) with c. change (m_raw m) with raw. change (m_size m) with size. rewrite Hz. cbn [obind]. change (fs z =? u32_max) with (variable z). rewrite E. cbn [obind].
  change (hs z + ss z) with (cs_of z). rewrite Lb, N.eqb_refl. cbn [negb]. cbv iota.
  destruct (code_full_ok (both_of z m) (cs_of z)) as [full [Ef [Hlf Hdf]]]; auto. { apply (zf_cs8 _ _ Z). } { apply (zf_cs8 _ _ Z). }
  rewrite Ef. cbn [obind]. rewrite Hdf. cbv zeta. destruct (len _ mod 3 =? 0); [|reflexivity]. destruct (len _ * 4 / 3 =? full_of z size); reflexivity.
Qed.
Lemma binfil_size c z size size' raw : get_sizage c = Ok z -> variable z = false -> ss z = 0 -> matter_binfil (Mat c size raw) = matter_binfil (Mat c size' raw).
Proof. intros Hz V Es. rewrite !(binfil_any _ z) by (auto; congruence). assert (E : both_of z (Mat c size raw) = both_of z (Mat c size' raw)) by (unfold both_of, soft_of; cbn [m_code m_size]; rewrite Es; reflexivity). rewrite E. unfold full_of. rewrite V. reflexivity. Qed.
End P.

Lemma drop_le {A} n (a b : list A) : n <= len a -> drop n (a ++ b) = drop n a ++ b.
Proof. intros L. rewrite drop_app. replace (n - len a) with 0 by lia. rewrite drop_0. reflexivity. Qed.
Lemma encode_b64_of pad raw : bytes_ok raw = true -> pad = pad_to_3 (len raw) -> b64_encode (rep 0 pad ++ raw) = b64_of (rep 0 pad ++ raw).
Proof.
  intros B ->. symmetry. apply b64_of_encode.
  - rewrite bytes_ok_app, B, andb_true_r. apply forallb_rep. reflexivity.
  - rewrite len_app, len_rep. unfold pad_to_3. lia.
Qed.
Lemma fixed_wf c n f z raw : In (c, (n, f)) fixed_codes -> get_sizage c = Ok z -> bytes_ok raw = true -> len raw = n -> wf (Mat c 0 raw) z.
Proof.
  intros I Hz B L. destruct (fixed_pad _ _ _ _ I Hz) as (V & Ef & _ & _ & _ & _ & En). constructor; cbn; auto. unfold raw_len_ok. rewrite V, Ef. split; [reflexivity|]. lia.
Qed.

(** C74: the text encoder of a fixed size primitive with any fields: it checks the number of raw bytes only modulo three, and ignores the size;
    for the codes with lead bytes it may fail by underflow *)
Lemma C74_fixed_text_pf : forall (P : Profile) (code raw : bytes) (n f size : N), In (code, (n, f)) fixed_codes -> bytes_ok raw = true ->
  let pad := pad_to_3 (len raw) in let lead := pad_to_3 n - len code mod 4 in
  matter_qb64 (Mat code size raw) =
    if pad =? pad_to_3 n then Ok (code ++ drop (len code mod 4) (b64_of (rep 0 pad ++ raw)))
    else if (overflow_checks && (pad <? lead))%bool then Panic else Err E_InvalidCodeSize.
Proof.
  intros P code raw n f size I B pad lead. destruct (fixed_code_sizage _ _ _ I) as (z & Hz & _). destruct (fixed_pad _ _ _ _ I Hz) as (V & Ef & Es & Lc & El & Ep & En).
  unfold matter_qb64. rewrite (infil_fixed _ z) by auto. cbv zeta. fold pad. fold lead in El. rewrite El, <- Lc. rewrite El in Ep. rewrite <- Lc in Ep. rewrite Ep. destruct (pad =? _); [|reflexivity]. rewrite encode_b64_of by auto. reflexivity.
Qed.
(** C74: the binary encoder checks it exactly, and still ignores the size *)
Lemma C74_fixed_binary_pf : forall (P : Profile) (code raw : bytes) (n f size : N), In (code, (n, f)) fixed_codes -> bytes_ok raw = true ->
  (len raw <> n -> matter_qb2 (Mat code size raw) = Err E_InvalidCodeSize) /\
  (len raw = n -> exists t b, matter_qb64 (Mat code size raw) = Ok t /\ matter_qb2 (Mat code size raw) = Ok b /\ len t = f /\ b64_of b = t) /\
  matter_full_size (Mat code size raw) = Ok f.
Proof.
  intros P code raw n f size I B. destruct (fixed_code_sizage _ _ _ I) as (z & Hz & _). destruct (fixed_pad _ _ _ _ I Hz) as (V & Ef & Es & Lc & El & Ep & En).
  pose proof (get_sizage_zfacts _ _ Hz) as Z. destruct (zf_fix _ _ Z V) as (_ & F4 & Fl & _ & Fs & Fe & Fm). pose proof (zf_cs3 _ _ Z) as C3.
  assert (Lb : len (bcode (both_of z (Mat code size raw))) = (cs_of z + 1) * 3 / 4). { rewrite len_bcode. unfold both_of, soft_of. cbn [m_code m_size]. rewrite Es. cbn. rewrite app_nil_r, Lc. reflexivity. }
  split; [|split].
  - intros L. unfold matter_qb2. rewrite (binfil_any _ z) by (auto; congruence). cbv zeta. rewrite !len_app, len_rep, Lb. unfold full_of. rewrite V.
    destruct (N.eqb_spec (((cs_of z + 1) * 3 / 4 + (ls z + len raw)) mod 3) 0) as [M|M]; [|reflexivity]. cbn [andb]. match goal with |- (if ?b then _ else _) = _ => destruct b eqn:E; [|reflexivity] end. apply N.eqb_eq in E. exfalso. apply L. subst n. rewrite Ef in *. destruct (cs_cases _ _ Z) as [X|[X|[X|X]]]; rewrite X in *; lia.
  - intros L. pose proof (fixed_wf _ _ _ _ _ I Hz B L) as W. exists (text_of z (Mat code 0 raw)), (bin_of z (Mat code 0 raw)).
    assert (Eb : both_of z (Mat code size raw) = both_of z (Mat code 0 raw)) by (unfold both_of, soft_of; cbn [m_code m_size]; rewrite Es; reflexivity).
    split; [|split; [|split]].
    + rewrite <- (infil_wf z _ W). unfold matter_qb64. rewrite !(infil_fixed _ z) by auto. reflexivity.
    + rewrite <- (binfil_wf z _ W). unfold matter_qb2. rewrite !(binfil_any _ z) by (auto; congruence). rewrite Eb. unfold full_of. rewrite V. reflexivity.
    + rewrite len_text by exact W. unfold full_of. rewrite V. exact Ef.
    + rewrite text_is_encode_bin by exact W. apply b64_of_encode; [eapply bytes_ok_bin; exact W|apply len_bin; exact W].
  - unfold matter_full_size. cbn [m_code m_size]. rewrite Hz. cbn [obind]. change (fs z =? u32_max) with (variable z). rewrite V, Ef. reflexivity.
Qed.
Lemma var_pad lead type w code : lead <= 2 -> In type var_types -> (code = small_var_code lead type /\ w = 2 \/ code = large_var_code lead type /\ w = 4) ->
  exists z, get_sizage code = Ok z /\ variable z = true /\ ls z = lead /\ ss z = w /\ cs_of z = 2 * w /\ len code = w.
Proof.
  intros L I H. assert (lead = 0 \/ lead = 1 \/ lead = 2) as D by lia. destruct I as [<-|[<-|[]]]; destruct D as [D|[D|D]]; subst lead; destruct H as [[-> ->]|[-> ->]]; eexists; (split; [vm_compute; reflexivity|]); vm_compute; auto.
Qed.
(** C74: a variable size primitive with any fields: the text encoder checks that the size fits its characters and the number of raw bytes modulo three,
    not that the two agree; the binary encoder does; full_size may overflow *)
Lemma C74_variable_pf : forall (P : Profile) (code raw : bytes) (lead type w size : N), lead <= 2 -> In type var_types ->
  (code = small_var_code lead type /\ w = 2 \/ code = large_var_code lead type /\ w = 4) -> bytes_ok raw = true -> size < 2 ^ 32 ->
  let m := Mat code size raw in
  (64 ^ w <= size -> matter_qb64 m = Err E_InvalidVarSize /\ matter_qb2 m = Err E_InvalidVarSize) /\
  (size < 64 ^ w ->
     matter_qb64 m = (if pad_to_3 (len raw) =? lead then Ok (code ++ b64_numeral w size ++ b64_of (rep 0 lead ++ raw)) else Err E_InvalidCodeSize) /\
     (len raw + lead <> 3 * size -> matter_qb2 m = Err E_InvalidCodeSize) /\
     (len raw + lead = 3 * size -> exists t b, matter_qb64 m = Ok t /\ matter_qb2 m = Ok b /\ b64_of b = t)) /\
  matter_full_size m = (if 2 * w + 4 * size <? 2 ^ 32 then Ok (2 * w + 4 * size) else if overflow_checks then Panic else Ok ((2 * w + 4 * size) mod 2 ^ 32)).
Proof.
  intros P code raw lead type w size Hl Ht Hc B S32 m. destruct (var_pad _ _ _ _ Hl Ht Hc) as (z & Hz & V & El & Es & Ec & Lc). pose proof (get_sizage_zfacts _ _ Hz) as Z. destruct (zf_var _ _ Z V) as [Hm [Hs _]].
  assert (Hw : w = 2 \/ w = 4) by (rewrite <- Es; exact Hs).
  split; [|split].
  - intros L. unfold m, matter_qb64, matter_qb2. split.
    + rewrite (infil_var _ z) by auto. rewrite Es. apply N.leb_le in L. rewrite L. reflexivity.
    + unfold matter_binfil. cbn [m_code m_size]. rewrite Hz. cbn [obind]. change (fs z =? u32_max) with (variable z). rewrite V. change (hs z + ss z) with (cs_of z). rewrite Hm. cbn [N.eqb negb]. cbv iota. rewrite Es.
      rewrite pow64_32_ok by (destruct Hw as [-> | ->]; vm_compute; reflexivity). cbn [obind]. rewrite sub32_ok by (destruct Hw as [-> | ->]; vm_compute; discriminate). cbn [obind].
      replace (64 ^ w - 1 <? size) with true; [reflexivity|]. symmetry. apply N.ltb_lt. destruct Hw as [-> | ->]; npow; lia.
  - intros L. assert (Sw : soft_of z size = b64_numeral w size) by (unfold soft_of; rewrite b64_numeral_digits, Es; reflexivity).
    assert (T : matter_qb64 m = (if pad_to_3 (len raw) =? lead then Ok (code ++ b64_numeral w size ++ b64_of (rep 0 lead ++ raw)) else Err E_InvalidCodeSize)).
    { unfold m, matter_qb64. rewrite (infil_var _ z) by auto. rewrite Es, El, Sw. apply N.leb_gt in L. rewrite L. destruct (N.eqb_spec (pad_to_3 (len raw)) lead) as [E|E]; [|reflexivity]. rewrite encode_b64_of by auto. reflexivity. }
    split; [exact T|]. split.
    + intros Ne. unfold m, matter_qb2. rewrite (binfil_any _ z) by (auto; rewrite Es; auto). cbv zeta.
      assert (Lb : len (bcode (both_of z (Mat code size raw))) = (cs_of z + 1) * 3 / 4). { rewrite len_bcode. unfold both_of, soft_of. cbn [m_code m_size]. rewrite len_app, len_map, len_digits, N2Nat.id, Lc, Es, Ec. replace (w + w) with (2 * w) by lia. reflexivity. }
      rewrite !len_app, len_rep, Lb, Ec, El. unfold full_of. rewrite V, Ec.
      match goal with |- (if ?b then _ else _) = _ => destruct b eqn:E; [|reflexivity] end. apply andb_true_iff in E as [E1 E2]. apply N.eqb_eq in E1, E2. exfalso. destruct Hw as [-> | ->]; lia.
    + intros E. assert (W : wf m z). { constructor; cbn; auto. unfold raw_len_ok. rewrite V, Es, El. split; [exact L|cbn; lia]. }
      exists (text_of z m), (bin_of z m). split; [apply infil_wf; exact W|]. split; [apply binfil_wf; exact W|]. rewrite text_is_encode_bin by exact W. apply b64_of_encode; [eapply bytes_ok_bin; exact W|apply len_bin; exact W].
  - unfold matter_full_size, m. cbn [m_code m_size]. rewrite Hz. cbn [obind]. change (fs z =? u32_max) with (variable z). rewrite V. cbn [negb]. cbv iota.
    assert (Hh : hs z = w /\ ss z = w) by (unfold cs_of in Ec; lia). destruct Hh as [-> ->]. unfold mul32, add32, U32.
    assert (E32 : 2 ^ 32 = 4294967296) by reflexivity. rewrite E32 in *. destruct overflow_checks.
    + destruct (N.ltb_spec (2 * w + 4 * size) 4294967296) as [A|A].
      * replace (size * 4 <? 4294967296) with true by lia. cbn [obind]. replace (w + w <? 4294967296) with true by lia. cbn [obind]. replace (w + w + size * 4 <? 4294967296) with true by lia. f_equal. lia.
      * destruct (N.ltb_spec (size * 4) 4294967296); [|reflexivity]. cbn [obind]. replace (w + w <? 4294967296) with true by lia. cbn [obind]. replace (w + w + size * 4 <? 4294967296) with false by lia. reflexivity.
    + assert (X : (if size * 4 <? 4294967296 then Ok (size * 4) else Ok (size * 4 mod 4294967296)) = Ok (size * 4 mod 4294967296)). { destruct (N.ltb_spec (size * 4) 4294967296); [|reflexivity]. rewrite N.mod_small by lia. reflexivity. }
      rewrite X. cbn [obind]. replace (w + w <? 4294967296) with true by lia. cbn [obind]. pose proof (N.mod_lt (size * 4) 4294967296). 
      destruct (N.ltb_spec (2 * w + 4 * size) 4294967296) as [A|A]; destruct (N.ltb_spec (w + w + size * 4 mod 4294967296) 4294967296) as [A'|A']; f_equal; lia.
Qed.
(** C74: any other code is refused by all three *)
Lemma C74_unknown_pf : forall (P : Profile) (m : matter), ~ table_code (m_code m) ->
  matter_qb64 m = Err E_UnknownSizage /\ matter_qb2 m = Err E_UnknownSizage /\ matter_full_size m = Err E_UnknownSizage.
Proof.
  intros P m H. assert (E : get_sizage (m_code m) = Err E_UnknownSizage). { unfold get_sizage. destruct (assoc (m_code m) sizage_table) as [z|] eqn:A; [|reflexivity]. destruct H. apply table_code_sizage. exists z. unfold get_sizage. rewrite A. reflexivity. }
  unfold matter_qb64, matter_qb2, matter_infil, matter_binfil, matter_full_size. rewrite E. auto.
Qed.

(** C74: whatever the fields, binary that the encoder gives reads back, before any bytes, as the same code and raw *)
Lemma C74_binary_faithful_pf : forall (P : Profile) (m : matter) (b tail : bytes), bytes_ok (m_raw m) = true -> bytes_ok tail = true -> m_size m < 2 ^ 32 -> matter_qb2 m = Ok b ->
  exists m', parse_binary (b ++ tail) = Ok m' /\ m_code m' = m_code m /\ m_raw m' = m_raw m /\ (In (m_code m) variable_codes -> m' = m) /\ (In (m_code m) (map fst fixed_codes) -> m_size m' = 0).
Proof.
  intros P [c size raw] b tail B Bt S32 Q. cbn [m_raw m_size m_code] in *. destruct (get_sizage c) as [z| |] eqn:Hz; [|unfold matter_qb2, matter_binfil in Q; cbn [m_code] in Q; rewrite Hz in Q; discriminate Q..].
  assert (T : table_code c) by (apply table_code_sizage; eauto). pose proof (get_sizage_zfacts _ _ Hz) as Z.
  destruct T as [T|T].
  - apply in_map_iff in T as [[c' [n f]] [E I]]. cbn in E. subst c'. destruct (fixed_pad _ _ _ _ I Hz) as (V & _). destruct (C74_fixed_binary_pf P c raw n f size I B) as (Bad & _ & _). destruct (N.eq_dec (len raw) n) as [L|L]; [|rewrite (Bad L) in Q; discriminate Q].
    pose proof (fixed_wf _ _ _ _ _ I Hz B L) as W. exists (Mat c 0 raw). cbn [m_code m_raw m_size].
    assert (b = bin_of z (Mat c 0 raw)). { pose proof (binfil_wf z _ W) as X. unfold matter_qb2 in Q. rewrite (binfil_size c z size 0) in Q by (try exact (proj1 (proj2 (proj2 (fixed_pad _ _ _ _ I Hz)))); assumption). rewrite X in Q. apply Ok_inj in Q. auto. }
    subst b. split; [apply bexfil_bin; assumption|]. repeat split. intros Iv. destruct (var_code_sizage _ Iv) as (z' & Hz' & V'). congruence.
  - destruct (var_code_sizage _ T) as (z' & Hz' & V). rewrite Hz in Hz'. injection Hz' as <-. destruct (zf_var _ _ Z V) as [Hm [Hs [_ Ef]]].
    assert (Sz : size < 64 ^ ss z). { destruct (N.ltb_spec size (64 ^ ss z)) as [L|L]; [exact L|]. exfalso. unfold matter_qb2, matter_binfil in Q. cbn [m_code m_size] in Q. rewrite Hz in Q. cbn [obind] in Q. change (fs z =? u32_max) with (variable z) in Q. rewrite V in Q. change (hs z + ss z) with (cs_of z) in Q. rewrite Hm in Q. cbn [N.eqb negb] in Q. cbv iota in Q.
      rewrite pow64_32_ok in Q by (destruct Hs as [-> | ->]; vm_compute; reflexivity). cbn [obind] in Q. rewrite sub32_ok in Q by (destruct Hs as [-> | ->]; vm_compute; discriminate). cbn [obind] in Q.
      replace (64 ^ ss z - 1 <? size) with true in Q; [discriminate Q|]. symmetry. apply N.ltb_lt. destruct Hs as [E|E]; rewrite E in *; npow; lia. }
    assert (W : wf (Mat c size raw) z).
    { constructor; cbn; auto. unfold raw_len_ok. rewrite V. split; [exact Sz|]. unfold matter_qb2 in Q. rewrite (binfil_any _ z) in Q by auto. cbv zeta in Q.
      assert (Lb : len (bcode (both_of z (Mat c size raw))) = (cs_of z + 1) * 3 / 4). { rewrite len_bcode. unfold both_of, soft_of. cbn [m_code m_size]. rewrite len_app, len_map, len_digits, N2Nat.id, (zf_len _ _ Z). reflexivity. }
      rewrite !len_app, len_rep, Lb in Q. unfold full_of in Q. rewrite V in Q. destruct ((_ =? 0) && _)%bool eqn:E in Q; [|discriminate Q]. apply andb_true_iff in E as [E1 E2]. apply N.eqb_eq in E1, E2. destruct (cs_cases _ _ Z) as [X|[X|[X|X]]]; rewrite X in *; lia. }
    exists (Mat c size raw). cbn [m_code m_raw m_size]. unfold matter_qb2 in Q. rewrite (binfil_wf z _ W) in Q. apply Ok_inj in Q. subst b. split; [apply bexfil_bin; assumption|]. repeat split. intros If. apply in_map_iff in If as [[c' [n f]] [E I]]. cbn in E. subst c'. destruct (fixed_pad _ _ _ _ I Hz) as (V' & _). congruence.
Qed.
(** C74: but text that the encoder gives for too few raw bytes takes in the text that follows, and for too many leaves the rest *)
Lemma C74_text_rewrites_pf : forall (P : Profile) (code raw next t : bytes) (n f size : N), In (code, (n, f)) fixed_codes -> bytes_ok raw = true -> bytes_ok next = true -> len next mod 3 = 0 ->
  matter_qb64 (Mat code size raw) = Ok t ->
  (n <= len raw + len next -> parse_text (t ++ b64_of next) = Ok (Mat code 0 (take n (raw ++ next)))) /\
  (len raw + len next < n -> parse_text (t ++ b64_of next) = Err E_Shortage).
Proof.
  intros P code raw next t n f size I B Bn N3 Q. destruct (fixed_code_sizage _ _ _ I) as (z & Hz & _). destruct (fixed_pad _ _ _ _ I Hz) as (V & Ef & Es & Lc & El & Ep & En).
  pose proof (get_sizage_zfacts _ _ Hz) as Z. destruct (zf_fix _ _ Z V) as (_ & F4 & Fl & _ & Fs & Fe & Fm). pose proof (zf_cs3 _ _ Z) as C3.
  unfold matter_qb64 in Q. rewrite (infil_fixed _ z) in Q by auto. cbv zeta in Q. set (pad := pad_to_3 (len raw)) in *. destruct (N.eqb_spec pad (cs_of z mod 4 + ls z)) as [Ee|Ee]; [|destruct (_ && _)%bool in Q; discriminate Q]. apply Ok_inj in Q. subst t.
  assert (Bz : forall k, bytes_ok (rep 0 k) = true) by (intros k; apply forallb_rep; reflexivity).
  assert (M3 : len (rep 0 pad ++ raw) mod 3 = 0) by (rewrite len_app, len_rep; unfold pad, pad_to_3; lia).
  assert (Cs4 : cs_of z mod 4 <= len (b64_encode (rep 0 pad ++ raw))). { rewrite len_b64_encode, len_app, len_rep in *. lia. }
  assert (J : (code ++ drop (cs_of z mod 4) (b64_encode (rep 0 pad ++ raw))) ++ b64_of next = code ++ drop (cs_of z mod 4) (b64_encode (rep 0 pad ++ raw ++ next))).
  { assert (Bo : bytes_ok (rep 0 pad ++ raw) = true) by (rewrite bytes_ok_app, Bz, B; reflexivity).
    rewrite <- app_assoc. f_equal. rewrite (app_assoc (rep 0 pad) raw next), (b64_encode_app (rep 0 pad ++ raw)) by exact M3. rewrite (b64_of_encode next) by auto. rewrite drop_le by exact Cs4. reflexivity. }
  rewrite J. split; intros L.
  - set (m := Mat code 0 (take n (raw ++ next))). assert (W : wf m z). { apply (fixed_wf code n f); auto; [unfold bytes_ok; apply forallb_take; fold (bytes_ok (raw ++ next)); rewrite bytes_ok_app, B, Bn; reflexivity|rewrite len_take, len_app; lia]. }
    assert (X : code ++ drop (cs_of z mod 4) (b64_encode (rep 0 pad ++ raw ++ next)) = text_of z m ++ b64_encode (drop n (raw ++ next))).
    { unfold text_of, both_of, soft_of. cbn [m m_code m_size m_raw]. rewrite Es. change (digits 64 (N.to_nat 0) 0) with (@nil N). cbn [map]. rewrite app_nil_r, <- Ee, <- app_assoc. f_equal.
      rewrite <- (take_drop_id n (raw ++ next)) at 1. rewrite (app_assoc (rep 0 pad)).
      assert (Lt : len (rep 0 pad ++ take n (raw ++ next)) mod 3 = 0). { rewrite len_app, len_rep, len_take, len_app, Ee, <- Ep. unfold pad_to_3. lia. }
      rewrite b64_encode_app by exact Lt. rewrite drop_le; [reflexivity|]. rewrite len_b64_encode. rewrite len_app, len_rep in *. lia. }
    rewrite X. apply exfil_text; [exact W|]. apply utf8_ascii, b64_encode_ascii. apply bytes_ok_drop. rewrite bytes_ok_app, B, Bn. reflexivity.
  - set (T := b64_encode (rep 0 pad ++ raw ++ next)). destruct (zf_first _ _ Z) as (ch & r & i & Ec & Hh & _ & _).
    assert (LT : len (code ++ drop (cs_of z mod 4) T) < f).
    { assert (A3 : (pad + (len raw + len next)) mod 3 = 0) by (rewrite len_app, len_rep in M3; clear - M3 N3; lia). unfold T. rewrite len_app, len_drop, len_b64_encode, !len_app, len_rep, Lc. rewrite Ef in *.
      set (q := (pad + (len raw + len next)) / 3). assert (Eq : pad + (len raw + len next) = 3 * q) by (unfold q; clear - A3; lia). rewrite Eq. replace ((3 * q + 2) / 3 * 4) with (4 * q) by (clear; lia).
      assert (n + ls z = (f - cs_of z) * 3 / 4) by (clear - En Fs; lia). clear - Ee Fe Fl L Eq H. set (k := cs_of z mod 4) in *. clearbody k. lia. }
    change (parse_text (code ++ drop (cs_of z mod 4) T)) with (matter_exfil (code ++ drop (cs_of z mod 4) T)). rewrite (exfil_code _ code z Hz) by (eexists; reflexivity).
    assert (At : ascii_ok (code ++ drop (cs_of z mod 4) T) = true). { unfold ascii_ok. rewrite forallb_app. apply andb_true_iff. split; [apply all_b64_ascii, (zf_b64 _ _ Z)|]. apply forallb_drop. apply b64_encode_ascii. rewrite !bytes_ok_app, Bz, B, Bn. reflexivity. }
    rewrite boundary_ascii by (auto; rewrite len_app, (zf_len _ _ Z); lia). unfold rest, body. rewrite V, Ef. replace (len (code ++ drop (cs_of z mod 4) T) <? f) with true by lia. reflexivity.
Qed.
(** C74: and text of a variable size primitive is read by its size, whatever raw bytes it was made from *)
Lemma C74_variable_rewrites_pf : forall (P : Profile) (code raw next t : bytes) (lead type w size : N), lead <= 2 -> In type var_types ->
  (code = small_var_code lead type /\ w = 2 \/ code = large_var_code lead type /\ w = 4) -> bytes_ok raw = true -> bytes_ok next = true -> len next mod 3 = 0 ->
  matter_qb64 (Mat code size raw) = Ok t ->
  (0 < size \/ lead = 0 -> 3 * size <= lead + len raw + len next -> parse_text (t ++ b64_of next) = Ok (Mat code size (take (3 * size - lead) (raw ++ next)))) /\
  (lead + len raw + len next < 3 * size -> parse_text (t ++ b64_of next) = Err E_Shortage) /\
  (size = 0 -> 0 < lead -> parse_text (t ++ b64_of next) = Panic).
Proof.
  intros P code raw next t lead type w size Hl Ht Hc B Bn N3 Q. destruct (var_pad _ _ _ _ Hl Ht Hc) as (z & Hz & V & El & Es & Ec & Lc). pose proof (get_sizage_zfacts _ _ Hz) as Z. destruct (zf_var _ _ Z V) as [Hm [Hs _]].
  assert (Hw : w = 2 \/ w = 4) by (rewrite <- Es; exact Hs).
  unfold matter_qb64 in Q. rewrite (infil_var _ z) in Q by auto. rewrite Es, El in Q. destruct (N.leb_spec (64 ^ w) size) as [G|Sz]; [discriminate Q|]. destruct (N.eqb_spec (pad_to_3 (len raw)) lead) as [Ep|Ep]; [|discriminate Q]. apply Ok_inj in Q. subst t.
  assert (Bz : forall k, bytes_ok (rep 0 k) = true) by (intros k; apply forallb_rep; reflexivity).
  assert (M3 : len (rep 0 lead ++ raw) mod 3 = 0) by (rewrite len_app, len_rep, <- Ep; unfold pad_to_3; lia).
  assert (J : (code ++ soft_of z size ++ b64_encode (rep 0 lead ++ raw)) ++ b64_of next = code ++ soft_of z size ++ b64_encode (rep 0 lead ++ raw ++ next)).
  { rewrite <- !app_assoc. do 2 f_equal. rewrite (app_assoc (rep 0 lead) raw next), (b64_encode_app (rep 0 lead ++ raw)) by exact M3. rewrite (b64_of_encode next) by auto. reflexivity. }
  rewrite J. clear J. set (T := b64_encode (rep 0 lead ++ raw ++ next)).
  assert (AT : ascii_ok T = true) by (apply b64_encode_ascii; rewrite !bytes_ok_app, Bz, B, Bn; reflexivity).
  assert (A3 : (lead + (len raw + len next)) mod 3 = 0) by (rewrite len_app, len_rep in M3; clear - M3 N3; lia).
  assert (Ls : len (soft_of z size) = w) by (unfold soft_of; rewrite len_map, len_digits, Es; lia).
  split; [|split].
  - intros H0 L. set (m := Mat code size (take (3 * size - lead) (raw ++ next))). assert (W : wf m z).
    { constructor; cbn; auto; [apply bytes_ok_take; rewrite bytes_ok_app, B, Bn; reflexivity|]. unfold raw_len_ok. rewrite V, Es, El. cbn [m m_raw]. split; [exact Sz|]. rewrite len_take, len_app. clear - L H0 Hl. lia. }
    assert (X : code ++ soft_of z size ++ T = text_of z m ++ b64_encode (drop (3 * size - lead) (raw ++ next))).
    { unfold text_of, both_of, T. cbn [m m_code m_size m_raw]. rewrite Hm, El, N.add_0_l, drop_0, <- !app_assoc. do 2 f_equal. rewrite <- (take_drop_id (3 * size - lead) (raw ++ next)) at 1. rewrite (app_assoc (rep 0 lead)). apply b64_encode_app. rewrite len_app, len_rep, len_take, len_app. clear - L H0 Hl. lia. }
    rewrite X. apply exfil_text; [exact W|]. apply utf8_ascii, b64_encode_ascii. apply bytes_ok_drop. rewrite bytes_ok_app, B, Bn. reflexivity.
  - intros L. assert (Asoft : all_b64 (soft_of z size) = true) by (unfold soft_of; apply all_b64_chr, digits_lt; lia).
    assert (At : ascii_ok (code ++ soft_of z size ++ T) = true). { unfold ascii_ok. rewrite !forallb_app. apply andb_true_iff. split; [apply all_b64_ascii, (zf_b64 _ _ Z)|]. apply andb_true_iff. split; [apply all_b64_ascii; exact Asoft|exact AT]. }
    assert (Lw : len (code ++ soft_of z size ++ T) = 2 * w + len T) by (rewrite !len_app, Lc, Ls; lia).
    change (parse_text (code ++ soft_of z size ++ T)) with (matter_exfil (code ++ soft_of z size ++ T)). rewrite (exfil_code _ code z Hz) by (eexists; reflexivity).
    rewrite boundary_ascii by (auto; rewrite <- (zf_len _ _ Z), Lw; lia). unfold rest. rewrite V, Ec. replace (len (code ++ soft_of z size ++ T) <? 2 * w) with false by lia. rewrite boundary_ascii by (auto; lia).
    assert (Tk : take (ss z) (drop (hs z) (code ++ soft_of z size ++ T)) = soft_of z size) by (rewrite drop_app_exact by (rewrite <- (zf_len _ _ Z); reflexivity); apply take_app_exact; lia).
    destruct (soft_take (code ++ soft_of z size ++ T) z size ltac:(rewrite Es; exact Sz) Tk) as [A Vv]. rewrite A, Vv. cbv zeta. unfold body.
    replace (len (code ++ soft_of z size ++ T) <? size * 4 + 2 * w) with true; [reflexivity|]. symmetry. apply N.ltb_lt. rewrite Lw. unfold T. rewrite len_b64_encode, !len_app, len_rep. clear - A3 L. lia.
  - intros -> Hp. change (parse_text (code ++ soft_of z 0 ++ T)) with (matter_exfil (code ++ soft_of z 0 ++ T)). rewrite app_assoc, soft_zero. apply exfil_zero_head; [|apply utf8_ascii; exact AT]. apply zero_head_ok; auto. lia.
Qed.
(** a key assembled with five raw bytes takes in the text that follows; its binary is refused; with lead bytes the encoder underflows *)
Lemma C74_ex_pf : In (s2b "D", (32, 44)) fixed_codes /\ In (s2b "3AAA", (1, 8)) fixed_codes /\
  matter_qb64 (H := true) (Mat (s2b "D") 0 [1; 2; 3; 4; 5]) = Ok (s2b "DAECAwQF") /\ matter_qb2 (H := true) (Mat (s2b "D") 0 [1; 2; 3; 4; 5]) = Err E_InvalidCodeSize /\
  parse_text (P := true) (s2b "DAECAwQF" ++ b64_of (rep 9 27)) = Ok (Mat (s2b "D") 0 ([1; 2; 3; 4; 5] ++ rep 9 27)) /\
  matter_qb64 (H := true) (Mat (s2b "3AAA") 0 []) = Panic /\ matter_qb64 (H := false) (Mat (s2b "3AAA") 0 []) = Err E_InvalidCodeSize /\
  matter_qb64 (H := true) (Mat (s2b "4B") 2 [1; 2; 3]) = Ok (s2b "4BACAQID") /\ matter_full_size (H := true) (Mat (s2b "4B") (2 ^ 30) []) = Panic.
Proof. repeat split; vm_compute; try reflexivity; repeat (first [left; reflexivity | right]). Qed.

(** C74: an indexed signature with any fields that fit: both encoders check the number of raw bytes exactly, and the text reads back as what it shows; the text for
    a current-only code with another index than zero is made but refused by the reader *)
Lemma C74_indexed_pf : forall (P : Profile) (x : indexer) (s : sig_info), In (x_code x, s) sig_codes -> bytes_ok (x_raw x) = true ->
  x_index x < 64 ^ sig_index s -> (sig_ondex s = 0 \/ x_ondex x < 64 ^ sig_ondex s) ->
  (len (x_raw x) <> sig_raw s -> indexer_qb64 x = Err E_InvalidCodeSize /\ indexer_qb2 x = if (sig_index s + sig_ondex s =? 6) && overflow_checks then Panic else Err E_InvalidCodeSize) /\
  (len (x_raw x) = sig_raw s -> exists t, indexer_qb64 x = Ok t /\ len t = sig_full s /\ forall tail, utf8_valid tail = true ->
     sig_parse_text (t ++ tail) = if sig_current s && negb (sig_ondex s =? 0) && negb (x_ondex x =? 0) then Err E_Value else Ok (Idx (x_code x) (x_raw x) (x_index x) (shown_ondex s (x_index x) (x_ondex x)))).
Proof.
  intros P x s Hin B Hi Hx. destruct (sig_sizage _ _ Hin) as [z [Hz [Hh [Hm [Ho [Hf [Hl [Hc [Hcur [Hboth [V [Hr Hfu]]]]]]]]]]]]. pose proof (isizage_facts _ _ Hz) as Z. pose proof (iz_ms _ _ Z) as Hms. pose proof (iz_os _ _ Z) as Hos. pose proof (iz_ss _ _ Z) as Hss. pose proof (iz_cs _ _ Z) as Hcs.
  rewrite <- Hm in Hi. rewrite <- Ho in Hx. pose proof (len_iboth _ _ Hz) as Hlb. destruct (iz_fix _ _ Z V) as (Hf1 & Hf2 & Hf3).
  assert (Hrz : sig_raw s = (i_fs z - ics z) * 3 / 4). { rewrite <- (Hr 0). unfold rize_of, ifull. rewrite V. reflexivity. }
  split.
  - intros Ne. assert (Ne' : len (x_raw x) <> (i_fs z - ics z) * 3 / 4) by congruence. split.
    + unfold indexer_qb64, indexer_infil. rewrite Hz. cbn [obind]. change (i_hs z + i_ss z) with (ics z). change (i_ss z - i_os z) with (ims z).
      rewrite (i_full_ok _ _ _ _ Hz Hi). cbn [obind]. rewrite pow_lim_ok by lia. cbn [obind]. replace (64 ^ ims z - 1 <? x_index x) with false by lia. rewrite bad_ondex_ok by auto. cbn [obind].
      rewrite num64_small_ok by (auto; lia). cbn [obind]. rewrite num64_small_ok by (auto; lia). cbn [obind]. fold (iboth z x). rewrite Hlb, N.eqb_refl. cbn [negb]. rewrite Hl, sub32_ok by lia. cbn [obind]. rewrite N.sub_0_r.
      fold (pad_to_3 (len (x_raw x))). set (pad := pad_to_3 (len (x_raw x))). destruct (N.eqb_spec (ics z mod 4) pad) as [E|E]; [|reflexivity]. cbn [negb].
      assert (Bo : bytes_ok (rep 0 pad ++ x_raw x) = true) by (rewrite bytes_ok_app, B, andb_true_r; apply forallb_rep; reflexivity).
      rewrite str_slice_ascii; [|apply b64_encode_ascii; exact Bo|rewrite len_b64_encode, len_app, len_rep; unfold pad, pad_to_3 in *; lia|lia]. cbn [obind]. rewrite take_all by (rewrite len_drop; lia).
      rewrite len_app, Hlb, len_drop, len_b64_encode, len_app, len_rep. unfold ifull. rewrite V.
      match goal with |- (if negb (?a =? _) then _ else _) = _ => destruct (N.eqb_spec a (i_fs z)) as [E2|E2]; [|reflexivity] end. exfalso. apply Ne'. rewrite <- E2. unfold pad, pad_to_3 in *. destruct Hcs as [X|[X|[X|X]]]; rewrite X in *; clear - E E2 Hf1; lia.
    + unfold indexer_qb2, indexer_binfil. rewrite Hz. cbn [obind]. change (i_hs z + i_ss z) with (ics z). change (i_ss z - i_os z) with (ims z). replace (sig_index s + sig_ondex s) with (i_ss z) by lia.
      assert (Hs : (i_ss z = 6 /\ overflow_checks = true) \/ exists lim, pow_lim (i_ss z) = Ok lim /\ x_index x <= lim /\ ((i_ss z =? 6) && overflow_checks) = false).
      { destruct (N.eq_dec (i_ss z) 6) as [E|E].
        - destruct overflow_checks eqn:O; [left; auto|]. right. exists u32_max. rewrite E, pow_lim_6, O. split; auto. split; auto. destruct (pow64_3 (ims z)) as [Hp _]; [lia|]. unfold u32_max, U32. npow. lia.
        - right. exists (64 ^ i_ss z - 1). rewrite pow_lim_ok by lia. split; auto. split; [|replace (i_ss z =? 6) with false by lia; reflexivity].
          assert (64 ^ ims z <= 64 ^ i_ss z) by (apply N.pow_le_mono_r; lia). lia. }
      destruct Hs as [[E O]|[lim [Elim [Hlim Hff]]]]; [rewrite E, pow_lim_6, O; reflexivity|]. rewrite Elim, Hff. cbn [obind]. replace (lim <? x_index x) with false by lia.
      assert (Eb : (if i_os z =? 1 then olim <- pow_lim (i_os z) ;; Ok (olim <? x_ondex x) else Ok false) = Ok false).
      { destruct (N.eqb_spec (i_os z) 1) as [E1|E1]; [|reflexivity]. rewrite pow_lim_ok by lia. cbn [obind]. f_equal. destruct Hx; [lia|]. destruct (pow64_3 (i_os z)); lia. }
      rewrite Eb. cbn [obind]. rewrite (i_full_ok _ _ _ _ Hz Hi). cbn [obind]. rewrite num64_small_ok by (auto; lia). cbn [obind]. rewrite num64_small_ok by (auto; lia). cbn [obind].
      fold (iboth z x). rewrite Hlb, N.eqb_refl. cbn [negb]. rewrite Hl, sub32_ok by lia. cbn [obind]. rewrite N.sub_0_r. fold (pad_to_3 (len (x_raw x))). set (pad := pad_to_3 (len (x_raw x))). destruct (N.eqb_spec (ics z mod 4) pad) as [E|E]; [|reflexivity]. cbn [negb].
      assert (Hab : all_b64 (iboth z x) = true) by (apply all_b64_iboth; auto). assert (Hc8 : 1 <= ics z <= 8) by (destruct Hcs as [X|[X|[X|X]]]; rewrite X; clear; lia). destruct (code_full_ok (iboth z x) (ics z) Hab Hlb ltac:(lia) ltac:(lia)) as [full [Ef [Hlf Hdf]]].
      rewrite Ef. cbn [obind]. rewrite Hdf. change (rep 0 0 ++ x_raw x) with (x_raw x). rewrite len_app, len_bcode, Hlb. unfold ifull. rewrite V.
      match goal with |- (if ?b then _ else _) = _ => destruct b eqn:Eo; [reflexivity|] end. apply orb_false_iff in Eo as [E1 E2]. apply negb_false_iff, N.eqb_eq in E1, E2. exfalso. apply Ne'. unfold pad, pad_to_3 in *. destruct Hcs as [X|[X|[X|X]]]; rewrite X in *; clear - E E1 E2 Hf1; lia.
  - intros L. assert (W : iwf x z) by (constructor; auto; rewrite L, Hrz; unfold ifull; rewrite V; reflexivity). exists (itext z x). split; [apply i_infil_wf; exact W|]. split; [rewrite len_itext by exact W; apply Hfu|].
    intros tail Ht. unfold sig_parse_text, indexer_new, indexer_new_with_qb64. rewrite i_exfil_reads by auto. unfold read_ondex, shown_ondex. rewrite Hcur, Ho in *. destruct (sig_current s); destruct (N.eqb_spec (sig_ondex s) 0) as [E|E]; cbn [negb andb obind]; try reflexivity.
    + rewrite read_num64 by (first [lia | destruct Hx; [lia|auto]]). cbn [obind]. destruct (x_ondex x =? 0); reflexivity.
    + rewrite read_num64 by (first [lia | destruct Hx; [lia|auto]]). reflexivity.
Qed.
Lemma C74_indexed_ex_pf : forall P : Profile, let x := Idx (s2b "2B") (rep 7 64) 5 6 in let t := s2b "2BAFAG" ++ drop 2 (b64_of ([0; 0] ++ rep 7 64)) in
  In (x_code x, Sig true 2 2 64 92) sig_codes /\ indexer_qb64 x = Ok t /\ sig_parse_text t = Err E_Value.
Proof. intros P x t. split; [cbn; tauto|]. split; destruct P; vm_compute; reflexivity. Qed.

(** ** indices that do not fit their code *)
Lemma skip_digits_at fuel n l k : forall j, j <= k -> (N.to_nat (k - j) < fuel)%nat -> 1 <= l -> 64 ^ (l + k - 1) < n -> n <= 64 ^ (l + k) -> skip_digits fuel n l j = k.
Proof.
  induction fuel as [|f IH]; intros j Hj Hf Hl H1 H2; [lia|]. cbn [skip_digits]. destruct (N.eq_dec j k) as [->|Ne].
  - replace (n <=? 64 ^ (l + k)) with true by lia. reflexivity.
  - assert (64 ^ (l + j) <= 64 ^ (l + k - 1)) by (apply N.pow_le_mono_r; lia). replace (n <=? 64 ^ (l + j)) with false by lia. apply IH; auto; lia.
Qed.
Lemma u2b_skip k : forall f x out, 64 ^ N.of_nat k <= x -> u2b_loop (k + f) x (N.of_nat k) out = u2b_loop f (x / 64 ^ N.of_nat k) 0 out.
Proof.
  induction k as [|k IH]; intros f x out H.
  - cbn. rewrite N.div_1_r. reflexivity.
  - cbn [Nat.add u2b_loop]. assert (E : 64 ^ N.of_nat (S k) = 64 * 64 ^ N.of_nat k) by (rewrite Nat2N.inj_succ; apply N.pow_succ_r'). assert (0 < 64 ^ N.of_nat k) by (apply N.neq_0_lt_0, N.pow_nonzero; lia).
    replace (x =? 0) with false by lia. replace (N.of_nat (S k) =? 0) with false by lia. replace (N.of_nat (S k) - 1) with (N.of_nat k) by lia. rewrite IH by (apply N.div_le_lower_bound; lia). f_equal. rewrite E, N.div_div by lia. reflexivity.
Qed.
Lemma u2b_num fuel x l : x < 64 ^ l -> x < 64 ^ N.of_nat fuel -> (out <- u2b_loop fuel x 0 [] ;; Ok (rep 65 (l - len out) ++ out)) = Ok (num64 l x).
Proof.
  intros Hn Hb. destruct (u2b_loop_spec fuel x []) as [k [Hk [Ek [Hlt Hmin]]]]; [exact Hb|].
  rewrite Ek. cbn [obind]. rewrite app_nil_r. f_equal. unfold num64.
  assert (Hkl : (k <= N.to_nat l)%nat) by (apply Hmin; rewrite N2Nat.id; auto).
  replace (N.to_nat l) with ((N.to_nat l - k) + k)%nat at 1 by lia.
  rewrite digits_split by lia. rewrite map_app. f_equal.
  rewrite (N.div_small x) by auto. rewrite digits_0 by lia. rewrite len_map, len_digits.
  unfold rep. replace (N.to_nat (l - N.of_nat k)) with (N.to_nat l - k)%nat by lia.
  clear. induction (N.to_nat l - k)%nat; cbn; auto. f_equal; auto.
Qed.
Lemma u32_cut n l k : 1 <= l -> l + k <= 6 -> 64 ^ (l + k - 1) < n -> n < 64 ^ (l + k) -> u32_to_b64 n l = Ok (num64 l (n / 64 ^ k)).
Proof.
  intros Hl Hk H1 H2. assert (Hp : 64 ^ (l + k) = 64 ^ l * 64 ^ k) by apply N.pow_add_r. assert (Hq : 64 ^ k <= n). { assert (64 ^ k <= 64 ^ (l + k - 1)) by (apply N.pow_le_mono_r; lia). lia. }
  assert (P0 : 64 ^ k <> 0) by (apply N.pow_nonzero; lia).
  assert (Hd : n / 64 ^ k < 64 ^ l) by (apply N.div_lt_upper_bound; lia).
  unfold u32_to_b64. replace (l =? 0) with false by lia. rewrite (skip_digits_at 11 n l k 0) by lia.
  pose proof (u2b_skip (N.to_nat k) (11 - N.to_nat k) n []) as E. rewrite N2Nat.id in E. replace (N.to_nat k + (11 - N.to_nat k))%nat with 11%nat in E by lia. rewrite E by exact Hq.
  apply u2b_num; [exact Hd|]. eapply N.lt_le_trans; [exact Hd|]. apply N.pow_le_mono_r; lia.
Qed.
(** C74: an index or ondex too large for its code is refused in text *)
Lemma C74_index_text_pf : forall (P : Profile) (x : indexer) (s : sig_info), In (x_code x, s) sig_codes ->
  64 ^ sig_index s <= x_index x \/ (0 < sig_ondex s /\ 64 ^ sig_ondex s <= x_ondex x) -> indexer_qb64 x = Err E_InvalidVarIndex.
Proof.
  intros P x s Hin Bad. destruct (sig_sizage _ _ Hin) as [z [Hz [Hh [Hm [Ho [Hf [Hl [Hc [Hcur [Hboth [V [Hr Hfu]]]]]]]]]]]]. pose proof (isizage_facts _ _ Hz) as Z. pose proof (iz_ms _ _ Z) as Hms. pose proof (iz_os _ _ Z) as Hos.
  rewrite <- Hm, <- Ho in Bad. unfold indexer_qb64, indexer_infil. rewrite Hz. cbn [obind]. change (i_ss z - i_os z) with (ims z).
  assert (Ef : i_full z (x_index x) E_InvalidCodeSize = Ok (i_fs z)) by (unfold i_full; change (i_fs z =? u32_max) with (ivar z); rewrite V; reflexivity). rewrite Ef. cbn [obind]. rewrite pow_lim_ok by lia. cbn [obind].
  assert (0 < 64 ^ ims z) by (apply N.neq_0_lt_0, N.pow_nonzero; lia). destruct (N.ltb_spec (64 ^ ims z - 1) (x_index x)) as [G|G]; [reflexivity|]. destruct Bad as [Bad|[Bo Bad]]; [lia|].
  replace (0 <? i_os z) with true by lia. rewrite pow_lim_ok by lia. cbn [obind]. replace (64 ^ i_os z - 1 <? x_ondex x) with true; [reflexivity|]. assert (0 < 64 ^ i_os z) by (apply N.neq_0_lt_0, N.pow_nonzero; lia). lia.
Qed.
(** C74: but the binary encoder takes it and writes its leading digits only: the binary is that of another index *)
Lemma C74_index_binary_pf : forall (P : Profile) (x : indexer) (s : sig_info) (k : N), In (x_code x, s) sig_codes -> sig_ondex s <= 2 -> 0 < k <= sig_ondex s -> x_ondex x < 64 ^ sig_ondex s ->
  64 ^ (sig_index s + k - 1) < x_index x < 64 ^ (sig_index s + k) -> indexer_qb2 x = indexer_qb2 (Idx (x_code x) (x_raw x) (x_index x / 64 ^ k) (x_ondex x)).
Proof.
  intros P x s k Hin Hs2 Hk Hod Hi. destruct (sig_sizage _ _ Hin) as [z [Hz [Hh [Hm [Ho [Hf [Hl [Hc [Hcur [Hboth [V [Hr Hfu]]]]]]]]]]]]. pose proof (isizage_facts _ _ Hz) as Z. pose proof (iz_ms _ _ Z) as Hms. pose proof (iz_os _ _ Z) as Hos. pose proof (iz_ss _ _ Z) as Hss. pose proof (iz_cs _ _ Z) as Hcs.
  rewrite <- Hm in *. rewrite <- Ho in *.
  unfold indexer_qb2, indexer_binfil. cbn [x_code x_raw x_index x_ondex]. rewrite Hz. cbn [obind]. change (i_ss z - i_os z) with (ims z).
  assert (P0 : 64 ^ k <> 0) by (apply N.pow_nonzero; lia). assert (Hp : 64 ^ (ims z + k) = 64 ^ ims z * 64 ^ k) by apply N.pow_add_r.
  assert (Hd : x_index x / 64 ^ k < 64 ^ ims z) by (apply N.div_lt_upper_bound; lia).
  assert (64 ^ (ims z + k) <= 64 ^ i_ss z) by (apply N.pow_le_mono_r; lia). assert (64 ^ ims z <= 64 ^ i_ss z) by (apply N.pow_le_mono_r; lia).
  rewrite pow_lim_ok by lia. cbn [obind]. replace (64 ^ i_ss z - 1 <? x_index x) with false by lia. replace (64 ^ i_ss z - 1 <? x_index x / 64 ^ k) with false by lia.
  assert (Ef : forall i, i_full z i E_InvalidCodeSize = Ok (i_fs z)) by (intros i; unfold i_full; change (i_fs z =? u32_max) with (ivar z); rewrite V; reflexivity). rewrite !Ef. cbn [obind].
  rewrite (u32_cut (x_index x) (ims z) k) by lia. rewrite (num64_small_ok (ims z)) by (auto; lia). reflexivity.
Qed.
(** C74: the same for the second index of the big codes, which the binary encoder does not check at all *)
Lemma C74_ondex_binary_pf : forall (P : Profile) (x : indexer) (s : sig_info) (k : N), In (x_code x, s) sig_codes -> sig_ondex s = 2 -> 0 < k <= 2 -> x_index x < 64 ^ sig_index s ->
  64 ^ (sig_ondex s + k - 1) < x_ondex x < 64 ^ (sig_ondex s + k) -> indexer_qb2 x = indexer_qb2 (Idx (x_code x) (x_raw x) (x_index x) (x_ondex x / 64 ^ k)).
Proof.
  intros P x s k Hin Hs2 Hk Hid Hi. destruct (sig_sizage _ _ Hin) as [z [Hz [Hh [Hm [Ho [Hf [Hl [Hc [Hcur [Hboth [V [Hr Hfu]]]]]]]]]]]]. pose proof (isizage_facts _ _ Hz) as Z. pose proof (iz_ms _ _ Z) as Hms. pose proof (iz_os _ _ Z) as Hos. pose proof (iz_ss _ _ Z) as Hss.
  rewrite <- Hm in *. rewrite <- Ho in *. unfold indexer_qb2, indexer_binfil. cbn [x_code x_raw x_index x_ondex]. rewrite Hz. cbn [obind]. change (i_ss z - i_os z) with (ims z). replace (i_os z =? 1) with false by lia.
  assert (Hp : 64 ^ (i_os z + k) = 64 ^ i_os z * 64 ^ k) by apply N.pow_add_r. assert (P0 : 64 ^ k <> 0) by (apply N.pow_nonzero; lia).
  assert (Hd : x_ondex x / 64 ^ k < 64 ^ i_os z) by (apply N.div_lt_upper_bound; lia).
  rewrite (u32_cut (x_ondex x) (i_os z) k) by lia. rewrite (num64_small_ok (i_os z) (x_ondex x / 64 ^ k)) by (auto; lia). reflexivity.
Qed.
(** a signature assembled with index 4100 has the binary of index 64, whose reader sees 64 *)
Lemma C74_index_ex_pf : forall P : Profile, let x := Idx (s2b "2A") (rep 7 64) 4100 5000 in In (x_code x, Sig false 2 2 64 92) sig_codes /\
  indexer_qb64 x = Err E_InvalidVarIndex /\ exists b, indexer_qb2 x = Ok b /\ sig_parse_binary b = Ok (Idx (s2b "2A") (rep 7 64) 64 78).
Proof. intros P x. split; [cbn; tauto|]. split; [destruct P; vm_compute; reflexivity|]. exists ([216; 0; 64; 4; 224] ++ rep 7 64). split; destruct P; vm_compute; reflexivity. Qed.
