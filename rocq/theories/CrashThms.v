(** Property C66: which inputs make the composite types panic. *)
From Verif Require Import Base Utf8 MatterTables Matter IndexerTables Indexer StdStr Data Json Spec MatterDefs IndexerDefs Crypto Prims PrimsDefs Signer SignerDefs DataDefs Common CommonDefs Saider SaiderDefs Tholder TholderDefs Sadder SadderDefs Pather PatherDefs CrashDefs.
From Verif Require Import BaseFacts B64 B64Facts UtilFacts MatterFacts MatterFacts2 MatterFacts3 SpecFacts MatterFacts4 StdStrFacts MatterThms PrimsFacts PrimsFacts2 PrimsThms SignerToy SignerThms DataFacts JsonFacts ImportFacts CommonFacts CommonFacts2 CommonThms DataThms SaiderFacts SaiderFacts2 SaiderThms TholderFacts TholderFacts2 TholderFacts3 TholderFacts4 TholderFacts5 TholderFacts6 TholderFacts7 TholderThms SadderFacts SadderFacts2 SadderThms PatherFacts PatherFacts2 PatherThms Prefixer PrefixerDefs PrefixerFacts AccessThms.

Lemma bind_np {A B} (x : outcome A) (f : A -> outcome B) : x <> Panic -> (forall a, x = Ok a -> f a <> Panic) -> obind x f <> Panic.
Proof. intros H G E. apply bind_panic in E as [E|(a & E & E')]; [auto|]. exact (G a E E'). Qed.
Lemma validate_np codes c : validate codes c <> Panic.
Proof. unfold validate. destruct (mem_code c codes); intros E; discriminate E. Qed.
Lemma each_np {A B} (f : A -> outcome B) l : (forall x, In x l -> f x <> Panic) -> each f l <> Panic.
Proof.
  induction l as [|x l IH]; intros H; cbn [each]; [intros E; discriminate E|]. apply bind_np; [apply H; left; reflexivity|]. intros a _. apply bind_np; [apply IH; intros; apply H; right; auto|]. intros b _ E. discriminate E.
Qed.

Section S.
Context `{P : Profile}.
Lemma add_pad n : exists t, add32 (as_u32 n) ((3 - as_u32 n mod 3) mod 3) = Ok t /\ t = as_u32 n + (3 - as_u32 n mod 3) mod 3.
Proof.
  unfold add32. set (r := as_u32 n). assert (Hr : r < U32) by (apply N.mod_lt; discriminate).
  assert (X : r + (3 - r mod 3) mod 3 < U32). { pose proof (N.div_mod r 3 ltac:(discriminate)) as D. pose proof (N.mod_lt r 3 ltac:(discriminate)) as M. change U32 with 4294967296 in *. assert (r mod 3 = 0 \/ r mod 3 = 1 \/ r mod 3 = 2) as [Q|[Q|Q]] by Lia.lia; rewrite Q in *; [change ((3 - 0) mod 3) with 0|change ((3 - 1) mod 3) with 2|change ((3 - 2) mod 3) with 1]; Lia.lia. }
  apply N.ltb_lt in X. rewrite X. eauto.
Qed.
Lemma index_3 (tab : list N) l : len tab = 3 -> exists s, index_at tab (l mod 3) = Ok s.
Proof.
  intros Lt. pose proof (N.mod_lt l 3 ltac:(discriminate)) as Ll. unfold index_at. destruct (nth_error tab (N.to_nat (l mod 3))) eqn:E; [eauto|]. apply nth_error_None in E. unfold len in Lt. Lia.lia.
Qed.
(** how many groups of three bytes, as the code counts them *)
Lemma build_panics c r raw : build (c :: r) raw = Panic <->
  (as_u32 (len raw) + 2) / 3 < 64 ^ 4 /\ (In c (s2b "456") /\ str_slice (c :: r) 1 2 = Panic \/ In c (s2b "789") /\ str_slice (c :: r) 1 4 = Panic).
Proof.
  change (build (c :: r) raw) with (matter_new_with_code_and_raw (c :: r) raw). unfold matter_new_with_code_and_raw. cbv zeta. destruct (add_pad (len raw)) as (t & Et & Ev). destruct (index_3 small_vrz (3 - as_u32 (len raw) mod 3) eq_refl) as (ssm & Es). destruct (index_3 large_vrz (3 - as_u32 (len raw) mod 3) eq_refl) as (slg & El).
  assert (Q : t / 3 = (as_u32 (len raw) + 2) / 3). { rewrite Ev. set (n := as_u32 (len raw)). pose proof (N.div_mod n 3 ltac:(discriminate)) as D. pose proof (N.mod_lt n 3 ltac:(discriminate)) as M. assert (n mod 3 = 0 \/ n mod 3 = 1 \/ n mod 3 = 2) as [Z|[Z|Z]] by Lia.lia; rewrite Z in *; [change ((3 - 0) mod 3) with 0|change ((3 - 1) mod 3) with 2|change ((3 - 2) mod 3) with 1]; rewrite D; set (k := n / 3); [replace (3 * k + 0 + 0) with (0 + k * 3) by Lia.lia; replace (3 * k + 0 + 2) with (2 + k * 3) by Lia.lia|replace (3 * k + 1 + 2) with (0 + (k + 1) * 3) by Lia.lia|replace (3 * k + 2 + 1) with (0 + (k + 1) * 3) by Lia.lia; replace (3 * k + 2 + 2) with (1 + (k + 1) * 3) by Lia.lia]; rewrite ?N.div_add by discriminate; reflexivity. }
  rewrite <- Q. clear Q Ev.
  assert (Sm : existsb (N.eqb c) small_vrz = true <-> In c (s2b "456")). { rewrite existsb_exists. split; [intros (x & I & E); apply N.eqb_eq in E; subst; exact I|intros I; exists c; split; [exact I|apply N.eqb_refl]]. }
  assert (Lg : existsb (N.eqb c) large_vrz = true <-> In c (s2b "789")). { rewrite existsb_exists. split; [intros (x & I & E); apply N.eqb_eq in E; subst; exact I|intros I; exists c; split; [exact I|apply N.eqb_refl]]. }
  destruct (existsb (N.eqb c) small_vrz) eqn:E1.
  - pose proof (proj1 Sm eq_refl) as I1. assert (N2 : ~ In c (s2b "789")) by (intros J; vm_compute in I1, J; intuition (subst; discriminate)). cbn [orb]. rewrite Et. cbn [obind].
    destruct (t / 3 <? 64 ^ 2) eqn:L2.
    + apply N.ltb_lt in L2. assert (t / 3 < 64 ^ 4) by (eapply N.lt_trans; [exact L2|vm_compute; reflexivity]). destruct (str_slice (c :: r) 1 2) as [sfx|e|] eqn:S; cbn [obind]; rewrite ?Es; cbn [obind].
      * split; [destruct (len raw <? _); intros Z; discriminate Z|]. intros (_ & [[_ Z]|[Z _]]); [discriminate Z|contradiction].
      * split; [intros Z; discriminate Z|]. intros (_ & [[_ Z]|[Z _]]); [discriminate Z|contradiction].
      * tauto.
    + destruct (t / 3 <? 64 ^ 4) eqn:L4.
      * apply N.ltb_lt in L4. destruct (str_slice (c :: r) 1 2) as [sfx|e|] eqn:S; cbn [obind]; rewrite ?El; cbn [obind].
        -- split; [destruct (len raw <? _); intros Z; discriminate Z|]. intros (_ & [[_ Z]|[Z _]]); [discriminate Z|contradiction].
        -- split; [intros Z; discriminate Z|]. intros (_ & [[_ Z]|[Z _]]); [discriminate Z|contradiction].
        -- tauto.
      * apply N.ltb_ge in L4. split; [intros Z; discriminate Z|]. intros [Z _]. exfalso. apply (N.lt_irrefl (t / 3)). eapply N.lt_le_trans; eauto.
  - assert (N1 : ~ In c (s2b "456")) by (intros J; apply Sm in J; discriminate J). cbn [orb]. destruct (existsb (N.eqb c) large_vrz) eqn:E2.
    + pose proof (proj1 Lg eq_refl) as I2. rewrite Et. cbn [obind]. destruct (t / 3 <? 64 ^ 4) eqn:L4.
      * apply N.ltb_lt in L4. destruct (str_slice (c :: r) 1 4) as [sfx|e|] eqn:S; cbn [obind]; rewrite ?El; cbn [obind].
        -- split; [destruct (len raw <? _); intros Z; discriminate Z|]. intros (_ & [[Z _]|[_ Z]]); [contradiction|discriminate Z].
        -- split; [intros Z; discriminate Z|]. intros (_ & [[Z _]|[_ Z]]); [contradiction|discriminate Z].
        -- tauto.
      * apply N.ltb_ge in L4. split; [intros Z; discriminate Z|]. intros [Z _]. exfalso. apply (N.lt_irrefl (t / 3)). eapply N.lt_le_trans; eauto.
    + assert (N2 : ~ In c (s2b "789")) by (intros J; apply Lg in J; discriminate J). split; [|tauto]. intros E. exfalso. revert E. apply bind_np; [|intros [[c' size] rize] _; destruct (len raw <? rize); intros Z; discriminate Z].
      apply bind_np; [|intros n _ Z; discriminate Z]. unfold raw_size. apply bind_np; [apply get_sizage_not_panic|]. intros z _. destruct (fs z =? u32_max); intros Z; discriminate Z.
Qed.
Lemma slice_panics s a b : a <= b -> a <> 0 -> str_slice s a b = Panic <-> len s < b \/ inside s a \/ inside s b.
Proof.
  intros L Na. assert (Bd : forall i, i <> 0 -> boundary s i = false <-> len s < i \/ inside s i).
  { intros i Ni. unfold boundary, inside. destruct (nth_error s (N.to_nat i)) as [x|] eqn:E.
    - assert (Li : i < len s). { assert (N.to_nat i < length s)%nat by (apply nth_error_Some; congruence). unfold len. Lia.lia. } apply N.eqb_neq in Ni. rewrite Ni. cbn [orb]. rewrite negb_false_iff. unfold is_cont. rewrite andb_true_iff, N.leb_le, N.ltb_lt. split; [intros H; right; eauto|]. intros [H|(y & H & K)]; [Lia.lia|]. injection H as <-. exact K.
    - apply nth_error_None in E. rewrite N.eqb_neq. unfold len. split; [intros H; left; Lia.lia|]. intros [H|(y & H & _)]; [Lia.lia|discriminate H]. }
  unfold str_slice. apply N.leb_le in L as L'. rewrite L'. cbn [andb]. destruct (boundary s a) eqn:Ba; cbn [andb].
  - destruct (boundary s b) eqn:Bb.
    + split; [intros Z; discriminate Z|]. intros [H|[H|H]]; [|assert (boundary s a = false) by (apply Bd; auto)|assert (boundary s b = false) by (apply Bd; [Lia.lia|auto])]; try congruence. assert (boundary s b = false) by (apply Bd; [Lia.lia|auto]). congruence.
    + split; [|reflexivity]. intros _. apply Bd in Bb; [|Lia.lia]. tauto.
  - split; [|reflexivity]. intros _. apply Bd in Ba; [|exact Na]. destruct Ba; [left; Lia.lia|tauto].
Qed.
End S.

Lemma fixed_of c : existsb (fun x => bytes_eqb c (fst x)) fixed_codes = true -> exists n f, In (c, (n, f)) fixed_codes.
Proof. intros H. apply existsb_exists in H as ([c' [n f]] & I & E). apply bytes_eqb_eq in E. cbn [fst] in E. subst. eauto. Qed.
(** C66: building from a code and raw bytes panics exactly when the code starts like a variable
    size code but is too short for one (or a character lies across the place where it is cut),
    unless the raw bytes are too long for that anyway *)
Lemma C66_build_pf : forall (P : Profile) (code raw : bytes),
  build code raw = Panic <->
  (len raw mod 2 ^ 32 + 2) / 3 < 64 ^ 4 /\ exists c r, code = c :: r /\
   (In c (s2b "456") /\ (len code < 2 \/ inside code 1 \/ inside code 2) \/ In c (s2b "789") /\ (len code < 4 \/ inside code 1 \/ inside code 4)).
Proof.
  intros P code raw. destruct code as [|c r]; [split; [intros Z; discriminate Z|intros (_ & c & r & Z & _); discriminate Z]|]. rewrite build_panics. rewrite !slice_panics by Lia.lia. unfold as_u32. change U32 with (2 ^ 32). split.
  - intros [A B]. split; [exact A|]. exists c, r. auto.
  - intros [A (c' & r' & E & B)]. injection E as <- <-. auto.
Qed.
Lemma C66_build_ex_pf : forall P : Profile, build (s2b "7AA") [1] = Panic /\ build (s2b "4" ++ [195; 169]) [] = Panic /\ build (s2b "4B") [1] <> Panic.
Proof. intros P. repeat split; try (vm_compute; reflexivity). vm_compute. intros Z. discriminate Z. Qed.

(** C66: the constructors of keys, signatures, digests, numbers, dates and texts panic exactly
    when the general constructor does, and with a number or Base64 text they never do *)
Lemma C66_primitives_pf : forall (P : Profile) (C : Crypto) (verfer : option matter) (index ondex : option N) (code raw qb64b qb64 qb2 : option bytes) (n : N) (h t : bytes), hash_contract C ->
  (cigar_new verfer code raw qb64b qb64 qb2 = Panic <-> matter_new code raw qb64b qb64 qb2 = Panic) /\
  (siger_new verfer index ondex code raw qb64b qb64 qb2 = Panic <-> indexer_new index ondex code raw qb64b qb64 qb2 = Panic) /\
  (forall ser, diger_new ser code raw qb64b qb64 qb2 = Panic <-> matter_new code raw qb64b qb64 qb2 = Panic) /\
  (forall num numh, (raw, qb64b, qb64, qb2) <> (None, None, None, None) -> number_new num numh code raw qb64b qb64 qb2 = Panic <-> In (unwrap_or code (s2b "M")) (map fst number_widths) /\ matter_new (Some (unwrap_or code (s2b "M"))) raw qb64b qb64 qb2 = Panic) /\
  number_new (Some n) None code None None None None <> Panic /\ number_new None (Some h) code None None None None <> Panic /\
  seqner_of n <> Panic /\ seqner_of_hex h <> Panic /\
  bexter_of t <> Panic.
Proof.
  intros P C verfer index ondex code raw qb64b qb64 qb2 n h t HC.
  assert (Fx : forall c r, (exists n f, In (c, (n, f)) fixed_codes) \/ In c bexter_codes -> build c r <> Panic).
  { intros c r [(k & f & I)|I].
    - destruct (C10_raw_size_pf P c r k f I) as [A B]. intros E. destruct (N.lt_ge_cases (len r) k) as [L|L]; [rewrite (A L) in E; discriminate E|]. destruct (B L) as [B' _]. rewrite B' in E. discriminate E.
    - intros E. apply C66_build_pf in E as (_ & c' & r' & -> & E). vm_compute in I. assert (X : forall k, len (c' :: r') = k -> (forall x, In x (c' :: r') -> x < 128) -> (forall i, ~ inside (c' :: r') i)). { intros k _ As i (x & Hx & Hb). apply nth_error_In in Hx. specialize (As x Hx). Lia.lia. }
      repeat (destruct I as [I|I]; [injection I as <- <-; specialize (X _ eq_refl ltac:(intros x Hx; repeat (destruct Hx as [<-|Hx]; [reflexivity|]); destruct Hx)); destruct E as [[I1 [E|[E|E]]]|[I1 [E|[E|E]]]]; try (apply X in E; exact E); vm_compute in I1, E; try discriminate E; intuition discriminate|]). exact I. }
  split; [|split; [|split; [|split; [|split; [|split; [|split; [|split]]]]]]].
  - unfold cigar_new. destruct (matter_new code raw qb64b qb64 qb2) as [m|e|]; cbn [obind]; [|split; intros Z; discriminate Z|split; reflexivity]. split; [|intros Z; discriminate Z]. intros E. exfalso. revert E. apply bind_np; [apply validate_np|intros u _ Z; discriminate Z].
  - unfold siger_new. destruct (indexer_new index ondex code raw qb64b qb64 qb2) as [m|e|]; cbn [obind]; [|split; intros Z; discriminate Z|split; reflexivity]. split; [|intros Z; discriminate Z]. intros E. exfalso. revert E. apply bind_np; [apply validate_np|intros u _ Z; discriminate Z].
  - intros ser. unfold diger_new. destruct (matter_new code raw qb64b qb64 qb2) as [m|e|]; [|destruct ser as [ser|]|tauto].
    + split; [|intros Z; discriminate Z]. intros E. exfalso. revert E. apply bind_np; [apply validate_np|intros u _ Z; discriminate Z].
    + split; [|intros Z; discriminate Z]. intros E. exfalso. revert E. cbv zeta. generalize (unwrap_or code (s2b "E")); intros c. unfold validate. destruct (mem_code c diger_codes) eqn:M; [|intros Z; discriminate Z]. cbn [obind]. apply mem_code_In in M. apply bind_np; [unfold digest; destruct (mem_code c digest_codes); intros Z; discriminate Z|]. intros dig _. apply Fx. left. vm_compute in M.
      repeat (destruct M as [<-|M]; [apply fixed_of; vm_compute; reflexivity|]). destruct M.
    + split; intros Z; discriminate Z.
  - intros num numh Hm. unfold number_new. assert (E : none raw && none qb64b && none qb64 && none qb2 = false) by (destruct raw, qb64b, qb64, qb2; try reflexivity; congruence). rewrite E. cbv zeta. unfold validate. destruct (mem_code (unwrap_or code (s2b "M")) number_codes) eqn:M; cbn [obind].
    + apply mem_code_In in M. split; [|tauto]. intros Z. split; [|exact Z]. revert M. clear. generalize (unwrap_or code (s2b "M")). intros c. vm_compute. tauto.
    + split; [intros Z; discriminate Z|]. intros [I _]. exfalso. assert (X : mem_code (unwrap_or code (s2b "M")) number_codes = true) by (apply mem_code_In; revert I; clear; generalize (unwrap_or code (s2b "M")); intros c; vm_compute; tauto). congruence.
  - unfold number_new. cbn [none andb obind].
    repeat match goal with |- context [if ?b then _ else _] => destruct b end; apply Fx; left; apply fixed_of; vm_compute; reflexivity.
  - unfold number_new. cbn [none andb]. apply bind_np; [destruct h; [|unfold parse_hex_u128; destruct (parse_uint _ _ _)]; intros Z; discriminate Z|]. intros k _.
    repeat match goal with |- context [if ?b then _ else _] => destruct b end; apply Fx; left; apply fixed_of; vm_compute; reflexivity.
  - unfold seqner_of, seqner_new. cbn [none andb obind unwrap_or]. apply bind_np; [apply Fx; left; apply fixed_of; vm_compute; reflexivity|]. intros s _. apply bind_np; [apply validate_np|intros u _ Z; discriminate Z].
  - unfold seqner_of_hex, seqner_new. cbn [none andb obind unwrap_or]. apply bind_np; [apply bind_np; [unfold parse_hex_u128; destruct (parse_uint _ _ _); intros Z; discriminate Z|intros k _ Z; discriminate Z]|]. intros r E. apply bind_panic in E || idtac. 
    destruct r as [r|]; [|]. all: apply bind_np; [|intros s _; apply bind_np; [apply validate_np|intros u _ Z; discriminate Z]]. apply Fx; left; apply fixed_of; vm_compute; reflexivity. intros Z; discriminate Z.
  - unfold bexter_of, bexter_new. cbn [none andb unwrap_or]. apply bind_np; [|intros s _; apply bind_np; [apply validate_np|intros u _ Z; discriminate Z]]. destruct (negb (reb64_match t)) eqn:R; [intros Z; discriminate Z|]. apply negb_false_iff in R. destruct (rawify_ok t R) as (rw & -> & _). cbn [obind]. apply Fx. right. vm_compute. tauto.
Qed.

(** C66: computing an identifier from an object panics exactly when no code is given and the text
    at the label makes the parser panic; values that are not objects are errors *)
Lemma C66_saider_pf : forall (P : Profile) (C : Crypto) (sad : data) (code raw kind label : option bytes) (ignore : option (list bytes)),
  hash_contract C -> DataDefs.good (fun _ => True) sad -> (code = None \/ raw = None) ->
  saider_new (Some sad) label kind ignore code raw None None None = Panic <->
  code = None /\ exists o t, sad = VObj o /\ In (unwrap_or label (s2b "d"), VStr t) o /\ parse_text t = Panic.
Proof.
  intros P C sad code raw kind label ignore HC G N. unfold saider_new. cbn [none negb orb]. rewrite orb_true_r. cbv zeta. set (lab := unwrap_or label (s2b "d")).
  assert (Tl : forall (o : list (bytes * data)) (c : bytes), NoDup (map fst o) -> ('(code', raw') <- (_ <- validate saider_codes c ;; '(raw, _) <- said_derive (unwrap_or (Some (VObj o)) (VObj [])) (Some c) kind (Some lab) ignore ;; Ok (c, raw)) ;; matter_new (Some code') (Some raw') None None None) <> Panic).
  { intros o c Nd. unfold validate. destruct (mem_code c saider_codes) eqn:M; cbn [obind]; [|intros Z; discriminate Z]. apply mem_code_In in M. apply bind_np; [apply bind_np; [cbn [unwrap_or]; apply derive_total; exact Nd|intros [r s] _ Z; discriminate Z]|].
    intros [c' r] E. apply obind_ok in E as ([r' s] & _ & E). apply Ok_inj in E. injection E as <- <-. intros Z. change (matter_new (Some c) (Some r') None None None) with (build c r') in Z. assert (F : exists n f, In (c, (n, f)) fixed_codes) by (revert M; clear; vm_compute (saider_codes); intros M; repeat (destruct M as [<-|M]; [apply fixed_of; vm_compute; reflexivity|]); destruct M).
    destruct F as (n & f & I). destruct (C10_raw_size_pf P c r' n f I) as [A B]. destruct (N.lt_ge_cases (len r') n) as [L|L]; [rewrite (A L) in Z; discriminate Z|]. destruct (B L) as [B' _]. rewrite B' in Z. discriminate Z. }
  destruct sad as [| | | | |a|o]; try (split; [destruct code, raw; intros Z; try discriminate Z; destruct N; discriminate|]; intros (_ & ? & ? & Z & _); discriminate Z).
  assert (Nd : NoDup (map fst o)) by (inversion G; assumption).
  destruct code as [code|]; [destruct raw as [raw|]; [destruct N; discriminate|]|]; cbn [to_map obind].
  - split; [|intros [Z _]; discriminate Z]. intros Z. exfalso. revert Z. destruct (negb (contains_key lab o)); cbn [obind]; [intros Z; discriminate Z|]. apply Tl. exact Nd.
  - destruct (entry o lab Nd) as [(v & Eg & I & K & U)|(Eg & K & No)].
    + unfold contains_key. rewrite Eg. cbn [negb vget]. rewrite Eg. cbn [obind].
      assert (W : forall t x, In (lab, VStr t) x -> VObj o = VObj x -> VStr t = v) by (intros t x Ix Ex; injection Ex as <-; auto).
      destruct v as [| | | |t| |]; cbn [to_string obind]; try (split; [intros Z; discriminate Z|]; intros (_ & ? & ? & Eo & Io & _); specialize (W _ _ Io Eo); discriminate W).
      change (matter_new None None None (Some t) None) with (parse_text t). destruct (len t =? 0) eqn:L0.
      * apply N.eqb_eq in L0. destruct t; [|discriminate L0]. cbn [obind]. split; [intros Z; exfalso; revert Z; apply Tl; exact Nd|]. intros (_ & o' & t & Eo & Io & Z). specialize (W _ _ Io Eo). injection W as ->. discriminate Z.
      * destruct (parse_text t) as [m|e|] eqn:Ep; cbn [obind].
        -- split; [intros Z; exfalso; revert Z; apply Tl; exact Nd|]. intros (_ & o' & t' & Eo & Io & Z). specialize (W _ _ Io Eo). injection W as ->. congruence.
        -- split; [intros Z; discriminate Z|]. intros (_ & o' & t' & Eo & Io & Z). specialize (W _ _ Io Eo). injection W as ->. congruence.
        -- split; [intros _|reflexivity]. split; [reflexivity|]. exists o, t. auto.
    + unfold contains_key. rewrite Eg. cbn [negb obind]. split; [intros Z; discriminate Z|]. intros (_ & o' & t & Eo & Io & _). injection Eo as <-. destruct (No _ Io).
Qed.

(** An object with the text "5AAA" at 'd' panics (that code has no such size), one with a proper text does not. *)
Lemma C66_saider_ex_pf : forall (P : Profile) (C : Crypto), let sad t := VObj [(s2b "d", VStr t)] in
  (forall t, DataDefs.good (fun _ => True) (sad t)) /\ parse_text (s2b "5AAA") = Panic /\ saider_new (Some (sad (s2b "5AAA"))) None None None None None None None None = Panic /\ parse_text (s2b "xyz") <> Panic.
Proof. intros P C sad. split; [intros t; apply good_obj; [repeat constructor; intros []|intros k v [E|[]]; injection E as <- <-; constructor]|]. repeat split; try (vm_compute; reflexivity). vm_compute. intros Z. discriminate Z. Qed.

(** C66: an event or credential built from an object panics exactly when the version string is in
    order and the entry 'd' is missing or its text makes the parser panic *)
Lemma C66_event_pf : forall (P : Profile) (C : Crypto) (F : Floats) (code kind : option bytes) (ked : data) (sad : option sadder), DataDefs.good (fun _ => True) ked ->
  let crashes := (exists r, sizeify ked kind = Ok r) /\ exists o, ked = VObj o /\ (~ In (s2b "d") (map fst o) \/ exists t, In (s2b "d", VStr t) o /\ parse_text t = Panic) in
  (serder_new code None kind (Some ked) sad = Panic <-> crashes) /\ (creder_new code None kind (Some ked) sad = Panic <-> crashes).
Proof.
  intros P C F code kind ked sad G crashes.
  assert (X : forall ident code, done (populate_from_ked (set_code (sadder_default ident) code) ked kind) = Panic <-> crashes).
  { intros ident c. unfold populate_from_ked, exhale, crashes. destruct (sizeify ked kind) as [r|e|] eqn:Ez; [|split; [intros Z; discriminate Z|intros ((r & Z) & _); discriminate Z]|destruct (C49_sizeify_total_pf ked kind Ez)].
    destruct (C49_sizeify_general_pf ked kind r Ez) as (k & m & _ & _ & _ & _ & _ & _ & _ & V). destruct ked as [| | | | | |o]; try discriminate V.
    assert (Nd : NoDup (map fst o)) by (inversion G; assumption). match type of V with vset _ _ ?x = _ => destruct (C60_value_set_pf o (s2b "v") x) as (o' & V' & _ & Hd & _) end. rewrite V' in V. apply Ok_inj in V. rewrite <- V. specialize (Hd (s2b "d") ltac:(discriminate)).
    unfold done, populate_said. rewrite Hd. cbn [vget]. destruct (entry o (s2b "d") Nd) as [(v & -> & I & K & U)|(-> & K & No)].
    - cbn [obind]. destruct v as [| | | |t| |]; cbn [to_string obind snd];
        try (split; [intros Z; discriminate Z|]; intros (_ & ? & Eo & [Z|(? & Io & _)]); injection Eo as <-; [contradiction|]; specialize (U _ Io); discriminate U).
      rewrite said_of. destruct (parse_text t) as [x|e|] eqn:Ep; cbn [obind snd].
      + split; [unfold validate; destruct (mem_code _ _); cbn [obind snd]; [destruct (bytes_eqb _ _); cbn [obind]|]; intros Z; discriminate Z|]. intros (_ & ? & Eo & [Z|(t' & Io & Z)]); injection Eo as <-; [contradiction|]. specialize (U _ Io). injection U as ->. congruence.
      + split; [intros Z; discriminate Z|]. intros (_ & ? & Eo & [Z|(t' & Io & Z)]); injection Eo as <-; [contradiction|]. specialize (U _ Io). injection U as ->. congruence.
      + split; [intros _|reflexivity]. split; [eauto|]. exists o. split; [reflexivity|]. right. eauto.
    - cbn [obind snd]. split; [intros _|reflexivity]. split; [eauto|]. exists o. auto. }
  split; [unfold serder_new|unfold creder_new]; unfold sadder_new; cbv zeta; (match goal with |- context [done ?p] => match p with populate_from_ked (set_code (sadder_default ?i) ?c) _ _ => rewrite <- (X i c); destruct (done p) as [s|e|] end end); cbn [obind];
    try (split; [|intros Z; discriminate Z]; destruct (bytes_eqb _ _); intros Z; discriminate Z); try (split; intros Z; discriminate Z); split; reflexivity.
Qed.

Section T.
Context `{P : Profile} `{F : Floats}.
Lemma bexter_np t : bexter_new (Some t) None None None None None <> Panic.
Proof. pose proof (C66_primitives_pf P toy_crypto None None None None None None None None 0 [] t toy_hash_contract) as (_ & _ & _ & _ & _ & _ & _ & _ & H). exact H. Qed.
Lemma weighted_np v : harmless v -> process_weighted v <> Panic.
Proof.
  intros [Z W]. unfold process_weighted. destruct (values_to_rationals v) as [rs|e|] eqn:E; cbn [obind].
  - apply vtr_ok in E as (ts & -> & Ft & _). destruct (texts_weights ts rs Ft) as (cs & Fw & S). destruct (W ts cs eq_refl Fw) as [_ L]. rewrite count_ok by (rewrite N.add_0_l, (concat_len _ _ _ S); exact L). cbn [obind]. apply bind_np; [apply bexter_np|]. intros b _ X. discriminate X.
  - intros X; discriminate X.
  - exfalso. unfold values_to_rationals in E. apply bind_panic in E as [E|(l & Ev & E)]; [destruct v; discriminate E|]. apply to_vec_ok in Ev. subst v.
    apply bind_panic in E as [E|(rs & Ec & E)].
    + revert E. apply each_np. intros c Ic. unfold clause_of_value. destruct c as [| | | | |ws|]; try (intros X; discriminate X). cbn [to_vec obind]. apply each_np. intros w Iw. destruct w as [| | | |t| |]; try (intros X; discriminate X). cbn [to_string obind]. intros X. apply weight_of_text_panic in X. exact (Z l ws t eq_refl Ic Iw X).
    + apply bind_panic in E as [E|(u & _ & E)]; [|discriminate E].
      assert (X : exists ts, l = map (fun c => VArr (map VStr c)) ts /\ Forall2 (Forall2 (fun t r => weight_of_text t = Ok r)) ts rs).
      { apply each_ok in Ec. clear - Ec. induction Ec as [|w r l rs H Fo IH]; [exists []; split; [reflexivity|constructor]|]. destruct IH as (ts & -> & F'). apply clause_ok in H as (t & -> & Ht). exists (t :: ts). split; [reflexivity|constructor; auto]. }
      destruct X as (ts & -> & Ft). destruct (texts_weights ts rs Ft) as (cs & Fw & S). destruct (W ts cs eq_refl Fw) as [Fit _]. destruct (lowest_all rs cs S) as [_ S']. revert E. apply each_np. intros c Ic.
      assert (Y : exists ws, Forall2 stands_for c ws /\ fits ws). { clear - Ic S' Fit. induction S' as [|r w rs ws H S' IH]; [destruct Ic|]. inversion Fit; subst. destruct Ic as [<-|Ic]; eauto. }
      destruct Y as (ws & Sw & Fi). destruct (check_clause_exact c ws Sw (or_introl Fi)) as [[Q _]|[[Q _]|[_ [_ Q]]]]; [rewrite Q; intros X; discriminate X|rewrite Q; intros X; discriminate X|contradiction].
Qed.
Lemma unweighted_np z : process_unweighted z <> Panic.
Proof.
  unfold process_unweighted. destruct (z <? 0)%Z; [intros X; discriminate X|]. destruct (_ <? z)%Z; [intros X; discriminate X|]. apply bind_np; [|intros n _ X; discriminate X].
  pose proof (C66_primitives_pf P toy_crypto None None None None None None None None (Z.to_N z) [] [] toy_hash_contract) as (_ & _ & _ & _ & H & _). exact H.
Qed.
Lemma sith_list_np v : harmless v -> harmless (VArr [v]) -> process_sith_list v <> Panic.
Proof.
  intros H1 H2. unfold process_sith_list. apply bind_np; [destruct v; intros X; discriminate X|]. intros l E. apply to_vec_ok in E. subst v. destruct l as [|x l]; [intros X; discriminate X|]. cbv zeta.
  assert (E : forall arr, each (fun clause => ws <- to_vec clause ;; if forallb is_text ws then Ok tt else Err E_Value) arr <> Panic).
  { intros arr. apply each_np. intros c _. apply bind_np; [destruct c; intros X; discriminate X|]. intros ws _. destruct (forallb is_text ws); intros X; discriminate X. }
  destruct (forallb is_vec (x :: l)); cbn [to_vec obind]; (apply bind_np; [apply E|]; intros u _; apply weighted_np; assumption).
Qed.
End T.
(** C66: a signing threshold given as a value panics at most for a weight "0/0" or weights too many
    or too fine for 32 bits; given as text it panics exactly when reading the JSON panics or the
    list that was read does *)
Lemma C66_threshold_pf : forall (P : Profile) (F : Floats),
  (forall v, harmless v -> tholder_of_thold v <> Panic) /\
  (forall v, (forall s, v <> VStr s) -> harmless v -> harmless (VArr [v]) -> tholder_of_sith v <> Panic) /\
  (forall s, tholder_of_sith (VStr s) = Panic <-> (exists r, s = s2b "[" ++ r) /\ (from_json s = Panic \/ exists l, from_json s = Ok (VArr l) /\ tholder_of_sith (VArr l) = Panic)).
Proof.
  intros P F. split; [|split].
  - intros v H. rewrite of_thold_eq. unfold process_thold. destruct (to_i64 v); [apply unweighted_np|apply weighted_np; exact H|apply weighted_np; exact H].
  - intros v Ns H1 H2. rewrite of_sith_eq. destruct v as [| |z| |s| |]; try (apply sith_list_np; assumption); [apply unweighted_np|destruct (Ns s eq_refl)].
  - intros s. rewrite of_sith_eq. unfold process_sith. destruct (starts_with (s2b "[") s) eqn:S.
    + apply starts_with_iff in S as [r ->]. unfold from_json. destruct (json_from_str _) as [j|e|]; cbn [obind].
      * destruct (import j) as [v|e|]; cbn [obind].
        -- split.
           ++ intros H. split; [eauto|]. right. destruct v as [| | | | |l|]; try discriminate H. exists l. split; [reflexivity|]. rewrite of_sith_eq. exact H.
           ++ intros (_ & [Z|(l & E & H)]); [discriminate Z|]. apply Ok_inj in E. subst v. rewrite of_sith_eq in H. exact H.
        -- split; [intros Z; discriminate Z|]. intros (_ & [Z|(l & Z & _)]); discriminate Z.
        -- split; [intros _; split; [eauto|left; reflexivity]|reflexivity].
      * split; [intros Z; discriminate Z|]. intros (_ & [Z|(l & Z & _)]); discriminate Z.
      * split; [intros _; split; [eauto|left; reflexivity]|reflexivity].
    + split.
      * intros H. exfalso. revert H. apply bind_np; [|intros z _; apply unweighted_np]. unfold parse_hex_i64. destruct (parse_int _ _ _ _); intros Z; discriminate Z.
      * intros ((r & ->) & _). assert (X : starts_with (s2b "[") (s2b "[" ++ r) = true) by (apply starts_with_iff; eauto). congruence.
Qed.
(** Thresholds that are harmless, and some that are not. *)
Lemma C66_threshold_ex_pf : harmless (VArr [VArr [VStr (s2b "1/2"); VStr (s2b "2/3"); VInt 1]; VNull]) /\
  forall (P : Profile) (F : Floats), tholder_of_sith (VArr [VStr (s2b "0/0")]) = Panic /\ tholder_of_sith (VStr (s2b "[""1/2"",""0/0""]")) = Panic /\ tholder_of_sith (VStr (s2b "[9223372036854775808]")) = Panic.
Proof.
  split; [|intros P F; repeat split; vm_compute; reflexivity]. split.
  - intros cs ws t E I J Z. apply (weight_of_text_panic (P := true)) in Z. injection E as <-. destruct I as [I|[I|[]]]; [|discriminate I]. injection I as <-. destruct J as [J|[J|[J|[]]]]; try discriminate J; injection J as <-; vm_compute in Z; discriminate Z.
  - intros ts cs E _. exfalso. destruct ts as [|a [|b ts]]; discriminate E.
Qed.

(** C66: the text and path of a Pather or Bexter never panic, nor do testing for a prefix and
    joining; only strip can (see C35) *)
Lemma C66_path_pf : forall (P : Profile) (C : Crypto) (a b : matter) (path : data) (t : bytes), bytes_ok (m_raw a) = true -> bytes_ok (m_raw b) = true ->
  bext_of a <> Panic /\ pather_path a <> Panic /\ pather_starts_with a b <> Panic /\ pather_root a b <> Panic /\
  pather_of_bext t <> Panic /\ pather_of_path path <> Panic.
Proof.
  intros P C a b path t Ha Hb.
  assert (Bx : forall m, bytes_ok (m_raw m) = true -> bext_of m <> Panic /\ forall x, bext_of m = Ok x -> ascii_ok x = true).
  { intros m Hm. destruct (get_sizage (m_code m)) as [z|e|] eqn:Ez.
    - rewrite (bext_of_eq m z Ez Hm). cbv zeta. set (u := b64_encode _). assert (A : ascii_ok u = true) by (apply b64_encode_ascii; rewrite bytes_ok_app, bytes_ok_rep0; auto). split.
      + set (ws := if ls z =? 0 then _ else _). assert (L : ws <= len u).
        { unfold ws. destruct (N.eqb_spec (ls z) 0) as [E|E]; [destruct u as [|c r]; [vm_compute; discriminate|]; rewrite len_cons; destruct (c =? 65); Lia.lia|]. pose proof (N.mod_upper_bound (ls z + 1) 4 ltac:(discriminate)). unfold u. rewrite len_b64_encode, len_app, len_rep. assert (1 <= (ls z + len (m_raw m) + 2) / 3) by (apply N.div_le_lower_bound; Lia.lia). Lia.lia. }
        replace (ws <=? len u) with true by (symmetry; apply N.leb_le; exact L). intros Z; discriminate Z.
      + intros x H. match type of H with (if ?c then _ else _) = _ => destruct c end; [|discriminate H]. apply Ok_inj in H. subst x. match goal with |- ascii_ok (drop ?w _) = true => rewrite <- (take_drop_id w u) in A end. unfold ascii_ok in *. rewrite forallb_app in A. apply andb_true_iff in A. apply A.
    - unfold bext_of. rewrite Ez. cbn [obind]. split; [intros Z; discriminate Z|intros x Z; discriminate Z].
    - destruct (get_sizage_not_panic _ Ez). }
  assert (Pp : forall m, bytes_ok (m_raw m) = true -> pather_path m <> Panic).
  { intros m Hm. destruct (Bx m Hm) as [N A]. unfold pather_path. apply bind_np; [exact N|]. intros x Ex. destruct (starts_with (s2b "-") x) eqn:S; cbn [negb]; [|intros Z; discriminate Z]. apply starts_dash in S as [r ->]. rewrite str_slice_ascii; [|apply A; exact Ex|rewrite len_cons; Lia.lia|reflexivity]. cbn [obind].
    match goal with |- context [split_on 45 ?y] => destruct (split_on 45 y) as [|[|c x] l] eqn:E end; [destruct (split_on_nonempty 45 _ E)| |]; intros Z; discriminate Z. }
  assert (Pb : forall x, pather_of_bext x <> Panic /\ (forall code, In code bexter_codes -> pather_from_bext x code <> Panic)).
  { assert (Y : forall x code, In code bexter_codes -> pather_from_bext x code <> Panic).
    { intros x code I. unfold pather_from_bext. destruct (reb64_match x) eqn:R; cbn [negb]; [|intros Z; discriminate Z]. destruct (rawify_ok x R) as (rw & -> & _). cbn [obind]. change (matter_new (Some code) (Some rw) None None None) with (build code rw). intros Z. 
      pose proof (proj1 (C66_build_pf P code rw) Z) as (_ & c & r & -> & E). assert (As : forall i, ~ inside (c :: r) i). { intros i (y & Hy & Hb'). apply nth_error_In in Hy. assert (y < 128); [|Lia.lia]. clear - I Hy. vm_compute in I. repeat (destruct I as [I|I]; [injection I as <- <-; repeat (destruct Hy as [<-|Hy]; [reflexivity|]); destruct Hy|]). destruct I. }
      clear - I E As. destruct E as [[I1 [E|[E|E]]]|[I1 [E|[E|E]]]]; try (apply As in E; exact E); vm_compute in I; repeat (destruct I as [I|I]; [injection I as <- <-; vm_compute in I1, E; try discriminate E; intuition discriminate|]); exact I. }
    intros x. split; [|intros; apply Y; assumption]. unfold pather_of_bext, pather_new. cbn [none andb unwrap_or]. apply bind_np; [apply Y; vm_compute; tauto|]. intros m _. apply bind_np; [apply validate_np|intros u _ Z; discriminate Z]. }
  assert (Po : forall v, pather_new (Some v) None None None None None None <> Panic).
  { intros v. unfold pather_new. cbn [none andb unwrap_or]. apply bind_np; [|intros m _; apply bind_np; [apply validate_np|intros u _ Z; discriminate Z]]. apply bind_np; [|intros x _; apply Pb; vm_compute; tauto].
    unfold bextify. apply bind_np; [destruct v; intros Z; discriminate Z|]. intros l _. apply bind_np; [|intros x _ Z; discriminate Z]. apply each_np. intros e _. unfold component. apply bind_np; [destruct e; intros Z; discriminate Z|]. intros p _. destruct (reb64_match p); intros Z; discriminate Z. }
  split; [apply Bx; exact Ha|]. split; [apply Pp; exact Ha|]. split; [unfold pather_starts_with; apply bind_np; [apply Bx; exact Ha|]; intros x _; apply bind_np; [apply Bx; exact Hb|]; intros y _ Z; discriminate Z|]. split; [|split; [apply Pb|apply Po]].
  unfold pather_root. apply bind_np; [apply Pp; exact Hb|]. intros v _. apply bind_np; [destruct v; intros Z; discriminate Z|]. intros l _. apply bind_np; [apply Pp; exact Ha|]. intros w _. apply bind_np; [destruct w; intros Z; discriminate Z|]. intros l' _. apply Po.
Qed.

(** ** The limen of a threshold *)
Lemma hardage_length c h : hardage c = Ok h <-> code_length c h.
Proof.
  unfold hardage, code_length, letter. destruct (((65 <=? c) && (c <=? 90)) || ((97 <=? c) && (c <=? 122))) eqn:E1.
  - apply orb_true_iff in E1. rewrite !andb_true_iff, !N.leb_le in E1. split.
    + intros H. apply Ok_inj in H. subst h. left. split; [Lia.lia|reflexivity].
    + intros [[_ ->]|[[I _]|[I _]]]; [reflexivity| |]; exfalso; vm_compute in I; repeat (destruct I as [<-|I]; [Lia.lia|]); destruct I.
  - apply orb_false_iff in E1. rewrite !andb_false_iff, !N.leb_gt in E1.
    assert (X2 : existsb (N.eqb c) [48; 52; 53; 54] = true <-> In c (s2b "0456")) by (rewrite existsb_exists; split; [intros (x & I & E); apply N.eqb_eq in E; subst; exact I|intros I; exists c; split; [exact I|apply N.eqb_refl]]).
    assert (X4 : existsb (N.eqb c) [49; 50; 51; 55; 56; 57] = true <-> In c (s2b "123789")) by (rewrite existsb_exists; split; [intros (x & I & E); apply N.eqb_eq in E; subst; exact I|intros I; exists c; split; [exact I|apply N.eqb_refl]]).
    destruct (existsb (N.eqb c) [48; 52; 53; 54]) eqn:E2.
    + pose proof (proj1 X2 eq_refl) as I2. split; [intros H; apply Ok_inj in H; subst h; auto|]. intros [[L _]|[[_ ->]|[I _]]]; [Lia.lia|reflexivity|]. exfalso. vm_compute in I, I2. intuition (subst; discriminate).
    + destruct (existsb (N.eqb c) [49; 50; 51; 55; 56; 57]) eqn:E4.
      * pose proof (proj1 X4 eq_refl) as I4. split; [intros H; apply Ok_inj in H; subst h; auto|]. intros [[L _]|[[I _]|[_ ->]]]; [Lia.lia| |reflexivity]. apply X2 in I. discriminate I.
      * split; [intros H; destruct (c =? 45); [discriminate H|]; destruct (c =? 95); discriminate H|]. intros [[L _]|[[I _]|[I _]]]; [Lia.lia|apply X2 in I; discriminate I|apply X4 in I; discriminate I].
Qed.
Section L.
Context `{P : Profile} `{F : Floats}.
Lemma of_limen_eq l : tholder_of_limen l = match l with [] => Err E_EmptyMaterial | _ => process_limen tholder_default l end.
Proof.
  destruct l as [|c r]; [reflexivity|]. unfold tholder_of_limen. rewrite tholder_new_eq. cbn [obind]. destruct (process_limen tholder_default (c :: r)) as [t| |] eqn:E; try reflexivity. cbn [obind]. apply process_limen_formed in E as [[Z _]|E]; [discriminate Z|]. apply formed_final. exact E.
Qed.
Lemma parsed_code l m c r h : parse_text l = Ok m -> l = c :: r -> hardage c = Ok h -> m_code m = take h l /\ boundary l h = true.
Proof.
  intros H El Hh. change (parse_text l) with (matter_exfil l) in H. rewrite (exfil_rest l c r h El Hh) in H. destruct (len l <? h) eqn:L; [discriminate H|]. destruct (boundary l h) eqn:B; [|discriminate H]. split; [|reflexivity]. apply obind_ok in H as (z & _ & H).
  assert (Q : forall size f, body l (take h l) z size f = Ok m -> m_code m = take h l). { intros size f Hb. unfold body in Hb. destruct (len l <? f); [discriminate Hb|]. destruct (boundary l f); [|discriminate Hb]. apply obind_ok in Hb as (raw & _ & Hb). apply Ok_inj in Hb. subst m. reflexivity. }
  unfold rest in H. destruct (variable z); [|eapply Q; exact H]. destruct (len l <? cs_of z); [discriminate H|]. destruct (boundary l (cs_of z)); [|discriminate H]. destruct (all_b64 _); [|discriminate H]. eapply Q; exact H.
Qed.
Lemma parse_first l m : parse_text l = Ok m -> exists c r h, l = c :: r /\ hardage c = Ok h.
Proof.
  intros H. destruct l as [|c r]; [discriminate H|]. exists c, r. change (parse_text (c :: r)) with (matter_exfil (c :: r)) in H. unfold matter_exfil in H. apply obind_ok in H as (h & E & _). eauto.
Qed.
Lemma split_replace a b c s : c <> a -> c <> b -> split_on c (replace_char a b s) = map (replace_char a b) (split_on c s).
Proof.
  intros Na Nb. unfold replace_char. induction s as [|x s IH]; [reflexivity|]. cbn [map split_on]. rewrite IH. destruct (N.eqb_spec x a) as [->|Ne].
  - replace (b =? c) with false by (symmetry; apply N.eqb_neq; congruence). replace (a =? c) with false by (symmetry; apply N.eqb_neq; congruence). pose proof (split_on_nonempty c s). destruct (split_on c s); [congruence|]. cbn [map]. rewrite N.eqb_refl. reflexivity.
  - destruct (N.eqb_spec x c) as [->|Nc]; [reflexivity|]. pose proof (split_on_nonempty c s). destruct (split_on c s); [congruence|]. cbn [map]. replace (x =? a) with false by (symmetry; apply N.eqb_neq; exact Ne). reflexivity.
Qed.
Lemma limen_split s : VArr (map (fun clause => VArr (map VStr (split_on 99 clause))) (split_on 97 (replace_char 115 47 s))) = clause_texts (map (map with_slashes) (map (split_on 99) (split_on 97 s))).
Proof.
  unfold clause_texts. f_equal. rewrite split_replace by discriminate. rewrite !map_map. apply map_ext. intros x. rewrite split_replace by discriminate. reflexivity.
Qed.
Lemma split_unique ts : ts <> [] -> Forall (fun c => c <> [] /\ Forall (fun w => ~ In 97 w /\ ~ In 99 w) c) ts -> map (split_on 99) (split_on 97 (join (s2b "a") (map (join (s2b "c")) ts))) = ts.
Proof.
  intros N Fa. change (s2b "a") with [97]. change (s2b "c") with [99]. rewrite split_join.
  - rewrite map_map. rewrite <- (map_id ts) at 2. apply map_ext_in. intros c I. rewrite Forall_forall in Fa. destruct (Fa c I) as [Nc Fc]. apply split_join; [exact Nc|]. eapply Forall_impl; [|exact Fc]. intros w [_ W]. exact W.
  - intros Z. apply map_eq_nil in Z. contradiction.
  - apply Forall_forall. intros x I. apply in_map_iff in I as (c & <- & I). rewrite Forall_forall in Fa. destruct (Fa c I) as [_ Fc]. clear - Fc. induction c as [|w c IH]; [intros []|]. inversion Fc as [|? ? [Hw _] Fc']; subst. destruct c as [|w' c]; [exact Hw|]. change (join [99] (w :: w' :: c)) with (w ++ [99] ++ join [99] (w' :: c)). intros J. apply in_app_or in J as [J|[J|J]]; [auto|discriminate J|exact (IH Fc' J)].
Qed.
Lemma split_proper s : map (split_on 99) (split_on 97 s) <> [] /\ Forall (fun c => c <> [] /\ Forall (fun w => ~ In 97 w /\ ~ In 99 w) c) (map (split_on 99) (split_on 97 s)) /\ s = join (s2b "a") (map (join (s2b "c")) (map (split_on 99) (split_on 97 s))).
Proof.
  split; [intros Z; apply map_eq_nil in Z; exact (split_on_nonempty _ _ Z)|]. split.
  - apply Forall_forall. intros x I. apply in_map_iff in I as (c & <- & I). split; [apply split_on_nonempty|]. apply Forall_forall. intros w J. split; [|pose proof (split_on_parts 99 c) as Q; rewrite Forall_forall in Q; exact (Q w J)].
    pose proof (split_on_parts 97 s) as Q. rewrite Forall_forall in Q. specialize (Q c I). intros K. apply Q. clear - J K. change (split_on 99 c) with (split_on 99 c) in J. pose proof (join_split 99 c) as E. revert J E. generalize (split_on 99 c) as l. intros l J <-. induction l as [|p l IH]; [destruct J|]. destruct l as [|q l]; [destruct J as [->|[]]; exact K|]. change (join [99] (p :: q :: l)) with (p ++ [99] ++ join [99] (q :: l)). destruct J as [->|J]; apply in_or_app; [left; exact K|right; right; apply IH; exact J].
  - rewrite map_map. change (s2b "a") with [97]. change (s2b "c") with [99]. rewrite (map_ext _ (fun x => x)) by (intros x; apply join_split). rewrite map_id. symmetry. apply join_split.
Qed.
Lemma limen_eq l c r h : l = c :: r -> utf8_valid l = true -> hardage c = Ok h -> tholder_of_limen l =
  if boundary l h then
    if mem_code (take h l) limen_numbers then m <- parse_text l ;; n <- number_num m ;; tholder_of_thold (VInt (Z.of_N n))
    else if mem_code (take h l) limen_texts then m <- parse_text l ;; s <- bext_of m ;; tholder_of_thold (clause_texts (map (map with_slashes) (map (split_on 99) (split_on 97 s))))
    else Err E_UnexpectedCode
  else Panic.
Proof.
  intros El U Hh. rewrite of_limen_eq. rewrite El at 1. rewrite El at 1. cbn [process_limen]. rewrite <- El. unfold from_utf8. rewrite U. cbn [obind]. rewrite Hh. cbn [obind]. rewrite str_slice_if. destruct (boundary l h) eqn:B; [|reflexivity]. cbn [obind].
  change number_codes with limen_numbers. change bexter_codes with limen_texts. destruct (mem_code (take h l) limen_numbers) eqn:M1.
  - change (number_new None None None None None (Some l) None) with (parse_text l). destruct (parse_text l) as [m| |]; try reflexivity. cbn [obind]. destruct (number_num m) as [n| |]; try reflexivity. cbn [obind]. rewrite of_thold_eq. unfold process_thold. cbn [to_i64]. destruct (2 ^ 63 - 1 <? n) eqn:L; [|reflexivity]. apply N.ltb_lt in L. unfold process_unweighted. replace (Z.of_N n <? 0)%Z with false by (symmetry; apply Z.ltb_ge; Lia.lia).
    replace (Z.of_N u32_max <? Z.of_N n)%Z with true; [reflexivity|]. symmetry. apply Z.ltb_lt. change u32_max with 4294967295. change (2 ^ 63 - 1) with 9223372036854775807 in L. Lia.lia.
  - destruct (mem_code (take h l) limen_texts) eqn:M2; [|reflexivity]. unfold bexter_new. cbn [none andb unwrap_or]. change (matter_new (Some (s2b "4A")) None None (Some l) None) with (parse_text l). destruct (parse_text l) as [m| |] eqn:Ep; try reflexivity. cbn [obind]. destruct (parsed_code l m c r h Ep El Hh) as [Ec _]. unfold validate. rewrite Ec. change bexter_codes with limen_texts. rewrite M2. cbn [obind]. destruct (bext_of m) as [s| |]; try reflexivity. cbn [obind]. cbv zeta. rewrite limen_split, of_thold_eq, process_thold_texts. reflexivity.
Qed.
End L.
Lemma limen_codes_apart : forall c, In c limen_numbers -> In c limen_texts -> False.
Proof. intros c I J. vm_compute in I, J. repeat (destruct I as [<-|I]; [repeat (destruct J as [J|J]; [discriminate J|]); exact J|]). exact I. Qed.
Lemma mem_false c l : ~ In c l -> mem_code c l = false.
Proof. intros H. destruct (mem_code c l) eqn:E; [apply mem_code_In in E; contradiction|reflexivity]. Qed.

(** C42: the limen of a threshold is accepted exactly if it is a number or a text of weights, and means
    the threshold of that number or of these weights; everything else is an error *)
Lemma C42_limen_pf : forall (P : Profile) (F : Floats) (l : bytes),
  (l = [] -> tholder_of_limen l = Err E_EmptyMaterial) /\ (utf8_valid l = false -> tholder_of_limen l = Err E_Utf8) /\
  (forall m, utf8_valid l = true -> parse_text l = Ok m ->
     (forall v, limen_value m v -> tholder_of_limen l = tholder_of_thold v) /\
     (~ In (m_code m) (limen_numbers ++ limen_texts) -> tholder_of_limen l = Err E_UnexpectedCode)) /\
  (forall t, tholder_of_limen l = Ok t -> utf8_valid l = true /\ exists m v, parse_text l = Ok m /\ limen_value m v /\ tholder_of_thold v = Ok t).
Proof.
  intros P F l. split; [intros ->; reflexivity|]. split; [|split].
  - intros U. rewrite of_limen_eq. destruct l as [|c r]; [discriminate U|]. cbn [process_limen]. unfold from_utf8. rewrite U. reflexivity.
  - intros m U Ep. destruct (parse_first l m Ep) as (c & r & h & El & Hh). destruct (parsed_code l m c r h Ep El Hh) as [Ec B]. rewrite (limen_eq l c r h El U Hh), B, <- Ec, Ep. cbn [obind]. split.
    + intros v [(I & n & En & ->)|(I & ts & Nt & Ft & Eb & ->)].
      * rewrite (proj2 (mem_code_In _ _) I), En. reflexivity.
      * rewrite (mem_false _ limen_numbers) by (intros J; exact (limen_codes_apart _ J I)). rewrite (proj2 (mem_code_In _ _) I), Eb. cbn [obind]. rewrite (split_unique ts Nt Ft). reflexivity.
    + intros Ni. rewrite !mem_false by (intros J; apply Ni; apply in_or_app; auto). reflexivity.
  - intros t H. destruct (utf8_valid l) eqn:U; [|rewrite of_limen_eq in H; destruct l as [|c r]; [discriminate H|]; cbn [process_limen] in H; unfold from_utf8 in H; rewrite U in H; discriminate H]. split; [reflexivity|].
    assert (X : exists c r h, l = c :: r /\ hardage c = Ok h). { rewrite of_limen_eq in H. destruct l as [|c r]; [discriminate H|]. cbn [process_limen] in H. unfold from_utf8 in H. rewrite U in H. cbn [obind] in H. apply obind_ok in H as (h & E & _). eauto. }
    destruct X as (c & r & h & El & Hh). rewrite (limen_eq l c r h El U Hh) in H. destruct (boundary l h) eqn:B; [|discriminate H]. destruct (mem_code (take h l) limen_numbers) eqn:M1; [|destruct (mem_code (take h l) limen_texts) eqn:M2; [|discriminate H]].
    + apply obind_ok in H as (m & Ep & H). apply obind_ok in H as (n & En & H). destruct (parsed_code l m c r h Ep El Hh) as [Ec _]. exists m, (VInt (Z.of_N n)). split; [exact Ep|]. split; [|exact H]. left. split; [rewrite Ec; apply mem_code_In; exact M1|eauto].
    + apply obind_ok in H as (m & Ep & H). apply obind_ok in H as (s & Es & H). destruct (parsed_code l m c r h Ep El Hh) as [Ec _]. eexists; eexists. split; [exact Ep|]. split; [|exact H]. right. split; [rewrite Ec; apply mem_code_In; exact M2|]. destruct (split_proper s) as (A & B' & C). exists (map (split_on 99) (split_on 97 s)). rewrite <- C. auto.
Qed.
Lemma C42_limen_ex_pf : forall P : Profile, exists m, parse_text (s2b "4AAEA1s2c1s2c1s3a1c0") = Ok m /\ limen_value m (clause_texts [[s2b "1/2"; s2b "1/2"; s2b "1/3"]; [s2b "1"; s2b "0"]]) /\
  exists m, parse_text (s2b "MAAC") = Ok m /\ limen_value m (VInt 2).
Proof.
  intros P. eexists. split; [vm_compute; reflexivity|]. split.
  - right. split; [vm_compute; tauto|]. exists [[s2b "1s2"; s2b "1s2"; s2b "1s3"]; [s2b "1"; s2b "0"]]. split; [discriminate|]. split; [repeat constructor; try discriminate; vm_compute; intuition discriminate|]. split; vm_compute; reflexivity.
  - eexists. split; [vm_compute; reflexivity|]. left. split; [vm_compute; tauto|]. exists 2. split; vm_compute; reflexivity.
Qed.

(** C66: exactly which limens panic: those cut within their code (the parser itself reports these),
    and those with the code of a number or text that the parser panics on, or that give a panicking threshold *)
Lemma C66_limen_pf : forall (P : Profile) (F : Floats) (l : bytes), tholder_of_limen l = Panic <->
  utf8_valid l = true /\ exists c r h, l = c :: r /\ code_length c h /\
   (len l < h \/ inside l h \/
    In (take h l) (limen_numbers ++ limen_texts) /\ (parse_text l = Panic \/ exists m, parse_text l = Ok m /\ (In (m_code m) limen_numbers /\ number_num m = Panic \/ exists v, limen_value m v /\ tholder_of_thold v = Panic))).
Proof.
  intros P F l. destruct (utf8_valid l) eqn:U; [|destruct (C42_limen_pf P F l) as (_ & X & _); rewrite (X U); split; [intros Z; discriminate Z|intros [Z _]; discriminate Z]].
  destruct l as [|c r] eqn:El; [split; [intros Z; discriminate Z|intros (_ & ? & ? & ? & Z & _); discriminate Z]|]. rewrite <- El in *.
  destruct (hardage c) as [h|e|] eqn:Hh; [| |destruct (hardage_not_panic _ Hh)].
  2:{ rewrite of_limen_eq. rewrite El at 1. rewrite El at 1. cbn [process_limen]. rewrite <- El. unfold from_utf8. rewrite U. cbn [obind]. rewrite Hh. split; [intros Z; discriminate Z|]. intros (_ & c' & r' & h & E & C & _). rewrite El in E. injection E as <- <-. apply hardage_length in C. congruence. }
  rewrite (limen_eq l c r h El U Hh). pose proof (proj1 (hardage_length c h) Hh) as Cl.
  assert (Un : forall c' r' h', l = c' :: r' -> code_length c' h' -> h' = h) by (intros c' r' h' E C'; rewrite El in E; injection E as <- <-; apply hardage_length in C'; congruence).
  assert (Bd : boundary l h = false <-> len l < h \/ inside l h).
  { assert (H0 : 0 < h) by (destruct Cl as [[_ ->]|[[_ ->]|[_ ->]]]; reflexivity). pose proof (slice_panics l h h (N.le_refl h) ltac:(Lia.lia)) as S. unfold str_slice in S. rewrite N.leb_refl in S. cbn [andb] in S. rewrite andb_diag in S. destruct (boundary l h); split; intros Z; try discriminate Z; try reflexivity; [|]. 
    - exfalso. assert (Y : (Ok (take (h - h) (drop h l)) : outcome bytes) = Panic) by (apply S; tauto). discriminate Y.
    - assert (Y : len l < h \/ inside l h \/ inside l h) by (apply S; reflexivity). tauto. }
  destruct (boundary l h) eqn:B.
  2:{ split; [|reflexivity]. intros _. split; [reflexivity|]. exists c, r, h. split; [exact El|]. split; [exact Cl|]. destruct (proj1 Bd eq_refl); auto. }
  assert (Nb : ~ (len l < h \/ inside l h)) by (intros Z; apply Bd in Z; discriminate Z).
  assert (K : forall X : Prop, ((utf8_valid l = true -> X) -> True) -> True) by auto. clear K.
  destruct (mem_code (take h l) limen_numbers) eqn:M1; [|destruct (mem_code (take h l) limen_texts) eqn:M2].
  - apply mem_code_In in M1. split.
    + intros H. split; [reflexivity|]. exists c, r, h. split; [exact El|]. split; [exact Cl|]. right. right. split; [apply in_or_app; auto|]. apply bind_panic in H as [H|(m & Ep & H)]; [auto|]. right. exists m. split; [exact Ep|]. destruct (parsed_code l m c r h Ep El Hh) as [Ec _]. apply bind_panic in H as [H|(n & En & H)]; [left; rewrite Ec; auto|]. right. eexists. split; [|exact H]. left. rewrite Ec. eauto.
    + intros (_ & c' & r' & h' & E & C' & H). pose proof (Un _ _ _ E C') as ->. destruct H as [H|[H|(_ & H)]]; try tauto. destruct H as [->|(m & Ep & H)]; [reflexivity|]. destruct (parsed_code l m c r h Ep El Hh) as [Ec _]. rewrite Ep. cbn [obind]. destruct H as [[_ ->]|(v & [(_ & n & En & ->)|(I & _)] & H)]; [reflexivity|rewrite En; exact H|]. rewrite Ec in I. destruct (limen_codes_apart _ M1 I).
  - apply mem_code_In in M2. assert (M1' : ~ In (take h l) limen_numbers) by (intros Z; apply mem_code_In in Z; congruence). split.
    + intros H. split; [reflexivity|]. exists c, r, h. split; [exact El|]. split; [exact Cl|]. right. right. split; [apply in_or_app; auto|]. apply bind_panic in H as [H|(m & Ep & H)]; [auto|]. right. exists m. split; [exact Ep|]. destruct (parsed_code l m c r h Ep El Hh) as [Ec _]. right. apply bind_panic in H as [H|(s & Es & H)].
      * exfalso. change (parse_text l) with (matter_exfil l) in Ep. destruct (exfil_parsed l m Ep) as (z & Pa). destruct (C66_path_pf P toy_crypto m m VNull [] (pa_bytes _ _ _ Pa) (pa_bytes _ _ _ Pa)) as [Nb' _]. exact (Nb' H).
      * eexists. split; [|exact H]. right. rewrite Ec. split; [exact M2|]. destruct (split_proper s) as (A & B' & D). eexists. split; [exact A|]. split; [exact B'|]. rewrite <- D. auto.
    + intros (_ & c' & r' & h' & E & C' & H). pose proof (Un _ _ _ E C') as ->. destruct H as [H|[H|(_ & H)]]; try tauto. destruct H as [->|(m & Ep & H)]; [reflexivity|]. destruct (parsed_code l m c r h Ep El Hh) as [Ec _]. rewrite Ep. cbn [obind]. destruct H as [[I _]|(v & [(I & _)|(_ & ts & Nt & Ft & Eb & ->)] & H)]; [rewrite Ec in I; contradiction|rewrite Ec in I; contradiction|]. rewrite Eb. cbn [obind]. rewrite (split_unique ts Nt Ft). exact H.
  - split; [intros Z; discriminate Z|]. intros (_ & c' & r' & h' & E & C' & H). pose proof (Un _ _ _ E C') as ->. destruct H as [H|[H|(I & _)]]; try tauto. apply in_app_or in I as [I|I]; apply mem_code_In in I; congruence.
Qed.
(** A text shorter than its code, a number text with '=', and a weight "0/0" panic. *)
Lemma C66_limen_ex_pf : forall (P : Profile) (F : Floats), tholder_of_limen (s2b "1") = Panic /\ tholder_of_limen (s2b "MAA=") = Panic /\ tholder_of_limen (s2b "4AABA0s0") = Panic /\ tholder_of_limen (s2b "EAAA") = Err E_UnexpectedCode.
Proof. intros P F. repeat split; vm_compute; reflexivity. Qed.
