(** Properties C50 (loading), C55, C61, C62: Serder and Creder. *)
From Verif Require Import Base Utf8 MatterTables Matter StdStr Data Json Spec MatterDefs Crypto Prims PrimsDefs DataDefs Common CommonDefs Saider SaiderDefs Sadder SadderDefs.
From Verif Require Import BaseFacts UtilFacts MatterFacts MatterFacts2 MatterFacts3 SpecFacts MatterFacts4 StdStrFacts MatterThms PrimsFacts PrimsFacts2 DataFacts JsonFacts ImportFacts CommonFacts CommonFacts2 CommonThms DataThms SaiderFacts SaiderFacts2 SaiderThms SadderFacts SadderFacts2.

Lemma said_of `{P : Profile} `{C : Crypto} t : saider_new None None None None None None None (Some t) None = (m <- parse_text t ;; _ <- validate saider_codes (m_code m) ;; Ok m).
Proof. reflexivity. Qed.
Lemma said_of_ok `{P : Profile} `{C : Crypto} t m : saider_new None None None None None None None (Some t) None = Ok m <-> parse_text t = Ok m /\ In (m_code m) (map fst digest_sizes).
Proof.
  rewrite said_of. split.
  - intros H. inv_bind H m' E. inv_bind H u Eu. destruct u. apply validate_ok, said_codes in Eu. apply Ok_inj in H. subst. auto.
  - intros [-> I]. cbn [obind]. rewrite validate_yes by (apply said_codes; exact I). reflexivity.
Qed.
Lemma populate_ok `{P : Profile} `{C : Crypto} self v s : done (populate_said self v) = Ok s <-> exists m, identified v (sd_code self) m /\ s = set_saider self m.
Proof.
  unfold populate_said, done. destruct (vget v (s2b "d")) as [x| |] eqn:Ex; cbn [obind snd fst].
  - destruct (to_string x) as [t| |] eqn:Et; cbn [obind snd fst].
    + assert (x = VStr t) as -> by (destruct x; try discriminate; apply Ok_inj in Et; subst; reflexivity).
      destruct (saider_new _ _ _ _ _ _ _ _ _) as [m| |] eqn:Em; cbn [obind snd fst].
      * apply said_of_ok in Em as [Em I]. cbn [sd_code set_saider]. split.
        -- destruct (bytes_eqb (sd_code self) (m_code m)) eqn:Ec; [|discriminate]. apply bytes_eqb_eq in Ec. intros H. apply Ok_inj in H. subst. exists m. split; [|reflexivity]. exists t. rewrite Ec. auto.
        -- intros [m' [[t' [E1 [E2 [E3 E4]]]] ->]]. rewrite Ex in E1. apply Ok_inj in E1. injection E1 as <-. rewrite Em in E2. apply Ok_inj in E2. subst m'. rewrite <- E3, beqb_refl. reflexivity.
      * split; [discriminate|]. intros [m' [[t' [E1 [E2 [E3 E4]]]] ->]]. rewrite Ex in E1. apply Ok_inj in E1. injection E1 as <-. rewrite <- E3 in E4. pose proof (proj2 (said_of_ok t m') (conj E2 E4)). congruence.
      * split; [discriminate|]. intros [m' [[t' [E1 [E2 [E3 E4]]]] ->]]. rewrite Ex in E1. apply Ok_inj in E1. injection E1 as <-. rewrite <- E3 in E4. pose proof (proj2 (said_of_ok t m') (conj E2 E4)). congruence.
    + split; [discriminate|]. intros [m' [[t' [E1 _]] _]]. rewrite Ex in E1. apply Ok_inj in E1. subst. discriminate.
    + split; [discriminate|]. intros [m' [[t' [E1 _]] _]]. rewrite Ex in E1. apply Ok_inj in E1. subst. discriminate.
  - split; [discriminate|]. intros [m' [[t' [E1 _]] _]]. congruence.
  - split; [discriminate|]. intros [m' [[t' [E1 _]] _]]. congruence.
Qed.
Lemma announces_iff raw ident n : announces raw ident n <-> sniff raw = Ok (VP ident (s2b "JSON") (Ver 1 0) n).
Proof. rewrite C50_sniff_pf. unfold announces. intuition lia. Qed.
Lemma inhale_eq `{F : Floats} raw : inhale raw =
  match sniff raw with
  | Ok (VP i k v n) => if version_eqb v (Ver 1 0) then part <- slice raw 0 n ;; text <- from_utf8 part ;; ked <- from_json text ;; Ok (ked, VP i k v n) else Err E_Value
  | Err e => Err e
  | Panic => Panic
  end.
Proof.
  unfold inhale, current_version. destruct (sniff raw) as [[i k [a b] n]| |] eqn:E; [|reflexivity|reflexivity]. cbn [obind vp_version vp_kind vp_size]. destruct (version_eqb _ _); [|reflexivity]. cbn [negb].
  apply C50_sniff_pf in E as [_ [_ [_ [-> _]]]]. unfold loads. cbn [unwrap_or]. rewrite beqb_refl. destruct (slice raw 0 n); [|reflexivity|reflexivity]. cbn [obind]. destruct (from_utf8 a0); reflexivity.
Qed.
Lemma inhale_ok `{F : Floats} raw v r : inhale raw = Ok (v, r) <-> exists ident n, announces raw ident n /\ n <= len raw /\ utf8_valid (take n raw) = true /\ from_json (take n raw) = Ok v /\ r = VP ident (s2b "JSON") (Ver 1 0) n.
Proof.
  rewrite inhale_eq. split.
  - destruct (sniff raw) as [[i k [a b] n]| |] eqn:E; try discriminate. unfold version_eqb. cbn [v_major v_minor]. destruct (N.eqb_spec a 1) as [->|]; [|discriminate]. destruct (N.eqb_spec b 0) as [->|]; [|discriminate]. cbn [andb]. intros H.
    inv_bind H p Ep. apply slice_inv in Ep as [_ [L ->]]. rewrite N.sub_0_r, drop_0 in H. inv_bind H t Et. unfold from_utf8 in Et. destruct (utf8_valid (take n raw)) eqn:U; [|discriminate]. apply Ok_inj in Et. subst t. inv_bind H k' Ek. apply Ok_inj in H. injection H as <- <-.
    exists i, n. assert (k = s2b "JSON") as -> by (apply C50_sniff_pf in E; tauto). rewrite announces_iff. auto.
  - intros [i [n [A [L [U [J ->]]]]]]. apply announces_iff in A. rewrite A. cbn [version_eqb v_major v_minor N.eqb Pos.eqb andb]. change (version_eqb (Ver 1 0) (Ver 1 0)) with true. cbv iota. rewrite slice_prefix by exact L. cbn [obind]. unfold from_utf8. rewrite U. cbn [obind]. rewrite J. reflexivity.
Qed.
Lemma from_raw_ok `{P : Profile} `{C : Crypto} `{F : Floats} self raw s : done (populate_from_raw self raw) = Ok s <-> exists ident, loaded P F ident (sd_code self) raw s.
Proof.
  unfold populate_from_raw. destruct (inhale raw) as [[v r]| |] eqn:E.
  - pose proof E as E0. apply inhale_ok in E as [i [n [A [L [U [J ->]]]]]]. cbn [vp_size vp_ident vp_kind vp_version]. rewrite slice_prefix by exact L. rewrite populate_ok. cbn [sd_code]. unfold set_saider. cbn [sd_code sd_raw sd_ked sd_ident sd_kind sd_size sd_version]. split.
    + intros [m [I ->]]. exists i, n, v, m. auto 10.
    + intros [i' [n' [v' [m [A' [L' [U' [J' [I' ->]]]]]]]]]. apply announces_iff in A, A'. rewrite A in A'. apply Ok_inj in A'. injection A' as <- <-. rewrite J in J'. apply Ok_inj in J'. subst v'. exists m. auto.
  - cbn [done snd obind]. split; [discriminate|]. intros [i [n [v [m [A [L [U [J [I ->]]]]]]]]]. assert (X : inhale raw = Ok (v, VP i (s2b "JSON") (Ver 1 0) n)) by (apply inhale_ok; eauto 10). congruence.
  - cbn [done snd obind]. split; [discriminate|]. intros [i [n [v [m [A [L [U [J [I ->]]]]]]]]]. assert (X : inhale raw = Ok (v, VP i (s2b "JSON") (Ver 1 0) n)) by (apply inhale_ok; eauto 10). congruence.
Qed.
(** C50: a Serder (Creder) is built from bytes exactly when they announce a version
    1.0 JSON KERI (ACDC) message no longer than they are, the announced part reads
    as an object, and its "d" is the text of a digest of the expected code; then it
    holds that part and nothing of what follows it. *)
Lemma C50_load_pf : forall (P : Profile) (C : Crypto) (F : Floats) (code kind : option bytes) (ked : option data) (sad : option sadder) (raw : bytes) (s : sadder),
  (serder_new code (Some raw) kind ked sad = Ok s <-> loaded P F (s2b "KERI") (unwrap_or code (s2b "E")) raw s) /\
  (creder_new code (Some raw) kind ked sad = Ok s <-> loaded P F (s2b "ACDC") (unwrap_or code (s2b "E")) raw s).
Proof.
  assert (X : forall (P : Profile) (C : Crypto) (F : Floats) (e : error) (i code : bytes) raw kind ked sad s, (t <- sadder_new i (Some code) (Some raw) kind ked sad ;; if bytes_eqb (sd_ident t) i then Ok t else Err e) = Ok s <-> loaded P F i code raw s).
  { intros P C F e i code raw kind ked sad s. unfold sadder_new. cbn [unwrap_or]. split.
    - intros H. inv_bind H t Et. apply from_raw_ok in Et as [j Et]. destruct (bytes_eqb (sd_ident t) i) eqn:Ei; [|discriminate]. apply bytes_eqb_eq in Ei. apply Ok_inj in H. subst t.
      destruct Et as [n [v [m [A [L [U [J [I E]]]]]]]]. rewrite E in Ei. cbn [sd_ident] in Ei. subst j. exists n, v, m. auto 10.
    - intros L. assert (done (populate_from_raw (set_code (sadder_default i) code) raw) = Ok s) as -> by (apply from_raw_ok; exists i; exact L). cbn [obind]. destruct L as [n [v [m [A [L [U [J [I ->]]]]]]]]. cbn [sd_ident]. rewrite beqb_refl. reflexivity. }
  intros P C F code kind ked sad raw s. unfold serder_new, creder_new. split; apply X.
Qed.
(** Loading panics exactly when a version 1.0 JSON message is announced and: fewer
    bytes follow than announced; or its text reads as JSON with a number that a
    value cannot hold (see C47); or what is read has no entry "d"; or "d" is a
    string on which the identifier parser panics (see C09). *)
Lemma C50_load_panics_pf : forall (P : Profile) (C : Crypto) (F : Floats) (code kind : option bytes) (ked : option data) (sad : option sadder) (raw : bytes),
  (serder_new code (Some raw) kind ked sad = Panic <-> creder_new code (Some raw) kind ked sad = Panic) /\
  (serder_new code (Some raw) kind ked sad = Panic <->
   exists ident size, announces raw ident size /\
     (len raw < size \/ size <= len raw /\ utf8_valid (take size raw) = true /\
      (from_json (take size raw) = Panic \/ exists v, from_json (take size raw) = Ok v /\
        ((forall x, vget v (s2b "d") <> Ok x) \/ exists t, vget v (s2b "d") = Ok (VStr t) /\ parse_text t = Panic)))).
Proof.
  assert (Y : forall (P : Profile) (C : Crypto) (F : Floats) (self : sadder) raw, done (populate_from_raw self raw) = Panic <-> exists ident size, announces raw ident size /\
     (len raw < size \/ size <= len raw /\ utf8_valid (take size raw) = true /\
      (from_json (take size raw) = Panic \/ exists v, from_json (take size raw) = Ok v /\
        ((forall x, vget v (s2b "d") <> Ok x) \/ exists t, vget v (s2b "d") = Ok (VStr t) /\ parse_text t = Panic)))).
  { intros P C F self raw. unfold populate_from_raw. rewrite inhale_eq. destruct (sniff raw) as [[i k [a b] n]|e|] eqn:E.
    2:{ split; [discriminate|]. intros [i [n [A _]]]. apply announces_iff in A. congruence. }
    2:{ destruct (C50_sniff_total_pf raw E). }
    unfold version_eqb. cbn [v_major v_minor]. destruct ((a =? 1) && (b =? 0)) eqn:V.
    2:{ split; [discriminate|]. intros [i' [n' [A _]]]. apply announces_iff in A. rewrite E in A. apply Ok_inj in A. injection A as <- -> -> -> <-. discriminate V. }
    apply andb_true_iff in V as [Va Vb]. apply N.eqb_eq in Va, Vb. subst a b. assert (k = s2b "JSON") as -> by (apply C50_sniff_pf in E; tauto).
    assert (A : announces raw i n) by (apply announces_iff; exact E).
    assert (U : forall (Q : bytes -> N -> Prop), (exists i' n', announces raw i' n' /\ Q i' n') <-> Q i n).
    { intros Q. split; [|eauto]. intros [i' [n' [A' H]]]. apply announces_iff in A'. rewrite E in A'. apply Ok_inj in A'. injection A' as <- <-. exact H. }
    rewrite U. clear U. destruct (N.lt_ge_cases (len raw) n) as [L|L].
    { unfold slice. replace (n <=? len raw) with false by lia. rewrite andb_false_r. cbn [obind]. cbn [done snd obind]. tauto. }
    rewrite slice_prefix by exact L. cbn [obind]. unfold from_utf8. destruct (utf8_valid (take n raw)) eqn:U. 2:{ cbn [obind done snd]. split; [discriminate|]. intros [H|[_ [H _]]]; [lia|discriminate]. }
    cbn [obind]. destruct (from_json (take n raw)) as [v| |] eqn:J; cbn [obind done snd].
    - cbn [vp_size vp_ident vp_kind vp_version]. rewrite slice_prefix by exact L. cbn [obind]. unfold populate_said. destruct (vget v (s2b "d")) as [x| |] eqn:Ex; cbn [obind].
      + split.
        * intros H. right. split; [exact L|]. split; [reflexivity|]. right. exists v. split; [reflexivity|]. rewrite Ex. right. destruct x; try discriminate. cbn [to_string obind] in H. exists s. split; [reflexivity|]. rewrite said_of in H.
          destruct (parse_text s) as [m| |]; [|discriminate|reflexivity]. cbn [obind] in H. unfold validate in H. destruct (mem_code _ _); cbn [obind done snd fst] in H; [|discriminate]. destruct (bytes_eqb _ _); discriminate.
        * intros [H|[_ [_ [H|[v' [H1 [H2|[t [H2 H3]]]]]]]]]; [lia|discriminate| |]; apply Ok_inj in H1; subst v'.
          -- destruct (H2 x). exact Ex.
          -- rewrite Ex in H2. apply Ok_inj in H2. subst x. cbn [to_string obind]. rewrite said_of, H3. reflexivity.
      + exfalso. destruct v; cbn [vget] in Ex; try discriminate. destruct (map_get _ _); discriminate.
      + split; [|reflexivity]. intros _. right. split; [exact L|]. split; [reflexivity|]. right. exists v. split; [reflexivity|]. left. intros x H. congruence.
    - split; [discriminate|]. intros [H|[_ [_ [H|[v' [H1 _]]]]]]; [lia|discriminate|discriminate].
    - split; [|reflexivity]. intros _. right. split; [exact L|]. split; [reflexivity|]. left. reflexivity. }
  assert (X : forall (P : Profile) (C : Crypto) (F : Floats) (e : error) (i code : bytes) raw kind ked sad, (t <- sadder_new i (Some code) (Some raw) kind ked sad ;; if bytes_eqb (sd_ident t) i then Ok t else Err e) = Panic <-> done (populate_from_raw (set_code (sadder_default i) code) raw) = Panic).
  { intros P C F e i code raw kind ked sad. unfold sadder_new. cbn [unwrap_or]. destruct (done _); cbn [obind]; [|split; discriminate|tauto]. destruct (bytes_eqb _ _); split; discriminate. }
  intros P C F code kind ked sad raw. unfold serder_new, creder_new. rewrite !X, !Y. tauto.
Qed.
(** a message with trailing text loads, and holds only the message; a message
    announcing too much, or without "d", or holding 1e300, panics *)
Lemma C50_load_ex_pf : forall P : Profile, let said := s2b "E" ++ rep 65 43 in let msg := s2b "{""v"":""KERI10JSON00004c_"",""d"":""" ++ said ++ s2b """}" in
  serder_new (H0 := toy_crypto) (H1 := toy_floats) None (Some (msg ++ s2b "-AAB")) None None None =
    Ok (Sdr (s2b "E") msg (VObj [(s2b "v", VStr (s2b "KERI10JSON00004c_")); (s2b "d", VStr said)]) (s2b "KERI") (s2b "JSON") 76 (Ver 1 0) (Mat (s2b "E") 0 (rep 0 32))) /\
  creder_new (H0 := toy_crypto) (H1 := toy_floats) None (Some msg) None None None = Err E_Value /\
  serder_new (H0 := toy_crypto) (H1 := toy_floats) (Some (s2b "F")) (Some msg) None None None = Err E_Validation /\
  serder_new (H0 := toy_crypto) (H1 := toy_floats) None (Some (take 75 msg)) None None None = Panic /\
  serder_new (H0 := toy_crypto) (H1 := toy_floats) None (Some (s2b "{""v"":""KERI10JSON00001f_"",""x"":1}")) None None None = Panic /\
  serder_new (H0 := toy_crypto) (H1 := toy_floats) None (Some (s2b "{""v"":""KERI10JSON000023_"",""x"":1e300}")) None None None = Panic.
Proof. intros P said msg. vm_compute. auto 10. Qed.

Lemma digest_len `{P : Profile} t m : parse_text t = Ok m -> In (m_code m) (map fst digest_sizes) -> 44 <= len t.
Proof.
  intros H I. destruct (C05_text_canonical_pf P t m H) as [k [Hk [L _]]]. enough (44 <= k) by lia. unfold matter_full_size in Hk. destruct m as [c z r]. cbn [m_code m_size] in *.
  repeat (destruct I as [<-|I]; [vm_compute in Hk; apply Ok_inj in Hk; lia|]). destruct I.
Qed.
(** ** the announcement depends on the first 29 bytes *)
Lemma match_at_take p s n : len p <= n -> match_at p (take n s) = match_at p s.
Proof.
  revert s n. induction p as [|f p IH]; intros s n L; [reflexivity|]. rewrite len_cons in L. destruct s as [|c s]; [rewrite take_all by (rewrite len_nil; lia); reflexivity|].
  replace (take n (c :: s)) with (c :: take (n - 1) s). { cbn [match_at]. rewrite IH by lia. reflexivity. } unfold take. replace (N.to_nat n) with (S (N.to_nat (n - 1))) by Lia.lia. reflexivity.
Qed.
Lemma rever_at_head s s' j : take 29 s = take 29 s' -> j <= 12 -> rever_at (drop j s) = rever_at (drop j s').
Proof.
  intros E L. unfold rever_at. rewrite <- (match_at_take _ (drop j s) 17) by (vm_compute; discriminate). rewrite <- (match_at_take _ (drop j s') 17) by (vm_compute; discriminate).
  replace (take 17 (drop j s)) with (take 17 (drop j (take 29 s))) by (rewrite drop_take, take_take; f_equal; lia). replace (take 17 (drop j s')) with (take 17 (drop j (take 29 s'))) by (rewrite drop_take, take_take; f_equal; lia). rewrite E. reflexivity.
Qed.
Lemma rever_find_head s s' k : take 29 s = take 29 s' -> k <= 12 -> rever_find s = Some k -> rever_find s' = Some k.
Proof.
  intros E L H. pose proof (rever_find_spec s) as S1. rewrite H in S1. destruct S1 as [L1 [A1 N1]]. pose proof (rever_find_spec s') as S2. destruct (rever_find s') as [k'|].
  - destruct S2 as [L2 [A2 N2]]. destruct (N.lt_trichotomy k k') as [X|[->|X]]; [|reflexivity|].
    + specialize (N2 k X). rewrite (rever_at_head s s') in A1 by auto. congruence.
    + specialize (N1 k' X). rewrite (rever_at_head s s') in N1 by (auto; lia). congruence.
  - specialize (S2 k). rewrite (rever_at_head s s') in A1 by auto. congruence.
Qed.
Lemma announces_head raw raw' i n : take 29 raw = take 29 raw' -> 29 <= len raw' -> utf8_valid raw' = true -> announces raw i n -> announces raw' i n.
Proof.
  intros E L U [L0 [U0 [T [Hn [k [r [Lk [F Er]]]]]]]]. split; [exact L|]. split; [exact U|]. split; [exact T|]. split; [exact Hn|]. exists k, (drop (k + 17) raw'). split; [exact Lk|].
  apply rever_find_first in F. split; [apply rever_find_first; apply (rever_find_head raw); auto|].
  assert (X : take (k + 17) raw = take k raw ++ version_text i 1 0 (s2b "JSON") n).
  { rewrite Er at 1. rewrite app_assoc. apply take_app_exact. rewrite len_app, len_take, version_text_len by (auto; apply json_tag). lia. }
  assert (Y : forall j, j <= 29 -> take j raw' = take j raw). { intros j Lj. replace j with (N.min j 29) by lia. rewrite <- !take_take, E. reflexivity. }
  rewrite app_assoc, (Y k), <- X by lia. rewrite <- (Y (k + 17)) by lia. symmetry. apply take_drop_id.
Qed.
(** C55: what was loaded loads again, alone or followed by any text, as the same message. *)
Lemma C55_load_again_pf : forall (P : Profile) (C : Crypto) (F : Floats) (code : option bytes) (raw tail : bytes) (s : sadder), utf8_valid tail = true ->
  (serder_new code (Some raw) None None None = Ok s -> serder_new code (Some (sd_raw s ++ tail)) None None None = Ok s) /\
  (creder_new code (Some raw) None None None = Ok s -> creder_new code (Some (sd_raw s ++ tail)) None None None = Ok s).
Proof.
  assert (X : forall (P : Profile) (F : Floats) i code raw tail s, utf8_valid tail = true -> loaded P F i code raw s -> loaded P F i code (sd_raw s ++ tail) s).
  { intros P F i code raw tail s Ut [n [v [m [A [L [U [J [I ->]]]]]]]]. cbn [sd_raw]. assert (Lp : len (take n raw) = n) by (rewrite len_take; lia).
    assert (Ln : 44 <= n).
    { destruct I as [t [G [Pt [Ec Ic]]]]. destruct v as [| | | | | |o]; try discriminate. cbn [vget] in G. destruct (map_get (s2b "d") o) as [x|] eqn:M; [|discriminate]. apply Ok_inj in G. subst x. pose proof (from_json_len _ _ _ _ J M) as Lt. rewrite Lp in Lt.
      pose proof (digest_len _ _ Pt ltac:(rewrite Ec; exact Ic)). lia. }
    exists n, v, m. split; [|split; [rewrite len_app; lia|split; [rewrite take_app_exact by exact Lp; exact U|split; [rewrite take_app_exact by exact Lp; exact J|split; [exact I|rewrite take_app_exact by exact Lp; reflexivity]]]]].
    apply (announces_head raw); [|rewrite len_app; lia|rewrite utf8_app by exact U; exact Ut|exact A]. rewrite take_app, Lp. replace (29 - n) with 0 by lia. rewrite take_take. replace (N.min 29 n) with 29 by lia. symmetry. apply app_nil_r. }
  intros P C F code raw tail s Ut. split; intros H; apply C50_load_pf in H; apply C50_load_pf; eapply X; eauto.
Qed.
Lemma from_ked_ok `{P : Profile} `{C : Crypto} self ked kind s : done (populate_from_ked self ked kind) = Ok s <->
  exists r m, sizeify ked kind = Ok r /\ identified (sz_ked r) (sd_code self) m /\ s = Sdr (sd_code self) (sz_raw r) (sz_ked r) (sz_ident r) (sz_kind r) (as_u32 (len (sz_raw r))) (sz_version r) m.
Proof.
  unfold populate_from_ked, exhale. destruct (sizeify ked kind) as [r| |] eqn:E.
  - rewrite populate_ok. cbn [sd_code]. unfold set_saider. cbn [sd_code sd_raw sd_ked sd_ident sd_kind sd_size sd_version]. split.
    + intros [m [I ->]]. exists r, m. auto.
    + intros [r' [m [H [I ->]]]]. apply Ok_inj in H. subst r'. exists m. auto.
  - cbn [done snd obind]. split; [discriminate|]. intros [r [m [H _]]]. discriminate.
  - cbn [done snd obind]. split; [discriminate|]. intros [r [m [H _]]]. discriminate.
Qed.
Lemma vtext_inj i j a b : tag i -> tag j -> a < 2 ^ 24 -> b < 2 ^ 24 -> version_text i 1 0 (s2b "JSON") a = version_text j 1 0 (s2b "JSON") b -> i = j /\ a = b.
Proof.
  intros Ti Tj La Lb E. destruct (groups i 1 0 (s2b "JSON") a Ti json_tag ltac:(lia) ltac:(lia) La) as [_ [G1 [_ [_ [_ G5]]]]]. destruct (groups j 1 0 (s2b "JSON") b Tj json_tag ltac:(lia) ltac:(lia) Lb) as [_ [K1 [_ [_ [_ K5]]]]].
  rewrite E in *. split; [congruence|]. apply (hex_text_inj 6); [exact La|exact Lb|congruence].
Qed.
(** C55: a Serder (Creder) is made from an object in which the entries before "v"
    take at most 7 characters of JSON exactly when "v" is a KERI (ACDC) version
    1.0 JSON version string, the size fits and "d" is a digest text of the code; raw is
    the JSON of the stored object, whose version string states its size. *)
Lemma C55_from_ked_pf : forall (P : Profile) (C : Crypto) (F : Floats) (code kind : option bytes) (sad : option sadder) (pre post : list (bytes * data)) (vs : bytes) (s : sadder),
  ~ In (s2b "v") (map fst pre) -> len (to_json (VObj pre)) <= 7 -> let obj x := VObj (pre ++ (s2b "v", VStr x) :: post) in
  (serder_new code None kind (Some (obj vs)) sad = Ok s <-> made P (s2b "KERI") (unwrap_or code (s2b "E")) kind obj vs s) /\
  (creder_new code None kind (Some (obj vs)) sad = Ok s <-> made P (s2b "ACDC") (unwrap_or code (s2b "E")) kind obj vs s).
Proof.
  assert (X : forall (P : Profile) (C : Crypto) (F : Floats) (e : error) (i code : bytes) kind pre post vs sad s, In i idents -> ~ In (s2b "v") (map fst pre) -> len (to_json (VObj pre)) <= 7 -> let obj x := VObj (pre ++ (s2b "v", VStr x) :: post) in
    (t <- sadder_new i (Some code) None kind (Some (obj vs)) sad ;; if bytes_eqb (sd_ident t) i then Ok t else Err e) = Ok s <-> made P i code kind obj vs s).
  { intros P C F e i code kind pre post vs sad s Hi Nv L obj. unfold sadder_new. cbn [unwrap_or].
    assert (Z : forall j m n, In j idents -> m < 2 ^ 24 -> n < 2 ^ 24 -> len (to_json (obj (version_text j 1 0 (s2b "JSON") m))) = len (to_json (obj (version_text j 1 0 (s2b "JSON") n)))).
    { intros j m n Hj Lm Ln. unfold obj. rewrite !obj_split by (apply plain_version, vtext_like; auto; lia). rewrite !len_app, !version_text_len by (auto using known_tag, json_tag). reflexivity. }
    assert (Y : forall t, done (populate_from_ked (set_code (sadder_default i) code) (obj vs) kind) = Ok t <-> made P (sd_ident t) code kind obj vs t /\ In (sd_ident t) idents).
    { intros t. rewrite from_ked_ok. cbn [sd_code set_code]. unfold made. split.
      - intros [r [m [S [I ->]]]]. cbn [sd_ident]. apply C49_sizeify_pf in S; auto. destruct S as [j [old [Hj [Lo [-> [Hk [Ls [E1 [E2 [E3 [E4 E5]]]]]]]]]]]. rewrite E3, E4, E5 in *. fold (obj (version_text j 1 0 (s2b "JSON") old)) in *.
        assert (Hj' : In j idents) by (destruct Hj as [-> | ->]; cbn; auto). split; [|exact Hj'].
        exists old, m. split; [exact Lo|]. split; [reflexivity|]. split; [exact Hk|]. split; [exact Ls|]. rewrite E1 in *. fold (obj (version_text j 1 0 (s2b "JSON") (len (to_json (obj (version_text j 1 0 (s2b "JSON") old))) mod 2 ^ 32))) in *. split; [exact I|]. rewrite E2. f_equal. unfold as_u32, U32. f_equal. apply Z; auto.
      - intros [[old [m [Lo [Ev [Hk [Ls [I Et]]]]]]] Hj]. set (j := sd_ident t) in *. clearbody j. subst vs.
        exists (SZ (to_json (obj (version_text j 1 0 (s2b "JSON") (len (to_json (obj (version_text j 1 0 (s2b "JSON") old))) mod 2 ^ 32)))) j (s2b "JSON") (obj (version_text j 1 0 (s2b "JSON") (len (to_json (obj (version_text j 1 0 (s2b "JSON") old))) mod 2 ^ 32))) (Ver 1 0)), m.
        split; [apply C49_sizeify_pf; auto; exists j, old; repeat split; auto; destruct Hj as [<-|[<-|[]]]; auto|]. cbn [sz_ked sz_raw sz_ident sz_kind sz_version]. split; [exact I|]. rewrite Et. f_equal. unfold as_u32, U32. f_equal. apply Z; auto. }
    split.
    - intros H. inv_bind H t Et. apply Y in Et as [Et _]. destruct (bytes_eqb (sd_ident t) i) eqn:Ei; [|discriminate]. apply bytes_eqb_eq in Ei. apply Ok_inj in H. subst t. rewrite Ei in Et. exact Et.
    - intros H. assert (Es : sd_ident s = i). { destruct H as [old [m [_ [_ [_ [_ [_ ->]]]]]]]. reflexivity. }
      assert (done (populate_from_ked (set_code (sadder_default i) code) (obj vs) kind) = Ok s) as -> by (apply Y; rewrite Es; auto). cbn [obind]. rewrite Es, beqb_refl. reflexivity. }
  intros P C F code kind sad pre post vs s Nv L obj. unfold serder_new, creder_new. split; apply X; auto; cbn; auto.
Qed.
Lemma survives_version (F : Floats) pre post vs j n : survives F (VObj (pre ++ (s2b "v", VStr vs) :: post)) -> In j idents -> n < 2 ^ 24 -> survives F (VObj (pre ++ (s2b "v", VStr (version_text j 1 0 (s2b "JSON") n)) :: post)).
Proof.
  intros [G [T D]] Hj Hn. assert (I : forall x k v, In (k, v) (pre ++ (s2b "v", VStr x) :: post) -> k = s2b "v" /\ v = VStr x \/ In (k, v) (pre ++ (s2b "v", VStr vs) :: post)).
  { intros x k v H. apply in_app_iff in H as [H|[H|H]]; [right; apply in_app_iff; auto|injection H as <- <-; auto|right; apply in_app_iff; cbn; auto]. }
  split; [|split].
  - inversion G as [| | | | | |? N M]; subst. constructor; [rewrite map_app in *; exact N|]. intros k v H. apply I in H as [[-> ->]|H]; [constructor|eauto].
  - inversion T as [| | | | | |? M]; subst. constructor. intros k v H. apply I in H as [[-> ->]|H]; [|eauto]. split; [reflexivity|]. constructor. apply utf8_ascii_list. intros c Hc.
    apply (version_like_chars _ _ (vtext_like j 1 0 n Hj ltac:(lia) ltac:(lia) Hn)) in Hc. lia.
  - cbn [depth] in *. rewrite map_app in *. exact D.
Qed.
(** C55: then the parts agree, making it again from the stored object gives it
    back, and so does loading its raw bytes, alone or followed by any text, if its
    values survive JSON (see C46). *)
Lemma C55_consistent_pf : forall (P : Profile) (C : Crypto) (F : Floats) (code kind : option bytes) (sad : option sadder) (pre post : list (bytes * data)) (vs : bytes) (s : sadder),
  ~ In (s2b "v") (map fst pre) -> len (to_json (VObj pre)) <= 7 -> let ked := VObj (pre ++ (s2b "v", VStr vs) :: post) in len (to_json ked) < 2 ^ 32 ->
  forall new, new = serder_new \/ new = creder_new -> new code None kind (Some ked) sad = Ok s ->
  sd_raw s = to_json (sd_ked s) /\ sd_size s = len (sd_raw s) /\ sd_code s = unwrap_or code (s2b "E") /\ sd_kind s = s2b "JSON" /\ sd_version s = Ver 1 0 /\
  vget (sd_ked s) (s2b "v") = Ok (VStr (version_text (sd_ident s) 1 0 (s2b "JSON") (sd_size s))) /\
  (forall k, k <> s2b "v" -> vget (sd_ked s) k = vget ked k) /\
  (exists t, vget ked (s2b "d") = Ok (VStr t) /\ parse_text t = Ok (sd_saider s)) /\
  new code None kind (Some (sd_ked s)) sad = Ok s /\
  (survives F ked -> forall tail, utf8_valid tail = true -> new code (Some (sd_raw s ++ tail)) kind None sad = Ok s).
Proof.
  intros P C F code kind sad pre post vs s Nv L ked L32 new Hnew H. set (obj x := VObj (pre ++ (s2b "v", VStr x) :: post)).
  assert (B : exists i, In i idents /\ (forall x t, new code None kind (Some (obj x)) sad = Ok t <-> made P i (unwrap_or code (s2b "E")) kind obj x t) /\ (forall r t, new code (Some r) kind None sad = Ok t <-> loaded P F i (unwrap_or code (s2b "E")) r t)).
  { destruct Hnew as [-> | ->]; [exists (s2b "KERI")|exists (s2b "ACDC")]; (split; [cbn; auto|]); split; intros; try (apply C55_from_ked_pf; auto); apply C50_load_pf. }
  clear Hnew. destruct B as [i [Hi [Bk Br]]]. apply Bk in H. destruct H as [old [m [Lo [Ev [Hk [Ls [I ->]]]]]]]. fold ked in Ls, I |- *. cbn [sd_raw sd_ked sd_size sd_code sd_kind sd_version sd_ident sd_saider].
  change (obj vs) with ked in *. rewrite (N.mod_small _ _ L32) in *. set (n := len (to_json ked)) in *.
  assert (Z : len (to_json (obj (version_text i 1 0 (s2b "JSON") n))) = n).
  { assert (Z0 : forall a b, a < 2 ^ 24 -> b < 2 ^ 24 -> len (to_json (obj (version_text i 1 0 (s2b "JSON") a))) = len (to_json (obj (version_text i 1 0 (s2b "JSON") b)))).
    { intros a b La Lb. unfold obj. rewrite !obj_split by (apply plain_version, vtext_like; auto; lia). rewrite !len_app, !version_text_len by (auto using known_tag, json_tag). reflexivity. }
    unfold n at 2. change ked with (obj vs). rewrite Ev. apply Z0; auto. }
  assert (V : forall k, k <> s2b "v" -> vget (obj (version_text i 1 0 (s2b "JSON") n)) k = vget ked k).
  { intros k Nk. unfold obj, ked. cbn [vget]. assert (E : forall x, map_get k (pre ++ (s2b "v", VStr x) :: post) = map_get k (pre ++ post)).
    { intros x. clear -Nk. induction pre as [|[k' y] pre IH]; cbn [app map_get]; [destruct (bytes_eqb (s2b "v") k) eqn:E; [apply bytes_eqb_eq in E; congruence|]; destruct (bytes_eqb k (s2b "v")) eqn:E'; [apply bytes_eqb_eq in E'; congruence|reflexivity]|]. rewrite IH. reflexivity. }
    rewrite !E. reflexivity. }
  split; [reflexivity|]. split; [symmetry; exact Z|]. split; [reflexivity|]. split; [reflexivity|]. split; [reflexivity|]. split; [unfold obj; cbn [vget]; rewrite map_get_mid by exact Nv; reflexivity|]. split; [exact V|].
  split. { destruct I as [t [G [Pt _]]]. exists t. rewrite <- V by discriminate. auto. }
  split.
  - apply Bk. exists n, m. rewrite Z, (N.mod_small n) by exact L32. auto 10.
  - intros Sv tail Ut. apply Br. destruct (survives_version F pre post vs i n Sv Hi Ls) as [G [T D]]. fold (obj (version_text i 1 0 (s2b "JSON") n)) in G, T, D. set (v := obj (version_text i 1 0 (s2b "JSON") n)) in *.
    assert (U : utf8_valid (to_json v) = true) by (eapply utf8_json; [|exact G|exact T]; cbn; tauto).
    assert (L29 : 44 <= n).
    { destruct I as [t [Gt [Pt [Ec Ic]]]]. unfold v, obj in Gt. cbn [vget] in Gt. destruct (map_get (s2b "d") _) as [x|] eqn:M; [|discriminate]. apply Ok_inj in Gt. subst x. pose proof (string_in_obj _ _ _ M) as X. pose proof (digest_len _ _ Pt ltac:(rewrite Ec; exact Ic)). fold (obj (version_text i 1 0 (s2b "JSON") n)) in X. fold v in X. lia. }
    exists n, v, m. rewrite take_app_exact by exact Z. split; [|split; [rewrite len_app; lia|split; [exact U|split; [|split; [exact I|reflexivity]]]]].
    + apply (announces_head (to_json v)); [rewrite take_app, Z; replace (29 - n) with 0 by lia; symmetry; apply app_nil_r|rewrite len_app; lia|rewrite utf8_app by exact U; exact Ut|].
      destruct (find_in_obj pre (version_text i 1 0 (s2b "JSON") n) post L (vtext_like i 1 0 n Hi ltac:(lia) ltac:(lia) Ls)) as [Fi Li]. fold (obj (version_text i 1 0 (s2b "JSON") n)) in Fi. fold v in Fi.
      split; [lia|]. split; [exact U|]. split; [apply known_tag; exact Hi|]. split; [exact Ls|]. exists (len (obj_head (s2b "v") pre)), (obj_tail post). split; [exact Li|]. split; [apply rever_find_first; exact Fi|].
      unfold v, obj. rewrite obj_split by (apply plain_version, vtext_like; auto; lia). rewrite take_app_exact by reflexivity. reflexivity.
    + apply C46_json_round_trip_pf; auto.
Qed.
(** C55: repopulating sets every field as construction does, whatever was there before ... *)
Lemma C55_populate_pf : forall (P : Profile) (C : Crypto) (F : Floats) (self s : sadder) (raw : bytes) (ked : data) (kind : option bytes),
  (populate_from_raw self raw = (s, Ok tt) <-> exists ident, loaded P F ident (sd_code self) raw s) /\
  (populate_from_ked self ked kind = (s, Ok tt) -> forall other, sd_code other = sd_code self -> populate_from_ked other ked kind = (s, Ok tt)) /\
  (forall k, populate_from_kind_and_self self k = populate_from_ked self (sd_ked self) (Some k)) /\
  (serder_new (Some (sd_code self)) None kind (Some ked) None = Ok s <-> populate_from_ked self ked kind = (s, Ok tt) /\ sd_ident s = s2b "KERI") /\
  (creder_new (Some (sd_code self)) None kind (Some ked) None = Ok s <-> populate_from_ked self ked kind = (s, Ok tt) /\ sd_ident s = s2b "ACDC").
Proof.
  assert (D : forall r (s : sadder), done r = Ok s <-> r = (s, Ok tt)). { intros [s' [[]| |]] s; unfold done; cbn [snd fst obind]; split; intros H; try discriminate; [apply Ok_inj in H|injection H as H]; subst; reflexivity. }
  intros P C F self s raw ked kind. split; [rewrite <- D; apply from_raw_ok|]. rewrite <- D. split; [|split; [reflexivity|]].
  - intros H other E. rewrite <- D. apply from_ked_ok in H. apply from_ked_ok. rewrite E. exact H.
  - unfold serder_new, creder_new, sadder_new. cbn [unwrap_or].
    assert (X : forall i, done (populate_from_ked (set_code (sadder_default i) (sd_code self)) ked kind) = Ok s <-> done (populate_from_ked self ked kind) = Ok s) by (intros i; rewrite !from_ked_ok; cbn [sd_code set_code]; tauto).
    split; (split; [intros H; inv_bind H t Et; destruct (bytes_eqb (sd_ident t) _) eqn:Ei; [|discriminate]; apply bytes_eqb_eq in Ei; apply Ok_inj in H; subst t; split; [apply X in Et; exact Et|exact Ei]|intros [H Ei]; rewrite (proj2 (X _) H); cbn [obind]; rewrite Ei; rewrite beqb_refl; reflexivity]).
Qed.
(** ... but a failed repopulation can leave the object changed, in part. *)
Lemma C55_populate_atomic_refuted_pf : exists raw s s' e, forall P : Profile, serder_new (H0 := toy_crypto) (H1 := toy_floats) None (Some raw) None None None = Ok s /\
  exists raw2, populate_from_raw (H0 := toy_crypto) (H1 := toy_floats) s raw2 = (s', Err e) /\ sd_raw s' <> sd_raw s /\ sd_saider s' = sd_saider s.
Proof.
  set (said := s2b "E" ++ rep 65 43). set (msg := s2b "{""v"":""KERI10JSON00004c_"",""d"":""" ++ said ++ s2b """}"). set (bad := s2b "{""v"":""KERI10JSON000028_"",""d"":""MAAA"",""x"":1}").
  exists msg, (Sdr (s2b "E") msg (VObj [(s2b "v", VStr (s2b "KERI10JSON00004c_")); (s2b "d", VStr said)]) (s2b "KERI") (s2b "JSON") 76 (Ver 1 0) (Mat (s2b "E") 0 (rep 0 32))),
    (Sdr (s2b "E") (s2b "{""v"":""KERI10JSON00002a_"",""d"":""MAAA"",""x"":1}") (VObj [(s2b "v", VStr (s2b "KERI10JSON00002a_")); (s2b "d", VStr (s2b "MAAA")); (s2b "x", VInt 1)]) (s2b "KERI") (s2b "JSON") 42 (Ver 1 0) (Mat (s2b "E") 0 (rep 0 32))), E_UnexpectedCode.
  intros P. split; [vm_compute; reflexivity|]. exists (s2b "{""v"":""KERI10JSON00002a_"",""d"":""MAAA"",""x"":1}"). split; [vm_compute; reflexivity|]. split; [vm_compute; discriminate|reflexivity].
Qed.
(** C55: loading does not check the identifier: this message loads although its "d" is not the digest of its contents. *)
Lemma C55_said_verified_refuted_pf : exists raw s, forall P : Profile, serder_new (H0 := toy_crypto) (H1 := toy_floats) None (Some raw) None None None = Ok s /\
  said_verify (H0 := toy_crypto) (sd_saider s) (sd_ked s) None None None None None = Ok false.
Proof.
  set (said := s2b "E" ++ rep 65 43). set (msg := s2b "{""v"":""KERI10JSON00004c_"",""d"":""" ++ said ++ s2b """}").
  exists msg, (Sdr (s2b "E") msg (VObj [(s2b "v", VStr (s2b "KERI10JSON00004c_")); (s2b "d", VStr said)]) (s2b "KERI") (s2b "JSON") 76 (Ver 1 0) (Mat (s2b "E") 0 (rep 0 32))).
  intros P. vm_compute. auto.
Qed.
(** an object that satisfies the hypotheses of the theorems on C55 *)
Lemma C55_consistent_ex_pf : forall P : Profile, let said := s2b "E" ++ rep 65 43 in let ked vs := VObj [(s2b "v", VStr vs); (s2b "d", VStr said); (s2b "a", VArr [VInt 1; VStr [195; 169]])] in
  (exists s, serder_new (H0 := toy_crypto) (H1 := toy_floats) None None None (Some (ked (s2b "KERI10JSON000000_"))) None = Ok s /\ sd_size s = 89 /\ sd_ked s = ked (s2b "KERI10JSON000059_")) /\ survives toy_floats (ked (s2b "KERI10JSON000000_")).
Proof.
  intros P said ked. split; [eexists; split; [vm_compute; reflexivity|split; vm_compute; reflexivity]|]. split; [|split; [|vm_compute; discriminate]].
  - constructor; [repeat constructor; cbn; intuition discriminate|]. intros k v [E|[E|[E|[]]]]; injection E as <- <-; constructor. intros w [<-|[<-|[]]]; constructor. Lia.lia.
  - constructor. intros k v [E|[E|[E|[]]]]; injection E as <- <-; split; try (vm_compute; reflexivity); constructor; try (vm_compute; reflexivity). intros w [<-|[<-|[]]]; constructor. vm_compute. reflexivity.
Qed.
