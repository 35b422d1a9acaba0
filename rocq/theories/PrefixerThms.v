(** Proofs of the properties of identifier prefixes (Prefixer). *)
From Verif Require Import Base MatterTables Matter StdStr Data Spec MatterDefs Crypto Prims PrimsDefs DataDefs CommonDefs SaiderDefs Prefixer PrefixerDefs.
From Verif Require Import Utf8 Common BaseFacts UtilFacts MatterFacts MatterFacts2 MatterFacts3 SpecFacts MatterFacts4 StdStrFacts MatterThms PrimsFacts PrimsFacts2 PrimsThms DataFacts JsonFacts CommonFacts CommonFacts2 CommonThms DataThms Saider SaiderFacts SaiderFacts2 PrefixerFacts.

Lemma verfer_text (P : Profile) t c m : In c (fixed_key_codes ++ rotating_key_codes) -> verfer_new None None None (Some t) None = Ok m /\ m_code m = c <-> parse_text t = Ok m /\ m_code m = c.
Proof.
  intros I. destruct (C26_verfer_pf P None None None (Some t) None) as (X & _). rewrite X. change (matter_new (Some (unwrap_or None (s2b "B"))) None None (Some t) None) with (parse_text t). split; [intros [[H _] E]; auto|].
  intros [H E]. split; [split; [exact H|]|exact E]. rewrite E. assert (Z : forall x, In x (fixed_key_codes ++ rotating_key_codes) <-> In x key_codes) by (apply mem_iff; vm_compute; reflexivity). apply Z. exact I.
Qed.
Lemma allowed_iff allows c : allowed allows c <-> negb (len (unwrap_or allows []) =? 0) && negb (mem_code c (unwrap_or allows [])) = false.
Proof.
  unfold allowed. destruct allows as [[|a l]|]; cbn [unwrap_or].
  - cbn. split; auto.
  - replace (len (a :: l) =? 0) with false by (symmetry; apply N.eqb_neq; rewrite len_cons; Lia.lia). cbn [negb andb]. rewrite negb_false_iff, mem_code_In. split; [intros [H|[H|(l' & H & I)]]; try discriminate H; injection H as <-; exact I|intros I; right; right; eauto].
  - cbn. split; auto.
Qed.
Lemma with_code (P : Profile) (C : Crypto) (o : list (bytes * data)) allows c m : NoDup (map fst o) -> prefixer_of_ked (VObj o) allows (Some c) = Ok m <->
  In c prefix_codes /\ allowed allows c /\ exists r k, prefix_derive (VObj o) c = Ok (r, k) /\ build k r = Ok m.
Proof.
  intros N. unfold prefixer_of_ked, prefixer_new. cbn [none negb orb obind]. rewrite unit_ok, validate_ok, <- prefix_codes_iff. cbv zeta. rewrite allowed_iff. destruct (_ && _); [split; [intros [_ H]; discriminate H|intros (_ & H & _); discriminate H]|].
  destruct (prefix_derive (VObj o) c) as [[r k]| |]; cbn [obind].
  - split; [intros [I H]; split; [exact I|]; split; [reflexivity|]; exists r, k; auto|]. intros (I & _ & r' & k' & E & B). apply Ok_inj in E. injection E as <- <-. auto.
  - split; [intros [_ H]; discriminate H|intros (_ & _ & r' & k' & E & _); discriminate E].
  - split; [intros [_ H]; discriminate H|intros (_ & _ & r' & k' & E & _); discriminate E].
Qed.
Lemma groups c : In c prefix_codes -> (In c fixed_key_codes /\ mem_code c nontransferable_codes = true) \/
  (In c rotating_key_codes /\ ~ In c fixed_key_codes /\ mem_code c nontransferable_codes = false /\ mem_code c transferable_codes = true) \/
  (In c (map fst digest_sizes) /\ ~ In c fixed_key_codes /\ ~ In c rotating_key_codes /\ mem_code c nontransferable_codes = false /\ mem_code c transferable_codes = false /\ mem_code c digest_codes = true).
Proof.
  intros I. unfold prefix_codes in I. rewrite !in_app_iff in I. rewrite fixed_keys, rotating_keys in *. destruct (mem_code c nontransferable_codes) eqn:E1; [left; split; [apply mem_code_In; exact E1|reflexivity]|]. right. assert (N1 : ~ In c nontransferable_codes) by (intros J; apply mem_code_In in J; congruence).
  destruct (mem_code c transferable_codes) eqn:E2; [left; split; [apply mem_code_In; exact E2|auto]|]. right. assert (N2 : ~ In c transferable_codes) by (intros J; apply mem_code_In in J; congruence). destruct I as [I|[I|I]]; [contradiction|contradiction|]. repeat (split; [assumption|]). split; [reflexivity|]. split; [reflexivity|]. apply mem_code_In, said_codes'. exact I.
Qed.

(** C54: made from an event with the code of a key, a Prefixer is that key: the
    event is an inception event with exactly one key, which has that code; for the
    fixed codes "n", "b" and "a" are absent or empty texts *)
Lemma C54_key_pf : forall (P : Profile) (C : Crypto) (o : list (bytes * data)) (allows : option (list bytes)) (c : bytes) (m : matter),
  NoDup (map fst o) -> In c (fixed_key_codes ++ rotating_key_codes) ->
  prefixer_of_ked (VObj o) allows (Some c) = Ok m <->
  allowed allows c /\ inception o /\ (exists t key, sole_key o t /\ parse_text t = Ok key /\ m_code key = c /\ build c (m_raw key) = Ok m) /\
  (In c fixed_key_codes -> absent_or_empty o (s2b "n") /\ absent_or_empty o (s2b "b") /\ absent_or_empty o (s2b "a")).
Proof.
  intros P C o allows c m N I. rewrite with_code by exact N. assert (Ip : In c prefix_codes) by (unfold prefix_codes; rewrite !in_app_iff; apply in_app_iff in I; tauto).
  assert (T : (exists r k, derive_transferable (VObj o) c = Ok (r, k) /\ build k r = Ok m) <-> exists t key, sole_key o t /\ parse_text t = Ok key /\ m_code key = c /\ build c (m_raw key) = Ok m).
  { split.
    - intros (r & k & D & B). apply derive_t_ok in D as (t & key & K & V & E & X); [|exact N]. injection X as -> ->. destruct (proj1 (verfer_text P t c key I) (conj V E)) as [V' _]. exists t, key. auto.
    - intros (t & key & K & V & E & B). exists (m_raw key), c. split; [|exact B]. apply derive_t_ok; [exact N|]. exists t, key. destruct (proj2 (verfer_text P t c key I) (conj V E)) as [V' _]. auto. }
  unfold prefix_derive. split.
  - intros (_ & A & r & k & D & B). apply ilk_ok in D as [Hi D]; [|exact N]. split; [exact A|]. split; [exact Hi|]. destruct (groups c Ip) as [(If & M)|[(Ir & Nf & M1 & M2)|(Id & Nf & Nr & _)]]; [| |apply in_app_iff in I; tauto].
    + rewrite M in D. apply derive_n_ok in D as [D E]; [|exact N]. split; [apply T; eauto|auto].
    + rewrite M1, M2 in D. split; [apply T; eauto|intros; contradiction].
  - intros (A & Hi & D & F). split; [exact Ip|]. split; [exact A|]. apply T in D as (r & k & D & B). exists r, k. split; [|exact B]. apply ilk_ok; [exact N|]. split; [exact Hi|]. destruct (groups c Ip) as [(If & M)|[(Ir & Nf & M1 & M2)|(Id & Nf & Nr & _)]]; [| |apply in_app_iff in I; tauto].
    + rewrite M. apply derive_n_ok; [exact N|]. auto.
    + rewrite M1, M2. exact D.
Qed.
Lemma C54_key_ex_pf : forall P : Profile,
  let o := [(s2b "v", VStr (s2b "KERI10JSON000000_")); (s2b "t", VStr (s2b "icp")); (s2b "d", VStr []); (s2b "i", VStr []); (s2b "k", VArr [VStr (s2b "BKxy2sgzfplyr-tgwIxS19f2OchFHtLwPWD3v4oYimBx")]); (s2b "n", VStr [])] in
  exists m, prefixer_of_ked (C := toy_crypto) (VObj o) None (Some (s2b "B")) = Ok m /\ matter_qb64 m = Ok (s2b "BKxy2sgzfplyr-tgwIxS19f2OchFHtLwPWD3v4oYimBx") /\ prefixer_verify (C := toy_crypto) m (VObj o) None = Ok true /\
    prefixer_of_ked (C := toy_crypto) (VObj o) None (Some (s2b "D")) = Err E_Derivation.
Proof. intros P o. eexists. split; [vm_compute; reflexivity|]. split; [vm_compute; reflexivity|]. split; vm_compute; reflexivity. Qed.

(** C54: made with a digest code, a Prefixer is the digest of the text of the inception event with placeholders for "d" and "i" *)
Lemma C54_digest_pf : forall (P : Profile) (C : Crypto) (o : list (bytes * data)) (allows : option (list bytes)) (c : bytes) (m : matter),
  hash_contract C -> NoDup (map fst o) -> In c (map fst digest_sizes) ->
  prefixer_of_ked (VObj o) allows (Some c) = Ok m <->
  allowed allows c /\ inception o /\ exists text, event_text (blank c o) text /\ m = Mat c 0 (x_hash c text).
Proof.
  intros P C o allows c m HC N I. rewrite with_code by exact N. assert (Ip : In c prefix_codes) by (unfold prefix_codes; rewrite !in_app_iff; tauto).
  assert (G : mem_code c nontransferable_codes = false /\ mem_code c transferable_codes = false /\ mem_code c digest_codes = true).
  { assert (T : forallb (fun c => negb (mem_code c nontransferable_codes) && negb (mem_code c transferable_codes) && mem_code c digest_codes) (map fst digest_sizes) = true) by (vm_compute; reflexivity). eapply forallb_forall in T; [|exact I]. apply andb_true_iff in T as [T T3]. apply andb_true_iff in T as [T1 T2]. apply negb_true_iff in T1, T2. auto. }
  destruct G as (G1 & G2 & G3). destruct (code_size c I) as [n Hn]. unfold prefix_derive. rewrite G1, G2, G3. split.
  - intros (_ & A & r & k & D & B). apply ilk_ok in D as [Hi D]; [|exact N]. split; [exact A|]. split; [exact Hi|]. apply derive_d_ok in D as (text & T & E); auto. injection E as -> ->. exists text. split; [exact T|]. destruct (HC c n text Hn) as [L _]. unfold build in B. rewrite (said_build c _ n Hn L) in B. apply Ok_inj in B. auto.
  - intros (A & Hi & text & T & ->). split; [exact Ip|]. split; [exact A|]. exists (x_hash c text), c. split; [apply ilk_ok; auto; split; [exact Hi|]; apply derive_d_ok; eauto|]. destruct (HC c n text Hn) as [L _]. exact (said_build c _ n Hn L).
Qed.
Lemma C54_digest_ex_pf : hash_contract toy_crypto /\ forall P : Profile,
  let o := [(s2b "v", VStr (s2b "KERI10JSON000000_")); (s2b "t", VStr (s2b "icp")); (s2b "d", VStr []); (s2b "i", VStr []); (s2b "k", VArr [])] in
  event_text (blank (s2b "E") o) (s2b "{""v"":""KERI10JSON000090_"",""t"":""icp"",""d"":""############################################"",""i"":""############################################"",""k"":[]}") /\
  exists m, prefixer_of_ked (C := toy_crypto) (VObj o) None (Some (s2b "E")) = Ok m /\ m_code m = s2b "E" /\ prefixer_verify (C := toy_crypto) m (VObj o) None = Ok true.
Proof.
  split; [exact (proj1 C53_ex_pf)|]. intros P o. split.
  - exists (s2b "KERI"), 0, 6. split; [vm_compute; left; reflexivity|]. split; [left; reflexivity|]. split; [vm_compute; reflexivity|]. cbv zeta. split; [apply rever_find_first; vm_compute; reflexivity|]. split; [vm_compute; discriminate|]. split; vm_compute; reflexivity.
  - eexists. split; [vm_compute; reflexivity|]. split; vm_compute; reflexivity.
Qed.

(** C54: other codes and codes that are not allowed are rejected, also when the code is that of the entry "i" *)
Lemma C54_code_pf : forall (P : Profile) (C : Crypto) (o : list (bytes * data)) (ked : data) (allows : option (list bytes)) (c : bytes), NoDup (map fst o) ->
  (~ In c prefix_codes \/ ~ allowed allows c -> prefixer_of_ked ked allows (Some c) = Err E_UnexpectedCode) /\
  (~ In (s2b "i") (map fst o) -> prefixer_of_ked (VObj o) allows None = Err E_Validation) /\
  (forall t x, In (s2b "i", VStr t) o -> parse_text t = Ok x -> prefixer_of_ked (VObj o) allows None = prefixer_of_ked (VObj o) allows (Some (m_code x))) /\
  (forall t, In (s2b "i", VStr t) o -> (forall x, parse_text t <> Ok x) -> forall m, prefixer_of_ked (VObj o) allows None <> Ok m) /\
  prefixer_new None allows (Some c) None None None None = Err E_Validation.
Proof.
  intros P C o ked allows c N. split; [|split; [|split; [|split]]].
  - intros H. unfold prefixer_of_ked, prefixer_new. cbn [none negb orb obind]. destruct (in_dec bytes_eq_dec c prefix_codes) as [I|I].
    + rewrite validate_yes by (apply prefix_codes_iff; exact I). cbn [obind]. cbv zeta. destruct H as [H|H]; [contradiction|]. rewrite allowed_iff in H. destruct (_ && _); [reflexivity|destruct (H eq_refl)].
    + rewrite validate_no by (intros J; apply I, prefix_codes_iff; exact J). reflexivity.
  - intros H. unfold prefixer_of_ked, prefixer_new. cbn [none negb orb obind to_map]. replace (contains_key (s2b "i") o) with false; [reflexivity|]. symmetry. apply not_true_iff_false. rewrite key_iff. exact H.
  - intros t x I H. unfold prefixer_of_ked, prefixer_new. cbn [none negb orb obind to_map vget]. apply (In_map_get _ _ _ N) in I. rewrite key_get, I. cbn [negb obind vget]. rewrite I. cbn [obind to_string]. unfold parse_text in H. rewrite H. reflexivity.
  - intros t I H m. unfold prefixer_of_ked, prefixer_new. cbn [none negb orb obind to_map vget]. apply (In_map_get _ _ _ N) in I. rewrite key_get, I. cbn [negb obind vget]. rewrite I. cbn [obind to_string]. fold (parse_text t). destruct (parse_text t) as [x| |]; [destruct (H x eq_refl)|discriminate|discriminate].
  - reflexivity.
Qed.
Lemma C54_code_ex_pf : forall P : Profile, ~ In (s2b "M") prefix_codes /\ ~ allowed (Some [s2b "D"]) (s2b "E") /\ allowed (Some [s2b "D"; s2b "E"]) (s2b "E").
Proof. intros P. split; [vm_compute; intuition discriminate|]. split; [intros [H|[H|(l & H & I)]]; try discriminate H; injection H as <-; destruct I as [I|[]]; discriminate I|]. right. right. eexists. split; [reflexivity|]. right. left. reflexivity. Qed.

(** C54: a Prefixer made from material is what the general constructor returns; only the code argument is checked *)
Lemma C54_material_pf : forall (P : Profile) (C : Crypto) (ked : option data) (allows : option (list bytes)) (code raw qb64b qb64 qb2 : option bytes),
  (raw, qb64b, qb64, qb2) <> (None, None, None, None) -> let c := unwrap_or code (s2b "B") in
  (In c prefix_codes -> prefixer_new ked allows code raw qb64b qb64 qb2 = matter_new code raw qb64b qb64 qb2) /\
  (~ In c prefix_codes -> prefixer_new ked allows code raw qb64b qb64 qb2 = Err E_UnexpectedCode).
Proof.
  intros P C ked allows code raw qb64b qb64 qb2 Nn c. unfold prefixer_new. replace (negb (none raw) || negb (none qb64b) || negb (none qb64) || negb (none qb2)) with true by (destruct raw, qb64b, qb64, qb2; try reflexivity; destruct (Nn eq_refl)). fold c. split; intros I.
  - rewrite validate_yes by (apply prefix_codes_iff; exact I). reflexivity.
  - rewrite validate_no by (intros J; apply I, prefix_codes_iff; exact J). reflexivity.
Qed.
(** C54: so a parsed Prefixer can have any code *)
Lemma C54_material_refuted_pf : forall (P : Profile) (C : Crypto), exists m, prefixer_new None None None None None (Some (s2b "MAAA")) None = Ok m /\ ~ In (m_code m) prefix_codes.
Proof. intros P C. eexists. split; [vm_compute; reflexivity|]. vm_compute. intuition discriminate. Qed.

(** C54: verification of a key prefix: an inception event with that key only, which
    is its entry "i" too when asked for; a fixed key has no next keys *)
Lemma C54_verify_key_pf : forall (P : Profile) (C : Crypto) (m : matter) (q : bytes) (o : list (bytes * data)) (prefixed : option bool),
  NoDup (map fst o) -> In (m_code m) (fixed_key_codes ++ rotating_key_codes) -> matter_qb64 m = Ok q ->
  prefixer_verify m (VObj o) prefixed = Ok true <->
  inception o /\ sole_key o q /\ (prefixed = Some true -> In (s2b "i", VStr q) o) /\ (In (m_code m) fixed_key_codes -> no_next o).
Proof.
  intros P C m q o p N I Q. unfold prefixer_verify. rewrite ilk_ok by exact N. assert (Ip : In (m_code m) prefix_codes) by (unfold prefix_codes; rewrite !in_app_iff; apply in_app_iff in I; tauto).
  assert (Hp : (unwrap_or p false = true -> In (s2b "i", VStr q) o) <-> (p = Some true -> In (s2b "i", VStr q) o)) by (destruct p as [[|]|]; cbn [unwrap_or]; split; intros H E; try discriminate E; auto).
  destruct (groups _ Ip) as [(If & M)|[(Ir & Nf & M1 & M2)|(Id & Nf & Nr & _)]]; [| |apply in_app_iff in I; tauto].
  - rewrite M, Q. cbn [obind]. rewrite verify_n_ok, verify_key_ok, Hp by exact N. tauto.
  - rewrite M1, M2, Q. cbn [obind]. unfold verify_transferable. cbn [to_map obind]. rewrite verify_key_ok, Hp by exact N. tauto.
Qed.
(** C54: verification of a digest prefix *)
Lemma C54_verify_digest_pf : forall (P : Profile) (C : Crypto) (m : matter) (o : list (bytes * data)) (prefixed : option bool),
  hash_contract C -> is_diger m -> NoDup (map fst o) ->
  prefixer_verify m (VObj o) prefixed = Ok true <->
  inception o /\ (exists text, event_text (blank (m_code m) o) text /\ m_raw m = x_hash (m_code m) text) /\
  (prefixed = Some true -> exists q, matter_qb64 m = Ok q /\ In (s2b "i", VStr q) o).
Proof.
  intros P C m o p HC D N. unfold prefixer_verify. rewrite ilk_ok by exact N. assert (I : In (m_code m) (map fst digest_sizes)) by apply D.
  assert (G : mem_code (m_code m) nontransferable_codes = false /\ mem_code (m_code m) transferable_codes = false /\ mem_code (m_code m) digest_codes = true).
  { assert (T : forallb (fun c => negb (mem_code c nontransferable_codes) && negb (mem_code c transferable_codes) && mem_code c digest_codes) (map fst digest_sizes) = true) by (vm_compute; reflexivity). eapply forallb_forall in T; [|exact I]. apply andb_true_iff in T as [T T3]. apply andb_true_iff in T as [T1 T2]. apply negb_true_iff in T1, T2. auto. }
  destruct G as (-> & -> & ->). destruct (said_text m D) as (q & Q & Pq). rewrite Q. cbn [obind]. destruct (code_size _ I) as [n Hn].
  assert (Dg : forall text, diger_new None (Some (m_code m)) (Some (x_hash (m_code m) text)) None None None = Ok (Mat (m_code m) 0 (x_hash (m_code m) text))).
  { intros text. unfold diger_new. destruct (HC _ n text Hn) as [L _]. rewrite (said_build _ _ n Hn L). cbn [m_code]. rewrite validate_yes by (apply said_codes; exact I). reflexivity. }
  assert (Eq1 : forall text q', matter_qb64 (Mat (m_code m) 0 (x_hash (m_code m) text)) = Ok q' -> (q' = q <-> m_raw m = x_hash (m_code m) text)).
  { intros text q' Q'. destruct (HC _ n text Hn) as [L B]. destruct (said_text _ (said_constructed _ _ n Hn L B)) as (q2 & Q2 & P2). rewrite Q' in Q2. apply Ok_inj in Q2. subst q2. destruct (said_shape m D) as (n' & _ & Em & _). split.
    - intros ->. rewrite Pq in P2. apply Ok_inj in P2. rewrite P2 at 1. reflexivity.
    - intros E. rewrite <- E, <- Em in Q'. rewrite Q in Q'. apply Ok_inj in Q'. auto. }
  assert (Vp : (if unwrap_or p false then if negb (contains_key (s2b "i") o) then Ok false else v <- vget (VObj o) (s2b "i");; i <- to_string v;; Ok (bytes_eqb i q) else Ok true) = Ok true <-> (p = Some true -> exists q0, Ok q = Ok q0 /\ In (s2b "i", VStr q0) o)).
  { destruct p as [[|]|]; cbn [unwrap_or]; [|split; [intros _ E; discriminate E|reflexivity]|split; [intros _ E; discriminate E|reflexivity]]. rewrite key_get. cbn [vget]. destruct (map_get (s2b "i") o) as [v|] eqn:E.
    - cbn [negb obind]. assert (X : forall u, In (s2b "i", u) o -> u = v) by (intros u J; apply (In_map_get _ _ _ N) in J; congruence). apply map_get_In in E. destruct v as [| | | |t| |]; cbn [to_string obind]; try (split; [intros Z; discriminate Z|]; intros H; destruct (H eq_refl) as (q0 & _ & J); apply X in J; discriminate J).
      split; [intros Z _; apply Ok_inj in Z; apply bytes_eqb_eq in Z; subst t; eauto|]. intros H. destruct (H eq_refl) as (q0 & Eq0 & J). apply Ok_inj in Eq0. subst q0. apply X in J. injection J as ->. rewrite bytes_eqb_refl. reflexivity.
    - cbn [negb]. split; [intros Z; discriminate Z|]. intros H. destruct (H eq_refl) as (q0 & _ & J). apply (In_map_get _ _ _ N) in J. congruence. }
  unfold verify_digest. split.
  - intros [Hi H]. split; [exact Hi|]. destruct (derive_digest (VObj o) (m_code m)) as [[r k]| |] eqn:Ed; try discriminate H. apply derive_d_ok in Ed as (text & T & E); auto. injection E as -> ->. cbn [obind] in H. rewrite Dg in H. cbn [obind] in H.
    inv_bind H q' Eq'. destruct (bytes_eqb q' q) eqn:B; cbn [negb] in H; [|discriminate H]. apply bytes_eqb_eq in B. cbn [to_map obind] in H. pose proof (proj1 Vp H) as H'. split; [|exact H']. exists text. split; [exact T|]. apply (Eq1 _ _ Eq'). exact B.
  - intros (Hi & (text & T & Er) & H). split; [exact Hi|]. assert (Ed : derive_digest (VObj o) (m_code m) = Ok (x_hash (m_code m) text, m_code m)) by (apply derive_d_ok; eauto). rewrite Ed. cbn [obind]. rewrite Dg. cbn [obind].
    destruct (HC _ n text Hn) as [L B]. destruct (said_text _ (said_constructed _ _ n Hn L B)) as (q' & Q' & _). rewrite Q'. cbn [obind]. assert (q' = q) as -> by (apply (Eq1 _ _ Q'); exact Er). rewrite bytes_eqb_refl. cbn [negb to_map obind]. apply Vp. exact H.
Qed.
(** C54: a digest prefix derived from an event verifies it, also after the prefix is stored in the event *)
Lemma C54_digest_verifies_pf : forall (P : Profile) (C : Crypto) (o : list (bytes * data)) (allows : option (list bytes)) (c : bytes) (m : matter),
  hash_contract C -> NoDup (map fst o) -> In c (map fst digest_sizes) -> prefixer_of_ked (VObj o) allows (Some c) = Ok m ->
  prefixer_verify m (VObj o) None = Ok true /\ exists q, matter_qb64 m = Ok q /\
  (In (s2b "i") (map fst o) -> prefixer_verify m (VObj (put (s2b "i") (VStr q) o)) (Some true) = Ok true /\ prefixer_of_ked (VObj (put (s2b "i") (VStr q) o)) allows None = Ok m).
Proof.
  intros P C o allows c m HC N I H. pose proof H as H0. apply C54_digest_pf in H as (A & Hi & text & T & ->); auto. destruct (code_size c I) as [n Hn]. destruct (HC c n text Hn) as [L B]. pose proof (said_constructed c _ n Hn L B) as D. destruct (said_text _ D) as (q & Q & Pq).
  split; [apply C54_verify_digest_pf; auto; split; [exact Hi|]; split; [exists text; auto|discriminate]|]. exists q. split; [exact Q|]. intros Ii.
  assert (N' : NoDup (map fst (put (s2b "i") (VStr q) o))) by (apply put_NoDup; exact N). assert (Hi' : inception (put (s2b "i") (VStr q) o)).
  { destruct Hi as (ilk & J & K). exists ilk. split; [|exact K]. apply map_get_In. rewrite put_get by exact N. change (bytes_eqb (s2b "t") (s2b "i")) with false. cbv iota. apply In_map_get; auto. }
  assert (Iq : In (s2b "i", VStr q) (put (s2b "i") (VStr q) o)) by (apply map_get_In; rewrite put_get by exact N; rewrite bytes_eqb_refl; reflexivity).
  assert (Bl : blank c (put (s2b "i") (VStr q) o) = blank c o) by (apply blank_put; auto). split.
  - apply C54_verify_digest_pf; auto. split; [exact Hi'|]. cbn [m_code m_raw]. rewrite Bl. split; [exists text; auto|]. intros _. exists q. auto.
  - destruct (C54_code_pf P C _ VNull allows c N') as (_ & _ & X & _). rewrite (X q _ Iq Pq). cbn [m_code]. apply C54_digest_pf; auto. rewrite Bl. split; [exact A|]. split; [exact Hi'|]. exists text. auto.
Qed.
(** C54: a key prefix derived from an event verifies it exactly if the key's text is the prefix's text *)
Lemma C54_key_verifies_pf : forall (P : Profile) (C : Crypto) (o : list (bytes * data)) (allows : option (list bytes)) (c t q : bytes) (m : matter),
  NoDup (map fst o) -> In c (fixed_key_codes ++ rotating_key_codes) -> prefixer_of_ked (VObj o) allows (Some c) = Ok m -> sole_key o t -> matter_qb64 m = Ok q ->
  (prefixer_verify m (VObj o) None = Ok true <-> t = q) /\ (prefixer_verify m (VObj o) (Some true) = Ok true <-> t = q /\ In (s2b "i", VStr q) o).
Proof.
  intros P C o allows c t q m N I H K Q. apply C54_key_pf in H as (_ & Hi & (t' & key & K' & Pt & Ec & B) & F); auto. unfold sole_key in *. pose proof (In_map_get _ _ _ N K) as G. pose proof (In_map_get _ _ _ N K') as G'. rewrite G in G'. injection G' as <-.
  assert (Em : m_code m = c).
  { assert (If : exists rs f, In (c, (rs, f)) fixed_codes). { assert (T : forallb (fun c => existsb (fun g => bytes_eqb c (fst g)) fixed_codes) (fixed_key_codes ++ rotating_key_codes) = true) by (vm_compute; reflexivity). eapply forallb_forall in T; [|exact I]. apply existsb_exists in T as [[c' [n' f]] [I' T]]. apply bytes_eqb_eq in T. cbn [fst] in T. subst. eauto. }
    destruct If as (rs & f & If). destruct (fixed_build_inv _ _ _ _ _ If B) as [-> _]. reflexivity. }
  assert (Nn : In c fixed_key_codes -> no_next o).
  { intros J. destruct (F J) as [[Z|Z] _]; intros v Iv; [destruct Z; apply (in_map fst) in Iv; exact Iv|]. pose proof (In_map_get _ _ _ N Z) as G1. pose proof (In_map_get _ _ _ N Iv) as G2. assert (v = VStr []) by congruence. subst v. split; intros; congruence. }
  assert (V : forall p, prefixer_verify m (VObj o) p = Ok true <-> t = q /\ (p = Some true -> In (s2b "i", VStr q) o)).
  { intros p. rewrite (C54_verify_key_pf P C m q o p) by (rewrite ?Em; auto). rewrite Em. unfold sole_key. split.
    - intros (_ & J & R & _). pose proof (In_map_get _ _ _ N J) as G2. split; [congruence|exact R].
    - intros (-> & R). auto. }
  split; [rewrite V; split; [intros [E _]; exact E|intros E; split; [exact E|discriminate]]|]. rewrite V. split; [intros [E R]; auto|intros [E R]; auto].
Qed.
(** C54: a key with characters after it is accepted, but the derived prefix does not verify the event *)
Lemma C54_key_verifies_refuted_pf : forall (P : Profile) (C : Crypto), exists o m,
  NoDup (map fst o) /\ prefixer_of_ked (VObj o) None (Some (s2b "D")) = Ok m /\ prefixer_verify m (VObj o) None = Ok false.
Proof.
  intros P C. exists [(s2b "t", VStr (s2b "icp")); (s2b "k", VArr [VStr (s2b "D" ++ rep 65 43 ++ s2b "xyz")])], (Mat (s2b "D") 0 (rep 0 32)). split; [repeat constructor; cbn; intuition discriminate|]. split; vm_compute; reflexivity.
Qed.
(** C54: an inception event with the usual empty lists cannot have a fixed key derived, though its prefix verifies; nor do witnesses and seals matter then *)
Lemma C54_fixed_key_refuted_pf : forall (P : Profile) (C : Crypto), let o n b := [(s2b "t", VStr (s2b "icp")); (s2b "k", VArr [VStr (s2b "B" ++ rep 65 43)]); (s2b "n", n); (s2b "b", b)] in
  prefixer_of_ked (VObj (o (VArr []) (VArr []))) None (Some (s2b "B")) = Err E_Conversion /\
  exists m, matter_new None None None (Some (s2b "B" ++ rep 65 43)) None = Ok m /\ prefixer_verify m (VObj (o (VArr []) (VArr []))) None = Ok true /\
  prefixer_of_ked (VObj (o (VStr []) (VStr (s2b "x")))) None (Some (s2b "B")) = Err E_Derivation /\ prefixer_verify m (VObj (o (VStr []) (VStr (s2b "x")))) None = Ok true.
Proof. intros P C o. split; [vm_compute; reflexivity|]. exists (Mat (s2b "B") 0 (rep 0 32)). split; [vm_compute; reflexivity|]. split; [vm_compute; reflexivity|]. split; vm_compute; reflexivity. Qed.

(** what is hashed when the version string is the first entry *)
Lemma event_text_first c vs r text : NoDup (map fst ((s2b "v", VStr vs) :: r)) -> event_text (blank c ((s2b "v", VStr vs) :: r)) text ->
  exists w, text = to_json (VObj ((s2b "v", VStr w) :: blank c r)).
Proof.
  intros N T. assert (B : blank c ((s2b "v", VStr vs) :: r) = (s2b "v", VStr vs) :: blank c r).
  { unfold blank. assert (K : forall k y l, bytes_eqb k (s2b "v") = false -> put k y ((s2b "v", VStr vs) :: l) = (s2b "v", VStr vs) :: put k y l).
    { intros k y l E. unfold put. cbn [map fst existsb]. rewrite E. cbn [orb]. destruct (existsb (bytes_eqb k) (map fst l)); reflexivity. }
    rewrite !K by reflexivity. reflexivity. }
  rewrite B in T. destruct T as (i & m & k & I & Hi & Hm & F & Lk & Hn & ->). assert (N2 : NoDup (map fst ((s2b "v", VStr vs) :: blank c r))) by (rewrite <- B; apply put_NoDup, put_NoDup; exact N).
  pose proof (In_map_get _ _ _ N2 I) as G. apply rever_find_first in F. set (o := (s2b "v", VStr vs) :: blank c r) in *.
  assert (Hid : In i idents) by (destruct Hi as [-> | ->]; cbn; auto). pose proof (sizeify_ok o i m k None Hid Hm G (or_introl eq_refl) F Lk Hn) as S.
  destruct (proj1 (C49_sizeify_pf [] (blank c r) vs None _ (fun z => z) ltac:(vm_compute; discriminate)) S) as (i' & m' & _ & _ & _ & _ & _ & E1 & E2 & _). cbn [sz_ked sz_raw] in E1, E2. eexists. etransitivity; [exact E2|]. rewrite E1. reflexivity.
Qed.
(** C54: a digest prefix binds the whole event: two events, each with its version
    string first, that it verifies have the same digest, and if the texts are the
    same they agree in everything but "v", "d" and "i" *)
Lemma C54_binding_pf : forall (P : Profile) (C : Crypto) (m : matter) (vs1 vs2 : bytes) (r1 r2 : list (bytes * data)) (p1 p2 : option bool),
  hash_contract C -> is_diger m -> let o1 := (s2b "v", VStr vs1) :: r1 in let o2 := (s2b "v", VStr vs2) :: r2 in good float_text (VObj o1) -> good float_text (VObj o2) ->
  prefixer_verify m (VObj o1) p1 = Ok true -> prefixer_verify m (VObj o2) p2 = Ok true ->
  exists t1 t2, event_text (blank (m_code m) o1) t1 /\ event_text (blank (m_code m) o2) t2 /\ x_hash (m_code m) t1 = x_hash (m_code m) t2 /\
    (t1 = t2 -> without [s2b "d"; s2b "i"] r1 = without [s2b "d"; s2b "i"] r2).
Proof.
  intros P C m vs1 vs2 r1 r2 p1 p2 HC D o1 o2 G1 G2 V1 V2. inversion G1 as [| | | | | |? N1 M1]; subst. inversion G2 as [| | | | | |? N2 M2]; subst.
  apply C54_verify_digest_pf in V1 as (_ & (t1 & T1 & E1) & _); auto. apply C54_verify_digest_pf in V2 as (_ & (t2 & T2 & E2) & _); auto. exists t1, t2. split; [exact T1|]. split; [exact T2|]. split; [congruence|]. intros ->.
  destruct (event_text_first _ _ _ _ N1 T1) as (w1 & J1). destruct (event_text_first _ _ _ _ N2 T2) as (w2 & J2). rewrite J1 in J2.
  assert (Nr : forall vs r, NoDup (map fst ((s2b "v", VStr vs) :: r)) -> NoDup (map fst r)) by (intros vs r X; cbn [map fst] in X; inversion X; auto).
  assert (Gd : forall vs w r, good float_text (VObj ((s2b "v", VStr vs) :: r)) -> good float_text (VObj ((s2b "v", VStr w) :: blank (m_code m) r))).
  { intros vs w r G. inversion G as [| | | | | |? N M]; subst. assert (Nb : NoDup (map fst r)) by eauto. constructor.
    - cbn [map fst]. constructor; [|apply put_NoDup, put_NoDup; exact Nb]. cbn [map fst] in N. inversion N as [|? ? Nv _]; subst. intros I. apply key_iff in I. rewrite key_get in I. unfold blank in I. rewrite !put_get in I by (try apply put_NoDup; auto).
      change (bytes_eqb (s2b "v") (s2b "d")) with false in I. change (bytes_eqb (s2b "v") (s2b "i")) with false in I. cbv iota in I. apply Nv, key_iff. exact I.
    - intros k v [E|I]; [injection E as <- <-; constructor|]. unfold blank in I. rewrite <- put_insert in I by (apply put_NoDup; exact Nb). apply map_insert_In in I as [E|I]; [injection E as -> ->; constructor|].
      rewrite <- put_insert in I by exact Nb. apply map_insert_In in I as [E|I]; [injection E as -> ->; constructor|]. apply (M k v). right. exact I. }
  apply C45_json_injective_pf in J2; [|eapply Gd; exact G1|eapply Gd; exact G2]. injection J2 as _ J2. unfold blank in J2.
  assert (W : forall r, NoDup (map fst r) -> without [s2b "d"; s2b "i"] (put (s2b "d") (placeholder (m_code m)) (put (s2b "i") (placeholder (m_code m)) r)) = without [s2b "d"; s2b "i"] r).
  { intros r N. rewrite without_put by (try apply put_NoDup; cbn; auto). apply without_put; cbn; auto. }
  rewrite <- (W r1), <- (W r2) by eauto. rewrite J2. reflexivity.
Qed.
Lemma C54_binding_ex_pf : forall P : Profile, let o r := (s2b "v", VStr (s2b "KERI10JSON000000_")) :: (s2b "t", VStr (s2b "icp")) :: (s2b "d", VStr []) :: (s2b "i", VStr []) :: r in
  exists m, is_diger m /\ good float_text (VObj (o [(s2b "k", VArr [])])) /\ prefixer_verify (C := toy_crypto) m (VObj (o [(s2b "k", VArr [])])) None = Ok true /\ prefixer_verify (C := toy_crypto) m (VObj (o [(s2b "k", VArr [VNull])])) None = Ok false.
Proof.
  intros P o. exists (Mat (s2b "E") 0 (rep 144 32)). split; [apply (said_constructed _ _ 32); [vm_compute; auto|vm_compute; reflexivity|vm_compute; reflexivity]|]. split.
  - constructor; [repeat constructor; cbn; intuition discriminate|]. intros k v I. cbn [In o app] in I. repeat (destruct I as [I|I]; [injection I as <- <-; constructor; try (intros ? []) |]). destruct I.
  - split; vm_compute; reflexivity.
Qed.

(** C54: verification panics exactly if the event is not a map or has no entry "t" *)
Lemma C54_verify_panics_pf : forall (P : Profile) (C : Crypto) (m : matter) (ked : data) (prefixed : option bool),
  hash_contract C -> constructed m -> (forall o, ked = VObj o -> NoDup (map fst o)) ->
  prefixer_verify m ked prefixed = Panic <-> (forall o, ked <> VObj o) \/ exists o, ked = VObj o /\ ~ In (s2b "t") (map fst o).
Proof.
  intros P C m ked p HC Hm Hn. destruct ked as [| | | | | |o]; try (split; [intros _; left; intros o; discriminate|intros _; reflexivity]). specialize (Hn o eq_refl). unfold prefixer_verify. cbn [vget]. destruct (map_get (s2b "t") o) as [v|] eqn:E.
  2:{ split; [intros _; right; exists o; split; [reflexivity|]; apply map_get_None; exact E|reflexivity]. }
  cbn [obind]. assert (K : In (s2b "t") (map fst o)) by (apply key_iff; rewrite key_get, E; reflexivity). split; [|intros [H|(o' & H & H')]; [destruct (H o eq_refl)|injection H as <-; contradiction]]. intros H. exfalso.
  destruct v as [| | | |ilk| |]; try discriminate H. cbn [to_string obind] in H. destruct (mem_code ilk incepting); cbn [negb] in H; [|discriminate H].
  destruct Hm as (code & raw & T & B & Bd). destruct (C01_text_round_trip_pf P code raw m T B Bd) as (q & Q & _). rewrite Q in H. cbn [obind] in H.
  assert (Vk : forall b, verify_key (VObj o) o q b <> Panic).
  { intros b. unfold verify_key. cbn [vget]. rewrite !key_get. destruct (map_get (s2b "k") o) as [v|]; cbn [negb obind]; [|discriminate]. destruct v as [| | | | |l|]; cbn [to_vec obind]; try discriminate. destruct l as [|e [|e2 l]]; [discriminate| |].
    - change (negb (len [e] =? 1)) with false. cbv iota. change (index_at [e] 0) with (@Ok data e). cbn [obind]. destruct e as [| | | |t| |]; cbn [to_string obind]; try discriminate. destruct (negb _); [discriminate|]. destruct b; [|discriminate]. destruct (map_get (s2b "i") o) as [w|]; cbn [negb obind]; [|discriminate]. destruct w; discriminate.
    - replace (len (e :: e2 :: l) =? 1) with false by (symmetry; apply N.eqb_neq; rewrite !len_cons; Lia.lia). discriminate. }
  destruct (mem_code (m_code m) nontransferable_codes); [|destruct (mem_code (m_code m) transferable_codes); [|destruct (mem_code (m_code m) digest_codes) eqn:Md; [|discriminate H]]].
  - unfold verify_nontransferable in H. cbn [to_map obind] in H. destruct (verify_key (VObj o) o q (unwrap_or p false)) as [[|]| |] eqn:Ek; cbn [obind negb] in H; try discriminate H; [|apply Vk in Ek; exact Ek]. rewrite key_get in H. cbn [vget] in H. destruct (map_get (s2b "n") o) as [w|]; [|discriminate H]. cbn [obind] in H. destruct w; discriminate H.
  - unfold verify_transferable in H. cbn [to_map obind] in H. apply Vk in H. exact H.
  - assert (I : In (m_code m) (map fst digest_sizes)) by (apply said_codes', mem_code_In; exact Md). unfold verify_digest in H. destruct (derive_digest (VObj o) (m_code m)) as [[r k]| |] eqn:Ed; cbn [obind] in H; [|discriminate H|apply derive_d_total in Ed; auto].
    apply derive_d_ok in Ed as (text & _ & Er); auto. injection Er as -> ->. destruct (code_size _ I) as [n Hn']. destruct (HC _ n text Hn') as [L Bh]. unfold diger_new in H. rewrite (said_build _ _ n Hn' L) in H. cbn [m_code] in H. rewrite validate_yes in H by (apply said_codes; exact I). cbn [obind] in H.
    destruct (said_text _ (said_constructed _ _ n Hn' L Bh)) as (q' & Q' & _). rewrite Q' in H. cbn [obind] in H. destruct (negb _); [discriminate H|]. cbn [to_map obind] in H. destruct (unwrap_or p false); [|discriminate H]. rewrite key_get in H. cbn [vget] in H. destruct (map_get (s2b "i") o) as [w|]; cbn [negb obind] in H; [|discriminate H]. destruct w; discriminate H.
Qed.
Lemma C54_verify_panics_ex_pf : forall P : Profile, prefixer_verify (C := toy_crypto) (Mat (s2b "B") 0 (rep 0 32)) (VObj [(s2b "k", VArr [])]) None = Panic /\ prefixer_verify (C := toy_crypto) (Mat (s2b "B") 0 (rep 0 32)) (VObj [(s2b "t", VStr (s2b "icp"))]) None = Ok false /\ prefixer_verify (C := toy_crypto) (Mat (s2b "B") 0 (rep 0 32)) (VObj [(s2b "t", VStr (s2b "rot"))]) None = Err E_Value.
Proof. intros P. vm_compute. auto. Qed.
(** C54: construction from an event panics only without an entry "t", for a value that is not a map, or when the key or the prefix in "i" is a text that makes the general parser panic *)
Lemma C54_new_panics_pf : forall (P : Profile) (C : Crypto) (o : list (bytes * data)) (allows : option (list bytes)) (c : bytes), hash_contract C -> NoDup (map fst o) ->
  (prefixer_of_ked (VObj o) allows (Some c) = Panic <-> In c prefix_codes /\ allowed allows c /\
     (~ In (s2b "t") (map fst o) \/ In c (fixed_key_codes ++ rotating_key_codes) /\ inception o /\ exists t, sole_key o t /\ parse_text t = Panic)) /\
  (prefixer_of_ked (VObj o) allows None = Panic <-> exists t, In (s2b "i", VStr t) o /\
     (parse_text t = Panic \/ exists x, parse_text t = Ok x /\ prefixer_of_ked (VObj o) allows (Some (m_code x)) = Panic)).
Proof.
  intros P C o allows c HC N. split.
  - unfold prefixer_of_ked, prefixer_new. cbn [none negb orb obind]. destruct (in_dec bytes_eq_dec c prefix_codes) as [Ip|Ip]; [|rewrite validate_no by (intros J; apply Ip, prefix_codes_iff; exact J); split; [discriminate|intros [J _]; contradiction]].
    rewrite validate_yes by (apply prefix_codes_iff; exact Ip). cbn [obind]. cbv zeta. rewrite allowed_iff. destruct (_ && _); [split; [discriminate|intros (_ & J & _); discriminate J]|].
    assert (Vp : forall t, verfer_new None None None (Some t) None = Panic <-> parse_text t = Panic) by (intros t; apply (C26_verfer_pf P None None None (Some t) None)).
    assert (Ok1 : only_key (VObj o) o = Panic <-> exists t, sole_key o t /\ parse_text t = Panic).
    { unfold only_key, sole_key. cbn [vget]. rewrite key_get. destruct (map_get (s2b "k") o) as [v|] eqn:E; [|split; [discriminate|intros (t & I & _); apply (In_map_get _ _ _ N) in I; congruence]]. cbn [obind]. assert (X : forall w, In (s2b "k", w) o -> w = v) by (intros w I; apply (In_map_get _ _ _ N) in I; congruence). apply map_get_In in E.
      destruct v as [| | | | |l|]; cbn [to_vec obind]; try (split; [discriminate|]; intros (? & I & _); apply X in I; discriminate). destruct l as [|e [|e2 l]].
      - cbn. split; [discriminate|]. intros (? & I & _). apply X in I. discriminate.
      - change (negb (len [e] =? 1)) with false. cbv iota. change (index_at [e] 0) with (@Ok data e). cbn [obind]. destruct e as [| | | |t| |]; cbn [to_string obind]; try (split; [discriminate|]; intros (? & I & _); apply X in I; discriminate).
        rewrite Vp. split; [intros H; exists t; auto|]. intros (t' & I & H). apply X in I. injection I as ->. exact H.
      - replace (len (e :: e2 :: l) =? 1) with false by (symmetry; apply N.eqb_neq; rewrite !len_cons; Lia.lia). cbn [negb]. split; [discriminate|]. intros (? & I & _). apply X in I. discriminate. }
    assert (Em : forall k, empty_text (VObj o) o k <> Panic).
    { intros k. unfold empty_text. cbn [vget]. rewrite key_get. destruct (map_get k o) as [v|]; [|discriminate]. cbn [obind]. destruct v as [| | | |t| |]; cbn [to_string obind]; try discriminate. destruct (len t =? 0); discriminate. }
    assert (Bp : forall x y, (In x (fixed_key_codes ++ rotating_key_codes) -> build x y <> Panic)).
    { intros x y I. assert (If : exists rs f, In (x, (rs, f)) fixed_codes). { assert (T : forallb (fun c => existsb (fun g => bytes_eqb c (fst g)) fixed_codes) (fixed_key_codes ++ rotating_key_codes) = true) by (vm_compute; reflexivity). eapply forallb_forall in T; [|exact I]. apply existsb_exists in T as [[c' [n' f]] [I' T]]. apply bytes_eqb_eq in T. cbn [fst] in T. subst. eauto. }
      destruct If as (rs & f & If). destruct (C10_raw_size_pf P x y rs f If) as [B1 B2]. destruct (N.lt_ge_cases (len y) rs) as [L|L]; [rewrite (B1 L); discriminate|]. destruct (B2 L) as [-> _]. discriminate. }
    assert (Tn : forall (F : outcome (bytes * bytes)), ('(r, k) <- F ;; matter_new (Some k) (Some r) None None None) = Panic <-> F = Panic \/ exists r k, F = Ok (r, k) /\ build k r = Panic).
    { intros [[r k]| |]; cbn [obind]; split; intros H; try discriminate H; auto; try (destruct H as [H|(r' & k' & H & H')]; [discriminate H|]; try discriminate H; apply Ok_inj in H; injection H as -> ->; exact H'). right. exists r, k. auto. }
    rewrite Tn. unfold prefix_derive. cbn [vget]. destruct (map_get (s2b "t") o) as [v|] eqn:Et.
    2:{ cbn [obind]. split; [|intros _; left; reflexivity]. intros _. split; [exact Ip|]. split; [reflexivity|]. left. apply map_get_None. exact Et. }
    assert (Kt : In (s2b "t") (map fst o)) by (apply key_iff; rewrite key_get, Et; reflexivity). cbn [obind].
    assert (Xt : forall ilk, In (s2b "t", VStr ilk) o -> v = VStr ilk) by (intros w I; apply (In_map_get _ _ _ N) in I; congruence). apply map_get_In in Et.
    destruct v as [| | | |ilk| |]; cbn [to_string obind]; try (split; [intros [H|(r & k & H & _)]; discriminate H|]; intros (_ & _ & [H|(_ & (w & I & _) & _)]); [contradiction|apply Xt in I; discriminate]).
    destruct (mem_code ilk incepting) eqn:M; cbn [negb].
    2:{ split; [intros [H|(r & k & H & _)]; discriminate H|]. intros (_ & _ & [H|(_ & (w & I & J) & _)]); [contradiction|]. apply Xt in I. injection I as <-. apply mem_code_In in J. unfold incepting in M. cbn [map] in J. congruence. }
    assert (Hi : inception o) by (exists ilk; split; [exact Et|]; apply mem_code_In in M; exact M).
    assert (Rt : derive_transferable (VObj o) c = Panic <-> exists t, sole_key o t /\ parse_text t = Panic).
    { rewrite <- Ok1. unfold derive_transferable. cbn [to_map obind]. destruct (only_key (VObj o) o) as [w| |]; cbn [obind]; [destruct (negb _)| |]; split; intros H; try discriminate H; reflexivity. }
    assert (Rn : derive_nontransferable (VObj o) c = Panic <-> exists t, sole_key o t /\ parse_text t = Panic).
    { rewrite <- Ok1. unfold derive_nontransferable. cbn [to_map obind]. destruct (only_key (VObj o) o) as [w| |]; cbn [obind]; [destruct (negb _)| |]; try (split; intros H; try discriminate H; reflexivity). split; [|intros H; discriminate H].
      destruct (empty_text (VObj o) o (s2b "n")) as [u| |] eqn:E1; cbn [obind]; [|intros H; discriminate H|apply Em in E1; destruct E1]. destruct (empty_text (VObj o) o (s2b "b")) as [u2| |] eqn:E2; cbn [obind]; [|intros H; discriminate H|apply Em in E2; destruct E2].
      destruct (empty_text (VObj o) o (s2b "a")) as [u3| |] eqn:E3; cbn [obind]; [|intros H; discriminate H|apply Em in E3; destruct E3]. intros H. discriminate H. }
    destruct (groups c Ip) as [(If & M1)|[(Ir & Nf & M1 & M2)|(Id & Nf & Nr & M1 & M2 & M3)]]; rewrite M1; try rewrite M2; try rewrite M3.
    + assert (Ik : In c (fixed_key_codes ++ rotating_key_codes)) by (apply in_app_iff; auto). rewrite Rn. split.
      * intros [H|(r & k & H & B)]; [split; [exact Ip|]; split; [reflexivity|]; right; auto|]. apply derive_n_ok in H as [H _]; [|exact N]. apply derive_t_ok in H as (t & key & _ & _ & _ & X); [|exact N]. injection X as -> ->. apply Bp in B; [destruct B|exact Ik].
      * intros (_ & _ & [H|(_ & _ & H)]); [contradiction|]. left. exact H.
    + assert (Ik : In c (fixed_key_codes ++ rotating_key_codes)) by (apply in_app_iff; auto). rewrite Rt. split.
      * intros [H|(r & k & H & B)]; [split; [exact Ip|]; split; [reflexivity|]; right; auto|]. apply derive_t_ok in H as (t & key & _ & _ & _ & X); [|exact N]. injection X as -> ->. apply Bp in B; [destruct B|exact Ik].
      * intros (_ & _ & [H|(_ & _ & H)]); [contradiction|]. left. exact H.
    + split; [|intros (_ & _ & [H|(I & _ & _)]); [contradiction|apply in_app_iff in I; tauto]]. intros [H|(r & k & H & B)]; [apply derive_d_total in H; [destruct H|exact Id]|]. apply derive_d_ok in H as (text & _ & X); auto. injection X as -> ->. destruct (code_size c Id) as [n Hn]. destruct (HC c n text Hn) as [L _]. unfold build in B. rewrite (said_build c _ n Hn L) in B. discriminate B.
  - unfold prefixer_of_ked at 1, prefixer_new. cbn [none negb orb obind to_map vget]. rewrite key_get. destruct (map_get (s2b "i") o) as [v|] eqn:E; cbn [negb obind].
    2:{ split; [intros H; discriminate H|]. intros (t & I & _). apply (In_map_get _ _ _ N) in I. congruence. }
    assert (X : forall w, In (s2b "i", w) o -> w = v) by (intros w I; apply (In_map_get _ _ _ N) in I; congruence). cbn [vget]. rewrite E. apply map_get_In in E. cbn [obind].
    destruct v as [| | | |t| |]; cbn [to_string obind]; try (split; [intros H; discriminate H|]; intros (? & I & _); apply X in I; discriminate).
    change (matter_new None None None (Some t) None) with (parse_text t). assert (Y : forall t', In (s2b "i", VStr t') o -> t' = t) by (intros t' I; apply X in I; congruence).
    destruct (parse_text t) as [x| |] eqn:Ep; cbn [obind].
    + split; [intros H; exists t; split; [exact E|]; right; exists x; split; [exact Ep|exact H]|]. intros (t' & I & H). apply Y in I. subst t'. rewrite Ep in H. destruct H as [H|(x' & H & H')]; [discriminate H|]. apply Ok_inj in H. subst x'. exact H'.
    + split; [intros H; discriminate H|]. intros (t' & I & H). apply Y in I. subst t'. rewrite Ep in H. destruct H as [H|(x' & H & H')]; discriminate H.
    + split; [intros _; exists t; auto|reflexivity].
Qed.
Lemma C54_new_panics_ex_pf : forall P : Profile, let o k := [(s2b "t", VStr (s2b "icp")); (s2b "k", VArr [VStr k])] in
  prefixer_of_ked (C := toy_crypto) (VObj []) None (Some (s2b "B")) = Panic /\ prefixer_of_ked (C := toy_crypto) (VObj (o (s2b "5AAA"))) None (Some (s2b "B")) = Panic /\ prefixer_of_ked (C := toy_crypto) (VObj []) None (Some (s2b "A")) = Err E_UnexpectedCode.
Proof. intros P o. vm_compute. auto. Qed.
