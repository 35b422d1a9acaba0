(** Property C62: the accessors of Serder and Creder. *)
From Verif Require Import Base Utf8 MatterTables Matter StdStr Data Json Spec MatterDefs Crypto Prims PrimsDefs DataDefs Common CommonDefs SaiderDefs Tholder TholderDefs Sadder SadderDefs AccessDefs.
From Verif Require Import BaseFacts UtilFacts MatterFacts MatterFacts2 MatterFacts3 SpecFacts MatterFacts4 StdStrFacts MatterThms PrimsFacts PrimsFacts2 PrimsThms DataFacts JsonFacts ImportFacts CommonFacts CommonFacts2 DataThms Saider SaiderFacts SaiderFacts2 TholderFacts3 SadderThms Prefixer PrefixerDefs PrefixerFacts.

Section F.
Context `{P : Profile} `{C : Crypto} `{F : Floats}.
Local Notation obj := (list (bytes * data)).

Lemma verfer_value v m : verfer_of_value v = Ok m <-> prim_text key_codes v m.
Proof.
  unfold verfer_of_value, prim_text. destruct v as [| | | |t| |]; cbn [to_string obind]; try (split; [intros Z; discriminate Z|]; intros (? & Z & _); discriminate Z).
  destruct (C26_verfer_pf P None None None (Some t) None) as (X & _). rewrite X. change (matter_new (Some (unwrap_or None (s2b "B"))) None None (Some t) None) with (parse_text t).
  split; [intros [H I]; eauto|]. intros (t' & E & H). injection E as <-. exact H.
Qed.
Lemma verfer_value_panic v : verfer_of_value v = Panic <-> exists t, v = VStr t /\ parse_text t = Panic.
Proof.
  unfold verfer_of_value. destruct v as [| | | |t| |]; cbn [to_string obind]; try (split; [intros Z; discriminate Z|]; intros (? & Z & _); discriminate Z).
  destruct (C26_verfer_pf P None None None (Some t) None) as (_ & _ & X). rewrite X. split; [intros H; eauto|]. intros (t' & E & H). injection E as <-. exact H.
Qed.
Lemma diger_value v m : diger_of_value v = Ok m <-> prim_text (map fst digest_sizes) v m.
Proof.
  unfold diger_of_value, prim_text. destruct v as [| | | |t| |]; cbn [to_string obind]; try (split; [intros Z; discriminate Z|]; intros (? & Z & _); discriminate Z).
  unfold diger_new. change (matter_new None None None (Some t) None) with (parse_text t). split.
  - destruct (parse_text t) as [d| |] eqn:E; try discriminate. intros H. inv_bind H u Eu. destruct u. apply validate_ok, said_codes in Eu. apply Ok_inj in H. subst d. eauto.
  - intros (t' & E & H & I). injection E as <-. rewrite H. rewrite validate_yes by (apply said_codes; exact I). reflexivity.
Qed.
Lemma diger_value_panic v : diger_of_value v = Panic <-> exists t, v = VStr t /\ parse_text t = Panic.
Proof.
  unfold diger_of_value. destruct v as [| | | |t| |]; cbn [to_string obind]; try (split; [intros Z; discriminate Z|]; intros (? & Z & _); discriminate Z).
  unfold diger_new. change (matter_new None None None (Some t) None) with (parse_text t). destruct (parse_text t) as [d| |] eqn:E.
  - split; [unfold validate; destruct (mem_code _ _); intros Z; discriminate Z|]. intros (t' & E' & H). injection E' as <-. congruence.
  - split; [intros Z; discriminate Z|]. intros (t' & E' & H). injection E' as <-. congruence.
  - split; [eauto|reflexivity].
Qed.
Lemma each_panic {A B} (f : A -> outcome B) l : each f l = Panic <-> exists a ms x b, l = a ++ x :: b /\ Forall2 (fun v m => f v = Ok m) a ms /\ f x = Panic.
Proof.
  induction l as [|v l IH]; cbn [each].
  - split; [intros Z; discriminate Z|]. intros (a & ms & x & b & E & _). destruct a; discriminate.
  - destruct (f v) as [m| |] eqn:Ef; cbn [obind].
    + destruct (each f l) as [ms| |] eqn:El; cbn [obind].
      * split; [intros Z; discriminate Z|]. intros (a & ms' & x & b & E & Fa & Px). destruct a as [|v' a]; cbn [app] in E; [injection E as -> ->; congruence|]. injection E as -> ->. inversion Fa; subst. assert (Z : @Ok (list B) ms = Panic) by (apply IH; eauto 7). discriminate Z.
      * split; [intros Z; discriminate Z|]. intros (a & ms' & x & b & E & Fa & Px). destruct a as [|v' a]; cbn [app] in E; [injection E as -> ->; congruence|]. injection E as -> ->. inversion Fa; subst. assert (Z : @Err (list B) e = Panic) by (apply IH; eauto 7). discriminate Z.
      * split; [intros _|reflexivity]. destruct (proj1 IH eq_refl) as (a & ms & x & b & E & Fa & Px). exists (v :: a), (m :: ms), x, b. split; [rewrite E; reflexivity|]. split; [constructor; auto|exact Px].
    + split; [intros Z; discriminate Z|]. intros (a & ms & x & b & E & Fa & Px). destruct a; cbn [app] in E; injection E as -> ->; [congruence|]. inversion Fa; subst. congruence.
    + split; [intros _; exists [], [], v, l; auto|reflexivity].
Qed.
Lemma Forall2_imp {A B} (R S : A -> B -> Prop) l l' : (forall a b, R a b -> S a b) -> Forall2 R l l' -> Forall2 S l l'.
Proof. intros H Fa. induction Fa; constructor; auto. Qed.
Lemma each_text f codes : (forall v m, f v = Ok m <-> prim_text codes v m) -> (forall v, f v = Panic <-> exists t, v = VStr t /\ parse_text t = Panic) ->
  (forall vs l, each f vs = Ok l <-> Forall2 (prim_text codes) vs l) /\ (forall vs, each f vs = Panic <-> text_panics codes vs).
Proof.
  intros Hk Hp. split.
  - intros vs l. rewrite each_ok. split; apply Forall2_imp; intros a b; apply Hk.
  - intros vs. rewrite each_panic. unfold text_panics. split.
    + intros (a & ms & x & b & -> & Fa & Px). apply Hp in Px as (t & -> & Px). exists a, ms, t, b. split; [reflexivity|]. split; [|exact Px]. eapply Forall2_imp; [|exact Fa]. intros ? ?. apply Hk.
    + intros (a & ms & t & b & -> & Fa & Px). exists a, ms, (VStr t), b. split; [reflexivity|]. split; [|apply Hp; eauto]. eapply Forall2_imp; [|exact Fa]. intros ? ?. apply Hk.
Qed.
Lemma entry (o : obj) k : NoDup (map fst o) -> (exists v, map_get k o = Some v /\ In (k, v) o /\ In k (map fst o) /\ (forall w, In (k, w) o -> w = v)) \/ map_get k o = None /\ ~ In k (map fst o) /\ forall v, ~ In (k, v) o.
Proof.
  intros N. destruct (map_get k o) as [v|] eqn:E.
  - left. exists v. split; [reflexivity|]. pose proof (map_get_In _ _ _ E) as I. split; [exact I|]. split; [apply (in_map fst) in I; exact I|]. intros w J. apply (In_map_get _ _ _ N) in J. congruence.
  - right. split; [reflexivity|]. apply map_get_None in E. split; [exact E|]. intros v I. apply E. apply (in_map fst) in I. exact I.
Qed.
Lemma optional_list f codes k (o : obj) : (forall v m, f v = Ok m <-> prim_text codes v m) -> (forall v, f v = Panic <-> exists t, v = VStr t /\ parse_text t = Panic) -> NoDup (map fst o) ->
  let r := if contains_key k o then v <- vget (VObj o) k ;; match to_vec v with Ok l => each f l | _ => Ok [] end else Ok [] in
  (forall l, r = Ok l <-> (exists vs, In (k, VArr vs) o /\ Forall2 (prim_text codes) vs l) \/ (forall vs, ~ In (k, VArr vs) o) /\ l = []) /\
  (r = Panic <-> exists vs, In (k, VArr vs) o /\ text_panics codes vs).
Proof.
  intros Hk Hp N r. destruct (each_text f codes Hk Hp) as [Eo Ep]. subst r. cbn [vget]. rewrite key_get. destruct (entry o k N) as [(v & -> & I & _ & U)|(-> & _ & No)].
  - cbn [obind]. destruct v as [| | | | |vs|]; cbn [to_vec];
      try (split; [intros l; split; [intros E; apply Ok_inj in E; right; split; [intros vs J; apply U in J; discriminate|auto]|intros [(vs & J & _)|[_ ->]]; [apply U in J; discriminate|reflexivity]]|split; [intros Z; discriminate Z|intros (vs & J & _); apply U in J; discriminate]]).
    split.
    + intros l. rewrite Eo. split; [intros Fa; left; eauto|]. intros [(vs' & J & Fa)|[Z _]]; [apply U in J; injection J as ->; exact Fa|destruct (Z _ I)].
    + rewrite Ep. split; [eauto|]. intros (vs' & J & Z). apply U in J. injection J as ->. exact Z.
  - split; [intros l; split; [intros E; apply Ok_inj in E; right; split; [intros vs; apply No|auto]|intros [(vs & J & _)|[_ ->]]; [destruct (No _ J)|reflexivity]]|split; [intros Z; discriminate Z|intros (vs & J & _); destruct (No _ J)]].
Qed.
End F.

(** C62: the current keys and the digests of the next keys: what the texts of the list read as, in order, each with a
    code of its kind; an entry that is absent, or not a list, is an empty list; the
    only panics are those of the parser *)
Lemma C62_keys_pf : forall (P : Profile) (C : Crypto) (F : Floats) (s : sadder) (o : list (bytes * data)), holds s o ->
  (forall l, serder_verfers s = Ok l <-> (exists vs, In (s2b "k", VArr vs) o /\ Forall2 (prim_text key_codes) vs l) \/ (forall vs, ~ In (s2b "k", VArr vs) o) /\ l = []) /\
  (serder_verfers s = Panic <-> exists vs, In (s2b "k", VArr vs) o /\ text_panics key_codes vs) /\
  (forall l, serder_digers s = Ok l <-> (exists vs, In (s2b "n", VArr vs) o /\ Forall2 (prim_text (map fst digest_sizes)) vs l) \/ (forall vs, ~ In (s2b "n", VArr vs) o) /\ l = []) /\
  (serder_digers s = Panic <-> exists vs, In (s2b "n", VArr vs) o /\ text_panics (map fst digest_sizes) vs).
Proof.
  intros P C F s o [E N]. unfold serder_verfers, serder_digers. rewrite E. cbn [to_map obind].
  destruct (optional_list _ _ (s2b "k") o verfer_value verfer_value_panic N) as [A1 A2]. destruct (optional_list _ _ (s2b "n") o diger_value diger_value_panic N) as [B1 B2]. auto.
Qed.
(** C62: the witnesses: the same, but an entry that is not a list is an error *)
Lemma C62_witnesses_pf : forall (P : Profile) (C : Crypto) (F : Floats) (s : sadder) (o : list (bytes * data)), holds s o ->
  (forall l, serder_werfers s = Ok l <-> (exists vs, In (s2b "b", VArr vs) o /\ Forall2 (prim_text key_codes) vs l) \/ ~ In (s2b "b") (map fst o) /\ l = []) /\
  (serder_werfers s = Panic <-> exists vs, In (s2b "b", VArr vs) o /\ text_panics key_codes vs).
Proof.
  intros P C F s o [E N]. unfold serder_werfers. rewrite E. cbn [to_map obind vget]. destruct (each_text _ _ verfer_value verfer_value_panic) as [Eo Ep]. rewrite key_get. destruct (entry o (s2b "b") N) as [(v & -> & I & K & U)|(-> & K & No)].
  - cbn [obind]. destruct v as [| | | | |vs|]; cbn [to_vec obind];
      try (split; [intros l; split; [intros Z; discriminate Z|intros [(vs & J & _)|[Z _]]; [apply U in J; discriminate|contradiction]]|split; [intros Z; discriminate Z|intros (vs & J & _); apply U in J; discriminate]]).
    split.
    + intros l. rewrite Eo. split; [intros Fa; left; eauto|]. intros [(vs' & J & Fa)|[Z _]]; [apply U in J; injection J as ->; exact Fa|contradiction].
    + rewrite Ep. split; [eauto|]. intros (vs' & J & Z). apply U in J. injection J as ->. exact Z.
  - split; [intros l; split; [intros Z; apply Ok_inj in Z; right; auto|intros [(vs & J & _)|[_ ->]]; [destruct (No _ J)|reflexivity]]|split; [intros Z; discriminate Z|intros (vs & J & _); destruct (No _ J)]].
Qed.
Lemma C62_keys_ex_pf : forall P : Profile, let key := s2b "D" ++ rep 65 43 in let dig := s2b "E" ++ rep 65 43 in let wit := s2b "B" ++ rep 65 43 in
  let o := [(s2b "k", VArr [VStr key; VStr wit]); (s2b "n", VArr [VStr dig]); (s2b "b", VArr [VStr wit])] in let s := Sdr (s2b "E") [] (VObj o) (s2b "KERI") (s2b "JSON") 0 (Ver 1 0) (Mat (s2b "E") 0 []) in
  holds s o /\ serder_verfers s = Ok [Mat (s2b "D") 0 (rep 0 32); Mat (s2b "B") 0 (rep 0 32)] /\ serder_digers (H0 := toy_crypto) s = Ok [Mat (s2b "E") 0 (rep 0 32)] /\ serder_werfers s = Ok [Mat (s2b "B") 0 (rep 0 32)].
Proof. intros P key dig wit o s. split; [split; [reflexivity|repeat constructor; cbn; intuition discriminate]|]. split; [vm_compute; reflexivity|]. split; vm_compute; reflexivity. Qed.
(** C62: a list of keys that is not a list is silently no keys, a list of witnesses is not *)
Lemma C62_not_a_list_refuted_pf : forall (P : Profile) (C : Crypto) (F : Floats), exists s o, holds s o /\ In (s2b "k", VStr (s2b "D" ++ rep 65 43)) o /\ serder_verfers s = Ok [] /\ In (s2b "b", VStr (s2b "B" ++ rep 65 43)) o /\ serder_werfers s = Err E_Conversion.
Proof.
  intros P C F. set (o := [(s2b "k", VStr (s2b "D" ++ rep 65 43)); (s2b "b", VStr (s2b "B" ++ rep 65 43))]). exists (Sdr (s2b "E") [] (VObj o) (s2b "KERI") (s2b "JSON") 0 (Ver 1 0) (Mat (s2b "E") 0 [])), o.
  split; [split; [reflexivity|repeat constructor; cbn; intuition discriminate]|]. split; [left; reflexivity|]. split; [reflexivity|]. split; [right; left; reflexivity|reflexivity].
Qed.

(** C62: the signing thresholds of the current and of the next keys *)
Lemma C62_thresholds_pf : forall (P : Profile) (C : Crypto) (F : Floats) (s : sadder) (o : list (bytes * data)), holds s o ->
  (serder_tholder s = Ok None <-> ~ In (s2b "kt") (map fst o)) /\ (forall t, serder_tholder s = Ok (Some t) <-> exists v, In (s2b "kt", v) o /\ tholder_of_sith v = Ok t) /\ (serder_tholder s = Panic <-> exists v, In (s2b "kt", v) o /\ tholder_of_sith v = Panic) /\
  (serder_ntholder s = Ok None <-> ~ In (s2b "nt") (map fst o)) /\ (forall t, serder_ntholder s = Ok (Some t) <-> exists v, In (s2b "nt", v) o /\ tholder_of_sith v = Ok t) /\ (serder_ntholder s = Panic <-> exists v, In (s2b "nt", v) o /\ tholder_of_sith v = Panic).
Proof.
  intros P C F s o [E N]. unfold serder_tholder, serder_ntholder. assert (X : forall k, (threshold_at s k = Ok None <-> ~ In k (map fst o)) /\ (forall t, threshold_at s k = Ok (Some t) <-> exists v, In (k, v) o /\ tholder_of_sith v = Ok t) /\ (threshold_at s k = Panic <-> exists v, In (k, v) o /\ tholder_of_sith v = Panic)).
  2:{ destruct (X (s2b "kt")) as (A1 & A2 & A3). destruct (X (s2b "nt")) as (B1 & B2 & B3). auto 8. }
  intros k. unfold threshold_at. rewrite E. cbn [to_map obind vget]. rewrite key_get. destruct (entry o k N) as [(v & -> & I & K & U)|(-> & K & No)].
  - cbn [obind]. fold (tholder_of_sith v). change (tholder_new None None (Some v)) with (tholder_of_sith v). split; [|split].
    + destruct (tholder_of_sith v); cbn [obind]; split; intros Z; try discriminate Z; contradiction.
    + intros t. destruct (tholder_of_sith v) as [t'| |] eqn:Et; cbn [obind].
      * split; [intros Z; apply Ok_inj in Z; injection Z as ->; eauto|]. intros (w & J & Z). apply U in J. subst w. congruence.
      * split; [intros Z; discriminate Z|]. intros (w & J & Z). apply U in J. subst w. congruence.
      * split; [intros Z; discriminate Z|]. intros (w & J & Z). apply U in J. subst w. congruence.
    + destruct (tholder_of_sith v) as [t'| |] eqn:Et; cbn [obind]; (split; [intros Z; try discriminate Z; eauto|]; intros (w & J & Z); apply U in J; subst w; congruence).
  - split; [split; auto|]. split; [|split; [intros Z; discriminate Z|intros (v & J & _); destruct (No _ J)]]. intros t. split; [intros Z; discriminate Z|intros (v & J & _); destruct (No _ J)].
Qed.
Lemma C62_thresholds_ex_pf : forall (P : Profile) (C : Crypto) (F : Floats), let o := [(s2b "kt", VStr (s2b "2")); (s2b "nt", VArr [VStr (s2b "1/2"); VStr (s2b "1/2")])] in let s := Sdr (s2b "E") [] (VObj o) (s2b "KERI") (s2b "JSON") 0 (Ver 1 0) (Mat (s2b "E") 0 []) in
  holds s o /\ exists t n, serder_tholder s = Ok (Some t) /\ tholder_num t = Ok (Some 2) /\ serder_ntholder s = Ok (Some n) /\ th_weighted n = true /\ th_size n = 2.
Proof. intros P C F o s. split; [split; [reflexivity|repeat constructor; cbn; intuition discriminate]|]. eexists. eexists. split; [vm_compute; reflexivity|]. split; [vm_compute; reflexivity|]. split; [vm_compute; reflexivity|]. split; vm_compute; reflexivity. Qed.

Lemma sequence_number (P : Profile) t : (exists n, sequence_text t n /\ n < 2 ^ 128 /\ number_of_hex t = number_of n) \/ (forall n, ~ sequence_text t n) /\ number_of_hex t = Err E_ParseInt.
Proof.
  destruct t as [|c t].
  - left. exists 0. split; [right; auto|]. split; [reflexivity|]. apply C29_empty_pf.
  - destruct (parse_hex_u128 (c :: t)) as [n|e|] eqn:E.
    + left. apply parse_hex_iff in E. exists n. split; [left; exact E|]. split; [destruct E as (d & _ & _ & _ & L); exact L|]. apply C29_hex_input_pf. exact E.
    + right. assert (X : forall n, ~ hex_input (c :: t) n) by (intros n Z; apply parse_hex_iff in Z; congruence). split; [intros n [Z|[Z _]]; [apply (X n Z)|discriminate]|]. apply C29_hex_rejected_pf; [exact X|discriminate].
    + right. assert (X : forall n, ~ hex_input (c :: t) n) by (intros n Z; apply parse_hex_iff in Z; congruence). split; [intros n [Z|[Z _]]; [apply (X n Z)|discriminate]|]. apply C29_hex_rejected_pf; [exact X|discriminate].
Qed.
Lemma sequence_unique (P : Profile) t n n' : sequence_text t n -> sequence_text t n' -> n = n'.
Proof.
  assert (X : forall n, ~ hex_input [] n) by (intros k (d & D & [Z|Z] & _); [congruence|discriminate]).
  intros [A|[-> ->]] [B|[E ->]]; try subst t; try (destruct (X _ A)); try (destruct (X _ B)); auto. apply parse_hex_iff in A, B. congruence.
Qed.
(** C62: the sequence number is read from hexadecimal (of either case, with an optional '+'; the empty text is 0); it panics exactly without an entry "s" *)
Lemma C62_sequence_pf : forall (P : Profile) (C : Crypto) (F : Floats) (s : sadder) (o : list (bytes * data)), holds s o ->
  (forall n, serder_sn s = Ok n <-> exists t, In (s2b "s", VStr t) o /\ sequence_text t n) /\
  (forall m, serder_sner s = Ok m <-> exists t n, In (s2b "s", VStr t) o /\ sequence_text t n /\ number_of n = Ok m) /\
  (serder_sn s = Panic <-> ~ In (s2b "s") (map fst o)) /\ (serder_sner s = Panic <-> ~ In (s2b "s") (map fst o)).
Proof.
  intros P C F s o [E N]. unfold serder_sn, serder_sner. rewrite E. cbn [vget]. destruct (entry o (s2b "s") N) as [(v & -> & I & K & U)|(-> & K & No)]; cbn [obind].
  2:{ split; [intros n; split; [intros Z; discriminate Z|intros (t & J & _); destruct (No _ J)]|]. split; [intros m; split; [intros Z; discriminate Z|intros (t & n & J & _); destruct (No _ J)]|]. split; split; auto. }
  destruct v as [| | | |t| |]; cbn [to_string obind];
    try (split; [intros n; split; [intros Z; discriminate Z|intros (t' & J & _); apply U in J; discriminate]|]; split; [intros m; split; [intros Z; discriminate Z|intros (t' & n & J & _); apply U in J; discriminate]|]; split; (split; [intros Z; discriminate Z|intros Z; contradiction])).
  change (number_new None (Some t) None None None None None) with (number_of_hex t). destruct (sequence_number P t) as [(n & S & L & ->)|[S ->]].
  - destruct (C28_number_pf P n L) as (m & w & A & B & _). rewrite A. cbn [obind]. rewrite B. split; [|split; [|split; (split; [intros Z; discriminate Z|intros Z; contradiction])]].
    + intros n'. split; [intros Z; apply Ok_inj in Z; subst n'; eauto|]. intros (t' & J & S'). apply U in J. injection J as ->. f_equal. eapply sequence_unique; eauto.
    + intros m'. split; [intros Z; apply Ok_inj in Z; subst m'; exists t, n; auto|]. intros (t' & n' & J & S' & A'). apply U in J. injection J as ->. assert (n' = n) as -> by (eapply sequence_unique; eauto). congruence.
  - cbn [obind]. split; [intros n; split; [intros Z; discriminate Z|intros (t' & J & Z); apply U in J; injection J as ->; destruct (S _ Z)]|]. split; [intros m; split; [intros Z; discriminate Z|intros (t' & n & J & Z & _); apply U in J; injection J as ->; destruct (S _ Z)]|]. split; (split; [intros Z; discriminate Z|intros Z; contradiction]).
Qed.
Lemma C62_sequence_ex_pf : forall (P : Profile) (C : Crypto) (F : Floats), let o := [(s2b "s", VStr (s2b "1F"))] in let s := Sdr (s2b "E") [] (VObj o) (s2b "KERI") (s2b "JSON") 0 (Ver 1 0) (Mat (s2b "E") 0 []) in
  holds s o /\ serder_sn s = Ok 31.
Proof. intros P C F o s. split; [split; [reflexivity|repeat constructor; cbn; intuition discriminate]|vm_compute; reflexivity]. Qed.
(** C62: the first seen number, when there is one, is read as the text of a primitive *)
Lemma C62_first_seen_pf : forall (P : Profile) (C : Crypto) (F : Floats) (s : sadder) (o : list (bytes * data)), holds s o ->
  (serder_fner s = Ok None <-> ~ In (s2b "f") (map fst o)) /\ (~ In (s2b "f") (map fst o) -> serder_fn s = Err E_Validation) /\
  (forall m, serder_fner s = Ok (Some m) <-> exists t, In (s2b "f", VStr t) o /\ parse_text t = Ok m) /\
  (serder_fner s = Panic <-> exists t, In (s2b "f", VStr t) o /\ parse_text t = Panic) /\
  (forall n m t, n < 2 ^ 128 -> number_of n = Ok m -> matter_qb64 m = Ok t -> In (s2b "f", VStr t) o -> serder_fn s = Ok n).
Proof.
  intros P C F s o [E N]. unfold serder_fn, serder_fner. rewrite E. cbn [to_map obind vget]. rewrite key_get. destruct (entry o (s2b "f") N) as [(v & -> & I & K & U)|(-> & K & No)]; cbn [obind].
  2:{ split; [split; auto|]. split; [auto|]. split; [intros m; split; [intros Z; discriminate Z|intros (t & J & _); destruct (No _ J)]|]. split; [split; [intros Z; discriminate Z|intros (t & J & _); destruct (No _ J)]|]. intros n m t _ _ _ J. destruct (No _ J). }
  destruct v as [| | | |t| |]; cbn [to_string obind];
    try (split; [split; [intros Z; discriminate Z|intros Z; contradiction]|]; split; [intros Z; contradiction|]; split; [intros m; split; [intros Z; discriminate Z|intros (t' & J & _); apply U in J; discriminate]|]; split; [split; [intros Z; discriminate Z|intros (t' & J & _); apply U in J; discriminate]|]; intros n m t' _ _ _ J; apply U in J; discriminate).
  change (number_new None None None None None (Some t) None) with (number_of_text t). destruct (C27_number_parse_unchecked_pf P t t) as [-> _]. destruct (parse_text t) as [m| |] eqn:Et; cbn [obind].
  - split; [split; [intros Z; discriminate Z|intros Z; contradiction]|]. split; [intros Z; contradiction|]. split; [|split; [split; [intros Z; discriminate Z|intros (t' & J & Z); apply U in J; injection J as ->; congruence]|]].
    + intros m'. split; [intros Z; apply Ok_inj in Z; injection Z as ->; eauto|]. intros (t' & J & Z). apply U in J. injection J as ->. congruence.
    + intros n m' t' L A B J. apply U in J. injection J as ->. destruct (C28_number_pf P n L) as (m2 & w & A2 & B2 & _ & _ & _ & _ & _ & q & b & Q & _ & R & _). rewrite A in A2. apply Ok_inj in A2. subst m2. rewrite B in Q. apply Ok_inj in Q. subst q. destruct (C27_number_parse_unchecked_pf P t t) as [X _]. rewrite X, Et in R. apply Ok_inj in R. subst m. exact B2.
  - split; [split; [intros Z; discriminate Z|intros Z; contradiction]|]. split; [intros Z; contradiction|]. split; [intros m; split; [intros Z; discriminate Z|intros (t' & J & Z); apply U in J; injection J as ->; congruence]|]. split; [split; [intros Z; discriminate Z|intros (t' & J & Z); apply U in J; injection J as ->; congruence]|].
    intros n m' t' L A B J. exfalso. apply U in J. injection J as ->. destruct (C28_number_pf P n L) as (m2 & w & A2 & _ & _ & _ & _ & _ & _ & q & b & Q & _ & R & _). rewrite A in A2. apply Ok_inj in A2. subst m2. rewrite B in Q. apply Ok_inj in Q. subst q. destruct (C27_number_parse_unchecked_pf P t t) as [X _]. rewrite X, Et in R. discriminate R.
  - split; [split; [intros Z; discriminate Z|intros Z; contradiction]|]. split; [intros Z; contradiction|]. split; [intros m; split; [intros Z; discriminate Z|intros (t' & J & Z); apply U in J; injection J as ->; congruence]|]. split; [split; [eauto|reflexivity]|].
    intros n m' t' L A B J. exfalso. apply U in J. injection J as ->. destruct (C28_number_pf P n L) as (m2 & w & A2 & _ & _ & _ & _ & _ & _ & q & b & Q & _ & R & _). rewrite A in A2. apply Ok_inj in A2. subst m2. rewrite B in Q. apply Ok_inj in Q. subst q. destruct (C27_number_parse_unchecked_pf P t t) as [X _]. rewrite X, Et in R. discriminate R.
Qed.
Lemma C62_first_seen_ex_pf : forall (P : Profile) (C : Crypto) (F : Floats), let o := [(s2b "f", VStr (s2b "MAAB"))] in let s := Sdr (s2b "E") [] (VObj o) (s2b "KERI") (s2b "JSON") 0 (Ver 1 0) (Mat (s2b "E") 0 []) in
  holds s o /\ serder_fn s = Ok 1.
Proof. intros P C F o s. split; [split; [reflexivity|repeat constructor; cbn; intuition discriminate]|vm_compute; reflexivity]. Qed.
(** C62: so a first seen number in hexadecimal, as the sequence number is written, is not read *)
Lemma C62_first_seen_refuted_pf : forall (P : Profile) (C : Crypto) (F : Floats), exists s o, holds s o /\ In (s2b "s", VStr (s2b "1")) o /\ In (s2b "f", VStr (s2b "1")) o /\ serder_sn s = Ok 1 /\ forall n, serder_fn s <> Ok n.
Proof.
  intros P C F. set (o := [(s2b "s", VStr (s2b "1")); (s2b "f", VStr (s2b "1"))]). exists (Sdr (s2b "E") [] (VObj o) (s2b "KERI") (s2b "JSON") 0 (Ver 1 0) (Mat (s2b "E") 0 [])), o.
  split; [split; [reflexivity|repeat constructor; cbn; intuition discriminate]|]. split; [left; reflexivity|]. split; [right; left; reflexivity|]. split; [vm_compute; reflexivity|]. intros n Z. vm_compute in Z. discriminate Z.
Qed.
Lemma text_at (o : list (bytes * data)) k : NoDup (map fst o) -> let r := v <- vget (VObj o) k ;; to_string v in
  (forall t, r = Ok t <-> In (k, VStr t) o) /\ (r = Panic <-> ~ In k (map fst o)).
Proof.
  intros N r. subst r. cbn [vget]. destruct (entry o k N) as [(v & -> & I & K & U)|(-> & K & No)]; cbn [obind].
  - destruct v as [| | | |t| |]; cbn [to_string]; (split; [intros t'; split; [intros Z; try discriminate Z; apply Ok_inj in Z; subst; auto|intros J; apply U in J; try discriminate J; injection J as ->; reflexivity]|split; [intros Z; discriminate Z|intros Z; contradiction]]).
  - split; [intros t; split; [intros Z; discriminate Z|intros J; destruct (No _ J)]|split; auto].
Qed.
(** C62: the identifier prefix, and whether the event changes the keys *)
Lemma C62_event_pf : forall (P : Profile) (C : Crypto) (F : Floats) (s : sadder) (o : list (bytes * data)), holds s o ->
  (forall t, serder_pre s = Ok t <-> In (s2b "i", VStr t) o) /\ (serder_pre s = Panic <-> ~ In (s2b "i") (map fst o)) /\
  (forall b, serder_est s = Ok b <-> exists ilk, In (s2b "t", VStr ilk) o /\ (b = true <-> In ilk establishing)) /\ (serder_est s = Panic <-> ~ In (s2b "t") (map fst o)).
Proof.
  intros P C F s o [E N]. unfold serder_pre, serder_est. rewrite E. destruct (text_at o (s2b "i") N) as [A B]. split; [exact A|]. split; [exact B|]. destruct (text_at o (s2b "t") N) as [A' B'].
  set (r := v <- vget (VObj o) (s2b "t") ;; to_string v) in *. assert (X : (v <- vget (VObj o) (s2b "t") ;; ilk <- to_string v ;; Ok (mem_code ilk [s2b "icp"; s2b "rot"; s2b "dip"; s2b "drt"])) = (ilk <- r ;; Ok (mem_code ilk establishing))) by (subst r; destruct (vget (VObj o) (s2b "t")); reflexivity).
  rewrite X. clear X. clearbody r. destruct r as [ilk| |]; cbn [obind].
  - pose proof (proj1 (A' ilk) eq_refl) as I. split.
    + intros b. split; [intros Z; apply Ok_inj in Z; subst b; exists ilk; split; [exact I|apply mem_code_In]|]. intros (ilk' & J & Hb). apply A' in J. apply Ok_inj in J. subst ilk'. f_equal. apply eq_true_iff_eq. rewrite Hb. apply mem_code_In.
    + split; [intros Z; discriminate Z|]. intros Z. destruct Z. apply (in_map fst) in I. exact I.
  - split; [|rewrite <- B'; split; intros Z; discriminate Z]. intros b. split; [intros Z; discriminate Z|]. intros (ilk & J & _). apply A' in J. discriminate J.
  - split; [|rewrite <- B'; tauto]. intros b. split; [intros Z; discriminate Z|]. intros (ilk & J & _). apply A' in J. discriminate J.
Qed.
Lemma C62_event_ex_pf : forall (P : Profile) (C : Crypto) (F : Floats), let o := [(s2b "t", VStr (s2b "drt")); (s2b "i", VStr (s2b "EA"))] in let s := Sdr (s2b "E") [] (VObj o) (s2b "KERI") (s2b "JSON") 0 (Ver 1 0) (Mat (s2b "E") 0 []) in
  holds s o /\ serder_est s = Ok true /\ serder_pre s = Ok (s2b "EA").
Proof. intros P C F o s. split; [split; [reflexivity|repeat constructor; cbn; intuition discriminate]|split; vm_compute; reflexivity]. Qed.
(** C62: what a credential says *)
Lemma C62_credential_pf : forall (s : sadder) (o : list (bytes * data)), holds s o ->
  (forall t, creder_issuer s = Ok t <-> In (s2b "i", VStr t) o) /\ (creder_issuer s = Panic <-> ~ In (s2b "i") (map fst o)) /\
  (forall t, creder_schema s = Ok t <-> In (s2b "s", VStr t) o) /\ (creder_schema s = Panic <-> ~ In (s2b "s") (map fst o)) /\
  (forall v, creder_subject s = Ok v <-> In (s2b "a", v) o) /\ (creder_subject s = Panic <-> ~ In (s2b "a") (map fst o)) /\
  (forall t, creder_status s = Ok (Some t) <-> In (s2b "ri", VStr t) o) /\ (creder_status s = Ok None <-> ~ In (s2b "ri") (map fst o)) /\ creder_status s <> Panic /\
  (forall v, creder_chains s = Ok v <-> In (s2b "e", v) o \/ ~ In (s2b "e") (map fst o) /\ v = VObj []).
Proof.
  intros s o [E N]. unfold creder_issuer, creder_schema, creder_subject, creder_status, creder_chains. rewrite E.
  destruct (text_at o (s2b "i") N) as [A B]. split; [exact A|]. split; [exact B|]. destruct (text_at o (s2b "s") N) as [A' B']. split; [exact A'|]. split; [exact B'|]. cbn [to_map obind vget]. rewrite !key_get.
  split; [|split].
  - intros v. destruct (entry o (s2b "a") N) as [(w & -> & I & K & U)|(-> & K & No)]; [split; [intros Z; apply Ok_inj in Z; subst; exact I|intros J; apply U in J; subst; reflexivity]|split; [intros Z; discriminate Z|intros J; destruct (No _ J)]].
  - destruct (entry o (s2b "a") N) as [(w & -> & I & K & U)|(-> & K & No)]; split; auto; [intros Z; discriminate Z|intros Z; contradiction].
  - destruct (entry o (s2b "ri") N) as [(w & -> & I & K & U)|(-> & K & No)]; cbn [obind].
    + split; [intros t; destruct w as [| | | |t'| |]; cbn [to_string obind]; (split; [intros Z; try discriminate Z; apply Ok_inj in Z; injection Z as ->; exact I|intros J; apply U in J; try discriminate J; injection J as ->; reflexivity])|].
      split; [split; [destruct w; intros Z; discriminate Z|intros Z; contradiction]|]. split; [destruct w; discriminate|]. intros v. destruct (entry o (s2b "e") N) as [(x & -> & I2 & K2 & U2)|(-> & K2 & No2)].
      * split; [intros Z; apply Ok_inj in Z; subst; auto|intros [J|[J _]]; [apply U2 in J; subst; reflexivity|contradiction]].
      * split; [intros Z; apply Ok_inj in Z; subst; auto|intros [J|[_ ->]]; [destruct (No2 _ J)|reflexivity]].
    + split; [intros t; split; [intros Z; discriminate Z|intros J; destruct (No _ J)]|]. split; [split; auto|]. split; [discriminate|]. intros v. destruct (entry o (s2b "e") N) as [(x & -> & I2 & K2 & U2)|(-> & K2 & No2)].
      * split; [intros Z; apply Ok_inj in Z; subst; auto|intros [J|[J _]]; [apply U2 in J; subst; reflexivity|contradiction]].
      * split; [intros Z; apply Ok_inj in Z; subst; auto|intros [J|[_ ->]]; [destruct (No2 _ J)|reflexivity]].
Qed.
Lemma C62_credential_ex_pf : let o := [(s2b "i", VStr (s2b "x")); (s2b "a", VObj [])] in let s := Sdr (s2b "E") [] (VObj o) (s2b "ACDC") (s2b "JSON") 0 (Ver 1 0) (Mat (s2b "E") 0 []) in
  holds s o /\ creder_issuer s = Ok (s2b "x") /\ creder_subject s = Ok (VObj []) /\ creder_status s = Ok None /\ creder_chains s = Ok (VObj []) /\ creder_schema s = Panic.
Proof. intros o s. split; [split; [reflexivity|repeat constructor; cbn; intuition discriminate]|]. vm_compute. auto. Qed.
(** C62: every message that was loaded holds an object with distinct keys, so all of the above applies to it; its identifier is at the front of its entry "d", unless that has padding characters there *)
Lemma C62_loaded_pf : forall (P : Profile) (C : Crypto) (F : Floats) (code kind : option bytes) (ked : option data) (sad : option sadder) (raw : bytes) (s : sadder), float_shape F ->
  serder_new code (Some raw) kind ked sad = Ok s \/ creder_new code (Some raw) kind ked sad = Ok s ->
  exists o t k, holds s o /\ In (s2b "d", VStr t) o /\ k <= len t /\ (~ In 61 (take k t) -> sadder_said s = Ok (take k t) /\ sadder_saidb s = Ok (take k t)).
Proof.
  intros P C F code kind ked sad raw s FC H. assert (L : exists ident, loaded P F ident (unwrap_or code (s2b "E")) raw s) by (destruct H as [H|H]; apply C50_load_pf in H; eauto). clear H. destruct L as (ident & size & v & m & _ & _ & _ & J & (t & D & Pt & _) & ->).
  destruct (C46_json_stable_pf F _ v FC J) as (G & _). destruct v as [| | | | | |o]; try discriminate D. inversion G as [| | | | | |? N M]; subst. destruct (C05_text_canonical_pf P t m Pt) as (k & _ & L & X). exists o, t, k. split; [split; auto|]. split.
  - cbn [vget] in D. destruct (map_get (s2b "d") o) eqn:Ed; [|discriminate D]. apply Ok_inj in D. subst. apply map_get_In. exact Ed.
  - split; [exact L|]. intros Nz. destruct (X Nz) as [Q _]. unfold sadder_said, sadder_saidb. cbn [sd_saider]. split; [exact Q|]. exact Q.
Qed.
Lemma C62_loaded_ex_pf : exists F : Floats, float_shape F /\ forall P : Profile, exists s, serder_new (H0 := toy_crypto) (H1 := F) None (Some (s2b "{""v"":""KERI10JSON00004c_"",""d"":""" ++ s2b "E" ++ rep 65 43 ++ s2b """}")) None None None = Ok s /\
  sadder_said s = Ok (s2b "E" ++ rep 65 43).
Proof. exists {| float_of_text := fun _ => None |}. split; [intros t u Z; discriminate Z|]. intros P.
  exists (Sdr (s2b "E") (s2b "{""v"":""KERI10JSON00004c_"",""d"":""" ++ s2b "E" ++ rep 65 43 ++ s2b """}") (VObj [(s2b "v", VStr (s2b "KERI10JSON00004c_")); (s2b "d", VStr (s2b "E" ++ rep 65 43))]) (s2b "KERI") (s2b "JSON") 76 (Ver 1 0) (Mat (s2b "E") 0 (rep 0 32))).
  split; vm_compute; reflexivity.
Qed.
(** C62: and so does every message made from an object with distinct keys *)
Lemma C62_made_pf : forall (P : Profile) (C : Crypto) (F : Floats) (code kind : option bytes) (sad : option sadder) (pre post : list (bytes * data)) (vs : bytes) (s : sadder),
  len (to_json (VObj pre)) <= 7 -> let o x := pre ++ (s2b "v", VStr x) :: post in NoDup (map fst (o vs)) ->
  serder_new code None kind (Some (VObj (o vs))) sad = Ok s \/ creder_new code None kind (Some (VObj (o vs))) sad = Ok s ->
  exists w, holds s (o w) /\ forall k x, k <> s2b "v" -> In (k, x) (o w) <-> In (k, x) (o vs).
Proof.
  intros P C F code kind sad pre post vs s L o N H. assert (Nv : ~ In (s2b "v") (map fst pre)). { unfold o in N. rewrite map_app in N. cbn [map fst] in N. apply NoDup_remove_2 in N. intros I. apply N. apply in_app_iff. auto. }
  destruct (C55_from_ked_pf P C F code kind sad pre post vs s Nv L) as [A B]. cbv zeta in A, B. fold (o vs) in A, B. assert (M : exists i, made P i (unwrap_or code (s2b "E")) kind (fun x => VObj (o x)) vs s) by (destruct H as [H|H]; [apply A in H|apply B in H]; eauto). clear A B H.
  destruct M as (i & old & m & _ & _ & _ & _ & _ & ->). eexists. split; [split; [reflexivity|]|].
  - unfold o in *. rewrite map_app in *. exact N.
  - intros k x Nk. unfold o. rewrite !in_app_iff. cbn [In]. split; (intros [J|[J|J]]; [auto| |auto]); injection J as <- _; contradiction.
Qed.
