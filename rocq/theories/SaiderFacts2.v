(** Derivation, saidify and verify in terms of [sized_as]. *)
From Verif Require Import Base Utf8 MatterTables Matter StdStr Data Spec MatterDefs Crypto Prims PrimsDefs DataDefs Common CommonDefs Saider SaiderDefs.
From Verif Require Import BaseFacts B64Facts UtilFacts MatterFacts MatterFacts2 MatterFacts3 SpecFacts MatterFacts4 StdStrFacts MatterThms PrimsFacts PrimsFacts2 DataFacts JsonFacts CommonFacts CommonFacts2 SaiderFacts.

Lemma said_codes x : In x (map fst digest_sizes) <-> In x saider_codes.
Proof. apply mem_iff. vm_compute. reflexivity. Qed.
Lemma said_codes' x : In x (map fst digest_sizes) <-> In x digest_codes.
Proof. apply mem_iff. vm_compute. reflexivity. Qed.
Lemma dummy_text code : In code (map fst digest_sizes) -> exists z, get_sizage code = Ok z /\ from_utf8 (rep dummy (fs z)) = Ok (rep 35 (if len code =? 1 then 44 else 88)).
Proof.
  intros I. assert (T : forallb (fun c => match get_sizage c with Ok z => (fs z =? (if len c =? 1 then 44 else 88)) | _ => false end) (map fst digest_sizes) = true) by (vm_compute; reflexivity).
  eapply forallb_forall in T; [|exact I]. destruct (get_sizage code) as [z| |]; try discriminate. exists z. split; [reflexivity|]. apply N.eqb_eq in T. rewrite T. destruct (len code =? 1); reflexivity.
Qed.
Lemma dumps_eq v kind : dumps v (Some kind) = if bytes_eqb kind (s2b "JSON") then Ok (to_json v) else Err E_Value.
Proof. reflexivity. Qed.
Section S.
Context `{C : Crypto}.
(** derive, after the placeholder is in place *)
Lemma derive_eq o code kind label ignore : NoDup (map fst o) -> In code (map fst digest_sizes) ->
  said_derive (VObj o) (Some code) kind (Some label) ignore =
  ('(k, sad) <- sized_by kind (put label (placeholder code) o) ;;
   m <- to_map sad ;; cpa <- serialize (VObj (without (unwrap_or ignore []) m)) k ;; dig <- digest code cpa ;; Ok (dig, sad)).
Proof.
  intros N I. unfold said_derive. cbn [unwrap_or]. rewrite validate_yes by (apply said_codes; auto). cbn [obind]. destruct (dummy_text code I) as [z [-> D]]. cbn [obind]. rewrite D. cbn [obind vset to_map].
  rewrite put_insert by auto. change (VStr (rep 35 (if len code =? 1 then 44 else 88))) with (placeholder code).
  unfold sized_by. destruct (contains_key _ _) eqn:Cv.
  - destruct (sizeify _ kind) as [r| |] eqn:Z; try reflexivity. cbn [obind]. apply sizeify_inv in Z as [o2 [i [m [k [E [_ [_ [_ [_ [_ [_ [_ ->]]]]]]]]]]]]. injection E as <-. cbn [sz_kind sz_ked to_map obind].
    rewrite fold_without by (apply map_insert_NoDup, put_NoDup; auto). reflexivity.
  - cbn [obind to_map]. rewrite fold_without by (apply put_NoDup; auto). reflexivity.
Qed.
Lemma serialize_eq o k : (k = Some (s2b "JSON") /\ (forall v, map_get (s2b "v") o = Some v -> exists i m, v = VStr (version_text i 1 0 (s2b "JSON") m) /\ In i idents /\ m < 2 ^ 24)) \/ contains_key (s2b "v") o = false ->
  serialize (VObj o) k = if bytes_eqb (unwrap_or k (s2b "JSON")) (s2b "JSON") then Ok (to_json (VObj o)) else Err E_Value.
Proof.
  intros H. unfold serialize. cbn [to_map obind]. destruct H as [[-> H]|H].
  - unfold contains_key, vget. destruct (map_get (s2b "v") o) as [v|]; [|reflexivity]. destruct (H v eq_refl) as [i [m [-> [Hi Hm]]]]. cbn [obind to_string]. rewrite deversify_text by (auto; lia). reflexivity.
  - rewrite H. cbn [obind]. destruct k; reflexivity.
Qed.
Lemma digest_ok code ser : In code (map fst digest_sizes) -> digest code ser = Ok (x_hash code ser).
Proof. intros I. apply said_codes', mem_code_In in I. unfold digest. rewrite I. reflexivity. Qed.
Lemma derive_iff o code kind label ignore d s : NoDup (map fst o) -> In code (map fst digest_sizes) ->
  said_derive (VObj o) (Some code) kind (Some label) ignore = Ok (d, s) <->
  kind_ok kind /\ exists o', s = VObj o' /\ sized_as (put label (placeholder code) o) o' /\ d = x_hash code (to_json (VObj (without (unwrap_or ignore []) o'))).
Proof.
  intros N I. rewrite derive_eq by auto. set (b := put label (placeholder code) o). assert (Nb : NoDup (map fst b)) by (apply put_NoDup; auto).
  assert (Ser : forall k s', sized_by kind b = Ok (k, s') -> (contains_key (s2b "v") b = false -> kind_ok kind) -> exists o', s' = VObj o' /\ sized_as b o' /\ kind_ok kind /\ serialize (VObj (without (unwrap_or ignore []) o')) k = Ok (to_json (VObj (without (unwrap_or ignore []) o')))).
  { intros k s' H1 H2. destruct (proj1 (sized_as_iff kind b Nb k s') (conj H1 H2)) as [Hk [[o' [-> S]] ->]]. exists o'. split; [reflexivity|]. split; [exact S|]. split; [exact Hk|]. rewrite serialize_eq.
    - destruct (contains_key (s2b "v") b); [reflexivity|]. destruct Hk as [-> | ->]; reflexivity.
    - destruct S as [[Nv ->]|[i [m [kk [Iv [Hi [Hm [F [Lk [Ln ->]]]]]]]]]].
      + right. destruct (contains_key (s2b "v") (without (unwrap_or ignore []) b)) eqn:Ck; [|reflexivity]. apply has_key in Ck. rewrite without_keys in Ck. apply filter_In in Ck as [Ck _]. contradiction.
      + left. assert (Cv : contains_key (s2b "v") b = true) by (apply has_key, in_map_iff; eexists; split; [|exact Iv]; reflexivity). rewrite Cv. split; [reflexivity|]. intros v. rewrite without_get, put_get, beqb_refl by auto.
        destruct (existsb _ _); [discriminate|]. intros E. injection E as <-. eexists _, _. split; [reflexivity|]. split; [destruct Hi as [-> | ->]; cbn; auto|exact Ln]. }
  split.
  - intros H. destruct (sized_by kind b) as [[k s']| |] eqn:Z; try discriminate. cbn [obind] in H.
    assert (Hk : contains_key (s2b "v") b = false -> kind_ok kind).
    { intros Cv. unfold sized_by in Z. rewrite Cv in Z. apply Ok_inj in Z. injection Z as <- <-. cbn [to_map obind] in H. rewrite serialize_eq in H.
      - destruct kind as [kk|]; [|left; reflexivity]. cbn [unwrap_or] in H. destruct (bytes_eqb kk (s2b "JSON")) eqn:E; [|discriminate]. apply bytes_eqb_eq in E. subst. right. reflexivity.
      - right. destruct (contains_key (s2b "v") (without (unwrap_or ignore []) b)) eqn:Ck; [|reflexivity]. apply has_key in Ck. rewrite without_keys in Ck. apply filter_In in Ck as [Ck _]. apply has_key in Ck. congruence. }
    destruct (Ser k s' eq_refl Hk) as [o' [-> [S [Hk' E]]]]. cbn [to_map obind] in H. rewrite E in H. cbn [obind] in H. rewrite digest_ok in H by auto. cbn [obind] in H. apply Ok_inj in H. injection H as <- <-. split; [exact Hk'|]. exists o'. auto.
  - intros [Hk [o' [-> [S ->]]]]. assert (Z : sized_by kind b = Ok (if contains_key (s2b "v") b then Some (s2b "JSON") else kind, VObj o')) by (apply sized_as_iff; eauto).
    destruct (Ser _ _ Z (fun _ => Hk)) as [o2 [E2 [S2 [_ E]]]]. injection E2 as <-. rewrite Z. cbn [obind to_map]. rewrite E. cbn [obind]. rewrite digest_ok by auto. reflexivity.
Qed.
(** derive never panics on an object *)
Lemma derive_total o code kind label ignore : NoDup (map fst o) -> said_derive (VObj o) (Some code) kind (Some label) ignore <> Panic.
Proof.
  intros N. destruct (in_dec bytes_eq_dec code (map fst digest_sizes)) as [I|I].
  - rewrite derive_eq by auto. destruct (sized_by kind _) as [[k s]| |] eqn:Z; [|discriminate|apply sized_by_total in Z; destruct Z]. cbn [obind].
    destruct s; try discriminate. cbn [to_map obind]. unfold serialize. cbn [to_map obind]. unfold contains_key, vget. destruct (map_get (s2b "v") _) as [v|]; cbn [obind].
    + destruct v as [| | | |vs| |]; try discriminate. cbn [to_string obind]. destruct (deversify vs) as [p| |] eqn:E; [|discriminate|apply deversify_total in E; destruct E]. cbn [obind]. rewrite dumps_eq. destruct (bytes_eqb _ _); [|discriminate]. cbn [obind]. rewrite digest_ok by auto. discriminate.
    + rewrite dumps_eq. destruct (bytes_eqb _ _); [|discriminate]. cbn [obind]. rewrite digest_ok by auto. discriminate.
  - unfold said_derive. cbn [unwrap_or]. rewrite validate_no by (intros J; apply I, said_codes; exact J). discriminate.
Qed.
End S.

(** a digest of its code's size makes a primitive *)
Lemma said_build `{P : Profile} code raw n : In (code, n) digest_sizes -> len raw = n -> matter_new (Some code) (Some raw) None None None = Ok (Mat code 0 raw).
Proof.
  intros Hin L. assert (If : exists f, In (code, (n, f)) fixed_codes).
  { assert (T : forallb (fun e => existsb (fun g => bytes_eqb (fst e) (fst g) && (snd e =? fst (snd g))) fixed_codes) digest_sizes = true) by (vm_compute; reflexivity).
    eapply forallb_forall in T; [|exact Hin]. apply existsb_exists in T as [[c' [n' f]] [I' T]]. cbn [fst snd] in T. apply andb_true_iff in T as [T1 T2].
    apply bytes_eqb_eq in T1. apply N.eqb_eq in T2. subst. eauto. }
  destruct If as [f If]. unfold matter_new. rewrite (fixed_build _ _ _ _ If) by lia. rewrite take_all by lia. reflexivity.
Qed.
Lemma said_constructed `{P : Profile} code raw n : In (code, n) digest_sizes -> len raw = n -> bytes_ok raw = true -> is_diger (Mat code 0 raw).
Proof.
  intros Hin L B. split; [|apply in_map_iff; exists (code, n); auto]. exists code, raw. split; [left|split; [exact B|exact (said_build code raw n Hin L)]].
  assert (T : forallb (fun e => mem_code (fst e) (map fst fixed_codes)) digest_sizes = true) by (vm_compute; reflexivity). eapply forallb_forall in T; [|exact Hin]. apply mem_code_In in T. exact T.
Qed.
(** its text determines it *)
Lemma said_text `{P : Profile} m : is_diger m -> exists q, matter_qb64 m = Ok q /\ parse_text q = Ok m.
Proof.
  intros [[code [raw [T [B E]]]] _]. destruct (C01_text_round_trip_pf P code raw m T B E) as [t [H1 [H2 _]]]. eauto.
Qed.
Lemma code_size code : In code (map fst digest_sizes) -> exists n, In (code, n) digest_sizes.
Proof. intros I. apply in_map_iff in I as [[c n] [<- I]]. exists n. exact I. Qed.
Lemma said_shape `{P : Profile} m : is_diger m -> exists n, In (m_code m, n) digest_sizes /\ m = Mat (m_code m) 0 (m_raw m) /\ len (m_raw m) = n /\ bytes_ok (m_raw m) = true.
Proof.
  intros [[code [raw [T [B E]]]] I]. destruct (code_size _ I) as [n Hn]. exists n. split; [exact Hn|].
  assert (If : exists f, In (m_code m, (n, f)) fixed_codes).
  { assert (T' : forallb (fun e => existsb (fun g => bytes_eqb (fst e) (fst g) && (snd e =? fst (snd g))) fixed_codes) digest_sizes = true) by (vm_compute; reflexivity).
    eapply forallb_forall in T'; [|exact Hn]. apply existsb_exists in T' as [[c' [n' f]] [I' T']]. cbn [fst snd] in T'. apply andb_true_iff in T' as [T1 T2].
    apply bytes_eqb_eq in T1. apply N.eqb_eq in T2. rewrite T1, T2. eauto. }
  destruct If as [f If]. destruct (constructed_wf m) as [z W]; [exists code, raw; auto|].
  destruct (fixed_code_sizage _ _ _ If) as [z' [Hz [V [_ Hr]]]]. pose proof (wf_sz _ _ W) as Hz'. rewrite Hz in Hz'. apply Ok_inj in Hz'. subst z'.
  pose proof (wf_len _ _ W) as Rl. unfold raw_len_ok in Rl. rewrite V in Rl. destruct Rl as [R1 R2].
  split; [destruct m as [c s r]; cbn in *; subst; reflexivity|]. split; [lia|apply (wf_bytes _ _ W)].
Qed.
Lemma all_b64_plain t : all_b64 t = true -> plain t.
Proof.
  intros A. unfold plain. assert (H : forall c, In c t -> escape_char c = [c]).
  { intros c I. eapply forallb_forall in A; [|exact I]. assert (T : forallb (fun c => bytes_eqb (escape_char c) [c]) b64_alphabet = true) by (vm_compute; reflexivity).
    assert (In c b64_alphabet) by (apply is_b64_In; exact A). eapply forallb_forall in T; [|eassumption]. apply bytes_eqb_eq in T. exact T. }
  clear A. induction t as [|c t IH]; [reflexivity|]. cbn [flat_map]. rewrite (H c) by (left; reflexivity). cbn [app]. f_equal. apply IH. intros. apply H. right. auto.
Qed.
(** its text has the length of the placeholder *)
Lemma said_text_len `{P : Profile} m q : is_diger m -> matter_qb64 m = Ok q -> len q = (if len (m_code m) =? 1 then 44 else 88) /\ plain q /\ all_b64 q = true.
Proof.
  intros D Q. destruct (said_shape m D) as [n [Hn [E [L B]]]].
  assert (T : forallb (fun e => existsb (fun g => bytes_eqb (fst e) (fst g) && (snd e =? fst (snd g)) && (snd (snd g) =? (if len (fst e) =? 1 then 44 else 88))) fixed_codes) digest_sizes = true) by (vm_compute; reflexivity).
  eapply forallb_forall in T; [|exact Hn]. apply existsb_exists in T as [[c' [n' f]] [I' T]]. cbn [fst snd] in T. apply andb_true_iff in T as [T T3]. apply andb_true_iff in T as [T1 T2].
  apply bytes_eqb_eq in T1. apply N.eqb_eq in T2, T3. subst c' n' f. destruct (fixed_wire _ _ _ (m_raw m) I' L B) as [t [b [Q' [_ [Lt [At _]]]]]].
  rewrite <- E in Q'. rewrite Q in Q'. apply Ok_inj in Q'. subst t. split; [exact Lt|split; [apply all_b64_plain; exact At|exact At]].
Qed.
