(** Properties C51, C52 and the Saider part of C26. *)
From Verif Require Import Base Utf8 MatterTables Matter StdStr Data Spec MatterDefs Crypto Prims PrimsDefs DataDefs CommonDefs Saider SaiderDefs.
From Verif Require Import Common BaseFacts UtilFacts MatterFacts MatterFacts2 MatterFacts3 SpecFacts MatterFacts4 StdStrFacts MatterThms PrimsFacts PrimsFacts2 DataFacts JsonFacts CommonFacts CommonFacts2 DataThms SaiderFacts SaiderFacts2.

(** C26: a Saider: parsed ones are what the general parser returns, if the code is a digest code. *)
Lemma C26_saider_pf : forall (P : Profile) (C : Crypto) (code qb64b qb64 qb2 : option bytes),
  checked m_code (map fst digest_sizes) (matter_new code None qb64b qb64 qb2) (saider_new None None None None code None qb64b qb64 qb2).
Proof. intros. unfold saider_new. cbn [none negb orb]. apply checked_validate. exact said_codes. Qed.
(** C26: and every Saider, however made, has a digest code. *)
Lemma C26_saider_code_pf : forall (P : Profile) (C : Crypto) (sad : option data) (label kind : option bytes) (ignore : option (list bytes)) (code raw qb64b qb64 qb2 : option bytes) (s : matter),
  saider_new sad label kind ignore code raw qb64b qb64 qb2 = Ok s -> In (m_code s) (map fst digest_sizes).
Proof.
  assert (B : forall (P : Profile) code raw s, In code saider_codes -> matter_new (Some code) (Some raw) None None None = Ok s -> In (m_code s) (map fst digest_sizes)).
  { intros P code raw s I H. apply said_codes in I. destruct (code_size _ I) as [n Hn]. assert (If : exists f, In (code, (n, f)) fixed_codes).
    { assert (T : forallb (fun e => existsb (fun g => bytes_eqb (fst e) (fst g) && (snd e =? fst (snd g))) fixed_codes) digest_sizes = true) by (vm_compute; reflexivity).
      eapply forallb_forall in T; [|exact Hn]. apply existsb_exists in T as [[c' [n' f]] [I' T]]. cbn [fst snd] in T. apply andb_true_iff in T as [T1 T2].
      apply bytes_eqb_eq in T1. apply N.eqb_eq in T2. subst. eauto. }
    destruct If as [f If]. destruct (fixed_build_inv _ _ _ _ _ If H) as [-> _]. exact I. }
  intros P C sad label kind ignore code raw qb64b qb64 qb2 s H. unfold saider_new in H. destruct (_ || _).
  - cbv zeta in H. inv_bind H cr Ecr. destruct cr as [c r]. refine (B P c r s _ H). clear H.
    assert (G : forall X, (code0 <- X ;; _ <- validate saider_codes code0 ;; '(raw, _) <- said_derive (unwrap_or sad (VObj [])) (Some code0) kind (Some (unwrap_or label (s2b "d"))) ignore ;; Ok (code0, raw)) = Ok (c, r) -> In c saider_codes).
    { intros X H. inv_bind H c0 Ec. inv_bind H u Eu. destruct u. apply validate_ok in Eu. inv_bind H d Ed. destruct d. apply Ok_inj in H. injection H as <- <-. exact Eu. }
    destruct code as [c0|]; [destruct raw as [r0|]|].
    + inv_bind Ecr u Eu. destruct u. apply validate_ok in Eu. apply Ok_inj in Ecr. injection Ecr as <- <-. exact Eu.
    + exact (G _ Ecr).
    + exact (G _ Ecr).
  - inv_bind H m Em. inv_bind H u Eu. destruct u. apply validate_ok in Eu. apply Ok_inj in H. subst. apply said_codes. exact Eu.
Qed.
(** accepted and refused codes exist *)
Lemma C26_saider_ex_pf : forall P : Profile,
  saider_new (H0 := toy_crypto) None None None None (Some (s2b "E")) (Some (rep 7 32)) None None None = Ok (Mat (s2b "E") 0 (rep 7 32)) /\
  saider_new (H0 := toy_crypto) None None None None (Some (s2b "D")) (Some (rep 7 32)) None None None = Err E_UnexpectedCode /\
  saider_new (H0 := toy_crypto) None None None None None None None (Some (s2b "MAAA")) None = Err E_UnexpectedCode.
Proof. intros P. vm_compute. auto. Qed.

(** C51: saidify succeeds exactly on objects that have the label, with a digest
    code and (if there is a version string) a size that can be written; the result
    is the digest of the object with the placeholder, sized, less the ignored
    entries, and the object with the digest's text in its place. *)
Lemma C51_saidify_pf : forall (P : Profile) (C : Crypto) (o : list (bytes * data)) (code kind label : option bytes) (ignore : option (list bytes)) (s : matter) (sad : data),
  hash_contract C -> NoDup (map fst o) ->
  let lab := unwrap_or label (s2b "d") in let c := unwrap_or code (s2b "E") in
  saidify (VObj o) code kind label ignore = Ok (s, sad) <->
  In lab (map fst o) /\ In c (map fst digest_sizes) /\ (kind = None \/ kind = Some (s2b "JSON")) /\
  exists o' q, sized_as (put lab (placeholder c) o) o' /\
    s = Mat c 0 (x_hash c (to_json (VObj (without (unwrap_or ignore []) o')))) /\ matter_qb64 s = Ok q /\ sad = VObj (put lab (VStr q) o').
Proof.
  intros P C o code kind label ignore s sad HC N lab c.
  (* the second derivation finds the same *)
  assert (D2 : In c (map fst digest_sizes) -> forall o', sized_as (put lab (placeholder c) o) o' -> lab <> s2b "v" /\ NoDup (map fst o') /\ In lab (map fst o') /\ put lab (placeholder c) o' = o' /\ sized_as o' o').
  { intros Ic o' S. destruct (sized_as_again _ _ (put_NoDup lab (placeholder c) o N) S) as [S' [N' [K [G _]]]].
    assert (Nl : lab <> s2b "v").
    { intros E. destruct S as [[Nv _]|[i [m [k [Iv [Hi _]]]]]].
      - apply Nv. rewrite <- E. apply put_In. exact N.
      - apply In_map_get in Iv; [|apply put_NoDup; exact N]. rewrite put_get in Iv by auto. rewrite E, beqb_refl in Iv. injection Iv as Iv. apply (f_equal len) in Iv. rewrite len_rep, version_text_len in Iv.
        + destruct (len c =? 1); discriminate Iv.
        + apply known_tag. destruct Hi as [-> | ->]; cbn; auto.
        + apply json_tag. }
    split; [exact Nl|]. split; [exact N'|]. split; [rewrite K; apply put_In; exact N|]. split; [|exact S']. apply put_same; [exact N'|]. rewrite G by exact Nl. rewrite put_get, beqb_refl by auto. reflexivity. }
  assert (New : In c (map fst digest_sizes) -> forall o', sized_as (put lab (placeholder c) o) o' -> kind_ok kind ->
    saider_new (Some (VObj o')) (Some lab) kind ignore (Some c) None None None None = Ok (Mat c 0 (x_hash c (to_json (VObj (without (unwrap_or ignore []) o')))))).
  { intros Ic o' S Hk. destruct (D2 Ic o' S) as [Nl [N' [Il [Ep S']]]]. unfold saider_new. cbn [none negb orb unwrap_or to_map obind]. apply has_key in Il. rewrite Il. cbn [negb obind].
    rewrite validate_yes by (apply said_codes; exact Ic). cbn [obind].
    assert (E : said_derive (VObj o') (Some c) kind (Some lab) ignore = Ok (x_hash c (to_json (VObj (without (unwrap_or ignore []) o'))), VObj o')).
    { apply derive_iff; auto. split; [exact Hk|]. exists o'. rewrite Ep. auto. }
    rewrite E. cbn [obind]. destruct (code_size _ Ic) as [n Hn]. apply (said_build _ _ n Hn). apply (HC c n _ Hn). }
  unfold saidify. fold lab c. cbn [to_map obind]. split.
  - intros H. destruct (contains_key lab o) eqn:Ck; [|discriminate]. cbn [negb] in H. apply has_key in Ck.
    assert (Ic : In c (map fst digest_sizes)).
    { destruct (in_dec bytes_eq_dec c (map fst digest_sizes)) as [I|I]; [exact I|]. unfold said_derive in H. cbn [unwrap_or] in H. rewrite validate_no in H by (intros J; apply I, said_codes; exact J). discriminate. }
    inv_bind H ds Ed. destruct ds as [d s']. apply derive_iff in Ed; [|auto|exact Ic]. destruct Ed as [Hk [o' [-> [S ->]]]]. rewrite (New Ic o' S Hk) in H. cbn [obind] in H. inv_bind H q Eq'. cbn [vset obind] in H. apply Ok_inj in H. injection H as <- <-.
    split; [exact Ck|]. split; [exact Ic|]. split; [exact Hk|]. exists o', q. split; [exact S|]. split; [reflexivity|]. split; [exact Eq'|]. rewrite put_insert by (apply D2; auto). reflexivity.
  - intros [Il [Ic [Hk [o' [q [S [-> [Eq' ->]]]]]]]]. apply has_key in Il. rewrite Il. cbn [negb].
    assert (E : said_derive (VObj o) (Some c) kind (Some lab) ignore = Ok (x_hash c (to_json (VObj (without (unwrap_or ignore []) o'))), VObj o')) by (apply derive_iff; eauto).
    rewrite E. cbn [obind]. rewrite (New Ic o' S Hk). cbn [obind]. rewrite Eq'. cbn [obind vset]. rewrite put_insert by (apply D2; auto). reflexivity.
Qed.
Lemma verify_eq (P : Profile) (C : Crypto) s o p v kind label ignore : hash_contract C -> is_diger s -> NoDup (map fst o) -> exists q, matter_qb64 s = Ok q /\
  said_verify s (VObj o) p v kind label ignore =
  match said_derive (VObj o) (Some (m_code s)) kind (Some (unwrap_or label (s2b "d"))) ignore with
  | Panic => Panic
  | Err _ => Ok false
  | Ok (raw, dsad) =>
    if negb (bytes_eqb (m_raw s) raw) then Ok false
    else stop <- (if unwrap_or v true then if contains_key (s2b "v") o then x <- vget (VObj o) (s2b "v") ;; x <- to_string x ;; w <- vget dsad (s2b "v") ;; y <- to_string w ;; Ok (negb (bytes_eqb x y)) else Ok false else Ok false) ;;
         if stop : bool then Ok false else if unwrap_or p false then x <- vget (VObj o) (unwrap_or label (s2b "d")) ;; x <- to_string x ;; Ok (bytes_eqb x q) else Ok true
  end.
Proof.
  intros HC D N. destruct (said_text s D) as [q [Q Pq]]. exists q. split; [exact Q|]. unfold said_verify.
  destruct (said_derive _ _ _ _ _) as [[raw ds]| |] eqn:Ed; [|reflexivity|reflexivity]. destruct (said_shape s D) as [n [Hn [Es [L B]]]].
  assert (Ic : In (m_code s) (map fst digest_sizes)) by apply D. apply derive_iff in Ed; [|auto|exact Ic]. destruct Ed as [_ [o' [_ [_ Er]]]]. destruct (HC (m_code s) n (to_json (VObj (without (unwrap_or ignore []) o'))) Hn) as [Lr Br]. rewrite <- Er in Lr, Br. clear Er.
  assert (E : saider_new None None None None (Some (m_code s)) (Some raw) None None None = Ok (Mat (m_code s) 0 raw)).
  { unfold saider_new. cbn [none negb orb]. rewrite validate_yes by (apply said_codes; exact Ic). cbn [obind]. apply (said_build _ _ n Hn Lr). }
  rewrite E. rewrite Q. cbn [obind]. destruct (said_text (Mat (m_code s) 0 raw) (said_constructed _ _ n Hn Lr Br)) as [q' [Q' Pq']]. rewrite Q'. cbn [obind to_map].
  replace (bytes_eqb q q') with (bytes_eqb (m_raw s) raw). { reflexivity. }
  apply eq_true_iff_eq. rewrite !bytes_eqb_eq. split.
  - intros <-. rewrite <- Es in Q'. rewrite Q in Q'. apply Ok_inj in Q'. exact Q'.
  - intros <-. rewrite Pq in Pq'. apply Ok_inj in Pq'. rewrite Pq'. reflexivity.
Qed.
(** C52: a Saider verifies exactly the objects whose placeholder form has its
    digest, whose version string states the right size (if asked), and whose label
    field is the Saider's text (if asked). *)
Lemma C52_verify_pf : forall (P : Profile) (C : Crypto) (s : matter) (o : list (bytes * data)) (prefixed versioned : option bool) (kind label : option bytes) (ignore : option (list bytes)),
  hash_contract C -> is_diger s -> NoDup (map fst o) -> let lab := unwrap_or label (s2b "d") in
  said_verify s (VObj o) prefixed versioned kind label ignore = Ok true <->
  (kind = None \/ kind = Some (s2b "JSON")) /\ exists o', sized_as (put lab (placeholder (m_code s)) o) o' /\
    m_raw s = x_hash (m_code s) (to_json (VObj (without (unwrap_or ignore []) o'))) /\
    (versioned <> Some false -> o' = put lab (placeholder (m_code s)) o) /\
    (prefixed = Some true -> exists q, matter_qb64 s = Ok q /\ In (lab, VStr q) o).
Proof.
  intros P C s o p v kind label ignore HC D N lab. destruct (verify_eq P C s o p v kind label ignore HC D N) as [q [Q ->]]. fold lab.
  assert (Nb : NoDup (map fst (put lab (placeholder (m_code s)) o))) by (apply put_NoDup; exact N).
  assert (Ic : In (m_code s) (map fst digest_sizes)) by apply D.
  (* what the version check says *)
  assert (V : forall o', sized_as (put lab (placeholder (m_code s)) o) o' -> (contains_key (s2b "v") o = false -> o' = put lab (placeholder (m_code s)) o) /\
     (contains_key (s2b "v") o = true -> exists x y, map_get (s2b "v") o = Some (VStr x) /\ map_get (s2b "v") o' = Some (VStr y) /\ (x = y <-> o' = put lab (placeholder (m_code s)) o))).
  { intros o' S. assert (Nl : lab = s2b "v" -> False).
    { intros E. destruct S as [[Nv _]|[i [m [k [Iv [Hi _]]]]]].
      - apply Nv. rewrite <- E. apply put_In. exact N.
      - apply In_map_get in Iv; [|exact Nb]. rewrite put_get in Iv by auto. rewrite E, beqb_refl in Iv. injection Iv as Iv. apply (f_equal len) in Iv. rewrite len_rep, version_text_len in Iv.
        + destruct (len (m_code s) =? 1); discriminate Iv.
        + apply known_tag. destruct Hi as [-> | ->]; cbn; auto.
        + apply json_tag. }
    assert (Gv : map_get (s2b "v") (put lab (placeholder (m_code s)) o) = map_get (s2b "v") o). { rewrite put_get by auto. destruct (bytes_eqb (s2b "v") lab) eqn:E; [|reflexivity]. apply bytes_eqb_eq in E. destruct Nl; auto. }
    destruct S as [[Nv ->]|[i [m [k [Iv [Hi [Hm [F [Lk [Ln ->]]]]]]]]]].
    - split; [reflexivity|]. intros Cv. exfalso. apply Nv. apply has_key. unfold contains_key in *. rewrite Gv. exact Cv.
    - apply In_map_get in Iv; [|exact Nb]. rewrite Gv in Iv. unfold contains_key. rewrite Iv. split; [discriminate|]. intros _. eexists _, _. split; [reflexivity|]. rewrite put_get, beqb_refl by auto. split; [reflexivity|]. split.
      + intros <-. apply put_same; [exact Nb|]. rewrite Gv. exact Iv.
      + intros E. apply (f_equal (map_get (s2b "v"))) in E. rewrite put_get, beqb_refl, Gv, Iv in E by auto. congruence. }
  split.
  - intros H. destruct (said_derive _ _ _ _ _) as [[raw ds]| |] eqn:Ed; try discriminate. apply derive_iff in Ed; [|auto|exact Ic]. destruct Ed as [Hk [o' [-> [S ->]]]]. split; [exact Hk|]. exists o'. split; [exact S|].
    destruct (bytes_eqb (m_raw s) _) eqn:Er; [|discriminate]. apply bytes_eqb_eq in Er. split; [exact Er|]. cbn [negb] in H. destruct (V o' S) as [V1 V2]. inv_bind H st Est. destruct st; [discriminate|]. split.
    + intros Hv. assert (Ev : unwrap_or v true = true) by (destruct v as [[]|]; try reflexivity; contradiction). rewrite Ev in Est. destruct (contains_key (s2b "v") o) eqn:Cv; [|auto]. destruct (V2 eq_refl) as [x [y [Gx [Gy E]]]].
      cbn [vget] in Est. rewrite Gx, Gy in Est. cbn [obind to_string] in Est. apply Ok_inj in Est. apply E, bytes_eqb_eq. destruct (bytes_eqb x y); [reflexivity|discriminate].
    + intros ->. cbn [unwrap_or vget] in H. destruct (map_get lab o) as [x|] eqn:G; [|discriminate]. cbn [obind] in H. destruct x; try discriminate. cbn [to_string obind] in H. apply Ok_inj in H. apply bytes_eqb_eq in H. subst. exists q. split; [exact Q|]. apply map_get_In. exact G.
  - intros [Hk [o' [S [Er [Hv Hp]]]]]. assert (Ed : said_derive (VObj o) (Some (m_code s)) kind (Some lab) ignore = Ok (x_hash (m_code s) (to_json (VObj (without (unwrap_or ignore []) o'))), VObj o')) by (apply derive_iff; eauto).
    rewrite Ed. rewrite <- Er, beqb_refl. cbn [negb]. destruct (V o' S) as [V1 V2].
    assert (Est : (if unwrap_or v true then if contains_key (s2b "v") o then x <- vget (VObj o) (s2b "v") ;; x <- to_string x ;; w <- vget (VObj o') (s2b "v") ;; y <- to_string w ;; Ok (negb (bytes_eqb x y)) else Ok false else Ok false) = Ok false).
    { destruct (unwrap_or v true) eqn:Ev; [|reflexivity]. destruct (contains_key (s2b "v") o) eqn:Cv; [|reflexivity]. destruct (V2 eq_refl) as [x [y [Gx [Gy E]]]]. cbn [vget]. rewrite Gx, Gy. cbn [obind to_string].
      assert (x = y) as <- by (apply E, Hv; intros ->; discriminate). rewrite beqb_refl. reflexivity. }
    rewrite Est. cbn [obind]. destruct (unwrap_or p false) eqn:Ep; [|reflexivity]. destruct Hp as [q' [Q' I]]. { destruct p as [[]|]; try discriminate. reflexivity. } rewrite Q in Q'. apply Ok_inj in Q'. subst q'. cbn [vget]. rewrite (In_map_get _ _ _ N I). cbn [obind to_string]. rewrite beqb_refl. reflexivity.
Qed.
(** C51: what saidify returns verifies, whatever checks are asked for. *)
Lemma C51_saidify_verifies_pf : forall (P : Profile) (C : Crypto) (o : list (bytes * data)) (code kind label : option bytes) (ignore : option (list bytes)) (s : matter) (sad : data) (prefixed versioned : option bool),
  hash_contract C -> NoDup (map fst o) -> saidify (VObj o) code kind label ignore = Ok (s, sad) ->
  said_verify s sad prefixed versioned kind label ignore = Ok true.
Proof.
  intros P C o code kind label ignore s sad p v HC N H. apply C51_saidify_pf in H; [|auto|auto]. cbv zeta in H. set (lab := unwrap_or label (s2b "d")) in *. set (c := unwrap_or code (s2b "E")) in *.
  destruct H as [Il [Ic [Hk [o' [q [S [-> [Q ->]]]]]]]].
  destruct (sized_as_again _ _ (put_NoDup lab (placeholder c) o N) S) as [S' [N' [K [G _]]]].
  assert (Nl : lab <> s2b "v").
  { intros E. destruct S as [[Nv _]|[i [m [k [Iv [Hi _]]]]]].
    - apply Nv. rewrite <- E. apply put_In. exact N.
    - apply In_map_get in Iv; [|apply put_NoDup; exact N]. rewrite put_get in Iv by auto. rewrite E, beqb_refl in Iv. injection Iv as Iv. apply (f_equal len) in Iv. rewrite len_rep, version_text_len in Iv.
      + destruct (len c =? 1); discriminate Iv.
      + apply known_tag. destruct Hi as [-> | ->]; cbn; auto.
      + apply json_tag. }
  destruct (code_size _ Ic) as [n Hn]. set (T := to_json (VObj (without (unwrap_or ignore []) o'))). destruct (HC c n T Hn) as [Lr Br].
  apply C52_verify_pf; [exact HC|apply (said_constructed _ _ n Hn Lr Br)|apply put_NoDup; exact N'|]. cbn [m_code m_raw]. split; [exact Hk|]. exists o'. fold lab.
  assert (E : put lab (placeholder c) (put lab (VStr q) o') = o'). { rewrite put_put by exact N'. apply put_same; [exact N'|]. rewrite G by exact Nl. rewrite put_get, beqb_refl by auto. reflexivity. }
  rewrite E. split; [exact S'|]. split; [reflexivity|]. split; [auto|]. intros _. exists q. split; [exact Q|]. apply map_get_In. rewrite put_get, beqb_refl by exact N'. reflexivity.
Qed.
(** C51: the version string of the result states the length of its JSON. *)
Lemma C51_saidify_size_pf : forall (P : Profile) (C : Crypto) (o : list (bytes * data)) (code kind label : option bytes) (ignore : option (list bytes)) (s : matter) (sad : data),
  hash_contract C -> NoDup (map fst o) -> saidify (VObj o) code kind label ignore = Ok (s, sad) -> In (s2b "v") (map fst o) ->
  let size := len (to_json sad) mod 2 ^ 32 in size < 2 ^ 24 /\
  exists ident old, (ident = s2b "KERI" \/ ident = s2b "ACDC") /\ In (s2b "v", VStr (version_text ident 1 0 (s2b "JSON") old)) o /\ vget sad (s2b "v") = Ok (VStr (version_text ident 1 0 (s2b "JSON") size)).
Proof.
  intros P C o code kind label ignore s sad HC N H Hv. apply C51_saidify_pf in H; [|auto|auto]. cbv zeta in H. set (lab := unwrap_or label (s2b "d")) in *. set (c := unwrap_or code (s2b "E")) in *.
  destruct H as [Il [Ic [Hk [o' [q [S [-> [Q ->]]]]]]]]. pose proof (put_NoDup lab (placeholder c) o N) as Nb.
  destruct (sized_as_again _ _ Nb S) as [_ [N' [K [G L]]]].
  destruct S as [[Nv _]|[i [m [k [Iv [Hi [Hm [F [Lk [Ln Eo]]]]]]]]]]. { destruct Nv. rewrite put_keys; auto. }
  assert (Nl : lab <> s2b "v").
  { intros E. apply In_map_get in Iv; [|exact Nb]. rewrite put_get in Iv by auto. rewrite E, beqb_refl in Iv. injection Iv as Iv. apply (f_equal len) in Iv. rewrite len_rep, version_text_len in Iv.
    + destruct (len c =? 1); discriminate Iv.
    + apply known_tag. destruct Hi as [-> | ->]; cbn; auto.
    + apply json_tag. }
  assert (Gl : map_get lab o' = Some (placeholder c)). { rewrite G by exact Nl. rewrite put_get, beqb_refl by auto. reflexivity. }
  destruct (code_size _ Ic) as [n Hn]. set (T := to_json (VObj (without (unwrap_or ignore []) o'))) in *. destruct (HC c n T Hn) as [Lr Br].
  destruct (said_text_len _ q (said_constructed _ _ n Hn Lr Br) Q) as [Lq [Pq _]]. cbn [m_code] in Lq.
  assert (Pp : plain (rep 35 (if len c =? 1 then 44 else 88))) by (destruct (len c =? 1); reflexivity).
  destruct (json_around _ _ _ Gl Pp) as [h [t J]]. pose proof (J _ Pp) as J1. pose proof (J _ Pq) as J2. rewrite map_insert_same in J1 by auto. rewrite put_insert in J2 by auto.
  assert (E : len (to_json (VObj (put lab (VStr q) o'))) = len (to_json (VObj (put lab (placeholder c) o)))). { rewrite <- L, J1, J2, !len_app, Lq, len_rep. reflexivity. }
  cbv zeta. rewrite E. split; [exact Ln|]. exists i, m. split; [exact Hi|]. split. { apply In_map_get in Iv; [|exact Nb]. rewrite put_get in Iv by auto. destruct (bytes_eqb (s2b "v") lab) eqn:E3; [apply bytes_eqb_eq in E3; congruence|]. apply map_get_In. exact Iv. }
  cbn [vget]. rewrite put_get by exact N'. destruct (bytes_eqb (s2b "v") lab) eqn:E2; [apply bytes_eqb_eq in E2; congruence|]. rewrite Eo, put_get, beqb_refl by exact Nb. reflexivity.
Qed.
(** C51: saidify returns on every value; a value that is not an object is an error. *)
Lemma C51_saidify_total_pf : forall (P : Profile) (C : Crypto) (sad : data) (code kind label : option bytes) (ignore : option (list bytes)),
  hash_contract C -> good (fun _ => True) sad -> saidify sad code kind label ignore <> Panic.
Proof.
  intros P C sad code kind label ignore HC Gd H. unfold saidify in H. destruct sad as [| | | | | |o]; try discriminate. inversion Gd as [| | | | | |? N _]; subst. cbn [to_map obind] in H.
  destruct (contains_key _ o) eqn:Ck; [|discriminate]. cbn [negb] in H. set (c := unwrap_or code (s2b "E")) in *. set (lab := unwrap_or label (s2b "d")) in *.
  destruct (said_derive _ _ _ _ _) as [[d s']| |] eqn:Ed; [|discriminate|apply derive_total in Ed; auto]. cbn [obind] in H.
  assert (Ic : In c (map fst digest_sizes)).
  { destruct (in_dec bytes_eq_dec c (map fst digest_sizes)) as [I|I]; [exact I|]. unfold said_derive in Ed. cbn [unwrap_or] in Ed. rewrite validate_no in Ed by (intros J; apply I, said_codes; exact J). discriminate. }
  pose proof Ed as Ed0. apply derive_iff in Ed; [|auto|exact Ic]. destruct Ed as [Hk [o' [-> [S ->]]]].
  destruct (code_size _ Ic) as [n Hn]. set (T := to_json (VObj (without (unwrap_or ignore []) o'))) in *. destruct (HC c n T Hn) as [Lr Br].
  destruct (said_text _ (said_constructed c _ n Hn Lr Br)) as [q [Q _]].
  assert (X : saidify (VObj o) code kind label ignore = Ok (Mat c 0 (x_hash c T), VObj (put lab (VStr q) o'))).
  { apply C51_saidify_pf; auto. split; [apply has_key; exact Ck|]. split; [exact Ic|]. split; [exact Hk|]. exists o', q. auto. }
  unfold saidify in X. fold c lab in X. cbn [to_map obind] in X. rewrite Ck in X. cbn [negb] in X. rewrite Ed0 in X. cbn [obind] in X. rewrite X in H. discriminate.
Qed.
(** a concrete object, with and without version string *)
Lemma C51_saidify_ex_pf : hash_contract toy_crypto /\ forall P : Profile,
  (exists s sad, saidify (H0 := toy_crypto) (VObj [(s2b "v", VStr (s2b "KERI10JSON000000_")); (s2b "d", VStr []); (s2b "x", VInt 7)]) None None None None = Ok (s, sad) /\
    to_json sad = s2b "{""v"":""KERI10JSON000052_"",""d"":""EFJSUlJSUlJSUlJSUlJSUlJSUlJSUlJSUlJSUlJSUlJS"",""x"":7}") /\
  (exists s sad, saidify (H0 := toy_crypto) (VObj [(s2b "id", VNull); (s2b "x", VArr [])]) (Some (s2b "0G")) None (Some (s2b "id")) (Some [s2b "x"]) = Ok (s, sad)).
Proof.
  split.
  - intros code n ser I. cbn [x_hash toy_crypto]. unfold toy_hash. rewrite len_rep. split.
    + cbn in I. repeat (destruct I as [I|I]; [injection I as <- <-; reflexivity|]). destruct I.
    + apply forallb_rep. unfold byte_ok. pose proof (N.mod_lt (len ser) 256). lia.
  - intros P. split.
    + exists (Mat (s2b "E") 0 (rep 82 32)), (VObj [(s2b "v", VStr (s2b "KERI10JSON000052_")); (s2b "d", VStr (s2b "EFJSUlJSUlJSUlJSUlJSUlJSUlJSUlJSUlJSUlJSUlJS")); (s2b "x", VInt 7)]). split; vm_compute; reflexivity.
    + exists (Mat (s2b "0G") 0 (rep 97 64)), (VObj [(s2b "id", VStr (s2b "0GBhYWFhYWFhYWFhYWFhYWFhYWFhYWFhYWFhYWFhYWFhYWFhYWFhYWFhYWFhYWFhYWFhYWFhYWFhYWFhYWFhYWFh")); (s2b "x", VArr [])]). vm_compute. reflexivity.
Qed.
(** C52: when verify panics: a value that is not an object, or the label asked for
    is missing from an object that is otherwise fine. *)
Lemma C52_verify_panics_pf : forall (P : Profile) (C : Crypto) (s : matter) (sad : data) (prefixed versioned : option bool) (kind label : option bytes) (ignore : option (list bytes)),
  hash_contract C -> is_diger s -> good (fun _ => True) sad -> let lab := unwrap_or label (s2b "d") in
  said_verify s sad prefixed versioned kind label ignore = Panic <->
  (forall o, sad <> VObj o) \/
  exists o, sad = VObj o /\ prefixed = Some true /\ ~ In lab (map fst o) /\ said_verify s sad None versioned kind label ignore = Ok true.
Proof.
  intros P C s sad p v kind label ignore HC D Gd lab. assert (Ic : In (m_code s) (map fst digest_sizes)) by apply D.
  assert (NO : (forall o, sad <> VObj o) -> said_verify s sad p v kind label ignore = Panic).
  { intros NO. unfold said_verify, said_derive. cbn [unwrap_or]. rewrite validate_yes by (apply said_codes; auto). cbn [obind]. destruct (dummy_text _ Ic) as [z [-> Dz]]. cbn [obind]. rewrite Dz. cbn [obind].
    destruct sad as [| | | | | |o]; try reflexivity. exfalso. eapply NO. reflexivity. }
  split.
  - intros H. destruct sad as [| | | | | |o]; try (left; intros o; discriminate). right. exists o. split; [reflexivity|]. inversion Gd as [| | | | | |? N _]; subst.
    destruct (verify_eq P C s o p v kind label ignore HC D N) as [q [Q E]]. destruct (verify_eq P C s o None v kind label ignore HC D N) as [q' [_ E']]. rewrite E in H. rewrite E'. clear E E'. fold lab in H |- *.
    destruct (said_derive _ _ _ _ _) as [[raw ds]| |] eqn:Ed; [|discriminate|apply derive_total in Ed; tauto]. destruct (bytes_eqb _ _); [|discriminate]. cbn [negb] in *.
    apply derive_iff in Ed; [|auto|exact Ic]. destruct Ed as [Hk [o' [-> [S ->]]]].
    assert (T : forall X, (if unwrap_or v true then if contains_key (s2b "v") o then x <- vget (VObj o) (s2b "v") ;; x <- to_string x ;; w <- vget (VObj o') (s2b "v") ;; y <- to_string w ;; Ok (negb (bytes_eqb x y)) else Ok false else Ok false) = X -> X <> Panic).
    { intros X <-. destruct (unwrap_or v true); [|discriminate]. unfold contains_key, vget. destruct (map_get (s2b "v") o) as [x|] eqn:Gx; [|discriminate]. cbn [obind]. destruct x; try discriminate. cbn [to_string obind].
      destruct (sized_as_again _ _ (put_NoDup lab (placeholder (m_code s)) o N) S) as [_ [_ [K _]]].
      destruct (map_get (s2b "v") o') as [y|] eqn:Gy; [cbn [obind]; destruct y; discriminate|]. exfalso. apply map_get_None in Gy. apply Gy. rewrite K. apply map_get_In in Gx.
      assert (I : In (s2b "v") (map fst o)) by (apply in_map_iff; eexists; split; [|exact Gx]; reflexivity). unfold put. destruct (existsb (bytes_eqb lab) (map fst o)); [|rewrite map_app; apply in_or_app; left; exact I].
      apply in_map_iff in I as [[kk vv] [Ek I]]. cbn in Ek. rewrite map_map. apply in_map_iff. exists (kk, vv). split; [|exact I]. cbn [fst]. destruct (bytes_eqb lab kk) eqn:El; cbn [fst]; [apply bytes_eqb_eq in El; congruence|exact Ek]. }
    destruct (if unwrap_or v true then _ else _) as [st| |] eqn:Est; [|discriminate|exfalso; exact (T _ eq_refl eq_refl)]. cbn [obind] in *. destruct st; [discriminate|]. destruct p as [[|]|]; try discriminate. cbn [unwrap_or vget] in H. destruct (map_get lab o) as [x|] eqn:G.
    + cbn [obind] in H. destruct x; discriminate.
    + split; [reflexivity|]. split; [apply map_get_None; exact G|reflexivity].
  - intros [NO'|[o [-> [-> [Nl H]]]]]; [exact (NO NO')|]. inversion Gd as [| | | | | |? N _]; subst.
    destruct (verify_eq P C s o (Some true) v kind label ignore HC D N) as [q [Q ->]]. destruct (verify_eq P C s o None v kind label ignore HC D N) as [q' [_ E']]. rewrite E' in H. clear E'. fold lab in H |- *.
    destruct (said_derive _ _ _ _ _) as [[raw ds]| |] eqn:Ed; [|discriminate|apply derive_total in Ed; tauto]. destruct (bytes_eqb _ _); [|discriminate]. cbn [negb] in *.
    destruct (if unwrap_or v true then _ else _) as [st| |]; [|discriminate|discriminate]. cbn [obind] in *. destruct st; [discriminate|]. cbn [unwrap_or vget]. apply map_get_None in Nl. rewrite Nl. reflexivity.
Qed.
Lemma C52_verify_panics_ex_pf : forall P : Profile, said_verify (H0 := toy_crypto) (Mat (s2b "E") 0 (rep 52 32)) (VObj []) (Some true) None None None None = Panic /\
  said_verify (H0 := toy_crypto) (Mat (s2b "E") 0 (rep 52 32)) (VObj []) None None None None None = Ok true /\
  said_verify (H0 := toy_crypto) (Mat (s2b "E") 0 (rep 52 32)) (VArr []) None None None None None = Panic.
Proof. intros P. vm_compute. auto. Qed.
(** C52: one identifier verifies two objects only if their placeholder texts have
    the same digest, and if the texts are the same then the objects agree
    outside the label, the ignored entries, and the version string unless it was checked. *)
Lemma C52_binding_pf : forall (P : Profile) (C : Crypto) (s : matter) (o1 o2 : list (bytes * data)) (versioned : option bool) (p1 p2 : option bool) (kind label : option bytes) (ignore : option (list bytes)),
  hash_contract C -> is_diger s -> good float_text (VObj o1) -> good float_text (VObj o2) ->
  said_verify s (VObj o1) p1 versioned kind label ignore = Ok true -> said_verify s (VObj o2) p2 versioned kind label ignore = Ok true ->
  let lab := unwrap_or label (s2b "d") in let ign := unwrap_or ignore [] in
  exists o1' o2', sized_as (put lab (placeholder (m_code s)) o1) o1' /\ sized_as (put lab (placeholder (m_code s)) o2) o2' /\
  let t1 := to_json (VObj (without ign o1')) in let t2 := to_json (VObj (without ign o2')) in
  x_hash (m_code s) t1 = x_hash (m_code s) t2 /\
  (t1 = t2 -> without (s2b "v" :: lab :: ign) o1 = without (s2b "v" :: lab :: ign) o2 /\
     (versioned <> Some false -> without (lab :: ign) o1 = without (lab :: ign) o2)).
Proof.
  intros P C s o1 o2 v p1 p2 kind label ignore HC D G1 G2 V1 V2 lab ign.
  inversion G1 as [| | | | | |? N1 M1]; subst. inversion G2 as [| | | | | |? N2 M2]; subst.
  apply C52_verify_pf in V1; [|auto|auto|auto]. apply C52_verify_pf in V2; [|auto|auto|auto]. fold lab ign in V1, V2.
  destruct V1 as [_ [o1' [S1 [R1 [E1 _]]]]]. destruct V2 as [_ [o2' [S2 [R2 [E2 _]]]]]. exists o1', o2'. split; [exact S1|]. split; [exact S2|]. cbv zeta. split; [congruence|]. intros T.
  assert (Gd : forall o o', good float_text (VObj o) -> sized_as (put lab (placeholder (m_code s)) o) o' -> good float_text (VObj (without ign o'))).
  { intros o o' Go S. inversion Go as [| | | | | |? No Mo]; subst. destruct (sized_as_again _ _ (put_NoDup lab (placeholder (m_code s)) o No) S) as [_ [No' _]]. constructor; [apply without_NoDup; exact No'|].
    intros k x I. unfold without in I. apply filter_In in I as [I _]. assert (Mb : forall k x, In (k, x) (put lab (placeholder (m_code s)) o) -> good float_text x).
    { intros k' x' I'. rewrite <- put_insert in I' by exact No. apply map_insert_In in I' as [E|I']; [injection E as -> ->; constructor|eauto]. }
    destruct S as [[_ ->]|[i [m [kk [_ [_ [_ [_ [_ [_ ->]]]]]]]]]]; [eauto|]. rewrite <- put_insert in I by (apply put_NoDup; exact No). apply map_insert_In in I as [E|I]; [injection E as -> ->; constructor|eauto]. }
  apply C45_json_injective_pf in T; [|eauto|eauto]. injection T as T.
  assert (W : forall ks o o', NoDup (map fst o) -> sized_as (put lab (placeholder (m_code s)) o) o' -> In lab ks -> In (s2b "v") ks -> without ks o' = without ks o).
  { intros ks o o' No S I1 I2. assert (without ks (put lab (placeholder (m_code s)) o) = without ks o) as <- by (apply without_put; auto). destruct S as [[_ ->]|[i [m [kk [_ [_ [_ [_ [_ [_ ->]]]]]]]]]]; [reflexivity|]. apply without_put; [apply put_NoDup; exact No|exact I2]. }
  assert (X : forall ks o o', without ks o = without ks o' -> forall k, without (k :: ks) o = without (k :: ks) o').
  { intros ks o o' E k. assert (Z : forall q, without (k :: ks) q = without [k] (without ks q)).
    { intros q. unfold without. assert (F : forall (A : Type) (f g : A -> bool) l, filter f (filter g l) = filter (fun x => g x && f x) l).
      { intros A f g l. induction l as [|x l IH]; [reflexivity|]. cbn [filter]. destruct (g x); cbn [andb filter]; [destruct (f x); rewrite IH; reflexivity|exact IH]. }
      rewrite F. apply filter_ext. intros e. cbn [existsb]. rewrite orb_false_r, negb_orb. apply andb_comm. }
    rewrite !Z, E. reflexivity. }
  split.
  - rewrite <- (W _ o1 o1' N1 S1), <- (W _ o2 o2' N2 S2) by (cbn; auto). apply X, X. exact T.
  - intros Hv. rewrite (E1 Hv), (E2 Hv) in T. rewrite <- (without_put lab (placeholder (m_code s)) (lab :: ign) o1 N1), <- (without_put lab (placeholder (m_code s)) (lab :: ign) o2 N2) by (left; reflexivity). apply X. exact T.
Qed.
(** C52: an object changed anywhere outside the label and the ignored entries still
    verifies only if the digest function collides on these two different texts. *)
Lemma C52_tamper_pf : forall (P : Profile) (C : Crypto) (s : matter) (o1 o2 : list (bytes * data)) (kind label : option bytes) (ignore : option (list bytes)),
  hash_contract C -> is_diger s -> good float_text (VObj o1) -> good float_text (VObj o2) ->
  let lab := unwrap_or label (s2b "d") in let ign := unwrap_or ignore [] in
  let text o := to_json (VObj (without ign (put lab (placeholder (m_code s)) o))) in
  said_verify s (VObj o1) None None kind label ignore = Ok true -> without (lab :: ign) o1 <> without (lab :: ign) o2 ->
  said_verify s (VObj o2) None None kind label ignore = Ok true ->
  text o1 <> text o2 /\ x_hash (m_code s) (text o1) = x_hash (m_code s) (text o2).
Proof.
  intros P C s o1 o2 kind label ignore HC D G1 G2 lab ign text V1 Ne V2. destruct (C52_binding_pf P C s o1 o2 None None None kind label ignore HC D G1 G2 V1 V2) as [o1' [o2' [S1 [S2 [E B]]]]]. fold lab ign in S1, S2, E, B.
  assert (X : forall o o', NoDup (map fst o) -> said_verify s (VObj o) None None kind label ignore = Ok true -> sized_as (put lab (placeholder (m_code s)) o) o' -> o' = put lab (placeholder (m_code s)) o).
  { intros o o' N V S. apply C52_verify_pf in V; [|auto|auto|auto]. destruct V as [_ [o2'' [S'' [_ [Ev _]]]]]. transitivity o2''; [exact (sized_as_fun _ _ _ (put_NoDup _ _ _ N) S S'')|apply Ev; discriminate]. }
  inversion G1 as [| | | | | |? N1 M1]; subst. inversion G2 as [| | | | | |? N2 M2]; subst. rewrite (X o1 o1' N1 V1 S1), (X o2 o2' N2 V2 S2) in *. fold (text o1) (text o2) in E, B. split; [|exact E]. intros T. apply Ne. apply (B T). discriminate.
Qed.
Lemma C52_binding_ex_pf : forall P : Profile, is_diger (Mat (s2b "E") 0 (rep 58 32)) /\ good float_text (VObj [(s2b "d", VNull); (s2b "x", VInt 7)]) /\
  said_verify (H0 := toy_crypto) (Mat (s2b "E") 0 (rep 58 32)) (VObj [(s2b "d", VNull); (s2b "x", VInt 7)]) None None None None None = Ok true /\
  said_verify (H0 := toy_crypto) (Mat (s2b "E") 0 (rep 58 32)) (VObj [(s2b "d", VNull); (s2b "x", VInt 77)]) None None None None None = Ok false /\
  said_verify (H0 := toy_crypto) (Mat (s2b "E") 0 (rep 81 32)) (VObj [(s2b "v", VStr (s2b "KERI10JSON000000_")); (s2b "d", VNull); (s2b "x", VInt 7)]) None None None None None = Ok false.
Proof.
  intros P. split; [apply (said_constructed (s2b "E") (rep 58 32) 32); [vm_compute; tauto|reflexivity|reflexivity]|]. split.
  { constructor; [repeat constructor; cbn; intuition discriminate|]. intros k v [E|[E|[]]]; injection E as <- <-; constructor. Lia.lia. }
  vm_compute. auto.
Qed.
(** C51: a Saider made from an object that has the label: digest of the sized
    placeholder form; the code is the requested one, or that of the identifier in
    the label field (an empty one means E). *)
Lemma C51_new_with_sad_pf : forall (P : Profile) (C : Crypto) (o : list (bytes * data)) (code kind label : option bytes) (ignore : option (list bytes)) (s : matter),
  hash_contract C -> NoDup (map fst o) -> let lab := unwrap_or label (s2b "d") in
  saider_new (Some (VObj o)) label kind ignore code None None None None = Ok s <->
  exists c o', In lab (map fst o) /\ In c (map fst digest_sizes) /\ (kind = None \/ kind = Some (s2b "JSON")) /\
    (code = Some c \/ code = None /\ exists t, In (lab, VStr t) o /\ (t = [] /\ c = s2b "E" \/ t <> [] /\ exists m, parse_text t = Ok m /\ m_code m = c)) /\
    sized_as (put lab (placeholder c) o) o' /\ s = Mat c 0 (x_hash c (to_json (VObj (without (unwrap_or ignore []) o')))).
Proof.
  intros P C o code kind label ignore s HC N lab. unfold saider_new. cbn [none negb orb]. cbv zeta. fold lab. cbn [unwrap_or to_map obind].
  set (cd := match code with Some c => Ok c | None => _ end).
  assert (CD : forall c, In lab (map fst o) -> cd = Ok c <-> code = Some c \/ code = None /\ exists t, In (lab, VStr t) o /\ (t = [] /\ c = s2b "E" \/ t <> [] /\ exists m, parse_text t = Ok m /\ m_code m = c)).
  { intros c Il. unfold cd. destruct code as [c0|]. { split; [intros H; apply Ok_inj in H; subst; auto|]. intros [H|[H _]]; [injection H as ->; reflexivity|discriminate]. }
    cbn [vget]. destruct (map_get lab o) as [x|] eqn:G; [|apply map_get_None in G; contradiction]. cbn [obind]. split.
    - intros H. right. split; [reflexivity|]. destruct x; try discriminate. cbn [to_string] in H. exists s0. split; [apply map_get_In; exact G|]. destruct (N.eqb_spec (len s0) 0) as [L|L].
      + left. split; [destruct s0; [reflexivity|rewrite len_cons in L; lia]|apply Ok_inj in H; auto].
      + right. split; [intros ->; apply L; reflexivity|]. inv_bind H m Em. apply Ok_inj in H. exists m. split; [exact Em|exact H].
    - intros [H|[_ [t [I H]]]]; [discriminate|]. apply In_map_get in I; [|exact N]. rewrite G in I. injection I as ->. cbn [to_string]. destruct H as [[-> ->]|[Nt [m [Em <-]]]]; [reflexivity|].
      destruct (N.eqb_spec (len t) 0) as [L|L]; [destruct t; [contradiction|rewrite len_cons in L; lia]|]. unfold parse_text in Em. rewrite Em. reflexivity. }
  split.
  - intros H. assert (B : exists c raw, (cd0 <- (if negb (contains_key lab o) then Err E_Value else cd) ;; _ <- validate saider_codes cd0 ;; '(raw, _) <- said_derive (VObj o) (Some cd0) kind (Some lab) ignore ;; Ok (cd0, raw)) = Ok (c, raw) /\ matter_new (Some c) (Some raw) None None None = Ok s).
    { destruct code; cbn [obind] in H; inv_bind H cr Ecr; destruct cr as [c raw]; exists c, raw; auto. }
    destruct B as [c [raw [B Em]]]. clear H. destruct (contains_key lab o) eqn:Ck; [|discriminate]. cbn [negb] in B. apply has_key in Ck. inv_bind B c' Ec. inv_bind B u Eu. destruct u. apply validate_ok, said_codes in Eu. inv_bind B d Ed. destruct d as [d ds]. apply Ok_inj in B. injection B as -> ->.
    apply derive_iff in Ed; [|auto|exact Eu]. destruct Ed as [Hk [o' [-> [S ->]]]]. exists c, o'. split; [exact Ck|]. split; [exact Eu|]. split; [exact Hk|]. split; [apply CD; auto|]. split; [exact S|].
    destruct (code_size _ Eu) as [n Hn]. rewrite (said_build c _ n Hn) in Em by apply (HC c n _ Hn). apply Ok_inj in Em. auto.
  - intros [c [o' [Il [Ic [Hk [Hc [S ->]]]]]]]. apply CD in Hc; [|exact Il]. apply has_key in Il. rewrite Il. cbn [negb]. rewrite Hc.
    assert (E : said_derive (VObj o) (Some c) kind (Some lab) ignore = Ok (x_hash c (to_json (VObj (without (unwrap_or ignore []) o'))), VObj o')) by (apply derive_iff; eauto).
    destruct (code_size _ Ic) as [n Hn]. destruct code; cbn [obind]; rewrite validate_yes by (apply said_codes; exact Ic); cbn [obind]; rewrite E; cbn [obind]; apply (said_build c _ n Hn); apply (HC c n _ Hn).
Qed.
