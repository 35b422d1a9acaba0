(** Properties C26 (Signer), C27 (Salter), C56-C59. *)
From Verif Require Import Base Utf8 Util MatterTables Matter IndexerTables Indexer StdStr Spec MatterDefs IndexerDefs Crypto Prims PrimsDefs Signer SignerDefs.
From Verif Require Import BaseFacts B64 B64Facts UtilFacts MatterFacts MatterFacts2 MatterFacts3 SpecFacts MatterFacts4 StdStrFacts MatterThms IndexerFacts IndexerFacts2 IndexerThms PrimsFacts PrimsFacts2 PrimsThms.
From Verif Require Import SignerToy.

Ltac suites_cases I := cbn in I; destruct I as [<-|[<-|[<-|[]]]];
  cbn [su_seed su_key su_key_nt su_sig su_both su_current su_both_big su_current_big su_key_size su_alg] in *.

Definition vcode (u : suite_info) (tr : bool) : bytes := if tr then su_key u else su_key_nt u.

Lemma derive_eq `{P : Profile} `{C : Crypto} u tr sk : In u suites ->
  derive_verfer (su_seed u) sk tr = (raw <- sign_public_key (su_seed u) sk ;; verfer_new (Some (vcode u tr)) (Some raw) None None None).
Proof. intros I. suites_cases I; destruct tr; reflexivity. Qed.
Lemma derive_other `{P : Profile} `{C : Crypto} code tr sk : ~ In code (map su_seed suites) -> derive_verfer code sk tr = Err E_UnexpectedCode.
Proof.
  intros I. unfold derive_verfer. cbn in I. destruct (bytes_eqb code (s2b "A")) eqn:E1; [apply bytes_eqb_eq in E1; exfalso; apply I; auto|].
  destruct (bytes_eqb code (s2b "J")) eqn:E2; [apply bytes_eqb_eq in E2; exfalso; apply I; auto|].
  destruct (bytes_eqb code (s2b "Q")) eqn:E3; [apply bytes_eqb_eq in E3; exfalso; apply I; auto|]. destruct tr; reflexivity.
Qed.
Lemma public_eq `{C : Crypto} u sk : In u suites -> len sk = 32 -> sign_public_key (su_seed u) sk = opt (x_public (su_alg u) sk).
Proof.
  intros I L. suites_cases I; try reflexivity. unfold sign_public_key. change (suite_of (s2b "A")) with (Some S_Ed25519). cbv iota. rewrite slice_prefix by lia. cbn [obind]. rewrite take_all by lia. reflexivity.
Qed.
Lemma vcode_fixed u tr : In u suites -> exists f, In (vcode u tr, (su_key_size u, f)) fixed_codes /\ In (vcode u tr) verfer_codes.
Proof. intros I. suites_cases I; destruct tr; eexists; split; vm_compute; tauto. Qed.
Lemma seed_fixed u : In u suites -> In (su_seed u, (32, 44)) fixed_codes /\ In (su_seed u) signer_codes.
Proof. intros I. suites_cases I; split; vm_compute; tauto. Qed.
Lemma seed_codes code : In code signer_codes <-> exists u, In u suites /\ code = su_seed u.
Proof.
  split.
  - intros I. cbn in I. destruct I as [<-|[<-|[<-|[]]]]; [exists (nth 0 suites (Suite [] [] [] [] [] [] [] [] 0 S_Ed25519))|exists (nth 1 suites (Suite [] [] [] [] [] [] [] [] 0 S_Ed25519))|exists (nth 2 suites (Suite [] [] [] [] [] [] [] [] 0 S_Ed25519))]; (split; [cbn; tauto|reflexivity]).
  - intros [u [I ->]]. apply seed_fixed; auto.
Qed.
Lemma verfer_raw `{P : Profile} u tr pk : In u suites -> len pk = su_key_size u ->
  verfer_new (Some (vcode u tr)) (Some pk) None None None = Ok (Mat (vcode u tr) 0 pk).
Proof.
  intros I L. destruct (vcode_fixed u tr I) as [f [F V]]. unfold verfer_new. cbn [unwrap_or]. unfold matter_new.
  rewrite (fixed_build _ _ _ _ F) by lia. cbn [obind m_code]. rewrite validate_yes by auto. cbn [obind]. rewrite take_all by lia. reflexivity.
Qed.
Lemma derive_ok `{P : Profile} `{C : Crypto} u tr sk pk : scheme_contract C -> In u suites -> len sk = 32 -> x_public (su_alg u) sk = Some pk ->
  derive_verfer (su_seed u) sk tr = Ok (Mat (vcode u tr) 0 pk).
Proof.
  intros K I L E. rewrite derive_eq, public_eq, E by auto. cbn [opt obind]. apply verfer_raw; auto. eapply K; eauto.
Qed.
Lemma signer_parsed `{P : Profile} `{C : Crypto} m tr : 
  (forall t, parse_text t = Ok m -> signer_of_text t tr = (_ <- validate signer_codes (m_code m) ;; v <- derive_verfer (m_code m) (m_raw m) tr ;; Ok (Sgn m v))) /\
  (forall t, parse_text_bytes t = Ok m -> signer_of_text_bytes t tr = (_ <- validate signer_codes (m_code m) ;; v <- derive_verfer (m_code m) (m_raw m) tr ;; Ok (Sgn m v))) /\
  (forall t, parse_binary t = Ok m -> signer_of_binary t tr = (_ <- validate signer_codes (m_code m) ;; v <- derive_verfer (m_code m) (m_raw m) tr ;; Ok (Sgn m v))).
Proof.
  repeat (split; [|]); intros t E; unfold signer_of_text, signer_of_text_bytes, signer_of_binary, signer_new; cbn [none andb unwrap_or];
    [change (matter_new None None None (Some t) None) with (parse_text t)|change (matter_new None None (Some t) None None) with (parse_text_bytes t)
    |change (matter_new None None None None (Some t)) with (parse_binary t)]; rewrite E; cbn [obind];
    destruct (validate signer_codes (m_code m)); reflexivity.
Qed.

(** C26: a Signer has a seed code and a key of the same suite, transferable or
    not as asked; an input parsed as another primitive is rejected *)
Lemma C26_signer_pf : forall (P : Profile) (C : Crypto) (entropy : N) (transferable : option bool) (code raw qb64b qb64 qb2 : option bytes) (s : signer),
  signer_new entropy transferable code raw qb64b qb64 qb2 = Ok s ->
  exists u, In u suites /\ m_code (sn_matter s) = su_seed u /\
    m_code (sn_verfer s) = (if unwrap_or transferable true then su_key u else su_key_nt u) /\
    (none qb64b && none qb64 && none qb2 = false -> matter_new code raw qb64b qb64 qb2 = Ok (sn_matter s)).
Proof.
  intros P C entropy tr code raw qb64b qb64 qb2 s H. unfold signer_new in H. inv_bind H m Em. inv_bind H v Ev. injection H as <-. cbn [sn_matter sn_verfer].
  assert (X : In (m_code m) signer_codes /\ (none qb64b && none qb64 && none qb2 = false -> matter_new code raw qb64b qb64 qb2 = Ok m)).
  { destruct qb64b, qb64, qb2; cbn [none andb] in Em |- *;
      try (inv_bind Em m' Em'; inv_bind Em w Ew; destruct w; apply validate_ok in Ew; injection Em as <-; auto; fail).
    inv_bind Em w Ew. destruct w. apply validate_ok in Ew. inv_bind Em r Er. apply seed_codes in Ew as [u [I Eu]]. rewrite Eu in Em.
    destruct (seed_fixed u I) as [F V]. eapply fixed_build_inv in F; [|exact Em]. destruct F as [-> _]. cbn [m_code]. split; [auto|discriminate]. }
  destruct X as [I X]. apply seed_codes in I as [u [I Eu]]. exists u. rewrite Eu in *. repeat (split; [auto; fail|]). split; [|auto].
  rewrite derive_eq in Ev by auto. inv_bind Ev r Er. unfold verfer_new in Ev. inv_bind Ev m' Em'. inv_bind Ev w Ew. injection Ev as <-.
  destruct (vcode_fixed u (unwrap_or tr true) I) as [f [F _]]. eapply fixed_build_inv in F; [|exact Em']. destruct F as [-> _]. reflexivity.
Qed.
Lemma C26_signer_ex_pf : forall P : Profile,
  signer_new (C := toy_scheme) 0 None (Some (s2b "J")) (Some (rep 7 32)) None None None = Ok (Sgn (Mat (s2b "J") 0 (rep 7 32)) (Mat (s2b "1AAB") 0 (2 :: rep 7 32))) /\
  signer_new (C := toy_scheme) 0 None None None None (Some (s2b "MAAA")) None = Err E_UnexpectedCode.
Proof. intros P. vm_compute. auto. Qed.

(** C27: a Salter made from raw bytes has the salt code; made from text or bytes it has whatever code they have *)
Lemma C27_salter_pf : forall (P : Profile) (C : Crypto) (tier code : option bytes) (raw t b : bytes) (s : salter),
  (salter_of_raw raw code tier = Ok s <-> (code = None \/ code = Some (s2b "0A")) /\ 16 <= len raw /\ s = Slt (Mat (s2b "0A") 0 (take 16 raw)) (unwrap_or tier (s2b "low"))) /\
  (salter_of_text t tier = Ok s <-> exists m, parse_text t = Ok m /\ s = Slt m (unwrap_or tier (s2b "low"))) /\
  (salter_of_text_bytes t tier = Ok s <-> exists m, parse_text_bytes t = Ok m /\ s = Slt m (unwrap_or tier (s2b "low"))) /\
  (salter_of_binary b tier = Ok s <-> exists m, parse_binary b = Ok m /\ s = Slt m (unwrap_or tier (s2b "low"))).
Proof.
  intros P C tier code raw t b s. assert (F : In (s2b "0A", (16, 24)) fixed_codes) by (vm_compute; tauto). split; [|split; [|split]].
  - unfold salter_of_raw, salter_new. cbn [none andb]. split.
    + intros H. inv_bind H w Ew. destruct w. apply validate_ok in Ew. inv_bind H m Em. injection H as <-. destruct Ew as [Ew|[]].
      rewrite <- Ew in Em. destruct (fixed_build_inv _ _ _ _ _ F Em) as [-> L]. split; [destruct code; cbn in Ew; subst; auto|auto].
    + intros [Hc [L ->]]. assert (E : unwrap_or code (s2b "0A") = s2b "0A") by (destruct Hc; subst code; reflexivity). rewrite E.
      rewrite validate_yes by (cbn; auto). cbn [obind]. unfold matter_new. rewrite (fixed_build _ _ _ _ F L). reflexivity.
  - change (salter_of_text t tier) with (m <- parse_text t ;; Ok (Slt m (unwrap_or tier (s2b "low")))).
    destruct (parse_text t); cbn [obind]; split; try discriminate; try (intros [m' [E _]]; discriminate); [intros [= <-]; eauto|intros [m' [[= <-] ->]]; auto].
  - change (salter_of_text_bytes t tier) with (m <- parse_text_bytes t ;; Ok (Slt m (unwrap_or tier (s2b "low")))).
    destruct (parse_text_bytes t); cbn [obind]; split; try discriminate; try (intros [m' [E _]]; discriminate); [intros [= <-]; eauto|intros [m' [[= <-] ->]]; auto].
  - change (salter_of_binary b tier) with (m <- parse_binary b ;; Ok (Slt m (unwrap_or tier (s2b "low")))).
    destruct (parse_binary b); cbn [obind]; split; try discriminate; try (intros [m' [E _]]; discriminate); [intros [= <-]; eauto|intros [m' [[= <-] ->]]; auto].
Qed.
(** C27: so a "salt" can be a short number, and then seeds are derived from it *)
Lemma C27_salter_any_code_refuted_pf : forall (P : Profile) (C : Crypto), salter_of_text (s2b "MAAA") None = Ok (Slt (Mat (s2b "M") 0 [0; 0]) (s2b "low")).
Proof. intros P C. vm_compute. reflexivity. Qed.
Lemma C27_salter_ex_pf : forall (P : Profile) (C : Crypto), salter_of_raw (s2b "0123456789abcdef") None None = Ok (Slt (Mat (s2b "0A") 0 (s2b "0123456789abcdef")) (s2b "low")) /\
  salter_of_text (s2b "0AAwMTIzNDU2Nzg5YWJjZGVm") None = Ok (Slt (Mat (s2b "0A") 0 (s2b "0123456789abcdef")) (s2b "low")).
Proof. intros P C. vm_compute. auto. Qed.

(** C57: signers: from at least 32 raw bytes (the rest is ignored), from random, from their own text and binary forms *)
Lemma C57_signer_from_raw_pf : forall (P : Profile) (C : Crypto) (u : suite_info) (raw pk : bytes) (transferable : bool), scheme_contract C -> In u suites -> bytes_ok raw = true ->
  32 <= len raw -> x_public (su_alg u) (take 32 raw) = Some pk ->
  exists s, signer_of_raw raw transferable (su_seed u) = Ok s /\ is_signer s u transferable /\ m_raw (sn_matter s) = take 32 raw /\ m_raw (sn_verfer s) = pk.
Proof.
  intros P C u raw pk tr K I B L E. destruct (seed_fixed u I) as [F V]. assert (L' : len (take 32 raw) = 32) by (rewrite len_take; lia).
  exists (Sgn (Mat (su_seed u) 0 (take 32 raw)) (Mat (vcode u tr) 0 pk)). split.
  - unfold signer_of_raw, signer_new. cbn [none andb unwrap_or]. rewrite validate_yes by auto. cbn [obind]. unfold matter_new.
    rewrite (fixed_build _ _ _ _ F L). cbn [obind m_code m_raw]. rewrite (derive_ok u tr _ pk) by auto. reflexivity.
  - split; [|auto]. split; [auto|]. exists (take 32 raw), pk. repeat (split; [auto using bytes_ok_take; fail|]). reflexivity.
Qed.
Lemma C57_signer_random_pf : forall (P : Profile) (C : Crypto) (u : suite_info) (entropy : N) (transferable : bool), scheme_contract C -> generate_contract C -> In u suites ->
  exists s, signer_random entropy transferable (su_seed u) = Ok s /\ is_signer s u transferable.
Proof.
  intros P C u e tr K G I. destruct (G u e I) as [L [B [pk E]]]. destruct (seed_fixed u I) as [F V].
  exists (Sgn (Mat (su_seed u) 0 (x_generate (su_alg u) e)) (Mat (vcode u tr) 0 pk)). split.
  - unfold signer_random, signer_new. cbn [none andb unwrap_or]. rewrite validate_yes by auto. cbn [obind].
    replace (sign_generate (su_seed u) e) with (Ok (x_generate (su_alg u) e)) by (suites_cases I; reflexivity). cbn [obind]. unfold matter_new.
    rewrite (fixed_build _ _ _ _ F) by lia. rewrite take_all by lia. cbn [obind m_code m_raw]. rewrite (derive_ok u tr _ pk) by auto. reflexivity.
  - split; [auto|]. eauto 10.
Qed.
Lemma C57_signer_round_trip_pf : forall (P : Profile) (C : Crypto) (u : suite_info) (transferable : bool) (s : signer), scheme_contract C -> is_signer s u transferable ->
  exists t b vt vb, matter_qb64 (sn_matter s) = Ok t /\ matter_qb2 (sn_matter s) = Ok b /\ len t = 44 /\
    signer_of_text t transferable = Ok s /\ signer_of_text_bytes t transferable = Ok s /\ signer_of_binary b transferable = Ok s /\
    matter_qb64 (sn_verfer s) = Ok vt /\ matter_qb2 (sn_verfer s) = Ok vb /\ matter_transferable (sn_verfer s) = transferable /\
    verfer_new None None None (Some vt) None = Ok (sn_verfer s) /\ verfer_new None None None None (Some vb) = Ok (sn_verfer s).
Proof.
  intros P C u tr s K [I [sk [pk [L [B [E ->]]]]]]. fold (vcode u tr). destruct (K u sk pk I L E) as [Lp [Bp _]].
  destruct (seed_fixed u I) as [F V]. destruct (vcode_fixed u tr I) as [f [Fv Vv]].
  destruct (fixed_wire _ _ _ sk F L B) as [t [b [Ht [Hb [Lt [At [Ob [X1 [X2 X3]]]]]]]]].
  destruct (fixed_wire _ _ _ pk Fv Lp Bp) as [vt [vb [Hvt [Hvb [_ [_ [_ [Y1 [Y2 Y3]]]]]]]]].
  exists t, b, vt, vb. cbn [sn_matter sn_verfer]. repeat (split; [auto; fail|]).
  assert (D : (v <- derive_verfer (m_code (Mat (su_seed u) 0 sk)) (m_raw (Mat (su_seed u) 0 sk)) tr ;; Ok (Sgn (Mat (su_seed u) 0 sk) v))
     = Ok (Sgn (Mat (su_seed u) 0 sk) (Mat (vcode u tr) 0 pk))).
  { cbn [m_code m_raw]. rewrite (derive_ok u tr _ pk) by auto. reflexivity. }
  destruct (signer_parsed (Mat (su_seed u) 0 sk) tr) as [S1 [S2 S3]].
  split; [rewrite S1 by exact X1; rewrite validate_yes by auto; exact D|].
  split; [rewrite S2 by (unfold parse_text_bytes, matter_new, matter_new_with_qb64b; rewrite X3; exact X1); rewrite validate_yes by auto; exact D|].
  split; [rewrite S3 by exact X2; rewrite validate_yes by auto; exact D|].
  split; [auto|]. split; [auto|]. split; [suites_cases I; destruct tr; reflexivity|].
  unfold verfer_new. cbn [unwrap_or]. unfold matter_new, matter_new_with_qb64, matter_new_with_qb2. rewrite Y1, Y2. cbn [obind m_code]. rewrite validate_yes by auto. auto.
Qed.

Ltac csuite := match goal with |- context [suite_of ?c] => let v := eval vm_compute in (suite_of c) in change (suite_of c) with v end; cbv iota.
Lemma sign_eq `{C : Crypto} u e sk msg : In u suites -> len sk = 32 -> sign_sign (su_seed u) e sk msg = opt (x_sign (su_alg u) e sk msg).
Proof. intros I L. unfold sign_sign. suites_cases I; csuite; rewrite ?L; reflexivity. Qed.
Lemma verify_eq `{C : Crypto} u tr pk sig msg : In u suites -> len pk = su_key_size u -> len sig = 64 ->
  verfer_verify (Mat (vcode u tr) 0 pk) sig msg = opt (x_verify (su_alg u) pk sig msg).
Proof.
  intros I L S. unfold verfer_verify. cbn [m_code m_raw]. destruct (vcode_fixed u tr I) as [f [_ V]]. rewrite validate_yes by auto. cbn [obind].
  unfold sign_verify. suites_cases I; destruct tr; unfold vcode; cbn [su_key su_key_nt]; csuite; rewrite ?L, ?S; reflexivity.
Qed.

(** C57: an unindexed signature carries the signer's key, verifies under it, and survives its text and binary forms *)
Lemma C57_sign_then_verify_pf : forall (P : Profile) (C : Crypto) (u : suite_info) (transferable : bool) (s : signer) (entropy : N) (msg : bytes),
  scheme_contract C -> is_signer s u transferable ->
  exists c, sign_unindexed s entropy msg = Ok c /\ cg_verfer c = sn_verfer s /\ m_code (cg_matter c) = su_sig u /\
    verfer_verify (cg_verfer c) (m_raw (cg_matter c)) msg = Ok true /\
    exists t b, matter_qb64 (cg_matter c) = Ok t /\ matter_qb2 (cg_matter c) = Ok b /\
      cigar_new (Some (sn_verfer s)) None None None (Some t) None = Ok c /\ cigar_new (Some (sn_verfer s)) None None None None (Some b) = Ok c.
Proof.
  intros P C u tr s e msg K [I [sk [pk [L [B [E ->]]]]]]. fold (vcode u tr). destruct (K u sk pk I L E) as [Lp [Bp X]].
  destruct (X e msg) as [sig [Es [Ls [Bs Ev]]]].
  assert (F : In (su_sig u, (64, 88)) fixed_codes /\ In (su_sig u) cigar_codes) by (suites_cases I; split; vm_compute; tauto). destruct F as [F V].
  exists (Cig (Mat (su_sig u) 0 sig) (Mat (vcode u tr) 0 pk)). cbn [cg_matter cg_verfer m_raw m_code sn_verfer].
  split; [|split; [auto|split; [auto|split]]].
  - unfold sign_unindexed. cbn [sn_matter m_code m_raw sn_verfer].
    match goal with |- obind ?a _ = _ => replace a with (Ok (su_sig u)) by (suites_cases I; reflexivity) end. cbn [obind].
    rewrite sign_eq, Es by auto. cbn [opt obind]. unfold cigar_new, matter_new. rewrite (fixed_build _ _ _ _ F) by lia. cbn [obind m_code].
    rewrite validate_yes by auto. cbn [obind unwrap_or]. rewrite take_all by lia. reflexivity.
  - rewrite verify_eq, Ev by auto. reflexivity.
  - destruct (fixed_wire _ _ _ sig F Ls Bs) as [t [b [Ht [Hb [_ [_ [_ [X1 [X2 _]]]]]]]]]. exists t, b. split; [auto|]. split; [auto|].
    unfold cigar_new, matter_new, matter_new_with_qb64, matter_new_with_qb2. rewrite X1, X2. cbn [obind m_code]. rewrite validate_yes by auto. auto.
Qed.

(** C57: verification asks the scheme of the key's code, with exactly the key, signature and message
    given; anything that is not a key is an error *)
Lemma C57_verify_iff_pf : forall (C : Crypto) (v : matter) (u : suite_info) (sig msg : bytes), In u suites ->
  (m_code v = su_key u \/ m_code v = su_key_nt u -> len (m_raw v) = su_key_size u ->
   (len sig = 64 -> verfer_verify v sig msg = match x_verify (su_alg u) (m_raw v) sig msg with Some b => Ok b | None => Err E_Crypto end) /\
   (verfer_verify v sig msg = Ok true -> x_verify (su_alg u) (m_raw v) sig msg = Some true)) /\
  (~ In (m_code v) key_codes -> verfer_verify v sig msg = Err E_UnexpectedCode).
Proof.
  intros C v u sig msg Hu. split.
  - intros Hc Hl. unfold verfer_verify.
    assert (Iv : In (m_code v) verfer_codes) by (cbn in Hu; destruct Hu as [<-|[<-|[<-|[]]]]; destruct Hc as [-> | ->]; vm_compute; tauto).
    rewrite validate_yes by exact Iv. cbn [obind]. unfold sign_verify.
    assert (Es : suite_of (m_code v) = Some (su_alg u)) by (cbn in Hu; destruct Hu as [<-|[<-|[<-|[]]]]; destruct Hc as [-> | ->]; reflexivity).
    rewrite Es. cbn in Hu. destruct Hu as [<-|[<-|[<-|[]]]]; cbn [su_alg su_key_size] in *.
    + rewrite Hl. change (32 =? 32) with true. cbn [andb]. split.
      * intros ->. change (64 =? 64) with true. cbv iota. reflexivity.
      * destruct (len sig =? 64); [|discriminate]. destruct (x_verify S_Ed25519 (m_raw v) sig msg); cbn [opt]; [intros [= ->]; reflexivity|discriminate].
    + split; [reflexivity|]. destruct (x_verify S_256k1 (m_raw v) sig msg); cbn [opt]; [intros [= ->]; reflexivity|discriminate].
    + split; [reflexivity|]. destruct (x_verify S_256r1 (m_raw v) sig msg); cbn [opt]; [intros [= ->]; reflexivity|discriminate].
  - intros Hn. unfold verfer_verify. rewrite validate_no; [reflexivity|]. exact Hn.
Qed.
Lemma C57_verify_iff_ex_pf : let v := Mat (s2b "1AAI") 0 (2 :: rep 7 32) in let sig := rep 7 32 ++ rep 3 32 in
  m_code v = su_key_nt (nth 2 suites (Suite [] [] [] [] [] [] [] [] 0 S_Ed25519)) /\ len (m_raw v) = 33 /\ len sig = 64 /\
  verfer_verify (H := toy_scheme) v sig (s2b "abc") = Ok true /\ verfer_verify (H := toy_scheme) v sig (s2b "abcd") = Ok false.
Proof. vm_compute. auto. Qed.
(** C56: the code, index and other index of an indexed signature *)
Definition icode (u : suite_info) (only : bool) (index : N) (ondex : option N) : bytes :=
  if only then if index <? 64 then su_current u else su_current_big u
  else if (index =? unwrap_or ondex index) && (index <? 64) then su_both u else su_both_big u.
Lemma sign_indexed_eq `{P : Profile} `{C : Crypto} u tr sk pk e msg only index ondex sig : In u suites -> len sk = 32 -> x_sign (su_alg u) e sk msg = Some sig ->
  sign_indexed (Sgn (Mat (su_seed u) 0 sk) (Mat (vcode u tr) 0 pk)) e msg only index ondex =
  siger_new (Some (Mat (vcode u tr) 0 pk)) (Some index) (if only then None else Some (unwrap_or ondex index)) (Some (icode u only index ondex)) (Some sig) None None None.
Proof.
  intros I L E. unfold sign_indexed. cbn [sn_matter m_code m_raw sn_verfer].
  match goal with |- obind ?a _ = _ => replace a with (Ok (icode u only index ondex, if only then None else Some (unwrap_or ondex index))) end.
  2: { unfold icode. destruct only; [destruct (index <? 64)|destruct (_ && _)]; suites_cases I; reflexivity. }
  cbn [obind]. rewrite sign_eq, E by auto. reflexivity.
Qed.
Lemma icode_sig u only index ondex : In u suites -> In (icode u only index ondex) indexed_signature_codes /\
  exists s, In (icode u only index ondex, s) sig_codes /\ sig_raw s = 64 /\ sig_current s = only /\
    ((sig_index s = 1 /\ sig_ondex s = 0 /\ index < 64 /\ (only = false -> index = unwrap_or ondex index)) \/
     (sig_index s = 2 /\ sig_ondex s = 2 /\ ~ (index < 64 /\ (only = false -> index = unwrap_or ondex index)))).
Proof.
  intros I. unfold icode. destruct only.
  - destruct (N.ltb_spec index 64) as [Hi|Hi].
    + suites_cases I; (split; [vm_compute; tauto|]); exists (Sig true 1 0 64 88); (split; [cbn; tauto|]); cbn; repeat (split; [auto; fail|]); left; repeat split; auto; discriminate.
    + suites_cases I; (split; [vm_compute; tauto|]); exists (Sig true 2 2 64 92); (split; [cbn; tauto|]); cbn; repeat (split; [auto; fail|]); right; repeat split; auto; lia.
  - destruct (N.eqb_spec index (unwrap_or ondex index)) as [Ho|Ho]; [destruct (N.ltb_spec index 64) as [Hi|Hi]|]; cbn [andb].
    + suites_cases I; (split; [vm_compute; tauto|]); exists (Sig false 1 0 64 88); (split; [cbn; tauto|]); cbn [sig_raw sig_current sig_index sig_ondex]; repeat (split; [auto; fail|]); left; repeat split; auto.
    + suites_cases I; (split; [vm_compute; tauto|]); exists (Sig false 2 2 64 92); (split; [cbn; tauto|]); cbn [sig_raw sig_current sig_index sig_ondex]; repeat (split; [auto; fail|]); right; repeat split; auto; lia.
    + suites_cases I; (split; [vm_compute; tauto|]); exists (Sig false 2 2 64 92); (split; [cbn; tauto|]); cbn [sig_raw sig_current sig_index sig_ondex]; repeat (split; [auto; fail|]); right; repeat split; auto; tauto.
Qed.
Lemma new_sig_big `{P : Profile} code s raw index ondex : In (code, s) sig_codes -> sig_index s = 2 -> sig_ondex s = 2 ->
  (4096 <= index \/ exists o, ondex = Some o /\ 4096 <= o) -> new_sig code raw index ondex = Err E_InvalidVarIndex.
Proof.
  intros Hin Hm Ho H. destruct (sig_sizage _ _ Hin) as [z [Hz [_ [Hm' [Ho' _]]]]]. unfold new_sig, indexer_new. rewrite (i_new_eq _ z) by auto.
  rewrite Hm', Hm. change (64 ^ 2) with 4096. destruct H as [H|[o [-> H]]].
  - replace (4096 <=? index) with true by lia. reflexivity.
  - unfold ondex_bad. rewrite Ho', Ho. change (64 ^ 2) with 4096. replace (4096 <=? o) with true by lia. change (0 <? 2) with true. cbn [andb].
    rewrite orb_true_r. reflexivity.
Qed.
Lemma siger_eq `{P : Profile} v index ondex code raw : siger_new (Some v) (Some index) ondex (Some code) (Some raw) None None None =
  (x <- new_sig code raw index ondex ;; _ <- validate siger_codes (x_code x) ;; Ok (Sg x v)).
Proof. reflexivity. Qed.

(** C56: the code, index and other index of an indexed signature; it verifies under the attached key, and its wire forms parse to the same signature *)
Lemma C56_indexed_signature_pf : forall (P : Profile) (C : Crypto) (u : suite_info) (transferable only : bool) (s : signer) (entropy index : N) (ondex : option N) (msg : bytes),
  scheme_contract C -> is_signer s u transferable -> index < 4096 -> (only = false -> forall o, ondex = Some o -> o < 4096) ->
  let other := match ondex with Some o => o | None => index end in
  exists g, sign_indexed s entropy msg only index ondex = Ok g /\ sg_verfer g = sn_verfer s /\
    x_code (sg_indexer g) = (if only then if index <? 64 then su_current u else su_current_big u
                             else if (index =? other) && (index <? 64) then su_both u else su_both_big u) /\
    x_index (sg_indexer g) = index /\ x_ondex (sg_indexer g) = (if only then 0 else other) /\
    verfer_verify (sg_verfer g) (x_raw (sg_indexer g)) msg = Ok true /\
    exists t b, indexer_qb64 (sg_indexer g) = Ok t /\ indexer_qb2 (sg_indexer g) = Ok b /\
      siger_new (Some (sn_verfer s)) None None None None None (Some t) None = Ok g /\ siger_new (Some (sn_verfer s)) None None None None None None (Some b) = Ok g.
Proof.
  intros P C u tr only s e index ondex msg K [I [sk [pk [L [B [E ->]]]]]] Hi Ho other. fold (vcode u tr). destruct (K u sk pk I L E) as [Lp [Bp X]].
  destruct (X e msg) as [sig [Es [Ls [Bs Ev]]]]. rewrite (sign_indexed_eq u tr sk pk e msg only index ondex sig) by auto. rewrite siger_eq.
  destruct (icode_sig u only index ondex I) as [V [si [Hin [Hr [Hc Hk]]]]].
  change (if only then if index <? 64 then su_current u else su_current_big u else if (index =? other) && (index <? 64) then su_both u else su_both_big u) with (icode u only index ondex).
  set (od := if only then None else Some (unwrap_or ondex index)).
  assert (Eo : unwrap_or ondex index = other) by reflexivity.
  assert (Hod : other < 4096 \/ only = true) by (unfold other; destruct only; [right; auto|left; destruct ondex; [apply Ho; auto|auto]]).
  assert (N : new_sig (icode u only index ondex) sig index od = Ok (Idx (icode u only index ondex) sig index (if only then 0 else other))).
  { apply (C22_accepts_iff_pf P _ sig si index od). exact Hin. rewrite Hr, Hc. unfold od. rewrite Eo. split; [|split; [|split; [|split]]].
    - destruct Hk as [[-> [_ [H64 _]]]|[-> _]]; [change (64 ^ 1) with 64|change (64 ^ 2) with 4096]; lia.
    - intros ->. reflexivity.
    - intros o Hs Hpos. destruct only; [discriminate|]. injection Hs as <-. destruct Hk as [[_ [H0 _]]|[_ [-> _]]]; [lia|]. change (64 ^ 2) with 4096. destruct Hod; [auto|discriminate].
    - lia.
    - rewrite take_all by lia. destruct only; reflexivity. }
  rewrite N. cbn [obind x_code]. assert (V' : In (icode u only index ondex) siger_codes) by (revert V; apply mem_iff; vm_compute; reflexivity).
  rewrite validate_yes by auto. cbn [obind]. eexists. split; [reflexivity|]. cbn [sg_verfer sg_indexer sn_verfer x_code x_index x_ondex x_raw].
  repeat (split; [reflexivity|]). split; [rewrite verify_eq, Ev by auto; reflexivity|].
  destruct (C19_text_round_trip_pf P _ _ _ _ _ _ Hin Bs N) as [t [Ht [_ [_ [_ [_ [_ [_ [_ Hp]]]]]]]]].
  destruct (C20_binary_round_trip_pf P _ _ _ _ _ _ Hin Bs N) as [b [Hb [_ [_ Hq]]]]; [left; lia|].
  destruct (Hp [] eq_refl) as [Hp1 _]. specialize (Hq [] eq_refl). rewrite app_nil_r in Hp1, Hq. cbn [x_raw x_ondex] in Hp1, Hq.
  assert (Sh : shown_ondex si index (if only then 0 else other) = if only then 0 else other).
  { unfold shown_ondex. rewrite Hc. destruct only; [reflexivity|]. destruct (N.eqb_spec (sig_ondex si) 0); [|reflexivity]. destruct Hk as [[_ [_ [_ Q]]]|[_ [Q _]]]; [rewrite <- Eo; auto|lia]. }
  rewrite Sh in Hp1, Hq. exists t, b. split; [exact Ht|]. split; [exact Hb|].
  change (indexer_new None None None None None (Some t) None) with (sig_parse_text t) in *.
  unfold siger_new. change (indexer_new None None None None None (Some t) None) with (sig_parse_text t). change (indexer_new None None None None None None (Some b)) with (sig_parse_binary b).
  rewrite Hp1, Hq. cbn [obind x_code]. rewrite validate_yes by auto. auto.
Qed.
(** C56: indices of 4096 and more are rejected *)
Lemma C56_out_of_range_pf : forall (P : Profile) (C : Crypto) (u : suite_info) (transferable only : bool) (s : signer) (entropy index : N) (ondex : option N) (msg : bytes),
  scheme_contract C -> is_signer s u transferable -> 4096 <= index \/ (only = false /\ exists o, ondex = Some o /\ 4096 <= o) ->
  sign_indexed s entropy msg only index ondex = Err E_InvalidVarIndex.
Proof.
  intros P C u tr only s e index ondex msg K [I [sk [pk [L [B [E ->]]]]]] H. fold (vcode u tr). destruct (K u sk pk I L E) as [Lp [Bp X]].
  destruct (X e msg) as [sig [Es [Ls [Bs Ev]]]]. rewrite (sign_indexed_eq u tr sk pk e msg only index ondex sig) by auto. rewrite siger_eq.
  destruct (icode_sig u only index ondex I) as [V [si [Hin [Hr [Hc Hk]]]]].
  assert (Q : ~ (index < 64 /\ (only = false -> index = unwrap_or ondex index))).
  { intros [H64 Ho]. destruct H as [H|[-> [o [-> Hl]]]]; [lia|]. specialize (Ho eq_refl). cbn in Ho. lia. }
  destruct Hk as [[_ [_ Q']]|[Hm [Ho _]]]; [contradiction|].
  rewrite (new_sig_big _ si); [reflexivity|auto..|]. destruct H as [H|[-> [o [-> Hl]]]]; [left; auto|right; exists o; auto].
Qed.
(** the assumptions on the schemes are met by a toy scheme *)
Lemma C57_sign_ex_pf : scheme_contract toy_scheme /\ generate_contract toy_scheme /\
  is_signer (C := toy_scheme) (Sgn (Mat (s2b "Q") 0 (rep 7 32)) (Mat (s2b "1AAI") 0 (2 :: rep 7 32))) (nth 2 suites (Suite [] [] [] [] [] [] [] [] 0 S_Ed25519)) false.
Proof.
  split; [apply toy_scheme_contract|]. split.
  - intros u e I. cbn [x_generate toy_scheme]. assert (B : bytes_ok (rep (e mod 256) 32) = true) by (apply bytes_ok_rep, N.mod_lt; lia).
    rewrite len_rep. split; [auto|]. split; [auto|]. cbn [x_public toy_scheme]. rewrite len_rep, B. eexists. reflexivity.
  - split; [vm_compute; tauto|]. exists (rep 7 32), (2 :: rep 7 32). vm_compute. auto.
Qed.
Lemma C56_indexed_signature_ex_pf : forall P : Profile, let s := Sgn (Mat (s2b "A") 0 (rep 7 32)) (Mat (s2b "D") 0 (rep 7 32)) in
  let x only index ondex := match sign_indexed (C := toy_scheme) s 0 (s2b "abc") only index ondex with Ok g => Ok (x_code (sg_indexer g), x_index (sg_indexer g), x_ondex (sg_indexer g)) | Err e => Err e | Panic => Panic end in
  x false 63 None = Ok (s2b "A", 63, 63) /\ x false 64 None = Ok (s2b "2A", 64, 64) /\ x false 1 (Some 2) = Ok (s2b "2A", 1, 2) /\
  x true 63 (Some 9) = Ok (s2b "B", 63, 0) /\ x true 64 None = Ok (s2b "2B", 64, 0) /\ x true 4096 None = Err E_InvalidVarIndex.
Proof. intros P. vm_compute. auto 10. Qed.

(** C58: a batch holds the signers of the paths [path ++ hex(start)], [path ++ hex(start+1)], ... *)
Lemma signers_loop `{P : Profile} `{C : Crypto} s n : forall i start path code tr tier temp l, i + start + N.of_nat n <= U64 ->
  (salter_signers_loop s n i start path code tr tier temp = Ok l <->
   List.length l = n /\ forall k, (k < n)%nat -> exists x, nth_error l k = Some x /\ salter_signer s code tr (Some (nth_path path start (i + N.of_nat k))) tier temp = Ok x).
Proof.
  induction n as [|n IH]; intros i start path code tr tier temp l Hb; cbn [salter_signers_loop].
  - split; [intros [= <-]; split; [reflexivity|intros k Hk; inversion Hk]|]. intros [E _]. destruct l; [reflexivity|discriminate].
  - unfold add64. replace (i + start <? U64) with true by lia. cbn [obind].
    assert (E0 : path ++ to_hex (i + start) = nth_path path start (i + N.of_nat 0)) by (unfold nth_path; do 2 f_equal; lia). rewrite E0. split.
    + intros H. inv_bind H x Ex. inv_bind H r Er. injection H as <-. apply IH in Er as [L R]; [|lia]. split; [cbn; lia|].
      intros [|k] Hk; [exists x; auto|]. destruct (R k) as [y [Y1 Y2]]; [lia|]. exists y. split; [exact Y1|]. rewrite <- Y2. do 3 f_equal. lia.
    + intros [L R]. destruct l as [|x l]; [discriminate|]. destruct (R 0%nat) as [y [Y1 Y2]]; [lia|]. injection Y1 as <-. match goal with |- obind ?a _ = _ => replace a with (Ok x) by (symmetry; exact Y2) end. cbn [obind].
      assert (Er : salter_signers_loop s n (i + 1) start path code tr tier temp = Ok l).
      { apply IH; [lia|]. split; [cbn in L; lia|]. intros k Hk. destruct (R (S k)) as [z [Z1 Z2]]; [lia|]. exists z. split; [exact Z1|]. rewrite <- Z2. do 3 f_equal. lia. }
      rewrite Er. reflexivity.
Qed.
Lemma C58_batch_pf : forall (P : Profile) (C : Crypto) (s : salter) (count start : N) (path : bytes) (code : option bytes) (transferable : option bool) (tier : option bytes) (temp : option bool) (l : list signer),
  start + count <= 2 ^ 64 ->
  (salter_signers s (Some count) (Some start) (Some path) code transferable tier temp = Ok l <->
   len l = count /\ forall i, i < count -> exists x, nth_error l (N.to_nat i) = Some x /\ salter_signer s code transferable (Some (nth_path path start i)) tier temp = Ok x).
Proof.
  intros P C s count start path code tr tier temp l Hb. unfold salter_signers. cbn [unwrap_or]. rewrite signers_loop by (unfold U64; npow; lia).
  unfold len. split; intros [L R]; (split; [lia|]).
  - intros i Hi. destruct (R (N.to_nat i)) as [x [X1 X2]]; [lia|]. exists x. split; [auto|]. rewrite <- X2. do 3 f_equal. lia.
  - intros k Hk. destruct (R (N.of_nat k)) as [x [X1 X2]]; [lia|]. rewrite Nat2N.id in X1. exists x. split; [auto|]. rewrite <- X2. do 3 f_equal.
Qed.
(** C58: defaults: one signer, starting at 0, empty path *)
Lemma C58_defaults_pf : forall (P : Profile) (C : Crypto) (s : salter) (code : option bytes) (transferable : option bool) (tier : option bytes) (temp : option bool),
  salter_signers s None None None code transferable tier temp = salter_signers s (Some 1) (Some 0) (Some []) code transferable tier temp /\
  salter_signer s None None None None None = salter_signer s (Some (s2b "A")) (Some true) (Some []) (Some (sl_tier s)) (Some false).
Proof. intros. split; reflexivity. Qed.
(** C58: the paths of a batch are pairwise distinct *)
Lemma C58_paths_distinct_pf : forall (path : bytes) (start i j : N), nth_path path start i = nth_path path start j -> i = j.
Proof.
  intros path start i j H. unfold nth_path in H. apply app_inv_head in H. unfold to_hex in H. apply to_radix_inj in H; lia.
Qed.
(** C58: but different path prefixes can give the same path, hence the same keys *)
Lemma C58_prefix_collision_refuted_pf : forall (P : Profile) (C : Crypto) (s : salter), s2b "1" <> s2b "" /\
  salter_signers s (Some 1) (Some 1) (Some (s2b "1")) None None None None = salter_signers s (Some 1) (Some 17) (Some (s2b "")) None None None None.
Proof. intros P C s. split; [discriminate|reflexivity]. Qed.
(** C58: beyond 2^64 the program panics, or wraps around in a build without overflow checks *)
Lemma C58_wrap_ex_pf : forall P : Profile, let s := Slt (Mat (s2b "0A") 0 (rep 1 16)) (s2b "low") in
  salter_signers (C := toy_scheme) s (Some 2) (Some (2 ^ 64 - 1)) None None None None None =
  if overflow_checks then Panic else
    (a <- salter_signer (C := toy_scheme) s None None (Some (s2b "ffffffffffffffff")) None None ;; b <- salter_signer (C := toy_scheme) s None None (Some (s2b "0")) None None ;; Ok [a; b]).
Proof. intros P. destruct P; vm_compute; reflexivity. Qed.

(** C58: the seed of a signer is the Argon2id stretching of the path with the salt
    and the parameters of the tier; a temporary signer uses the fast tier whatever is asked *)
Lemma tier_iff t m p : tier_params t = Ok (m, p) <-> In (t, (m, p)) tiers.
Proof.
  unfold tier_params. split.
  - repeat (match goal with |- context [bytes_eqb t ?x] => let E := fresh in destruct (bytes_eqb t x) eqn:E; [apply bytes_eqb_eq in E; subst; intros [= <- <-]; vm_compute; tauto|] end). discriminate.
  - intros I. cbn in I. repeat (destruct I as [[= <- <- <-]|I]; [reflexivity|]). contradiction.
Qed.
Lemma C58_stretch_pf : forall (C : Crypto) (s : salter) (size : N) (path : bytes) (tier : option bytes) (temp : bool) (seed : bytes),
  salter_stretch s (Some size) (Some path) tier (Some temp) = Ok seed <->
  exists m p, In (used_tier temp tier (sl_tier s), (m, p)) tiers /\ x_argon2id path (m_raw (sl_matter s)) m p size = Some seed.
Proof.
  intros C s size path tier temp seed. unfold salter_stretch. cbn [unwrap_or]. unfold salt_stretch.
  replace (if temp then s2b "min" else unwrap_or tier (sl_tier s)) with (used_tier temp tier (sl_tier s)) by (destruct tier; reflexivity). split.
  - intros H. inv_bind H mp E. destruct mp as [m p]. exists m, p. split; [apply tier_iff; auto|]. destruct (x_argon2id _ _ _ _ _); congruence.
  - intros [m [p [I E]]]. apply tier_iff in I. rewrite I. cbn [obind]. rewrite E. reflexivity.
Qed.
Lemma C58_seed_pf : forall (P : Profile) (C : Crypto) (s : salter) (u : suite_info) (path : bytes) (transferable : bool) (tier : option bytes) (temp : bool) (x : signer), In u suites ->
  (salter_signer s (Some (su_seed u)) (Some transferable) (Some path) tier (Some temp) = Ok x <->
   exists seed, salter_stretch s (Some 32) (Some path) tier (Some temp) = Ok seed /\ signer_of_raw seed transferable (su_seed u) = Ok x).
Proof.
  intros P C s u path tr tier temp x I. unfold salter_signer. cbn [unwrap_or].
  replace (raw_size (su_seed u)) with (@Ok N 32) by (suites_cases I; vm_compute; reflexivity). cbn [obind]. split.
  - intros H. inv_bind H seed E. exists seed. auto.
  - intros [seed [E H]]. rewrite E. exact H.
Qed.
(** C58: a tier that does not exist is rejected, unless temporary *)
Lemma C58_unknown_tier_pf : forall (C : Crypto) (s : salter) (size path tier : option _) (temp : option bool), ~ In (used_tier (unwrap_or temp false) tier (sl_tier s)) (map fst tiers) ->
  salter_stretch s size path tier temp = Err E_Value.
Proof.
  intros C s size path tier temp H. unfold salter_stretch, salt_stretch.
  replace (if unwrap_or temp false then s2b "min" else unwrap_or tier (sl_tier s)) with (used_tier (unwrap_or temp false) tier (sl_tier s)) by (destruct tier; reflexivity).
  destruct (tier_params _) as [[m p]|e|] eqn:E; cbn [obind].
  - exfalso. apply H. apply tier_iff in E. apply (in_map fst) in E. exact E.
  - revert E. unfold tier_params. repeat (destruct (bytes_eqb _ _); [discriminate|]). congruence.
  - exfalso. revert E. unfold tier_params. repeat (destruct (bytes_eqb _ _); [discriminate|]). discriminate.
Qed.
Lemma C58_ex_pf : forall P : Profile, let s := Slt (Mat (s2b "0A") 0 (rep 1 16)) (s2b "low") in
  salter_signers (C := toy_scheme) s (Some 2) (Some 15) (Some (s2b "a/")) (Some (s2b "A")) (Some true) None (Some true) =
  Ok [Sgn (Mat (s2b "A") 0 (rep 3 32)) (Mat (s2b "D") 0 (rep 3 32)); Sgn (Mat (s2b "A") 0 (rep 4 32)) (Mat (s2b "D") 0 (rep 4 32))] /\
  salter_stretch (C := toy_scheme) s None None (Some (s2b "none")) None = Err E_Value.
Proof. intros P. vm_compute. auto. Qed.

(** C59: from text, a Signer panics exactly when Matter does, or for an Ed25519 seed with '=' among its 44 characters *)
Lemma verfer_raw_no_panic `{P : Profile} u tr raw : In u suites -> verfer_new (Some (vcode u tr)) (Some raw) None None None <> Panic.
Proof.
  intros I H. destruct (vcode_fixed u tr I) as [f [F V]]. unfold verfer_new in H. cbn [unwrap_or] in H.
  destruct (C10_raw_size_pf P (vcode u tr) raw _ _ F) as [A B]. change (matter_new (Some (vcode u tr)) (Some raw) None None None) with (build (vcode u tr) raw) in H.
  destruct (N.lt_ge_cases (len raw) (su_key_size u)) as [L|L]; [rewrite (A L) in H; discriminate|].
  destruct (B L) as [E _]. rewrite E in H. cbn [obind m_code] in H. rewrite validate_yes in H by auto. discriminate.
Qed.
Lemma derive_panic `{P : Profile} `{C : Crypto} u tr sk : In u suites -> derive_verfer (su_seed u) sk tr = Panic <-> su_seed u = s2b "A" /\ len sk < 32.
Proof.
  intros I. rewrite derive_eq by auto. unfold sign_public_key.
  assert (X : forall o, (raw <- opt o ;; verfer_new (Some (vcode u tr)) (Some raw) None None None) <> Panic).
  { intros [o|]; cbn [opt obind]; [apply verfer_raw_no_panic; auto|discriminate]. }
  destruct (bytes_eq_dec (su_seed u) (s2b "A")) as [E|E].
  - rewrite E. csuite. destruct (N.lt_ge_cases (len sk) 32) as [L|L].
    + replace (slice sk 0 32) with (@Panic bytes). split; auto. unfold slice. replace (32 <=? len sk) with false by lia. rewrite andb_false_r. reflexivity.
    + rewrite slice_prefix by auto. cbn [obind]. split; [intros H; exfalso; eapply X; eauto|lia].
  - split; [|tauto]. intros H. exfalso. suites_cases I; [congruence| |]; revert H; csuite; apply X.
Qed.
Lemma C59_text_panics_iff_pf : forall (P : Profile) (C : Crypto) (t : bytes) (transferable : bool),
  signer_of_text t transferable = Panic <->
  parse_text t = Panic \/ exists m, parse_text t = Ok m /\ m_code m = s2b "A" /\ In 61 (take 44 t).
Proof.
  intros P C t tr. destruct (parse_text t) as [m|e|] eqn:E.
  - destruct (signer_parsed m tr) as [S1 _]. rewrite S1 by auto. destruct (In_code_dec (m_code m) signer_codes) as [I|I].
    + rewrite validate_yes by auto. cbn [obind]. apply seed_codes in I as [u [I Eu]]. rewrite Eu.
      transitivity (derive_verfer (su_seed u) (m_raw m) tr = Panic). { destruct (derive_verfer (su_seed u) (m_raw m) tr); cbn [obind]; split; intros; congruence. }
      rewrite derive_panic by auto. change (parse_text t) with (matter_exfil t) in E. destruct (exfil_parsed _ _ E) as [z Hp].
      assert (Q : su_seed u = s2b "A" -> (len (m_raw m) < 32 <-> In 61 (take 44 t))).
      { intros EA. pose proof (pa_sz _ _ _ Hp) as Hz. rewrite Eu, EA in Hz. vm_compute in Hz. apply Ok_inj in Hz. 
        assert (Hf : full_of z (m_size m) = 44) by (subst z; reflexivity). split.
        - intros L. destruct (in_dec N.eq_dec 61 (take 44 t)) as [J|J]; [exact J|]. exfalso.
          assert (W : wf m z) by (eapply parsed_wf; eauto; apply no_pad_text_b64; rewrite ?Hf; auto). pose proof (wf_len _ _ W) as R. subst z. vm_compute in R. destruct R as [_ R]. change (len (m_raw m) = 32) in R. lia.
        - intros J. rewrite <- Hf in J. pose proof (parsed_pad _ _ _ Hp J) as Hm. pose proof (pa_len _ _ _ Hp) as R. rewrite Hf in R.
          pose proof (f_equal len (pa_text _ _ _ Hp)) as T. rewrite Hf, len_take in T by lia. unfold text_of, both_of in T.
          rewrite !len_app, len_drop, len_b64_encode, len_app, len_rep, Eu, EA in T. subst z.
          unfold cs_of in T, Hm. cbn [hs ss ls fs soft_of digits N.to_nat map len] in T, Hm. change (len (s2b "A")) with 1 in T.
          change ((1 + 0) mod 4) with 1 in T, Hm. change (len []) with 0 in T. lia. }
      split.
      * intros [EA L]. right. exists m. rewrite Eu. repeat split; auto. apply Q; auto.
      * intros [X|[m' [[= <-] [EA J]]]]; [discriminate|]. rewrite Eu in EA. split; [auto|]. apply Q; auto.
    + rewrite validate_no by auto. cbn [obind]. split; [discriminate|]. intros [X|[m' [[= <-] [EA _]]]]; [discriminate|]. exfalso. apply I. rewrite EA. vm_compute. tauto.
  - split; [|intros [X|[m [X _]]]; discriminate]. intros H. unfold signer_of_text, signer_new in H. cbn [none andb unwrap_or] in H.
    change (matter_new None None None (Some t) None) with (parse_text t) in H. rewrite E in H. discriminate.
  - split; auto. intros _. unfold signer_of_text, signer_new. cbn [none andb unwrap_or]. change (matter_new None None None (Some t) None) with (parse_text t). rewrite E. reflexivity.
Qed.
(** C59: other ways of making a Signer: bytes that are text as text; binary only when Matter panics; raw and random never *)
Lemma C59_others_pf : forall (P : Profile) (C : Crypto) (t b raw code : bytes) (entropy : N) (transferable : bool),
  (signer_of_text_bytes t transferable = Panic <-> utf8_valid t = true /\ signer_of_text t transferable = Panic) /\
  (bytes_ok b = true -> (signer_of_binary b transferable = Panic <-> parse_binary b = Panic)) /\
  signer_of_raw raw transferable code <> Panic /\
  signer_random entropy transferable code <> Panic.
Proof.
  intros P C t b raw code e tr. split; [|split; [|]].
  - unfold signer_of_text_bytes, signer_of_text, signer_new. cbn [none andb unwrap_or]. unfold matter_new, matter_new_with_qb64b, from_utf8.
    destruct (utf8_valid t); cbn [obind].
    + split; [intros H|intros [_ H]]; auto.
    + split; [discriminate|intros [X _]; discriminate].
  - intros B. destruct (parse_binary b) as [m|x|] eqn:E.
    + destruct (signer_parsed m tr) as [_ [_ S3]]. rewrite S3 by auto. split; [|discriminate]. intros H. exfalso.
      destruct (In_code_dec (m_code m) signer_codes) as [I|I]; [|rewrite validate_no in H by auto; discriminate].
      rewrite validate_yes in H by auto. cbn [obind] in H. apply bind_panic in H as [H|[v [_ H]]]; [|discriminate].
      apply seed_codes in I as [u [I Eu]]. rewrite Eu in H. apply derive_panic in H as [EA L]; [|auto].
      destruct (bexfil_inv _ _ B E) as [z [W _]]. pose proof (wf_len _ _ W) as R. pose proof (wf_sz _ _ W) as Hz. rewrite Eu, EA in Hz. vm_compute in Hz. apply Ok_inj in Hz. subst z.
      vm_compute in R. destruct R as [_ R]. change (len (m_raw m) = 32) in R. lia.
    + split; [|discriminate]. unfold signer_of_binary, signer_new. cbn [none andb unwrap_or]. change (matter_new None None None None (Some b)) with (parse_binary b). rewrite E. discriminate.
    + split; auto. intros _. unfold signer_of_binary, signer_new. cbn [none andb unwrap_or]. change (matter_new None None None None (Some b)) with (parse_binary b). rewrite E. reflexivity.
  - assert (X : forall r, (m <- matter_new (Some code) (Some r) None None None ;; v <- derive_verfer (m_code m) (m_raw m) tr ;; Ok (Sgn m v)) = Panic -> In code signer_codes -> False).
    { intros r H I. apply seed_codes in I as [u [I Eu]]. subst code. destruct (seed_fixed u I) as [F _]. unfold matter_new in H.
      destruct (N.lt_ge_cases (len r) 32) as [L|L].
      - destruct (C10_raw_size_pf P (su_seed u) r _ _ F) as [A _]. unfold build, matter_new in A. rewrite (A L) in H. discriminate.
      - rewrite (fixed_build _ _ _ _ F L) in H. cbn [obind m_code m_raw] in H. apply bind_panic in H as [H|[v [_ H]]]; [|discriminate].
        apply derive_panic in H as [_ H]; [|auto]. rewrite len_take in H by lia. lia. }
    split.
    + unfold signer_of_raw, signer_new. cbn [none andb unwrap_or]. intros H. destruct (In_code_dec code signer_codes) as [I|I].
      * rewrite validate_yes in H by auto. cbn [obind] in H. eapply X; eauto.
      * rewrite validate_no in H by auto. discriminate.
    + unfold signer_random, signer_new. cbn [none andb unwrap_or]. intros H. destruct (In_code_dec code signer_codes) as [I|I].
      * rewrite validate_yes in H by auto. cbn [obind] in H. unfold sign_generate in H.
        destruct (suite_of code) as [su|]; [|discriminate]. cbn [obind] in H. eapply X; eauto.
      * rewrite validate_no in H by auto. discriminate.
Qed.
(** C59: signing and verifying never panic *)
Lemma C59_sign_never_panics_pf : forall (P : Profile) (C : Crypto) (s : signer) (entropy index : N) (ondex : option N) (only : bool) (msg sig : bytes) (v : matter),
  sign_unindexed s entropy msg <> Panic /\ sign_indexed s entropy msg only index ondex <> Panic /\ verfer_verify v sig msg <> Panic.
Proof.
  assert (S : forall (C : Crypto) code e k m, sign_sign code e k m <> Panic).
  { intros C code e k m. unfold sign_sign. destruct (suite_of code) as [[]|]; try discriminate; try destruct (len k =? 32); try discriminate; destruct (x_sign _ _ _ _); discriminate. }
  intros P C s e index ondex only msg sig v. split; [|split].
  - unfold sign_unindexed. intros H. apply bind_panic in H as [H|[c [E H]]].
    { repeat (destruct (bytes_eqb _ _); [discriminate|]). discriminate. }
    apply bind_panic in H as [H|[sg [_ H]]]; [eapply S; eauto|].
    assert (F : In (c, (64, 88)) fixed_codes) by (repeat (destruct (bytes_eqb _ _); [injection E as <-; vm_compute; tauto|]); discriminate).
    unfold cigar_new in H. apply bind_panic in H as [H|[m [_ H]]].
    + destruct (C10_raw_size_pf P c sg _ _ F) as [A B]. unfold build in A, B. destruct (N.lt_ge_cases (len sg) 64) as [L|L]; [rewrite (A L) in H; discriminate|].
      destruct (B L) as [X _]. rewrite X in H. discriminate.
    + apply bind_panic in H as [H|[w [_ H]]]; [|discriminate]. unfold validate in H. destruct (mem_code _ _); discriminate.
  - unfold sign_indexed. intros H. apply bind_panic in H as [H|[[c o] [E H]]].
    { unfold pick3 in H. destruct only; [|destruct (_ && _)];
      [destruct (index <? 64)| |]; repeat (destruct (bytes_eqb _ _); [discriminate|]); discriminate. }
    apply bind_panic in H as [H|[sg [_ H]]]; [eapply S; eauto|]. rewrite siger_eq in H. apply bind_panic in H as [H|[x [_ H]]]; [eapply C22_never_panics_pf; eauto|].
    apply bind_panic in H as [H|[w [_ H]]]; [|discriminate]. unfold validate in H. destruct (mem_code _ _); discriminate.
  - unfold verfer_verify, sign_verify. intros H. apply bind_panic in H as [H|[w [_ H]]]; [unfold validate in H; destruct (mem_code _ _); discriminate|].
    destruct (suite_of _) as [[]|]; try discriminate; try (destruct (_ && _); [|discriminate]); destruct (x_verify _ _ _ _); discriminate.
Qed.
Lemma C59_ex_pf : forall P : Profile, parse_text (s2b "A" ++ rep 65 42 ++ s2b "=") = Ok (Mat (s2b "A") 0 (rep 0 31)) /\
  signer_of_text (C := toy_scheme) (s2b "A" ++ rep 65 42 ++ s2b "=") true = Panic /\
  (exists s, signer_of_text (C := toy_scheme) (s2b "A" ++ rep 65 43) true = Ok s).
Proof. intros P. split; [vm_compute; reflexivity|]. split; [vm_compute; reflexivity|]. eexists. vm_compute. reflexivity. Qed.
