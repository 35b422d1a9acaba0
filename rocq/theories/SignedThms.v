(** Property C65: signed events, from the signers to the receiver. *)
From Verif Require Import Base Utf8 Matter Counter Indexer StdStr Data Json Spec MatterDefs CounterDefs IndexerDefs Crypto Prims PrimsDefs Signer SignerDefs DataDefs Common CommonDefs SaiderDefs Tholder TholderDefs Sadder SadderDefs AccessDefs StreamDefs SignedDefs.
From Verif Require Import BaseFacts B64 B64Facts UtilFacts SpecFacts MatterFacts MatterFacts2 MatterFacts3 MatterFacts4 MatterThms CounterFacts CounterThms IndexerFacts IndexerFacts2 IndexerFacts3 IndexerThms PrimsFacts PrimsFacts2 PrimsThms SignerToy SignerThms TholderThms SadderFacts SadderFacts2 SadderThms AccessThms StreamThms.

Section S.
Context `{P : Profile} `{C : Crypto} `{F : Floats}.
Lemma sign_proper u tr only s e index msg : scheme_contract C -> is_signer s u tr -> index < 4096 -> exists g, sign_indexed s e msg only index None = Ok g /\
  proper (I_sig (sg_indexer g)) /\ has_binary (I_sig (sg_indexer g)) /\ x_index (sg_indexer g) = index /\ verfer_verify (sn_verfer s) (x_raw (sg_indexer g)) msg = Ok true.
Proof.
  intros K Hs Hi. destruct (C56_indexed_signature_pf P C u tr only s e index None msg K Hs Hi ltac:(discriminate)) as (g & Hg & Hv & Hc & Hx & Ho & Vf & _). exists g. split; [exact Hg|]. rewrite Hv in Vf.
  assert (X : exists si raw od, In (icode u only index None, si) sig_codes /\ bytes_ok raw = true /\ new_sig (icode u only index None) raw index od = Ok (sg_indexer g) /\ (od = None \/ od = Some index)).
  { destruct Hs as [I [sk [pk [L [B [E ->]]]]]]. fold (vcode u tr) in *. destruct (K u sk pk I L E) as [Lp [Bp X]]. destruct (X e msg) as [sig [Es [Ls [Bs _]]]]. rewrite (sign_indexed_eq u tr sk pk e msg only index None sig) in Hg by auto. rewrite siger_eq in Hg.
    destruct (icode_sig u only index None I) as [_ [si [Hin _]]]. exists si, sig, (if only then None else Some index). split; [exact Hin|]. split; [exact Bs|]. cbn [unwrap_or] in Hg. fold (new_sig (icode u only index None) sig index (if only then None else Some index)) in Hg.
    destruct (new_sig (icode u only index None) sig index (if only then None else Some index)) as [x|err|]; cbn [obind] in Hg; try discriminate Hg. destruct (validate siger_codes (x_code x)); cbn [obind] in Hg; try discriminate Hg. apply Ok_inj in Hg. subst g. cbn [sg_indexer]. split; [reflexivity|]. destruct only; auto. }
  destruct X as (si & raw & od & Hin & Br & Hn & Od). split; [exists (icode u only index None), raw, si, index, od; tauto|]. split; [|split; [exact Hx|exact Vf]].
  intros s' I'. left. assert (Iu : In u suites) by apply Hs. rewrite Hc in I'. clear - I' Iu. suites_cases Iu; destruct only; destruct (index <? 64); destruct (index =? index); cbn [andb su_both su_both_big su_current su_current_big] in I'; vm_compute in I';
    repeat (destruct I' as [I'|I']; [try discriminate I'; injection I' as <-; vm_compute; reflexivity|]); contradiction.
Qed.
End S.
Section S2.
Context `{P : Profile} `{C : Crypto} `{F : Floats}.
Lemma each_true {A} (f : A -> outcome bool) l : (forall x, In x l -> f x = Ok true) -> exists bs, each f l = Ok bs /\ forallb (fun x => x) bs = true.
Proof.
  induction l as [|x l IH]; intros H; [exists []; auto|]. destruct IH as (bs & E & T); [intros; apply H; right; auto|]. exists (true :: bs). cbn [each]. rewrite (H x (or_introl eq_refl)). cbn [obind]. rewrite E. cbn [obind forallb andb]. auto.
Qed.
Lemma each_all {A} (f : A -> outcome bool) l bs : each f l = Ok bs -> forallb (fun x => x) bs = true -> forall x, In x l -> f x = Ok true.
Proof.
  revert bs. induction l as [|y l IH]; intros bs H T x I; [destruct I|]. cbn [each] in H. destruct (f y) as [b|e|] eqn:E; cbn [obind] in H; try discriminate H. destruct (each f l) as [xs|e|] eqn:El; cbn [obind] in H; try discriminate H. apply Ok_inj in H. subst bs. cbn [forallb] in T. apply andb_true_iff in T as [-> T].
  destruct I as [<-|I]; [exact E|eapply IH; eauto].
Qed.
Lemma signer_key u tr s kt : scheme_contract C -> is_signer s u tr -> matter_qb64 (sn_verfer s) = Ok kt -> prim_text key_codes (VStr kt) (sn_verfer s).
Proof.
  intros K Hs Hk. destruct (C57_signer_round_trip_pf P C u tr s K Hs) as (_ & _ & vt & _ & _ & _ & _ & _ & _ & _ & E & _ & _ & V & _). rewrite Hk in E. apply Ok_inj in E. subst vt. exists kt. split; [reflexivity|].
  apply (C26_verfer_pf P None None None (Some kt) None) in V. exact V.
Qed.
End S2.

(** C65: an event is signed by the signers at any positions [who] whose keys it lists;
    its text, a count code and the signatures, followed by any text, are received as
    that event and those signatures, each of which verifies under the key its index
    names; so the event is accepted exactly if the positions satisfy its signing threshold. *)
Lemma C65_signed_event_pf : forall (P : Profile) (C : Crypto) (F : Floats) (raw : bytes) (s : sadder) (o : list (bytes * data)) (signers : list signer) (keys : list bytes) (who : list N) (entropy : N -> N) (only : bool) (tail : bytes),
  scheme_contract C -> serder_new None (Some raw) None None None = Ok s -> holds s o -> In (s2b "k", VArr (map VStr keys)) o ->
  Forall2 (fun sg k => (exists u tr, is_signer sg u tr) /\ matter_qb64 (sn_verfer sg) = Ok k) signers keys ->
  (forall i, In i who -> i < len signers /\ i < 4096) -> len who < 4096 -> utf8_valid tail = true ->
  exists sigs count texts, Forall2 (signs signers entropy (sd_raw s) only) who sigs /\ counter_qb64 (Ctr (s2b "-A") (len who)) = Ok count /\
    Forall2 (fun g t => indexer_qb64 (sg_indexer g) = Ok t) sigs texts /\
    let items := map (fun g => I_sig (sg_indexer g)) sigs in
    receive (sd_raw s ++ count ++ concat texts ++ tail) = Ok (s, items, tail) /\
    serder_verfers s = Ok (map sn_verfer signers) /\ (forall i, In i items -> check_one s (map sn_verfer signers) i = Ok true) /\
    forall t, serder_tholder s = Ok (Some t) -> accept s items = satisfy t who.
Proof.
  intros P C F raw s o signers keys who e only tail K Hs Ho Ik Fk Hw Lw Ut.
  assert (Kv : serder_verfers s = Ok (map sn_verfer signers)).
  { apply (proj1 (C62_keys_pf P C F s o Ho)). left. exists (map VStr keys). split; [exact Ik|]. clear Ik Hw. induction Fk as [|sg k signers keys [(u & tr & H) Hk] Fk IH]; [constructor|]. constructor; [eapply signer_key; eauto|exact IH]. }
  assert (X : exists sigs, Forall2 (signs signers e (sd_raw s) only) who sigs /\ map (fun g => x_index (sg_indexer g)) sigs = who /\
     forall g, In g sigs -> proper (I_sig (sg_indexer g)) /\ check_one s (map sn_verfer signers) (I_sig (sg_indexer g)) = Ok true).
  { clear Lw. induction who as [|i who IH]; [exists []; repeat split; try constructor; destruct H|]. destruct IH as (sigs & F1 & F2 & F3); [intros; apply Hw; right; auto|]. destruct (Hw i (or_introl eq_refl)) as [Hi Hi'].
    destruct (nth_error signers (N.to_nat i)) as [sg|] eqn:En; [|exfalso; apply nth_error_None in En; unfold len in Hi; Lia.lia].
    assert (Hsg : exists u tr, is_signer sg u tr). { apply nth_error_In in En. clear - Fk En. induction Fk as [|x k signers keys [H _] Fk IH]; [destruct En|]. destruct En as [<-|En]; auto. } destruct Hsg as (u & tr & Hsg).
    destruct (sign_proper u tr only sg (e i) i (sd_raw s) K Hsg Hi') as (g & Hg & Pg & _ & Xg & Vg). exists (g :: sigs). split; [constructor; [exists sg; auto|exact F1]|]. split; [cbn [map]; rewrite Xg, F2; reflexivity|].
    intros g' [<-|I]; [|apply F3; exact I]. split; [exact Pg|]. cbn [check_one]. rewrite Xg. rewrite (map_nth_error sn_verfer _ _ En). exact Vg. }
  destruct X as (sigs & F1 & F2 & F3). set (items := map (fun g => I_sig (sg_indexer g)) sigs).
  assert (Ln : len items = len who) by (rewrite <- F2; unfold items, len; rewrite !map_length; reflexivity).
  destruct (C64_group_pf P (s2b "-A") 2 [K_sig] (map (fun i => [i]) items) tail) as (ct & texts & Hc & _ & Ft & Rg).
  - left. reflexivity.
  - unfold len in *. rewrite map_length. change (64 ^ 2) with 4096. Lia.lia.
  - intros g I. apply in_map_iff in I as (i & <- & I). unfold items in I. apply in_map_iff in I as (x & <- & I). split; [reflexivity|]. constructor; [apply F3; exact I|constructor].
  - exact Ut.
  - replace (len (map (fun i => [i]) items)) with (len who) in Hc by (rewrite <- Ln; unfold len; rewrite map_length; reflexivity).
    assert (Ec : concat (map (fun i : item => [i]) items) = items) by (clear; induction items as [|i l IH]; [reflexivity|cbn [map concat app]; rewrite IH; reflexivity]). rewrite Ec in Ft, Rg.
    exists sigs, ct, texts. split; [exact F1|]. split; [exact Hc|]. split. { unfold items in Ft. clear - Ft. revert texts Ft. induction sigs as [|g sigs IH]; intros texts Ft; inversion Ft; subst; constructor; auto. }
    cbv zeta. fold items. split; [|split; [exact Kv|]].
    + assert (Sz : sd_size s = len (sd_raw s)). { apply C50_load_pf in Hs. destruct Hs as (n & v & m & _ & L & _ & _ & _ & ->). cbn [sd_size sd_raw]. rewrite len_take. lia. }
      assert (Bt : utf8_valid (ct ++ concat texts ++ tail) = true).
      { assert (B1 : b64_text ct). { destruct (C14_range_pf P (s2b "-A") 2 (len who) (or_introl eq_refl)) as [N0 _]. destruct (C14_round_trip_pf P (s2b "-A") 2 _ _ (or_introl eq_refl) (N0 ltac:(change (64 ^ 2) with 4096; lia))) as (_ & t & b & Ht & _ & _ & _ & E & _). rewrite Hc in Ht. apply Ok_inj in Ht. subst ct. rewrite E. apply b64_of_text. }
        assert (B2 : b64_text (concat texts)). { destruct (stream_text items) as (ts & Ft' & B & _). { apply Forall_forall. intros i I. unfold items in I. apply in_map_iff in I as (x & <- & I). apply F3; exact I. } replace texts with ts; [exact B|]. clear - Ft Ft'. revert ts Ft'. induction Ft as [|i t l ts E Ft IH]; intros us Ft'; inversion Ft' as [|? u ? vs Eu Fu]; subst; [reflexivity|]. rewrite E in Eu. apply Ok_inj in Eu. subst u. f_equal. auto. }
        apply b64_utf8; [exact B1|]. apply b64_utf8; [exact B2|exact Ut]. }
      pose proof (proj1 (C55_load_again_pf P C F None raw (ct ++ concat texts ++ tail) s Bt) Hs) as R. unfold receive. match goal with |- context [serder_new None (Some ?x) None None None] => replace (serder_new None (Some x) None None None) with (Ok s) by (symmetry; exact R) end. cbn [obind]. rewrite drop_app_exact by (symmetry; exact Sz). rewrite Rg. reflexivity.
    + assert (Ck : forall i, In i items -> check_one s (map sn_verfer signers) i = Ok true). { intros i I. unfold items in I. apply in_map_iff in I as (x & <- & I). apply F3; exact I. }
      split; [exact Ck|]. intros t Ht. unfold accept. rewrite Kv. cbn [obind]. destruct (each_true _ _ Ck) as (bs & -> & Tb). cbn [obind]. rewrite Ht. cbn [obind]. replace (map index_of items) with who by (rewrite <- F2; unfold items; rewrite map_map; reflexivity). rewrite Tb. destruct (satisfy t who); reflexivity.
Qed.

(** C65: what acceptance shows: every signature verifies the event under a key the event
    lists; if no position is repeated, at least as many different keys as the threshold
    number have signed; and for a weighted threshold the different keys that have signed
    reach it in every clause, whether or not positions are repeated. *)
Lemma C65_accepted_pf : forall (P : Profile) (C : Crypto) (F : Floats) (s : sadder) (o : list (bytes * data)) (sigs : list item), holds s o -> accept s sigs = Ok true ->
  exists keys t, serder_verfers s = Ok keys /\ serder_tholder s = Ok (Some t) /\
    (forall i, In i sigs -> exists x, i = I_sig x /\ vouches s keys x) /\
    (forall n, tholder_num t = Ok (Some n) -> NoDup (map index_of sigs) -> 0 < n /\ exists ps, NoDup ps /\ n <= len ps /\ forall p, In p ps -> vouched s keys sigs p) /\
    (forall cs, weights t cs -> len (concat cs) < 2 ^ 32 -> exists ps, NoDup ps /\ (forall p, In p ps -> vouched s keys sigs p) /\ satisfied cs ps).
Proof.
  intros P C F s o sigs Ho H. unfold accept in H. destruct (serder_verfers s) as [keys|?|] eqn:Ek; cbn [obind] in H; try discriminate H. destruct (each (check_one s keys) sigs) as [oks|?|] eqn:Eo; cbn [obind] in H; try discriminate H.
  destruct (serder_tholder s) as [[t|]|?|] eqn:Et; cbn [obind] in H; try discriminate H. destruct (satisfy t (map index_of sigs)) as [b|?|] eqn:Es; cbn [obind] in H; try discriminate H. apply Ok_inj in H. apply andb_true_iff in H as [Ho' ->].
  exists keys, t. split; [reflexivity|]. split; [reflexivity|].
  assert (V : forall i, In i sigs -> exists x, i = I_sig x /\ vouches s keys x).
  { intros i I. pose proof (each_all _ _ _ Eo Ho' i I) as X. destruct i as [m|c|x]; cbn [check_one] in X; try discriminate X. exists x. split; [reflexivity|]. destruct (nth_error keys (N.to_nat (x_index x))) as [k|] eqn:En; [|discriminate X].
    unfold verfer_verify, validate in X. destruct (mem_code (m_code k) verfer_codes) eqn:Em; cbn [obind] in X; [|discriminate X]. apply mem_code_In in Em. unfold sign_verify in X. exists k.
    assert (Z : exists u, In u suites /\ (m_code k = su_key u \/ m_code k = su_key_nt u)).
    { clear - Em. generalize dependent (m_code k). intros c Em. vm_compute in Em. repeat (destruct Em as [Em|Em]; [subst c; first [exists (nth 0 suites (Suite [] [] [] [] [] [] [] [] 0 S_Ed25519)); split; [vm_compute; tauto|]; first [left; reflexivity|right; reflexivity] | exists (nth 1 suites (Suite [] [] [] [] [] [] [] [] 0 S_Ed25519)); split; [vm_compute; tauto|]; first [left; reflexivity|right; reflexivity] | exists (nth 2 suites (Suite [] [] [] [] [] [] [] [] 0 S_Ed25519)); split; [vm_compute; tauto|]; first [left; reflexivity|right; reflexivity]]|]). contradiction. }
    destruct Z as (u & Iu & Cu). exists u. split; [exact En|]. split; [exact Iu|]. split; [exact Cu|].
    assert (So : suite_of (m_code k) = Some (su_alg u)) by (cbn in Iu; destruct Iu as [<-|[<-|[<-|[]]]]; destruct Cu as [-> | ->]; reflexivity). rewrite So in X.
    assert (Q : opt (x_verify (su_alg u) (m_raw k) (x_raw x) (sd_raw s)) = Ok true) by (destruct (su_alg u); [destruct ((len (m_raw k) =? 32) && (len (x_raw x) =? 64)); [exact X|discriminate X]|exact X|exact X]).
    destruct (x_verify (su_alg u) (m_raw k) (x_raw x) (sd_raw s)) as [b|]; [|discriminate Q]. apply Ok_inj in Q. subst b. reflexivity. }
  split; [exact V|].
  assert (Vp : forall p, In p (map index_of sigs) -> vouched s keys sigs p). { intros p I. apply in_map_iff in I as (i & <- & I). destruct (V i I) as (x & -> & Vx). exists x. auto. }
  assert (Mt : made_tholder P F t). { apply (proj1 (proj2 (C62_thresholds_pf P C F s o Ho))) in Et. destruct Et as (v & _ & Et). exists None, None, (Some v). exact Et. }
  split.
  - intros n Hn Nd. destruct (th_weighted t) eqn:Ew. { destruct (C39_weights_pf P F t Mt Ew) as (cs & _ & _ & _ & X). rewrite Hn in X. discriminate X. }
    destruct (C38_satisfied_pf P F t Mt Ew) as (n' & _ & _ & Hn' & _ & Sat). rewrite Hn in Hn'. apply Ok_inj in Hn'. injection Hn' as <-. rewrite Sat in Es. apply Ok_inj in Es. apply andb_true_iff in Es as [A B]. split; [apply N.ltb_lt; exact A|]. exists (map index_of sigs). split; [exact Nd|]. split; [apply N.leb_le; exact B|exact Vp].
  - intros cs W L. exists (nodup N.eq_dec (map index_of sigs)). split; [apply NoDup_nodup|]. split; [intros p I; apply nodup_In in I; auto|].
    apply (C39_safe_pf P F t cs _ Mt W L). rewrite <- Es. apply (C40_set_pf P F t); [exact Mt|apply W|]. intros i. apply nodup_In.
Qed.
(** Two keys; a threshold of two is met by both signatures. *)
Lemma C65_signed_event_ex_pf : forall P : Profile, let C := toy_scheme in let F := toy_floats in
  exists k7 k9 s o, matter_qb64 (sn_verfer (toy_signer 7)) = Ok k7 /\ matter_qb64 (sn_verfer (toy_signer 9)) = Ok k9 /\ scheme_contract C /\
    serder_new None (Some (toy_event (s2b "2") k7 k9)) None None None = Ok s /\ holds s o /\ In (s2b "k", VArr (map VStr [k7; k9])) o /\
    Forall2 (fun sg k => (exists u tr, is_signer sg u tr) /\ matter_qb64 (sn_verfer sg) = Ok k) [toy_signer 7; toy_signer 9] [k7; k9] /\
    match sign_indexed (toy_signer 7) 0 (sd_raw s) false 0 None, sign_indexed (toy_signer 9) 0 (sd_raw s) false 1 None with
    | Ok a, Ok b => accept s [I_sig (sg_indexer a); I_sig (sg_indexer b)] = Ok true /\ accept s [I_sig (sg_indexer a)] = Ok false /\
        match indexer_qb64 (sg_indexer a), indexer_qb64 (sg_indexer b) with
        | Ok ta, Ok tb => receive (sd_raw s ++ s2b "-AAC" ++ ta ++ tb ++ s2b "{") = Ok (s, [I_sig (sg_indexer a); I_sig (sg_indexer b)], s2b "{")
        | _, _ => False
        end
    | _, _ => False
    end.
Proof.
  intros P C F.
  set (k7 := match matter_qb64 (H := true) (sn_verfer (toy_signer 7)) with Ok t => t | _ => [] end). set (k9 := match matter_qb64 (H := true) (sn_verfer (toy_signer 9)) with Ok t => t | _ => [] end). vm_compute in k7, k9.
  set (s := match serder_new (H := true) (H0 := toy_scheme) (H1 := toy_floats) None (Some (toy_event (s2b "2") k7 k9)) None None None with Ok s => s | _ => Sdr [] [] VNull [] [] 0 (Ver 0 0) (Mat [] 0 []) end). vm_compute in s.
  set (o := match sd_ked s with VObj o => o | _ => [] end). vm_compute in o. exists k7, k9, s, o.
  split; [vm_compute; reflexivity|]. split; [vm_compute; reflexivity|]. split; [apply toy_scheme_contract|]. split; [vm_compute; reflexivity|]. split; [split; [reflexivity|]|].
  { unfold o. cbn [map fst]. repeat (constructor; [cbn [In]; intuition discriminate|]). constructor. }
  split; [unfold o, k7, k9; cbn [In map]; tauto|]. split; [|vm_compute; repeat split; reflexivity].
  assert (A : forall n, n = 7 \/ n = 9 -> exists u tr, @is_signer C (toy_signer n) u tr).
  { intros n Hn. exists (nth 0 suites (Suite [] [] [] [] [] [] [] [] 0 S_Ed25519)), true. split; [left; reflexivity|]. exists (rep n 32), (rep n 32). destruct Hn as [-> | ->]; repeat split; reflexivity. }
  constructor; [split; [apply A; auto|vm_compute; reflexivity]|]. constructor; [split; [apply A; auto|vm_compute; reflexivity]|]. constructor.
Qed.
(** C65: without distinct positions that is all there is: the same signature given twice meets a threshold of two keys *)
Lemma C65_replay_refuted_pf : forall P : Profile, let C := toy_scheme in let F := toy_floats in
  exists k7 k9 s t a, matter_qb64 (sn_verfer (toy_signer 7)) = Ok k7 /\ matter_qb64 (sn_verfer (toy_signer 9)) = Ok k9 /\
    serder_new None (Some (toy_event (s2b "2") k7 k9)) None None None = Ok s /\ serder_tholder s = Ok (Some t) /\ tholder_num t = Ok (Some 2) /\
    sign_indexed (toy_signer 7) 0 (sd_raw s) false 0 None = Ok a /\ accept s [I_sig (sg_indexer a); I_sig (sg_indexer a)] = Ok true.
Proof.
  intros P C F.
  set (k7 := match matter_qb64 (H := true) (sn_verfer (toy_signer 7)) with Ok t => t | _ => [] end). set (k9 := match matter_qb64 (H := true) (sn_verfer (toy_signer 9)) with Ok t => t | _ => [] end). vm_compute in k7, k9.
  set (s := match serder_new (H := true) (H0 := toy_scheme) (H1 := toy_floats) None (Some (toy_event (s2b "2") k7 k9)) None None None with Ok s => s | _ => Sdr [] [] VNull [] [] 0 (Ver 0 0) (Mat [] 0 []) end). vm_compute in s.
  set (t := match serder_tholder (H := true) (H1 := toy_floats) s with Ok (Some t) => t | _ => tholder_default end). vm_compute in t.
  set (a := match sign_indexed (P := true) (C := toy_scheme) (toy_signer 7) 0 (sd_raw s) false 0 None with Ok a => a | _ => Sg (Idx [] [] 0 0) (Mat [] 0 []) end). vm_compute in a.
  exists k7, k9, s, t, a. repeat split; vm_compute; reflexivity.
Qed.
