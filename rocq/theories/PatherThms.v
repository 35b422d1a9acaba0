(** Proofs of the properties of paths into messages (Pather). *)
From Verif Require Import Base MatterTables Matter StdStr Data Json Spec MatterDefs Crypto Prims PrimsDefs DataDefs TholderDefs Saider Sadder Pather PatherDefs.
From Verif Require Import Utf8 B64 Util BaseFacts B64Facts UtilFacts MatterFacts MatterFacts2 MatterFacts3 SpecFacts MatterFacts4 StdStrFacts MatterThms PrimsFacts PrimsFacts2 PrimsThms Tholder TholderFacts2 TholderFacts3 TholderFacts5 SaiderThms PatherFacts PatherFacts2.

Lemma proper_check c : negb (len c =? 0) && reb64_match c && negb (existsb (N.eqb 45) c) = true -> proper_component c.
Proof.
  intros H. apply andb_true_iff in H as [H H3]. apply andb_true_iff in H as [H1 H2]. split; [intros ->; discriminate H1|]. split; [apply reb64_iff; exact H2|]. intros I. apply negb_true_iff in H3. assert (existsb (N.eqb 45) c = true); [|congruence]. apply existsb_exists. exists 45. split; [exact I|reflexivity].
Qed.
Lemma path_value_inj x y : path_value x = path_value y -> x = y.
Proof. unfold path_value. intros E. injection E as E. revert y E. induction x as [|u x IH]; intros [|v y] E; cbn [map] in E; try discriminate; [reflexivity|injection E as -> E; f_equal; auto]. Qed.

(** C26: a Pather has a text code; from material it is what the general constructor returns; a bext wins over material, and material over a path *)
Lemma C26_pather_pf : forall (P : Profile) (path : option data) (bext code raw qb64b qb64 qb2 : option bytes),
  (forall m, pather_new path bext code raw qb64b qb64 qb2 = Ok m -> In (m_code m) text_codes) /\
  ((raw, qb64b, qb64, qb2) <> (None, None, None, None) ->
     checked m_code text_codes (matter_new (Some (unwrap_or code (s2b "4A"))) raw qb64b qb64 qb2) (pather_new path None code raw qb64b qb64 qb2)) /\
  (forall t, pather_new path (Some t) code raw qb64b qb64 qb2 = bexter_new (Some t) code None None None None) /\
  pather_new None None code None None None None = Err E_EmptyMaterial.
Proof.
  intros P path bext code raw qb64b qb64 qb2. assert (E : forall x, In x text_codes <-> In x bexter_codes) by (apply mem_iff; vm_compute; reflexivity). split; [|split; [|split]].
  - intros m H. unfold pather_new in H. inv_bind H s Es. inv_bind H u Eu. destruct u. apply validate_ok in Eu. injection H as <-. apply E. exact Eu.
  - intros N. unfold pather_new. replace (none None && none raw && none qb64b && none qb64 && none qb2) with false; [apply checked_validate; exact E|]. symmetry. destruct raw, qb64b, qb64, qb2; try reflexivity. destruct (N eq_refl).
  - intros t. reflexivity.
  - reflexivity.
Qed.
Lemma C26_pather_ex_pf : forall P : Profile, pather_new None None None None None (Some (s2b "4BACA-field0")) None = Err E_UnexpectedCode /\
  pather_new None None None None None (Some (s2b "6AABAAA-")) None = Ok (Mat (s2b "6A") 1 [62]) /\
  pather_new (Some (VArr [])) None None None None None None = Ok (Mat (s2b "6A") 1 [62]).
Proof. intros P. vm_compute. auto. Qed.

(** C34: a path of proper components is kept, and so is its text; the text and binary forms are read back *)
Lemma C34_round_trip_pf : forall (P : Profile) (cs : list bytes), Forall proper_component cs -> len (path_text cs) <= 64 ^ 4 * 4 - 4 ->
  exists m q b, pather_of_path (path_value cs) = Ok m /\ pather_of_bext (path_text cs) = Ok m /\ is_pather m /\
    pather_path m = Ok (path_value cs) /\ bext_of m = Ok (path_text cs) /\ matter_qb64 m = Ok q /\ matter_qb2 m = Ok b /\
    pather_of_text q = Ok m /\ pather_of_binary b = Ok m.
Proof.
  intros P cs F L. destruct (of_returned cs (proper_returned cs F) L) as (m & E1 & E2 & E3 & E4 & E5 & q & b & E6 & E7 & E8 & E9). exists m, q, b. repeat (split; [assumption|]). assumption.
Qed.
Lemma C34_round_trip_ex_pf : forall P : Profile, Forall proper_component [s2b "field0"; s2b "1"; s2b "z_"] /\
  exists m, pather_of_path (path_value [s2b "field0"; s2b "1"; s2b "z_"]) = Ok m /\ bext_of m = Ok (s2b "-field0-1-z_") /\ matter_qb64 m = Ok (s2b "4AAD-field0-1-z_").
Proof.
  intros P. split; [repeat (apply Forall_cons; [apply proper_check; vm_compute; reflexivity|]); apply Forall_nil|].
  eexists. split; [vm_compute; reflexivity|]. split; vm_compute; reflexivity.
Qed.
(** C34: exactly which path values are accepted: lists of texts and integers that are written with Base64-URL characters *)
Lemma C34_accepted_pf : forall (P : Profile) (v : data),
  (forall m, pather_of_path v = Ok m -> exists es cs, v = VArr es /\ Forall2 written es cs /\ Forall b64_text cs /\ (len (path_text cs) < 2 ^ 32 -> bext_of m = Ok (path_text cs))) /\
  (forall es cs, v = VArr es -> Forall2 written es cs -> Forall b64_text cs ->
     (len (path_text cs) <= 64 ^ 4 * 4 - 4 -> exists m, pather_of_path v = Ok m /\ pather_of_bext (path_text cs) = Ok m /\ is_pather m) /\
     (64 ^ 4 * 4 - 4 < len (path_text cs) < 2 ^ 32 -> pather_of_path v = Err E_InvalidVarRawSize)) /\
  ((forall es, v <> VArr es) -> pather_of_path v = Err E_Conversion) /\
  (forall es cs e r, v = VArr (es ++ e :: r) -> Forall2 written es cs -> Forall b64_text cs ->
     ((forall c, ~ written e c) -> pather_of_path v = Err E_Conversion) /\ (forall c, written e c -> ~ b64_text c -> pather_of_path v = Err E_Value)).
Proof.
  intros P v. split; [|split; [|split]].
  - intros m H. destruct v as [| | | | |es|]; try discriminate H. unfold pather_of_path, pather_new, bextify in H. cbn [none andb unwrap_or to_vec obind] in H. destruct (each component es) as [cs| |] eqn:E; try discriminate H. exists es, cs. split; [reflexivity|].
    pose proof E as E'. apply each_ok in E'. assert (B : Forall2 written es cs /\ Forall b64_text cs). { clear - E'. induction E' as [|e c es cs X F [I1 I2]]; [split; constructor|]. apply component_iff in X as [X1 X2]. split; constructor; auto. }
    destruct B as [B1 B2]. split; [exact B1|]. split; [exact B2|]. intros L. assert (H' : bexter_of (path_text cs) = Ok m) by (rewrite <- (of_path_eq es cs E); unfold pather_of_path, pather_new, bextify; cbn [none andb unwrap_or to_vec obind]; rewrite E; exact H).
    destruct (C33_rejects_pf P (path_text cs)) as [_ R]. pose proof (path_text_b64 cs B2) as Bt. destruct (N.le_gt_cases (len (path_text cs)) (64 ^ 4 * 4 - 4)) as [L2|L2]; [|rewrite R in H' by auto; discriminate].
    destruct (C33_round_trip_pf P _ Bt L2) as (m' & q & b & E1 & E2 & _). rewrite E1 in H'. apply Ok_inj in H'. subst m'. rewrite path_shown in E2. exact E2.
  - intros es cs -> W B. assert (E : each component es = Ok cs). { apply each_ok. clear - W B. induction W; constructor; inversion B; subst; auto. apply component_iff. auto. }
    rewrite (of_path_eq es cs E); change (pather_of_bext (path_text cs)) with (bexter_of (path_text cs)). pose proof (path_text_b64 cs B) as Bt. split.
    + intros L. destruct (C33_round_trip_pf P _ Bt L) as (m' & q & b & E1 & _). exists m'. split; [exact E1|]. split; [exact E1|]. eapply bexter_is_pather; eauto.
    + intros [L1 L2]. apply C33_rejects_pf; auto.
  - intros N. destruct v; try reflexivity. destruct (N a eq_refl).
  - intros es cs e r -> W B. assert (X : forall er, component e = Err er -> pather_of_path (VArr (es ++ e :: r)) = Err er).
    { intros er He. unfold pather_of_path, pather_new, bextify. cbn [none andb unwrap_or to_vec obind]. assert (Ea : each component (es ++ e :: r) = Err er); [|rewrite Ea; reflexivity]. clear - W B He. induction W as [|a c es cs Wa W IH]; cbn [app each]; [rewrite He; reflexivity|].
      inversion B; subst. replace (component a) with (@Ok bytes c) by (symmetry; apply component_iff; auto). cbn [obind]. rewrite IH by auto. reflexivity. }
    split.
    + intros N. apply X. destruct e as [| |z| |s| |]; try reflexivity; exfalso; [apply (N (show_int z)); apply show_int_written|apply (N s); left; reflexivity].
    + intros c Wc Nb. apply X. assert (Hr : reb64_match c = false) by (destruct (reb64_match c) eqn:E; [apply reb64_iff in E; contradiction|reflexivity]). destruct Wc as [->|(n & [[-> ->]|[-> [-> Hn]]])]; unfold component; cbn [to_string to_i64 obind].
      * rewrite Hr. reflexivity.
      * rewrite <- (written_int (Z.of_N n) (to_dec n)), Hr by (right; exists n; auto). reflexivity.
      * rewrite <- (written_int (- Z.of_N n) (s2b "-" ++ to_dec n)), Hr by (right; exists n; auto). reflexivity.
Qed.
Lemma C34_accepted_ex_pf : forall P : Profile, written (VInt 12) (s2b "12") /\ pather_of_path (VArr [VStr (s2b "a"); VInt 12]) = pather_of_path (path_value [s2b "a"; s2b "12"]) /\
  pather_of_path (VArr [VStr (s2b "a"); VStr (s2b "@")]) = Err E_Value /\ pather_of_path (VArr [VStr (s2b "a"); VNull]) = Err E_Conversion.
Proof. intros P. split; [right; exists 12; left; split; reflexivity|]. vm_compute. auto. Qed.
(** C34: the path of any Pather: its text, which must start with a dash, is taken apart at the dashes; it is empty if a dash follows the first one *)
Lemma C34_path_pf : forall (P : Profile) (m : matter), is_pather m -> exists t, bext_of m = Ok t /\
  ((forall r, t <> s2b "-" ++ r) -> pather_path m = Err E_Value) /\
  (forall cs, t = path_text cs -> cs <> [] -> Forall (fun c => ~ In 45 c) cs -> pather_path m = Ok (path_value (match cs with [] :: _ => [] | _ => cs end))).
Proof.
  intros P m Hm. destruct (pather_bext m Hm) as (t & E & B & _). exists t. split; [exact E|]. split.
  - intros N. apply (path_none m t E). exact N.
  - intros cs -> Hn F. rewrite path_text_join in E. change (s2b "-" ++ join (s2b "-") cs) with (45 :: join (s2b "-") cs) in E. rewrite (path_eq m _ E) by (intros c I; apply B; rewrite path_text_join; right; exact I). change (s2b "-") with [45]. rewrite split_join by auto. destruct cs as [|[|] ?]; [destruct (Hn eq_refl)| |]; reflexivity.
Qed.
Lemma bext_is_pather : forall (P : Profile) (t : bytes) (m : matter), b64_text t -> len t <= 64 ^ 4 * 4 - 4 -> pather_of_bext t = Ok m -> is_pather m.
Proof. intros P t m B L E. eapply bexter_is_pather; [exact B|exact L|exact E]. Qed.
Lemma C34_path_ex_pf : forall P : Profile, exists m, pather_of_bext (s2b "-a--b") = Ok m /\ is_pather m /\ s2b "-a--b" = path_text [s2b "a"; []; s2b "b"] /\ pather_path m = Ok (path_value [s2b "a"; []; s2b "b"]).
Proof.
  intros P. destruct (pather_of_bext (s2b "-a--b")) as [m| |] eqn:E; [|vm_compute in E; discriminate E|vm_compute in E; discriminate E]. exists m. split; [reflexivity|]. split; [eapply bext_is_pather; [| |exact E]; [apply b64_text_all; vm_compute; reflexivity|vm_compute; discriminate]|]. split; [reflexivity|]. vm_compute in E. apply Ok_inj in E. subst m. vm_compute. reflexivity.
Qed.
(** C34: without the restriction to proper components it is false: empty components and components with dashes are accepted and change the path *)
Lemma C34_round_trip_refuted_pf : forall P : Profile,
  (exists m, pather_of_path (path_value [s2b "a-b"]) = Ok m /\ pather_path m = Ok (path_value [s2b "a"; s2b "b"])) /\
  (exists m, pather_of_path (path_value [[]; s2b "a"]) = Ok m /\ pather_path m = Ok (path_value [])) /\
  (exists m, pather_of_path (VArr [VInt (-1)]) = Ok m /\ pather_path m = Ok (path_value [])).
Proof. intros P. split; [|split]; eexists; (split; [vm_compute; reflexivity|vm_compute; reflexivity]). Qed.

(** C35: rooting puts the components of the root in front *)
Lemma C35_root_pf : forall (P : Profile) (a b : matter) (va vb : data), is_pather a -> is_pather b -> pather_path a = Ok va -> pather_path b = Ok vb ->
  exists ca cb, va = path_value ca /\ vb = path_value cb /\ pather_root a b = pather_of_path (path_value (cb ++ ca)) /\
    (len (path_text (cb ++ ca)) <= 64 ^ 4 * 4 - 4 -> exists m, pather_root a b = Ok m /\ is_pather m /\ pather_path m = Ok (path_value (cb ++ ca)) /\ bext_of m = Ok (path_text (cb ++ ca))).
Proof.
  intros P a b va vb Ha Hb Ea Eb. destruct (path_returned a va Ha Ea) as (ca & -> & [Fa Ra] & _). destruct (path_returned b vb Hb Eb) as (cb & -> & [Fb Rb] & _). exists ca, cb. split; [reflexivity|]. split; [reflexivity|].
  assert (R : pather_root a b = pather_of_path (path_value (cb ++ ca))) by (unfold pather_root; rewrite Eb, Ea; cbn [obind path_value to_vec]; unfold path_value; rewrite map_app; reflexivity). split; [exact R|].
  intros L. rewrite R. destruct (of_returned (cb ++ ca)) as (m & E1 & _ & E3 & E4 & E5 & _); [|exact L|exists m; auto]. split; [apply Forall_app; auto|]. intros c r E. destruct cb as [|c' cb]; [apply (Ra c r E)|]. injection E as -> _. apply (Rb c cb eq_refl).
Qed.
Lemma root_ex : forall P : Profile, exists a b, pather_of_bext (s2b "-a-b") = Ok a /\ is_pather a /\ pather_of_bext (s2b "-r") = Ok b /\ is_pather b.
Proof.
  intros P. destruct (pather_of_bext (s2b "-a-b")) as [a| |] eqn:Ea; [|vm_compute in Ea; discriminate Ea|vm_compute in Ea; discriminate Ea]. destruct (pather_of_bext (s2b "-r")) as [b| |] eqn:Eb; [|vm_compute in Eb; discriminate Eb|vm_compute in Eb; discriminate Eb]. exists a, b. split; [reflexivity|].
  split; [eapply bext_is_pather; [| |exact Ea]; [apply b64_text_all; vm_compute; reflexivity|vm_compute; discriminate]|]. split; [reflexivity|]. eapply bext_is_pather; [| |exact Eb]; [apply b64_text_all; vm_compute; reflexivity|vm_compute; discriminate].
Qed.
Lemma C35_root_ex_pf : forall P : Profile, exists a b m, is_pather a /\ is_pather b /\ pather_path a = Ok (path_value [s2b "a"; s2b "b"]) /\ pather_path b = Ok (path_value [s2b "r"]) /\
  pather_root a b = Ok m /\ bext_of m = Ok (s2b "-r-a-b") /\ exists n, pather_strip m b = Ok n /\ pather_path n = Ok (path_value [s2b "a"; s2b "b"]).
Proof.
  intros P. destruct (root_ex P) as (a & b & Ea & Ia & Eb & Ib). vm_compute in Ea, Eb. apply Ok_inj in Ea, Eb. subst a b. eexists. eexists. eexists. split; [exact Ia|]. split; [exact Ib|]. split; [vm_compute; reflexivity|]. split; [vm_compute; reflexivity|]. split; [vm_compute; reflexivity|]. split; [vm_compute; reflexivity|].
  eexists. split; vm_compute; reflexivity.
Qed.
(** C35: stripping a leading part removes it, if its components are different from each other and do not occur in the rest *)
Lemma C35_strip_pf : forall (P : Profile) (a b : matter) (r q : list bytes), is_pather a -> pather_path a = Ok (path_value (r ++ q)) -> pather_path b = Ok (path_value r) ->
  NoDup r -> (forall c, In c r -> ~ In c q) -> pather_strip a b = pather_of_path (path_value q) /\
  ((forall c q', q = c :: q' -> c <> []) -> exists m, pather_strip a b = Ok m /\ is_pather m /\ pather_path m = Ok (path_value q)).
Proof.
  intros P a b r q Ha Ea Eb N D. assert (S : pather_strip a b = pather_of_path (path_value q)).
  { unfold pather_strip. rewrite Ea, Eb. cbn [obind path_value to_vec]. rewrite each_string. cbn [obind]. rewrite !len_path. replace (len (r ++ q) <? len r) with false by (symmetry; apply N.ltb_ge; rewrite len_app; Lia.lia).
    rewrite <- map_rev. pose proof (strip_prefix [] q r) as X. cbn [app] in X. rewrite app_nil_r in X. rewrite X by auto. reflexivity. }
  split; [exact S|]. intros H. rewrite S. destruct (path_returned a _ Ha Ea) as (cs & E & [F _] & rr & Eb' & Ecs). apply path_value_inj in E. subst cs.
  assert (Rq : returned q) by (split; [apply Forall_app in F as [_ F]; exact F|exact H]). destruct (pather_bext a Ha) as (t & Et & Bt & Lt). rewrite Eb' in Et. apply Ok_inj in Et. subst t.
  assert (Lq : len (path_text q) <= 64 ^ 4 * 4 - 4).
  { destruct (r ++ q) as [|x l] eqn:Erq.
    - apply app_eq_nil in Erq as [_ ->]. vm_compute. discriminate.
    - assert (Sp : split_on 45 rr = r ++ q) by (rewrite Erq; destruct (split_on 45 rr) as [|[|]]; try discriminate Ecs; congruence). assert (J : 45 :: rr = path_text (r ++ q)) by (rewrite path_text_join, <- Sp; change (s2b "-") with [45]; rewrite join_split; reflexivity).
      eapply N.le_trans; [|exact Lt]. rewrite J. clear. destruct q as [|c q]; [rewrite app_nil_r; destruct r; [apply N.le_refl|cbn [path_text flat_map]; rewrite !len_app; change (len (s2b "-")) with 1; Lia.lia]|]. destruct r as [|d r]; [apply N.le_refl|]. cbn [path_text app]. change (d :: r ++ c :: q) with ((d :: r) ++ c :: q). rewrite flat_map_app, len_app. rewrite N.add_comm. apply N.le_add_r. }
  destruct (of_returned q Rq Lq) as (m & E1 & _ & E3 & _ & E5 & _). exists m. auto.
Qed.
(** C35: stripping undoes rooting under the same condition *)
Lemma C35_root_strip_pf : forall (P : Profile) (a b : matter) (ca cb : list bytes), is_pather a -> is_pather b -> pather_path a = Ok (path_value ca) -> pather_path b = Ok (path_value cb) ->
  NoDup cb -> (forall c, In c cb -> ~ In c ca) -> len (path_text (cb ++ ca)) <= 64 ^ 4 * 4 - 4 ->
  exists m n, pather_root a b = Ok m /\ pather_strip m b = Ok n /\ pather_path n = Ok (path_value ca).
Proof.
  intros P a b ca cb Ha Hb Ea Eb N D L. destruct (C35_root_pf P a b _ _ Ha Hb Ea Eb) as (ca' & cb' & E1 & E2 & _ & R). apply path_value_inj in E1, E2. subst ca' cb'. destruct (R L) as (m & Em & Im & Pm & _).
  destruct (C35_strip_pf P m b cb ca Im Pm Eb N D) as [_ S]. destruct S as (n & En & _ & Pn); [|exists m, n; auto].
  intros c q' ->. destruct (path_returned a _ Ha Ea) as (cs & E & [_ H] & _). apply path_value_inj in E. apply (H c q'). auto.
Qed.
(** C35: a root with more components leaves the path alone; otherwise a component of the root that does not occur in the path panics *)
Lemma C35_strip_other_pf : forall (P : Profile) (a b : matter) (ca cb : list bytes), pather_path a = Ok (path_value ca) -> pather_path b = Ok (path_value cb) ->
  (len ca < len cb -> pather_strip a b = Ok a) /\
  (len cb <= len ca -> (exists c, In c cb /\ ~ In c ca) -> pather_strip a b = Panic).
Proof.
  intros P a b ca cb Ea Eb. unfold pather_strip. rewrite Ea, Eb. cbn [obind path_value to_vec]. rewrite each_string. cbn [obind]. rewrite !len_path. split.
  - intros L. replace (len ca <? len cb) with true by (symmetry; apply N.ltb_lt; exact L). reflexivity.
  - intros L (c & I & N). replace (len ca <? len cb) with false by (symmetry; apply N.ltb_ge; exact L). rewrite <- map_rev. rewrite (strip_missing ca c N) by (apply -> in_rev; exact I). reflexivity.
Qed.
Lemma C35_strip_other_ex_pf : forall P : Profile, exists a b, pather_of_bext (s2b "-ab") = Ok a /\ pather_of_bext (s2b "-a") = Ok b /\
  pather_path a = Ok (path_value [s2b "ab"]) /\ pather_path b = Ok (path_value [s2b "a"]) /\ pather_starts_with a b = Ok true /\ pather_strip a b = Panic.
Proof. intros P. eexists. eexists. split; [vm_compute; reflexivity|]. split; [vm_compute; reflexivity|]. split; [vm_compute; reflexivity|]. split; [vm_compute; reflexivity|]. split; vm_compute; reflexivity. Qed.
(** C35: otherwise the wrong components can go: another occurrence of a component of the root, or one that is not in front; or it panics *)
Lemma C35_strip_refuted_pf : forall P : Profile,
  (exists a b m, pather_of_bext (s2b "-a-b-a") = Ok a /\ pather_of_bext (s2b "-a") = Ok b /\ pather_strip a b = Ok m /\ pather_path m = Ok (path_value [s2b "a"; s2b "b"])) /\
  (exists a b m, pather_of_bext (s2b "-a-b-c") = Ok a /\ pather_of_bext (s2b "-b") = Ok b /\ pather_strip a b = Ok m /\ pather_path m = Ok (path_value [s2b "a"; s2b "c"])) /\
  (exists a b, pather_of_bext (s2b "-a-a") = Ok a /\ pather_of_bext (s2b "-a-a") = Ok b /\ pather_strip a b = Panic).
Proof.
  intros P. split; [|split].
  - eexists. eexists. eexists. split; [vm_compute; reflexivity|]. split; [vm_compute; reflexivity|]. split; [vm_compute; reflexivity|]. vm_compute. reflexivity.
  - eexists. eexists. eexists. split; [vm_compute; reflexivity|]. split; [vm_compute; reflexivity|]. split; [vm_compute; reflexivity|]. vm_compute. reflexivity.
  - eexists. eexists. split; [vm_compute; reflexivity|]. split; [vm_compute; reflexivity|]. vm_compute. reflexivity.
Qed.

(** C36: the prefix test compares the texts; it never fails *)
Lemma C36_text_pf : forall (P : Profile) (a b : matter), is_pather a -> is_pather b ->
  exists ta tb x, bext_of a = Ok ta /\ bext_of b = Ok tb /\ pather_starts_with a b = Ok x /\ (x = true <-> is_prefix tb ta).
Proof.
  intros P a b Ha Hb. destruct (pather_bext a Ha) as (ta & Ea & _). destruct (pather_bext b Hb) as (tb & Eb & _). exists ta, tb, (starts_with tb ta). split; [exact Ea|]. split; [exact Eb|]. split; [unfold pather_starts_with; rewrite Ea, Eb; reflexivity|]. apply starts_with_iff.
Qed.
(** C36: in terms of components: all components of the prefix but the last are the same, and the last is the start of the component at its place *)
Lemma C36_components_pf : forall (P : Profile) (a b : matter) (ca cb : list bytes), Forall proper_component ca -> Forall proper_component cb ->
  pather_of_path (path_value ca) = Ok a -> pather_of_path (path_value cb) = Ok b -> len (path_text ca) <= 64 ^ 4 * 4 - 4 -> len (path_text cb) <= 64 ^ 4 * 4 - 4 ->
  exists x, pather_starts_with a b = Ok x /\ (x = true <-> cb = [] \/ exists init l y rest, cb = init ++ [l] /\ ca = init ++ (l ++ y) :: rest).
Proof.
  intros P a b ca cb Fa Fb Ea Eb La Lb. destruct (of_returned ca (proper_returned ca Fa) La) as (a' & Ea' & _ & Ia & Ta & _). destruct (of_returned cb (proper_returned cb Fb) Lb) as (b' & Eb' & _ & Ib & Tb & _).
  rewrite Ea in Ea'. rewrite Eb in Eb'. apply Ok_inj in Ea', Eb'. subst a' b'. destruct (C36_text_pf P a b Ia Ib) as (ta & tb & x & E1 & E2 & E3 & X). exists x. split; [exact E3|]. rewrite Ta in E1. rewrite Tb in E2. apply Ok_inj in E1, E2. subst ta tb. rewrite X.
  assert (Ra : Forall raw_component ca) by (eapply Forall_impl; [|exact Fa]; intros u (_ & U & V); split; auto). destruct cb as [|c cb].
  - split; [auto|]. intros _. rewrite (path_text_join ca). exists (join (s2b "-") ca). reflexivity.
  - rewrite (text_prefix_iff ca (c :: cb) Ra Fb ltac:(discriminate)). split; [auto|]. intros [H|H]; [discriminate H|exact H].
Qed.
Lemma C36_components_ex_pf : forall P : Profile, Forall proper_component [s2b "ab"; s2b "c"] /\ Forall proper_component [s2b "a"] /\
  exists a b, pather_of_path (path_value [s2b "ab"; s2b "c"]) = Ok a /\ pather_of_path (path_value [s2b "a"]) = Ok b /\ pather_starts_with a b = Ok true /\ pather_starts_with b a = Ok false.
Proof.
  intros P. split; [repeat (apply Forall_cons; [apply proper_check; vm_compute; reflexivity|]); apply Forall_nil|]. split; [repeat (apply Forall_cons; [apply proper_check; vm_compute; reflexivity|]); apply Forall_nil|].
  eexists. eexists. split; [vm_compute; reflexivity|]. split; [vm_compute; reflexivity|]. split; vm_compute; reflexivity.
Qed.
(** C36: a path whose components start with those of the other passes the test *)
Lemma C36_prefix_pf : forall (P : Profile) (a b : matter) (cb rest : list bytes), Forall proper_component (cb ++ rest) ->
  pather_of_path (path_value (cb ++ rest)) = Ok a -> pather_of_path (path_value cb) = Ok b -> len (path_text (cb ++ rest)) <= 64 ^ 4 * 4 - 4 -> len (path_text cb) <= 64 ^ 4 * 4 - 4 -> pather_starts_with a b = Ok true.
Proof.
  intros P a b cb rest F Ea Eb La Lb. destruct (C36_components_pf P a b _ cb F) as (x & E & X); auto; [apply Forall_app in F; apply F|]. rewrite E. f_equal. apply X. destruct cb as [|c cb] using rev_ind; [left; reflexivity|]. right. exists cb, c, [], rest. split; [reflexivity|]. rewrite app_nil_r, <- app_assoc. reflexivity.
Qed.
(** C36: the converse is false *)
Lemma C36_prefix_refuted_pf : forall P : Profile, exists a b, pather_of_path (path_value [s2b "ab"]) = Ok a /\ pather_of_path (path_value [s2b "a"]) = Ok b /\ pather_starts_with a b = Ok true.
Proof. intros P. eexists. eexists. split; [vm_compute; reflexivity|]. split; vm_compute; reflexivity. Qed.

(** C37: resolving finds exactly the value the components lead to: a numeral counts entries, other components are keys; otherwise an error, never a panic *)
Lemma C37_resolve_pf : forall (P : Profile) (a : matter) (v : data), is_pather a ->
  (forall cs x, pather_path a = Ok (path_value cs) -> pather_resolve a v = Ok x <-> leads v cs x) /\
  (forall e, pather_path a = Err e -> pather_resolve a v = Err e) /\ pather_resolve a v <> Panic.
Proof.
  intros P a v Ha. split; [|split].
  - intros cs x Ea. destruct (path_returned a _ Ha Ea) as (cs' & E & [F _] & _). apply path_value_inj in E. subst cs'. unfold pather_resolve. rewrite Ea. cbn [obind path_value to_vec]. apply resolve_spec. eapply Forall_impl; [|exact F]. intros c [B _]. exact B.
  - intros e E. unfold pather_resolve. rewrite E. reflexivity.
  - destruct (pather_path a) as [va| |] eqn:Ea.
    + destruct (path_returned a _ Ha Ea) as (cs & -> & [F _] & _). unfold pather_resolve. rewrite Ea. cbn [obind path_value to_vec]. apply resolve_spec. eapply Forall_impl; [|exact F]. intros c [B _]. exact B.
    + unfold pather_resolve. rewrite Ea. discriminate.
    + exfalso. destruct (pather_bext a Ha) as (t & Et & B & _). destruct t as [|c r]; [rewrite (path_none a [] Et) in Ea by discriminate; discriminate|]. destruct (N.eqb_spec c 45) as [->|N].
      * rewrite (path_eq a r Et) in Ea by (intros c I; apply B; right; exact I). discriminate.
      * rewrite (path_none a _ Et) in Ea by (intros r' Q; injection Q; intros; congruence). discriminate.
Qed.
Lemma C37_resolve_ex_pf : forall P : Profile, exists a, pather_of_bext (s2b "-0-z-1") = Ok a /\ is_pather a /\ pather_path a = Ok (path_value [s2b "0"; s2b "z"; s2b "1"]) /\
  pather_resolve a (VObj [(s2b "field", VObj [(s2b "y", VNull); (s2b "z", VArr [VInt 7; VInt 8])])]) = Ok (VInt 8) /\
  leads (VObj [(s2b "field", VObj [(s2b "y", VNull); (s2b "z", VArr [VInt 7; VInt 8])])]) [s2b "0"; s2b "z"; s2b "1"] (VInt 8).
Proof.
  intros P. destruct (pather_of_bext (s2b "-0-z-1")) as [m| |] eqn:E; [|vm_compute in E; discriminate E|vm_compute in E; discriminate E]. exists m. split; [reflexivity|].
  assert (I : is_pather m) by (eapply bext_is_pather; [| |exact E]; [apply b64_text_all; vm_compute; reflexivity|vm_compute; discriminate]). split; [exact I|].
  assert (X : pather_path m = Ok (path_value [s2b "0"; s2b "z"; s2b "1"])) by (vm_compute in E; apply Ok_inj in E; subst m; vm_compute; reflexivity). split; [exact X|].
  assert (Y : pather_resolve m (VObj [(s2b "field", VObj [(s2b "y", VNull); (s2b "z", VArr [VInt 7; VInt 8])])]) = Ok (VInt 8)) by (vm_compute in E; apply Ok_inj in E; subst m; vm_compute; reflexivity). split; [exact Y|].
  apply (C37_resolve_pf P m _ I); auto.
Qed.
(** C37: resolving a rooted path is resolving the root, then the path inside the result, if no component of the root is empty *)
Lemma C37_compose_pf : forall (P : Profile) (a b c : matter) (ca cb : list bytes) (v : data), is_pather a -> is_pather b -> pather_path a = Ok (path_value ca) -> pather_path b = Ok (path_value cb) ->
  Forall (fun k => k <> []) cb -> len (path_text (cb ++ ca)) <= 64 ^ 4 * 4 - 4 -> pather_root a b = Ok c ->
  pather_resolve c v = (x <- pather_resolve b v ;; pather_resolve a x).
Proof.
  intros P a b c ca cb v Ha Hb Ea Eb F L R. destruct (C35_root_pf P a b _ _ Ha Hb Ea Eb) as (ca' & cb' & E1 & E2 & _ & X). apply path_value_inj in E1, E2. subst ca' cb'. destruct (X L) as (m & Em & _ & Pm & _). rewrite R in Em. apply Ok_inj in Em. subst m.
  unfold pather_resolve. rewrite Pm, Ea, Eb. cbn [obind path_value to_vec]. apply resolve_app. exact F.
Qed.
Lemma C37_compose_ex_pf : forall P : Profile, exists a b c, is_pather a /\ is_pather b /\ pather_path a = Ok (path_value [s2b "a"; s2b "b"]) /\ pather_path b = Ok (path_value [s2b "r"]) /\ pather_root a b = Ok c /\
  pather_resolve c (VObj [(s2b "r", VObj [(s2b "a", VObj [(s2b "b", VInt 3)])])]) = Ok (VInt 3).
Proof.
  intros P. destruct (root_ex P) as (a & b & Ea & Ia & Eb & Ib). vm_compute in Ea, Eb. apply Ok_inj in Ea, Eb. subst a b. eexists. eexists. eexists. split; [exact Ia|]. split; [exact Ib|]. split; [vm_compute; reflexivity|]. split; [vm_compute; reflexivity|]. split; [vm_compute; reflexivity|]. vm_compute. reflexivity.
Qed.
(** C37: with an empty component it is false: everything after it is ignored in a map *)
Lemma C37_compose_refuted_pf : forall P : Profile, exists a b c x, pather_of_bext (s2b "-b") = Ok a /\ pather_of_bext (s2b "-a-") = Ok b /\ pather_root a b = Ok c /\
  pather_resolve b (VObj [(s2b "a", VObj [(s2b "b", VInt 1)])]) = Ok x /\ pather_resolve a x = Ok (VInt 1) /\ pather_resolve c (VObj [(s2b "a", VObj [(s2b "b", VInt 1)])]) = Ok x.
Proof.
  intros P. eexists. eexists. eexists. eexists. split; [vm_compute; reflexivity|]. split; [vm_compute; reflexivity|]. split; [vm_compute; reflexivity|]. split; [vm_compute; reflexivity|]. split; vm_compute; reflexivity.
Qed.
(** C37: a key that is a numeral cannot be reached by its name *)
Lemma C37_numeric_key_refuted_pf : forall P : Profile, exists a, pather_of_bext (s2b "-1") = Ok a /\ pather_resolve a (VObj [(s2b "1", VInt 5)]) = Err E_Value /\ pather_resolve a (VObj [(s2b "1", VInt 5); (s2b "x", VInt 6)]) = Ok (VInt 6).
Proof. intros P. eexists. split; [vm_compute; reflexivity|]. split; vm_compute; reflexivity. Qed.
(** C37: the tail of a message: an identifier text, or the JSON of a map or list *)
Lemma C37_tail_pf : forall (P : Profile) (C : Crypto) (a : matter) (s : sadder) (t : bytes), is_pather a -> pather_tail a s = Ok t <->
  exists cs v, pather_path a = Ok (path_value cs) /\ leads (sd_ked s) cs v /\
    ((v = VStr t /\ exists m, parse_text t = Ok m /\ In (m_code m) (map fst digest_sizes)) \/ ((exists l, v = VArr l) \/ (exists o, v = VObj o)) /\ t = to_json v).
Proof.
  intros P C a s t Ha. destruct (C37_resolve_pf P a (sd_ked s) Ha) as (R1 & R2 & R3). unfold pather_tail. split.
  - destruct (pather_resolve a (sd_ked s)) as [v| |] eqn:E; [|intros H; discriminate H|intros H; discriminate H]. cbn [obind]. destruct (pather_path a) as [va|e|] eqn:Ea; [|discriminate (R2 e eq_refl)|unfold pather_resolve in E; rewrite Ea in E; discriminate E].
    destruct (path_returned a _ Ha Ea) as (cs & -> & _). intros H. exists cs, v. split; [reflexivity|]. split; [apply (R1 cs v eq_refl); reflexivity|]. destruct v as [| | | |x|l|o]; try discriminate H.
    + left. destruct (saider_new _ _ _ _ _ _ _ _ _) as [m| |] eqn:Es; try discriminate H. cbn [obind] in H. apply Ok_inj in H. subst x. split; [reflexivity|]. exists m. destruct (C26_saider_pf P C None None (Some t) None) as (X & _). apply X in Es. exact Es.
    + right. apply Ok_inj in H. subst t. split; [left; eauto|reflexivity].
    + right. apply Ok_inj in H. subst t. split; [right; eauto|reflexivity].
  - intros (cs & v & Ea & Lv & H). apply (R1 cs v Ea) in Lv. rewrite Lv. cbn [obind]. destruct H as [[-> (m & Em & Im)]|[[[l ->]|[o ->]] ->]]; [|reflexivity|reflexivity].
    destruct (C26_saider_pf P C None None (Some t) None) as (X & _). assert (Es : saider_new None None None None None None None (Some t) None = Ok m) by (apply X; split; [exact Em|exact Im]). rewrite Es. reflexivity.
Qed.
Lemma C37_tail_ex_pf : forall (P : Profile) (C : Crypto) (s : sadder), sd_ked s = VObj [(s2b "d", VStr (s2b "EBdXt3gIXOf2BBWNHdSXCJnFJL5OuQPyM5K0neuniccM")); (s2b "a", VArr [VInt 1; VInt 2])] ->
  exists a b, pather_of_bext (s2b "-d") = Ok a /\ is_pather a /\ pather_tail a s = Ok (s2b "EBdXt3gIXOf2BBWNHdSXCJnFJL5OuQPyM5K0neuniccM") /\ pather_of_bext (s2b "-a") = Ok b /\ pather_tail b s = Ok (s2b "[1,2]").
Proof.
  intros P C s Hs. destruct (pather_of_bext (s2b "-d")) as [m| |] eqn:E; [|vm_compute in E; discriminate E|vm_compute in E; discriminate E]. destruct (pather_of_bext (s2b "-a")) as [n| |] eqn:E2; [|vm_compute in E2; discriminate E2|vm_compute in E2; discriminate E2].
  exists m, n. split; [reflexivity|]. split; [eapply bext_is_pather; [| |exact E]; [apply b64_text_all; vm_compute; reflexivity|vm_compute; discriminate]|].
  vm_compute in E, E2. apply Ok_inj in E, E2. subst m n. unfold pather_tail. rewrite Hs. split; [vm_compute; reflexivity|]. split; vm_compute; reflexivity.
Qed.
