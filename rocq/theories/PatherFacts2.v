(** Lemmas about stripping, prefixes and resolution of paths. *)
From Verif Require Import Base Utf8 B64 Util MatterTables Matter StdStr Data Json Spec MatterDefs Prims PrimsDefs Tholder TholderDefs Pather PatherDefs.
From Verif Require Import BaseFacts B64Facts UtilFacts StdStrFacts SpecFacts TholderFacts2 TholderFacts3 PatherFacts.

(** ** strip *)
Lemma position_none k path : ~ In k path -> forall pos, position_map k pos path = None.
Proof.
  induction path as [|p r IH]; intros N pos; [reflexivity|]. cbn [position_map]. rewrite IH by (intros I; apply N; right; exact I). destruct (bytes_eqb k p) eqn:E; [|reflexivity]. apply bytes_eqb_eq in E. destruct N. left. auto.
Qed.
Lemma position_last k a b : ~ In k b -> forall pos, position_map k pos (a ++ k :: b) = Some (pos + len a).
Proof.
  intros N. induction a as [|p r IH]; intros pos; cbn [app position_map].
  - rewrite position_none by exact N. rewrite bytes_eqb_refl. f_equal. unfold len. cbn [length]. Lia.lia.
  - rewrite IH, len_cons. f_equal. Lia.lia.
Qed.
Lemma remove_middle {A} (a : list A) x b : vec_remove (a ++ x :: b) (len a) = Ok (a ++ b).
Proof.
  unfold vec_remove. replace (len a <? len (a ++ x :: b)) with true by (symmetry; apply N.ltb_lt; rewrite len_app, len_cons; Lia.lia). rewrite take_app_exact by reflexivity. f_equal. f_equal.
  change (x :: b) with ([x] ++ b). rewrite app_assoc. replace (len a + 1) with (len (a ++ [x])) by (rewrite len_app; reflexivity). apply drop_app_exact. reflexivity.
Qed.
Lemma strip_prefix r2 q : forall r1, NoDup (r1 ++ r2) -> (forall c, In c r1 -> ~ In c q) ->
  strip_loop (r1 ++ r2 ++ q) (map VStr (r1 ++ q)) (map VStr (rev r1)) = Ok (map VStr q).
Proof.
  intros r1. revert r2. induction r1 as [|x r1 IH] using rev_ind; intros r2 N D; [reflexivity|]. rewrite rev_app_distr. cbn [rev app map strip_loop to_string obind].
  rewrite <- app_assoc in N. cbn [app] in N. assert (Nx : ~ In x (r2 ++ q)).
  { intros I. apply in_app_iff in I as [I|I]; [|apply (D x); [apply in_app_iff; right; left; reflexivity|exact I]]. apply NoDup_remove_2 in N. apply N. apply in_app_iff. auto. }
  rewrite <- !app_assoc. cbn [app]. rewrite (position_last x r1 (r2 ++ q) Nx). rewrite N.add_0_l. rewrite map_app. cbn [map]. rewrite <- (len_map VStr r1) at 1. rewrite remove_middle. cbn [obind]. rewrite <- map_app.
  specialize (IH (x :: r2)). cbn [app] in IH. apply IH; [exact N|]. intros c I. apply D. apply in_app_iff. auto.
Qed.
Lemma strip_missing original c : ~ In c original -> forall root path, In c root -> strip_loop original path (map VStr root) = Panic.
Proof.
  intros N. induction root as [|t root IH]; intros path I; [destruct I|]. cbn [map strip_loop to_string obind]. destruct I as [->|I]; [rewrite (position_none _ _ N); reflexivity|].
  destruct (position_map t 0 original); [|reflexivity]. destruct (vec_remove path n) as [l| |] eqn:E; [cbn [obind]; apply IH; exact I| |reflexivity]. unfold vec_remove in E. destruct (_ <? _); discriminate.
Qed.
Lemma each_string cs : each to_string (map VStr cs) = Ok cs.
Proof. apply each_ok. induction cs; cbn [map]; constructor; auto. Qed.
Lemma len_path cs : len (map VStr cs) = len cs.
Proof. apply len_map. Qed.

(** ** prefixes *)
Definition dashed (y : bytes) : Prop := y = [] \/ exists r, y = 45 :: r.
Lemma flat_dashed cs : dashed (flat_map (fun c => s2b "-" ++ c) cs).
Proof. destruct cs; [left; reflexivity|right; eexists; reflexivity]. Qed.
Lemma prefix_last c s y : dashed y -> ~ In 45 c -> forall d, ~ In 45 d -> d ++ y = c ++ s -> exists x, d = c ++ x.
Proof.
  intros Y. induction c as [|a c IH]; intros Nc d Nd H; [exists d; reflexivity|]. destruct d as [|b d].
  - cbn [app] in H. destruct Y as [->|[r ->]]; [discriminate|]. injection H as <- _. destruct Nc. left. reflexivity.
  - cbn [app] in H. injection H as <- H. destruct (IH (fun I => Nc (or_intror I)) d (fun I => Nd (or_intror I)) H) as [x ->]. exists x. reflexivity.
Qed.
Lemma prefix_inner c s y : dashed y -> ~ In 45 c -> forall d, ~ In 45 d -> d ++ y = c ++ 45 :: s -> d = c /\ y = 45 :: s.
Proof.
  intros Y. induction c as [|a c IH]; intros Nc d Nd H.
  - destruct d as [|b d]; [auto|]. injection H as -> _. destruct Nd. left. reflexivity.
  - destruct d as [|b d].
    + cbn [app] in H. destruct Y as [->|[r ->]]; [discriminate|]. injection H as <- _. destruct Nc. left. reflexivity.
    + cbn [app] in H. injection H as <- H. destruct (IH (fun I => Nc (or_intror I)) d (fun I => Nd (or_intror I)) H) as [-> ->]. auto.
Qed.
Lemma text_prefix_iff a b : Forall raw_component a -> Forall proper_component b -> b <> [] ->
  is_prefix (path_text b) (path_text a) <-> exists init l x rest, b = init ++ [l] /\ a = init ++ (l ++ x) :: rest.
Proof.
  intros Fa Fb Nb. assert (Ea : a = [] \/ path_text a = flat_map (fun c => s2b "-" ++ c) a) by (destruct a; auto). assert (Eb : path_text b = flat_map (fun c => s2b "-" ++ c) b) by (destruct b; [destruct (Nb eq_refl)|reflexivity]).
  destruct Ea as [->|Ea].
  - split.
    + intros [r H]. destruct b as [|c b]; [destruct (Nb eq_refl)|]. inversion Fb as [|? ? [Nc _] _]; subst. rewrite Eb in H. destruct c; [destruct (Nc eq_refl)|discriminate H].
    + intros (init & l & x & rest & _ & H). destruct init; discriminate.
  - rewrite Ea, Eb. clear Ea Eb. split.
    + revert a Fa. induction b as [|c b IH]; intros a Fa [r H]; [destruct (Nb eq_refl)|]. inversion Fb as [|? ? (Nc & Bc & Dc) Fb']; subst. destruct a as [|d a]; [discriminate H|]. inversion Fa as [|? ? [Bd Dd] Fa']; subst.
      cbn [flat_map] in H. rewrite <- !app_assoc in H. change (s2b "-") with [45] in H. cbn [app] in H. injection H as H. destruct b as [|c2 b].
      * cbn [flat_map app] in H. destruct (prefix_last c r _ (flat_dashed a) Dc d Dd H) as [x ->]. exists [], c, x, a. auto.
      * cbn [flat_map] in H. rewrite <- !app_assoc in H. change (s2b "-") with [45] in H. cbn [app] in H. destruct (prefix_inner c _ _ (flat_dashed a) Dc d Dd H) as [-> E].
        destruct (IH Fb' ltac:(discriminate) a Fa') as (init & l & x & rest & -> & ->); [exists r; rewrite E; cbn [flat_map]; rewrite <- !app_assoc; reflexivity|]. exists (c :: init), l, x, rest. auto.
    + intros (init & l & x & rest & -> & ->). exists (x ++ flat_map (fun c => s2b "-" ++ c) rest). rewrite !flat_map_app. cbn [flat_map]. rewrite app_nil_r, <- !app_assoc. reflexivity.
Qed.

(** ** resolve *)
Lemma b64_no_plus c : b64_text c -> ~ In 43 c.
Proof. intros B I. apply B in I. vm_compute in I. repeat (destruct I as [I|I]; [discriminate I|]). destruct I. Qed.
Lemma usize_iff c i : b64_text c -> parse_usize c = Some i <-> position c i.
Proof.
  intros B. unfold parse_usize, position. rewrite dec_numeral_val. destruct c as [|x r].
  - split; [discriminate|intros [N _]; destruct (N eq_refl)].
  - rewrite parse_uint_digits by (intros ->; apply (b64_no_plus _ B); left; reflexivity). destruct (StdStr.digits_val 10 (x :: r) 0) as [n|].
    + destruct (N.leb_spec n (2 ^ 64 - 1)) as [L|L]; split.
      * intros H. injection H as <-. split; [discriminate|]. split; [reflexivity|]. change (2 ^ 64) with 18446744073709551616 in *. Lia.lia.
      * intros (_ & H & _). exact H.
      * discriminate.
      * intros (_ & H & X). injection H as <-. change (2 ^ 64) with 18446744073709551616 in *. Lia.lia.
    + split; [discriminate|intros (_ & H & _); discriminate].
Qed.
Lemma usize_none c : b64_text c -> parse_usize c = None -> forall i, ~ position c i.
Proof. intros B H i X. apply usize_iff in X; [congruence|exact B]. Qed.
Lemma map_get_entry k (v : data) m : map_get k m = Some v <-> entry m k v.
Proof.
  unfold entry. induction m as [|[k' v'] m IH]; cbn [map_get].
  - split; [discriminate|intros (b & a & E & _); destruct b; discriminate].
  - destruct (bytes_eqb k k') eqn:E.
    + apply bytes_eqb_eq in E. subst k'. split.
      * intros H. injection H as ->. exists [], m. auto.
      * intros (b & a & H & N). destruct b as [|[k2 v2] b]; injection H as -> H; [congruence|]. destruct N. left. subst. reflexivity.
    + rewrite IH. split.
      * intros (b & a & -> & N). exists ((k', v') :: b), a. split; [reflexivity|]. intros [I|I]; [cbn in I; subst; rewrite bytes_eqb_refl in E; discriminate|auto].
      * intros (b & a & H & N). destruct b as [|[k2 v2] b]; injection H; intros; subst; [rewrite bytes_eqb_refl in E; discriminate|]. exists b, a. split; [auto|]. intros I. apply N. right. exact I.
Qed.
Lemma nth_none_len {A} (l : list A) i : i < len l -> nth_error l (N.to_nat i) <> None.
Proof. intros H E. apply nth_error_None in E. unfold len in H. Lia.lia. Qed.
Lemma nth_some_len {A} (l : list A) i x : nth_error l (N.to_nat i) = Some x -> len l <=? i = false.
Proof. intros H. apply N.leb_gt. unfold len. assert (nth_error l (N.to_nat i) <> None) by congruence. apply nth_error_Some in H0. Lia.lia. Qed.
Lemma resolve_spec cs : Forall b64_text cs -> forall v, (forall x, resolve v (map VStr cs) = Ok x <-> leads v cs x) /\ resolve v (map VStr cs) <> Panic.
Proof.
  induction 1 as [|c cs B F IH]; intros v; cbn [map resolve to_string obind].
  - split; [intros x; split; [intros H; apply Ok_inj in H; subst; constructor|intros H; inversion H; reflexivity]|discriminate].
  - destruct v as [| | | | |a|m]; try (split; [intros x; split; [discriminate|intros H; inversion H]|discriminate]).
    + destruct (parse_usize c) as [i|] eqn:E.
      * pose proof E as E'. apply usize_iff in E'; [|exact B]. destruct (len a <=? i) eqn:L.
        -- split; [|discriminate]. intros x. split; [discriminate|]. intros H. inversion H as [|? ? j w ? ? Pj Nj| | |]; subst. apply usize_iff in Pj; [|exact B]. rewrite E in Pj. injection Pj as <-. apply nth_some_len in Nj. congruence.
        -- destruct (nth_error a (N.to_nat i)) as [w|] eqn:Ew; [|apply N.leb_gt in L; destruct (nth_none_len a i L Ew)]. destruct (IH w) as [I1 I2]. split; [|exact I2]. intros x. rewrite I1. split; [intros H; econstructor; eauto|].
           intros H. inversion H as [|? ? j w' ? ? Pj Nj| | |]; subst. apply usize_iff in Pj; [|exact B]. rewrite E in Pj. injection Pj as <-. rewrite Ew in Nj. injection Nj as <-. assumption.
      * split; [|discriminate]. intros x. split; [discriminate|]. intros H. inversion H as [|? ? j w ? ? Pj Nj| | |]; subst. destruct (usize_none c B E j Pj).
    + destruct (parse_usize c) as [i|] eqn:E.
      * pose proof E as E'. apply usize_iff in E'; [|exact B]. assert (Nc : c <> []) by (intros ->; discriminate E). destruct (len m <=? i) eqn:L.
        -- split; [|discriminate]. intros x. split; [discriminate|]. intros H. inversion H as [| |? ? j k w ? ? Pj Nj|? ? w ? ? N1 N2|]; subst; [|destruct (N2 i E')|destruct (Nc eq_refl)]. apply usize_iff in Pj; [|exact B]. rewrite E in Pj. injection Pj as <-. apply nth_some_len in Nj. congruence.
        -- destruct (nth_error m (N.to_nat i)) as [[k w]|] eqn:Ew; [|apply N.leb_gt in L; destruct (nth_none_len m i L Ew)]. destruct (IH w) as [I1 I2]. split; [|exact I2]. intros x. rewrite I1. split; [intros H; eapply leads_entry; eauto|].
           intros H. inversion H as [| |? ? j k' w' ? ? Pj Nj|? ? w' ? ? N1 N2|]; subst; [|destruct (N2 i E')|destruct (Nc eq_refl)]. apply usize_iff in Pj; [|exact B]. rewrite E in Pj. injection Pj as <-. rewrite Ew in Nj. injection Nj as <- <-. assumption.
      * pose proof (usize_none c B E) as Np. destruct c as [|h t].
        -- split; [|discriminate]. intros x. split; [intros H; apply Ok_inj in H; subst; constructor|]. intros H. inversion H as [| |? ? j k w ? ? Pj Nj|? ? w ? ? N1 N2|]; subst; [destruct (Np j Pj)|destruct (N1 eq_refl)|reflexivity].
        -- destruct (map_get (h :: t) m) as [w|] eqn:Ew.
           ++ destruct (IH w) as [I1 I2]. split; [|exact I2]. intros x. rewrite I1. split; [intros H; eapply leads_key; eauto; [discriminate|apply map_get_entry; exact Ew]|].
              intros H. inversion H as [| |? ? j k w' ? ? Pj Nj|? ? w' ? ? N1 N2 Ent|]; subst; [destruct (Np j Pj)|]. apply map_get_entry in Ent. rewrite Ew in Ent. injection Ent as <-. assumption.
           ++ split; [|discriminate]. intros x. split; [discriminate|]. intros H. inversion H as [| |? ? j k w' ? ? Pj Nj|? ? w' ? ? N1 N2 Ent|]; subst; [destruct (Np j Pj)|]. apply map_get_entry in Ent. congruence.
Qed.
Lemma resolve_app p q : Forall (fun c => c <> []) p -> forall v, resolve v (map VStr (p ++ q)) = (x <- resolve v (map VStr p) ;; resolve x (map VStr q)).
Proof.
  induction 1 as [|c p N F IH]; intros v; [reflexivity|]. cbn [app map resolve to_string obind]. destruct v as [| | | | |a|m]; try reflexivity.
  - destruct (parse_usize c); [|reflexivity]. destruct (_ <=? _); [reflexivity|]. destruct (nth_error a _); [apply IH|reflexivity].
  - destruct (parse_usize c); [destruct (_ <=? _); [reflexivity|]; destruct (nth_error m _) as [[? ?]|]; [apply IH|reflexivity]|]. destruct c; [destruct (N eq_refl)|]. destruct (map_get _ m); [apply IH|reflexivity].
Qed.
