From Verif Require Import Base Utf8 StdStr Data Json Spec Prims Common CommonDefs.
From Verif Require Import BaseFacts StdStrFacts UtilFacts SpecFacts DataFacts PrimsFacts JsonFacts CommonFacts.

(** ** versify *)
Lemma versify_eq i v k n : In i idents -> k = s2b "JSON" -> versify (Some i) (Some v) (Some k) (Some n) =
  Ok (i ++ hex_padded 1 (v_major v) ++ hex_padded 1 (v_minor v) ++ k ++ hex_padded 6 n ++ [95]).
Proof. intros Hi ->. unfold versify. cbn [unwrap_or]. rewrite (mem_code_true i idents Hi). reflexivity. Qed.
Lemma versify_text i a b n : In i idents -> a < 16 -> b < 16 -> n < 2 ^ 24 -> versify (Some i) (Some (Ver a b)) (Some (s2b "JSON")) (Some n) = Ok (version_text i a b (s2b "JSON") n).
Proof.
  intros Hi Ha Hb Hn. rewrite versify_eq by auto. cbn [v_major v_minor]. rewrite !hex_padded_text by (change (16 ^ 1) with 16; change (16 ^ 6) with (2 ^ 24); lia). reflexivity.
Qed.
Lemma versify_len i a b n vs : In i idents -> a < 16 -> b < 16 -> versify (Some i) (Some (Ver a b)) (Some (s2b "JSON")) (Some n) = Ok vs -> (len vs = 17 <-> n < 2 ^ 24).
Proof.
  intros Hi Ha Hb. rewrite versify_eq by auto. cbn [v_major v_minor]. intros E. apply Ok_inj in E. subst vs. rewrite !len_app, !hex_padded_len by lia.
  pose proof (proj2 (to_hex_len a 1 ltac:(lia)) Ha). pose proof (proj2 (to_hex_len b 1 ltac:(lia)) Hb). pose proof (to_hex_len n 6 ltac:(lia)) as T. change (16 ^ 6) with (2 ^ 24) in T.
  destruct (known_tag i Hi) as [Li _]. rewrite Li. change (len (s2b "JSON")) with 4. change (len [95]) with 1. lia.
Qed.

(** ** JSON of an object around one entry *)
Definition plain (w : bytes) : Prop := flat_map escape_char w = w.
Lemma plain_version w : version_like w -> plain w.
Proof.
  intros V. pose proof (fun c => version_like_chars w c V) as H. clear V. unfold plain. induction w as [|c w IH]; [reflexivity|]. cbn [flat_map]. rewrite IH by (intros; apply H; right; auto).
  specialize (H c (or_introl eq_refl)). unfold escape_char. replace (c =? 34) with false by lia. replace (c =? 92) with false by lia. replace (c =? 8) with false by lia.
  replace (c =? 9) with false by lia. replace (c =? 10) with false by lia. replace (c =? 12) with false by lia. replace (c =? 13) with false by lia. replace (c <? 32) with false by lia. reflexivity.
Qed.
Lemma join_cons sep p ps : ps <> [] -> join sep (p :: ps) = p ++ sep ++ join sep ps.
Proof. destruct ps; [congruence|reflexivity]. Qed.
Lemma join_app sep a b : a <> [] -> b <> [] -> join sep (a ++ b) = join sep a ++ sep ++ join sep b.
Proof.
  intros Ha Hb. induction a as [|p a IH]; [congruence|]. destruct a as [|q a].
  - cbn [app]. rewrite join_cons by auto. reflexivity.
  - cbn [app] in *. rewrite (join_cons sep p (q :: a ++ b)), (join_cons sep p (q :: a)) by discriminate. rewrite IH by discriminate. rewrite <- !app_assoc. reflexivity.
Qed.
Definition obj_head (k : bytes) (pre : list (bytes * data)) : bytes :=
  [123] ++ match pre with [] => [] | _ => join [44] (map member pre) ++ [44] end ++ json_string k ++ [58; 34].
Definition obj_tail (post : list (bytes * data)) : bytes := [34] ++ match post with [] => [] | _ => [44] ++ join [44] (map member post) end ++ [125].
Lemma to_json_obj o : to_json (VObj o) = [123] ++ join [44] (map member o) ++ [125].
Proof. reflexivity. Qed.
Lemma obj_split k pre w post : plain w -> to_json (VObj (pre ++ (k, VStr w) :: post)) = obj_head k pre ++ w ++ obj_tail post.
Proof.
  intros Pw. rewrite to_json_obj. unfold obj_head, obj_tail. rewrite map_app. cbn [map].
  assert (M : member (k, VStr w) = json_string k ++ [58; 34] ++ w ++ [34]).
  { unfold member. cbn [fst snd to_json]. unfold json_string at 2. rewrite Pw. reflexivity. }
  destruct pre as [|x pre].
  - cbn [map app]. destruct post as [|y post].
    + cbn [map join app]. rewrite M. rewrite <- !app_assoc. reflexivity.
    + rewrite join_cons by discriminate. rewrite M. rewrite <- !app_assoc. reflexivity.
  - rewrite join_app by discriminate. destruct post as [|y post].
    + cbn [join map]. rewrite M. rewrite <- !app_assoc. reflexivity.
    + rewrite join_cons by discriminate. rewrite M. rewrite <- !app_assoc. reflexivity.
Qed.
Lemma obj_head_len k pre : len (obj_head k pre) = len (to_json (VObj pre)) + len (json_string k) + match pre with [] => 1 | _ => 2 end.
Proof. rewrite to_json_obj. unfold obj_head. destruct pre; rewrite !len_app; cbn [map join]; rewrite ?len_nil; change (len [123]) with 1; change (len [58; 34]) with 2; change (len [125]) with 1; change (len [44]) with 1; lia. Qed.

Lemma nth_error_skipn' {A} (l : list A) a b : nth_error (skipn a l) b = nth_error l (a + b).
Proof. revert l. induction a as [|a IH]; intros l; [reflexivity|]. destruct l; cbn; [destruct b; reflexivity|]. apply IH. Qed.
(** a short head holds no earlier version-like text *)
Lemma head_no_match h w r : len h + 2 <= 17 -> forall j, j < len (h ++ [58; 34]) -> rever_at (drop j ((h ++ [58; 34]) ++ w ++ r)) = false.
Proof.
  intros L j Hj. destruct (rever_at _) eqn:R; [|reflexivity]. exfalso. apply rever_at_iff in R as [w' [r' [V E]]].
  rewrite len_app in Hj. change (len [58; 34]) with 2 in Hj.
  assert (N1 : nth_error (w' ++ r') (N.to_nat (len h + 1 - j)) = Some 34).
  { rewrite <- E. unfold drop. rewrite nth_error_skipn'. replace (N.to_nat j + N.to_nat (len h + 1 - j))%nat with (length h + 1)%nat by (unfold len in *; lia).
    rewrite <- app_assoc. rewrite nth_error_app2 by (Lia.lia). replace (length h + 1 - length h)%nat with 1%nat by Lia.lia. reflexivity. }
  pose proof (version_like_len _ V) as L17. rewrite nth_error_app1 in N1 by (unfold len in *; lia). apply nth_error_In in N1. apply (version_like_chars _ _ V) in N1. lia.
Qed.

(** ** sizeify *)
Lemma obj_head_form k pre : exists h, obj_head k pre = h ++ [58; 34].
Proof. unfold obj_head. destruct pre; [exists ([123] ++ json_string k)|exists ([123] ++ (join [44] (map member (p :: pre)) ++ [44]) ++ json_string k)]; rewrite <- !app_assoc; reflexivity. Qed.
Lemma find_in_obj pre w post : len (to_json (VObj pre)) <= 7 -> version_like w ->
  rever_find (to_json (VObj (pre ++ (s2b "v", VStr w) :: post))) = Some (len (obj_head (s2b "v") pre)) /\ len (obj_head (s2b "v") pre) <= 12.
Proof.
  intros L V. rewrite obj_split by (apply plain_version; auto). pose proof (obj_head_len (s2b "v") pre) as Lh. change (len (json_string (s2b "v"))) with 3 in Lh.
  assert (L12 : len (obj_head (s2b "v") pre) <= 12). { destruct pre; [change (len (to_json (VObj []))) with 2 in *|]; lia. }
  split; [|exact L12]. destruct (obj_head_form (s2b "v") pre) as [h Eh]. rewrite Eh in *. apply rever_find_at; [auto|]. apply head_no_match. rewrite len_app in L12. change (len [58; 34]) with 2 in L12. lia.
Qed.
Lemma map_get_mid {A} k (x : A) pre post : ~ In k (map fst pre) -> map_get k (pre ++ (k, x) :: post) = Some x.
Proof.
  induction pre as [|[k' y] pre IH]; intros N; cbn [app map_get].
  - rewrite (proj2 (bytes_eqb_eq k k) eq_refl). reflexivity.
  - destruct (bytes_eqb k k') eqn:E; [apply bytes_eqb_eq in E; exfalso; apply N; left; auto|]. apply IH. intros I. apply N. right. auto.
Qed.
Lemma map_insert_mid {A} k (x y : A) pre post : ~ In k (map fst pre) -> map_insert k y (pre ++ (k, x) :: post) = pre ++ (k, y) :: post.
Proof.
  induction pre as [|[k' z] pre IH]; intros N; cbn [app map_insert].
  - rewrite (proj2 (bytes_eqb_eq k k) eq_refl). reflexivity.
  - destruct (bytes_eqb k k') eqn:E; [apply bytes_eqb_eq in E; exfalso; apply N; left; auto|]. rewrite IH by (intros I; apply N; right; auto). reflexivity.
Qed.
Lemma vtext_like i a b n : In i idents -> a < 16 -> b < 16 -> n < 2 ^ 24 -> version_like (version_text i a b (s2b "JSON") n).
Proof. intros. exists i, a, b, (s2b "JSON"), n. pose proof json_tag; auto 10 using known_tag. Qed.

Lemma sizeify_eq pre post i m kind : ~ In (s2b "v") (map fst pre) -> len (to_json (VObj pre)) <= 7 -> In i idents -> m < 2 ^ 24 -> kind = None \/ kind = Some (s2b "JSON") ->
  let obj x := VObj (pre ++ (s2b "v", VStr (version_text i 1 0 (s2b "JSON") x)) :: post) in
  let n := as_u32 (len (to_json (obj m))) in
  sizeify (obj m) kind = if n <? 2 ^ 24 then Ok (SZ (to_json (obj n)) i (s2b "JSON") (obj n) (Ver 1 0)) else Err E_Value.
Proof.
  intros Nv L Hi Hm Hk obj n. unfold sizeify. unfold obj at 1. cbn [to_map obind]. unfold contains_key. rewrite map_get_mid by auto. cbn [negb].
  unfold obj at 1. cbn [vget]. rewrite map_get_mid by auto. cbn [obind to_string]. rewrite deversify_text by (auto; lia). cbn [obind vp_version vp_kind vp_ident].
  change (version_eqb (Ver 1 0) current_version) with true. cbn [negb].
  assert (Ek : unwrap_or kind (s2b "JSON") = s2b "JSON") by (destruct Hk as [-> | ->]; reflexivity). rewrite Ek.
  change (mem_code (s2b "JSON") serials) with true. cbn [negb]. unfold dumps. cbn [unwrap_or]. change (bytes_eqb (s2b "JSON") (s2b "JSON")) with true. cbv iota. cbn [obind].
  destruct (find_in_obj pre (version_text i 1 0 (s2b "JSON") m) post L (vtext_like i 1 0 m Hi ltac:(lia) ltac:(lia) Hm)) as [F L12].
  change (VObj (pre ++ (s2b "v", VStr (version_text i 1 0 (s2b "JSON") m)) :: post)) with (obj m) in F. rewrite F.
  unfold maximum_start_size. replace (12 <? len (obj_head (s2b "v") pre)) with false by lia.
  change (as_u32 (len (to_json (obj m)))) with n.
  pose proof (obj_split (s2b "v") pre (version_text i 1 0 (s2b "JSON") m) post (plain_version _ (vtext_like i 1 0 m Hi ltac:(lia) ltac:(lia) Hm))) as Em. change (VObj (pre ++ (s2b "v", VStr (version_text i 1 0 (s2b "JSON") m)) :: post)) with (obj m) in Em.
  assert (L17 : len (version_text i 1 0 (s2b "JSON") m) = 17) by (apply version_text_len; auto using known_tag, json_tag).
  rewrite Em. rewrite take_app_exact by auto. unfold version_full_size. rewrite <- drop_drop, (drop_app_exact (len (obj_head (s2b "v") pre))) by auto. rewrite (drop_app_exact 17) by auto.
  rewrite versify_eq by auto. cbn [obind]. cbv zeta.
  set (vs := i ++ _). rewrite !len_app, L17.
  assert (Lvs : len vs = 17 <-> n < 2 ^ 24). { apply (versify_len i 1 0 n vs Hi); [lia|lia|]. rewrite versify_eq by auto. reflexivity. }
  destruct (N.ltb_spec n (2 ^ 24)) as [Ln|Ln].
  - replace (len (obj_head (s2b "v") pre) + (len vs + len (obj_tail post)) =? len (obj_head (s2b "v") pre) + (17 + len (obj_tail post))) with true by lia. cbn [negb].
    assert (Ev : vs = version_text i 1 0 (s2b "JSON") n). { pose proof (versify_text i 1 0 n Hi ltac:(lia) ltac:(lia) Ln) as X. rewrite versify_eq in X by auto. apply Ok_inj in X. exact X. }
    rewrite Ev. unfold vset, obj at 1. rewrite map_insert_mid by auto. cbn [obind].
    pose proof (obj_split (s2b "v") pre (version_text i 1 0 (s2b "JSON") n) post (plain_version _ (vtext_like i 1 0 n Hi ltac:(lia) ltac:(lia) Ln))) as En. change (VObj (pre ++ (s2b "v", VStr (version_text i 1 0 (s2b "JSON") n)) :: post)) with (obj n) in *. rewrite En. reflexivity.
  - replace (len (obj_head (s2b "v") pre) + (len vs + len (obj_tail post)) =? len (obj_head (s2b "v") pre) + (17 + len (obj_tail post))) with false by lia. reflexivity.
Qed.

(** what success of sizeify says in general *)
Lemma sizeify_inv ked kind r : sizeify ked kind = Ok r -> exists o i m k, ked = VObj o /\ In i idents /\ m < 2 ^ 24 /\
  map_get (s2b "v") o = Some (VStr (version_text i 1 0 (s2b "JSON") m)) /\ (kind = None \/ kind = Some (s2b "JSON")) /\
  rever_find (to_json ked) = Some k /\ k <= 12 /\
  let n := as_u32 (len (to_json ked)) in n < 2 ^ 24 /\
  r = SZ (take k (to_json ked) ++ version_text i 1 0 (s2b "JSON") n ++ drop (k + 17) (to_json ked)) i (s2b "JSON")
         (VObj (map_insert (s2b "v") (VStr (version_text i 1 0 (s2b "JSON") n)) o)) (Ver 1 0).
Proof.
  unfold sizeify. destruct ked as [| | | | | |o]; try discriminate. cbn [to_map obind vget]. unfold contains_key. destruct (map_get (s2b "v") o) as [v|] eqn:Ev; [|discriminate]. cbn [negb obind].
  destruct v as [| | | |vs| |]; try discriminate. cbn [to_string obind]. destruct (deversify vs) as [p| |] eqn:Ed; try discriminate. cbn [obind].
  apply deversify_inv in Ed as [i [a [b [m [Hi [Ha [Hb [Hm [-> ->]]]]]]]]]. cbn [vp_version vp_kind vp_ident]. destruct (version_eqb (Ver a b) current_version) eqn:Ever; [|discriminate]. cbn [negb].
  unfold version_eqb in Ever. cbn [v_major v_minor current_version] in Ever. assert (a = 1 /\ b = 0) as [-> ->] by lia.
  destruct (mem_code (unwrap_or kind (s2b "JSON")) serials) eqn:Mk; [|discriminate]. cbn [negb]. apply mem_code_In in Mk as [Mk|[]]. rewrite <- Mk.
  unfold dumps. cbn [unwrap_or]. change (bytes_eqb (s2b "JSON") (s2b "JSON")) with true. cbv iota. cbn [obind]. set (raw := to_json (VObj o)).
  pose proof (rever_find_spec raw) as Spec. destruct (rever_find raw) as [k|] eqn:Ef; [|discriminate]. destruct Spec as [Lk _]. unfold maximum_start_size. destruct (N.ltb_spec 12 k); [discriminate|].
  rewrite versify_eq by auto. cbn [obind]. cbv zeta. set (n := as_u32 (len raw)). set (vs := i ++ _).
  assert (Lvs : len vs = 17 <-> n < 2 ^ 24). { apply (versify_len i 1 0 n vs Hi); [lia|lia|]. rewrite versify_eq by auto. reflexivity. }
  destruct (N.eqb_spec (len (take k raw ++ vs ++ drop (k + version_full_size) raw)) (len raw)) as [El|]; [|discriminate]. cbn [negb vset obind]. intros E. apply Ok_inj in E. subst r.
  rewrite !len_app, len_take, len_drop in El. unfold version_full_size in *. assert (Ln : n < 2 ^ 24) by lia.
  assert (Evs : vs = version_text i 1 0 (s2b "JSON") n). { pose proof (versify_text i 1 0 n Hi ltac:(lia) ltac:(lia) Ln) as X. rewrite versify_eq in X by auto. apply Ok_inj in X. exact X. }
  exists o, i, m, k. split; [reflexivity|]. split; [exact Hi|]. split; [exact Hm|]. split; [exact Ev|]. split; [destruct kind as [k'|]; [right; cbn in Mk; congruence|left; reflexivity]|].
  split; [reflexivity|]. split; [lia|]. split; [exact Ln|]. rewrite Evs. reflexivity.
Qed.
Lemma sizeify_total ked kind : sizeify ked kind <> Panic.
Proof.
  unfold sizeify. destruct ked as [| | | | | |o]; try discriminate. cbn [to_map obind vget]. unfold contains_key. destruct (map_get (s2b "v") o) as [v|] eqn:Ev; [|discriminate]. cbn [negb obind].
  destruct v as [| | | |vs| |]; try discriminate. cbn [to_string obind]. destruct (deversify vs) as [p| |] eqn:Ed; [|discriminate|exfalso; eapply deversify_total; eauto]. cbn [obind].
  destruct (negb _); [discriminate|]. destruct (negb _); [discriminate|]. unfold dumps. destruct (bytes_eqb _ _); [|discriminate]. cbn [obind]. destruct (rever_find _); [|discriminate]. destruct (_ <? _); [discriminate|].
  unfold versify. destruct (negb _); [discriminate|]. destruct (negb _); [discriminate|]. cbn [obind]. destruct (negb _); [discriminate|]. cbn. discriminate.
Qed.

(** ** sniff *)
Lemma utf8_at_ascii pre c r : c < 128 -> utf8_valid (pre ++ c :: r) = true -> utf8_valid (c :: r) = true.
Proof.
  intros Hc. remember (length pre) as n eqn:En. revert pre En. induction n as [n IH] using (well_founded_induction Wf_nat.lt_wf). intros pre En.
  assert (R : forall lo hi, 128 <= lo -> rng lo hi c = false) by (intros; unfold rng; lia).
  assert (Step : forall pre', (length pre' < n)%nat -> utf8_valid (pre' ++ c :: r) = true -> utf8_valid (c :: r) = true).
  { intros pre' L. apply (IH (length pre') L pre' eq_refl). }
  destruct pre as [|b0 pre]; [auto|]. cbn [length] in En. cbn [app utf8_valid].
  destruct (b0 <? 128); [apply Step; Lia.lia|].
  destruct pre as [|b1 pre]; cbn [app].
  { destruct (rng 194 223 b0). { rewrite (R 128 191) by lia. discriminate. }
    destruct r as [|b2 r]; [discriminate|]. rewrite !R by lia. destruct (rng 224 239 b0).
    - destruct (b0 =? 224); [discriminate|]. destruct (b0 =? 237); discriminate.
    - destruct r as [|b3 r]; [discriminate|]. destruct (b0 =? 240); [rewrite andb_false_r; discriminate|]. destruct (b0 =? 244); rewrite andb_false_r; discriminate. }
  cbn [length] in En. destruct (rng 194 223 b0). { intros H. apply andb_true_iff in H as [_ H]. apply (Step pre); [Lia.lia|exact H]. }
  destruct pre as [|b2 pre]; cbn [app].
  { destruct (rng 224 239 b0). { rewrite (R 128 191) by lia. rewrite andb_false_r. discriminate. }
    destruct r as [|b3 r]; [discriminate|]. rewrite (R 128 191) by lia. rewrite andb_false_r. discriminate. }
  cbn [length] in En. destruct (rng 224 239 b0). { intros H. apply andb_true_iff in H as [_ H]. apply (Step pre); [Lia.lia|exact H]. }
  destruct pre as [|b3 pre]; cbn [app].
  { rewrite (R 128 191) by lia. rewrite andb_false_r. discriminate. }
  cbn [length] in En. intros H. apply andb_true_iff in H as [_ H]. apply (Step pre); [Lia.lia|exact H].
Qed.
Lemma version_slice raw k w r : utf8_valid raw = true -> version_like w -> raw = take k raw ++ w ++ r -> k <= len raw -> str_slice raw k (k + 17) = Ok w.
Proof.
  intros U V E L. assert (Lw := version_like_len w V). assert (Lt : len (take k raw) = k) by (rewrite len_take; lia).
  rewrite str_slice_ok.
  - f_equal. rewrite E, (drop_app_exact k) by auto. replace (k + 17 - k) with 17 by lia. apply take_app_exact. auto.
  - lia.
  - rewrite E. replace k with (len (take k raw)) at 2 by exact Lt. apply MatterFacts.boundary_after. destruct w as [|c w]; [rewrite len_nil in Lw; lia|]. cbn [app]. apply (utf8_at_ascii (take k raw) c); [|rewrite E in U; exact U].
    pose proof (version_like_chars _ c V (or_introl eq_refl)). lia.
  - assert (Hw : exists u, w = u ++ [95]). { destruct V as [i [a [b [kk [n [_ [_ [_ [_ [_ ->]]]]]]]]]]. unfold version_text. exists (i ++ hex_text 1 a ++ hex_text 1 b ++ kk ++ hex_text 6 n). rewrite <- !app_assoc. reflexivity. }
    destruct Hw as [u ->]. assert (U2 : utf8_valid (95 :: r) = true). { apply (utf8_at_ascii (take k raw ++ u) 95 r); [lia|]. rewrite E in U. rewrite <- !app_assoc in U. rewrite <- app_assoc. exact U. }
    rewrite E. rewrite app_assoc. replace (k + 17) with (len (take k raw ++ u ++ [95])) by (rewrite len_app; lia). apply MatterFacts.boundary_after. exact U2.
Qed.
Lemma sniff_spec raw : len raw < 29 \/ utf8_valid raw = false \/ rever_find raw = None \/ (exists k, rever_find raw = Some k /\ 12 < k) ->
  exists e, sniff raw = Err e.
Proof.
  intros H. unfold sniff, minimum_sniff_size, maximum_start_size, from_utf8. destruct (N.ltb_spec (len raw) 29); [eauto|].
  destruct (utf8_valid raw) eqn:U; [|cbn; eauto]. cbn [obind]. destruct (rever_find raw) as [k|] eqn:F; [|eauto].
  destruct H as [H|[H|[H|[k' [H1 H2]]]]]; try lia; try discriminate. injection H1 as <-. replace (12 <? k) with true by lia. eauto.
Qed.
Lemma sniff_at raw k i a b kind n r : 29 <= len raw -> utf8_valid raw = true -> rever_find raw = Some k -> k <= 12 -> tag i -> tag kind -> a < 16 -> b < 16 -> n < 2 ^ 24 ->
  drop k raw = version_text i a b kind n ++ r -> sniff raw = if bytes_eqb kind (s2b "JSON") then Ok (VP i kind (Ver a b) n) else Err E_Validation.
Proof.
  intros L U F Lk Ti Tk Ha Hb Hn E. unfold sniff, minimum_sniff_size, maximum_start_size, from_utf8. replace (len raw <? 29) with false by lia. rewrite U. cbn [obind]. rewrite F. replace (12 <? k) with false by lia.
  pose proof (rever_find_spec raw) as Sp. rewrite F in Sp. destruct Sp as [Lk2 _].
  unfold version_full_size. rewrite (version_slice raw k (version_text i a b kind n) r); [|exact U|exists i, a, b, kind, n; tauto|rewrite <- E; symmetry; apply take_drop_id|lia]. cbn [obind]. cbv zeta.
  destruct (groups i a b kind n Ti Tk Ha Hb Hn) as [R [G1 [G2 [G3 [G4 G5]]]]]. rewrite G1, G2, G3, G4, G5.
  rewrite !parse_hex_text by (unfold U32; change (2 ^ 24) with 16777216 in Hn; change (16 ^ 6) with 16777216; change (16 ^ 1) with 16; change (2 ^ 32) with 4294967296; lia). cbn [obind].
  unfold mem_code, serials. cbn [existsb]. rewrite orb_false_r. destruct (bytes_eqb kind (s2b "JSON")); reflexivity.
Qed.
