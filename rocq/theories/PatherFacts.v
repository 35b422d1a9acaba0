(** Lemmas about paths. *)
From Verif Require Import Base Utf8 B64 Util MatterTables Matter StdStr Data Json Spec MatterDefs Prims PrimsDefs Tholder TholderDefs Pather PatherDefs.
From Verif Require Import BaseFacts B64Facts UtilFacts MatterFacts MatterFacts2 MatterFacts3 SpecFacts MatterFacts4 StdStrFacts MatterThms PrimsFacts PrimsFacts2 PrimsThms TholderFacts2 TholderFacts3 TholderFacts5.

Lemma path_text_join cs : path_text cs = s2b "-" ++ join (s2b "-") cs.
Proof.
  destruct cs as [|c cs]; [reflexivity|]. unfold path_text. revert c. induction cs as [|d cs IH]; intros c; [cbn [flat_map join]; rewrite app_nil_r; reflexivity|].
  specialize (IH d). cbn [flat_map] in *. rewrite IH. cbn [join]. rewrite <- !app_assoc. reflexivity.
Qed.
Lemma join_b64 l : Forall b64_text l -> b64_text (join (s2b "-") l).
Proof.
  intros F c I. apply join_chars in I as [->|(p & I1 & I2)]; [vm_compute; tauto|]. rewrite Forall_forall in F. apply (F _ I1 _ I2).
Qed.
Lemma path_text_b64 l : Forall b64_text l -> b64_text (path_text l).
Proof. intros F. rewrite path_text_join. intros c I. apply in_app_iff in I as [I|I]; [destruct I as [<-|[]]; vm_compute; tauto|]. apply (join_b64 _ F _ I). Qed.
Lemma path_shown l : bext_shown (path_text l) = path_text l.
Proof. rewrite path_text_join. change (s2b "-" ++ join (s2b "-") l) with (45 :: join (s2b "-") l). unfold bext_shown. change (45 =? 65) with false. rewrite andb_false_r. reflexivity. Qed.

Section F.
Context `{P : Profile}.

Lemma of_bext_eq t : pather_of_bext t = bexter_of t.
Proof. reflexivity. Qed.
Lemma of_path_eq es cs : each component es = Ok cs -> pather_of_path (VArr es) = bexter_of (path_text cs).
Proof. intros H. unfold pather_of_path, pather_new, bextify. cbn [none andb unwrap_or to_vec obind]. rewrite H. cbn [obind]. rewrite <- path_text_join. reflexivity. Qed.
Lemma reb64_iff t : reb64_match t = true <-> b64_text t.
Proof. rewrite b64_text_all. reflexivity. Qed.
Lemma show_int_written n : written (VInt n) (show_int n).
Proof.
  right. unfold show_int. destruct (Z.ltb_spec n 0).
  - exists (Z.to_N (- n)). right. split; [f_equal; Lia.lia|]. split; [reflexivity|Lia.lia].
  - exists (Z.to_N n). left. split; [f_equal; Lia.lia|reflexivity].
Qed.
Lemma written_int n c : written (VInt n) c -> c = show_int n.
Proof.
  intros [H|(k & [[H ->]|[H [-> Hk]]])]; [discriminate| |]; injection H as ->; unfold show_int.
  - replace (Z.of_N k <? 0)%Z with false by (symmetry; apply Z.ltb_ge; Lia.lia). rewrite N2Z.id. reflexivity.
  - replace (- Z.of_N k <? 0)%Z with true by (symmetry; apply Z.ltb_lt; Lia.lia). replace (Z.to_N (- - Z.of_N k)) with k by Lia.lia. reflexivity.
Qed.
Lemma component_iff e c : component e = Ok c <-> written e c /\ b64_text c.
Proof.
  rewrite <- reb64_iff. split.
  - unfold component. destruct e; cbn [to_string to_i64 obind]; try discriminate.
    + destruct (reb64_match _) eqn:E; [|discriminate]. intros H. apply Ok_inj in H. subst. split; [apply show_int_written|exact E].
    + destruct (reb64_match _) eqn:E; [|discriminate]. intros H. apply Ok_inj in H. subst. split; [left; reflexivity|exact E].
  - intros [W B]. unfold component. destruct W as [->|(n & [[-> ->]|[-> [-> Hn]]])]; cbn [to_string to_i64 obind]; [rewrite B; reflexivity| |].
    + rewrite <- (written_int (Z.of_N n) (to_dec n)), B by (right; exists n; auto). reflexivity.
    + rewrite <- (written_int (- Z.of_N n) (s2b "-" ++ to_dec n)), B by (right; exists n; auto). reflexivity.
Qed.
Lemma each_str cs : Forall b64_text cs -> each component (map VStr cs) = Ok cs.
Proof. intros F. apply each_ok. induction F; cbn [map]; constructor; auto. apply component_iff. split; [left; reflexivity|auto]. Qed.

Lemma text_sizage code z : In code text_codes -> get_sizage code = Ok z -> variable z = true /\ ls z <= 2 /\ (ss z = 2 \/ ss z = 4).
Proof.
  intros I H. assert (T : forallb (fun c => match get_sizage c with Ok z => variable z && (ls z <=? 2) && ((ss z =? 2) || (ss z =? 4)) | _ => false end) text_codes = true) by (vm_compute; reflexivity).
  rewrite forallb_forall in T. specialize (T _ I). rewrite H in T. apply andb_true_iff in T as [T S]. apply andb_true_iff in T as [V L]. apply N.leb_le in L. apply orb_true_iff in S. split; [exact V|]. split; [exact L|]. destruct S as [S|S]; apply N.eqb_eq in S; auto.
Qed.
Lemma encode_lead bs : bytes_ok bs = true -> b64_encode (0 :: bs) <> [].
Proof. intros _. destruct bs as [|b [|c r]]; discriminate. Qed.
Lemma pather_bext m : is_pather m -> exists t, bext_of m = Ok t /\ b64_text t /\ len t <= 64 ^ 4 * 4 - 4.
Proof.
  intros [Hc Ht]. destruct (constructed_wf m Hc) as [z W]. pose proof (wf_sz _ _ W) as Hz. pose proof (wf_bytes _ _ W) as Hb. pose proof (wf_len _ _ W) as Hl.
  destruct (text_sizage _ _ Ht Hz) as (V & L & S). unfold raw_len_ok in Hl. rewrite V in Hl. destruct Hl as [Hs Hl].
  rewrite (bext_of_eq m z Hz Hb). cbv zeta. set (t := b64_encode _). 
  assert (Ok1 : bytes_ok (rep 0 (ls z) ++ m_raw m) = true) by (rewrite bytes_ok_app, bytes_ok_rep0; auto).
  assert (M3 : len (rep 0 (ls z) ++ m_raw m) = m_size m * 3) by (rewrite len_app, len_rep; Lia.lia).
  assert (Lt : len t = m_size m * 4). { unfold t. rewrite len_b64_encode, M3. replace (m_size m * 3 + 2) with (2 + m_size m * 3) by Lia.lia. rewrite N.div_add by discriminate. reflexivity. }
  assert (B : all_b64 t = true) by (apply b64_encode_all; [exact Ok1|rewrite M3; apply N.mod_mul; discriminate]).
  assert (S4 : m_size m < 64 ^ 4) by (destruct S as [E|E]; rewrite E in Hs; [|exact Hs]; eapply N.lt_trans; [exact Hs|reflexivity]).
  set (ws := if ls z =? 0 then _ else _). assert (Hw : ws <= len t).
  { unfold ws. destruct (N.eqb_spec (ls z) 0) as [E|E].
    - destruct t as [|c r] eqn:Et; [Lia.lia|]. rewrite len_cons. destruct (c =? 65); Lia.lia.
    - rewrite Lt. assert (1 <= m_size m) by Lia.lia. pose proof (N.mod_upper_bound (ls z + 1) 4 ltac:(discriminate)). Lia.lia. }
  replace (ws <=? len t) with true by (symmetry; apply N.leb_le; exact Hw). exists (drop ws t). split; [reflexivity|]. split.
  - apply b64_text_all. rewrite <- (take_drop_id ws t) in B. unfold all_b64 in *. rewrite forallb_app in B. apply andb_true_iff in B. apply B.
  - rewrite len_drop, Lt. change (64 ^ 4 * 4 - 4) with 67108860. change (64 ^ 4) with 16777216 in S4. Lia.lia.
Qed.

Lemma b64_ascii t : b64_text t -> ascii_ok t = true.
Proof. intros B. apply b64_text_all in B. apply all_b64_ascii. exact B. Qed.
Lemma starts_dash t : starts_with (s2b "-") t = true <-> exists r, t = 45 :: r.
Proof. rewrite starts_with_iff. reflexivity. Qed.
Lemma path_eq m r : bext_of m = Ok (45 :: r) -> b64_text r -> pather_path m = Ok (path_value (match split_on 45 r with [] :: _ => [] | l => l end)).
Proof.
  intros H B. unfold pather_path. rewrite H. cbn [obind]. replace (starts_with (s2b "-") (45 :: r)) with true by reflexivity. cbn [negb].
  rewrite str_slice_ascii; [| |rewrite len_cons; Lia.lia|reflexivity]. 2: { apply b64_ascii. intros c [<-|I]; [vm_compute; tauto|apply B; exact I]. }
  cbn [obind]. rewrite take_all by (rewrite len_drop; Lia.lia). change (drop 1 (45 :: r)) with r. unfold path_value.
  destruct (split_on 45 r) as [|[|c x] l] eqn:E; [destruct (split_on_nonempty 45 r E)| |]; reflexivity.
Qed.
Lemma path_none m t : bext_of m = Ok t -> (forall r, t <> 45 :: r) -> pather_path m = Err E_Value.
Proof.
  intros H N. unfold pather_path. rewrite H. cbn [obind]. replace (starts_with (s2b "-") t) with false; [reflexivity|]. symmetry. destruct (starts_with (s2b "-") t) eqn:E; [|reflexivity]. apply starts_dash in E as [r E]. destruct (N r E).
Qed.
(** components that [path] can return *)
Definition raw_component (c : bytes) : Prop := b64_text c /\ ~ In 45 c.
Definition returned (cs : list bytes) : Prop := Forall raw_component cs /\ forall c r, cs = c :: r -> c <> [].
Lemma split_raw r : b64_text r -> Forall raw_component (split_on 45 r).
Proof.
  intros B. apply Forall_forall. intros p I. split; [|pose proof (split_on_parts 45 r) as F; rewrite Forall_forall in F; apply F; exact I].
  intros c Ic. apply B. rewrite <- (join_split 45 r). clear -I Ic. induction (split_on 45 r) as [|q l IH]; [destruct I|]. destruct I as [->|I].
  - destruct l; [exact Ic|]. cbn [join]. apply in_app_iff. auto.
  - destruct l as [|q2 l]; [destruct I|]. cbn [join]. apply in_app_iff. right. apply in_app_iff. right. apply IH. exact I.
Qed.
Lemma path_returned m v : is_pather m -> pather_path m = Ok v -> exists cs, v = path_value cs /\ returned cs /\ exists r, bext_of m = Ok (45 :: r) /\ cs = match split_on 45 r with [] :: _ => [] | l => l end.
Proof.
  intros Hm H. destruct (pather_bext m Hm) as (t & E & B & _). destruct t as [|c r]; [rewrite (path_none m [] E) in H; discriminate|].
  destruct (N.eqb_spec c 45) as [->|N]; [|rewrite (path_none m _ E) in H by (intros r' Q; injection Q; intros; congruence); discriminate].
  assert (Br : b64_text r) by (intros c I; apply B; right; exact I). rewrite (path_eq m r E Br) in H. apply Ok_inj in H. subst v. eexists. split; [reflexivity|]. split; [|exists r; split; [exact E|reflexivity]].
  pose proof (split_raw r Br) as F. destruct (split_on 45 r) as [|[|c x] l]; (split; [try constructor; try (inversion F; assumption)|intros a b Q; try discriminate Q]). injection Q as <- _. discriminate.
Qed.
Lemma split_path cs : cs <> [] -> Forall raw_component cs -> split_on 45 (join (s2b "-") cs) = cs.
Proof. intros N F. apply split_join; [exact N|]. eapply Forall_impl; [|exact F]. intros a [_ X]. exact X. Qed.
Lemma bexter_is_pather t m : b64_text t -> len t <= 64 ^ 4 * 4 - 4 -> bexter_of t = Ok m -> is_pather m.
Proof.
  intros B L H. destruct (bexter_codes_ok t m B L H) as (z & W & I). apply b64_text_all in B. split; [|revert I; apply mem_iff; vm_compute; reflexivity].
  destruct (rawify_ok t B) as (raw & Hr & Hb & _). exists (s2b "4A"), raw. split; [right; vm_compute; tauto|]. split; [exact Hb|]. unfold build. unfold bexter_of, bexter_new in H. cbn [none andb unwrap_or] in H. unfold reb64_match in H. unfold all_b64 in B. rewrite B in H. cbn [negb] in H. rewrite Hr in H. cbn [obind] in H.
  destruct (matter_new _ _ _ _ _) as [x| |]; try discriminate. cbn [obind] in H. destruct (validate _ _); try discriminate. cbn [obind] in H. exact H.
Qed.
(** a path that [path] can return makes a Pather with that path *)
Lemma of_returned cs : returned cs -> len (path_text cs) <= 64 ^ 4 * 4 - 4 ->
  exists m, pather_of_path (path_value cs) = Ok m /\ pather_of_bext (path_text cs) = Ok m /\ is_pather m /\ bext_of m = Ok (path_text cs) /\ pather_path m = Ok (path_value cs) /\
    exists q b, matter_qb64 m = Ok q /\ matter_qb2 m = Ok b /\ pather_of_text q = Ok m /\ pather_of_binary b = Ok m.
Proof.
  intros [F H] L. assert (FB : Forall b64_text cs) by (eapply Forall_impl; [|exact F]; intros a [X _]; exact X). pose proof (path_text_b64 cs FB) as B.
  destruct (C33_round_trip_pf P (path_text cs) B L) as (m & q & b & E1 & E2 & E3 & E4 & E5 & E6). exists m. rewrite path_shown in E2.
  split; [unfold path_value; rewrite (of_path_eq _ cs (each_str cs FB)); exact E1|]. split; [exact E1|]. split; [eapply bexter_is_pather; eauto|]. split; [exact E2|]. split.
  - rewrite path_text_join in E2. change (s2b "-" ++ join (s2b "-") cs) with (45 :: join (s2b "-") cs) in E2. rewrite (path_eq m _ E2) by (apply join_b64; exact FB). f_equal. f_equal.
    destruct cs as [|c cs]; [reflexivity|]. rewrite split_path by (auto; discriminate). destruct c; [destruct (H _ _ eq_refl eq_refl)|reflexivity].
  - exists q, b. repeat split; auto.
Qed.
Lemma proper_returned cs : Forall proper_component cs -> returned cs.
Proof. intros F. split; [eapply Forall_impl; [|exact F]; intros a (_ & X & Y); split; auto|]. intros c r ->. inversion F as [|? ? [X _] _]; subst. exact X. Qed.
End F.
