(** Thresholds: round trips. *)
From Coq Require Import QArith Lia.
From Verif Require Import Base Utf8 B64 Util MatterTables Matter StdStr Data Json Prims Spec Tholder TholderDefs BaseFacts B64Facts UtilFacts MatterFacts MatterFacts2 MatterDefs StdStrFacts SpecFacts PrimsDefs PrimsFacts PrimsFacts2 PrimsThms TholderFacts TholderFacts2 TholderFacts3 TholderFacts4.
Open Scope N_scope.

Section R.
Context `{P : Profile}.
(** ** the text of the limen *)
Lemma limen_text z m : wf m z -> In (m_code m) (number_codes ++ bexter_codes) -> forall s, process_limen s (text_of z m) =
  (if mem_code (m_code m) number_codes then
      number <- number_of_text (text_of z m) ;;
      num <- number_num number ;;
      if 2 ^ 63 - 1 <? num then Err E_TryFromInt else process_unweighted (Z.of_N num)
    else
      bexter <- bexter_of_text (text_of z m) ;;
      bext <- bext_of bexter ;;
      let t := replace_char 115 47 bext in
      process_weighted (VArr (map (fun clause => VArr (map VStr (split_on 99 clause))) (split_on 97 t)))).
Proof.
  intros W I s. pose proof (all_b64_ascii _ (all_b64_text z m W)) as A. remember (text_of z m) as q eqn:Eq0.
  assert (E : exists r, q = m_code m ++ r) by (subst q; unfold text_of, both_of; rewrite <- app_assoc; eauto). destruct E as [r Er].
  assert (H : exists c code', m_code m = c :: code' /\ hardage c = Ok (len (m_code m)) /\ (mem_code (m_code m) number_codes = false -> mem_code (m_code m) bexter_codes = true)).
  { revert I. clear. generalize (m_code m). intros code I. cbn in I. repeat (destruct I as [<-|I]; [eexists; eexists; split; [reflexivity|]; split; [vm_compute; reflexivity|vm_compute; auto; discriminate]|]). contradiction. }
  destruct H as (c & code' & Ec & Hh & Hm). rewrite Er. rewrite Ec at 1. cbn [app process_limen]. rewrite app_comm_cons, <- Ec, <- Er.
  rewrite (from_utf8_ascii q A). cbn [obind]. rewrite Hh. cbn [obind]. rewrite str_slice_ascii by (auto; rewrite ?Er, ?len_app; Lia.lia). cbn [obind]. rewrite N.sub_0_r, drop_0.
  assert (T : take (len (m_code m)) q = m_code m) by (rewrite Er; apply take_app_exact; reflexivity). rewrite T.
  destruct (mem_code (m_code m) number_codes) eqn:Em; [reflexivity|]. rewrite Hm by reflexivity. reflexivity.
Qed.

(** ** numeric *)
Lemma numeric_limen n t : numeric n t -> exists l, tholder_limen t = Ok l /\ l <> [] /\ forall s, process_limen s l = Ok t.
Proof.
  intros N. pose proof (numeric_process n t N) as Pu. destruct N as [Hn (m & Em & ->)].
  assert (H128 : n < 2 ^ 128) by (eapply N.lt_trans; [exact Hn|reflexivity]).
  destruct (C28_number_pf P n H128) as (m' & w & E' & Hnum & _ & Iw & _ & _ & _ & q & b & Q1 & _ & Q3 & _). rewrite Em in E'. apply Ok_inj in E'. subst m'.
  pose proof (number_of_ok n H128) as Eo. pose proof (nw_cases n H128) as X. destruct (nw n) as [c k]. destruct X as (_ & _ & _ & f & If). cbn [fst snd] in Eo. rewrite Em in Eo. apply Ok_inj in Eo.
  destruct (fixed_wf _ _ _ (to_be k n) If (len_to_be k n) (bytes_ok_to_be k n)) as (z & W & _). rewrite <- Eo in W.
  assert (Eq : q = text_of z m). { pose proof (infil_wf z m W) as Y. unfold matter_qb64 in Q1. rewrite Y in Q1. apply Ok_inj in Q1. auto. } subst q.
  assert (Ic : In (m_code m) number_codes). { assert (Y : In (m_code m) (map fst number_widths)) by (apply in_map_iff; exists (m_code m, w); auto). cbn in Y. cbn. tauto. }
  exists (text_of z m). split; [exact Q1|]. split.
  - intros Y. pose proof (limen_text z m W (in_or_app _ _ _ (or_introl Ic)) tholder_default) as L. rewrite Y in L. cbn [process_limen] in L. rewrite (proj2 (mem_code_In _ _) Ic) in L. rewrite <- Y, Q3 in L. cbn [obind] in L. rewrite Hnum in L. cbn [obind] in L.
    replace (2 ^ 63 - 1 <? n) with false in L by (symmetry; apply N.ltb_ge; apply N.lt_le_incl; eapply N.lt_trans; [exact Hn|reflexivity]). rewrite Pu in L. discriminate L.
  - intros s. rewrite (limen_text z m W (in_or_app _ _ _ (or_introl Ic))). rewrite (proj2 (mem_code_In _ _) Ic), Q3. cbn [obind]. rewrite Hnum. cbn [obind].
    replace (2 ^ 63 - 1 <? n) with false by (symmetry; apply N.ltb_ge; apply N.lt_le_incl; eapply N.lt_trans; [exact Hn|reflexivity]). exact Pu.
Qed.
(** hexadecimal text with sign *)
Lemma parse_hex_i64_to_hex n : n < 2 ^ 32 -> parse_hex_i64 (to_hex n) = Ok (Z.of_N n) /\ starts_with (s2b "[") (to_hex n) = false.
Proof.
  intros Hn. destruct (to_radix_first 16 n) as (c & r & E & Hc); try lia. unfold to_hex, parse_hex_i64. split.
  - rewrite E. rewrite parse_int_digits by Lia.lia. rewrite <- E. rewrite digits_val_radix by lia.
    replace ((- 2 ^ 63 <=? Z.of_N n) && (Z.of_N n <=? 2 ^ 63 - 1))%Z with true; [reflexivity|]. symmetry. apply andb_true_iff. change (2 ^ 32) with 4294967296 in Hn. change (2 ^ 63)%Z with 9223372036854775808%Z. split; apply Z.leb_le; Lia.lia.
  - rewrite E. change (s2b "[") with [91]. unfold starts_with. destruct (N.eqb_spec 91 c); [exfalso; Lia.lia|]. reflexivity.
Qed.
Lemma numeric_sith `{Floats} n t : numeric n t -> tholder_sith t = Ok (VStr (to_hex n)) /\ process_sith (VStr (to_hex n)) = Ok t.
Proof.
  intros N. pose proof (numeric_process n t N) as Pu. destruct N as [Hn (m & Em & ->)]. destruct (parse_hex_i64_to_hex n Hn) as [E1 E2]. split.
  - unfold tholder_sith. cbn [th_weighted th_thold to_i64 obind]. rewrite Z.mod_small by (change (2 ^ 32) with 4294967296 in Hn; change (2 ^ 64)%Z with 18446744073709551616%Z; Lia.lia). rewrite N2Z.id. reflexivity.
  - cbn [process_sith]. rewrite E2, E1. cbn [obind]. exact Pu.
Qed.

(** ** weighted *)
Definition wchar (sep c : N) : Prop := 48 <= c <= 57 \/ c = sep.
Lemma show_int_nonneg z : (0 <= z)%Z -> show_int z = to_dec (Z.to_N z).
Proof. intros H. unfold show_int. replace (z <? 0)%Z with false by (symmetry; apply Z.ltb_ge; exact H). reflexivity. Qed.
Lemma show_weight_chars sep r w c : stands_for r w -> In c (show_weight sep r) -> wchar sep c.
Proof.
  intros ((Hd & Hn & _) & _) I. unfold show_weight in I. rewrite !show_int_nonneg in I by Lia.lia. destruct (denom r =? 1)%Z; [left; eapply to_dec_chars; eauto|].
  apply in_app_iff in I as [I|I]; [left; eapply to_dec_chars; eauto|]. destruct I as [<-|I]; [right; reflexivity|left; eapply to_dec_chars; eauto].
Qed.
Lemma replace_digits a b n : ~ (48 <= a <= 57) -> replace_char a b (to_dec n) = to_dec n.
Proof.
  intros Ha. unfold replace_char. rewrite <- (map_id (to_dec n)) at 2. apply map_ext_in. intros c I. apply to_dec_chars in I. destruct (N.eqb_spec c a) as [->|]; [contradiction|reflexivity].
Qed.
Lemma replace_show r w : stands_for r w -> replace_char 115 47 (show_weight 115 r) = show_weight 47 r.
Proof.
  intros ((Hd & Hn & _) & _). unfold show_weight. rewrite !show_int_nonneg by Lia.lia. destruct (denom r =? 1)%Z; [apply replace_digits; Lia.lia|].
  unfold replace_char. rewrite !map_app. fold (replace_char 115 47 (to_dec (Z.to_N (numer r)))). fold (replace_char 115 47 (to_dec (Z.to_N (denom r)))). rewrite !replace_digits by Lia.lia. reflexivity.
Qed.
Lemma replace_join a b c l : c <> a -> replace_char a b (join [c] l) = join [c] (map (replace_char a b) l).
Proof.
  intros H. induction l as [|p l IH]; [reflexivity|]. destruct l as [|q l]; [reflexivity|]. cbn [map] in *. 
  change (join [c] (p :: q :: l)) with (p ++ [c] ++ join [c] (q :: l)). unfold replace_char at 1. rewrite !map_app. fold (replace_char a b p). fold (replace_char a b (join [c] (q :: l))). rewrite IH.
  cbn [map]. destruct (N.eqb_spec c a); [contradiction|]. reflexivity.
Qed.
Lemma join_chars sep l c : In c (join [sep] l) -> c = sep \/ exists p, In p l /\ In c p.
Proof.
  induction l as [|p l IH]; [intros []|]. destruct l as [|q l]; [intros I; right; exists p; split; [left; auto|exact I]|].
  change (join [sep] (p :: q :: l)) with (p ++ [sep] ++ join [sep] (q :: l)). rewrite in_app_iff. intros [I|[<-|I]]; [right; exists p; split; [left; auto|exact I]|auto|]. destruct (IH I) as [->|(x & Ix & Ic)]; [auto|right; exists x; split; [right; exact Ix|exact Ic]].
Qed.
Lemma Forall2_In_l {A B} (R : A -> B -> Prop) l l' x : Forall2 R l l' -> In x l -> exists y, In y l' /\ R x y.
Proof. induction 1 as [|a b l l' H F IH]; [intros []|]. intros [->|I]; [exists b; split; [left; auto|auto]|]. destruct (IH I) as (y & Iy & Hy). exists y. split; [right; auto|auto]. Qed.
Definition clause_text (sep : N) (c : list ratio) : bytes := join [99] (map (show_weight sep) c).
Lemma clause_text_chars sep c ws x : Forall2 stands_for c ws -> In x (clause_text sep c) -> wchar sep x \/ x = 99.
Proof.
  intros F I. apply join_chars in I as [->|(p & Ip & Ix)]; [auto|]. apply in_map_iff in Ip as (r & <- & Ir). destruct (Forall2_In_l _ _ _ _ F Ir) as (w & _ & Sw). left. eapply show_weight_chars; eauto.
Qed.
Lemma bext_chars rs cs x : Forall2 (Forall2 stands_for) rs cs -> In x (rationals_to_bext rs) -> 48 <= x <= 57 \/ x = 115 \/ x = 99 \/ x = 97.
Proof.
  intros F I. unfold rationals_to_bext in I. apply join_chars in I as [->|(p & Ip & Ix)]; [auto|]. apply in_map_iff in Ip as (c & <- & Ic). destruct (Forall2_In_l _ _ _ _ F Ic) as (ws & _ & Sw). destruct (clause_text_chars 115 c ws x Sw Ix) as [[|]|]; auto.
Qed.
Lemma bext_b64 rs cs : Forall2 (Forall2 stands_for) rs cs -> b64_text (rationals_to_bext rs).
Proof.
  intros F x I. apply (bext_chars rs cs x F) in I. 
  assert (X : x = 48 \/ x = 49 \/ x = 50 \/ x = 51 \/ x = 52 \/ x = 53 \/ x = 54 \/ x = 55 \/ x = 56 \/ x = 57 \/ x = 115 \/ x = 99 \/ x = 97) by Lia.lia.
  clear - X. repeat (destruct X as [->|X]; [vm_compute; tauto|]). subst x. vm_compute. tauto.
Qed.
Lemma bext_split rs cs : Forall2 (Forall2 stands_for) rs cs -> rs <> [] -> Forall (fun c => c <> []) rs ->
  VArr (map (fun clause => VArr (map VStr (split_on 99 clause))) (split_on 97 (replace_char 115 47 (rationals_to_bext rs)))) = outer rs.
Proof.
  intros F Hne Hc. unfold rationals_to_bext. change (s2b "a") with [97]. change (s2b "c") with [99]. rewrite replace_join by discriminate. rewrite map_map.
  assert (E : map (fun c => replace_char 115 47 (join [99] (map (show_weight 115) c))) rs = map (clause_text 47) rs).
  { clear Hne Hc. induction F as [|c ws rs cs H F IH]; [reflexivity|]. cbn [map]. rewrite IH. f_equal. rewrite replace_join by discriminate. unfold clause_text. f_equal. rewrite map_map. clear -H. induction H as [|r w c ws H F IH]; [reflexivity|]. cbn [map]. rewrite IH. f_equal. eapply replace_show; eauto. }
  rewrite E. rewrite split_join; [|destruct rs; [congruence|discriminate]|].
  - unfold outer, clause_texts. rewrite !map_map. f_equal. clear E Hne. induction F as [|c ws rs cs H F IH]; [reflexivity|]. inversion Hc; subst. cbn [map]. rewrite IH by auto. f_equal. unfold clause_text. rewrite split_join; [reflexivity|destruct c; [congruence|discriminate]|].
    clear -H. induction H as [|r w c ws H F IH]; cbn [map]; constructor; auto. intros I. apply (show_weight_chars 47 r w 99 H) in I. unfold wchar in I. Lia.lia.
  - clear E Hne Hc. induction F as [|c ws rs cs H F IH]; cbn [map]; constructor; auto. intros I. apply (clause_text_chars 47 c ws 97 H) in I. unfold wchar in I. Lia.lia.
Qed.
Lemma len_join sep l : len (join [sep] l) <= fold_right (fun p s => len p + 1 + s) 0 l.
Proof.
  induction l as [|p l IH]; [vm_compute; discriminate|]. destruct l as [|q l]; [cbn [join fold_right]; Lia.lia|].
  change (join [sep] (p :: q :: l)) with (p ++ [sep] ++ join [sep] (q :: l)). rewrite !len_app. change (len [sep]) with 1. remember (q :: l) as ql. cbn [fold_right]. Lia.lia.
Qed.
Lemma len_join_eq sep l : l <> [] -> len (join [sep] l) + 1 = fold_right (fun p s => len p + 1 + s) 0 l.
Proof.
  induction l as [|p l IH]; [congruence|]. intros _. destruct l as [|q l]; [cbn [join fold_right]; Lia.lia|].
  change (join [sep] (p :: q :: l)) with (p ++ [sep] ++ join [sep] (q :: l)). rewrite !len_app. change (len [sep]) with 1. specialize (IH ltac:(discriminate)). remember (q :: l) as ql. cbn [fold_right]. Lia.lia.
Qed.
Lemma len_show r w : stands_for r w -> len (show_weight 115 r) = len (show (lowest w)).
Proof. intros S. rewrite <- (show_weight_show r w S), <- (replace_show r w S). unfold replace_char. rewrite len_map. reflexivity. Qed.
(** characters needed by the weights *)
Lemma text_length_app a b : text_length (a ++ b) = text_length a + text_length b.
Proof. induction a as [|w a IH]; [reflexivity|]. cbn [app text_length fold_right]. fold (text_length (a ++ b)) (text_length a). rewrite IH. Lia.lia. Qed.
Lemma len_bext rs cs : Forall2 (Forall2 stands_for) rs cs -> rs <> [] -> Forall (fun c => c <> []) rs -> len (rationals_to_bext rs) + 1 = text_length (concat (map (map lowest) cs)).
Proof.
  intros F Hne Hc. unfold rationals_to_bext. change (s2b "a") with [97]. change (s2b "c") with [99]. rewrite len_join_eq by (destruct rs; [congruence|discriminate]). clear Hne.
  induction F as [|c ws rs cs H F IH]; [reflexivity|]. inversion Hc; subst. cbn [map fold_right concat]. rewrite text_length_app, IH by auto. f_equal.
  rewrite len_join_eq by (destruct c; [congruence|discriminate]). clear -H. induction H as [|r w c ws H F IH]; [reflexivity|]. cbn [map fold_right text_length]. fold (text_length (map lowest ws)). rewrite IH, (len_show r w H). reflexivity.
Qed.
Lemma bext_not_A rs cs : Forall2 (Forall2 stands_for) rs cs -> bext_shown (rationals_to_bext rs) = rationals_to_bext rs.
Proof.
  intros F. unfold bext_shown. destruct (rationals_to_bext rs) as [|c r] eqn:E; [reflexivity|]. assert (X : 48 <= c <= 57 \/ c = 115 \/ c = 99 \/ c = 97) by (apply (bext_chars rs cs c F); rewrite E; left; auto).
  destruct (N.eqb_spec c 65); [exfalso; Lia.lia|]. rewrite Bool.andb_false_r. reflexivity.
Qed.
Lemma check_nonempty c : check_clause c = Ok tt -> c <> [].
Proof. intros H ->. vm_compute in H. discriminate. Qed.
Lemma bexter_codes_ok t m : b64_text t -> len t <= 64 ^ 4 * 4 - 4 -> bexter_of t = Ok m -> exists z, wf m z /\ In (m_code m) bexter_codes.
Proof.
  intros Ht Hl E. apply b64_text_all in Ht. destruct (rawify_ok t Ht) as (raw & Hr & Hb & He & Hlen). assert (Hq : (len t + 3) / 4 < 64 ^ 4) by (npow; lia).
  rewrite (bexter_of_eq t raw Ht Hr) in E by (auto; unfold U32; npow; lia). cbv zeta in E. replace (_ <? 64 ^ 4) with true in E by lia. apply Ok_inj in E. subst m.
  destruct (bext_wf t raw Hlen Hb Hq) as (z & W & Hz). exists z. split; [exact W|]. cbn [m_code]. assert (ls_of t = 0 \/ ls_of t = 1 \/ ls_of t = 2) as [E|[E|E]] by (unfold ls_of; lia); unfold bext_code; rewrite E; destruct (_ <? 64 ^ 2); vm_compute; tauto.
Qed.
Lemma weighted_limen v t rs cs : process_weighted v = Ok t -> values_to_rationals v = Ok rs -> Forall2 (Forall2 stands_for) rs cs -> rs <> [] ->
  text_length (concat (map (map lowest) cs)) <= 2 ^ 32 ->
  exists l, tholder_limen t = Ok l /\ l <> [] /\ forall s, process_limen s l = Ok t.
Proof.
  intros H Hv F Hne Hlen. pose proof (process_weighted_again v t H) as Ag. destruct (process_weighted_inv v t H) as (rs' & m & H1 & H2 & H3 & Et). rewrite Hv in H1. apply Ok_inj in H1. subst rs'.
  assert (Hc : Forall (fun c => c <> []) rs). { apply vtr_ok in Hv as (_ & _ & _ & K). eapply Forall_impl; [|exact K]. intros c. apply check_nonempty. }
  pose proof (len_bext rs cs F Hne Hc) as L. pose proof (bext_b64 rs cs F) as B. set (x := rationals_to_bext rs) in *.
  assert (Lx : len x < 2 ^ 32) by Lia.lia. assert (Lm : len x <= 64 ^ 4 * 4 - 4). { destruct (N.le_gt_cases (len x) (64 ^ 4 * 4 - 4)) as [|X]; [auto|]. exfalso. rewrite (proj2 (C33_rejects_pf P x) B X Lx) in H3. discriminate. }
  destruct (C33_round_trip_pf P x B Lm) as (m' & q & b & R1 & R2 & R3 & _ & R5 & _). rewrite H3 in R1. apply Ok_inj in R1. subst m'. destruct (bexter_codes_ok x m B Lm H3) as (z & W & Ic).
  assert (Eq : q = text_of z m). { pose proof (infil_wf z m W) as Y. unfold matter_qb64 in R3. rewrite Y in R3. apply Ok_inj in R3. auto. } subst q.
  assert (G : forall s, process_limen s (text_of z m) = Ok t).
  { intros s. rewrite (limen_text z m W (in_or_app _ _ _ (or_intror Ic))). replace (mem_code (m_code m) number_codes) with false.
    - rewrite R5. cbn [obind]. rewrite R2. cbn [obind]. cbv zeta. unfold x. rewrite (bext_not_A rs cs F). rewrite (bext_split rs cs F Hne Hc). rewrite Et in Ag at 1. exact Ag.
    - symmetry. clear -Ic. revert Ic. generalize (m_code m). intros c I. cbn in I. repeat (destruct I as [<-|I]; [vm_compute; reflexivity|]). contradiction. }
  exists (text_of z m). split; [rewrite Et; exact R3|]. split; [|exact G].
  intros Y. specialize (G tholder_default). rewrite Y in G. cbn [process_limen] in G. apply Ok_inj in G. rewrite Et in G. discriminate G.
Qed.
Lemma outer_sith `{Floats} v t rs : process_weighted v = Ok t -> values_to_rationals v = Ok rs -> rs <> [] ->
  exists l, tholder_sith t = Ok (VArr l) /\ process_sith_list (VArr l) = Ok t.
Proof.
  intros HP Hv Hne. pose proof (process_weighted_again v t HP) as Ag. destruct (process_weighted_inv v t HP) as (rs' & m & H1 & H2 & H3 & Et). rewrite Hv in H1. apply Ok_inj in H1. subst rs'.
  assert (Hc : Forall (fun c => c <> []) rs). { apply vtr_ok in Hv as (_ & _ & _ & K). eapply Forall_impl; [|exact K]. intros c. apply check_nonempty. }
  set (ts := map (map (show_weight 47)) rs) in *. assert (Eo : outer rs = clause_texts ts) by reflexivity.
  assert (Txt : forall ts, each (fun clause => ws <- to_vec clause ;; if forallb is_text ws then Ok tt else Err E_Value) (map (fun c => VArr (map VStr c)) ts) = Ok (map (fun _ => tt) ts)).
  { clear. intros ts. apply each_ok. induction ts as [|c ts IH]; cbn [map]; constructor; auto. cbn [to_vec obind]. replace (forallb is_text (map VStr c)) with true; [reflexivity|]. symmetry. clear. induction c; [reflexivity|exact IHc]. }
  assert (Vec : forallb is_vec (map (fun c => VArr (map VStr c)) ts) = true) by (clear; induction ts; [reflexivity|exact IHts]).
  rewrite Et in Ag at 1. cbn [th_thold] in Ag. rewrite Eo in Ag.
  assert (Hts : ts <> []) by (unfold ts; destruct rs; [congruence|discriminate]). assert (Hct : Forall (fun c => c <> []) ts) by (unfold ts; clear -Hc; induction Hc as [|c rs H F IH]; cbn [map]; constructor; auto; destruct c; [congruence|discriminate]).
  unfold tholder_sith. replace (th_weighted t) with true by (rewrite Et; reflexivity). replace (th_thold t) with (outer rs) by (rewrite Et; reflexivity). rewrite Eo. cbn [clause_texts to_vec obind]. rewrite len_map.
  destruct ts as [|c ts']; [congruence|]. destruct ts' as [|c' ts'].
  - change (len [c] =? 1) with true. cbv iota. exists (map VStr c). split; [reflexivity|]. unfold process_sith_list. cbn [to_vec obind]. inversion Hct as [|? ? Hcc _]; subst. destruct c as [|x c]; [congruence|]. cbn [map].
    cbn [forallb is_vec andb]. cbv zeta iota. cbn [to_vec obind]. specialize (Txt [x :: c]). cbn [map] in Txt. rewrite Txt. cbn [obind]. exact Ag.
  - replace (len (c :: c' :: ts') =? 1) with false by (symmetry; apply N.eqb_neq; rewrite !len_cons; Lia.lia). eexists. split; [reflexivity|]. unfold process_sith_list. cbn [to_vec obind]. set (tt' := c :: c' :: ts') in *.
    remember (map (fun c => VArr (map VStr c)) tt') as arr eqn:Ea. destruct arr as [|a arr]; [discriminate Ea|]. rewrite Vec. cbv zeta. cbn [to_vec obind]. rewrite Ea, Txt. cbn [obind]. exact Ag.
Qed.
End R.
