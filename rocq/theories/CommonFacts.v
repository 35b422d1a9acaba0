From Verif Require Import Base Utf8 StdStr Data Json Spec Prims Common CommonDefs.
From Verif Require Import BaseFacts StdStrFacts UtilFacts SpecFacts DataFacts PrimsFacts.

(** ** hexadecimal numerals *)
Lemma hexl_iff c : is_hexl c = true <-> exists d, d < 16 /\ c = digit_char d.
Proof.
  unfold is_hexl, digit_char. split.
  - intros H. destruct (N.leb_spec 48 c), (N.leb_spec c 57), (N.leb_spec 97 c), (N.leb_spec c 102); cbn in H; try discriminate; try lia.
    + exists (c - 48). split; [lia|]. replace (c - 48 <? 10) with true by lia. lia.
    + exists (c - 87). split; [lia|]. replace (c - 87 <? 10) with false by lia. lia.
  - intros [d [Hd ->]]. destruct (N.ltb_spec d 10); lia.
Qed.
Lemma digit_char_nth d : d < 16 -> nth (N.to_nat d) (s2b "0123456789abcdef") 0 = digit_char d.
Proof.
  intros H. assert (I : In d (map N.of_nat (seq 0 16))).
  { apply in_map_iff. exists (N.to_nat d). split; [lia|]. apply in_seq. lia. }
  cbn in I. repeat (destruct I as [<-|I]; [reflexivity|]). destruct I.
Qed.
Lemma hex_text_digits k n : hex_text k n = map digit_char (digits 16 (N.to_nat k) n).
Proof.
  unfold hex_text. rewrite numeral_digits by lia. apply map_ext_in. intros d I. apply digit_char_nth.
  pose proof (digits_lt 16 (N.to_nat k) n ltac:(lia)) as F. rewrite Forall_forall in F. auto.
Qed.
Lemma len_hex_text k n : len (hex_text k n) = k.
Proof. rewrite hex_text_digits, len_map, len_digits. lia. Qed.
Lemma hex_text_hexl k n c : In c (hex_text k n) -> is_hexl c = true.
Proof.
  rewrite hex_text_digits. intros I. apply in_map_iff in I as [d [<- I]]. apply hexl_iff. exists d. split; auto.
  pose proof (digits_lt 16 (N.to_nat k) n ltac:(lia)) as F. rewrite Forall_forall in F. auto.
Qed.
Lemma hexl_hex_text s : (forall c, In c s -> is_hexl c = true) -> exists n, n < 16 ^ len s /\ s = hex_text (len s) n.
Proof.
  intros H. assert (X : exists ds, Forall (fun d => d < 16) ds /\ s = map digit_char ds).
  { induction s as [|c s IH]; [exists []; split; [constructor|reflexivity]|]. destruct IH as [ds [F ->]]; [intros; apply H; right; auto|].
    destruct (proj1 (hexl_iff c) (H c (or_introl eq_refl))) as [d [Hd ->]]. exists (d :: ds). split; [constructor; auto|reflexivity]. }
  destruct X as [ds [F ->]]. exists (val 16 ds). rewrite len_map. split; [apply val_lt; [lia|auto]|].
  rewrite hex_text_digits. f_equal. unfold len. rewrite Nnat.Nat2N.id. symmetry. apply UtilFacts.digits_val; [lia|auto].
Qed.
Lemma hex_text_val k n : n < 16 ^ k -> StdStr.digits_val 16 (hex_text k n) 0 = Some n.
Proof.
  intros H. rewrite hex_text_digits. rewrite (digits_val_ok 16 _ (digits 16 (N.to_nat k) n)).
  - rewrite digits_small; [reflexivity|lia|rewrite Nnat.N2Nat.id; auto].
  - assert (G : forall ds, Forall (fun d => d < 16) ds -> Forall2 (fun c d => digit_val 16 c = Some d) (map digit_char ds) ds).
    { induction 1; cbn; constructor; auto. apply digit_val_char; lia. }
    apply G, digits_lt. lia.
Qed.
Lemma hex_text_inj k m n : m < 16 ^ k -> n < 16 ^ k -> hex_text k m = hex_text k n -> m = n.
Proof. intros Hm Hn E. pose proof (hex_text_val k m Hm) as X. rewrite E, hex_text_val in X by auto. congruence. Qed.
Lemma parse_hex_text k n max : 0 < k -> n < 16 ^ k -> n <= max -> parse_hex max (hex_text k n) = Ok n.
Proof.
  intros Hk Hn Hm. unfold parse_hex. pose proof (len_hex_text k n) as L. destruct (hex_text k n) as [|c r] eqn:E; [exfalso; rewrite len_nil in L; clear Hn; lia|].
  assert (Hc : is_hexl c = true) by (apply (hex_text_hexl k n); rewrite E; left; auto).
  rewrite parse_uint_digits by (intros ->; discriminate Hc). rewrite <- E, hex_text_val by auto. replace (n <=? max) with true by lia. reflexivity.
Qed.
Lemma to_hex_len n w : 0 < w -> (len (to_hex n) <= w <-> n < 16 ^ w).
Proof.
  intros Hw. unfold to_hex. destruct (to_radix_spec 16 n) as [ds [-> [F [V [Ne [Hh Hz]]]]]]; try lia. rewrite len_map. split.
  - intros H. rewrite <- V. eapply N.lt_le_trans; [apply val_lt; [lia|auto]|]. apply N.pow_le_mono_r; lia.
  - intros H. destruct (N.eq_dec n 0) as [->|Nz]; [rewrite (Hz eq_refl); change (len [0]) with 1; clear - Hw; lia|]. destruct (Hh Nz) as [h [t [-> Hn]]]. rewrite val_cons in V. rewrite len_cons.
    destruct (N.lt_ge_cases (len t) w); [lia|]. exfalso. assert (16 ^ w <= 16 ^ len t) by (apply N.pow_le_mono_r; lia). nia.
Qed.
Lemma hex_padded_text w n : 0 < w -> n < 16 ^ w -> hex_padded w n = hex_text w n.
Proof.
  intros Hw Hn. unfold hex_padded. cbv zeta. pose proof (proj2 (to_hex_len n w Hw) Hn) as L. rewrite hex_text_digits.
  unfold to_hex in *. destruct (to_radix_spec 16 n) as [ds [E [F [V _]]]]; try lia. rewrite E in *. rewrite len_map in *.
  replace (rep 48 (w - len ds)) with (map digit_char (rep 0 (w - len ds))).
  2:{ unfold rep. clear. induction (N.to_nat (w - len ds)) as [|k IH]; [reflexivity|]. cbn [repeat map]. rewrite IH. reflexivity. }
  rewrite <- map_app. f_equal. apply (val_inj 16); [lia| |apply digits_lt; lia| |].
  - apply Forall_app. split; auto. apply Forall_forall. intros x I. apply repeat_spec in I. lia.
  - rewrite len_app, len_rep, len_digits. lia.
  - rewrite digits_small; [|lia|rewrite Nnat.N2Nat.id; auto]. rewrite val_app, V.
    assert (Z : forall k, val 16 (rep 0 k) = 0). { intros k. unfold rep. induction (N.to_nat k) as [|j IH]; [reflexivity|]. cbn [repeat]. rewrite val_cons, IH. lia. }
    rewrite Z. lia.
Qed.
Lemma hex_padded_len w n : 0 < w -> len (hex_padded w n) = N.max w (len (to_hex n)).
Proof. intros Hw. unfold hex_padded. cbv zeta. rewrite len_app, len_rep. lia. Qed.

(** ** the pattern *)
Lemma match_at_split p q s : match_at (p ++ q) s = match_at p s && match_at q (drop (len p) s).
Proof.
  revert s. induction p as [|f p IH]; intros s; [reflexivity|]. destruct s as [|c s].
  - cbn. reflexivity.
  - cbn [app match_at]. rewrite IH, andb_assoc. rewrite len_cons. f_equal. f_equal. unfold drop. replace (N.to_nat (1 + len p)) with (S (N.to_nat (len p))) by lia. reflexivity.
Qed.
Lemma match_at_repeat f k s : match_at (repeat f k) s = true <-> exists a r, s = a ++ r /\ len a = N.of_nat k /\ forall c, In c a -> f c = true.
Proof.
  revert s. induction k as [|k IH]; intros s.
  - split; [intros _; exists [], s; split; [reflexivity|split; [reflexivity|intros ? []]]|reflexivity].
  - cbn [repeat]. destruct s as [|c s]; cbn [match_at].
    + split; [discriminate|]. intros [a [r [E [L _]]]]. destruct a; [rewrite len_nil in L; lia|discriminate].
    + rewrite andb_true_iff, IH. split.
      * intros [Hc [a [r [-> [L H]]]]]. exists (c :: a), r. split; [reflexivity|]. split; [rewrite len_cons; lia|]. intros x [<-|I]; auto.
      * intros [a [r [E [L H]]]]. destruct a as [|x a]; [rewrite len_nil in L; lia|]. injection E as -> ->. split; [apply H; left; auto|]. exists a, r. split; [reflexivity|]. rewrite len_cons in L. split; [lia|]. intros; apply H; right; auto.
Qed.
Lemma match_at_rep f k s : match_at (rep f k) s = true <-> exists a r, s = a ++ r /\ len a = k /\ forall c, In c a -> f c = true.
Proof. unfold rep. rewrite match_at_repeat, Nnat.N2Nat.id. reflexivity. Qed.
Lemma rever_pattern_eq : rever_pattern = rep is_upper 4 ++ rep is_hexl 1 ++ rep is_hexl 1 ++ rep is_upper 4 ++ rep is_hexl 6 ++ rep (N.eqb 95) 1.
Proof. reflexivity. Qed.
Lemma upper_iff c : is_upper c = true <-> 65 <= c <= 90.
Proof. unfold is_upper. lia. Qed.
Lemma rever_at_iff s : rever_at s = true <-> exists w r, version_like w /\ s = w ++ r.
Proof.
  unfold rever_at. rewrite rever_pattern_eq. rewrite !match_at_split, !andb_true_iff. rewrite !match_at_rep, !drop_drop, !len_rep.
  change (4 + 1) with 5. change (5 + 1) with 6. change (6 + 4) with 10. change (10 + 6) with 16. split.
  - intros [[a1 [r1 [E1 [L1 H1]]]] [[a2 [r2 [E2 [L2 H2]]]] [[a3 [r3 [E3 [L3 H3]]]] [[a4 [r4 [E4 [L4 H4]]]] [[a5 [r5 [E5 [L5 H5]]]] [a6 [r6 [E6 [L6 H6]]]]]]]]].
    subst s. rewrite (drop_app_exact 4) in E2 by auto. subst r1.
    replace 5 with (4 + 1) in E3 by reflexivity. rewrite <- drop_drop, (drop_app_exact 4), (drop_app_exact 1) in E3 by auto. subst r2.
    replace 6 with (4 + (1 + 1)) in E4 by reflexivity. rewrite <- !drop_drop, (drop_app_exact 4), (drop_app_exact 1), (drop_app_exact 1) in E4 by auto. subst r3.
    replace 10 with (4 + (1 + (1 + 4))) in E5 by reflexivity. rewrite <- !drop_drop, (drop_app_exact 4), (drop_app_exact 1), (drop_app_exact 1), (drop_app_exact 4) in E5 by auto. subst r4.
    replace 16 with (4 + (1 + (1 + (4 + 6)))) in E6 by reflexivity. rewrite <- !drop_drop, (drop_app_exact 4), (drop_app_exact 1), (drop_app_exact 1), (drop_app_exact 4), (drop_app_exact 6) in E6 by auto. subst r5.
    destruct (hexl_hex_text a2 H2) as [n2 [N2 T2]]. destruct (hexl_hex_text a3 H3) as [n3 [N3 T3]]. destruct (hexl_hex_text a5 H5) as [n5 [N5 T5]].
    rewrite L2 in *. rewrite L3 in *. rewrite L5 in *.
    exists (version_text a1 n2 n3 a4 n5), r6. split.
    + exists a1, n2, n3, a4, n5. split; [split; auto; intros c I; apply upper_iff; auto|]. split; [split; auto; intros c I; apply upper_iff; auto|]. split; [exact N2|]. split; [exact N3|]. split; [exact N5|reflexivity].
    + unfold version_text. rewrite <- T2, <- T3, <- T5, <- !app_assoc. do 5 f_equal. destruct a6 as [|x [|y a6]]; rewrite ?len_cons in L6; [rewrite len_nil in L6; lia| |lia].
      specialize (H6 x (or_introl eq_refl)). apply N.eqb_eq in H6. subst x. reflexivity.
  - intros [w [r [[ident [major [minor [kind [size [[Li Hi] [[Lk Hk] [Hm [Hn [Hs ->]]]]]]]]]] ->]]]. unfold version_text. rewrite <- !app_assoc.
    assert (D4 : forall t, drop 4 (ident ++ t) = t) by (intros; apply drop_app_exact; auto).
    assert (D1 : forall n t, drop 1 (hex_text 1 n ++ t) = t) by (intros; apply drop_app_exact; apply len_hex_text).
    assert (D4' : forall t, drop 4 (kind ++ t) = t) by (intros; apply drop_app_exact; auto).
    assert (D6 : forall n t, drop 6 (hex_text 6 n ++ t) = t) by (intros; apply drop_app_exact; apply len_hex_text).
    replace 5 with (4 + 1) by reflexivity. replace 10 with (4 + (1 + (1 + 4))) by reflexivity. replace 16 with (4 + (1 + (1 + (4 + 6)))) by reflexivity.
    replace (drop 6 (ident ++ hex_text 1 major ++ hex_text 1 minor ++ kind ++ hex_text 6 size ++ s2b "_" ++ r)) with (kind ++ hex_text 6 size ++ s2b "_" ++ r)
      by (change (drop 6) with (@drop N (4 + (1 + 1))); rewrite <- !drop_drop, D4, !D1; reflexivity).
    rewrite <- !drop_drop, !D4, !D1, D4', D6.
    repeat split; eexists _, _; (split; [reflexivity|]); (split; [try reflexivity; try apply len_hex_text; auto|]); intros c I; try (apply (hex_text_hexl _ _ _ I)); try (apply upper_iff; auto).
    destruct I as [<-|[]]. reflexivity.
Qed.
Lemma version_text_len i a b k n : tag i -> tag k -> len (version_text i a b k n) = 17.
Proof. intros [Li _] [Lk _]. unfold version_text. rewrite !len_app, !len_hex_text, Li, Lk. reflexivity. Qed.
Lemma version_like_len w : version_like w -> len w = 17.
Proof. intros [i [a [b [k [n [Ti [Tk [_ [_ [_ ->]]]]]]]]]]. apply version_text_len; auto. Qed.

(** ** searching *)
Lemma rever_find_spec s : match rever_find s with
  | Some k => k + 17 <= len s /\ rever_at (drop k s) = true /\ forall j, j < k -> rever_at (drop j s) = false
  | None => forall j, rever_at (drop j s) = false end.
Proof.
  induction s as [|c s IH].
  - intros j. rewrite drop_nil. reflexivity.
  - cbn [rever_find]. destruct (rever_at (c :: s)) eqn:E.
    + split; [|split; [exact E|intros j Hj; lia]]. apply rever_at_iff in E as [w [r [V E]]]. rewrite E, len_app, (version_like_len _ V). lia.
    + assert (D : forall j, drop (1 + j) (c :: s) = drop j s) by (intros j; unfold drop; replace (N.to_nat (1 + j)) with (S (N.to_nat j)) by lia; reflexivity).
      destruct (rever_find s) as [k|].
      * destruct IH as [L [A B]]. split; [rewrite len_cons; lia|]. rewrite N.add_comm, D. split; [exact A|]. intros j Hj. destruct (N.eq_dec j 0) as [->|]; [exact E|].
        replace j with (1 + (j - 1)) by lia. rewrite D. apply B. lia.
      * intros j. destruct (N.eq_dec j 0) as [->|]; [exact E|]. replace j with (1 + (j - 1)) by lia. rewrite D. apply IH.
Qed.
Lemma rever_find_first s k : rever_find s = Some k <-> first_version_at s k.
Proof.
  assert (A : forall j w r, s = take j s ++ w ++ r -> j <= len s -> drop j s = w ++ r).
  { intros j w r E L. rewrite E at 1. apply drop_app_exact. rewrite len_take. lia. }
  split.
  - intros E. pose proof (rever_find_spec s) as H. rewrite E in H. destruct H as [L [H1 H2]]. split; [|split; [lia|]].
    + apply rever_at_iff in H1 as [w [r [V H1]]]. exists w, r. split; auto. rewrite <- H1. symmetry. apply take_drop_id.
    + intros j w r Hj V X. specialize (H2 j Hj). apply A in X; [|lia]. assert (rever_at (drop j s) = true) by (apply rever_at_iff; eauto). congruence.
  - intros [[w [r [V E]]] [L N]]. pose proof (rever_find_spec s) as H. apply A in E; [|auto].
    assert (R : rever_at (drop k s) = true) by (apply rever_at_iff; eauto).
    destruct (rever_find s) as [k'|]; [|rewrite H in R; discriminate]. destruct H as [L' [H1 H2]]. f_equal.
    destruct (N.lt_trichotomy k k') as [X|[X|X]]; auto.
    + rewrite (H2 k X) in R. discriminate.
    + exfalso. apply rever_at_iff in H1 as [w' [r' [V' H1]]]. apply (N k' w' r' X V'). rewrite <- H1. symmetry. apply take_drop_id.
Qed.
(** the search result and the windows before it *)
Lemma rever_find_at pre w r : version_like w -> (forall j, j < len pre -> rever_at (drop j (pre ++ w ++ r)) = false) -> rever_find (pre ++ w ++ r) = Some (len pre).
Proof.
  intros V N. apply rever_find_first. split; [|split].
  - exists w, r. split; auto. rewrite take_app_exact by auto. reflexivity.
  - rewrite len_app. lia.
  - intros j w' r' Hj V' E. assert (X : drop j (pre ++ w ++ r) = w' ++ r').
    { rewrite E at 1. apply drop_app_exact. rewrite len_take, len_app. lia. }
    specialize (N j Hj). assert (rever_at (drop j (pre ++ w ++ r)) = true) by (rewrite X; apply rever_at_iff; eauto). congruence.
Qed.
(** every character of a version-like text is a capital, a lower case hexadecimal digit or '_' *)
Lemma version_like_chars w c : version_like w -> In c w -> 65 <= c <= 90 \/ 48 <= c <= 57 \/ 97 <= c <= 102 \/ c = 95.
Proof.
  intros [i [a [b [k [n [[_ Ti] [[_ Tk] [_ [_ [_ ->]]]]]]]]]] I. unfold version_text in I. rewrite !in_app_iff in I.
  assert (X : forall m x, In c (hex_text m x) -> 48 <= c <= 57 \/ 97 <= c <= 102).
  { intros m x H. apply hex_text_hexl in H. unfold is_hexl in H. lia. }
  destruct I as [I|[I|[I|[I|[I|I]]]]]; auto; try (apply X in I; tauto). destruct I as [<-|[]]. tauto.
Qed.

(** ** group extraction *)
Lemma rever_replace_skip a b k s : rever_replace a b k s = rever_replace a b 0 (skipn k s).
Proof.
  revert s. induction k as [|k IH]; intros s; [reflexivity|]. destruct s as [|c s]; [reflexivity|]. cbn [rever_replace skipn]. rewrite IH. reflexivity.
Qed.
Lemma rever_replace_at a b s : rever_at s = true -> rever_replace a b 0 s = take (b - a) (drop a s) ++ rever_replace a b 0 (drop 17 s).
Proof.
  intros H. destruct s as [|c s]; [discriminate H|]. cbn [rever_replace]. rewrite H. f_equal. rewrite rever_replace_skip. reflexivity.
Qed.
Lemma rever_replace_nil a b s : a < b -> b <= 17 -> rever_replace a b 0 s = [] -> s = [].
Proof.
  intros Hab Hb. destruct s as [|c s]; [reflexivity|]. destruct (rever_at (c :: s)) eqn:E.
  - rewrite rever_replace_at by auto. intros X. apply app_eq_nil in X as [X _]. exfalso. apply rever_at_iff in E as [w [r [V E]]].
    apply (f_equal len) in X. rewrite len_take, len_drop, E, len_app, (version_like_len _ V) in X. rewrite len_nil in X. lia.
  - cbn [rever_replace]. rewrite E. discriminate.
Qed.
Lemma rever_replace_len s : rever_is_match s = true -> 4 <= len (group_ident s) /\ (len (group_ident s) = 4 -> rever_at s = true /\ len s = 17).
Proof.
  unfold group_ident. induction s as [|c s IH]; intros H; [discriminate|].
  destruct (rever_at (c :: s)) eqn:E.
  - rewrite rever_replace_at by auto. pose proof E as E'. apply rever_at_iff in E as [w [r [V E]]]. rewrite len_app, len_take, len_drop, E, len_app, (version_like_len _ V).
    split; [lia|]. intros L. split; [reflexivity|]. assert (Z : len (rever_replace 0 4 0 (drop 17 (w ++ r))) = 0) by lia. apply len_zero in Z. apply rever_replace_nil in Z; [|lia|lia].
    rewrite (drop_app_exact 17) in Z by (apply version_like_len; auto). subst r. rewrite len_nil. lia.
  - cbn [rever_replace]. rewrite E. unfold rever_is_match in H. cbn [rever_find] in H. rewrite E in H.
    assert (M : rever_is_match s = true) by (unfold rever_is_match; destruct (rever_find s); [reflexivity|discriminate]). specialize (IH M). rewrite len_cons. split; lia.
Qed.
Lemma groups i a b k n : tag i -> tag k -> a < 16 -> b < 16 -> n < 2 ^ 24 -> let vs := version_text i a b k n in
  rever_at vs = true /\ group_ident vs = i /\ group_major vs = hex_text 1 a /\ group_minor vs = hex_text 1 b /\ group_kind vs = k /\ group_size vs = hex_text 6 n.
Proof.
  intros Ti Tk Ha Hb Hn vs. assert (R : rever_at vs = true).
  { apply rever_at_iff. exists vs, []. split; [|rewrite app_nil_r; reflexivity]. exists i, a, b, k, n. tauto. }
  split; [exact R|]. unfold group_ident, group_major, group_minor, group_kind, group_size. rewrite !(rever_replace_at _ _ vs R).
  assert (Z : drop 17 vs = []) by (apply drop_all; unfold vs; rewrite version_text_len by auto; lia). rewrite Z. cbn [rever_replace]. rewrite !app_nil_r.
  destruct Ti as [Li _], Tk as [Lk _].
  change (4 - 0) with 4. change (5 - 4) with 1. change (6 - 5) with 1. change (10 - 6) with 4. change (16 - 10) with 6.
  assert (D4 : forall t, drop 4 (i ++ t) = t) by (intros; apply drop_app_exact; auto).
  assert (D1 : forall n t, drop 1 (hex_text 1 n ++ t) = t) by (intros; apply drop_app_exact; apply len_hex_text).
  assert (D4' : forall t, drop 4 (k ++ t) = t) by (intros; apply drop_app_exact; auto).
  replace (drop 5 vs) with (drop (4 + 1) vs) by reflexivity. replace (drop 6 vs) with (drop (4 + (1 + 1)) vs) by reflexivity. replace (drop 10 vs) with (drop (4 + (1 + (1 + 4))) vs) by reflexivity.
  rewrite <- !drop_drop. unfold vs, version_text. rewrite drop_0, !D4, !D1, !D4'.
  rewrite !take_app_exact by (auto using len_hex_text). repeat split.
Qed.
Lemma known_tag i : In i idents -> tag i.
Proof. intros [<-|[<-|[]]]; (split; [reflexivity|]); intros c I; repeat (destruct I as [<-|I]; [split; discriminate|]); destruct I. Qed.
Lemma json_tag : tag (s2b "JSON").
Proof. split; [reflexivity|]; intros c I; repeat (destruct I as [<-|I]; [split; discriminate|]); destruct I. Qed.

(** ** deversify *)
Lemma mem_code_true c l : In c l -> mem_code c l = true.
Proof. intros. apply mem_code_In. auto. Qed.
Lemma deversify_text i a b n : In i idents -> a < 16 -> b < 16 -> n < 2 ^ 24 -> deversify (version_text i a b (s2b "JSON") n) = Ok (VP i (s2b "JSON") (Ver a b) n).
Proof.
  intros Hi Ha Hb Hn. destruct (groups i a b (s2b "JSON") n (known_tag i Hi) json_tag Ha Hb Hn) as [R [G1 [G2 [G3 [G4 G5]]]]]. unfold deversify.
  assert (M : rever_is_match (version_text i a b (s2b "JSON") n) = true).
  { unfold rever_is_match. destruct (version_text i a b (s2b "JSON") n); cbn [rever_find]; rewrite R; reflexivity. }
  rewrite M. cbv zeta. rewrite G1, G2, G3, G4, G5. rewrite !parse_hex_text by (unfold U32; change (2 ^ 24) with 16777216 in Hn; change (16 ^ 6) with 16777216; change (16 ^ 1) with 16; change (2 ^ 32) with 4294967296; lia). cbn [obind].
  rewrite (mem_code_true i idents Hi). reflexivity.
Qed.
Lemma deversify_inv vs p : deversify vs = Ok p -> exists i a b n, In i idents /\ a < 16 /\ b < 16 /\ n < 2 ^ 24 /\ vs = version_text i a b (s2b "JSON") n /\ p = VP i (s2b "JSON") (Ver a b) n.
Proof.
  intros H. pose proof H as H0. unfold deversify in H. destruct (rever_is_match vs) eqn:M; [|discriminate].
  destruct (parse_hex 255 (group_major vs)); try discriminate. destruct (parse_hex 255 (group_minor vs)); try discriminate. cbn [obind] in H. destruct (parse_hex _ (group_size vs)); try discriminate. cbn [obind] in H.
  destruct (mem_code (group_ident vs) idents) eqn:Mi; [|discriminate]. destruct (mem_code (group_kind vs) serials) eqn:Mk; [|discriminate]. cbn [negb] in H.
  apply mem_code_In in Mi, Mk. destruct (rever_replace_len vs M) as [_ L]. pose proof (known_tag _ Mi) as [Li _]. destruct (L Li) as [R L17]. apply rever_at_iff in R as [w [r [V E]]].
  assert (r = []). { apply len_zero. rewrite E, len_app, (version_like_len _ V) in L17. lia. } subst r. rewrite app_nil_r in E. subst w.
  destruct V as [i [x [y [k [n [Ti [Tk [Hx [Hy [Hn E]]]]]]]]]]. destruct (groups i x y k n Ti Tk Hx Hy Hn) as [_ [G1 [_ [_ [G4 _]]]]]. rewrite <- E in *. rewrite G1 in Mi. rewrite G4 in Mk. destruct Mk as [<-|[]].
  exists i, x, y, n. repeat split; auto. rewrite E, deversify_text in H0 by auto. congruence.
Qed.
Lemma deversify_total vs : deversify vs <> Panic.
Proof.
  unfold deversify, parse_hex. destruct (rever_is_match vs); [|discriminate]. repeat (match goal with |- context [match ?x with Some _ => _ | None => _ end] => destruct x end; cbn [obind]; try discriminate).
  destruct (negb _); [discriminate|]. destruct (negb _); discriminate.
Qed.
