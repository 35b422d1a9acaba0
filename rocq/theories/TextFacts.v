From Verif Require Import Base Utf8 StdStr Data Json Spec PrimsDefs DataDefs GrammarDefs TextDefs.
From Verif Require Import BaseFacts StdStrFacts DataFacts JsonFacts ImportFacts GrammarFacts CommonFacts2 GrammarThms.

Lemma rng_iff lo hi b : rng lo hi b = true <-> lo <= b <= hi.
Proof. unfold rng. rewrite andb_true_iff, !N.leb_le. tauto. Qed.
Lemma rng_no lo hi b : ~ (lo <= b <= hi) -> rng lo hi b = false.
Proof. intros H. destruct (rng lo hi b) eqn:E; [|reflexivity]. apply rng_iff in E. tauto. Qed.
Lemma char_valid n u s : scalar n -> utf8_char n u -> utf8_valid (u ++ s) = utf8_valid s.
Proof.
  intros Hn Hu. unfold scalar in Hn. inversion Hu as [n' H|n' a b H Hb E|n' a b c H Hb Hc E|n' a b c d H Hb Hc Hd E]; subst n' u; cbn [app utf8_valid].
  - destruct (N.ltb_spec n 128); [reflexivity|Lia.lia].
  - destruct (N.ltb_spec (192 + a) 128); [Lia.lia|]. rewrite (proj2 (rng_iff 194 223 (192 + a))) by Lia.lia. rewrite (proj2 (rng_iff 128 191 (128 + b))) by Lia.lia. reflexivity.
  - destruct (N.ltb_spec (224 + a) 128); [Lia.lia|]. rewrite (rng_no 194 223 (224 + a)) by Lia.lia. rewrite (proj2 (rng_iff 224 239 (224 + a))) by Lia.lia. rewrite (proj2 (rng_iff 128 191 (128 + c))) by Lia.lia.
    replace (if 224 + a =? 224 then rng 160 191 (128 + b) else if 224 + a =? 237 then rng 128 159 (128 + b) else rng 128 191 (128 + b)) with true; [reflexivity|].
    symmetry. destruct (N.eqb_spec (224 + a) 224); [apply rng_iff; Lia.lia|]. destruct (N.eqb_spec (224 + a) 237); apply rng_iff; Lia.lia.
  - destruct (N.ltb_spec (240 + a) 128); [Lia.lia|]. rewrite (rng_no 194 223 (240 + a)) by Lia.lia. rewrite (rng_no 224 239 (240 + a)) by Lia.lia. rewrite (proj2 (rng_iff 240 244 (240 + a))) by Lia.lia. rewrite (proj2 (rng_iff 128 191 (128 + c))) by Lia.lia. rewrite (proj2 (rng_iff 128 191 (128 + d))) by Lia.lia.
    replace (if 240 + a =? 240 then rng 144 191 (128 + b) else if 240 + a =? 244 then rng 128 143 (128 + b) else rng 128 191 (128 + b)) with true; [reflexivity|].
    symmetry. destruct (N.eqb_spec (240 + a) 240); [apply rng_iff; Lia.lia|]. destruct (N.eqb_spec (240 + a) 244); apply rng_iff; Lia.lia.
Qed.
Lemma text_valid s : utf8_text s -> utf8_valid s = true.
Proof. induction 1 as [|n u s Hn Hu _ IH]; [reflexivity|]. rewrite (char_valid n u s Hn Hu). exact IH. Qed.
(** the first character of a valid text *)
Lemma valid_split s : utf8_valid s = true -> s = [] \/ exists n u r, scalar n /\ utf8_char n u /\ s = u ++ r /\ utf8_valid r = true /\ (length r < length s)%nat.
Proof.
  destruct s as [|b0 r0]; [auto|]. cbn [utf8_valid]. destruct (N.ltb_spec b0 128) as [L|L].
  { intros H. right. exists b0, [b0], r0. split; [left; Lia.lia|]. split; [constructor; exact L|]. split; [reflexivity|]. split; [exact H|]. cbn. Lia.lia. }
  destruct r0 as [|b1 r1]; [discriminate|]. destruct (rng 194 223 b0) eqn:R0.
  { apply rng_iff in R0. rewrite andb_true_iff, rng_iff. intros [R1 H]. right. exists ((b0 - 192) * 64 + (b1 - 128)), [b0; b1], r1.
    split; [left; Lia.lia|]. split. { replace [b0; b1] with [192 + (b0 - 192); 128 + (b1 - 128)] by (repeat f_equal; Lia.lia). constructor; Lia.lia. }
    split; [reflexivity|]. split; [exact H|]. cbn. Lia.lia. }
  destruct r1 as [|b2 r2]; [discriminate|]. destruct (rng 224 239 b0) eqn:R1.
  { apply rng_iff in R1. rewrite !andb_true_iff, rng_iff. intros [[R2 R3] H]. right. exists (((b0 - 224) * 64 + (b1 - 128)) * 64 + (b2 - 128)), [b0; b1; b2], r2.
    assert (X : 128 <= b1 <= 191 /\ (b0 = 224 -> 160 <= b1) /\ (b0 = 237 -> b1 <= 159)).
    { destruct (N.eqb_spec b0 224); [apply rng_iff in R2; Lia.lia|]. destruct (N.eqb_spec b0 237); apply rng_iff in R2; Lia.lia. }
    clear R2 R0. destruct X as (X1 & X2 & X3). assert (Y : b0 = 224 \/ b0 = 237 \/ (225 <= b0 <= 236) \/ (238 <= b0 <= 239)) by Lia.lia.
    split. { unfold scalar. Lia.lia. }
    split. { replace [b0; b1; b2] with [224 + (b0 - 224); 128 + (b1 - 128); 128 + (b2 - 128)] by (repeat f_equal; Lia.lia). constructor; Lia.lia. }
    split; [reflexivity|]. split; [exact H|]. cbn. Lia.lia. }
  destruct r2 as [|b3 r3]; [discriminate|].
  rewrite !andb_true_iff, !(rng_iff 128 191), rng_iff. intros [[[[R2 R3] R4] R5] H]. right. exists ((((b0 - 240) * 64 + (b1 - 128)) * 64 + (b2 - 128)) * 64 + (b3 - 128)), [b0; b1; b2; b3], r3.
  assert (X : 128 <= b1 <= 191 /\ (b0 = 240 -> 144 <= b1) /\ (b0 = 244 -> b1 <= 143)).
  { destruct (N.eqb_spec b0 240); [apply rng_iff in R3; Lia.lia|]. destruct (N.eqb_spec b0 244); apply rng_iff in R3; Lia.lia. }
  clear R0 R1 R3. destruct X as (X1 & X2 & X3).
  split. { unfold scalar. Lia.lia. }
  split. { replace [b0; b1; b2; b3] with [240 + (b0 - 240); 128 + (b1 - 128); 128 + (b2 - 128); 128 + (b3 - 128)] by (repeat f_equal; Lia.lia). constructor; Lia.lia. }
  split; [reflexivity|]. split; [exact H|]. cbn. Lia.lia.
Qed.
Lemma valid_text s : utf8_valid s = true -> utf8_text s.
Proof.
  remember (length s) as k eqn:Ek. revert s Ek. induction k as [k IH] using (well_founded_induction Wf_nat.lt_wf). intros s -> H.
  destruct (valid_split s H) as [->|(n & u & r & Hn & Hu & -> & Hr & L)]; [constructor|]. apply (ut_char n); [exact Hn|exact Hu|]. apply (IH (length r) L r eq_refl Hr).
Qed.
Lemma valid_iff s : utf8_valid s = true <-> utf8_text s.
Proof. split; [apply valid_text|apply text_valid]. Qed.

Lemma valid_app a b : utf8_valid a = true -> utf8_valid (a ++ b) = utf8_valid b.
Proof. intros H. apply valid_text in H. induction H as [|n u s Hn Hu _ IH]; [reflexivity|]. rewrite <- app_assoc, (char_valid n u _ Hn Hu). exact IH. Qed.
(** what is before an ASCII character is a text *)
Lemma valid_before a c r : c < 128 -> utf8_valid (a ++ c :: r) = true -> utf8_valid a = true.
Proof.
  intros Hc. remember (length a) as k eqn:Ek. revert a Ek. induction k as [k IH] using (well_founded_induction Wf_nat.lt_wf). intros a -> H.
  destruct a as [|x a]; [reflexivity|]. destruct (valid_split _ H) as [E|(n & u & t & Hn & Hu & E & Ht & L)]; [discriminate E|].
  assert (Hu' : (length u <= length (x :: a))%nat \/ (exists v w, u = v ++ c :: w /\ v <> [])).
  { destruct (Nat.leb_spec (length u) (length (x :: a))) as [Z|Z]; [left; exact Z|right]. exists (x :: a).
    assert (F : firstn (length u) ((x :: a) ++ c :: r) = u) by (rewrite E, firstn_app, Nat.sub_diag, firstn_all, firstn_O, app_nil_r; reflexivity).
    rewrite firstn_app in F. rewrite firstn_all2 in F by Lia.lia. destruct (length u - length (x :: a))%nat as [|q] eqn:Q; [Lia.lia|]. cbn [firstn] in F. exists (firstn q r). split; [congruence|discriminate]. }
  destruct Hu' as [Lu|(v & w & -> & Nv)].
  - assert (F : firstn (length u) (x :: a) = u). { assert (G : firstn (length u) ((x :: a) ++ c :: r) = u) by (rewrite E, firstn_app, Nat.sub_diag, firstn_all, firstn_O, app_nil_r; reflexivity). rewrite firstn_app in G. replace (length u - length (x :: a))%nat with O in G by Lia.lia. rewrite firstn_O, app_nil_r in G. exact G. }
    assert (Lu0 : (0 < length u)%nat) by (inversion Hu; cbn; Lia.lia).
    rewrite <- (firstn_skipn (length u) (x :: a)), F in E |- *. rewrite <- app_assoc in E. apply app_inv_head in E.
    rewrite (char_valid n u _ Hn Hu). apply (IH (length (skipn (length u) (x :: a)))); [rewrite skipn_length; Lia.lia|reflexivity|]. rewrite E. exact Ht.
  - exfalso. destruct v as [|v0 v]; [apply Nv; reflexivity|]. remember ((v0 :: v) ++ c :: w) as z eqn:E1. destruct Hu as [? ?|? ? ? ? ? ?|? ? ? ? ? ? ? ?|? ? ? ? ? ? ? ? ? ?]; cbn [app] in E1.
    + destruct v; cbn [app] in E1; discriminate E1.
    + destruct v as [|v1 v]; [cbn [app] in E1; injection E1 as _ E1 _; Lia.lia|destruct v; cbn [app] in E1; discriminate E1].
    + destruct v as [|v1 v]; [cbn [app] in E1; injection E1 as _ E1 _; Lia.lia|]. destruct v as [|v2 v]; [cbn [app] in E1; injection E1 as _ _ E1 _; Lia.lia|destruct v; cbn [app] in E1; discriminate E1].
    + destruct v as [|v1 v]; [cbn [app] in E1; injection E1 as _ E1 _; Lia.lia|]. destruct v as [|v2 v]; [cbn [app] in E1; injection E1 as _ _ E1 _; Lia.lia|]. destruct v as [|v3 v]; [cbn [app] in E1; injection E1 as _ _ _ E1 _; Lia.lia|destruct v; cbn [app] in E1; discriminate E1].
Qed.
Lemma valid_cons c r : c < 128 -> utf8_valid (c :: r) = utf8_valid r.
Proof. intros H. cbn [utf8_valid]. apply N.ltb_lt in H. rewrite H. reflexivity. Qed.

(** a string stands for a text *)
Lemma jbody_plain u b s : (forall c, In c u -> 128 <= c) -> jbody (u ++ b) s -> exists s', s = u ++ s' /\ jbody b s'.
Proof.
  revert s. induction u as [|c u IH]; intros s Hu H; [exists s; auto|]. pose proof (Hu c (or_introl eq_refl)) as Hc. cbn [app] in H.
  inversion H as [E0|c0 b0 s0 H1 H2 H3 H4 E1 E2|e c0 b0 s0 H1 H2 E1 E2|h n w b0 s0 H1 H2 H3 H4 H5 E1 E2|h1 h2 n m w b0 s0 H1 H2 H3 H4 H5 H6 H7 H8 E1 E2]; try (exfalso; Lia.lia).
  subst c0 b0. destruct (IH s0 (fun x I => Hu x (or_intror I)) H4) as (s' & -> & K). exists s'. auto.
Qed.
Lemma char_high n u : utf8_char n u -> n < 128 /\ u = [n] \/ forall c, In c u -> 128 <= c.
Proof. inversion 1; subst; [left; auto|right|right|right]; intros x I; cbn [In] in I; intuition Lia.lia. Qed.
Lemma hex_valid h n : hex_numeral h n -> utf8_valid h = true.
Proof.
  intros (ds & F & _). induction F as [|c d h ds Hc F IH]; [reflexivity|]. rewrite valid_cons; [exact IH|]. unfold hex_digit in Hc. Lia.lia.
Qed.
Lemma hex4_lt h n : length h = 4%nat -> hex_numeral h n -> n < 65536.
Proof.
  intros L (ds & F & ->). do 4 (destruct F as [|? ? ? ? ? F]; [discriminate L|]). destruct F; [|discriminate L].
  repeat match goal with H : hex_digit _ ?d |- _ => assert (d < 16) by (unfold hex_digit in H; Lia.lia); clear H end. cbn [value length]. change (16 ^ N.of_nat 3) with 4096. change (16 ^ N.of_nat 2) with 256. change (16 ^ N.of_nat 1) with 16. change (16 ^ N.of_nat 0) with 1. Lia.lia.
Qed.
Lemma jbody_text b s : utf8_valid b = true -> jbody b s -> utf8_text s.
Proof.
  remember (length b) as k eqn:Ek. revert b s Ek. induction k as [k IH] using (well_founded_induction Wf_nat.lt_wf). intros b s -> U H.
  destruct (valid_split b U) as [->|(n & u & r & Hn & Hu & -> & Hr & L)]; [inversion H; constructor|].
  destruct (char_high n u Hu) as [[Ln ->]|High].
  2:{ destruct (jbody_plain u r s High H) as (s' & -> & K). apply (ut_char n); [exact Hn|exact Hu|]. apply (IH (length r) L r); auto. }
  cbn [app length] in *.
  inversion H as [E0|c0 b0 s0 H1 H2 H3 H4 E1 E2|e c0 b0 s0 H1 H2 E1 E2|h n0 w b0 s0 H1 H2 H3 H4 H5 E1 E2|h1 h2 n0 m w b0 s0 H1 H2 H3 H4 H5 H6 H7 H8 E1 E2].
  - subst c0 b0. apply (ut_char n [n]); [exact Hn|exact Hu|]. apply (IH (length r) L r); auto.
  - subst n r. assert (He : c0 < 128 /\ e < 128) by (unfold short_escapes in H1; cbn in H1; repeat (destruct H1 as [H1|H1]; [injection H1 as <- <-; Lia.lia|]); contradiction).
    change (c0 :: s0) with ([c0] ++ s0). apply (ut_char c0); [left; Lia.lia|constructor; Lia.lia|]. rewrite valid_cons in Hr by Lia.lia. apply (IH (length b0)) with (b := b0); [cbn [length app]; rewrite ?app_length; cbn [length]; rewrite ?app_length; Lia.lia|reflexivity|assumption|assumption].
  - subst n r. rewrite valid_cons in Hr by Lia.lia. rewrite (valid_app _ _ (hex_valid h n0 H2)) in Hr.
    apply (ut_char n0); [unfold scalar; assert (n0 < 65536) by (apply (hex4_lt h); assumption); Lia.lia|exact H4|]. apply (IH (length b0)) with (b := b0); [cbn [length app]; rewrite ?app_length; cbn [length]; rewrite ?app_length; Lia.lia|reflexivity|assumption|assumption].
  - subst n r. rewrite valid_cons in Hr by Lia.lia. rewrite (valid_app _ _ (hex_valid h1 n0 H3)) in Hr. cbn [app] in Hr. rewrite !valid_cons in Hr by Lia.lia. rewrite (valid_app _ _ (hex_valid h2 m H4)) in Hr.
    apply (ut_char (65536 + (n0 - 55296) * 1024 + (m - 56320))); [unfold scalar; Lia.lia|exact H7|]. apply (IH (length b0)) with (b := b0); [cbn [length app]; rewrite ?app_length; cbn [length]; rewrite ?app_length; Lia.lia|reflexivity|assumption|assumption].
Qed.

(** strings and keys of a document *)
Inductive jtexts : json -> Prop :=
| jx_null : jtexts JNull
| jx_bool b : jtexts (JBool b)
| jx_num n : jtexts (JNum n)
| jx_str s : utf8_text s -> jtexts (JStr s)
| jx_arr a : (forall v, In v a -> jtexts v) -> jtexts (JArr a)
| jx_obj o : (forall k v, In (k, v) o -> utf8_text k /\ jtexts v) -> jtexts (JObj o).
Definition in_text (t : bytes) : Prop := exists pre post, utf8_valid (pre ++ t ++ post) = true.
Lemma in_text_sub a t b : in_text (a ++ t ++ b) -> in_text t.
Proof. intros (pre & post & H). exists (pre ++ a), (b ++ post). rewrite <- !app_assoc in *. exact H. Qed.
Lemma in_text_at w a t b : w = a ++ t ++ b -> in_text w -> in_text t.
Proof. intros ->. apply in_text_sub. Qed.
Lemma jstring_text t s : in_text t -> jstring t s -> utf8_text s.
Proof.
  intros (pre & post & H) (b & -> & J). apply (jbody_text b s); [|exact J]. cbn [app] in H. apply utf8_at_ascii in H; [|Lia.lia].
  rewrite valid_cons in H by Lia.lia. rewrite <- app_assoc in H. apply valid_before in H; [exact H|Lia.lia].
Qed.
Ltac sub_text H := first
  [ exact H
  | eapply in_text_at; [|exact H]; rewrite <- ?app_assoc; reflexivity ].
Lemma grammar_texts `{F : Floats} :
  (forall d t j, jvalue d t j -> in_text t -> jtexts j) /\
  (forall d t a, jelems d t a -> in_text t -> forall j, In j a -> jtexts j) /\
  (forall d t l, jmembers d t l -> in_text t -> forall k j, In (k, j) l -> utf8_text k /\ jtexts j).
Proof.
  apply jgrammar_ind; intros; try (constructor; fail).
  - constructor. eapply jstring_text; eauto.
  - constructor. intros v [].
  - constructor. intros v I. apply H0; [|exact I]. apply in_text_sub in H1. exact H1.
  - constructor. intros k v [].
  - constructor. intros k v I. destruct H1 as [_ L]. apply L in I as (be & af & -> & _). apply H0; [apply in_text_sub in H2; exact H2|]. apply in_or_app. right. left. reflexivity.
  - destruct H4 as [<-|[]]. apply H1. apply in_text_sub in H3. exact H3.
  - destruct H6 as [<-|I]. { apply H1. apply in_text_sub in H5. exact H5. }
    apply H4; [|exact I]. apply (in_text_at (w1 ++ t ++ w2 ++ [44] ++ u) (w1 ++ t ++ w2 ++ [44]) u []); [rewrite <- !app_assoc, app_nil_r; reflexivity|exact H5].
  - destruct H7 as [I|[]]. injection I as <- <-. split.
    + apply (jstring_text q k); [|assumption]. eapply in_text_sub. eassumption.
    + apply H4. apply (in_text_at _ (w1 ++ q ++ w2 ++ [58] ++ w3) t w4) in H6; [exact H6|rewrite <- !app_assoc; reflexivity].
  - destruct H9 as [I|I].
    + injection I as <- <-. split.
      * apply (jstring_text q k); [|assumption]. eapply in_text_sub. eassumption.
      * apply H4. apply (in_text_at _ (w1 ++ q ++ w2 ++ [58] ++ w3) t (w4 ++ [44] ++ u)) in H8; [exact H8|rewrite <- !app_assoc; reflexivity].
    + apply H7; [|exact I]. apply (in_text_at _ (w1 ++ q ++ w2 ++ [58] ++ w3 ++ t ++ w4 ++ [44]) u []) in H8; [exact H8|rewrite <- !app_assoc, app_nil_r; reflexivity].
Qed.
Lemma same_texts j : jtexts j -> forall v, same j v -> all_texts v.
Proof.
  induction j as [|b|n|s|a IH|o IH] using json_ind'; intros X v Sm; inversion Sm; subst; try constructor.
  - inversion X; assumption.
  - inversion X as [| | | |? Xa|]; subst. rewrite Forall_forall in IH. intros w I.
    match goal with F2 : Forall2 same a b |- _ => clear - IH Xa F2 I; induction F2 as [|x y a b E F2 IH2]; [destruct I|] end.
    destruct I as [<-|I]; [eapply IH; eauto; [left; reflexivity|apply Xa; left; reflexivity]|]. apply IH2; auto; intros; [eapply IH|apply Xa]; eauto; right; assumption.
  - inversion X as [| | | | |? Xo]; subst. rewrite Forall_forall in IH. intros k w I.
    match goal with F2 : Forall2 _ o p |- _ => clear - IH Xo F2 I; induction F2 as [|[k1 x] [k2 y] o p [E1 E2] F2 IH2]; [destruct I|] end.
    cbn [fst snd] in *. destruct I as [I|I].
    + injection I as <- <-. destruct (Xo k1 x (or_introl eq_refl)) as [T1 T2]. subst k2. split; [exact T1|]. apply (IH (k1, x)); [left; reflexivity|exact T2|exact E2].
    + apply IH2; auto. * intros z Iz. apply IH. right. exact Iz. * intros z1 z2 Iz. apply Xo. right. exact Iz.
Qed.
