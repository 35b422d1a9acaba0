(** A string read from a JSON text is not longer than the text. *)
From Verif Require Import Base Utf8 StdStr Data Json DataDefs.
From Verif Require Import BaseFacts StdStrFacts DataFacts JsonFacts ImportFacts.

Lemma skip_ws_len s : len (skip_ws s) <= len s.
Proof. induction s as [|c s IH]; cbn [skip_ws]; [lia|]. destruct (_ || _); rewrite ?len_cons; lia. Qed.
Lemma span_len s d t : span_digits s = (d, t) -> len t <= len s.
Proof.
  revert d t. induction s as [|c s IH]; cbn [span_digits]; intros d t.
  - intros [= <- <-]. lia.
  - destruct (is_digit c); [|intros [= <- <-]; lia]. destruct (span_digits s) as [d' t'] eqn:E. intros [= <- <-]. specialize (IH _ _ eq_refl). rewrite len_cons. lia.
Qed.
Lemma frac_len s d t : read_frac s = Some (d, t) -> len t <= len s.
Proof.
  unfold read_frac. destruct s as [|c s]; [intros [= <- <-]; lia|]. destruct (N.eq_dec c 46) as [->|Nc].
  - destruct (span_digits s) as [d' t'] eqn:E. apply span_len in E. rewrite len_cons. destruct d'; [discriminate|]. intros [= <- <-]. lia.
  - destruct c as [|p]; [intros [= <- <-]; lia|]. repeat (destruct p as [p|p|]; try (intros [= <- <-]; lia)). lia.
Qed.
Lemma exp_len s d t : read_exp s = Some (d, t) -> len t <= len s.
Proof.
  unfold read_exp. destruct s as [|c s]; [intros [= <- <-]; lia|]. destruct (_ || _); [|intros [= <- <-]; lia].
  assert (X : forall sg r, (sg, r) = match s with 43 :: r' => ([43], r') | 45 :: r' => ([45], r') | _ => ([], s) end -> len r <= len s).
  { intros sg r. destruct s as [|x s]; [intros [= -> ->]; lia|]. rewrite len_cons. destruct x as [|p]; [intros [= -> ->]; rewrite len_cons; lia|]. repeat (destruct p as [p|p|]; try (intros [= -> ->]; rewrite ?len_cons; lia)). }
  destruct (match s with 43 :: r' => _ | _ => _ end) as [sg r] eqn:E. specialize (X sg r eq_refl). destruct (span_digits r) as [d' t'] eqn:E2. apply span_len in E2. rewrite len_cons. destruct d'; [discriminate|]. intros [= <- <-]. lia.
Qed.
Section F.
Context `{F : Floats}.
Lemma number_len neg s n r : read_number neg s = Some (n, r) -> len r <= len s.
Proof.
  unfold read_number. destruct (span_digits s) as [d r0] eqn:E0. apply span_len in E0. destruct d as [|c d]; [discriminate|]. destruct (_ && _); [discriminate|].
  destruct (read_frac r0) as [[fr r1]|] eqn:E1; [|discriminate]. apply frac_len in E1. destruct (read_exp r1) as [[ex r2]|] eqn:E2; [|discriminate]. apply exp_len in E2. cbv zeta.
  assert (X : forall t, match read_float t with Some x => Some (x, r2) | None => None end = Some (n, r) -> len r <= len s). { intros t. destruct (read_float t); [|discriminate]. intros [= <- <-]. lia. }
  destruct fr; [|apply X]. destruct ex; [|apply X]. destruct neg.
  - destruct (_ || _); [apply X|]. intros [= <- <-]. lia.
  - destruct (_ <? _); [|apply X]. intros [= <- <-]. lia.
Qed.
Lemma hex4_len s n r : hex4 s = Some (n, r) -> len s = 4 + len r.
Proof. unfold hex4. destruct s as [|a [|b [|c [|d s]]]]; try discriminate. destruct (digit_val 16 a), (digit_val 16 b), (digit_val 16 c), (digit_val 16 d); try discriminate. intros [= <- <-]. rewrite !len_cons. lia. Qed.
Lemma encode_len n : len (utf8_encode n) <= 4.
Proof. unfold utf8_encode. repeat (destruct (_ <? _); [rewrite !len_cons, len_nil; lia|]). rewrite !len_cons, len_nil. lia. Qed.
Lemma escape_read_len s e r : read_escape s = Some (e, r) -> len e + len r <= len s.
Proof.
  unfold read_escape. destruct s as [|c s]; [discriminate|]. rewrite len_cons. destruct (N.eq_dec c 117) as [->|Nc].
  - destruct (hex4 s) as [[n r1]|] eqn:E1; [|discriminate]. apply hex4_len in E1. destruct (_ && _); [discriminate|]. destruct (_ && _).
    + destruct r1 as [|x [|y r1]]; try discriminate. { destruct x as [|p]; [discriminate|]. repeat (destruct p as [p|p|]; try discriminate). }
      rewrite !len_cons in E1. destruct (N.eq_dec x 92) as [->|Nx]; [|intros H; exfalso; destruct x as [|p]; [discriminate|]; repeat (destruct p as [p|p|]; try discriminate); apply Nx; reflexivity].
      destruct (N.eq_dec y 117) as [->|Ny]; [|intros H; exfalso; destruct y as [|p]; [discriminate|]; repeat (destruct p as [p|p|]; try discriminate); apply Ny; reflexivity].
      destruct (hex4 r1) as [[m r2]|] eqn:E2; [|discriminate]. apply hex4_len in E2. destruct (_ && _); [|discriminate]. intros [= <- <-]. pose proof (encode_len (65536 + (n - 55296) * 1024 + (m - 56320))). lia.
    + intros [= <- <-]. pose proof (encode_len n). lia.
  - intros H. assert (X : exists x, e = [x] /\ r = s).
    { destruct c as [|p]; [discriminate|]. repeat (destruct p as [p|p|]; try discriminate); try (exfalso; apply Nc; reflexivity); injection H as <- <-; eexists; split; reflexivity. }
    destruct X as [x [-> ->]]. change (len [x]) with 1. lia.
Qed.
Lemma string_read_len f s x t : read_string f s = Some (x, t) -> len x + len t <= len s.
Proof.
  revert s x t. induction f as [|f IH]; intros s x t; [discriminate|]. cbn [read_string]. destruct s as [|c s]; [discriminate|]. rewrite len_cons. destruct (c =? 34); [intros [= <- <-]; rewrite len_nil; lia|].
  destruct (c =? 92).
  - destruct (read_escape s) as [[e r]|] eqn:E; [|discriminate]. apply escape_read_len in E. destruct (read_string f r) as [[y u]|] eqn:E2; [|discriminate]. apply IH in E2. intros [= <- <-]. rewrite len_app. lia.
  - destruct (_ <? _); [discriminate|]. destruct (read_string f s) as [[y u]|] eqn:E2; [|discriminate]. apply IH in E2. intros [= <- <-]. rewrite len_cons. lia.
Qed.
Lemma m93' (A : Type) (g : bytes -> option A) (h : option A) s y : match s with 93 :: r => g r | _ => h end = Some y -> (exists r, s = 93 :: r /\ g r = Some y) \/ h = Some y.
Proof. destruct (N.eq_dec (hd 0 s) 93) as [E|E]; [destruct s as [|c r]; cbn in E; [discriminate E|]; subst c; eauto|rewrite match93; auto]. Qed.
Lemma m125' (A : Type) (g : bytes -> option A) (h : option A) s y : match s with 125 :: r => g r | _ => h end = Some y -> (exists r, s = 125 :: r /\ g r = Some y) \/ h = Some y.
Proof. destruct (N.eq_dec (hd 0 s) 125) as [E|E]; [destruct s as [|c r]; cbn in E; [discriminate E|]; subst c; eauto|rewrite match125; auto]. Qed.
Definition bounded (M : N) (o : list (bytes * json)) : Prop := forall k t, In (k, JStr t) o -> len t <= M.
Definition jbounded (M : N) (j : json) : Prop := match j with JStr t => len t <= M | JObj o => bounded M o | _ => True end.
Lemma read_len f : (forall d s j r, read_value f d s = Some (j, r) -> len r <= len s /\ jbounded (len s) j) /\
  (forall d s a r, read_elems f d s = Some (a, r) -> len r <= len s) /\
  (forall d s acc o r, read_members f d s acc = Some (o, r) -> len r <= len s /\ forall M, len s <= M -> bounded M acc -> bounded M o).
Proof.
  induction f as [|f [IHv [IHe IHm]]]; [repeat split; intros; discriminate|]. split; [|split].
  - intros d s j r. rewrite read_value_S. pose proof (skip_ws_len s) as Ls. destruct (skip_ws s) as [|c t]; [discriminate|]. rewrite len_cons in Ls.
    assert (L : forall t' v, jbounded (len s) v -> literal t' v t = Some (j, r) -> len r <= len s /\ jbounded (len s) j).
    { intros t' v B. unfold literal. destruct (starts_with _ _); [|discriminate]. intros [= <- <-]. rewrite len_drop. split; [lia|exact B]. }
    destruct (c =? 110); [apply L; exact I|]. destruct (c =? 116); [apply L; exact I|]. destruct (c =? 102); [apply L; exact I|].
    destruct (c =? 45). { destruct (read_number true t) as [[n u]|] eqn:E; [|discriminate]. apply number_len in E. intros [= <- <-]. split; [lia|exact I]. }
    destruct (is_digit c). { destruct (read_number false (c :: t)) as [[n u]|] eqn:E; [|discriminate]. apply number_len in E. rewrite len_cons in E. intros [= <- <-]. split; [lia|exact I]. }
    destruct (c =? 34). { unfold read_str. destruct (read_string _ t) as [[x u]|] eqn:E; [|discriminate]. apply string_read_len in E. intros [= <- <-]. cbn [jbounded]. lia. }
    destruct (c =? 91).
    { destruct (d <=? 1); [discriminate|]. intros H. apply m93' in H as [[u [Eu H]]|H].
      - injection H as <- <-. pose proof (skip_ws_len t) as Lt. rewrite Eu, len_cons in Lt. split; [lia|exact I].
      - destruct (read_elems f (d - 1) t) as [[a u]|] eqn:E; [|discriminate]. apply IHe in E. injection H as <- <-. split; [lia|exact I]. }
    destruct (c =? 123); [|discriminate]. destruct (d <=? 1); [discriminate|]. intros H. apply m125' in H as [[u [Eu H]]|H].
    + injection H as <- <-. pose proof (skip_ws_len t) as Lt. rewrite Eu, len_cons in Lt. split; [lia|]. intros k x [].
    + destruct (read_members f (d - 1) t []) as [[o u]|] eqn:E; [|discriminate]. apply IHm in E as [E1 E2]. injection H as <- <-. split; [lia|]. cbn [jbounded]. apply E2; [lia|]. intros k x [].
  - intros d s a r. rewrite read_elems_S. destruct (read_value f d s) as [[v t]|] eqn:E; [|discriminate]. apply IHv in E as [E _]. pose proof (skip_ws_len t) as Lt.
    destruct (skip_ws t) as [|c u]; [discriminate|]. rewrite len_cons in Lt. intros H.
    assert (X : (exists a', read_elems f d u = Some (a', r)) \/ u = r).
    { destruct (N.eq_dec c 44) as [->|N1]; [destruct (read_elems f d u) as [[a' t']|]; [injection H as <- <-; eauto|discriminate]|]. destruct (N.eq_dec c 93) as [->|N2]; [injection H as <- <-; auto|].
      exfalso. destruct c as [|p]; [discriminate|]. repeat (destruct p as [p|p|]; try discriminate); [apply N2|apply N1]; reflexivity. }
    destruct X as [[a' X]|<-]; [apply IHe in X|]; lia.
  - intros d s acc o r. rewrite read_members_S. pose proof (skip_ws_len s) as Ls. destruct (skip_ws s) as [|c t]; [discriminate|]. rewrite len_cons in Ls. intros H.
    destruct (N.eq_dec c 34) as [->|N1]. 2:{ exfalso. destruct c as [|p]; [discriminate|]. repeat (destruct p as [p|p|]; try discriminate). apply N1. reflexivity. }
    unfold read_str in H. destruct (read_string _ t) as [[k t1]|] eqn:Ek; [|discriminate]. apply string_read_len in Ek. pose proof (skip_ws_len t1) as Lt1. destruct (skip_ws t1) as [|c2 t2]; [discriminate|]. rewrite len_cons in Lt1.
    destruct (N.eq_dec c2 58) as [->|N2]. 2:{ exfalso. destruct c2 as [|p]; [discriminate|]. repeat (destruct p as [p|p|]; try discriminate). apply N2. reflexivity. }
    destruct (read_value f d t2) as [[v t3]|] eqn:Ev; [|discriminate]. apply IHv in Ev as [Ev Bv]. cbv zeta in H. pose proof (skip_ws_len t3) as Lt3. destruct (skip_ws t3) as [|c4 t4]; [discriminate|]. rewrite len_cons in Lt3.
    assert (Ba : forall M, len s <= M -> bounded M acc -> bounded M (map_insert k v acc)).
    { intros M LM B k' x I. apply map_insert_In in I as [E|I]; [injection E as -> <-; cbn [jbounded] in Bv; lia|eapply B; eauto]. }
    destruct (N.eq_dec c4 44) as [->|N4].
    + apply IHm in H as [H1 H2]. split; [lia|]. intros M LM B. apply H2; [lia|]. apply Ba; auto.
    + destruct (N.eq_dec c4 125) as [->|N5].
      * injection H as <- <-. split; [lia|]. exact Ba.
      * exfalso. destruct c4 as [|p]; [discriminate|]. repeat (destruct p as [p|p|]; try discriminate); [apply N5|apply N4]; reflexivity.
Qed.
Lemma from_json_len s o k t : from_json s = Ok (VObj o) -> map_get k o = Some (VStr t) -> len t <= len s.
Proof.
  unfold from_json, json_from_str, json_read_depth. destruct (read_value _ 128 s) as [[j r]|] eqn:E; [|discriminate]. destruct (skip_ws r) eqn:Er; [|discriminate]. cbn [obind]. intros Im G.
  pose proof (proj2 (proj1 (read_len _) _ _ _ _ E)) as B.
  assert (W : jwf read_fl j). { apply (json_read_jok 128 s j); [lia|]. unfold json_read_depth. rewrite E, Er. reflexivity. }
  destruct (tree_import _ j W _ Im) as [<- _]. cbn [tree jbounded] in B. apply map_get_In in G. apply (B k). apply in_map_iff. exists (k, VStr t). split; [reflexivity|exact G].
Qed.
End F.
