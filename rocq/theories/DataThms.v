(** Properties C45-C47 and C60: [Value] and its JSON text. *)
From Verif Require Import Base StdStr Data Json Spec DataDefs.
From Verif Require Import BaseFacts StdStrFacts DataFacts JsonFacts ImportFacts.

Definition id_floats : Floats := {| float_of_text := Some |}.

(** C45: different values have different JSON texts. *)
Lemma C45_json_injective_pf : forall v w : data, good float_text v -> good float_text w -> to_json v = to_json w -> v = w.
Proof.
  intros v w Gv Gw E. set (limit := depth v + depth w + 1).
  pose proof (read_back (F := id_floats) float_text v limit ltac:(cbn; auto) Gv ltac:(unfold limit; lia)) as Rv.
  pose proof (read_back (F := id_floats) float_text w limit ltac:(cbn; auto) Gw ltac:(unfold limit; lia)) as Rw.
  rewrite E, Rw in Rv. injection Rv as Rv. apply tree_inj. auto.
Qed.
(** Two values that differ only in the order of keys: both meet the hypothesis, and their texts differ. *)
Lemma C45_json_injective_ex_pf : let v := VObj [(s2b "a", VInt (-5)); (s2b "b", VArr [VStr [34; 10]; VNull; VFloat (s2b "1.5e-7")])] in
  let w := VObj [(s2b "b", VArr [VStr [34; 10]; VNull; VFloat (s2b "1.5e-7")]); (s2b "a", VInt (-5))] in
  good float_text v /\ good float_text w /\ v <> w.
Proof.
  assert (A : good float_text (VArr [VStr [34; 10]; VNull; VFloat (s2b "1.5e-7")])).
  { constructor. intros v [<-|[<-|[<-|[]]]]; constructor. exists [], (s2b "1"), (s2b ".5"), (s2b "e-7").
    split; [reflexivity|]. split; [auto|]. split; [apply (to_dec_int_part 1)|]. split; [right; exists (s2b "5")|split; [right; exists 101, [45], (s2b "7")|left; discriminate]].
    - split; [reflexivity|]. split; [discriminate|]. intros c [<-|[]]. split; discriminate.
    - split; [reflexivity|]. split; [auto|]. split; [auto|]. split; [discriminate|]. intros c [<-|[]]. split; discriminate. }
  assert (I : good float_text (VInt (-5))) by (constructor; lia).
  split; [|split; [|discriminate]]; constructor; try (cbn; repeat constructor; cbn; intuition discriminate);
    intros k v [E|[E|[]]]; injection E as <- <-; auto.
Qed.
(** A NaN prints as null (data.rs prints floats through serde_json), like the null value. *)
Lemma C45_json_injective_refuted_pf : exists v w : data, v <> w /\ to_json v = to_json w /\ v = VFloat (s2b "null") /\ w = VNull.
Proof. exists (VFloat (s2b "null")), VNull. repeat split. discriminate. Qed.

(** reading is monotone in the recursion limit *)
Lemma read_mono `{F : Floats} f : (forall d e s x, d <= e -> read_value f d s = Some x -> read_value f e s = Some x) /\
  (forall d e s x, d <= e -> read_elems f d s = Some x -> read_elems f e s = Some x) /\
  (forall d e s acc x, d <= e -> read_members f d s acc = Some x -> read_members f e s acc = Some x).
Proof.
  induction f as [|f [IHv [IHe IHm]]]; [repeat split; intros; discriminate|]. split; [|split].
  - intros d e s x Hd. rewrite !read_value_S. destruct (skip_ws s) as [|c t]; [auto|].
    destruct (c =? 110); [auto|]. destruct (c =? 116); [auto|]. destruct (c =? 102); [auto|]. destruct (c =? 45); [auto|]. destruct (is_digit c); [auto|]. destruct (c =? 34); [auto|].
    destruct (c =? 91); [|destruct (c =? 123); [|discriminate]].
    + destruct (N.leb_spec d 1); [discriminate|]. replace (e <=? 1) with false by lia.
      destruct (N.eq_dec (hd 0 (skip_ws t)) 93) as [E|E].
      * destruct (skip_ws t) as [|c' t']; cbn in E; [discriminate E|]. subst c'. auto.
      * rewrite !match93 by auto. destruct (read_elems f (d - 1) t) as [y|] eqn:Ea; [|discriminate]. rewrite (IHe (d - 1) (e - 1) t y) by (auto; lia). auto.
    + destruct (N.leb_spec d 1); [discriminate|]. replace (e <=? 1) with false by lia.
      destruct (N.eq_dec (hd 0 (skip_ws t)) 125) as [E|E].
      * destruct (skip_ws t) as [|c' t']; cbn in E; [discriminate E|]. subst c'. auto.
      * rewrite !match125 by auto. destruct (read_members f (d - 1) t []) as [y|] eqn:Ea; [|intros E0; discriminate E0]. rewrite (IHm (d - 1) (e - 1) t [] y) by (auto; lia). auto.
  - intros d e s x Hd. rewrite !read_elems_S. destruct (read_value f d s) as [[v t]|] eqn:Ev; [|intros E0; discriminate E0]. rewrite (IHv d e s _ Hd Ev). intros E. peel_num E; auto.
    destruct (read_elems f d _) as [[? ?]|] eqn:Eb; [|discriminate]. rewrite (IHe d e _ _ Hd Eb). auto.
  - intros d e s acc x Hd E. rewrite read_members_S in *. peel_num E. destruct (read_str _) as [[k t]|]; [|discriminate]. peel_num E.
    destruct (read_value f d _) as [[v u]|] eqn:Ev; [|discriminate]. rewrite (IHv d e _ _ Hd Ev). cbv zeta in *. peel_num E; auto. eapply IHm; eauto.
Qed.
Lemma json_read_mono `{F : Floats} d e s j : d <= e -> json_read_depth d s = Some j -> json_read_depth e s = Some j.
Proof.
  intros Hd. unfold json_read_depth. destruct (read_value _ d s) as [[v r]|] eqn:E; [|discriminate]. rewrite (proj1 (read_mono _) d e s _ Hd E). auto.
Qed.

(** C46: a value whose floats survive reading is read back from its JSON text exactly
    when it is nested at most 127 deep; deeper values are refused with an error. *)
Lemma C46_json_round_trip_pf : forall (F : Floats) (v : data),
  good (fun t => float_text t /\ In 46 t /\ float_of_text t = Some t) v ->
  (depth v <= 127 -> from_json (to_json v) = Ok v) /\ (127 < depth v -> from_json (to_json v) = Err E_Json).
Proof.
  intros F v G. unfold from_json, json_from_str. split; intros D.
  - rewrite (read_back (F := F) (fun t => float_text t /\ In 46 t /\ float_of_text t = Some t) v 128 ltac:(intros ? [? [? ?]]; split; assumption) G ltac:(lia)). cbn [obind]. eapply import_tree; [|exact G]. cbn. tauto.
  - destruct (json_read_depth 128 (to_json v)) as [j|] eqn:E; [|reflexivity]. exfalso.
    pose proof (json_read_jok 128 _ _ ltac:(lia) E) as [_ Hj].
    pose proof (json_read_mono 128 (128 + depth v) _ _ ltac:(lia) E) as E2.
    rewrite (read_back (F := F) (fun t => float_text t /\ In 46 t /\ float_of_text t = Some t) v (128 + depth v) ltac:(intros ? [? [? ?]]; split; assumption) G ltac:(lia)) in E2. injection E2 as <-. rewrite depth_tree in Hj. lia.
Qed.
(** The hypothesis is met by a nested value without floats, whatever reads floats, and by one with a float. *)
Lemma C46_json_round_trip_ex_pf : (forall F : Floats, let v := VArr [VObj [(s2b "n", VInt (2 ^ 63 - 1)); ([9], VBool true)]; VStr []; VArr []] in
    good (fun t => float_text t /\ In 46 t /\ float_of_text t = Some t) v /\ depth v = 2) /\
  from_json (H := toy_floats) (to_json (VObj [(s2b "f", VFloat (s2b "-2.5"))])) = Ok (VObj [(s2b "f", VFloat (s2b "-2.5"))]).
Proof.
  split; [|vm_compute; reflexivity]. intros F v. split; [|reflexivity]. constructor. intros w [<-|[<-|[<-|[]]]].
  - constructor; [repeat constructor; cbn; intuition discriminate|]. intros k w [E|[E|[]]]; injection E as <- <-; constructor. lia.
  - constructor.
  - constructor. intros ? [].
Qed.
(** Floats printed without a '.' do not survive: 1e300 is a JSON number, and importing it panics. *)
Lemma C46_json_round_trip_refuted_pf : exists (F : Floats) (v : data), float_shape F /\ good (fun t => float_text t /\ float_of_text t = Some t) v /\
  to_json v = s2b "1e300" /\ from_json (to_json v) = Panic.
Proof.
  exists ({| float_of_text := fun t => if bytes_eqb t (s2b "1e300") then Some t else None |}), (VFloat (s2b "1e300")).
  assert (X : float_text (s2b "1e300")).
  { exists [], (s2b "1"), [], (s2b "e300").
    split; [reflexivity|]. split; [auto|]. split; [apply (to_dec_int_part 1)|]. split; [auto|]. split; [right; exists 101, [], (s2b "300")|right; discriminate].
    split; [reflexivity|]. split; [auto|]. split; [auto|]. split; [discriminate|]. intros c [<-|[<-|[<-|[]]]]; split; discriminate. }
  split; [|split; [|split; [reflexivity|vm_compute; reflexivity]]].
  - intros t u. cbn [float_of_text]. destruct (bytes_eqb t (s2b "1e300")) eqn:E; [|discriminate]. apply bytes_eqb_eq in E. subst t. intros [= <-]. exact X.
  - constructor. split; [exact X|reflexivity].
Qed.
(** C46 for texts: whatever text a value was read from, the value has i64 integers, distinct
    keys and at most 127 levels, and its own JSON text reads back to the same value if each
    of its floats is read back from its text (C79 says which are). *)
Lemma C46_json_stable_pf : forall (F : Floats) (s : bytes) (v : data), float_shape F -> from_json s = Ok v ->
  good float_text v /\ depth v <= 127 /\ (good (fun t => float_of_text t = Some t) v -> from_json (to_json v) = Ok v).
Proof.
  intros F s v C. unfold from_json at 1, json_from_str. destruct (json_read_depth 128 s) as [j|] eqn:E; [|discriminate]. cbn [obind]. intros Ev.
  pose proof (json_read_jok 128 s j ltac:(lia) E) as [W D]. destruct (tree_import _ j W v Ev) as [<- G]. rewrite depth_tree in D.
  assert (Mono : forall (p q : bytes -> Prop) x, (forall t, p t -> q t) -> good p x -> good q x).
  { clear. intros p q x Hpq. induction x as [|b|i|t|s|a IHa|o IHo] using value_ind'; intros G; inversion G; subst; constructor; auto.
    - intros v I. rewrite Forall_forall in IHa. auto.
    - intros k v I. rewrite Forall_forall in IHo. apply (IHo (k, v) I). eauto. }
  assert (Both : forall (p q : bytes -> Prop) x, good p x -> good q x -> good (fun t => p t /\ q t) x).
  { clear. intros p q x. induction x as [|b|i|t|s|a IHa|o IHo] using value_ind'; intros G G'; inversion G; inversion G'; subst; constructor; auto.
    - intros v I. rewrite Forall_forall in IHa. auto.
    - intros k v I. rewrite Forall_forall in IHo. apply (IHo (k, v) I); eauto. }
  split; [|split; [lia|]].
  - revert G. apply Mono. intros t [[u Hu] Ht]. exact (C u t Hu).
  - intros G2. apply C46_json_round_trip_pf; [|lia]. eapply Mono; [|exact (Both _ _ _ G G2)]. cbn beta. intros t [[[u Hu] Ht] Hr]. split; [exact (C u t Hu)|]. auto.
Qed.
(** A text with white space, escapes, a repeated key and floats. *)
Lemma C46_json_stable_ex_pf : from_json (H := toy_floats) (s2b " { ""a"" : [ 1 , -0.5e1 ] , ""b"": ""\u0041\n"", ""a"":-7 } ") = Ok (VObj [(s2b "a", VInt (-7)); (s2b "b", VStr [65; 10])]).
Proof. vm_compute. reflexivity. Qed.

(** C47: reading a JSON text returns a value or an error, except that it panics
    exactly when the text is JSON and a number in it is an integer above i64::MAX
    or a float printed without a '.'. *)
Lemma C47_json_import_pf : forall (F : Floats) (s : bytes),
  from_json s = Panic <-> exists j, json_from_str s = Ok j /\ unimportable j.
Proof.
  intros F s. unfold from_json. unfold json_from_str. destruct (json_read_depth 128 s) as [j|]; cbn [obind].
  - destruct (import_total j) as [[U ->] | [U [v ->]]]; split; intros H; try discriminate; eauto. destruct H as [j' [[= <-] H]]. tauto.
  - split; [discriminate|]. intros [j [[=] _]].
Qed.
Lemma C47_json_import_ex_pf : from_json (H := toy_floats) (s2b "[{""k"":9223372036854775807}]") = Ok (VArr [VObj [(s2b "k", VInt 9223372036854775807)]]).
Proof. vm_compute. reflexivity. Qed.
(** The property as first stated is false. *)
Lemma C47_json_import_refuted_pf : exists s, forall F : Floats, from_json s = Panic.
Proof. exists (s2b "{""k"":[9223372036854775808]}"). intros F. vm_compute. reflexivity. Qed.

(** C60: assigning an object entry: the entry reads back, the others are unchanged,
    and keys keep their order, a new key going last; anything but an object panics. *)
Lemma C60_value_set_pf : forall (o : list (bytes * data)) (k : bytes) (x : data), exists o',
  vset (VObj o) k x = Ok (VObj o') /\ vget (VObj o') k = Ok x /\
  (forall k', k' <> k -> vget (VObj o') k' = vget (VObj o) k') /\
  (In k (map fst o) -> map fst o' = map fst o) /\ (~ In k (map fst o) -> o' = o ++ [(k, x)]) /\
  (NoDup (map fst o) -> NoDup (map fst o')).
Proof.
  intros o k x. exists (map_insert k x o). repeat split.
  - cbn [vget]. rewrite map_get_insert, (proj2 (bytes_eqb_eq k k) eq_refl). reflexivity.
  - intros k' Nk. cbn [vget]. rewrite map_get_insert. destruct (bytes_eqb k' k) eqn:E; [apply bytes_eqb_eq in E; congruence|reflexivity].
  - apply map_insert_keys.
  - apply map_insert_new.
  - apply map_insert_NoDup.
Qed.
Lemma C60_value_set_other_pf : forall (v : data) (k : bytes) (x : data), (forall o, v <> VObj o) -> vset v k x = Panic /\ vget v k = Panic.
Proof. intros [| | | | | |o] k x H; try (split; reflexivity). exfalso. eapply H. reflexivity. Qed.
(** Reading an entry returns the value stored under that key, and panics exactly when there is none. *)
Lemma C60_value_get_pf : forall (o : list (bytes * data)) (k : bytes), NoDup (map fst o) ->
  (forall x, vget (VObj o) k = Ok x <-> In (k, x) o) /\ (vget (VObj o) k = Panic <-> ~ In k (map fst o)).
Proof.
  intros o k N. cbn [vget]. split; [intros x; split|].
  - destruct (map_get k o) eqn:E; [|discriminate]. intros [= ->]. apply map_get_In. auto.
  - intros I. rewrite (In_map_get k x o N I). reflexivity.
  - rewrite <- map_get_None. destruct (map_get k o); split; congruence.
Qed.
Lemma C60_value_set_ex_pf : vset (VObj [(s2b "a", VNull); (s2b "b", VNull)]) (s2b "a") (VInt 3) = Ok (VObj [(s2b "a", VInt 3); (s2b "b", VNull)]) /\
  vset (VObj [(s2b "a", VNull)]) (s2b "b") (VInt 3) = Ok (VObj [(s2b "a", VNull); (s2b "b", VInt 3)]).
Proof. split; reflexivity. Qed.

Lemma list_set_at {A} (f : A -> A) (a : list A) x b : list_set f (length a) (a ++ x :: b) = Some (a ++ f x :: b).
Proof. induction a as [|y a IH]; [reflexivity|]. cbn [app length list_set]. rewrite IH. reflexivity. Qed.
Lemma list_set_None {A} (f : A -> A) (l : list A) i : list_set f i l = None <-> (length l <= i)%nat.
Proof.
  revert i. induction l as [|y l IH]; intros i.
  - split; [cbn; intros; Lia.lia|]. intros _. destruct i; reflexivity.
  - destruct i as [|i]; cbn [list_set length]; [split; [discriminate|Lia.lia]|].
    specialize (IH i). destruct (list_set f i l); split; intros H.
    + discriminate.
    + assert (X : Some l0 = None) by (apply IH; Lia.lia). discriminate.
    + apply le_n_S. apply IH. reflexivity.
    + reflexivity.
Qed.
(** C60: reading and writing by position: the element there, with what is before and after it unchanged;
    an object entry keeps its key; a position past the end panics, and so does anything but an array or object. *)
Lemma C60_position_pf : forall (a b : list data) (o p : list (bytes * data)) (k : bytes) (x y v : data) (i : N),
  vnth (VArr (a ++ x :: b)) (len a) = Ok x /\ vset_nth (VArr (a ++ x :: b)) (len a) y = Ok (VArr (a ++ y :: b)) /\
  vnth (VObj (o ++ (k, x) :: p)) (len o) = Ok x /\ vset_nth (VObj (o ++ (k, x) :: p)) (len o) y = Ok (VObj (o ++ (k, y) :: p)) /\
  ((vnth v i = Panic <-> ~ exists w, vset_nth v i w <> Panic) /\
   (vnth v i = Panic <-> (forall a, v <> VArr a) /\ (forall o, v <> VObj o) \/ (exists a, v = VArr a /\ len a <= i) \/ (exists o, v = VObj o /\ len o <= i))).
Proof.
  assert (L : forall (A : Type) (l : list A) x r, nth_error (l ++ x :: r) (length l) = Some x).
  { intros A l x r. rewrite nth_error_app2 by auto. rewrite Nat.sub_diag. reflexivity. }
  assert (Q : forall (A : Type) (l : list A), N.to_nat (len l) = length l) by (intros; unfold len; apply Nnat.Nat2N.id).
  assert (R : forall (A : Type) (l : list A) i, nth_error l (N.to_nat i) = None <-> len l <= i).
  { intros A l j. rewrite nth_error_None. unfold len. Lia.lia. }
  intros a b o p k x y v i. unfold vnth, vset_nth. rewrite !Q, !L, !list_set_at. cbn [fst].
  split; [reflexivity|]. split; [reflexivity|]. split; [reflexivity|]. split; [reflexivity|].
  assert (T : forall A (l : list A) f, list_set f (N.to_nat i) l = None <-> len l <= i).
  { intros A l f. rewrite list_set_None. unfold len. Lia.lia. }
  destruct v as [| | | | |l|l];
    try (split; [split; [intros _ [w Hw]; congruence|auto]|split; [intros _; left; split; intros; discriminate|auto]]).
  - split.
    + destruct (nth_error l (N.to_nat i)) eqn:E; split.
      * discriminate.
      * intros H. exfalso. apply H. exists VNull. destruct (list_set _ _ l) eqn:E2; [discriminate|]. apply T in E2. apply R in E2. congruence.
      * intros _ [w Hw]. apply R in E. apply (T _ l (fun _ => w)) in E. rewrite E in Hw. congruence.
      * reflexivity.
    + destruct (nth_error l (N.to_nat i)) eqn:E; split.
      * discriminate.
      * intros [[H _]|[[l' [[= <-] H]]|[l' [H _]]]]; [destruct (H l eq_refl)|apply R in H; congruence|discriminate].
      * intros _. right. left. exists l. split; auto. apply R. auto.
      * reflexivity.
  - split.
    + destruct (nth_error l (N.to_nat i)) as [[k' x']|] eqn:E; split.
      * discriminate.
      * intros H. exfalso. apply H. exists VNull. destruct (list_set _ _ l) eqn:E2; [discriminate|]. apply T in E2. apply R in E2. congruence.
      * intros _ [w Hw]. apply R in E. apply (T _ l (fun kv => (fst kv, w))) in E. rewrite E in Hw. congruence.
      * reflexivity.
    + destruct (nth_error l (N.to_nat i)) as [[k' x']|] eqn:E; split.
      * discriminate.
      * intros [[_ H]|[[l' [H _]]|[l' [[= <-] H]]]]; [destruct (H l eq_refl)|discriminate|apply R in H; congruence].
      * intros _. right. right. exists l. split; auto. apply R. auto.
      * reflexivity.
Qed.
Lemma C60_position_ex_pf : vset_nth (VArr [VNull; VBool true]) 1 (VInt 2) = Ok (VArr [VNull; VInt 2]) /\
  vset_nth (VObj [(s2b "a", VNull)]) 0 (VInt 2) = Ok (VObj [(s2b "a", VInt 2)]) /\ vnth (VObj [(s2b "a", VNull)]) 1 = Panic /\ vnth (VStr (s2b "ab")) 0 = Panic.
Proof. repeat split. Qed.
(** C60: each conversion succeeds exactly on the values made from that type, with what was put in, and is an error on the others. *)
Lemma C60_conversions_pf : forall (v : data),
  (forall b, to_bool v = Ok b <-> v = VBool b) /\ (forall s, to_string v = Ok s <-> v = VStr s) /\ (forall i, to_i64 v = Ok i <-> v = VInt i) /\
  (forall f, to_f64 v = Ok f <-> v = VFloat f) /\ (forall a, to_vec v = Ok a <-> v = VArr a) /\ (forall o, to_map v = Ok o <-> v = VObj o) /\
  to_bool v <> Panic /\ to_string v <> Panic /\ to_i64 v <> Panic /\ to_f64 v <> Panic /\ to_vec v <> Panic /\ to_map v <> Panic.
Proof. intros v. destruct v; cbn; repeat split; try congruence; intros; injection H; intros; subst; reflexivity. Qed.
Lemma C60_conversions_ex_pf : to_i64 (VInt (-3)) = Ok (-3)%Z /\ to_i64 (VFloat (s2b "1.0")) = Err E_Conversion /\ to_f64 (VInt 1) = Err E_Conversion.
Proof. repeat split. Qed.
