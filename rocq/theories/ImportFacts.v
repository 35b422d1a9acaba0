(** Facts about what the JSON reader returns and what its import gives. *)
From Verif Require Import Base StdStr Data Json Spec DataDefs.
From Verif Require Import BaseFacts StdStrFacts DataFacts JsonFacts.

(** documents the reader can return, [fl] bounding the floats *)
Inductive jwf (fl : bytes -> Prop) : json -> Prop :=
| jwf_null : jwf fl JNull
| jwf_bool b : jwf fl (JBool b)
| jwf_pos n : n < 2 ^ 64 -> jwf fl (JNum (JPos n))
| jwf_neg z : (- 2 ^ 63 <= z < 0)%Z -> jwf fl (JNum (JNeg z))
| jwf_flt t : fl t -> jwf fl (JNum (JFlt t))
| jwf_str s : jwf fl (JStr s)
| jwf_arr a : (forall v, In v a -> jwf fl v) -> jwf fl (JArr a)
| jwf_obj o : NoDup (map fst o) -> (forall k v, In (k, v) o -> jwf fl v) -> jwf fl (JObj o).
Fixpoint jdepth (v : json) : N :=
  match v with
  | JArr a => 1 + fold_right N.max 0 (map jdepth a)
  | JObj o => 1 + fold_right N.max 0 (map (fun kv => jdepth (snd kv)) o)
  | _ => 0
  end.

Ltac peel_num H := repeat match type of H with
  | match ?n with N0 => _ | N.pos _ => _ end = Some _ => destruct n; try discriminate H
  | match ?p with xI _ => _ | xO _ => _ | xH => _ end = Some _ => destruct p; try discriminate H
  | match ?s with [] => _ | _ :: _ => _ end = Some _ => destruct s; try discriminate H
  end.
Section F.
Context `{F : Floats}.
Definition read_fl (t : bytes) : Prop := exists u, float_of_text u = Some t.

Lemma read_number_jwf neg s n r : read_number neg s = Some (n, r) -> jwf read_fl (JNum n).
Proof.
  unfold read_number, read_float. destruct (span_digits s) as [d r0]. destruct d as [|c d]; [discriminate|]. destruct (_ && _); [discriminate|].
  destruct (read_frac r0) as [[fr r1]|]; [|discriminate]. destruct (read_exp r1) as [[ex r2]|]; [|discriminate]. cbv zeta.
  assert (X : forall t, match match float_of_text t with Some u => Some (JFlt u) | None => None end with Some x => Some (x, r2) | None => None end = Some (n, r) -> jwf read_fl (JNum n)).
  { intros t. destruct (float_of_text t) as [u|] eqn:Eu; [|discriminate]. intros [= <- <-]. constructor. exists t. exact Eu. }
  destruct fr as [|f fr]; [|apply X]. destruct ex as [|e ex]; [|apply X]. destruct neg.
  - destruct (N.eqb_spec (dec_value (c :: d)) 0); [apply X|]. destruct (N.ltb_spec (2 ^ 63) (dec_value (c :: d))); [apply X|].
    cbn [orb]. intros [= <- <-]. constructor. change (2 ^ 63)%Z with (Z.of_N (2 ^ 63)). lia.
  - destruct (N.ltb_spec (dec_value (c :: d)) (2 ^ 64)); [|apply X]. intros [= <- <-]. constructor. auto.
Qed.

Lemma fold_max_lt (l : list N) d : 0 < d -> (forall x, In x l -> x < d) -> fold_right N.max 0 l < d.
Proof. intros Hd. induction l as [|x l IH]; cbn; [auto|]. intros H. pose proof (H x (or_introl eq_refl)). specialize (IH (fun y I => H y (or_intror I))). lia. Qed.

Lemma read_value_S f depth s : read_value (S f) depth s =
    match skip_ws s with
    | [] => None
    | c :: r =>
      if c =? 110 then literal (s2b "ull") JNull r
      else if c =? 116 then literal (s2b "rue") (JBool true) r
      else if c =? 102 then literal (s2b "alse") (JBool false) r
      else if c =? 45 then match read_number true r with Some (n, t) => Some (JNum n, t) | None => None end
      else if is_digit c then match read_number false (c :: r) with Some (n, t) => Some (JNum n, t) | None => None end
      else if c =? 34 then match read_str r with Some (x, t) => Some (JStr x, t) | None => None end
      else if c =? 91 then
        if depth <=? 1 then None
        else match skip_ws r with
             | 93 :: t => Some (JArr [], t)
             | _ => match read_elems f (depth - 1) r with Some (a, t) => Some (JArr a, t) | None => None end
             end
      else if c =? 123 then
        if depth <=? 1 then None
        else match skip_ws r with
             | 125 :: t => Some (JObj [], t)
             | _ => match read_members f (depth - 1) r [] with Some (o, t) => Some (JObj o, t) | None => None end
             end
      else None
    end.
Proof. reflexivity. Qed.
Lemma read_elems_S f depth s : read_elems (S f) depth s =
    match read_value f depth s with
    | None => None
    | Some (v, r) =>
      match skip_ws r with
      | 44 :: r => match read_elems f depth r with Some (a, t) => Some (v :: a, t) | None => None end
      | 93 :: t => Some ([v], t)
      | _ => None
      end
    end.
Proof. reflexivity. Qed.
Lemma read_members_S f depth s acc : read_members (S f) depth s acc =
    match skip_ws s with
    | 34 :: r =>
      match read_str r with
      | None => None
      | Some (k, r) =>
        match skip_ws r with
        | 58 :: r =>
          match read_value f depth r with
          | None => None
          | Some (v, r) =>
            let acc := map_insert k v acc in
            match skip_ws r with
            | 44 :: r => read_members f depth r acc
            | 125 :: t => Some (acc, t)
            | _ => None
            end
          end
        | _ => None
        end
      end
    | _ => None
    end.
Proof. reflexivity. Qed.
Definition jok (d : N) (j : json) : Prop := jwf read_fl j /\ jdepth j < d.
Lemma m93 (A : Type) (g : bytes -> option A) (h : option A) s y : match s with 93 :: r => g r | _ => h end = Some y -> (exists r, g r = Some y) \/ h = Some y.
Proof.
  destruct (N.eq_dec (hd 0 s) 93) as [E|E].
  - destruct s as [|c r]; cbn in E; [discriminate E|]. subst c. eauto.
  - rewrite match93; auto.
Qed.
Lemma m125 (A : Type) (g : bytes -> option A) (h : option A) s y : match s with 125 :: r => g r | _ => h end = Some y -> (exists r, g r = Some y) \/ h = Some y.
Proof.
  destruct (N.eq_dec (hd 0 s) 125) as [E|E].
  - destruct s as [|c r]; cbn in E; [discriminate E|]. subst c. eauto.
  - rewrite match125; auto.
Qed.
Lemma read_jok f : (forall d s j r, 1 <= d -> read_value f d s = Some (j, r) -> jok d j) /\
  (forall d s a r, 1 <= d -> read_elems f d s = Some (a, r) -> forall j, In j a -> jok d j) /\
  (forall d s acc o r, 1 <= d -> NoDup (map fst acc) -> (forall k j, In (k, j) acc -> jok d j) -> read_members f d s acc = Some (o, r) ->
     NoDup (map fst o) /\ forall k j, In (k, j) o -> jok d j).
Proof.
  induction f as [|f [IHv [IHe IHm]]]; [repeat split; intros; discriminate|]. split; [|split].
  - intros d s j r Hd. rewrite read_value_S. destruct (skip_ws s) as [|c t]; [discriminate|].
    assert (L : forall t' v, (v = JNull \/ exists b, v = JBool b) -> literal t' v t = Some (j, r) -> jok d j).
    { intros t' v Hv. unfold literal. destruct (starts_with _ _); [|discriminate]. intros [= <- <-]. destruct Hv as [-> | [b ->]]; (split; [constructor|cbn; lia]). }
    destruct (c =? 110); [apply L; auto|]. destruct (c =? 116); [apply L; eauto|]. destruct (c =? 102); [apply L; eauto|].
    destruct (c =? 45). { destruct (read_number true t) as [[n u]|] eqn:E; [|discriminate]. intros [= <- <-]. split; [eapply read_number_jwf; eauto|cbn; lia]. }
    destruct (is_digit c). { destruct (read_number false (c :: t)) as [[n u]|] eqn:E; [|discriminate]. intros [= <- <-]. split; [eapply read_number_jwf; eauto|cbn; lia]. }
    destruct (c =? 34). { destruct (read_str t) as [[x u]|]; [|discriminate]. intros [= <- <-]. split; [constructor|cbn; lia]. }
    destruct (c =? 91).
    { destruct (N.leb_spec d 1); [discriminate|]. intros E.
      apply (m93 _ (fun t => Some (JArr [], t)) (match read_elems f (d - 1) t with Some (a, t0) => Some (JArr a, t0) | None => None end)) in E as [[t' E]|E].
      - injection E as <- <-. split; [constructor; intros ? []|cbn; lia].
      - destruct (read_elems f (d - 1) t) as [[a u]|] eqn:Ea; [|discriminate]. injection E as <- <-.
        assert (Hd1 : 1 <= d - 1) by lia. pose proof (IHe _ _ _ _ Hd1 Ea) as Ha. split; [constructor; intros v I; apply Ha; auto|]. cbn [jdepth].
        enough (fold_right N.max 0 (map jdepth a) < d - 1) by lia. apply fold_max_lt; [lia|]. intros x I. apply in_map_iff in I as [w [<- I]]. apply Ha; auto. }
    destruct (c =? 123); [|discriminate].
    destruct (N.leb_spec d 1); [discriminate|]. intros E.
    apply (m125 _ (fun t => Some (JObj [], t)) (match read_members f (d - 1) t [] with Some (o, t0) => Some (JObj o, t0) | None => None end)) in E as [[t' E]|E].
    + injection E as <- <-. split; [constructor; [constructor|intros ? ? []]|cbn; lia].
    + destruct (read_members f (d - 1) t []) as [[o u]|] eqn:Eo; [|discriminate]. injection E as <- <-.
      destruct (IHm (d - 1) t [] o u ltac:(lia) ltac:(constructor) ltac:(intros ? ? []) Eo) as [Hn Ho]. split; [constructor; auto; intros k v I; eapply Ho; eauto|]. cbn [jdepth].
      enough (fold_right N.max 0 (map (fun kv => jdepth (snd kv)) o) < d - 1) by lia. apply fold_max_lt; [lia|]. intros x I. apply in_map_iff in I as [[k w] [<- I]]. eapply Ho; eauto.
  - intros d s a r Hd. rewrite read_elems_S. destruct (read_value f d s) as [[v t]|] eqn:Ev; [|intros E; discriminate E]. intros E. pose proof (IHv _ _ _ _ Hd Ev) as Hv.
    peel_num E.
    + injection E as <- <-. intros j [<-|[]]. exact Hv.
    + destruct (read_elems f d _) as [[? ?]|] eqn:Eb; [|discriminate]. injection E as <- <-. intros j [<-|I]; [exact Hv|]. eapply IHe; eauto.
  - intros d s acc o r Hd Hn Ha E. rewrite read_members_S in E. peel_num E. destruct (read_str _) as [[k t]|]; [|discriminate]. peel_num E.
    destruct (read_value f d _) as [[v u]|] eqn:Ev; [|discriminate]. pose proof (IHv _ _ _ _ Hd Ev) as Hv. cbv zeta in E.
    pose proof (map_insert_NoDup k v acc Hn) as Hn'.
    assert (Ha' : forall k' j, In (k', j) (map_insert k v acc) -> jok d j).
    { intros k' j I. apply map_insert_In in I as [I|I]; [injection I as -> ->; auto|eauto]. }
    peel_num E.
    + injection E as <- <-. split; auto.
    + eapply IHm; eauto.
Qed.
Lemma json_read_jok limit s j : 1 <= limit -> json_read_depth limit s = Some j -> jok limit j.
Proof.
  intros Hl. unfold json_read_depth. destruct (read_value _ _ _) as [[v r]|] eqn:E; [|discriminate]. destruct (skip_ws r); [|discriminate]. intros [= <-].
  exact (proj1 (read_jok _) _ _ _ _ Hl E).
Qed.
End F.

(** ** import *)
Lemma show_int_no_dot z : existsb (N.eqb 46) (show_int z) = false.
Proof.
  assert (D : forall n, existsb (N.eqb 46) (to_dec n) = false).
  { intros n. destruct (existsb (N.eqb 46) (to_dec n)) eqn:E; [|reflexivity]. apply existsb_exists in E as [c [I E]]. destruct (to_dec_int_part n) as [_ [H _]]. specialize (H c I). unfold digit in H. lia. }
  unfold show_int. destruct (z <? 0)%Z; [|apply D]. cbn [existsb]. rewrite D. reflexivity.
Qed.
Lemma to_dec_no_dot n : existsb (N.eqb 46) (to_dec n) = false.
Proof. pose proof (show_int_no_dot (Z.of_N n)) as H. unfold show_int in H. replace (Z.of_N n <? 0)%Z with false in H by lia. rewrite N2Z.id in H. exact H. Qed.
Lemma dot_iff t : existsb (N.eqb 46) t = true <-> In 46 t.
Proof. rewrite existsb_exists. split; [intros [x [I E]]; apply N.eqb_eq in E; subst; auto|intros I; exists 46; split; auto; apply N.eqb_refl]. Qed.

Fixpoint import_list (a : list json) : outcome (list data) := match a with [] => Ok [] | e :: r => v <- import e ;; l <- import_list r ;; Ok (v :: l) end.
Fixpoint import_map (o : list (bytes * json)) (acc : list (bytes * data)) : outcome (list (bytes * data)) :=
  match o with [] => Ok acc | (k, e) :: r => v <- import e ;; import_map r (map_insert k v acc) end.
Lemma import_arr a : import (JArr a) = (l <- import_list a ;; Ok (VArr l)).
Proof. reflexivity. Qed.
Lemma import_obj o : import (JObj o) = (l <- import_map o [] ;; Ok (VObj l)).
Proof. reflexivity. Qed.

(** import either panics or returns, and panics exactly on unimportable numbers *)
Lemma import_total j : (unimportable j /\ import j = Panic) \/ (~ unimportable j /\ exists v, import j = Ok v).
Proof.
  induction j as [|b|n|s|a IH|o IH] using json_ind'.
  - right. split; [inversion 1|cbn; eauto].
  - right. split; [inversion 1|cbn; eauto].
  - cbn [import]. unfold import_num. destruct n as [n|z|t]; cbn [jnum_text jnum_as_i64].
    + rewrite to_dec_no_dot. destruct (N.ltb_spec n (2 ^ 63)) as [E|E].
      * right. split; [inversion 1; subst; lia|eauto].
      * left. split; [constructor; auto|reflexivity].
    + rewrite show_int_no_dot. right. split; [inversion 1|eauto].
    + destruct (existsb (N.eqb 46) t) eqn:E.
      * right. apply dot_iff in E. split; [inversion 1; subst; tauto|eauto].
      * left. split; [|reflexivity]. constructor. intros I. apply dot_iff in I. congruence.
  - right. split; [inversion 1|cbn; eauto].
  - rewrite import_arr.
    enough (X : (unimportable (JArr a) /\ import_list a = Panic) \/ (~ unimportable (JArr a) /\ exists l, import_list a = Ok l)).
    { destruct X as [[U ->] | [U [l ->]]]; [left|right]; cbn; eauto. }
    induction IH as [|j a Hj Ha IHa].
    + right. split; [inversion 1; subst; contradiction|cbn; eauto].
    + cbn [import_list]. destruct Hj as [[U ->] | [U [v ->]]].
      * left. split; [econstructor; [left; reflexivity|auto]|reflexivity].
      * destruct IHa as [[U' ->] | [U' [l ->]]].
        -- left. split; [|reflexivity]. inversion U' as [| |? j' I Uj|]; subst. econstructor; [right; exact I|auto].
        -- right. split; [|cbn; eauto]. inversion 1 as [| |? j' I Uj|]; subst. destruct I as [<-|I]; [auto|]. apply U'. econstructor; eauto.
  - rewrite import_obj.
    enough (X : forall acc, (unimportable (JObj o) /\ import_map o acc = Panic) \/ (~ unimportable (JObj o) /\ exists l, import_map o acc = Ok l)).
    { destruct (X []) as [[U ->] | [U [l ->]]]; [left|right]; cbn; eauto. }
    induction IH as [|[k j] o Hj Ho IHo]; intros acc.
    + right. split; [inversion 1; subst; contradiction|cbn; eauto].
    + cbn [import_map snd] in *. destruct Hj as [[U ->] | [U [v ->]]].
      * left. split; [econstructor; [left; reflexivity|auto]|reflexivity].
      * cbn [obind]. destruct (IHo (map_insert k v acc)) as [[U' ->] | [U' [l ->]]].
        -- left. split; [|reflexivity]. inversion U' as [| | |? k' j' I Uj]; subst. econstructor; [right; exact I|auto].
        -- right. split; [|eauto]. inversion 1 as [| | |? k' j' I Uj]; subst. destruct I as [I|I]; [injection I as -> ->; auto|]. apply U'. econstructor; eauto.
Qed.

(** values whose floats have a '.' are imported from their own tree *)
Lemma import_tree (fl : bytes -> Prop) v : (forall t, fl t -> In 46 t) -> good fl v -> import (tree v) = Ok v.
Proof.
  intros Hfl. induction v as [|b|i|t|s|a IHa|o IHo] using value_ind'; intros G; try reflexivity.
  - inversion G; subst. cbn [tree import]. unfold import_num, jint. destruct (Z.ltb_spec i 0); cbn [jnum_text jnum_as_i64].
    + rewrite show_int_no_dot. reflexivity.
    + rewrite to_dec_no_dot. replace (Z.to_N i <? 2 ^ 63) with true. 2:{ symmetry. apply N.ltb_lt. change (2 ^ 63) with (Z.to_N (2 ^ 63)). lia. } rewrite Z2N.id by lia. reflexivity.
  - inversion G; subst. cbn [tree import]. unfold import_num. cbn [jnum_text]. rewrite (proj2 (dot_iff t)) by auto. reflexivity.
  - inversion G as [| | | | |? Ga|]; subst. cbn [tree]. rewrite import_arr.
    enough (X : import_list (map tree a) = Ok a) by (rewrite X; reflexivity). clear G.
    induction IHa as [|v a Hv Ha IH]; [reflexivity|]. cbn. rewrite Hv by (apply Ga; left; auto). rewrite IH by (intros w I; apply Ga; right; auto). reflexivity.
  - inversion G as [| | | | | |? Gn Go]; subst. cbn [tree]. rewrite import_obj.
    enough (X : forall acc, NoDup (map fst (acc ++ o)) -> import_map (map (fun kv => (fst kv, tree (snd kv))) o) acc = Ok (acc ++ o)) by (rewrite (X []) by exact Gn; reflexivity).
    clear G Gn. induction IHo as [|[k v] o Hv Ho IH]; intros acc Hn; [rewrite app_nil_r; reflexivity|]. cbn [map import_map fst snd] in *.
    rewrite Hv by (apply (Go k); left; auto). cbn [obind]. rewrite map_insert_new.
    2:{ rewrite map_app in Hn. cbn in Hn. apply NoDup_remove_2 in Hn. rewrite in_app_iff in Hn. tauto. }
    rewrite IH; [rewrite <- app_assoc; reflexivity|intros k' w I; apply (Go k'); right; auto|rewrite <- app_assoc; exact Hn].
Qed.

(** and what is imported has the same tree *)
Lemma tree_import (fl : bytes -> Prop) j : jwf fl j -> forall v, import j = Ok v -> tree v = j /\ good (fun t => fl t /\ In 46 t) v.
Proof.
  induction j as [|b|n|s|a IH|o IH] using json_ind'; intros W v.
  - intros [= <-]. split; [reflexivity|constructor].
  - intros [= <-]. split; [reflexivity|constructor].
  - cbn [import]. unfold import_num. destruct n as [n|z|t]; cbn [jnum_text jnum_as_i64].
    + rewrite to_dec_no_dot. destruct (N.ltb_spec n (2 ^ 63)) as [E|E]; [|discriminate]. intros [= <-]. cbn [tree]. unfold jint. replace (Z.of_N n <? 0)%Z with false by lia. rewrite N2Z.id. split; [reflexivity|]. constructor. change (2 ^ 63)%Z with (Z.of_N (2 ^ 63)). lia.
    + rewrite show_int_no_dot. intros [= <-]. inversion W; subst. cbn [tree]. unfold jint. replace (z <? 0)%Z with true by lia. split; [reflexivity|constructor; lia].
    + destruct (existsb (N.eqb 46) t) eqn:E; [|discriminate]. intros [= <-]. inversion W; subst. split; [reflexivity|constructor]. split; auto. apply dot_iff. auto.
  - intros [= <-]. split; [reflexivity|constructor].
  - rewrite import_arr. inversion W as [| | | | | |? Wa|]; subst. destruct (import_list a) as [l| |] eqn:El; try discriminate. intros [= <-]. cbn [tree].
    enough (X : map tree l = a /\ forall v, In v l -> good (fun t => fl t /\ In 46 t) v) by (destruct X as [<- X]; split; [reflexivity|constructor; auto]).
    clear W. revert l El. induction IH as [|j a Hj Ha IHa]; intros l.
    + intros [= <-]. split; [reflexivity|intros ? []].
    + cbn [import_list]. destruct (import j) as [v| |] eqn:Ej; try discriminate. cbn [obind]. destruct (import_list a) as [l'| |]; try discriminate. intros [= <-].
      destruct (Hj (Wa j (or_introl eq_refl)) v eq_refl) as [Tv Gv]. destruct (IHa (fun w I => Wa w (or_intror I)) l' eq_refl) as [Tl Gl].
      cbn [map]. rewrite Tv, Tl. split; [reflexivity|]. intros w [<-|I]; auto.
  - rewrite import_obj. inversion W as [| | | | | | |? Wn Wo]; subst. destruct (import_map o []) as [l| |] eqn:El; try discriminate. intros [= <-]. cbn [tree].
    enough (X : forall acc l, NoDup (map fst acc ++ map fst o) -> import_map o acc = Ok l -> exists l', l = acc ++ l' /\ map (fun kv => (fst kv, tree (snd kv))) l' = o /\ forall k v, In (k, v) l' -> good (fun t => fl t /\ In 46 t) v).
    { destruct (X [] l Wn El) as [l' [-> [<- Hg]]]. split; [reflexivity|]. constructor; [|auto]. rewrite map_map in Wn. exact Wn. }
    clear W Wn l El. induction IH as [|[k j] o Hj Ho IHo]; intros acc l Hn; cbn [import_map snd fst map] in *.
    + intros [= <-]. exists []. rewrite app_nil_r. split; [reflexivity|]. split; [reflexivity|intros ? ? []].
    + destruct (import j) as [v| |] eqn:Ej; try discriminate. cbn [obind]. rewrite map_insert_new by (apply NoDup_remove_2 in Hn; rewrite in_app_iff in Hn; tauto).
      intros E. destruct (IHo (fun k' w I => Wo k' w (or_intror I)) (acc ++ [(k, v)]) l) as [l' [-> [Tl Gl]]].
      { rewrite map_app, <- app_assoc. exact Hn. }
      { exact E. }
      destruct (Hj (Wo k j (or_introl eq_refl)) v eq_refl) as [Tv Gv].
      exists ((k, v) :: l'). rewrite <- app_assoc. split; [reflexivity|]. cbn [map fst snd]. rewrite Tv, Tl. split; [reflexivity|]. intros k' w [I|I]; [injection I as <- <-; auto|eauto].
Qed.
Lemma depth_tree v : jdepth (tree v) = depth v.
Proof.
  induction v as [|b|i|t|s|a IHa|o IHo] using value_ind'; try reflexivity.
  - cbn [tree jdepth depth]. f_equal. rewrite map_map. f_equal. apply map_ext_in. rewrite Forall_forall in IHa. auto.
  - cbn [tree jdepth depth]. f_equal. rewrite map_map. f_equal. apply map_ext_in. rewrite Forall_forall in IHo. intros kv I. apply (IHo kv I).
Qed.
Lemma tree_inj v : forall w, tree v = tree w -> v = w.
Proof.
  induction v as [|b|i|t|s|a IHa|o IHo] using value_ind'; intros [|b'|i'|t'|s'|a'|o']; cbn [tree]; try discriminate; try (unfold jint; destruct (_ <? _)%Z; discriminate).
  - reflexivity.
  - intros [= ->]. reflexivity.
  - unfold jint. destruct (Z.ltb_spec i 0), (Z.ltb_spec i' 0); intros E; try discriminate; injection E as E; f_equal; lia.
  - intros [= ->]. reflexivity.
  - intros [= ->]. reflexivity.
  - intros [= E]. f_equal. revert a' E. induction IHa as [|v a Hv Ha IH]; intros [|w a']; cbn; try discriminate; [auto|]. intros [= E1 E2]. f_equal; auto.
  - intros [= E]. f_equal. revert o' E. induction IHo as [|[k v] o Hv Ho IH]; intros [|[k' w] o']; cbn; try discriminate; [auto|]. intros [= -> E1 E2]. f_equal; [f_equal; auto|auto].
Qed.
