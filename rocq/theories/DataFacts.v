From Verif Require Import Base StdStr Data Json Spec DataDefs.
From Verif Require Import BaseFacts StdStrFacts.

(** ** induction *)
Lemma value_ind' (Q : data -> Prop) : Q VNull -> (forall b, Q (VBool b)) -> (forall i, Q (VInt i)) -> (forall t, Q (VFloat t)) -> (forall s, Q (VStr s)) ->
  (forall a, Forall Q a -> Q (VArr a)) -> (forall o, Forall (fun kv => Q (snd kv)) o -> Q (VObj o)) -> forall v, Q v.
Proof.
  intros H1 H2 H3 H4 H5 H6 H7. fix IH 1. intros [| | | | |a|o]; [exact H1|apply H2|apply H3|apply H4|apply H5| |].
  - apply H6. induction a as [|v a IHa]; constructor; [apply IH|exact IHa].
  - apply H7. induction o as [|[k v] o IHo]; constructor; [apply IH|exact IHo].
Qed.
Lemma json_ind' (Q : json -> Prop) : Q JNull -> (forall b, Q (JBool b)) -> (forall n, Q (JNum n)) -> (forall s, Q (JStr s)) ->
  (forall a, Forall Q a -> Q (JArr a)) -> (forall o, Forall (fun kv => Q (snd kv)) o -> Q (JObj o)) -> forall v, Q v.
Proof.
  intros H1 H2 H3 H4 H6 H7. fix IH 1. intros [| | | |a|o]; [exact H1|apply H2|apply H3|apply H4| |].
  - apply H6. induction a as [|v a IHa]; constructor; [apply IH|exact IHa].
  - apply H7. induction o as [|[k v] o IHo]; constructor; [apply IH|exact IHo].
Qed.

(** ** maps *)
Lemma map_get_None {A} k (o : list (bytes * A)) : map_get k o = None <-> ~ In k (map fst o).
Proof.
  induction o as [|[k' v] o IH]; cbn; [tauto|]. destruct (bytes_eqb k k') eqn:E.
  - apply bytes_eqb_eq in E. subst. split; [discriminate|tauto].
  - rewrite IH. assert (k <> k') by (intros ->; rewrite (proj2 (bytes_eqb_eq k' k') eq_refl) in E; discriminate). intuition congruence.
Qed.
Lemma map_get_In {A} k v (o : list (bytes * A)) : map_get k o = Some v -> In (k, v) o.
Proof.
  induction o as [|[k' v'] o IH]; cbn; [discriminate|]. destruct (bytes_eqb k k') eqn:E; [|auto].
  apply bytes_eqb_eq in E. subst. intros [= ->]. auto.
Qed.
Lemma In_map_get {A} k v (o : list (bytes * A)) : NoDup (map fst o) -> In (k, v) o -> map_get k o = Some v.
Proof.
  induction o as [|[k' v'] o IH]; cbn; [tauto|]. intros N [E|I]; inversion N; subst.
  - injection E as -> ->. rewrite (proj2 (bytes_eqb_eq k k) eq_refl). reflexivity.
  - destruct (bytes_eqb k k') eqn:E; [|auto]. apply bytes_eqb_eq in E. subst. exfalso. apply H1. apply (in_map fst) in I. exact I.
Qed.
Lemma map_insert_new {A} k (v : A) o : ~ In k (map fst o) -> map_insert k v o = o ++ [(k, v)].
Proof.
  induction o as [|[k' v'] o IH]; cbn; [auto|]. intros H. destruct (bytes_eqb k k') eqn:E.
  - apply bytes_eqb_eq in E. subst. tauto.
  - rewrite IH by tauto. reflexivity.
Qed.
Lemma map_insert_keys {A} k (v : A) o : In k (map fst o) -> map fst (map_insert k v o) = map fst o.
Proof.
  induction o as [|[k' v'] o IH]; cbn; [tauto|]. intros H. destruct (bytes_eqb k k') eqn:E; [reflexivity|].
  cbn. rewrite IH; auto. destruct H; auto. subst. rewrite (proj2 (bytes_eqb_eq k k) eq_refl) in E. discriminate.
Qed.
Lemma key_dec {A} k (o : list (bytes * A)) : {In k (map fst o)} + {~ In k (map fst o)}.
Proof. apply in_dec, bytes_eq_dec. Qed.
Lemma map_insert_NoDup {A} k (v : A) o : NoDup (map fst o) -> NoDup (map fst (map_insert k v o)).
Proof.
  intros H. destruct (key_dec k o) as [I|I]; [rewrite map_insert_keys; auto|].
  rewrite map_insert_new, map_app by auto. cbn. revert H I. generalize (map fst o). intros l. induction l as [|x l IH]; cbn; intros H I; [constructor; [auto|constructor]|].
  inversion H; subst. constructor; [rewrite in_app_iff; cbn in *; intuition congruence|apply IH; auto].
Qed.
Lemma map_insert_In {A} k (v : A) o x y : In (x, y) (map_insert k v o) -> (x, y) = (k, v) \/ In (x, y) o.
Proof.
  induction o as [|[k' v'] o IH]; cbn; [intros [H|[]]; auto|]. destruct (bytes_eqb k k') eqn:E; cbn; intros [H|H]; auto.
  - apply bytes_eqb_eq in E. subst. auto.
  - apply IH in H. tauto.
Qed.
Lemma map_get_insert {A} k (v : A) o k' : map_get k' (map_insert k v o) = if bytes_eqb k' k then Some v else map_get k' o.
Proof.
  induction o as [|[x y] o IH]; cbn.
  - destruct (bytes_eqb k' k); reflexivity.
  - destruct (bytes_eqb k x) eqn:E; cbn.
    + apply bytes_eqb_eq in E. subst x. destruct (bytes_eqb k' k); reflexivity.
    + rewrite IH. destruct (bytes_eqb k' x) eqn:E2; [|reflexivity]. apply bytes_eqb_eq in E2. subst x.
      destruct (bytes_eqb k' k) eqn:E3; [|reflexivity]. apply bytes_eqb_eq in E3. subst. rewrite (proj2 (bytes_eqb_eq k k) eq_refl) in E. discriminate.
Qed.
